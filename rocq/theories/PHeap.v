(** C88 and C22: Headers objects are independent of one another, and a call never touches the headers of its caller. *)
From Coq Require Import List NArith ZArith Bool String Lia.
From Verif Require Import MBase MPyStr MHeaders MView MHeap SHeaders SHeap LHeaders LWire LHeap.
Import ListNotations.

Lemma prog_inv p : forall st hs vt, inv st hs vt -> exists st', hprog_run st p = Some st'
  /\ inv st' (fst (fold_left taken_step p (hs, vt))) (snd (fold_left taken_step p (hs, vt))).
Proof.
  induction p as [|x p IH]; intros st hs vt H; [exists st; auto|]. cbn [hprog_run fold_left].
  destruct (inv_step st hs vt x H) as (st1 & -> & H1). destruct (taken_step (hs, vt) x) as [hs1 vt1] eqn:E. cbn [fst snd] in *. apply IH. exact H1.
Qed.
Lemma taken_fst p : forall hs vt, fst (fold_left taken_step p (hs, vt)) = fold_left histories_step p hs.
Proof. induction p as [|x p IH]; intros hs vt; [reflexivity|]. cbn [fold_left]. rewrite <- (IH (histories_step hs x) (snd (taken_step (hs, vt) x))). reflexivity. Qed.
Lemma inv_new : inv hstate_new [] [].
Proof.
  split; [reflexivity|]. exists (fun _ => O), (fun _ => None), (fun _ => []). split; [intros [|i] a hist E; discriminate E|]. split; [cbn; lia|constructor].
Qed.
Lemma prog_ok p : exists st, hprog_run hstate_new p = Some st /\ inv st (histories p) (views_taken p).
Proof.
  destruct (prog_inv p hstate_new [] [] inv_new) as (st & E & I). exists st. split; [exact E|]. rewrite taken_fst in I. exact I.
Qed.

(** Whatever a program does with Headers objects, every object holds what its own history says: what it was made from and the
    operations on it, whatever was done to the others, to the one it was copied from and to its copies. *)
Theorem C88_objects : forall p, exists st, hprog_run hstate_new p = Some st
  /\ List.length (hs_objs st) = List.length (histories p)
  /\ forall i hist, nth_error (histories p) i = Some hist ->
     exists a v, nth_error (hs_objs st) i = Some a
     /\ (forall k, heap_getall (hs_heap st) a k = Some (values_of hist k))
     /\ heap_allitems (hs_heap st) a = Some v /\ heap_list (hs_heap st) v = Some (all_of hist).
Proof.
  intro p. destruct (prog_ok p) as (st & E & (L & S & X & F & O & D & V)). exists st. split; [exact E|]. split; [exact L|]. intros i hist Hi.
  destruct (nth_error (hs_objs st) i) as [a|] eqn:Ha; [|apply nth_error_None in Ha; pose proof (nth_lt _ _ _ Hi); lia].
  pose proof (O i a hist Ha Hi) as Oi. destruct (allitems_at _ _ _ _ _ _ Oi) as [A1 A2]. exists a. eexists. split; [reflexivity|]. split.
  - intro k. rewrite (getall_at _ _ _ _ _ _ k Oi), getall_spec. reflexivity.
  - split; [exact A1|]. rewrite A2, all_of_run. reflexivity.
Qed.
Print Assumptions C88_objects.

(** And every view shows what C67 says of it: it depends on the history of its object alone. *)
Theorem C88_views : forall p, exists st, hprog_run hstate_new p = Some st
  /\ List.length (hs_views st) = List.length (views_taken p)
  /\ forall j i n, nth_error (views_taken p) j = Some (i, n) ->
     exists hist v, nth_error (histories p) i = Some hist /\ (n <= List.length hist)%nat /\ nth_error (hs_views st) j = Some v
     /\ let h := h_run h_empty (firstn n hist) in heap_list (hs_heap st) v = Some (view_list (view_run h (take_view h) (skipn n hist))).
Proof.
  intro p. destruct (prog_ok p) as (st & E & (L & S & X & F & O & D & V)). exists st. split; [exact E|]. split; [clear -V; induction V; cbn; auto|].
  intros j i n Hj.
  assert (Hv : exists v, nth_error (hs_views st) j = Some v /\ view_at (hs_heap st) (histories p) S X F v (i, n)).
  { clear -V Hj. revert j Hj. induction V as [|pv t vs ts H V IH]; intros [|j] Hj; try discriminate Hj; [|exact (IH j Hj)]. injection Hj as <-. exists pv. auto. }
  destruct Hv as (v & Hv & hist & Hi & Ln & M). cbn [fst snd] in *. exists hist, v. split; [exact Hi|]. split; [exact Ln|]. split; [exact Hv|]. cbv zeta.
  destruct (nth_error (hs_objs st) i) as [a|] eqn:Ha; [|apply nth_error_None in Ha; pose proof (nth_lt _ _ _ Hi); lia].
  pose proof (O i a hist Ha Hi) as (O1 & O2 & O3 & O4). unfold view_list. unfold view_now in M. rewrite view_run_fst, <- h_run_app, firstn_skipn.
  destruct v as [s|s x], (snd (view_run (h_run h_empty (firstn n hist)) (take_view (h_run h_empty (firstn n hist))) (skipn n hist))) as [|e [|]]; try contradiction; cbn [heap_list].
  - subst s. exact (the_dict_at _ _ _ O2).
  - destruct M as (-> & Mx & Me). rewrite (the_dict_at _ _ _ O2). rewrite Mx, Me in O4. destruct O4 as (m & M1 & M2 & _). rewrite (the_lists_at _ _ _ M1). now apply iter_at.
  - destruct M as (-> & m & M1 & M2 & _). rewrite (the_dict_at _ _ _ O2), (the_lists_at _ _ _ M1). now apply iter_at.
Qed.
Print Assumptions C88_views.

Lemma histories_app p q : histories (p ++ q) = fold_left histories_step q (histories p).
Proof. unfold histories. apply fold_left_app. Qed.
(** The history of an object that is not operated on stays. *)
Lemma history_kept q : forall hs i hist, nth_error hs i = Some hist -> (forall op, ~ In (HDo i op) q) -> nth_error (fold_left histories_step q hs) i = Some hist.
Proof.
  induction q as [|x q IH]; intros hs i hist E N; [exact E|]. cbn [fold_left]. apply IH; [|intros op H; apply (N op); now right].
  destruct x as [items|items|j|j|j op|j]; cbn [histories_step].
  - rewrite nth_old; [exact E|exact (nth_lt _ _ _ E)].
  - rewrite nth_old; [exact E|exact (nth_lt _ _ _ E)].
  - destruct (nth_error hs j); [|exact E]. rewrite nth_old; [exact E|exact (nth_lt _ _ _ E)].
  - destruct (nth_error hs j); [|exact E]. rewrite nth_old; [exact E|exact (nth_lt _ _ _ E)].
  - change (nth_error (histories_step hs (HDo j op)) i = Some hist). rewrite step_do_nth, E. cbn [option_map]. destruct (Nat.eqb_spec i j) as [->|]; [|reflexivity].
    exfalso. apply (N op). now left.
  - exact E.
Qed.
Lemma copied_values hist k : values_of (adds (all_of hist)) k = values_of hist k.
Proof.
  rewrite <- getall_spec. unfold adds. rewrite <- h_of_pairs_run, <- all_of_run, getall_copy by (apply h_inv_run, h_inv_empty). apply getall_spec.
Qed.

(** A call copies the headers of its caller ([HCopy]).  The caller's object [i] holds afterwards what it held, whatever is done with
    the copy (by the library, by interceptors), and the copy [j] holds what the caller's object held at the time of the call, whatever
    the caller does with their object then. *)
Theorem C22_copy : forall p i hist q, nth_error (histories p) i = Some hist ->
  let j := List.length (histories p) in
  exists st a b, hprog_run hstate_new (p ++ HCopy i :: q) = Some st /\ nth_error (hs_objs st) i = Some a /\ nth_error (hs_objs st) j = Some b /\ i <> j
  /\ ((forall op, ~ In (HDo i op) q) -> forall k, heap_getall (hs_heap st) a k = Some (values_of hist k))
  /\ ((forall op, ~ In (HDo j op) q) -> forall k, heap_getall (hs_heap st) b k = Some (values_of hist k)).
Proof.
  intros p i hist q Hi j. destruct (C88_objects (p ++ HCopy i :: q)) as (st & E & L & O). exists st. pose proof (nth_lt _ _ _ Hi) as Li.
  set (hs := histories p ++ [adds (all_of hist)]). assert (Hs : histories (p ++ HCopy i :: q) = fold_left histories_step q hs).
  { rewrite histories_app. cbn [fold_left histories_step]. now rewrite Hi. }
  assert (Hi' : nth_error hs i = Some hist) by (unfold hs; now rewrite nth_old). assert (Hj : nth_error hs j = Some (adds (all_of hist))) by apply nth_new.
  assert (Get : forall n, (n <= j)%nat -> exists h, nth_error (fold_left histories_step q hs) n = Some h).
  { intros n Ln. destruct (nth_error (fold_left histories_step q hs) n) as [h|] eqn:En; [eauto|]. exfalso. apply nth_error_None in En.
    assert (G : forall q hs, (List.length hs <= List.length (fold_left histories_step q hs))%nat).
    { clear. induction q as [|x q IH]; intro hs; [auto|]. cbn [fold_left]. refine (Nat.le_trans _ _ _ _ (IH _)).
      destruct x as [items|items|j|j|j op|j]; cbn [histories_step]; try (rewrite app_length; lia); try (destruct (nth_error hs j); [rewrite app_length; lia|lia]); [|lia].
      change (List.length hs <= List.length (histories_step hs (HDo j op)))%nat. now rewrite step_do_length. }
    specialize (G q hs). unfold hs at 1 in G. rewrite app_length in G. cbn in G. unfold j in *. lia. }
  rewrite Hs in O. destruct (Get i) as (h1 & E1); [unfold j; lia|]. destruct (Get j) as (h2 & E2); [lia|].
  destruct (O i h1 E1) as (a & va & A1 & A2 & _). destruct (O j h2 E2) as (b & vb & B1 & B2 & _). exists a, b.
  split; [exact E|]. split; [exact A1|]. split; [exact B1|]. split; [unfold j; lia|]. split.
  - intros N k. rewrite A2. rewrite (history_kept q hs i hist Hi' N) in E1. now injection E1 as <-.
  - intros N k. rewrite B2. rewrite (history_kept q hs j _ Hj N) in E2. injection E2 as <-. now rewrite copied_values.
Qed.
Print Assumptions C22_copy.

(** Finding: [Headers(other)] of a Headers object keeps the first value of each name only. *)
Theorem C88_of_refuted : exists p st a, hprog_run hstate_new p = Some st /\ p = [HPairs [(lit "a", lit "1"); (lit "a", lit "2")]; HOf 0]
  /\ nth_error (hs_objs st) 1 = Some a /\ heap_getall (hs_heap st) a (lit "a") = Some [lit "1"].
Proof. do 3 eexists. split; [|split; [reflexivity|]]; [vm_compute; reflexivity|]. repeat apply conj; vm_compute; reflexivity. Qed.
Print Assumptions C88_of_refuted.

(** A caller with a repeated header; the call copies it and sets a name; the caller changes theirs and looks at an older view. *)
Example C88_example :
  let p := [HPairs [(lit "a", lit "1"); (lit "A", lit "2")]; HView 0; HCopy 0; HDo 1 (Set_ (lit "a") (lit "9")); HDo 0 Clear; HDo 0 (Add (lit "a") (lit "5")); HDo 1 (Add (lit "a") (lit "8"))] in
  histories p = [[Add (lit "a") (lit "1"); Add (lit "A") (lit "2"); Clear; Add (lit "a") (lit "5")];
                 [Add (lit "a") (lit "1"); Add (lit "a") (lit "2"); Set_ (lit "a") (lit "9"); Add (lit "a") (lit "8")]]
  /\ views_taken p = [(0, 2)]%nat
  /\ exists st a b v, hprog_run hstate_new p = Some st /\ hs_objs st = [a; b] /\ hs_views st = [v]
     /\ heap_getall (hs_heap st) a (lit "A") = Some [lit "5"] /\ heap_getall (hs_heap st) b (lit "a") = Some [lit "9"; lit "8"]
     /\ heap_list (hs_heap st) v = Some [(lit "a", lit "5"); (lit "a", lit "2")].
Proof. cbv zeta. split; [vm_compute; reflexivity|]. split; [vm_compute; reflexivity|]. do 4 eexists. split; [vm_compute; reflexivity|]. repeat apply conj; vm_compute; reflexivity. Qed.
