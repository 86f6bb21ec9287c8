(** Lemmas about [MHeap]: Headers objects own their dictionaries and lists. *)
From Coq Require Import List NArith ZArith Bool Lia.
From Verif Require Import MBase MPyStr MHeaders MView MHeap SHeaders SHeap LHeaders.
Import ListNotations.

(** ** Heaps *)
Lemma hset_length : forall h a c, List.length (hset h a c) = List.length h.
Proof. induction h as [|x h IH]; intros [|a] c; cbn; auto. Qed.
Lemma nth_hset_eq : forall h a c, (a < List.length h)%nat -> nth_error (hset h a c) a = Some c.
Proof. induction h as [|x h IH]; intros [|a] c H; cbn in *; try lia; auto. apply IH. lia. Qed.
Lemma nth_hset_ne : forall h a b c, b <> a -> nth_error (hset h a c) b = nth_error h b.
Proof. induction h as [|x h IH]; intros [|a] [|b] c H; cbn; auto; try congruence. Qed.
Lemma nth_lt {X} (l : list X) n x : nth_error l n = Some x -> (n < List.length l)%nat.
Proof. intro H. apply nth_error_Some. congruence. Qed.
Lemma nth_old {X} (l r : list X) n : (n < List.length l)%nat -> nth_error (l ++ r) n = nth_error l n.
Proof. intro. now apply nth_error_app1. Qed.
Lemma nth_new {X} (l : list X) x : nth_error (l ++ [x]) (List.length l) = Some x.
Proof. rewrite nth_error_app2, Nat.sub_diag by lia. reflexivity. Qed.

(** ** One object *)
Definition lists_at (h : heap) (m : dict nat) (e : dict (list pystr)) : Prop :=
  Forall2 (fun ml el => fst ml = fst el /\ nth_error h (snd ml) = Some (CList (snd el))) m e.
Definition obj_at (h : heap) (a s : nat) (xo : option nat) (c : headers) (fp : list nat) : Prop :=
  nth_error h a = Some (CObj s xo) /\ nth_error h s = Some (CDict (h_store c)) /\ NoDup fp
  /\ match xo, h_extra c with
     | None, None => fp = [a; s]
     | Some x, Some e => exists m, nth_error h x = Some (CLists m) /\ lists_at h m e /\ fp = a :: s :: x :: map snd m
     | _, _ => False
     end.

Lemma lists_frame h h' m e : (forall b, In b (map snd m) -> nth_error h' b = nth_error h b) -> lists_at h m e -> lists_at h' m e.
Proof.
  intros F L. induction L as [|x y m e [K V] L IH]; constructor.
  - split; [exact K|]. rewrite F; [exact V|now left].
  - apply IH. intros b Hb. apply F. now right.
Qed.
Lemma obj_frame h h' a s xo c fp : (forall b, In b fp -> nth_error h' b = nth_error h b) -> obj_at h a s xo c fp -> obj_at h' a s xo c fp.
Proof.
  intros F (A & D & N & X). destruct xo as [x|], (h_extra c) as [e|] eqn:E; try contradiction.
  - destruct X as (m & M & L & ->). unfold obj_at. rewrite E, !F by (cbn; auto). repeat split; auto. exists m. repeat split; auto.
    revert L. apply lists_frame. intros b Hb. apply F. cbn. auto.
  - subst fp. unfold obj_at. rewrite E, !F by (cbn; auto). auto.
Qed.
Lemma lists_lt h m e b : lists_at h m e -> In b (map snd m) -> (b < List.length h)%nat.
Proof. intros L. induction L as [|x y m e [K V] L IH]; intros H; [contradiction|]. destruct H as [<-|H]; [exact (nth_lt _ _ _ V)|auto]. Qed.
Lemma obj_lt h a s xo c fp b : obj_at h a s xo c fp -> In b fp -> (b < List.length h)%nat.
Proof.
  intros (A & D & N & X) H. destruct xo as [x|], (h_extra c) as [e|] eqn:E; try contradiction.
  - destruct X as (m & M & L & ->). destruct H as [<-|[<-|[<-|H]]]; eauto using nth_lt, lists_lt.
  - subst fp. destruct H as [<-|[<-|[]]]; eauto using nth_lt.
Qed.
Lemma obj_in h a s xo c fp : obj_at h a s xo c fp -> In a fp /\ In s fp /\ a <> s.
Proof.
  intros (A & D & N & X). assert (a <> s) by (intros ->; congruence).
  destruct xo as [x|], (h_extra c) as [e|] eqn:E; try contradiction; [destruct X as (m & M & L & ->)|subst fp]; cbn; auto.
Qed.

(** ** Dictionaries of lists *)
Lemma lists_get h m e k : lists_at h m e ->
  match dget m k with Some l => exists vs, dget e k = Some vs /\ nth_error h l = Some (CList vs) /\ In l (map snd m) | None => dget e k = None end.
Proof.
  intros L. induction L as [|[k1 l] [k2 vs] m e [K V] L IH]; [reflexivity|]. cbn [fst snd] in *. subst k2. cbn [dget map snd].
  destruct (str_eqb k1 k); [exists vs; auto with datatypes|]. destruct (dget m k); [|exact IH]. destruct IH as (ws & ? & ? & ?). exists ws. cbn. auto.
Qed.
Lemma lists_append h m e k l vs v : lists_at h m e -> NoDup (map snd m) -> dget m k = Some l -> dget e k = Some vs ->
  lists_at (hset h l (CList (vs ++ [v]))) m (dset e k (vs ++ [v])).
Proof.
  intros L. induction L as [|[k1 l1] [k2 ws] m e [K V] L IH]; intros N G E; [discriminate G|]. cbn [fst snd] in *. subst k2. cbn [dget dset map snd] in *.
  inversion N; subst. destruct (str_eqb k1 k).
  - injection G as ->. injection E as ->. constructor; [split; [reflexivity|]; cbn [snd]; apply nth_hset_eq; exact (nth_lt _ _ _ V)|].
    revert L. apply lists_frame. intros b Hb. apply nth_hset_ne. congruence.
  - constructor; [split; [reflexivity|]; cbn [snd]|apply IH; auto]. rewrite nth_hset_ne; [exact V|]. intros ->.
    pose proof (lists_get _ _ _ k L) as H. rewrite G in H. destruct H as (? & ? & ? & H). contradiction.
Qed.
Lemma lists_grow h m e k l vs : lists_at h m e -> dget m k = None -> nth_error h l = Some (CList vs) ->
  lists_at h (dset m k l) (dset e k vs) /\ map snd (dset m k l) = map snd m ++ [l].
Proof.
  intros L. induction L as [|[k1 l1] [k2 ws] m e [K V] L IH]; intros G E.
  - split; [repeat constructor; exact E|reflexivity].
  - cbn [fst snd] in *. subst k2. cbn [dget dset map snd] in *. destruct (str_eqb k1 k); [discriminate G|].
    destruct (IH G E) as [A B]. split; [constructor; [split; [reflexivity|exact V]|exact A]|]. cbn [map snd List.app]. now rewrite B.
Qed.
Lemma lists_shrink h m e k : lists_at h m e -> lists_at h (ddel m k) (ddel e k) /\ incl (map snd (ddel m k)) (map snd m)
  /\ (NoDup (map snd m) -> NoDup (map snd (ddel m k))).
Proof.
  intros L. induction L as [|[k1 l1] [k2 ws] m e [K V] L (A & B & C)]; [repeat split; [constructor|intros b []|auto]|].
  cbn [fst snd] in *. subst k2. cbn [ddel map snd]. destruct (str_eqb k1 k).
  - split; [exact L|]. split; [apply incl_tl, incl_refl|]. intro N. now inversion N.
  - split; [constructor; [split; [reflexivity|exact V]|exact A]|]. cbn [map snd]. split; [intros b [<-|H]; [now left|right; now apply B]|].
    intro N. inversion N; subst. constructor; [intro H; apply H1, B, H|auto].
Qed.

(** ** Operations *)
(** What an operation on the object at [a] leaves alone: everything of before that the object does not own, and the dictionary
    of lists that it lets go. *)
Definition stays (h h' : heap) (a s : nat) (xo xo' : option nat) (fp fp' : list nat) : Prop :=
  (forall b, In b fp' -> In b fp \/ (List.length h <= b)%nat)
  /\ (forall b, (b < List.length h)%nat -> ~ In b fp -> nth_error h' b = nth_error h b)
  /\ (List.length h <= List.length h')%nat
  /\ match xo, xo' with
     | Some x, Some x' => x = x'
     | Some x, None => forall b, In b fp -> b <> a -> b <> s -> nth_error h' b = nth_error h b /\ ~ In b fp'
     | None, _ => True
     end.

Lemma the_obj_at h a s xo : nth_error h a = Some (CObj s xo) -> the_obj h a = Some (s, xo).
Proof. unfold the_obj. now intros ->. Qed.
Lemma the_dict_at h a d : nth_error h a = Some (CDict d) -> the_dict h a = Some d.
Proof. unfold the_dict. now intros ->. Qed.
Lemma the_lists_at h a d : nth_error h a = Some (CLists d) -> the_lists h a = Some d.
Proof. unfold the_lists. now intros ->. Qed.
Lemma the_list_at h a d : nth_error h a = Some (CList d) -> the_list h a = Some d.
Proof. unfold the_list. now intros ->. Qed.

(** The store alone changes. *)
Lemma store_ok h a s xo c fp d : obj_at h a s xo c fp ->
  obj_at (hset h s (CDict d)) a s xo (mk_headers d (h_extra c)) fp /\ stays h (hset h s (CDict d)) a s xo xo fp fp.
Proof.
  intros O. pose proof (obj_in _ _ _ _ _ _ O) as (Ia & Is & As). destruct O as (A & D & N & X). pose proof (nth_lt _ _ _ D) as Ls. split.
  - unfold obj_at. cbn [h_store h_extra]. rewrite nth_hset_ne, nth_hset_eq by auto. repeat split; auto.
    destruct xo as [x|], (h_extra c) as [e|]; try contradiction; auto. destruct X as (m & M & L & ->). exists m.
    inversion_clear N as [|? ? N1 N2]. inversion_clear N2 as [|? ? N3 N4]. rewrite nth_hset_ne by (intros ->; apply N3; now left).
    repeat split; auto. revert L. apply lists_frame. intros b Hb. apply nth_hset_ne. intros ->. apply N3. now right.
  - split; [auto|]. split; [|split; [rewrite hset_length; lia|destruct xo; auto]]. intros b _ Hb. apply nth_hset_ne. intros ->. contradiction.
Qed.

Lemma pop_ok h a s xo c fp k : obj_at h a s xo c fp ->
  exists h' fp', heap_pop h xo k = Some h' /\ obj_at h' a s xo (mk_headers (h_store c) (extra_pop (h_extra c) k)) fp' /\ stays h h' a s xo xo fp fp'.
Proof.
  intros O. pose proof O as (A & D & N & X). destruct xo as [x|], (h_extra c) as [e|] eqn:E; try contradiction.
  - destruct X as (m & M & L & ->). cbn [heap_pop extra_pop]. rewrite (the_lists_at _ _ _ M).
    inversion_clear N as [|? ? N1 N2]. inversion_clear N2 as [|? ? N3 N4]. inversion_clear N4 as [|? ? N5 N6].
    destruct (lists_shrink _ _ _ k L) as (L' & I' & N'). eexists. exists (a :: s :: x :: map snd (ddel m k)). split; [reflexivity|]. split; [|split; [|split; [|split]]].
    + unfold obj_at. cbn [h_store h_extra]. rewrite !nth_hset_ne by (intros ->; first [apply N1; cbn; now auto|apply N3; cbn; now auto]).
      split; [assumption|]. split; [assumption|]. split.
      * constructor; [intros [H|[H|H]]; apply N1; cbn; auto; right; right; now apply I'|].
        constructor; [intros [H|H]; apply N3; cbn; auto; right; now apply I'|]. constructor; [intro H; now apply N5, I'|auto].
      * exists (ddel m k). rewrite nth_hset_eq by exact (nth_lt _ _ _ M). repeat split. revert L'. apply lists_frame. intros b Hb. apply nth_hset_ne. intros ->. now apply N5, I'.
    + intros b [H|[H|[H|H]]]; left; cbn; auto 6.
    + intros b _ Hb. apply nth_hset_ne. intros ->. apply Hb. cbn. auto.
    + rewrite hset_length. lia.
    + reflexivity.
  - exists h, fp. cbn [heap_pop extra_pop]. split; [reflexivity|]. split; [unfold obj_at; cbn [h_store h_extra]; auto|]. unfold stays. auto.
Qed.

Lemma stays_trans h h1 h2 a s xo fp fp1 fp2 : stays h h1 a s xo xo fp fp1 -> stays h1 h2 a s xo xo fp1 fp2 ->
  (forall b, In b fp1 -> In b fp) -> stays h h2 a s xo xo fp fp2.
Proof.
  intros (A1 & B1 & C1 & _) (A2 & B2 & C2 & _) I. split; [|split; [|split; [lia|destruct xo; auto]]].
  - intros b Hb. destruct (A2 b Hb) as [H|H]; [left; auto|right; lia].
  - intros b Lb Nb. rewrite B2; [apply B1; auto|lia|]. intro H. apply Nb, I, H.
Qed.

Lemma add_ok h a s xo c fp k v : obj_at h a s xo c fp ->
  exists h' xo' fp', heap_add h a k v = Some h' /\ obj_at h' a s xo' (h_add c k v) fp' /\ stays h h' a s xo xo' fp fp'.
Proof.
  intros O. pose proof (obj_in _ _ _ _ _ _ O) as (Ia & Is & As). pose proof O as (A & D & N & X). pose proof (nth_lt _ _ _ A) as La. pose proof (nth_lt _ _ _ D) as Ls.
  unfold heap_add, h_add. rewrite (the_obj_at _ _ _ _ A), (the_dict_at _ _ _ D). destruct (dmem (h_store c) (lower k)) eqn:K.
  2: { eexists _, _, _. split; [reflexivity|]. apply store_ok. exact O. }
  destruct xo as [x|], (h_extra c) as [e|] eqn:E; try contradiction.
  - destruct X as (m & M & L & ->). pose proof (nth_lt _ _ _ M) as Lx. rewrite (the_lists_at _ _ _ M). pose proof (lists_get _ _ _ (lower k) L) as G.
    pose proof N as N0. inversion_clear N as [|? ? N1 N2]. inversion_clear N2 as [|? ? N3 N4]. inversion_clear N4 as [|? ? N5 N6]. destruct (dget m (lower k)) as [l|] eqn:Gm.
    + destruct G as (vs & Ge & Gl & Il). rewrite (the_list_at _ _ _ Gl), Ge. pose proof (nth_lt _ _ _ Gl) as Ll.
      assert (P : forall b, b <> l -> nth_error (hset h l (CList (vs ++ [v]))) b = nth_error h b) by (intros; now apply nth_hset_ne).
      assert (a <> l) by (intros ->; apply N1; cbn; auto). assert (s <> l) by (intros ->; apply N3; cbn; auto). assert (x <> l) by (intros ->; now apply N5).
      eexists _, (Some x), _. split; [reflexivity|]. split; [|split; [|split; [|split]]].
      * unfold obj_at. cbn [h_store h_extra]. rewrite !P by auto. repeat split; [assumption|assumption|exact N0|]. exists m. repeat split; [assumption|].
        now apply lists_append.
      * auto.
      * intros b _ Hb. apply P. intros ->. apply Hb. cbn. auto.
      * rewrite hset_length. lia.
      * reflexivity.
    + cbn [halloc]. rewrite G. set (l := List.length h). assert (Ml : ~ In l (map snd m)) by (intro H; pose proof (lists_lt _ _ _ _ L H); unfold l in *; lia).
      unfold l in *. clear l. unfold the_list. rewrite nth_hset_ne, nth_new by lia. cbn [List.app].
      eexists _, (Some x), (a :: s :: x :: map snd m ++ [List.length h]). split; [reflexivity|]. split; [|split; [|split; [|split]]].
      * set (h1 := hset h x (CLists [])). unfold obj_at. cbn [h_store h_extra].
        assert (P : forall b, b <> x -> (b < List.length h)%nat ->
          nth_error (hset (hset (h ++ [CList []]) x (CLists (dset m (lower k) (List.length h)))) (List.length h) (CList [v])) b = nth_error h b).
        { intros b Hx Hl. rewrite nth_hset_ne by lia. rewrite nth_hset_ne by auto. now apply nth_old. }
        assert (a <> x) by (intros ->; apply N1; cbn; auto). assert (s <> x) by (intros ->; apply N3; cbn; auto).
        rewrite !P by auto. repeat split; [assumption|assumption| |].
        -- constructor; [intros [H1|[H1|H1]]; [apply N1; cbn; auto|apply N1; cbn; auto|]|].
           { apply in_app_or in H1 as [H1|[H1|[]]]; [apply N1; cbn; auto|lia]. }
           constructor; [intros [H1|H1]; [apply N3; cbn; auto|]|].
           { apply in_app_or in H1 as [H1|[H1|[]]]; [apply N3; cbn; auto|lia]. }
           constructor; [intros H1; apply in_app_or in H1 as [H1|[H1|[]]]; [now apply N5|lia]|].
           clear -N6 Ml. induction (map snd m) as [|y l IH]; cbn; [constructor; [auto|constructor]|]. inversion_clear N6. constructor; [|apply IH; auto; intro; apply Ml; now right].
           intro H1. apply in_app_or in H1 as [H1|[H1|[]]]; [contradiction|]. apply Ml. now left.
        -- set (h2 := hset (hset (h ++ [CList []]) x (CLists (dset m (lower k) (List.length h)))) (List.length h) (CList [v])) in *.
           assert (Vl : nth_error h2 (List.length h) = Some (CList [v])) by (apply nth_hset_eq; rewrite hset_length, app_length; cbn; lia).
           assert (L2 : lists_at h2 m e). { pose proof L as L0. revert L. apply lists_frame. intros b Hb. apply P; [intros ->; now apply N5|]. exact (lists_lt _ _ _ _ L0 Hb). }
           destruct (lists_grow h2 m e (lower k) (List.length h) [v] L2 Gm Vl) as [L3 S3].
           exists (dset m (lower k) (List.length h)). split; [|split; [exact L3|now rewrite S3]].
           unfold h2. rewrite nth_hset_ne by lia. apply nth_hset_eq. rewrite app_length. cbn. lia.
      * intros b [H|[H|[H|H]]]; try (left; cbn; now auto). apply in_app_or in H as [H|[<-|[]]]; [left; cbn; auto|right; lia].
      * intros b Lb Nb. rewrite nth_hset_ne by lia. rewrite nth_hset_ne by (intros ->; apply Nb; cbn; auto). now apply nth_old.
      * rewrite !hset_length, app_length. lia.
      * reflexivity.
  - subst fp. cbn [halloc]. unfold the_lists. rewrite nth_hset_ne, nth_new by lia. cbn [dget]. rewrite hset_length, app_length. cbn [List.length].
    set (n := List.length h). set (h1 := hset (h ++ [CLists []]) a (CObj s (Some n))). assert (L1 : List.length h1 = S n) by (unfold h1; rewrite hset_length, app_length; cbn; lia).
    replace (n + 1)%nat with (S n) by lia. unfold the_list. rewrite nth_hset_ne by lia. rewrite <- L1. rewrite nth_new. cbn [dset List.app].
    set (h3 := hset (hset (h1 ++ [CList []]) n (CLists [(lower k, List.length h1)])) (List.length h1) (CList [v])).
    assert (V1 : forall b, b <> a -> (b < n)%nat -> nth_error h3 b = nth_error h b).
    { intros b Hb Lb. unfold h3. rewrite !nth_hset_ne by lia. rewrite nth_old by lia. unfold h1. rewrite nth_hset_ne by auto. now apply nth_old. }
    eexists _, (Some n), [a; s; n; List.length h1]. split; [reflexivity|]. split; [|split; [|split; [|split]]].
    + unfold obj_at. cbn [h_store h_extra]. split.
      { unfold h3. rewrite !nth_hset_ne by lia. rewrite nth_old by lia. unfold h1. apply nth_hset_eq. rewrite app_length. cbn. lia. }
      split; [rewrite V1 by auto; exact D|]. split.
      { rewrite L1. repeat constructor; cbn; lia. }
      exists [(lower k, List.length h1)]. split; [unfold h3; rewrite nth_hset_ne by lia; apply nth_hset_eq; rewrite app_length; cbn; lia|].
      split; [|reflexivity]. constructor; [|constructor]. split; [reflexivity|]. cbn [snd]. unfold h3. apply nth_hset_eq. rewrite hset_length, app_length. cbn. lia.
    + intros b [H|[H|[H|[H|[]]]]]; [left; cbn; auto|left; cbn; auto|right; lia|right; lia].
    + intros b Lb Nb. apply V1; [intros ->; apply Nb; cbn; auto|exact Lb].
    + unfold h3. rewrite !hset_length, app_length. lia.
    + exact I.
Qed.

Lemma do_ok h a s xo c fp op : obj_at h a s xo c fp ->
  exists h' xo' fp', heap_do h a op = Some h' /\ obj_at h' a s xo' (h_exec c op) fp' /\ stays h h' a s xo xo' fp fp'.
Proof.
  intros O. destruct op as [k v|k v|k|]; cbn [heap_do h_exec].
  - apply add_ok. exact O.
  - pose proof O as (A & D & _). unfold heap_set, h_setitem. rewrite (the_obj_at _ _ _ _ A), (the_dict_at _ _ _ D).
    destruct (store_ok h a s xo c fp (dset (h_store c) (lower k) v) O) as [O1 S1]. destruct (pop_ok _ _ _ _ _ _ (lower k) O1) as (h' & fp' & E & O2 & S2).
    exists h', xo, fp'. split; [exact E|]. split; [exact O2|]. exact (stays_trans _ _ _ _ _ _ _ _ _ S1 S2 (fun b H => H)).
  - pose proof O as (A & D & _). unfold heap_del, h_delitem. rewrite (the_obj_at _ _ _ _ A), (the_dict_at _ _ _ D).
    destruct (dmem (h_store c) (lower k)); [|exists h, xo, fp; split; [reflexivity|]; split; [exact O|]; unfold stays; destruct xo; auto].
    destruct (store_ok h a s xo c fp (ddel (h_store c) (lower k)) O) as [O1 S1]. destruct (pop_ok _ _ _ _ _ _ (lower k) O1) as (h' & fp' & E & O2 & S2).
    exists h', xo, fp'. split; [exact E|]. split; [exact O2|]. exact (stays_trans _ _ _ _ _ _ _ _ _ S1 S2 (fun b H => H)).
  - pose proof (obj_in _ _ _ _ _ _ O) as (Ia & Is & As). pose proof O as (A & D & N & X). unfold heap_clear, h_clear. rewrite (the_obj_at _ _ _ _ A), (the_dict_at _ _ _ D).
    pose proof (nth_lt _ _ _ A). pose proof (nth_lt _ _ _ D).
    assert (P : forall b, b <> a -> b <> s -> nth_error (hset (hset h s (CDict [])) a (CObj s None)) b = nth_error h b) by (intros; now rewrite !nth_hset_ne).
    eexists _, None, [a; s]. split; [reflexivity|]. split; [|split; [|split; [|split]]].
    + unfold obj_at. cbn [h_store h_extra]. rewrite nth_hset_eq by (rewrite hset_length; auto). rewrite nth_hset_ne, nth_hset_eq by auto. repeat split.
      constructor; [intros [H1|[]]; congruence|]. constructor; [intros []|constructor].
    + intros b [<-|[<-|[]]]; left; auto.
    + intros b _ Hb. apply P; intros ->; contradiction.
    + rewrite !hset_length. lia.
    + destruct xo; [|exact I]. intros b _ H1 H2. split; [now apply P|]. intros [H3|[H3|[]]]; congruence.
Qed.

(** ** Reading *)
Lemma iter_at h m e : lists_at h m e -> forall d, iter_items h m d = Some (all_items_iter d (Some e)).
Proof.
  intros L. induction d as [|[k v] d IH]; [reflexivity|]. cbn [iter_items all_items_iter flat_map]. unfold heap_extra. pose proof (lists_get _ _ _ k L) as G.
  destruct (dget m k) as [l|].
  - destruct G as (vs & -> & Gl & _). rewrite (the_list_at _ _ _ Gl), IH. reflexivity.
  - rewrite G, IH. reflexivity.
Qed.
Lemma allitems_at h a s xo c fp : obj_at h a s xo c fp ->
  heap_allitems h a = Some (match xo with None => PvItems s | Some x => PvAll s x end)
  /\ heap_list h (match xo with None => PvItems s | Some x => PvAll s x end) = Some (h_allitems c).
Proof.
  intros (A & D & N & X). unfold heap_allitems. rewrite (the_obj_at _ _ _ _ A). split; [reflexivity|]. unfold h_allitems.
  destruct xo as [x|], (h_extra c) as [e|]; try contradiction; cbn [heap_list].
  - destruct X as (m & M & L & _). rewrite (the_dict_at _ _ _ D), (the_lists_at _ _ _ M). now apply iter_at.
  - exact (the_dict_at _ _ _ D).
Qed.
Lemma getall_at h a s xo c fp k : obj_at h a s xo c fp -> heap_getall h a k = Some (h_getall c k).
Proof.
  intros (A & D & N & X). unfold heap_getall, h_getall. rewrite (the_obj_at _ _ _ _ A), (the_dict_at _ _ _ D).
  destruct (dget (h_store c) (lower k)) as [v|]; [|reflexivity]. destruct xo as [x|], (h_extra c) as [e|]; try contradiction; [|reflexivity].
  destruct X as (m & M & L & _). rewrite (the_lists_at _ _ _ M). unfold heap_extra. pose proof (lists_get _ _ _ (lower k) L) as G. destruct (dget m (lower k)) as [l|].
  - destruct G as (vs & -> & Gl & _). now rewrite (the_list_at _ _ _ Gl).
  - now rewrite G.
Qed.

(** ** New objects *)
Definition fresh (h h' : heap) (fp : list nat) : Prop :=
  (forall b, In b fp -> (List.length h <= b)%nat) /\ (forall b, (b < List.length h)%nat -> nth_error h' b = nth_error h b) /\ (List.length h <= List.length h')%nat.

Lemma adds_ok h0 items : forall h a s xo c fp, obj_at h a s xo c fp -> fresh h0 h fp ->
  exists h' xo' fp', add_pairs h a items = Some h' /\ obj_at h' a s xo' (fold_left (fun h kv => h_add h (fst kv) (snd kv)) items c) fp' /\ fresh h0 h' fp'.
Proof.
  induction items as [|[k v] items IH]; intros h a s xo c fp O F; [exists h, xo, fp; auto|]. cbn [add_pairs fold_left fst snd].
  destruct (add_ok h a s xo c fp k v O) as (h1 & xo1 & fp1 & E & O1 & (S1 & S2 & S3 & _)). rewrite E.
  apply (IH h1 a s xo1 (h_add c k v) fp1 O1). destruct F as (F1 & F2 & F3). split; [|split; [|lia]].
  - intros b Hb. destruct (S1 b Hb) as [H|H]; [auto|lia].
  - intros b Lb. rewrite S2; [auto|lia|]. intro H. specialize (F1 b H). lia.
Qed.
Lemma new_obj h d : let '(h1, s) := halloc h (CDict d) in let '(h2, a) := halloc h1 (CObj s None) in
  obj_at h2 a s None (mk_headers d None) [a; s] /\ fresh h h2 [a; s].
Proof.
  cbn [halloc]. split.
  - unfold obj_at. cbn [h_store h_extra]. rewrite nth_new, app_length. cbn [List.length]. rewrite (nth_old (h ++ [CDict d])) by (rewrite app_length; cbn; lia). rewrite nth_new.
    repeat split. constructor; [intros [H|[]]; lia|]. constructor; [intros []|constructor].
  - rewrite app_length. cbn [List.length]. split; [intros b [<-|[<-|[]]]; lia|]. split; [|rewrite !app_length; cbn; lia].
    intros b Lb. rewrite nth_old by (rewrite app_length; cbn; lia). now apply nth_old.
Qed.
Lemma pairs_ok h items : exists h' a s xo fp, heap_pairs h items = Some (h', a) /\ obj_at h' a s xo (h_of_pairs items) fp /\ fresh h h' fp.
Proof.
  unfold heap_pairs. pose proof (new_obj h []) as N. destruct (halloc h (CDict [])) as [h1 s]. destruct (halloc h1 (CObj s None)) as [h2 a]. destruct N as [O F].
  destruct (adds_ok h items h2 a s None _ _ O F) as (h' & xo & fp & E & O' & F'). rewrite E. eauto 10.
Qed.
Lemma mapping_ok h items : exists h' a s xo fp, heap_mapping h items = Some (h', a) /\ obj_at h' a s xo (h_of_mapping items) fp /\ fresh h h' fp.
Proof.
  unfold heap_mapping, h_of_mapping. set (d := fold_left (fun d kv => dset d (lower (fst kv)) (snd kv)) items []). pose proof (new_obj h d) as N. destruct (halloc h (CDict d)) as [h1 s].
  destruct (halloc h1 (CObj s None)) as [h2 a]. destruct N as [O F]. eauto 10.
Qed.

(** ** Programs *)
(** What a view shows of an object with history [hist] when it was taken after [n] operations. *)
Definition view_now (hist : list hop) (n : nat) : view :=
  snd (view_run (h_run h_empty (firstn n hist)) (take_view (h_run h_empty (firstn n hist))) (skipn n hist)).

(** The views: of the dictionaries of their object, or of a dictionary of lists that no object owns any more. *)
Definition view_at (h : heap) (hs : list (list hop)) (S : nat -> nat) (X : nat -> option nat) (F : nat -> list nat) (pv : pyview) (t : nat * nat) : Prop :=
  exists hist, nth_error hs (fst t) = Some hist /\ (snd t <= List.length hist)%nat
  /\ match pv, view_now hist (snd t) with
     | PvItems s, VStore => s = S (fst t)
     | PvAll s x, VAll e true => s = S (fst t) /\ X (fst t) = Some x /\ h_extra (h_run h_empty hist) = Some e
     | PvAll s x, VAll e false => s = S (fst t) /\ exists m, nth_error h x = Some (CLists m) /\ lists_at h m e
         /\ forall j b, (j < List.length hs)%nat -> In b (x :: map snd m) -> ~ In b (F j)
     | _, _ => False
     end.
Definition inv (st : hstate) (hs : list (list hop)) (vt : list (nat * nat)) : Prop :=
  List.length (hs_objs st) = List.length hs
  /\ exists (S : nat -> nat) (X : nat -> option nat) (F : nat -> list nat),
       (forall i a hist, nth_error (hs_objs st) i = Some a -> nth_error hs i = Some hist -> obj_at (hs_heap st) a (S i) (X i) (h_run h_empty hist) (F i))
       /\ (forall i j b, (i < List.length hs)%nat -> (j < List.length hs)%nat -> In b (F i) -> In b (F j) -> i = j)
       /\ Forall2 (view_at (hs_heap st) hs S X F) (hs_views st) vt.

Lemma step_do_length hs i op : List.length (histories_step hs (HDo i op)) = List.length hs.
Proof. cbn [histories_step]. rewrite map_length, combine_length, seq_length. lia. Qed.
Lemma nth_combine_seq {X} : forall (l : list X) o i, nth_error (combine (seq o (List.length l)) l) i = option_map (fun x => ((o + i)%nat, x)) (nth_error l i).
Proof.
  induction l as [|x l IH]; intros o [|i]; try reflexivity; cbn [List.length seq combine nth_error option_map].
  - now rewrite Nat.add_0_r.
  - rewrite IH. destruct (nth_error l i); cbn; [|reflexivity]. now replace (o + S i)%nat with (S o + i)%nat by lia.
Qed.
Lemma step_do_nth hs i op j : nth_error (histories_step hs (HDo i op)) j = option_map (fun hist => if Nat.eqb j i then hist ++ [op] else hist) (nth_error hs j).
Proof. cbn [histories_step]. rewrite nth_error_map, nth_combine_seq. destruct (nth_error hs j); reflexivity. Qed.

Lemma h_run_app h a b : h_run h (a ++ b) = h_run (h_run h a) b.
Proof. unfold h_run. apply fold_left_app. Qed.
Lemma view_run_last ops op : forall h v, view_run h v (ops ++ [op]) = (h_exec (fst (view_run h v ops)) op, view_exec (fst (view_run h v ops)) (snd (view_run h v ops)) op).
Proof. induction ops as [|x ops IH]; intros h v; [reflexivity|]. cbn [List.app view_run]. apply IH. Qed.
Lemma view_run_fst ops : forall h v, fst (view_run h v ops) = h_run h ops.
Proof. induction ops as [|op ops IH]; intros h v; [reflexivity|]. cbn [view_run]. now rewrite IH. Qed.
Lemma view_now_step hist n op : (n <= List.length hist)%nat -> view_now (hist ++ [op]) n = view_exec (h_run h_empty hist) (view_now hist n) op.
Proof.
  intro L. unfold view_now. rewrite firstn_app, skipn_app. replace (n - List.length hist)%nat with O by lia. cbn [firstn skipn]. rewrite app_nil_r, view_run_last. cbn [snd].
  rewrite view_run_fst, <- h_run_app, firstn_skipn. reflexivity.
Qed.
Lemma view_now_new hist : view_now hist (List.length hist) = take_view (h_run h_empty hist).
Proof. unfold view_now. rewrite firstn_all, skipn_all. reflexivity. Qed.

Lemma nth_error_ext_list {X} : forall l l' : list X, (forall j, nth_error l j = nth_error l' j) -> l = l'.
Proof.
  induction l as [|x l IH]; intros [|y l'] H; auto; try (specialize (H O); discriminate H).
  pose proof (H O) as H0. injection H0 as ->. f_equal. apply IH. intro j. exact (H (S j)).
Qed.
Definition upd {X} (f : nat -> X) (i : nat) (x : X) : nat -> X := fun j => if Nat.eqb j i then x else f j.
Lemma upd_eq {X} (f : nat -> X) i x : upd f i x i = x.
Proof. unfold upd. now rewrite Nat.eqb_refl. Qed.
Lemma upd_ne {X} (f : nat -> X) i j x : j <> i -> upd f i x j = f j.
Proof. intro H. unfold upd. now rewrite (proj2 (Nat.eqb_neq j i)). Qed.

(** A new object disturbs nothing. *)
Lemma inv_add st hs vt h' a s xo hist fp : inv st hs vt -> obj_at h' a s xo (h_run h_empty hist) fp -> fresh (hs_heap st) h' fp ->
  inv (mk_hstate h' (hs_objs st ++ [a]) (hs_views st)) (hs ++ [hist]) vt.
Proof.
  intros (L & S & X & F & O & D & V) N (F1 & F2 & F3). unfold inv. cbn [hs_heap hs_objs hs_views]. split; [rewrite !app_length, L; reflexivity|].
  set (n := List.length hs) in *. exists (upd S n s), (upd X n xo), (upd F n fp).
  assert (Old : forall i, (i < n)%nat -> forall b, In b (F i) -> (b < List.length (hs_heap st))%nat).
  { intros i Li b Hb. destruct (nth_error (hs_objs st) i) as [a'|] eqn:E1; [|apply nth_error_None in E1; lia].
    destruct (nth_error hs i) as [hi|] eqn:E2; [|apply nth_error_None in E2; fold n in E2; lia]. exact (obj_lt _ _ _ _ _ _ _ (O i a' hi E1 E2) Hb). }
  split; [|split].
  - intros i a' hi E1 E2. destruct (Nat.lt_trichotomy i n) as [Li|[->|Li]].
    + rewrite nth_old in E1 by lia. rewrite nth_old in E2 by exact Li. rewrite !upd_ne by lia. specialize (O i a' hi E1 E2). revert O. apply obj_frame. intros b Hb. apply F2. exact (Old i Li b Hb).
    + rewrite !upd_eq. unfold n in E2. rewrite nth_new in E2. fold n in E2. rewrite <- L, nth_new in E1. injection E1 as <-. injection E2 as <-. exact N.
    + pose proof (nth_lt _ _ _ E2) as Q. rewrite app_length in Q. cbn in Q. fold n in Q. lia.
  - rewrite app_length. cbn [List.length]. fold n. intros i j b Li Lj Hi Hj.
    destruct (Nat.eq_dec i n) as [->|Ni], (Nat.eq_dec j n) as [->|Nj]; auto; rewrite ?upd_eq in *; rewrite ?upd_ne in * by auto.
    + specialize (F1 b Hi). assert (Lj' : (j < n)%nat) by lia. specialize (Old j Lj' b Hj). lia.
    + specialize (F1 b Hj). assert (Li' : (i < n)%nat) by lia. specialize (Old i Li' b Hi). lia.
    + apply (D i j b); auto; lia.
  - clear O D. induction V as [|pv t vs ts H V IH]; constructor; [|exact IH]. destruct H as (hi & E & Lh & M). pose proof (nth_lt _ _ _ E) as Lt. fold n in Lt.
    exists hi. split; [now rewrite nth_old|]. split; [exact Lh|]. rewrite !upd_ne by lia. destruct pv as [s'|s' x], (view_now hi (snd t)) as [|e [|]]; auto.
    destruct M as (-> & m & M1 & M2 & M3). split; [reflexivity|]. exists m. split; [rewrite F2; [exact M1|exact (nth_lt _ _ _ M1)]|].
    split; [pose proof M2 as M2'; revert M2; apply lists_frame; intros b Hb; apply F2; exact (lists_lt _ _ _ _ M2' Hb)|].
    intros j b Lj Hb. rewrite app_length in Lj. cbn in Lj. fold n in Lj. destruct (Nat.eq_dec j n) as [->|Nj].
    + rewrite upd_eq. intro Hf. specialize (F1 b Hf). destruct Hb as [<-|Hb]; [pose proof (nth_lt _ _ _ M1)|pose proof (lists_lt _ _ _ _ M2 Hb)]; lia.
    + rewrite upd_ne by auto. apply M3; [lia|exact Hb].
Qed.

Lemma inv_do st hs vt i a hist op : inv st hs vt -> nth_error (hs_objs st) i = Some a -> nth_error hs i = Some hist ->
  exists h', heap_do (hs_heap st) a op = Some h' /\ inv (mk_hstate h' (hs_objs st) (hs_views st)) (histories_step hs (HDo i op)) vt.
Proof.
  intros (L & S & X & F & O & D & V) E1 E2. pose proof (O i a hist E1 E2) as Oi.
  destruct (do_ok _ _ _ _ _ _ op Oi) as (h' & xo' & fp' & E & O' & (K1 & K2 & K3 & K4)). exists h'. split; [exact E|].
  unfold inv. cbn [hs_heap hs_objs hs_views]. rewrite step_do_length. split; [exact L|]. exists S, (upd X i xo'), (upd F i fp').
  pose proof (nth_lt _ _ _ E2) as Li.
  assert (Old : forall j b, (j < List.length hs)%nat -> In b (F j) -> (b < List.length (hs_heap st))%nat).
  { intros j b Lj Hb. destruct (nth_error (hs_objs st) j) as [a'|] eqn:A1; [|apply nth_error_None in A1; lia].
    destruct (nth_error hs j) as [hj|] eqn:A2; [|apply nth_error_None in A2; lia]. exact (obj_lt _ _ _ _ _ _ _ (O j a' hj A1 A2) Hb). }
  assert (Other : forall j b, (j < List.length hs)%nat -> j <> i -> In b (F j) -> nth_error h' b = nth_error (hs_heap st) b).
  { intros j b Lj Nj Hb. apply K2; [exact (Old j b Lj Hb)|]. intro Hi. apply Nj. exact (D j i b Lj Li Hb Hi). }
  split; [|split].
  - intros j a' hj A1 A2. rewrite step_do_nth in A2. destruct (nth_error hs j) as [hj0|] eqn:A3; [|discriminate A2]. cbn [option_map] in A2.
    destruct (Nat.eqb_spec j i) as [->|Nj].
    + rewrite !upd_eq. assert (a' = a) by congruence. assert (hj0 = hist) by congruence. subst a' hj0. injection A2 as <-. rewrite h_run_app. exact O'.
    + rewrite !upd_ne by auto. injection A2 as <-. specialize (O j a' hj0 A1 A3). revert O. apply obj_frame. intros b Hb. exact (Other j b (nth_lt _ _ _ A3) Nj Hb).
  - intros j l b Lj Ll Hj Hl. destruct (Nat.eq_dec j i) as [->|Nj], (Nat.eq_dec l i) as [->|Nl]; auto; rewrite ?upd_eq in *; rewrite ?upd_ne in * by auto.
    + destruct (K1 b Hj) as [H|H]; [exact (D i l b Lj Ll H Hl)|]. specialize (Old l b Ll Hl). lia.
    + destruct (K1 b Hl) as [H|H]; [exact (D j i b Lj Ll Hj H)|]. specialize (Old j b Lj Hj). lia.
    + exact (D j l b Lj Ll Hj Hl).
  - induction V as [|pv t vs ts H V IH]; constructor; [|exact IH]. clear IH V. destruct H as (hi & A & Lh & M).
    assert (Loose : forall s' x e m, s' = S (fst t) -> nth_error (hs_heap st) x = Some (CLists m) -> lists_at (hs_heap st) m e ->
      (forall j b, (j < List.length hs)%nat -> In b (x :: map snd m) -> ~ In b (F j)) ->
      s' = S (fst t) /\ exists m, nth_error h' x = Some (CLists m) /\ lists_at h' m e
        /\ forall j b, (j < List.length (histories_step hs (HDo i op)))%nat -> In b (x :: map snd m) -> ~ In b (upd F i fp' j)).
    { intros s' x e m -> M1 M2 M3. split; [reflexivity|]. exists m. split; [rewrite K2; [exact M1|exact (nth_lt _ _ _ M1)|apply M3; [exact Li|now left]]|].
      split; [pose proof M2 as M2'; revert M2; apply lists_frame; intros b Hb; apply K2; [exact (lists_lt _ _ _ _ M2' Hb)|apply M3; [exact Li|now right]]|].
      intros j b Lj Hb. rewrite step_do_length in Lj. destruct (Nat.eq_dec j i) as [->|Nj]; [|rewrite upd_ne by auto; exact (M3 j b Lj Hb)].
      rewrite upd_eq. intro Hf. destruct (K1 b Hf) as [H|H]; [exact (M3 i b Li Hb H)|].
      destruct Hb as [<-|Hb]; [pose proof (nth_lt _ _ _ M1)|pose proof (lists_lt _ _ _ _ M2 Hb)]; lia. }
    exists (if Nat.eqb (fst t) i then hi ++ [op] else hi). split; [rewrite step_do_nth, A; reflexivity|].
    destruct (Nat.eqb_spec (fst t) i) as [Et|Nt].
    + split; [rewrite app_length; lia|]. rewrite view_now_step by exact Lh. rewrite Et in *. rewrite upd_eq. assert (hi = hist) by congruence. subst hi.
      destruct pv as [s'|s' x], (view_now hist (snd t)) as [|e [|]]; try contradiction; cbn [view_exec].
      * exact M.
      * destruct M as (-> & Mx & Me). destruct O' as (_ & _ & _ & O4). rewrite Mx in *. cbn [h_extra] in *. rewrite <- (h_run_app h_empty hist [op]) in O4 || idtac.
        destruct Oi as (Q1 & Q2 & Q3 & Q4). rewrite Me in Q4. destruct Q4 as (m & M1 & M2 & Q5).
        destruct xo' as [x'|], (h_extra (h_exec (h_run h_empty hist) op)) as [e'|] eqn:Ee; try contradiction.
        -- subst x'. split; [reflexivity|]. split; [reflexivity|]. rewrite h_run_app. exact Ee.
        -- assert (Nb : forall b, In b (x :: map snd m) -> In b (F i) /\ b <> a /\ b <> S i).
           { intros b Hb. rewrite Q5 in *. inversion_clear Q3 as [|? ? P1 P2]. inversion_clear P2 as [|? ? P3 P4]. split; [cbn in *; tauto|].
             split; intros ->; [apply P1|apply P3]; cbn in *; tauto. }
           split; [reflexivity|]. exists m. split; [|split].
           ++ destruct (Nb x (or_introl eq_refl)) as (I1 & I2 & I3). rewrite (proj1 (K4 x I1 I2 I3)). exact M1.
           ++ revert M2. apply lists_frame. intros b Hb. destruct (Nb b (or_intror Hb)) as (I1 & I2 & I3). exact (proj1 (K4 b I1 I2 I3)).
           ++ intros j b Lj Hb. rewrite step_do_length in Lj. destruct (Nb b Hb) as (I1 & I2 & I3). destruct (Nat.eq_dec j i) as [->|Nj].
              ** rewrite upd_eq. exact (proj2 (K4 b I1 I2 I3)).
              ** rewrite upd_ne by auto. intro Hf. apply Nj. exact (D j i b Lj Li Hf I1).
      * destruct M as (M0 & m & M1 & M2 & M3). exact (Loose s' x e m M0 M1 M2 M3).
    + split; [exact Lh|]. rewrite upd_ne by auto. destruct pv as [s'|s' x], (view_now hi (snd t)) as [|e [|]]; auto.
      destruct M as (M0 & m & M1 & M2 & M3). apply (Loose s' x e m); auto.
Qed.

Lemma inv_view st hs vt i a hist : inv st hs vt -> nth_error (hs_objs st) i = Some a -> nth_error hs i = Some hist ->
  exists v, heap_allitems (hs_heap st) a = Some v /\ inv (mk_hstate (hs_heap st) (hs_objs st) (hs_views st ++ [v])) hs (vt ++ [(i, List.length hist)]).
Proof.
  intros (L & S & X & F & O & D & V) E1 E2. pose proof (O i a hist E1 E2) as Oi. destruct (allitems_at _ _ _ _ _ _ Oi) as [E _].
  eexists. split; [exact E|]. unfold inv. cbn [hs_heap hs_objs hs_views]. split; [exact L|]. exists S, X, F. split; [exact O|]. split; [exact D|].
  apply Forall2_app; [exact V|]. constructor; [|constructor]. exists hist. cbn [fst snd]. split; [exact E2|]. split; [lia|]. rewrite view_now_new. unfold take_view.
  destruct Oi as (_ & _ & _ & Q). destruct (X i) as [x|] eqn:Xi, (h_extra (h_run h_empty hist)) as [e|]; try contradiction; auto.
Qed.

Lemma all_of_run hist : h_allitems (h_run h_empty hist) = all_of hist.
Proof.
  rewrite allitems_getall by (apply h_inv_run, h_inv_empty). rewrite keys_spec. unfold all_of. apply flat_map_ext_in. intros k _. now rewrite getall_spec.
Qed.
Lemma firsts_of_run hist : h_store (h_run h_empty hist) = firsts_of hist.
Proof.
  unfold firsts_of. rewrite <- keys_spec. set (c := h_run h_empty hist). assert (I : h_inv c) by apply h_inv_run, h_inv_empty.
  unfold h_keys, dkeys. rewrite flat_map_map.
  transitivity (flat_map (fun x : pystr * pystr => [x]) (h_store c)); [induction (h_store c); cbn; congruence|].
  apply flat_map_ext_in. intros [k v] Hin. cbn [fst]. rewrite <- getall_spec. fold c. rewrite (getall_of_store c k v I Hin). reflexivity.
Qed.

Lemma inv_step st hs vt x : inv st hs vt -> exists st', hstep_run st x = Some st'
  /\ inv st' (fst (taken_step (hs, vt) x)) (snd (taken_step (hs, vt) x)).
Proof.
  intros H. pose proof H as (L & S & X & F & O & D & V).
  assert (On : forall i, (exists a hist, nth_error (hs_objs st) i = Some a /\ nth_error hs i = Some hist) \/ nth_error (hs_objs st) i = None /\ nth_error hs i = None).
  { intro i. destruct (nth_error (hs_objs st) i) as [a|] eqn:E1, (nth_error hs i) as [hist|] eqn:E2; eauto.
    - apply nth_error_None in E2. pose proof (nth_lt _ _ _ E1). lia.
    - apply nth_error_None in E1. pose proof (nth_lt _ _ _ E2). lia. }
  destruct x as [items|items|i|i|i op|i]; cbn [hstep_run taken_step fst snd histories_step].
  - destruct (pairs_ok (hs_heap st) items) as (h' & a & s & xo & fp & -> & O' & F'). eexists. split; [reflexivity|].
    rewrite h_of_pairs_run in O'. exact (inv_add _ _ _ _ _ _ _ (adds items) _ H O' F').
  - destruct (mapping_ok (hs_heap st) items) as (h' & a & s & xo & fp & -> & O' & F'). eexists. split; [reflexivity|].
    rewrite h_of_mapping_run in O'. exact (inv_add _ _ _ _ _ _ _ (sets items) _ H O' F').
  - destruct (On i) as [(a & hist & E1 & E2)|[E1 E2]]; rewrite E1, E2; [|eauto]. destruct (allitems_at _ _ _ _ _ _ (O i a hist E1 E2)) as [A1 A2].
    unfold heap_copy. rewrite A1, A2, all_of_run. destruct (pairs_ok (hs_heap st) (all_of hist)) as (h' & a' & s & xo & fp & -> & O' & F'). eexists. split; [reflexivity|].
    rewrite h_of_pairs_run in O'. exact (inv_add _ _ _ _ _ _ _ (adds (all_of hist)) _ H O' F').
  - destruct (On i) as [(a & hist & E1 & E2)|[E1 E2]]; rewrite E1, E2; [|eauto]. destruct (O i a hist E1 E2) as (A1 & A2 & _).
    unfold heap_of. rewrite (the_obj_at _ _ _ _ A1), (the_dict_at _ _ _ A2), firsts_of_run.
    destruct (mapping_ok (hs_heap st) (firsts_of hist)) as (h' & a' & s & xo & fp & -> & O' & F'). eexists. split; [reflexivity|].
    rewrite h_of_mapping_run in O'. exact (inv_add _ _ _ _ _ _ _ (sets (firsts_of hist)) _ H O' F').
  - destruct (On i) as [(a & hist & E1 & E2)|[E1 E2]]; rewrite E1.
    + destruct (inv_do st hs vt i a hist op H E1 E2) as (h' & -> & I'). eexists. split; [reflexivity|exact I'].
    + eexists. split; [reflexivity|]. replace (map _ _) with hs; [exact H|]. symmetry. change (histories_step hs (HDo i op) = hs). apply nth_error_ext_list.
      intro j. rewrite step_do_nth. destruct (nth_error hs j) as [hj|] eqn:Ej; [|reflexivity]. cbn. destruct (Nat.eqb_spec j i) as [->|]; [congruence|reflexivity].
  - destruct (On i) as [(a & hist & E1 & E2)|[E1 E2]]; rewrite E1, E2; [|eauto].
    destruct (inv_view st hs vt i a hist H E1 E2) as (v & -> & I'). eexists. split; [reflexivity|exact I'].
Qed.
