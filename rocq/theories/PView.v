(** C67: comparison of headers and views of all their items. *)
From Coq Require Import List NArith ZArith Bool String Lia.
From Verif Require Import MBase MPyStr MHeaders SHeaders LBase LHeaders MView.
Import ListNotations.

(** ** popitem (C20) *)

(** [popitem] removes the first name with all its values and returns its first value; on an empty object it raises. *)
Theorem C20_popitem : forall ops,
  h_popitem (h_run h_empty ops) =
  match names_of ops with
  | [] => None
  | k :: _ => match values_of ops k with
              | v :: _ => Some ((k, v), h_run h_empty (ops ++ [Del k]))
              | [] => None
              end
  end.
Proof.
  intro ops. unfold h_popitem. rewrite keys_spec. destruct (names_of ops) as [|k ns] eqn:En; [reflexivity|].
  rewrite getitem_getall, getall_spec. destruct (values_of ops k) as [|v vs] eqn:Ev; [reflexivity|]. cbn [hd_error].
  destruct (h_delitem (h_run h_empty ops) k) as [h'|] eqn:Ed.
  - unfold h_run. rewrite fold_left_app. cbn [fold_left h_exec]. fold (h_run h_empty ops). now rewrite Ed.
  - apply delitem_none in Ed. rewrite getall_spec in Ed. congruence.
Qed.
Print Assumptions C20_popitem.
Example C20_popitem_example :
  names_of [Add (lit "X-A") (lit "1"); Add (lit "b") (lit "2"); Add (lit "x-a") (lit "3")] = [lit "x-a"; lit "b"]
  /\ values_of [Add (lit "X-A") (lit "1"); Add (lit "b") (lit "2"); Add (lit "x-a") (lit "3")] (lit "x-a") = [lit "1"; lit "3"].
Proof. split; reflexivity. Qed.

(** ** Equality *)

Lemma dict_eqb_spec (a b : dict pystr) : NoDup (dkeys a) -> NoDup (dkeys b) ->
  dict_eqb a b = true <-> forall k, dget a k = dget b k.
Proof.
  intros Na Nb. unfold dict_eqb. rewrite andb_true_iff, Nat.eqb_eq, forallb_forall. split.
  - intros [L F] k.
    assert (Sub : forall k v, dget a k = Some v -> dget b k = Some v).
    { intros k0 v H. apply dget_Some_in in H. specialize (F _ H). cbn in F. destruct (dget b k0) as [w|]; [|discriminate].
      apply str_eqb_eq in F. now subst. }
    destruct (dget a k) as [v|] eqn:E; [symmetry; now apply Sub|].
    destruct (dget b k) as [w|] eqn:Eb; [|reflexivity]. exfalso.
    assert (Inc : incl (dkeys a) (dkeys b)).
    { intros x Hx. destruct (dget a x) as [v|] eqn:Ex; [eapply dget_in_keys, Sub, Ex|]. apply dget_None_notin in Ex. contradiction. }
    assert (Inc' : incl (dkeys b) (dkeys a)).
    { apply NoDup_length_incl; auto. unfold dkeys. rewrite !map_length. lia. }
    apply dget_None_notin in E. apply E, Inc'. eapply dget_in_keys, Eb.
  - intro H. split.
    + assert (L : forall x y : dict pystr, NoDup (dkeys x) -> (forall k, dget x k = dget y k) -> (List.length x <= List.length y)%nat).
      { intros x y N X. rewrite <- (map_length fst x), <- (map_length fst y). apply NoDup_incl_length; [exact N|].
        intros k Hk. destruct (dget x k) as [v|] eqn:E; [|apply dget_None_notin in E; contradiction]. rewrite X in E. eapply dget_in_keys, E. }
      pose proof (L a b Na H). pose proof (L b a Nb (fun k => eq_sym (H k))). lia.
    + intros [k v] Hin. cbn. rewrite <- H, (dget_NoDup_in _ _ _ Na Hin). apply str_eqb_refl.
Qed.

Lemma store_first ops k : dget (h_store (h_run h_empty ops)) (lower k) = hd_error (values_of ops k).
Proof. change (h_getitem (h_run h_empty ops) k = hd_error (values_of ops k)). now rewrite getitem_getall, getall_spec. Qed.
Lemma store_low ops k : lower k <> k -> dget (h_store (h_run h_empty ops)) k = None.
Proof.
  intro H. apply dget_None_notin. intro X. pose proof (inv_low _ (h_inv_run ops h_empty h_inv_empty)) as L.
  rewrite Forall_forall in L. exact (H (L _ X)).
Qed.

(** Two headers objects are equal exactly if every name has the same first value in both. *)
Theorem C67_eq : forall ops ops',
  h_eq (h_run h_empty ops) (h_run h_empty ops') = true <-> forall k, hd_error (values_of ops k) = hd_error (values_of ops' k).
Proof.
  intros ops ops'. unfold h_eq, h_items.
  rewrite dict_eqb_spec by (apply inv_nd, h_inv_run, h_inv_empty). split.
  - intros H k. now rewrite <- !store_first, H.
  - intros H k. destruct (list_eq_dec N.eq_dec (lower k) k) as [E|E].
    + rewrite <- E, !store_first. apply H.
    + now rewrite !store_low.
Qed.
Print Assumptions C67_eq.

(** Without repeated headers, that is: exactly if they hold the same values.  Missing: [C67_eq_refuted]. *)
Theorem C67_eq_partial : forall ops ops',
  (forall k, (List.length (values_of ops k) <= 1)%nat /\ (List.length (values_of ops' k) <= 1)%nat) ->
  h_eq (h_run h_empty ops) (h_run h_empty ops') = true
  <-> forall k, h_getall (h_run h_empty ops) k = h_getall (h_run h_empty ops') k.
Proof.
  intros ops ops' L. rewrite C67_eq. split; intros H k; specialize (H k); specialize (L k); rewrite ?getall_spec in *; [|now rewrite H].
  destruct (values_of ops k) as [|a [|? ?]], (values_of ops' k) as [|b [|? ?]]; cbn in *; try lia; try discriminate; congruence.
Qed.
Print Assumptions C67_eq_partial.
Example C67_eq_example :
  h_eq (h_run h_empty [Set_ (lit "A") (lit "1"); Add (lit "B") (lit "2")]) (h_run h_empty [Add (lit "b") (lit "2"); Add (lit "a") (lit "1")]) = true
  /\ h_eq (h_run h_empty [Set_ (lit "A") (lit "1")]) (h_run h_empty [Set_ (lit "A") (lit "1"); Add (lit "B") (lit "2")]) = false.
Proof. split; reflexivity. Qed.

(** Finding: objects with different values of a repeated header compare equal. *)
Theorem C67_eq_refuted : exists a b, h_eq (h_of_pairs a) (h_of_pairs b) = true
  /\ h_getall (h_of_pairs a) (lit "set-cookie") = [lit "x"] /\ h_getall (h_of_pairs b) (lit "set-cookie") = [lit "x"; lit "y"].
Proof.
  exists [(lit "set-cookie", lit "x")], [(lit "set-cookie", lit "x"); (lit "set-cookie", lit "y")]. repeat split; reflexivity.
Qed.
Print Assumptions C67_eq_refuted.
(** Finding: headers made from a dictionary with a capital letter in a name differ from that dictionary, although every name
    of the dictionary is found with the same value. *)
Theorem C67_eq_dict_refuted : exists d, NoDup (dkeys d) /\ h_eq_dict (h_of_mapping d) d = false
  /\ forall k v, dget d k = Some v -> h_getitem (h_of_mapping d) k = Some v.
Proof.
  exists [(lit "Accept", lit "x")]. split; [repeat constructor; intros []|]. split; [reflexivity|].
  intros k v H. cbn [dget] in H. destruct (str_eqb (lit "Accept") k) eqn:E; [|discriminate]. apply str_eqb_eq in E. subst k. injection H as <-. reflexivity.
Qed.
Print Assumptions C67_eq_dict_refuted.

(** ** Views *)

Lemma view_run_headers ops : forall h v, fst (view_run h v ops) = h_run h ops.
Proof. induction ops as [|op ops IH]; intros h v; [reflexivity|]. cbn [view_run]. now rewrite IH. Qed.

Lemma extra_kept h op : op <> Clear -> h_extra h <> None -> h_extra (h_exec h op) <> None.
Proof.
  intros Hc He. destruct op as [k v|k v|k|]; cbn [h_exec]; [| | |congruence].
  - unfold h_add. destruct (dmem _ _); cbn; [discriminate|exact He].
  - unfold h_setitem, extra_pop. cbn. destruct (h_extra h); congruence.
  - unfold h_delitem, extra_pop. destruct (dmem _ _); [|exact He]. cbn. destruct (h_extra h); congruence.
Qed.

Lemma view_live later : forall h, Forall (fun op => op <> Clear) later -> h_extra h <> None ->
  view_list (view_run h (take_view h) later) = h_allitems (h_run h later)
  /\ view_len (view_run h (take_view h) later) = h_allitems_len (h_run h later).
Proof.
  induction later as [|op later IH]; intros h F He.
  - unfold take_view, view_list, view_len, h_allitems, h_allitems_len. cbn. destruct (h_extra h); [auto|congruence].
  - inversion F; subst. pose proof (extra_kept h op H1 He) as He'. cbn [view_run].
    replace (view_exec h (take_view h) op) with (take_view (h_exec h op)).
    { exact (IH _ H2 He'). }
    unfold take_view. destruct (h_extra h); [|congruence]. cbn [view_exec]. destruct (h_extra (h_exec h op)); [reflexivity|congruence].
Qed.

Lemma repeated_extra ops k : (2 <= List.length (values_of ops k))%nat -> h_extra (h_run h_empty ops) <> None.
Proof.
  rewrite <- getall_spec. unfold h_getall. destruct (dget _ _); cbn; [|lia]. destruct (h_extra _); [discriminate|]. cbn. lia.
Qed.

(** A view taken while some header is repeated stays up to date: after any further operations except [clear] it lists what a
    new view would, and its length is the number of items.  Missing: [C67_view_refuted], [C67_view_len_refuted]. *)
Theorem C67_view_partial : forall ops later k,
  (2 <= List.length (values_of ops k))%nat -> Forall (fun op => op <> Clear) later ->
  let v := view_run (h_run h_empty ops) (take_view (h_run h_empty ops)) later in
  view_list v = flat_map (fun k => map (fun x => (k, x)) (values_of (ops ++ later) k)) (names_of (ops ++ later))
  /\ view_len v = List.length (view_list v).
Proof.
  intros ops later k H F. cbv zeta. destruct (view_live later (h_run h_empty ops) F (repeated_extra ops k H)) as [L N].
  rewrite L, N. unfold h_run at 1 2 3 4 5 6. rewrite <- !fold_left_app. fold (h_run h_empty (ops ++ later)). split.
  - rewrite allitems_getall by (apply h_inv_run, h_inv_empty). rewrite keys_spec. apply flat_map_ext_in. intros x _. now rewrite getall_spec.
  - apply allitems_len_ok, h_inv_run, h_inv_empty.
Qed.
Print Assumptions C67_view_partial.
Example C67_view_example : let ops := [Add (lit "a") (lit "1"); Add (lit "a") (lit "2")] in
  (2 <= List.length (values_of ops (lit "A")))%nat
  /\ view_list (view_run (h_run h_empty ops) (take_view (h_run h_empty ops)) [Add (lit "b") (lit "3"); Add (lit "b") (lit "4"); Del (lit "A")])
     = [(lit "b", lit "3"); (lit "b", lit "4")].
Proof. split; [cbn; lia|reflexivity]. Qed.

(** Finding: a view taken before the first repeated header misses the values added later, which a new view shows. *)
Theorem C67_view_refuted : exists h op,
  view_list (view_run h (take_view h) [op]) = [(lit "a", lit "1")]
  /\ h_allitems (h_exec h op) = [(lit "a", lit "1"); (lit "a", lit "2")].
Proof. exists (h_of_pairs [(lit "a", lit "1")]), (Add (lit "a") (lit "2")). split; reflexivity. Qed.
Print Assumptions C67_view_refuted.
(** Finding: after [clear] the length of an older view is not the number of its items. *)
Theorem C67_view_len_refuted : exists h, view_list (view_run h (take_view h) [Clear]) = [] /\ view_len (view_run h (take_view h) [Clear]) = 1%nat.
Proof. exists (h_of_pairs [(lit "a", lit "1"); (lit "a", lit "2")]). split; reflexivity. Qed.
Print Assumptions C67_view_len_refuted.

Lemma view_run_app a b : forall h v, view_run h v (a ++ b) = view_run (fst (view_run h v a)) (snd (view_run h v a)) b.
Proof. induction a as [|op a IH]; intros h v; [reflexivity|]. cbn [List.app view_run]. apply IH. Qed.

Lemma view_unshared later : forall h e, snd (view_run h (VAll e false) later) = VAll e false.
Proof. induction later as [|op later IH]; intros h e; [reflexivity|]. cbn [view_run view_exec]. apply IH. Qed.

Lemma view_shared mid : forall h, Forall (fun op => op <> Clear) mid -> h_extra h <> None ->
  snd (view_run h (take_view h) mid) = take_view (h_run h mid) /\ h_extra (h_run h mid) <> None.
Proof.
  induction mid as [|op mid IH]; intros h F He; [split; [reflexivity|exact He]|].
  inversion F; subst. pose proof (extra_kept h op H1 He) as He'. cbn [view_run].
  replace (view_exec h (take_view h) op) with (take_view (h_exec h op)); [exact (IH _ H2 He')|].
  unfold take_view. destruct (h_extra h); [|congruence]. cbn [view_exec]. destruct (h_extra (h_exec h op)); [reflexivity|congruence].
Qed.

(** A view taken while some header is repeated, after the headers were cleared and used again: under each name now present it
    lists the first value now held, and after it the values that followed the first one when [clear] was called, whatever the
    name holds now beyond the first; and its length counts the names now present and all those old values. *)
Theorem C67_view_cleared : forall ops mid later k,
  (2 <= List.length (values_of ops k))%nat -> Forall (fun op => op <> Clear) mid ->
  let v := view_run (h_run h_empty ops) (take_view (h_run h_empty ops)) (mid ++ Clear :: later) in
  let before := ops ++ mid in
  view_list v = flat_map (fun k => map (fun x => (k, x)) (firstn 1 (values_of later k) ++ tl (values_of before k))) (names_of later)
  /\ view_len v = (List.length (names_of later) + List.length (flat_map (fun k => tl (values_of before k)) (names_of before)))%nat.
Proof.
  intros ops mid later k H F. cbv zeta. set (h0 := h_run h_empty ops).
  destruct (view_shared mid h0 F (repeated_extra ops k H)) as [V He].
  assert (Hb : h_run h0 mid = h_run h_empty (ops ++ mid)) by (unfold h0, h_run; now rewrite fold_left_app).
  rewrite view_run_app, V, view_run_headers. cbn [view_run]. rewrite Hb in *. set (hb := h_run h_empty (ops ++ mid)) in *.
  assert (Ib : h_inv hb) by apply h_inv_run, h_inv_empty.
  assert (Tl : forall e x, h_extra hb = Some e -> lower x = x -> match dget e x with None => [] | Some l => l end = tl (values_of (ops ++ mid) x)).
  { intros e x E L. rewrite <- getall_spec. fold hb. unfold h_getall. rewrite L, E.
    destruct (dget (h_store hb) x) eqn:D; [reflexivity|]. destruct (dget e x) eqn:D2; [|reflexivity].
    exfalso. exact (inv_sub _ Ib _ _ _ E D2 D). }
  destruct (h_extra hb) as [e|] eqn:Ee; [|congruence].
  unfold take_view. rewrite Ee. cbn [view_exec h_exec h_clear h_extra].
  unfold view_list, view_len. rewrite view_unshared, view_run_headers. change (h_exec hb Clear) with h_empty.
  set (hl := h_run h_empty later). assert (Il : h_inv hl) by apply h_inv_run, h_inv_empty. split.
  - rewrite <- keys_spec. fold hl. unfold h_keys, dkeys. rewrite flat_map_map. unfold all_items_iter. apply flat_map_ext_in. intros [x y] Hin.
    cbn [fst]. rewrite <- (getall_spec later). fold hl. rewrite (getall_of_store hl x y Il Hin). cbn [firstn List.app map]. f_equal.
    rewrite (Tl e x eq_refl); [reflexivity|]. pose proof (inv_low _ Il) as L. rewrite Forall_forall in L. apply L. exact (in_map fst _ _ Hin).
  - unfold all_items_len. rewrite <- (keys_spec later). fold hl. unfold h_keys at 1, dkeys. rewrite map_length. f_equal.
    pose proof (allitems_len_ok hb Ib) as N. rewrite (allitems_getall hb Ib) in N. unfold h_allitems_len in N. rewrite Ee in N. unfold all_items_len in N.
    rewrite <- (keys_spec (ops ++ mid)). fold hb.
    assert (C : forall ks, (forall x, In x ks -> h_getall hb x <> []) ->
      List.length (flat_map (fun k => map (fun v => (k, v)) (h_getall hb k)) ks)
      = (List.length ks + List.length (flat_map (fun k => tl (values_of (ops ++ mid) k)) ks))%nat).
    { induction ks as [|x ks IH]; intro A; [reflexivity|]. cbn [flat_map List.length]. rewrite !app_length, map_length, IH by (intros; apply A; now right).
      rewrite <- (getall_spec (ops ++ mid) x). fold hb. pose proof (A x (or_introl eq_refl)). destruct (h_getall hb x); [congruence|]. cbn. lia. }
    rewrite C in N.
    + unfold h_keys in N at 1. unfold dkeys in N at 1. rewrite map_length in N. lia.
    + intros x Hin. unfold h_keys, dkeys in Hin. apply in_map_iff in Hin. destruct Hin as ([x' y] & <- & Hin). cbn [fst].
      rewrite (getall_of_store hb x' y Ib Hin). discriminate.
Qed.
Print Assumptions C67_view_cleared.
(** Finding: such a view shows a value that the headers no longer hold. *)
Theorem C67_view_stale_refuted : exists ops later,
  values_of (ops ++ Clear :: later) (lit "a") = [lit "9"]
  /\ view_list (view_run (h_run h_empty ops) (take_view (h_run h_empty ops)) (Clear :: later)) = [(lit "a", lit "9"); (lit "a", lit "2")].
Proof. exists [Add (lit "a") (lit "1"); Add (lit "a") (lit "2")], [Set_ (lit "a") (lit "9")]. split; reflexivity. Qed.
Print Assumptions C67_view_stale_refuted.
Example C67_view_cleared_example : let ops := [Add (lit "a") (lit "1"); Add (lit "a") (lit "2")] in
  let later := [Add (lit "b") (lit "3"); Add (lit "b") (lit "4"); Add (lit "A") (lit "5")] in
  (2 <= List.length (values_of ops (lit "A")))%nat
  /\ view_list (view_run (h_run h_empty ops) (take_view (h_run h_empty ops)) (Clear :: later)) = [(lit "b", lit "3"); (lit "a", lit "5"); (lit "a", lit "2")].
Proof. split; [cbn; lia|reflexivity]. Qed.

(** ** Membership *)

(** [add] was used for absent names only. *)
Definition never_repeated (ops : list hop) : Prop :=
  forall pre k v post, ops = pre ++ Add k v :: post -> values_of pre k = [].

Lemma never_extra ops : never_repeated ops -> h_extra (h_run h_empty ops) = None.
Proof.
  induction ops as [|op ops IH] using rev_ind; intro N; [reflexivity|].
  assert (E : h_extra (h_run h_empty ops) = None).
  { apply IH. intros pre k v post ->. apply (N pre k v (post ++ [op])). now rewrite <- app_assoc. }
  unfold h_run in *. rewrite fold_left_app. cbn [fold_left]. fold (h_run h_empty ops) in *. destruct op as [k v|k v|k|]; cbn [h_exec].
  - unfold h_add. pose proof (N ops k v [] eq_refl) as V. rewrite <- getall_spec in V. pose proof (contains_getall (h_run h_empty ops) k) as C.
    rewrite V in C. unfold h_contains in C. cbn in C. cbn. rewrite C. exact E.
  - unfold h_setitem. cbn. now rewrite E.
  - unfold h_delitem. destruct (dmem _ _); [|exact E]. cbn. now rewrite E.
  - reflexivity.
Qed.

(** [(key, value) in headers.allitems()] is right as long as [add] never met a name that was present.  Missing:
    [C67_member_refuted]. *)
Theorem C67_member_partial : forall ops k x, never_repeated ops ->
  exists b, view_contains (h_run h_empty ops, take_view (h_run h_empty ops)) (k, x) = Ok b
    /\ (b = true <-> In (k, x) (h_allitems (h_run h_empty ops))).
Proof.
  intros ops k x N. pose proof (never_extra ops N) as E. unfold take_view, view_contains, h_allitems. rewrite E. cbn [snd fst].
  eexists. split; [reflexivity|]. pose proof (inv_nd _ (h_inv_run ops h_empty h_inv_empty)) as Nd.
  destruct (dget (h_store (h_run h_empty ops)) k) as [v|] eqn:G.
  - rewrite str_eqb_eq. split.
    + intros ->. now apply dget_Some_in.
    + intro Hin. apply (dget_NoDup_in _ _ _ Nd) in Hin. congruence.
  - split; [discriminate|]. intro Hin. apply (dget_NoDup_in _ _ _ Nd) in Hin. congruence.
Qed.
Print Assumptions C67_member_partial.
Example C67_member_example : never_repeated [Add (lit "A") (lit "1"); Set_ (lit "a") (lit "2"); Del (lit "a"); Add (lit "a") (lit "3")].
Proof.
  intros pre k v post H. destruct pre as [|? [|? [|? [|? pre]]]]; cbn in H; inversion H; subst; try reflexivity.
  destruct pre; discriminate.
Qed.

(** Finding: as soon as some header is repeated, asking whether any item is contained raises AttributeError. *)
Theorem C67_member_refuted : forall ops k, (2 <= List.length (values_of ops k))%nat -> forall item,
  exists msg, view_contains (h_run h_empty ops, take_view (h_run h_empty ops)) item = Raise (EOther KAttr msg).
Proof.
  intros ops k H item. apply repeated_extra in H. unfold take_view, view_contains. destruct (h_extra _); [|congruence]. eexists. reflexivity.
Qed.
Print Assumptions C67_member_refuted.
