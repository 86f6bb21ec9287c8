(** Headers refines the history specification. *)
From Coq Require Import List NArith ZArith Bool Lia.
From Verif Require Import MBase MPyStr LBase MHeaders SHeaders.
Import ListNotations.

Lemma lower_c_idem : forall c, lower_c (lower_c c) = lower_c c.
Proof.
  intro c. unfold lower_c.
  destruct ((65 <=? c)%N && (c <=? 90)%N) eqn:E; [|now rewrite E].
  apply andb_prop in E. destruct E as [E1 E2]. apply N.leb_le in E1, E2.
  destruct ((65 <=? c + 32)%N && (c + 32 <=? 90)%N) eqn:E; auto.
  apply andb_prop in E. destruct E as [E3 E4]. apply N.leb_le in E3, E4. lia.
Qed.

Lemma lower_idem : forall s, lower (lower s) = lower s.
Proof. unfold lower. intro s. rewrite map_map. apply map_ext. apply lower_c_idem. Qed.

Lemma lower_app : forall a b, lower (a ++ b) = lower a ++ lower b.
Proof. intros. apply map_app. Qed.

Lemma lower_length : forall a, length (lower a) = length a.
Proof. intros. apply map_length. Qed.

(** Representation invariant. *)
Record h_inv (h : headers) : Prop := {
  inv_nd : NoDup (dkeys (h_store h));
  inv_low : Forall (fun k => lower k = k) (dkeys (h_store h));
  inv_end : forall e, h_extra h = Some e -> NoDup (dkeys e);
  inv_sub : forall e k l, h_extra h = Some e -> dget e k = Some l -> dget (h_store h) k <> None
}.

Lemma h_inv_empty : h_inv h_empty.
Proof. constructor; simpl; try constructor; discriminate. Qed.

Lemma Forall_dset : forall (P : pystr -> Prop) (d : dict pystr) k v,
    Forall P (dkeys d) -> P k -> Forall P (dkeys (dset d k v)).
Proof.
  intros P d k v Hf Hk. destruct (dget d k) eqn:E.
  - erewrite dkeys_dset_mem; eauto.
  - rewrite dkeys_dset_notmem by auto. apply Forall_app; auto.
Qed.

Lemma h_inv_add : forall h k v, h_inv h -> h_inv (h_add h k v).
Proof.
  intros h k v [I1 I2 I3 I4]. unfold h_add, dmem.
  destruct (dget (h_store h) (lower k)) eqn:E; constructor; simpl; auto.
  - intros e He. inversion He; subst. apply NoDup_dset.
    destruct (h_extra h) eqn:Ex; [eauto|constructor].
  - intros e k0 l He Hg. inversion He; subst. clear He.
    rewrite dget_dset in Hg. destruct (str_eqb_spec (lower k) k0); subst.
    + congruence.
    + destruct (h_extra h) eqn:Ex; [eauto|discriminate].
  - now apply NoDup_dset.
  - apply Forall_dset; auto. apply lower_idem.
  - intros e k0 l He Hg. rewrite dget_dset. destruct (str_eqb (lower k) k0); [discriminate|eauto].
Qed.

Lemma h_inv_set : forall h k v, h_inv h -> h_inv (h_setitem h k v).
Proof.
  intros h k v [I1 I2 I3 I4]. unfold h_setitem. constructor; simpl.
  - now apply NoDup_dset.
  - apply Forall_dset; auto. apply lower_idem.
  - intros e He. unfold extra_pop in He. destruct (h_extra h) eqn:Ex; [|discriminate].
    inversion He; subst. apply NoDup_ddel. eauto.
  - intros e k0 l He Hg. unfold extra_pop in He. destruct (h_extra h) eqn:Ex; [|discriminate].
    inversion He; subst. clear He. rewrite dget_dset.
    destruct (str_eqb_spec (lower k) k0); subst; [discriminate|].
    rewrite dget_ddel_other in Hg by auto. eauto.
Qed.

Lemma h_inv_del : forall h k h', h_inv h -> h_delitem h k = Some h' -> h_inv h'.
Proof.
  intros h k h' [I1 I2 I3 I4] H. unfold h_delitem in H.
  destruct (dmem (h_store h) (lower k)); [|discriminate]. inversion H; subst; clear H.
  constructor; simpl.
  - now apply NoDup_ddel.
  - rewrite dkeys_ddel by auto. apply Forall_forall. intros x Hx. apply filter_In in Hx.
    rewrite Forall_forall in I2. apply I2. tauto.
  - intros e He. unfold extra_pop in He. destruct (h_extra h) eqn:Ex; [|discriminate].
    inversion He; subst. apply NoDup_ddel. eauto.
  - intros e k0 l He Hg. unfold extra_pop in He. destruct (h_extra h) as [e0|] eqn:Ex; [|discriminate].
    inversion He; subst. clear He.
    destruct (str_eqb_spec (lower k) k0); subst.
    + rewrite dget_ddel_same in Hg by eauto. discriminate.
    + rewrite dget_ddel_other in Hg by auto. rewrite dget_ddel_other by auto. eauto.
Qed.

Lemma h_inv_exec : forall h op, h_inv h -> h_inv (h_exec h op).
Proof.
  intros h op I. destruct op; simpl.
  - now apply h_inv_add.
  - now apply h_inv_set.
  - destruct (h_delitem h k) eqn:E; auto. eapply h_inv_del; eauto.
  - apply h_inv_empty.
Qed.

Lemma h_inv_run : forall ops h, h_inv h -> h_inv (h_run h ops).
Proof. induction ops; simpl; auto using h_inv_exec. Qed.

(** One step on the values under a name. *)
Lemma getall_step : forall h op k, h_inv h ->
    h_getall (h_exec h op) k = values_step k (h_getall h k) op.
Proof.
  intros h op k I. pose proof I as [I1 I2 I3 I4].
  destruct op as [k' v|k' v|k'|]; simpl; unfold same_name.
  - (* add *)
    unfold h_add, h_getall, dmem. rewrite (str_eqb_sym (lower k)).
    destruct (dget (h_store h) (lower k')) eqn:E; simpl.
    + destruct (str_eqb_spec (lower k') (lower k)) as [Hk|Hk].
      * rewrite <- Hk. rewrite E. simpl. rewrite dget_dset_same. f_equal.
        destruct (h_extra h); simpl; auto.
      * destruct (dget (h_store h) (lower k)) eqn:E2; auto. f_equal.
        rewrite dget_dset_other by auto. destruct (h_extra h); simpl; auto.
    + rewrite dget_dset. destruct (str_eqb_spec (lower k') (lower k)) as [Hk|Hk].
      * rewrite <- Hk, E. simpl. f_equal.
        destruct (h_extra h) as [e|] eqn:Ex; auto.
        destruct (dget e (lower k')) eqn:E3; auto. exfalso. eapply I4; eauto.
      * reflexivity.
  - (* set *)
    unfold h_setitem, h_getall; simpl. rewrite dget_dset. rewrite (str_eqb_sym (lower k)).
    destruct (str_eqb_spec (lower k') (lower k)) as [Hk|Hk].
    + f_equal. destruct (h_extra h) as [e|] eqn:Ex; simpl; auto.
      rewrite <- Hk. rewrite dget_ddel_same; eauto.
    + destruct (dget (h_store h) (lower k)); auto. f_equal.
      destruct (h_extra h) as [e|] eqn:Ex; simpl; auto.
      rewrite dget_ddel_other; auto.
  - (* del *)
    unfold h_delitem, h_getall, dmem. rewrite (str_eqb_sym (lower k)).
    destruct (dget (h_store h) (lower k')) eqn:E; simpl.
    + destruct (str_eqb_spec (lower k') (lower k)) as [Hk|Hk].
      * rewrite <- Hk. now rewrite dget_ddel_same.
      * rewrite dget_ddel_other by auto. destruct (dget (h_store h) (lower k)); auto. f_equal.
        destruct (h_extra h) as [e|] eqn:Ex; simpl; auto. rewrite dget_ddel_other; auto.
    + destruct (str_eqb_spec (lower k') (lower k)) as [Hk|Hk].
      * rewrite <- Hk, E. reflexivity.
      * reflexivity.
  - reflexivity.
Qed.

Lemma getall_run : forall ops h k, h_inv h ->
    h_getall (h_run h ops) k = fold_left (values_step k) ops (h_getall h k).
Proof.
  induction ops as [|op ops IH]; simpl; intros; auto.
  rewrite IH by (now apply h_inv_exec). now rewrite getall_step.
Qed.

Lemma getall_spec : forall ops k, h_getall (h_run h_empty ops) k = values_of ops k.
Proof. intros. rewrite getall_run by apply h_inv_empty. reflexivity. Qed.

Lemma existsb_dmem : forall (d : dict pystr) k,
    existsb (str_eqb k) (dkeys d) = dmem d k.
Proof.
  induction d as [|[a b] d IH]; intros; simpl; auto.
  rewrite str_eqb_sym. unfold dmem in *. simpl. destruct (str_eqb a k); simpl; auto.
Qed.

Lemma keys_step : forall h op, h_inv h -> h_keys (h_exec h op) = names_step (h_keys h) op.
Proof.
  intros h op [I1 I2 I3 I4]. unfold h_keys. destruct op as [k' v|k' v|k'|]; simpl.
  - rewrite existsb_dmem. unfold h_add, dmem. destruct (dget (h_store h) (lower k')) eqn:E; simpl; auto.
    now apply dkeys_dset_notmem.
  - rewrite existsb_dmem. unfold dmem. destruct (dget (h_store h) (lower k')) eqn:E.
    + eapply dkeys_dset_mem; eauto.
    + now apply dkeys_dset_notmem.
  - unfold h_delitem, dmem. destruct (dget (h_store h) (lower k')) eqn:E; simpl.
    + now apply dkeys_ddel.
    + apply dget_None_notin in E. revert E. generalize (dkeys (h_store h)).
      induction l as [|x l IH]; simpl; intros Hn; auto.
      streq; simpl; [tauto|]. f_equal. tauto.
  - reflexivity.
Qed.

Lemma keys_spec : forall ops, h_keys (h_run h_empty ops) = names_of ops.
Proof.
  intros. unfold names_of. change [] with (h_keys h_empty).
  generalize h_inv_empty. generalize h_empty as h.
  induction ops as [|op ops IH]; simpl; intros h I; auto.
  rewrite IH by (now apply h_inv_exec). now rewrite keys_step.
Qed.

(** Relation of the views to [getall]. *)
Lemma getitem_getall : forall h k, h_getitem h k = hd_error (h_getall h k).
Proof. intros. unfold h_getitem, h_getall. destruct (dget (h_store h) (lower k)); auto. Qed.

Lemma contains_getall : forall h k, h_contains h k = nonempty (h_getall h k).
Proof. intros. unfold h_contains, dmem, h_getall. destruct (dget (h_store h) (lower k)); auto. Qed.

Lemma getall_of_store : forall h k v,
    h_inv h -> In (k, v) (h_store h) -> h_getall h k =
    v :: match h_extra h with None => [] | Some e => match dget e k with None => [] | Some l => l end end.
Proof.
  intros h k v [I1 I2 I3 I4] Hin. unfold h_getall.
  assert (L : lower k = k).
  { rewrite Forall_forall in I2. apply I2. apply (in_map fst) in Hin. exact Hin. }
  rewrite L. erewrite dget_NoDup_in; eauto.
Qed.

Lemma flat_map_ext_in : forall {A B} (f g : A -> list B) l,
    (forall a, In a l -> f a = g a) -> flat_map f l = flat_map g l.
Proof.
  induction l as [|x l IH]; simpl; intros H; auto.
  rewrite H by auto. f_equal. apply IH. auto.
Qed.

Lemma flat_map_map : forall {A B C} (f : A -> B) (g : B -> list C) l,
    flat_map g (map f l) = flat_map (fun x => g (f x)) l.
Proof. induction l; simpl; auto. now rewrite IHl. Qed.

Lemma allitems_getall : forall h, h_inv h ->
    h_allitems h = flat_map (fun k => map (fun v => (k, v)) (h_getall h k)) (h_keys h).
Proof.
  intros h I. unfold h_keys, dkeys. rewrite flat_map_map.
  unfold h_allitems. destruct (h_extra h) as [e|] eqn:Ex.
  - unfold all_items_iter. apply flat_map_ext_in. intros [k v] Hin. simpl.
    rewrite (getall_of_store h k v I Hin), Ex. reflexivity.
  - transitivity (flat_map (fun x : pystr * pystr => [x]) (h_store h)).
    { induction (h_store h); simpl; congruence. }
    apply flat_map_ext_in. intros [k v] Hin. simpl.
    rewrite (getall_of_store h k v I Hin), Ex. reflexivity.
Qed.

Lemma items_getall : forall h, h_inv h ->
    h_items h = flat_map (fun k => match h_getall h k with v :: _ => [(k, v)] | [] => [] end) (h_keys h).
Proof.
  intros h I. unfold h_keys, dkeys, h_items. rewrite flat_map_map.
  transitivity (flat_map (fun x : pystr * pystr => [x]) (h_store h)).
  { induction (h_store h); simpl; congruence. }
  apply flat_map_ext_in. intros [k v] Hin. simpl.
  rewrite (getall_of_store h k v I Hin). reflexivity.
Qed.

(** The cached length agrees with the iteration. *)
Lemma sum_ddel : forall (e : dict (list pystr)) k, NoDup (dkeys e) ->
    fold_right (fun kv n => length (snd kv) + n)%nat 0%nat e =
    (match dget e k with Some l => length l | None => 0 end +
     fold_right (fun kv n => length (snd kv) + n)%nat 0%nat (ddel e k))%nat.
Proof.
  induction e as [|[a l] e IH]; intros k ND; simpl; auto.
  inversion ND; subst. streq; simpl; auto.
  rewrite (IH k) by auto. lia.
Qed.

Lemma iter_ddel_other : forall s (e : dict (list pystr)) k,
    ~ In k (dkeys s) ->
    all_items_iter s (Some (ddel e k)) = all_items_iter s (Some e).
Proof.
  intros s e k H. apply flat_map_ext_in. intros [a b] Hin.
  rewrite dget_ddel_other; auto. intros ->. apply H. apply (in_map fst) in Hin. exact Hin.
Qed.

Lemma allitems_len_aux : forall s (e : dict (list pystr)),
    NoDup (dkeys s) -> NoDup (dkeys e) ->
    (forall k l, dget e k = Some l -> In k (dkeys s)) ->
    length (all_items_iter s (Some e)) = all_items_len s (Some e).
Proof.
  induction s as [|[k v] s IH]; intros e N1 N2 Hs.
  - unfold all_items_len, all_items_iter; simpl.
    destruct e as [|[a l] e]; simpl; auto.
    exfalso. apply (Hs a l). simpl. now rewrite str_eqb_refl.
  - inversion N1; subst.
    replace (all_items_iter ((k, v) :: s) (Some e))
      with (((k, v) :: map (fun vv => (k, vv)) match dget e k with Some l => l | None => [] end)
            ++ all_items_iter s (Some e)) by reflexivity.
    rewrite app_length. simpl length. rewrite map_length.
    rewrite <- (iter_ddel_other s e k) by auto. rewrite IH; auto.
    + unfold all_items_len. simpl length. rewrite (sum_ddel e k N2).
      destruct (dget e k); simpl; lia.
    + now apply NoDup_ddel.
    + intros k0 l Hg. destruct (str_eqb_spec k k0); subst.
      * rewrite dget_ddel_same in Hg by auto. discriminate.
      * rewrite dget_ddel_other in Hg by auto. apply Hs in Hg. simpl in Hg.
        unfold dkeys. destruct Hg; [congruence|auto].
Qed.

Lemma allitems_len_ok : forall h, h_inv h -> h_allitems_len h = length (h_allitems h).
Proof.
  intros h [I1 I2 I3 I4]. unfold h_allitems_len, h_allitems.
  destruct (h_extra h) as [e|] eqn:Ex; auto.
  symmetry. apply allitems_len_aux; auto.
  intros k l Hg. specialize (I4 e k l eq_refl Hg).
  destruct (dget (h_store h) k) eqn:E; [|congruence]. eapply dget_in_keys; eauto.
Qed.

(** Constructors as histories. *)
Lemma of_pairs_run : forall ps h,
    fold_left (fun h kv => h_add h (fst kv) (snd kv)) ps h =
    h_run h (map (fun kv => Add (fst kv) (snd kv)) ps).
Proof. induction ps; simpl; auto. Qed.

Lemma h_of_pairs_run : forall ps, h_of_pairs ps = h_run h_empty (map (fun kv => Add (fst kv) (snd kv)) ps).
Proof. intros. apply of_pairs_run. Qed.

Lemma h_of_mapping_run : forall ps, h_of_mapping ps = h_run h_empty (map (fun kv => Set_ (fst kv) (snd kv)) ps).
Proof.
  intro ps. unfold h_of_mapping.
  change h_empty with (mk_headers [] None). generalize (@nil (pystr * pystr)) as d.
  induction ps as [|[k v] ps IH]; simpl; intros d; auto. rewrite IH. reflexivity.
Qed.

Lemma h_inv_of_pairs : forall ps, h_inv (h_of_pairs ps).
Proof. intros. rewrite h_of_pairs_run. apply h_inv_run, h_inv_empty. Qed.

Lemma h_inv_of_mapping : forall ps, h_inv (h_of_mapping ps).
Proof. intros. rewrite h_of_mapping_run. apply h_inv_run, h_inv_empty. Qed.

Lemma delitem_none : forall h k, h_delitem h k = None <-> h_getall h k = [].
Proof.
  intros. unfold h_delitem, h_getall, dmem. destruct (dget (h_store h) (lower k)); split; congruence.
Qed.

Lemma pop_exec : forall h k, h_pop h k = (hd_error (h_getall h k), h_exec h (Del k)).
Proof.
  intros. unfold h_pop. rewrite getitem_getall. simpl.
  unfold h_delitem, h_getall, dmem. destruct (dget (h_store h) (lower k)); reflexivity.
Qed.

(** Two histories giving the same values and names are indistinguishable. *)
Lemma values_of_lower : forall hist k, values_of hist (lower k) = values_of hist k.
Proof.
  intros hist k. unfold values_of. generalize (@nil pystr).
  induction hist as [|op hist IH]; simpl; intros acc; auto.
  rewrite IH. f_equal. destruct op; simpl; unfold same_name; now rewrite ?lower_idem.
Qed.
