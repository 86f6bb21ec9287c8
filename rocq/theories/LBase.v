(** Lemmas about the base vocabulary. *)
From Coq Require Import List NArith ZArith Bool String Ascii Lia.
From Verif Require Import MBase.
Import ListNotations.

Lemma str_eqb_spec : forall a b, reflect (a = b) (str_eqb a b).
Proof.
  unfold str_eqb. induction a as [|x a IH]; destruct b as [|y b]; simpl; try (constructor; congruence).
  destruct (N.eqb_spec x y) as [->|Hn]; simpl.
  - destruct (IH b) as [->|Hn]; constructor; congruence.
  - constructor; congruence.
Qed.

Lemma str_eqb_refl : forall a, str_eqb a a = true.
Proof. intro a; destruct (str_eqb_spec a a); congruence. Qed.

Lemma str_eqb_eq : forall a b, str_eqb a b = true <-> a = b.
Proof. intros a b; destruct (str_eqb_spec a b); split; congruence. Qed.

Lemma str_eqb_neq : forall a b, str_eqb a b = false <-> a <> b.
Proof. intros a b; destruct (str_eqb_spec a b); split; congruence. Qed.

Lemma str_eqb_sym : forall a b, str_eqb a b = str_eqb b a.
Proof. intros a b; destruct (str_eqb_spec a b), (str_eqb_spec b a); congruence. Qed.

Ltac streq := repeat match goal with
  | |- context [str_eqb ?a ?b] => destruct (str_eqb_spec a b); subst
  | H : context [str_eqb ?a ?b] |- _ => destruct (str_eqb_spec a b); subst
  end.

Lemma code_eqb_spec : forall a b, reflect (a = b) (code_eqb a b).
Proof. intros a b. unfold code_eqb. destruct (code_eq_dec a b); constructor; auto. Qed.

Lemma all_codes_complete : forall c, In c all_codes.
Proof. destruct c; simpl; tauto. Qed.

Lemma code_of_value_value : forall c, code_of_value (code_value c) = Some c.
Proof. destruct c; reflexivity. Qed.

Lemma code_of_value_sound : forall s c, code_of_value s = Some c -> s = code_value c.
Proof.
  unfold code_of_value. intros s c H. apply find_some in H. destruct H as [_ H].
  apply str_eqb_eq in H. congruence.
Qed.

Lemma code_value_nonempty : forall c, code_value c <> [].
Proof. destruct c; discriminate. Qed.

(** ** dicts *)
Section Dict.
  Context {A : Type}.
  Implicit Types (d : dict A) (k : pystr).

  Lemma dget_dset_same : forall d k v, dget (dset d k v) k = Some v.
  Proof.
    induction d as [|[k' v'] d IH]; intros; simpl.
    - now rewrite str_eqb_refl.
    - destruct (str_eqb k' k) eqn:E; simpl; rewrite E; auto.
  Qed.

  Lemma dget_dset_other : forall d k k' v, k <> k' -> dget (dset d k v) k' = dget d k'.
  Proof.
    induction d as [|[a b] d IH]; intros k k' v Hn; simpl.
    - streq; congruence.
    - destruct (str_eqb_spec a k); subst; simpl.
      + streq; congruence.
      + streq; auto.
  Qed.

  Lemma dget_dset : forall d k k' v,
      dget (dset d k v) k' = if str_eqb k k' then Some v else dget d k'.
  Proof. intros. streq; [apply dget_dset_same | now apply dget_dset_other]. Qed.

  Lemma dget_None_notin : forall d k, dget d k = None <-> ~ In k (dkeys d).
  Proof.
    induction d as [|[a b] d IH]; intros; simpl; [tauto|].
    streq; split; intro H; try discriminate.
    - exfalso; apply H; auto.
    - intros [|Hin]; [auto|]. eapply IH; eauto.
    - apply IH. tauto.
  Qed.

  Lemma dget_Some_in : forall d k v, dget d k = Some v -> In (k, v) d.
  Proof.
    induction d as [|[a b] d IH]; intros k v; simpl; [discriminate|].
    streq; intros H; [inversion H; auto | right; auto].
  Qed.

  Lemma dget_in_keys : forall d k v, dget d k = Some v -> In k (dkeys d).
  Proof. intros d k v H. apply dget_Some_in in H. now apply (in_map fst) in H. Qed.

  Lemma dkeys_dset_mem : forall d k v v0, dget d k = Some v0 -> dkeys (dset d k v) = dkeys d.
  Proof.
    induction d as [|[a b] d IH]; intros; simpl in *; [discriminate|].
    destruct (str_eqb a k); simpl; auto. f_equal. eapply IH; eauto.
  Qed.

  Lemma dset_notin : forall d k v, dget d k = None -> dset d k v = d ++ [(k, v)].
  Proof.
    induction d as [|[a b] d IH]; intros; simpl in *; auto.
    destruct (str_eqb a k); [discriminate|]. f_equal; auto.
  Qed.

  Lemma dkeys_dset_notmem : forall d k v, dget d k = None -> dkeys (dset d k v) = dkeys d ++ [k].
  Proof. intros. rewrite dset_notin by auto. unfold dkeys. now rewrite map_app. Qed.

  Lemma dget_ddel_same : forall d k, NoDup (dkeys d) -> dget (ddel d k) k = None.
  Proof.
    induction d as [|[a b] d IH]; intros k ND; simpl; auto.
    inversion ND; subst. streq; simpl.
    - now apply dget_None_notin.
    - streq; [congruence|auto].
  Qed.

  Lemma dget_ddel_other : forall d k k', k <> k' -> dget (ddel d k) k' = dget d k'.
  Proof.
    induction d as [|[a b] d IH]; intros k k' Hn; simpl; auto.
    streq; simpl; streq; auto; congruence.
  Qed.

  Lemma dkeys_ddel : forall d k, NoDup (dkeys d) ->
      dkeys (ddel d k) = filter (fun x => negb (str_eqb x k)) (dkeys d).
  Proof.
    induction d as [|[a b] d IH]; intros k ND; simpl; auto.
    inversion ND; subst. streq; simpl.
    - symmetry. rewrite <- (map_id (dkeys d)) at 2.
      assert (E : forall l, ~ In k l -> filter (fun x => negb (str_eqb x k)) l = l).
      { induction l; simpl; auto. intros. streq; simpl; [tauto|f_equal; tauto]. }
      rewrite map_id. now apply E.
    - f_equal; auto.
  Qed.

  Lemma ddel_notin : forall d k, dget d k = None -> ddel d k = d.
  Proof.
    induction d as [|[a b] d IH]; intros k H; simpl in *; auto.
    destruct (str_eqb a k); [discriminate|]. f_equal; auto.
  Qed.

  Lemma NoDup_dset : forall d k v, NoDup (dkeys d) -> NoDup (dkeys (dset d k v)).
  Proof.
    intros d k v ND. destruct (dget d k) eqn:E.
    - erewrite dkeys_dset_mem; eauto.
    - rewrite dkeys_dset_notmem by auto. apply dget_None_notin in E.
      assert (G : forall l, NoDup l -> ~ In k l -> NoDup (l ++ [k])).
      { induction l; simpl; intros H1 H2; [constructor; auto|].
        inversion H1; subst. constructor; [|auto].
        rewrite in_app_iff. simpl. intuition. }
      auto.
  Qed.

  Lemma NoDup_ddel : forall d k, NoDup (dkeys d) -> NoDup (dkeys (ddel d k)).
  Proof. intros. rewrite dkeys_ddel by auto. now apply NoDup_filter. Qed.

  Lemma dget_NoDup_in : forall d k v, NoDup (dkeys d) -> In (k, v) d -> dget d k = Some v.
  Proof.
    induction d as [|[a b] d IH]; intros k v ND H; simpl in *; [tauto|].
    inversion ND; subst. destruct H as [H|H].
    - inversion H; subst. now rewrite str_eqb_refl.
    - streq; auto. exfalso. apply H2. change k with (fst (k, v)). now apply in_map.
  Qed.

  Lemma dmem_true : forall d k, dmem d k = true <-> In k (dkeys d).
  Proof.
    intros. unfold dmem. destruct (dget d k) eqn:E.
    - split; auto. intros _. eapply dget_in_keys; eauto.
    - apply dget_None_notin in E. split; [discriminate|tauto].
  Qed.
End Dict.

Lemma Forall2_impl {A B} (P Q : A -> B -> Prop) (H : forall a b, P a b -> Q a b) l k :
  Forall2 P l k -> Forall2 Q l k.
Proof. induction 1; constructor; auto. Qed.
