(** UTF-8 round trips. *)
From Coq Require Import List NArith ZArith Bool Lia ZifyBool.
From Verif Require Import MBase MUtf8.
Import ListNotations.
Local Open Scope N_scope.
Ltac Zify.zify_post_hook ::= Z.to_euclidean_division_equations.

Lemma is_scalarb_spec : forall c, is_scalarb c = true <-> is_scalar c.
Proof.
  intro c. unfold is_scalarb, is_scalar. rewrite andb_true_iff, negb_true_iff, N.ltb_lt. tauto.
Qed.

Ltac nb := repeat match goal with
  | |- context [if ?b then _ else _] =>
      let E := fresh "E" in destruct b eqn:E
  end.

Lemma utf8_char_bytes : forall c, c < 1114112 -> is_bytes (utf8_char c).
Proof.
  intros c H. unfold utf8_char. nb; repeat constructor; unfold is_byte; lia.
Qed.

Lemma utf8_char_decode : forall b c rest,
    c < 1114112 -> (is_surrogate c = false \/ b = true) ->
    utf8_decode_gen b (utf8_char c ++ rest) =
    match utf8_decode_gen b rest with Some r => Some (c :: r) | None => None end.
Proof.
  intros b c rest Hc Hs. unfold utf8_char.
  destruct (c <? 128) eqn:E1; [simpl; now rewrite E1|].
  destruct (c <? 2048) eqn:E2.
  { cbn [app utf8_decode_gen]. unfold in_range, cont.
    replace (192 + c / 64 <? 128) with false by lia.
    replace ((194 <=? 192 + c / 64) && (192 + c / 64 <=? 223)) with true by lia.
    replace ((128 <=? 128 + c mod 64) && (128 + c mod 64 <? 192)) with true by lia.
    destruct (utf8_decode_gen b rest); auto. f_equal. f_equal. lia. }
  destruct (c <? 65536) eqn:E3.
  { cbn [app utf8_decode_gen]. unfold in_range, cont.
    replace (224 + c / 4096 <? 128) with false by lia.
    replace ((194 <=? 224 + c / 4096) && (224 + c / 4096 <=? 223)) with false by lia.
    replace ((224 <=? 224 + c / 4096) && (224 + c / 4096 <=? 239)) with true by lia.
    assert (S : second3 b (224 + c / 4096) (128 + (c / 64) mod 64) = true).
    { unfold second3, in_range, cont. unfold is_surrogate in Hs.
      destruct (224 + c / 4096 =? 224) eqn:A; [lia|].
      destruct ((224 + c / 4096 =? 237) && negb b) eqn:B; [|lia].
      apply andb_prop in B. destruct B as [B1 B2].
      destruct Hs as [Hs|Hs]; [|subst; discriminate]. lia. }
    rewrite S. replace ((128 <=? 128 + c mod 64) && (128 + c mod 64 <? 192)) with true by lia.
    simpl andb. cbv iota.
    destruct (utf8_decode_gen b rest); auto. f_equal. f_equal. lia. }
  cbn [app utf8_decode_gen]. unfold in_range, cont.
  replace (240 + c / 262144 <? 128) with false by lia.
  replace ((194 <=? 240 + c / 262144) && (240 + c / 262144 <=? 223)) with false by lia.
  replace ((224 <=? 240 + c / 262144) && (240 + c / 262144 <=? 239)) with false by lia.
  replace ((240 <=? 240 + c / 262144) && (240 + c / 262144 <=? 244)) with true by lia.
  assert (S : second4 (240 + c / 262144) (128 + (c / 4096) mod 64) = true).
  { unfold second4, in_range, cont.
    destruct (240 + c / 262144 =? 240) eqn:A; [lia|].
    destruct (240 + c / 262144 =? 244) eqn:B; lia. }
  rewrite S.
  replace ((128 <=? 128 + (c / 64) mod 64) && (128 + (c / 64) mod 64 <? 192)) with true by lia.
  replace ((128 <=? 128 + c mod 64) && (128 + c mod 64 <? 192)) with true by lia.
  simpl andb. cbv iota.
  destruct (utf8_decode_gen b rest); auto. f_equal. f_equal. lia.
Qed.

Lemma utf8_char_replace : forall c rest, is_scalar c ->
    utf8_decode_replace (utf8_char c ++ rest) = c :: utf8_decode_replace rest.
Proof.
  intros c rest [Hc Hs]. unfold utf8_char.
  destruct (c <? 128) eqn:E1; [simpl; now rewrite E1|].
  destruct (c <? 2048) eqn:E2.
  { cbn [app utf8_decode_replace]. unfold in_range, cont.
    replace (192 + c / 64 <? 128) with false by lia.
    replace ((194 <=? 192 + c / 64) && (192 + c / 64 <=? 223)) with true by lia.
    replace ((128 <=? 128 + c mod 64) && (128 + c mod 64 <? 192)) with true by lia.
    f_equal. lia. }
  destruct (c <? 65536) eqn:E3.
  { cbn [app utf8_decode_replace]. unfold in_range, cont.
    replace (224 + c / 4096 <? 128) with false by lia.
    replace ((194 <=? 224 + c / 4096) && (224 + c / 4096 <=? 223)) with false by lia.
    replace ((224 <=? 224 + c / 4096) && (224 + c / 4096 <=? 239)) with true by lia.
    assert (S : second3 false (224 + c / 4096) (128 + (c / 64) mod 64) = true).
    { unfold second3, in_range, cont. unfold is_surrogate in Hs.
      destruct (224 + c / 4096 =? 224) eqn:A; [lia|].
      destruct ((224 + c / 4096 =? 237) && negb false) eqn:B; lia. }
    rewrite S. replace ((128 <=? 128 + c mod 64) && (128 + c mod 64 <? 192)) with true by lia.
    f_equal. lia. }
  cbn [app utf8_decode_replace]. unfold in_range, cont.
  replace (240 + c / 262144 <? 128) with false by lia.
  replace ((194 <=? 240 + c / 262144) && (240 + c / 262144 <=? 223)) with false by lia.
  replace ((224 <=? 240 + c / 262144) && (240 + c / 262144 <=? 239)) with false by lia.
  replace ((240 <=? 240 + c / 262144) && (240 + c / 262144 <=? 244)) with true by lia.
  assert (S : second4 (240 + c / 262144) (128 + (c / 4096) mod 64) = true).
  { unfold second4, in_range, cont.
    destruct (240 + c / 262144 =? 240) eqn:A; [lia|].
    destruct (240 + c / 262144 =? 244) eqn:B; lia. }
  rewrite S.
  replace ((128 <=? 128 + (c / 64) mod 64) && (128 + (c / 64) mod 64 <? 192)) with true by lia.
  replace ((128 <=? 128 + c mod 64) && (128 + c mod 64 <? 192)) with true by lia.
  f_equal. lia.
Qed.

Lemma utf8_encode_some : forall s, Forall is_scalar s -> exists b, utf8_encode s = Some b.
Proof.
  induction s as [|c s IH]; intros H; [now exists []|].
  inversion H; subst. destruct (IH H3) as [b Hb]. simpl. rewrite Hb.
  apply is_scalarb_spec in H2. rewrite H2. eauto.
Qed.

Lemma utf8_encode_scalar : forall s b, utf8_encode s = Some b -> Forall is_scalar s.
Proof.
  induction s as [|c s IH]; intros b H; [constructor|]. simpl in H.
  destruct (is_scalarb c) eqn:E; [|discriminate].
  destruct (utf8_encode s) eqn:E2; [|discriminate].
  constructor; [now apply is_scalarb_spec|eauto].
Qed.

Lemma utf8_encode_flat : forall s b, utf8_encode s = Some b -> b = flat_map utf8_char s.
Proof.
  induction s as [|c s IH]; intros b H; simpl in *; [congruence|].
  destruct (is_scalarb c); [|discriminate]. destruct (utf8_encode s) eqn:E; [|discriminate].
  inversion H. f_equal. auto.
Qed.

Lemma utf8_encode_bytes : forall s b, utf8_encode s = Some b -> is_bytes b.
Proof.
  intros s b H. pose proof (utf8_encode_scalar _ _ H) as Hs. apply utf8_encode_flat in H. subst.
  induction Hs as [|c s Hc Hs IH]; simpl; [constructor|].
  apply Forall_app. split; auto. apply utf8_char_bytes. apply Hc.
Qed.

Lemma utf8_roundtrip_gen : forall x s b, utf8_encode s = Some b -> utf8_decode_gen x b = Some s.
Proof.
  induction s as [|c s IH]; intros b H; simpl in H; [inversion H; reflexivity|].
  destruct (is_scalarb c) eqn:E; [|discriminate].
  destruct (utf8_encode s) eqn:E2; [|discriminate]. inversion H; subst; clear H.
  apply is_scalarb_spec in E. destruct E as [E1 E3].
  rewrite utf8_char_decode by auto. now rewrite (IH _ eq_refl).
Qed.

Lemma utf8_roundtrip : forall s b, utf8_encode s = Some b -> utf8_decode b = Some s.
Proof. intros. now apply utf8_roundtrip_gen. Qed.

Lemma utf8_roundtrip_replace : forall s b, utf8_encode s = Some b -> utf8_decode_replace b = s.
Proof.
  induction s as [|c s IH]; intros b H; simpl in H; [inversion H; reflexivity|].
  destruct (is_scalarb c) eqn:E; [|discriminate].
  destruct (utf8_encode s) eqn:E2; [|discriminate]. inversion H; subst; clear H.
  apply is_scalarb_spec in E. rewrite utf8_char_replace by auto. now rewrite (IH _ eq_refl).
Qed.

Lemma utf8_encode_ascii : forall s, Forall (fun c => c < 128) s -> utf8_encode s = Some s.
Proof.
  induction 1 as [|c s H Hs IH]; simpl; auto. rewrite IH.
  unfold utf8_char. replace (c <? 128) with true by lia.
  unfold is_scalarb, is_surrogate.
  replace (c <? 1114112) with true by lia.
  replace ((55296 <=? c) && (c <=? 57343)) with false by lia. reflexivity.
Qed.

Lemma utf8_decode_ascii : forall x s, Forall (fun c => c < 128) s -> utf8_decode_gen x s = Some s.
Proof. intros. apply utf8_roundtrip_gen. now apply utf8_encode_ascii. Qed.

Lemma utf8_replace_ascii : forall s, Forall (fun c => c < 128) s -> utf8_decode_replace s = s.
Proof. intros. apply utf8_roundtrip_replace. now apply utf8_encode_ascii. Qed.

Lemma utf8_encode_app : forall a b x y,
    utf8_encode a = Some x -> utf8_encode b = Some y -> utf8_encode (a ++ b) = Some (x ++ y).
Proof.
  induction a as [|c a IH]; intros b x y Ha Hb; simpl in *; [inversion Ha; auto|].
  destruct (is_scalarb c); [|discriminate]. destruct (utf8_encode a) eqn:E; [|discriminate].
  inversion Ha; subst. erewrite IH; eauto. now rewrite app_assoc.
Qed.
