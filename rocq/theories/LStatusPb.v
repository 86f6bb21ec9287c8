(** The protobuf instance satisfies [status_codec_ok]. *)
From Coq Require Import List NArith ZArith Bool Lia String ZifyBool ZifyNat.
From Verif Require Import MBase MPyStr MUtf8 MEnvelope MStatusPb LUtf8 LEnvelope.
Import ListNotations.
Local Open Scope N_scope.
Ltac Zify.zify_post_hook ::= Z.to_euclidean_division_equations.

Lemma varint_enc_ok : forall fuel n rest, (n < 2 ^ N.of_nat (S fuel)) ->
  varint_dec (varint_enc fuel n ++ rest) = Some (n, rest) /\ is_bytes (varint_enc fuel n).
Proof.
  induction fuel as [|f IH]; intros n rest Hn; simpl varint_enc.
  - change (2 ^ N.of_nat 1) with 2 in Hn. simpl. assert (E : n <? 128 = true) by lia. rewrite E.
    split; auto. repeat constructor. unfold is_byte. lia.
  - destruct (n <? 128) eqn:E.
    + simpl. rewrite E. split; auto. repeat constructor. unfold is_byte. lia.
    + assert (Hlt : n / 128 < 2 ^ N.of_nat (S f)).
      { rewrite Nat2N.inj_succ, N.pow_succ_r' in Hn. apply N.div_lt_upper_bound; [lia|].
        pose proof (N.pow_nonzero 2 (N.of_nat (S f)) ltac:(lia)). lia. }
      destruct (IH (n / 128) rest Hlt) as [H1 H2]. split.
      * cbn [app varint_dec]. assert (E2 : n mod 128 + 128 <? 128 = false) by lia. rewrite E2, H1.
        do 2 f_equal. lia.
      * constructor; auto. unfold is_byte. lia.
Qed.

Lemma varint_ok n rest : varint_dec (varint n ++ rest) = Some (n, rest) /\ is_bytes (varint n).
Proof.
  apply varint_enc_ok. rewrite Nat2N.inj_succ, N2Nat.id. destruct (N.eq_dec n 0) as [->|H].
  - reflexivity.
  - apply N.log2_spec. lia.
Qed.

Lemma take_len_ok d rest : take_len (varint (lenN d) ++ d ++ rest) = Some (d, rest).
Proof.
  unfold take_len. destruct (varint_ok (lenN d) (d ++ rest)) as [-> _].
  rewrite lenN_app. assert (E : lenN d + lenN rest <? lenN d = false) by lia. rewrite E.
  rewrite takeN_app, dropN_app. reflexivity.
Qed.

Lemma len_field_bytes tag d : tag < 256 -> is_bytes d -> is_bytes (len_field tag d).
Proof.
  intros Ht Hd. unfold len_field. constructor; auto. apply Forall_app. split; auto.
  exact (proj2 (varint_ok (lenN d) [])).
Qed.

Lemma len_field_length tag d : List.length (len_field tag d) = S (List.length (varint (lenN d)) + List.length d).
Proof. unfold len_field. cbn [List.length]. rewrite app_length. reflexivity. Qed.

Lemma any_ok a x : enc_any a = Some x -> is_bytes (any_value a) ->
  is_bytes x /\ forall fuel, (List.length x < fuel)%nat -> dec_any fuel x (mk_any [] []) = Some a.
Proof.
  unfold enc_any. destruct (utf8_encode (type_url a)) as [u|] eqn:Eu; [|discriminate].
  intros H Hv. injection H as <-.
  pose proof (utf8_encode_bytes _ _ Eu) as Hub.
  assert (Hdec : utf8_decode u = Some (type_url a)) by (apply utf8_roundtrip; auto).
  split.
  - apply Forall_app. split.
    + destruct u; [constructor|]. apply len_field_bytes; [lia|auto].
    + destruct (any_value a) eqn:E; [constructor|]. apply len_field_bytes; [lia|auto].
  - intros fuel Hf.
    assert (Hval : forall fuel t, (List.length (match any_value a with [] => [] | v => len_field 18 v end) < fuel)%nat ->
              dec_any fuel (match any_value a with [] => [] | v => len_field 18 v end) (mk_any t []) =
              Some (mk_any t (any_value a))).
    { intros g t Hg. destruct (any_value a) as [|v0 v] eqn:E.
      - destruct g; [simpl in Hg; lia|]. reflexivity.
      - rewrite len_field_length in Hg. cbn [List.length] in Hg.
        destruct g as [|[|g]]; try (exfalso; lia).
        unfold len_field. cbn [dec_any].
        rewrite <- (app_nil_r (varint (lenN (v0 :: v)) ++ v0 :: v)). rewrite <- app_assoc.
        rewrite take_len_ok. reflexivity. }
    destruct u as [|u0 u].
    + assert (Ht : type_url a = []) by (change (utf8_decode []) with (Some (@nil N)) in Hdec; congruence).
      rewrite app_nil_l in *. rewrite Hval; auto. rewrite <- Ht. destruct a; reflexivity.
    + destruct fuel as [|fuel]; [simpl in Hf; lia|].
      unfold len_field at 1. cbn [dec_any app].
      rewrite <- app_assoc. rewrite take_len_ok, Hdec. cbn [any_value].
      rewrite Hval; [destruct a; reflexivity|].
      rewrite app_length, len_field_length in Hf. lia.
Qed.

Lemma anys_ok l : forall x, enc_anys l = Some x -> Forall (fun a => is_bytes (any_value a)) l ->
  is_bytes x /\ forall fuel c m acc, (List.length x < fuel)%nat ->
    dec_status fuel x (mk_status c m acc) = Some (mk_status c m (acc ++ l)).
Proof.
  induction l as [|a l IH]; intros x Hx Hb; simpl in Hx.
  - injection Hx as <-. split; [constructor|]. intros fuel c m acc Hf.
    destruct fuel; [simpl in Hf; lia|]. simpl. rewrite app_nil_r. reflexivity.
  - destruct (enc_any a) as [y|] eqn:Ea; [|discriminate].
    destruct (enc_anys l) as [z|] eqn:El; [|discriminate]. injection Hx as <-.
    inversion Hb; subst. destruct (any_ok _ _ Ea H1) as [Hyb Hyd].
    destruct (IH _ eq_refl H2) as [Hzb Hzd]. split.
    + change (is_bytes (len_field 26 y ++ z)). apply Forall_app. split; auto. apply len_field_bytes; [lia|auto].
    + intros fuel c m acc Hf. destruct fuel as [|fuel]; [lia|].
      change (26 :: (varint (lenN y) ++ y) ++ z) with (len_field 26 y ++ z) in *.
      unfold len_field. cbn [dec_status app]. rewrite <- app_assoc, take_len_ok.
      rewrite Hyd by lia. cbn [s_code s_message s_details].
      rewrite Hzd.
      * rewrite <- app_assoc. reflexivity.
      * rewrite app_length in Hf. rewrite len_field_length in Hf. lia.
Qed.

Lemma enc_anys_some l : Forall (fun a => text_ok (type_url a)) l -> exists x, enc_anys l = Some x.
Proof.
  induction 1 as [|a l (u&Hu) H (y&Hy)]; simpl; eauto.
  unfold enc_any. rewrite Hu, Hy. eauto.
Qed.

Lemma pb_codec_ok : status_codec_ok pb_codec.
Proof.
  intros [c m l] (Hc&(mb&Hm)&Hl). unfold int32_ok in Hc. cbn [s_code s_message s_details] in *.
  destruct (enc_anys_some l) as (ds&Hds).
  { eapply Forall_impl; [|exact Hl]. simpl. tauto. }
  cbn [pb_codec st_to]. unfold enc_status. cbn [s_message s_details s_code]. rewrite Hm, Hds. eexists. split; [reflexivity|].
  destruct (anys_ok l ds Hds) as [Hdb Hdd].
  { eapply Forall_impl; [|exact Hl]. simpl. tauto. }
  pose proof (utf8_encode_bytes _ _ Hm) as Hmb.
  assert (Hmd : utf8_decode mb = Some m) by (apply utf8_roundtrip; auto).
  split; [|split].
  - apply Forall_app. split; [|apply Forall_app; split; auto].
    + destruct (c =? 0)%Z; constructor; [unfold is_byte; lia|]. exact (proj2 (varint_ok _ [])).
    + destruct mb; [constructor|]. apply len_field_bytes; [lia|auto].
  - assert (Hrest : forall fuel c, (List.length ((match mb with [] => [] | _ => len_field 18 mb end) ++ ds) < fuel)%nat ->
        dec_status fuel ((match mb with [] => [] | _ => len_field 18 mb end) ++ ds) (mk_status c [] []) =
        Some (mk_status c m l)).
    { intros fuel c0 Hf. destruct mb as [|b0 mb].
      - assert (m = []) by (change (utf8_decode []) with (Some (@nil N)) in Hmd; congruence). subst. simpl app in *. rewrite Hdd; auto.
      - destruct fuel as [|fuel]; [lia|]. unfold len_field at 1. cbn [dec_status app].
        rewrite <- app_assoc, take_len_ok, Hmd. cbn [s_code s_message s_details].
        rewrite Hdd; auto. rewrite app_length, len_field_length in Hf. lia. }
    cbv [pb_codec st_from].
    destruct (c =? 0)%Z eqn:Ec.
    + assert (c = 0%Z) by lia. subst c. rewrite app_nil_l.
      rewrite Hrest; auto.
    + remember ((match mb with [] => [] | _ => len_field 18 mb end) ++ ds) as body.
      match goal with |- context[dec_status (S ?n)] => remember n as fl eqn:Hfl end.
      cbn [dec_status app]. rewrite (proj1 (varint_ok _ body)). cbn [s_message s_details].
      rewrite Hrest.
      * do 2 f_equal. unfold N_to_int32, int32_to_N. rewrite Z2N.id by lia.
        destruct (_ <? _)%Z eqn:E; lia.
      * rewrite Hfl. cbn [app List.length]. rewrite app_length. pose proof (varint_ok (int32_to_N c) []).
        assert (List.length (varint (int32_to_N c)) <> 0)%nat.
        { intro H0. apply length_zero_iff_nil in H0. rewrite H0 in H. destruct H as [H _]. discriminate. }
        lia.
  - cbn [s_code]. intro Hc0. assert (Ec : (c =? 0)%Z = false) by lia. rewrite Ec. discriminate.
Qed.
