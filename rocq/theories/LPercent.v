(** Percent encoding round trips. *)
From Coq Require Import List NArith ZArith Bool Lia ZifyBool.
From Verif Require Import MBase MPyStr MUtf8 MPercent LBase LPyStr LUtf8.
Import ListNotations.
Local Open Scope N_scope.
Ltac Zify.zify_post_hook ::= Z.to_euclidean_division_equations.

Lemma hex_val_up : forall v, v < 16 -> hex_val (hex_up v) = Some v.
Proof.
  intros v H. unfold hex_val, hex_up. destruct (v <? 10) eqn:E.
  - replace ((48 <=? 48 + v) && (48 + v <=? 57)) with true by lia. f_equal. lia.
  - replace ((48 <=? 55 + v) && (55 + v <=? 57)) with false by lia.
    replace ((65 <=? 55 + v) && (55 + v <=? 70)) with true by lia. f_equal. lia.
Qed.

Lemma hex_up_range : forall v, v < 16 -> 48 <= hex_up v <= 70.
Proof. intros v H. unfold hex_up. destruct (v <? 10) eqn:E; lia. Qed.

(** Characters that may appear in a quoted string. *)
Definition quoted_char (c : N) : bool := always_safe c || (c =? 37).

Lemma hex_up_safe : forall v, v < 16 -> always_safe (hex_up v) = true.
Proof. intros v H. unfold always_safe, hex_up. destruct (v <? 10) eqn:E; lia. Qed.

Lemma quote_byte_chars : forall b, is_byte b -> Forall (fun c => quoted_char c = true) (quote_byte b).
Proof.
  intros b H. unfold is_byte in H. unfold quote_byte, quoted_char.
  destruct (always_safe b) eqn:E.
  - constructor; [now rewrite E|constructor].
  - repeat apply Forall_cons; auto using Forall_nil; rewrite hex_up_safe; auto; lia.
Qed.

Lemma quote_bytes_chars : forall bs, is_bytes bs -> Forall (fun c => quoted_char c = true) (quote_from_bytes bs).
Proof.
  induction 1; simpl; [constructor|]. apply Forall_app. split; auto using quote_byte_chars.
Qed.

Lemma quoted_char_ascii : forall c, quoted_char c = true -> 33 <= c <= 126.
Proof. intros c H. unfold quoted_char, always_safe in H. lia. Qed.

Lemma unquote_quote_byte : forall b rest, is_byte b ->
    unquote_to_bytes (quote_byte b ++ rest) = b :: unquote_to_bytes rest.
Proof.
  intros b rest H. unfold is_byte in H. unfold quote_byte. destruct (always_safe b) eqn:E.
  - cbn [app unquote_to_bytes]. replace (b =? 37) with false; [reflexivity|].
    unfold always_safe in E. lia.
  - cbn [app unquote_to_bytes]. simpl (37 =? 37). cbv iota.
    rewrite !hex_val_up by lia. f_equal. lia.
Qed.

Lemma unquote_quote_bytes : forall bs, is_bytes bs -> unquote_to_bytes (quote_from_bytes bs) = bs.
Proof.
  induction 1; simpl; auto. unfold quote_from_bytes in *. simpl.
  rewrite unquote_quote_byte by auto. now f_equal.
Qed.

Lemma ascii_runs_ascii : forall s, Forall (fun c => c < 128) s ->
    ascii_runs s = match s with [] => [] | _ => [(true, s)] end.
Proof.
  induction 1 as [|c s H Hs IH]; auto. cbn [ascii_runs]. rewrite IH.
  replace (c <? 128) with true by lia. destruct s; auto.
Qed.

Lemma unquote_ascii : forall s, Forall (fun c => c < 128) s ->
    unquote s = utf8_decode_replace (unquote_to_bytes s).
Proof.
  intros s H. unfold unquote. rewrite ascii_runs_ascii by auto.
  destruct s; [reflexivity|]. cbn [flat_map fst snd]. now rewrite app_nil_r.
Qed.

Lemma quoted_lt128 : forall s, Forall (fun c => quoted_char c = true) s -> Forall (fun c => c < 128) s.
Proof. intros s H. eapply Forall_impl; [|exact H]. intros c Hc. apply quoted_char_ascii in Hc. lia. Qed.

Lemma unquote_quote : forall s q, quote s = Some q -> unquote q = s.
Proof.
  intros s q H. unfold quote in H. destruct (utf8_encode s) as [bs|] eqn:E; [|discriminate].
  inversion H; subst. pose proof (utf8_encode_bytes _ _ E) as B.
  rewrite unquote_ascii by (apply quoted_lt128, quote_bytes_chars; auto).
  rewrite unquote_quote_bytes by auto. now apply utf8_roundtrip_replace.
Qed.

Lemma quote_some : forall s, Forall is_scalar s -> exists q, quote s = Some q.
Proof.
  intros s H. destruct (utf8_encode_some s H) as [b Hb]. unfold quote. rewrite Hb. eauto.
Qed.

Lemma quote_chars : forall s q, quote s = Some q -> Forall (fun c => quoted_char c = true) q.
Proof.
  intros s q H. unfold quote in H. destruct (utf8_encode s) as [bs|] eqn:E; [|discriminate].
  inversion H; subst. apply quote_bytes_chars. eapply utf8_encode_bytes; eauto.
Qed.

(** ** Query strings *)
Definition qp_char (c : N) : bool := quoted_char c || (c =? 43).

Lemma quote_plus_chars : forall s q, quote_plus s = Some q -> Forall (fun c => qp_char c = true) q.
Proof.
  intros s q H. unfold quote_plus in H. destruct (utf8_encode s) as [bs|] eqn:E; [|discriminate].
  inversion H; subst. pose proof (utf8_encode_bytes _ _ E) as B. clear H E.
  induction B as [|b bs Hb Hbs IH]; simpl; [constructor|]. apply Forall_app. split; auto.
  destruct (b =? 32); [constructor; auto|].
  eapply Forall_impl; [|apply quote_byte_chars; auto]. intros c Hc. cbv beta in Hc. unfold qp_char. now rewrite Hc.
Qed.

Lemma plus_to_space_app : forall a b, plus_to_space (a ++ b) = plus_to_space a ++ plus_to_space b.
Proof. intros. apply map_app. Qed.

Lemma plus_to_space_quote_byte : forall b, is_byte b -> plus_to_space (quote_byte b) = quote_byte b.
Proof.
  intros b H. pose proof (quote_byte_chars b H) as C. induction C; simpl; auto.
  unfold quoted_char, always_safe in H0. replace (x =? 43) with false by lia. now f_equal.
Qed.

Lemma qp_lt128 : forall s, Forall (fun c => qp_char c = true) s -> Forall (fun c => c < 128) s.
Proof.
  intros s H. eapply Forall_impl; [|exact H]. intros c Hc. unfold qp_char, quoted_char, always_safe in Hc. lia.
Qed.

Lemma unquote_quote_plus : forall s q, quote_plus s = Some q -> unquote (plus_to_space q) = s.
Proof.
  intros s q H. pose proof (quote_plus_chars _ _ H) as C.
  unfold quote_plus in H. destruct (utf8_encode s) as [bs|] eqn:E; [|discriminate].
  inversion H; subst. clear H. pose proof (utf8_encode_bytes _ _ E) as B.
  set (q := flat_map _ bs) in *.
  rewrite unquote_ascii.
  2:{ apply qp_lt128 in C. unfold plus_to_space. clear -C. induction C; simpl; constructor; auto.
      destruct (x =? 43); lia. }
  assert (U : unquote_to_bytes (plus_to_space q) = bs).
  { unfold q. clear q C E. induction B as [|b bs Hb Hbs IH]; simpl; auto.
    rewrite plus_to_space_app. destruct (b =? 32) eqn:E.
    - apply N.eqb_eq in E. subst. simpl. now f_equal.
    - rewrite plus_to_space_quote_byte by auto. rewrite unquote_quote_byte by auto. now f_equal. }
  rewrite U. now apply utf8_roundtrip_replace.
Qed.

Lemma qp_not_in : forall s x, Forall (fun c => qp_char c = true) s -> qp_char x = false -> ~ In x s.
Proof. intros s x H Hx Hin. rewrite Forall_forall in H. apply H in Hin. congruence. Qed.

Lemma parse_qsl_urlencode : forall ps q, urlencode ps = Some q -> parse_qsl q = ps.
Proof.
  intros ps q H. unfold urlencode in H. destruct (urlencode_pairs ps) as [l|] eqn:E; [|discriminate].
  inversion H; subst; clear H. unfold parse_qsl.
  destruct ps as [|p0 ps0]; [inversion E; subst; reflexivity|].
  assert (Hl : l <> [] /\ Forall (fun p => ~ In 38 p) l /\
     flat_map (fun nv : pystr =>
              match nv with
              | [] => []
              | _ => let '(n, v) := match split_first 61 nv with
                                    | Some p => p
                                    | None => (nv, [])
                                    end in
                     [(unquote (plus_to_space n), unquote (plus_to_space v))]
              end) l = p0 :: ps0).
  { split; [|].
    - destruct p0 as [k v]. simpl in E. destruct (quote_plus k); [|discriminate].
      destruct (quote_plus v); [|discriminate]. destruct (urlencode_pairs ps0); inversion E. discriminate.
    - revert l E. generalize (p0 :: ps0) as ps. clear. induction ps as [|[k v] ps IH]; intros l E; simpl in E.
      + inversion E; subst. split; constructor.
      + destruct (quote_plus k) as [k'|] eqn:Ek; [|discriminate].
        destruct (quote_plus v) as [v'|] eqn:Ev; [|discriminate].
        destruct (urlencode_pairs ps) as [r|]; inversion E; subst. destruct (IH r eq_refl) as [IH1 IH2].
        pose proof (quote_plus_chars _ _ Ek) as Ck. pose proof (quote_plus_chars _ _ Ev) as Cv.
        split.
        * constructor; auto. rewrite in_app_iff. simpl. intros [Hi|[Hi|Hi]]; [|discriminate|].
          { eapply qp_not_in; [exact Ck| |exact Hi]. reflexivity. }
          { eapply qp_not_in; [exact Cv| |exact Hi]. reflexivity. }
        * cbn [flat_map]. rewrite IH2.
          assert (Hs : split_first 61 (k' ++ 61 :: v') = Some (k', v')).
          { apply split_first_app. eapply qp_not_in; eauto. }
          destruct (k' ++ 61 :: v') as [|c0 s0] eqn:Es; [destruct k'; discriminate|].
          rewrite Hs. rewrite (unquote_quote_plus _ _ Ek), (unquote_quote_plus _ _ Ev). reflexivity. }
  destruct Hl as [Hn [Hf Hm]]. rewrite split_join by auto. exact Hm.
Qed.

Lemma parse_qs_nodup : forall ps acc, NoDup (dkeys acc ++ map fst ps) ->
    fold_left (fun d (nv : pystr * pystr) =>
               let (n, v) := nv in
               dset d n ((match dget d n with Some l => l | None => [] end) ++ [v])) ps acc =
    acc ++ map (fun p => (fst p, [snd p])) ps.
Proof.
  induction ps as [|[k v] ps IH]; intros acc H; simpl; [now rewrite app_nil_r|].
  simpl in H. assert (Hk : ~ In k (dkeys acc)).
  { apply NoDup_remove_2 in H. intro C. apply H. apply in_or_app. auto. }
  assert (G : dget acc k = None) by now apply dget_None_notin.
  rewrite G. simpl. rewrite dset_notin by auto. rewrite IH.
  - now rewrite <- app_assoc.
  - unfold dkeys. rewrite map_app. simpl. rewrite <- app_assoc. exact H.
Qed.

Lemma parse_qs_urlencode : forall ps q, urlencode ps = Some q -> NoDup (map fst ps) ->
    parse_qs q = map (fun p => (fst p, [snd p])) ps.
Proof.
  intros ps q H Hn. unfold parse_qs. rewrite (parse_qsl_urlencode _ _ H).
  now rewrite parse_qs_nodup.
Qed.

Lemma urlencode_some : forall ps, Forall (fun p => Forall is_scalar (fst p) /\ Forall is_scalar (snd p)) ps ->
    exists q, urlencode ps = Some q.
Proof.
  intros ps H. unfold urlencode.
  assert (E : exists l, urlencode_pairs ps = Some l).
  { induction H as [|[k v] ps [Hk Hv] Hps [l IH]]; [now exists []|].
    simpl in *. unfold quote_plus.
    destruct (utf8_encode_some k Hk) as [k' ->]. destruct (utf8_encode_some v Hv) as [v' ->].
    rewrite IH. eauto. }
  destruct E as [l ->]. eauto.
Qed.
