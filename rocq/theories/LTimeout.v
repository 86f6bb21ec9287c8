(** Lemmas on the timeout headers. *)
From Coq Require Import List NArith ZArith Bool Lia String ZifyBool ZifyNat.
From Verif Require Import MBase MPyStr MTimeout LBase LPyStr STimeout LFloat.
Import ListNotations.
Local Open Scope Z_scope.

(** ** Header texts *)

Lemma plain_is_digit s : plain_digits s <-> Forall (fun c => is_digit c = true) s.
Proof. unfold plain_digits. split; intro H; eapply Forall_impl; try exact H; intros c; unfold is_digit; lia. Qed.

Lemma plain_digits_b s : forallb is_digit s = true -> plain_digits s.
Proof. intro H. apply plain_is_digit, Forall_forall. now apply forallb_forall. Qed.

Lemma digits_val_fold : forall s a, Forall (fun c => is_digit c = true) s ->
  Z.of_N (fold_left (fun a d => (10 * a + (d - 48))%N) s a) = Z.of_N a * 10 ^ Z.of_nat (List.length s) + decimal s.
Proof.
  induction s as [|c s IH]; intros a H.
  - cbn [fold_left List.length decimal]. lia.
  - inversion H as [|? ? H1 H2]; subst. cbn [fold_left]. rewrite IH by auto. cbn [List.length decimal].
    rewrite Nat2Z.inj_succ, Z.pow_succ_r by lia. unfold is_digit in H1.
    replace (Z.of_N (10 * a + (c - 48))%N) with (10 * Z.of_N a + (Z.of_N c - 48)) by lia. ring.
Qed.

Lemma digits_val_decimal s : plain_digits s -> Z.of_N (digits_val s) = decimal s.
Proof. intro H. apply plain_is_digit in H. unfold digits_val. rewrite digits_val_fold by auto. lia. Qed.

Lemma decimal_bound : forall s, plain_digits s -> 0 <= decimal s < 10 ^ Z.of_nat (List.length s).
Proof.
  induction s as [|c s IH]; intro H.
  - cbn. lia.
  - inversion H as [|? ? H1 H2]; subst. cbn [decimal List.length]. rewrite Nat2Z.inj_succ, Z.pow_succ_r by lia.
    specialize (IH H2). nia.
Qed.

Lemma dec_lower : forall n, (0 < n)%N -> 10 ^ (Z.of_nat (List.length (dec_of_N n)) - 1) <= Z.of_N n.
Proof.
  intros n Hn. destruct (dec_of_N_hd n ltac:(lia)) as [d [t [E Hd]]].
  pose proof (dec_of_N_val n) as V. pose proof (dec_of_N_digits n) as D. rewrite E in V, D.
  apply plain_is_digit in D. pose proof (digits_val_decimal _ D) as Q. rewrite V in Q. rewrite E, Q. cbn [decimal List.length].
  inversion D as [|? ? _ D2]; subst. pose proof (decimal_bound t D2).
  replace (Z.of_nat (S (List.length t)) - 1) with (Z.of_nat (List.length t)) by lia.
  assert (0 < 10 ^ Z.of_nat (List.length t)) by (apply Z.pow_pos_nonneg; lia). nia.
Qed.

Lemma dec_of_Z_length z k : 0 <= z < 10 ^ Z.of_nat k -> (1 <= k)%nat -> (1 <= List.length (dec_of_Z z) <= k)%nat.
Proof.
  intros [H1 H2] Hk. rewrite dec_of_Z_nonneg by auto. pose proof (dec_of_N_nonempty (Z.to_N z)) as N0.
  assert (1 <= List.length (dec_of_N (Z.to_N z)))%nat by (destruct (dec_of_N (Z.to_N z)); [congruence|cbn; lia]).
  split; auto. destruct (Z.eq_dec z 0) as [->|Hz]; [cbn; lia|].
  pose proof (dec_lower (Z.to_N z) ltac:(lia)) as L. rewrite Z2N.id in L by auto.
  destruct (Nat.le_gt_cases (List.length (dec_of_N (Z.to_N z))) k) as [|G]; auto. exfalso.
  assert (10 ^ Z.of_nat k <= 10 ^ (Z.of_nat (List.length (dec_of_N (Z.to_N z))) - 1)) by (apply Z.pow_le_mono_r; lia).
  lia.
Qed.

Lemma dec_of_Z_long z k : 10 ^ Z.of_nat k <= z -> (k < List.length (dec_of_Z z))%nat.
Proof.
  intro H. assert (0 < 10 ^ Z.of_nat k) by (apply Z.pow_pos_nonneg; lia).
  rewrite dec_of_Z_nonneg by lia. pose proof (dec_of_N_digits (Z.to_N z)) as D. apply plain_is_digit in D.
  pose proof (decimal_bound _ D) as B. rewrite <- digits_val_decimal in B by auto. rewrite dec_of_N_val, Z2N.id in B by lia.
  destruct (Nat.le_gt_cases (List.length (dec_of_N (Z.to_N z))) k) as [L|]; auto. exfalso.
  assert (10 ^ Z.of_nat (List.length (dec_of_N (Z.to_N z))) <= 10 ^ Z.of_nat k) by (apply Z.pow_le_mono_r; lia). lia.
Qed.

Lemma dec_of_Z_plain z : 0 <= z -> plain_digits (dec_of_Z z) /\ decimal (dec_of_Z z) = z.
Proof.
  intro H. rewrite dec_of_Z_nonneg by auto. assert (P : plain_digits (dec_of_N (Z.to_N z))) by (apply plain_is_digit; apply dec_of_N_digits).
  split; auto. rewrite <- digits_val_decimal by auto. rewrite dec_of_N_val. lia.
Qed.

Lemma last_snoc {A} (l : list A) x e : last (l ++ [x]) e = x.
Proof. induction l as [|a l IH]; auto. cbn [app last]. destruct (l ++ [x]) eqn:E; auto. destruct l; discriminate. Qed.

Lemma removelast_snoc {A} (l : list A) x : removelast (l ++ [x]) = l.
Proof. rewrite removelast_app by discriminate. apply app_nil_r. Qed.

Lemma lookup_unit u k : unit_ns u = Some k ->
  exists f, lookup_timeout_unit u = Some f /\ forall v, 0 <= v <= 99999999 -> scale_timeout v f = Ok (v * k / 1000000).
Proof.
  intro H.
  assert (C : u = 72%N /\ k = 3600000000000 \/ u = 77%N /\ k = 60000000000 \/ u = 83%N /\ k = 1000000000
              \/ u = 109%N /\ k = 1000000 \/ u = 117%N /\ k = 1000 \/ u = 110%N /\ k = 1).
  { unfold unit_ns in H. destruct u as [|p]; [discriminate|].
    do 7 (destruct p as [p|p|]; try discriminate H); inversion H; lia. }
  destruct C as [[-> ->]|[[-> ->]|[[-> ->]|[[-> ->]|[[-> ->]|[-> ->]]]]]]; (eexists; split; [reflexivity|]); intros v Hv; unfold scale_timeout.
  1-4: f_equal; Z.to_euclidean_division_equations; lia.
  - replace (2 ^ 1024 - 2 ^ 970 <=? Z.abs v) with false.
    + rewrite scale_milli by auto. f_equal. Z.to_euclidean_division_equations; lia.
    + symmetry. apply Z.leb_gt. apply Z.lt_trans with (2 ^ 40); [change (2 ^ 40) with 1099511627776; lia|reflexivity].
  - replace (2 ^ 1024 - 2 ^ 970 <=? Z.abs v) with false.
    + rewrite scale_micro by auto. f_equal. now rewrite Z.mul_1_r.
    + symmetry. apply Z.leb_gt. apply Z.lt_trans with (2 ^ 40); [change (2 ^ 40) with 1099511627776; lia|reflexivity].
Qed.

Lemma parse_grpc_text s v k : grpc_timeout_text s v k -> grpc_server_timeout (Some s) = Ok (Some (v * k / 1000000)).
Proof.
  intros [ds [u [-> [P [L [V U]]]]]]. destruct (lookup_unit u k U) as [f [F S]].
  assert (N0 : ds <> []) by (destruct ds; [cbn in L; lia|discriminate]).
  pose proof (decimal_bound ds P) as B. assert (10 ^ Z.of_nat (List.length ds) <= 10 ^ 8) by (apply Z.pow_le_mono_r; lia).
  change (10 ^ 8) with 100000000 in *.
  assert (E : parse_timeout (ds ++ [u]) = Ok (v * k / 1000000)).
  { unfold parse_timeout. rewrite last_snoc, removelast_snoc, F.
    rewrite int_of_str_digits; [|now apply plain_is_digit|auto|lia].
    rewrite digits_val_decimal by auto. rewrite V in *. replace (99999999 <? v) with false by lia. apply S. lia. }
  unfold grpc_server_timeout. destruct ds as [|c ds]; [congruence|]. cbn [app] in *. now rewrite E.
Qed.

(** ** Texts without signs, underscores and spaces *)

Definition ordinary (c : N) : Prop := (33 <= c <= 126)%N /\ c <> 43%N /\ c <> 45%N /\ c <> 95%N.

Lemma ordinary_b s :
  forallb (fun c => (33 <=? c) && (c <=? 126) && negb (c =? 43) && negb (c =? 45) && negb (c =? 95))%N s = true -> Forall ordinary s.
Proof. intro H. apply Forall_forall. intros c Hc. rewrite forallb_forall in H. specialize (H c Hc). unfold ordinary. lia. Qed.

Lemma int_digits_ordinary : forall s p l, Forall ordinary s -> int_digits p s = Some l -> l = s /\ plain_digits s.
Proof.
  induction s as [|c s IH]; intros p l H E; cbn [int_digits] in E.
  - destruct p; inversion E. split; auto. constructor.
  - inversion H as [|? ? H1 H2]; subst. destruct (is_digit c) eqn:D.
    + destruct (int_digits true s) as [r|] eqn:R; [|discriminate]. destruct (IH _ _ H2 R) as [-> P].
      inversion E; subst. split; auto. constructor; auto. unfold is_digit in D. lia.
    + destruct H1 as [_ [_ [_ H95]]]. replace (c =? 95)%N with false in E by lia. discriminate.
Qed.

Lemma int_of_str_ordinary s z : Forall ordinary s -> int_of_str s = Some z ->
  plain_digits s /\ s <> [] /\ z = decimal s.
Proof.
  intros H E. unfold int_of_str in E.
  assert (M : map int_norm s = s).
  { clear E. induction s as [|c s IH]; auto. inversion H as [|? ? [H1 _] H2]; subst. cbn [map]. rewrite IH by auto.
    unfold int_norm. now replace (c <? 127)%N with true by lia. }
  assert (Sp : Forall (fun c => is_cspace c = false) s).
  { eapply Forall_impl; [|exact H]. intros c [Hc _]. unfold is_cspace. lia. }
  rewrite M, drop_while_id, rstrip_by_id in E by auto.
  assert (Hm : match s with 43%N :: t => (false, t) | 45%N :: t => (true, t) | _ => (false, s) end = (false, s)).
  { destruct s as [|c s]; auto. inversion H as [|? ? [_ [H43 [H45 _]]] _]; subst.
    destruct c as [|p]; auto. do 6 (destruct p as [p|p|]; auto; try congruence). }
  rewrite Hm in E. destruct (int_digits false s) as [ds|] eqn:D; [|discriminate].
  assert (N0 : s <> []) by (intros ->; discriminate D).
  destruct (int_digits_ordinary _ _ _ H D) as [-> P]. destruct (4300 <? _)%N; [discriminate|].
  inversion E. split; auto. split; auto. now apply digits_val_decimal.
Qed.

Lemma plain_ordinary s : plain_digits s -> Forall ordinary s.
Proof. intro H. eapply Forall_impl; [|exact H]. intros c Hc. unfold ordinary. cbv beta in Hc. lia. Qed.

Lemma lookup_unit_inv u f : lookup_timeout_unit u = Some f -> exists k, unit_ns u = Some k.
Proof.
  unfold lookup_timeout_unit. intro H.
  assert (C : (u = 72 \/ u = 77 \/ u = 83 \/ u = 109 \/ u = 117 \/ u = 110)%N).
  { destruct (u =? 72)%N eqn:?; [lia|]. destruct (u =? 77)%N eqn:?; [lia|]. destruct (u =? 83)%N eqn:?; [lia|].
    destruct (u =? 109)%N eqn:?; [lia|]. destruct (u =? 117)%N eqn:?; [lia|]. destruct (u =? 110)%N eqn:?; [lia|discriminate]. }
  repeat (destruct C as [-> | C]; [eexists; reflexivity|]). subst. eexists; reflexivity.
Qed.

Lemma serialize_text t : 0 < t < grpc_limit_ms -> exists v k,
  grpc_timeout_text (serialize_timeout t) v k /\ v = t * 1000000 / k
  /\ (t < 100000000 -> k = 1000000) /\ (t < 100000000000 -> k <= 1000000000) /\ (t < 6000000000000 -> k <= 60000000000)
  /\ 0 < k <= 3600000000000 /\ k mod 1000000 = 0.
Proof.
  intros [H1 H2]. unfold grpc_limit_ms in H2. unfold serialize_timeout. replace (t <=? 0) with false by lia.
  assert (G : forall size u, (unit_ns u = Some (size * 1000000)) -> 0 < size -> t / size < 100000000 ->
     grpc_timeout_text (dec_of_Z (t / size) ++ [u]) (t / size) (size * 1000000)).
  { intros size u U Hs Hb. assert (0 <= t / size) by (apply Z.div_pos; lia).
    exists (dec_of_Z (t / size)), u. destruct (dec_of_Z_plain (t / size)) as [P D]; auto.
    repeat split; auto; apply (dec_of_Z_length (t / size) 8); change (10 ^ Z.of_nat 8) with 100000000; lia. }
  assert (Dv : forall size, 0 < size -> t / size = t * 1000000 / (size * 1000000)) by (intros; rewrite Z.div_mul_cancel_r; lia).
  destruct (t <? 100000000) eqn:E1; [|destruct (t <? 100000000 * 1000) eqn:E2; [|destruct (t <? 100000000 * 60 * 1000) eqn:E3]];
  cbv beta iota zeta.
  - exists (t / 1), (1 * 1000000). split; [apply G; auto; try lia; Z.to_euclidean_division_equations; lia|]. split; [apply Dv; lia|]. repeat split; intros; lia.
  - exists (t / (1 * 1000)), (1 * 1000 * 1000000). split; [apply G; auto; try lia; Z.to_euclidean_division_equations; lia|]. split; [apply Dv; lia|]. repeat split; intros; lia.
  - exists (t / (60 * 1000)), (60 * 1000 * 1000000). split; [apply G; auto; try lia; Z.to_euclidean_division_equations; lia|]. split; [apply Dv; lia|]. repeat split; intros; lia.
  - exists (t / (60 * 60 * 1000)), (60 * 60 * 1000 * 1000000). split; [apply G; auto; try lia; Z.to_euclidean_division_equations; lia|]. split; [apply Dv; lia|]. repeat split; intros; lia.
Qed.

Lemma serialize_too_long t : grpc_limit_ms <= t -> exists e, grpc_server_timeout (Some (serialize_timeout t)) = Raise e.
Proof.
  unfold grpc_limit_ms. intro H. unfold serialize_timeout. replace (t <=? 0) with false by lia.
  replace (t <? 100000000) with false by lia. replace (t <? 100000000 * 1000) with false by lia.
  replace (t <? 100000000 * 60 * 1000) with false by lia. cbv beta iota zeta.
  set (w := t / (60 * 60 * 1000)). assert (Hw : 100000000 <= w) by (unfold w; Z.to_euclidean_division_equations; lia).
  assert (E : exists e, parse_timeout (dec_of_Z w ++ [72%N]) = Raise e).
  { unfold parse_timeout. rewrite last_snoc, removelast_snoc. cbn [lookup_timeout_unit].
    change (lookup_timeout_unit 72) with (Some (FInt 3600000)). cbv beta iota.
    destruct (int_of_str (dec_of_Z w)) as [z|] eqn:I; [|eexists; reflexivity].
    assert (Hz : z = w).
    { destruct (dec_of_Z_plain w) as [P D]; [lia|].
      destruct (int_of_str_ordinary _ _ (plain_ordinary _ P) I) as [_ [_ ->]]; auto. }
    subst z. replace (99999999 <? w) with true by lia. eexists; reflexivity. }
  unfold grpc_server_timeout. destruct E as [e E]. exists e.
  destruct (dec_of_Z w ++ [72%N]) as [|c l] eqn:N0; [destruct (dec_of_Z w); discriminate|]. now rewrite E.
Qed.
