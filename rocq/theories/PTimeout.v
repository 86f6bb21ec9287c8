(** C26-C30, C32: timeouts on the wire and deadlines. *)
From Coq Require Import List NArith ZArith Bool String Lia ZifyBool ZifyNat.
From Verif Require Import MBase MPyStr MTimeout STimeout LBase LPyStr LFloat LTimeout.
Import ListNotations.
Local Open Scope Z_scope.

(** C26: the deadline the server reads is never later than the client's, is earlier by less than the unit named in
    the header, and that unit is the finest one in which the value fits 8 digits (so nothing is lost below 10^8 ms).
    A timeout that is already over (zero or negative) is read as zero. *)
Theorem C26_deadline_never_grows : forall t, t < grpc_limit_ms ->
  exists r v k, grpc_timeout_text (serialize_timeout t) v k
    /\ grpc_server_timeout (Some (serialize_timeout t)) = Ok (Some r)
    /\ r <= Z.max 0 t
    /\ (Z.max 0 t - r) * 1000000 < k
    /\ (t < 100000000 -> r = Z.max 0 t)
    /\ (t < 100000000000 -> Z.max 0 t - r < 1000)
    /\ (t < 6000000000000 -> Z.max 0 t - r < 60000)
    /\ Z.max 0 t - r < 3600000.
Proof.
  intros t Ht. destruct (Z.le_gt_cases t 0) as [H|H].
  - exists 0, 0, 1.
    assert (T : grpc_timeout_text (serialize_timeout t) 0 1).
    { unfold serialize_timeout. replace (t <=? 0) with true by lia. exists [48%N], 110%N. repeat split; auto; try (cbn; lia).
      apply plain_digits_b; reflexivity. }
    split; auto. split; [exact (parse_grpc_text _ _ _ T)|]. rewrite Z.max_l by lia. repeat split; lia.
  - destruct (serialize_text t) as [v [k [T [V [K1 [K2 [K3 [K4 K5]]]]]]]]; [lia|].
    exists (v * k / 1000000), v, k. split; auto. split; [now apply parse_grpc_text|]. rewrite Z.max_r by lia.
    assert (Hq : exists q, k = q * 1000000) by (exists (k / 1000000); pose proof (Z.div_mod k 1000000); lia).
    destruct Hq as [q ->]. replace (v * (q * 1000000)) with (v * q * 1000000) by ring. rewrite Z.div_mul by lia.
    rewrite Z.div_mul_cancel_r in V by lia. pose proof (Z.div_mod t q ltac:(lia)) as DM. pose proof (Z.mod_pos_bound t q ltac:(lia)) as MB.
    rewrite <- V in DM. replace (v * q) with (q * v) by ring. repeat split; try lia; intros; try lia.
Qed.
Print Assumptions C26_deadline_never_grows.

Example C26_example : grpc_limit_ms = 360000000000000 /\ serialize_timeout 100000999 = lit "100000S"
  /\ grpc_server_timeout (Some (lit "100000S")) = Ok (Some 100000000).
Proof. repeat split; vm_compute; reflexivity. Qed.

(** C27: below 10^8 hours the header is 1 to 8 digits and a unit, and the server accepts it; from there on the server
    rejects it. *)
Theorem C27_accepted_iff : forall t,
  (t < grpc_limit_ms ->
     (exists v k, grpc_timeout_text (serialize_timeout t) v k)
     /\ exists r, grpc_server_timeout (Some (serialize_timeout t)) = Ok (Some r))
  /\ (grpc_limit_ms <= t -> exists e, grpc_server_timeout (Some (serialize_timeout t)) = Raise e).
Proof.
  intro t. split.
  - intro H. destruct (C26_deadline_never_grows t H) as [r [v [k [T [R _]]]]]. eauto.
  - apply serialize_too_long.
Qed.
Print Assumptions C27_accepted_iff.

Example C27_example : 359999999999999 < grpc_limit_ms /\ serialize_timeout 359999999999999 = lit "99999999H"
  /\ serialize_timeout 360000000000000 = lit "100000000H".
Proof. repeat split; vm_compute; reflexivity. Qed.

(** C28: every well-formed grpc-timeout is read as its value in milliseconds rounded down. *)
Theorem C28_exact_milliseconds : forall s v k, grpc_timeout_text s v k ->
  grpc_server_timeout (Some s) = Ok (Some (v * k / 1000000)).
Proof. exact parse_grpc_text. Qed.
Print Assumptions C28_exact_milliseconds.

Example C28_example : grpc_timeout_text (lit "99999999u") 99999999 1000
  /\ grpc_timeout_text (lit "00003n") 3 1 /\ 99999999 * 1000 / 1000000 = 99999.
Proof.
  split; [|split]; [| |reflexivity]; [exists (lit "99999999"), 117%N|exists (lit "00003"), 110%N];
    (repeat split; try (cbn; lia); try reflexivity; apply plain_digits_b; reflexivity).
Qed.

(** Absent and empty headers mean no timeout. *)
Theorem C28_no_header : grpc_server_timeout None = Ok None /\ grpc_server_timeout (Some []) = Ok None
  /\ connect_server_timeout None = Ok None /\ connect_server_timeout (Some []) = Ok None.
Proof. repeat split. Qed.

(** C29, the part that holds: a header made of printable ASCII characters other than + - and _ is accepted only if it
    is decimal digits (followed by a unit for gRPC) with a value in range.  Missing: see the refutations below. *)
Theorem C29_grpc_partial : forall s r, s <> [] -> Forall ordinary s ->
  grpc_server_timeout (Some s) = Ok r ->
  exists ds u k, s = ds ++ [u] /\ ds <> [] /\ plain_digits ds /\ decimal ds <= 99999999 /\ unit_ns u = Some k.
Proof.
  intros s r N0 H E. destruct (exists_last N0) as [ds [u ->]]. apply Forall_app in H as [H _].
  assert (P : exists t, parse_timeout (ds ++ [u]) = Ok t).
  { unfold grpc_server_timeout in E. destruct (ds ++ [u]) as [|c l] eqn:L; [destruct ds; discriminate|].
    destruct (parse_timeout (c :: l)); [eauto|discriminate]. }
  destruct P as [t P]. unfold parse_timeout in P. rewrite last_snoc, removelast_snoc in P.
  destruct (lookup_timeout_unit u) as [f|] eqn:U; [|discriminate]. apply lookup_unit_inv in U as [k U].
  destruct (int_of_str ds) as [z|] eqn:I; [|discriminate]. destruct (int_of_str_ordinary _ _ H I) as [P1 [P2 ->]].
  destruct (99999999 <? decimal ds) eqn:B; [discriminate|]. exists ds, u, k. repeat split; auto. lia.
Qed.
Print Assumptions C29_grpc_partial.

Theorem C29_connect_partial : forall s r, s <> [] -> Forall ordinary s ->
  connect_server_timeout (Some s) = Ok r -> plain_digits s /\ (List.length s <= 10)%nat /\ r = Some (decimal s).
Proof.
  intros s r N0 H E. unfold connect_server_timeout in E. destruct s as [|c s]; [congruence|].
  destruct (10 <? _)%N eqn:L; [discriminate|]. destruct (int_of_str (c :: s)) as [z|] eqn:I; [|discriminate].
  destruct (int_of_str_ordinary _ _ H I) as [P1 [_ ->]]. inversion E. repeat split; auto. lia.
Qed.
Print Assumptions C29_connect_partial.

(** Whatever the text, a rejected connect-timeout-ms is an INVALID_ARGUMENT error. *)
Theorem C29_connect_error : forall h e, connect_server_timeout h = Raise e ->
  exists m, e = EConnect InvalidArgument m [].
Proof.
  intros h e H. unfold connect_server_timeout in H. destruct h as [[|c s]|]; try discriminate.
  destruct (10 <? _)%N; [inversion H; eauto|]. destruct (int_of_str _); inversion H; eauto.
Qed.

Example C29_example : Forall ordinary (lit "12x") /\ (exists e, connect_server_timeout (Some (lit "12x")) = Raise e)
  /\ (exists e, grpc_server_timeout (Some (lit "12x")) = Raise e) /\ (exists e, grpc_server_timeout (Some (lit "123456789m")) = Raise e).
Proof.
  split; [apply ordinary_b; reflexivity|]. repeat split; eexists; vm_compute; reflexivity.
Qed.

(** Full statement of C29, refuted: a header that is not a plain decimal number is accepted. *)
Theorem C29_connect_refuted : exists s r, ~ plain_digits s /\ connect_server_timeout (Some s) = Ok (Some r) /\ r < 0.
Proof.
  exists (lit "-1_0"), (-10). split; [|split; [vm_compute; reflexivity|lia]].
  intro H. inversion H as [|? ? Hc _]; subst. cbv beta in Hc. lia.
Qed.

Theorem C29_grpc_refuted : exists s r, ~ (exists v k, grpc_timeout_text s v k) /\ grpc_server_timeout (Some s) = Ok (Some r) /\ r < 0.
Proof.
  exists (lit "-1m"), (-1). split; [|split; [vm_compute; reflexivity|lia]].
  intros [v [k [ds [u [E [P [_ [_ _]]]]]]]].
  destruct ds as [|c ds]; [discriminate|]. inversion E; subst. inversion P as [|? ? Hc _]; subst. cbv beta in Hc. lia.
Qed.

(** ... and so is a grpc-timeout of more than 8 digits. *)
Theorem C29_grpc_length_refuted : exists ds u k r, plain_digits ds /\ (8 < List.length ds)%nat /\ unit_ns u = Some k
  /\ grpc_server_timeout (Some (ds ++ [u])) = Ok (Some r).
Proof.
  exists (lit "0000000000001"), 109%N, 1000000, 1. repeat split; try (vm_compute; reflexivity).
  - apply plain_digits_b; reflexivity.
  - cbn. lia.
Qed.

(** C30: a timeout of up to 10 digits arrives exactly; a longer one is rejected with INVALID_ARGUMENT. *)
Theorem C30_connect_roundtrip : forall t, 0 <= t ->
  (t < 10 ^ 10 -> connect_server_timeout (Some (connect_client_timeout t)) = Ok (Some t))
  /\ (10 ^ 10 <= t -> exists m, connect_server_timeout (Some (connect_client_timeout t)) = Raise (EConnect InvalidArgument m [])).
Proof.
  intros t H0. unfold connect_client_timeout. split; intro H.
  - pose proof (dec_of_Z_length t 10 ltac:(change (10 ^ Z.of_nat 10) with (10 ^ 10); lia) ltac:(lia)) as L.
    assert (E : int_of_str (dec_of_Z t) = Some t).
    { apply int_of_str_dec_Z. rewrite dec_of_Z_nonneg in L by auto. replace (Z.abs_N t) with (Z.to_N t) by lia. lia. }
    unfold connect_server_timeout. destruct (dec_of_Z t) as [|c s]; [cbn in L; lia|].
    replace (10 <? N.of_nat (List.length (c :: s)))%N with false by lia. now rewrite E.
  - pose proof (dec_of_Z_long t 10 ltac:(change (10 ^ Z.of_nat 10) with (10 ^ 10); lia)) as L.
    unfold connect_server_timeout. destruct (dec_of_Z t) as [|c s]; [cbn in L; lia|].
    replace (10 <? N.of_nat (List.length (c :: s)))%N with true by lia. eauto.
Qed.
Print Assumptions C30_connect_roundtrip.

Example C30_example : connect_server_timeout (Some (connect_client_timeout 9999999999)) = Ok (Some 9999999999)
  /\ connect_client_timeout 10000000000 = lit "10000000000".
Proof. split; vm_compute; reflexivity. Qed.

(** C32: the remaining time read from a request context never increases as the clock advances, and from the deadline
    on it is at most zero; exactly at the deadline it is zero. *)
Theorem C32_monotone_partial : forall end_ now now', now <= now' -> remaining_ms end_ now' <= remaining_ms end_ now.
Proof.
  intros end_ now now' H. unfold remaining_ms. apply fl_mul_mono; [apply Z.lt_le_incl, fl_1000_pos|]. now apply fl_sub_mono.
Qed.
Print Assumptions C32_monotone_partial.

Theorem C32_zero_at_deadline_partial : forall end_ now, end_ <= now -> remaining_ms end_ now <= 0.
Proof.
  intros end_ now H. apply Z.le_trans with (remaining_ms end_ end_); [now apply C32_monotone_partial|].
  unfold remaining_ms, fl_sub, fl_mul. rewrite Z.sub_diag. rewrite (rne_0 1) by reflexivity.
  rewrite Z.mul_0_l, rne_0 by apply fl_unit_pos. reflexivity.
Qed.
Print Assumptions C32_zero_at_deadline_partial.

(** Whatever the clock shows, the remaining time is the timeout minus the time that has passed, up to rounding. *)
Theorem C32_near_partial : forall start t now, 0 < t <= 2 ^ 53 ->
  left_ms start t now (remaining_ms (end_time start t) now)
  /\ left_s start t now (fl_div (remaining_ms (end_time start t) now) (fl_of_Z 1000)).
Proof.
  intros start t now Ht. unfold left_s, left_ms, remaining_ms, end_time. fold fl_unit.
  assert (U : 2 ^ 106 <= fl_unit) by (unfold fl_unit; apply Z.pow_le_mono_r; lia).
  assert (T : 2 ^ 106 <= t * fl_unit) by (apply Z.le_trans with (1 * fl_unit); [lia|]; apply Z.mul_le_mono_nonneg_r; lia).
  exact (chain_error _ _ _ _ _ _ _ _ (seconds_error t (conj (Z.lt_le_incl _ _ (proj1 Ht)) (proj2 Ht))) T (add_error _ _) (sub_error _ _) (millis_error _) (back_error _)).
Qed.
Print Assumptions C32_near_partial.
Example C32_near_example : 0 < 1000 <= 2 ^ 53 /\ left_ms 0 1000 0 (1000 * fl_unit) /\ ~ left_ms 0 1000 0 (1001 * fl_unit).
Proof.
  unfold left_ms. fold fl_unit. pose proof fl_unit_pos. split; [vm_compute; split; [reflexivity|discriminate]|]. change (2 ^ 49) with 562949953421312. split; lia.
Qed.

(** The remaining clause of C32, "never above the initial timeout", is false of binary64 arithmetic: a context made
    when the clock shows 2^20 s with a timeout of 2 ms has more than 2 ms left at that very instant. *)
Lemma C32_witness : end_time (2 ^ 20 * fl_unit) 2 = (2 ^ 20 * 2 ^ 32 + 8589935) * 2 ^ (1074 - 32)
  /\ remaining_ms (end_time (2 ^ 20 * fl_unit) 2) (2 ^ 20 * fl_unit) = 8589935000 * 2 ^ (1074 - 32).
Proof.
  pose proof fl_unit_pos as HU. pose proof (fl_unit_split 61 ltac:(lia)) as S61. pose proof (fl_unit_split 32 ltac:(lia)) as S32.
  assert (E61 : 2 ^ (1074 - 32) = 2 ^ 29 * 2 ^ (1074 - 61)) by (rewrite <- Z.pow_add_r by lia; f_equal).
  assert (D : fl_div (fl_of_Z 2) (fl_of_Z 1000) = 4611686018427388 * 2 ^ (1074 - 61)).
  { rewrite fl_1000_value, fl_of_Z_exact by lia. rewrite (fl_div_scaled _ _ (2 ^ 62) 1000 (1074 - 61)).
    - set (T := 2 ^ (1074 - 61)). f_equal.
    - lia.
    - vm_compute. discriminate.
    - lia.
    - lia.
    - rewrite S61. generalize (2 ^ (1074 - 61)). intro T. ring. }
  assert (E : end_time (2 ^ 20 * fl_unit) 2 = (2 ^ 20 * 2 ^ 32 + 8589935) * 2 ^ (1074 - 32)).
  { unfold end_time. rewrite D. unfold fl_add.
    replace (2 ^ 20 * fl_unit + 4611686018427388 * 2 ^ (1074 - 61)) with ((2 ^ 20 * 2 ^ 61 + 4611686018427388) * 2 ^ (1074 - 61))
      by (rewrite S61; generalize (2 ^ (1074 - 61)); intro T; ring).
    rewrite rne_shift; [|lia|vm_compute; discriminate|lia]. rewrite E61. generalize (2 ^ (1074 - 61)). intro T.
    replace (rne (2 ^ 20 * 2 ^ 61 + 4611686018427388) 1) with ((2 ^ 20 * 2 ^ 32 + 8589935) * 2 ^ 29) by (vm_compute; reflexivity). lia. }
  split; [exact E|]. rewrite E. unfold remaining_ms, fl_sub.
  replace ((2 ^ 20 * 2 ^ 32 + 8589935) * 2 ^ (1074 - 32) - 2 ^ 20 * fl_unit) with (8589935 * 2 ^ (1074 - 32) * 1)
    by (rewrite S32; generalize (2 ^ (1074 - 32)); intro T; ring).
  rewrite rne_dyadic by (try (change (2 ^ 53) with 9007199254740992); lia).
  unfold fl_mul. rewrite fl_1000_value.
  replace (8589935 * 2 ^ (1074 - 32) * (1000 * fl_unit)) with (8589935000 * 2 ^ (1074 - 32) * fl_unit)
    by (generalize (2 ^ (1074 - 32)), fl_unit; intros; ring).
  apply rne_dyadic; try (change (2 ^ 53) with 9007199254740992); lia.
Qed.

Theorem C32_initial_bound_refuted : exists start t, 0 < start /\ 0 < t /\
  t * fl_unit < remaining_ms (end_time start t) start.
Proof.
  exists (2 ^ 20 * fl_unit), 2. pose proof fl_unit_pos as HU. pose proof (fl_unit_split 32 ltac:(lia)) as S32.
  destruct C32_witness as [_ ->]. split; [lia|]. split; [lia|].
  assert (HT : 0 < 2 ^ (1074 - 32)) by (apply Z.pow_pos_nonneg; lia). rewrite S32. change (2 ^ 32) with 4294967296.
  generalize dependent (2 ^ (1074 - 32)). intros. lia.
Qed.
Print Assumptions C32_initial_bound_refuted.
