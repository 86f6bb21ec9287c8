(** Lemmas on binary64 rounding. *)
From Coq Require Import List NArith ZArith Bool Lia String ZifyBool ZifyNat.
From Verif Require Import MBase MPyStr MTimeout LBase LPyStr.
Import ListNotations.
Local Open Scope Z_scope.

(** ** Rounding *)

Lemma rdiv_near a b : 0 < b -> b * (2 * rdiv a b - 1) <= 2 * a <= b * (2 * rdiv a b + 1).
Proof.
  intro Hb. unfold rdiv. pose proof (Z.div_mod a b ltac:(lia)) as E. pose proof (Z.mod_pos_bound a b Hb) as Hr.
  destruct (2 * (a mod b) <? b) eqn:E1; [nia|]. destruct (b <? 2 * (a mod b)) eqn:E2; [nia|].
  destruct (Z.even (a / b)); nia.
Qed.

Lemma rdiv_exact a b : 0 < b -> rdiv (a * b) b = a.
Proof.
  intro Hb. unfold rdiv. rewrite Z.div_mul, Z.mod_mul by lia. assert (2 * 0 <? b = true) by lia.
  rewrite H. reflexivity.
Qed.

Lemma rdiv_floor a b : 0 < b -> a / b <= rdiv a b <= a / b + 1.
Proof.
  intro Hb. unfold rdiv. destruct (2 * (a mod b) <? b), (b <? 2 * (a mod b)), (Z.even (a / b)); lia.
Qed.

Lemma rdiv_mono a b a' b' : 0 < b -> 0 < b' -> a * b' <= a' * b -> rdiv a b <= rdiv a' b'.
Proof.
  intros Hb Hb' H.
  assert (Hd : a / b <= a' / b').
  { apply Z.div_le_lower_bound; auto.
    assert (b * (b' * (a / b)) <= b * a') by (pose proof (Z.mul_div_le a b Hb); nia). nia. }
  pose proof (rdiv_floor a b Hb). pose proof (rdiv_floor a' b' Hb').
  destruct (Z.eq_dec (a / b) (a' / b')) as [E|E]; [|].
  - unfold rdiv. rewrite <- E.
    pose proof (Z.div_mod a b ltac:(lia)) as E1. pose proof (Z.div_mod a' b' ltac:(lia)) as E2.
    rewrite <- E in E2.
    assert (Hr : (a mod b) * b' <= (a' mod b') * b) by nia.
    destruct (2 * (a mod b) <? b) eqn:C1.
    + destruct (2 * (a' mod b') <? b'), (b' <? 2 * (a' mod b')), (Z.even (a / b)); lia.
    + destruct (2 * (a' mod b') <? b') eqn:C2; [nia|].
      destruct (b <? 2 * (a mod b)) eqn:C3.
      * destruct (b' <? 2 * (a' mod b')) eqn:C4; [lia|]. nia.
      * destruct (b' <? 2 * (a' mod b')), (Z.even (a / b)); lia.
  - destruct (Z.eq_dec (a / b + 1) (a' / b')) as [E'|E']; [|lia]. lia.
Qed.

Definition expo (w : Z) : Z := Z.max 0 (Z.log2 w - 52).

Lemma expo_bound w : 0 <= w -> w < 2 ^ (53 + expo w) /\ (0 < expo w -> 2 ^ (52 + expo w) <= w).
Proof.
  intro H. unfold expo. destruct (Z.eq_dec w 0) as [->|Hw].
  - simpl. split; [lia|]. intro; lia.
  - pose proof (Z.log2_spec w ltac:(lia)) as [H1 H2]. pose proof (Z.log2_nonneg w). split.
    + eapply Z.lt_le_trans; [exact H2|]. apply Z.pow_le_mono_r; lia.
    + intro Hp. replace (52 + Z.max 0 (Z.log2 w - 52)) with (Z.log2 w) by lia. auto.
Qed.

Lemma rne_pos_low p q : 0 <= p -> 0 < q -> 0 <= rne_pos p q.
Proof.
  intros Hp Hq. unfold rne_pos. fold (expo (p / q)). assert (0 < 2 ^ expo (p / q)) by (apply Z.pow_pos_nonneg; unfold expo; lia).
  pose proof (rdiv_floor p (q * 2 ^ expo (p / q)) ltac:(nia)). assert (0 <= p / (q * 2 ^ expo (p / q))) by (apply Z.div_pos; nia).
  nia.
Qed.

(** Result bounds within a binade. *)
Lemma rne_pos_bounds p q : 0 <= p -> 0 < q ->
  let e := expo (p / q) in
  rne_pos p q <= 2 ^ (53 + e) /\ (0 < e -> 2 ^ (52 + e) <= rne_pos p q).
Proof.
  intros Hp Hq e. unfold rne_pos. fold (expo (p / q)). fold e.
  assert (He : 0 <= e) by (unfold e, expo; lia).
  assert (H2 : 0 < 2 ^ e) by (apply Z.pow_pos_nonneg; lia).
  assert (Hw : 0 <= p / q) by (apply Z.div_pos; lia).
  destruct (expo_bound (p / q) Hw) as [H3 H4]. fold e in H3, H4.
  rewrite !Z.pow_add_r in * by lia.
  assert (Hlt : p < q * (2 ^ 53 * 2 ^ e)) by (pose proof (Z.div_mod p q ltac:(lia)); pose proof (Z.mod_pos_bound p q Hq); nia).
  split.
  - apply Z.mul_le_mono_nonneg_r; [lia|].
    rewrite <- (rdiv_exact (2 ^ 53) (q * 2 ^ e)) by nia. apply rdiv_mono; nia.
  - intro Hp0. specialize (H4 Hp0). apply Z.mul_le_mono_nonneg_r; [lia|].
    rewrite <- (rdiv_exact (2 ^ 52) (q * 2 ^ e)) by nia. apply rdiv_mono; try nia.
    assert (q * (2 ^ 52 * 2 ^ e) <= p) by (pose proof (Z.mul_div_le p q Hq); nia). nia.
Qed.

Lemma rne_pos_mono p q p' q' : 0 <= p -> 0 < q -> 0 <= p' -> 0 < q' -> p * q' <= p' * q ->
  rne_pos p q <= rne_pos p' q'.
Proof.
  intros Hp Hq Hp' Hq' H.
  assert (Hd : p / q <= p' / q').
  { apply Z.div_le_lower_bound; auto.
    assert (q * (q' * (p / q)) <= q * p') by (pose proof (Z.mul_div_le p q Hq); nia). nia. }
  assert (Hw : 0 <= p / q) by (apply Z.div_pos; lia).
  assert (He : expo (p / q) <= expo (p' / q')) by (unfold expo; pose proof (Z.log2_le_mono _ _ Hd); lia).
  destruct (Z.eq_dec (expo (p / q)) (expo (p' / q'))) as [E|E].
  - unfold rne_pos. fold (expo (p / q)) (expo (p' / q')). rewrite <- E.
    assert (H2 : 0 < 2 ^ expo (p / q)) by (apply Z.pow_pos_nonneg; unfold expo; lia).
    apply Z.mul_le_mono_nonneg_r; [lia|]. apply rdiv_mono; nia.
  - destruct (rne_pos_bounds p q Hp Hq) as [H1 _]. destruct (rne_pos_bounds p' q' Hp' Hq') as [_ H2].
    assert (0 < expo (p' / q')) by (unfold expo in *; lia).
    specialize (H2 H0).
    assert (2 ^ (53 + expo (p / q)) <= 2 ^ (52 + expo (p' / q'))) by (apply Z.pow_le_mono_r; lia). lia.
Qed.

Lemma rne_pos_exact m j : 0 <= m <= 2 ^ 53 -> 0 <= j -> rne_pos (m * 2 ^ j) 1 = m * 2 ^ j.
Proof.
  intros Hm Hj. unfold rne_pos. rewrite Z.div_1_r, Z.mul_1_l. fold (expo (m * 2 ^ j)).
  assert (H2 : 0 < 2 ^ j) by (apply Z.pow_pos_nonneg; lia).
  set (e := expo (m * 2 ^ j)).
  assert (He : 0 <= e) by (unfold e, expo; lia).
  assert (Hdiv : exists a, m * 2 ^ j = a * 2 ^ e).
  { destruct (Z.le_gt_cases e j) as [Hle|Hgt].
    - exists (m * 2 ^ (j - e)). rewrite <- Z.mul_assoc, <- Z.pow_add_r by lia. do 2 f_equal. lia.
    - (* only when m = 2^53 *)
      destruct (expo_bound (m * 2 ^ j) ltac:(nia)) as [_ H4]. fold e in H4. specialize (H4 ltac:(lia)).
      assert (2 ^ (52 + e) = 2 ^ (52 + e - 53 - j) * 2 ^ (53 + j))
        by (rewrite <- Z.pow_add_r by lia; f_equal; lia).
      assert (Hp1 : 1 <= 2 ^ (52 + e - 53 - j)).
      { change 1 with (2 ^ 0). apply Z.pow_le_mono_r; lia. }
      assert (Hm2 : m * 2 ^ j <= 2 ^ (53 + j)) by (rewrite Z.pow_add_r by lia; nia).
      assert (Heq : m * 2 ^ j = 2 ^ (53 + j)) by nia.
      assert (He1 : e = j + 1).
      { assert (2 ^ (52 + e) <= 2 ^ (53 + j)) by lia. apply Z.pow_le_mono_r_iff in H0; lia. }
      exists (2 ^ 52). rewrite Heq, He1, <- Z.pow_add_r by lia. f_equal. lia. }
  destruct Hdiv as (a&Ha). rewrite Ha. rewrite rdiv_exact; auto. apply Z.pow_pos_nonneg; lia.
Qed.

Lemma rne_mono p q p' q' : 0 < q -> 0 < q' -> p * q' <= p' * q -> rne p q <= rne p' q'.
Proof.
  intros Hq Hq' H. unfold rne. destruct (p <? 0) eqn:E1, (p' <? 0) eqn:E2.
  - assert (rne_pos (- p') q' <= rne_pos (- p) q) by (apply rne_pos_mono; nia). lia.
  - pose proof (rne_pos_low (- p) q ltac:(lia) Hq). pose proof (rne_pos_low p' q' ltac:(lia) Hq'). lia.
  - nia.
  - apply rne_pos_mono; lia.
Qed.

(** Floats of the form integer / 2^k (0 <= k <= 1074) with at most 53 bits are rounded to themselves. *)
Lemma rne_dyadic m k q : 0 <= m <= 2 ^ 53 -> 0 <= k <= 1074 -> 0 < q ->
  rne (m * 2 ^ (1074 - k) * q) q = m * 2 ^ (1074 - k).
Proof.
  intros Hm Hk Hq.
  assert (0 < 2 ^ (1074 - k)) by (apply Z.pow_pos_nonneg; lia).
  unfold rne. assert (E : m * 2 ^ (1074 - k) * q <? 0 = false) by nia. rewrite E.
  apply Z.le_antisymm.
  - rewrite <- (rne_pos_exact m (1074 - k)) at 2 by lia. apply rne_pos_mono; nia.
  - rewrite <- (rne_pos_exact m (1074 - k)) at 1 by lia. apply rne_pos_mono; nia.
Qed.

Lemma rne_0 q : 0 < q -> rne 0 q = 0.
Proof. intro Hq. pose proof (rne_dyadic 0 0 q ltac:(lia) ltac:(lia) Hq) as E. rewrite !Z.mul_0_l in E. exact E. Qed.

(** ** Units *)

Lemma fl_unit_pos : 0 < fl_unit.
Proof. apply Z.pow_pos_nonneg; lia. Qed.

Lemma fl_unit_split k : 0 <= k <= 1074 -> fl_unit = 2 ^ k * 2 ^ (1074 - k).
Proof. intro H. unfold fl_unit. rewrite <- Z.pow_add_r by lia. f_equal. lia. Qed.

Lemma fl_of_Z_exact v : 0 <= v <= 2 ^ 53 -> fl_of_Z v = v * fl_unit.
Proof.
  intro H. unfold fl_of_Z. pose proof (rne_dyadic v 0 1 H ltac:(lia) ltac:(lia)) as E.
  rewrite Z.mul_1_r in E. change (2 ^ (1074 - 0)) with fl_unit in E. exact E.
Qed.

(** Rounding commutes with scaling by a power of two once 53 bits are in use. *)
Lemma rne_shift a q k : 0 < q -> 2 ^ 52 * q <= a -> 0 <= k -> rne (a * 2 ^ k) q = rne a q * 2 ^ k.
Proof.
  intros Hq Ha Hk. assert (H2 : 0 < 2 ^ k) by (apply Z.pow_pos_nonneg; lia).
  assert (Hp : 0 < 2 ^ 52) by reflexivity.
  assert (H0 : 2 ^ 52 <= a / q) by (apply Z.div_le_lower_bound; lia).
  assert (La : 52 <= Z.log2 (a / q)) by (apply Z.log2_le_pow2; lia).
  assert (Lk : Z.log2 (a * 2 ^ k / q) = Z.log2 (a / q) + k).
  { destruct (Z.log2_spec (a / q) ltac:(lia)) as [L1 L2]. apply Z.log2_unique; [lia|].
    rewrite Z.pow_succ_r in L2 by lia. rewrite Z.pow_succ_r by lia. rewrite Z.pow_add_r by lia.
    set (n := 2 ^ Z.log2 (a / q)) in *. split.
    - apply Z.div_le_lower_bound; [lia|]. pose proof (Z.mul_div_le a q Hq). assert (q * n <= a) by nia.
      replace (q * (n * 2 ^ k)) with (q * n * 2 ^ k) by ring. apply Z.mul_le_mono_nonneg_r; lia.
    - apply Z.div_lt_upper_bound; [lia|]. pose proof (Z.mul_succ_div_gt a q Hq). assert (a < q * (2 * n)) by nia.
      replace (q * (2 * (n * 2 ^ k))) with (q * (2 * n) * 2 ^ k) by ring. apply Z.mul_lt_mono_pos_r; lia. }
  assert (S1 : a * 2 ^ k <? 0 = false) by (apply Z.ltb_ge; nia).
  assert (S2 : a <? 0 = false) by (apply Z.ltb_ge; nia).
  unfold rne. rewrite S1, S2. unfold rne_pos. rewrite Lk.
  rewrite !Z.max_r by lia. replace (Z.log2 (a / q) + k - 52) with (Z.log2 (a / q) - 52 + k) by lia.
  rewrite Z.pow_add_r by lia. set (E := 2 ^ (Z.log2 (a / q) - 52)).
  assert (HE : 0 < E) by (apply Z.pow_pos_nonneg; lia).
  assert (R : rdiv (a * 2 ^ k) (q * (E * 2 ^ k)) = rdiv a (q * E)).
  { rewrite Z.mul_assoc. assert (HQ : 0 < q * E) by nia. generalize dependent (q * E). intros F HF.
    unfold rdiv. rewrite Z.div_mul_cancel_r, Z.mul_mod_distr_r by lia.
    destruct (2 * (a mod F) <? F) eqn:E1; [replace (2 * (a mod F * 2 ^ k) <? F * 2 ^ k) with true by nia; auto|].
    replace (2 * (a mod F * 2 ^ k) <? F * 2 ^ k) with false by nia.
    destruct (F <? 2 * (a mod F)) eqn:E2; [replace (F * 2 ^ k <? 2 * (a mod F * 2 ^ k)) with true by nia; auto|].
    now replace (F * 2 ^ k <? 2 * (a mod F * 2 ^ k)) with false by nia. }
  rewrite R. apply Z.mul_assoc.
Qed.

(** Rounding depends only on the quotient. *)
Lemma rne_cancel a q c : 0 < q -> 0 < c -> rne (a * c) (q * c) = rne a q.
Proof. intros Hq Hc. apply Z.le_antisymm; apply rne_mono; nia. Qed.

(** Quotient of two scaled numbers: [m1 * 2^e1 / (m2 * 2^e2)]. *)
Lemma fl_div_scaled x y a q k : 0 < q -> 2 ^ 52 * q <= a -> 0 <= k -> 0 < y ->
  x * fl_unit * q = a * 2 ^ k * y -> fl_div x y = rne a q * 2 ^ k.
Proof.
  intros Hq Ha Hk Hy E. rewrite <- rne_shift by auto. unfold fl_div. replace (y <? 0) with false by lia.
  apply Z.le_antisymm; apply rne_mono; lia.
Qed.

Lemma fl_1_value : fl_of_Z 1 = fl_unit.
Proof. rewrite fl_of_Z_exact by lia. lia. Qed.
Lemma fl_1000_value : fl_of_Z 1000 = 1000 * fl_unit.
Proof. apply fl_of_Z_exact. change (2 ^ 53) with 9007199254740992. lia. Qed.

Lemma milli_value : fl_div (fl_of_Z 1) (fl_of_Z 1000) = 4611686018427388 * 2 ^ (1074 - 62).
Proof.
  rewrite fl_1_value, fl_1000_value.
  assert (HU := fl_unit_pos). assert (S := fl_unit_split 62 ltac:(lia)). set (T := 2 ^ (1074 - 62)) in *.
  rewrite (fl_div_scaled _ _ (2 ^ 62) 1000 (1074 - 62)).
  - fold T. f_equal.
  - lia.
  - vm_compute. discriminate.
  - lia.
  - lia.
  - fold T. rewrite S. clearbody T. ring.
Qed.
Lemma micro_value :
  fl_div (fl_div (fl_of_Z 1) (fl_of_Z 1000)) (fl_of_Z 1000) = 4722366482869645 * 2 ^ (1074 - 72).
Proof.
  rewrite milli_value, fl_1000_value.
  assert (HU := fl_unit_pos).
  assert (E : 2 ^ (1074 - 62) = 2 ^ 10 * 2 ^ (1074 - 72)) by (rewrite <- Z.pow_add_r by lia; f_equal).
  rewrite E. set (T := 2 ^ (1074 - 72)) in *.
  rewrite (fl_div_scaled _ _ (4611686018427388 * 2 ^ 10) 1000 (1074 - 72)).
  - fold T. f_equal.
  - lia.
  - vm_compute. discriminate.
  - lia.
  - lia.
  - fold T. clearbody T. ring.
Qed.

Lemma trunc_between x w : 0 <= w -> w * fl_unit <= x < (w + 1) * fl_unit -> fl_trunc x = w.
Proof.
  intros Hw [H1 H2]. pose proof fl_unit_pos. unfold fl_trunc. rewrite Z.quot_div_nonneg by nia.
  symmetry. apply (Z.div_unique x fl_unit w (x - w * fl_unit)); nia.
Qed.

(** Rounding of [a / fl_unit] against values with a short binary expansion. *)
Lemma rne_ge m k a : 0 <= m <= 2 ^ 53 -> 0 <= k <= 1074 ->
  m * 2 ^ (1074 - k) * fl_unit <= a -> m * 2 ^ (1074 - k) <= rne a fl_unit.
Proof.
  intros Hm Hk H. pose proof fl_unit_pos. rewrite <- (rne_dyadic m k fl_unit Hm Hk) at 1 by auto.
  apply rne_mono; auto. nia.
Qed.
Lemma rne_le m k a : 0 <= m <= 2 ^ 53 -> 0 <= k <= 1074 ->
  a <= m * 2 ^ (1074 - k) * fl_unit -> rne a fl_unit <= m * 2 ^ (1074 - k).
Proof.
  intros Hm Hk H. pose proof fl_unit_pos. rewrite <- (rne_dyadic m k fl_unit Hm Hk) by auto.
  apply rne_mono; auto. nia.
Qed.

(** [v * M * 2^-k] compared with an integer [w] and with [w + 1 - 2^-j]. *)
Lemma product_ge v w M k : 0 <= w <= 2 ^ 53 -> 0 <= k <= 1074 -> w * 2 ^ k <= v * M ->
  w * fl_unit <= rne (v * fl_unit * (M * 2 ^ (1074 - k))) fl_unit.
Proof.
  intros Hw Hk H. pose proof fl_unit_pos as HU. pose proof (fl_unit_split k Hk) as S.
  assert (HT : 0 < 2 ^ (1074 - k)) by (apply Z.pow_pos_nonneg; lia).
  pose proof (rne_ge w 0 (v * fl_unit * (M * 2 ^ (1074 - k))) Hw ltac:(lia)) as G.
  change (2 ^ (1074 - 0)) with fl_unit in G. apply G. clear G.
  generalize dependent (2 ^ (1074 - k)). intros T S HT. generalize dependent fl_unit. intros U HU S.
  assert (E : w * U * U = w * 2 ^ k * (T * U)) by (rewrite S at 1; ring).
  assert (E2 : v * U * (M * T) = v * M * (T * U)) by ring. rewrite E, E2.
  apply Z.mul_le_mono_nonneg_r; [apply Z.mul_nonneg_nonneg; lia|exact H].
Qed.

Lemma product_lt v w M k j : 0 <= w -> (w + 1) * 2 ^ j <= 2 ^ 53 -> 0 <= k <= 1074 -> 0 <= j <= k ->
  v * M <= ((w + 1) * 2 ^ j - 1) * 2 ^ (k - j) ->
  rne (v * fl_unit * (M * 2 ^ (1074 - k))) fl_unit < (w + 1) * fl_unit.
Proof.
  intros Hw Hwb Hk Hj H. pose proof fl_unit_pos as HU. pose proof (fl_unit_split k Hk) as S.
  pose proof (fl_unit_split j ltac:(lia)) as Sj.
  assert (HT : 0 < 2 ^ (1074 - k)) by (apply Z.pow_pos_nonneg; lia).
  assert (HT2 : 2 ^ (1074 - j) = 2 ^ (k - j) * 2 ^ (1074 - k)) by (rewrite <- Z.pow_add_r by lia; f_equal; lia).
  assert (Hp : 0 < 2 ^ j) by (apply Z.pow_pos_nonneg; lia).
  assert (Hp2 : 0 < 2 ^ (1074 - j)) by (apply Z.pow_pos_nonneg; lia).
  assert (H1 : 1 <= (w + 1) * 2 ^ j) by nia.
  apply Z.le_lt_trans with (((w + 1) * 2 ^ j - 1) * 2 ^ (1074 - j)).
  - apply rne_le; [lia|lia|]. clear Sj Hp2 H1. rewrite HT2. clear HT2.
    generalize dependent (2 ^ (1074 - k)). intros T S HT. generalize dependent fl_unit. intros U HU S.
    replace (v * U * (M * T)) with (v * M * (T * U)) by ring.
    replace (((w + 1) * 2 ^ j - 1) * (2 ^ (k - j) * T) * U) with (((w + 1) * 2 ^ j - 1) * 2 ^ (k - j) * (T * U)) by ring.
    apply Z.mul_le_mono_nonneg_r; [apply Z.mul_nonneg_nonneg; lia|exact H].
  - rewrite Sj. clear -Hp Hp2. generalize dependent (2 ^ (1074 - j)). generalize dependent (2 ^ j). intros. nia.
Qed.

Lemma scale_milli v : 0 <= v <= 99999999 ->
  fl_trunc (fl_mul (fl_of_Z v) (fl_div (fl_of_Z 1) (fl_of_Z 1000))) = v / 1000.
Proof.
  intro Hv. rewrite fl_of_Z_exact by (change (2 ^ 53) with 9007199254740992; lia). rewrite milli_value. unfold fl_mul.
  set (w := v / 1000). assert (Hw : 1000 * w <= v <= 1000 * w + 999) by (unfold w; Z.to_euclidean_division_equations; lia).
  apply trunc_between; [lia|]. split.
  - apply product_ge; [change (2 ^ 53) with 9007199254740992; lia|lia|change (2 ^ 62) with 4611686018427387904; lia].
  - apply (product_lt v w _ 62 20); change (2 ^ 20) with 1048576; change (2 ^ 53) with 9007199254740992;
      change (2 ^ (62 - 20)) with 4398046511104; lia.
Qed.

Definition micro_ok (w : Z) : bool :=
  (w =? 0) || (2 ^ 52 <=? w * 1000000 * 4722366482869645) && (rne (w * 1000000 * 4722366482869645) 1 =? w * 2 ^ 72).
Lemma micro_checked : forallb (fun n => micro_ok (Z.of_nat n)) (seq 0 100) = true.
Proof. vm_compute. reflexivity. Qed.
Lemma micro_at w : 0 <= w < 100 -> micro_ok w = true.
Proof.
  intro H. pose proof (proj1 (forallb_forall _ _) micro_checked (Z.to_nat w)) as C. cbv beta in C.
  rewrite Z2Nat.id in C by lia. apply C. apply in_seq. lia.
Qed.
Lemma micro_exact w : 0 <= w < 100 ->
  rne (w * 1000000 * fl_unit * (4722366482869645 * 2 ^ (1074 - 72))) fl_unit = w * fl_unit.
Proof.
  intro H. apply micro_at in H. unfold micro_ok in H. pose proof fl_unit_pos as HU.
  pose proof (fl_unit_split 72 ltac:(lia)) as HS. change (2 ^ 72) with 4722366482869645213696 in HS, H. change (2 ^ 52) with 4503599627370496 in H.
  assert (HT : 0 < 2 ^ (1074 - 72)) by (apply Z.pow_pos_nonneg; lia).
  destruct (Z.eqb_spec w 0) as [E0 | Hw].
  - rewrite E0, !Z.mul_0_l. now apply rne_0.
  - cbn [orb] in H. apply andb_prop in H as [H1 H2]. apply Z.leb_le in H1. apply Z.eqb_eq in H2.
    replace (w * 1000000 * fl_unit * (4722366482869645 * 2 ^ (1074 - 72)))
      with (w * 1000000 * 4722366482869645 * 2 ^ (1074 - 72) * fl_unit)
      by (generalize (2 ^ (1074 - 72)), fl_unit; intros; ring).
    rewrite <- (Z.mul_1_l fl_unit) at 2. rewrite rne_cancel, rne_shift by lia. rewrite H2, HS.
    generalize (2 ^ (1074 - 72)); intros; lia.
Qed.

Lemma scale_micro v : 0 <= v <= 99999999 ->
  fl_trunc (fl_mul (fl_of_Z v) (fl_div (fl_div (fl_of_Z 1) (fl_of_Z 1000)) (fl_of_Z 1000))) = v / 1000000.
Proof.
  intro Hv. rewrite fl_of_Z_exact by (change (2 ^ 53) with 9007199254740992; lia). rewrite micro_value. unfold fl_mul.
  set (w := v / 1000000).
  assert (Hw : 1000000 * w <= v <= 1000000 * w + 999999) by (unfold w; Z.to_euclidean_division_equations; lia).
  assert (Hw2 : 0 <= w < 100) by lia.
  apply trunc_between; [lia|]. split.
  - pose proof (micro_exact w Hw2) as Hck.
    rewrite <- Hck. pose proof fl_unit_pos as HU. apply rne_mono; auto.
    assert (HT : 0 < 2 ^ (1074 - 72)) by (apply Z.pow_pos_nonneg; lia). clear Hck.
    generalize dependent (2 ^ (1074 - 72)). intros T HT. generalize dependent fl_unit. intros U HU.
    replace (w * 1000000 * U * (4722366482869645 * T) * U) with (1000000 * w * (4722366482869645 * T * U * U)) by ring.
    replace (v * U * (4722366482869645 * T) * U) with (v * (4722366482869645 * T * U * U)) by ring.
    apply Z.mul_le_mono_nonneg_r; [|lia]. repeat apply Z.mul_nonneg_nonneg; lia.
  - apply (product_lt v w _ 72 21); change (2 ^ 21) with 2097152; change (2 ^ 53) with 9007199254740992;
      change (2 ^ (72 - 21)) with 2251799813685248; lia.
Qed.

(** ** Deadlines *)

Lemma fl_sub_mono a b c : b <= c -> fl_sub a c <= fl_sub a b.
Proof. intro H. apply rne_mono; lia. Qed.

Lemma fl_mul_mono a b c : 0 <= c -> a <= b -> fl_mul a c <= fl_mul b c.
Proof.
  intros Hc H. pose proof fl_unit_pos as HU. apply rne_mono; auto.
  apply Z.mul_le_mono_nonneg_r; [lia|]. apply Z.mul_le_mono_nonneg_r; assumption.
Qed.

Lemma fl_1000_pos : 0 < fl_of_Z 1000.
Proof. rewrite fl_of_Z_exact by lia. pose proof fl_unit_pos. lia. Qed.

(** ** Rounding errors *)

Lemma rne_pos_error p q : 0 <= p -> 0 < q -> 2 ^ 53 * Z.abs (q * rne_pos p q - p) <= p + 2 ^ 52 * q.
Proof.
  intros Hp Hq. unfold rne_pos. fold (expo (p / q)). set (e := expo (p / q)).
  assert (He : 0 <= e) by (unfold e, expo; lia).
  assert (H2 : 0 < 2 ^ e) by (apply Z.pow_pos_nonneg; lia).
  destruct (expo_bound (p / q) ltac:(apply Z.div_pos; lia)) as [_ H4]. fold e in H4.
  pose proof (rdiv_near p (q * 2 ^ e) ltac:(nia)) as [N1 N2]. set (R := rdiv p (q * 2 ^ e)) in *.
  replace (q * (R * 2 ^ e)) with (q * 2 ^ e * R) by ring.
  assert (A : 2 * Z.abs (q * 2 ^ e * R - p) <= q * 2 ^ e) by lia.
  destruct (Z.eq_dec e 0) as [E|E].
  - rewrite E in *. change (2 ^ 0) with 1 in *. lia.
  - specialize (H4 ltac:(lia)). rewrite Z.pow_add_r in H4 by lia.
    assert (q * (2 ^ 52 * 2 ^ e) <= p) by (pose proof (Z.mul_div_le p q Hq); nia). lia.
Qed.

Lemma rne_error p q : 0 < q -> 2 ^ 53 * Z.abs (q * rne p q - p) <= Z.abs p + 2 ^ 52 * q.
Proof.
  intro Hq. unfold rne. destruct (Z.ltb_spec p 0) as [H|H].
  - pose proof (rne_pos_error (- p) q ltac:(lia) Hq). replace (q * - rne_pos (- p) q - p) with (- (q * rne_pos (- p) q - - p)) by ring.
    rewrite Z.abs_opp. lia.
  - pose proof (rne_pos_error p q H Hq). lia.
Qed.

(** The error of each step from a timeout in milliseconds to the remaining time, in milliseconds and in seconds. *)
Lemma seconds_error t : 0 <= t <= 2 ^ 53 ->
  2 ^ 53 * Z.abs (1000 * fl_div (fl_of_Z t) (fl_of_Z 1000) - t * fl_unit) <= t * fl_unit + 2 ^ 52 * 1000.
Proof.
  intro Ht. rewrite fl_1000_value, fl_of_Z_exact by lia. pose proof fl_unit_pos as U. unfold fl_div.
  replace (1000 * fl_unit <? 0) with false by lia. pose proof (rne_error (t * fl_unit * fl_unit) (1000 * fl_unit) ltac:(lia)) as E.
  set (x := rne _ _) in *. replace (1000 * fl_unit * x - t * fl_unit * fl_unit) with ((1000 * x - t * fl_unit) * fl_unit) in E by ring.
  rewrite Z.abs_mul, (Z.abs_eq fl_unit), (Z.abs_eq (t * fl_unit * fl_unit)) in E by nia. nia.
Qed.
Lemma add_error x y : 2 ^ 53 * Z.abs (fl_add x y - (x + y)) <= Z.abs (x + y) + 2 ^ 52.
Proof. pose proof (rne_error (x + y) 1 ltac:(lia)) as E. unfold fl_add. lia. Qed.
Lemma sub_error x y : 2 ^ 53 * Z.abs (fl_sub x y - (x - y)) <= Z.abs (x - y) + 2 ^ 52.
Proof. pose proof (rne_error (x - y) 1 ltac:(lia)) as E. unfold fl_sub. lia. Qed.
Lemma millis_error x : 2 ^ 53 * Z.abs (fl_mul x (fl_of_Z 1000) - 1000 * x) <= 1000 * Z.abs x + 2 ^ 52.
Proof.
  rewrite fl_1000_value. pose proof fl_unit_pos as U. unfold fl_mul. pose proof (rne_error (x * (1000 * fl_unit)) fl_unit ltac:(lia)) as E.
  set (y := rne _ _) in *. replace (fl_unit * y - x * (1000 * fl_unit)) with ((y - 1000 * x) * fl_unit) in E by ring.
  rewrite !Z.abs_mul, (Z.abs_eq fl_unit), (Z.abs_eq 1000) in E by lia. nia.
Qed.
Lemma back_error x : 2 ^ 53 * Z.abs (1000 * fl_div x (fl_of_Z 1000) - x) <= Z.abs x + 2 ^ 52 * 1000.
Proof.
  rewrite fl_1000_value. pose proof fl_unit_pos as U. unfold fl_div. replace (1000 * fl_unit <? 0) with false by lia.
  pose proof (rne_error (x * fl_unit) (1000 * fl_unit) ltac:(lia)) as E.
  set (y := rne _ _) in *. replace (1000 * fl_unit * y - x * fl_unit) with ((1000 * y - x) * fl_unit) in E by ring.
  rewrite !Z.abs_mul, (Z.abs_eq fl_unit) in E by lia. nia.
Qed.
Lemma chain_error w start now x1 x2 x3 x4 x5 :
  2 ^ 53 * Z.abs (1000 * x1 - w) <= w + 2 ^ 52 * 1000 -> 2 ^ 106 <= w ->
  2 ^ 53 * Z.abs (x2 - (start + x1)) <= Z.abs (start + x1) + 2 ^ 52 ->
  2 ^ 53 * Z.abs (x3 - (x2 - now)) <= Z.abs (x2 - now) + 2 ^ 52 ->
  2 ^ 53 * Z.abs (x4 - 1000 * x3) <= 1000 * Z.abs x3 + 2 ^ 52 ->
  2 ^ 53 * Z.abs (1000 * x5 - x4) <= Z.abs x4 + 2 ^ 52 * 1000 ->
  2 ^ 49 * Z.abs (x4 - (1000 * (start - now) + w)) <= 1000 * (Z.abs start + Z.abs now) + w
  /\ 2 ^ 49 * Z.abs (1000 * x5 - (1000 * (start - now) + w)) <= 1000 * (Z.abs start + Z.abs now) + w.
Proof.
  change (2 ^ 106) with (9007199254740992 * 9007199254740992). change (2 ^ 53) with 9007199254740992. change (2 ^ 52) with 4503599627370496. change (2 ^ 49) with 562949953421312.
  intros E1 T E2 E3 E4 E5.
  assert (H1 : 2000 * Z.abs x1 <= 3 * w) by (clear E2 E3 E4 E5; lia).
  assert (H2 : 9007199254740992 * Z.abs (x2 - (start + x1)) <= Z.abs start + Z.abs x1 + 4503599627370496) by (clear - E2; lia).
  assert (H2' : 2 * Z.abs x2 <= 3 * (Z.abs start + Z.abs x1) + 3) by (clear - E2; lia).
  assert (H3 : 9007199254740992 * Z.abs (x3 - (x2 - now)) <= Z.abs x2 + Z.abs now + 4503599627370496) by (clear - E3; lia).
  assert (H3' : 2 * Z.abs x3 <= 3 * (Z.abs x2 + Z.abs now) + 3) by (clear - E3; lia).
  assert (H4' : 2 * Z.abs x4 <= 2001 * Z.abs x3 + 3) by (clear - E4; lia).
  assert (G4 : Z.abs (x4 - (1000 * (start - now) + w))
     <= Z.abs (x4 - 1000 * x3) + 1000 * Z.abs (x3 - (x2 - now)) + 1000 * Z.abs (x2 - (start + x1)) + Z.abs (1000 * x1 - w)).
  { clear. replace (x4 - (1000 * (start - now) + w))
      with ((x4 - 1000 * x3) + 1000 * (x3 - (x2 - now)) + 1000 * (x2 - (start + x1)) + (1000 * x1 - w)) by ring.
    generalize (x4 - 1000 * x3), (x3 - (x2 - now)), (x2 - (start + x1)), (1000 * x1 - w). intros. lia. }
  assert (G5 : Z.abs (1000 * x5 - (1000 * (start - now) + w))
     <= Z.abs (1000 * x5 - x4) + Z.abs (x4 - (1000 * (start - now) + w))).
  { clear. generalize (1000 * (start - now) + w). intro. lia. }
  pose proof (Z.abs_nonneg start). pose proof (Z.abs_nonneg now). clear E2 E3. revert E1 T E4 E5 H1 H2 H2' H3 H3' H4' G4 G5 H H0.
  generalize (Z.abs (1000 * x5 - (1000 * (start - now) + w))), (Z.abs (x4 - (1000 * (start - now) + w))), (Z.abs (1000 * x5 - x4)),
    (Z.abs (x4 - 1000 * x3)), (Z.abs (x3 - (x2 - now))), (Z.abs (x2 - (start + x1))), (Z.abs (1000 * x1 - w)).
  generalize (Z.abs x1), (Z.abs x2), (Z.abs x3), (Z.abs x4), (Z.abs start), (Z.abs now). clear. intros. split; lia.
Qed.
