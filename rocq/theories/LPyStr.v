(** Decimal printing and parsing; splitting and stripping. *)
From Coq Require Import List NArith ZArith Bool Lia ZifyBool.
From Verif Require Import MBase MPyStr LBase.
Import ListNotations.
Local Open Scope N_scope.
Ltac Zify.zify_post_hook ::= Z.to_euclidean_division_equations.

(** ** Decimal *)
Lemma digits_val_snoc : forall l d, digits_val (l ++ [d]) = 10 * digits_val l + (d - 48).
Proof. intros. unfold digits_val. now rewrite fold_left_app. Qed.

Lemma dec_aux_val : forall f n, n < 10 ^ N.of_nat f -> (0 < f)%nat -> digits_val (dec_aux f n) = n.
Proof.
  induction f as [|f IH]; intros n H Hf; [lia|]. cbn [dec_aux].
  destruct (n <? 10) eqn:E; [change (digits_val [48 + n]) with (10 * 0 + (48 + n - 48)); lia|].
  rewrite digits_val_snoc.
  rewrite Nat2N.inj_succ, N.pow_succ_r' in H.
  destruct f as [|f]; [simpl in H; lia|].
  rewrite IH by lia. lia.
Qed.

Lemma dec_aux_digits : forall f n, Forall (fun c => is_digit c = true) (dec_aux f n).
Proof.
  induction f as [|f IH]; intros n; cbn [dec_aux]; [constructor|].
  unfold is_digit in *.
  destruct (n <? 10) eqn:E; [repeat constructor; lia|].
  apply Forall_app. split; [apply IH|repeat constructor; lia].
Qed.

Lemma dec_fuel : forall n, n < 10 ^ N.of_nat (S (N.size_nat n)).
Proof.
  intro n. rewrite Nat2N.inj_succ.
  assert (H : N.of_nat (N.size_nat n) = N.size n).
  { destruct n as [|p]; simpl; auto. induction p; simpl in *; auto; lia. }
  rewrite H. pose proof (N.size_gt n) as G.
  assert (L : 2 ^ N.size n <= 10 ^ N.size n) by (apply N.pow_le_mono_l; lia).
  rewrite N.pow_succ_r'. lia.
Qed.

Lemma dec_of_N_val : forall n, digits_val (dec_of_N n) = n.
Proof. intro n. apply dec_aux_val; [apply dec_fuel|lia]. Qed.

Lemma dec_of_N_digits : forall n, Forall (fun c => is_digit c = true) (dec_of_N n).
Proof. intro. apply dec_aux_digits. Qed.

Lemma dec_aux_nonempty : forall f n, (0 < f)%nat -> dec_aux f n <> [].
Proof.
  intros [|f] n H; [lia|]. cbn [dec_aux]. destruct (n <? 10); [discriminate|].
  intro C. apply app_eq_nil in C. destruct C. discriminate.
Qed.

Lemma dec_of_N_nonempty : forall n, dec_of_N n <> [].
Proof. intro. apply dec_aux_nonempty. lia. Qed.

Lemma dec_aux_length : forall k f n, n < 10 ^ N.of_nat k -> (0 < k)%nat -> (length (dec_aux f n) <= k)%nat.
Proof.
  induction k as [|k IH]; intros f n H Hk; [lia|].
  destruct f as [|f]; cbn [dec_aux]; [simpl; lia|].
  destruct (n <? 10) eqn:E; [simpl; lia|]. rewrite app_length. cbn [length].
  rewrite Nat2N.inj_succ, N.pow_succ_r' in H.
  destruct k as [|k]; [simpl in H; lia|].
  assert (length (dec_aux f (n / 10)) <= S k)%nat by (apply IH; lia). lia.
Qed.

Lemma dec_of_N_length : forall k n, n < 10 ^ N.of_nat k -> (0 < k)%nat -> (length (dec_of_N n) <= k)%nat.
Proof. intros. now apply dec_aux_length. Qed.

Lemma digits_val_bound : forall l, Forall (fun c => is_digit c = true) l -> digits_val l < 10 ^ N.of_nat (length l).
Proof.
  intros l. induction l as [|d l IH] using rev_ind; intros H; [cbn; lia|].
  apply Forall_app in H. destruct H as [Hl Hd]. inversion Hd; subst. unfold is_digit in H1.
  rewrite digits_val_snoc, app_length. cbn [length].
  replace (N.of_nat (length l + 1)) with (N.succ (N.of_nat (length l))) by lia.
  rewrite N.pow_succ_r'. specialize (IH Hl). lia.
Qed.

Lemma dec_of_N_length_ge : forall k n, 10 ^ N.of_nat k <= n -> (k < length (dec_of_N n))%nat.
Proof.
  intros k n H. pose proof (digits_val_bound _ (dec_of_N_digits n)) as B. rewrite dec_of_N_val in B.
  destruct (Nat.ltb_spec k (length (dec_of_N n))) as [L|L]; auto.
  assert (10 ^ N.of_nat (length (dec_of_N n)) <= 10 ^ N.of_nat k) by (apply N.pow_le_mono_r; lia). lia.
Qed.

Lemma dec_of_N_inj : forall a b, dec_of_N a = dec_of_N b -> a = b.
Proof. intros a b H. rewrite <- (dec_of_N_val a), <- (dec_of_N_val b). now rewrite H. Qed.

(** The first digit is "0" only for zero. *)
Lemma dec_aux_hd : forall f n, n < 10 ^ N.of_nat f -> (0 < f)%nat -> n <> 0 ->
    exists d t, dec_aux f n = d :: t /\ 49 <= d <= 57.
Proof.
  induction f as [|f IH]; intros n H Hf Hn; [lia|]. cbn [dec_aux].
  destruct (n <? 10) eqn:E; [exists (48 + n), []; split; auto; lia|].
  rewrite Nat2N.inj_succ, N.pow_succ_r' in H.
  destruct f as [|f]; [simpl in H; lia|].
  destruct (IH (n / 10)) as [d [t [Ed Hd]]]; [lia|lia|lia|].
  rewrite Ed. exists d, (t ++ [48 + n mod 10]). split; auto.
Qed.

Lemma dec_of_N_hd : forall n, n <> 0 -> exists d t, dec_of_N n = d :: t /\ 49 <= d <= 57.
Proof. intros. apply dec_aux_hd; auto using dec_fuel. lia. Qed.

Lemma dec_of_N_zero : dec_of_N 0 = [48].
Proof. reflexivity. Qed.

(** ** [int(s)] on plain digits *)
Lemma int_norm_digit : forall c, is_digit c = true -> int_norm c = c.
Proof. intros c H. unfold int_norm, is_digit in *. replace (c <? 127) with true by lia. reflexivity. Qed.

Lemma map_int_norm_digits : forall l, Forall (fun c => is_digit c = true) l -> map int_norm l = l.
Proof. induction 1; simpl; auto. rewrite int_norm_digit by auto. now f_equal. Qed.

Lemma int_digits_plain : forall l p, Forall (fun c => is_digit c = true) l -> (l <> [] \/ p = true) ->
    int_digits p l = Some l.
Proof.
  induction l as [|c l IH]; intros p H Hp; simpl.
  - destruct Hp as [Hp|Hp]; [congruence|now subst].
  - inversion H; subst. rewrite H2. rewrite IH; auto.
Qed.

Lemma drop_while_id : forall {A} (f : A -> bool) l, Forall (fun x => f x = false) l -> drop_while f l = l.
Proof. intros A f l H. inversion H; subst; simpl; auto. now rewrite H0. Qed.

Lemma rstrip_by_id : forall {A} (f : A -> bool) l, Forall (fun x => f x = false) l -> rstrip_by f l = l.
Proof.
  intros A f l H. unfold rstrip_by. rewrite drop_while_id by (now apply Forall_rev). apply rev_involutive.
Qed.

Lemma rstrip_by_last : forall {A} (f : A -> bool) l x, f x = false -> rstrip_by f (l ++ [x]) = l ++ [x].
Proof.
  intros A f l x H. unfold rstrip_by. rewrite rev_app_distr. simpl. rewrite H.
  simpl. now rewrite rev_involutive.
Qed.

Lemma digit_not_cspace : forall c, is_digit c = true -> is_cspace c = false.
Proof. intros c H. unfold is_digit, is_cspace in *. lia. Qed.

Lemma int_of_str_digits : forall l, Forall (fun c => is_digit c = true) l -> l <> [] ->
    N.of_nat (length l) <= 4300 -> int_of_str l = Some (Z.of_N (digits_val l)).
Proof.
  intros l H Hn Hl. unfold int_of_str. rewrite map_int_norm_digits by auto.
  assert (Hs : Forall (fun c => is_cspace c = false) l).
  { eapply Forall_impl; [|exact H]. intros. now apply digit_not_cspace. }
  rewrite drop_while_id, rstrip_by_id by auto.
  assert (Hm : match l with 43 :: t => (false, t) | 45 :: t => (true, t) | _ => (false, l) end = (false, l)).
  { destruct l as [|c l]; auto. inversion H; subst. unfold is_digit in H2.
    assert (D : c = 48 \/ c = 49 \/ c = 50 \/ c = 51 \/ c = 52 \/ c = 53 \/ c = 54 \/ c = 55 \/ c = 56 \/ c = 57) by lia.
    repeat (destruct D as [-> | D]; [reflexivity|]). now subst. }
  rewrite Hm. rewrite int_digits_plain by auto.
  replace (4300 <? N.of_nat (length l)) with false by lia. reflexivity.
Qed.

Lemma int_of_str_dec_N : forall n, N.of_nat (length (dec_of_N n)) <= 4300 ->
    int_of_str (dec_of_N n) = Some (Z.of_N n).
Proof.
  intros n H. rewrite int_of_str_digits; auto using dec_of_N_digits, dec_of_N_nonempty.
  now rewrite dec_of_N_val.
Qed.

Lemma dec_of_Z_nonneg : forall z, (0 <= z)%Z -> dec_of_Z z = dec_of_N (Z.to_N z).
Proof. intros [|p|p] H; auto. lia. Qed.

Lemma dec_of_Z_neg : forall z, (z < 0)%Z -> dec_of_Z z = 45 :: dec_of_N (Z.to_N (- z)).
Proof. intros [|p|p] H; auto; lia. Qed.

Lemma int_of_str_dec_Z : forall z, N.of_nat (length (dec_of_N (Z.abs_N z))) <= 4300 ->
    int_of_str (dec_of_Z z) = Some z.
Proof.
  intros z H. destruct (Z.ltb_spec z 0) as [L|L].
  - rewrite dec_of_Z_neg by auto. unfold int_of_str.
    replace (Z.to_N (- z)) with (Z.abs_N z) by lia.
    set (l := dec_of_N (Z.abs_N z)) in *.
    assert (Hd : Forall (fun c => is_digit c = true) l) by apply dec_of_N_digits.
    assert (Hnn : l <> []) by apply dec_of_N_nonempty.
    simpl map. change (int_norm 45) with 45. rewrite map_int_norm_digits by auto.
    assert (Hs : Forall (fun c => is_cspace c = false) (45 :: l)).
    { constructor; auto. eapply Forall_impl; [|exact Hd]. intros. now apply digit_not_cspace. }
    rewrite drop_while_id, rstrip_by_id by auto.
    cbv beta iota zeta. rewrite int_digits_plain by auto.
    replace (4300 <? N.of_nat (length l)) with false by lia.
    f_equal. unfold l. rewrite dec_of_N_val. lia.
  - rewrite dec_of_Z_nonneg by auto. rewrite int_of_str_dec_N.
    + f_equal. lia.
    + replace (Z.to_N z) with (Z.abs_N z) by lia. auto.
Qed.

(** ** Prefixes *)
Lemma startswith_app : forall p s, startswith p (p ++ s) = true.
Proof. induction p as [|a p IH]; simpl; auto. intros s. rewrite N.eqb_refl. simpl. apply IH. Qed.

Lemma startswith_spec : forall p s, startswith p s = true <-> exists t, s = p ++ t.
Proof.
  induction p as [|a p IH]; intros s; simpl.
  - split; eauto.
  - destruct s as [|b s]; [split; [discriminate|intros [t H]; discriminate]|].
    rewrite andb_true_iff, N.eqb_eq, IH. split.
    + intros [-> [t ->]]. eauto.
    + intros [t H]. inversion H; subst. eauto.
Qed.

Lemma removeprefix_app : forall p s, removeprefix p (p ++ s) = s.
Proof.
  intros. unfold removeprefix. rewrite startswith_app.
  rewrite skipn_app, skipn_all, Nat.sub_diag. reflexivity.
Qed.

Lemma skipn_app_exact : forall {A} (p s : list A), skipn (length p) (p ++ s) = s.
Proof. intros. rewrite skipn_app, skipn_all, Nat.sub_diag. reflexivity. Qed.

Lemma firstn_app_exact : forall {A} (p s : list A), firstn (length p) (p ++ s) = p.
Proof. intros. rewrite firstn_app, firstn_all, Nat.sub_diag. simpl. apply app_nil_r. Qed.

(** ** Splitting *)
Lemma split_on_nil : forall sep s, ~ In sep s -> split_on sep s = [s].
Proof.
  induction s as [|c s IH]; simpl; intros H; auto.
  destruct (c =? sep) eqn:E; [apply N.eqb_eq in E; exfalso; auto|].
  rewrite IH by auto. reflexivity.
Qed.

Lemma split_on_app : forall sep a b, ~ In sep a -> split_on sep (a ++ sep :: b) = a :: split_on sep b.
Proof.
  induction a as [|c a IH]; simpl; intros b H.
  - now rewrite N.eqb_refl.
  - destruct (c =? sep) eqn:E; [apply N.eqb_eq in E; exfalso; auto|].
    rewrite IH by auto. reflexivity.
Qed.

Lemma split_join : forall sep ps, ps <> [] -> Forall (fun p => ~ In sep p) ps ->
    split_on sep (join [sep] ps) = ps.
Proof.
  intros sep ps. induction ps as [|p ps IH]; intros Hn H; [congruence|].
  inversion H; subst. destruct ps as [|q ps].
  - simpl. now apply split_on_nil.
  - change (join [sep] (p :: q :: ps)) with (p ++ sep :: join [sep] (q :: ps)).
    rewrite split_on_app by auto. rewrite IH; auto. discriminate.
Qed.

Lemma split_first_app : forall sep a b, ~ In sep a -> split_first sep (a ++ sep :: b) = Some (a, b).
Proof.
  induction a as [|c a IH]; simpl; intros b H.
  - now rewrite N.eqb_refl.
  - destruct (c =? sep) eqn:E; [apply N.eqb_eq in E; exfalso; auto|].
    rewrite IH by auto. reflexivity.
Qed.

Lemma split_first_none : forall sep s, ~ In sep s -> split_first sep s = None.
Proof.
  induction s as [|c s IH]; simpl; intros H; auto.
  destruct (c =? sep) eqn:E; [apply N.eqb_eq in E; exfalso; auto|].
  rewrite IH by auto. reflexivity.
Qed.

Lemma before_app : forall sep a b, ~ In sep a -> before sep (a ++ sep :: b) = a.
Proof.
  induction a as [|c a IH]; simpl; intros b H.
  - now rewrite N.eqb_refl.
  - destruct (c =? sep) eqn:E; [apply N.eqb_eq in E; exfalso; auto|].
    now rewrite IH by auto.
Qed.

Lemma before_none : forall sep s, ~ In sep s -> before sep s = s.
Proof.
  induction s as [|c s IH]; simpl; intros H; auto.
  destruct (c =? sep) eqn:E; [apply N.eqb_eq in E; exfalso; auto|].
  now rewrite IH by auto.
Qed.

Lemma strip_id : forall s, Forall (fun c => is_space c = false) s -> strip s = s.
Proof. intros s H. unfold strip. rewrite drop_while_id by auto. now rewrite rstrip_by_id. Qed.

(** [strip] keeps a text whose first and last characters are not white space. *)
Definition strip_clean (s : pystr) : Prop :=
  match s with [] => True | c :: _ => is_space c = false end /\
  match rev s with [] => True | c :: _ => is_space c = false end.

Lemma strip_clean_id : forall s, strip_clean s -> strip s = s.
Proof.
  intros s [H1 H2]. unfold strip.
  assert (E : drop_while is_space s = s) by (destruct s; simpl; auto; now rewrite H1).
  rewrite E. unfold rstrip_by.
  assert (E2 : drop_while is_space (rev s) = rev s) by (destruct (rev s); simpl; auto; now rewrite H2).
  rewrite E2. apply rev_involutive.
Qed.

Lemma lower_id : forall s, Forall (fun c => c < 65 \/ 90 < c) s -> lower s = s.
Proof.
  induction 1; simpl; auto. f_equal; auto. unfold lower_c.
  replace ((65 <=? x) && (x <=? 90)) with false by lia. reflexivity.
Qed.

Lemma is_digit_range : forall c, is_digit c = true <-> 48 <= c <= 57.
Proof. intro. unfold is_digit. lia. Qed.
