(** json.loads (json.dumps v) = v. *)
From Coq Require Import List NArith ZArith Bool Lia ZifyBool String.
From Verif Require Import MBase MPyStr MUtf8 MJson SJson LBase LPyStr LUtf8.
Import ListNotations.
Local Open Scope N_scope.
Ltac Zify.zify_post_hook ::= Z.to_euclidean_division_equations.

(** ** Induction over JSON values *)
Section JsonInd.
  Variable P : json -> Prop.
  Hypothesis Hnull : P JNull.
  Hypothesis Hbool : forall b, P (JBool b).
  Hypothesis Hint : forall z, P (JInt z).
  Hypothesis Hfloat : forall t, P (JFloat t).
  Hypothesis Hstr : forall s, P (JStr s).
  Hypothesis Harr : forall l, Forall P l -> P (JArr l).
  Hypothesis Hobj : forall d, Forall (fun kv => P (snd kv)) d -> P (JObj d).
  Fixpoint json_ind' (v : json) : P v :=
    match v with
    | JNull => Hnull
    | JBool b => Hbool b
    | JInt z => Hint z
    | JFloat t => Hfloat t
    | JStr s => Hstr s
    | JArr l => Harr l ((fix go l : Forall P l :=
                           match l with [] => Forall_nil _ | x :: r => Forall_cons x (json_ind' x) (go r) end) l)
    | JObj d => Hobj d ((fix go d : Forall (fun kv => P (snd kv)) d :=
                           match d with
                           | [] => Forall_nil _
                           | x :: r => Forall_cons x (json_ind' (snd x)) (go r)
                           end) d)
    end.
End JsonInd.

(** ** Strings *)
Lemma hexv_lo : forall v, v < 16 -> hexv (hex_lo v) = Some v.
Proof.
  intros v H. unfold hexv, hex_lo. destruct (v <? 10) eqn:E.
  - replace ((48 <=? 48 + v) && (48 + v <=? 57)) with true by lia. f_equal. lia.
  - replace ((48 <=? 87 + v) && (87 + v <=? 57)) with false by lia.
    replace ((65 <=? 87 + v) && (87 + v <=? 70)) with false by lia.
    replace ((97 <=? 87 + v) && (87 + v <=? 102)) with true by lia. f_equal. lia.
Qed.

Lemma hex4v_lo : forall v, v < 65536 ->
    hex4v (hex_lo ((v / 4096) mod 16)) (hex_lo ((v / 256) mod 16)) (hex_lo ((v / 16) mod 16)) (hex_lo (v mod 16)) = Some v.
Proof. intros v H. unfold hex4v. rewrite !hexv_lo by lia. f_equal. lia. Qed.

Lemma scan_u_plain : forall v r, v < 65536 -> is_high v = false ->
    scan_string (u_escape v ++ r) = cons_fst v (scan_string r).
Proof.
  intros v r H Hh. unfold u_escape. cbn [app scan_string].
  simpl (92 =? 34). simpl (92 =? 92). simpl (117 =? 117). cbv iota.
  rewrite hex4v_lo by auto. now rewrite Hh.
Qed.

(** What may follow an unpaired high surrogate escape. *)
Definition not_low_escape (r : pystr) : Prop :=
  match r with
  | b0 :: b1 :: a :: b :: x :: d :: _ =>
      (b0 =? 92) && (b1 =? 117) = false \/ exists u, hex4v a b x d = Some u /\ is_low u = false
  | _ => True
  end.

Lemma scan_u_high : forall v r, v < 65536 -> is_high v = true -> not_low_escape r ->
    scan_string (u_escape v ++ r) = cons_fst v (scan_string r).
Proof.
  intros v r H Hh Hr. unfold u_escape. cbn [app].
  remember (hex_lo ((v / 4096) mod 16)) as h1. remember (hex_lo ((v / 256) mod 16)) as h2.
  remember (hex_lo ((v / 16) mod 16)) as h3. remember (hex_lo (v mod 16)) as h4.
  assert (Hx : hex4v h1 h2 h3 h4 = Some v) by (subst; now apply hex4v_lo).
  clear Heqh1 Heqh2 Heqh3 Heqh4.
  cbn [scan_string].
  simpl (92 =? 34). simpl (92 =? 92). simpl (117 =? 117). cbv iota.
  rewrite Hx, Hh. destruct r as [|b0 [|b1 [|a [|b [|x [|d r]]]]]]; auto.
  cbn [not_low_escape] in Hr. destruct Hr as [Hr|[u [Hu Hl]]].
  - now rewrite Hr.
  - rewrite Hu, Hl. destruct ((b0 =? 92) && (b1 =? 117)); reflexivity.
Qed.

Lemma scan_u_pair : forall c r, 65536 <= c < 1114112 ->
    scan_string (u_escape (55296 + (c - 65536) / 1024) ++ u_escape (56320 + (c - 65536) mod 1024) ++ r)
    = cons_fst c (scan_string r).
Proof.
  intros c r H. set (hi := 55296 + (c - 65536) / 1024). set (lo := 56320 + (c - 65536) mod 1024).
  assert (Hhi : hi < 65536) by (unfold hi; lia). assert (Hlo : lo < 65536) by (unfold lo; lia).
  pose proof (hex4v_lo hi Hhi) as X1. pose proof (hex4v_lo lo Hlo) as X2.
  unfold u_escape. cbn [app].
  remember (hex_lo ((hi / 4096) mod 16)) as h1. remember (hex_lo ((hi / 256) mod 16)) as h2.
  remember (hex_lo ((hi / 16) mod 16)) as h3. remember (hex_lo (hi mod 16)) as h4.
  remember (hex_lo ((lo / 4096) mod 16)) as g1. remember (hex_lo ((lo / 256) mod 16)) as g2.
  remember (hex_lo ((lo / 16) mod 16)) as g3. remember (hex_lo (lo mod 16)) as g4.
  clear Heqh1 Heqh2 Heqh3 Heqh4 Heqg1 Heqg2 Heqg3 Heqg4.
  cbn [scan_string].
  simpl (92 =? 34). simpl (92 =? 92). simpl (117 =? 117). cbv iota. simpl andb. cbv iota.
  rewrite X1, X2. replace (is_high hi) with true by (unfold is_high, hi; lia).
  replace (is_low lo) with true by (unfold is_low, lo; lia).
  f_equal. unfold hi, lo. lia.
Qed.

Lemma json_char_scan : forall c r, c < 1114112 -> (is_high c = true -> not_low_escape r) ->
    scan_string (json_char c ++ r) = cons_fst c (scan_string r).
Proof.
  intros c r Hc Hr. unfold json_char.
  destruct (c =? 34) eqn:E1; [apply N.eqb_eq in E1; subst; reflexivity|].
  destruct (c =? 92) eqn:E2; [apply N.eqb_eq in E2; subst; reflexivity|].
  destruct (c =? 10) eqn:E3; [apply N.eqb_eq in E3; subst; reflexivity|].
  destruct (c =? 13) eqn:E4; [apply N.eqb_eq in E4; subst; reflexivity|].
  destruct (c =? 9) eqn:E5; [apply N.eqb_eq in E5; subst; reflexivity|].
  destruct (c =? 12) eqn:E6; [apply N.eqb_eq in E6; subst; reflexivity|].
  destruct (c =? 8) eqn:E7; [apply N.eqb_eq in E7; subst; reflexivity|].
  destruct ((32 <=? c) && (c <=? 126)) eqn:E8.
  { cbn [app scan_string]. rewrite E1, E2. replace (c <=? 31) with false by lia. reflexivity. }
  destruct (c <? 65536) eqn:E9.
  { destruct (is_high c) eqn:E10.
    - apply scan_u_high; auto. lia.
    - apply scan_u_plain; auto. lia. }
  cbv zeta. rewrite <- app_assoc. apply scan_u_pair. lia.
Qed.


Lemma json_char_follow : forall c r, c < 1114112 -> is_low c = false -> not_low_escape (json_char c ++ r).
Proof.
  intros c r Hc Hl. unfold json_char.
  destruct (c =? 34); [destruct r as [|? [|? [|? [|? ?]]]]; simpl; auto|].
  destruct (c =? 92) eqn:E2; [destruct r as [|? [|? [|? [|? ?]]]]; simpl; auto|].
  destruct (c =? 10); [destruct r as [|? [|? [|? [|? ?]]]]; simpl; auto|].
  destruct (c =? 13); [destruct r as [|? [|? [|? [|? ?]]]]; simpl; auto|].
  destruct (c =? 9); [destruct r as [|? [|? [|? [|? ?]]]]; simpl; auto|].
  destruct (c =? 12); [destruct r as [|? [|? [|? [|? ?]]]]; simpl; auto|].
  destruct (c =? 8); [destruct r as [|? [|? [|? [|? ?]]]]; simpl; auto|].
  destruct ((32 <=? c) && (c <=? 126)) eqn:E8.
  { cbn [app not_low_escape]. destruct r as [|? [|? [|? [|? [|? ?]]]]]; auto. left. now rewrite E2. }
  destruct (c <? 65536) eqn:E9.
  { unfold u_escape. cbn [app not_low_escape]. right. exists c. rewrite hex4v_lo by lia. auto. }
  cbv zeta. unfold u_escape. cbn [app not_low_escape]. right.
  exists (55296 + (c - 65536) / 1024). rewrite hex4v_lo by lia. split; auto. unfold is_low. lia.
Qed.

Lemma scan_string_ok : forall s r, json_str_ok s ->
    scan_string (flat_map json_char s ++ 34 :: r) = Some (s, r).
Proof.
  induction s as [|c s IH]; intros r [Hc Hp].
  - reflexivity.
  - inversion Hc; subst. cbn [no_pair] in Hp. apply andb_prop in Hp. destruct Hp as [Hp1 Hp2].
    cbn [flat_map]. rewrite <- app_assoc. rewrite json_char_scan.
    + rewrite IH by (split; auto). reflexivity.
    + auto.
    + intro Hh. rewrite Hh in Hp1. destruct s as [|d s].
      * cbn [flat_map app not_low_escape]. destruct r as [|? [|? [|? [|? [|? ?]]]]]; auto.
      * cbn [flat_map]. rewrite <- app_assoc. apply json_char_follow.
        -- inversion H2; auto.
        -- simpl in Hp1. now apply negb_true_iff in Hp1.
Qed.

(** ** Numbers *)
Definition not_digit_first (r : pystr) : Prop := match r with [] => True | c :: _ => is_digit c = false end.

Lemma take_digits_app : forall ds r, Forall (fun c => is_digit c = true) ds -> not_digit_first r ->
    take_digits (ds ++ r) = (ds, r).
Proof.
  induction ds as [|c ds IH]; intros r H Hr; simpl.
  - destruct r as [|c r]; simpl in *; auto. now rewrite Hr.
  - inversion H; subst. rewrite H2. now rewrite IH.
Qed.

(** What may follow a value: end of text, a comma or a closing bracket. *)
Definition rest_ok (r : pystr) : Prop :=
  match r with [] => True | c :: _ => c = 44 \/ c = 93 \/ c = 125 end.

(** Integer part: the branch on a leading zero. *)
Definition int_part (s : pystr) : option (pystr * pystr) :=
  match s with
  | 48 :: t => Some ([48], t)
  | c :: _ => if is_digit c then Some (take_digits s) else None
  | [] => None
  end.

Lemma int_part_ok : forall ds r, digits1 ds -> (ds = [48] \/ hd 48 ds <> 48) -> not_digit_first r ->
    int_part (ds ++ r) = Some (ds, r).
Proof.
  intros ds r [Hn Hd] Hz Hr. destruct Hz as [-> | Hz]; [reflexivity|].
  destruct ds as [|c ds]; [congruence|]. simpl in Hz. unfold int_part.
  rewrite (take_digits_app (c :: ds) r) by auto. inversion Hd; subst. cbn [app].
  unfold is_digit in *.
  assert (D : c = 49 \/ c = 50 \/ c = 51 \/ c = 52 \/ c = 53 \/ c = 54 \/ c = 55 \/ c = 56 \/ c = 57) by lia.
  repeat (destruct D as [-> | D]; [reflexivity|]). now subst.
Qed.

Definition frac_part (r : pystr) : pystr * pystr :=
  match r with
  | 46 :: t => let (f, r') := take_digits t in
               match f with [] => ([], r) | _ => (46 :: f, r') end
  | _ => ([], r)
  end.

Definition exp_part (r1 : pystr) : pystr * pystr :=
  match r1 with
  | e :: t =>
      if (e =? 101) || (e =? 69) then
        let '(sg, t') := match t with
                         | 43 :: t' => ([43], t')
                         | 45 :: t' => ([45], t')
                         | _ => ([], t)
                         end in
        let (x, r') := take_digits t' in
        match x with [] => ([], r1) | _ => (e :: sg ++ x, r') end
      else ([], r1)
  | [] => ([], r1)
  end.

Lemma scan_number_parts : forall neg s,
    scan_number neg s =
    match int_part s with
    | None => None
    | Some (ds, r) =>
        let '(frac, r1) := frac_part r in
        let '(ex, r2) := exp_part r1 in
        match frac, ex with
        | [], [] => Some (JInt (if neg then - Z.of_N (digits_val ds) else Z.of_N (digits_val ds))%Z, r2)
        | _, _ => Some (JFloat ((if neg then [45] else []) ++ ds ++ frac ++ ex), r2)
        end
    end.
Proof. reflexivity. Qed.

Lemma rest_not_digit : forall r, rest_ok r -> not_digit_first r.
Proof. intros [|c r] H; simpl in *; auto. destruct H as [-> | [-> | ->]]; reflexivity. Qed.

Lemma frac_part_none : forall r, (match r with [] => True | c :: _ => c <> 46 end) -> frac_part r = ([], r).
Proof.
  intros [|c r] H; auto. unfold frac_part.
  destruct c as [|p]; auto. do 6 (destruct p as [p|p|]; auto). congruence.
Qed.

Lemma exp_part_none : forall r, (match r with [] => True | c :: _ => c <> 101 /\ c <> 69 end) -> exp_part r = ([], r).
Proof.
  intros [|c r] H; auto. unfold exp_part. replace ((c =? 101) || (c =? 69)) with false by lia. reflexivity.
Qed.

Lemma frac_part_some : forall f r, digits1 f -> not_digit_first r -> frac_part (46 :: f ++ r) = (46 :: f, r).
Proof.
  intros f r [Hn Hf] Hr. unfold frac_part. rewrite take_digits_app by auto. destruct f; congruence.
Qed.

Lemma exp_part_some : forall e x r, (e = 101 \/ e = 69) ->
    (digits1 x \/ exists sg x', x = sg :: x' /\ (sg = 43 \/ sg = 45) /\ digits1 x') -> not_digit_first r ->
    exp_part (e :: x ++ r) = (e :: x, r).
Proof.
  intros e x r He Hx Hr. unfold exp_part. replace ((e =? 101) || (e =? 69)) with true by lia.
  destruct Hx as [[Hn Hx]|[sg [x' [-> [Hs [Hn Hx]]]]]].
  - destruct x as [|d x]; [congruence|]. inversion Hx; subst.
    assert (M : match (d :: x) ++ r with
                | 43 :: t' => ([43], t') | 45 :: t' => ([45], t') | _ => ([], (d :: x) ++ r) end
                = ([], (d :: x) ++ r)).
    { cbn [app]. unfold is_digit in H1.
      assert (D : d = 48 \/ d = 49 \/ d = 50 \/ d = 51 \/ d = 52 \/ d = 53 \/ d = 54 \/ d = 55 \/ d = 56 \/ d = 57) by lia.
      repeat (destruct D as [-> | D]; [reflexivity|]). now subst. }
    rewrite M. rewrite take_digits_app by auto. reflexivity.
  - destruct x' as [|d x]; [congruence|].
    destruct Hs as [-> | ->]; cbn [app]; change (d :: x ++ r) with ((d :: x) ++ r);
      rewrite take_digits_app by auto; reflexivity.
Qed.

Lemma dec_of_N_zero_or : forall n, dec_of_N n = [48] \/ hd 48 (dec_of_N n) <> 48.
Proof.
  intro n. destruct (N.eq_dec n 0) as [-> | H]; [now left|].
  right. destruct (dec_of_N_hd n H) as [d [t [-> Hd]]]. simpl. lia.
Qed.

Lemma scan_int_ok : forall (neg : bool) n r, rest_ok r ->
    scan_number neg (dec_of_N n ++ r) = Some (JInt (if neg then - Z.of_N n else Z.of_N n)%Z, r).
Proof.
  intros neg n r Hr. rewrite scan_number_parts.
  rewrite int_part_ok; [|split; [apply dec_of_N_nonempty|apply dec_of_N_digits]
                        |apply dec_of_N_zero_or|now apply rest_not_digit].
  rewrite frac_part_none by (destruct r; simpl in *; auto; lia).
  rewrite exp_part_none by (destruct r; simpl in *; auto; lia).
  now rewrite dec_of_N_val.
Qed.

Lemma scan_float_ok : forall (neg : bool) ds frac ex r, rest_ok r ->
    digits1 ds -> (ds = [48] \/ hd 48 ds <> 48) ->
    (frac = [] \/ exists f, frac = 46 :: f /\ digits1 f) ->
    (ex = [] \/ exists e x, ex = e :: x /\ (e = 101 \/ e = 69) /\
        (digits1 x \/ exists sg x', x = sg :: x' /\ (sg = 43 \/ sg = 45) /\ digits1 x')) ->
    ~ (frac = [] /\ ex = []) ->
    scan_number neg (ds ++ frac ++ ex ++ r) = Some (JFloat ((if neg then [45] else []) ++ ds ++ frac ++ ex), r).
Proof.
  intros neg ds frac ex r Hr Hd Hz Hf He Hne. rewrite scan_number_parts.
  rewrite int_part_ok; auto.
  2:{ destruct Hf as [-> | [f [-> _]]]; [|reflexivity].
      destruct He as [-> | [e [x [-> [[-> | ->] _]]]]]; simpl; auto. now apply rest_not_digit. }
  assert (F : frac_part (frac ++ ex ++ r) = (frac, ex ++ r)).
  { destruct Hf as [-> | [f [-> Hf]]].
    - apply frac_part_none. destruct He as [-> | [e [x [-> [[-> | ->] _]]]]]; simpl; try lia.
      destruct r; simpl in *; auto; lia.
    - change ((46 :: f) ++ ex ++ r) with (46 :: f ++ (ex ++ r)). apply frac_part_some; auto.
      destruct He as [-> | [e [x [-> [[-> | ->] _]]]]]; simpl; auto. now apply rest_not_digit. }
  rewrite F.
  assert (E : exp_part (ex ++ r) = (ex, r)).
  { destruct He as [-> | [e [x [-> [He Hx]]]]].
    - apply exp_part_none. destruct r; simpl in *; auto; lia.
    - cbn [app]. apply exp_part_some; auto. now apply rest_not_digit. }
  rewrite E. destruct frac, ex; auto. exfalso; auto.
Qed.

(** ** Values *)
Lemma join_cons : forall sep a b r, join sep (a :: b :: r) = a ++ sep ++ join sep (b :: r).
Proof. reflexivity. Qed.

Lemma skip_ws_cons : forall c r, is_ws c = false -> skip_ws (c :: r) = c :: r.
Proof. intros. unfold skip_ws. simpl. now rewrite H. Qed.

Lemma skip_ws_sp : forall r, skip_ws (32 :: r) = skip_ws r.
Proof. reflexivity. Qed.

(** First character of a printed value. *)
Definition value_head (s : pystr) : Prop :=
  exists c t, s = c :: t /\ is_ws c = false /\ c <> 93 /\ c <> 125.

Lemma float_head : forall t, float_text t -> exists c r, t = c :: r /\ (c = 45 \/ is_digit c = true).
Proof.
  intros t [neg [ds [frac [ex [-> [[Hn Hd] _]]]]]]. destruct neg; simpl; [eauto|].
  destruct ds as [|d ds]; [congruence|]. inversion Hd; subst. simpl. eauto.
Qed.

Lemma dumps_head : forall v, json_ok v -> value_head (json_dumps v).
Proof.
  intros v H. unfold value_head.
  destruct v as [|b|z|t|s|l|d]; cbn [json_dumps].
  - eexists _, _; repeat split; try reflexivity; discriminate.
  - destruct b; eexists _, _; repeat split; try reflexivity; discriminate.
  - destruct (Z.ltb_spec z 0).
    + rewrite dec_of_Z_neg by auto. eexists _, _; repeat split; try reflexivity; discriminate.
    + rewrite dec_of_Z_nonneg by auto.
      pose proof (dec_of_N_digits (Z.to_N z)) as D. pose proof (dec_of_N_nonempty (Z.to_N z)) as Nn.
      destruct (dec_of_N (Z.to_N z)) as [|c t]; [congruence|]. inversion D; subst.
      unfold is_digit in *. exists c, t. repeat split; auto; try lia. unfold is_ws. lia.
  - cbn [json_ok] in H. destruct H as [H|[->|[->| ->]]].
    + destruct (float_head t H) as [c [r [-> Hc]]]. exists c, r. repeat split; auto.
      * unfold is_ws, is_digit in *. lia.
      * unfold is_digit in *. lia.
      * unfold is_digit in *. lia.
    + eexists _, _; repeat split; try reflexivity; discriminate.
    + eexists _, _; repeat split; try reflexivity; discriminate.
    + eexists _, _; repeat split; try reflexivity; discriminate.
  - unfold json_string. eexists _, _; repeat split; try reflexivity; discriminate.
  - eexists _, _; repeat split; try reflexivity; discriminate.
  - eexists _, _; repeat split; try reflexivity; discriminate.
Qed.

Definition good (v : json) : Prop :=
  json_ok v -> forall f r, (List.length (json_dumps v) <= f)%nat -> rest_ok r ->
    scan_value f (json_dumps v ++ r) = Some (v, r).

Lemma scan_value_num : forall f s, 
    match s with c :: _ => c = 45 \/ is_digit c = true | [] => False end ->
    startswith (lit "-Infinity") s = false ->
    scan_value (S f) s = match s with
                         | 45 :: t => scan_number true t
                         | _ => scan_number false s
                         end.
Proof.
  intros f s H Hi. destruct s as [|c s]; [tauto|]. cbn [scan_value].
  destruct H as [-> | H].
  - simpl (45 =? 34). simpl (45 =? 123). simpl (45 =? 91). simpl (45 =? 45). cbv iota.
    rewrite Hi. reflexivity.
  - unfold is_digit in H.
    assert (D : c = 48 \/ c = 49 \/ c = 50 \/ c = 51 \/ c = 52 \/ c = 53 \/ c = 54 \/ c = 55 \/ c = 56 \/ c = 57) by lia.
    repeat (destruct D as [-> | D]; [reflexivity|]). subst. reflexivity.
Qed.

Lemma scan_elems_ok : forall l, Forall good l ->
    (fix all l := match l with [] => True | x :: r => json_ok x /\ all r end) l ->
    l <> [] -> forall f r,
    (List.length (join [44%N; 32%N] (map json_dumps l)) + 1 <= f)%nat ->
    scan_elems f (join [44; 32] (map json_dumps l) ++ 93 :: r) = Some (l, r).
Proof.
  induction 1 as [|v l Hv Hl IH]; intros Hok Hn f r Hf; [congruence|].
  destruct Hok as [Hok1 Hok2]. destruct f as [|f]; [lia|]. cbn [scan_elems].
  destruct l as [|w l].
  - cbn [map join] in *. rewrite Hv; [reflexivity|exact Hok1|lia|simpl; auto].
  - cbn [map] in *. rewrite join_cons in *. rewrite !app_length in Hf. cbn [List.length] in Hf.
    rewrite <- !app_assoc. rewrite Hv; [|exact Hok1|lia|simpl; auto].
    cbn [app]. rewrite skip_ws_cons by reflexivity. rewrite skip_ws_sp.
    assert (Hd : value_head (join [44; 32] (json_dumps w :: map json_dumps l))).
    { destruct Hok2 as [Hw _]. destruct (dumps_head w Hw) as [c [t [E [E1 E2]]]].
      destruct l; cbn [map join]; rewrite E; [exists c, t|eexists c, _]; split; try reflexivity; auto. }
    destruct Hd as [c [t [E [E1 E2]]]].
    assert (Esk : skip_ws (join [44; 32] (json_dumps w :: map json_dumps l) ++ 93 :: r)
                  = join [44; 32] (json_dumps w :: map json_dumps l) ++ 93 :: r).
    { rewrite E. cbn [app]. now rewrite skip_ws_cons. }
    rewrite Esk. rewrite IH; auto; [discriminate|lia].
Qed.

Definition member_text (kv : pystr * json) : pystr := json_string (fst kv) ++ [58; 32] ++ json_dumps (snd kv).

Lemma scan_members_ok : forall d, Forall (fun kv => good (snd kv)) d ->
    (fix all (d : list (pystr * json)) :=
       match d with [] => True | (k, x) :: r => json_str_ok k /\ json_ok x /\ all r end) d ->
    d <> [] -> forall f r acc,
    NoDup (map fst acc ++ map fst d) ->
    (List.length (join [44%N; 32%N] (map member_text d)) + 1 <= f)%nat ->
    exists t, join [44; 32] (map member_text d) = 34 :: t /\
    scan_members f (t ++ 125 :: r) acc = Some (acc ++ d, r).
Proof.
  induction 1 as [|[k v] d Hv Hd IH]; intros Hok Hn f r acc Hnd Hf; [congruence|].
  destruct Hok as [Hk [Hok1 Hok2]]. destruct f as [|f]; [lia|].
  assert (Hkn : dget acc k = None).
  { apply dget_None_notin. intro C. simpl in Hnd. apply NoDup_remove_2 in Hnd. apply Hnd.
    apply in_or_app. now left. }
  destruct d as [|kv2 d].
  - cbn [map join] in *. unfold member_text at 1. cbn [fst snd]. unfold json_string. cbn [app].
    eexists. split; [reflexivity|].
    rewrite <- !app_assoc. cbn [scan_members app]. rewrite scan_string_ok by auto.
    rewrite skip_ws_cons by reflexivity. rewrite skip_ws_sp.
    destruct (dumps_head v Hok1) as [c [t [E [E1 E2]]]].
    assert (Esk : skip_ws (json_dumps v ++ 125 :: r) = json_dumps v ++ 125 :: r).
    { rewrite E. cbn [app]. now rewrite skip_ws_cons. }
    rewrite Esk. cbn [snd] in Hv. rewrite Hv; auto.
    + rewrite skip_ws_cons by reflexivity. now rewrite dset_notin.
    + unfold member_text in Hf. cbn [fst snd] in Hf. rewrite !app_length in Hf. lia.
    + simpl; auto.
  - cbn [map] in *. rewrite join_cons in *. rewrite !app_length in Hf. cbn [List.length] in Hf.
    destruct (IH Hok2) with (f := f) (r := r) (acc := acc ++ [(k, v)]) as [t2 [Et2 Es2]].
    { discriminate. }
    { rewrite map_app. simpl. rewrite <- app_assoc. exact Hnd. }
    { lia. }
    rewrite Et2. unfold member_text at 1. cbn [fst snd]. unfold json_string. cbn [app].
    eexists. split; [reflexivity|].
    rewrite <- !app_assoc. cbn [scan_members app]. rewrite scan_string_ok by auto.
    rewrite skip_ws_cons by reflexivity. rewrite skip_ws_sp.
    destruct (dumps_head v Hok1) as [c [t [E [E1 E2]]]].
    match goal with |- context [skip_ws (json_dumps v ++ ?x)] =>
      assert (Esk : skip_ws (json_dumps v ++ x) = json_dumps v ++ x)
        by (rewrite E; cbn [app]; now rewrite skip_ws_cons) end.
    rewrite Esk. cbn [snd] in Hv. rewrite Hv; auto.
    + cbn [app]. rewrite skip_ws_cons by reflexivity. rewrite skip_ws_sp.
      rewrite skip_ws_cons by reflexivity. rewrite dset_notin by auto.
      rewrite Es2. now rewrite <- app_assoc.
    + unfold member_text in Hf. cbn [fst snd] in Hf. rewrite !app_length in Hf. lia.
    + simpl; auto.
Qed.

Lemma scan_value_ok : forall v, good v.
Proof.
  assert (Hpos : forall v, json_ok v -> (1 <= List.length (json_dumps v))%nat).
  { intros v Hok. destruct (dumps_head v Hok) as [c [t [E _]]]. rewrite E. simpl. lia. }
  induction v using json_ind'; intros Hok f r Hf Hr;
    (destruct f as [|f]; [specialize (Hpos _ Hok); lia|]).
  - reflexivity.
  - destruct b; reflexivity.
  - cbn [json_dumps]. destruct (Z.ltb_spec z 0).
    + rewrite dec_of_Z_neg by auto. cbn [app]. rewrite scan_value_num.
      * rewrite scan_int_ok by auto. f_equal. f_equal. f_equal. lia.
      * auto.
      * change (lit "-Infinity") with (45 :: 73 :: lit "nfinity"). cbn [startswith].
        pose proof (dec_of_N_digits (Z.to_N (- z))) as D. pose proof (dec_of_N_nonempty (Z.to_N (- z))) as Nn.
        destruct (dec_of_N (Z.to_N (- z))) as [|c t]; [congruence|]. cbn [app]. inversion D; subst.
        unfold is_digit in *. replace (73 =? c) with false by lia. reflexivity.
    + rewrite dec_of_Z_nonneg by auto.
      pose proof (dec_of_N_digits (Z.to_N z)) as D. pose proof (dec_of_N_nonempty (Z.to_N z)) as Nn.
      rewrite scan_value_num.
      * pose proof (scan_int_ok false (Z.to_N z) r Hr) as S1.
        replace (Z.of_N (Z.to_N z)) with z in S1 by lia.
        destruct (dec_of_N (Z.to_N z)) as [|c t]; [congruence|]. cbn [app] in *. inversion D; subst.
        unfold is_digit in *.
        assert (Dc : c = 48 \/ c = 49 \/ c = 50 \/ c = 51 \/ c = 52 \/ c = 53 \/ c = 54 \/ c = 55 \/ c = 56 \/ c = 57) by lia.
        repeat (destruct Dc as [-> | Dc]; [exact S1|]). subst. exact S1.
      * destruct (dec_of_N (Z.to_N z)) as [|c t]; [congruence|]. cbn [app]. inversion D; subst. auto.
      * change (lit "-Infinity") with (45 :: lit "Infinity"). 
        destruct (dec_of_N (Z.to_N z)) as [|c t]; [congruence|]. cbn [app startswith]. inversion D; subst.
        unfold is_digit in *. replace (45 =? c) with false by lia. reflexivity.
  - cbn [json_dumps]. cbn [json_ok] in Hok. destruct Hok as [H|[->|[->| ->]]]; try reflexivity.
    destruct H as [neg [ds [frac [ex [-> [Hd [Hz [Hf' [He Hne]]]]]]]]].
    pose proof (scan_float_ok neg ds frac ex r Hr Hd Hz Hf' He Hne) as S1.
    destruct Hd as [Hn Hd]. destruct ds as [|c ds]; [congruence|]. inversion Hd; subst.
    destruct neg.
    + cbn [app]. rewrite <- !app_assoc. rewrite scan_value_num.
      * exact S1.
      * auto.
      * change (lit "-Infinity") with (45 :: 73 :: lit "nfinity"). cbn [startswith].
        unfold is_digit in *. replace (73 =? c) with false by lia. reflexivity.
    + cbn [app]. rewrite <- !app_assoc. rewrite scan_value_num.
      * unfold is_digit in H1. cbn [app] in *.
        assert (Dc : c = 48 \/ c = 49 \/ c = 50 \/ c = 51 \/ c = 52 \/ c = 53 \/ c = 54 \/ c = 55 \/ c = 56 \/ c = 57) by lia.
        repeat (destruct Dc as [-> | Dc]; [exact S1|]). subst. exact S1.
      * auto.
      * change (lit "-Infinity") with (45 :: lit "Infinity"). cbn [startswith].
        unfold is_digit in *. replace (45 =? c) with false by lia. reflexivity.
  - cbn [json_dumps]. unfold json_string. cbn [app]. rewrite <- app_assoc. cbn [scan_value].
    simpl (34 =? 34). cbv iota. cbn [app]. rewrite scan_string_ok by auto. reflexivity.
  - cbn [json_dumps app]. rewrite <- app_assoc. cbn [scan_value app].
    simpl (91 =? 34). simpl (91 =? 123). simpl (91 =? 91). cbv iota.
    destruct l as [|w l].
    + reflexivity.
    + cbn [json_dumps] in Hf. rewrite app_comm_cons, app_length in Hf. cbn [List.length] in Hf.
      pose proof (scan_elems_ok (w :: l) H Hok ltac:(discriminate) f r ltac:(lia)) as S1.
      assert (Hd : value_head (join [44; 32] (map json_dumps (w :: l)))).
      { destruct Hok as [Hw _]. destruct (dumps_head w Hw) as [c [t [E [E1 E2]]]].
        destruct l; cbn [map join]; rewrite E; [exists c, t|eexists c, _]; split; try reflexivity; auto. }
      destruct Hd as [c [t [E [E1 [E2 E3]]]]]. rewrite E in *. cbn [app] in *.
      rewrite skip_ws_cons by auto.
      clear E. destruct c as [|p]; [rewrite S1; reflexivity|].
      do 7 (destruct p as [p|p|]; try (rewrite S1; reflexivity)). congruence.
  - cbn [json_dumps app]. rewrite <- app_assoc. cbn [scan_value app].
    simpl (123 =? 34). simpl (123 =? 123). cbv iota.
    change (map (fun kv : pystr * json => json_string (fst kv) ++ 58 :: 32 :: json_dumps (snd kv)) d)
      with (map member_text d).
    destruct d as [|w d].
    + reflexivity.
    + cbn [json_dumps] in Hf. rewrite app_comm_cons, app_length in Hf. cbn [List.length] in Hf.
      change (map (fun kv : pystr * json => json_string (fst kv) ++ [58; 32] ++ json_dumps (snd kv)) (w :: d))
        with (map member_text (w :: d)) in Hf.
      destruct Hok as [Hnd Hok].
      destruct (scan_members_ok (w :: d) H Hok ltac:(discriminate) f r [] Hnd ltac:(lia)) as [t [Et Es]].
      rewrite Et. cbn [app]. rewrite skip_ws_cons by reflexivity. rewrite Es. reflexivity.
Qed.

(** The text is ASCII. *)
Lemma json_char_ascii : forall c, c < 1114112 -> Forall (fun x => x < 128) (json_char c).
Proof.
  intros c H. unfold json_char, u_escape.
  assert (HL : forall v, v < 16 -> hex_lo v < 128) by (intros v Hv; unfold hex_lo; destruct (v <? 10) eqn:E; lia).
  repeat match goal with |- context [if ?b then _ else _] => destruct b eqn:? end;
    cbv zeta; cbn [app]; repeat apply Forall_cons; try apply Forall_nil; try lia; apply HL; lia.
Qed.

Lemma json_string_ascii : forall s, json_str_ok s -> Forall (fun x => x < 128) (json_string s).
Proof.
  intros s [H _]. unfold json_string. constructor; [lia|]. apply Forall_app. split; [|repeat constructor].
  induction H; simpl; [constructor|]. apply Forall_app. split; auto using json_char_ascii.
Qed.

Lemma digits_ascii : forall l, Forall (fun c => is_digit c = true) l -> Forall (fun x => x < 128) l.
Proof. intros l H. eapply Forall_impl; [|exact H]. intros c Hc. unfold is_digit in Hc. lia. Qed.

Lemma join_ascii : forall l, Forall (Forall (fun x => x < 128)) l -> Forall (fun x => x < 128) (join [44; 32] l).
Proof.
  induction 1 as [|a l Ha Hl IH]; [constructor|]. destruct l as [|b l]; [exact Ha|].
  rewrite join_cons. apply Forall_app. split; auto. cbn [app]. repeat (constructor; [lia|]). exact IH.
Qed.

Lemma json_dumps_ascii : forall v, json_ok v -> Forall (fun x => x < 128) (json_dumps v).
Proof.
  induction v using json_ind'; intros Hok; cbn [json_dumps].
  - repeat constructor.
  - destruct b; repeat constructor.
  - destruct z; simpl; [repeat constructor| |constructor; [lia|]]; apply digits_ascii, dec_of_N_digits.
  - cbn [json_ok] in Hok. destruct Hok as [H|[->|[->| ->]]]; try (repeat constructor; fail).
    destruct H as [neg [ds [frac [ex [-> [[_ Hd] [_ [Hf [He _]]]]]]]]].
    apply Forall_app; split; [destruct neg; repeat constructor|].
    apply Forall_app; split; [now apply digits_ascii|]. apply Forall_app; split.
    + destruct Hf as [-> | [f [-> [_ Hf]]]]; [constructor|constructor; [lia|now apply digits_ascii]].
    + destruct He as [-> | [e [x [-> [He Hx]]]]]; [constructor|constructor; [lia|]].
      destruct Hx as [[_ Hx]|[sg [x' [-> [Hs [_ Hx]]]]]]; [now apply digits_ascii|].
      constructor; [lia|now apply digits_ascii].
  - now apply json_string_ascii.
  - constructor; [lia|]. apply Forall_app. split; [|repeat constructor].
    apply join_ascii. cbn [json_ok] in Hok. induction H as [|x l Hx Hl IH]; simpl; [constructor|].
    destruct Hok as [Ho1 Ho2]. constructor; auto.
  - constructor; [lia|]. apply Forall_app. split; [|repeat constructor].
    apply join_ascii. destruct Hok as [_ Hok]. induction H as [|[k x] l Hx Hl IH]; simpl; [constructor|].
    destruct Hok as [Ho1 [Ho2 Ho3]]. constructor; auto.
    change (Forall (fun x => x < 128) (json_string k ++ 58 :: 32 :: json_dumps x)).
    apply Forall_app. split; [now apply json_string_ascii|]. repeat (constructor; [lia|]). auto.
Qed.

Lemma json_roundtrip : forall v, json_ok v -> json_loads (json_dumps v) = Some v.
Proof.
  intros v Hok. unfold json_loads.
  destruct (dumps_head v Hok) as [c [t [E [E1 E2]]]].
  assert (Hskip : skip_ws (json_dumps v) = json_dumps v) by (rewrite E; now rewrite skip_ws_cons).
  pose proof (scan_value_ok v Hok (S (List.length (json_dumps v))) [] ltac:(lia) I) as S1.
  rewrite app_nil_r in S1. rewrite Hskip, S1.
  pose proof (json_dumps_ascii v Hok) as A. rewrite E in A. inversion A; subst.
  rewrite E. assert (M : forall X : option json, match c :: t with 65279 :: _ => None | _ => X end = X).
  { intro X. destruct c as [|p]; auto. do 7 (destruct p as [p|p|]; auto; try lia). }
  apply M.
Qed.

Lemma loads_bytes_ascii : forall b, Forall (fun x => x < 128) b ->
    json_loads_bytes b = match utf8_decode_gen true b with Some s => json_loads s | None => None end.
Proof.
  intros b A. unfold json_loads_bytes. cbv zeta. destruct b as [|c t]; auto. inversion A; subst.
  destruct c as [|p]; auto. do 7 (destruct p as [p|p|]; auto; try lia).
Qed.

Lemma json_roundtrip_bytes : forall v b, json_ok v -> utf8_encode (json_dumps v) = Some b ->
    json_loads_bytes b = Some v.
Proof.
  intros v b Hok H. pose proof (json_dumps_ascii v Hok) as A.
  rewrite utf8_encode_ascii in H by auto. inversion H; subst.
  rewrite loads_bytes_ascii by auto. rewrite utf8_decode_ascii by auto. now apply json_roundtrip.
Qed.

Lemma json_dumps_encode : forall v, json_ok v -> utf8_encode (json_dumps v) = Some (json_dumps v).
Proof. intros. apply utf8_encode_ascii. now apply json_dumps_ascii. Qed.

(** ASCII text and Unicode text without surrogates can always be carried. *)
Lemma no_pair_no_high : forall s, Forall (fun c => is_high c = false) s -> no_pair s = true.
Proof. induction 1; simpl; auto. rewrite H. simpl. auto. Qed.

Lemma scalar_json_ok : forall s, Forall is_scalar s -> json_str_ok s.
Proof.
  intros s H. split.
  - eapply Forall_impl; [|exact H]. intros c [Hc _]. exact Hc.
  - apply no_pair_no_high. eapply Forall_impl; [|exact H]. intros c [_ Hs].
    unfold is_surrogate, is_high in *. lia.
Qed.

Lemma ascii_json_ok : forall s, Forall (fun c => c < 128) s -> json_str_ok s.
Proof.
  intros s H. apply scalar_json_ok. eapply Forall_impl; [|exact H]. intros c Hc. cbv beta in Hc.
  split; [lia|]. unfold is_surrogate. lia.
Qed.

(** Strings are always written in ASCII. *)
Lemma json_char_ascii' c : Forall (fun x => x < 128) (json_char c).
Proof.
  unfold json_char, u_escape.
  assert (HL : forall v, hex_lo (v mod 16) < 128).
  { intro v. unfold hex_lo. destruct (v mod 16 <? 10) eqn:E; lia. }
  repeat match goal with |- context [if ?b then _ else _] => destruct b eqn:? end;
    cbv zeta; cbn [app]; repeat apply Forall_cons; try apply Forall_nil; try lia; apply HL.
Qed.
Lemma json_string_ascii' s : Forall (fun x => x < 128) (json_string s).
Proof.
  unfold json_string. constructor; [lia|]. apply Forall_app. split; [|repeat constructor].
  induction s; simpl; [constructor|]. apply Forall_app. split; auto using json_char_ascii'.
Qed.
