(** base64 round trips. *)
From Coq Require Import List NArith ZArith Bool Lia ZifyBool.
From Verif Require Import MBase MPyStr MBase64.
Import ListNotations.
Local Open Scope N_scope.
Ltac Zify.zify_post_hook ::= Z.to_euclidean_division_equations.

Definition is_b64_char (url : bool) (c : N) : bool :=
  ((65 <=? c) && (c <=? 90)) || ((97 <=? c) && (c <=? 122)) || ((48 <=? c) && (c <=? 57))
  || (if url then (c =? 45) || (c =? 95) else (c =? 43) || (c =? 47)).

Lemma b64_char_ok : forall url v, v < 64 -> is_b64_char url (b64_char url v) = true.
Proof.
  intros url v H. unfold is_b64_char, b64_char.
  destruct (v <? 26) eqn:A; [lia|]. destruct (v <? 52) eqn:B; [lia|].
  destruct (v <? 62) eqn:C; [lia|]. destruct (v =? 62) eqn:D; destruct url; lia.
Qed.

Lemma b64_val_char : forall v, v < 64 -> b64_val (b64_char false v) = Some v.
Proof.
  intros v H. unfold b64_val, b64_char.
  destruct (v <? 26) eqn:A.
  { replace ((65 <=? 65 + v) && (65 + v <=? 90)) with true by lia. f_equal; lia. }
  destruct (v <? 52) eqn:B.
  { replace ((65 <=? 97 + (v - 26)) && (97 + (v - 26) <=? 90)) with false by lia.
    replace ((97 <=? 97 + (v - 26)) && (97 + (v - 26) <=? 122)) with true by lia. f_equal; lia. }
  destruct (v <? 62) eqn:C.
  { replace ((65 <=? 48 + (v - 52)) && (48 + (v - 52) <=? 90)) with false by lia.
    replace ((97 <=? 48 + (v - 52)) && (48 + (v - 52) <=? 122)) with false by lia.
    replace ((48 <=? 48 + (v - 52)) && (48 + (v - 52) <=? 57)) with true by lia. f_equal; lia. }
  destruct (v =? 62) eqn:D; simpl; f_equal; lia.
Qed.

Lemma url_translate_char : forall v, v < 64 -> url_translate (b64_char true v) = b64_char false v.
Proof.
  intros v H. unfold url_translate, b64_char.
  destruct (v <? 26) eqn:A.
  { replace (65 + v =? 45) with false by lia. replace (65 + v =? 95) with false by lia. reflexivity. }
  destruct (v <? 52) eqn:B.
  { replace (97 + (v - 26) =? 45) with false by lia.
    replace (97 + (v - 26) =? 95) with false by lia. reflexivity. }
  destruct (v <? 62) eqn:C.
  { replace (48 + (v - 52) =? 45) with false by lia.
    replace (48 + (v - 52) =? 95) with false by lia. reflexivity. }
  destruct (v =? 62); reflexivity.
Qed.

Lemma b64_char_neq61 : forall url v, v < 64 -> (b64_char url v =? 61) = false.
Proof.
  intros url v H. pose proof (b64_char_ok url v H) as K. unfold is_b64_char in K.
  destruct url; lia.
Qed.

(** Unpadded encoding: what [b64encode(x).decode().rstrip("=")] gives. *)
Fixpoint b64_raw (url : bool) (l : bytes) : bytes :=
  match l with
  | [] => []
  | [a] => [b64_char url (a / 4); b64_char url ((a mod 4) * 16)]
  | [a; b] =>
      [b64_char url (a / 4); b64_char url ((a mod 4) * 16 + b / 16); b64_char url ((b mod 16) * 4)]
  | a :: b :: c :: t =>
      b64_char url (a / 4) :: b64_char url ((a mod 4) * 16 + b / 16)
        :: b64_char url ((b mod 16) * 4 + c / 64) :: b64_char url (c mod 64)
        :: b64_raw url t
  end.

Lemma list3_ind : forall {A} (P : list A -> Prop),
    P [] -> (forall a, P [a]) -> (forall a b, P [a; b]) ->
    (forall a b c t, P t -> P (a :: b :: c :: t)) -> forall l, P l.
Proof.
  intros A P H0 H1 H2 H3.
  assert (G : forall n l, (length l <= n)%nat -> P l).
  { induction n as [|n IH]; intros l Hl.
    - destruct l; [auto|simpl in Hl; lia].
    - destruct l as [|a [|b [|c t]]]; auto.
      apply H3. apply IH. simpl in Hl. lia. }
  intro l. eapply G. apply le_n.
Qed.

Lemma b64_pad : forall url l, exists p, b64encode_gen url l = b64_raw url l ++ p /\
    (p = [] \/ p = [61] \/ p = [61; 61]).
Proof.
  intros url l. induction l using (@list3_ind N).
  - exists []; auto.
  - exists [61; 61]; auto.
  - exists [61]; auto.
  - destruct IHl as [p [E H]]. exists p. split; auto. cbn [b64encode_gen b64_raw app].
    now rewrite E.
Qed.

Lemma b64_raw_chars : forall url l, is_bytes l -> Forall (fun c => is_b64_char url c = true) (b64_raw url l).
Proof.
  intros url l. induction l using (@list3_ind N); intros H; unfold is_bytes, is_byte in *;
    repeat match goal with H : Forall _ (_ :: _) |- _ => inversion H; subst; clear H end;
    cbn [b64_raw]; repeat constructor; try (apply b64_char_ok; lia); auto.
Qed.

Lemma drop_while_none : forall {A} (f : A -> bool) l,
    match l with [] => True | x :: _ => f x = false end -> drop_while f l = l.
Proof. intros A f [|x l]; simpl; auto. intros ->. reflexivity. Qed.

Lemma rstrip_app_pad : forall {A} (f : A -> bool) (l p : list A),
    Forall (fun x => f x = false) l -> Forall (fun x => f x = true) p -> rstrip_by f (l ++ p) = l.
Proof.
  intros A f l p Hl Hp. unfold rstrip_by. rewrite rev_app_distr.
  assert (E : drop_while f (rev p ++ rev l) = rev l).
  { assert (Hp' : Forall (fun x => f x = true) (rev p)) by now apply Forall_rev.
    induction Hp' as [|x q Hx Hq IH]; simpl.
    - apply drop_while_none. destruct (rev l) eqn:E; auto.
      apply Forall_rev in Hl. rewrite E in Hl. now inversion Hl.
    - now rewrite Hx. }
  rewrite E. apply rev_involutive.
Qed.

Lemma rstrip_eq_b64 : forall url l, is_bytes l -> rstrip_eq (b64encode_gen url l) = b64_raw url l.
Proof.
  intros url l H. destruct (b64_pad url l) as [p [E Hp]]. rewrite E. unfold rstrip_eq.
  apply rstrip_app_pad.
  - eapply Forall_impl; [|apply b64_raw_chars; eauto]. intros c Hc. simpl in Hc.
    unfold is_b64_char in Hc. destruct url; lia.
  - destruct Hp as [-> | [-> | ->]]; repeat constructor.
Qed.

Lemma is_b64_ascii : forall url c, is_b64_char url c = true -> c < 128.
Proof. intros url c H. unfold is_b64_char in H. destruct url; lia. Qed.

Lemma is_ascii_app : forall a b, is_ascii (a ++ b) = is_ascii a && is_ascii b.
Proof. intros. unfold is_ascii. apply forallb_app. Qed.

Lemma is_ascii_forall : forall s, is_ascii s = true <-> Forall (fun c => c < 128) s.
Proof.
  intro s. unfold is_ascii. rewrite forallb_forall, Forall_forall.
  split; intros H x Hx; specialize (H x Hx); lia.
Qed.

Lemma a2b_raw : forall l p, is_bytes l ->
    Forall (fun c => c = 61) p -> (2 <= length p)%nat ->
    a2b_loop (b64_raw false l ++ p) 0 0 0 = Some l.
Proof.
  intros l p. induction l using (@list3_ind N); intros Hl Hp Hn; unfold is_bytes, is_byte in Hl.
  - simpl. clear Hn. induction Hp as [|c p Hc Hp IH]; simpl; auto. subst. simpl. auto.
  - destruct p as [|x [|y p]]; simpl in Hn; try lia.
    repeat match goal with H : Forall _ (_ :: _) |- _ => inversion H; subst; clear H end.
    cbn [b64_raw app a2b_loop].
    rewrite (b64_char_neq61 false (a / 4)) by lia. rewrite (b64_val_char (a / 4)) by lia.
    rewrite (b64_char_neq61 false) by lia. rewrite b64_val_char by lia.
    simpl. f_equal. f_equal. lia.
  - destruct p as [|x [|y p]]; simpl in Hn; try lia.
    repeat match goal with H : Forall _ (_ :: _) |- _ => inversion H; subst; clear H end.
    cbn [b64_raw app a2b_loop].
    rewrite (b64_char_neq61 false (a / 4)) by lia. rewrite (b64_val_char (a / 4)) by lia.
    rewrite (b64_char_neq61 false (_ + _)) by lia. rewrite (b64_val_char (_ + _)) by lia.
    rewrite (b64_char_neq61 false) by lia. rewrite b64_val_char by lia.
    simpl. f_equal. f_equal; [lia|]. f_equal. lia.
  - inversion Hl as [|? ? Ha Hl1]; subst. inversion Hl1 as [|? ? Hb Hl2]; subst.
    inversion Hl2 as [|? ? Hc Hl3]; subst.
    cbn [b64_raw app a2b_loop].
    rewrite (b64_char_neq61 false (a / 4)) by lia. rewrite (b64_val_char (a / 4)) by lia.
    rewrite (b64_char_neq61 false (_ + b / _)) by lia. rewrite (b64_val_char (_ + b / _)) by lia.
    rewrite (b64_char_neq61 false (_ + c / _)) by lia. rewrite (b64_val_char (_ + c / _)) by lia.
    rewrite (b64_char_neq61 false (c mod 64)) by lia. rewrite (b64_val_char (c mod 64)) by lia.
    simpl (0 =? 0). simpl (1 =? 0). simpl (1 =? 1). simpl (2 =? 0). simpl (2 =? 1). simpl (2 =? 2).
    simpl (3 =? 0). simpl (3 =? 1). simpl (3 =? 2). cbv iota.
    rewrite IHl by auto. simpl. f_equal. f_equal; [lia|]. f_equal; [lia|]. f_equal. lia.
Qed.

(** Adding "===" makes any encoding, padded or stripped, decodable. *)
Lemma b64decode_stripped : forall l, is_bytes l ->
    b64decode (rstrip_eq (b64encode l) ++ [61; 61; 61]) = Some l.
Proof.
  intros l H. unfold b64encode. rewrite rstrip_eq_b64 by auto. unfold b64decode.
  rewrite is_ascii_app. replace (is_ascii (b64_raw false l)) with true.
  - simpl andb. cbv iota. apply a2b_raw; auto; repeat constructor.
  - symmetry. apply is_ascii_forall. eapply Forall_impl; [|apply b64_raw_chars; eauto].
    intros c Hc. exact (is_b64_ascii _ _ Hc).
Qed.

Lemma b64decode_padded : forall l, is_bytes l ->
    b64decode (b64encode l ++ [61; 61; 61]) = Some l.
Proof.
  intros l H. unfold b64encode. destruct (b64_pad false l) as [p [E Hp]]. rewrite E.
  rewrite <- app_assoc. unfold b64decode.
  rewrite is_ascii_app. replace (is_ascii (b64_raw false l)) with true.
  - replace (is_ascii (p ++ [61; 61; 61])) with true by (destruct Hp as [-> | [-> | ->]]; reflexivity).
    simpl andb. cbv iota. apply a2b_raw; auto.
    + apply Forall_app. split; [destruct Hp as [-> | [-> | ->]]; repeat constructor|repeat constructor].
    + rewrite app_length. simpl. lia.
  - symmetry. apply is_ascii_forall. eapply Forall_impl; [|apply b64_raw_chars; eauto].
    intros c Hc. exact (is_b64_ascii _ _ Hc).
Qed.

Lemma map_translate_raw : forall l, is_bytes l ->
    map url_translate (b64_raw true l) = b64_raw false l.
Proof.
  intro l. induction l using (@list3_ind N); intros Hl; unfold is_bytes, is_byte in Hl;
    repeat match goal with H : Forall _ (_ :: _) |- _ => inversion H; subst; clear H end;
    cbn [b64_raw map]; repeat rewrite url_translate_char by lia; auto.
  rewrite IHl by auto. reflexivity.
Qed.

Lemma urlsafe_roundtrip_raw : forall l p, is_bytes l ->
    (2 <= length p)%nat -> Forall (fun c => c = 61) p ->
    urlsafe_b64decode (b64_raw true l ++ p) = Some l.
Proof.
  intros l p H Hn Hp. unfold urlsafe_b64decode.
  replace (is_ascii (b64_raw true l ++ p)) with true.
  - rewrite map_app, map_translate_raw by auto.
    replace (map url_translate p) with p.
    + apply a2b_raw; auto.
    + clear Hn. induction Hp; simpl; auto. subst. f_equal. auto.
  - symmetry. apply is_ascii_forall. apply Forall_app. split.
    + eapply Forall_impl; [|apply b64_raw_chars; eauto]. intros c Hc. exact (is_b64_ascii _ _ Hc).
    + eapply Forall_impl; [|exact Hp]. intros; simpl in *; subst. lia.
Qed.

Lemma urlsafe_roundtrip : forall l, is_bytes l ->
    urlsafe_b64decode (urlsafe_b64encode l ++ [61; 61; 61]) = Some l.
Proof.
  intros l H. unfold urlsafe_b64encode. destruct (b64_pad true l) as [p [E Hp]]. rewrite E.
  rewrite <- app_assoc. apply urlsafe_roundtrip_raw; auto.
  - rewrite app_length; simpl; lia.
  - apply Forall_app. split; [destruct Hp as [-> | [-> | ->]]; repeat constructor|repeat constructor].
Qed.

Lemma b64_raw_is_bytes : forall url l, is_bytes l -> is_bytes (b64_raw url l).
Proof.
  intros. eapply Forall_impl; [|apply b64_raw_chars; eauto]. intros c Hc.
  apply is_b64_ascii in Hc. unfold is_byte. lia.
Qed.

Lemma urlsafe_chars : forall l, is_bytes l ->
    Forall (fun c => is_b64_char true c = true \/ c = 61) (urlsafe_b64encode l).
Proof.
  intros l H. unfold urlsafe_b64encode. destruct (b64_pad true l) as [p [E Hp]]. rewrite E.
  apply Forall_app. split.
  - eapply Forall_impl; [|apply b64_raw_chars; eauto]. intros c Hc. now left.
  - destruct Hp as [-> | [-> | ->]]; repeat apply Forall_cons; auto using Forall_nil.
Qed.
