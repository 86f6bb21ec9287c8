(** Two conversations on the WSGI server that have read the same so far go on in the same way. *)
From Coq Require Import List NArith ZArith Bool String Lia ZifyBool ZifyNat.
From Verif Require Import MBase MPyStr MHeaders LBase MWire MTimeout MEnvelope MProtocol MClient MServer MWsgi SServer LRequest MTalk STalk LTalk.
Import ListNotations.
Local Open Scope N_scope.

(** [P] is what holds if all the reads return the same. *)
Inductive orel (P : Prop) : list (res bytes) -> list (res bytes) -> Prop :=
| or_end : P -> orel P [] []
| or_read x y a b : (x = y -> orel P a b) -> orel P (x :: a) (y :: b).
Inductive trel {A B} (P : Prop) : list (tevent A B) -> list (tevent A B) -> Prop :=
| tr_end : P -> trel P [] []
| tr_step e a b : trel P a b -> trel P (e :: a) (e :: b)
| tr_read x y a b : (x = y -> trel P a b) -> trel P (TRead x :: a) (TRead y :: b).

Lemma orel_app (P Q : Prop) o1 o2 u1 u2 : orel P o1 o2 -> (P -> orel Q u1 u2) -> orel Q (o1 ++ u1) (o2 ++ u2).
Proof. intros H K. induction H as [p|x y a b H IH]; [exact (K p)|]. cbn. constructor. intros E. exact (IH E). Qed.
Lemma orel_weak (P Q : Prop) o1 o2 : orel P o1 o2 -> (P -> Q) -> orel Q o1 o2.
Proof. intros H K. induction H as [p|x y a b H IH]; constructor; auto. Qed.
Lemma orel_eq (P : Prop) o1 o2 : orel P o1 o2 -> o1 = o2 -> P.
Proof. intros H. induction H as [p|x y a b H IH]; intros E; [exact p|]. injection E as -> E. exact (IH eq_refl E). Qed.
Lemma trel_reads {A B} (P : Prop) o1 o2 : orel P o1 o2 -> @trel A B P (map TRead o1) (map TRead o2).
Proof. intros H. induction H as [p|x y a b H IH]; cbn; [now constructor|]. apply tr_read. exact IH. Qed.
Lemma trel_app {A B} (P Q : Prop) (t1 t2 u1 u2 : list (tevent A B)) : trel P t1 t2 -> (P -> trel Q u1 u2) -> trel Q (t1 ++ u1) (t2 ++ u2).
Proof.
  intros H K. induction H as [p|e a b H IH|x y a b H IH]; cbn [List.app]; [exact (K p)|apply tr_step; exact IH|apply tr_read; exact IH].
Qed.
Lemma trel_same {A B} (P : Prop) (t : list (tevent A B)) : P -> trel P t t.
Proof. intros p. induction t; constructor; auto. Qed.
Lemma trel_weak {A B} (P Q : Prop) (t1 t2 : list (tevent A B)) : trel P t1 t2 -> (P -> Q) -> trel Q t1 t2.
Proof. intros H K. induction H as [p|e a b H IH|x y a b H IH]; [apply tr_end; auto|apply tr_step; auto|apply tr_read; auto]. Qed.
Lemma trel_eq {A B} (P : Prop) (t1 t2 : list (tevent A B)) : trel P t1 t2 -> t1 = t2 -> P.
Proof.
  intros H. induction H as [p|e a b H IH|x y a b H IH]; intros E; [exact p|..].
  - injection E as E. auto.
  - injection E as -> E. auto.
Qed.

(** ** The request stream *)
Lemma tpump_rel {M} (cf : rconf M) : forall f1 f2 p i1 i2, (input_fuel i1 <= f1)%nat -> (input_fuel i2 <= f2)%nat ->
  let '(s1, _, o1) := tpump cf f1 p i1 in let '(s2, _, o2) := tpump cf f2 p i2 in orel (s1 = s2) o1 o2.
Proof.
  induction f1 as [|f1 IH]; intros f2 p i1 i2 F1 F2; [unfold input_fuel in F1; lia|]. destruct f2 as [|f2]; [unfold input_fuel in F2; lia|].
  destruct p as [m r|r|e r]; cbn [tpump]; [constructor; reflexivity| |constructor; reflexivity].
  destruct (wread 4096 i1) as [x1 j1] eqn:W1, (wread 4096 i2) as [x2 j2] eqn:W2.
  assert (H : x1 = x2 -> let '(s1, _, o1) := match x1 with Raise e => (TsErr e, j1, []) | Ok [] => (TsEnd, j1, []) | Ok chunk => tpump cf f1 (feed_first cf r chunk) j1 end in
    let '(s2, _, o2) := match x2 with Raise e => (TsErr e, j2, []) | Ok [] => (TsEnd, j2, []) | Ok chunk => tpump cf f2 (feed_first cf r chunk) j2 end in
    orel (s1 = s2) o1 o2).
  { intros <-. destruct x1 as [[|c x]|e]; [constructor; reflexivity| |constructor; reflexivity].
    apply wread_available in W1, W2; try lia; try discriminate. apply IH; lia. }
  destruct (match x1 with Raise e => (TsErr e, j1, []) | Ok [] => (TsEnd, j1, []) | Ok chunk => tpump cf f1 (feed_first cf r chunk) j1 end) as [[s1 k1] o1].
  destruct (match x2 with Raise e => (TsErr e, j2, []) | Ok [] => (TsEnd, j2, []) | Ok chunk => tpump cf f2 (feed_first cf r chunk) j2 end) as [[s2 k2] o2].
  constructor. exact H.
Qed.
Lemma tq_next_rel {M} (cf : rconf M) q i1 i2 :
  let '(x1, q1, _, o1) := tq_next cf q i1 in let '(x2, q2, _, o2) := tq_next cf q i2 in orel (x1 = x2 /\ q1 = q2) o1 o2.
Proof.
  destruct q as [|r|]; cbn [tq_next]; [| |constructor; auto].
  - pose proof (tpump_rel cf (input_fuel i1) (input_fuel i2) (YEnd (reader_new None)) i1 i2 ltac:(lia) ltac:(lia)) as H.
    destruct (tpump cf (input_fuel i1) _ i1) as [[s1 j1] o1], (tpump cf (input_fuel i2) _ i2) as [[s2 j2] o2].
    destruct s1, s2; apply (orel_weak _ _ _ _ H); intros E; inversion E; auto.
  - pose proof (tpump_rel cf (input_fuel i1) (input_fuel i2) (read_resume cf r) i1 i2 ltac:(lia) ltac:(lia)) as H.
    destruct (tpump cf (input_fuel i1) _ i1) as [[s1 j1] o1], (tpump cf (input_fuel i2) _ i2) as [[s2 j2] o2].
    destruct s1, s2; apply (orel_weak _ _ _ _ H); intros E; inversion E; auto.
Qed.

Lemma exchange_rel {A B} (P Q : Prop) o1 o2 (x1 x2 : pulled A) (t1 t2 : list (tevent A B)) : orel (x1 = x2 /\ P) o1 o2 -> (x1 = x2 -> P -> trel Q t1 t2) ->
  trel Q (TAsk :: map TRead o1 ++ TGive x1 :: t1) (TAsk :: map TRead o2 ++ TGive x2 :: t2).
Proof.
  intros H K. apply tr_step. apply (trel_app _ _ _ _ _ _ (trel_reads _ _ _ H)). intros [E p]. specialize (K E p). subst x2. apply tr_step. exact K.
Qed.

Lemma run_fn_rel {A B R} (cf : rconf A) (g : prog A Empty_set R) : forall q i1 i2 rs,
  let '(r1, rs1, _, t1) := @run_fn_w A B R cf g q i1 rs in let '(r2, rs2, _, t2) := @run_fn_w A B R cf g q i2 rs in trel (r1 = r2 /\ rs1 = rs2) t1 t2.
Proof.
  induction g as [r|i|k IH|b c g IH|op g IH|op g IH]; intros q i1 i2 rs; cbn [run_fn_w].
  - constructor. auto.
  - constructor. auto.
  - pose proof (tq_next_rel cf q i1 i2) as H. destruct (tq_next cf q i1) as [[[x1 q1] j1] o1], (tq_next cf q i2) as [[[x2 q2] j2] o2].
    assert (K : x1 = x2 -> q1 = q2 -> let '(r1, rs1, _, t1) := @run_fn_w A B R cf (k x1) q1 j1 rs in let '(r2, rs2, _, t2) := @run_fn_w A B R cf (k x2) q2 j2 rs in
      trel (r1 = r2 /\ rs1 = rs2) t1 t2) by (intros <- <-; apply IH).
    destruct (run_fn_w cf (k x1) q1 j1 rs) as [[[r1 rs1] l1] t1], (run_fn_w cf (k x2) q2 j2 rs) as [[[r2 rs2] l2] t2]. exact (exchange_rel _ _ _ _ _ _ _ _ H K).
  - destruct b.
  - apply IH.
  - apply IH.
Qed.
Lemma drive_rel {A B} body (cf : rconf A) (g : prog A B unit) : forall q i1 i2 rs s,
  let '(s1, rs1, e1, _, t1) := drive_w body cf g q i1 rs s in let '(s2, rs2, e2, _, t2) := drive_w body cf g q i2 rs s in
  trel (s1 = s2 /\ rs1 = rs2 /\ e1 = e2) t1 t2.
Proof.
  induction g as [r|i|k IH|b c g IH|op g IH|op g IH]; intros q i1 i2 rs s; cbn [drive_w].
  - constructor. auto.
  - constructor. auto.
  - pose proof (tq_next_rel cf q i1 i2) as H. destruct (tq_next cf q i1) as [[[x1 q1] j1] o1], (tq_next cf q i2) as [[[x2 q2] j2] o2].
    assert (K : x1 = x2 -> q1 = q2 -> let '(s1, rs1, e1, _, t1) := drive_w body cf (k x1) q1 j1 rs s in let '(s2, rs2, e2, _, t2) := drive_w body cf (k x2) q2 j2 rs s in
      trel (s1 = s2 /\ rs1 = rs2 /\ e1 = e2) t1 t2) by (intros <- <-; apply IH).
    destruct (drive_w body cf (k x1) q1 j1 rs s) as [[[[s1 rs1] e1] l1] t1], (drive_w body cf (k x2) q2 j2 rs s) as [[[[s2 rs2] e2] l2] t2].
    exact (exchange_rel _ _ _ _ _ _ _ _ H K).
  - destruct (body s rs b) as [s' [i|]]; [apply trel_same; auto|]. specialize (IH q i1 i2 rs s').
    destruct (drive_w body cf g q i1 rs s') as [[[[s1 rs1] e1] l1] t1], (drive_w body cf g q i2 rs s') as [[[[s2 rs2] e2] l2] t2].
    apply tr_step. apply (trel_app True); [apply trel_same; exact I|]. intros _. exact IH.
  - apply IH.
  - apply IH.
Qed.
Lemma consume_rel {A} (cf : rconf A) i1 i2 :
  let '(r1, _, o1) := consume_single_w cf i1 in let '(r2, _, o2) := consume_single_w cf i2 in orel (r1 = r2) o1 o2.
Proof.
  unfold consume_single_w. pose proof (tq_next_rel cf TqStart i1 i2) as H.
  destruct (tq_next cf TqStart i1) as [[[x1 q1] j1] o1], (tq_next cf TqStart i2) as [[[x2 q2] j2] o2].
  pose proof (tq_next_rel cf q1 j1 j2) as K.
  assert (E : x1 = x2 /\ q1 = q2 -> let '(r1, _, v1) := match x1 with
        | PExn e => (Raise e, j1, [])
        | PEnd => (Raise (EConnect Unimplemented (lit "unary request has zero messages") []), j1, [])
        | PMsg a => let '(y, q, inp, o') := tq_next cf q1 j1 in
            (match y with PExn e => Raise e | PEnd => Ok a | PMsg _ => Raise (EConnect Unimplemented (lit "unary request has multiple messages") []) end, inp, o')
        end in let '(r2, _, v2) := match x2 with
        | PExn e => (Raise e, j2, [])
        | PEnd => (Raise (EConnect Unimplemented (lit "unary request has zero messages") []), j2, [])
        | PMsg a => let '(y, q, inp, o') := tq_next cf q2 j2 in
            (match y with PExn e => Raise e | PEnd => Ok a | PMsg _ => Raise (EConnect Unimplemented (lit "unary request has multiple messages") []) end, inp, o')
        end in orel (r1 = r2) v1 v2).
  { intros [<- <-]. destruct x1 as [a| |e]; [|constructor; reflexivity..].
    destruct (tq_next cf q1 j1) as [[[y1 p1] l1] v1], (tq_next cf q1 j2) as [[[y2 p2] l2] v2]. apply (orel_weak _ _ _ _ K). intros [-> _]. reflexivity. }
  clear K. destruct x1, x2; repeat destruct (tq_next cf _ _) as [[[? ?] ?] ?]; cbn in *;
    try (pose proof (orel_app _ _ _ _ _ _ H E) as G; rewrite ?app_nil_r in G; exact G);
    try (rewrite <- (app_nil_r o1)); try (rewrite <- (app_nil_r o2)); exact (orel_app _ _ _ _ _ _ H E).
Qed.

(** ** The response *)
Lemma bind_rel {A B R X} (F : R -> list rd -> X * list rd * list (tevent A B)) (P : Prop) r1 r2 j1 j2 t1 t2 :
  trel P t1 t2 -> (P -> r1 = r2) -> (forall r i1 i2, let '(x1, _, u1) := F r i1 in let '(x2, _, u2) := F r i2 in trel (x1 = x2) u1 u2) ->
  let '(x1, _, u1) := F r1 j1 in let '(x2, _, u2) := F r2 j2 in trel (x1 = x2) (t1 ++ u1) (t2 ++ u2).
Proof.
  intros H E K. assert (K' : P -> let '(x1, _, u1) := F r1 j1 in let '(x2, _, u2) := F r2 j2 in trel (x1 = x2) u1 u2) by (intros p; rewrite <- (E p); apply K).
  destruct (F r1 j1) as [[x1 l1] u1], (F r2 j2) as [[x2 l2] u2]. exact (trel_app _ _ _ _ _ _ H K').
Qed.

Section Run.
Context {A B : Type} (p : proto) (k : codec A B) (z : compression) (cf : rconf A) (cx : req_ctx).
Definition one_tail (inv : list (invoked A)) (x : fres B * rstate) (inp : list rd) : list (invoked A) * (wst * rstate * loop_end) * list rd * list (tevent A B) :=
  let (r, rs) := x in
  match r with
  | FInt i => (inv, (mk_wst [] false, rs, LFail i), inp, [])
  | FRet b => let '(s, rs, e, inp, t') := drive_w (wsgi_body_step p (k_name k) (k_enc_res k) z) cf (@single_response A B b) TqEnd inp rs (mk_wst [] false) in
              (inv, (s, rs, e), inp, t')
  end.
Lemma one_tail_rel inv x i1 i2 : let '(v1, y1, _, t1) := one_tail inv x i1 in let '(v2, y2, _, t2) := one_tail inv x i2 in trel ((v1, y1) = (v2, y2)) t1 t2.
Proof.
  unfold one_tail. destruct x as [[b|i] rs]; [|constructor; reflexivity].
  pose proof (drive_rel (wsgi_body_step p (k_name k) (k_enc_res k) z) cf (@single_response A B b) TqEnd i1 i2 rs (mk_wst [] false)) as D.
  destruct (drive_w _ cf (single_response b) TqEnd i1 rs _) as [[[[s1 rs1] e1] l1] t1], (drive_w _ cf (single_response b) TqEnd i2 rs _) as [[[[s2 rs2] e2] l2] t2].
  apply (trel_weak _ _ _ _ D). intros (-> & -> & ->). reflexivity.
Qed.
Definition unary_tail (f : A -> req_ctx -> prog Empty_set Empty_set B) (r : res A) (inp : list rd)
  : list (invoked A) * (wst * rstate * loop_end) * list rd * list (tevent A B) :=
  match r with
  | Raise e => ([], (mk_wst [] false, rs_new, LFail (IExn e)), inp, [])
  | Ok a => one_tail [InvMsg a] (run_fn (f a cx) ([], None) rs_new) inp
  end.
Definition server_tail (f : A -> req_ctx -> prog Empty_set B unit) (r : res A) (inp : list rd)
  : list (invoked A) * (wst * rstate * loop_end) * list rd * list (tevent A B) :=
  match r with
  | Raise e => ([], (mk_wst [] false, rs_new, LFail (IExn e)), inp, [])
  | Ok a => let '(s, rs, e, _, t) := drive_w (wsgi_body_step p (k_name k) (k_enc_res k) z) no_reads (f a cx) TqEnd [] rs_new (mk_wst [] false) in
            ([InvMsg a], (s, rs, e), inp, flat_map of_closed_w t)
  end.

Lemma run_rel (ep : endpoint A B) i1 i2 :
  let '(v1, y1, _, t1) := wsgi_run_t p ep k z cf cx i1 in let '(v2, y2, _, t2) := wsgi_run_t p ep k z cf cx i2 in trel ((v1, y1) = (v2, y2)) t1 t2.
Proof.
  destruct ep as [m f|m f|m f|m f].
  - assert (E : forall inp, wsgi_run_t p (EpUnary m f) k z cf cx inp = let '(r, inp, o) := consume_single_w cf inp in let '(x, inp, u) := unary_tail f r inp in (x, inp, map TRead o ++ u)).
    { intros inp. unfold wsgi_run_t, unary_tail, one_tail. destruct (consume_single_w cf inp) as [[[a|e] j] o]; [|rewrite app_nil_r; reflexivity].
      destruct (run_fn (f a cx) ([], None) rs_new) as [[b|i] rs]; [|rewrite app_nil_r; reflexivity].
      destruct (drive_w _ cf (single_response b) TqEnd j rs _) as [[[[s1 rs1] e1] l1] t1]. reflexivity. }
    rewrite !E. pose proof (consume_rel cf i1 i2) as H. destruct (consume_single_w cf i1) as [[r1 j1] o1], (consume_single_w cf i2) as [[r2 j2] o2].
    pose proof (bind_rel (unary_tail f) _ r1 r2 j1 j2 _ _ (trel_reads _ _ _ H) (fun e => e)) as K.
    assert (L : forall r i1 i2, let '(x1, _, u1) := unary_tail f r i1 in let '(x2, _, u2) := unary_tail f r i2 in trel (x1 = x2) u1 u2).
    { intros [a|e] l1 l2; [|constructor; reflexivity]. cbn [unary_tail]. pose proof (one_tail_rel [InvMsg a] (run_fn (f a cx) ([], None) rs_new) l1 l2) as O.
      destruct (one_tail _ _ l1) as [[[v1 y1] ?] u1], (one_tail _ _ l2) as [[[v2 y2] ?] u2]. exact O. }
    specialize (K L). destruct (unary_tail f r1 j1) as [[[v1 y1] ?] u1], (unary_tail f r2 j2) as [[[v2 y2] ?] u2]. exact K.
  - assert (E : forall inp, wsgi_run_t p (EpClientStream m f) k z cf cx inp = let '(r, rs, inp, t) := run_fn_w cf (f cx) TqStart inp rs_new in
        let '(x, inp, u) := one_tail [InvStream] (r, rs) inp in (x, inp, t ++ u)).
    { intros inp. unfold wsgi_run_t, one_tail. destruct (run_fn_w cf (f cx) TqStart inp rs_new) as [[[[b|i] rs] j] t]; [|rewrite app_nil_r; reflexivity].
      destruct (drive_w _ cf (single_response b) TqEnd j rs _) as [[[[s1 rs1] e1] l1] t1]. reflexivity. }
    rewrite !E. pose proof (@run_fn_rel A B _ cf (f cx) TqStart i1 i2 rs_new) as H.
    destruct (run_fn_w cf (f cx) TqStart i1 rs_new) as [[[r1 rs1] j1] t1], (run_fn_w cf (f cx) TqStart i2 rs_new) as [[[r2 rs2] j2] t2].
    pose proof (bind_rel (one_tail [InvStream]) _ (r1, rs1) (r2, rs2) j1 j2 _ _ H (fun e => f_equal2 pair (proj1 e) (proj2 e))) as K.
    assert (L : forall r i1 i2, let '(x1, _, u1) := one_tail [InvStream] r i1 in let '(x2, _, u2) := one_tail [InvStream] r i2 in trel (x1 = x2) u1 u2).
    { intros r l1 l2. pose proof (one_tail_rel [InvStream] r l1 l2) as O. destruct (one_tail _ _ l1) as [[[v1 y1] ?] u1], (one_tail _ _ l2) as [[[v2 y2] ?] u2]. exact O. }
    specialize (K L). destruct (one_tail [InvStream] (r1, rs1) j1) as [[[v1 y1] ?] u1], (one_tail [InvStream] (r2, rs2) j2) as [[[v2 y2] ?] u2]. exact K.
  - assert (E : forall inp, wsgi_run_t p (EpServerStream m f) k z cf cx inp = let '(r, inp, o) := consume_single_w cf inp in let '(x, inp, u) := server_tail f r inp in (x, inp, map TRead o ++ u)).
    { intros inp. unfold wsgi_run_t, server_tail. destruct (consume_single_w cf inp) as [[[a|e] j] o]; [|rewrite app_nil_r; reflexivity].
      destruct (drive_w _ no_reads _ TqEnd _ _ _) as [[[[s1 rs1] e1] l1] t1]. reflexivity. }
    rewrite !E. pose proof (consume_rel cf i1 i2) as H. destruct (consume_single_w cf i1) as [[r1 j1] o1], (consume_single_w cf i2) as [[r2 j2] o2].
    pose proof (bind_rel (server_tail f) _ r1 r2 j1 j2 _ _ (trel_reads _ _ _ H) (fun e => e)) as K.
    assert (L : forall r i1 i2, let '(x1, _, u1) := server_tail f r i1 in let '(x2, _, u2) := server_tail f r i2 in trel (x1 = x2) u1 u2).
    { intros [a|e] l1 l2; [|constructor; reflexivity]. cbn [server_tail]. destruct (drive_w _ no_reads _ TqEnd _ _ _) as [[[[s1 rs1] e1] ?] t1]. apply trel_same. reflexivity. }
    specialize (K L). destruct (server_tail f r1 j1) as [[[v1 y1] ?] u1], (server_tail f r2 j2) as [[[v2 y2] ?] u2]. exact K.
  - unfold wsgi_run_t. pose proof (drive_rel (wsgi_body_step p (k_name k) (k_enc_res k) z) cf (f cx) TqStart i1 i2 rs_new (mk_wst [] false)) as D.
    destruct (drive_w _ cf (f cx) TqStart i1 _ _) as [[[[s1 rs1] e1] l1] t1], (drive_w _ cf (f cx) TqStart i2 _ _) as [[[[s2 rs2] e2] l2] t2].
    apply (trel_weak _ _ _ _ D). intros (-> & -> & ->). reflexivity.
Qed.
End Run.

Lemma drain_loop_rel : forall f1 f2 i1 i2, (input_fuel i1 <= f1)%nat -> (input_fuel i2 <= f2)%nat ->
  let '(e1, _, o1) := drain_loop f1 i1 in let '(e2, _, o2) := drain_loop f2 i2 in orel (e1 = e2) o1 o2.
Proof.
  induction f1 as [|f1 IH]; intros f2 i1 i2 F1 F2; [unfold input_fuel in F1; lia|]. destruct f2 as [|f2]; [unfold input_fuel in F2; lia|]. cbn [drain_loop].
  destruct (wread 4096 i1) as [x1 j1] eqn:W1, (wread 4096 i2) as [x2 j2] eqn:W2.
  assert (H : x1 = x2 -> let '(e1, _, o1) := match x1 with Raise e => (Some e, j1, []) | Ok [] => (None, j1, []) | Ok _ => drain_loop f1 j1 end in
    let '(e2, _, o2) := match x2 with Raise e => (Some e, j2, []) | Ok [] => (None, j2, []) | Ok _ => drain_loop f2 j2 end in orel (e1 = e2) o1 o2).
  { intros <-. destruct x1 as [[|c x]|e]; [constructor; reflexivity| |constructor; reflexivity].
    apply wread_available in W1, W2; try lia; try discriminate. apply IH; lia. }
  destruct (match x1 with Raise e => (Some e, j1, []) | Ok [] => (None, j1, []) | Ok _ => drain_loop f1 j1 end) as [[s1 k1] o1].
  destruct (match x2 with Raise e => (Some e, j2, []) | Ok [] => (None, j2, []) | Ok _ => drain_loop f2 j2 end) as [[s2 k2] o2].
  constructor. exact H.
Qed.

Lemma drain_body_rel q i1 i2 : let '(e1, _, o1) := drain_body q i1 in let '(e2, _, o2) := drain_body q i2 in orel (e1 = e2) o1 o2.
Proof. unfold drain_body. destruct (startswith _ _); [|constructor; reflexivity]. apply drain_loop_rel; lia. Qed.

Section Rest.
Context {A B : Type} (ap : app A B) (q : wsgi_request).
Definition stream_err (p : proto) (k : codec A B) (z : compression) (inv : list (invoked A)) (rs : rstate) (ev : list wevent) (e : exn) (inp : list rd)
  : (whandled A + wsgi_result A) * list rd * list (tevent A B) :=
  let '(d, inp, o) := drain_body q inp in
  let h := wsgi_stream_error ap (draining q (fun _ => d)) p (k_name k) z inv rs ev e in
  let '(_, _, ev', _) := h in (inl h, inp, map TRead o ++ wnewly ev ev').
Lemma stream_err_rel p k z inv rs ev e i1 i2 :
  let '(x1, _, t1) := stream_err p k z inv rs ev e i1 in let '(x2, _, t2) := stream_err p k z inv rs ev e i2 in trel (x1 = x2) t1 t2.
Proof.
  unfold stream_err. pose proof (drain_body_rel q i1 i2) as H. destruct (drain_body q i1) as [[d1 j1] o1], (drain_body q i2) as [[d2 j2] o2].
  destruct (wsgi_stream_error ap (draining q (fun _ => d1)) p (k_name k) z inv rs ev e) as [[[a1 b1] ev1] c1] eqn:E1,
    (wsgi_stream_error ap (draining q (fun _ => d2)) p (k_name k) z inv rs ev e) as [[[a2 b2] ev2] c2] eqn:E2.
  apply (trel_app _ _ _ _ _ _ (trel_reads _ _ _ H)). intros <-. rewrite E1 in E2. injection E2 as <- <- <- <-. apply trel_same. reflexivity.
Qed.
Definition stream_tail (p : proto) (k : codec A B) (z : compression) (x : list (invoked A) * (wst * rstate * loop_end)) (inp : list rd)
  : (whandled A + wsgi_result A) * list rd * list (tevent A B) :=
  let '(inv, (s, rs, e)) := x in
  if ws_started s then
    let '(d, inp, o) := match loop_interrupt e with Some (IExn _) => drain_body q inp | _ => (None, inp, []) end in
    let r := response_stream_end ap (draining q (fun _ => d)) p z inv rs (ws_ev s) (loop_interrupt e) in
    (inr r, inp, map TRead o ++ wnewly (ws_ev s) (wr_events r))
  else
    match loop_interrupt e with
    | Some ICancel => (inl (inv, rs, ws_ev s, Some ICancel), inp, [])
    | Some (IExn x) => stream_err p k z inv rs (ws_ev s) x inp
    | None =>
        let ev := ws_ev s ++ [WStart (lit "200 OK") (stream_headers p (k_name k) (z_name z) rs)] in
        match end_response (ap_sc ap) p z (rs_t rs) None with
        | Ok fin => (inl (inv, rs, ev ++ fin, None), inp, wnewly (ws_ev s) (ev ++ fin))
        | Raise x => let '(h, inp, t) := stream_err p k z inv rs ev x inp in (h, inp, wnewly (ws_ev s) ev ++ t)
        end
    end.
Lemma stream_tail_rel p k z x i1 i2 :
  let '(x1, _, t1) := stream_tail p k z x i1 in let '(x2, _, t2) := stream_tail p k z x i2 in trel (x1 = x2) t1 t2.
Proof.
  unfold stream_tail. destruct x as [inv [[s rs] e]]. destruct (ws_started s).
  - assert (H : let '(d1, _, o1) := match loop_interrupt e with Some (IExn _) => drain_body q i1 | _ => (None, i1, []) end in
      let '(d2, _, o2) := match loop_interrupt e with Some (IExn _) => drain_body q i2 | _ => (None, i2, []) end in orel (d1 = d2) o1 o2).
    { destruct (loop_interrupt e) as [[x|]|]; [apply drain_body_rel|constructor; reflexivity..]. }
    destruct (match loop_interrupt e with Some (IExn _) => drain_body q i1 | _ => (None, i1, []) end) as [[d1 j1] o1].
    destruct (match loop_interrupt e with Some (IExn _) => drain_body q i2 | _ => (None, i2, []) end) as [[d2 j2] o2].
    apply (trel_app _ _ _ _ _ _ (trel_reads _ _ _ H)). intros <-. apply trel_same. reflexivity.
  - destruct (loop_interrupt e) as [[x|]|]; [apply stream_err_rel|constructor; reflexivity|].
    destruct (end_response (ap_sc ap) p z (rs_t rs) None) as [fin|x]; [apply trel_same; reflexivity|].
    pose proof (stream_err_rel p k z inv rs (ws_ev s ++ [WStart (lit "200 OK") (stream_headers p (k_name k) (z_name z) rs)]) x i1 i2) as H.
    destruct (stream_err p k z inv rs _ x i1) as [[h1 j1] t1], (stream_err p k z inv rs _ x i2) as [[h2 j2] t2].
    apply (trel_app True); [apply trel_same; exact I|]. intros _. exact H.
Qed.
Lemma stream_rel p hs ep cx i1 i2 :
  let '(x1, _, t1) := wsgi_stream_t ap (with_input q i1) p hs ep cx in let '(x2, _, t2) := wsgi_stream_t ap (with_input q i2) p hs ep cx in trel (x1 = x2) t1 t2.
Proof.
  unfold wsgi_stream_t. destruct (negotiate_stream_compression p hs (ap_comps ap)) as [req z].
  destruct (dget (ap_codecs ap) (codec_name_from_content_type p true (h_get_default hs (lit "content-type") []))) as [k|]; [|constructor; reflexivity].
  destruct req as [rz|].
  - set (cf := mk_rconf RBase rz (ap_max ap) (k_dec_req k)). cbn [wq_input with_input]. pose proof (run_rel p k z cf cx ep i1 i2) as H.
    destruct (wsgi_run_t p ep k z cf cx i1) as [[[v1 y1] j1] t1], (wsgi_run_t p ep k z cf cx i2) as [[[v2 y2] j2] t2].
    pose proof (bind_rel (stream_tail p k z) _ (v1, y1) (v2, y2) j1 j2 _ _ H (fun e => e) (stream_tail_rel p k z)) as K.
    assert (E : forall i v y inp t, (let '(s, rs, e) := y in
        if ws_started s then
          let '(d, inp, o) := match loop_interrupt e with Some (IExn _) => drain_body (with_input q i) inp | _ => (None, inp, []) end in
          let r := response_stream_end ap (draining (with_input q i) (fun _ => d)) p z v rs (ws_ev s) (loop_interrupt e) in
          (@inr (whandled A) _ r, inp, t ++ map (@TRead A B) o ++ wnewly (ws_ev s) (wr_events r))
        else
          match loop_interrupt e with
          | Some ICancel => (inl (v, rs, ws_ev s, Some ICancel), inp, t)
          | Some (IExn x) =>
              let '(d, inp, o) := drain_body (with_input q i) inp in
              let h := wsgi_stream_error ap (draining (with_input q i) (fun _ => d)) p (k_name k) z v rs (ws_ev s) x in
              let '(_, _, ev', _) := h in (inl h, inp, t ++ map TRead o ++ wnewly (ws_ev s) ev')
          | None =>
              let ev := ws_ev s ++ [WStart (lit "200 OK") (stream_headers p (k_name k) (z_name z) rs)] in
              match end_response (ap_sc ap) p z (rs_t rs) None with
              | Ok fin => (inl (v, rs, ev ++ fin, None), inp, t ++ wnewly (ws_ev s) (ev ++ fin))
              | Raise x =>
                  let '(d, inp, o) := drain_body (with_input q i) inp in
                  let h := wsgi_stream_error ap (draining (with_input q i) (fun _ => d)) p (k_name k) z v rs ev x in
                  let '(_, _, ev', _) := h in (inl h, inp, (t ++ wnewly (ws_ev s) ev) ++ map TRead o ++ wnewly ev ev')
              end
          end) = let '(h, inp, u) := stream_tail p k z (v, y) inp in (h, inp, t ++ u)).
    { intros i v [[s rs] e] inp t. unfold stream_tail, stream_err. change (drain_body (with_input q i)) with (drain_body q). destruct (ws_started s).
      - destruct (match loop_interrupt e with Some (IExn _) => drain_body q inp | _ => (None, inp, []) end) as [[d j] o]. reflexivity.
      - destruct (loop_interrupt e) as [[x|]|]; [|rewrite app_nil_r; reflexivity|].
        + destruct (drain_body q inp) as [[d j] o].
          change (wsgi_stream_error ap (draining (with_input q i) (fun _ => d)) p) with (wsgi_stream_error ap (draining q (fun _ => d)) p).
          destruct (wsgi_stream_error ap _ p (k_name k) z v rs (ws_ev s) x) as [[[? ?] ?] ?]. reflexivity.
        + destruct (end_response (ap_sc ap) p z (rs_t rs) None) as [fin|x]; [reflexivity|]. destruct (drain_body q inp) as [[d j] o]. cbv zeta.
          change (wsgi_stream_error ap (draining (with_input q i) (fun _ => d)) p) with (wsgi_stream_error ap (draining q (fun _ => d)) p).
          destruct (wsgi_stream_error ap _ p (k_name k) z v rs _ x) as [[[? ?] ?] ?]. rewrite <- app_assoc. reflexivity. }
    cbv zeta in E |- *. pose proof (E i1 v1 y1 j1 t1) as E1. pose proof (E i2 v2 y2 j2 t2) as E2. destruct y1 as [[s1 rs1] e1], y2 as [[s2 rs2] e2].
    rewrite E1, E2. destruct (stream_tail p k z _ j1) as [[h1 l1] u1], (stream_tail p k z _ j2) as [[h2 l2] u2]. exact K.
  - cbn [wq_input with_input]. exact (stream_err_rel p k z [] rs_new [] (EConnect Unimplemented (lit "Unrecognized request compression") []) i1 i2).
Qed.
End Rest.

(** ** Unary requests *)
Lemma orel_same (P : Prop) o1 o2 : orel P o1 o2 -> orel (P /\ o1 = o2) o1 o2.
Proof.
  intros H. induction H as [p|x y a b H IH]; constructor; auto. intros E. apply (orel_weak _ _ _ _ (IH E)). intros [p ->]. subst. auto.
Qed.
Lemma read_exact_rel n : forall f1 f2 acc i1 i2, (input_fuel i1 <= f1)%nat -> (input_fuel i2 <= f2)%nat ->
  let '(r1, _, o1) := read_exact_t f1 n acc i1 in let '(r2, _, o2) := read_exact_t f2 n acc i2 in orel (r1 = r2) o1 o2.
Proof.
  induction f1 as [|f1 IH]; intros f2 acc i1 i2 F1 F2; [unfold input_fuel in F1; lia|]. destruct f2 as [|f2]; [unfold input_fuel in F2; lia|].
  cbn [read_exact_t]. destruct (lenN acc <? n) eqn:L; [|constructor; reflexivity].
  destruct (wread (n - lenN acc) i1) as [x1 j1] eqn:W1, (wread (n - lenN acc) i2) as [x2 j2] eqn:W2.
  assert (H : x1 = x2 -> let '(r1, _, o1) := match x1 with Raise e => (Raise e, j1, []) | Ok [] => (Raise (truncated (Z.of_N n) (Z.of_N (lenN acc))), j1, []) | Ok chunk => read_exact_t f1 n (acc ++ chunk) j1 end in
    let '(r2, _, o2) := match x2 with Raise e => (Raise e, j2, []) | Ok [] => (Raise (truncated (Z.of_N n) (Z.of_N (lenN acc))), j2, []) | Ok chunk => read_exact_t f2 n (acc ++ chunk) j2 end in
    orel (r1 = r2) o1 o2).
  { intros <-. destruct x1 as [[|c x]|e]; [constructor; reflexivity| |constructor; reflexivity].
    apply wread_available in W1, W2; try lia; try discriminate. apply IH; lia. }
  destruct (match x1 with Raise e => (Raise e, j1, []) | Ok [] => (Raise (truncated (Z.of_N n) (Z.of_N (lenN acc))), j1, []) | Ok chunk => read_exact_t f1 n (acc ++ chunk) j1 end) as [[s1 k1] o1].
  destruct (match x2 with Raise e => (Raise e, j2, []) | Ok [] => (Raise (truncated (Z.of_N n) (Z.of_N (lenN acc))), j2, []) | Ok chunk => read_exact_t f2 n (acc ++ chunk) j2 end) as [[s2 k2] o2].
  constructor. exact H.
Qed.
Lemma wread_fuel n inp x r : 0 < n -> wread n inp = (x, r) -> (input_fuel r <= input_fuel inp)%nat.
Proof.
  intros Hn W. destruct x as [[|c x]|e].
  - unfold wread in W. destruct inp as [|[b|e] rest]; [injection W as <-; lia| |discriminate].
    destruct (lenN b <=? n); [injection W as -> <-; rewrite input_fuel_cons; lia|].
    destruct b as [|y b]; [|unfold takeN in W; destruct (N.to_nat n) eqn:En; [lia|discriminate W]].
    injection W as _ <-. rewrite !input_fuel_cons. unfold dropN. rewrite skipn_nil. lia.
  - apply wread_available in W; [|exact Hn|discriminate]. lia.
  - unfold wread in W. destruct inp as [|[b|e'] rest]; [discriminate| |injection W as _ <-; rewrite input_fuel_cons; lia].
    destruct (lenN b <=? n); discriminate.
Qed.
Lemma read_length_rel n i1 i2 : 0 < n ->
  let '(r1, _, o1) := read_body_with_content_length_t n i1 in let '(r2, _, o2) := read_body_with_content_length_t n i2 in orel (r1 = r2) o1 o2.
Proof.
  intros Hn. unfold read_body_with_content_length_t. destruct (wread n i1) as [x1 j1] eqn:W1, (wread n i2) as [x2 j2] eqn:W2.
  assert (H : x1 = x2 -> let '(r1, _, o1) := match x1 with Raise e => (Raise e, j1, []) | Ok chunk => if lenN chunk =? n then (Ok chunk, j1, []) else read_exact_t (input_fuel i1) n chunk j1 end in
    let '(r2, _, o2) := match x2 with Raise e => (Raise e, j2, []) | Ok chunk => if lenN chunk =? n then (Ok chunk, j2, []) else read_exact_t (input_fuel i2) n chunk j2 end in
    orel (r1 = r2) o1 o2).
  { intros <-. destruct x1 as [c|e]; [|constructor; reflexivity]. destruct (lenN c =? n); [constructor; reflexivity|].
    apply read_exact_rel; eapply wread_fuel; eassumption. }
  destruct (match x1 with Raise e => (Raise e, j1, []) | Ok chunk => if lenN chunk =? n then (Ok chunk, j1, []) else read_exact_t (input_fuel i1) n chunk j1 end) as [[s1 k1] o1].
  destruct (match x2 with Raise e => (Raise e, j2, []) | Ok chunk => if lenN chunk =? n then (Ok chunk, j2, []) else read_exact_t (input_fuel i2) n chunk j2 end) as [[s2 k2] o2].
  constructor. exact H.
Qed.

Lemma post_rel {A B} (ap : app A B) q hs i1 i2 :
  orel (wsgi_post_request ap (with_input q i1) hs = wsgi_post_request ap (with_input q i2) hs)
    (snd (post_reads ap (with_input q i1) hs)) (snd (post_reads ap (with_input q i2) hs)).
Proof.
  unfold post_reads, wsgi_post_request. destruct (dget (ap_codecs ap) _) as [k|]; [|constructor; reflexivity].
  change (env_get (with_input q i1)) with (env_get q). change (env_get (with_input q i2)) with (env_get q).
  change (env_default (with_input q i1)) with (env_default q). change (env_default (with_input q i2)) with (env_default q). unfold wsgi_body. cbn [wq_input with_input].
  set (c := match env_get q "CONTENT_LENGTH" with None | Some [] => Some 0%Z | Some s => int_of_str s end).
  set (d := match env_get q "CONTENT_LENGTH" with
            | None | Some [] => Ok 0%Z
            | Some s => match int_of_str s with
                        | Some n => Ok n
                        | None => Raise (EOther KValue (lit "invalid literal for int() with base 10: '" ++ s ++ lit "'"))
                        end
            end).
  assert (D : match c with Some n => d = Ok n | None => exists e, d = Raise e end).
  { subst c d. destruct (env_get q "CONTENT_LENGTH") as [[|x s]|]; auto. destruct (int_of_str (x :: s)); eauto. }
  destruct c as [n|]; [|destruct D as (e & ->); constructor; reflexivity]. rewrite D. cbn [bind]. destruct (0 <? n)%Z eqn:Hn.
  - pose proof (read_length_rel (Z.to_N n) i1 i2 ltac:(lia)) as H. pose proof (read_length_same (Z.to_N n) i1) as S1. pose proof (read_length_same (Z.to_N n) i2) as S2.
    destruct (read_body_with_content_length_t (Z.to_N n) i1) as [[r1 j1] o1], (read_body_with_content_length_t (Z.to_N n) i2) as [[r2 j2] o2]. cbn [snd].
    rewrite <- S1, <- S2. apply (orel_weak _ _ _ _ H). intros <-. reflexivity.
  - pose proof (drain_loop_rel (input_fuel i1) (input_fuel i2) i1 i2 ltac:(lia) ltac:(lia)) as H. pose proof (drain_loop_same (input_fuel i1) i1) as S1.
    pose proof (drain_loop_same (input_fuel i2) i2) as S2. destruct (drain_loop (input_fuel i1) i1) as [[e1 j1] o1], (drain_loop (input_fuel i2) i2) as [[e2 j2] o2]. cbn [snd].
    rewrite S1, S2. apply (orel_weak _ _ _ _ (orel_same _ _ _ H)). intros [<- <-]. reflexivity.
Qed.
Lemma unary_rel {A B} (ap : app A B) q http f cx hs i1 i2 :
  let '(h1, _, t1) := wsgi_unary_t ap (with_input q i1) http f cx hs in let '(h2, _, t2) := wsgi_unary_t ap (with_input q i2) http f cx hs in
  @trel A B (h1 = h2) t1 t2.
Proof.
  unfold wsgi_unary_t, wsgi_unary. destruct (str_eqb http (lit "GET")).
  - change (wsgi_get_request ap (with_input q i1)) with (wsgi_get_request ap q). change (wsgi_get_request ap (with_input q i2)) with (wsgi_get_request ap q).
    destruct (match wsgi_get_request ap q with Raise e => _ | Ok _ => _ end) as [[[? ?] ?] ?]. apply trel_same. reflexivity.
  - pose proof (post_rel ap q hs i1 i2) as H. destruct (post_reads ap (with_input q i1) hs) as [j1 o1], (post_reads ap (with_input q i2) hs) as [j2 o2]. cbn [snd] in H.
    set (F := fun x : res (A * codec A B) => match x with
      | Raise e => ([], rs_new, [], Some (IExn e))
      | Ok (a, k) =>
          let (r, rs) := run_fn (f a cx) ([], None) rs_new in
          match r with
          | FInt i => ([InvMsg a], rs, [], Some i)
          | FRet b =>
              match (do body <- k_enc_res k b ;
                     let z := negotiate_compression (h_get_default hs (lit "accept-encoding") (lit "identity")) (ap_comps ap) in
                     do body <- z_compress z body ;
                     Ok (z, body)) with
              | Raise e => ([InvMsg a], rs, [], Some (IExn e))
              | Ok (z, body) =>
                  ([InvMsg a], rs,
                   [WStart (lit "200 OK")
                      ([(lit "content-type", connect_unary_prefix ++ k_name k); (lit "content-encoding", z_name z);
                        (lit "vary", lit "Accept-Encoding")] ++ context_headers rs);
                    WBody body], None)
              end
          end
      end : whandled A).
    change (let '(h1, _, t1) := (let '(_, _, ev, _) := F (wsgi_post_request ap (with_input q i1) hs) in (F (wsgi_post_request ap (with_input q i1) hs), j1, map (@TRead A B) o1 ++ map TOut ev)) in
            let '(h2, _, t2) := (let '(_, _, ev, _) := F (wsgi_post_request ap (with_input q i2) hs) in (F (wsgi_post_request ap (with_input q i2) hs), j2, map (@TRead A B) o2 ++ map TOut ev)) in
            trel (h1 = h2) t1 t2).
    assert (H' : orel (F (wsgi_post_request ap (with_input q i1) hs) = F (wsgi_post_request ap (with_input q i2) hs)) o1 o2) by (apply (orel_weak _ _ _ _ H); congruence).
    destruct (F (wsgi_post_request ap (with_input q i1) hs)) as [[[a1 b1] ev1] c1], (F (wsgi_post_request ap (with_input q i2) hs)) as [[[a2 b2] ev2] c2].
    apply (trel_app _ _ _ _ _ _ (trel_reads _ _ _ H')). intros E. injection E as <- <- <- <-. apply trel_same. reflexivity.
Qed.

(** ** The whole conversation *)
Definition talk_err {A B} (q : wsgi_request) (inv : list (invoked A)) (ev : list wevent) (e : exn) (ctx : option rstate) (inp : list rd)
  : wsgi_result A * list rd * list (tevent A B) :=
  let '(d, inp, o) := drain_body q inp in
  let r := wsgi_call_error (draining q (fun _ => d)) inv ev e ctx in (r, inp, map TRead o ++ wnewly ev (wr_events r)).
Lemma talk_err_rel {A B} q inv ev e ctx i1 i2 :
  let '(x1, _, t1) := @talk_err A B q inv ev e ctx i1 in let '(x2, _, t2) := @talk_err A B q inv ev e ctx i2 in trel (x1 = x2) t1 t2.
Proof.
  unfold talk_err. pose proof (drain_body_rel q i1 i2) as H. destruct (drain_body q i1) as [[d1 j1] o1], (drain_body q i2) as [[d2 j2] o2].
  apply (trel_app _ _ _ _ _ _ (trel_reads _ _ _ H)). intros <-. apply trel_same. reflexivity.
Qed.
Definition talk_tail {A B} (q : wsgi_request) (r : whandled A + wsgi_result A) (inp : list rd) : wsgi_result A * list rd * list (tevent A B) :=
  match r with
  | inr r => (r, inp, [])
  | inl (inv, rs, ev, None) => (mk_wr inv ev WReturn, inp, [])
  | inl (inv, rs, ev, Some ICancel) => (mk_wr inv ev WBase, inp, [])
  | inl (inv, rs, ev, Some (IExn e)) => talk_err q inv ev e (Some rs) inp
  end.
Lemma talk_tail_rel {A B} q r i1 i2 : let '(x1, _, t1) := @talk_tail A B q r i1 in let '(x2, _, t2) := @talk_tail A B q r i2 in trel (x1 = x2) t1 t2.
Proof. destruct r as [[[[inv rs] ev] [[e|]|]]|r]; cbn [talk_tail]; [apply talk_err_rel|constructor; reflexivity..]. Qed.
Lemma talk_rel {A B} (ap : app A B) now q i1 i2 :
  let '(r1, _, t1) := wsgi_talk ap now (with_input q i1) in let '(r2, _, t2) := wsgi_talk ap now (with_input q i2) in trel (r1 = r2) t1 t2.
Proof.
  destruct (wsgi_open_request ap now q) as [[[[ep hs] p] cx]|e] eqn:O.
  2:{ assert (E : forall i, wsgi_talk ap now (with_input q i) = talk_err q [] [] e None i).
      { intros i. unfold wsgi_talk. change (wsgi_open_request ap now (with_input q i)) with (wsgi_open_request ap now q). rewrite O. reflexivity. }
      rewrite !E. exact (talk_err_rel q [] [] e None i1 i2). }
  set (go := fun i => match ep, p with
                      | EpUnary _ f, PConnect => let '(h, inp, t) := wsgi_unary_t ap (with_input q i) (cx_http cx) f cx hs in (inl h, inp, t)
                      | _, _ => wsgi_stream_t ap (with_input q i) p hs ep cx
                      end).
  assert (H : let '(x1, _, t1) := go i1 in let '(x2, _, t2) := go i2 in trel (x1 = x2) t1 t2).
  { unfold go. pose proof (stream_rel ap q p hs ep cx i1 i2) as S. destruct ep as [m f|m f|m f|m f]; try exact S. destruct p; try exact S.
    pose proof (unary_rel ap q (cx_http cx) f cx hs i1 i2) as U.
    destruct (wsgi_unary_t ap (with_input q i1) (cx_http cx) f cx hs) as [[h1 j1] t1], (wsgi_unary_t ap (with_input q i2) (cx_http cx) f cx hs) as [[h2 j2] t2].
    apply (trel_weak _ _ _ _ U). intros <-. reflexivity. }
  assert (E : forall i, (let '(r, inp, t) := go i in
      match r with
      | inr r => (r, inp, t)
      | inl (inv, rs, ev, None) => (mk_wr inv ev WReturn, inp, t)
      | inl (inv, rs, ev, Some ICancel) => (mk_wr inv ev WBase, inp, t)
      | inl (inv, rs, ev, Some (IExn e)) =>
          let '(d, inp, o) := drain_body (with_input q i) inp in
          let r := wsgi_call_error (draining (with_input q i) (fun _ => d)) inv ev e (Some rs) in
          (r, inp, t ++ map TRead o ++ wnewly ev (wr_events r))
      end) = let '(r, inp, t) := go i in let '(x, inp, u) := talk_tail q r inp in (x, inp, t ++ u)).
  { intros i. destruct (go i) as [[r inp] t]. destruct r as [[[[inv rs] ev] [[e|]|]]|r]; cbn [talk_tail]; rewrite ?app_nil_r; try reflexivity.
    unfold talk_err. change (drain_body (with_input q i)) with (drain_body q). destruct (drain_body q inp) as [[d j] o]. reflexivity. }
  assert (T : forall i, wsgi_talk ap now (with_input q i) = let '(r, inp, t) := go i in let '(x, inp, u) := talk_tail q r inp in (x, inp, t ++ u)).
  { intros i. rewrite <- E. unfold wsgi_talk. change (wsgi_open_request ap now (with_input q i)) with (wsgi_open_request ap now q). rewrite O. reflexivity. }
  rewrite !T. clear T E.
  destruct (go i1) as [[x1 j1] t1], (go i2) as [[x2 j2] t2].
  pose proof (bind_rel (@talk_tail A B q) _ x1 x2 j1 j2 _ _ H (fun e => e) (talk_tail_rel q)) as K.
  destruct (talk_tail q x1 j1) as [[r1 l1] u1], (talk_tail q x2 j2) as [[r2 l2] u2]. exact K.
Qed.

Lemma trel_next {A B} (P : Prop) (t1 t2 : list (tevent A B)) : trel P t1 t2 -> forall w u1 u2, t1 = w ++ u1 -> t2 = w ++ u2 ->
  match u1, u2 with [], [] => True | e1 :: _, e2 :: _ => e1 = e2 \/ exists x y, e1 = TRead x /\ e2 = TRead y | _, _ => False end.
Proof.
  intros H. induction H as [p|e a b H IH|x y a b H IH]; intros w u1 u2 E1 E2.
  - destruct w; [|discriminate]. cbn in E1, E2. subst u1 u2. exact I.
  - destruct w as [|z w]; cbn in E1, E2; [subst u1 u2; auto|]. injection E1 as -> E1. injection E2 as E2. exact (IH w u1 u2 E1 E2).
  - destruct w as [|z w]; cbn in E1, E2; [subst u1 u2; right; eauto|]. injection E1 as <- E1. injection E2 as -> E2. exact (IH eq_refl w u1 u2 E1 E2).
Qed.
