(** Two conversations on the ASGI server that receive the same up to a point are the same up to that point. *)
From Coq Require Import List NArith ZArith Bool String Lia.
From Verif Require Import MBase MPyStr MHeaders MWire MTimeout MEnvelope MProtocol MClient MServer MAsgi MDuplex SDuplex SServer.
Import ListNotations.
Local Open Scope N_scope.

Lemma taken_app {A B} (t u : list (devent A B)) : taken (t ++ u) = taken t ++ taken u.
Proof. apply flat_map_app. Qed.
Lemma taken_recv {A B} o : taken (map (@DRecv A B) o) = o.
Proof. induction o as [|x o IH]; [reflexivity|]. exact (f_equal (cons x) IH). Qed.
Lemma taken_sends {A B} o : taken (map (@DSend A B) o) = [].
Proof. induction o as [|x o IH]; [reflexivity|]. exact IH. Qed.

Section Two.
Variables l1 l2 : list recv.

Definition diverge {A B} (n : nat) (t1 t2 : list (devent A B)) : Prop :=
  exists w r1 r2, t1 = w ++ DRecv (hd RDisconnect l1) :: r1 /\ t2 = w ++ DRecv (hd RDisconnect l2) :: r2 /\ List.length (taken w) = n.
Lemma diverge_pre {A B} n m (u t1 t2 : list (devent A B)) : diverge n t1 t2 -> (List.length (taken u) + n = m)%nat -> diverge m (u ++ t1) (u ++ t2).
Proof.
  intros (w & r1 & r2 & -> & -> & L) E. exists (u ++ w), r1, r2. rewrite !app_assoc, taken_app, app_length. repeat split. lia.
Qed.
Lemma diverge_post {A B} n (t1 t2 a b : list (devent A B)) : diverge n t1 t2 -> diverge n (t1 ++ a) (t2 ++ b).
Proof.
  intros (w & r1 & r2 & -> & -> & L). exists w, (r1 ++ a), (r2 ++ b). rewrite <- !app_assoc. repeat split; auto.
Qed.
Lemma diverge_recv {A B} n o u1 u2 (a b : list (devent A B)) : List.length o = n ->
  diverge n (map DRecv (o ++ hd RDisconnect l1 :: u1) ++ a) (map DRecv (o ++ hd RDisconnect l2 :: u2) ++ b).
Proof.
  intros L. exists (map DRecv o), (map DRecv u1 ++ a), (map DRecv u2 ++ b). rewrite !map_app, <- !app_assoc, taken_recv. repeat split; auto.
Qed.

(** ** The request stream *)
Definition same_pos (n : nat) (q1 q2 : rqpos) : Prop :=
  (exists pre, List.length pre = n /\ q1 = RqStart (pre ++ l1) /\ q2 = RqStart (pre ++ l2))
  \/ (exists r more pre k, List.length pre = n /\ q1 = RqYield r more (pre ++ l1) k /\ q2 = RqYield r more (pre ++ l2) k)
  \/ (q1 = RqEnd /\ q2 = RqEnd).

Definition same_stand {M} (n : nat) (s1 s2 : rstand M) : Prop :=
  (exists m r more pre, List.length pre = n /\ s1 = RsMsg m r more (pre ++ l1) /\ s2 = RsMsg m r more (pre ++ l2))
  \/ (exists e, s1 = RsErr e /\ s2 = RsErr e) \/ (s1 = RsEnd /\ s2 = RsEnd).

Lemma rpump_two {M} (cf : rconf M) : forall pre p more,
  (exists s1 s2 o n, rpump cf p more (pre ++ l1) = (s1, o) /\ rpump cf p more (pre ++ l2) = (s2, o) /\ same_stand n s1 s2
     /\ (n + List.length o = List.length pre)%nat)
  \/ (exists s1 s2 u1 u2, rpump cf p more (pre ++ l1) = (s1, pre ++ hd RDisconnect l1 :: u1) /\ rpump cf p more (pre ++ l2) = (s2, pre ++ hd RDisconnect l2 :: u2)).
Proof.
  assert (Z : forall l (r : reader), exists s u, @rpump M cf (YEnd r) true l = (s, hd RDisconnect l :: u)).
  { intros l r. destruct l as [|y l]; [eexists _, _; reflexivity|]. cbn [rpump]. destruct y as [b mr| | |e|]; [destruct (rpump cf (feed_first cf r b) mr l) as [s0 o0]; exists s0, o0; reflexivity|..]; eexists _, _; reflexivity. }
  induction pre as [|x pre IH]; intros p more.
  - assert (Ym : forall m r l, @rpump M cf (YMsg m r) more l = (RsMsg m r more l, [])) by (intros m r [|? ?]; reflexivity).
    assert (Yn : forall r l, @rpump M cf (YEnd r) false l = (RsEnd, [])) by (intros r [|? ?]; reflexivity).
    assert (Ye : forall e r l, @rpump M cf (YErr e r) more l = (RsErr e, [])) by (intros e r [|? ?]; reflexivity).
    cbn [List.app]. destruct p as [m r|r|e r].
    + left. exists (RsMsg m r more l1), (RsMsg m r more l2), [], O. rewrite !Ym. repeat split. left. exists m, r, more, []. auto.
    + destruct more.
      * right. destruct (Z l1 r) as (s1 & u1 & E1), (Z l2 r) as (s2 & u2 & E2). rewrite E1, E2. repeat eexists.
      * left. exists RsEnd, RsEnd, [], O. rewrite !Yn. repeat split. right; right; auto.
    + left. exists (RsErr e), (RsErr e), [], O. rewrite !Ye. repeat split. right; left; eauto.
  - destruct p as [m r|r|e r].
    + left. exists (RsMsg m r more ((x :: pre) ++ l1)), (RsMsg m r more ((x :: pre) ++ l2)), [], (List.length (x :: pre)). cbn [rpump List.app]. repeat split; auto.
      left. exists m, r, more, (x :: pre). auto.
    + destruct more; [|left; exists RsEnd, RsEnd, [], (List.length (x :: pre)); cbn; repeat split; auto; right; right; auto].
      destruct x as [b more| | |e|].
      * cbn [List.app rpump]. destruct (IH (feed_first cf r b) more) as [(s1 & s2 & o & n & E1 & E2 & S & L)|(s1 & s2 & u1 & u2 & E1 & E2)].
        -- left. rewrite E1, E2. exists s1, s2, (RReq b more :: o), n. repeat split; auto. cbn. lia.
        -- right. rewrite E1, E2. cbn [List.app]. repeat eexists.
      * left. eexists _, _, _, (List.length pre). cbn. repeat split; [|cbn; lia]. right; left; eauto.
      * left. eexists _, _, _, (List.length pre). cbn. repeat split; [|cbn; lia]. right; left; eauto.
      * left. eexists _, _, _, (List.length pre). cbn. repeat split; [|cbn; lia]. right; left; eauto.
      * left. eexists _, _, _, (List.length pre). cbn. repeat split; [|cbn; lia]. right; left; eauto.
    + left. exists (RsErr e), (RsErr e), [], (List.length (x :: pre)). cbn. repeat split; auto. right; left; eauto.
Qed.

Lemma rq_next_two {M} (cf : rconf M) cut n q1 q2 : same_pos n q1 q2 ->
  (exists x q1' q2' o n', rq_next cf cut q1 = (x, q1', o) /\ rq_next cf cut q2 = (x, q2', o) /\ same_pos n' q1' q2' /\ (n' + List.length o = n)%nat)
  \/ (exists z1 z2 q1' q2' o u1 u2, rq_next cf cut q1 = (z1, q1', o ++ hd RDisconnect l1 :: u1) /\ rq_next cf cut q2 = (z2, q2', o ++ hd RDisconnect l2 :: u2)
      /\ List.length o = n).
Proof.
  intros [(pre & L & -> & ->)|[(r & more & pre & k & L & -> & ->)|(-> & ->)]]; cbn [rq_next].
  - destruct (rpump_two cf pre (YEnd (reader_new None)) true) as [(s1 & s2 & o & n' & E1 & E2 & S & L')|(s1 & s2 & u1 & u2 & E1 & E2)].
    + rewrite E1, E2. left. destruct S as [(m & r & more & pre' & L'' & -> & ->)|[(e & -> & ->)|(-> & ->)]].
      * eexists _, _, _, o, n'. repeat split; [|lia]. right; left. exists r, more, pre', 1%nat. auto.
      * eexists _, _, _, o, n'. repeat split; [|lia]. right; right; auto.
      * eexists _, _, _, o, n'. repeat split; [|lia]. right; right; auto.
    + rewrite E1, E2. right. destruct s1, s2; eexists _, _, _, _, pre, u1, u2; auto.
  - destruct (match cut with Some j => Nat.eqb j k | None => false end).
    { left. eexists _, _, _, [], n. repeat split; [right; right; auto|cbn; lia]. }
    destruct (rpump_two cf pre (read_resume cf r) more) as [(s1 & s2 & o & n' & E1 & E2 & S & L')|(s1 & s2 & u1 & u2 & E1 & E2)].
    + rewrite E1, E2. left. destruct S as [(m & r' & more' & pre' & L'' & -> & ->)|[(e & -> & ->)|(-> & ->)]].
      * eexists _, _, _, o, n'. repeat split; [|lia]. right; left. exists r', more', pre', (S k). auto.
      * eexists _, _, _, o, n'. repeat split; [|lia]. right; right; auto.
      * eexists _, _, _, o, n'. repeat split; [|lia]. right; right; auto.
    + rewrite E1, E2. right. destruct s1, s2; eexists _, _, _, _, pre, u1, u2; auto.
  - left. eexists _, _, _, [], n. repeat split; [right; right; auto|cbn; lia].
Qed.

Lemma ask_diverge {A B} n m o (x : pulled A) (t1 t2 : list (devent A B)) : diverge m t1 t2 -> (m + List.length o = n)%nat ->
  diverge n (DAsk :: map DRecv o ++ DGive x :: t1) (DAsk :: map DRecv o ++ DGive x :: t2).
Proof.
  intros D L. assert (E : forall t, DAsk :: map DRecv o ++ DGive x :: t = (@DAsk A B :: map DRecv o ++ [DGive x]) ++ t).
  { intros t. cbn. rewrite <- app_assoc. reflexivity. }
  rewrite (E t1), (E t2). apply diverge_pre with m; [exact D|].
  change (@DAsk A B :: map DRecv o ++ [DGive x]) with ([@DAsk A B] ++ map DRecv o ++ [DGive x]). rewrite !taken_app, taken_recv, !app_length. cbn. lia.
Qed.
Lemma ask_split {A B} n o u1 u2 (a b : list (devent A B)) : List.length o = n ->
  diverge n (DAsk :: map DRecv (o ++ hd RDisconnect l1 :: u1) ++ a) (DAsk :: map DRecv (o ++ hd RDisconnect l2 :: u2) ++ b).
Proof. intros L. apply (diverge_pre n n [DAsk]); [|reflexivity]. apply diverge_recv; exact L. Qed.

(** ** The method *)
Lemma run_fn_two {A B R} (cf : rconf A) cut (g : prog A Empty_set R) : forall n q1 q2 rs, same_pos n q1 q2 ->
  @run_fn_t A B R cf cut g q1 rs = run_fn_t cf cut g q2 rs
  \/ diverge n (snd (@run_fn_t A B R cf cut g q1 rs)) (snd (@run_fn_t A B R cf cut g q2 rs)).
Proof.
  induction g as [r|i|k IH|b c g IH|op g IH|op g IH]; intros n q1 q2 rs S; cbn [run_fn_t]; auto.
  - destruct (rq_next_two cf cut n q1 q2 S) as [(x & q1' & q2' & o & n' & E1 & E2 & S' & L)|(z1 & z2 & q1' & q2' & o & u1 & u2 & E1 & E2 & L)].
    + rewrite E1, E2. specialize (IH x n' q1' q2' rs S').
      destruct (run_fn_t cf cut (k x) q1' rs) as [[r1 rs1] t1], (run_fn_t cf cut (k x) q2' rs) as [[r2 rs2] t2]. cbn in IH |- *. destruct IH as [E|D].
      * left. congruence.
      * right. apply ask_diverge with n'; auto.
    + rewrite E1, E2. right. destruct (run_fn_t cf cut (k z1) q1' rs) as [[r1 rs1] t1], (run_fn_t cf cut (k z2) q2' rs) as [[r2 rs2] t2]. cbn [snd].
      apply ask_split; exact L.
Qed.

Lemma drive_two {A B} body (cf : rconf A) cut (g : prog A B unit) : forall n q1 q2 rs s, same_pos n q1 q2 ->
  drive_t body cf cut g q1 rs s = drive_t body cf cut g q2 rs s
  \/ diverge n (snd (drive_t body cf cut g q1 rs s)) (snd (drive_t body cf cut g q2 rs s)).
Proof.
  induction g as [r|i|k IH|b c g IH|op g IH|op g IH]; intros n q1 q2 rs s S; cbn [drive_t]; auto.
  - destruct (rq_next_two cf cut n q1 q2 S) as [(x & q1' & q2' & o & n' & E1 & E2 & S' & L)|(z1 & z2 & q1' & q2' & o & u1 & u2 & E1 & E2 & L)].
    + rewrite E1, E2. specialize (IH x n' q1' q2' rs s S').
      destruct (drive_t body cf cut (k x) q1' rs s) as [[[s1 rs1] e1] t1], (drive_t body cf cut (k x) q2' rs s) as [[[s2 rs2] e2] t2]. cbn in IH |- *.
      destruct IH as [E|D].
      * left. congruence.
      * right. apply ask_diverge with n'; auto.
    + rewrite E1, E2. right. destruct (drive_t body cf cut (k z1) q1' rs s) as [[[s1 rs1] e1] t1], (drive_t body cf cut (k z2) q2' rs s) as [[[s2 rs2] e2] t2].
      cbn [snd]. apply ask_split; exact L.
  - destruct (body s rs b) as [s' [i|]]; [auto|]. specialize (IH n q1 q2 rs s' S).
    destruct (drive_t body cf cut g q1 rs s') as [[[s1 rs1] e1] t1], (drive_t body cf cut g q2 rs s') as [[[s2 rs2] e2] t2]. cbn in IH |- *.
    destruct IH as [E|D].
    + left. congruence.
    + right. apply (diverge_pre n n (DYield b :: newly (ls_a s) (ls_a s')) t1 t2 D).
      change (DYield b :: newly (ls_a s) (ls_a s')) with ([@DYield A B b] ++ newly (ls_a s) (ls_a s')). rewrite taken_app. unfold newly. rewrite taken_sends. reflexivity.
Qed.

Lemma loop_two {A B} o seen mon p name (enc : B -> res bytes) z (cf : rconf A) cut (g : prog A B unit) n q1 q2 rs s : same_pos n q1 q2 ->
  stream_loop_t o seen mon p name enc z cf cut g q1 rs s = stream_loop_t o seen mon p name enc z cf cut g q2 rs s
  \/ diverge n (snd (stream_loop_t o seen mon p name enc z cf cut g q1 rs s)) (snd (stream_loop_t o seen mon p name enc z cf cut g q2 rs s)).
Proof.
  intros S. unfold stream_loop_t. destruct (drive_two (stream_body o seen p name enc z) cf cut g n q1 q2 rs s S) as [E|D]; [left; rewrite E; reflexivity|right].
  destruct (drive_t (stream_body o seen p name enc z) cf cut g q1 rs s) as [[[s1 rs1] e1] t1],
    (drive_t (stream_body o seen p name enc z) cf cut g q2 rs s) as [[[s2 rs2] e2] t2]. cbn [snd] in D.
  destruct mon; [exact D|]. destruct e1, e2; exact D.
Qed.

Lemma consume_two {A B} (cf : rconf A) cut n q1 q2 : same_pos n q1 q2 ->
  @consume_single_t A B cf cut q1 = consume_single_t cf cut q2
  \/ diverge n (snd (@consume_single_t A B cf cut q1)) (snd (@consume_single_t A B cf cut q2)).
Proof.
  intros S. unfold consume_single_t.
  destruct (rq_next_two cf cut n q1 q2 S) as [(x & q1' & q2' & o & n' & E1 & E2 & S' & L)|(z1 & z2 & q1' & q2' & o & u1 & u2 & E1 & E2 & L)].
  - rewrite E1, E2. destruct x as [a| |e]; auto.
    destruct (rq_next_two cf cut n' q1' q2' S') as [(y & q1'' & q2'' & o' & n'' & E1' & E2' & S'' & L')|(z1 & z2 & q1'' & q2'' & o' & u1 & u2 & E1' & E2' & L')].
    + rewrite E1', E2'. auto.
    + rewrite E1', E2'. right. cbn [snd]. rewrite !app_assoc. pose proof (@diverge_recv A B n (o ++ o') u1 u2 [] []) as D. rewrite !app_nil_r in D.
      apply D. rewrite app_length. lia.
  - rewrite E1, E2. right. pose proof (@diverge_recv A B n o u1 u2) as D.
    assert (H : forall (z : pulled A) q' (u : list recv), exists v, snd (match z return res A * list (devent A B) with
        | PExn e => (Raise e, map (@DRecv A B) u)
        | PEnd => (Raise (EConnect Unimplemented (lit "unary request has zero messages") []), map DRecv u)
        | PMsg a => let '(y, q, o') := rq_next cf cut q' in
            (match y with PExn e => Raise e | PEnd => Ok a | PMsg _ => Raise (EConnect Unimplemented (lit "unary request has multiple messages") []) end,
             map DRecv (u ++ o'))
        end) = map DRecv u ++ v).
    { intros z q' u. destruct z; [destruct (rq_next cf cut q') as [[y q] o']; exists (map DRecv o'); cbn [snd]; apply map_app|..]; exists []; rewrite app_nil_r; reflexivity. }
    destruct (H z1 q1' (o ++ hd RDisconnect l1 :: u1)) as (v1 & ->), (H z2 q2' (o ++ hd RDisconnect l2 :: u2)) as (v2 & ->). apply D; exact L.
Qed.

Lemma try_two {A B} (ap : app A B) pre cut w o p ep k req z cx s :
  let en1 := mk_env (pre ++ l1) cut w o in let en2 := mk_env (pre ++ l2) cut w o in
  stream_try_t ap en1 p ep k req z cx s = stream_try_t ap en2 p ep k req z cx s
  \/ diverge (List.length pre) (snd (stream_try_t ap en1 p ep k req z cx s)) (snd (stream_try_t ap en2 p ep k req z cx s)).
Proof.
  cbv zeta. unfold stream_try_t. destruct req as [rz|]; [|auto]. cbn [en_recv en_cut en_watch en_send].
  set (cf := mk_rconf RBase rz (ap_max ap) (k_dec_req k)).
  assert (P : same_pos (List.length pre) (RqStart (pre ++ l1)) (RqStart (pre ++ l2))) by (left; exists pre; auto).
  destruct ep as [m f|m f|m f|m f].
  - destruct (@consume_two A B cf cut _ _ _ P) as [E|D]; [left; rewrite E; reflexivity|right].
    destruct (consume_single_t cf cut (RqStart (pre ++ l1))) as [r1 t1], (consume_single_t cf cut (RqStart (pre ++ l2))) as [r2 t2]. cbn [snd] in D.
    assert (H : forall (r : res A) t,
      exists v, snd (match r with
        | Raise e => ([], (s, rs_new, Some (IExn e)), t)
        | Ok a => let (r, rs) := run_fn (f a cx) ([], None) rs_new in
            match r with
            | FInt i => ([InvMsg a], (s, rs, Some i), t)
            | FRet b => let '(x, t) := (let '(s, rs, i, t') := stream_loop_t o (fun _ => false) None p (k_name k) (k_enc_res k) z cf cut (@single_response A B b) RqEnd rs s in (s, rs, i, t ++ t')) in
                ([InvMsg a], x, t)
            end
        end) = t ++ v).
    { intros r t. destruct r as [a|e]; [|exists []; rewrite app_nil_r; reflexivity].
      destruct (run_fn (f a cx) ([], None) rs_new) as [[b|i] rs]; [|exists []; rewrite app_nil_r; reflexivity].
      destruct (stream_loop_t _ _ _ _ _ _ _ _ _ _ _ _ _) as [[[s' rs'] i'] t']. exists t'. reflexivity. }
    destruct (H r1 t1) as (v1 & E1), (H r2 t2) as (v2 & E2). rewrite E1, E2. apply diverge_post; exact D.
  - destruct (@run_fn_two A B _ cf cut (f cx) _ _ _ rs_new P) as [E|D]; [left; rewrite E; reflexivity|right].
    destruct (run_fn_t cf cut (f cx) (RqStart (pre ++ l1)) rs_new) as [[r1 rs1] t1], (run_fn_t cf cut (f cx) (RqStart (pre ++ l2)) rs_new) as [[r2 rs2] t2].
    cbn [snd] in D.
    assert (H : forall (r : fres B) rs t,
      exists v, snd (match r with
            | FInt i => ([@InvStream A], (s, rs, Some i), t)
            | FRet b => let '(x, t) := (let '(s, rs, i, t') := stream_loop_t o (fun _ => false) None p (k_name k) (k_enc_res k) z cf cut (@single_response A B b) RqEnd rs s in (s, rs, i, t ++ t')) in
                ([@InvStream A], x, t)
            end) = t ++ v).
    { intros r rs t. destruct r as [b|i]; [|exists []; rewrite app_nil_r; reflexivity].
      destruct (stream_loop_t _ _ _ _ _ _ _ _ _ _ _ _ _) as [[[s' rs'] i'] t']. exists t'. reflexivity. }
    destruct (H r1 rs1 t1) as (v1 & E1), (H r2 rs2 t2) as (v2 & E2). rewrite E1, E2. apply diverge_post; exact D.
  - destruct (@consume_two A B cf cut _ _ _ P) as [E|D]; [left; rewrite E; reflexivity|right].
    destruct (consume_single_t cf cut (RqStart (pre ++ l1))) as [r1 t1], (consume_single_t cf cut (RqStart (pre ++ l2))) as [r2 t2]. cbn [snd] in D.
    destruct r1 as [a1|e1], r2 as [a2|e2]; repeat destruct (stream_loop_t _ _ _ _ _ _ _ _ _ _ _ _ _) as [? ?]; cbn [snd];
      try exact D; try (apply diverge_post; exact D).
    + rewrite <- (app_nil_r t2). apply diverge_post; exact D.
    + rewrite <- (app_nil_r t1). apply diverge_post; exact D.
  - destruct (loop_two o (fun _ => false) None p (k_name k) (k_enc_res k) z cf cut (f cx) _ _ _ rs_new s P) as [E|D]; [left; rewrite E; reflexivity|right].
    repeat destruct (stream_loop_t _ _ _ _ _ _ _ _ _ _ _ _ _) as [? ?]. exact D.
Qed.

Lemma handle_two {A B} (ap : app A B) pre cut w o p ep k hs cx :
  let en1 := mk_env (pre ++ l1) cut w o in let en2 := mk_env (pre ++ l2) cut w o in
  handle_stream_t ap en1 p ep k hs cx = handle_stream_t ap en2 p ep k hs cx
  \/ diverge (List.length pre) (snd (handle_stream_t ap en1 p ep k hs cx)) (snd (handle_stream_t ap en2 p ep k hs cx)).
Proof.
  cbv zeta. unfold handle_stream_t. destruct (negotiate_stream_compression p hs (ap_comps ap)) as [req z]. cbn [en_send].
  destruct (try_two ap pre cut w o p ep k req z cx (mk_lst (mk_ast 0 []) false 0)) as [E|D]; [left; rewrite E; reflexivity|right].
  destruct (stream_try_t ap (mk_env (pre ++ l1) cut w o) p ep k req z cx (mk_lst (mk_ast 0 []) false 0)) as [[inv1 [[s1 rs1] i1]] t1],
    (stream_try_t ap (mk_env (pre ++ l2) cut w o) p ep k req z cx (mk_lst (mk_ast 0 []) false 0)) as [[inv2 [[s2 rs2] i2]] t2]. cbn [snd] in D.
  destruct (stream_finally o (ap_sc ap) p (k_name k) z s1 rs1 i1 (ls_a s1)) as [a1 r1], (stream_finally o (ap_sc ap) p (k_name k) z s2 rs2 i2 (ls_a s2)) as [a2 r2].
  cbn [snd]. apply diverge_post; exact D.
Qed.
Lemma body_two : forall pre,
  read_body (pre ++ l1) = read_body (pre ++ l2) /\ body_events (pre ++ l1) = body_events (pre ++ l2)
  \/ exists u1 u2, body_events (pre ++ l1) = pre ++ hd RDisconnect l1 :: u1 /\ body_events (pre ++ l2) = pre ++ hd RDisconnect l2 :: u2.
Proof.
  assert (H : forall l, exists u, body_events l = hd RDisconnect l :: u).
  { intros [|[b [|]| | |e|] l]; eexists; reflexivity. }
  induction pre as [|x pre IH].
  - right. destruct (H l1) as (u1 & E1), (H l2) as (u2 & E2). exists u1, u2. auto.
  - cbn [List.app]. destruct x as [b [|]| | |e|]; try (left; split; reflexivity). cbn [read_body body_events].
    destruct IH as [[E1 E2]|(u1 & u2 & E1 & E2)]; [left; now rewrite E1, E2|]. right. exists u1, u2. now rewrite E1, E2.
Qed.
Lemma conversation_two {A B} (ap : app A B) now sc pre cut w o :
  let c1 := asgi_conversation ap now sc (mk_env (pre ++ l1) cut w o) in let c2 := asgi_conversation ap now sc (mk_env (pre ++ l2) cut w o) in
  c1 = c2 \/ diverge (List.length pre) (snd c1) (snd c2).
Proof.
  cbv zeta. unfold asgi_conversation. destruct (open_request ap now sc) as [[[[ep hs] p] cx]|e]; [|left; reflexivity].
  destruct (select_codec ap sc ep hs p) as [[params k]|e]; [|left; reflexivity].
  destruct ep as [m f|m f|m f|m f]; try exact (handle_two ap pre cut w o p _ k hs cx). destruct p; try exact (handle_two ap pre cut w o _ _ k hs cx).
  destruct (str_eqb (sc_method sc) (lit "GET")) eqn:G.
  - left. unfold handle_unary_connect. rewrite G. reflexivity.
  - cbn [en_recv]. destruct (body_two pre) as [[E1 E2]|(u1 & u2 & E1 & E2)].
    + left. rewrite E2. unfold handle_unary_connect. rewrite G. cbn [en_recv]. unfold read_post_request. rewrite E1. reflexivity.
    + right. rewrite E1, E2. cbn [snd]. apply diverge_recv. reflexivity.
Qed.
End Two.

Lemma conversation_stream {A B} (ap : app A B) now sc ep hs p cx k en : asgi_stream_request ap now sc ep hs p cx k ->
  asgi_conversation ap now sc en = handle_stream_t ap en p ep k hs cx.
Proof.
  intros (O & (params & K) & U). unfold asgi_conversation. rewrite O, K. destruct ep; destruct p; try reflexivity. discriminate (U eq_refl).
Qed.

(** ** What is received is what the server offers, in its order *)
Definition offer (q : rqpos) : list recv := match q with RqStart evs | RqYield _ _ evs _ => evs ++ [RDisconnect] | RqEnd => [] end.
Definition begins {X} (u v : list X) : Prop := exists r, v = u ++ r.
Lemma begins_app {X} (u u' v v' : list X) : v = u ++ v' -> begins u' v' -> begins (u ++ u') v.
Proof. intros -> (r & ->). exists r. apply app_assoc. Qed.
Lemma begins_nil {X} (v : list X) : begins [] v.
Proof. exists v. reflexivity. Qed.

Lemma rpump_offer {M} (cf : rconf M) : forall evs p more, let '(s, o) := rpump cf p more evs in
  match s with RsMsg _ _ _ evs' => evs = o ++ evs' | _ => begins o (evs ++ [RDisconnect]) end.
Proof.
  induction evs as [|x evs IH]; intros p more.
  - destruct p; cbn [rpump]; auto using begins_nil. destruct more; auto using begins_nil. exists []. reflexivity.
  - destruct p as [m r|r|e r]; cbn [rpump]; auto using begins_nil. destruct more; auto using begins_nil.
    destruct x as [b more| | |e|]; try (exists (evs ++ [RDisconnect]); reflexivity).
    specialize (IH (feed_first cf r b) more). destruct (rpump cf (feed_first cf r b) more evs) as [s o]. destruct s as [m r' more' evs'|e|].
    + cbn. congruence.
    + destruct IH as (t & E). exists t. cbn. congruence.
    + destruct IH as (t & E). exists t. cbn. congruence.
Qed.
Lemma rq_next_offer {M} (cf : rconf M) cut q : let '(x, q', o) := rq_next cf cut q in exists rest, offer q = o ++ rest /\ (q' = RqEnd \/ offer q' = rest).
Proof.
  destruct q as [evs|r more evs k|]; cbn [rq_next offer].
  - pose proof (rpump_offer cf evs (YEnd (reader_new None)) true) as H. destruct (rpump cf (YEnd (reader_new None)) true evs) as [[m r' more' evs'|e|] o].
    + exists (evs' ++ [RDisconnect]). subst evs. rewrite app_assoc. auto.
    + destruct H as (t & E). exists t. auto.
    + destruct H as (t & E). exists t. auto.
  - destruct (match cut with Some j => Nat.eqb j k | None => false end); [exists (evs ++ [RDisconnect]); auto|].
    pose proof (rpump_offer cf evs (read_resume cf r) more) as H. destruct (rpump cf (read_resume cf r) more evs) as [[m r' more' evs'|e|] o].
    + exists (evs' ++ [RDisconnect]). subst evs. rewrite app_assoc. auto.
    + destruct H as (t & E). exists t. auto.
    + destruct H as (t & E). exists t. auto.
  - exists []. auto.
Qed.
Lemma taken_ask {A B} o (x : pulled A) (t : list (devent A B)) : taken (DAsk :: map DRecv o ++ DGive x :: t) = o ++ taken t.
Proof. change (taken (map DRecv o ++ DGive x :: t) = o ++ taken t). rewrite taken_app, taken_recv. reflexivity. Qed.

Lemma run_fn_offer {A B R} (cf : rconf A) cut (g : prog A Empty_set R) : forall q rs, begins (taken (snd (@run_fn_t A B R cf cut g q rs))) (offer q).
Proof.
  induction g as [r|i|k IH|b c g IH|op g IH|op g IH]; intros q rs; cbn [run_fn_t]; try exact (begins_nil _); auto.
  - pose proof (rq_next_offer cf cut q) as H. destruct (rq_next cf cut q) as [[x q'] o]. destruct H as (rest & E & H).
    specialize (IH x q' rs). destruct (run_fn_t cf cut (k x) q' rs) as [[r1 rs1] t1]. cbn [snd] in *. rewrite taken_ask. apply begins_app with rest; [exact E|].
    destruct H as [->|<-]; [|exact IH]. destruct IH as (u & U). cbn in U. symmetry in U. apply app_eq_nil in U as [-> _]. apply begins_nil.
  - destruct b.
Qed.
Lemma drive_offer {A B} body (cf : rconf A) cut (g : prog A B unit) : forall q rs s, begins (taken (snd (drive_t body cf cut g q rs s))) (offer q).
Proof.
  induction g as [r|i|k IH|b c g IH|op g IH|op g IH]; intros q rs s; cbn [drive_t]; try exact (begins_nil _); auto.
  - pose proof (rq_next_offer cf cut q) as H. destruct (rq_next cf cut q) as [[x q'] o]. destruct H as (rest & E & H).
    specialize (IH x q' rs s). destruct (drive_t body cf cut (k x) q' rs s) as [[[s1 rs1] e1] t1]. cbn [snd] in *. rewrite taken_ask.
    apply begins_app with rest; [exact E|].
    destruct H as [->|<-]; [|exact IH]. destruct IH as (u & U). cbn in U. symmetry in U. apply app_eq_nil in U as [-> _]. apply begins_nil.
  - assert (Y : forall s' t, taken (@DYield A B b :: newly (ls_a s) (ls_a s') ++ t) = taken t).
    { intros s' t. change (taken (newly (ls_a s) (ls_a s') ++ t) = taken t). rewrite taken_app. unfold newly. rewrite taken_sends. reflexivity. }
    destruct (body s rs b) as [s' [i|]]; cbn [snd].
    + rewrite <- (app_nil_r (newly (ls_a s) (ls_a s'))). rewrite Y. apply begins_nil.
    + specialize (IH q rs s'). destruct (drive_t body cf cut g q rs s') as [[[s1 rs1] e1] t1]. cbn [snd] in *. rewrite Y. exact IH.
Qed.
Lemma loop_offer {A B} o seen mon p name (enc : B -> res bytes) z (cf : rconf A) cut (g : prog A B unit) q rs s :
  begins (taken (snd (stream_loop_t o seen mon p name enc z cf cut g q rs s))) (offer q).
Proof.
  unfold stream_loop_t. pose proof (drive_offer (stream_body o seen p name enc z) cf cut g q rs s) as H.
  destruct (drive_t (stream_body o seen p name enc z) cf cut g q rs s) as [[[s1 rs1] e1] t1]. cbn [snd] in H.
  destruct mon; [exact H|]. destruct e1; exact H.
Qed.
Lemma loop_none {A B} o seen mon p name (enc : B -> res bytes) z (cf : rconf A) cut (g : prog A B unit) rs s :
  taken (snd (stream_loop_t o seen mon p name enc z cf cut g RqEnd rs s)) = [].
Proof. destruct (loop_offer o seen mon p name enc z cf cut g RqEnd rs s) as (r & E). cbn [offer] in E. symmetry in E. apply app_eq_nil in E. tauto. Qed.
Lemma consume_offer {A B} (cf : rconf A) cut q : begins (taken (snd (@consume_single_t A B cf cut q))) (offer q).
Proof.
  unfold consume_single_t. pose proof (rq_next_offer cf cut q) as H. destruct (rq_next cf cut q) as [[x q'] o]. destruct H as (rest & E & H).
  destruct x as [a| |e]; [|cbn [snd]; rewrite taken_recv; exists rest; exact E..].
  pose proof (rq_next_offer cf cut q') as H'. destruct (rq_next cf cut q') as [[y q''] o']. destruct H' as (rest' & E' & _). cbn [snd]. rewrite taken_recv.
  apply begins_app with rest; [exact E|]. destruct H as [->|<-]; [|exists rest'; exact E']. cbn in E'. symmetry in E'. apply app_eq_nil in E' as [-> _]. apply begins_nil.
Qed.
Lemma taken_closed {A B} (t : list (devent Empty_set B)) : taken (flat_map (@of_closed A B) t) = [].
Proof. induction t as [|e t IH]; [reflexivity|]. cbn [flat_map]. rewrite taken_app, IH. destruct e; reflexivity. Qed.
Lemma try_offer {A B} (ap : app A B) en p ep k req z cx s : begins (taken (snd (stream_try_t ap en p ep k req z cx s))) (en_recv en ++ [RDisconnect]).
Proof.
  unfold stream_try_t. destruct req as [rz|]; [|apply begins_nil].
  set (cf := mk_rconf RBase rz (ap_max ap) (k_dec_req k)). set (q := RqStart (en_recv en)). change (en_recv en ++ [RDisconnect]) with (offer q).
  destruct ep as [m f|m f|m f|m f].
  - pose proof (@consume_offer A B cf (en_cut en) q) as H. destruct (consume_single_t cf (en_cut en) q) as [[a|e] t]; [|exact H].
    destruct (run_fn (f a cx) ([], None) rs_new) as [[b|i] rs]; [|exact H].
    pose proof (@loop_none A B (en_send en) (fun _ => false) None p (k_name k) (k_enc_res k) z cf (en_cut en) (single_response b) rs s) as N.
    destruct (stream_loop_t _ _ _ _ _ _ _ _ _ _ _ _ _) as [[[s' rs'] i'] t']. cbn [snd] in *. rewrite taken_app, N, app_nil_r. exact H.
  - pose proof (@run_fn_offer A B _ cf (en_cut en) (f cx) q rs_new) as H. destruct (run_fn_t cf (en_cut en) (f cx) q rs_new) as [[[b|i] rs] t]; [|exact H].
    pose proof (@loop_none A B (en_send en) (fun _ => false) None p (k_name k) (k_enc_res k) z cf (en_cut en) (single_response b) rs s) as N.
    destruct (stream_loop_t _ _ _ _ _ _ _ _ _ _ _ _ _) as [[[s' rs'] i'] t']. cbn [snd] in *. rewrite taken_app, N, app_nil_r. exact H.
  - pose proof (@consume_offer A B cf (en_cut en) q) as H. destruct (consume_single_t cf (en_cut en) q) as [[a|e] t]; [|exact H].
    destruct (stream_loop_t _ _ _ _ _ _ _ _ _ _ _ _ _) as [x' t']. cbn [snd] in *. rewrite taken_app, taken_closed, app_nil_r. exact H.
  - pose proof (@loop_offer A B (en_send en) (fun _ => false) None p (k_name k) (k_enc_res k) z cf (en_cut en) (f cx) q rs_new s) as H.
    destruct (stream_loop_t _ _ _ _ _ _ _ _ _ _ _ _ _) as [x' t']. exact H.
Qed.
Lemma handle_offer {A B} (ap : app A B) en p ep k hs cx : begins (taken (snd (handle_stream_t ap en p ep k hs cx))) (en_recv en ++ [RDisconnect]).
Proof.
  unfold handle_stream_t. destruct (negotiate_stream_compression p hs (ap_comps ap)) as [req z].
  pose proof (try_offer ap en p ep k req z cx (mk_lst (mk_ast 0 []) false 0)) as H.
  destruct (stream_try_t ap en p ep k req z cx (mk_lst (mk_ast 0 []) false 0)) as [[inv [[s rs] i]] t]. cbn [snd] in H.
  destruct (stream_finally (en_send en) (ap_sc ap) p (k_name k) z s rs i (ls_a s)) as [a r]. cbn [snd]. rewrite taken_app. unfold newly. rewrite taken_sends, app_nil_r.
  exact H.
Qed.

(** ** A client that decides what comes next from what has happened *)
Fixpoint before {A B} (n : nat) (t : list (devent A B)) : option (list (devent A B)) :=
  match t with
  | [] => None
  | e :: t =>
      match e, n with
      | DRecv _, O => Some []
      | DRecv _, S n => option_map (cons e) (before n t)
      | _, _ => option_map (cons e) (before n t)
      end
  end.
Lemma before_recv {A B} x (r : list (devent A B)) : forall w, before (List.length (taken w)) (w ++ DRecv x :: r) = Some w.
Proof.
  induction w as [|e w IH]; [reflexivity|]. destruct e as [|y|y|b|e]; cbn [List.app before].
  1,3,4,5: change (taken (_ :: w)) with (taken w); rewrite IH; reflexivity.
  change (taken (DRecv y :: w)) with (y :: taken w). cbn [List.length]. rewrite IH. reflexivity.
Qed.
Lemma recv_inside {A B} a (r : list (devent A B)) y r' : forall w w', w ++ DRecv a :: r = w' ++ DRecv y :: r' ->
  (List.length (taken w') < List.length (taken w))%nat -> exists r'', w = w' ++ DRecv y :: r''.
Proof.
  induction w as [|e w IH]; intros w' E L; [cbn in L; lia|]. destruct w' as [|e' w'].
  - cbn in E. injection E as -> _. exists w. reflexivity.
  - cbn [List.app] in E. injection E as -> E. destruct (IH w' E) as (r'' & ->); [|exists r''; reflexivity].
    revert L. change (e' :: w') with ([e'] ++ w'). change (e' :: w) with ([e'] ++ w). rewrite !taken_app, !app_length. lia.
Qed.

Lemma body_offer : forall l, begins (body_events l) (l ++ [RDisconnect]).
Proof.
  induction l as [|x l IH]; [exists []; reflexivity|]. destruct x as [b [|]| | |e|]; try (exists (l ++ [RDisconnect]); reflexivity).
  destruct IH as (r & E). exists r. cbn. congruence.
Qed.
Lemma conversation_offer {A B} (ap : app A B) now sc en : begins (taken (snd (asgi_conversation ap now sc en))) (en_recv en ++ [RDisconnect]).
Proof.
  assert (N : forall l, taken (map (@DRecv A B) [] ++ map DSend l) = []) by (intro l; cbn [map List.app]; apply taken_sends).
  unfold asgi_conversation. destruct (open_request ap now sc) as [[[[ep hs] p] cx]|e]; [|cbn [snd]; rewrite N; apply begins_nil].
  destruct (select_codec ap sc ep hs p) as [[params k]|e]; [|cbn [snd]; rewrite N; apply begins_nil].
  destruct ep as [m f|m f|m f|m f]; try exact (handle_offer ap en p _ k hs cx). destruct p; try exact (handle_offer ap en _ _ k hs cx).
  destruct (str_eqb (sc_method sc) (lit "GET")); cbn [snd]; [rewrite N; apply begins_nil|].
  rewrite taken_app, taken_recv, taken_sends, app_nil_r. apply body_offer.
Qed.
