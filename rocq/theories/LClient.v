(** Lemmas on client calls. *)
From Coq Require Import List NArith ZArith Bool String Lia ZifyBool ZifyNat.
From Verif Require Import MBase MPyStr MHeaders SHeaders LBase LPyStr LHeaders MPercent MUtf8 MJson MWire MTimeout MEnvelope SEnvelope
  LEnvelope LWire MProtocol SProtocol MClient LProtocol SClient LFloat PTimeout.
Import ListNotations.
Local Open Scope N_scope.

Lemma consume_all {M} (cf : rconf M) chunks : forall r,
  consume cf r chunks None =
  (let '(ms, e, r') := feed_all cf r chunks in (ms, match e with Some x => Some (FExn x) | None => None end, r')).
Proof.
  induction chunks as [|ch cs IH]; intro r; cbn [consume feed_all]; auto.
  destruct (feed cf r ch) as [[ms e] r1]. destruct e as [x|]; auto.
  rewrite IH. destruct (feed_all cf r1 cs) as [[ms' e'] r2]. destruct e'; auto.
Qed.

(** A stream consumed to its end is consumed whole. *)
Lemma consume_end {M} (cf : rconf M) chunks : forall r stop ms r',
  consume cf r chunks stop = (ms, None, r') -> feed_all cf r chunks = (ms, None, r').
Proof.
  induction chunks as [|ch cs IH]; intros r stop ms r' H; cbn [consume feed_all] in *; [congruence|].
  destruct (feed cf r ch) as [[ms1 e] r1].
  assert (X : forall stop', match e with
        | Some x => (ms1, Some (FExn x), r1)
        | None => let '(ms', f, r2) := consume cf r1 cs stop' in (ms1 ++ ms', f, r2)
        end = (ms, None, r') ->
        match e with Some _ => (ms1, e, r1) | None => let '(ms', e', r'0) := feed_all cf r1 cs in (ms1 ++ ms', e', r'0) end = (ms, None, r')).
  { intros stop' E. destruct e; [discriminate|]. destruct (consume cf r1 cs stop') as [[ms2 f] r2] eqn:C.
    injection E as <- -> <-. rewrite (IH _ _ _ _ C). reflexivity. }
  destruct stop as [[n f]|]; [|now apply X in H]. destruct (Nat.ltb n (List.length ms1)); [discriminate|]. now apply X in H.
Qed.

(** What is delivered is always a prefix of what the whole body gives. *)
Lemma consume_prefix {M} (cf : rconf M) chunks : forall r stop ms f r',
  consume cf r chunks stop = (ms, f, r') ->
  exists ms' e r2, feed_all cf r chunks = (ms ++ ms', e, r2).
Proof.
  induction chunks as [|ch cs IH]; intros r stop ms f r' H; cbn [consume feed_all] in *.
  - injection H as <- _ _. exists [], None, r. reflexivity.
  - destruct (feed cf r ch) as [[ms1 e] r1].
    assert (X : forall stop', match e with
        | Some x => (ms1, Some (FExn x), r1)
        | None => let '(ms', f, r2) := consume cf r1 cs stop' in (ms1 ++ ms', f, r2)
        end = (ms, f, r') ->
        exists ms' e' r2, match e with Some _ => (ms1, e, r1) | None => let '(ms', e', r'0) := feed_all cf r1 cs in (ms1 ++ ms', e', r'0) end
                         = (ms ++ ms', e', r2)).
    { intros stop' E. destruct e.
      - injection E as <- _ _. exists [], (Some e), r1. now rewrite app_nil_r.
      - destruct (consume cf r1 cs stop') as [[ms2 f2] r2] eqn:C. injection E as <- _ _.
        destruct (IH _ _ _ _ _ C) as [ms3 [e3 [r3 ->]]]. exists ms3, e3, r3. now rewrite app_assoc. }
    destruct stop as [[n g]|]; [|now apply X in H]. destruct (Nat.ltb n (List.length ms1)); [|now apply X in H].
    apply (f_equal (fun p => fst (fst p))) in H. cbn [fst] in H. rewrite <- H.
    destruct e; [exists (skipn (S n) ms1), (Some e), r1; now rewrite firstn_skipn|].
    destruct (feed_all cf r1 cs) as [[ms2 e2] r2]. exists (skipn (S n) ms1 ++ ms2), e2, r2.
    now rewrite app_assoc, firstn_skipn.
Qed.

Lemma stream_except_not_ok {A B} (c : client A B) ex rd serr md f : fst (stream_except c ex rd serr md f) <> COk tt.
Proof.
  unfold stream_except. destruct f as [e| |]; try discriminate.
  - assert (X : fst (match serr with
      | Some s => (CErr s, md)
      | None =>
          match map_stream_reset e ex with
          | Some rst =>
              match rd with
              | Some (r, resp) =>
                  let (o, md) := response_complete (cl_sc c) (reader_kind (cl_proto c)) r
                                   (sp_headers resp) (sp_trailers resp) (Some rst) in
                  (CErr (match o with Some x => x | None => rst end), md)
              | None => (CErr rst, md)
              end
          | None => (@CErr unit (EConnect Unavailable (str_of_exn e) []), md)
          end end) <> COk tt).
    { destruct serr; [discriminate|]. destruct (map_stream_reset e ex); [|discriminate]. destruct rd as [[r resp]|]; [|discriminate].
      destruct (response_complete _ _ _ _ _ _); discriminate. }
    destruct e; try exact X; [discriminate|]. destruct k; try exact X. discriminate.
  - destruct (cl_sync c); discriminate.
Qed.

Ltac nok :=
  let H := fresh in let E := fresh in let X := fresh in
  intro H; exfalso;
  match type of H with context [stream_except ?c ?x ?rd ?se ?m ?f] =>
    pose proof (stream_except_not_ok c x rd se m f) as X; destruct (stream_except c x rd se m f) as [? ?] eqn:E;
    cbn [fst sr_end] in *; congruence
  end.

(** A stream that ends without raising: what must have happened. *)
Lemma send_stream_ok {A B} (c : client A B) cx ck net md reqs stop :
  let o := send_stream c cx ck net md reqs stop in
  sr_end o = COk tt ->
  exists rq resp z r,
    sr_sent o = [rq] /\ nw_stream net rq = SResp resp /\ sp_status resp = 200
    /\ validate_stream_response (cl_proto c) (k_name (cl_codec c))
         (match hh_get (sp_headers resp) (lit "content-type") with Some v => v | None => [] end) = None
    /\ handle_response_compression (cl_proto c) true (sp_headers resp) (cl_comps c) = Ok z
    /\ feed_all (mk_rconf (reader_kind (cl_proto c)) z (cl_max c) (k_dec_res (cl_codec c)))
         (reader_new (handle_response_headers md (sp_headers resp))) (sp_chunks resp) = (sr_msgs o, None, r)
    /\ sp_fault resp = None
    /\ response_complete (cl_sc c) (reader_kind (cl_proto c)) r (sp_headers resp) (sp_trailers resp) None = (None, sr_md o)
    /\ (cl_sync c = true -> deadline_passed cx (ck_late ck) = false).
Proof.
  cbv zeta. unfold send_stream. set (q := mk_rq _ _ _ _ _). cbv zeta.
  destruct (nw_stream net q) as [resp|f] eqn:Nw; [|nok].
  destruct (sp_status resp =? 200) eqn:St.
  2: { destruct (sp_fault resp); [|destruct (we_from_response _ _)]; unfold leave; destruct (sp_exit resp false);
       nok. }
  destruct (validate_stream_response _ _ _) eqn:V.
  1: { unfold leave; destruct (sp_exit resp false); nok. }
  destruct (handle_response_compression _ _ _ _) as [z|] eqn:Z.
  2: { unfold leave; destruct (sp_exit resp false); nok. }
  destruct (consume _ _ _ _) as [[ms f] r] eqn:C.
  destruct f as [f|].
  1: { unfold leave; destruct (sp_exit resp false); nok. }
  destruct (sp_fault resp) as [f|] eqn:Sf.
  1: { unfold leave; destruct (sp_exit resp false); nok. }
  destruct (cl_sync c && deadline_passed cx (ck_late ck)) eqn:D.
  1: { unfold leave; destruct (sp_exit resp false); nok. }
  destruct (response_complete _ _ _ _ _ _) as [o md'] eqn:R. unfold leave. destruct o as [e|].
  1: { destruct (sp_exit resp false); nok. }
  destruct (sp_exit resp true).
  1: { nok. }
  intros _. exists q, resp, z, r. cbn [sr_sent sr_msgs sr_md].
  split; auto. split; auto. split; [lia|]. split; auto. split; auto. split; [eapply consume_end; exact C|].
  split; auto. split; auto. intro Sy. rewrite Sy in D. exact D.
Qed.

(** ** Frames read without error *)

Lemma connect_end_not_false md d : fst (connect_handle_end md d) <> EFalse.
Proof.
  unfold connect_handle_end. destruct (json_loads_bytes d) as [[]|]; try discriminate.
  destruct (match dget d0 (lit "metadata") with Some _ => _ | None => _ end) as [md1 [e|]]; [discriminate|].
  destruct (dget d0 (lit "error")) as [v|]; [|discriminate]. destruct (json_truthy v); [|discriminate].
  destruct v; try discriminate. destruct (we_from_dict _ _ _); discriminate.
Qed.

Lemma read_frame_ok {M} (cf : rconf M) f r o r' : read_frame cf (f_flag f) (f_payload f) r = (o, r') ->
  match o with
  | FMsg m => good_frame cf f m
  | FEnd => end_flag (rc_kind cf) f = true
  | FErr _ => True
  end.
Proof.
  intro H. destruct o as [m| |]; auto.
  - split; [|eapply read_msg_inv; exact H].
    unfold read_frame in H. destruct (if N.testbit (f_flag f) 0 then _ else _) as [d|e]; [|discriminate].
    destruct (match rc_max cf with Some _ => _ | None => _ end); [discriminate|].
    destruct (end_flag (rc_kind cf) f) eqn:E; auto. exfalso. unfold end_flag in E. unfold handle_end in H.
    destruct (rc_kind cf); try discriminate.
    + assert (T : N.testbit (f_flag f) 1 = true) by (rewrite N.testbit_odd, N.shiftr_div_pow2; exact E).
      rewrite T in H. pose proof (connect_end_not_false (r_md r) d) as X.
      destruct (connect_handle_end (r_md r) d) as [[| |x] y]; cbn [fst] in X; try discriminate. congruence.
    + assert (T : N.testbit (f_flag f) 7 = true) by (rewrite N.testbit_odd, N.shiftr_div_pow2; exact E).
      rewrite T in H. destruct (web_lines _ _) as [t [x|]]; discriminate.
  - apply read_frame_end in H. destruct f; exact H.
Qed.

Lemma run_skip_ok {M} (cf : rconf M) fs : forall r ms r', run_skip cf fs r = (ms, None, r') ->
  Forall2 (good_frame cf) (filter (fun f => negb (end_flag (rc_kind cf) f)) fs) ms.
Proof.
  induction fs as [|f fs IH]; intros r ms r' H; cbn [run_skip filter] in *.
  - injection H as <- _. constructor.
  - destruct (read_frame cf (f_flag f) (f_payload f) r) as [o r1] eqn:R. apply read_frame_ok in R. destruct o as [m| |x].
    + destruct (run_skip cf fs r1) as [[ms1 e1] r2] eqn:S. injection H as <- -> <-.
      destruct R as [R1 R2]. rewrite R1. cbn [negb]. constructor; [split; auto|]. eapply IH; exact S.
    + rewrite R. cbn [negb]. eapply IH; exact H.
    + discriminate.
Qed.

Lemma run_skip_read {M} (cf : rconf M) fs : forall r ms r',
  rc_kind cf = RGrpc \/ rc_kind cf = RGrpcWeb ->
  run_skip cf fs r = (ms, None, r') -> r_read r' = false -> fs = [] /\ r' = r.
Proof.
  assert (K : forall f r o r1, rc_kind cf = RGrpc \/ rc_kind cf = RGrpcWeb ->
     read_frame cf (f_flag f) (f_payload f) r = (o, r1) -> (r_read r = true \/ match o with FErr _ => False | _ => True end) -> r_read r1 = true).
  { intros f r o r1 Hk H Ho. unfold read_frame in H.
    destruct (if N.testbit (f_flag f) 0 then _ else _) as [d|e]; [|injection H as <- <-; destruct Ho; tauto].
    destruct (match rc_max cf with Some _ => _ | None => _ end); [injection H as <- <-; destruct Ho; tauto|].
    assert (X : forall er r2, handle_end (rc_kind cf) (f_flag f) d r = (er, r2) -> r_read r2 = true).
    { intros er r2. unfold handle_end. destruct Hk as [->| ->].
      - intro Q. injection Q as <- <-. reflexivity.
      - destruct (N.testbit (f_flag f) 7); [destruct (web_lines _ _)|]; intro Q; injection Q as <- <-; reflexivity. }
    destruct (handle_end _ _ _ _) as [er r2]. specialize (X _ _ eq_refl).
    destruct er; [destruct (rc_dec cf d)| |]; injection H as <- <-; exact X. }
  assert (T : forall fs r ms r', rc_kind cf = RGrpc \/ rc_kind cf = RGrpcWeb ->
     run_skip cf fs r = (ms, None, r') -> r_read r = true -> r_read r' = true).
  { clear fs. induction fs as [|f fs IH]; intros r ms r' Hk H Hr; cbn [run_skip] in H; [injection H as _ <-; auto|].
    destruct (read_frame cf (f_flag f) (f_payload f) r) as [o r1] eqn:R. apply K in R; auto.
    destruct o; [|eapply IH; eauto|discriminate].
    destruct (run_skip cf fs r1) as [[ms1 e1] r2] eqn:S. injection H as <- -> <-. eapply IH; eauto. }
  intros r ms r' Hk H Hr. destruct fs as [|f fs]; cbn [run_skip] in H; [injection H as _ <-; auto|].
  exfalso. destruct (read_frame cf (f_flag f) (f_payload f) r) as [o r1] eqn:R.
  destruct o; [|apply K in R; auto; apply T in H; auto; congruence|discriminate].
  destruct (run_skip cf fs r1) as [[ms1 e1] r2] eqn:S. injection H as <- -> <-. apply K in R; auto. apply T in S; auto. congruence.
Qed.

(** ** gRPC-Web trailer blocks *)

Lemma split_crlf_piece d : forall l, In l (split_crlf d) ->
  exists pre post, d = pre ++ l ++ post /\ (pre = [] \/ exists p, pre = p ++ [13; 10]) /\ (post = [] \/ exists p, post = 13 :: 10 :: p).
Proof.
  assert (G : forall n d, (List.length d < n)%nat ->
    (exists l post, hd_error (split_crlf d) = Some l /\ d = l ++ post /\ (post = [] \/ exists p, post = 13 :: 10 :: p))
    /\ forall l, In l (tl (split_crlf d)) -> exists pre post, d = pre ++ l ++ post /\ (exists p, pre = p ++ [13; 10]) /\ (post = [] \/ exists p, post = 13 :: 10 :: p)).
  { clear d. induction n as [|n IH]; intros d Hn; [lia|].
    destruct d as [|c d].
    - split.
      + exists [], []. auto.
      + intros l [].
    - destruct d as [|x d].
      + split; [exists [c], []; auto|intros l []].
      + rewrite split_crlf_cons. destruct ((c =? 13) && (x =? 10)) eqn:E.
        * assert (c = 13 /\ x = 10) as [-> ->] by lia.
          destruct (IH d ltac:(cbn [List.length] in Hn; lia)) as [[l0 [post0 [H0 [E0 P0]]]] T0]. cbn [hd_error tl]. split.
          -- exists [], (13 :: 10 :: d). split; auto. split; auto. right; eauto.
          -- intros l Hl. destruct (split_crlf d) as [|y ys]; [destruct Hl|]. cbn [hd_error tl] in *. destruct Hl as [<-|Hl].
             ++ injection H0 as <-. exists [13; 10], post0. cbn [app]. rewrite <- E0. split; auto. split; auto. exists []. reflexivity.
             ++ destruct (T0 l Hl) as [pre [post [-> [[p ->] P]]]]. exists (13 :: 10 :: p ++ [13; 10]), post. split; auto. split; auto.
                exists (13 :: 10 :: p). reflexivity.
        * destruct (IH (x :: d) ltac:(cbn [List.length] in *; lia)) as [[l0 [post0 [H0 [E0 P0]]]] T0].
          destruct (split_crlf (x :: d)) as [|y ys]; [discriminate|]. cbn [hd_error tl] in *. injection H0 as ->. split.
          -- exists (c :: l0), post0. split; auto. split; auto. cbn [app]. now rewrite <- E0.
          -- intros l Hl. destruct (T0 l Hl) as [pre [post [Ed [[p ->] P]]]]. exists (c :: p ++ [13; 10]), post. rewrite Ed. split; auto.
             split; auto. exists (c :: p). reflexivity. }
  intros l Hl. destruct (G (S (List.length d)) d ltac:(lia)) as [[l0 [post0 [H0 [E0 P0]]]] T0].
  destruct (split_crlf d) as [|y ys]; [destruct Hl|]. cbn [hd_error tl] in *. destruct Hl as [<-|Hl].
  - injection H0 as ->. exists [], post0. auto.
  - destruct (T0 l Hl) as [pre [post [-> [P Q]]]]. exists pre, post. auto.
Qed.

Lemma split_first_inv sep s : forall a b, split_first sep s = Some (a, b) -> s = a ++ sep :: b /\ ~ In sep a.
Proof.
  induction s as [|c s IH]; intros a b H; cbn [split_first] in H; [discriminate|].
  destruct (N.eqb_spec c sep) as [->|Hc].
  - injection H as <- <-. auto.
  - destruct (split_first sep s) as [[a1 b1]|]; [|discriminate]. injection H as <- <-.
    destruct (IH _ _ eq_refl) as [-> H2]. split; auto. intros [->|H3]; [congruence|auto].
Qed.

Lemma web_lines_in lines : forall acc t e p, web_lines lines acc = (t, e) -> In p t ->
  In p acc \/ exists l a b k v, In l lines /\ split_first 58 l = Some (a, b) /\ utf8_decode a = Some k /\ utf8_decode b = Some v
    /\ p = (strip k, strip v).
Proof.
  induction lines as [|l lines IH]; intros acc t e p H Hp; cbn [web_lines] in H; [injection H as <- _; auto|].
  assert (X : forall acc', web_lines lines acc' = (t, e) -> (In p acc' -> In p acc \/ exists a b k v, split_first 58 l = Some (a, b) /\ utf8_decode a = Some k /\ utf8_decode b = Some v
    /\ p = (strip k, strip v)) -> In p acc \/ exists l' a b k v, In l' (l :: lines) /\ split_first 58 l' = Some (a, b) /\ utf8_decode a = Some k /\ utf8_decode b = Some v
    /\ p = (strip k, strip v)).
  { intros acc' Ha Hin. destruct (IH _ _ _ _ Ha Hp) as [H1|(l'&a&b&k&v&Hl&H1)].
    - destruct (Hin H1) as [H2|(a&b&k&v&H2)]; auto. right. exists l, a, b, k, v. split; [now left|auto].
    - right. exists l', a, b, k, v. split; [now right|auto]. }
  destruct l as [|c l]; [apply (X acc); auto|].
  destruct (split_first 58 (c :: l)) as [[a b]|] eqn:S; [|injection H as <- _; auto].
  destruct (utf8_decode a) as [k|] eqn:Da; [|injection H as <- _; auto].
  destruct (utf8_decode b) as [v|] eqn:Db; [|injection H as <- _; auto].
  apply (X _ H). intro Hin. rewrite in_app_iff in Hin. destruct Hin as [Hin|[<-|[]]]; auto.
  right. exists a, b, k, v. auto.
Qed.

Lemma web_block_line d acc t e k v : web_lines (split_crlf d) acc = (t, e) -> In (k, v) t ->
  In (k, v) acc \/ forall name, same_name name k = true -> trailer_line d name v.
Proof.
  intros H Hin. destruct (web_lines_in _ _ _ _ _ H Hin) as [H1|(l&a&b&k'&v'&Hl&Hs&Ha&Hb&E)]; auto.
  right. intros name Hn. injection E as -> ->. destruct (split_crlf_piece _ _ Hl) as (pre&post&Ed&Hp&Hq).
  destruct (split_first_inv _ _ _ _ Hs) as [-> Hno].
  exists pre, a, b, post, k', v'. split; [|auto 10]. rewrite Ed, <- app_assoc. reflexivity.
Qed.

Lemma run_skip_trailers {M} (cf : rconf M) fs : rc_kind cf = RGrpcWeb -> forall r ms r' k v,
  run_skip cf fs r = (ms, None, r') -> In (k, v) (r_trl r') ->
  In (k, v) (r_trl r) \/ exists f d, In f fs /\ end_flag RGrpcWeb f = true /\ content_of (rc_comp cf) f d
    /\ forall name, same_name name k = true -> trailer_line d name v.
Proof.
  intros Hk. induction fs as [|f fs IH]; intros r ms r' k v H Hin; cbn [run_skip] in H; [injection H as _ <-; auto|].
  destruct (read_frame cf (f_flag f) (f_payload f) r) as [o r1] eqn:R.
  assert (S : match o with FErr _ => True | _ => exists ms1, run_skip cf fs r1 = (ms1, None, r') end).
  { destruct o; auto; [|eauto]. destruct (run_skip cf fs r1) as [[ms1 e1] r2]. injection H as _ -> <-. eauto. }
  assert (X : match o with FErr _ => True | _ => In (k, v) (r_trl r1) -> In (k, v) (r_trl r) \/ exists d, end_flag RGrpcWeb f = true /\ content_of (rc_comp cf) f d
    /\ forall name, same_name name k = true -> trailer_line d name v end).
  { unfold read_frame in R.
    destruct (if N.testbit (f_flag f) 0 then _ else _) as [d|e] eqn:D; [|injection R as <- _; exact I].
    apply data_content in D.
    destruct (match rc_max cf with Some _ => _ | None => _ end); [injection R as <- _; exact I|].
    rewrite Hk in R. cbn [handle_end] in R. destruct (N.testbit (f_flag f) 7) eqn:T.
    - destruct (web_lines (split_crlf d) (r_trl r)) as [t e] eqn:W. destruct e; [injection R as <- _; exact I|].
      injection R as <- <-. cbn [r_trl]. intro Hi. destruct (web_block_line _ _ _ _ _ _ W Hi) as [H1|H1]; auto.
      right. exists d. split; auto. unfold end_flag. rewrite N.testbit_odd, N.shiftr_div_pow2 in T. exact T.
    - destruct (rc_dec cf d); injection R as <- <-; [|exact I]. cbn [r_trl]. auto. }
  destruct o as [m| |x]; [| |discriminate].
  - destruct S as [ms1 S]. destruct (IH _ _ _ _ _ S Hin) as [H1|(f'&d&H1&H2)].
    + destruct (X H1) as [H2|(d&H2)]; auto. right. exists f, d. split; [now left|auto].
    + right. exists f', d. split; [now right|auto].
  - destruct S as [ms1 S]. destruct (IH _ _ _ _ _ S Hin) as [H1|(f'&d&H1&H2)].
    + destruct (X H1) as [H2|(d&H2)]; auto. right. exists f, d. split; [now left|auto].
    + right. exists f', d. split; [now right|auto].
Qed.

(** ** Deadlines *)

Lemma remaining_sign end_ now : (remaining_ms end_ now <=? 0)%Z = (end_ <=? now)%Z.
Proof.
  destruct (Z.leb_spec end_ now) as [H|H].
  - pose proof (C32_zero_at_deadline_partial end_ now H). lia.
  - assert (X : (0 < remaining_ms end_ now)%Z); [|lia].
    assert (R1 : rne 1 1 = 1%Z) by reflexivity. unfold remaining_ms, fl_sub, fl_mul.
    assert (S : (1 <= rne (end_ - now) 1)%Z) by (rewrite <- R1 at 1; apply rne_mono; lia).
    assert (M : (rne 1 1 <= rne (rne (end_ - now) 1 * fl_of_Z 1000) fl_unit)%Z); [|lia].
    pose proof fl_unit_pos as U. rewrite fl_1000_value. generalize dependent fl_unit. intros u U.
    apply rne_mono; nia.
Qed.

Lemma deadline_passed_spec cx now :
  deadline_passed cx now = match cx_end cx with Some e => (e <=? now)%Z | None => false end.
Proof. unfold deadline_passed, cx_remaining. destruct (cx_end cx); auto. apply remaining_sign. Qed.

Lemma deadline_over_call {A B} (c : client A B) start m u timeout stream get now :
  deadline_passed (call_ctx c start m u timeout stream get) now
  = deadline_over start (effective_timeout timeout (cl_timeout c)) now.
Proof.
  rewrite deadline_passed_spec. unfold call_ctx, client_create_context, make_ctx. cbn [cx_end].
  unfold deadline_over. destruct (effective_timeout timeout (cl_timeout c)); reflexivity.
Qed.

(** ** A readable response *)

Lemma readable_consume {A B} (c : client A B) resp ms : readable c resp ms ->
  exists z, acceptable c resp z /\ forall md, exists r,
    consume (mk_rconf (reader_kind (cl_proto c)) z (cl_max c) (k_dec_res (cl_codec c))) (reader_new md) (sp_chunks resp) None
    = (ms, None, r) /\ r_trl r = [] /\ r_md r = md.
Proof.
  intros (z&fs&tl&Ha&Hf&Hm). exists z. split; auto. intro md. rewrite consume_all.
  set (cf := mk_rconf (reader_kind (cl_proto c)) z (cl_max c) (k_dec_res (cl_codec c))) in *.
  assert (G : Forall2 (good_frame cf) fs ms) by exact Hm.
  destruct (feed_all_why cf (sp_chunks resp) (reader_new md) fs tl (reader_new_inv md) (reader_new_incomplete md) Hf)
    as (used&lft&ms'&e&r'&b'&n'&E&Hs&Hfa&Hw).
  destruct (run_skip_good cf fs ms G (reader_new md)) as (r1&Hr&Ht&Hd).
  assert (lft = [] -> exists r, (let '(ms, e, r') := feed_all cf (reader_new md) (sp_chunks resp) in
     (ms, match e with Some x => Some (FExn x) | None => None end, r')) = (ms, None, r) /\ r_trl r = [] /\ r_md r = md).
  { intros ->. rewrite app_nil_r in E. subst used. rewrite Hr in Hs. injection Hs as <- <- <-. rewrite Hfa.
    eexists. split; [reflexivity|]. cbn [with_buf r_trl r_md]. rewrite Ht, Hd. auto. }
  destruct Hw as [Hl|[He|(f&Hin&He)]]; auto.
  - exfalso. subst fs. rewrite run_skip_app, Hs in Hr. destruct e; [discriminate|congruence].
  - exfalso. assert (In f fs) by (rewrite E, in_app_iff; auto).
    destruct (Forall2_in_l _ _ _ _ G H0) as [y [Hy _]]. congruence.
Qed.

Lemma single_ok {B} (s : stream_result B) b : cr_out (single_result s) = COk b -> sr_msgs s = [b] /\ sr_end s = COk tt.
Proof.
  unfold single_result. cbn [cr_out]. unfold consume_single.
  destruct (sr_msgs s) as [|x [|y l]]; destruct (sr_end s) as [[]| |]; intro H; try discriminate. injection H as ->. auto.
Qed.

(** ** Stopping after a message *)
Lemma consume_stop {M} (cf : rconf M) chunks : forall r n g ms f r', consume cf r chunks None = (ms, f, r') ->
  ((List.length ms <= n)%nat -> consume cf r chunks (Some (n, g)) = (ms, f, r'))
  /\ ((n < List.length ms)%nat -> exists r'', consume cf r chunks (Some (n, g)) = (firstn (S n) ms, Some g, r'')).
Proof.
  induction chunks as [|ch cs IH]; intros r n g ms f r' H; cbn [consume] in *.
  - injection H as <- <- <-. cbn. split; [reflexivity|lia].
  - destruct (feed cf r ch) as [[ms1 e] r1]. destruct e as [e|].
    + injection H as <- <- <-. split; intro L.
      * replace (Nat.ltb n (List.length ms1)) with false by (symmetry; apply Nat.ltb_ge; lia). reflexivity.
      * replace (Nat.ltb n (List.length ms1)) with true by (symmetry; apply Nat.ltb_lt; lia). eexists. reflexivity.
    + destruct (consume cf r1 cs None) as [[ms2 f2] r2] eqn:C. injection H as <- <- <-. rewrite app_length.
      destruct (IH r1 (n - List.length ms1)%nat g ms2 f2 r2 C) as [I1 I2]. split; intro L.
      * replace (Nat.ltb n (List.length ms1)) with false by (symmetry; apply Nat.ltb_ge; lia). rewrite I1 by lia. reflexivity.
      * destruct (Nat.ltb_spec n (List.length ms1)) as [K|K].
        -- eexists. rewrite firstn_app. replace (S n - List.length ms1)%nat with 0%nat by lia. cbn [firstn]. now rewrite app_nil_r.
        -- destruct I2 as [r'' I2]; [lia|]. rewrite I2. exists r''. rewrite firstn_app. rewrite (firstn_all2 ms1) by lia.
           now replace (S n - List.length ms1)%nat with (S (n - List.length ms1))%nat by lia.
Qed.

Lemma send_stream_stop {A B} (c : client A B) cx ck net md reqs n g :
  let o := send_stream c cx ck net md reqs None in
  ((List.length (sr_msgs o) <= n)%nat -> send_stream c cx ck net md reqs (Some (n, g)) = o)
  /\ ((n < List.length (sr_msgs o))%nat -> sr_msgs (send_stream c cx ck net md reqs (Some (n, g))) = firstn (S n) (sr_msgs o)).
Proof.
  cbv zeta. unfold send_stream. set (q := mk_rq _ _ _ _ _). cbv zeta.
  assert (F : forall (ms : list B) rd se m f, sr_msgs (let (e, md) := @stream_except A B c (deadline_passed cx (ck_late ck)) rd se m f in mk_sr [q] ms e md) = ms)
    by (intros; now destruct (stream_except _ _ _ _ _ _)).
  assert (G : forall (ms : list B) rd se m resp f, sr_msgs (match leave resp f with
      | Some f => let (e, md) := @stream_except A B c (deadline_passed cx (ck_late ck)) rd se m f in mk_sr [q] ms e md
      | None => mk_sr [q] ms (COk tt) m end) = ms) by (intros; destruct (leave _ _); auto).
  destruct (nw_stream net q) as [resp|f].
  2:{ rewrite F. split; [reflexivity|cbn; lia]. }
  destruct (sp_status resp =? 200).
  2:{ destruct (sp_fault resp); [|destruct (we_from_response _ _)]; rewrite ?G; (split; [reflexivity|cbn; lia]). }
  destruct (validate_stream_response _ _ _).
  1:{ rewrite ?G. split; [reflexivity|cbn; lia]. }
  destruct (handle_response_compression _ _ _ _) as [z|].
  2:{ rewrite ?G. split; [reflexivity|cbn; lia]. }
  destruct (consume _ _ (sp_chunks resp) None) as [[ms f] r] eqn:C.
  destruct (consume_stop _ _ _ n g _ _ _ C) as [C1 C2].
  assert (L : forall (ms : list B) f r, sr_msgs (
    match (match f with Some f => Some f | None => sp_fault resp end) with
    | Some f' => match leave resp (Some f') with
                 | Some x => let (e, md) := @stream_except A B c (deadline_passed cx (ck_late ck)) (Some (r, resp))
                      match (match f with Some f => Some f | None => sp_fault resp end) with
                      | Some (FExn (EConnect k m ds)) => if cl_sync c then Some (EConnect k m ds) else None
                      | _ => None
                      end (r_md r) x in mk_sr [q] ms e md
                 | None => mk_sr [q] ms (COk tt) (r_md r)
                 end
    | None => if cl_sync c && deadline_passed cx (ck_late ck)
        then match leave resp (Some (FExn (EOther KTimeout []))) with
                 | Some x => let (e, md) := @stream_except A B c (deadline_passed cx (ck_late ck)) (Some (r, resp)) None (r_md r) x in mk_sr [q] ms e md
                 | None => mk_sr [q] ms (COk tt) (r_md r)
                 end
        else let (o, md) := response_complete (cl_sc c) (reader_kind (cl_proto c)) r (sp_headers resp) (sp_trailers resp) None in
             match leave resp (match o with Some e => Some (FExn e) | None => None end) with
                 | Some x => let (e, md) := @stream_except A B c (deadline_passed cx (ck_late ck)) (Some (r, resp)) None md x in mk_sr [q] ms e md
                 | None => mk_sr [q] ms (COk tt) md
                 end
    end) = ms).
  { intros ms0 f0 r0. destruct (match f0 with Some f => Some f | None => sp_fault resp end); [apply G|]. destruct (_ && _); [apply G|].
    destruct (response_complete _ _ _ _ _ _). apply G. }
  rewrite L. split; intro H.
  - rewrite (C1 H). reflexivity.
  - destruct (C2 H) as [r'' ->]. apply G.
Qed.

(** A caller that wants one message and takes no more than two is answered as if it took all. *)
Lemma single_out {A B} (c : client A B) cx ck net md reqs stop :
  cr_out (single_result (send_stream c cx ck net md reqs (single_stop stop))) = cr_out (single_result (send_stream c cx ck net md reqs stop)).
Proof.
  destruct (send_stream_stop c cx ck net md reqs 1 FClose) as [S1 S2]. set (o := send_stream c cx ck net md reqs None) in *.
  assert (M : forall r : stream_result B, (1 < List.length (sr_msgs r))%nat -> cr_out (single_result r) = CErr (EConnect Unimplemented (lit "unary response has multiple messages") [])).
  { intros r H. unfold single_result, consume_single. cbn [cr_out]. destruct (sr_msgs r) as [|x [|y l]]; cbn in H; try lia. reflexivity. }
  assert (N : cr_out (single_result (send_stream c cx ck net md reqs (Some (1%nat, FClose)))) = cr_out (single_result o)).
  { destruct (Compare_dec.le_gt_dec (List.length (sr_msgs o)) 1) as [L|L].
    - now rewrite (S1 L).
    - rewrite !M; [reflexivity|lia|]. rewrite (S2 L). rewrite firstn_length. lia. }
  destruct stop as [[[|n] f]|]; cbn [single_stop]; [reflexivity| |exact N]. rewrite N.
  destruct (send_stream_stop c cx ck net md reqs (S n) f) as [T1 T2]. fold o in T1, T2.
  destruct (Compare_dec.le_gt_dec (List.length (sr_msgs o)) (S n)) as [L|L].
  - now rewrite (T1 L).
  - rewrite !M; [reflexivity| |lia]. rewrite (T2 L). rewrite firstn_length. lia.
Qed.

Lemma single_whole {A B} (c : client A B) cx ck net md reqs : (List.length (sr_msgs (send_stream c cx ck net md reqs None)) <= 1)%nat ->
  send_stream c cx ck net md reqs (single_stop None) = send_stream c cx ck net md reqs None.
Proof. exact (proj1 (send_stream_stop c cx ck net md reqs 1 FClose)). Qed.

Lemma streamed_inv {A B} (c : client A B) ck net timeout stop s : streamed c ck net timeout stop s ->
  exists cx md reqs, s = send_stream c cx ck net md reqs stop
    /\ forall now, deadline_passed cx now = deadline_over (ck_start ck) (effective_timeout timeout (cl_timeout c)) now.
Proof.
  destruct 1 as [md m u reqs|md m u a].
  - eexists _, md, reqs. split; [reflexivity|]. intro. apply deadline_over_call.
  - eexists _, md, ([a], None). split; [reflexivity|]. intro. apply deadline_over_call.
Qed.

Lemma answered_inv {A B} (c : client A B) ck net timeout stop s : answered_by_stream c ck net timeout stop s ->
  exists cx md reqs, s = single_result (send_stream c cx ck net md reqs (single_stop stop))
    /\ cr_out s = cr_out (single_result (send_stream c cx ck net md reqs stop))
    /\ forall now, deadline_passed cx now = deadline_over (ck_start ck) (effective_timeout timeout (cl_timeout c)) now.
Proof.
  destruct 1 as [md m u reqs|md m u get a H].
  - eexists _, md, reqs. split; [reflexivity|]. split; [apply single_out|]. intro. apply deadline_over_call.
  - eexists (call_ctx c (ck_start ck) m u timeout false get), md, ([a], None).
    assert (E : execute_unary c ck net md m u timeout get a stop
      = single_result (send_stream c (call_ctx c (ck_start ck) m u timeout false get) ck net md ([a], None) (single_stop stop)))
      by (unfold execute_unary, send_unary; destruct (cl_proto c); [congruence|reflexivity|reflexivity]).
    split; [exact E|]. rewrite E. split; [apply single_out|]. intro; apply deadline_over_call.
Qed.
