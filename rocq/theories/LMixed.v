(** Lemmas on streams whose messages are compressed or not, one by one. *)
From Coq Require Import List NArith ZArith Bool String Lia.
From Verif Require Import MBase MPyStr MHeaders MJson MWire MTimeout MEnvelope SEnvelope LEnvelope MProtocol MClient LClient MIter LIter
  LLook SNewer LNewer LLines SMixed.
Import ListNotations.
Local Open Scope N_scope.

Lemma frame_same {M} (cf : rconf M) f f' r : same_frame (rc_kind cf) (rc_comp cf) f f' ->
  read_frame cf (f_flag f) (f_payload f) r = read_frame cf (f_flag f') (f_payload f') r.
Proof.
  intros [->|(E&d&C&C')]; [reflexivity|]. unfold read_frame. rewrite (content_data cf f d C), (content_data cf f' d C').
  replace (handle_end (rc_kind cf) (f_flag f') d r) with (handle_end (rc_kind cf) (f_flag f) d r); [reflexivity|].
  unfold handle_end, end_flag in *. destruct (rc_kind cf); try reflexivity; rewrite !N.testbit_odd, !N.shiftr_div_pow2;
    change (2 ^ 1) with 2; change (2 ^ 7) with 128; now rewrite E.
Qed.

Lemma skip_same {M} (cf : rconf M) fs fs' : Forall2 (same_frame (rc_kind cf) (rc_comp cf)) fs fs' -> forall r, run_skip cf fs r = run_skip cf fs' r.
Proof.
  induction 1 as [|f f' fs fs' H F IH]; intro r; [reflexivity|]. cbn [run_skip]. rewrite (frame_same cf f f' r H).
  destruct (read_frame cf (f_flag f') (f_payload f') r) as [[m| |e] r1]; [now rewrite IH|apply IH|reflexivity].
Qed.

Lemma frame_split fl h3 h2 h1 h0 rest n more fs tl : n = h3 * 16777216 + h2 * 65536 + h1 * 256 + h0 -> n <= lenN rest ->
  frames_of ((fl :: h3 :: h2 :: h1 :: h0 :: rest) ++ more) fs tl ->
  exists fs', fs = mk_frame fl (takeN n rest) :: fs' /\ frames_of (dropN n rest ++ more) fs' tl.
Proof.
  intros En Hn F.
  assert (W : frame_wire (mk_frame fl (takeN n rest)) (fl :: h3 :: h2 :: h1 :: h0 :: takeN n rest)).
  { exists h3, h2, h1, h0. split; auto. cbn [f_payload]. rewrite <- En. unfold takeN. rewrite firstn_length. unfold lenN in Hn. lia. }
  assert (E : (fl :: h3 :: h2 :: h1 :: h0 :: rest) ++ more = (fl :: h3 :: h2 :: h1 :: h0 :: takeN n rest) ++ dropN n rest ++ more).
  { cbn. unfold takeN, dropN. rewrite app_assoc, firstn_skipn. reflexivity. }
  remember ((fl :: h3 :: h2 :: h1 :: h0 :: rest) ++ more) as b eqn:Eb. destruct F as [tl Hi|f w b fs tl Hw F].
  - exfalso. rewrite Eb in Hi. destruct Hi as [Hi|(a&g3&g2&g1&g0&r&Er&Hlt)]; [cbn in Hi; lia|].
    cbn in Er. injection Er as <- <- <- <- <- <-. rewrite app_length in Hlt. unfold lenN in Hn. lia.
  - destruct (frame_wire_det _ _ _ _ _ _ Hw W E) as (->&->&->). eauto.
Qed.

Lemma contents_same {M} (cf : rconf M) md chunks chunks' :
  same_contents (rc_kind cf) (rc_comp cf) (List.concat chunks) (List.concat chunks') ->
  let '(ms, e, r) := feed_all cf (reader_new md) chunks in
  let '(ms', e', r') := feed_all cf (reader_new md) chunks' in
  ms = ms' /\ e = e' /\ known r = known r'.
Proof.
  intros (N1&N2&fs&fs'&tl&tl'&F&F'&S). assert (C : ends_clean (rc_kind cf) fs tl) by (intros f b a; exact (N1 fs tl F f b a)).
  assert (C' : ends_clean (rc_kind cf) fs' tl') by (intros f b a; exact (N2 fs' tl' F' f b a)).
  destruct (feed_all_clean cf chunks (reader_new md) fs tl (reader_new_inv md) (reader_new_incomplete md) F C) as (ms&e&r&b&n&R1&E1&_).
  destruct (feed_all_clean cf chunks' (reader_new md) fs' tl' (reader_new_inv md) (reader_new_incomplete md) F' C') as (ms'&e'&r'&b'&n'&R2&E2&_).
  rewrite E1, E2. rewrite (skip_same cf fs fs' S) in R1. rewrite R1 in R2. injection R2 as <- <- <-. auto.
Qed.

(** ** Streams that are left after a message *)

Definition fresh (md : option metadata) (r : reader) : Prop := r_trl r = [] /\ r_md r = md.
Definition reads_messages (k : rkind) : bool := match k with RGrpc | RGrpcWeb => true | _ => false end.
Definition fresh_yet (k : rkind) md (r : reader) (more : bytes) : Prop :=
  r_inv r /\ exists fs tl, frames_of (r_buf r ++ more) fs tl /\ ends_clean k fs tl
    /\ (fs <> [] -> fresh md r /\ (reads_messages k = false -> r_read r = false)).
Definition got_message (k : rkind) md (r : reader) (more : bytes) : Prop := r_read r = reads_messages k /\ fresh md r /\ fresh_yet k md r more.
Definition still {M} k md (more : bytes) (p : pause M) : Prop :=
  match p with YMsg _ r => got_message k md r more | YEnd r => fresh_yet k md r more | YErr _ _ => True end.

Lemma end_bit k f : end_flag k f = match k with RConnect => N.testbit (f_flag f) 1 | RGrpcWeb => N.testbit (f_flag f) 7 | _ => false end.
Proof. unfold end_flag. destruct k; try reflexivity; now rewrite N.testbit_odd, N.shiftr_div_pow2. Qed.

Lemma known_still {M} (cf : rconf M) md r more : fresh_yet (rc_kind cf) md r more -> still (rc_kind cf) md more (read_known cf r).
Proof.
  intros B. pose proof B as (Hi&fs&tl&F&C&T). unfold read_known. destruct (r_buf r) as [|p b] eqn:Eb; [exact B|].
  destruct (r_next r) as [n|] eqn:En; [|exact B]. destruct (lenN (p :: b) <? n + 5) eqn:Hl; [exact B|].
  unfold r_inv in Hi. rewrite En, Eb in Hi. destruct Hi as (fl&h3&h2&h1&h0&rest&Hb&Hn). injection Hb as -> ->.
  destruct (frame_split fl h3 h2 h1 h0 rest n more fs tl Hn) as (fs'&->&F'); [unfold lenN in *; cbn [List.length] in Hl; lia|exact F|].
  change (dropN 5 (fl :: h3 :: h2 :: h1 :: h0 :: rest)) with rest.
  assert (D : dropN (5 + n) (fl :: h3 :: h2 :: h1 :: h0 :: rest) = dropN n rest).
  { unfold dropN. replace (N.to_nat (5 + n)) with (5 + N.to_nat n)%nat by lia. reflexivity. }
  rewrite D. destruct (T ltac:(discriminate)) as [[T1 T2] T3]. pose proof (clean_tail _ _ _ _ C) as C'.
  assert (Last : end_flag (rc_kind cf) (mk_frame fl (takeN n rest)) = true -> fs' = []).
  { intro X. destruct (C (mk_frame fl (takeN n rest)) [] fs' eq_refl X) as [-> _]. reflexivity. }
  rewrite end_bit in Last. cbn [f_flag] in Last.
  unfold read_frame.
  destruct (if N.testbit fl 0 then _ else _) as [data|e]; [|exact Logic.I]. destruct (match rc_max cf with Some _ => _ | None => false end); [exact Logic.I|].
  assert (Msg : forall x, r_buf x = dropN n rest -> r_next x = None -> r_trl x = [] -> r_md x = md -> r_read x = reads_messages (rc_kind cf) ->
    still (rc_kind cf) md more (let '(y, r1) := match rc_dec cf data with Raise e => (FErr e, x) | Ok m => (FMsg m, x) end in
      match y with FErr e => YErr e r1 | FEnd => YEnd r1 | FMsg m => YMsg m r1 end)).
  { intros x X1 X2 X3 X4 X5. destruct (rc_dec cf data); [|exact Logic.I]. split; [exact X5|]. split; [split; assumption|]. split; [unfold r_inv; now rewrite X2|].
    exists fs', tl. rewrite X1. split; [exact F'|]. split; [exact C'|]. intros _. split; [split; assumption|]. congruence. }
  assert (End : forall x, fs' = [] -> r_buf x = dropN n rest -> r_next x = None -> fresh_yet (rc_kind cf) md x more).
  { intros x X X1 X2. split; [unfold r_inv; now rewrite X2|]. exists fs', tl. rewrite X1. split; [exact F'|]. split; [exact C'|]. now intros []. }
  destruct (rc_kind cf) eqn:K; cbn [handle_end reads_messages] in *.
  - apply Msg; cbn; auto.
  - destruct (N.testbit fl 1).
    + cbn [r_md r_buf r_next r_read r_trl]. destruct (connect_handle_end (r_md r) data) as [x m] eqn:Eh. specialize (Last eq_refl). destruct x as [| |e]; [|apply End; cbn; auto|exact Logic.I].
      destruct (rc_dec cf data); [|exact Logic.I]. exfalso. revert Eh. unfold connect_handle_end. destruct (json_loads_bytes data) as [j|]; [|discriminate]; destruct j as [| | | | | |d]; try discriminate.
      destruct (match dget d (lit "metadata") with Some v => if json_truthy v then handle_trailers_json (r_md r) v else (r_md r, None) | None => (r_md r, None) end)
        as [m' [e|]]; [discriminate|]. destruct (dget d (lit "error")) as [v|]; [|discriminate].
      destruct (json_truthy v); [|discriminate]. destruct v; try discriminate. destruct (we_from_dict _ _ _); discriminate.
    + apply Msg; cbn; auto.
  - apply Msg; cbn; auto.
  - destruct (N.testbit fl 7).
    + cbn [r_trl]. destruct (web_lines (split_crlf data) (r_trl r)) as [t [e|]]; [exact Logic.I|]. apply End; cbn; auto.
    + apply Msg; cbn; auto.
Qed.

Lemma resume_still {M} (cf : rconf M) md r more : fresh_yet (rc_kind cf) md r more -> still (rc_kind cf) md more (read_resume cf r).
Proof.
  intros B. unfold read_resume, peek_len. destruct (lenN (r_buf r) <? 5) eqn:H5; [exact B|]. apply known_still.
  destruct B as (Hi&fs&tl&F&C&T). split; [|exists fs, tl; auto].
  destruct (len5_cases (r_buf r)) as (fl&k3&k2&k1&k0&rr&Hr); [unfold lenN in H5; lia|].
  unfold r_inv. cbn [r_next r_buf]. rewrite Hr. exists fl, k3, k2, k1, k0, rr. split; auto.
  change (takeN 4 (dropN 1 (fl :: k3 :: k2 :: k1 :: k0 :: rr))) with [k3; k2; k1; k0]. apply be_val_4.
Qed.

Lemma first_still {M} (cf : rconf M) md r ch more : fresh_yet (rc_kind cf) md r (ch ++ more) -> still (rc_kind cf) md more (feed_first cf r ch).
Proof.
  intros (Hi&fs&tl&F&C&T). unfold feed_first. cbn [r_buf r_next].
  set (x := mk_reader (r_buf r ++ ch) (r_next r) (r_read r) (r_trl r) (r_md r)).
  assert (B : fresh_yet (rc_kind cf) md x more).
  { split; [|exists fs, tl; cbn [x r_buf r_trl]; rewrite <- app_assoc; auto]. unfold r_inv in *. cbn. destruct (r_next r) as [n|]; auto.
    destruct Hi as (fl&h3&h2&h1&h0&rest&Hb&Hn). rewrite Hb. exists fl, h3, h2, h1, h0, (rest ++ ch). auto. }
  destruct (r_buf r ++ ch); [exact B|]. destruct (r_next r); [now apply known_still|now apply resume_still].
Qed.

Lemma pump_still {M} (cf : rconf M) md : forall chunks p m r rest, still (rc_kind cf) md (List.concat chunks) p ->
  fst (pump cf p chunks) = StMsg m r rest -> got_message (rc_kind cf) md r (List.concat rest).
Proof.
  induction chunks as [|ch cs IH]; intros p m r rest Y E; destruct p as [m0 r0|r0|e0 r0]; cbn [pump] in E; try discriminate.
  - injection E as <- <- <-. exact Y.
  - injection E as <- <- <-. exact Y.
  - apply (IH (feed_first cf r0 ch) m r rest); [now apply first_still|]. destruct (pump cf (feed_first cf r0 ch) cs) as [s o]. exact E.
Qed.

Lemma gather_still {M} (cf : rconf M) md : forall fuel p chunks n g ms f r, still (rc_kind cf) md (List.concat chunks) p ->
  gather cf fuel p chunks (Some (n, g)) = (ms, f, r) -> (n < List.length ms)%nat -> known r = (reads_messages (rc_kind cf), [], md).
Proof.
  assert (K : forall r more, got_message (rc_kind cf) md r more -> known r = (reads_messages (rc_kind cf), [], md))
    by (intros r more (A1&[A2 A3]&_); unfold known; now rewrite A1, A2, A3).
  induction fuel as [|fuel IH]; intros p chunks n g ms f r Y E L; cbn [gather] in E;
    destruct (fst (pump cf p chunks)) as [m r0 rest|e r0|r0] eqn:Ep; try (injection E as <- <- <-; cbn in L; lia);
    pose proof (pump_still cf md chunks p m r0 rest Y Ep) as A.
  - destruct n; injection E as <- <- <-; eauto.
  - destruct n as [|n]; [injection E as <- <- <-; eauto|].
    destruct (gather cf fuel (read_resume cf r0) rest (fewer (Some (S n, g)))) as [[ms' f'] r'] eqn:G. injection E as <- <- <-. cbn [fewer] in G.
    apply (IH (read_resume cf r0) rest n g ms' f' r'); [apply resume_still, A|exact G|]. cbn in L. lia.
Qed.

Lemma consume_still {M} (cf : rconf M) md chunks n g ms f r fs tl : frames_of (List.concat chunks) fs tl -> ends_clean (rc_kind cf) fs tl ->
  consume cf (reader_new md) chunks (Some (n, g)) = (ms, f, r) -> (n < List.length ms)%nat -> known r = (reads_messages (rc_kind cf), [], md).
Proof.
  intros F C E L. rewrite <- (gather_consume cf (reader_new md) chunks (Some (n, g)) (size chunks)) in E by (cbn; lia).
  apply (gather_still cf md _ _ _ _ _ _ _ _) in E; auto. cbn [still]. split; [exact Logic.I|]. exists fs, tl. split; [exact F|].
  split; [exact C|]. intros _. repeat split.
Qed.

Lemma consume_same {M} (cf : rconf M) md chunks chunks' stop :
  same_contents (rc_kind cf) (rc_comp cf) (List.concat chunks) (List.concat chunks') ->
  fst (consume cf (reader_new md) chunks stop) = fst (consume cf (reader_new md) chunks' stop)
  /\ known (snd (consume cf (reader_new md) chunks stop)) = known (snd (consume cf (reader_new md) chunks' stop)).
Proof.
  intro T. pose proof (contents_same cf md chunks chunks' T) as F.
  pose proof (consume_all cf chunks (reader_new md)) as C. pose proof (consume_all cf chunks' (reader_new md)) as C'.
  destruct (feed_all cf _ chunks) as [[ms e] r]. destruct (feed_all cf _ chunks') as [[ms' e'] r']. destruct F as (<-&<-&K).
  destruct stop as [[n g]|]; [|rewrite C, C'; cbn; auto].
  destruct (consume_stop cf chunks (reader_new md) n g _ _ _ C) as [A1 A2], (consume_stop cf chunks' (reader_new md) n g _ _ _ C') as [B1 B2].
  destruct (Nat.ltb_spec n (List.length ms)) as [L|L]; [|rewrite (A1 L), (B1 L); cbn; auto].
  destruct T as (N1&N2&fs&fs'&tl&tl'&F1&F2&_). assert (Cl : ends_clean (rc_kind cf) fs tl) by (intros f b a; exact (N1 fs tl F1 f b a)).
  assert (Cl' : ends_clean (rc_kind cf) fs' tl') by (intros f b a; exact (N2 fs' tl' F2 f b a)).
  destruct (A2 L) as [r1 E1], (B2 L) as [r2 E2]. rewrite E1, E2. cbn [fst snd]. split; [reflexivity|].
  assert (Ln : (n < List.length (firstn (Datatypes.S n) ms))%nat) by (rewrite firstn_length; lia).
  rewrite (consume_still cf md _ n g _ _ _ fs tl F1 Cl E1 Ln), (consume_still cf md _ n g _ _ _ fs' tl' F2 Cl' E2 Ln). reflexivity.
Qed.

(** ** Readers that know the same end alike *)

Lemma complete_alike sc k r r' hs trs e : known r = known r' -> response_complete sc k r hs trs e = response_complete sc k r' hs trs e.
Proof. intro H. injection H as H1 H2 H3. unfold response_complete, grpc_complete. now rewrite H1, H2, H3. Qed.

Lemma except_alike {A B} (c : client A B) ex resp chunks' r r' serr md f : known r = known r' ->
  stream_except c ex (Some (r, resp)) serr md f = stream_except c ex (Some (r', with_chunks resp chunks')) serr md f.
Proof.
  intros K. unfold stream_except. cbn [with_chunks sp_headers sp_trailers].
  destruct f as [e| |]; try reflexivity. destruct (map_stream_reset e ex) as [x|]; [|reflexivity]. now rewrite (complete_alike _ _ r r' _ _ _ K).
Qed.

Lemma loop_alike {A B} (c : client A B) ex resp chunks' f r r' : known r = known r' ->
  loop_end c ex resp f r = loop_end c ex (with_chunks resp chunks') f r'.
Proof.
  intros K. assert (M : r_md r = r_md r') by (now injection K). unfold loop_end, leave_end. rewrite ?leave_chunks. cbn [with_chunks sp_fault sp_headers sp_trailers].
  assert (X : forall serr md f, stream_except c ex (Some (r, resp)) serr md f = stream_except c ex (Some (r', with_chunks resp chunks')) serr md f)
    by (intros; now apply except_alike).
  unfold with_chunks in X. rewrite M.
  destruct (match f with Some f => Some f | None => sp_fault resp end) as [g|].
  - rewrite ?leave_chunks. destruct (leave resp (Some g)); [apply X|reflexivity].
  - rewrite (complete_alike _ _ r r' _ _ _ K). destruct (_ && _).
    + rewrite ?leave_chunks. destruct (leave _ _); [apply X|reflexivity].
    + destruct (response_complete _ _ r' _ _ _) as [x md]. rewrite ?leave_chunks. destruct (leave _ _) as [g|]; [apply X|reflexivity].
Qed.

(** Responses with status 200. *)
Lemma body_alike {A B} (c : client A B) cx ck net net' md reqs stop resp chunks' :
  let rq := call_request c cx ck reqs in
  nw_stream net rq = SResp resp -> nw_stream net' rq = SResp (with_chunks resp chunks') -> sp_status resp = 200 ->
  (forall z, handle_response_compression (cl_proto c) true (sp_headers resp) (cl_comps c) = Ok z ->
     same_contents (frames_read (cl_proto c)) z (List.concat (sp_chunks resp)) (List.concat chunks')) ->
  send_stream c cx ck net md reqs stop = send_stream c cx ck net' md reqs stop.
Proof.
  cbv zeta. intros E E' St T. rewrite !send_stream_end. cbv zeta. rewrite E, E'. cbn [with_chunks sp_status sp_headers sp_chunks sp_fault].
  rewrite St. change (200 =? 200) with true. cbv iota.
  destruct (validate_stream_response _ _ _); [reflexivity|].
  destruct (handle_response_compression _ _ _ _) as [z|]; [|reflexivity]. specialize (T z eq_refl).
  replace (frames_read (cl_proto c)) with (reader_kind (cl_proto c)) in T by (destruct (cl_proto c); reflexivity).
  set (cf := mk_rconf (reader_kind (cl_proto c)) z (cl_max c) (k_dec_res (cl_codec c))).
  destruct (consume_same cf (handle_response_headers md (sp_headers resp)) (sp_chunks resp) chunks' stop T) as [G K].
  destruct (consume cf _ (sp_chunks resp) stop) as [[ms f] r], (consume cf _ chunks' stop) as [[ms' f'] r']. cbn [fst snd] in G, K. injection G as <- <-.
  pose proof (loop_alike c (deadline_passed cx (ck_late ck)) resp chunks' f r r' K) as L. unfold with_chunks in L. now rewrite L.
Qed.

Lemma send_alike {A B} (c : client A B) cx ck net net' md reqs stop : same_but_compression c net net' ->
  send_stream c cx ck net md reqs stop = send_stream c cx ck net' md reqs stop.
Proof.
  intros [_ S]. destruct (S (call_request c cx ck reqs)) as [E|(resp&chunks'&E&E'&St&T)]; [|now apply (body_alike c cx ck net net' md reqs stop resp chunks')].
  rewrite !send_stream_end. cbv zeta. now rewrite E.
Qed.

Lemma same_self k z body : nothing_after_end k body -> same_contents k z body body.
Proof.
  intro N0. split; [exact N0|]. split; [exact N0|]. destruct (frames_of_exists body) as (fs&tl&F). exists fs, fs, tl, tl. split; [exact F|]. split; [exact F|].
  clear. induction fs; constructor; [now left|assumption].
Qed.

Lemma send_pieces {A B} (c : client A B) cx ck net net' md reqs stop : same_but_pieces c net net' ->
  send_stream c cx ck net md reqs stop = send_stream c cx ck net' md reqs stop.
Proof.
  intros [_ S]. destruct (S (call_request c cx ck reqs)) as [E|(resp&chunks'&E&E'&Eq&T)]; [rewrite !send_stream_end; cbv zeta; now rewrite E|].
  destruct (N.eq_dec (sp_status resp) 200) as [St|St].
  - apply (body_alike c cx ck net net' md reqs stop resp chunks'); auto. intros z _. rewrite <- Eq. apply same_self, T, St.
  - rewrite !send_stream_end. cbv zeta. rewrite E, E'. cbn [sp_status sp_headers sp_chunks sp_fault].
    apply N.eqb_neq in St. rewrite St, Eq. reflexivity.
Qed.
