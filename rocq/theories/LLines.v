(** Lemmas on gRPC-Web trailers, written in any way. *)
From Coq Require Import List NArith ZArith Bool String Lia.
From Verif Require Import MBase MPyStr LPyStr MHeaders LHeaders MUtf8 LUtf8 MBase64 MPercent MJson MWire LWire MTimeout MEnvelope SEnvelope LEnvelope MProtocol MClient LClient
  LLink MIter LIter SLook LLook SProxy LProxy SOnce LOnce SLines.
Import ListNotations.
Local Open Scope N_scope.

Lemma drop_gap a s : gap a -> drop_while is_space (a ++ s) = drop_while is_space s.
Proof. induction 1 as [|c a H F IH]; [reflexivity|]. cbn [app drop_while]. destruct H as [->| ->]; exact IH. Qed.

Lemma visible c : 33 <= c <= 126 -> is_space c = false.
Proof. intro H. unfold is_space. lia. Qed.

Lemma strip_gaps a s b : gap a -> gap b -> match s with [] => True | c :: _ => is_space c = false end ->
  match rev s with [] => True | c :: _ => is_space c = false end -> strip (a ++ s ++ b) = s.
Proof.
  intros Ga Gb H1 H2. unfold strip. rewrite drop_gap by exact Ga. unfold rstrip_by.
  assert (Rb : gap (rev b)) by (apply Forall_rev; exact Gb).
  destruct s as [|c s].
  - cbn [app]. rewrite <- (app_nil_r b), drop_gap by exact Gb. reflexivity.
  - cbn [app drop_while]. rewrite H1. change (c :: s ++ b) with ((c :: s) ++ b). rewrite rev_app_distr, drop_gap by exact Rb.
    destruct (rev (c :: s)) as [|x r] eqn:E; [apply (f_equal (@List.length N)) in E; rewrite rev_length in E; discriminate|].
    cbn [drop_while]. rewrite H2, <- E. apply rev_involutive.
Qed.

Lemma last_rev (s : bytes) d : last s d = hd d (rev s).
Proof.
  destruct s as [|x s]; [reflexivity|]. destruct (exists_last (l := x :: s)) as (l&y&->); [discriminate|].
  rewrite last_last, rev_app_distr. reflexivity.
Qed.

Lemma name_strip a n b : gap a -> gap b -> line_name n -> strip (a ++ n ++ b) = n.
Proof.
  intros Ga Gb L. assert (X : forall m, line_name m -> match m with [] => True | c :: _ => is_space c = false end).
  { intros m H. destruct m as [|c m]; [exact Logic.I|]. inversion H; subst. apply visible. tauto. }
  apply strip_gaps; [exact Ga|exact Gb|exact (X n L)|]. apply (X (rev n)). apply Forall_rev. exact L.
Qed.

Lemma value_strip a v b : gap a -> gap b -> line_value v -> strip (a ++ v ++ b) = v.
Proof.
  intros Ga Gb (L&H1&H2). rewrite last_rev in H2. apply strip_gaps; auto.
  - destruct v as [|c v]; [exact Logic.I|]. cbn in H1. inversion L; subst. apply visible. lia.
  - apply Forall_rev in L. destruct (rev v) as [|c r]; [exact Logic.I|]. cbn in H2. inversion L; subst. apply visible. lia.
Qed.

Lemma gap_ascii s : gap s -> Forall (fun c => c < 128 /\ c <> 13 /\ c <> 58) s.
Proof. apply Forall_impl. lia. Qed.
Lemma name_ascii s : line_name s -> Forall (fun c => c < 128 /\ c <> 13 /\ c <> 58) s.
Proof. apply Forall_impl. lia. Qed.
Lemma value_ascii s : line_value s -> Forall (fun c => c < 128 /\ c <> 13) s.
Proof. intros [H _]. revert H. apply Forall_impl. lia. Qed.

Lemma line_reads k v l : line_of k v l -> ~ In 13 l /\ l <> [] /\ exists n, lower n = lower k /\
  forall r acc, web_lines (l :: r) acc = web_lines r (acc ++ [(n, v)]).
Proof.
  intros (n&a&b&c&d&->&Ga&Gb&Gc&Gd&Ln&Lk&Lv).
  pose proof (gap_ascii _ Ga) as Aa. pose proof (gap_ascii _ Gb) as Ab. pose proof (gap_ascii _ Gc) as Ac. pose proof (gap_ascii _ Gd) as Ad.
  pose proof (name_ascii _ Ln) as An. pose proof (value_ascii _ Lv) as Av.
  assert (K : Forall (fun c => c < 128 /\ c <> 13 /\ c <> 58) (a ++ n ++ b)) by (rewrite !Forall_app; auto).
  assert (V : Forall (fun c => c < 128 /\ c <> 13) (c ++ v ++ d)).
  { rewrite !Forall_app. repeat split; auto; [revert Ac|revert Ad]; apply Forall_impl; tauto. }
  replace (a ++ n ++ b ++ 58 :: c ++ v ++ d) with ((a ++ n ++ b) ++ 58 :: c ++ v ++ d) by (rewrite <- !app_assoc; reflexivity).
  split; [|split; [intro E; apply (f_equal (@List.length N)) in E; rewrite app_length in E; cbn in E; lia|]].
  - rewrite in_app_iff. intros [I|[I|I]]; [|discriminate|]; [rewrite Forall_forall in K; apply K in I; lia|rewrite Forall_forall in V; apply V in I; lia].
  - exists n. split; [exact Lk|]. intros r acc.
    assert (Sf : split_first 58 ((a ++ n ++ b) ++ 58 :: c ++ v ++ d) = Some (a ++ n ++ b, c ++ v ++ d)).
    { apply split_first_app. intro I. rewrite Forall_forall in K. apply K in I. lia. }
    assert (Dk : utf8_decode (a ++ n ++ b) = Some (a ++ n ++ b)) by (apply utf8_decode_ascii; revert K; apply Forall_impl; tauto).
    assert (Dv : utf8_decode (c ++ v ++ d) = Some (c ++ v ++ d)) by (apply utf8_decode_ascii; revert V; apply Forall_impl; tauto).
    destruct ((a ++ n ++ b) ++ 58 :: c ++ v ++ d) as [|x line] eqn:E; [destruct (a ++ n ++ b); discriminate|].
    cbn [web_lines]. rewrite Sf, Dk, Dv, name_strip, value_strip by assumption. reflexivity.
Qed.

Lemma split_one l : ~ In 13 l -> split_crlf l = [l].
Proof.
  induction l as [|c l IH]; intro H; [reflexivity|]. destruct l as [|d l]; [reflexivity|]. rewrite split_crlf_cons.
  replace (c =? 13) with false by (symmetry; apply N.eqb_neq; intros ->; apply H; now left). cbn [andb].
  rewrite IH; [reflexivity|]. intro I. apply H. now right.
Qed.

(** The lines are read, up to the case of their names. *)
Definition cased_lines (ts us : http_headers) : Prop := Forall2 (fun p q => lower (fst p) = lower (fst q) /\ snd p = snd q) ts us.

Lemma lines_read ts d : lines_of ts d -> exists us, cased_lines ts us /\ forall acc, web_lines (split_crlf d) acc = (acc ++ us, None).
Proof.
  induction 1 as [|ts d H (us&C&R)|k v l ts d L H (us&C&R)|k v l L].
  - exists []. split; [constructor|]. intro acc. cbn. now rewrite app_nil_r.
  - exists us. split; [exact C|]. intro acc. rewrite split_crlf_cons. cbn [N.eqb Pos.eqb andb web_lines]. apply R.
  - destruct (line_reads k v l L) as (N13&_&n&E&W). exists ((n, v) :: us). split; [constructor; auto|].
    intro acc. rewrite split_crlf_line, W, R, <- app_assoc by exact N13. reflexivity.
  - destruct (line_reads k v l L) as (N13&_&n&E&W). exists [(n, v)]. split; [repeat constructor; auto|].
    intro acc. rewrite split_one, W by exact N13. reflexivity.
Qed.

Lemma cased_first ts us n : cased_lines ts us -> first_line us n = first_line ts n.
Proof. induction 1 as [|[k v] [k' v'] ts us [H1 H2] F IH]; [reflexivity|]. cbn [first_line fst snd] in *. rewrite <- H1, H2, IH. reflexivity. Qed.

Lemma first_app a b n : first_line (a ++ b) n = match first_line a n with Some v => Some v | None => first_line b n end.
Proof. induction a as [|[k v] a IH]; [reflexivity|]. cbn [app first_line]. destruct (str_eqb _ _); [reflexivity|exact IH]. Qed.

Lemma read_web {M} (cf : rconf M) f d r t : rc_kind cf = RGrpcWeb -> end_flag RGrpcWeb f = true -> content_of (rc_comp cf) f d ->
  (forall n, rc_max cf = Some n -> lenN d <= n) -> web_lines (split_crlf d) (r_trl r) = (t, None) ->
  read_frame cf (f_flag f) (f_payload f) r = (FEnd, mk_reader (r_buf r) (r_next r) true t (r_md r)).
Proof.
  intros K E C W L. unfold read_frame. rewrite (content_data cf f d C).
  assert (X : (match rc_max cf with Some n => n <? lenN d | None => false end) = false).
  { destruct (rc_max cf) as [n|]; [|reflexivity]. specialize (W n eq_refl). apply N.ltb_ge. lia. }
  rewrite X, K. unfold handle_end.
  replace (N.testbit (f_flag f) 7) with true; [now rewrite L|]. symmetry. rewrite N.testbit_odd, N.shiftr_div_pow2. exact E.
Qed.

Lemma clean_end pre f : Forall (fun g => end_flag RGrpcWeb g = false) pre -> ends_clean RGrpcWeb (pre ++ [f]) [].
Proof.
  intros P g before after E G. split; [|reflexivity]. destruct after as [|x after]; [reflexivity|]. exfalso.
  assert (I : In g pre).
  { destruct (exists_last (l := x :: after)) as (l&y&L); [discriminate|].
    rewrite L in E. replace (before ++ g :: l ++ [y]) with ((before ++ g :: l) ++ [y]) in E by (rewrite <- app_assoc; reflexivity).
    apply app_inj_tail in E. destruct E as [-> _]. apply in_or_app. right. now left. }
  rewrite Forall_forall in P. rewrite (P g I) in G. discriminate.
Qed.

(** Readers that end alike. *)
Definition ends_like (r r' : reader) : Prop := r_read r = r_read r' /\ same_lines grpc_status_lines (r_trl r) (r_trl r').

Lemma trailers_same {M} (cf : rconf M) md chunks chunks' : rc_kind cf = RGrpcWeb ->
  same_trailers (rc_comp cf) (rc_max cf) (List.concat chunks) (List.concat chunks') ->
  let '(ms, e, r) := feed_all cf (reader_new md) chunks in
  let '(ms', e', r') := feed_all cf (reader_new md) chunks' in
  ms = ms' /\ e = e' /\ ends_like r r'.
Proof.
  intros K (pre&f&f'&d&d'&ts&ts'&F&F'&P&N1&N2&C1&C2&W&T1&T2&S).
  pose proof (clean_end pre f P) as Cl. pose proof (clean_end pre f' P) as Cl'. rewrite <- K in Cl, Cl'.
  destruct (feed_all_clean cf chunks (reader_new md) _ [] (reader_new_inv md) (reader_new_incomplete md) F Cl) as (ms&e&r&b&n&R1&E1&_).
  destruct (feed_all_clean cf chunks' (reader_new md) _ [] (reader_new_inv md) (reader_new_incomplete md) F' Cl') as (ms'&e'&r'&b'&n'&R2&E2&_).
  rewrite E1, E2. rewrite run_skip_app in R1, R2. destruct (run_skip cf pre (reader_new md)) as [[m x] r0].
  destruct x as [x|].
  - injection R1 as <- <- <-. injection R2 as <- <- <-. repeat split; auto.
  - destruct (lines_read ts d T1) as (us&U&Rd). destruct (lines_read ts' d' T2) as (us'&U'&Rd').
    cbn [run_skip] in R1, R2.
    rewrite (read_web cf f d r0 (r_trl r0 ++ us)) in R1; auto; [|intros k H; apply (W k H)].
    rewrite (read_web cf f' d' r0 (r_trl r0 ++ us')) in R2; auto; [|intros k H; apply (W k H)].
    injection R1 as <- <- <-. injection R2 as <- <- <-. split; [reflexivity|]. split; [reflexivity|]. split; [reflexivity|].
    intros k I. cbn [with_buf r_trl]. rewrite !first_app, (cased_first _ _ k U), (cased_first _ _ k U'), (S k I). reflexivity.
Qed.

Lemma web_ends sc r r' hs trs e : ends_like r r' -> fst (grpc_complete sc true r hs trs e) = fst (grpc_complete sc true r' hs trs e).
Proof.
  intros [Rd S]. pose proof (lines_get _ _ _ (lit "grpc-status") S ltac:(cbn; tauto)) as G.
  destruct (hh_get (r_trl r) (lit "grpc-status")) as [st|] eqn:E.
  - rewrite (complete_reads sc true r hs trs e (r_trl r)), (complete_reads sc true r' hs trs e (r_trl r')); [now apply status_same|now rewrite <- G|now rewrite E].
  - destruct (r_read r) eqn:D.
    + unfold grpc_complete. cbv zeta. rewrite <- G, E, <- Rd, D. reflexivity.
    + rewrite (complete_reads sc true r hs trs e hs), (complete_reads sc true r' hs trs e hs); [reflexivity|now rewrite <- G, <- Rd|now rewrite E, D].
Qed.

(** ** Streams that are left after a message *)

(** As long as frames remain, no trailers have been read. *)
Definition blank_yet (r : reader) (more : bytes) : Prop :=
  r_inv r /\ exists fs, frames_of (r_buf r ++ more) fs [] /\ ends_clean RGrpcWeb fs [] /\ (fs <> [] -> r_trl r = []).

Definition at_message (r : reader) (more : bytes) : Prop := r_read r = true /\ r_trl r = [] /\ blank_yet r more.
Definition yet {M} (more : bytes) (p : pause M) : Prop :=
  match p with YMsg _ r => at_message r more | YEnd r => blank_yet r more | YErr _ _ => True end.

Lemma clean_tail k f fs tl : ends_clean k (f :: fs) tl -> ends_clean k fs tl.
Proof. intros C g before after E G. apply (C g (f :: before) after); [now rewrite E|exact G]. Qed.

Lemma frame_step fl h3 h2 h1 h0 rest n more fs : n = h3 * 16777216 + h2 * 65536 + h1 * 256 + h0 -> n <= lenN rest ->
  frames_of ((fl :: h3 :: h2 :: h1 :: h0 :: rest) ++ more) fs [] ->
  exists fs', fs = mk_frame fl (takeN n rest) :: fs' /\ frames_of (dropN n rest ++ more) fs' [].
Proof.
  intros En Hn F.
  assert (W : frame_wire (mk_frame fl (takeN n rest)) (fl :: h3 :: h2 :: h1 :: h0 :: takeN n rest)).
  { exists h3, h2, h1, h0. split; auto. cbn [f_payload]. rewrite <- En. unfold takeN. rewrite firstn_length. unfold lenN in Hn. lia. }
  assert (E : (fl :: h3 :: h2 :: h1 :: h0 :: rest) ++ more = (fl :: h3 :: h2 :: h1 :: h0 :: takeN n rest) ++ dropN n rest ++ more).
  { cbn. unfold takeN, dropN. rewrite app_assoc, firstn_skipn. reflexivity. }
  remember ((fl :: h3 :: h2 :: h1 :: h0 :: rest) ++ more) as b eqn:Eb. remember (@nil N) as tl eqn:Et. destruct F as [tl Hi|f w b fs tl Hw F].
  - exfalso. rewrite Eb in Hi. destruct Hi as [Hi|(a&g3&g2&g1&g0&r&Er&Hlt)]; [cbn in Hi; lia|].
    cbn in Er. injection Er as <- <- <- <- <- <-. rewrite app_length in Hlt. unfold lenN in Hn. lia.
  - destruct (frame_wire_det _ _ _ _ _ _ Hw W E) as (->&->&->). eauto.
Qed.

Lemma known_yet {M} (cf : rconf M) r more : rc_kind cf = RGrpcWeb -> blank_yet r more -> yet more (read_known cf r).
Proof.
  intros K B. pose proof B as (Hi&fs&F&C&T). unfold read_known. destruct (r_buf r) as [|p b] eqn:Eb; [exact B|].
  destruct (r_next r) as [n|] eqn:En; [|exact B]. destruct (lenN (p :: b) <? n + 5) eqn:Hl; [exact B|].
  unfold r_inv in Hi. rewrite En, Eb in Hi. destruct Hi as (fl&h3&h2&h1&h0&rest&Hb&Hn). injection Hb as -> ->.
  destruct (frame_step fl h3 h2 h1 h0 rest n more fs Hn) as (fs'&->&F'); [unfold lenN in *; cbn [List.length] in Hl; lia|exact F|].
  change (dropN 5 (fl :: h3 :: h2 :: h1 :: h0 :: rest)) with rest.
  assert (D : dropN (5 + n) (fl :: h3 :: h2 :: h1 :: h0 :: rest) = dropN n rest).
  { unfold dropN. replace (N.to_nat (5 + n)) with (5 + N.to_nat n)%nat by lia. reflexivity. }
  rewrite D. specialize (T ltac:(discriminate)). unfold read_frame.
  destruct (if N.testbit fl 0 then _ else _) as [data|e]; [|exact Logic.I]. destruct (match rc_max cf with Some _ => _ | None => false end); [exact Logic.I|].
  rewrite K. cbn [handle_end r_trl r_buf r_next r_md]. rewrite T. destruct (N.testbit fl 7) eqn:Bt.
  - destruct (web_lines (split_crlf data) []) as [t [e|]]; [exact Logic.I|]. split; [exact Logic.I|]. exists fs'. split; [exact F'|].
    destruct (C (mk_frame fl (takeN n rest)) [] fs' eq_refl) as [-> _].
    { cbn [end_flag f_flag]. rewrite N.testbit_odd, N.shiftr_div_pow2 in Bt. exact Bt. }
    split; [apply (clean_tail _ _ _ _ C)|]. intro X. now contradiction X.
  - destruct (rc_dec cf data) as [m|e]; [|exact Logic.I]. split; [reflexivity|]. split; [reflexivity|]. split; [exact Logic.I|].
    exists fs'. split; [exact F'|]. split; [apply (clean_tail _ _ _ _ C)|]. reflexivity.
Qed.

Lemma resume_yet {M} (cf : rconf M) r more : rc_kind cf = RGrpcWeb -> blank_yet r more -> yet more (read_resume cf r).
Proof.
  intros K B. unfold read_resume, peek_len. destruct (lenN (r_buf r) <? 5) eqn:H5; [exact B|]. apply known_yet; [exact K|].
  destruct B as (Hi&fs&F&C&T). split; [|exists fs; auto].
  destruct (len5_cases (r_buf r)) as (fl&k3&k2&k1&k0&rr&Hr); [unfold lenN in H5; lia|].
  unfold r_inv. cbn [r_next r_buf]. rewrite Hr. exists fl, k3, k2, k1, k0, rr. split; auto.
  change (takeN 4 (dropN 1 (fl :: k3 :: k2 :: k1 :: k0 :: rr))) with [k3; k2; k1; k0]. apply be_val_4.
Qed.

Lemma first_yet {M} (cf : rconf M) r ch more : rc_kind cf = RGrpcWeb -> blank_yet r (ch ++ more) -> yet more (feed_first cf r ch).
Proof.
  intros K (Hi&fs&F&C&T). unfold feed_first. cbn [r_buf r_next].
  set (x := mk_reader (r_buf r ++ ch) (r_next r) (r_read r) (r_trl r) (r_md r)).
  assert (B : blank_yet x more).
  { split; [|exists fs; cbn [x r_buf r_trl]; rewrite <- app_assoc; auto]. unfold r_inv in *. cbn. destruct (r_next r) as [n|]; auto.
    destruct Hi as (fl&h3&h2&h1&h0&rest&Hb&Hn). rewrite Hb. exists fl, h3, h2, h1, h0, (rest ++ ch). auto. }
  destruct (r_buf r ++ ch); [exact B|]. destruct (r_next r); [now apply known_yet|now apply resume_yet].
Qed.

Lemma pump_yet {M} (cf : rconf M) : rc_kind cf = RGrpcWeb -> forall chunks p m r rest, yet (List.concat chunks) p ->
  fst (pump cf p chunks) = StMsg m r rest -> at_message r (List.concat rest).
Proof.
  intro K. induction chunks as [|ch cs IH]; intros p m r rest Y E; destruct p as [m0 r0|r0|e0 r0]; cbn [pump] in E; try discriminate.
  - injection E as <- <- <-. exact Y.
  - injection E as <- <- <-. exact Y.
  - apply (IH (feed_first cf r0 ch) m r rest); [now apply first_yet|]. destruct (pump cf (feed_first cf r0 ch) cs) as [s o]. exact E.
Qed.

Lemma gather_yet {M} (cf : rconf M) : rc_kind cf = RGrpcWeb -> forall fuel p chunks n g ms f r, yet (List.concat chunks) p ->
  gather cf fuel p chunks (Some (n, g)) = (ms, f, r) -> (n < List.length ms)%nat -> r_read r = true /\ r_trl r = [].
Proof.
  intro K. induction fuel as [|fuel IH]; intros p chunks n g ms f r Y E L; cbn [gather] in E;
    destruct (fst (pump cf p chunks)) as [m r0 rest|e r0|r0] eqn:Ep; try (injection E as <- <- <-; cbn in L; lia);
    destruct (pump_yet cf K chunks p m r0 rest Y Ep) as (A1&A2&A3).
  - destruct n; injection E as <- <- <-; auto.
  - destruct n as [|n]; [injection E as <- <- <-; auto|].
    destruct (gather cf fuel (read_resume cf r0) rest (fewer (Some (S n, g)))) as [[ms' f'] r'] eqn:G. injection E as <- <- <-. cbn [fewer] in G.
    apply (IH (read_resume cf r0) rest n g ms' f' r'); [now apply resume_yet|exact G|]. cbn in L. lia.
Qed.

Lemma consume_yet {M} (cf : rconf M) md chunks n g ms f r pre fe : rc_kind cf = RGrpcWeb ->
  frames_of (List.concat chunks) (pre ++ [fe]) [] -> Forall (fun g => end_flag RGrpcWeb g = false) pre ->
  consume cf (reader_new md) chunks (Some (n, g)) = (ms, f, r) -> (n < List.length ms)%nat -> r_read r = true /\ r_trl r = [].
Proof.
  intros K F P E L. rewrite <- (gather_consume cf (reader_new md) chunks (Some (n, g)) (size chunks)) in E by (cbn; lia).
  apply (gather_yet cf K _ _ _ _ _ _ _ _) in E; auto. cbn [yet]. split; [exact Logic.I|]. exists (pre ++ [fe]). split; [exact F|].
  split; [now apply clean_end|reflexivity].
Qed.

Lemma send_trailers {A B} (c : client A B) cx ck net net' reqs stop : cl_proto c = PGrpcWeb -> same_web_net c net net' ->
  let x := send_stream c cx ck net None reqs stop in let y := send_stream c cx ck net' None reqs stop in
  sr_msgs x = sr_msgs y /\ sr_end x = sr_end y.
Proof.
  intros P S. cbv zeta. rewrite !send_stream_end. cbv zeta.
  destruct (S (call_request c cx ck reqs)) as [->|(resp&chunks'&->&->&St&T)]; [split; reflexivity|]. cbn [sp_status sp_headers sp_chunks sp_fault].
  cbn [handle_response_headers]. rewrite St. change (200 =? 200) with true. cbv iota. rewrite P.
  set (resp' := mk_sp _ _ chunks' _ _ _).
  assert (Ee : forall f, fst (leave_end c (deadline_passed cx (ck_late ck)) resp None None None f) = fst (leave_end c (deadline_passed cx (ck_late ck)) resp' None None None f))
    by (intro f; apply leave_lines; [reflexivity|intro; apply except_none]).
  destruct (validate_stream_response _ _ _); [split; [reflexivity|apply Ee]|].
  destruct (handle_response_compression _ _ _ _) as [z|]; [|split; [reflexivity|apply Ee]]. specialize (T z eq_refl). cbn [reader_kind].
  set (cf := mk_rconf RGrpcWeb z (cl_max c) (k_dec_res (cl_codec c))).
  assert (G : fst (consume cf (reader_new None) (sp_chunks resp) stop) = fst (consume cf (reader_new None) chunks' stop)
    /\ ends_like (snd (consume cf (reader_new None) (sp_chunks resp) stop)) (snd (consume cf (reader_new None) chunks' stop))).
  { pose proof (trailers_same cf None (sp_chunks resp) chunks' eq_refl T) as F.
    pose proof (consume_all cf (sp_chunks resp) (reader_new None)) as C. pose proof (consume_all cf chunks' (reader_new None)) as C'.
    destruct (feed_all cf _ (sp_chunks resp)) as [[ms e] r]. destruct (feed_all cf _ chunks') as [[ms' e'] r']. destruct F as (<-&<-&K).
    destruct stop as [[n g]|]; [|rewrite C, C'; cbn; auto].
    destruct (consume_stop cf (sp_chunks resp) (reader_new None) n g _ _ _ C) as [A1 A2], (consume_stop cf chunks' (reader_new None) n g _ _ _ C') as [B1 B2].
    destruct (Nat.ltb_spec n (List.length ms)) as [L|L]; [|rewrite (A1 L), (B1 L); cbn; auto].
    destruct T as (pre&f&f'&d&d'&ts&ts'&F1&F2&P1&_).
    destruct (A2 L) as [r1 E1], (B2 L) as [r2 E2]. rewrite E1, E2. cbn [fst snd]. split; [reflexivity|].
    assert (Ln : (n < List.length (firstn (Datatypes.S n) ms))%nat) by (rewrite firstn_length; lia).
    destruct (consume_yet cf None _ n g _ _ _ pre f eq_refl F1 P1 E1 Ln) as [X1 X2].
    destruct (consume_yet cf None _ n g _ _ _ pre f' eq_refl F2 P1 E2 Ln) as [Y1 Y2].
    split; [congruence|]. rewrite X2, Y2. intros k _. reflexivity. }
  destruct (consume cf _ (sp_chunks resp) stop) as [[ms f] r], (consume cf _ chunks' stop) as [[ms' f'] r']. cbn [fst snd] in G. destruct G as [G K]. injection G as <- <-.
  split; [reflexivity|]. cbn [sr_end]. apply loop_ends; [reflexivity|reflexivity|]. intro x. rewrite P. cbn [reader_kind response_complete resp' sp_headers sp_trailers].
  now apply web_ends.
Qed.
