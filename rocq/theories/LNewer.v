(** Lemmas on responses that say the same. *)
From Coq Require Import List NArith ZArith Bool String Lia.
From Verif Require Import MBase MPyStr MHeaders MJson MWire MTimeout MEnvelope SEnvelope LEnvelope MProtocol MClient LClient MIter LIter
  LLook SNewer.
Import ListNotations.
Local Open Scope N_scope.

Lemma detail_same v v' : same_detail v v' -> detail_of_json v = detail_of_json v'.
Proof. intros [->|(d&d'&->&->&T&V)]; [reflexivity|]. unfold agree in *. cbn [detail_of_json]. now rewrite T, V. Qed.

Lemma details_same l l' : Forall2 same_detail l l' -> details_of_list l = details_of_list l'.
Proof. induction 1 as [|v v' l l' H _ IH]; [reflexivity|]. cbn [details_of_list]. now rewrite (detail_same _ _ H), IH. Qed.

Lemma error_same d d' st u : same_error d d' -> we_from_dict d st u = we_from_dict d' st u.
Proof.
  intros (C&M&D). unfold agree in *. unfold we_from_dict. rewrite C, M.
  assert (E : details_of_json (dget d (lit "details")) = details_of_json (dget d' (lit "details"))).
  { destruct D as [->|(l&l'&->&->&F)]; [reflexivity|]. pose proof (details_same _ _ F) as E. unfold details_of_json. cbn [json_truthy].
    inversion F; subst; cbn [nonempty]; [reflexivity|exact E]. }
  now rewrite E.
Qed.

Lemma response_same st b b' : same_text same_error b b' -> we_from_response st b = we_from_response st b'.
Proof. intros [->|(d&d'&E&E'&S)]; [reflexivity|]. unfold we_from_response. rewrite E, E'. now apply error_same. Qed.

Lemma truthy_obj d : d <> [] -> json_truthy (JObj d) = true.
Proof. destruct d; [congruence|reflexivity]. Qed.

Lemma end_same md b b' : same_text same_end b b' -> connect_handle_end md b = connect_handle_end md b'.
Proof.
  intros [->|(d&d'&E&E'&M&R)]; [reflexivity|]. unfold connect_handle_end. rewrite E, E'. unfold agree in *. rewrite M.
  destruct (match dget d' (lit "metadata") with Some v => if json_truthy v then handle_trailers_json md v else (md, None) | None => (md, None) end)
    as [md1 [e|]]; [reflexivity|].
  destruct R as [->|(e&e'&->&->&N1&N2&S)]; [reflexivity|]. rewrite !truthy_obj by assumption. now rewrite (error_same _ _ _ _ S).
Qed.

Lemma end_flag_bit f : end_flag RConnect f = true -> N.testbit (f_flag f) 1 = true.
Proof. intro H. rewrite N.testbit_odd, N.shiftr_div_pow2. exact H. Qed.

Lemma read_end_same {M} (cf : rconf M) f d r : rc_kind cf = RConnect -> end_flag RConnect f = true ->
  content_of (rc_comp cf) f d -> short_enough (rc_max cf) d ->
  read_frame cf (f_flag f) (f_payload f) r
  = (let (x, md) := connect_handle_end (r_md r) d in
     (match x with ERaise e => FErr e | _ => FEnd end, mk_reader (r_buf r) (r_next r) (r_read r) (r_trl r) md)).
Proof.
  intros K F C W. unfold read_frame. rewrite (content_data cf f d C). cbv zeta.
  assert (L : match rc_max cf with Some n => n <? lenN d | None => false end = false).
  { destruct (rc_max cf); [|reflexivity]. cbn in W. apply N.ltb_ge. exact W. }
  rewrite L. unfold handle_end. rewrite K, (end_flag_bit _ F).
  destruct (connect_handle_end (r_md r) d) as [x md] eqn:E. destruct x; try reflexivity.
  exfalso. unfold connect_handle_end in E. destruct (json_loads_bytes d) as [[]|]; try discriminate.
  destruct (match dget d0 (lit "metadata") with Some v => if json_truthy v then handle_trailers_json (r_md r) v else (r_md r, None) | None => (r_md r, None) end)
    as [m [e|]]; [discriminate|]. destruct (dget d0 (lit "error")) as [v|]; [|discriminate].
  destruct (json_truthy v); [|discriminate]. destruct v; try discriminate. destruct (we_from_dict _ _ _); discriminate.
Qed.

(** What a reader knows besides the bytes it has yet to read. *)
Definition known (r : reader) := (r_read r, r_trl r, r_md r).

Lemma clean_last pre f : Forall (fun g => end_flag RConnect g = false) pre -> ends_clean RConnect (pre ++ [f]) [].
Proof.
  intros P g before after E G. split; [|reflexivity]. destruct after as [|x after]; [reflexivity|]. exfalso.
  assert (I : In g pre).
  { destruct (exists_last (l := x :: after)) as (l&y&L); [discriminate|].
    rewrite L in E. replace (before ++ g :: l ++ [y]) with ((before ++ g :: l) ++ [y]) in E by (rewrite <- app_assoc; reflexivity).
    apply app_inj_tail in E. destruct E as [-> _]. apply in_or_app. right. now left. }
  rewrite Forall_forall in P. rewrite (P g I) in G. discriminate.
Qed.

Lemma stream_same {M} (cf : rconf M) md chunks chunks' : rc_kind cf = RConnect ->
  same_stream (rc_comp cf) (rc_max cf) (List.concat chunks) (List.concat chunks') ->
  let '(ms, e, r) := feed_all cf (reader_new md) chunks in
  let '(ms', e', r') := feed_all cf (reader_new md) chunks' in
  ms = ms' /\ e = e' /\ known r = known r'.
Proof.
  intros K S.
  assert (G : forall fs, frames_of (List.concat chunks) fs [] -> forall fs', frames_of (List.concat chunks') fs' [] ->
    ends_clean RConnect fs [] -> ends_clean RConnect fs' [] ->
    (let '(ms, e, r) := run_skip cf fs (reader_new md) in let '(ms', e', r') := run_skip cf fs' (reader_new md) in
     ms = ms' /\ e = e' /\ known r = known r') ->
    let '(ms, e, r) := feed_all cf (reader_new md) chunks in
    let '(ms', e', r') := feed_all cf (reader_new md) chunks' in
    ms = ms' /\ e = e' /\ known r = known r').
  { intros fs F fs' F' C C' R. rewrite <- K in C, C'.
    destruct (feed_all_clean cf chunks (reader_new md) fs [] (reader_new_inv md) (reader_new_incomplete md) F C) as (ms&e&r&b&n&R1&E1&_).
    destruct (feed_all_clean cf chunks' (reader_new md) fs' [] (reader_new_inv md) (reader_new_incomplete md) F' C') as (ms'&e'&r'&b'&n'&R2&E2&_).
    rewrite E1, E2. rewrite R1, R2 in R. exact R. }
  destruct S as (pre&f&f'&d&d'&F&F'&P&N1&N2&C1&C2&W1&W2&T).
  apply (G _ F _ F'); [now apply clean_last|now apply clean_last|].
  rewrite !run_skip_app. destruct (run_skip cf pre (reader_new md)) as [[ms e] r]. destruct e as [x|]; [auto|].
  cbn [run_skip]. rewrite (read_end_same cf f d), (read_end_same cf f' d') by assumption. rewrite (end_same _ _ _ T).
  destruct (connect_handle_end (r_md r) d') as [[| |x] m]; auto.
Qed.

Lemma complete_known sc r r' hs trs e : known r = known r' ->
  response_complete sc RConnect r hs trs e = response_complete sc RConnect r' hs trs e.
Proof. intro H. injection H as H1 H2 H3. unfold response_complete. now rewrite ?H1, ?H2, ?H3. Qed.

Lemma except_known {A B} (c : client A B) ex resp chunks' r r' serr f : cl_proto c = PConnect -> known r = known r' ->
  stream_except c ex (Some (r, resp)) serr (r_md r) f = stream_except c ex (Some (r', with_chunks resp chunks')) serr (r_md r') f.
Proof.
  intros P K. assert (M : r_md r = r_md r') by (now injection K). rewrite M. unfold stream_except. rewrite P. cbn [reader_kind with_chunks sp_headers sp_trailers].
  destruct f as [e| |]; try reflexivity. destruct (map_stream_reset e ex) as [x|]; [|reflexivity]. now rewrite (complete_known _ r r' _ _ _ K).
Qed.

Lemma leave_chunks resp chunks f : leave (with_chunks resp chunks) f = leave resp f. Proof. reflexivity. Qed.

Lemma loop_known {A B} (c : client A B) ex resp chunks' f r r' : cl_proto c = PConnect -> known r = known r' ->
  loop_end c ex resp f r = loop_end c ex (with_chunks resp chunks') f r'.
Proof.
  intros P K. assert (M : r_md r = r_md r') by (now injection K). unfold loop_end, leave_end. rewrite ?leave_chunks, P. cbn [with_chunks sp_fault sp_headers sp_trailers reader_kind].
  assert (X : forall serr f, stream_except c ex (Some (r, resp)) serr (r_md r) f = stream_except c ex (Some (r', with_chunks resp chunks')) serr (r_md r') f)
    by (intros; now apply except_known).
  destruct (match f with Some f => Some f | None => sp_fault resp end) as [g|].
  - rewrite ?leave_chunks. destruct (leave resp (Some g)); [apply X|now rewrite M].
  - destruct (_ && _).
    + rewrite ?leave_chunks. destruct (leave _ _); [apply X|now rewrite M].
    + rewrite (complete_known _ r r' _ _ _ K). destruct (response_complete _ _ r' _ _ _) as [x md].
      rewrite ?leave_chunks. destruct (leave _ _) as [g|]; [|reflexivity]. unfold stream_except. rewrite P. cbn [reader_kind with_chunks sp_headers sp_trailers].
      destruct g as [e| |]; try reflexivity. destruct (map_stream_reset e ex) as [y|]; [|reflexivity]. now rewrite (complete_known _ r r' _ _ _ K).
Qed.

(** The whole stream: the same request, messages, end and metadata. *)
Lemma send_same {A B} (c : client A B) cx ck net net' md reqs : same_net c net net' ->
  send_stream c cx ck net md reqs None = send_stream c cx ck net' md reqs None.
Proof.
  intros [_ S]. rewrite !send_stream_end. cbv zeta. specialize (S (call_request c cx ck reqs)).
  destruct S as [->|(resp&chunks'&->&->&S)]; [reflexivity|]. cbn [with_chunks sp_status sp_headers sp_chunks sp_fault].
  destruct (sp_status resp =? 200).
  - destruct S as [P S]. rewrite P. destruct (validate_stream_response _ _ _); [reflexivity|].
    destruct (handle_response_compression _ _ _ _) as [z|]; [|reflexivity]. specialize (S z eq_refl). rewrite !consume_all. cbn [reader_kind].
    set (cf := mk_rconf RConnect z (cl_max c) (k_dec_res (cl_codec c))).
    pose proof (stream_same cf (handle_response_headers md (sp_headers resp)) (sp_chunks resp) chunks' eq_refl S) as F.
    destruct (feed_all cf _ (sp_chunks resp)) as [[ms e] r]. destruct (feed_all cf _ chunks') as [[ms' e'] r']. destruct F as (<-&<-&K).
    pose proof (loop_known c (deadline_passed cx (ck_late ck)) resp chunks' (match e with Some x => Some (FExn x) | None => None end) r r' P K) as L.
    cbn [with_chunks] in L. unfold with_chunks in L. now rewrite L.
  - destruct (sp_fault resp); [reflexivity|]. rewrite (response_same _ _ _ S). reflexivity.
Qed.

Lemma unary_same {A B} (c : client A B) cx ck net net' md a : same_net c net net' ->
  send_unary_connect c cx ck net md a = send_unary_connect c cx ck net' md a.
Proof.
  intros [S _]. unfold send_unary_connect. destruct (unary_request _ _ _ _) as [rq|]; [|reflexivity].
  destruct (S rq) as [->|(st&hs&b&b'&->&->&N&T)]; [reflexivity|]. unfold unary_response. cbn [fr_status fr_headers fr_content].
  apply N.eqb_neq in N. rewrite N, (response_same _ _ _ T). reflexivity.
Qed.

(** However much of it is read. *)
Lemma except_any {A B} (c : client A B) ex r r' resp chunks' serr md md' f : cl_proto c = PConnect ->
  fst (stream_except c ex (Some (r, resp)) serr md f) = fst (stream_except c ex (Some (r', with_chunks resp chunks')) serr md' f).
Proof.
  intro P. unfold stream_except. rewrite P. cbn [reader_kind response_complete]. destruct f as [e| |]; try reflexivity.
  destruct e as [k m ds|st hs|k m]; try reflexivity.
  - destruct serr; [reflexivity|]. destruct (map_stream_reset _ ex); reflexivity.
  - destruct k; try reflexivity; (destruct serr; [reflexivity|]); destruct (map_stream_reset _ ex); reflexivity.
Qed.
Lemma loop_any {A B} (c : client A B) ex resp chunks' f r r' : cl_proto c = PConnect ->
  fst (loop_end c ex resp f r) = fst (loop_end c ex (with_chunks resp chunks') f r').
Proof.
  intro P. unfold loop_end, leave_end. rewrite ?leave_chunks, P. cbn [with_chunks sp_fault reader_kind response_complete].
  destruct (match f with Some f => Some f | None => sp_fault resp end) as [g|].
  - rewrite ?leave_chunks. destruct (leave resp (Some g)); [now apply except_any|reflexivity].
  - destruct (_ && _); rewrite ?leave_chunks; (destruct (leave _ _); [now apply except_any|reflexivity]).
Qed.
Lemma send_stopped {A B} (c : client A B) cx ck net net' md reqs stop : same_net c net net' ->
  let x := send_stream c cx ck net md reqs stop in let y := send_stream c cx ck net' md reqs stop in
  sr_sent x = sr_sent y /\ sr_msgs x = sr_msgs y /\ sr_end x = sr_end y.
Proof.
  intros S0. pose proof S0 as [_ S]. cbv zeta. rewrite !send_sent. split; [reflexivity|]. rewrite !send_stream_end. cbv zeta. specialize (S (call_request c cx ck reqs)).
  destruct S as [->|(resp&chunks'&->&->&S)]; [split; reflexivity|]. cbn [with_chunks sp_status sp_headers sp_chunks sp_fault].
  destruct (sp_status resp =? 200).
  - destruct S as [P S]. rewrite P. destruct (validate_stream_response _ _ _); [split; reflexivity|].
    destruct (handle_response_compression _ _ _ _) as [z|]; [|split; reflexivity]. specialize (S z eq_refl). cbn [reader_kind].
    set (cf := mk_rconf RConnect z (cl_max c) (k_dec_res (cl_codec c))). set (rd := reader_new _).
    pose proof (stream_same cf (handle_response_headers md (sp_headers resp)) (sp_chunks resp) chunks' eq_refl S) as F. fold rd in F.
    assert (G : fst (consume cf rd (sp_chunks resp) stop) = fst (consume cf rd chunks' stop)).
    { pose proof (consume_all cf (sp_chunks resp) rd) as C. pose proof (consume_all cf chunks' rd) as C'.
      destruct (feed_all cf rd (sp_chunks resp)) as [[ms e] r], (feed_all cf rd chunks') as [[ms' e'] r']. destruct F as (<-&<-&_).
      destruct stop as [[n g]|]; [|now rewrite C, C'].
      destruct (consume_stop cf (sp_chunks resp) rd n g _ _ _ C) as [A1 A2], (consume_stop cf chunks' rd n g _ _ _ C') as [B1 B2].
      destruct (Nat.ltb_spec n (List.length ms)) as [L|L]; [|now rewrite (A1 L), (B1 L)].
      destruct (A2 L) as [r1 ->], (B2 L) as [r2 ->]. reflexivity. }
    destruct (consume cf rd (sp_chunks resp) stop) as [[ms f] r], (consume cf rd chunks' stop) as [[ms' f'] r']. cbn [fst] in G. injection G as <- <-.
    split; [reflexivity|]. cbn [sr_end]. exact (loop_any c _ resp chunks' f r r' P).
  - destruct (sp_fault resp); [split; reflexivity|]. rewrite (response_same _ _ _ S). split; reflexivity.
Qed.
