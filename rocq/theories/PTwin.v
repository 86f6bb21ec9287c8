(** C62: the synchronous and the asynchronous client. *)
From Coq Require Import List NArith ZArith Bool String.
From Verif Require Import MBase MPyStr MHeaders MUtf8 MBase64 MWire MEnvelope SEnvelope LEnvelope PEnvelope MTimeout MProtocol SProtocol MClient SClient LClient PProtocol PClient.
Import ListNotations.
Local Open Scope N_scope.

(** Two clients constructed with the same arguments, one of each class. *)
Definition as_sync {A B} (b : bool) (c : client A B) : client A B :=
  mk_client b (cl_address c) (cl_proto c) (cl_codec c) (cl_comps c) (cl_send c) (cl_timeout c) (cl_max c) (cl_ua c) (cl_sc c) (cl_closed c).

(** Nothing happens that only one of the two can meet: the task of an asynchronous call is not cancelled (there is no such
    thing for a synchronous one); the deadline has not passed when the response is complete (the asynchronous client has its
    own timer instead of this check); and leaving a response after an error raises nothing. *)
Definition uncancelled (f : fault) : Prop := f <> FCancel.
Definition calm (net : network) : Prop :=
  (forall rq f, nw_unary net rq = UFault f -> uncancelled f)
  /\ (forall rq f, nw_stream net rq = SFault f -> uncancelled f)
  /\ forall rq resp, nw_stream net rq = SResp resp -> (forall f, sp_fault resp = Some f -> uncancelled f) /\ sp_exit resp false = None.

Lemma consume_uncancelled {M} (cf : rconf M) chunks : forall r stop ms f r', (forall n f, stop = Some (n, f) -> uncancelled f) ->
  consume cf r chunks stop = (ms, Some f, r') -> uncancelled f.
Proof.
  induction chunks as [|ch cs IH]; cbn [consume]; intros r stop ms f r' Hs H; [discriminate|].
  destruct (feed cf r ch) as [[ms1 e] r1]. destruct stop as [[n g]|].
  - destruct (Nat.ltb n (List.length ms1)); [injection H as <- <- <-; eapply Hs; reflexivity|].
    destruct e as [x|]; [injection H as <- <- <-; discriminate|].
    destruct (consume cf r1 cs _) as [[ms' f'] r2] eqn:E. injection H as <- -> <-. eapply IH; [|exact E].
    intros n' f0 X. injection X as <- <-. eapply Hs; reflexivity.
  - destruct e as [x|]; [injection H as <- <- <-; discriminate|].
    destruct (consume cf r1 cs _) as [[ms' f'] r2] eqn:E. injection H as <- -> <-. eapply IH; [|exact E]. discriminate.
Qed.

(** What the two except chains make of a fault that is no cancellation, when no error was put aside. *)
Lemma except_same {A B} (c : client A B) b ex rd serr md f : uncancelled f -> (serr = None \/ exists k m ds, f = FExn (EConnect k m ds)) ->
  stream_except (as_sync b c) ex rd serr md f = stream_except c ex rd None md f.
Proof.
  intros Hf Hs. unfold stream_except. cbn [as_sync cl_sync cl_proto cl_sc].
  destruct f as [e| |]; [|now destruct Hf|reflexivity].
  destruct e as [k m ds|st hs|k m]; [reflexivity| |].
  - destruct Hs as [->|(k&m&ds&X)]; [reflexivity|discriminate].
  - destruct Hs as [->|(k'&m'&ds&X)]; [reflexivity|discriminate].
Qed.

Lemma stream_same {A B} (c : client A B) b cx ck net md reqs stop :
  calm net -> (forall n f, stop = Some (n, f) -> uncancelled f) -> deadline_passed cx (ck_late ck) = false ->
  send_stream (as_sync b c) cx ck net md reqs stop = send_stream (as_sync false c) cx ck net md reqs stop.
Proof.
  intros (_&Hn&Hr) Hs Hd. unfold send_stream. rewrite Hd.
  change (call_url (as_sync b c) (cx_method cx)) with (call_url (as_sync false c) (cx_method cx)).
  assert (Q : forall l t, request_content (as_sync b c) l t = request_content (as_sync false c) l t).
  { induction l as [|a l IH]; cbn [request_content]; intro t; [reflexivity|]. cbn [as_sync cl_codec cl_send]. now rewrite IH. }
  rewrite Q. clear Q. set (rq := mk_rq _ _ _ _ _). cbv zeta.
  destruct (nw_stream net rq) as [resp|f] eqn:E.
  2:{ rewrite !except_same by (eauto || now left). reflexivity. }
  destruct (Hr _ _ E) as [Hf Hx]. clear E.
  assert (L : forall f, leave resp (Some f) = Some f) by (intro f; unfold leave; now rewrite Hx).
  assert (F : forall (ms : list B) rd serr md f, uncancelled f -> (serr = None \/ exists k m ds, f = FExn (EConnect k m ds)) -> forall b serr',
     (serr' = None \/ exists k m ds, f = FExn (EConnect k m ds)) ->
     (let (e, md0) := stream_except (as_sync b c) false rd serr md f in mk_sr [rq] ms e md0)
     = (let (e, md0) := stream_except (as_sync false c) false rd serr' md f in mk_sr [rq] ms e md0)).
  { intros. rewrite !except_same by assumption. reflexivity. }
  assert (U : forall e, uncancelled (FExn e)) by discriminate.
  cbn [as_sync cl_sync cl_proto cl_codec cl_comps cl_max cl_sc].
  destruct (sp_status resp =? 200).
  - destruct (validate_stream_response _ _ _); [rewrite L; apply F; auto|].
    destruct (handle_response_compression _ _ _ _) as [z|e]; [|rewrite L; apply F; auto].
    destruct (consume _ _ _ _) as [[ms f] r] eqn:E.
    assert (Hg : forall g, match f with Some f => Some f | None => sp_fault resp end = Some g -> uncancelled g).
    { intros g X. destruct f as [f|]; [|now apply Hf]. injection X as <-. eapply consume_uncancelled; [exact Hs|exact E]. }
    destruct (match f with Some f => Some f | None => sp_fault resp end) as [g|].
    + rewrite L. apply F; [now apply Hg| |].
      * destruct g as [[k m ds|st hs|k m]| |]; auto. right. eauto.
      * destruct g as [[k m ds|st hs|k m]| |]; auto.
    + rewrite andb_false_r. cbn [andb]. destruct (response_complete _ _ _ _ _ _) as [o md']. destruct o as [e|]; [rewrite L; apply F; auto|].
      destruct (leave resp None) as [g|] eqn:Hl; [|reflexivity].
      unfold leave in Hl. destruct (sp_exit resp true) as [e|]; [|discriminate]. injection Hl as <-. apply F; auto.
  - destruct (sp_fault resp) as [f|] eqn:Ef; [rewrite L; apply F; [now apply Hf|auto|auto]|].
    destruct (we_from_response _ _); rewrite L; apply F; auto.
Qed.

Lemma passed_of_over {A B} (c : client A B) ck m u timeout stream get :
  deadline_over (ck_start ck) (effective_timeout timeout (cl_timeout c)) (ck_late ck) = false ->
  deadline_passed (call_ctx c (ck_start ck) m u timeout stream get) (ck_late ck) = false.
Proof. intro H. rewrite <- H. apply deadline_over_call. Qed.
Lemma ctx_same {A B} (c : client A B) b ck m u timeout stream get : call_ctx (as_sync b c) ck m u timeout stream get = call_ctx c ck m u timeout stream get.
Proof. reflexivity. Qed.

(** A client and its twin of the other class give every call the same requests, the same messages, the same outcome and the
    same metadata. *)
Theorem C62_same_partial : forall A B (c : client A B) b ck net md m u timeout a reqs use_get stop,
  calm net -> (forall n f, stop = Some (n, f) -> uncancelled f) ->
  deadline_over (ck_start ck) (effective_timeout timeout (cl_timeout c)) (ck_late ck) = false ->
  let async := as_sync false c in let other := as_sync b c in
  execute_unary other ck net md m u timeout use_get a stop = execute_unary async ck net md m u timeout use_get a stop
  /\ execute_client_stream other ck net md m u timeout reqs stop = execute_client_stream async ck net md m u timeout reqs stop
  /\ execute_server_stream other ck net md m u timeout a stop = execute_server_stream async ck net md m u timeout a stop
  /\ execute_bidi_stream other ck net md m u timeout reqs stop = execute_bidi_stream async ck net md m u timeout reqs stop.
Proof.
  intros A B c b ck net md m u timeout a reqs use_get stop Hc Hs Hd async other. subst async other.
  assert (S : forall reqs stop stream get, (forall n f, stop = Some (n, f) -> uncancelled f) ->
     send_stream (as_sync b c) (call_ctx (as_sync b c) (ck_start ck) m u timeout stream get) ck net md reqs stop
     = send_stream (as_sync false c) (call_ctx (as_sync false c) (ck_start ck) m u timeout stream get) ck net md reqs stop).
  { intros. rewrite !ctx_same. apply stream_same; auto. now apply passed_of_over. }
  assert (K : forall get, send_unary_connect (as_sync b c) (call_ctx (as_sync b c) (ck_start ck) m u timeout false get) ck net md a
     = send_unary_connect (as_sync false c) (call_ctx (as_sync false c) (ck_start ck) m u timeout false get) ck net md a).
  { intro get. rewrite !ctx_same. unfold send_unary_connect.
    change (unary_request (as_sync b c) (call_ctx c (ck_start ck) m u timeout false get)) with (unary_request (as_sync false c) (call_ctx c (ck_start ck) m u timeout false get)).
    destruct (unary_request _ _ _ _) as [rq|e]; [|reflexivity].
    destruct (nw_unary net rq) as [r|f] eqn:E.
    - change (unary_response (as_sync b c) r md) with (unary_response (as_sync false c) r md).
      destruct (unary_response _ r md) as [[v|e] md']; reflexivity.
    - apply (proj1 Hc) in E. destruct f; [reflexivity|now destruct E|reflexivity]. }
  assert (Hs' : forall n f, single_stop stop = Some (n, f) -> uncancelled f).
  { intros n f E. destruct stop as [[[|n'] f']|]; cbn [single_stop] in E; injection E as <- <-; [now apply (Hs 0%nat)|discriminate|discriminate]. }
  split; [|split; [|split]].
  - unfold execute_unary, send_unary. cbn [as_sync cl_proto].
    destruct (cl_proto c); rewrite ?K, ?S; auto.
  - unfold execute_client_stream. now rewrite S.
  - unfold execute_server_stream. now rewrite S.
  - unfold execute_bidi_stream. now rewrite S.
Qed.
Print Assumptions C62_same_partial.

(** ** C44, client side: size limit of streamed responses *)

(** A stream whose first frames carry messages within the limit, followed by one over it, delivers those messages and ends
    with RESOURCE_EXHAUSTED.  The synchronous client does so even when leaving the unfinished response raises (a transport
    error; timeouts and ConnectErrors raised there win). *)
Definition overridable (e : exn) : Prop := match e with EConnect _ _ _ => False | EOther KTimeout _ => False | _ => True end.

Theorem C44_client_stream : forall (A B : Type) (c : client A B) ck net timeout s resp z n pre f post tl ms d,
  streamed c ck net timeout None s -> (forall rq, nw_stream net rq = SResp resp) -> acceptable c resp z -> cl_max c = Some n ->
  frames_of (List.concat (sp_chunks resp)) (pre ++ f :: post) tl ->
  Forall2 (message_frame (reader_kind (cl_proto c)) z (cl_max c) (k_dec_res (cl_codec c))) pre ms ->
  content_of z f d -> n < N.of_nat (List.length d) ->
  (forall e, sp_exit resp false = Some e -> cl_sync c = true /\ overridable e) ->
  sr_msgs s = ms /\ exists msg, sr_end s = CErr (EConnect ResourceExhausted msg []).
Proof.
  intros A B c ck net timeout s resp z n pre f post tl ms d Hs Hn (Ha1&Ha2&Ha3) Hm Hf Hg Hc Hl Hx.
  destruct (streamed_inv _ _ _ _ _ _ Hs) as (cx&md&reqs&->&_).
  unfold send_stream. rewrite Hn, Ha1. change (200 =? 200) with true. cbv iota. rewrite Ha2, Ha3. cbv zeta.
  set (cf := mk_rconf _ _ _ _). rewrite consume_all.
  destruct (C03_first_too_large _ cf (handle_response_headers md (sp_headers resp)) n (sp_chunks resp) pre f post tl ms d Hm Hf) as (msg&r&E); auto.
  { unfold message_frame in Hg. rewrite Hm in Hg. exact Hg. }
  rewrite E. cbv iota zeta. unfold leave. destruct (sp_exit resp false) as [e|] eqn:Ex; cbv iota.
  - destruct (Hx e eq_refl) as [Hy Ho]. rewrite Hy. unfold stream_except.
    destruct e as [k m ds|st hs|k m]; [destruct Ho| |]; [cbn; eauto|]. destruct k; cbn in *; try tauto; eauto.
  - cbn. eauto.
Qed.
Print Assumptions C44_client_stream.

(** Finding: the asynchronous client reports UNAVAILABLE instead when leaving the response raises. *)
Definition ex_limited (b : bool) : client pystr pystr :=
  client_new b (lit "http://h") PGrpc ex_codec [] None None (Some 2) (lit "ua/1") ex_sc.
Definition ex_torn : stream_response :=
  let r := ex_stream PGrpc [ex_frame 0 [7; 8] ++ ex_frame 0 [1; 2; 3]] None [(lit "grpc-status", lit "0")] in
  mk_sp (sp_status r) (sp_headers r) (sp_chunks r) (sp_fault r) (sp_trailers r) (fun ok => if ok then None else Some (EOther KOSError (lit "reset"))).
Definition ex_bidi (c : client pystr pystr) ck (resp : stream_response) : stream_result pystr :=
  execute_bidi_stream c ck (ex_answer resp) None ex_method UNone None ([[1]], None) None.
Theorem C62_exit_refuted : exists (c : client pystr pystr) ck resp m,
  let call b := ex_bidi (as_sync b c) ck resp in
  sr_msgs (call true) = [[7; 8]] /\ sr_end (call true) = CErr (EConnect ResourceExhausted m [])
  /\ sr_msgs (call false) = [[7; 8]] /\ sr_end (call false) = CErr (EConnect Unavailable (lit "reset") []).
Proof. exists (ex_limited true), ex_clocks, ex_torn. eexists. vm_compute. repeat split. Qed.
Print Assumptions C62_exit_refuted.

(** The synchronous client looks at the clock itself once the response is complete: past the deadline it reports
    DEADLINE_EXCEEDED, after the messages, whatever status the response carries. *)
Theorem C62_late_sync : forall (A B : Type) (c : client A B) ck net timeout s resp ms,
  streamed c ck net timeout None s -> cl_sync c = true -> (forall rq, nw_stream net rq = SResp resp) -> readable c resp ms ->
  sp_fault resp = None -> sp_exit resp false = None ->
  deadline_over (ck_start ck) (effective_timeout timeout (cl_timeout c)) (ck_late ck) = true ->
  sr_msgs s = ms /\ exists m, sr_end s = CErr (EConnect DeadlineExceeded m []).
Proof.
  intros A B c ck net timeout s resp ms Hs Hy Hn Hr Hf Hx Hd.
  destruct (streamed_inv _ _ _ _ _ _ Hs) as (cx&md&reqs&->&HD).
  destruct (readable_consume _ _ _ Hr) as (z&(Ha1&Ha2&Ha3)&Hc).
  unfold send_stream. rewrite Hn, Ha1. change (200 =? 200) with true. cbv iota. rewrite Ha2, Ha3. cbv zeta.
  destruct (Hc (handle_response_headers md (sp_headers resp))) as (r&->&Hrt&_). cbv zeta. rewrite Hf. cbv iota zeta.
  rewrite HD, Hd, Hy. cbn [andb]. unfold leave. rewrite Hx. split; [reflexivity|]. eexists. reflexivity.
Qed.
Print Assumptions C62_late_sync.

(** Finding: a response whose last byte arrives after the deadline, without any error of the transport, is a success for the
    asynchronous client. *)
Definition ex_whole : stream_response := ex_stream PGrpc [ex_frame 0 [7; 8]] None [(lit "grpc-status", lit "0")].
Definition ex_hasty (b : bool) : client pystr pystr :=
  client_new b (lit "http://h") PGrpc ex_codec [] None (Some 1000%Z) (Some 2) (lit "ua/1") ex_sc.
Lemma ex_whole_readable b : readable (ex_hasty b) ex_whole [[7; 8]].
Proof.
  exists identity_comp, [mk_frame 0 [7; 8]], []. split; [repeat split|]. split.
  - apply (fo_cons (mk_frame 0 [7; 8]) [0; 0; 0; 0; 2; 7; 8] []); [exists 0, 0, 0, 2; auto|apply frames_of_nil].
  - constructor; [|constructor]. split; [reflexivity|]. exists [7; 8]. split; [left; auto|]. split; [|reflexivity]. cbn. discriminate.
Qed.
Theorem C62_late_refuted : exists (c : client pystr pystr) ck resp,
  let call b := ex_bidi (as_sync b c) ck resp in
  deadline_over (ck_start ck) (effective_timeout None (cl_timeout c)) (ck_late ck) = true
  /\ sr_msgs (call true) = [[7; 8]] /\ (exists m, sr_end (call true) = CErr (EConnect DeadlineExceeded m []))
  /\ sr_msgs (call false) = [[7; 8]] /\ sr_end (call false) = COk tt.
Proof.
  exists (ex_hasty true), (mk_clk 0%Z 0%Z fl_unit), ex_whole. cbv zeta.
  assert (D : deadline_over (ck_start (mk_clk 0%Z 0%Z fl_unit)) (effective_timeout None (cl_timeout (ex_hasty true))) (ck_late (mk_clk 0%Z 0%Z fl_unit)) = true).
  { change (deadline_over 0%Z (Some 1000%Z) fl_unit = true). unfold deadline_over. rewrite ex_end_time. apply Z.leb_refl. }
  split; [exact D|].
  destruct (C62_late_sync _ _ (ex_hasty true) (mk_clk 0%Z 0%Z fl_unit) (ex_answer ex_whole) None
    (execute_bidi_stream (ex_hasty true) (mk_clk 0%Z 0%Z fl_unit) (ex_answer ex_whole) None ex_method UNone None ([[1]], None) None)
    ex_whole [[7; 8]] (st_bidi _ _ _ _ _ None ex_method UNone ([[1]], None)) eq_refl (fun _ => eq_refl) (ex_whole_readable true) eq_refl eq_refl D) as [H1 H2].
  split; [exact H1|]. split; [exact H2|]. clear H1 H2.
  assert (G : forall cx late, let s := send_stream (ex_hasty false) cx (mk_clk 0%Z 0%Z late) (ex_answer ex_whole) None ([[1]], None) None in sr_msgs s = [[7; 8]] /\ sr_end s = COk tt).
  { intros cx late. vm_compute. auto. }
  apply G.
Qed.
Print Assumptions C62_late_refuted.

Example C62_example :
  let c := ex_limited false in
  calm (ex_answer ex_whole) /\ deadline_over (ck_start ex_clocks) (effective_timeout None (cl_timeout c)) (ck_late ex_clocks) = false
  /\ (let s := ex_bidi (as_sync true c) ex_clocks ex_whole in
      sr_msgs s = [[7; 8]] /\ sr_end s = COk tt /\ s = ex_bidi (as_sync false c) ex_clocks ex_whole).
Proof.
  split; [|vm_compute; auto]. split; [|split].
  - intros rq f X. injection X as <-. discriminate.
  - discriminate.
  - intros rq resp X. injection X as <-. split; [discriminate|reflexivity].
Qed.

Example C44_client_stream_example :
  let s := ex_bidi (ex_limited true) ex_clocks ex_torn in sr_msgs s = [[7; 8]]
  /\ sr_end s = CErr (EConnect ResourceExhausted (lit "message is larger than configured max 2") []).
Proof. vm_compute. auto. Qed.
