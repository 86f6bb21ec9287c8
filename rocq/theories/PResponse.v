(** C39-C42, C57, C60: what the server applications send back. *)
From Coq Require Import List NArith ZArith Bool String Lia ZifyBool ZifyNat.
From Verif Require Import MBase MPyStr MHeaders MUtf8 MWire MEnvelope MTimeout MProtocol MClient MServer MAsgi MWsgi SServer
  LServer LStream LWsgi PProtocol.
Import ListNotations.
Local Open Scope N_scope.

(** ** Example applications *)
Definition ex_app (ep : endpoint pystr pystr) : app pystr pystr :=
  app_new (lit "/pkg.Svc") [(lit "/pkg.Svc/Get", ep)] (Some 1000) [] [ex_codec] ex_sc.
Definition ex_scope (http ct : string) : scope :=
  mk_scope (lit "/pkg.Svc/Get") (Some []) (lit http) (lit "http") [(lit "content-type", lit ct)] None [] true.
Definition ex_env : env := mk_env [RReq [] false] None WIdle (fun _ => SOk).
Definition ex_wq (http ct : string) : wsgi_request :=
  mk_wq [(lit "PATH_INFO", lit "/pkg.Svc/Get"); (lit "SCRIPT_NAME", []); (lit "REQUEST_METHOD", lit http);
         (lit "CONTENT_TYPE", lit ct); (lit "SERVER_PROTOCOL", lit "HTTP/1.1")] [] true (fun _ => None).
Definition quiet : on_close := mk_close [] [] None.
Definition ex_echo : endpoint pystr pystr := EpUnary ex_method (fun a _ => Hdr (Add (lit "x-h") (lit "1")) (Ret a)).
(** Two messages with headers and a trailer, then [i]. *)
Definition ex_two (i : interrupt) : endpoint pystr pystr :=
  EpBidi ex_method (fun _ => Hdr (Add (lit "x-h") (lit "1")) (Yield (lit "a") quiet (Trl (Add (lit "x-t") (lit "2"))
    (Hdr (Add (lit "late") (lit "1")) (Yield (lit "b") quiet (Fail i)))))).
Definition ex_steps : list (rstate * pystr) :=
  let h := h_add h_empty (lit "x-h") (lit "1") in let t := h_add h_empty (lit "x-t") (lit "2") in
  [(mk_rs h h_empty, lit "a"); (mk_rs (h_add h (lit "late") (lit "1")) t, lit "b")].
Definition ex_gone : exn := EConnect NotFound (lit "gone") [].
Definition ex_bug : exn := EOther KValue (lit "bug").

(** ** C39: ASGI responses are well formed *)

(** For every request, method, event sequence of [receive] and outcome of every [send], provided that a connection whose
    [send] failed once does not recover: what was sent is the beginning of a well-formed response, and all of one when the
    application returns normally.  Missing: connections that recover ([C39_recovering_send_refuted]). *)
Theorem C39_wellformed_partial {A B} (ap : app A B) now sc en :
  sticky (en_send en) ->
  let r := asgi_call ap now sc en in
  asgi_prefix (ar_events r) /\ (ar_out r = AReturn -> asgi_complete (ar_events r)).
Proof. apply asgi_call_shape. Qed.
Print Assumptions C39_wellformed_partial.

(** Streams: whatever [send] does. *)
Theorem C39_streams {A B} (ap : app A B) now sc en ep hs p cx k :
  asgi_stream_request ap now sc ep hs p cx k ->
  let r := asgi_call ap now sc en in
  asgi_prefix (ar_events r) /\ (ar_out r = AReturn -> asgi_complete (ar_events r)).
Proof. intro H. cbv zeta. rewrite (asgi_call_stream _ _ _ _ _ _ _ _ _ H). apply handle_stream_shape. Qed.
Print Assumptions C39_streams.

Example C39_example :
  sticky (en_send ex_env) /\
  ar_events (asgi_call (ex_app ex_echo) 0%Z (ex_scope "POST" "application/proto") ex_env)
  = [EvStart 200 [(lit "content-type", lit "application/proto"); (lit "content-encoding", lit "identity");
                  (lit "vary", lit "Accept-Encoding"); (lit "x-h", lit "1")] false; EvBody [] false]
  /\ ar_out (asgi_call (ex_app ex_echo) 0%Z (ex_scope "POST" "application/proto") ex_env) = AReturn
  /\ let o := fun n => if Nat.leb n 1 then SOk else SRaise (EOther KOSError []) in
     sticky o /\ message_events (ar_events (asgi_call (ex_app (ex_two (IExn ex_gone))) 0%Z (ex_scope "POST" "application/grpc+proto")
       (mk_env [RReq [] false] None WIdle o))) = 1%nat.
Proof.
  split; [intros n m _ _; reflexivity|]. split; [reflexivity|]. split; [reflexivity|]. cbv zeta. split; [|reflexivity].
  intros n m Hnm. destruct (Nat.leb_spec m 1); [|discriminate]. destruct (Nat.leb_spec n 1); [reflexivity|lia].
Qed.

(** If the send of the body of a unary response raises and later sends work, the error handler starts a second response. *)
Theorem C39_recovering_send_refuted :
  exists (ap : app pystr pystr) now sc en, ~ asgi_prefix (ar_events (asgi_call ap now sc en)).
Proof.
  exists (ex_app ex_echo), 0%Z, (ex_scope "POST" "application/proto"),
    (mk_env [RReq [] false] None WIdle (fun n => if Nat.eqb n 1 then SRaise (EOther KOSError []) else SOk)).
  intros (rest&st&hs&body&ts&chunks&last&E&_). apply (f_equal (@List.tl _)) in E. cbn in E.
  destruct chunks; discriminate.
Qed.
Print Assumptions C39_recovering_send_refuted.

(** ** C40: [start_response] *)

(** For every request: no body chunk (and no trailers) before [start_response], which was called if the application and the
    iteration of its result end normally.  It is called once unless the end message of a stream that ended before its first
    message cannot be encoded.  Missing: that case ([C40_twice_refuted]) and requests whose handling ends with an exception
    before the start ([C40_never_refuted]). *)
Theorem C40_start_once_partial {A B} (ap : app A B) now q :
  let r := wsgi_call ap now q in
  start_first (wr_events r)
  /\ (wr_out r = WReturn -> (1 <= starts (wr_events r))%nat)
  /\ ((forall ep hs p cx k, wsgi_stream_request ap now q ep hs p cx k -> ends_writable ap q p ep k hs cx) ->
      (starts (wr_events r) <= 1)%nat).
Proof. destruct (wsgi_call_shape ap now q) as [H1 H2]. split; [auto|split; [auto|]]. apply wsgi_call_once. Qed.
Print Assumptions C40_start_once_partial.

(** Once a message was produced the response is started exactly once, even if the end message cannot be encoded. *)
Theorem C40_messages_once {A B} (ap : app A B) now q ep hs p cx k req z inv steps rs' e :
  wsgi_stream_request ap now q ep hs p cx k ->
  negotiate_stream_compression p hs (ap_comps ap) = (req, z) ->
  stream_runs ep cx req (fun rz => wsgi_request_stream ap k rz q) inv steps rs' e -> steps <> [] ->
  starts (wr_events (wsgi_call ap now q)) = 1%nat.
Proof.
  intros Hq Hn Hr Hne. rewrite (wsgi_call_stream _ _ _ _ _ _ _ _ Hq). destruct Hq as (_&Hk&_).
  pose proof (wsgi_stream_shape ap q p hs ep cx) as Sh. revert Sh. unfold wsgi_stream. rewrite Hn, Hk. cbv zeta.
  destruct req as [rz|]; cbn [stream_runs] in Hr; [|destruct Hr as (_&->&_); congruence].
  destruct (wsgi_run p ep k z _ cx) as [inv' [[s rs] le]] eqn:R. destruct (ws_started s) eqn:Es; [tauto|]. exfalso.
  destruct (wsgi_run_unstarted _ _ _ _ _ _ _ _ _ _ R Es) as (e'&_&Hr').
  destruct Hr as [Hm|(_&_&->&_)]; [|congruence]. destruct Hr' as [Hm'|(Ht&_&_&_&x&Hx&_)].
  - destruct ep as [m f|m f|m f|m f]; cbn [method_does] in Hm, Hm'.
    + destruct Hm as (a&Ha&_&Hm), Hm' as (a'&Ha'&_&Hm'). rewrite Ha' in Ha. injection Ha as ->. unfold returns in *.
      destruct (run_fn _ _ _) as [[b|i] r]; [destruct Hm' as [? _]; discriminate|destruct Hm as [? _]; congruence].
    + destruct Hm as (_&Hm), Hm' as (_&Hm'). unfold returns in *.
      destruct (run_fn _ _ _) as [[b|i] r]; [destruct Hm' as [? _]; discriminate|destruct Hm as [? _]; congruence].
    + destruct Hm as (a&Ha&_&Hm), Hm' as (a'&Ha'&_&Hm'). rewrite Ha' in Ha. injection Ha as ->.
      destruct (behaves_det _ _ _ _ _ _ Hm _ _ _ Hm') as (?&_). congruence.
    + destruct Hm as (_&Hm), Hm' as (_&Hm'). destruct (behaves_det _ _ _ _ _ _ Hm _ _ _ Hm') as (?&_). congruence.
  - apply consume_single_raise in Hx. destruct ep as [m f|m f|m f|m f]; try discriminate; cbn [method_does] in Hm;
      destruct Hm as (a&Ha&_); apply consume_single_ok in Ha; congruence.
Qed.
Print Assumptions C40_messages_once.

Example C40_example :
  wr_events (wsgi_call (ex_app ex_echo) 0%Z (ex_wq "POST" "application/proto"))
  = [WStart (lit "200 OK") [(lit "content-type", lit "application/proto"); (lit "content-encoding", lit "identity");
                            (lit "vary", lit "Accept-Encoding"); (lit "x-h", lit "1")]; WBody []]
  /\ starts (wr_events (wsgi_call (ex_app (ex_two (IExn (EConnect Internal [55296] [])))) 0%Z (ex_wq "POST" "application/grpc+proto"))) = 1%nat.
Proof. split; reflexivity. Qed.

(** A method raising an error whose message is not encodable (a lone surrogate) makes the application call [start_response]
    twice, without exc_info. *)
Theorem C40_twice_refuted :
  exists (ap : app pystr pystr) now q, wr_out (wsgi_call ap now q) = WReturn /\ starts (wr_events (wsgi_call ap now q)) = 2%nat.
Proof.
  exists (ex_app (EpBidi ex_method (fun _ => Fail (IExn (EConnect Internal [55296] []))))), 0%Z, (ex_wq "POST" "application/grpc+proto").
  split; reflexivity.
Qed.
Print Assumptions C40_twice_refuted.

(** Draining the request body raises: no response at all. *)
Theorem C40_never_refuted :
  exists (ap : app pystr pystr) now q x, wsgi_call ap now q = mk_wr [] [] (WExn x).
Proof.
  exists (ex_app ex_echo), 0%Z,
    (mk_wq (wq_env (ex_wq "PUT" "application/proto")) [] true (fun _ => Some (EOther KOSError []))), (EOther KOSError []).
  reflexivity.
Qed.
Print Assumptions C40_never_refuted.

(** ** C41: cancelled methods *)

(** Unary Connect methods: a cancelled method leaves no response behind and the cancellation goes to the server. *)
Theorem C41_unary_partial {A B} (ap : app A B) now sc en m f hs cx a rs :
  open_request ap now sc = Ok (EpUnary m f, hs, PConnect, cx) ->
  In (InvMsg a) (ar_inv (asgi_call ap now sc en)) ->
  run_fn (f a cx) ([], None) rs_new = (FInt ICancel, rs) ->
  asgi_call ap now sc en = mk_ar [InvMsg a] [] ACancelled.
Proof.
  intros Ho Hi Hr. unfold asgi_call in *. rewrite Ho in *. destruct (select_codec _ _ _ _ _) as [[params k]|e].
  2:{ unfold call_error in Hi. destruct (handle_error _ _ _ _) as [s r]. destruct Hi. }
  destruct (handle_unary_connect_cases ap en (sc_method sc) hs k params f cx (mk_ast 0 [])) as [(i&E)|[(b&i&rs'&Hb&E)|(b&c&rs'&z&Hb&E)]];
    rewrite E in *.
  - exfalso. destruct i; [unfold call_error in Hi; destruct (handle_error _ _ _ _)|]; destruct Hi.
  - assert (b = a). { destruct i; [unfold call_error in Hi; destruct (handle_error _ _ _ _)|]; destruct Hi as [[= ->]|[]]; reflexivity. }
    subst b. rewrite Hr in Hb. injection Hb as <- <-. reflexivity.
  - exfalso. assert (b = a).
    { destruct (send_unary_response _ _ _ _ _ _) as [s' [u|[x|]]]; [|unfold call_error in Hi; destruct (handle_error _ _ _ _)|];
        destruct Hi as [[= ->]|[]]; reflexivity. }
    subst b. rewrite Hr in Hb. discriminate.
Qed.
Print Assumptions C41_unary_partial.

(** WSGI streams interrupted by something that is not an Exception: the messages so far, no end message, and the
    interruption goes to the server. *)
Theorem C41_wsgi_streams {A B} (ap : app A B) now q ep hs p cx k req z inv steps rs' frs :
  wsgi_stream_request ap now q ep hs p cx k ->
  negotiate_stream_compression p hs (ap_comps ap) = (req, z) ->
  stream_runs ep cx req (fun rz => wsgi_request_stream ap k rz q) inv steps rs' (Some ICancel) ->
  written (k_enc_res k) z steps frs ->
  wr_out (wsgi_call ap now q) = WBase
  /\ Forall (fun e => match e with WTrailers _ => False | WBody b => In b frs | _ => True end) (wr_events (wsgi_call ap now q)).
Proof.
  intros Hq Hn Hr Hw. rewrite (wsgi_call_cancelled _ _ _ _ _ _ _ _ _ _ _ _ _ _ Hq Hn Hr Hw). cbn [wr_out wr_events]. split; auto.
  destruct steps; constructor; auto. apply Forall_forall. intros e He. apply in_map_iff in He. now destruct He as (b&<-&Hb).
Qed.
Print Assumptions C41_wsgi_streams.

Example C41_example :
  asgi_call (ex_app (EpUnary ex_method (fun _ _ => Fail ICancel))) 0%Z (ex_scope "POST" "application/proto") ex_env
  = mk_ar [InvMsg []] [] ACancelled
  /\ wr_out (wsgi_call (ex_app (ex_two ICancel)) 0%Z (ex_wq "POST" "application/connect+proto")) = WBase
  /\ List.length (wr_events (wsgi_call (ex_app (ex_two ICancel)) 0%Z (ex_wq "POST" "application/connect+proto"))) = 3%nat.
Proof. split; [reflexivity|]. split; reflexivity. Qed.

(** ASGI streams: the task of a streaming method is cancelled and the client is sent status 0. *)
Theorem C41_stream_refuted :
  exists (ap : app pystr pystr) now sc en m f hs cx k steps rs' body,
    asgi_stream_request ap now sc (EpBidi m f) hs PGrpc cx k
    /\ behaves (f cx) (request_stream ap k identity_comp en) rs_new steps rs' (Some ICancel)
    /\ exists head, asgi_response (ar_events (asgi_call ap now sc en)) 200 head body (Some [(lit "x-t", lit "2"); (lit "grpc-status", lit "0")]).
Proof.
  eexists (ex_app (ex_two ICancel)), 0%Z, (ex_scope "POST" "application/grpc+proto"), ex_env, ex_method, _, _, _, ex_codec, ex_steps, _, _.
  split; [|split].
  - split; [reflexivity|]. split; [|discriminate]. eexists. reflexivity.
  - cbn. repeat constructor.
  - eexists. exists [[0; 0; 0; 0; 1; 97]; [0; 0; 0; 0; 1; 98]], []. split; [reflexivity|]. reflexivity.
Qed.
Print Assumptions C41_stream_refuted.

(** ** C42: messages after a disconnect *)

(** If the disconnect is noticed before message number [n] (from 0), at most [n] messages are sent, whatever the method and
    [send] do. *)
Theorem C42_no_more_messages {A B} (ap : app A B) now sc en m f hs p cx k n :
  asgi_stream_request ap now sc (EpServerStream m f) hs p cx k -> en_watch en = WSeen n ->
  (message_events (ar_events (asgi_call ap now sc en)) <= n)%nat.
Proof. intros H Hw. rewrite (asgi_call_stream _ _ _ _ _ _ _ _ _ H). now apply asgi_watch_bound. Qed.
Print Assumptions C42_no_more_messages.

(** If the method has produced more than [n] messages by then, its generator is closed: its cleanup runs, exactly the first
    [n] messages are sent, and the response ends with CANCELED (or with what the cleanup raised) and the trailers as left by
    the cleanup. *)
Theorem C42_closed {A B} (ap : app A B) now sc en m f hs p cx k n rz z a steps rs' c frs head em ts :
  asgi_stream_request ap now sc (EpServerStream m f) hs p cx k -> en_watch en = WSeen n -> sends_ok (en_send en) ->
  negotiate_stream_compression p hs (ap_comps ap) = (Some rz, z) ->
  request_stream ap k rz en = ([a], None) ->
  closed_after n (f a cx) ([], None) rs_new steps rs' c ->
  written (k_enc_res k) z steps frs ->
  encode_pairs (stream_headers p (k_name k) (z_name z) (head_state steps (after_close rs' c))) = Ok head ->
  let e := match cl_raise c with Some j => j | None => IExn client_disconnected end in
  writer_end (ap_sc ap) p z (rs_t (after_close rs' c)) (option_map we_from_exception (reported (Some e))) = Ok em ->
  (forall t, em = EndTrailers t -> encode_pairs (h_allitems t) = Ok ts) ->
  asgi_call ap now sc en
  = mk_ar [InvMsg a] (EvStart 200 head (uses_trailers p) :: map (fun b => EvBody b true) frs ++ asgi_tail em ts) (asgi_out (Some e)).
Proof.
  intros H Hw Ho Hn Hps Hc Hwr Hh e He Hts. rewrite (asgi_call_stream _ _ _ _ _ _ _ _ _ H).
  exact (asgi_closed_normal ap en p m f k hs cx rz z a n steps rs' c frs head em ts Ho Hw Hn Hps Hc Hwr Hh He Hts).
Qed.
Print Assumptions C42_closed.

Definition ex_watched : endpoint pystr pystr :=
  EpServerStream ex_method (fun _ _ => Yield (lit "a") quiet (Yield (lit "b") (mk_close [] [Add (lit "x-closed") (lit "1")] None) (Ret tt))).
Definition ex_seen : env := mk_env [RReq [0; 0; 0; 0; 0] false] None (WSeen 1) (fun _ => SOk).
Example C42_example :
  exists hs cx c, asgi_stream_request (ex_app ex_watched) 0%Z (ex_scope "POST" "application/grpc+proto") ex_watched hs PGrpc cx ex_codec
  /\ closed_after 1 (Yield (lit "a") quiet (Yield (lit "b") c (Ret tt)) : prog Empty_set pystr unit) ([], None) rs_new [(rs_new, lit "a")] rs_new c
  /\ asgi_call (ex_app ex_watched) 0%Z (ex_scope "POST" "application/grpc+proto") ex_seen
     = mk_ar [InvMsg []] [EvStart 200 [(lit "content-type", lit "application/grpc+proto"); (lit "grpc-encoding", lit "identity")] true;
                        EvBody [0; 0; 0; 0; 1; 97] true; EvBody [] false;
                        EvTrailers [(lit "x-closed", lit "1"); (lit "grpc-status", lit "1"); (lit "grpc-message", lit "Client%20disconnected")]]
         AReturn.
Proof.
  eexists _, _, (mk_close [] [Add (lit "x-closed") (lit "1")] None). split; [|split].
  - split; [reflexivity|]. split; [|discriminate]. eexists. reflexivity.
  - constructor. apply ca_here.
  - reflexivity.
Qed.

(** ** C57: messages before an error *)

(** Whatever ends the method ([e]), and even if its trailers or error cannot be encoded: the response starts once, with the
    headers set before the first message, followed by every message in order; only ending events follow. *)
Theorem C57_messages_first {A B} (ap : app A B) now sc en ep hs p cx k req z inv steps rs' e frs head :
  asgi_stream_request ap now sc ep hs p cx k -> sends_ok (en_send en) ->
  negotiate_stream_compression p hs (ap_comps ap) = (req, z) ->
  stream_runs ep cx req (fun rz => request_stream ap k rz en) inv steps rs' e ->
  unwatched ep en (List.length steps) ->
  written (k_enc_res k) z steps frs -> steps <> [] ->
  encode_pairs (stream_headers p (k_name k) (z_name z) (head_state steps rs')) = Ok head ->
  exists tail, ar_events (asgi_call ap now sc en)
               = EvStart 200 head (uses_trailers p) :: map (fun b => EvBody b true) frs ++ tail
            /\ Forall ending tail.
Proof.
  intros H Ho Hn Hr Hu Hw Hne Hh. rewrite (asgi_call_stream _ _ _ _ _ _ _ _ _ H).
  exact (proj2 (asgi_stream_messages ap en p ep k hs cx req z inv steps rs' e frs head Ho Hn Hr Hu Hw Hne Hh)).
Qed.
Print Assumptions C57_messages_first.

(** The whole response when trailers and error can be encoded. *)
Theorem C57_asgi_response {A B} (ap : app A B) now sc en ep hs p cx k req z inv steps rs' e frs head em ts :
  asgi_stream_request ap now sc ep hs p cx k -> sends_ok (en_send en) ->
  negotiate_stream_compression p hs (ap_comps ap) = (req, z) ->
  stream_runs ep cx req (fun rz => request_stream ap k rz en) inv steps rs' e ->
  unwatched ep en (List.length steps) ->
  written (k_enc_res k) z steps frs ->
  encode_pairs (stream_headers p (k_name k) (z_name z) (head_state steps rs')) = Ok head ->
  writer_end (ap_sc ap) p z (rs_t rs') (option_map we_from_exception (reported e)) = Ok em ->
  (forall t, em = EndTrailers t -> encode_pairs (h_allitems t) = Ok ts) ->
  asgi_call ap now sc en
  = mk_ar inv (EvStart 200 head (uses_trailers p) :: map (fun b => EvBody b true) frs ++ asgi_tail em ts) (asgi_out e).
Proof.
  intros H Ho Hn Hr Hu Hw Hh He Hts. rewrite (asgi_call_stream _ _ _ _ _ _ _ _ _ H).
  exact (asgi_stream_normal ap en p ep k hs cx req z inv steps rs' e frs head em ts Ho Hn Hr Hu Hw Hh He Hts).
Qed.
Print Assumptions C57_asgi_response.

Theorem C57_wsgi_response {A B} (ap : app A B) now q ep hs p cx k req z inv steps rs' e frs em :
  wsgi_stream_request ap now q ep hs p cx k -> drain q 0 = None -> drain q 2 = None ->
  negotiate_stream_compression p hs (ap_comps ap) = (req, z) ->
  stream_runs ep cx req (fun rz => wsgi_request_stream ap k rz q) inv steps rs' e -> e <> Some ICancel ->
  written (k_enc_res k) z steps frs ->
  writer_end (ap_sc ap) p z (rs_t rs') (option_map we_from_exception (reported e)) = Ok em ->
  wsgi_call ap now q
  = mk_wr inv (wsgi_logged steps e ++ WStart (lit "200 OK") (stream_headers p (k_name k) (z_name z) (head_state steps rs'))
              :: map WBody frs ++ wsgi_tail em) WReturn.
Proof. apply wsgi_call_normal. Qed.
Print Assumptions C57_wsgi_response.

(** The method behaviour the theorems speak about exists for every method and request. *)
Theorem C57_behaviour_exists {A B} (ep : endpoint A B) cx req ps : exists inv steps rs' e, stream_runs ep cx req ps inv steps rs' e.
Proof. apply stream_runs_total. Qed.
Print Assumptions C57_behaviour_exists.

Example C57_example :
  exists hs cx rs', asgi_stream_request (ex_app (ex_two (IExn ex_gone))) 0%Z (ex_scope "POST" "application/connect+proto") (ex_two (IExn ex_gone)) hs PConnect cx ex_codec
  /\ negotiate_stream_compression PConnect hs (ap_comps (ex_app (ex_two (IExn ex_gone)))) = (Some identity_comp, identity_comp)
  /\ stream_runs (ex_two (IExn ex_gone)) cx (Some identity_comp) (fun rz => request_stream (ex_app (ex_two (IExn ex_gone))) ex_codec rz ex_env)
       [InvStream] ex_steps rs' (Some (IExn ex_gone))
  /\ written (k_enc_res ex_codec) identity_comp ex_steps [[0; 0; 0; 0; 1; 97]; [0; 0; 0; 0; 1; 98]]
  /\ match ar_events (asgi_call (ex_app (ex_two (IExn ex_gone))) 0%Z (ex_scope "POST" "application/connect+proto") ex_env) with
     | [EvStart 200 hs false; EvBody b1 true; EvBody b2 true; EvBody e false] =>
         hs = [(lit "content-type", lit "application/connect+proto"); (lit "connect-content-encoding", lit "identity"); (lit "x-h", lit "1")]
         /\ b1 = [0; 0; 0; 0; 1; 97] /\ b2 = [0; 0; 0; 0; 1; 98] /\ hd 0 e = 2
     | _ => False
     end.
Proof.
  do 3 eexists. split; [|split; [|split; [|split]]].
  - split; [reflexivity|]. split; [|reflexivity]. eexists. reflexivity.
  - reflexivity.
  - left. split; [reflexivity|]. repeat constructor.
  - repeat constructor.
  - vm_compute. repeat split; reflexivity.
Qed.

(** ** C60: unexpected exceptions are surfaced *)

(** ASGI, unary Connect methods: the application call never returns normally, and raises the method's exception once the
    error response is out. *)
Theorem C60_asgi_unary {A B} (ap : app A B) now sc en m f hs cx a x rs :
  open_request ap now sc = Ok (EpUnary m f, hs, PConnect, cx) ->
  In (InvMsg a) (ar_inv (asgi_call ap now sc en)) ->
  run_fn (f a cx) ([], None) rs_new = (FInt (IExn x), rs) -> is_connect x = false -> is_http x = false ->
  ar_out (asgi_call ap now sc en) <> AReturn
  /\ (asgi_complete (ar_events (asgi_call ap now sc en)) -> ar_out (asgi_call ap now sc en) = ARaise x).
Proof.
  intros Ho Hi Hr Hc Hh.
  assert (K : forall inv : list (invoked A), let r := call_error en inv (mk_ast 0 []) x (Some rs) in
     ar_out r <> AReturn /\ (asgi_complete (ar_events r) -> ar_out r = ARaise x)).
  { intro inv. unfold call_error.
    destruct (handle_error_cases (en_send en) x (Some rs) (mk_ast 0 [])) as [(st&hs'&body&_&_&->)|[(st&hs'&s'&i&_&->&Hs)|(s'&i&->&Hs)]].
    - rewrite Hc, Hh. cbn. split; [discriminate|auto].
    - split; [destruct i; discriminate|]. cbn [ar_events]. rewrite Hs. intros (st'&h'&b'&ts&ch&la&E&_). exfalso.
      apply (f_equal (@List.length _)) in E. cbn in E. rewrite app_length in E. cbn in E. lia.
    - split; [destruct i; discriminate|]. cbn [ar_events]. rewrite Hs. intros (st'&h'&b'&ts&ch&la&E&_). discriminate. }
  unfold asgi_call in *. rewrite Ho in *. destruct (select_codec _ _ _ _ _) as [[params k]|e].
  2:{ unfold call_error in Hi. destruct (handle_error _ _ _ _) as [s r]. destruct Hi. }
  destruct (handle_unary_connect_cases ap en (sc_method sc) hs k params f cx (mk_ast 0 [])) as [(i&E)|[(b&i&rs'&Hb&E)|(b&c&rs'&z&Hb&E)]];
    rewrite E in *.
  - exfalso. destruct i; [unfold call_error in Hi; destruct (handle_error _ _ _ _)|]; destruct Hi.
  - assert (b = a). { destruct i; [unfold call_error in Hi; destruct (handle_error _ _ _ _)|]; destruct Hi as [[= ->]|[]]; reflexivity. }
    subst b. rewrite Hr in Hb. injection Hb as <- <-. apply K.
  - exfalso. assert (b = a).
    { destruct (send_unary_response _ _ _ _ _ _) as [s' [u|[y|]]]; [|unfold call_error in Hi; destruct (handle_error _ _ _ _)|];
        destruct Hi as [[= ->]|[]]; reflexivity. }
    subst b. rewrite Hr in Hb. discriminate.
Qed.
Print Assumptions C60_asgi_unary.

(** ASGI streams, wherever the exception is raised: the application call does not return normally; if the rest of the
    response can be sent it raises the method's exception. *)
Theorem C60_asgi_streams {A B} (ap : app A B) now sc en ep hs p cx k req z inv steps rs' x frs head :
  asgi_stream_request ap now sc ep hs p cx k -> sends_ok (en_send en) ->
  negotiate_stream_compression p hs (ap_comps ap) = (req, z) ->
  stream_runs ep cx req (fun rz => request_stream ap k rz en) inv steps rs' (Some (IExn x)) -> is_connect x = false ->
  unwatched ep en (List.length steps) ->
  written (k_enc_res k) z steps frs ->
  encode_pairs (stream_headers p (k_name k) (z_name z) (head_state steps rs')) = Ok head ->
  ar_out (asgi_call ap now sc en) <> AReturn
  /\ (forall em ts, writer_end (ap_sc ap) p z (rs_t rs') (Some (we_from_exception x)) = Ok em ->
      (forall t, em = EndTrailers t -> encode_pairs (h_allitems t) = Ok ts) ->
      ar_out (asgi_call ap now sc en) = ARaise x).
Proof.
  intros H Ho Hn Hr Hx Hu Hw Hh. rewrite (asgi_call_stream _ _ _ _ _ _ _ _ _ H). split.
  - exact (asgi_stream_raises ap en p ep k hs cx req z inv steps rs' x frs head Ho Hn Hr Hx Hu Hw (fun _ => Hh)).
  - intros em ts He Hts.
    rewrite (asgi_stream_normal ap en p ep k hs cx req z inv steps rs' _ frs head em ts Ho Hn Hr Hu Hw Hh He Hts). cbn. now rewrite Hx.
Qed.
Print Assumptions C60_asgi_streams.

(** WSGI: logged for unary Connect methods ... *)
Theorem C60_wsgi_unary {A B} (ap : app A B) now q m f hs cx a x rs :
  wsgi_open_request ap now q = Ok (EpUnary m f, hs, PConnect, cx) ->
  In (InvMsg a) (wr_inv (wsgi_call ap now q)) ->
  run_fn (f a cx) ([], None) rs_new = (FInt (IExn x), rs) -> is_connect x = false -> is_http x = false ->
  drain q 1 = None ->
  In (WLog x) (wr_events (wsgi_call ap now q)).
Proof.
  intros Ho Hi Hr Hc Hh Hd. unfold wsgi_call in *. rewrite Ho in *. unfold wsgi_unary in *.
  destruct (if str_eqb _ _ then _ else _) as [[b k]|e].
  2:{ exfalso. unfold wsgi_call_error in Hi. rewrite Hd in Hi. destruct (wsgi_handle_error _ _); destruct Hi. }
  assert (b = a).
  { destruct (run_fn (f b cx) _ _) as [[c|[y|]] rs']; [destruct (do body <- k_enc_res k c; _) as [[z body]|y]|..];
      try (unfold wsgi_call_error in Hi; rewrite Hd in Hi; destruct (wsgi_handle_error _ _)); destruct Hi as [[= ->]|[]]; reflexivity. }
  subst b. rewrite Hr. unfold wsgi_call_error, maybe_log. rewrite Hd, Hc, Hh. cbn [orb List.app].
  destruct (wsgi_handle_error _ _); cbn; auto.
Qed.
Print Assumptions C60_wsgi_unary.

(** ... and for streams before their first message.  Missing: later exceptions ([C60_wsgi_refuted]). *)
Theorem C60_wsgi_streams_partial {A B} (ap : app A B) now q ep hs p cx k req z inv rs' x :
  wsgi_stream_request ap now q ep hs p cx k -> drain q 0 = None -> drain q 1 = None ->
  negotiate_stream_compression p hs (ap_comps ap) = (req, z) ->
  stream_runs ep cx req (fun rz => wsgi_request_stream ap k rz q) inv [] rs' (Some (IExn x)) -> is_connect x = false -> is_http x = false ->
  In (WLog x) (wr_events (wsgi_call ap now q)).
Proof.
  intros Hq D0 D1 Hn Hr Hc Hh. rewrite (wsgi_call_stream _ _ _ _ _ _ _ _ Hq). destruct Hq as (_&Hk&_). unfold wsgi_stream. rewrite Hn, Hk. cbv zeta.
  destruct req as [rz|]; cbn [stream_runs] in Hr.
  2:{ destruct Hr as (_&_&_&E). injection E as ->. discriminate. }
  rewrite (wsgi_runs p ep k z _ cx inv [] rs' _ [] Hr (Forall2_nil _)). cbn [ws_started ws_ev end_of loop_interrupt].
  unfold wsgi_stream_error, maybe_log. rewrite D0, Hc, Hh. cbn [orb List.app]. destruct (end_response _ _ _ _ _) as [fin|y].
  - left. reflexivity.
  - unfold wsgi_call_error. rewrite D1. destruct (wsgi_handle_error _ _); cbn [wr_events]; left; reflexivity.
Qed.
Print Assumptions C60_wsgi_streams_partial.

Example C60_example :
  let boom := EpUnary ex_method (fun _ _ => Fail (IExn ex_bug)) in
  let ep : endpoint pystr pystr := EpBidi ex_method (fun _ => Fail (IExn ex_bug)) in
  ar_out (asgi_call (ex_app boom) 0%Z (ex_scope "POST" "application/proto") ex_env) = ARaise ex_bug
  /\ ar_out (asgi_call (ex_app (ex_two (IExn ex_bug))) 0%Z (ex_scope "POST" "application/connect+proto") ex_env) = ARaise ex_bug
  /\ hd_error (wr_events (wsgi_call (ex_app boom) 0%Z (ex_wq "POST" "application/proto"))) = Some (WLog ex_bug)
  /\ hd_error (wr_events (wsgi_call (ex_app ep) 0%Z (ex_wq "POST" "application/connect+proto"))) = Some (WLog ex_bug).
Proof. repeat split; reflexivity. Qed.

(** WSGI: an exception after the first message is neither raised nor logged. *)
Theorem C60_wsgi_refuted :
  exists (ap : app pystr pystr) now q m f hs cx k steps rs' x,
    wsgi_stream_request ap now q (EpBidi m f) hs PConnect cx k
    /\ behaves (f cx) (wsgi_request_stream ap k identity_comp q) rs_new steps rs' (Some (IExn x))
    /\ is_connect x = false /\ is_http x = false
    /\ wr_out (wsgi_call ap now q) = WReturn
    /\ Forall (fun e => match e with WLog _ => False | _ => True end) (wr_events (wsgi_call ap now q)).
Proof.
  eexists (ex_app (ex_two (IExn ex_bug))), 0%Z, (ex_wq "POST" "application/connect+proto"), ex_method, _, _, _, ex_codec, ex_steps, _, ex_bug.
  split; [|split; [|split; [|split; [|split]]]]; try reflexivity.
  - split; [reflexivity|]. split; [reflexivity|]. intros _. reflexivity.
  - cbn. repeat constructor.
  - assert (H : exists e1 h b1 b2, wr_events (wsgi_call (ex_app (ex_two (IExn ex_bug))) 0%Z (ex_wq "POST" "application/connect+proto"))
       = [WStart (lit "200 OK") h; WBody b1; WBody b2; WBody e1]) by (do 4 eexists; reflexivity).
    destruct H as (e1&h&b1&b2&->). repeat constructor.
Qed.
Print Assumptions C60_wsgi_refuted.
