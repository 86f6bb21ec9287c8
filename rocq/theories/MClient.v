(** The clients.  Models src/connectrpc/_client_async.py, _client_sync.py, _client_shared.py.
    The HTTP library (pyqwest) is a parameter: a function from the request to what the library does with it. *)
From Coq Require Import List NArith ZArith Bool String.
From Verif Require Import MBase MPyStr MHeaders MUtf8 MBase64 MPercent MWire MEnvelope MTimeout MProtocol.
Import ListNotations.
Local Open Scope N_scope.

(** [Codec] (codec.py): name, and encode/decode for the request and response message classes of a method. *)
Record codec (A B : Type) := mk_codec {
  k_name : pystr;
  k_enc_req : A -> res bytes;
  k_dec_req : bytes -> res A;
  k_enc_res : B -> res bytes;
  k_dec_res : bytes -> res B
}.
Arguments mk_codec {A B}. Arguments k_name {A B}. Arguments k_enc_req {A B}. Arguments k_dec_req {A B}.
Arguments k_enc_res {A B}. Arguments k_dec_res {A B}.

(** ** The HTTP library *)

(** Something raised at an [await] or by a call of the library: an [Exception], the cancellation of the running
    task ([asyncio.CancelledError]), or the closing of the response generator by its consumer ([GeneratorExit]). *)
Inductive fault := FExn (e : exn) | FCancel | FClose.

(** A request handed to the library.  [rq_body] is the body iterator: the chunks it produces, and the exception
    that ends it, if any.  [rq_timeout] is the timeout in seconds. *)
Record http_request := mk_rq {
  rq_method : pystr;
  rq_url : pystr;
  rq_headers : http_headers;
  rq_body : list bytes * option exn;
  rq_timeout : option fl
}.

(** A buffered response ([pyqwest.FullResponse]); the library has already undone the content-encoding. *)
Record full_response := mk_fr { fr_status : N; fr_headers : http_headers; fr_content : bytes }.
Inductive unary_outcome := UResp (r : full_response) | UFault (f : fault).

(** A streaming response: [sp_chunks] are delivered, then [sp_fault] is raised, or the body ends.
    [sp_trailers] are the HTTP trailers.  [sp_exit b] is the exception raised when the response context is left,
    normally ([b = true]) or by an exception ([b = false]). *)
Record stream_response := mk_sp {
  sp_status : N;
  sp_headers : http_headers;
  sp_chunks : list bytes;
  sp_fault : option fault;
  sp_trailers : http_headers;
  sp_exit : bool -> option exn
}.
Inductive stream_outcome := SResp (r : stream_response) | SFault (f : fault).

(** The library as seen by one call. *)
Record network := mk_net {
  nw_unary : http_request -> unary_outcome;
  nw_stream : http_request -> stream_outcome
}.

(** Clock readings of one call: context creation, sending, and the check after the body (all in MTimeout's clock). *)
Record clocks := mk_clk { ck_start : fl; ck_send : fl; ck_late : fl }.

(** ** Client objects *)

(** [ConnectClient] / [ConnectClientSync] (_client_async.py:89-175).  [cl_sync] tells the two classes apart.
    [cl_ua] is the default user agent, [cl_sc] the protobuf runtime for google.rpc.Status.  Interceptors are
    modelled in MIntercept. *)
Record client (A B : Type) := mk_client {
  cl_sync : bool;
  cl_address : pystr;
  cl_proto : proto;
  cl_codec : codec A B;
  cl_comps : dict compression;
  cl_send : compression;
  cl_timeout : option Z;
  cl_max : option N;
  cl_ua : pystr;
  cl_sc : status_codec;
  cl_closed : bool
}.
Arguments mk_client {A B}. Arguments cl_sync {A B}. Arguments cl_address {A B}. Arguments cl_proto {A B}.
Arguments cl_codec {A B}. Arguments cl_comps {A B}. Arguments cl_send {A B}. Arguments cl_timeout {A B}.
Arguments cl_max {A B}. Arguments cl_ua {A B}. Arguments cl_sc {A B}. Arguments cl_closed {A B}.

(** The constructor (_client_async.py:89-131, _client_sync.py likewise). *)
Definition client_new {A B} (sync : bool) (address : pystr) (p : proto) (k : codec A B) (accept : list compression)
    (send : option compression) (timeout : option Z) (max : option N) (ua : pystr) (sc : status_codec) : client A B :=
  mk_client sync address p k (resolve_compressions accept)
    (match send with Some c => c | None => identity_comp end) timeout max ua sc false.

(** [close()] (_client_async.py:177-180). *)
Definition client_close {A B} (c : client A B) : client A B :=
  mk_client (cl_sync c) (cl_address c) (cl_proto c) (cl_codec c) (cl_comps c) (cl_send c) (cl_timeout c)
    (cl_max c) (cl_ua c) (cl_sc c) true.

(** [",".join(self._response_compressions.keys())] (_client_async.py:125). *)
Definition accept_header_value {A B} (c : client A B) : pystr := join (lit ",") (dkeys (cl_comps c)).

(** The context made by [execute_unary] / [execute_*_stream] (_client_async.py:193-276). *)
Definition call_ctx {A B} (c : client A B) (start : fl) (m : method_info) (u : uheaders) (timeout : option Z)
    (stream use_get : bool) : req_ctx :=
  client_create_context start (cl_ua c) (cl_proto c) m (cl_address c) (if use_get then lit "GET" else lit "POST") u
    (effective_timeout timeout (cl_timeout c)) (k_name (cl_codec c)) stream (accept_header_value c)
    (Some (cl_send c)).

(** [f"{self._address}/{service}/{name}"] (_client_async.py:287). *)
Definition call_url {A B} (c : client A B) (m : method_info) : pystr :=
  cl_address c ++ lit "/" ++ mi_service m ++ lit "/" ++ mi_name m.

(** [timeout_s] (_client_async.py:288-291). *)
Definition timeout_s (cx : req_ctx) (now : fl) : option fl :=
  match cx_remaining cx now with Some ms => Some (fl_div ms (fl_of_Z 1000)) | None => None end.

(** pyqwest [Headers.pop(name)]. *)
Definition hh_pop (h : http_headers) (k : pystr) : http_headers :=
  filter (fun p => negb (str_eqb (lower (fst p)) (lower k))) h.

(** [prepare_get_params] (_client_shared.py:22-31). *)
Definition prepare_get_params (codec_name : pystr) (data : bytes) (hs : http_headers)
  : list (pystr * pystr) * http_headers :=
  let base := [(lit "connect", lit "v1"); (lit "base64", lit "1")] in
  let (comp, hs) := match hh_get hs (lit "content-encoding") with
                    | Some e => ([(lit "compression", e)], hh_pop hs (lit "content-encoding"))
                    | None => ([], hs)
                    end in
  (base ++ comp ++ [(lit "encoding", codec_name); (lit "message", urlsafe_b64encode data)], hs).

(** ** Outcomes *)

(** What a call gives its caller: a value, an [Exception], or a [BaseException] that is not one. *)
Inductive cout (A : Type) := COk (a : A) | CErr (e : exn) | CRaw (f : fault).
Arguments COk {A} a. Arguments CErr {A} e. Arguments CRaw {A} f.

Definition timed_out : exn := EConnect DeadlineExceeded (lit "Request timed out") [].
Definition was_cancelled : exn := EConnect Canceled (lit "Request was cancelled") [].

(** The [except] chain of the unary path (_client_async.py:338-345, _client_sync.py:335-340). *)
Definition unary_except {A} (sync : bool) (f : fault) : cout A :=
  match f with
  | FExn (EOther KTimeout _) => CErr timed_out
  | FExn (EConnect c m ds) => CErr (EConnect c m ds)
  | FCancel => if sync then CRaw FCancel else CErr was_cancelled
  | FExn e => CErr (EConnect Unavailable (str_of_exn e) [])
  | FClose => CRaw FClose
  end.

Definition too_large (max : N) : exn :=
  EConnect ResourceExhausted (lit "message is larger than configured max " ++ dec_of_N max) [].

(** The request of a Connect unary call (_client_async.py:286-318); [Raise] when encoding, compression or the
    query string fails. *)
Definition unary_request {A B} (c : client A B) (cx : req_ctx) (now : fl) (a : A) : res http_request :=
  let hs := h_allitems (cx_headers cx) in
  let url := call_url c (cx_method cx) in
  do data <- k_enc_req (cl_codec c) a ;
  do data <- z_compress (cl_send c) data ;
  if str_eqb (cx_http cx) (lit "GET") then
    let (params, hs) := prepare_get_params (k_name (cl_codec c)) data hs in
    match urlencode params with
    | None => Raise (EOther KValue (lit "surrogates not allowed"))
    | Some q => Ok (mk_rq (lit "GET") (url ++ lit "?" ++ q) (hh_pop hs (lit "content-type")) ([], None)
                      (timeout_s cx now))
    end
  else Ok (mk_rq (lit "POST") url hs ([data], None) (timeout_s cx now)).

(** What is done with a buffered response (_client_async.py:320-337). *)
Definition unary_response {A B} (c : client A B) (r : full_response) (md : option metadata)
  : res B * option metadata :=
  let ct := match hh_get (fr_headers r) (lit "content-type") with Some v => v | None => [] end in
  match validate_response (cl_proto c) (k_name (cl_codec c)) (fr_status r) ct with
  | Some e => (Raise e, md)
  | None =>
      match handle_response_compression (cl_proto c) false (fr_headers r) (cl_comps c) with
      | Raise e => (Raise e, md)
      | Ok _ =>
          let md := handle_response_headers md (fr_headers r) in
          (if fr_status r =? 200 then
             match cl_max c with
             | Some mx => if mx <? lenN (fr_content r) then Raise (too_large mx)
                          else k_dec_res (cl_codec c) (fr_content r)
             | None => k_dec_res (cl_codec c) (fr_content r)
             end
           else do w <- we_from_response (fr_status r) (fr_content r) ; Raise (we_to_exception w), md)
      end
  end.

(** Result of one call: the requests handed to the library, the outcome, the ResponseMetadata in scope after it. *)
Record call_result (B : Type) := mk_cr { cr_sent : list http_request; cr_out : cout B; cr_md : option metadata }.
Arguments mk_cr {B}. Arguments cr_sent {B}. Arguments cr_out {B}. Arguments cr_md {B}.

(** [_send_request_unary] for the Connect protocol (_client_async.py:286-345, _client_sync.py:283-340). *)
Definition send_unary_connect {A B} (c : client A B) (cx : req_ctx) (ck : clocks) (net : network)
    (md : option metadata) (a : A) : call_result B :=
  match unary_request c cx (ck_send ck) a with
  | Raise e => mk_cr [] (unary_except (cl_sync c) (FExn e)) md
  | Ok rq =>
      match nw_unary net rq with
      | UFault f => mk_cr [rq] (unary_except (cl_sync c) f) md
      | UResp r =>
          let (v, md) := unary_response c r md in
          mk_cr [rq] (match v with Ok b => COk b | Raise e => unary_except (cl_sync c) (FExn e) end) md
      end
  end.

(** ** Streaming *)

(** [maybe_map_stream_reset(e, ctx)] (_client_shared.py:35-69); [expired] is [ctx.timeout_ms <= 0]. *)
Definition map_stream_reset (e : exn) (expired : bool) : option exn :=
  match e with
  | EOther (KReset c) msg =>
      match c with
      | RNoError | RProtocolError | RInternalError | RFlowControlError | RSettingsTimeout
      | RFrameSizeError | RCompressionError | RConnectError => Some (EConnect Internal msg [])
      | RRefusedStream => Some (EConnect Unavailable msg [])
      | RCancel => Some (EConnect (if expired then DeadlineExceeded else Canceled) msg [])
      | REnhanceYourCalm => Some (EConnect ResourceExhausted (lit "Bandwidth exhausted: " ++ msg) [])
      | RInadequateSecurity => Some (EConnect PermissionDenied (lit "Transport protocol insecure: " ++ msg) [])
      | _ => None
      end
  | _ => None
  end.

(** [_streaming_request_content] (_client_async.py:430-435): the frames, until the iterator or the encoder raises.
    All protocols write the same frames (ConnectEnvelopeWriter without its end message). *)
Fixpoint request_content {A B} (c : client A B) (msgs : list A) (tail : option exn) : list bytes * option exn :=
  match msgs with
  | [] => ([], tail)
  | m :: ms =>
      match write_message (k_enc_req (cl_codec c)) (Some (cl_send c)) m with
      | Raise e => ([], Some e)
      | Ok b => let (bs, e) := request_content c ms tail in (b :: bs, e)
      end
  end.

(** [for chunk in resp.content: for message in reader.feed(chunk): yield message] (_client_async.py:400-405,
    _client_sync.py:399-400).  [stop = Some (n, f)]: fault [f] is raised where the generator is suspended after
    its [n+1]-th message from here (the yield itself, or [sleep(0)]).  [feed] is a generator: the frames after that
    message are not read. *)
Fixpoint consume {M} (cf : rconf M) (r : reader) (chunks : list bytes) (stop : option (nat * fault))
  : list M * option fault * reader :=
  match chunks with
  | [] => ([], None, r)
  | ch :: cs =>
      let '(ms, e, r1) := feed cf r ch in
      let continue stop :=
        match e with
        | Some x => (ms, Some (FExn x), r1)
        | None => let '(ms', f, r2) := consume cf r1 cs stop in (ms ++ ms', f, r2)
        end in
      match stop with
      | None => continue None
      | Some (n, f) =>
          if Nat.ltb n (List.length ms) then (firstn (S n) ms, Some f, reader_at cf (feed_first cf r ch) n)
          else continue (Some ((n - List.length ms)%nat, f))
      end
  end.

Definition reader_kind (p : proto) : rkind :=
  match p with PConnect => RConnect | PGrpc => RGrpc | PGrpcWeb => RGrpcWeb end.

(** Leaving [async with ... as resp] / [with ... as resp] with pending fault [f]. *)
Definition leave (r : stream_response) (f : option fault) : option fault :=
  match sp_exit r (match f with None => true | Some _ => false end) with
  | Some e => Some (FExn e)
  | None => f
  end.

Definition stream_end := cout unit.

(** The [except] chain of the streaming path (_client_async.py:413-427, _client_sync.py:411-436).
    [rd] is the reader and response, when both exist; [serr] is [stream_error] (sync only). *)
Definition stream_except {A B} (c : client A B) (expired : bool) (rd : option (reader * stream_response))
    (serr : option exn) (md : option metadata) (f : fault) : stream_end * option metadata :=
  match f with
  | FExn (EOther KTimeout _) => (CErr timed_out, md)
  | FExn (EConnect k m ds) => (CErr (EConnect k m ds), md)
  | FCancel => (if cl_sync c then CRaw FCancel else CErr was_cancelled, md)
  | FClose => (CRaw FClose, md)
  | FExn e =>
      match serr with
      | Some s => (CErr s, md)
      | None =>
          match map_stream_reset e expired with
          | Some rst =>
              match rd with
              | Some (r, resp) =>
                  let (o, md) := response_complete (cl_sc c) (reader_kind (cl_proto c)) r
                                   (sp_headers resp) (sp_trailers resp) (Some rst) in
                  (CErr (match o with Some x => x | None => rst end), md)
              | None => (CErr rst, md)
              end
          | None => (CErr (EConnect Unavailable (str_of_exn e) []), md)
          end
      end
  end.

(** [t <= 0] for [ctx.timeout_ms] read at [now]. *)
Definition deadline_passed (cx : req_ctx) (now : fl) : bool :=
  match cx_remaining cx now with Some t => (t <=? 0)%Z | None => false end.

Record stream_result (B : Type) := mk_sr {
  sr_sent : list http_request;
  sr_msgs : list B;
  sr_end : stream_end;
  sr_md : option metadata
}.
Arguments mk_sr {B}. Arguments sr_sent {B}. Arguments sr_msgs {B}. Arguments sr_end {B}. Arguments sr_md {B}.

(** [_send_request_bidi_stream] (_client_async.py:359-427, _client_sync.py:352-436), from the request stream to
    everything the response iterator gives its consumer. *)
Definition send_stream {A B} (c : client A B) (cx : req_ctx) (ck : clocks) (net : network) (md : option metadata)
    (reqs : list A * option exn) (stop : option (nat * fault)) : stream_result B :=
  let rq := mk_rq (lit "POST") (call_url c (cx_method cx)) (h_allitems (cx_headers cx))
              (request_content c (fst reqs) (snd reqs)) (timeout_s cx (ck_send ck)) in
  let expired := deadline_passed cx (ck_late ck) in
  let fail ms rd serr md f :=
    let (e, md) := stream_except c expired rd serr md f in mk_sr [rq] ms e md in
  match nw_stream net rq with
  | SFault f => fail [] None None md f
  | SResp resp =>
      let md := handle_response_headers md (sp_headers resp) in
      let finish ms rd serr md f :=
        match leave resp f with
        | None => mk_sr [rq] ms (COk tt) md
        | Some f => fail ms rd serr md f
        end in
      if sp_status resp =? 200 then
        let ct := match hh_get (sp_headers resp) (lit "content-type") with Some v => v | None => [] end in
        match validate_stream_response (cl_proto c) (k_name (cl_codec c)) ct with
        | Some e => finish [] None None md (Some (FExn e))
        | None =>
            match handle_response_compression (cl_proto c) true (sp_headers resp) (cl_comps c) with
            | Raise e => finish [] None None md (Some (FExn e))
            | Ok z =>
                let cf := mk_rconf (reader_kind (cl_proto c)) z (cl_max c) (k_dec_res (cl_codec c)) in
                let '(ms, f, r) := consume cf (reader_new md) (sp_chunks resp) stop in
                let f := match f with Some f => Some f | None => sp_fault resp end in
                let serr := match f with
                            | Some (FExn (EConnect k m ds)) => if cl_sync c then Some (EConnect k m ds) else None
                            | _ => None
                            end in
                match f with
                | Some f => finish ms (Some (r, resp)) serr (r_md r) (Some f)
                | None =>
                    if cl_sync c && expired
                    then finish ms (Some (r, resp)) None (r_md r) (Some (FExn (EOther KTimeout [])))
                    else
                      let (o, md) := response_complete (cl_sc c) (reader_kind (cl_proto c)) r
                                       (sp_headers resp) (sp_trailers resp) None in
                      finish ms (Some (r, resp)) None md
                        (match o with Some e => Some (FExn e) | None => None end)
                end
            end
        end
      else
        match sp_fault resp with
        | Some f => finish [] None None md (Some f)
        | None =>
            match we_from_response (sp_status resp) (List.concat (sp_chunks resp)) with
            | Raise e => finish [] None None md (Some (FExn e))
            | Ok w => finish [] None None md (Some (FExn (we_to_exception w)))
            end
        end
  end.

(** [_consume_single_response] (_client_async.py:442-452). *)
Definition consume_single {B} (ms : list B) (e : stream_end) : cout B :=
  match ms with
  | _ :: _ :: _ => CErr (EConnect Unimplemented (lit "unary response has multiple messages") [])
  | _ =>
      match e with
      | CErr x => CErr x
      | CRaw f => CRaw f
      | COk _ =>
          match ms with
          | [b] => COk b
          | _ => CErr (EConnect Unimplemented (lit "unary response has zero messages") [])
          end
      end
  end.

(** Where the stream stops for [_consume_single_response]: a second message is the last one it takes, and the suspended
    generator is closed, at once or when it is collected.  [stop] is what happens to it before that. *)
Definition single_stop (stop : option (nat * fault)) : option (nat * fault) :=
  match stop with Some (O, f) => Some (O, f) | _ => Some (1%nat, FClose) end.

Definition single_result {B} (r : stream_result B) : call_result B :=
  mk_cr (sr_sent r) (consume_single (sr_msgs r) (sr_end r)) (sr_md r).

(** [_send_request_unary] (_client_async.py:278-345, _client_sync.py:277-340). *)
Definition send_unary {A B} (c : client A B) (cx : req_ctx) (ck : clocks) (net : network) (md : option metadata)
    (a : A) (stop : option (nat * fault)) : call_result B :=
  match cl_proto c with
  | PConnect => send_unary_connect c cx ck net md a
  | _ => single_result (send_stream c cx ck net md ([a], None) (single_stop stop))
  end.

(** ** Calls (_client_async.py:193-276, without interceptors) *)
Definition execute_unary {A B} (c : client A B) (ck : clocks) (net : network) (md : option metadata)
    (m : method_info) (u : uheaders) (timeout : option Z) (use_get : bool) (a : A) (stop : option (nat * fault))
  : call_result B :=
  send_unary c (call_ctx c (ck_start ck) m u timeout false use_get) ck net md a stop.

Definition execute_client_stream {A B} (c : client A B) (ck : clocks) (net : network) (md : option metadata)
    (m : method_info) (u : uheaders) (timeout : option Z) (reqs : list A * option exn) (stop : option (nat * fault))
  : call_result B :=
  single_result (send_stream c (call_ctx c (ck_start ck) m u timeout true false) ck net md reqs (single_stop stop)).

Definition execute_server_stream {A B} (c : client A B) (ck : clocks) (net : network) (md : option metadata)
    (m : method_info) (u : uheaders) (timeout : option Z) (a : A) (stop : option (nat * fault)) : stream_result B :=
  send_stream c (call_ctx c (ck_start ck) m u timeout true false) ck net md ([a], None) stop.

Definition execute_bidi_stream {A B} (c : client A B) (ck : clocks) (net : network) (md : option metadata)
    (m : method_info) (u : uheaders) (timeout : option Z) (reqs : list A * option exn) (stop : option (nat * fault))
  : stream_result B :=
  send_stream c (call_ctx c (ck_start ck) m u timeout true false) ck net md reqs stop.
