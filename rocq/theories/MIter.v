(** The response iterator of a streaming call as its consumer drives it, one message at a time, and what it makes the HTTP library
    do.  Models [_send_request_bidi_stream] (_client_async.py:359-427, _client_sync.py:352-436), a generator, and its consumer
    [_consume_single_response] (_client_async.py:442-452, _client_sync.py:439-450).  [send_stream] of MClient.v is the same
    function from the first message to the end. *)
From Coq Require Import List NArith ZArith Bool String.
From Verif Require Import MBase MPyStr MHeaders MWire MEnvelope MTimeout MProtocol MClient.
Import ListNotations.
Local Open Scope N_scope.

(** What the library sees: a request; that its response was handed over; that the next part of the body is asked for, with what
    it answers ([None]: there is no more, or it fails); that the response context is left. *)
Inductive http_event := HRequest (rq : http_request) | HResponse | HRead (chunk : option bytes) | HRelease.

(** What the consumer does with the iterator: ask for the next message; or a fault is raised where it is suspended, by
    [close()] / [aclose()] or by cancelling the task that waits for it. *)
Inductive ask := AskNext | AskThrow (f : fault).
(** What it gets: a message, or the end of the iteration. *)
Inductive answer (B : Type) := AMsg (b : B) | AEnd (e : stream_end).
Arguments AMsg {B}. Arguments AEnd {B}.

(** Where the generator stands: not started; suspended at its [yield], inside the response context; finished.
    [it_md] is the ResponseMetadata in scope.  Simplification: the same one at every step (MLook.v: any at each). *)
Inductive position (B : Type) :=
| AtStart
| AtYield (rq : http_request) (resp : stream_response) (cf : rconf B) (r : reader) (rest : list bytes)
| AtEnd.
Arguments AtStart {B}. Arguments AtYield {B}. Arguments AtEnd {B}.
Record iterator (B : Type) := mk_it { it_pos : position B; it_md : option metadata }.
Arguments mk_it {B}. Arguments it_pos {B}. Arguments it_md {B}.

(** [for chunk in resp.content: for message in reader.feed(chunk): yield message] up to the next [yield]
    (_client_async.py:400-405, _client_sync.py:399-400). *)
Inductive stand (M : Type) := StMsg (m : M) (r : reader) (rest : list bytes) | StErr (e : exn) (r : reader) | StEnd (r : reader).
Arguments StMsg {M}. Arguments StErr {M}. Arguments StEnd {M}.
Fixpoint pump {M} (cf : rconf M) (p : pause M) (chunks : list bytes) : stand M * list http_event :=
  match p with
  | YMsg m r => (StMsg m r chunks, [])
  | YErr e r => (StErr e r, [])
  | YEnd r =>
      match chunks with
      | [] => (StEnd r, [HRead None])
      | ch :: cs => let (s, o) := pump cf (feed_first cf r ch) cs in (s, HRead (Some ch) :: o)
      end
  end.

(** The response context is left with [f] pending, and the [except] chain sees the rest. *)
Definition it_leave {A B} (c : client A B) (expired : bool) (resp : stream_response) (rd : option (reader * stream_response))
    (serr : option exn) (md : option metadata) (f : option fault) : iterator B * answer B * list http_event :=
  match leave resp f with
  | None => (mk_it AtEnd md, AEnd (COk tt), [HRelease])
  | Some f => let (e, md) := stream_except c expired rd serr md f in (mk_it AtEnd md, AEnd e, [HRelease])
  end.
(** [stream_error] (_client_sync.py:398-403). *)
Definition stream_error {A B} (c : client A B) (f : option fault) : option exn :=
  match f with
  | Some (FExn (EConnect k m ds)) => if cl_sync c then Some (EConnect k m ds) else None
  | _ => None
  end.

(** From the loop to its next [yield], or out of the context. *)
Definition it_go {A B} (c : client A B) (expired : bool) (rq : http_request) (resp : stream_response) (cf : rconf B)
    (p : pause B) (chunks : list bytes) : iterator B * answer B * list http_event :=
  let (s, o) := pump cf p chunks in
  match s with
  | StMsg m r rest => (mk_it (AtYield rq resp cf r rest) (r_md r), AMsg m, o)
  | StErr e r =>
      let f := Some (FExn e) in
      let '(it, a, o') := it_leave c expired resp (Some (r, resp)) (stream_error c f) (r_md r) f in (it, a, o ++ o')
  | StEnd r =>
      let '(it, a, o') :=
        match sp_fault resp with
        | Some f => it_leave c expired resp (Some (r, resp)) (stream_error c (Some f)) (r_md r) (Some f)
        | None =>
            if cl_sync c && expired
            then it_leave c expired resp (Some (r, resp)) None (r_md r) (Some (FExn (EOther KTimeout [])))
            else
              let (x, md) := response_complete (cl_sc c) (reader_kind (cl_proto c)) r (sp_headers resp) (sp_trailers resp) None in
              it_leave c expired resp (Some (r, resp)) None md (match x with Some e => Some (FExn e) | None => None end)
        end in
      (it, a, o ++ o')
  end.

(** The generator starts: nothing of the call is done before its consumer asks for the first message. *)
Definition it_start {A B} (c : client A B) (cx : req_ctx) (ck : clocks) (net : network) (md : option metadata)
    (reqs : list A * option exn) : iterator B * answer B * list http_event :=
  let rq := mk_rq (lit "POST") (call_url c (cx_method cx)) (h_allitems (cx_headers cx))
              (request_content c (fst reqs) (snd reqs)) (timeout_s cx (ck_send ck)) in
  let expired := deadline_passed cx (ck_late ck) in
  match nw_stream net rq with
  | SFault f => let (e, md) := stream_except c expired None None md f in (mk_it AtEnd md, AEnd e, [HRequest rq])
  | SResp resp =>
      let md := handle_response_headers md (sp_headers resp) in
      let leave o f := let '(it, a, o') := it_leave c expired resp None None md f in (it, a, HRequest rq :: HResponse :: o ++ o') in
      if sp_status resp =? 200 then
        let ct := match hh_get (sp_headers resp) (lit "content-type") with Some v => v | None => [] end in
        match validate_stream_response (cl_proto c) (k_name (cl_codec c)) ct with
        | Some e => leave [] (Some (FExn e))
        | None =>
            match handle_response_compression (cl_proto c) true (sp_headers resp) (cl_comps c) with
            | Raise e => leave [] (Some (FExn e))
            | Ok z =>
                let cf := mk_rconf (reader_kind (cl_proto c)) z (cl_max c) (k_dec_res (cl_codec c)) in
                let '(it, a, o) := it_go c expired rq resp cf (YEnd (reader_new md)) (sp_chunks resp) in
                (it, a, HRequest rq :: HResponse :: o)
            end
        end
      else
        let reads := map (fun ch => HRead (Some ch)) (sp_chunks resp) ++ [HRead None] in
        match sp_fault resp with
        | Some f => leave reads (Some f)
        | None =>
            match we_from_response (sp_status resp) (List.concat (sp_chunks resp)) with
            | Raise e => leave reads (Some (FExn e))
            | Ok w => leave reads (Some (FExn (we_to_exception w)))
            end
        end
  end.

(** One operation of the consumer.  A generator that has not started, or has finished, runs no code: what is thrown at it comes
    back, and asking a finished one again ends the iteration again. *)
Definition it_step {A B} (c : client A B) (cx : req_ctx) (ck : clocks) (net : network) (reqs : list A * option exn)
    (it : iterator B) (a : ask) : iterator B * answer B * list http_event :=
  let expired := deadline_passed cx (ck_late ck) in
  match it_pos it, a with
  | AtStart, AskNext => it_start c cx ck net (it_md it) reqs
  | AtStart, AskThrow f => (mk_it AtEnd (it_md it), AEnd (CRaw f), [])
  | AtYield rq resp cf r rest, AskNext => it_go c expired rq resp cf (read_resume cf r) rest
  | AtYield rq resp cf r rest, AskThrow f =>
      it_leave c expired resp (Some (r, resp)) (stream_error c (Some f)) (r_md r) (Some f)
  | AtEnd, AskNext => (it, AEnd (COk tt), [])
  | AtEnd, AskThrow f => (it, AEnd (CRaw f), [])
  end.

(** The iterator that a call returns, and a consumer's whole use of it. *)
Definition iterator_new {B} (md : option metadata) : iterator B := mk_it AtStart md.
Fixpoint it_run {A B} (c : client A B) (cx : req_ctx) (ck : clocks) (net : network) (reqs : list A * option exn)
    (it : iterator B) (asks : list ask) : iterator B * list (answer B) * list http_event :=
  match asks with
  | [] => (it, [], [])
  | a :: asks =>
      let '(it, x, o) := it_step c cx ck net reqs it a in
      let '(it, xs, o') := it_run c cx ck net reqs it asks in
      (it, x :: xs, o ++ o')
  end.

(** [for message in stream] with a consumer that takes every message, or is stopped by a fault after the [n+1]-th. *)
Fixpoint it_drive {A B} (fuel : nat) (c : client A B) (cx : req_ctx) (ck : clocks) (net : network) (reqs : list A * option exn)
    (it : iterator B) (stop : option (nat * fault)) : list B * option stream_end * option metadata * list http_event :=
  match fuel with
  | O => ([], None, it_md it, [])
  | S fuel =>
      let '(it, x, o) := it_step c cx ck net reqs it AskNext in
      match x with
      | AEnd e => ([], Some e, it_md it, o)
      | AMsg b =>
          match stop with
          | Some (O, f) =>
              let '(it, x, o') := it_step c cx ck net reqs it (AskThrow f) in
              ([b], match x with AEnd e => Some e | AMsg _ => None end, it_md it, o ++ o')
          | _ =>
              let '(bs, e, md, o') := it_drive fuel c cx ck net reqs it
                                        (match stop with Some (S n, f) => Some (n, f) | _ => None end) in
              (b :: bs, e, md, o ++ o')
          end
      end
  end.

(** [_consume_single_response]: at most three steps; it returns, or raises, without closing the iterator. *)
Definition it_single {A B} (c : client A B) (cx : req_ctx) (ck : clocks) (net : network) (reqs : list A * option exn)
    (it : iterator B) : iterator B * cout B * list http_event :=
  let '(it, x, o) := it_step c cx ck net reqs it AskNext in
  match x with
  | AEnd e => (it, consume_single [] e, o)
  | AMsg b =>
      let '(it, y, o') := it_step c cx ck net reqs it AskNext in
      match y with
      | AEnd e => (it, consume_single [b] e, o ++ o')
      | AMsg b' => (it, CErr (EConnect Unimplemented (lit "unary response has multiple messages") []), o ++ o')
      end
  end.

(** ** Calls (_client_async.py:215-276, without interceptors): the request context is made when the method is called, everything
    else when the iterator is used. *)
Definition use_bidi_stream {A B} (c : client A B) (ck : clocks) (net : network) (md : option metadata) (m : method_info) (u : uheaders)
    (timeout : option Z) (reqs : list A * option exn) (asks : list ask) : iterator B * list (answer B) * list http_event :=
  it_run c (call_ctx c (ck_start ck) m u timeout true false) ck net reqs (iterator_new md) asks.
Definition use_server_stream {A B} (c : client A B) (ck : clocks) (net : network) (md : option metadata) (m : method_info) (u : uheaders)
    (timeout : option Z) (a : A) (asks : list ask) : iterator B * list (answer B) * list http_event :=
  it_run c (call_ctx c (ck_start ck) m u timeout true false) ck net ([a], None) (iterator_new md) asks.
(** A call with a request stream and one response: its outcome, and what the library saw when it returns or raises. *)
Definition use_client_stream {A B} (c : client A B) (ck : clocks) (net : network) (md : option metadata) (m : method_info) (u : uheaders)
    (timeout : option Z) (reqs : list A * option exn) : cout B * list http_event :=
  let '(_, out, o) := it_single c (call_ctx c (ck_start ck) m u timeout true false) ck net reqs (iterator_new md) in (out, o).
(** A unary call over gRPC or gRPC-Web. *)
Definition use_grpc_unary {A B} (c : client A B) (ck : clocks) (net : network) (md : option metadata) (m : method_info) (u : uheaders)
    (timeout : option Z) (get : bool) (a : A) : cout B * list http_event :=
  let '(_, out, o) := it_single c (call_ctx c (ck_start ck) m u timeout false get) ck net ([a], None) (iterator_new md) in (out, o).
