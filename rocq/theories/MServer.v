(** What the two server applications share: method bodies, endpoints, applications, the end of a response.
    Models src/connectrpc/_server_shared.py, and the parts of _server_async.py and _server_sync.py that are the
    same in both files. *)
From Coq Require Import List NArith ZArith Bool String.
From Verif Require Import MBase MPyStr MHeaders MUtf8 MBase64 MWire MEnvelope MTimeout MProtocol MClient.
Import ListNotations.
Local Open Scope N_scope.

(** Something that interrupts running code: an [Exception], or a [BaseException] that is not one
    ([asyncio.CancelledError] under ASGI; [SystemExit], [GreenletExit] ... under WSGI). *)
Inductive interrupt := IExn (e : exn) | ICancel.

(** ** Method bodies

    What a service method does, one observable step at a time.  [A] are the messages it can take from its request
    stream, [B] the messages it can yield, [R] what it returns. *)
Inductive pulled (A : Type) := PMsg (a : A) | PEnd | PExn (e : exn).
Arguments PMsg {A} a. Arguments PEnd {A}. Arguments PExn {A} e.

(** Behaviour of a generator closed while suspended at a [yield]: the operations of its [finally] blocks on the
    response headers and trailers, and what they raise. *)
Record on_close := mk_close { cl_hdr : list hop; cl_trl : list hop; cl_raise : option interrupt }.

Inductive prog (A B R : Type) :=
| Ret (r : R)                                (* return r *)
| Fail (i : interrupt)                       (* raise *)
| Pull (k : pulled A -> prog A B R)          (* next element of the request stream *)
| Yield (b : B) (c : on_close) (k : prog A B R)   (* yield b *)
| Hdr (op : hop) (k : prog A B R)            (* ctx.response_headers.<op> *)
| Trl (op : hop) (k : prog A B R).           (* ctx.response_trailers.<op> *)
Arguments Ret {A B R}. Arguments Fail {A B R}. Arguments Pull {A B R}. Arguments Yield {A B R}.
Arguments Hdr {A B R}. Arguments Trl {A B R}.

(** [Endpoint] and its four kinds (_server_shared.py:22-81 and the sync twins 84-138).  Simplification: all
    methods of the modelled application use the same request and response types. *)
Inductive endpoint (A B : Type) :=
| EpUnary (m : method_info) (f : A -> req_ctx -> prog Empty_set Empty_set B)
| EpClientStream (m : method_info) (f : req_ctx -> prog A Empty_set B)
| EpServerStream (m : method_info) (f : A -> req_ctx -> prog Empty_set B unit)
| EpBidi (m : method_info) (f : req_ctx -> prog A B unit).
Arguments EpUnary {A B}. Arguments EpClientStream {A B}. Arguments EpServerStream {A B}. Arguments EpBidi {A B}.

Definition ep_method {A B} (e : endpoint A B) : method_info :=
  match e with EpUnary m _ | EpClientStream m _ | EpServerStream m _ | EpBidi m _ => m end.

(** [isinstance(endpoint, EndpointUnary)] *)
Definition is_unary {A B} (e : endpoint A B) : bool := match e with EpUnary _ _ => true | _ => false end.

(** An application object (_server_async.py:86-118, _server_sync.py:153-190), its endpoints resolved and the
    interceptors applied (MIntercept).  [ap_path] is the [path] property of the generated class. *)
Record app (A B : Type) := mk_app {
  ap_path : pystr;
  ap_endpoints : dict (endpoint A B);
  ap_max : option N;
  ap_comps : dict compression;
  ap_codecs : dict (codec A B);
  ap_sc : status_codec
}.
Arguments mk_app {A B}. Arguments ap_path {A B}. Arguments ap_endpoints {A B}. Arguments ap_max {A B}.
Arguments ap_comps {A B}. Arguments ap_codecs {A B}. Arguments ap_sc {A B}.

(** The constructors; [compressions=None] is the list holding gzip. *)
Definition app_new {A B} (path : pystr) (endpoints : dict (endpoint A B)) (max : option N) (cs : list compression)
    (codecs : list (codec A B)) (sc : status_codec) : app A B :=
  mk_app path endpoints max (resolve_compressions cs)
    (fold_left (fun d k => dset d (k_name k) k) codecs []) sc.

(** ** Running method bodies *)

(** A request stream as its consumer sees it: the messages still to come, then the exception that ends it. *)
Definition pulls (A : Type) := (list A * option exn)%type.
Definition pull_next {A} (s : pulls A) : pulled A * pulls A :=
  match s with
  | (m :: ms, e) => (PMsg m, (ms, e))
  | ([], Some e) => (PExn e, ([], None))
  | ([], None) => (PEnd, ([], None))
  end.

(** [ctx.response_headers] and [ctx.response_trailers] (request.py:72-88). *)
Record rstate := mk_rs { rs_h : headers; rs_t : headers }.
Definition rs_new : rstate := mk_rs h_empty h_empty.

(** How a function body ends. *)
Inductive fres (R : Type) := FRet (r : R) | FInt (i : interrupt).
Arguments FRet {R}. Arguments FInt {R}.

(** [endpoint.function(request, ctx)] of a method that returns one value. *)
Fixpoint run_fn {A R} (g : prog A Empty_set R) (ps : pulls A) (rs : rstate) : fres R * rstate :=
  match g with
  | Ret r => (FRet r, rs)
  | Fail i => (FInt i, rs)
  | Pull k => let (x, ps') := pull_next ps in run_fn (k x) ps' rs
  | Yield b _ _ => match b with end
  | Hdr op k => run_fn k ps (mk_rs (h_exec (rs_h rs) op) (rs_t rs))
  | Trl op k => run_fn k ps (mk_rs (rs_h rs) (h_exec (rs_t rs) op))
  end.

(** How a loop over a response stream ends: the stream is exhausted, the stream raises, or the loop body is
    interrupted with the generator suspended at a [yield]. *)
Inductive loop_end := LDone | LFail (i : interrupt) | LBroken (i : interrupt) (c : on_close).

(** [for message in response_stream: body]; [S] is the state of the loop body. *)
Fixpoint drive {S A B} (body : S -> rstate -> B -> S * option interrupt) (g : prog A B unit) (ps : pulls A)
    (rs : rstate) (s : S) : S * rstate * loop_end :=
  match g with
  | Ret _ => (s, rs, LDone)
  | Fail i => (s, rs, LFail i)
  | Pull k => let (x, ps') := pull_next ps in drive body (k x) ps' rs s
  | Hdr op k => drive body k ps (mk_rs (h_exec (rs_h rs) op) (rs_t rs)) s
  | Trl op k => drive body k ps (mk_rs (rs_h rs) (h_exec (rs_t rs) op)) s
  | Yield b c k =>
      match body s rs b with
      | (s', None) => drive body k ps rs s'
      | (s', Some i) => (s', rs, LBroken i c)
      end
  end.

(** [_yield_single_response(response)] (_server_async.py:611-612), [iter([response])] (_server_sync.py:456). *)
Definition single_response {A B} (b : B) : prog A B unit := Yield b (mk_close [] [] None) (Ret tt).

(** [_consume_single_request] (_server_async.py:598-608, _server_sync.py:608-618). *)
Definition consume_single_request {A} (s : pulls A) : res A :=
  match s with
  | (_ :: _ :: _, _) => Raise (EConnect Unimplemented (lit "unary request has multiple messages") [])
  | (_, Some e) => Raise e
  | ([a], None) => Ok a
  | ([], None) => Raise (EConnect Unimplemented (lit "unary request has zero messages") [])
  end.

(** ** End of a stream *)
Inductive end_msg := EndBytes (b : bytes) | EndTrailers (h : headers).

(** [writer.end(ctx.response_trailers, error)] of the three writers. *)
Definition writer_end (sc : status_codec) (p : proto) (c : compression) (trailers : headers) (err : option wire_error)
  : res end_msg :=
  match p with
  | PConnect => do b <- connect_end (Some c) trailers err ; Ok (EndBytes b)
  | PGrpc => do h <- grpc_trailers sc trailers err ; Ok (EndTrailers h)
  | PGrpcWeb => do b <- grpc_web_end sc (Some c) trailers err ; Ok (EndBytes b)
  end.

(** The text of the response headers of a stream (_server_async.py:544-550, _server_sync.py:558-564). *)
Definition stream_headers (p : proto) (codec_name comp_name : pystr) (rs : rstate) : list (pystr * pystr) :=
  (lit "content-type", server_content_type p codec_name) :: (compression_header_name p, comp_name)
    :: h_allitems (rs_h rs).

(** [_add_context_headers] (_server_async.py:622-631, _server_sync.py:544-548), the pairs that are appended. *)
Definition context_headers (rs : rstate) : list (pystr * pystr) :=
  h_allitems (rs_h rs) ++ map (fun kv => (lit "trailer-" ++ fst kv, snd kv)) (h_allitems (rs_t rs)).

Definition unsupported_media (accept : pystr) : exn := EHttp 415 [(lit "Accept-Post", accept)].
Definition unknown_compression {A B} (ap : app A B) (name : pystr) : exn :=
  EConnect Unimplemented (lit "unknown compression: '" ++ name ++ lit "': supported encodings are "
                          ++ comp_names (ap_comps ap)) [].
Definition not_found : exn := EHttp 404 [].

(** What was called: a method with one request message, or a method with a request stream. *)
Inductive invoked (A : Type) := InvMsg (a : A) | InvStream.
Arguments InvMsg {A}. Arguments InvStream {A}.

(** First value of a query parameter: [params.get(name, [default])[0]]; parameters are never empty lists. *)
Definition param (params : dict (list pystr)) (name : pystr) : option pystr :=
  match dget params name with Some (v :: _) => Some v | _ => None end.
