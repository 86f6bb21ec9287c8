(** Applications and clients with interceptors: src/connectrpc/_server_async.py:525-534 and 634-665,
    src/connectrpc/_server_sync.py:177-187 and 621-652, src/connectrpc/_client_async.py:133-276, src/connectrpc/_client_sync.py
    likewise.  MIntercept wraps any functions; here they are the methods of MServer and the calls of MClient.  Simplification:
    interceptors read the context as it is when the call starts, not what other interceptors have changed in it since. *)
From Coq Require Import List NArith ZArith Bool String.
From Verif Require Import MBase MPyStr MHeaders MWire MEnvelope MTimeout MProtocol MClient MServer MAsgi MWsgi MStop MIntercept.
Import ListNotations.

(** ** Servers *)

(** What methods and interceptors of a server do that can be observed: they take the next message of the request stream, or
    operate on [ctx.response_headers] or [ctx.response_trailers] (request.py:72-88). *)
Inductive sop := OHdr (op : hop) | OTrl (op : hop).
Inductive seff := EPull | EOp (o : sop).

(** What they get back: a message, or nothing (the end of the stream, or no result). *)
Definition sgen (A T B R : Type) := gen seff (option A) T B R.

(** A request iterator as an interceptor or method has it: what asking for the next message does ([None]: there is no more).
    Simplification: the iterators that interceptors make themselves keep no state of their own. *)
Definition next_of (A T : Type) := sgen A T Empty_set (option A).
(** [_request_stream(...)] (_server_async.py:561-577, _server_sync.py:568-577). *)
Definition incoming {A T} : next_of A T :=
  GDo EPull (fun x => match x with inl o => GRet o | inr f => GRaise f end).

(** GeneratorExit raised by the code of the application counts as a BaseException like any other. *)
Definition interrupt_of (f : fault) : interrupt := match f with FExn e => IExn e | _ => ICancel end.

(** [generator.close()] of something that is suspended at a [yield]; a stream it reads from is exhausted (simplification). *)
Fixpoint closer {A T B R} (g : sgen A T B R) : on_close :=
  match g with
  | GRet _ => mk_close [] [] None
  | GRaise FClose => mk_close [] [] None
  | GRaise f => mk_close [] [] (Some (interrupt_of f))
  | GDo EPull k => closer (k (inl None))
  | GDo (EOp (OHdr op)) k => let c := closer (k (inl None)) in mk_close (op :: cl_hdr c) (cl_trl c) (cl_raise c)
  | GDo (EOp (OTrl op)) k => let c := closer (k (inl None)) in mk_close (cl_hdr c) (op :: cl_trl c) (cl_raise c)
  | GMark _ k => closer k
  | GYield _ _ _ => mk_close [] [] (Some (interrupt_of ignored_exit))
  end.

(** The function the server runs, as it runs it (MServer).  [P] are the messages that can come from its request stream. *)
Fixpoint body_of {P A T B R} (conv : P -> A) (g : sgen A T B R) : prog P B R :=
  match g with
  | GRet r => Ret r
  | GRaise f => Fail (interrupt_of f)
  | GDo EPull k =>
      Pull (fun x => match x with
                     | PMsg a => body_of conv (k (inl (Some (conv a))))
                     | PEnd => body_of conv (k (inl None))
                     | PExn e => body_of conv (k (inr (FExn e)))
                     end)
  | GDo (EOp (OHdr op)) k => Hdr op (body_of conv (k (inl None)))
  | GDo (EOp (OTrl op)) k => Trl op (body_of conv (k (inl None)))
  | GMark _ k => body_of conv k
  | GYield b k h => Yield b (closer (h FClose)) (body_of conv k)
  end.

Definition no_message {A} (x : Empty_set) : A := match x with end.
Definition smethod (A T B : Type) := method_fn seff (option A) T A (next_of A T) B req_ctx.
Notation sinterceptor A T B := (interceptor seff (option A) T A (next_of A T) B req_ctx).

(** An [Endpoint] (_server_shared.py:22-81, 84-138) with the function [f]. *)
Definition endpoint_of {A T B} (m : method_info) (f : smethod A T B) : endpoint A B :=
  match f with
  | FUnary f => EpUnary m (fun a cx => body_of no_message (f a cx))
  | FClientStream f => EpClientStream m (fun cx => body_of id (f incoming cx))
  | FServerStream f => EpServerStream m (fun a cx => body_of no_message (f a cx))
  | FBidiStream f => EpBidi m (fun cx => body_of id (f incoming cx))
  end.

(** The arguments of an application's constructor (_server_async.py:86-118, _server_sync.py:153-190): the settings (the
    endpoints of [wa_app] are not used), the method at each path, what is known about it, and the interceptors. *)
Record wapp (A T B : Type) := mk_wapp {
  wa_app : app A B;
  wa_info : pystr -> method_info;
  wa_methods : dict (smethod A T B);
  wa_interceptors : iterable (sinterceptor A T B)
}.
Arguments mk_wapp {A T B}. Arguments wa_app {A T B}. Arguments wa_info {A T B}. Arguments wa_methods {A T B}. Arguments wa_interceptors {A T B}.

Definition with_methods {A T B} (ap : app A B) (info : pystr -> method_info) (ms : dict (smethod A T B)) : app A B :=
  mk_app (ap_path ap) (map (fun kf => (fst kf, endpoint_of (info (fst kf)) (snd kf))) ms) (ap_max ap) (ap_comps ap) (ap_codecs ap) (ap_sc ap).

(** The endpoints an ASGI application serves (_server_async.py:525-534) and those of a WSGI application
    (_server_sync.py:177-187). *)
Definition asgi_app {A T B} (w : wapp A T B) : app A B :=
  with_methods (wa_app w) (wa_info w) (fst (asgi_endpoints (wa_interceptors w) (wa_methods w))).
Definition wsgi_app {A T B} (w : wapp A T B) : app A B :=
  with_methods (wa_app w) (wa_info w) (wsgi_endpoints (wa_interceptors w) (wa_methods w)).

(** ** Clients *)

(** What interceptors of a client do that can be observed: they operate on [ctx.request_headers] (request.py:66-70), and in the
    end one calls the client's own function, which makes the request: with one message for one answer, with a stream for one
    answer, with a stream for a stream. *)
Inductive ceff (A : Type) := CHdr (op : hop) | CUnary (a : A) | CSingle (reqs : list A * option exn) | CStream (reqs : list A * option exn).
Arguments CHdr {A}. Arguments CUnary {A}. Arguments CSingle {A}. Arguments CStream {A}.
(** What they get: nothing, an answer, or the messages of a stream and how it ends. *)
Inductive cval (B : Type) := VNone | VMsg (b : B) | VStream (ms : list B) (e : stream_end).
Arguments VNone {B}. Arguments VMsg {B}. Arguments VStream {B}.

(** [return await ...] of an effect with one answer. *)
Definition answer {A T B} (l : ceff A) : gen (ceff A) (cval B) T Empty_set B :=
  GDo l (fun x => match x with
                  | inl (VMsg b) => GRet b
                  | inl _ => GRaise (FExn (EOther KRuntime []))
                  | inr f => GRaise f
                  end).
(** The messages of a response, one after the other. *)
Fixpoint replay {L X T B} (ms : list B) (e : stream_end) : gen L X T B unit :=
  match ms with
  | b :: ms => GYield b (replay ms e) (fun f => GRaise f)
  | [] => match e with COk _ => GRet tt | CErr x => GRaise (FExn x) | CRaw f => GRaise f end
  end.
Definition answers {A T B} (l : ceff A) : gen (ceff A) (cval B) T B unit :=
  GDo l (fun x => match x with
                  | inl (VStream ms e) => replay ms e
                  | inl _ => GRaise (FExn (EOther KRuntime []))
                  | inr f => GRaise f
                  end).

(** The client's own functions (_client_async.py:133-139, 278-440; _client_sync.py:127-134, 277-440). *)
Definition own_fns {A T B} : client_fns (ceff A) (cval B) T A (list A * option exn) B req_ctx :=
  mk_cf (fun a _ => answer (CUnary a)) (fun reqs _ => answer (CSingle reqs))
        (fun a _ => answers (CStream ([a], None))) (fun reqs _ => answers (CStream reqs)).
Notation cinterceptor A T B := (interceptor (ceff A) (cval B) T A (list A * option exn) B req_ctx).

(** While a call is made: the context, which is one object that all interceptors get, and the requests made. *)
Record cworld := mk_cw { cw_ctx : req_ctx; cw_sent : list http_request }.
Definition with_headers (cx : req_ctx) (h : headers) : req_ctx :=
  mk_ctx (cx_method cx) (cx_http cx) h (cx_timeout cx) (cx_end cx) (cx_server cx) (cx_client cx).

(** The client's own functions read the context when they run (_client_async.py:286-300, 359-380).  Simplification: the stream of
    a response is read to its end. *)
Definition client_world {A B} (c : client A B) (ck : clocks) (net : network) (md : option metadata) : world cworld (ceff A) (cval B) :=
  fun s l =>
    let single (r : call_result B) :=
      (match cr_out r with COk b => inl (VMsg b) | CErr e => inr (FExn e) | CRaw f => inr f end,
       mk_cw (cw_ctx s) (cw_sent s ++ cr_sent r)) in
    match l with
    | CHdr op => (inl VNone, mk_cw (with_headers (cw_ctx s) (h_exec (cx_headers (cw_ctx s)) op)) (cw_sent s))
    | CUnary a => single (send_unary c (cw_ctx s) ck net md a None)
    | CSingle reqs => single (single_result (send_stream c (cw_ctx s) ck net md reqs (single_stop None)))
    | CStream reqs =>
        let r := send_stream c (cw_ctx s) ck net md reqs None in
        (inl (VStream (sr_msgs r) (sr_end r)), mk_cw (cw_ctx s) (cw_sent s ++ sr_sent r))
    end.

(** A call of a client that has interceptors (_client_async.py:133-276): requests made, what happened, how it ended.  The
    consumer of a stream takes at most [n] messages. *)
Definition call_with {A T B Y R} (c : client A B) (ck : clocks) (net : network) (md : option metadata) (cx : req_ctx) (n : nat)
    (g : gen (ceff A) (cval B) T Y R) : list http_request * list (event (ceff A) T Y) * outcome R :=
  let '(s, t, o) := run (client_world c ck net md) (mk_cw cx []) (repeat Next n) g in (cw_sent s, t, o).
Definition unary_with {A T B} (c : client A B) (is : iterable (cinterceptor A T B)) ck net md m u timeout use_get a :=
  let cx := call_ctx c (ck_start ck) m u timeout false use_get in
  call_with c ck net md cx 0 (cf_unary (client_apply (cl_sync c) is own_fns) a cx).
Definition client_stream_with {A T B} (c : client A B) (is : iterable (cinterceptor A T B)) ck net md m u timeout reqs :=
  let cx := call_ctx c (ck_start ck) m u timeout true false in
  call_with c ck net md cx 0 (cf_client_stream (client_apply (cl_sync c) is own_fns) reqs cx).
Definition server_stream_with {A T B} (c : client A B) (is : iterable (cinterceptor A T B)) ck net md m u timeout a n :=
  let cx := call_ctx c (ck_start ck) m u timeout true false in
  call_with c ck net md cx n (cf_server_stream (client_apply (cl_sync c) is own_fns) a cx).
Definition bidi_stream_with {A T B} (c : client A B) (is : iterable (cinterceptor A T B)) ck net md m u timeout reqs n :=
  let cx := call_ctx c (ck_start ck) m u timeout true false in
  call_with c ck net md cx n (cf_bidi_stream (client_apply (cl_sync c) is own_fns) reqs cx).
