(** Calls that interceptors of a client make more than once: src/connectrpc/_client_async.py:133-181 and 278-440,
    src/connectrpc/_client_sync.py:127-184 and 277-440.  MWrap has one network for the whole call; here every request the client's
    own functions make has its own times and its own response, and the ResponseMetadata in scope
    (src/connectrpc/_response_metadata.py) goes from one to the next. *)
From Coq Require Import List NArith ZArith Bool String.
From Verif Require Import MBase MPyStr MHeaders MWire MEnvelope MTimeout MProtocol MClient MIntercept MWrap.
Import ListNotations.

(** When the client's own function runs for the [n]-th time (from 0), and what the HTTP library does then. *)
Definition attempts := nat -> clocks * network.

(** While a call is made: the context, which is one object for the whole call (request.py:20-62), the requests made, the
    ResponseMetadata in scope, and how often the client's own function has run. *)
Record rworld := mk_rw { rw_ctx : req_ctx; rw_sent : list http_request; rw_md : option metadata; rw_made : nat }.

(** The client's own functions read the context when they run and leave it as it is: [request_headers] is a new object made from
    [ctx.request_headers.allitems()] (_client_async.py:286, 362; _client_sync.py:283, 355), and that one is changed for GET
    (_client_async.py:299-305).  Simplifications: the stream of a response is read to its end; a request stream is what the
    interceptor passes on, which keeps or makes the messages if it passes them on again. *)
Definition retry_world {A B} (c : client A B) (ats : attempts) : world rworld (ceff A) (cval B) :=
  fun s l =>
    let (ck, net) := ats (rw_made s) in
    let single (r : call_result B) :=
      (match cr_out r with COk b => inl (VMsg b) | CErr e => inr (FExn e) | CRaw f => inr f end,
       mk_rw (rw_ctx s) (rw_sent s ++ cr_sent r) (cr_md r) (S (rw_made s))) in
    match l with
    | CHdr op => (inl VNone, mk_rw (with_headers (rw_ctx s) (h_exec (cx_headers (rw_ctx s)) op)) (rw_sent s) (rw_md s) (rw_made s))
    | CUnary a => single (send_unary c (rw_ctx s) ck net (rw_md s) a None)
    | CSingle reqs => single (single_result (send_stream c (rw_ctx s) ck net (rw_md s) reqs (single_stop None)))
    | CStream reqs =>
        let r := send_stream c (rw_ctx s) ck net (rw_md s) reqs None in
        (inl (VStream (sr_msgs r) (sr_end r)), mk_rw (rw_ctx s) (rw_sent s ++ sr_sent r) (sr_md r) (S (rw_made s)))
    end.

(** The calls of a client with interceptors (_client_async.py:193-276); [start] is when the call is made. *)
Definition retry_call {A T B Y R} (c : client A B) (ats : attempts) (md : option metadata) (cx : req_ctx) (n : nat)
    (g : gen (ceff A) (cval B) T Y R) : rworld * list (event (ceff A) T Y) * outcome R :=
  run (retry_world c ats) (mk_rw cx [] md 0) (repeat Next n) g.
Definition unary_again {A T B} (c : client A B) (is : iterable (cinterceptor A T B)) start ats md m u timeout use_get a :=
  let cx := call_ctx c start m u timeout false use_get in
  retry_call c ats md cx 0 (cf_unary (client_apply (cl_sync c) is own_fns) a cx).
Definition client_stream_again {A T B} (c : client A B) (is : iterable (cinterceptor A T B)) start ats md m u timeout reqs :=
  let cx := call_ctx c start m u timeout true false in
  retry_call c ats md cx 0 (cf_client_stream (client_apply (cl_sync c) is own_fns) reqs cx).
Definition server_stream_again {A T B} (c : client A B) (is : iterable (cinterceptor A T B)) start ats md m u timeout a n :=
  let cx := call_ctx c start m u timeout true false in
  retry_call c ats md cx n (cf_server_stream (client_apply (cl_sync c) is own_fns) a cx).
Definition bidi_stream_again {A T B} (c : client A B) (is : iterable (cinterceptor A T B)) start ats md m u timeout reqs n :=
  let cx := call_ctx c start m u timeout true false in
  retry_call c ats md cx n (cf_bidi_stream (client_apply (cl_sync c) is own_fns) reqs cx).
