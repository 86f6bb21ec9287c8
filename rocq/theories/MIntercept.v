(** Interceptors of clients and servers.  Models src/connectrpc/_interceptor_sync.py, _interceptor_async.py, and how
    _client_sync.py, _client_async.py, _server_sync.py and _server_async.py apply them. *)
From Coq Require Import List Bool String.
From Verif Require Import MBase MPyStr MClient.
Import ListNotations.

(** ** Running code

    What a function, coroutine or generator does, step by step.  [L] are the effects it has on anything else (header
    operations, taking messages from the request iterator, I/O ...), [X] the values it gets back, [B] the messages it yields,
    [R] what it returns, [T] the tokens of metadata interceptors.  An effect may raise, which includes the cancellation of the
    task while it awaits.  At a [yield] the consumer either goes on or throws an exception into the generator
    ([GeneratorExit], [FClose], to close it).

    Calls from connectrpc to the hooks of metadata interceptors are marked in the run: interceptor [i] is the object's
    identity. *)
Inductive mark (T : Type) :=
| OnStart (i : nat)                              (* on_start(ctx) is called *)
| Started (i : nat) (t : T)                      (* on_start(ctx) returned t *)
| OnEnd (i : nat) (t : T) (error : option exn).  (* on_end(t, ctx, error) is called *)
Arguments OnStart {T}. Arguments Started {T}. Arguments OnEnd {T}.

Inductive gen (L X T B R : Type) :=
| GRet (r : R)
| GRaise (f : fault)
| GDo (l : L) (k : X + fault -> gen L X T B R)
| GMark (m : mark T) (k : gen L X T B R)
| GYield (b : B) (k : gen L X T B R) (h : fault -> gen L X T B R).
Arguments GRet {L X T B R}. Arguments GRaise {L X T B R}. Arguments GDo {L X T B R}. Arguments GMark {L X T B R}.
Arguments GYield {L X T B R}.

(** [x = call(); rest], for a call that yields nothing. *)
Fixpoint gcall {L X T B Y R} (g : gen L X T Empty_set Y) (k : Y -> gen L X T B R) : gen L X T B R :=
  match g with
  | GRet y => k y
  | GRaise f => GRaise f
  | GDo l c => GDo l (fun x => gcall (c x) k)
  | GMark m c => GMark m (gcall c k)
  | GYield b _ _ => match b with end
  end.

(** [generator.close()] once GeneratorExit has been thrown in: returning and raising GeneratorExit both end it, yielding again
    is a RuntimeError. *)
Definition ignored_exit : fault := FExn (EOther KRuntime (lit "generator ignored GeneratorExit")).
Fixpoint closing {L X T B R} (g : gen L X T B R) : gen L X T B R :=
  match g with
  | GRet _ => GRaise FClose
  | GRaise f => GRaise f
  | GDo l c => GDo l (fun x => closing (c x))
  | GMark m c => GMark m (closing c)
  | GYield _ _ _ => GRaise ignored_exit
  end.

(** [yield from g] (PEP 380): GeneratorExit closes [g] first, other exceptions are thrown into it. *)
Fixpoint yield_from {L X T B R} (g : gen L X T B R) : gen L X T B R :=
  match g with
  | GRet r => GRet r
  | GRaise f => GRaise f
  | GDo l c => GDo l (fun x => yield_from (c x))
  | GMark m c => GMark m (yield_from c)
  | GYield b k h => GYield b (yield_from k) (fun f => match f with FClose => closing (h FClose) | _ => yield_from (h f) end)
  end.

(** [async for response in g: yield response]: whatever the consumer throws is raised at the [yield]; [g] stays suspended, it
    is left to the garbage collector. *)
Fixpoint async_for {L X T B R} (g : gen L X T B R) : gen L X T B R :=
  match g with
  | GRet r => GRet r
  | GRaise f => GRaise f
  | GDo l c => GDo l (fun x => async_for (c x))
  | GMark m c => GMark m (async_for c)
  | GYield b k _ => GYield b (async_for k) (fun f => GRaise f)
  end.

(** [except Exception as e: error = e] *)
Definition error_of (f : fault) : option exn := match f with FExn e => Some e | _ => None end.

(** [try: g  except Exception as e: error = e; raise  finally: on_end(error)]: an exception of [on_end] replaces the outcome. *)
Fixpoint ending {L X T B R} (on_end : option exn -> gen L X T Empty_set unit) (g : gen L X T B R) : gen L X T B R :=
  match g with
  | GRet r => gcall (on_end None) (fun _ => GRet r)
  | GRaise f => gcall (on_end (error_of f)) (fun _ => GRaise f)
  | GDo l c => GDo l (fun x => ending on_end (c x))
  | GMark m c => GMark m (ending on_end c)
  | GYield b k h => GYield b (ending on_end k) (fun f => ending on_end (h f))
  end.

(** ** Interceptors *)

(** [MetadataInterceptorSync], [MetadataInterceptor] (_interceptor_sync.py:124-144, _interceptor_async.py:124-145). *)
Record meta (L X T C : Type) := mk_meta {
  me_id : nat;
  me_start : C -> gen L X T Empty_set T;
  me_end : T -> C -> option exn -> gen L X T Empty_set unit
}.
Arguments mk_meta {L X T C}. Arguments me_id {L X T C}. Arguments me_start {L X T C}. Arguments me_end {L X T C}.

(** The bodies of [MetadataInterceptorInvokerSync] (_interceptor_sync.py:156-224) and [MetadataInterceptorInvoker]
    (_interceptor_async.py:156-226); [inner] is [call_next(request, ctx)] with the way it is run ([return], [yield from],
    [async for]). *)
Definition invoke {L X T C B R} (m : meta L X T C) (ctx : C) (inner : gen L X T B R) : gen L X T B R :=
  GMark (OnStart (me_id m))
    (gcall (me_start m ctx) (fun token =>
       GMark (Started (me_id m) token)
         (ending (fun error => GMark (OnEnd (me_id m) token error) (me_end m token ctx error)) inner))).

(** The functions interceptors wrap: [A] request messages, [Q] request iterators, [C] request contexts. *)
Definition unary_fn (L X T A B C : Type) := A -> C -> gen L X T Empty_set B.
Definition client_stream_fn (L X T Q B C : Type) := Q -> C -> gen L X T Empty_set B.
Definition server_stream_fn (L X T A B C : Type) := A -> C -> gen L X T B unit.
Definition bidi_stream_fn (L X T Q B C : Type) := Q -> C -> gen L X T B unit.

(** An interceptor object: the interfaces it implements (the [runtime_checkable] protocols, _interceptor_sync.py:15-154,
    _interceptor_async.py:15-154).  Simplification: all tokens have the same type. *)
Record interceptor (L X T A Q B C : Type) := mk_ic {
  ic_unary : option (unary_fn L X T A B C -> unary_fn L X T A B C);
  ic_client_stream : option (client_stream_fn L X T Q B C -> client_stream_fn L X T Q B C);
  ic_server_stream : option (server_stream_fn L X T A B C -> server_stream_fn L X T A B C);
  ic_bidi_stream : option (bidi_stream_fn L X T Q B C -> bidi_stream_fn L X T Q B C);
  ic_meta : option (meta L X T C)
}.
Arguments mk_ic {L X T A Q B C}. Arguments ic_unary {L X T A Q B C}. Arguments ic_client_stream {L X T A Q B C}.
Arguments ic_server_stream {L X T A Q B C}. Arguments ic_bidi_stream {L X T A Q B C}. Arguments ic_meta {L X T A Q B C}.

(** [MetadataInterceptorInvokerSync(delegate)] ([sync]) and [MetadataInterceptorInvoker(delegate)]. *)
Definition invoker {L X T A Q B C} (sync : bool) (m : meta L X T C) : interceptor L X T A Q B C :=
  let run (g : gen L X T B unit) := if sync then yield_from g else async_for g in
  mk_ic (Some (fun next request ctx => invoke m ctx (next request ctx)))
        (Some (fun next request ctx => invoke m ctx (next request ctx)))
        (Some (fun next request ctx => invoke m ctx (run (next request ctx))))
        (Some (fun next request ctx => invoke m ctx (run (next request ctx))))
        None.

(** [resolve_interceptors] (_interceptor_sync.py:227-240, _interceptor_async.py:229-242; inlined in _server_sync.py:177-182). *)
Definition resolve_interceptors {L X T A Q B C} (sync : bool) (is : list (interceptor L X T A Q B C))
  : list (interceptor L X T A Q B C) :=
  map (fun i => match ic_meta i with Some m => invoker sync m | None => i end) is.

(** [for interceptor in reversed(interceptors): if isinstance(interceptor, ...): func = partial(interceptor.intercept, func)],
    the loop of [_apply_interceptors] (_server_async.py:634-665, _server_sync.py:621-652) and of the clients' constructors
    (_client_async.py:141-181, _client_sync.py:136-184); [get] is the interface looked for. *)
Definition apply_loop {I F} (get : I -> option (F -> F)) (is : list I) (func : F) : F :=
  fold_left (fun func i => match get i with Some intercept => intercept func | None => func end) (rev is) func.

(** The functions of a server's methods. *)
Inductive method_fn (L X T A Q B C : Type) :=
| FUnary (f : unary_fn L X T A B C)
| FClientStream (f : client_stream_fn L X T Q B C)
| FServerStream (f : server_stream_fn L X T A B C)
| FBidiStream (f : bidi_stream_fn L X T Q B C).
Arguments FUnary {L X T A Q B C}. Arguments FClientStream {L X T A Q B C}. Arguments FServerStream {L X T A Q B C}.
Arguments FBidiStream {L X T A Q B C}.

(** [_apply_interceptors(endpoint, interceptors)] (_server_async.py:634-665, _server_sync.py:621-652). *)
Definition apply_interceptors {L X T A Q B C} (f : method_fn L X T A Q B C) (is : list (interceptor L X T A Q B C))
  : method_fn L X T A Q B C :=
  match f with
  | FUnary f => FUnary (apply_loop ic_unary is f)
  | FClientStream f => FClientStream (apply_loop ic_client_stream is f)
  | FServerStream f => FServerStream (apply_loop ic_server_stream is f)
  | FBidiStream f => FBidiStream (apply_loop ic_bidi_stream is f)
  end.

(** [interceptors: Iterable[...]]: something that can be iterated again and again, or an iterator, which can be once. *)
Inductive iterable (I : Type) := Sequence (l : list I) | Iterator (l : list I).
Arguments Sequence {I}. Arguments Iterator {I}.
(** [list(iterable)], and the iterable afterwards. *)
Definition iterate {I} (x : iterable I) : list I * iterable I :=
  match x with Sequence l => (l, Sequence l) | Iterator l => (l, Iterator []) end.
(** [bool(iterable)] *)
Definition iterable_truthy {I} (x : iterable I) : bool := match x with Sequence [] => false | _ => true end.

(** [ConnectWSGIApplication.__init__] (_server_sync.py:153-187): the endpoints that are served. *)
Definition wsgi_endpoints {L X T A Q B C} (is : iterable (interceptor L X T A Q B C)) (eps : dict (method_fn L X T A Q B C))
  : dict (method_fn L X T A Q B C) :=
  if iterable_truthy is then
    let rs := resolve_interceptors true (fst (iterate is)) in
    map (fun kv => (fst kv, apply_interceptors (snd kv) rs)) eps
  else eps.

(** The dict comprehension of [_resolve_endpoints] (_server_async.py:525-534): [resolve_interceptors(self._interceptors)] is
    evaluated for each endpoint. *)
Fixpoint asgi_comprehension {L X T A Q B C} (is : iterable (interceptor L X T A Q B C)) (eps : dict (method_fn L X T A Q B C))
  : dict (method_fn L X T A Q B C) * iterable (interceptor L X T A Q B C) :=
  match eps with
  | [] => ([], is)
  | (k, f) :: r =>
      let (l, is) := iterate is in
      let '(r, is) := asgi_comprehension is r in
      ((k, apply_interceptors f (resolve_interceptors false l)) :: r, is)
  end.
(** [_resolve_endpoints(service)] (_server_async.py:525-534). *)
Definition asgi_endpoints {L X T A Q B C} (is : iterable (interceptor L X T A Q B C)) (eps : dict (method_fn L X T A Q B C))
  : dict (method_fn L X T A Q B C) * iterable (interceptor L X T A Q B C) :=
  if iterable_truthy is then asgi_comprehension is eps else (eps, is).

(** The four functions of a client (_client_async.py:141-181, _client_sync.py:136-184). *)
Record client_fns (L X T A Q B C : Type) := mk_cf {
  cf_unary : unary_fn L X T A B C;
  cf_client_stream : client_stream_fn L X T Q B C;
  cf_server_stream : server_stream_fn L X T A B C;
  cf_bidi_stream : bidi_stream_fn L X T Q B C
}.
Arguments mk_cf {L X T A Q B C}. Arguments cf_unary {L X T A Q B C}. Arguments cf_client_stream {L X T A Q B C}.
Arguments cf_server_stream {L X T A Q B C}. Arguments cf_bidi_stream {L X T A Q B C}.
Definition client_apply {L X T A Q B C} (sync : bool) (is : iterable (interceptor L X T A Q B C)) (fs : client_fns L X T A Q B C)
  : client_fns L X T A Q B C :=
  let rs := resolve_interceptors sync (fst (iterate is)) in
  mk_cf (apply_loop ic_unary rs (cf_unary fs)) (apply_loop ic_client_stream rs (cf_client_stream fs))
        (apply_loop ic_server_stream rs (cf_server_stream fs)) (apply_loop ic_bidi_stream rs (cf_bidi_stream fs)).

(** ** Runs *)

Inductive outcome (R : Type) := Returned (r : R) | Raised (f : fault) | Suspended.
Arguments Returned {R}. Arguments Raised {R}. Arguments Suspended {R}.
Inductive event (L T B : Type) := Effect (l : L) | Marked (m : mark T) | Yielded (b : B).
Arguments Effect {L T B}. Arguments Marked {L T B}. Arguments Yielded {L T B}.

(** A world that answers effects, with state [S]. *)
Definition world (S L X : Type) := S -> L -> (X + fault) * S.
(** What the consumer does at each [yield]: go on, or throw; an exhausted list means that the consumer does not come back.
    [Throw FClose] is [generator.close()]. *)
Inductive resume := Next | Throw (f : fault).

(** [close()] after GeneratorExit was thrown in: as [closing]. *)
Fixpoint shut {S L X T B R} (w : world S L X) (s : S) (g : gen L X T B R) : S * list (event L T B) * outcome R :=
  match g with
  | GRet _ => (s, [], Raised FClose)
  | GRaise f => (s, [], Raised f)
  | GDo l k => let (x, s) := w s l in let '(s, t, o) := shut w s (k x) in (s, Effect l :: t, o)
  | GMark m k => let '(s, t, o) := shut w s k in (s, Marked m :: t, o)
  | GYield _ _ _ => (s, [], Raised ignored_exit)
  end.

(** Everything that happens: the state of the world at the end, the events, how it ends. *)
Fixpoint run {S L X T B R} (w : world S L X) (s : S) (c : list resume) (g : gen L X T B R)
  : S * list (event L T B) * outcome R :=
  match g with
  | GRet r => (s, [], Returned r)
  | GRaise f => (s, [], Raised f)
  | GDo l k => let (x, s) := w s l in let '(s, t, o) := run w s c (k x) in (s, Effect l :: t, o)
  | GMark m k => let '(s, t, o) := run w s c k in (s, Marked m :: t, o)
  | GYield b k h =>
      let '(s, t, o) :=
        match c with
        | [] => (s, [], Suspended)
        | Next :: c => run w s c k
        | Throw FClose :: _ => shut w s (h FClose)
        | Throw f :: c => run w s c (h f)
        end in
      (s, Yielded b :: t, o)
  end.
