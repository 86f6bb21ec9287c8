(** Model of the OpenTelemetry interceptor: connectrpc-otel/connectrpc_otel/_interceptor.py and _instrumentor.py. *)
From Coq Require Import List NArith ZArith Bool String.
From Verif Require Import MBase MPyStr MHeaders MProtocol MClient MIntercept.
Import ListNotations.
Local Open Scope N_scope.

Inductive attr := AText (s : pystr) | ANum (n : Z).
Definition attrs := dict attr.

(** The calls of the OpenTelemetry API the interceptor makes: [propagator.inject(ctx.request_headers)],
    [get_current_span().get_span_context().is_valid], [propagator.extract(ctx.request_headers)], entering
    [tracer.start_as_current_span(name, kind, attributes, context)], [span.set_attributes], [histogram.record] and leaving the
    span with the error.  The clock is left out: the recorded duration is not modelled. *)
Inductive otel_op :=
| OInject
| OCurrent
| OExtract
| OStart (name : pystr) (client : bool) (a : attrs) (extracted : bool)
| OAttributes (a : attrs)
| ORecord (a : attrs)
| OStop (error : option exn).
Inductive otel_answer := ODone | OValid (b : bool).

(** [sa.rsplit(":", 1)]: [None] without a colon. *)
Fixpoint rsplit_colon (s : pystr) : option (pystr * pystr) :=
  match s with
  | [] => None
  | c :: r =>
      match rsplit_colon r with
      | Some (a, b) => Some (c :: a, b)
      | None => if c =? 58 then Some ([], r) else None
      end
  end.

Definition not_enough_values : exn := EOther KValue (lit "not enough values to unpack (expected 2, got 1)").
Definition invalid_port (p : pystr) : exn := EOther KValue (lit "invalid literal for int() with base 10: '" ++ p ++ lit "'").

(** [if sa := ...: addr, port = sa.rsplit(":", 1); attrs[...] = addr; attrs[...] = int(port)] (lines 111-114, 163-166). *)
Definition address_attrs (kaddr kport : pystr) (sa : option pystr) (a : attrs) : res attrs :=
  match sa with
  | None | Some [] => Ok a
  | Some s =>
      match rsplit_colon s with
      | None => Raise not_enough_values
      | Some (addr, port) =>
          match int_of_str port with
          | None => Raise (invalid_port port)
          | Some n => Ok (dset (dset a kaddr (AText addr)) kport (ANum n))
          end
      end
  end.

Section Otel.
  (* Effects and answers of everything else. *)
  Context {L X : Type}.
  (* [type(error).__qualname__] *)
  Variable qualname : exn -> pystr.
  Notation ogen := (gen (otel_op + L) (otel_answer + X) attrs Empty_set).

  (** One call of the API; an exception of it is raised. *)
  Definition api {R} (o : otel_op) (k : otel_answer -> ogen R) : ogen R :=
    GDo (inl o) (fun x => match x with inl (inl a) => k a | inl (inr _) => k ODone | inr f => GRaise f end).

  (** [f"{ctx.method.service_name}/{ctx.method.name}"] (line 105). *)
  Definition rpc_method (ctx : req_ctx) : pystr := mi_service (cx_method ctx) ++ lit "/" ++ mi_name (cx_method ctx).
  Definition shared_attrs (ctx : req_ctx) : attrs :=
    [(lit "rpc.system.name", AText (lit "connectrpc")); (lit "rpc.method", AText (rpc_method ctx))].

  (** [on_start_sync] (lines 102-118) with [_start_span] up to its [yield] (lines 143-172).  The token is the attributes; the
      context manager, the span and the start time that are also in it are left out. *)
  Definition otel_start (client : bool) (ctx : req_ctx) : ogen attrs :=
    match address_attrs (lit "server.address") (lit "server.port") (cx_server ctx) (shared_attrs ctx) with
    | Raise e => GRaise (FExn e)
    | Ok shared =>
        let start extracted :=
          match address_attrs (lit "client.address") (lit "client.port") (cx_client ctx) shared with
          | Raise e => GRaise (FExn e)
          | Ok a => api (OStart (rpc_method ctx) client a extracted) (fun _ => GRet shared)
          end in
        if client then api OInject (fun _ => start false)
        else api OCurrent (fun x => match x with
                                    | OValid true => start false
                                    | _ => api OExtract (fun _ => start true)
                                    end)
    end.

  (** [_get_error_attributes] (lines 174-185). *)
  Definition error_attrs (error : option exn) : attrs :=
    match error with
    | None => []
    | Some e => [(lit "error.type", AText (qualname e));
                 (lit "rpc.response.status_code", AText (match e with EConnect c _ _ => code_value c | _ => lit "unknown" end))]
    end.
  (** [dict.update] *)
  Definition dupdate (a b : attrs) : attrs := fold_left (fun a kv => dset a (fst kv) (snd kv)) b a.

  (** [on_end_sync] (lines 125-141).  [cm.__exit__(type(error), error, ...)] throws the error into [_start_span], where it leaves
      the span and comes out again; it returns false. *)
  Definition otel_end (token : attrs) (ctx : req_ctx) (error : option exn) : ogen unit :=
    let finish := api (ORecord (dupdate token (error_attrs error))) (fun _ => api (OStop error) (fun _ => GRet tt)) in
    match error with
    | Some _ => api (OAttributes (error_attrs error)) (fun _ => finish)
    | None => finish
    end.

  (** [OpenTelemetryInterceptor] (lines 48-185): a metadata interceptor. *)
  Definition otel (i : nat) (client : bool) : meta (otel_op + L) (otel_answer + X) attrs req_ctx :=
    mk_meta i (otel_start client) otel_end.
End Otel.

(** [_init_wrapper] (_instrumentor.py:72-103): the interceptors the constructor gets.  [is_otel]: isinstance of
    OpenTelemetryInterceptor; [given]: the keyword argument. *)
Definition init_wrapper {I} (is_otel : I -> bool) (otel : I) (given : option (iterable I)) : option (iterable I) :=
  match given with
  | None => Some (Sequence [otel])
  | Some it =>
      let (l, it) := iterate it in
      if existsb is_otel l then Some it else Some (Sequence (otel :: l))
  end.
