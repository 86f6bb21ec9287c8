(** Specification of telemetry: what may differ between a call with the OpenTelemetry interceptor and one without. *)
From Coq Require Import List NArith ZArith Bool String.
From Verif Require Import MBase MPyStr MHeaders MProtocol MClient MIntercept SIntercept MOtel.
Import ListNotations.
Local Open Scope N_scope.

(** "host:port" with a port that [int()] reads, or no address. *)
Definition good_address (a : option pystr) : Prop :=
  match a with
  | None | Some [] => True
  | Some s => exists host port n, s = host ++ 58 :: port /\ ~ In 58 port /\ int_of_str port = Some n
  end.

(** What a call does apart from telemetry: its effects and the messages it yields. *)
Definition app_events {L T B} (t : list (event (otel_op + L) T B)) : list (L + B) :=
  flat_map (fun e => match e with Effect (inr l) => [inl l] | Yielded b => [inr b] | _ => [] end) t.
Definition otel_events {L T B} (t : list (event (otel_op + L) T B)) : list otel_op :=
  flat_map (fun e => match e with Effect (inl o) => [o] | _ => [] end) t.

(** The OpenTelemetry library does not raise, and touches nothing of the program but the request headers it injects into.
    States are pairs: the library's and the program's. *)
Definition harmless {St Sa L X} (w : world (St * Sa) (otel_op + L) (otel_answer + X)) : Prop :=
  forall t a o, exists x t' a', w (t, a) (inl o) = (inl (inl x), (t', a')) /\ (o <> OInject -> a' = a).

(** The run [r] is, apart from telemetry, the run [inner] from the same state of the program; for a client from the one after the
    injection into the headers. *)
Definition same_outcome {St Sa L X B R} (w : world (St * Sa) (otel_op + L) (otel_answer + X)) (client : bool) (t : St) (a : Sa)
    (inner : St * Sa -> (St * Sa) * list (event (otel_op + L) attrs B) * outcome R) (r : (St * Sa) * list (event (otel_op + L) attrs B) * outcome R) : Prop :=
  exists t1, let a1 := if client then snd (snd (w (t, a) (inl OInject))) else a in
  let '(s2, tr, o) := inner (t1, a1) in let '(s2', tr', o') := r in
  snd s2' = snd s2 /\ app_events tr' = app_events tr /\ o' = o.

(** Attributes name the system, the method, and the address [who] ("server" or "client") if there is one. *)
Definition names_method (ctx : req_ctx) (a : attrs) : Prop :=
  dget a (lit "rpc.system.name") = Some (AText (lit "connectrpc"))
  /\ dget a (lit "rpc.method") = Some (AText (mi_service (cx_method ctx) ++ lit "/" ++ mi_name (cx_method ctx))).
Definition names_address (who : pystr) (address : option pystr) (a : attrs) : Prop :=
  forall host port n, address = Some (host ++ 58 :: port) -> ~ In 58 port -> int_of_str port = Some n ->
  dget a (who ++ lit ".address") = Some (AText host) /\ dget a (who ++ lit ".port") = Some (ANum n).
(** ... and the error: the type of the exception, with its code if it is a ConnectError. *)
Definition names_error (qualname : exn -> pystr) (error : option exn) (a : attrs) : Prop :=
  dget a (lit "error.type") = option_map (fun e => AText (qualname e)) error
  /\ dget a (lit "rpc.response.status_code")
     = option_map (fun e => AText (match e with EConnect c _ _ => code_value c | _ => lit "unknown" end)) error.

(** The calls of the library: one span around what [inner] does, started with the name of the method; when the call has ended its
    duration is recorded once and the span is stopped once, both with the exception that ended it. *)
Definition one_span {L B R} (qualname : exn -> pystr) (client : bool) (ctx : req_ctx) (inner : list otel_op) (r : list (event (otel_op + L) attrs B) * outcome R) : Prop :=
  let '(tr, o) := r in
  exists before spanned extracted ends,
    (if client then before = [OInject] /\ extracted = false
     else before = [OCurrent] /\ extracted = false \/ before = [OCurrent; OExtract] /\ extracted = true)
    /\ names_method ctx spanned /\ names_address (lit "server") (cx_server ctx) spanned
    /\ names_address (lit "client") (cx_client ctx) spanned
    /\ otel_events tr = before ++ OStart (mi_service (cx_method ctx) ++ lit "/" ++ mi_name (cx_method ctx)) client spanned extracted :: inner ++ ends
    /\ (o = Suspended -> ends = [])
    /\ (o <> Suspended ->
        exists recorded errors,
          ends = errors ++ [ORecord recorded; OStop (call_error o)]
          /\ names_method ctx recorded /\ names_address (lit "server") (cx_server ctx) recorded
          /\ names_error qualname (call_error o) recorded
          /\ match call_error o with
             | None => errors = []
             | Some e => exists a, errors = [OAttributes a] /\ names_error qualname (Some e) a
             end).

(** The part of an OpenTelemetry SDK that matters for propagation: the spans that are open, the current one first; the span that
    the request's trace header names. *)
Record sdk_state := mk_sdk { sdk_open : list nat; sdk_next : nat }.
Definition sdk {L X} (others : L -> X) : world (sdk_state * option nat) (otel_op + L) (otel_answer + X) := fun s l =>
  let '(t, header) := s in
  match l with
  | inl OInject => (inl (inl ODone), (t, match sdk_open t with i :: _ => Some i | [] => header end))
  | inl OCurrent => (inl (inl (OValid (match sdk_open t with [] => false | _ => true end))), s)
  | inl (OStart _ _ _ _) => (inl (inl ODone), (mk_sdk (sdk_next t :: sdk_open t) (S (sdk_next t)), header))
  | inl (OStop _) => (inl (inl ODone), (mk_sdk (tl (sdk_open t)) (sdk_next t), header))
  | inl _ => (inl (inl ODone), s)
  | inr l => (inl (inr (others l)), s)
  end.
