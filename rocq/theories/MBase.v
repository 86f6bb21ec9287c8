(** Base vocabulary of the model: Python strings, bytes, dicts, exceptions.
    Models no function of /repo by itself; the definitions that do mirror a class cite it. *)
From Coq Require Import List NArith ZArith Bool String Ascii.
Import ListNotations.

(** Python [str]: sequence of code points.  Python [bytes]: sequence of values below 256. *)
Definition pystr := list N.
Definition bytes := list N.

(** ASCII literal to code points / bytes. *)
Definition lit (s : string) : list N := map N_of_ascii (list_ascii_of_string s).

Definition is_byte (b : N) : Prop := (b < 256)%N.
Definition is_bytes (l : bytes) : Prop := Forall is_byte l.

Fixpoint list_eqb {A} (eqb : A -> A -> bool) (a b : list A) : bool :=
  match a, b with
  | [], [] => true
  | x :: a', y :: b' => eqb x y && list_eqb eqb a' b'
  | _, _ => false
  end.

(** Python [==] on [str] / [bytes]. *)
Definition str_eqb (a b : list N) : bool := list_eqb N.eqb a b.

(** Python truthiness of [str] / [bytes]. *)
Definition nonempty {A} (l : list A) : bool := match l with [] => false | _ => true end.

(** ** Python dict with [str] keys: association list in insertion order. *)
Definition dict (A : Type) := list (pystr * A).

Fixpoint dget {A} (d : dict A) (k : pystr) : option A :=
  match d with
  | [] => None
  | (k', v) :: t => if str_eqb k' k then Some v else dget t k
  end.

Definition dmem {A} (d : dict A) (k : pystr) : bool :=
  match dget d k with Some _ => true | None => false end.

(** [d[k] = v]: replaces in place, or appends. *)
Fixpoint dset {A} (d : dict A) (k : pystr) (v : A) : dict A :=
  match d with
  | [] => [(k, v)]
  | (k', v') :: t => if str_eqb k' k then (k', v) :: t else (k', v') :: dset t k v
  end.

(** [d.pop(k, None)] / [del d[k]]. *)
Fixpoint ddel {A} (d : dict A) (k : pystr) : dict A :=
  match d with
  | [] => []
  | (k', v') :: t => if str_eqb k' k then t else (k', v') :: ddel t k
  end.

Definition dkeys {A} (d : dict A) : list pystr := map fst d.

(** ** JSON values, as produced by [json.loads] and accepted by [json.dumps].
    Simplification: a Python float is kept as its source text ([JFloat]). *)
Inductive json : Type :=
| JNull
| JBool (b : bool)
| JInt (z : Z)
| JFloat (text : pystr)
| JStr (s : pystr)
| JArr (l : list json)
| JObj (d : list (pystr * json)).

(** ** connectrpc.code.Code (src/connectrpc/code.py:14-62). *)
Inductive code :=
| Canceled | Unknown | InvalidArgument | DeadlineExceeded | NotFound | AlreadyExists
| PermissionDenied | ResourceExhausted | FailedPrecondition | Aborted | OutOfRange
| Unimplemented | Internal | Unavailable | DataLoss | Unauthenticated.

Definition all_codes : list code :=
  [Canceled; Unknown; InvalidArgument; DeadlineExceeded; NotFound; AlreadyExists;
   PermissionDenied; ResourceExhausted; FailedPrecondition; Aborted; OutOfRange;
   Unimplemented; Internal; Unavailable; DataLoss; Unauthenticated].

Definition code_eq_dec (a b : code) : {a = b} + {a <> b}.
Proof. decide equality. Defined.

Definition code_eqb (a b : code) : bool := if code_eq_dec a b then true else false.

(** [Code.X.value] (src/connectrpc/code.py:14-62). *)
Definition code_value (c : code) : pystr :=
  match c with
  | Canceled => lit "canceled"
  | Unknown => lit "unknown"
  | InvalidArgument => lit "invalid_argument"
  | DeadlineExceeded => lit "deadline_exceeded"
  | NotFound => lit "not_found"
  | AlreadyExists => lit "already_exists"
  | PermissionDenied => lit "permission_denied"
  | ResourceExhausted => lit "resource_exhausted"
  | FailedPrecondition => lit "failed_precondition"
  | Aborted => lit "aborted"
  | OutOfRange => lit "out_of_range"
  | Unimplemented => lit "unimplemented"
  | Internal => lit "internal"
  | Unavailable => lit "unavailable"
  | DataLoss => lit "data_loss"
  | Unauthenticated => lit "unauthenticated"
  end.

(** [Code(value)]: lookup of an enum member by value, ValueError ([None]) if absent. *)
Definition code_of_value (s : pystr) : option code :=
  find (fun c => str_eqb (code_value c) s) all_codes.

(** ** google.protobuf.Any and connectrpc.errors.ErrorDetail (src/connectrpc/errors.py:21-74).
    [d_debug] is what [message_to_json_value(detail.value())] gives when the detail still holds a
    (truthy) message object and the conversion succeeds, [None] otherwise; a detail received from the
    network always has [None] (errors.py:31-34). *)
Record any := mk_any { type_url : pystr; any_value : bytes }.
Record detail := mk_detail { d_any : any; d_debug : option json }.

(** ** Exceptions.  Kinds of builtin / third-party exceptions that the code distinguishes. *)
Inductive reset_code :=
| RNoError | RProtocolError | RInternalError | RFlowControlError | RSettingsTimeout | RStreamClosed
| RFrameSizeError | RRefusedStream | RCancel | RCompressionError | RConnectError
| REnhanceYourCalm | RInadequateSecurity | RHTTP11Required | RUnknownReset.

Inductive okind :=
| KValue        (* ValueError, binascii.Error, UnicodeError, json.JSONDecodeError *)
| KType | KKey | KAttr | KRuntime | KStruct | KNotImpl | KOSError | KAssert
| KTimeout      (* TimeoutError / asyncio.TimeoutError *)
| KReset (c : reset_code)   (* pyqwest.StreamError *)
| KOther.

(** Instances of [Exception].  [EHttp] is _protocol.HTTPException (_protocol.py:276-281). *)
Inductive exn :=
| EConnect (c : code) (msg : pystr) (ds : list detail)
| EHttp (status : N) (hs : list (pystr * pystr))
| EOther (k : okind) (msg : pystr).

(** Result of a Python call that may raise an [Exception]. *)
Inductive res (A : Type) :=
| Ok (a : A)
| Raise (e : exn).
Arguments Ok {A} a.
Arguments Raise {A} e.

Definition bind {A B} (r : res A) (f : A -> res B) : res B :=
  match r with Ok a => f a | Raise e => Raise e end.

Notation "'do' x <- r ; k" := (bind r (fun x => k))
  (at level 200, x pattern, r at level 100, k at level 200).

(** Python [str(exc)].  For HTTPException the message is not set by the class; Python's default
    [str] of its argument tuple is not modelled (empty string). *)
Definition str_of_exn (e : exn) : pystr :=
  match e with
  | EConnect _ m _ => m
  | EHttp _ _ => []
  | EOther _ m => m
  end.

Definition is_connect (e : exn) : bool := match e with EConnect _ _ _ => true | _ => false end.
Definition is_http (e : exn) : bool := match e with EHttp _ _ => true | _ => false end.
