(** Timeouts: binary64 arithmetic, grpc-timeout and connect-timeout-ms headers, deadline of a request context.
    Models src/connectrpc/_protocol_grpc.py:124-157, 402-421, src/connectrpc/_protocol_connect.py:98-113, 222-223,
    src/connectrpc/request.py:48-51, 85-90. *)
From Coq Require Import List NArith ZArith Bool String.
From Verif Require Import MBase MPyStr.
Import ListNotations.
Local Open Scope Z_scope.

(** ** IEEE binary64, round to nearest even

    A finite float is represented by the integer [x] such that its value is [x * 2^-1074].  Overflow to infinity
    is not modelled. *)
Definition fl := Z.
Definition fl_unit : Z := 2 ^ 1074.

(** Nearest integer to [a / b] ([b > 0]), ties to even. *)
Definition rdiv (a b : Z) : Z :=
  let d := a / b in
  let r := a mod b in
  if 2 * r <? b then d
  else if b <? 2 * r then d + 1
  else if Z.even d then d else d + 1.

(** The float nearest to [p / q] units, [p >= 0], [q > 0]: keep 53 significant bits. *)
Definition rne_pos (p q : Z) : fl :=
  let e := Z.max 0 (Z.log2 (p / q) - 52) in
  rdiv p (q * 2 ^ e) * 2 ^ e.
Definition rne (p q : Z) : fl := if p <? 0 then - rne_pos (- p) q else rne_pos p q.

(** Python float operations. *)
Definition fl_of_Z (z : Z) : fl := rne (z * fl_unit) 1.
Definition fl_add (x y : fl) : fl := rne (x + y) 1.
Definition fl_sub (x y : fl) : fl := rne (x - y) 1.
Definition fl_mul (x y : fl) : fl := rne (x * y) fl_unit.
Definition fl_div (x y : fl) : fl := if y <? 0 then rne (- x * fl_unit) (- y) else rne (x * fl_unit) y.
(** [int(x)]: truncation toward zero. *)
Definition fl_trunc (x : fl) : Z := Z.quot x fl_unit.

(** ** grpc-timeout *)

(** [_lookup_timeout_unit] (_protocol_grpc.py:141-157): an [int] factor for H M S m, a float for u ([1 / 1000])
    and n ([1 / 1000 / 1000]). *)
Inductive factor := FInt (n : Z) | FFloat (x : fl).
Definition lookup_timeout_unit (u : N) : option factor :=
  if (u =? 72)%N then Some (FInt (60 * 60 * 1000))
  else if (u =? 77)%N then Some (FInt (60 * 1000))
  else if (u =? 83)%N then Some (FInt (1 * 1000))
  else if (u =? 109)%N then Some (FInt 1)
  else if (u =? 117)%N then Some (FFloat (fl_div (fl_of_Z 1) (fl_of_Z 1000)))
  else if (u =? 110)%N then Some (FFloat (fl_div (fl_div (fl_of_Z 1) (fl_of_Z 1000)) (fl_of_Z 1000)))
  else None.

(** [int(value * value_to_ms)]; multiplying by a float first converts the [int], which overflows from
    2^1024 - 2^970 on. *)
Definition scale_timeout (value : Z) (f : factor) : res Z :=
  match f with
  | FInt n => Ok (value * n)
  | FFloat x =>
      if 2 ^ 1024 - 2 ^ 970 <=? Z.abs value then Raise (EOther KOther (lit "int too large to convert to float"))
      else Ok (fl_trunc (fl_mul (fl_of_Z value) x))
  end.

(** [_parse_timeout(timeout)] (_protocol_grpc.py:124-138) for a non-empty string. *)
Definition parse_timeout (timeout : pystr) : res Z :=
  match lookup_timeout_unit (last timeout 0%N) with
  | None => Raise (EOther KValue (lit "protocol error: timeout has invalid unit"))
  | Some f =>
      match int_of_str (removelast timeout) with
      | None => Raise (EOther KValue (lit "protocol error: invalid timeout"))
      | Some value =>
          if 99999999 <? value then Raise (EOther KValue (lit "protocol error: timeout is too long"))
          else scale_timeout value f
      end
  end.

(** [_serialize_timeout(timeout_ms)] (_protocol_grpc.py:402-421); the float bounds 1e8, 1e11 and 6e12 are exact. *)
Definition serialize_timeout (t : Z) : pystr :=
  if t <=? 0 then lit "0n"
  else
    let '(size, unit) :=
      if t <? 100000000 then (1, 109%N)
      else if t <? 100000000 * 1000 then (1 * 1000, 83%N)
      else if t <? 100000000 * 60 * 1000 then (60 * 1000, 77%N)
      else (60 * 60 * 1000, 72%N) in
    dec_of_Z (t / size) ++ [unit].

(** Server side of grpc-timeout (_protocol_grpc.py:63-64): absent and empty mean no timeout. *)
Definition grpc_server_timeout (h : option pystr) : res (option Z) :=
  match h with
  | Some ((_ :: _) as s) => do t <- parse_timeout s ; Ok (Some t)
  | _ => Ok None
  end.

(** ** connect-timeout-ms *)

(** Server side (_protocol_connect.py:98-113). *)
Definition connect_server_timeout (h : option pystr) : res (option Z) :=
  match h with
  | Some ((_ :: _) as s) =>
      if (10 <? N.of_nat (List.length s))%N
      then Raise (EConnect InvalidArgument (lit "Invalid timeout header: '" ++ s ++ lit " has >10 digits") [])
      else match int_of_str s with
           | None => Raise (EConnect InvalidArgument (lit "Invalid timeout header: '" ++ s ++ lit "'") [])
           | Some t => Ok (Some t)
           end
  | _ => Ok None
  end.

(** Client side: [str(timeout_ms)] (_protocol_connect.py:222-223). *)
Definition connect_client_timeout (t : Z) : pystr := dec_of_Z t.

(** [timeout_ms or self._timeout_ms] (_client_async.py:207, 229, 250, 271; _client_sync.py:206-268). *)
Definition effective_timeout (call default : option Z) : option Z :=
  match call with
  | Some t => if t =? 0 then default else Some t
  | None => default
  end.

(** ** Deadline of a request context (request.py:48-51, 85-90) *)

(** [_end_time], from the clock at construction. *)
Definition end_time (start : fl) (timeout : Z) : fl :=
  fl_add start (fl_div (fl_of_Z timeout) (fl_of_Z 1000)).
(** [timeout_ms] read when the clock shows [now]. *)
Definition remaining_ms (end_ now : fl) : fl := fl_mul (fl_sub end_ now) (fl_of_Z 1000).
