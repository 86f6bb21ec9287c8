(** What timeout header texts mean, independently of the functions that write and read them. *)
From Coq Require Import List NArith ZArith Bool.
Import ListNotations.
Local Open Scope Z_scope.

(** The digits 0-9 of ASCII, and the number a text of them denotes. *)
Definition plain_digits (s : list N) : Prop := Forall (fun c => (48 <= c <= 57)%N) s.
Fixpoint decimal (s : list N) : Z :=
  match s with
  | [] => 0
  | c :: t => (Z.of_N c - 48) * 10 ^ Z.of_nat (length t) + decimal t
  end.

(** gRPC timeout units: nanoseconds in one H, M, S, m, u, n. *)
Definition unit_ns (u : N) : option Z :=
  match u with
  | 72%N => Some (3600 * 1000000000)
  | 77%N => Some (60 * 1000000000)
  | 83%N => Some 1000000000
  | 109%N => Some 1000000
  | 117%N => Some 1000
  | 110%N => Some 1
  | _ => None
  end.

(** [grpc_timeout_text s v k]: [s] is 1 to 8 digits denoting [v] followed by a unit of [k] nanoseconds. *)
Definition grpc_timeout_text (s : list N) (v k : Z) : Prop :=
  exists ds u, s = ds ++ [u] /\ plain_digits ds /\ (1 <= length ds <= 8)%nat /\ decimal ds = v /\ unit_ns u = Some k.

(** 10^8 hours in milliseconds. *)
Definition grpc_limit_ms : Z := 100000000 * 3600000.

(** ** Time left *)

(** [x], in milliseconds, is the time left at clock time [now] (in seconds) of [t] milliseconds from [start], up to a 2^49-th part of the
    times involved; all in units of 2^-1074. *)
Definition left_ms (start : Z) (t : Z) (now : Z) (x : Z) : Prop :=
  2 ^ 49 * Z.abs (x - (1000 * (start - now) + t * 2 ^ 1074)) <= 1000 * (Z.abs start + Z.abs now) + t * 2 ^ 1074.
(** The same for [x] in seconds. *)
Definition left_s (start : Z) (t : Z) (now : Z) (x : Z) : Prop := left_ms start t now (1000 * x).
