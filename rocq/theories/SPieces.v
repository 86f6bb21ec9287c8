(** Requests that arrive at a server in pieces. *)
From Coq Require Import List NArith Bool.
From Verif Require Import MBase MHeaders MWire MEnvelope SEnvelope MTimeout MProtocol MServer MAsgi MWsgi.
Import ListNotations.
Local Open Scope N_scope.

(** [l] delivers [body] and then ends it ([None]) or reports something else ([Some x]); a list that is used up is followed by a
    disconnect. *)
Inductive delivers : list recv -> bytes -> option recv -> Prop :=
| dl_last : forall b r, delivers (RReq b false :: r) b None
| dl_more : forall b r body x, delivers r body x -> delivers (RReq b true :: r) (b ++ body) x
| dl_other : forall x r, (forall b more, x <> RReq b more) -> delivers (x :: r) [] (Some x)
| dl_gone : delivers [] [] (Some RDisconnect).

(** The same for the reads of a WSGI input: its end, or the error of a read. *)
Inductive winput : list rd -> bytes -> option exn -> Prop :=
| wi_end : winput [] [] None
| wi_error : forall e r, winput (RDErr e :: r) [] (Some e)
| wi_more : forall b r body x, b <> [] -> winput r body x -> winput (RD b :: r) (b ++ body) x.

(** All requests but those of unary methods over Connect come as a stream of frames. *)
Definition framed {A B} (ep : endpoint A B) (p : proto) : Prop :=
  match ep, p with EpUnary _ _, PConnect => False | _, _ => True end.
