(** Specification: response streams that the server cuts short because a message cannot be written. *)
From Coq Require Import List.
From Verif Require Import MBase MPyStr MHeaders MUtf8 MWire MEnvelope MTimeout MProtocol MClient MServer SServer.
Import ListNotations.

(** [cut_at g ps rs steps rs' b c]: the consumer takes the messages [steps] from [g] and then [b], and goes no further; [rs'] is the
    response state when [b] is taken, [c] what closing the method does there. *)
Inductive cut_at {A B} : prog A B unit -> pulls A -> rstate -> list (rstate * B) -> rstate -> B -> on_close -> Prop :=
| cut_here b c k ps rs : cut_at (Yield b c k) ps rs [] rs b c
| cut_yield b0 c0 k ps rs steps rs' b c :
    cut_at k ps rs steps rs' b c -> cut_at (Yield b0 c0 k) ps rs ((rs, b0) :: steps) rs' b c
| cut_pull k ps rs steps rs' b c :
    cut_at (k (fst (pull_next ps))) (snd (pull_next ps)) rs steps rs' b c -> cut_at (Pull k) ps rs steps rs' b c
| cut_hdr op k ps rs steps rs' b c :
    cut_at k ps (mk_rs (h_exec (rs_h rs) op) (rs_t rs)) steps rs' b c -> cut_at (Hdr op k) ps rs steps rs' b c
| cut_trl op k ps rs steps rs' b c :
    cut_at k ps (mk_rs (rs_h rs) (h_exec (rs_t rs) op)) steps rs' b c -> cut_at (Trl op k) ps rs steps rs' b c.

(** A method that has returned has nothing left to close. *)
Definition nothing_to_close : on_close := mk_close [] [] None.

(** The same for a method of any kind; [ps] is the request stream, [inv] what is invoked. *)
Definition cut {A B} (ep : endpoint A B) (cx : req_ctx) (ps : pulls A) (inv : list (invoked A)) (steps : list (rstate * B))
    (rs' : rstate) (b : B) (c : on_close) : Prop :=
  match ep with
  | EpUnary _ f => exists a, ps = ([a], None) /\ inv = [InvMsg a] /\ returns (f a cx) ([], None) [(rs', b)] rs' None
                             /\ steps = [] /\ c = nothing_to_close
  | EpServerStream _ f => exists a, ps = ([a], None) /\ inv = [InvMsg a] /\ cut_at (f a cx) ([], None) rs_new steps rs' b c
  | EpClientStream _ f => inv = [InvStream] /\ returns (f cx) ps [(rs', b)] rs' None /\ steps = [] /\ c = nothing_to_close
  | EpBidi _ f => inv = [InvStream] /\ cut_at (f cx) ps rs_new steps rs' b c
  end.
