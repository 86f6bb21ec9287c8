(** Reading histories of a server process. *)
From Coq Require Import List Arith.
From Verif Require Import MBase MPyStr MServer MAsgi MLifespan MEndless MServe.
Import ListNotations.

(** How many calls a history makes, and how often it lets the i-th call run. *)
Definition calls (h : list action) : nat := List.length (filter (fun x => match x with Call _ => true | _ => false end) h).
Definition turns (i : nat) (h : list action) : nat :=
  List.length (filter (fun x => match x with Run j => Nat.eqb i j | _ => false end) h).
(** A history without lifespan messages but those [ok]. *)
Definition only_messages (ok : lrecv -> Prop) (h : list action) : Prop :=
  Forall (fun x => match x with Message _ m _ => ok m | _ => True end) h.
(** A request alone in a process: called, then run [n] times. *)
Definition alone (c : call) (n : nat) : list action := Call c :: repeat (Run 0) n.
(** A lifespan alone in a process: the messages [ms] with the outcome of the n-th send given. *)
Fixpoint told (o : nat -> send_res) (n : nat) (ms : list lrecv) : list action :=
  match ms with
  | [] => []
  | m :: ms => Message 0 m (o n) :: told o (match m with LStartup => S n | _ => n end) ms
  end.
