(** Specification of the timeout block. *)
From Coq Require Import List ZArith Bool.
From Verif Require Import MBase MPyStr MTimer.
Import ListNotations.
Local Open Scope Z_scope.

Definition is_fired (o : tobs) : bool := match o with OFired _ _ => true | _ => false end.
(** The deadline fired. *)
Definition fired (o : list tobs) : Prop := existsb is_fired o = true.
Definition kind_of (x : option xexn) : option xkind := option_map fst x.

(** The body never reschedules, and does not yield (it is not part of an asynchronous generator). *)
Fixpoint keeps_deadline (b : tbody) : Prop :=
  match b with
  | TRet | TRaise _ => True
  | TAwait k => forall w, keeps_deadline (k w)
  | TYield k => forall a, keeps_deadline (k a)
  | TReschedule _ _ => False
  end.
Fixpoint never_yields (b : tbody) : Prop :=
  match b with
  | TRet | TRaise _ => True
  | TAwait k => forall w, never_yields (k w)
  | TYield _ => False
  | TReschedule _ k => forall r, never_yields (k r)
  end.
Definition no_reschedule (vs : list tev) : Prop := Forall (fun v => forall w, v <> VReschedule w) vs.
(** The time that passes. *)
Definition elapsed (vs : list tev) : Z :=
  fold_right (fun v n => match v with VTime d => Z.of_nat d + n | _ => n end) 0 vs.
(** What leaves the block, for what ends the body: a cancellation becomes a TimeoutError if the deadline fired; any other
    exception only gets a TimeoutError put into its contexts. *)
Definition left_with (was_fired : Prop) (x y : option xexn) : Prop :=
  (~ was_fired -> y = x)
  /\ (was_fired -> match x with
                   | None => y = None
                   | Some (XCancelled, ctx) => y = Some (XTimeout, XCancelled :: ctx)
                   | Some (k, ctx) => exists a b, y = Some (k, a ++ b) /\ (ctx = a ++ b \/ exists b', b = XTimeout :: b' /\ ctx = a ++ b')
                   end).
