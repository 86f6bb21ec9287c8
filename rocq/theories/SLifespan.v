(** Specification of the lifespan protocol. *)
From Coq Require Import List Bool.
From Verif Require Import MBase MPyStr MServer MAsgi MLifespan.
Import ListNotations.

(** The conversations allowed, for a service given as a generator ([gen]) or an object, from the point where startup was
    ([started]) or was not done before.  Every startup and every shutdown is answered by one reply before the next message is
    received; the generator is advanced before the reply to a startup and closed before the reply to the shutdown after it;
    nothing follows a failure or the shutdown. *)
Inductive conversation (gen : bool) : bool -> list lev -> Prop :=
| cv_wait st : conversation gen st []
| cv_other st t : conversation gen st t -> conversation gen st (TGot LOther :: t)
| cv_start st t : conversation gen true t ->
    conversation gen st (TGot LStartup :: (if gen then [TAdvanced] else []) ++ TSent StartupComplete :: t)
| cv_start_failed st s : gen = true -> conversation gen st [TGot LStartup; TAdvanced; TSent (StartupFailed s)]
| cv_stop st : conversation gen st (TGot LShutdown :: (if gen && st then [TClosed] else []) ++ [TSent ShutdownComplete])
| cv_stop_failed s : gen = true -> conversation gen true [TGot LShutdown; TClosed; TSent (ShutdownFailed s)].

Definition is_generator {V} (s : service V) : bool := match s with SvcGenerator _ => true | SvcObject _ => false end.
Definition got (t : list lev) : list lrecv := flat_map (fun e => match e with TGot m => [m] | _ => [] end) t.
Definition sent (t : list lev) : list lreply := flat_map (fun e => match e with TSent r => [r] | _ => [] end) t.
(** No message is an exception or a cancellation. *)
Definition messages (ms : list lrecv) : Prop := Forall (fun m => match m with LRaise _ | LCancel => False | _ => True end) ms.
(** No code of the generator is cancelled. *)
Fixpoint uncancelled {V} (g : svc_gen V) : Prop :=
  match g with SvYield _ next c => c <> XCancel /\ uncancelled next | SvCancel => False | _ => True end.
Definition service_uncancelled {V} (s : service V) : Prop :=
  match s with
  | SvcGenerator (GenNew g) => uncancelled g
  | SvcGenerator (GenAt g c) => uncancelled g /\ c <> XCancel
  | _ => True
  end.
