(** Model of src/connectrpc/_asyncio_timeout.py, used by streaming calls of the asynchronous client (_client_async.py:377),
    and of what it needs of asyncio: cancellation of the task, timers of the event loop. *)
From Coq Require Import List ZArith Bool String.
From Verif Require Import MBase MPyStr.
Import ListNotations.
Local Open Scope Z_scope.

(** An exception with its [__context__]s, nearest first. *)
Inductive xkind := XCancelled | XTimeout | XClose | XOther (e : exn).
Definition xexn := (xkind * list xkind)%type.

(** [_State] (lines 18-23). *)
Inductive tstate := Created | Entered | Expiring | Expired | Exited.
Definition tstate_eqb (a b : tstate) : bool :=
  match a, b with Created, Created | Entered, Entered | Expiring, Expiring | Expired, Expired | Exited, Exited => true | _, _ => false end.
Definition state_value (s : tstate) : pystr :=
  match s with
  | Created => lit "created" | Entered => lit "active" | Expiring => lit "expiring" | Expired => lit "expired" | Exited => lit "finished"
  end.

(** The object (lines 35-49), with the pending callback of the loop in place of [_timeout_handler]: the time it is due.  Times
    are integers here, not floats. *)
Record timer := mk_timer { tm_state : tstate; tm_when : option Z; tm_handler : option Z }.
Definition timer_new (w : option Z) : timer := mk_timer Created w None.

Definition not_entered : exn := EOther KRuntime (lit "Timeout has not been entered").
Definition already_entered : exn := EOther KRuntime (lit "Timeout has already been entered").
Definition outside_task : exn := EOther KRuntime (lit "Timeout should be used inside a task").
Definition cannot_change (s : tstate) : exn := EOther KRuntime (lit "Cannot change state of " ++ state_value s ++ lit " Timeout").

(** [reschedule] (lines 55-77).  The old callback is cancelled; a deadline that has passed is due at once. *)
Definition reschedule (now : Z) (t : timer) (w : option Z) : res timer :=
  match tm_state t with
  | Entered => Ok (mk_timer Entered w (match w with Some w => Some (if w <=? now then now else w) | None => None end))
  | Created => Raise not_entered
  | s => Raise (cannot_change s)
  end.

(** [expired] (lines 79-81). *)
Definition timer_expired (t : timer) : bool := match tm_state t with Expiring | Expired => true | _ => false end.

(** [__aenter__] (lines 91-101); [in_task]: whether there is a current task. *)
Definition timer_enter (in_task : bool) (now : Z) (t : timer) : res timer :=
  if negb (tstate_eqb (tm_state t) Created) then Raise already_entered
  else if negb in_task then Raise outside_task
  else reschedule now (mk_timer Entered (tm_when t) (tm_handler t)) (tm_when t).

(** [_insert_timeout_error] (lines 142-150): a TimeoutError before the first CancelledError among the contexts.
    Simplification: [exc_val.__context__] is a list, it has no cycles. *)
Fixpoint insert_timeout (ctx : list xkind) : list xkind :=
  match ctx with
  | [] => []
  | XCancelled :: r => XTimeout :: XCancelled :: r
  | x :: r => x :: insert_timeout r
  end.

(** [__aexit__] (lines 103-132): what leaves the [async with] of a body that returned ([None]) or raised.
    The case of an ExceptionGroup is left out: it needs Python 3.11, where asyncio's own timeout is used. *)
Definition timer_exit (t : timer) (x : option xexn) : res (timer * option xexn) :=
  match tm_state t with
  | Expiring =>
      Ok (mk_timer Expired (tm_when t) None,
          match x with
          | None => None
          | Some (XCancelled, ctx) => Some (XTimeout, XCancelled :: ctx)
          | Some (k, ctx) => Some (k, insert_timeout ctx)
          end)
  | Entered => Ok (mk_timer Exited (tm_when t) None, x)
  | _ => Raise (EOther KAssert [])
  end.

(** [_on_timeout] (lines 134-140); [task.cancel()] is the caller's. *)
Definition on_timeout (t : timer) : res timer :=
  match tm_state t with Entered => Ok (mk_timer Expiring (tm_when t) None) | _ => Raise (EOther KAssert []) end.

(** ** The body of the [async with], in a task *)

(** How a suspended body goes on: its await completes or is cancelled; the consumer of a body that has yielded asks for the
    next message or closes. *)
Inductive wake := Woken | Cancelled.
Inductive ask := AskNext | AskClose.
Inductive tbody :=
| TRet
| TRaise (x : xexn)
| TAwait (k : wake -> tbody)
| TYield (k : ask -> tbody)
| TReschedule (w : option Z) (k : res unit -> tbody).

(** What the event loop and the rest of the program do while the body is suspended: time passes; the loop runs the callback if it is due;
    someone cancels the task, or reschedules; the task goes on.  While a body has yielded it is its consumer that runs in the
    task: it may finish an await of its own, and then asks. *)
Inductive tev := VTime (d : nat) | VLoop | VCancel | VReschedule (w : option Z) | VWake | VAsk (a : ask).
(** What is observed. *)
Inductive tobs := OFired (now : Z) (when : option Z) | OCancelled | OConsumerCancelled | OFailedAssert.
(** [ts_pending]: [task.cancel()] was called and the CancelledError is not delivered yet. *)
Record tsys := mk_tsys { ts_now : Z; ts_timer : timer; ts_pending : bool }.

(** The loop runs a callback that is due. *)
Definition loop_fire (s : tsys) : tsys * list tobs :=
  match tm_handler (ts_timer s) with
  | Some d =>
      if d <=? ts_now s
      then match on_timeout (ts_timer s) with
           | Ok t => (mk_tsys (ts_now s) t true, [OFired (ts_now s) (tm_when (ts_timer s))])
           | Raise _ => (s, [OFailedAssert])
           end
      else (s, [])
  | None => (s, [])
  end.
Definition set_timer (s : tsys) (t : timer) : tsys := mk_tsys (ts_now s) t (ts_pending s).

(** How the body ended, or that it did not yet. *)
Inductive tend := EndAt (x : option xexn) | Unfinished.

(** The code up to the next suspension.  Simplification: it takes no time. *)
Fixpoint settle (s : tsys) (b : tbody) : tsys * tbody :=
  match b with
  | TReschedule w k =>
      match reschedule (ts_now s) (ts_timer s) w with
      | Ok t => settle (set_timer s t) (k (Ok tt))
      | Raise e => settle s (k (Raise e))
      end
  | _ => (s, b)
  end.

(** What a suspended body makes of one event, if it goes on. *)
Definition deliver (s : tsys) (b : tbody) (v : tev) : tsys * list tobs * option tbody :=
  match v with
  | VTime d => (mk_tsys (ts_now s + Z.of_nat d) (ts_timer s) (ts_pending s), [], None)
  | VLoop => let (s, o) := loop_fire s in (s, o, None)
  | VCancel => (mk_tsys (ts_now s) (ts_timer s) true, [], None)
  | VReschedule w => match reschedule (ts_now s) (ts_timer s) w with Ok t => (set_timer s t, [], None) | Raise _ => (s, [], None) end
  | VWake =>
      let s' := mk_tsys (ts_now s) (ts_timer s) false in
      match b with
      | TAwait k => if ts_pending s then (s', [OCancelled], Some (k Cancelled)) else (s', [], Some (k Woken))
      | TYield _ => if ts_pending s then (s', [OConsumerCancelled], None) else (s', [], None)
      | _ => (s, [], None)
      end
  | VAsk a => match b with TYield k => (s, [], Some (k a)) | _ => (s, [], None) end
  end.

Fixpoint body_run (s : tsys) (b : tbody) (vs : list tev) : tsys * list tobs * tend :=
  let (s, b) := settle s b in
  match b with
  | TRet => (s, [], EndAt None)
  | TRaise x => (s, [], EndAt (Some x))
  | _ =>
      match vs with
      | [] => (s, [], Unfinished)
      | v :: vs =>
          let '(s, o, b') := deliver s b v in
          let '(s, o', e) := body_run s (match b' with Some b => b | None => b end) vs in
          (s, o ++ o', e)
      end
  end.

(** [async with Timeout(when): body]: what is seen, how the body ended, and what leaves the block. *)
Inductive tleft := LeftUnentered (e : exn) | LeftWith (x : option xexn) | LeftAssert | LeftNot.
Definition with_timeout (in_task : bool) (s : tsys) (b : tbody) (vs : list tev) : tsys * list tobs * tend * tleft :=
  match timer_enter in_task (ts_now s) (ts_timer s) with
  | Raise e => (s, [], Unfinished, LeftUnentered e)
  | Ok t =>
      let '(s, o, e) := body_run (set_timer s t) b vs in
      match e with
      | Unfinished => (s, o, e, LeftNot)
      | EndAt x =>
          match timer_exit (ts_timer s) x with
          | Ok (t, x) => (set_timer s t, o, e, LeftWith x)
          | Raise _ => (s, o, e, LeftAssert)
          end
      end
  end.

(** [timeout(delay)] (lines 153-170). *)
Definition timeout_of (now : Z) (delay : option Z) : timer := timer_new (match delay with Some d => Some (now + d) | None => None end).
