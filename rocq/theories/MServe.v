(** Model of one ASGI application object used by many tasks at once: src/connectrpc/_server_async.py:86-221.  The event loop
    interleaves the calls of the application; what they share is [self._service] and [self._resolved_endpoints]. *)
From Coq Require Import List NArith Bool String.
From Verif Require Import MBase MPyStr MWire MTimeout MServer MAsgi MLifespan MEndless.
Import ListNotations.

(** What the server calls the application for (lines 119-127). *)
Inductive call := CHttp (now : fl) (sc : scope) (en : env) | CLifespan | CWebsocket.

(** A call in progress.  [TNew]: not scheduled yet.  [TLife]: in the loop of lines 128-165, with [service_iter] set or not.
    [TServe]: serving a request with the endpoints of line 177, [n] steps of its method ago. *)
Inductive task (A B : Type) :=
| TNew (c : call)
| TLife (it : bool) (events : list lev)
| TLifeOver (events : list lev) (out : lout)
| TServe (now : fl) (sc : scope) (en : env) (d : dict (eendpoint A B)) (n : nat)
| TRaised (e : exn).
Arguments TNew {A B}. Arguments TLife {A B}. Arguments TLifeOver {A B}. Arguments TServe {A B}. Arguments TRaised {A B}.

(** One turn of the lifespan loop (lines 129-165), with the outcome of the send it makes. *)
Definition life_turn {V E} (r : send_res) (it : bool) (a : lapp V E) (m : lrecv) : lapp V E * bool * list lev * lout :=
  let reply a it t x := match r with
    | SOk => (a, it, t ++ [TSent x], match x with StartupComplete => LWaiting | _ => LReturned end)
    | SRaise e => (a, it, t, LRaised e)
    | SCancel => (a, it, t, LCancelled)
    end in
  let complete a it v t :=
    match la_endpoints a v with Raise e => (a, it, t, LRaised e) | Ok d => reply (set_resolved a d) it t StartupComplete end in
  match m with
  | LStartup =>
      match la_service a with
      | SvcObject v => complete a it v [TGot m]
      | SvcGenerator g =>
          let (x, g) := gen_next g in
          let a := set_service a (SvcGenerator g) in
          match x with
          | inl v => complete a true v [TGot m; TAdvanced]
          | inr ICancel => (a, true, [TGot m; TAdvanced], LCancelled)
          | inr (IExn e) => reply a true [TGot m; TAdvanced] (StartupFailed (str_of_exn e))
          end
      end
  | LShutdown =>
      match it, la_service a with
      | true, SvcGenerator g =>
          let (x, g) := gen_close g in
          let a := set_service a (SvcGenerator g) in
          match x with
          | inl _ => reply a it [TGot m; TClosed] ShutdownComplete
          | inr ICancel => (a, it, [TGot m; TClosed], LCancelled)
          | inr (IExn e) => reply a it [TGot m; TClosed] (ShutdownFailed (str_of_exn e))
          end
      | _, _ => reply a it [TGot m] ShutdownComplete
      end
  | LOther => (a, it, [TGot m], LWaiting)
  | LRaise e => (a, it, [], LRaised e)
  | LCancel => (a, it, [], LCancelled)
  end.

(** The process: the application's settings (lines 112-118) and object, and the calls made of it so far. *)
Record process (V A B : Type) := mk_proc { pr_app : app A B; pr_obj : lapp V (eendpoint A B); pr_tasks : list (task A B) }.
Arguments mk_proc {V A B}. Arguments pr_app {V A B}. Arguments pr_obj {V A B}. Arguments pr_tasks {V A B}.

(** What the server and the event loop do next: call the application, let the i-th call run, or give the i-th call, a
    lifespan, a message, with the outcome of the reply's send. *)
Inductive action := Call (c : call) | Run (i : nat) | Message (i : nat) (m : lrecv) (r : send_res).

Fixpoint set_nth {X} (i : nat) (x : X) (l : list X) : list X :=
  match l, i with
  | [], _ => []
  | _ :: l, O => x :: l
  | y :: l, S i => y :: set_nth i x l
  end.

(** One step of a task.  Between the [if] of line 167 and line 177 nothing is awaited.  Simplification: nothing else runs while
    the generator is advanced or closed and its reply is sent; requests that do see the object as before or as after it. *)
Definition run_task {V A B} (a : lapp V (eendpoint A B)) (t : task A B) : lapp V (eendpoint A B) * task A B :=
  match t with
  | TNew (CHttp now sc en) =>
      match http_endpoints a with
      | Ok (a, d) => (a, TServe now sc en d 0)
      | Raise e => (a, TRaised e)
      end
  | TNew CLifespan => (a, TLife false [])
  | TNew CWebsocket => (a, TRaised websocket)
  | TServe now sc en d n => (a, TServe now sc en d (S n))
  | t => (a, t)
  end.
Definition tell_task {V A B} (a : lapp V (eendpoint A B)) (t : task A B) (m : lrecv) (r : send_res) : lapp V (eendpoint A B) * task A B :=
  match t with
  | TLife it ev =>
      let '(a, it, t, out) := life_turn r it a m in
      (a, match out with LWaiting => TLife it (ev ++ t) | _ => TLifeOver (ev ++ t) out end)
  | t => (a, t)
  end.
Definition happen {V A B} (s : process V A B) (x : action) : process V A B :=
  let on i (f : lapp V (eendpoint A B) -> task A B -> lapp V (eendpoint A B) * task A B) :=
    match nth_error (pr_tasks s) i with
    | None => s
    | Some t => let (a, t) := f (pr_obj s) t in mk_proc (pr_app s) a (set_nth i t (pr_tasks s))
    end in
  match x with
  | Call c => mk_proc (pr_app s) (pr_obj s) (pr_tasks s ++ [TNew c])
  | Run i => on i run_task
  | Message i m r => on i (fun a t => tell_task a t m r)
  end.
Definition happens {V A B} (s : process V A B) (h : list action) : process V A B := fold_left happen h s.

(** The process with a fresh application and no calls. *)
Definition proc_new {V A B} (ap : app A B) (s : service V) (f : V -> res (dict (eendpoint A B))) : process V A B :=
  mk_proc ap (lapp_new s f) [].

(** What can be seen of a call: a request's progress, an exception, the lifespan's events. *)
Inductive sight (A : Type) :=
| Waiting
| Answering (p : progress A (asgi_result A) aevent)
| Raising (e : exn)
| Living (events : list lev) (out : lout).
Arguments Waiting {A}. Arguments Answering {A}. Arguments Raising {A}. Arguments Living {A}.
Definition sight_of {V A B} (s : process V A B) (i : nat) : option (sight A) :=
  match nth_error (pr_tasks s) i with
  | None => None
  | Some (TNew _) => Some Waiting
  | Some (TServe now sc en d n) => Some (Answering (asgi_after n (mk_eapp (pr_app s) d) now sc en))
  | Some (TRaised e) => Some (Raising e)
  | Some (TLife _ ev) => Some (Living ev LWaiting)
  | Some (TLifeOver ev out) => Some (Living ev out)
  end.
