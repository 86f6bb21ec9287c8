(** Model of the ASGI application's lifespan: src/connectrpc/_server_async.py:86-176. *)
From Coq Require Import List NArith Bool String.
From Verif Require Import MBase MPyStr MWire MServer MAsgi.
Import ListNotations.

(** An asynchronous generator that yields services: what its code does up to the next [yield], and what it does when it is
    closed there (returns, or raises GeneratorExit; raises another exception; is cancelled; yields again). *)
Inductive on_exit := XDone | XRaise (e : exn) | XCancel | XYield.
Inductive svc_gen (V : Type) :=
| SvYield (v : V) (next : svc_gen V) (closed : on_exit)
| SvRaise (e : exn)
| SvCancel
| SvStop.
Arguments SvYield {V}. Arguments SvRaise {V}. Arguments SvCancel {V}. Arguments SvStop {V}.

(** Generator objects: not started, suspended at a [yield], finished. *)
Inductive gen_obj (V : Type) := GenNew (g : svc_gen V) | GenAt (next : svc_gen V) (closed : on_exit) | GenDone.
Arguments GenNew {V}. Arguments GenAt {V}. Arguments GenDone {V}.

Definition stop_async : exn := EOther KOther [].
Definition ignored_generator_exit : exn := EOther KRuntime (lit "async generator ignored GeneratorExit").

(** [await anext(it)] *)
Definition gen_next {V} (g : gen_obj V) : (V + interrupt) * gen_obj V :=
  match match g with GenNew g | GenAt g _ => g | GenDone => SvStop end with
  | SvYield v next c => (inl v, GenAt next c)
  | SvRaise e => (inr (IExn e), GenDone)
  | SvCancel => (inr ICancel, GenDone)
  | SvStop => (inr (IExn stop_async), GenDone)
  end.
(** [await it.aclose()] *)
Definition gen_close {V} (g : gen_obj V) : (unit + interrupt) * gen_obj V :=
  match g with
  | GenAt next XDone => (inl tt, GenDone)
  | GenAt next (XRaise e) => (inr (IExn e), GenDone)
  | GenAt next XCancel => (inr ICancel, GenDone)
  | GenAt next XYield => (inr (IExn ignored_generator_exit), GenAt next XYield)
  | GenNew _ | GenDone => (inl tt, GenDone)
  end.

(** The application object (lines 86-118): [self._service], [self._endpoints] with the interceptors (525-534; any function that
    may raise), [self._resolved_endpoints]. *)
Inductive service (V : Type) := SvcObject (v : V) | SvcGenerator (g : gen_obj V).
Arguments SvcObject {V}. Arguments SvcGenerator {V}.
Record lapp (V E : Type) := mk_lapp { la_service : service V; la_endpoints : V -> res (dict E); la_resolved : option (dict E) }.
Arguments mk_lapp {V E}. Arguments la_service {V E}. Arguments la_endpoints {V E}. Arguments la_resolved {V E}.
Definition lapp_new {V E} (s : service V) (f : V -> res (dict E)) : lapp V E := mk_lapp s f None.
Definition set_service {V E} (a : lapp V E) (s : service V) : lapp V E := mk_lapp s (la_endpoints a) (la_resolved a).
Definition set_resolved {V E} (a : lapp V E) (d : dict E) : lapp V E := mk_lapp (la_service a) (la_endpoints a) (Some d).

(** What [await receive()] does in the lifespan: a message, an exception or a cancellation.  After the last listed one the
    application waits. *)
Inductive lrecv := LStartup | LShutdown | LOther | LRaise (e : exn) | LCancel.
Inductive lreply := StartupComplete | StartupFailed (message : pystr) | ShutdownComplete | ShutdownFailed (message : pystr).
(** What happens, in order: messages received, the generator advanced, closed, and replies sent. *)
Inductive lev := TGot (m : lrecv) | TAdvanced | TClosed | TSent (r : lreply).
Inductive lout := LReturned | LRaised (e : exn) | LCancelled | LWaiting.

(** [await send(reply)], with the outcome of the n-th send given.  A reply whose send fails was not sent. *)
Definition lsend (o : nat -> send_res) (n : nat) (r : lreply) : list lev * option lout :=
  match o n with SOk => ([TSent r], None) | SRaise e => ([], Some (LRaised e)) | SCancel => ([], Some LCancelled) end.

(** The [while True] of lines 128-165.  [it]: whether [service_iter] is set. *)
Fixpoint lifespan_loop {V E} (o : nat -> send_res) (n : nat) (it : bool) (a : lapp V E) (ms : list lrecv) : lapp V E * list lev * lout :=
  match ms with
  | [] => (a, [], LWaiting)
  | m :: ms =>
      let '(a, t, out) :=
        match m with
        | LStartup =>
            (* lines 132-153 *)
            let complete a it v t :=
              match la_endpoints a v with
              | Raise e => (a, t, LRaised e)
              | Ok d =>
                  let a := set_resolved a d in
                  let (s, out) := lsend o n StartupComplete in
                  match out with
                  | Some out => (a, t ++ s, out)
                  | None => let '(a, t', out) := lifespan_loop o (S n) it a ms in (a, t ++ s ++ t', out)
                  end
              end in
            match la_service a with
            | SvcGenerator g =>
                let (r, g) := gen_next g in
                let a := set_service a (SvcGenerator g) in
                match r with
                | inl v => complete a true v [TAdvanced]
                | inr ICancel => (a, [TAdvanced], LCancelled)
                | inr (IExn e) =>
                    let (s, out) := lsend o n (StartupFailed (str_of_exn e)) in
                    (a, [TAdvanced] ++ s, match out with Some out => out | None => LReturned end)
                end
            | SvcObject v => complete a it v []
            end
        | LShutdown =>
            (* lines 154-165 *)
            let finish a t r :=
              let (s, out) := lsend o n r in (a, t ++ s, match out with Some out => out | None => LReturned end) in
            match it, la_service a with
            | true, SvcGenerator g =>
                let (r, g) := gen_close g in
                let a := set_service a (SvcGenerator g) in
                match r with
                | inl _ => finish a [TClosed] ShutdownComplete
                | inr ICancel => (a, [TClosed], LCancelled)
                | inr (IExn e) => finish a [TClosed] (ShutdownFailed (str_of_exn e))
                end
            | _, _ => finish a [] ShutdownComplete
            end
        | LOther => lifespan_loop o n it a ms
        | LRaise e => (a, [], LRaised e)
        | LCancel => (a, [], LCancelled)
        end in
      (a, match m with LRaise _ | LCancel => t | _ => TGot m :: t end, out)
  end.
Definition lifespan {V E} (o : nat -> send_res) (a : lapp V E) (ms : list lrecv) : lapp V E * list lev * lout :=
  lifespan_loop o 0 false a ms.

Definition websocket : exn := EOther KRuntime (lit "connect does not support websockets").
Definition no_lifespan : exn := EOther KRuntime (lit "ASGI server does not support lifespan but async generator passed for service. Enable lifespan support.").

(** The endpoints an HTTP request is served with (lines 167-176).  An empty mapping counts as unresolved. *)
Definition http_endpoints {V E} (a : lapp V E) : res (lapp V E * dict E) :=
  match la_resolved a with
  | Some ((_ :: _) as d) => Ok (a, d)
  | _ =>
      match la_service a with
      | SvcGenerator _ => Raise no_lifespan
      | SvcObject v => do d <- la_endpoints a v ; Ok (set_resolved a d, d)
      end
  end.
