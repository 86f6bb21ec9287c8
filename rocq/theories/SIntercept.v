(** Specification of interceptors: order of wrapping, and the hooks of metadata interceptors. *)
From Coq Require Import List Bool.
From Verif Require Import MBase MClient MIntercept.
Import ListNotations.

(** [w1 (w2 (... (wn f)))]: the first of the list is outermost. *)
Fixpoint onion {F} (ws : list (F -> F)) (f : F) : F :=
  match ws with [] => f | w :: ws => w (onion ws f) end.
(** The wrappers that the interceptors of a list offer for one kind of call, in order. *)
Fixpoint offered {I F} (get : I -> option (F -> F)) (is : list I) : list (F -> F) :=
  match is with
  | [] => []
  | i :: is => match get i with Some w => w :: offered get is | None => offered get is end
  end.

(** What the hooks see of a call that ended this way. *)
Definition call_error {R} (o : outcome R) : option exn :=
  match o with Raised (FExn e) => Some e | _ => None end.
Definition ended {R} (o : outcome R) : Prop := o <> Suspended.

Definition marks {L T B} (t : list (event L T B)) : list (mark T) :=
  flat_map (fun e => match e with Marked m => [m] | _ => [] end) t.

(** Marks as brackets: [nested open ms open'] holds when the calls of [on_end] among [ms] are each for the latest interceptor
    that started and has not ended, with the token of its [on_start].  [open] are the interceptors started before, latest
    first, and [open'] those that are left. *)
Inductive nested {T} : list (nat * T) -> list (mark T) -> list (nat * T) -> Prop :=
| n_nil st : nested st [] st
| n_call st i r st' : nested st r st' -> nested st (OnStart i :: r) st'
| n_start st i t r st' : nested ((i, t) :: st) r st' -> nested st (Started i t :: r) st'
| n_end st i t e r st' : nested st r st' -> nested ((i, t) :: st) (OnEnd i t e :: r) st'.

(** The interceptors whose [on_start] was called, in order. *)
Definition starts {T} (ms : list (mark T)) : list nat :=
  flat_map (fun m => match m with OnStart i => [i] | _ => [] end) ms.
Definition ends {T} (ms : list (mark T)) : list (nat * T * option exn) :=
  flat_map (fun m => match m with OnEnd i t e => [(i, t, e)] | _ => [] end) ms.

(** Code that makes no calls of hooks by itself. *)
Fixpoint unmarked {L X T B R} (g : gen L X T B R) : Prop :=
  match g with
  | GRet _ | GRaise _ => True
  | GDo _ k => forall x, unmarked (k x)
  | GMark _ _ => False
  | GYield _ k h => unmarked k /\ forall f, unmarked (h f)
  end.
Definition unmarked_meta {L X T C} (m : meta L X T C) : Prop :=
  (forall c, unmarked (me_start m c)) /\ forall t c e, unmarked (me_end m t c e).
(** [on_end] of the interceptor never raises, in this world. *)
Definition quiet_end {S L X T C} (w : world S L X) (m : meta L X T C) : Prop :=
  forall s t c e, exists s' tr, run w s [] (me_end m t c e) = (s', tr, Returned tt).

(** An interceptor object that only is a metadata interceptor. *)
Definition only_meta {L X T A Q B C} (m : meta L X T C) : interceptor L X T A Q B C := mk_ic None None None None (Some m).

(** A consumer that never throws and never closes. *)
Definition patient (c : list resume) : Prop := Forall (fun r => r = Next) c.

(** A run [r] of a call wrapped by metadata interceptors [ms], in world [w]: their [on_start] are called in list order, each
    [on_end] is called for the latest one still open with its token, none is left open when the call has ended, and if no
    [on_end] raises, each is told the exception that ended the call (if it is an Exception). *)
Definition hooked {S L X T C B R} (w : world S L X) (ms : list (meta L X T C)) (r : S * list (event L T B) * outcome R) : Prop :=
  let '(_, t, o) := r in
  (exists later, map me_id ms = starts (marks t) ++ later)
  /\ (exists left_open, nested [] (marks t) left_open /\ (ended o -> left_open = []))
  /\ (Forall (quiet_end w) ms -> ended o -> Forall (fun x => snd x = call_error o) (ends (marks t))).

(** Events of code that yields nothing, among those of code that does. *)
Definition recast {L T B} (e : event L T Empty_set) : event L T B :=
  match e with Effect l => Effect l | Marked m => Marked m | Yielded b => match b with end end.

(** The run [r] is the run [inner] of the code the interceptor [m] wraps, started after [on_start] and followed by one call of
    [on_end]; all between is as without the interceptor.  No [on_end] if [on_start] raises, or while a stream is suspended. *)
Definition bracketed {S L X T C B R} (w : world S L X) (m : meta L X T C) (ctx : C) (s : S)
    (inner : S -> S * list (event L T B) * outcome R) (r : S * list (event L T B) * outcome R) : Prop :=
  let '(s1, t1, o1) := run w s [] (me_start m ctx) in
  match o1 with
  | Suspended => False
  | Raised f => r = (s1, Marked (OnStart (me_id m)) :: map recast t1, Raised f)
  | Returned token =>
      let '(s2, t2, o2) := inner s1 in
      let before := Marked (OnStart (me_id m)) :: map recast t1 ++ Marked (Started (me_id m) token) :: t2 in
      match o2 with
      | Suspended => r = (s2, before, Suspended)
      | _ => let '(s3, t3, o3) := run w s2 [] (me_end m token ctx (call_error o2)) in
             r = (s3, before ++ Marked (OnEnd (me_id m) token (call_error o2)) :: map recast t3,
                  match o3 with Raised f => Raised f | _ => o2 end)
      end
  end.

(** An interceptor of unary calls that records when it is entered and left, around one call of the rest. *)
Definition recorder {X T A Q B C} (i : nat) : interceptor (bool * nat) X T A Q B C :=
  mk_ic (Some (fun next request ctx =>
           GDo (true, i) (fun _ => gcall (next request ctx) (fun r => GDo (false, i) (fun _ => GRet r)))))
        None None None None.
(** One that only implements the interface for client streams. *)
Definition bystander {X T A Q B C} (i : nat) : interceptor (bool * nat) X T A Q B C :=
  mk_ic None (Some (fun next request ctx => GDo (true, i) (fun _ => next request ctx))) None None None.
