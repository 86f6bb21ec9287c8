(** Specification for C95. *)
From Coq Require Import List NArith ZArith Bool String.
From Verif Require Import MBase MPyStr MHeaders MWire MEnvelope MTimeout MProtocol MClient MIntercept MWrap MRetry.
Import ListNotations.

(** Two requests that say the same: only the time they may take differs. *)
Definition same_request (q q' : http_request) : Prop :=
  rq_method q = rq_method q' /\ rq_url q = rq_url q' /\ rq_headers q = rq_headers q' /\ rq_body q = rq_body q'.

(** In this run the only calls that were made are [l]. *)
Definition only_calls {L T Y} (l : L) (t : list (event L T Y)) : Prop := forall l', In (Effect l') t -> l' = l.

(** [try: g  except Exception as e: h(e)] *)
Fixpoint catching {L X T R} (h : exn -> gen L X T Empty_set R) (g : gen L X T Empty_set R) : gen L X T Empty_set R :=
  match g with
  | GRet r => GRet r
  | GRaise (FExn e) => h e
  | GRaise f => GRaise f
  | GDo l k => GDo l (fun x => catching h (k x))
  | GMark m k => GMark m (catching h k)
  | GYield b _ _ => match b with end
  end.
(** Make a call; as long as it fails with an error for which [again] holds, make it again, up to [n] times. *)
Fixpoint retrying {L X T R} (n : nat) (again : exn -> bool) (call : gen L X T Empty_set R) : gen L X T Empty_set R :=
  match n with
  | O => call
  | S n => catching (fun e => if again e then retrying n again call else GRaise (FExn e)) call
  end.
(** The interceptor that does this with every call that has one answer. *)
Definition retrier {A T B} (n : nat) (again : exn -> bool) : cinterceptor A T B :=
  mk_ic (Some (fun next a cx => retrying n again (next a cx))) (Some (fun next q cx => retrying n again (next q cx))) None None None.

(** How a call ends for who made it. *)
Definition end_of {B} (o : cout B) : outcome B :=
  match o with COk b => Returned b | CErr e => Raised (FExn e) | CRaw f => Raised f end.

(** One attempt after the other: attempt [i] is [one i] with the ResponseMetadata the attempt before left. *)
Inductive tried {B} (again : exn -> bool) (one : nat -> option metadata -> call_result B)
  : nat -> nat -> option metadata -> list (call_result B) -> Prop :=
| tried_last n i md : n = 0%nat \/ (forall e, end_of (cr_out (one i md)) = Raised (FExn e) -> again e = false) -> tried again one n i md [one i md]
| tried_more n i md e rs : end_of (cr_out (one i md)) = Raised (FExn e) -> again e = true -> tried again one n (S i) (cr_md (one i md)) rs ->
    tried again one (S n) i md (one i md :: rs).

(** The requests of all attempts, and the outcome and the ResponseMetadata of the last. *)
Definition as_tried {B} {T : Type} {Y : Type} {A : Type} (rs : list (call_result B)) (r : rworld * list (event (ceff A) T Y) * outcome B) : Prop :=
  let '(s, _, o) := r in
  rw_sent s = flat_map cr_sent rs /\ exists before z, rs = before ++ [z] /\ o = end_of (cr_out z) /\ rw_md s = cr_md z.
