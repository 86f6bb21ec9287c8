(** What is expected of the iterator of a streaming call, towards the HTTP library and towards its consumer. *)
From Coq Require Import List NArith Bool.
From Verif Require Import MBase MClient MIter.
Import ListNotations.

(** The life of the HTTP response of one call, as the library sees it.  [Unasked]: nothing was asked of it.  [Held]: a response
    was handed over and is not given back.  [Over]: nothing is left open. *)
Inductive holding := Unasked | Held | Over.
Definition is_read (e : http_event) : Prop := match e with HRead _ => True | _ => False end.
Inductive lifecycle : list http_event -> holding -> Prop :=
| lc_unasked : lifecycle [] Unasked
| lc_dropped : lifecycle [] Over
| lc_failed rq : lifecycle [HRequest rq] Over
| lc_held rq reads : Forall is_read reads -> lifecycle (HRequest rq :: HResponse :: reads) Held
| lc_released rq reads : Forall is_read reads -> lifecycle (HRequest rq :: HResponse :: reads ++ [HRelease]) Over.

(** What the consumer was told last. *)
Definition last_answer {B} (xs : list (answer B)) (a : answer B) : Prop := exists before, xs = before ++ [a].

(** The requests among the events. *)
Definition requests (o : list http_event) : list http_request :=
  flat_map (fun e => match e with HRequest rq => [rq] | _ => [] end) o.

(** The given parts of the body were read. *)
Definition reads (chunks : list bytes) : list http_event := map (fun ch => HRead (Some ch)) chunks.
