(** A conversation read from the outside: what was received, given, yielded and sent. *)
From Coq Require Import List NArith Bool.
From Verif Require Import MBase MServer MAsgi MDuplex.
Import ListNotations.

(** The parts of the request body that were received. *)
Definition part (r : recv) : list bytes := match r with RReq b _ => [b] | _ => [] end.
Definition parts (l : list recv) : list bytes := flat_map part l.
Definition received {A B} (t : list (devent A B)) : list bytes := flat_map (fun e => match e with DRecv r => part r | _ => [] end) t.
(** The messages the method was given, and those it yielded. *)
Definition given {A B} (t : list (devent A B)) : list A := flat_map (fun e => match e with DGive (PMsg a) => [a] | _ => [] end) t.
Definition yielded {A B} (t : list (devent A B)) : list B := flat_map (fun e => match e with DYield b => [b] | _ => [] end) t.
(** What the application received from the server. *)
Definition taken {A B} (t : list (devent A B)) : list recv := flat_map (fun e => match e with DRecv r => [r] | _ => [] end) t.
(** The events handed to the server, and the parts of the response body among them that announce more. *)
Definition sent {A B} (t : list (devent A B)) : list aevent := flat_map (fun e => match e with DSend e => [e] | _ => [] end) t.
Definition bodies (l : list aevent) : list bytes := flat_map (fun e => match e with EvBody b true => [b] | _ => [] end) l.
