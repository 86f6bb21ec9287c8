(** What it means that reading the response metadata of a call only watches it. *)
From Coq Require Import List NArith Bool String.
From Verif Require Import MBase MPyStr MHeaders MJson MWire MEnvelope SEnvelope MTimeout MProtocol MClient MIter MScope MLook.
Import ListNotations.

(** The "metadata" of a Connect end-of-stream message can be read: it is absent or empty, or an object whose values
    are strings, arrays or objects. *)
Definition readable_value (v : json) : Prop :=
  match v with JStr _ | JArr _ | JObj _ => True | _ => False end.
Definition readable_end (d : bytes) : Prop :=
  forall o v, json_loads_bytes d = Some (JObj o) -> dget o (lit "metadata") = Some v -> json_truthy v = true ->
  exists entries, v = JObj entries /\ forall k x, In (k, x) entries -> readable_value x.

(** The response body [body] has only such end-of-stream messages, for a receiver that negotiated [z]. *)
Definition readable_body (z : compression) (body : bytes) : Prop :=
  forall fs tl f d, frames_of body fs tl -> In f fs -> end_flag RConnect f = true -> content_of z f d -> readable_end d.

(** All responses that [net] gives to the client [c] are readable.  Only Connect has end-of-stream messages of that form. *)
Definition readable_net {A B} (c : client A B) (net : network) : Prop :=
  cl_proto c = PConnect ->
  forall rq resp z, nw_stream net rq = SResp resp -> handle_response_compression PConnect true (sp_headers resp) (cl_comps c) = Ok z ->
  readable_body z (List.concat (sp_chunks resp)).

(** What a stream was asked, and what it and the library did then, in a history of many streams. *)
Definition asked_of {B} (j : nat) (s : list (seen B)) : list ask :=
  map se_ask (filter (fun x => Nat.eqb (se_stream x) j) s).
Definition answers_of {B} (j : nat) (s : list (seen B)) : list (answer B) :=
  map se_answer (filter (fun x => Nat.eqb (se_stream x) j) s).
Definition events_of {B} (j : nat) (s : list (seen B)) : list http_event :=
  List.concat (map se_events (filter (fun x => Nat.eqb (se_stream x) j) s)).

(** Using the stream by itself, with [md] in scope all the time. *)
Definition alone {A B} (k : look_call A B) (md : option metadata) (asks : list ask) : iterator B * list (answer B) * list http_event :=
  it_run (lc_client k) (lc_ctx k) (lc_clocks k) (lc_net k) (lc_reqs k) (iterator_new md) asks.

(** The streams that a program makes, in order. *)
Definition made {A B} (h : list (look_op A B)) : list (look_call A B) :=
  flat_map (fun o => match o with LMake k => [k] | _ => [] end) h.

(** No call other than the streams reports to any block. *)
Definition quiet {A B} (h : list (look_op A B)) : Prop := forall c r, ~ In (LScope (Report c r)) h.
(** The stream [j] was asked exactly when the object [i] was the one in scope. *)
Definition matched {B} (i j : nat) (s : list (seen B)) : Prop := Forall (fun x => se_stream x = j <-> se_scope x = Some i) s.
