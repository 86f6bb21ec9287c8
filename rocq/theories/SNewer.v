(** Responses that say the same to a client that does not know what a newer server adds to them. *)
From Coq Require Import List NArith Bool String.
From Verif Require Import MBase MPyStr MHeaders MJson MWire MEnvelope SEnvelope MProtocol MClient.
Import ListNotations.
Local Open Scope N_scope.

(** Two JSON objects agree on a member: both have it with the same value, or neither has it. *)
Definition agree (k : string) (d d' : dict json) : Prop := dget d (lit k) = dget d' (lit k).

(** An error detail has a type and a value.  Anything else in it ("debug", for one) is for people. *)
Definition same_detail (v v' : json) : Prop :=
  v = v' \/ exists d d', v = JObj d /\ v' = JObj d' /\ agree "type" d d' /\ agree "value" d d'.
(** A Connect error has a code, a message and details. *)
Definition same_error (d d' : dict json) : Prop :=
  agree "code" d d' /\ agree "message" d d'
  /\ (agree "details" d d'
      \/ exists l l', dget d (lit "details") = Some (JArr l) /\ dget d' (lit "details") = Some (JArr l') /\ Forall2 same_detail l l').
(** An end-of-stream message has metadata and an error. *)
Definition same_end (d d' : dict json) : Prop :=
  agree "metadata" d d'
  /\ (agree "error" d d'
      \/ exists e e', dget d (lit "error") = Some (JObj e) /\ dget d' (lit "error") = Some (JObj e') /\ e <> [] /\ e' <> [] /\ same_error e e').

(** The texts of such objects, in any layout and order. *)
Definition same_text (same : dict json -> dict json -> Prop) (b b' : bytes) : Prop :=
  b = b' \/ exists d d', json_loads_bytes b = Some (JObj d) /\ json_loads_bytes b' = Some (JObj d') /\ same d d'.

Definition short_enough (max : option N) (d : bytes) : Prop := match max with Some n => lenN d <= n | None => True end.
(** The bodies of two streams of Connect: the same messages, whatever their frames, and end-of-stream messages that say the same
    and are not too long. *)
Definition same_stream (z : compression) (max : option N) (body body' : bytes) : Prop :=
  exists pre f f' d d',
    frames_of body (pre ++ [f]) [] /\ frames_of body' (pre ++ [f']) []
    /\ Forall (fun g => end_flag RConnect g = false) pre /\ end_flag RConnect f = true /\ end_flag RConnect f' = true
    /\ content_of z f d /\ content_of z f' d' /\ short_enough max d /\ short_enough max d' /\ same_text same_end d d'.

Definition with_chunks (resp : stream_response) (chunks : list bytes) : stream_response :=
  mk_sp (sp_status resp) (sp_headers resp) chunks (sp_fault resp) (sp_trailers resp) (sp_exit resp).

(** The library gives the client the same with [net] and [net'], but for bodies that say the same. *)
Definition same_unary_answer (o o' : unary_outcome) : Prop :=
  o = o' \/ exists st hs b b', o = UResp (mk_fr st hs b) /\ o' = UResp (mk_fr st hs b') /\ st <> 200 /\ same_text same_error b b'.
Definition same_stream_answer {A B} (c : client A B) (o o' : stream_outcome) : Prop :=
  o = o' \/ exists resp chunks', o = SResp resp /\ o' = SResp (with_chunks resp chunks')
    /\ (if sp_status resp =? 200
        then cl_proto c = PConnect /\ forall z, handle_response_compression PConnect true (sp_headers resp) (cl_comps c) = Ok z ->
             same_stream z (cl_max c) (List.concat (sp_chunks resp)) (List.concat chunks')
        else same_text same_error (List.concat (sp_chunks resp)) (List.concat chunks')).
Definition same_net {A B} (c : client A B) (net net' : network) : Prop :=
  (forall rq, same_unary_answer (nw_unary net rq) (nw_unary net' rq))
  /\ (forall rq, same_stream_answer c (nw_stream net rq) (nw_stream net' rq)).
