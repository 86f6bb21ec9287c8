(** Streams whose messages are compressed or not, one by one. *)
From Coq Require Import List NArith Bool String.
From Verif Require Import MBase MHeaders MWire MEnvelope SEnvelope MTimeout MProtocol MClient.
Import ListNotations.
Local Open Scope N_scope.

(** Two frames that hold the same for a receiver that negotiated [z]: the same frame, or both are messages, or both end the stream,
    and their contents are the same once decompressed. *)
Definition same_frame (k : rkind) (z : compression) (f f' : frame) : Prop :=
  f = f' \/ (end_flag k f = end_flag k f' /\ exists d, content_of z f d /\ content_of z f' d).

(** Two bodies of such frames, with nothing after the end of the stream.  Both may break off within a further frame. *)
Definition same_contents (k : rkind) (z : compression) (body body' : bytes) : Prop :=
  nothing_after_end k body /\ nothing_after_end k body' /\
  exists fs fs' rest rest', frames_of body fs rest /\ frames_of body' fs' rest' /\ Forall2 (same_frame k z) fs fs'.

(** The kind of frames that a client of a protocol reads. *)
Definition frames_read (p : proto) : rkind :=
  match p with PConnect => RConnect | PGrpc => RGrpc | PGrpcWeb => RGrpcWeb end.

(** Two networks that give the same responses, but for such bodies, cut into any pieces. *)
Definition same_but_compression {A B} (c : client A B) (net net' : network) : Prop :=
  (forall rq, nw_unary net rq = nw_unary net' rq)
  /\ forall rq, nw_stream net rq = nw_stream net' rq
    \/ exists resp chunks', nw_stream net rq = SResp resp
       /\ nw_stream net' rq = SResp (mk_sp (sp_status resp) (sp_headers resp) chunks' (sp_fault resp) (sp_trailers resp) (sp_exit resp))
       /\ sp_status resp = 200
       /\ forall z, handle_response_compression (cl_proto c) true (sp_headers resp) (cl_comps c) = Ok z ->
            same_contents (frames_read (cl_proto c)) z (List.concat (sp_chunks resp)) (List.concat chunks').

(** Two networks that give the same responses, but for the pieces in which the bodies arrive. *)
Definition same_but_pieces {A B} (c : client A B) (net net' : network) : Prop :=
  (forall rq, nw_unary net rq = nw_unary net' rq)
  /\ forall rq, nw_stream net rq = nw_stream net' rq
    \/ exists resp chunks', nw_stream net rq = SResp resp
       /\ nw_stream net' rq = SResp (mk_sp (sp_status resp) (sp_headers resp) chunks' (sp_fault resp) (sp_trailers resp) (sp_exit resp))
       /\ List.concat (sp_chunks resp) = List.concat chunks'
       /\ (sp_status resp = 200 -> nothing_after_end (frames_read (cl_proto c)) (List.concat (sp_chunks resp))).
