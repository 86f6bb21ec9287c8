(** gRPC-Web trailers, written in any way. *)
From Coq Require Import List NArith Bool String.
From Verif Require Import MBase MPyStr MHeaders MWire MEnvelope SEnvelope MTimeout MProtocol MClient SProxy.
Import ListNotations.
Local Open Scope N_scope.

(** Spaces and tabs. *)
Definition gap (s : bytes) : Prop := Forall (fun c => c = 32 \/ c = 9) s.
(** A name: visible ASCII without a colon. *)
Definition line_name (s : bytes) : Prop := Forall (fun c => 33 <= c <= 126 /\ c <> 58) s.
(** A value: printable ASCII that neither begins nor ends with a space. *)
Definition line_value (s : bytes) : Prop :=
  Forall (fun c => 32 <= c <= 126) s /\ hd 33 s <> 32 /\ last s 33 <> 32.

(** [l] is a line that gives [value] to [name]: the name in any case, with spaces and tabs anywhere around both. *)
Definition line_of (name value : pystr) (l : bytes) : Prop :=
  exists n a b c d, l = a ++ n ++ b ++ 58 :: c ++ value ++ d /\ gap a /\ gap b /\ gap c /\ gap d
    /\ line_name n /\ lower n = lower name /\ line_value value.

(** [d] gives the lines [ts], in this order, with empty lines between them and the end of the last line left out or not. *)
Inductive lines_of : http_headers -> bytes -> Prop :=
| lo_nil : lines_of [] []
| lo_empty : forall ts d, lines_of ts d -> lines_of ts (13 :: 10 :: d)
| lo_line : forall k v l ts d, line_of k v l -> lines_of ts d -> lines_of ((k, v) :: ts) (l ++ 13 :: 10 :: d)
| lo_last : forall k v l, line_of k v l -> lines_of [(k, v)] l.

(** Two bodies: the same frames, then trailers that agree on the status lines. *)
Definition same_trailers (z : compression) (max : option N) (body body' : bytes) : Prop :=
  exists pre f f' d d' ts ts',
    frames_of body (pre ++ [f]) [] /\ frames_of body' (pre ++ [f']) []
    /\ Forall (fun g => end_flag RGrpcWeb g = false) pre /\ end_flag RGrpcWeb f = true /\ end_flag RGrpcWeb f' = true
    /\ content_of z f d /\ content_of z f' d' /\ (forall n, max = Some n -> lenN d <= n /\ lenN d' <= n)
    /\ lines_of ts d /\ lines_of ts' d' /\ same_lines grpc_status_lines ts ts'.

Definition same_web_net {A B} (c : client A B) (net net' : network) : Prop :=
  forall rq, nw_stream net rq = nw_stream net' rq
    \/ exists resp chunks', nw_stream net rq = SResp resp
       /\ nw_stream net' rq = SResp (mk_sp (sp_status resp) (sp_headers resp) chunks' (sp_fault resp) (sp_trailers resp) (sp_exit resp))
       /\ sp_status resp = 200
       /\ forall z, handle_response_compression PGrpcWeb true (sp_headers resp) (cl_comps c) = Ok z ->
            same_trailers z (cl_max c) (List.concat (sp_chunks resp)) (List.concat chunks').
