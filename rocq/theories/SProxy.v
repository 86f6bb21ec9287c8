(** Responses that differ in header and trailer lines that a client does not look at. *)
From Coq Require Import List NArith Bool String.
From Verif Require Import MBase MPyStr MHeaders MWire MEnvelope MTimeout MProtocol MClient.
Import ListNotations.
Local Open Scope N_scope.

(** The first line of a name, names in any case. *)
Fixpoint first_line (hs : http_headers) (name : pystr) : option pystr :=
  match hs with
  | [] => None
  | (n, v) :: hs => if str_eqb (lower n) (lower name) then Some v else first_line hs name
  end.

(** The lines that the protocols give a meaning to. *)
Definition grpc_status_lines : list pystr := [lit "grpc-status"; lit "grpc-message"; lit "grpc-status-details-bin"].
Definition header_lines (p : proto) (stream : bool) : list pystr :=
  lit "content-type" ::
  match p with
  | PConnect => [if stream then lit "connect-content-encoding" else lit "content-encoding"]
  | PGrpc | PGrpcWeb => lit "grpc-encoding" :: grpc_status_lines
  end.
Definition trailer_lines (p : proto) : list pystr :=
  match p with PGrpc => grpc_status_lines | PConnect | PGrpcWeb => [] end.

Definition same_lines (names : list pystr) (hs hs' : http_headers) : Prop := forall n, In n names -> first_line hs n = first_line hs' n.

(** The library gives the client the same with [net] and [net'], but for other lines. *)
Definition alike_unary (o o' : unary_outcome) : Prop :=
  match o, o' with
  | UResp r, UResp r' => fr_status r = fr_status r' /\ fr_content r = fr_content r' /\ same_lines (header_lines PConnect false) (fr_headers r) (fr_headers r')
  | _, _ => o = o'
  end.
Definition alike_stream (p : proto) (o o' : stream_outcome) : Prop :=
  match o, o' with
  | SResp r, SResp r' => sp_status r = sp_status r' /\ sp_chunks r = sp_chunks r' /\ sp_fault r = sp_fault r' /\ sp_exit r = sp_exit r'
      /\ same_lines (header_lines p true) (sp_headers r) (sp_headers r') /\ same_lines (trailer_lines p) (sp_trailers r) (sp_trailers r')
  | _, _ => o = o'
  end.
Definition alike_net (p : proto) (net net' : network) : Prop :=
  (forall rq, alike_unary (nw_unary net rq) (nw_unary net' rq)) /\ (forall rq, alike_stream p (nw_stream net rq) (nw_stream net' rq)).
