(** gRPC and gRPC-Web responses that carry no message, with the status at the end or at once. *)
From Coq Require Import List NArith Bool String.
From Verif Require Import MBase MPyStr MHeaders SHeaders MUtf8 MWire MEnvelope SEnvelope MTimeout MProtocol MClient SProxy.
Import ListNotations.
Local Open Scope N_scope.

(** The text of a gRPC-Web trailer frame: one line per trailer. *)
Definition lines_text (ts : http_headers) : pystr := List.concat (map (fun kv => fst kv ++ lit ": " ++ snd kv ++ [13; 10]) ts).

(** The response [late] reports [ts] after its headers, as HTTP trailers or as the only frame of its body. *)
Definition reports_late (p : proto) (limit : option N) (late : stream_response) (ts : http_headers) : Prop :=
  match p with
  | PGrpc => List.concat (sp_chunks late) = [] /\ sp_trailers late = ts
  | PGrpcWeb =>
      exists d, utf8_encode (lines_text ts) = Some d
        /\ frames_of (List.concat (sp_chunks late)) [mk_frame 128 d] []
        /\ (forall n, limit = Some n -> lenN d <= n)
        /\ Forall (fun kv => legal_name (fst kv) /\ legal_value (snd kv)) ts
  | PConnect => False
  end.
(** The response [once] has a status among its headers ("Trailers-Only"), and nothing else. *)
Definition reports_at_once (p : proto) (once : stream_response) : Prop :=
  List.concat (sp_chunks once) = [] /\ first_line (sp_headers once) (lit "grpc-status") <> None
  /\ (p = PGrpc -> first_line (sp_trailers once) (lit "grpc-status") = None).

(** The same status in both ways, with the same content type and coding; the connection does the same. *)
Definition late_or_once (p : proto) (limit : option N) (late once : stream_response) : Prop :=
  sp_status late = 200 /\ sp_status once = 200 /\ sp_fault late = sp_fault once /\ sp_exit late = sp_exit once
  /\ same_lines [lit "content-type"; lit "grpc-encoding"] (sp_headers late) (sp_headers once)
  /\ reports_at_once p once
  /\ exists ts, reports_late p limit late ts /\ same_lines grpc_status_lines ts (sp_headers once).

Definition late_or_once_net (p : proto) (limit : option N) (net net' : network) : Prop :=
  forall rq, nw_stream net rq = nw_stream net' rq
    \/ exists late once, nw_stream net rq = SResp late /\ nw_stream net' rq = SResp once /\ late_or_once p limit late once.
