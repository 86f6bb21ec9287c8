(** C100: a gRPC status is understood alike whether it comes at the end or at once with the headers. *)
From Coq Require Import List NArith ZArith Bool String Lia.
From Verif Require Import MBase MPyStr MHeaders SHeaders MUtf8 MJson MWire MEnvelope SEnvelope LEnvelope MTimeout MProtocol MClient LClient MIter LIter
  SLook LLook SProxy LProxy SOnce LOnce PProtocol PClient.
Import ListNotations.
Local Open Scope N_scope.

Lemma once_any {A B} (c : client A B) cx ck net net' md reqs stop : cl_proto c <> PConnect -> late_or_once_net (cl_proto c) (cl_max c) net net' ->
  let x := send_stream c cx ck net md reqs stop in let y := send_stream c cx ck net' md reqs stop in
  sr_sent x = sr_sent y /\ sr_msgs x = sr_msgs y /\ sr_end x = sr_end y.
Proof.
  intros P S. cbv zeta. rewrite !send_sent. split; [reflexivity|].
  assert (R : forall n, readable_net c n) by (intros n X; congruence).
  destruct (send_like c cx ck net md None reqs stop (R net)) as (_&E1&E2). destruct (send_like c cx ck net' md None reqs stop (R net')) as (_&F1&F2).
  destruct (send_once c cx ck net net' reqs stop S) as (G1&G2). split; congruence.
Qed.

(** A unary call. *)
Theorem C100_unary {A B} (c : client A B) ck net net' md m u timeout get a stop :
  cl_proto c <> PConnect -> late_or_once_net (cl_proto c) (cl_max c) net net' ->
  let x := execute_unary c ck net md m u timeout get a stop in
  let y := execute_unary c ck net' md m u timeout get a stop in
  cr_sent x = cr_sent y /\ cr_out x = cr_out y.
Proof.
  intros P S. cbv zeta. unfold execute_unary, send_unary.
  destruct (once_any c (call_ctx c (ck_start ck) m u timeout false get) ck net net' md ([a], None) (single_stop stop) P S) as (E1&E2&E3).
  destruct (cl_proto c); [congruence| |]; unfold single_result; cbn [cr_sent cr_out]; now rewrite E1, E2, E3.
Qed.
Print Assumptions C100_unary.

(** Streaming calls, used in any way, watched by a ResponseMetadata or not. *)
Theorem C100_streams {A B} (c : client A B) ck net net' md m u timeout stop :
  cl_proto c <> PConnect -> late_or_once_net (cl_proto c) (cl_max c) net net' ->
  (forall a, let x := execute_server_stream c ck net md m u timeout a stop in
             let y := execute_server_stream c ck net' md m u timeout a stop in
             sr_sent x = sr_sent y /\ sr_msgs x = sr_msgs y /\ sr_end x = sr_end y)
  /\ (forall reqs, let x := execute_bidi_stream c ck net md m u timeout reqs stop in
                   let y := execute_bidi_stream c ck net' md m u timeout reqs stop in
                   sr_sent x = sr_sent y /\ sr_msgs x = sr_msgs y /\ sr_end x = sr_end y)
  /\ (forall reqs, let x := execute_client_stream c ck net md m u timeout reqs stop in
                   let y := execute_client_stream c ck net' md m u timeout reqs stop in
                   cr_sent x = cr_sent y /\ cr_out x = cr_out y).
Proof.
  intros P S.
  assert (G : forall reqs stop, let x := send_stream c (call_ctx c (ck_start ck) m u timeout true false) ck net md reqs stop in
    let y := send_stream c (call_ctx c (ck_start ck) m u timeout true false) ck net' md reqs stop in
    sr_sent x = sr_sent y /\ sr_msgs x = sr_msgs y /\ sr_end x = sr_end y).
  { intros reqs st. now apply once_any. }
  split; [|split]; intro; try apply G. cbv zeta. unfold execute_client_stream, single_result. cbn [cr_sent cr_out].
  destruct (G reqs (single_stop stop)) as (E1&E2&E3). now rewrite E1, E2, E3.
Qed.
Print Assumptions C100_streams.

(** A server that refuses a call, through trailers and at once. *)
Definition refusal : http_headers := [(lit "grpc-status", lit "16"); (lit "grpc-message", lit "no%20token")].
Definition once_ct (p : proto) : pystr := match p with PGrpcWeb => lit "application/grpc-web+proto" | _ => lit "application/grpc+proto" end.
Definition refusal_frame : bytes := ex_frame 128 (lit "grpc-status: 16" ++ [13; 10] ++ lit "grpc-message: no%20token" ++ [13; 10]).
Definition once_late (p : proto) : stream_response :=
  mk_sp 200 [(lit "content-type", once_ct p)]
    (match p with PGrpcWeb => [firstn 9 refusal_frame; skipn 9 refusal_frame] | _ => [] end) None (match p with PGrpcWeb => [] | _ => refusal end) (fun _ => None).
Definition once_now (p : proto) : stream_response := mk_sp 200 ((lit "Content-Type", once_ct p) :: refusal) [[]] None [] (fun _ => None).
Definition once_net (r : stream_response) : network := mk_net (fun _ => UFault FCancel) (fun _ => SResp r).

Example C100_example : forall p, p <> PConnect ->
  late_or_once_net p (Some 100) (once_net (once_late p)) (once_net (once_now p))
  /\ cr_out (execute_unary (ex_client p None) ex_clocks (once_net (once_now p)) None ex_method UNone None false [1] None)
     = CErr (EConnect Unauthenticated (lit "no token") [])
  /\ cr_out (execute_unary (ex_client p None) ex_clocks (once_net (once_late p)) None ex_method UNone None false [1] None)
     = CErr (EConnect Unauthenticated (lit "no token") []).
Proof.
  intros p P. split; [|destruct p; [congruence| |]; split; vm_compute; reflexivity].
  intro rq. right. exists (once_late p), (once_now p). split; [reflexivity|]. split; [reflexivity|].
  split; [reflexivity|]. split; [reflexivity|]. split; [reflexivity|]. split; [reflexivity|].
  split; [intros n I; cbn in I; destruct I as [<-|[<-|[]]]; destruct p; reflexivity|].
  split; [split; [reflexivity|]; split; [discriminate|reflexivity]|].
  exists refusal. split; [|intros n I; cbn in I; destruct I as [<-|[<-|[<-|[]]]]; reflexivity].
  destruct p; [congruence|split; reflexivity|].
  exists (lit "grpc-status: 16" ++ [13; 10] ++ lit "grpc-message: no%20token" ++ [13; 10]). split; [vm_compute; reflexivity|]. split; [|split].
  - change (List.concat (sp_chunks (once_late PGrpcWeb))) with (refusal_frame ++ []). apply fo_cons; [|apply fo_nil; left; cbn; lia].
    exists 0, 0, 0, 43. split; vm_compute; reflexivity.
  - intros n [= <-]. vm_compute. discriminate.
  - repeat constructor; try (vm_compute; reflexivity); cbn; lia.
Qed.
