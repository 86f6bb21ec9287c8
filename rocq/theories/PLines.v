(** C101: gRPC-Web trailers mean the same however they are written. *)
From Coq Require Import List NArith ZArith Bool String Lia.
From Verif Require Import MBase MPyStr MHeaders MJson MWire MEnvelope SEnvelope LEnvelope MTimeout MProtocol MClient LClient MIter LIter
  SLook LLook SProxy LProxy SOnce LOnce SLines LLines PProtocol PClient.
Import ListNotations.
Local Open Scope N_scope.

Lemma trailers_any {A B} (c : client A B) cx ck net net' md reqs stop : cl_proto c = PGrpcWeb -> same_web_net c net net' ->
  let x := send_stream c cx ck net md reqs stop in let y := send_stream c cx ck net' md reqs stop in
  sr_sent x = sr_sent y /\ sr_msgs x = sr_msgs y /\ sr_end x = sr_end y.
Proof.
  intros P S. cbv zeta. rewrite !send_sent. split; [reflexivity|].
  assert (R : forall n, readable_net c n) by (intros n X; congruence).
  destruct (send_like c cx ck net md None reqs stop (R net)) as (_&E1&E2). destruct (send_like c cx ck net' md None reqs stop (R net')) as (_&F1&F2).
  destruct (send_trailers c cx ck net net' reqs stop P S) as (G1&G2). split; congruence.
Qed.

(** A unary call. *)
Theorem C101_unary {A B} (c : client A B) ck net net' md m u timeout get a stop : cl_proto c = PGrpcWeb -> same_web_net c net net' ->
  let x := execute_unary c ck net md m u timeout get a stop in
  let y := execute_unary c ck net' md m u timeout get a stop in
  cr_sent x = cr_sent y /\ cr_out x = cr_out y.
Proof.
  intros P S. cbv zeta. unfold execute_unary, send_unary.
  destruct (trailers_any c (call_ctx c (ck_start ck) m u timeout false get) ck net net' md ([a], None) (single_stop stop) P S) as (E1&E2&E3).
  rewrite P. unfold single_result. cbn [cr_sent cr_out]. now rewrite E1, E2, E3.
Qed.
Print Assumptions C101_unary.

(** Streaming calls, used in any way, watched by a ResponseMetadata or not. *)
Theorem C101_streams {A B} (c : client A B) ck net net' md m u timeout stop : cl_proto c = PGrpcWeb -> same_web_net c net net' ->
  (forall a, let x := execute_server_stream c ck net md m u timeout a stop in
             let y := execute_server_stream c ck net' md m u timeout a stop in
             sr_sent x = sr_sent y /\ sr_msgs x = sr_msgs y /\ sr_end x = sr_end y)
  /\ (forall reqs, let x := execute_bidi_stream c ck net md m u timeout reqs stop in
                   let y := execute_bidi_stream c ck net' md m u timeout reqs stop in
                   sr_sent x = sr_sent y /\ sr_msgs x = sr_msgs y /\ sr_end x = sr_end y)
  /\ (forall reqs, let x := execute_client_stream c ck net md m u timeout reqs stop in
                   let y := execute_client_stream c ck net' md m u timeout reqs stop in
                   cr_sent x = cr_sent y /\ cr_out x = cr_out y).
Proof.
  intros P S. split; [|split]; intro; try (now apply trailers_any). cbv zeta. unfold execute_client_stream.
  destruct (trailers_any c (call_ctx c (ck_start ck) m u timeout true false) ck net net' md reqs (single_stop stop) P S) as (E1&E2&E3).
  unfold single_result. cbn [cr_sent cr_out]. now rewrite E1, E2, E3.
Qed.
Print Assumptions C101_streams.

(** Two servers: one writes its trailers like this library, the other in capitals, with tabs, another order and no last line end. *)
Definition tidy : bytes := lit "grpc-status: 9" ++ [13; 10] ++ lit "grpc-message: not now" ++ [13; 10].
Definition wild : bytes := [13; 10] ++ lit "X-Cost:3" ++ [13; 10] ++ lit "Grpc-Message  :" ++ [9] ++ lit "not now " ++ [13; 10] ++ lit "GRPC-STATUS:9".
Definition lines_net (b : bytes) : network :=
  mk_net (fun _ => UFault FCancel) (fun _ => SResp (ex_stream PGrpcWeb [ex_frame 0 [7; 8]; ex_frame 128 b] None [])).

Lemma frame_of_ex (f : N) p rest fs : frames_of rest fs [] -> frames_of (ex_frame f p ++ rest) (mk_frame f p :: fs) [].
Proof. intro H. apply (fo_cons (mk_frame f p) (ex_frame f p) rest); [|exact H]. exists 0, 0, 0, (lenN p). split; [reflexivity|]. cbn [f_payload]. unfold lenN. lia. Qed.

Ltac ascii := cbn; repeat constructor; cbn; lia.
Lemma tidy_lines : lines_of [(lit "grpc-status", lit "9"); (lit "grpc-message", lit "not now")] tidy.
Proof.
  change tidy with (lit "grpc-status: 9" ++ 13 :: 10 :: lit "grpc-message: not now" ++ 13 :: 10 :: []).
  apply lo_line; [|apply lo_line; [|apply lo_nil]].
  - exists (lit "grpc-status"), [], [], [32], []. repeat split; try ascii; try reflexivity; try (cbn; discriminate).
  - exists (lit "grpc-message"), [], [], [32], []. repeat split; try ascii; try reflexivity; try (cbn; discriminate).
Qed.
Lemma wild_lines : lines_of [(lit "x-cost", lit "3"); (lit "grpc-message", lit "not now"); (lit "grpc-status", lit "9")] wild.
Proof.
  change wild with (13 :: 10 :: lit "X-Cost:3" ++ 13 :: 10 :: (lit "Grpc-Message  :" ++ [9] ++ lit "not now ") ++ 13 :: 10 :: lit "GRPC-STATUS:9").
  apply lo_empty. apply lo_line; [|apply lo_line; [|apply lo_last]].
  - exists (lit "X-Cost"), [], [], [], []. repeat split; try ascii; try reflexivity; try (cbn; discriminate).
  - exists (lit "Grpc-Message"), [], [32; 32], [9], [32]. repeat split; try ascii; try reflexivity; try (cbn; discriminate).
  - exists (lit "GRPC-STATUS"), [], [], [], []. repeat split; try ascii; try reflexivity; try (cbn; discriminate).
Qed.

Example C101_example : forall t,
  same_web_net (ex_client PGrpcWeb t) (lines_net tidy) (lines_net wild)
  /\ (let s := execute_server_stream (ex_client PGrpcWeb None) ex_clocks (lines_net wild) None ex_method UNone None [1] None in
      sr_msgs s = [[7; 8]] /\ sr_end s = CErr (EConnect FailedPrecondition (lit "not now") [])).
Proof.
  intro t. split; [|vm_compute; auto]. intro rq. right.
  exists (ex_stream PGrpcWeb [ex_frame 0 [7; 8]; ex_frame 128 tidy] None []), [ex_frame 0 [7; 8]; ex_frame 128 wild].
  split; [reflexivity|]. split; [reflexivity|]. split; [reflexivity|]. intros z _.
  exists [mk_frame 0 [7; 8]], (mk_frame 128 tidy), (mk_frame 128 wild), tidy, wild. eexists. eexists.
  cbn [sp_chunks ex_stream List.concat app]. rewrite !app_nil_r.
  assert (F : forall e, frames_of (ex_frame 0 [7; 8] ++ ex_frame 128 e) [mk_frame 0 [7; 8]; mk_frame 128 e] []).
  { intro e. apply frame_of_ex. rewrite <- (app_nil_r (ex_frame 128 e)). apply frame_of_ex. constructor. left. cbn. lia. }
  split; [apply F|]. split; [apply F|]. split; [repeat constructor|]. split; [reflexivity|]. split; [reflexivity|].
  split; [left; split; reflexivity|]. split; [left; split; reflexivity|].
  split; [intros n H; cbn in H; first [discriminate H|injection H as <-; split; vm_compute; discriminate]|].
  split; [exact tidy_lines|]. split; [exact wild_lines|]. intros n I. cbn in I. destruct I as [<-|[<-|[<-|[]]]]; reflexivity.
Qed.
