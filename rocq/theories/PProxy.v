(** C99: header and trailer lines that a client does not look at change nothing. *)
From Coq Require Import List NArith ZArith Bool String Lia.
From Verif Require Import MBase MPyStr MHeaders MJson MWire MEnvelope SEnvelope LEnvelope MTimeout MProtocol MClient LClient MIter LIter
  SLook LLook SProxy LProxy PProtocol PClient PLook.
Import ListNotations.
Local Open Scope N_scope.

Lemma lines_any {A B} (c : client A B) cx ck net net' md reqs stop : alike_net (cl_proto c) net net' ->
  let x := send_stream c cx ck net md reqs stop in let y := send_stream c cx ck net' md reqs stop in
  sr_sent x = sr_sent y /\ sr_msgs x = sr_msgs y /\ sr_end x = sr_end y.
Proof.
  intro S. cbv zeta. rewrite !send_sent. split; [reflexivity|]. destruct (cl_proto c) eqn:P; rewrite <- P in S; [now apply send_connect| |];
    (assert (R : forall n, readable_net c n) by (intros n X; congruence);
     destruct (send_like c cx ck net md None reqs stop (R net)) as (_&E1&E2); destruct (send_like c cx ck net' md None reqs stop (R net')) as (_&F1&F2);
     destruct (send_lines c cx ck net net' reqs stop S) as (G1&G2); split; congruence).
Qed.

(** A unary call. *)
Theorem C99_unary {A B} (c : client A B) ck net net' md m u timeout get a stop : alike_net (cl_proto c) net net' ->
  let x := execute_unary c ck net md m u timeout get a stop in
  let y := execute_unary c ck net' md m u timeout get a stop in
  cr_sent x = cr_sent y /\ cr_out x = cr_out y.
Proof.
  intro S. cbv zeta. destruct (cl_proto c) eqn:P.
  - destruct (C96_unary c ck net m u timeout get a stop md None) as [E1 E2]. destruct (C96_unary c ck net' m u timeout get a stop md None) as [F1 F2].
    rewrite E1, E2, F1, F2. unfold execute_unary, send_unary. rewrite P. rewrite <- P in S. now apply unary_lines.
  - rewrite <- P in S. unfold execute_unary, send_unary. rewrite P. unfold single_result. cbn [cr_sent cr_out].
    destruct (lines_any c (call_ctx c (ck_start ck) m u timeout false get) ck net net' md ([a], None) (single_stop stop) S) as (E1&E2&E3).
    now rewrite E1, E2, E3.
  - rewrite <- P in S. unfold execute_unary, send_unary. rewrite P. unfold single_result. cbn [cr_sent cr_out].
    destruct (lines_any c (call_ctx c (ck_start ck) m u timeout false get) ck net net' md ([a], None) (single_stop stop) S) as (E1&E2&E3).
    now rewrite E1, E2, E3.
Qed.
Print Assumptions C99_unary.

(** Streaming calls, used in any way, watched by a ResponseMetadata or not. *)
Theorem C99_streams {A B} (c : client A B) ck net net' md m u timeout stop : alike_net (cl_proto c) net net' ->
  (forall a, let x := execute_server_stream c ck net md m u timeout a stop in
             let y := execute_server_stream c ck net' md m u timeout a stop in
             sr_sent x = sr_sent y /\ sr_msgs x = sr_msgs y /\ sr_end x = sr_end y)
  /\ (forall reqs, let x := execute_bidi_stream c ck net md m u timeout reqs stop in
                   let y := execute_bidi_stream c ck net' md m u timeout reqs stop in
                   sr_sent x = sr_sent y /\ sr_msgs x = sr_msgs y /\ sr_end x = sr_end y)
  /\ (forall reqs, let x := execute_client_stream c ck net md m u timeout reqs stop in
                   let y := execute_client_stream c ck net' md m u timeout reqs stop in
                   cr_sent x = cr_sent y /\ cr_out x = cr_out y).
Proof.
  intro S.
  assert (G : forall reqs stop, let x := send_stream c (call_ctx c (ck_start ck) m u timeout true false) ck net md reqs stop in
    let y := send_stream c (call_ctx c (ck_start ck) m u timeout true false) ck net' md reqs stop in
    sr_sent x = sr_sent y /\ sr_msgs x = sr_msgs y /\ sr_end x = sr_end y).
  { intros reqs st. now apply lines_any. }
  split; [|split]; intro; try apply G. cbv zeta. unfold execute_client_stream, single_result. cbn [cr_sent cr_out].
  destruct (G reqs (single_stop stop)) as (E1&E2&E3). now rewrite E1, E2, E3.
Qed.
Print Assumptions C99_streams.

(** A proxy that changes the case of names, the order of lines, and adds lines of its own, even a second status. *)
Definition direct : network :=
  mk_net (fun _ => UResp (mk_fr 200 [(lit "content-type", lit "application/proto"); (lit "x", lit "1")] [7]))
    (fun _ => SResp (mk_sp 200 [(lit "content-type", lit "application/grpc+proto"); (lit "date", lit "d")] [ex_frame 0 [7; 8]] None
                       [(lit "grpc-status", lit "5"); (lit "grpc-message", lit "gone")] (fun _ => None))).
Definition proxied : network :=
  mk_net (fun _ => UResp (mk_fr 200 [(lit "Via", lit "p"); (lit "X", lit "1"); (lit "Content-Type", lit "application/proto")] [7]))
    (fun _ => SResp (mk_sp 200 [(lit "Via", lit "p"); (lit "Content-Type", lit "application/grpc+proto")] [ex_frame 0 [7; 8]] None
                       [(lit "server-timing", lit "t"); (lit "Grpc-Message", lit "gone"); (lit "Grpc-Status", lit "5"); (lit "grpc-status", lit "0")] (fun _ => None))).
Example C99_example :
  alike_net PGrpc direct proxied
  /\ (let s := execute_server_stream (ex_client PGrpc None) ex_clocks proxied None ex_method UNone None [1] None in
      sr_msgs s = [[7; 8]] /\ sr_end s = CErr (EConnect NotFound (lit "gone") [])).
Proof.
  split.
  - split; intro rq.
    + cbn [direct proxied nw_unary alike_unary]. split; [reflexivity|]. split; [reflexivity|]. intros n [<-|[<-|[]]]; reflexivity.
    + cbn [direct proxied nw_stream alike_stream]. repeat split; intros n I; cbn in I;
        repeat (destruct I as [<-|I]; [reflexivity|]); destruct I.
  - split; vm_compute; reflexivity.
Qed.

