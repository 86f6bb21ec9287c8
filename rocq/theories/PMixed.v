(** C102: which messages of a stream its sender compresses makes no difference. *)
From Coq Require Import List NArith ZArith Bool String Lia.
From Verif Require Import MBase MPyStr MHeaders MJson MWire MEnvelope SEnvelope LEnvelope MTimeout MProtocol MClient LClient
  SNewer LNewer SMixed LMixed PProtocol PClient.
Import ListNotations.
Local Open Scope N_scope.

(** Any reader, of a server or of a client: the same messages, error, trailers and metadata. *)
Theorem C102_reader : forall (M : Type) (cf : rconf M) md chunks chunks',
  same_contents (rc_kind cf) (rc_comp cf) (List.concat chunks) (List.concat chunks') ->
  observed (feed_all cf (reader_new md) chunks) = observed (feed_all cf (reader_new md) chunks').
Proof.
  intros M cf md chunks chunks' S. pose proof (contents_same cf md chunks chunks' S) as F.
  destruct (feed_all cf _ chunks) as [[ms e] r], (feed_all cf _ chunks') as [[ms' e'] r']. destruct F as (<-&<-&K).
  injection K as K1 K2 K3. unfold observed. now rewrite K1, K2, K3.
Qed.
Print Assumptions C102_reader.

(** A unary call. *)
Theorem C102_unary {A B} (c : client A B) ck net net' md m u timeout get a stop : same_but_compression c net net' ->
  execute_unary c ck net md m u timeout get a stop = execute_unary c ck net' md m u timeout get a stop.
Proof.
  intro S. unfold execute_unary, send_unary.
  destruct (cl_proto c) eqn:P; [|now rewrite (send_alike c _ ck net net' md ([a], None) (single_stop stop) S)..].
  unfold send_unary_connect. destruct (unary_request _ _ _ _) as [rq|]; [|reflexivity]. destruct S as [S _]. now rewrite S.
Qed.
Print Assumptions C102_unary.

(** Streaming calls, read to the end or left early. *)
Theorem C102_streams {A B} (c : client A B) ck net net' md m u timeout stop : same_but_compression c net net' ->
  (forall a, execute_server_stream c ck net md m u timeout a stop = execute_server_stream c ck net' md m u timeout a stop)
  /\ (forall reqs, execute_bidi_stream c ck net md m u timeout reqs stop = execute_bidi_stream c ck net' md m u timeout reqs stop)
  /\ (forall reqs, execute_client_stream c ck net md m u timeout reqs stop = execute_client_stream c ck net' md m u timeout reqs stop).
Proof.
  intro S. split; [|split]; intro x.
  - unfold execute_server_stream. now apply send_alike.
  - unfold execute_bidi_stream. now apply send_alike.
  - unfold execute_client_stream. now rewrite (send_alike c _ ck net net' md x (single_stop stop) S).
Qed.
Print Assumptions C102_streams.

(** A client of Connect that knows gzip (which puts a byte in front here), and two servers: each compresses what the other does not. *)
Definition ex_pack : compression :=
  mk_comp (lit "gzip") false (fun b => Ok (31 :: b)) (fun b => match b with 31 :: b => Ok b | _ => Raise (EOther KValue []) end).
Definition ex_unpacker : client pystr pystr :=
  client_new false (lit "http://h") PConnect ex_codec [ex_pack] None None (Some 100) (lit "ua/1") ex_sc.
Definition mixed_frames : list frame := [mk_frame 0 [7; 8]; mk_frame 1 [31; 9]; mk_frame 2 (lit "{}")].
Definition mixed_frames' : list frame := [mk_frame 1 [31; 7; 8]; mk_frame 0 [9]; mk_frame 3 (31 :: lit "{}")].
Definition mixed_net (fs : list frame) : network :=
  ex_answer (mk_sp 200 [(lit "content-type", lit "application/connect+proto"); (lit "connect-content-encoding", lit "gzip")]
    (map (fun f => ex_frame (f_flag f) (f_payload f)) fs) None [] (fun _ => None)).

Lemma mixed_of fs : frames_of (List.concat (map (fun f => ex_frame (f_flag f) (f_payload f)) fs)) fs [].
Proof.
  induction fs as [|[f p] fs IH]; [apply fo_nil; left; cbn; lia|]. cbn [map List.concat f_flag f_payload].
  apply (fo_cons (mk_frame f p) (ex_frame f p)); [|exact IH]. exists 0, 0, 0, (lenN p). split; [reflexivity|]. cbn [f_payload]. unfold lenN. lia.
Qed.

Lemma mixed_end a b c : end_flag RConnect a = false -> end_flag RConnect b = false ->
  nothing_after_end RConnect (List.concat (map (fun f => ex_frame (f_flag f) (f_payload f)) [a; b; c])).
Proof.
  intros A B fs tl F f before after E G. destruct (frames_of_det _ _ _ F _ _ (mixed_of [a; b; c])) as [-> ->]. split; [|reflexivity].
  destruct before as [|b0 [|b1 [|b2 before]]]; cbn in E.
  - injection E as <- _. congruence.
  - injection E as _ <- _. congruence.
  - injection E as _ _ _ <-. reflexivity.
  - injection E as _ _ _ E. destruct before; discriminate E.
Qed.

Example C102_example :
  same_but_compression ex_unpacker (mixed_net mixed_frames) (mixed_net mixed_frames')
  /\ (let s := execute_server_stream ex_unpacker ex_clocks (mixed_net mixed_frames') None ex_method UNone None [1] None in
      sr_msgs s = [[7; 8]; [9]] /\ sr_end s = COk tt).
Proof.
  split; [|vm_compute; auto]. split; [reflexivity|]. intro rq. right.
  eexists. exists (map (fun f => ex_frame (f_flag f) (f_payload f)) mixed_frames').
  split; [reflexivity|]. split; [reflexivity|]. split; [reflexivity|]. cbn [sp_headers sp_chunks].
  intros z Z. change (Ok ex_pack = Ok z) in Z. injection Z as <-. split; [|split].
  - now apply (mixed_end (mk_frame 0 [7; 8]) (mk_frame 1 [31; 9]) (mk_frame 2 (lit "{}"))).
  - now apply (mixed_end (mk_frame 1 [31; 7; 8]) (mk_frame 0 [9]) (mk_frame 3 (31 :: lit "{}"))).
  - exists mixed_frames, mixed_frames', [], []. split; [apply mixed_of|]. split; [apply mixed_of|].
    constructor; [|constructor; [|constructor; [|constructor]]]; (right; split; [reflexivity|]).
    + exists [7; 8]. split; [left|right]; repeat split.
    + exists [9]. split; [right|left]; repeat split.
    + exists (lit "{}"). split; [left|right]; repeat split.
Qed.

(** C01 for calls: their results do not depend on the pieces in which the response arrives, also if a stream is left early. *)
Theorem C01_calls {A B} (c : client A B) ck net net' md m u timeout stop : same_but_pieces c net net' ->
  (forall get a, execute_unary c ck net md m u timeout get a stop = execute_unary c ck net' md m u timeout get a stop)
  /\ (forall a, execute_server_stream c ck net md m u timeout a stop = execute_server_stream c ck net' md m u timeout a stop)
  /\ (forall reqs, execute_bidi_stream c ck net md m u timeout reqs stop = execute_bidi_stream c ck net' md m u timeout reqs stop)
  /\ (forall reqs, execute_client_stream c ck net md m u timeout reqs stop = execute_client_stream c ck net' md m u timeout reqs stop).
Proof.
  intro S. split; [|split; [|split]].
  - intros get a. unfold execute_unary, send_unary.
    destruct (cl_proto c) eqn:P; [|now rewrite (send_pieces c _ ck net net' md ([a], None) (single_stop stop) S)..].
    unfold send_unary_connect. destruct (unary_request _ _ _ _) as [rq|]; [|reflexivity]. destruct S as [S _]. now rewrite S.
  - intro a. unfold execute_server_stream. now apply send_pieces.
  - intro reqs. unfold execute_bidi_stream. now apply send_pieces.
  - intro reqs. unfold execute_client_stream. now rewrite (send_pieces c _ ck net net' md reqs (single_stop stop) S).
Qed.
Print Assumptions C01_calls.

(** The same stream in three pieces, and cut within each frame. *)
Definition in_pieces (chunks : list bytes) : network :=
  ex_answer (mk_sp 200 [(lit "content-type", lit "application/connect+proto"); (lit "connect-content-encoding", lit "gzip")] chunks None [] (fun _ => None)).
Example C01_calls_example :
  same_but_pieces ex_unpacker (mixed_net mixed_frames)
    (in_pieces [[0; 0; 0]; [0; 2; 7]; []; [8; 1; 0; 0; 0; 2; 31]; [9; 2; 0; 0; 0; 2; 123]; [125]])
  /\ (let s := execute_server_stream ex_unpacker ex_clocks
        (in_pieces [[0; 0; 0]; [0; 2; 7]; []; [8; 1; 0; 0; 0; 2; 31]; [9; 2; 0; 0; 0; 2; 123]; [125]]) None ex_method UNone None [1]
        (Some (0%nat, FClose)) in sr_msgs s = [[7; 8]]).
Proof.
  split; [|vm_compute; auto]. split; [reflexivity|]. intro rq. right. eexists. eexists.
  split; [reflexivity|]. split; [reflexivity|]. split; [reflexivity|]. intros _.
  now apply (mixed_end (mk_frame 0 [7; 8]) (mk_frame 1 [31; 9]) (mk_frame 2 (lit "{}"))).
Qed.
