(** C01 and C102 for servers. *)
From Coq Require Import List NArith ZArith Bool String Lia.
From Verif Require Import MBase MPyStr MHeaders MWire MEnvelope SEnvelope LEnvelope MTimeout MProtocol MClient MServer MAsgi MWsgi
  SMixed LMixed SPieces LPieces PProtocol PClient PResponse PMixed.
Import ListNotations.
Local Open Scope N_scope.

(** What an application does with a request does not depend on the pieces in which its body arrives, complete or not. *)
Theorem C01_asgi {A B} (ap : app A B) now sc en l body x : delivers (en_recv en) body x -> delivers l body x ->
  asgi_call ap now sc en = asgi_call ap now sc (mk_env l (en_cut en) (en_watch en) (en_send en)).
Proof.
  intros D D'. apply (asgi_same ap now sc en l body body x D D'). intros ep hs p cx _.
  destruct (match ep, p with EpUnary _ _, PConnect => true | _, _ => false end); [reflexivity|]. intros z _. apply same_self, no_ends.
Qed.
Print Assumptions C01_asgi.

Theorem C01_wsgi {A B} (ap : app A B) now q l body x : winput (wq_input q) body x -> winput l body x ->
  wsgi_call ap now q = wsgi_call ap now (mk_wq (wq_env q) l (wq_trailers q) (wq_drain q)).
Proof.
  intros D D'. apply (wsgi_same ap now q l body body x D D'). intros ep hs p cx _.
  destruct (match ep, p with EpUnary _ _, PConnect => true | _, _ => false end); [reflexivity|]. intros z _. apply same_self, no_ends.
Qed.
Print Assumptions C01_wsgi.

(** Nor, if it is a stream of frames, on which of them the client has compressed. *)
Theorem C102_asgi {A B} (ap : app A B) now sc en l body body' x ep hs p cx :
  open_request ap now sc = Ok (ep, hs, p, cx) -> framed ep p -> delivers (en_recv en) body x -> delivers l body' x ->
  (forall z, fst (negotiate_stream_compression p hs (ap_comps ap)) = Some z -> same_contents RBase z body body') ->
  asgi_call ap now sc en = asgi_call ap now sc (mk_env l (en_cut en) (en_watch en) (en_send en)).
Proof.
  intros O Fr D D' S. apply (asgi_same ap now sc en l body body' x D D'). intros ep0 hs0 p0 cx0 O0. rewrite O in O0. injection O0 as <- <- <- <-.
  destruct ep, p; try exact S. contradiction Fr.
Qed.
Print Assumptions C102_asgi.

Theorem C102_wsgi {A B} (ap : app A B) now q l body body' x ep hs p cx :
  wsgi_open_request ap now q = Ok (ep, hs, p, cx) -> framed ep p -> winput (wq_input q) body x -> winput l body' x ->
  (forall z, fst (negotiate_stream_compression p hs (ap_comps ap)) = Some z -> same_contents RBase z body body') ->
  wsgi_call ap now q = wsgi_call ap now (mk_wq (wq_env q) l (wq_trailers q) (wq_drain q)).
Proof.
  intros O Fr D D' S. apply (wsgi_same ap now q l body body' x D D'). intros ep0 hs0 p0 cx0 O0. rewrite O in O0. injection O0 as <- <- <- <-.
  destruct ep, p; try exact S. contradiction Fr.
Qed.
Print Assumptions C102_wsgi.

(** A gRPC method that sends two requests back; the client compresses the one or the other and the body is cut elsewhere. *)
Definition ex_back : endpoint pystr pystr :=
  EpBidi ex_method (fun _ => Pull (fun x => match x with PMsg a => Yield a quiet (Pull (fun y => match y with PMsg b => Yield b quiet (Ret tt) | _ => Ret tt end)) | _ => Ret tt end)).
Definition ex_zipping : app pystr pystr := app_new (lit "/pkg.Svc") [(lit "/pkg.Svc/Get", ex_back)] (Some 1000) [ex_pack] [ex_codec] ex_sc.
Definition ex_zipped : scope :=
  mk_scope (lit "/pkg.Svc/Get") (Some []) (lit "POST") (lit "http") [(lit "content-type", lit "application/grpc+proto"); (lit "grpc-encoding", lit "gzip")] None [] true.
Definition ex_wzipped (l : list rd) : wsgi_request :=
  mk_wq [(lit "PATH_INFO", lit "/pkg.Svc/Get"); (lit "SCRIPT_NAME", []); (lit "REQUEST_METHOD", lit "POST");
         (lit "CONTENT_TYPE", lit "application/grpc+proto"); (lit "HTTP_GRPC_ENCODING", lit "gzip"); (lit "SERVER_PROTOCOL", lit "HTTP/2")] l true (fun _ => None).
Definition pieces1 : list bytes := [[0; 0; 0; 0; 1]; [7; 1; 0; 0; 0; 2; 31; 8]].
Definition pieces2 : list bytes := [[1; 0]; [0; 0; 2; 31; 7; 0; 0; 0; 0; 1; 8]].
Fixpoint events_of (l : list bytes) : list recv := match l with [] => [RReq [] false] | b :: r => RReq b true :: events_of r end.

Lemma events_deliver l : delivers (events_of l) (List.concat l) None.
Proof. induction l; cbn [events_of List.concat]; now constructor. Qed.
Lemma reads_deliver l : Forall (fun b => b <> []) l -> winput (map RD l) (List.concat l) None.
Proof. induction 1; cbn [map List.concat]; now constructor. Qed.

Lemma pieces_same : same_contents RBase ex_pack (List.concat pieces1) (List.concat pieces2).
Proof.
  split; [apply no_ends|]. split; [apply no_ends|].
  exists [mk_frame 0 [7]; mk_frame 1 [31; 8]], [mk_frame 1 [31; 7]; mk_frame 0 [8]], [], []. split; [|split].
  - exact (mixed_of [mk_frame 0 [7]; mk_frame 1 [31; 8]]).
  - exact (mixed_of [mk_frame 1 [31; 7]; mk_frame 0 [8]]).
  - constructor; [|constructor; [|constructor]]; (right; split; [reflexivity|]).
    + exists [7]. split; [left|right]; repeat split.
    + exists [8]. split; [right|left]; repeat split.
Qed.

Example C102_server_example :
  (exists hs cx, open_request ex_zipping 0%Z ex_zipped = Ok (ex_back, hs, PGrpc, cx) /\ framed ex_back PGrpc
     /\ fst (negotiate_stream_compression PGrpc hs (ap_comps ex_zipping)) = Some ex_pack)
  /\ (exists hs cx, wsgi_open_request ex_zipping 0%Z (ex_wzipped (map RD pieces1)) = Ok (ex_back, hs, PGrpc, cx)
     /\ fst (negotiate_stream_compression PGrpc hs (ap_comps ex_zipping)) = Some ex_pack)
  /\ delivers (events_of pieces1) (List.concat pieces1) None /\ delivers (events_of pieces2) (List.concat pieces2) None
  /\ winput (map RD pieces1) (List.concat pieces1) None /\ winput (map RD pieces2) (List.concat pieces2) None
  /\ same_contents RBase ex_pack (List.concat pieces1) (List.concat pieces2)
  /\ (exists hs tr, asgi_call ex_zipping 0%Z ex_zipped (mk_env (events_of pieces2) None WIdle (fun _ => SOk))
       = mk_ar [InvStream] [EvStart 200 hs true; EvBody (ex_frame 0 [7]) true; EvBody (ex_frame 0 [8]) true; EvBody [] false; EvTrailers tr] AReturn).
Proof.
  split; [eexists; eexists; repeat split|]. split; [eexists; eexists; repeat split|].
  split; [apply events_deliver|]. split; [apply events_deliver|].
  split; [apply reads_deliver; repeat constructor; discriminate|]. split; [apply reads_deliver; repeat constructor; discriminate|].
  split; [apply pieces_same|]. eexists. eexists. vm_compute. reflexivity.
Qed.

(** The same request twice, whole and broken off, and the same WSGI input. *)
Example C01_server_example :
  delivers (events_of pieces1) (List.concat pieces1) None /\ delivers (events_of [List.concat pieces1; []]) (List.concat pieces1) None
  /\ delivers [RReq [0; 0] true; RReq [0] true; RDisconnect] [0; 0; 0] (Some RDisconnect) /\ delivers [RReq [0; 0; 0] true] [0; 0; 0] (Some RDisconnect)
  /\ winput (map RD pieces1) (List.concat pieces1) None /\ winput (map RD [List.concat pieces1]) (List.concat pieces1) None.
Proof.
  split; [apply events_deliver|]. split; [exact (events_deliver [List.concat pieces1; []])|].
  split; [apply (dl_more [0; 0]), (dl_more [0] _ []), dl_other; discriminate|]. split; [apply (dl_more [0; 0; 0] [] []), dl_gone|].
  split; [|exact (reads_deliver [List.concat pieces1] ltac:(repeat constructor; discriminate))]. apply reads_deliver; repeat constructor; discriminate.
Qed.
