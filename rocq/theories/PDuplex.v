(** C76: a stream on the ASGI server is a conversation in both directions. *)
From Coq Require Import List NArith ZArith Bool String Lia.
From Verif Require Import MBase MPyStr MHeaders MWire MTimeout MEnvelope SEnvelope MProtocol MClient MServer MAsgi MDuplex SDuplex LDuplex PProtocol PClient PResponse.
Import ListNotations.
Local Open Scope N_scope.

(** The conversations are those of the requests that the other theorems are about: same result, same events. *)
Theorem C76_same : forall (A B : Type) (ap : app A B) now sc en,
  fst (asgi_conversation ap now sc en) = asgi_call ap now sc en
  /\ sent (snd (asgi_conversation ap now sc en)) = ar_events (asgi_call ap now sc en).
Proof. intros. split; [apply conversation_same|apply conversation_prompt]. Qed.
Print Assumptions C76_same.

(** When a method asks for the next request message, every message it yielded before has been handed to the server.  Then the
    application receives parts of the request, each one only if those received before do not hold a message that the method was
    not yet given; and then the method gets its answer. *)
Theorem C76_ask : forall (A B : Type) (ap : app A B) now sc en before after,
  snd (asgi_conversation ap now sc en) = before ++ DAsk :: after ->
  List.length (bodies (sent before)) = List.length (yielded before)
  /\ exists rs x rest, after = map DRecv rs ++ DGive x :: rest
     /\ forall r1 y r2 fs tl, rs = r1 ++ y :: r2 -> frames_of (List.concat (received before ++ parts r1)) fs tl ->
        (List.length fs <= List.length (given before))%nat.
Proof.
  intros A B ap now sc en before after E. destruct (proj1 (conversation_prompt ap now sc en) before DAsk after E I) as [L H]. split; [exact L|].
  destruct (H eq_refl) as (rs&x&rest&->&Hl). exists rs, x, rest. split; [reflexivity|]. intros r1 y r2 fs tl Er Hf. apply (Hl r1 y r2 Er fs tl).
  rewrite concat_app in Hf. exact Hf.
Qed.
Print Assumptions C76_ask.

(** So a message that has arrived is given without waiting for anything. *)
Theorem C76_arrived : forall (A B : Type) (ap : app A B) now sc en before after fs tl,
  snd (asgi_conversation ap now sc en) = before ++ DAsk :: after ->
  frames_of (List.concat (received before)) fs tl -> (List.length (given before) < List.length fs)%nat ->
  exists x rest, after = DGive x :: rest.
Proof.
  intros A B ap now sc en before after fs tl E Hf Hl. destruct (C76_ask A B ap now sc en before after E) as [_ (rs&x&rest&->&H)].
  destruct rs as [|y rs]; [now exists x, rest|]. exfalso. specialize (H [] y rs fs tl eq_refl). cbn [parts flat_map] in H. rewrite app_nil_r in H. specialize (H Hf). lia.
Qed.
Print Assumptions C76_arrived.

(** A message is handed to the server before the method goes on to the next one. *)
Theorem C76_yield : forall (A B : Type) (ap : app A B) now sc en before b after,
  snd (asgi_conversation ap now sc en) = before ++ DYield b :: after ->
  List.length (bodies (sent before)) = List.length (yielded before).
Proof. intros A B ap now sc en before b after E. exact (proj1 (proj1 (conversation_prompt ap now sc en) before (DYield b) after E I)). Qed.
Print Assumptions C76_yield.

(** A method that answers each message with an echo; the client sends two messages in three parts. *)
Definition ex_duplex : endpoint pystr pystr :=
  EpBidi ex_method (fun _ => Pull (fun x => match x with PMsg a => Yield a quiet (Pull (fun y => match y with PMsg b => Yield b quiet (Ret tt) | _ => Ret tt end)) | _ => Ret tt end)).
Definition ex_duplex_env : env := mk_env [RReq (ex_frame 0 [7] ++ [0; 0]) true; RReq [0; 0; 1] true; RReq [8] true; RReq [] false] None WIdle (fun _ => SOk).
Example C76_example :
  exists hs, snd (asgi_conversation (ex_app ex_duplex) 0%Z (ex_scope "POST" "application/grpc+proto") ex_duplex_env)
    = [DAsk; DRecv (RReq (ex_frame 0 [7] ++ [0; 0]) true); DGive (PMsg [7]); DYield [7]; DSend (EvStart 200 hs true); DSend (EvBody (ex_frame 0 [7]) true);
       DAsk; DRecv (RReq [0; 0; 1] true); DRecv (RReq [8] true); DGive (PMsg [8]); DYield [8]; DSend (EvBody (ex_frame 0 [8]) true);
       DSend (EvBody [] false); DSend (EvTrailers [(lit "grpc-status", lit "0")])].
Proof. eexists. vm_compute. reflexivity. Qed.
Definition ex_both_env : env := mk_env [RReq (ex_frame 0 [7] ++ ex_frame 0 [8]) false] None WIdle (fun _ => SOk).
Example C76_example_arrived :
  let t := snd (asgi_conversation (ex_app ex_duplex) 0%Z (ex_scope "POST" "application/grpc+proto") ex_both_env) in
  exists before x rest, t = before ++ DAsk :: DGive x :: rest /\ frames_of (List.concat (received before)) [mk_frame 0 [7]; mk_frame 0 [8]] []
    /\ given before = [[7]].
Proof.
  cbv zeta. eexists (firstn 6 (snd (asgi_conversation (ex_app ex_duplex) 0%Z (ex_scope "POST" "application/grpc+proto") ex_both_env))), (PMsg [8]), _.
  split; [vm_compute; reflexivity|]. split; [|vm_compute; reflexivity].
  assert (E : List.concat (received (firstn 6 (snd (asgi_conversation (ex_app ex_duplex) 0%Z (ex_scope "POST" "application/grpc+proto") ex_both_env)))) = [0;0;0;0;1;7;0;0;0;0;1;8])
    by (vm_compute; reflexivity).
  rewrite E.
  apply (fo_cons (mk_frame 0 [7]) [0;0;0;0;1;7] [0;0;0;0;1;8]); [exists 0, 0, 0, 1; auto|].
  apply (fo_cons (mk_frame 0 [8]) [0;0;0;0;1;8] []); [exists 0, 0, 0, 1; auto|]. constructor. left. cbn. lia.
Qed.
