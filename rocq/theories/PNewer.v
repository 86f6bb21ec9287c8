(** C97: what a newer server adds to its errors and end-of-stream messages does not change what a client makes of them. *)
From Coq Require Import List NArith ZArith Bool String Lia.
From Verif Require Import MBase MPyStr MHeaders MBase64 MJson MWire MEnvelope SEnvelope LEnvelope MTimeout MProtocol MClient LClient MIter LIter LLook
  SNewer LNewer PProtocol PClient.
Import ListNotations.
Local Open Scope N_scope.

(** A unary call: the same request, outcome and, where it is the response as a whole that is read, metadata. *)
Theorem C97_unary {A B} (c : client A B) ck net net' md m u timeout get a stop : same_net c net net' ->
  let x := execute_unary c ck net md m u timeout get a stop in
  let y := execute_unary c ck net' md m u timeout get a stop in
  cr_sent x = cr_sent y /\ cr_out x = cr_out y /\ (cl_proto c = PConnect -> cr_md x = cr_md y).
Proof.
  intro S. cbv zeta. unfold execute_unary, send_unary.
  destruct (send_stopped c (call_ctx c (ck_start ck) m u timeout false get) ck net net' md ([a], None) (single_stop stop) S) as (E1&E2&E3).
  destruct (cl_proto c) eqn:P; [rewrite (unary_same c _ ck net net' md a S); auto| |];
    (unfold single_result; cbn [cr_sent cr_out cr_md]; rewrite E1, E2, E3; repeat split; auto; discriminate).
Qed.
Print Assumptions C97_unary.

(** Streams, however much of them is read: the same request, messages and end, and, read to the end, the same metadata. *)
Theorem C97_streams {A B} (c : client A B) ck net net' md m u timeout stop : same_net c net net' ->
  (forall a, let x := execute_server_stream c ck net md m u timeout a stop in
             let y := execute_server_stream c ck net' md m u timeout a stop in
             sr_sent x = sr_sent y /\ sr_msgs x = sr_msgs y /\ sr_end x = sr_end y /\ (stop = None -> sr_md x = sr_md y))
  /\ (forall reqs, let x := execute_bidi_stream c ck net md m u timeout reqs stop in
                   let y := execute_bidi_stream c ck net' md m u timeout reqs stop in
                   sr_sent x = sr_sent y /\ sr_msgs x = sr_msgs y /\ sr_end x = sr_end y /\ (stop = None -> sr_md x = sr_md y))
  /\ (forall reqs, let x := execute_client_stream c ck net md m u timeout reqs stop in
                   let y := execute_client_stream c ck net' md m u timeout reqs stop in
                   cr_sent x = cr_sent y /\ cr_out x = cr_out y).
Proof.
  intro S.
  assert (G : forall reqs stop, let x := send_stream c (call_ctx c (ck_start ck) m u timeout true false) ck net md reqs stop in
    let y := send_stream c (call_ctx c (ck_start ck) m u timeout true false) ck net' md reqs stop in
    sr_sent x = sr_sent y /\ sr_msgs x = sr_msgs y /\ sr_end x = sr_end y /\ (stop = None -> sr_md x = sr_md y)).
  { intros reqs st. cbv zeta. destruct (send_stopped c (call_ctx c (ck_start ck) m u timeout true false) ck net net' md reqs st S) as (E1&E2&E3).
    repeat split; auto. intros ->. now rewrite (send_same c _ ck net net' md reqs S). }
  split; [|split]; intro; try apply G. cbv zeta. unfold execute_client_stream, single_result. cbn [cr_sent cr_out].
  destruct (G reqs (single_stop stop)) as (E1&E2&E3&_). now rewrite E1, E2, E3.
Qed.
Print Assumptions C97_streams.

(** An error with a code that the client has no name for keeps its message and its details. *)
Theorem C97_unknown_code (d : dict json) (s msg : pystr) (ts : list (pystr * pystr * bytes)) st content :
  json_loads_bytes content = Some (JObj d) ->
  dget d (lit "code") = Some (JStr s) -> s <> [] -> code_of_value s = None ->
  dget d (lit "message") = Some (JStr msg) ->
  dget d (lit "details") = Some (JArr (map (fun t => JObj [(lit "type", JStr (fst (fst t))); (lit "value", JStr (snd (fst t)))]) ts)) ->
  Forall (fun t => b64decode (snd (fst t) ++ lit "===") = Some (snd t)) ts ->
  we_from_response st content
  = Ok (mk_we Unavailable msg (map (fun t => mk_detail (mk_any (lit "type.googleapis.com/" ++ fst (fst t)) (snd t)) None) ts)).
Proof.
  intros J C S V M D F. unfold we_from_response. rewrite J. unfold we_from_dict. rewrite C, M, D. cbn [json_truthy message_of_json].
  replace (nonempty s) with true by (destruct s; [congruence|reflexivity]). rewrite V.
  assert (E : details_of_list (map (fun t => JObj [(lit "type", JStr (fst (fst t))); (lit "value", JStr (snd (fst t)))]) ts)
      = Ok (map (fun t => mk_detail (mk_any (lit "type.googleapis.com/" ++ fst (fst t)) (snd t)) None) ts)).
  { clear D. induction F as [|[[t v] b] ts E F IH]; [reflexivity|]. cbn [map fst snd] in *. cbn [details_of_list].
    unfold detail_of_json at 1. change (dget [(lit "type", JStr t); (lit "value", JStr v)] (lit "type")) with (Some (JStr t)).
    change (dget [(lit "type", JStr t); (lit "value", JStr v)] (lit "value")) with (Some (JStr v)). cbv beta iota. rewrite E. cbn [bind]. rewrite IH. reflexivity. }
  unfold details_of_json. cbn [json_truthy]. destruct ts as [|t ts]; [reflexivity|]. cbn [map nonempty]. cbn [map] in E. rewrite E. reflexivity.
Qed.
Print Assumptions C97_unknown_code.

(** An old and a new server, to both kinds of call. *)
Definition old_error : bytes := lit "{""code"":""aborted"",""message"":""m"",""details"":[{""type"":""t"",""value"":""AQ""}]}".
Definition new_error : bytes :=
  lit "{""retry"":{""after"":[1,2]},""details"":[{""debug"":{""x"":1},""value"":""AQ"",""type"":""t""}],""message"":""m"",""code"":""aborted""}".
Definition old_end : bytes := lit "{""error"":" ++ old_error ++ lit "}".
Definition new_end : bytes := lit "{""v"":2,""error"":" ++ new_error ++ lit "}".
Definition ex_server (err fin : bytes) : network :=
  mk_net (fun _ => UResp (mk_fr 409 [(lit "content-type", lit "application/json")] err))
    (fun _ => SResp (ex_stream PConnect [ex_frame 0 [7; 8]; ex_frame 2 fin] None [])).

Lemma errors_alike : same_text same_error old_error new_error.
Proof.
  right. eexists. eexists. split; [vm_compute; reflexivity|]. split; [vm_compute; reflexivity|]. split; [reflexivity|]. split; [reflexivity|].
  right. eexists. eexists. split; [vm_compute; reflexivity|]. split; [vm_compute; reflexivity|].
  constructor; [|constructor]. right. eexists. eexists. split; [reflexivity|]. split; [reflexivity|]. split; reflexivity.
Qed.
Lemma ends_alike : same_text same_end old_end new_end.
Proof.
  right. eexists. eexists. split; [vm_compute; reflexivity|]. split; [vm_compute; reflexivity|]. split; [reflexivity|].
  right. eexists. eexists. split; [vm_compute; reflexivity|]. split; [vm_compute; reflexivity|]. split; [discriminate|]. split; [discriminate|].
  split; [reflexivity|]. split; [reflexivity|].
  right. eexists. eexists. split; [vm_compute; reflexivity|]. split; [vm_compute; reflexivity|].
  constructor; [|constructor]. right. eexists. eexists. split; [reflexivity|]. split; [reflexivity|]. split; reflexivity.
Qed.
Lemma frame_of_ex (f : N) p rest fs : frames_of rest fs [] -> frames_of (ex_frame f p ++ rest) (mk_frame f p :: fs) [].
Proof. intro H. apply (fo_cons (mk_frame f p) (ex_frame f p) rest); [|exact H]. exists 0, 0, 0, (lenN p). split; [reflexivity|]. cbn [f_payload]. unfold lenN. lia. Qed.

Lemma servers_alike t : same_net (ex_client PConnect t) (ex_server old_error old_end) (ex_server new_error new_end).
Proof.
  split; intro rq.
  - right. exists 409, [(lit "content-type", lit "application/json")], old_error, new_error. repeat split; [discriminate|apply errors_alike].
  - right. exists (ex_stream PConnect [ex_frame 0 [7; 8]; ex_frame 2 old_end] None []), [ex_frame 0 [7; 8]; ex_frame 2 new_end].
    split; [reflexivity|]. split; [reflexivity|]. cbn [ex_stream sp_status]. split; [reflexivity|]. intros z _.
    exists [mk_frame 0 [7; 8]], (mk_frame 2 old_end), (mk_frame 2 new_end), old_end, new_end.
    cbn [sp_chunks List.concat app]. rewrite !app_nil_r.
    assert (F : forall e, frames_of (ex_frame 0 [7; 8] ++ ex_frame 2 e) [mk_frame 0 [7; 8]; mk_frame 2 e] []).
    { intro e. apply frame_of_ex. rewrite <- (app_nil_r (ex_frame 2 e)). apply frame_of_ex. constructor. left. cbn. lia. }
    repeat split; try apply F; try (left; split; reflexivity); try exact ends_alike. repeat constructor.
Qed.

Example C97_example :
  (forall t, same_net (ex_client PConnect t) (ex_server old_error old_end) (ex_server new_error new_end))
  /\ old_end <> new_end
  /\ cr_out (execute_unary (ex_client PConnect None) ex_clocks (ex_server new_error new_end) None ex_method UNone None false [1] None)
     = CErr (EConnect Aborted (lit "m") [mk_detail (mk_any (lit "type.googleapis.com/t") [1]) None])
  /\ (let s := execute_server_stream (ex_client PConnect None) ex_clocks (ex_server new_error new_end) None ex_method UNone None [1] None in
      sr_msgs s = [[7; 8]] /\ sr_end s = CErr (EConnect Aborted (lit "m") [mk_detail (mk_any (lit "type.googleapis.com/t") [1]) None])).
Proof. split; [exact servers_alike|]. split; [vm_compute; discriminate|]. vm_compute. auto. Qed.

Example C97_code_example :
  we_from_response 409 (lit "{""code"":""brand_new"",""message"":""m"",""details"":[{""type"":""t"",""value"":""AQ""}]}")
  = Ok (mk_we Unavailable (lit "m") [mk_detail (mk_any (lit "type.googleapis.com/t") [1]) None]).
Proof.
  eapply (C97_unknown_code _ (lit "brand_new") (lit "m") [(lit "t", lit "AQ", [1])]); try (vm_compute; reflexivity); [discriminate|].
  repeat constructor.
Qed.

(** A detail that the client cannot decode, though: the code and the message that come with it are lost. *)
Theorem C97_detail_refuted :
  let err v := lit "{""code"":""not_found"",""message"":""m"",""details"":[{""type"":""t"",""value"":" ++ v ++ lit "}]}" in
  let out v := cr_out (execute_unary (ex_client PConnect None) ex_clocks (ex_server (err v) []) None ex_method UNone None false [1] None) in
  (exists ds, out (lit """AQ""") = CErr (EConnect NotFound (lit "m") ds))
  /\ (exists m, out (lit """A""") = CErr (EConnect Unavailable m []) /\ m <> lit "m")
  /\ (exists m, out (lit "7") = CErr (EConnect Unavailable m []) /\ m <> lit "m").
Proof. cbv zeta. split; [eexists; vm_compute; reflexivity|]. split; eexists; (split; [vm_compute; reflexivity|vm_compute; discriminate]). Qed.
Print Assumptions C97_detail_refuted.

(** And an end-of-stream message with an error that has no members is taken for success, one with an unknown member is not. *)
Theorem C97_empty_error_refuted :
  let out v := sr_end (execute_server_stream (ex_client PConnect None) ex_clocks (ex_server [] (lit "{""error"":" ++ v ++ lit "}")) None ex_method UNone None [1] None) in
  out (lit "{}") = COk tt /\ exists c m, out (lit "{""new"":1}") = CErr (EConnect c m []).
Proof. cbv zeta. split; [vm_compute; reflexivity|]. eexists. eexists. vm_compute. reflexivity. Qed.
Print Assumptions C97_empty_error_refuted.
