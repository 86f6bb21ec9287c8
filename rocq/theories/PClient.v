(** C07, C08, C09, C15, C18, C19, C38, C44, C51 for clients: what ends a call. *)
From Coq Require Import List NArith ZArith Bool String Lia ZifyBool ZifyNat.
From Verif Require Import SMedia LMedia.
From Verif Require Import MBase MPyStr MHeaders SHeaders LBase LPyStr LHeaders MJson MUtf8 MBase64 MPercent MWire MTimeout
  MEnvelope SEnvelope LEnvelope LWire MProtocol SProtocol MClient LProtocol SClient LClient LFloat STimeout PTimeout PProtocol.
Import ListNotations.
Local Open Scope N_scope.

(** ** C09: gRPC success needs status 0 *)

Lemma grpc_complete_ok sc (web : bool) r rh rt md : grpc_complete sc web r rh rt None = (None, md) ->
  hh_get (if web then r_trl r else rt) (lit "grpc-status") = Some (lit "0")
  \/ (hh_get (if web then r_trl r else rt) (lit "grpc-status") = None /\ r_read r = false
      /\ hh_get rh (lit "grpc-status") = Some (lit "0")).
Proof.
  unfold grpc_complete. set (ts := if web then r_trl r else rt).
  destruct (hh_get ts (lit "grpc-status")) as [s|] eqn:E.
  - rewrite E. destruct (str_eqb_spec s (lit "0")) as [->|]; auto.
    destruct (match hh_get ts (lit "grpc-status-details-bin") with Some _ => _ | None => _ end) as [d|]; [|discriminate].
    destruct (b64decode _) as [bin|]; [|discriminate]. destruct (st_from sc bin); discriminate.
  - destruct (r_read r); [discriminate|]. destruct (hh_get rh (lit "grpc-status")) as [s|] eqn:F; [|discriminate].
    destruct (str_eqb_spec s (lit "0")) as [->|]; auto.
    destruct (match hh_get rh (lit "grpc-status-details-bin") with Some _ => _ | None => _ end) as [d|]; [|discriminate].
    destruct (b64decode _) as [bin|]; [|discriminate]. destruct (st_from sc bin); discriminate.
Qed.

Lemma values_in_In hs k v : hd_error (values_in hs k) = Some v -> exists k', In (k', v) hs /\ same_name k k' = true.
Proof.
  unfold values_in. intro H. destruct (filter _ hs) as [|[k' v'] l] eqn:F; [discriminate|]. cbn in H. injection H as ->.
  exists k'. assert (X : In (k', v) (filter (fun p => same_name k (fst p)) hs)) by (rewrite F; now left).
  apply filter_In in X. exact X.
Qed.

Lemma stream_reported_zero {A B} (c : client A B) cx ck net md reqs stop : cl_proto c <> PConnect ->
  sr_end (send_stream c cx ck net md reqs stop) = COk tt ->
  exists rq resp z, sr_sent (send_stream c cx ck net md reqs stop) = [rq] /\ nw_stream net rq = SResp resp
    /\ acceptable c resp z /\ grpc_reported (cl_proto c) z resp (lit "0").
Proof.
  intros Hp H. destruct (send_stream_ok _ _ _ _ _ _ _ H) as (rq&resp&z&r&Hs&Hn&Ht&Hv&Hz&Hf&Hno&Hc&_).
  exists rq, resp, z. split; auto. split; auto. split; [repeat split; auto|].
  set (cf := mk_rconf (reader_kind (cl_proto c)) z (cl_max c) (k_dec_res (cl_codec c))) in *.
  destruct (frames_of_exists (List.concat (sp_chunks resp))) as (fs&tl&Hfo).
  destruct (feed_all_why cf (sp_chunks resp) (reader_new (handle_response_headers md (sp_headers resp))) fs tl
              (reader_new_inv _) (reader_new_incomplete _) Hfo) as (used&lft&ms&e&r'&b'&n'&E&Hsk&Hfa&Hw).
  rewrite Hf in Hfa. injection Hfa as <- <- ->.
  assert (Kd : rc_kind cf = RGrpc \/ rc_kind cf = RGrpcWeb) by (cbn; destruct (cl_proto c); [congruence|auto|auto]).
  assert (Hdr : r_read r' = false -> hh_get (sp_headers resp) (lit "grpc-status") = Some (lit "0") -> status_in_headers resp (lit "0")).
  { intros Hr Hh. destruct (run_skip_read cf used _ _ _ Kd Hsk Hr) as [-> _].
    assert (lft = []) as ->. { destruct Hw as [Hw|[Hw|(f&Hin&_)]]; [auto|congruence|destruct Hin]. }
    cbn [app] in E. subst fs. split; [now rewrite <- hh_get_values|].
    pose proof (frames_of_incomplete _ _ _ Hfo). inversion Hfo; subst. constructor. auto. }
  unfold response_complete, reader_kind in Hc. unfold grpc_reported. destruct (cl_proto c) eqn:P; [congruence| |].
  - destruct (grpc_complete_ok _ _ _ _ _ _ Hc) as [H1|(_&H2&H3)]; auto. left. now rewrite <- hh_get_values.
  - destruct (grpc_complete_ok _ _ _ _ _ _ Hc) as [H1|(_&H2&H3)]; auto. left.
    rewrite hh_get_values in H1. apply values_in_In in H1. destruct H1 as (k&Hin&Hk). cbn [with_buf r_trl] in Hin.
    assert (Kw : rc_kind cf = RGrpcWeb) by (cbn; now rewrite ?P).
    destruct (run_skip_trailers cf used Kw _ _ _ _ _ Hsk Hin) as [[]|(f&d&Hf1&Hf2&Hf3&Hf4)].
    exists fs, tl, f, d. split; auto. split; [rewrite E, in_app_iff; auto|]. auto.
Qed.

(** A gRPC or gRPC-Web stream that ends without raising comes from a 200 response in which the server reported status 0:
    in the trailers (for gRPC-Web: in a trailers frame of the body), or in the headers of a response without any frame. *)
Theorem C09_stream : forall (A B : Type) (c : client A B) ck net timeout stop s,
  streamed c ck net timeout stop s -> cl_proto c <> PConnect -> sr_end s = COk tt ->
  exists rq resp z, sr_sent s = [rq] /\ nw_stream net rq = SResp resp /\ acceptable c resp z
    /\ grpc_reported (cl_proto c) z resp (lit "0").
Proof.
  intros A B c ck net timeout stop s Hs Hp He. destruct (streamed_inv _ _ _ _ _ _ Hs) as (cx&md&reqs&->&_).
  now apply stream_reported_zero.
Qed.
Print Assumptions C09_stream.

Theorem C09_single : forall (A B : Type) (c : client A B) ck net timeout stop s b,
  answered_by_stream c ck net timeout stop s -> cl_proto c <> PConnect -> cr_out s = COk b ->
  exists rq resp z, cr_sent s = [rq] /\ nw_stream net rq = SResp resp /\ acceptable c resp z
    /\ grpc_reported (cl_proto c) z resp (lit "0").
Proof.
  intros A B c ck net timeout stop s b Hs Hp He. destruct (answered_inv _ _ _ _ _ _ Hs) as (cx&md&reqs&->&_&_).
  apply single_ok in He. destruct He as [_ He]. now apply stream_reported_zero.
Qed.
Print Assumptions C09_single.

(** A response without any status raises INTERNAL after its messages. *)
Theorem C09_missing : forall (A B : Type) (c : client A B) ck net timeout s resp ms,
  streamed c ck net timeout None s -> cl_proto c <> PConnect ->
  (forall rq, nw_stream net rq = SResp resp) -> readable c resp ms ->
  sp_fault resp = None -> sp_exit resp false = None ->
  (cl_sync c = true -> deadline_over (ck_start ck) (effective_timeout timeout (cl_timeout c)) (ck_late ck) = false) ->
  values_in (sp_trailers resp) (lit "grpc-status") = [] -> values_in (sp_headers resp) (lit "grpc-status") = [] ->
  sr_msgs s = ms /\ exists m, sr_end s = CErr (EConnect Internal m []).
Proof.
  intros A B c ck net timeout s resp ms Hs Hp Hn Hr Hf Hx Hd Ht Hh.
  destruct (streamed_inv _ _ _ _ _ _ Hs) as (cx&md&reqs&->&HD).
  destruct (readable_consume _ _ _ Hr) as (z&(Ha1&Ha2&Ha3)&Hc).
  unfold send_stream. rewrite Hn, Ha1. change (200 =? 200) with true. cbv iota. rewrite Ha2, Ha3. cbv zeta.
  destruct (Hc (handle_response_headers md (sp_headers resp))) as (r&->&Hrt&_). cbv zeta. rewrite Hf. cbv iota zeta.
  assert (D : cl_sync c && deadline_passed cx (ck_late ck) = false).
  { destruct (cl_sync c); auto. rewrite HD. cbn [andb]. auto. }
  rewrite D.
  assert (G : forall web, exists md', grpc_complete (cl_sc c) web r (sp_headers resp) (sp_trailers resp) None
            = (Some (EConnect Internal (lit "missing grpc-status trailer") []), md')).
  { intro web. unfold grpc_complete.
    assert (E : hh_get (if web then r_trl r else sp_trailers resp) (lit "grpc-status") = None).
    { destruct web; [now rewrite Hrt|]. now rewrite hh_get_values, Ht. }
    rewrite E. destruct (r_read r); [eauto|]. rewrite hh_get_values, Hh. cbn [hd_error]. eauto. }
  destruct (cl_proto c); [congruence| |]; cbn [reader_kind response_complete].
  - destruct (G false) as [md' ->]. unfold leave. rewrite Hx. cbn. eauto.
  - destruct (G true) as [md' ->]. unfold leave. rewrite Hx. cbn. eauto.
Qed.
Print Assumptions C09_missing.

(** Concrete responses.  [ex_frame fl p] is the wire form of a frame with a payload shorter than 256 bytes. *)
Definition ex_frame (fl : N) (p : bytes) : bytes := fl :: 0 :: 0 :: 0 :: lenN p :: p.
Definition ex_stream (p : proto) (chunks : list bytes) (f : option fault) (trailers : http_headers) : stream_response :=
  mk_sp 200 [(lit "content-type", server_content_type p (lit "proto"))] chunks f trailers (fun _ => None).
Definition ex_answer (resp : stream_response) : network :=
  mk_net (fun _ => UFault (FExn (EOther KOSError []))) (fun _ => SResp resp).
Definition ex_call (p : proto) (resp : stream_response) : stream_result pystr :=
  execute_bidi_stream (ex_client p None) ex_clocks (ex_answer resp) None ex_method UNone None ([[1]], None) None.
Definition ex_web_trailers : bytes := ex_frame 128 (lit "grpc-status: 0" ++ [13; 10] ++ lit "x: y" ++ [13; 10]).

Example C09_example :
  (let s := ex_call PGrpc (ex_stream PGrpc [ex_frame 0 [7; 8]] None [(lit "Grpc-Status", lit "0")]) in
   sr_msgs s = [[7; 8]] /\ sr_end s = COk tt)
  /\ (let s := ex_call PGrpcWeb (ex_stream PGrpcWeb [ex_frame 0 [7; 8] ++ ex_web_trailers] None []) in
      sr_msgs s = [[7; 8]] /\ sr_end s = COk tt)
  /\ (let s := ex_call PGrpc (ex_stream PGrpc [ex_frame 0 [7; 8]] None []) in
      sr_msgs s = [[7; 8]] /\ sr_end s = CErr (EConnect Internal (lit "missing grpc-status trailer") [])).
Proof. vm_compute. auto 10. Qed.

(** ** C08: Connect end-of-stream messages *)

Lemma before_split x s : exists r, s = before x s ++ r /\ match r with [] => True | c :: _ => c = x end /\ ~ In x (before x s).
Proof.
  induction s as [|c s IH]; [exists []; cbn; auto|]. cbn [before]. destruct (N.eqb_spec c x) as [->|H].
  - exists (x :: s). split; [reflexivity|]. split; [reflexivity|intros []].
  - destruct IH as (r&E&Hr&Hn). exists r. split; [cbn [List.app]; now rewrite <- E|]. split; [exact Hr|]. intros [->|I]; auto.
Qed.
Lemma falsy_no_value v : json_truthy v = false -> no_value v.
Proof.
  destruct v as [|b|z|t|s|l|d]; cbn [json_truthy]; intro H.
  - constructor.
  - subst. constructor.
  - destruct (Z.eqb_spec z 0); [subst; constructor|discriminate].
  - destruct (before_split 69 t) as (r1&E1&R1&_). destruct (before_split 101 (before 69 t)) as (r2&E2&R2&_).
    rewrite E1, E2, <- app_assoc. constructor.
    + apply Forall_forall. intros c Hc. assert (F : existsb (fun c => ((49 <=? c) && (c <=? 57)) || (c =? 78) || (c =? 73)) (before 101 (before 69 t)) <> true) by now rewrite H.
      assert (G : ((49 <=? c) && (c <=? 57)) || (c =? 78) || (c =? 73) = false).
      { destruct (((49 <=? c) && (c <=? 57)) || (c =? 78) || (c =? 73)) eqn:G; [|reflexivity]. exfalso. apply F, existsb_exists. eauto. }
      lia.
    + destruct r2 as [|c r2]; [|now right]. cbn [List.app]. destruct r1; auto.
  - destruct s; [constructor|discriminate].
  - destruct l; [constructor|discriminate].
  - destruct d; [constructor|discriminate].
Qed.
Lemma status_text_model st : status_text st (we_msg (we_from_http_status st)).
Proof.
  unfold status_text, we_from_http_status. cbn [we_msg].
  assert (T : http_phrases = map (fun x => (fst x, lit (snd x))) registered) by reflexivity. split; [|split].
  - intros p H. unfold registered in H. cbn [In] in H. repeat (destruct H as [H|H]; [injection H as <- <-; reflexivity|]). destruct H.
  - intros ->. reflexivity.
  - intros H N. replace (assoc_N http_phrases st) with (@None pystr); [destruct (N.eqb_spec st 499); [contradiction|reflexivity]|].
    rewrite T. unfold assoc_N. destruct (find _ _) as [[n q]|] eqn:E; [|reflexivity]. exfalso. apply find_some in E as [E1 E2].
    cbn [fst] in E2. apply N.eqb_eq in E2. subst n. apply H. apply in_map_iff in E1 as ([n' q']&E1&E3). injection E1 as -> _.
    now apply (in_map fst) in E3.
Qed.

Lemma connect_frames_ok {A B} (c : client A B) cx ck net md reqs stop : cl_proto c = PConnect ->
  sr_end (send_stream c cx ck net md reqs stop) = COk tt ->
  exists rq resp z, sr_sent (send_stream c cx ck net md reqs stop) = [rq] /\ nw_stream net rq = SResp resp
    /\ acceptable c resp z
    /\ forall fs tl pre f post, frames_of (List.concat (sp_chunks resp)) fs tl -> fs = pre ++ f :: post ->
       (forall g, In g pre -> end_flag RConnect g = false) -> end_flag RConnect f = true ->
       exists d obj, content_of z f d /\ json_loads_bytes d = Some (JObj obj)
         /\ match dget obj (lit "error") with Some v => no_value v | None => True end.
Proof.
  intros Hp H. destruct (send_stream_ok _ _ _ _ _ _ _ H) as (rq&resp&z&r&Hs&Hn&Ht&Hv&Hz&Hf&Hno&Hc&_).
  exists rq, resp, z. split; auto. split; auto. split; [repeat split; auto|].
  intros fs tl pre f post Hfo Hsplit Hpre Hend.
  set (cf := mk_rconf (reader_kind (cl_proto c)) z (cl_max c) (k_dec_res (cl_codec c))) in *.
  destruct (feed_all_why cf (sp_chunks resp) (reader_new (handle_response_headers md (sp_headers resp))) fs tl
              (reader_new_inv _) (reader_new_incomplete _) Hfo) as (used&lft&ms&e&r'&b'&n'&E&Hsk&Hfa&Hw).
  rewrite Hf in Hfa. injection Hfa as <- <- ->.
  assert (Kc : rc_kind cf = RConnect) by (cbn; now rewrite Hp).
  rewrite Hsplit in E. destruct (app_prefix_cmp _ _ _ _ _ E) as [(u2&->)|(p2&Hp2&Hl)].
  - rewrite run_skip_app in Hsk. destruct (run_skip cf pre (reader_new _)) as [[ms1 e1] r1].
    destruct e1; [discriminate|]. cbn [run_skip] in Hsk.
    destruct (read_frame cf (f_flag f) (f_payload f) r1) as [o r2] eqn:R.
    assert (Ho : match o with FErr _ => False | _ => True end) by (destruct o; auto; discriminate).
    clear Hsk. unfold read_frame in R.
    destruct (if N.testbit (f_flag f) 0 then _ else _) as [d|x] eqn:D; [|injection R as <- _; destruct Ho].
    apply data_content in D.
    destruct (match rc_max cf with Some _ => _ | None => _ end); [injection R as <- _; destruct Ho|].
    rewrite Kc in R. cbn [handle_end] in R.
    assert (T : N.testbit (f_flag f) 1 = true) by (rewrite N.testbit_odd, N.shiftr_div_pow2; exact Hend).
    rewrite T in R. unfold connect_handle_end in R.
    destruct (json_loads_bytes d) as [v|] eqn:J; [|injection R as <- _; destruct Ho].
    destruct v as [| | | | | |obj]; try (injection R as <- _; destruct Ho).
    exists d, obj. split; auto. split; auto.
    destruct (match dget obj (lit "metadata") with Some _ => _ | None => _ end) as [md1 [x|]]; [injection R as <- _; destruct Ho|].
    destruct (dget obj (lit "error")) as [v|]; auto. destruct (json_truthy v) eqn:Ev; [|now apply falsy_no_value].
    destruct v; try (injection R as <- _; destruct Ho). destruct (we_from_dict _ _ _); injection R as <- _; destruct Ho.
  - exfalso. destruct Hw as [->|[Hw|(g&Hg1&Hg2)]].
    + destruct p2; discriminate.
    + congruence.
    + rewrite Kc in Hg2. rewrite Hpre in Hg2; [discriminate|]. rewrite Hp2, in_app_iff. auto.
Qed.

(** C08, the part that holds: when a Connect stream ends without raising, the first end-of-stream message of the response,
    if there is one, is a JSON object without an error.  Missing: that there is one (see [C08_refuted]). *)
Theorem C08_no_error_partial : forall (A B : Type) (c : client A B) ck net timeout stop s,
  streamed c ck net timeout stop s -> cl_proto c = PConnect -> sr_end s = COk tt ->
  exists rq resp z, sr_sent s = [rq] /\ nw_stream net rq = SResp resp /\ acceptable c resp z
    /\ forall fs tl pre f post, frames_of (List.concat (sp_chunks resp)) fs tl -> fs = pre ++ f :: post ->
       (forall g, In g pre -> end_flag RConnect g = false) -> end_flag RConnect f = true ->
       exists d obj, content_of z f d /\ json_loads_bytes d = Some (JObj obj)
         /\ match dget obj (lit "error") with Some v => no_value v | None => True end.
Proof.
  intros A B c ck net timeout stop s Hs Hp He. destruct (streamed_inv _ _ _ _ _ _ Hs) as (cx&md&reqs&->&_).
  now apply connect_frames_ok.
Qed.
Print Assumptions C08_no_error_partial.

(** Finding: a Connect response whose body has no end-of-stream message is taken for a complete one. *)
Theorem C08_refuted : exists (c : client pystr pystr) ck net s resp,
  streamed c ck net None None s /\ cl_proto c = PConnect /\ (forall rq, nw_stream net rq = SResp resp)
  /\ frames_of (List.concat (sp_chunks resp)) [mk_frame 0 [7; 8]] []
  /\ end_flag RConnect (mk_frame 0 [7; 8]) = false
  /\ sr_msgs s = [[7; 8]] /\ sr_end s = COk tt.
Proof.
  exists (ex_client PConnect None), ex_clocks, (ex_answer (ex_stream PConnect [ex_frame 0 [7; 8]] None [])).
  exists (ex_call PConnect (ex_stream PConnect [ex_frame 0 [7; 8]] None [])), (ex_stream PConnect [ex_frame 0 [7; 8]] None []).
  split; [apply st_bidi|]. split; [reflexivity|]. split; [reflexivity|]. split.
  - apply (fo_cons (mk_frame 0 [7; 8]) [0; 0; 0; 0; 2; 7; 8] []); [exists 0, 0, 0, 2; auto|apply frames_of_nil].
  - vm_compute. auto.
Qed.
Print Assumptions C08_refuted.

Example C08_example :
  let s := ex_call PConnect (ex_stream PConnect [ex_frame 0 [7; 8]; ex_frame 2 (lit "{}")] None []) in
  let bad := ex_call PConnect (ex_stream PConnect [ex_frame 0 [7; 8]; ex_frame 2 (lit "{""error"":{""code"":""aborted""}}")] None []) in
  sr_msgs s = [[7; 8]] /\ sr_end s = COk tt /\ sr_msgs bad = [[7; 8]] /\ sr_end bad = CErr (EConnect Aborted [] []).
Proof. vm_compute. auto. Qed.

(** ** C07: truncated streams *)

(** Finding: a Connect response cut in the middle of a frame is taken for a complete one. *)
Theorem C07_connect_client_refuted : exists (c : client pystr pystr) ck net s resp cut,
  streamed c ck net None None s /\ cl_proto c = PConnect /\ (forall rq, nw_stream net rq = SResp resp)
  /\ List.concat (sp_chunks resp) = ex_frame 0 [7; 8] ++ cut /\ cut <> [] /\ incomplete cut
  /\ sr_msgs s = [[7; 8]] /\ sr_end s = COk tt.
Proof.
  set (cut := [0; 0; 0; 0; 9; 1; 2; 3]). set (resp := ex_stream PConnect [ex_frame 0 [7; 8] ++ cut] None []).
  exists (ex_client PConnect None), ex_clocks, (ex_answer resp), (ex_call PConnect resp), resp, cut.
  split; [apply st_bidi|]. split; [reflexivity|]. split; [reflexivity|]. split; [reflexivity|]. split; [discriminate|]. split.
  - right. exists 0, 0, 0, 0, 9, [1; 2; 3]. split; [reflexivity|]. reflexivity.
  - vm_compute. auto.
Qed.
Print Assumptions C07_connect_client_refuted.

(** Finding: so is a gRPC response body cut in the middle of a frame, if trailers with status 0 follow. *)
Theorem C07_grpc_client_refuted : exists (c : client pystr pystr) ck net s resp cut,
  streamed c ck net None None s /\ cl_proto c = PGrpc /\ (forall rq, nw_stream net rq = SResp resp)
  /\ List.concat (sp_chunks resp) = ex_frame 0 [7; 8] ++ cut /\ cut <> [] /\ incomplete cut
  /\ sr_msgs s = [[7; 8]] /\ sr_end s = COk tt.
Proof.
  set (cut := [0; 0; 0; 0; 9; 1; 2; 3]). set (resp := ex_stream PGrpc [ex_frame 0 [7; 8] ++ cut] None [(lit "grpc-status", lit "0")]).
  exists (ex_client PGrpc None), ex_clocks, (ex_answer resp), (ex_call PGrpc resp), resp, cut.
  split; [apply st_bidi|]. split; [reflexivity|]. split; [reflexivity|]. split; [reflexivity|]. split; [discriminate|]. split.
  - right. exists 0, 0, 0, 0, 9, [1; 2; 3]. split; [reflexivity|]. reflexivity.
  - vm_compute. auto.
Qed.
Print Assumptions C07_grpc_client_refuted.

Lemma frames_of_prefix b fs tl : frames_of b fs tl -> forall n fs' tl', frames_of (firstn n b) fs' tl' ->
  exists rest, fs = fs' ++ rest.
Proof.
  intros H n fs' tl' H'. destruct (frames_of_exists (tl' ++ skipn n b)) as (fs2&tl2&H2).
  pose proof (frames_of_app _ _ _ H' _ _ _ H2) as H3. rewrite firstn_skipn in H3.
  destruct (frames_of_det _ _ _ H _ _ H3) as [-> _]. eauto.
Qed.

(** C07, the part that holds.  gRPC-Web: if the body, uncut, consists of message frames and one final trailers frame, then
    cut anywhere before its end it is never taken for a complete one, whatever arrives in HTTP trailers.  gRPC: if the cut
    loses the HTTP trailers, it is not either.  Missing: Connect clients, gRPC with trailers, and request streams. *)
Theorem C07_grpc_web_client_partial : forall (A B : Type) (c : client A B) ck net timeout stop s resp body fs f n,
  streamed c ck net timeout stop s -> cl_proto c = PGrpcWeb -> (forall rq, nw_stream net rq = SResp resp) ->
  values_in (sp_headers resp) (lit "grpc-status") = [] ->
  frames_of body (fs ++ [f]) [] -> (forall g, In g fs -> end_flag RGrpcWeb g = false) ->
  (n < List.length body)%nat -> List.concat (sp_chunks resp) = firstn n body ->
  sr_end s <> COk tt.
Proof.
  intros A B c ck net timeout stop s resp body fs f n Hs Hp Hn Hh Hfo Hfs Hlt Hcut He.
  destruct (C09_stream _ _ _ _ _ _ _ _ Hs) as (rq&resp'&z&_&Hn'&_&Hr); auto; [congruence|].
  rewrite Hn in Hn'. injection Hn' as <-. rewrite Hp in Hr. destruct Hr as [(fs'&tl&g&d&Hfo'&Hin&Hg&_)|[Hr _]].
  - rewrite Hcut in Hfo'. destruct (frames_of_prefix _ _ _ Hfo _ _ _ Hfo') as [rest E].
    destruct rest as [|x rest].
    + rewrite app_nil_r in E. subst fs'.
      assert (L : forall b fs tl, frames_of b fs tl -> forall b' tl', frames_of b' fs tl' -> List.length b' = (List.length b - List.length tl + List.length tl')%nat /\ (List.length tl <= List.length b)%nat).
      { clear. induction 1 as [tl Hi|f b rest fs tl Hf H IH]; intros b' tl' H'; inversion H'; subst; [lia|].
        destruct (IH _ _ H5) as [H6 H7]. destruct Hf as (h3&h2&h1&h0&->&HA). destruct H3 as (k3&k2&k1&k0&->&HB).
        rewrite !app_length. cbn [List.length]. lia. }
      destruct (L _ _ _ Hfo _ _ Hfo') as [L1 _]. rewrite firstn_length in L1. cbn [List.length] in L1. lia.
    + assert (X : exists y rest', x :: rest = rest' ++ [y]) by (destruct (exists_last (l := x :: rest)) as [a [y ->]]; [discriminate|eauto]).
      destruct X as (y&rest'&X). rewrite X, app_assoc in E. apply app_inj_tail in E. destruct E as [-> ->].
      rewrite Hfs in Hg; [discriminate|]. rewrite in_app_iff. auto.
  - rewrite Hh in Hr. discriminate.
Qed.
Print Assumptions C07_grpc_web_client_partial.

Theorem C07_grpc_client_partial : forall (A B : Type) (c : client A B) ck net timeout stop s resp,
  streamed c ck net timeout stop s -> cl_proto c = PGrpc -> (forall rq, nw_stream net rq = SResp resp) ->
  values_in (sp_headers resp) (lit "grpc-status") = [] -> values_in (sp_trailers resp) (lit "grpc-status") = [] ->
  sr_end s <> COk tt.
Proof.
  intros A B c ck net timeout stop s resp Hs Hp Hn Hh Ht He.
  destruct (C09_stream _ _ _ _ _ _ _ _ Hs) as (rq&resp'&z&_&Hn'&_&Hr); auto; [congruence|].
  rewrite Hn in Hn'. injection Hn' as <-. rewrite Hp in Hr. destruct Hr as [Hr|[Hr _]]; [rewrite Ht in Hr|rewrite Hh in Hr]; discriminate.
Qed.
Print Assumptions C07_grpc_client_partial.

Example C07_example :
  let body := ex_frame 0 [7; 8] ++ ex_web_trailers in
  (frames_of body [mk_frame 0 [7; 8]; mk_frame 128 (lit "grpc-status: 0" ++ [13; 10] ++ lit "x: y" ++ [13; 10])] [])
  /\ forallb (fun n => match sr_end (ex_call PGrpcWeb (ex_stream PGrpcWeb [firstn n body] None [])) with COk _ => false | _ => true end)
       (seq 0 (List.length body)) = true.
Proof.
  split; [|vm_compute; reflexivity].
  apply (fo_cons (mk_frame 0 [7; 8]) [0; 0; 0; 0; 2; 7; 8]); [exists 0, 0, 0, 2; auto|].
  rewrite <- (app_nil_r ex_web_trailers).
  apply (fo_cons (mk_frame 128 (lit "grpc-status: 0" ++ [13; 10] ++ lit "x: y" ++ [13; 10])) ex_web_trailers []); [|apply frames_of_nil].
  exists 0, 0, 0, 22. split; reflexivity.
Qed.

(** ** C15: HTTP failures *)

Definition content_type_of (hs : http_headers) : pystr :=
  match values_in hs (lit "content-type") with v :: _ => v | [] => [] end.

Lemma content_type_get hs : match hh_get hs (lit "content-type") with Some v => v | None => [] end = content_type_of hs.
Proof. rewrite hh_get_values. unfold content_type_of. destruct (values_in hs (lit "content-type")); reflexivity. Qed.

Lemma json_named ct : names_type ct (lit "application/json") <-> normalize_content_type ct = lit "application/json".
Proof. apply names_normal, plain_lit. reflexivity. Qed.

(** A response with a status other than 200 never yields a message: the call fails with a ConnectError.  Unless the body is
    JSON, its code is the one the Connect protocol assigns to the status, and its text that of the status. *)
Theorem C15_unary : forall (A B : Type) (c : client A B) ck net md m u timeout get a stop r,
  let o := execute_unary c ck net md m u timeout get a stop in
  cl_proto c = PConnect -> (forall rq, nw_unary net rq = UResp r) -> fr_status r <> 200 ->
  exists k msg ds, cr_out o = CErr (EConnect k msg ds)
    /\ (cr_sent o <> [] -> ~ names_type (content_type_of (fr_headers r)) (lit "application/json") ->
        k = connect_spec_code_of_status (fr_status r) /\ status_text (fr_status r) msg /\ ds = []).
Proof.
  intros A B c ck net md m u timeout get a stop r o Hp Hn Hst. unfold o, execute_unary, send_unary. rewrite Hp.
  unfold send_unary_connect. destruct (unary_request _ _ _ _) as [rq|e].
  2: { destruct e as [k msg ds| |k msg]; [|eexists _, _, _; split; [reflexivity|cbn; congruence]|].
       - exists k, msg, ds. split; [reflexivity|cbn; congruence].
       - destruct k; eexists _, _, _; (split; [reflexivity|cbn; congruence]). }
  rewrite Hn. unfold unary_response. rewrite content_type_get, Hp. unfold validate_response.
  replace (fr_status r =? 200) with false by lia. cbn [negb].
  destruct (str_eqb_spec (normalize_content_type (content_type_of (fr_headers r))) (lit "application/json")) as [J|J].
  - apply json_named in J. destruct (handle_response_compression _ _ _ _) as [z|e] eqn:Z.
    + destruct (we_from_response _ _) as [w|e]; cbn [bind].
      * exists (we_code w), (we_msg w), (we_details w). split; [reflexivity|congruence].
      * destruct e as [k msg ds| |k msg]; [|eexists _, _, _; split; [reflexivity|congruence]|].
        -- exists k, msg, ds. split; [reflexivity|congruence].
        -- destruct k; eexists _, _, _; (split; [reflexivity|congruence]).
    + unfold handle_response_compression in Z. destruct (hh_get _ _) as [[|ch e']|]; try discriminate.
      destruct (dget _ _); [discriminate|]. injection Z as <-. eexists _, _, _; (split; [reflexivity|congruence]).
  - eexists _, _, _. split; [reflexivity|]. intros _ _. split; [apply C16_code_of_status|]. split; [apply status_text_model|reflexivity].
Qed.
Print Assumptions C15_unary.

(** With a JSON body: the code it names, or UNAVAILABLE if that is no code; the code of the status if it names none, or if
    the body is not a JSON object. *)
Theorem C15_unary_json : forall (A B : Type) (c : client A B) ck net md m u timeout get a stop r,
  let o := execute_unary c ck net md m u timeout get a stop in
  cl_proto c = PConnect -> (forall rq, nw_unary net rq = UResp r) -> fr_status r <> 200 -> cr_sent o <> [] ->
  names_type (content_type_of (fr_headers r)) (lit "application/json") ->
  values_in (fr_headers r) (lit "content-encoding") = [] ->
  let by_status := fun msg => cr_out o = CErr (EConnect (connect_spec_code_of_status (fr_status r)) msg []) in
  ((forall obj, json_loads_bytes (fr_content r) <> Some (JObj obj)) -> exists msg, by_status msg /\ status_text (fr_status r) msg)
  /\ (forall obj, json_loads_bytes (fr_content r) = Some (JObj obj) -> dget obj (lit "details") = None ->
      match dget obj (lit "code") with
      | None => exists msg, by_status msg /\ (forall t, dget obj (lit "message") = Some (JStr t) -> msg = t)
      | Some (JStr s) =>
          match code_of_value s with
          | Some k => exists msg, cr_out o = CErr (EConnect k msg [])
                      /\ (forall t, dget obj (lit "message") = Some (JStr t) -> msg = t)
          | None => s <> [] -> exists msg, cr_out o = CErr (EConnect Unavailable msg [])
          end
      | Some _ => True
      end).
Proof.
  intros A B c ck net md m u timeout get a stop r o Hp Hn Hst Hsent Hj Hz by_status. apply json_named in Hj.
  assert (E : match we_from_response (fr_status r) (fr_content r) with
              | Ok w => cr_out o = CErr (we_to_exception w) | Raise _ => True end).
  { unfold o, execute_unary, send_unary in *. rewrite Hp in *. unfold send_unary_connect in *.
    destruct (unary_request _ _ _ _) as [rq|e]; [|cbn in Hsent; congruence].
    rewrite Hn. unfold unary_response. rewrite content_type_get, Hp. unfold validate_response.
    replace (fr_status r =? 200) with false by lia. cbn [negb]. rewrite Hj. rewrite str_eqb_refl.
    unfold handle_response_compression. rewrite hh_get_values. unfold client_compression_header. rewrite Hz. cbn [hd_error].
    destruct (we_from_response (fr_status r) (fr_content r)); [|exact I]. reflexivity. }
  unfold we_from_response in E. split.
  - intro J. assert (E' : cr_out o = CErr (we_to_exception (we_from_http_status (fr_status r)))).
    { destruct (json_loads_bytes (fr_content r)) as [[| | | | | |obj]|]; auto. destruct (J obj). reflexivity. }
    exists (we_msg (we_from_http_status (fr_status r))). split; [|apply status_text_model].
    unfold by_status. rewrite E'. unfold we_to_exception, we_from_http_status. cbn [we_code we_msg we_details].
    now rewrite C16_code_of_status.
  - intros obj J D. rewrite J in E. unfold we_from_dict in E. rewrite D in E. cbn [details_of_json bind] in E.
    unfold by_status. destruct (dget obj (lit "code")) as [v|]; [|rewrite E; unfold we_to_exception; cbn [we_code we_msg we_details]; rewrite C16_code_of_status;
      eexists; split; [reflexivity|]; intros t ->; reflexivity].
    destruct v; auto. destruct (code_of_value s) as [k|] eqn:K.
    + assert (T : json_truthy (JStr s) = true). { destruct s; [discriminate K|reflexivity]. }
      rewrite T in E. rewrite E. unfold we_to_exception. cbn [we_code we_msg we_details]. eexists. split; [reflexivity|].
      intros t Ht. rewrite Ht. reflexivity.
    + intro Hs. assert (T : json_truthy (JStr s) = true) by (destruct s; [congruence|reflexivity]).
      rewrite T in E. rewrite E. unfold we_to_exception. cbn [we_code we_msg we_details]. eauto.
Qed.
Print Assumptions C15_unary_json.

(** Streaming calls: a failure status never gives messages or success. *)
Theorem C15_stream : forall (A B : Type) (c : client A B) ck net timeout stop s resp,
  streamed c ck net timeout stop s -> (forall rq, nw_stream net rq = SResp resp) -> sp_status resp <> 200 ->
  sr_msgs s = [] /\ sr_end s <> COk tt.
Proof.
  intros A B c ck net timeout stop s resp Hs Hn Hst. destruct (streamed_inv _ _ _ _ _ _ Hs) as (cx&md&reqs&->&_). split.
  - unfold send_stream. rewrite Hn. replace (sp_status resp =? 200) with false by lia.
    destruct (sp_fault resp); [|destruct (we_from_response _ _)]; unfold leave; destruct (sp_exit resp false); destruct (stream_except _ _ _ _ _ _); reflexivity.
  - intro H. destruct (send_stream_ok _ _ _ _ _ _ _ H) as (rq&resp'&z&r&_&Hn'&Ht&_). rewrite Hn in Hn'. injection Hn' as <-. contradiction.
Qed.
Print Assumptions C15_stream.

Example C15_example :
  let call r := cr_out (execute_unary (ex_client PConnect None) ex_clocks
     (mk_net (fun _ => UResp r) (fun _ => SFault FClose)) None ex_method UNone None false [1] None) in
  call (mk_fr 503 [(lit "content-type", lit "text/html")] (lit "<html>")) = CErr (EConnect Unavailable (lit "Service Unavailable") [])
  /\ call (mk_fr 418 [(lit "content-type", lit "application/json")] (lit "{""code"":""not_found"",""message"":""m""}"))
     = CErr (EConnect NotFound (lit "m") []).
Proof. vm_compute. auto. Qed.

(** ** C31: the timeout of the transport *)

(** The request of every kind of call is given to the HTTP library with what is left of the timeout of the call, or of the client's
    default if the call has none; without either it has no timeout. *)
Theorem C31_transport : forall (A B : Type) (c : client A B) ck net md m u given stop rq,
  (exists get a, In rq (cr_sent (execute_unary c ck net md m u given get a stop)))
  \/ (exists reqs, In rq (cr_sent (execute_client_stream c ck net md m u given reqs stop)))
  \/ (exists a, In rq (sr_sent (execute_server_stream c ck net md m u given a stop)))
  \/ (exists reqs, In rq (sr_sent (execute_bidi_stream c ck net md m u given reqs stop))) ->
  (forall t, given = Some t \/ given = None /\ cl_timeout c = Some t -> (0 < t <= 2 ^ 53)%Z ->
     exists x, rq_timeout rq = Some x /\ left_s (ck_start ck) t (ck_send ck) x)
  /\ (given = None -> cl_timeout c = None -> rq_timeout rq = None).
Proof.
  intros A B c ck net md m u given stop rq H.
  assert (E : exists stream get, rq_timeout rq = timeout_s (call_ctx c (ck_start ck) m u given stream get) (ck_send ck)).
  { destruct H as [(get&a&H)|[(reqs&H)|[(a&H)|(reqs&H)]]].
    - unfold execute_unary, send_unary in H. destruct (cl_proto c).
      + apply send_unary_connect_sent in H. exists false, get. unfold unary_request in H.
        destruct (k_enc_req _ _); [|discriminate]. cbn [bind] in H. destruct (z_compress _ _); [|discriminate]. cbn [bind] in H.
        destruct (str_eqb _ _); [|injection H as <-; reflexivity].
        destruct (prepare_get_params _ _ _). destruct (urlencode _); [|discriminate]. injection H as <-. reflexivity.
      + exists false, get. now apply send_stream_sent in H.
      + exists false, get. now apply send_stream_sent in H.
    - unfold execute_client_stream in H. exists true, false. apply send_stream_sent in H. tauto.
    - unfold execute_server_stream in H. exists true, false. apply send_stream_sent in H. tauto.
    - unfold execute_bidi_stream in H. exists true, false. apply send_stream_sent in H. tauto. }
  destruct E as (stream&get&->). unfold timeout_s, cx_remaining, call_ctx, client_create_context, make_ctx. cbn [cx_end]. split.
  - intros t Ht R. assert (effective_timeout given (cl_timeout c) = Some t) as ->.
    { destruct Ht as [->|[-> ->]]; unfold effective_timeout; [|reflexivity]. replace (t =? 0)%Z with false by lia. reflexivity. }
    eexists. split; [reflexivity|]. now apply C32_near_partial.
  - intros -> ->. reflexivity.
Qed.
Print Assumptions C31_transport.
Example C31_transport_example :
  exists rq, In rq (sr_sent (execute_bidi_stream (ex_client PConnect (Some 5000%Z)) ex_clocks ex_net None ex_method UNone None ([], None) None))
    /\ exists x, rq_timeout rq = Some x /\ left_s 0 5000 0 x.
Proof.
  eexists. split; [now left|]. apply (C31_transport pystr pystr (ex_client PConnect (Some 5000%Z)) ex_clocks ex_net None ex_method UNone None None).
  - right. right. right. exists ([], None). now left.
  - now right.
  - vm_compute. split; [reflexivity|discriminate].
Qed.

(** ** C18: only ConnectErrors *)

(** A Connect unary call fails only with ConnectErrors.  (In the async client, closing the coroutine and, in the sync
    client, exceptions that are not [Exception]s pass through unchanged.) *)
Theorem C18_unary : forall (A B : Type) (c : client A B) ck net md m u timeout get a stop,
  cl_proto c = PConnect ->
  match cr_out (execute_unary c ck net md m u timeout get a stop) with
  | COk _ => True
  | CErr e => exists k msg ds, e = EConnect k msg ds
  | CRaw f => f = FClose \/ (f = FCancel /\ cl_sync c = true)
  end.
Proof.
  intros A B c ck net md m u timeout get a stop Hp.
  assert (X : forall f, match @unary_except B (cl_sync c) f with
     | COk _ => True | CErr e => exists k msg ds, e = EConnect k msg ds | CRaw f => f = FClose \/ (f = FCancel /\ cl_sync c = true) end).
  { intro f. destruct f as [e| |]; [|cbn; destruct (cl_sync c); cbn; [auto|unfold was_cancelled; eauto]|cbn; auto].
    destruct e as [k msg ds| |k msg]; [|cbn; eauto|]; [cbn; eauto|]. destruct k; cbn; unfold timed_out; eauto. }
  unfold execute_unary, send_unary. rewrite Hp. unfold send_unary_connect.
  destruct (unary_request _ _ _ _) as [rq|e]; [|apply X].
  destruct (nw_unary net rq) as [r|f]; [|apply X].
  destruct (unary_response c r md) as [v md']. cbn [cr_out]. destruct v as [b|e]; [exact I|apply X].
Qed.
Print Assumptions C18_unary.

(** Timeouts give DEADLINE_EXCEEDED, cancellation CANCELED, any other failure of the transport UNAVAILABLE. *)
Theorem C18_unary_codes : forall (A B : Type) (c : client A B) ck net md m u timeout get a stop f k,
  let o := execute_unary c ck net md m u timeout get a stop in
  cl_proto c = PConnect -> cr_sent o <> [] -> (forall rq, nw_unary net rq = UFault f) -> fault_code (cl_sync c) f = Some k ->
  exists msg, cr_out o = CErr (EConnect k msg []).
Proof.
  intros A B c ck net md m u timeout get a stop f k o Hp Hs Hn Hf. unfold o, execute_unary, send_unary in *.
  rewrite Hp in *. unfold send_unary_connect in *. destruct (unary_request _ _ _ _) as [rq|e]; [|cbn in Hs; congruence].
  rewrite Hn. cbn [cr_out]. unfold unary_except. unfold fault_code in Hf.
  destruct f as [e| |]; [|destruct (cl_sync c); [discriminate|]; injection Hf as <-; unfold was_cancelled; eauto|discriminate].
  destruct e as [k' msg ds| |k' msg]; [discriminate|injection Hf as <-; eauto|].
  destruct k'; try discriminate; injection Hf as <-; unfold timed_out; eauto.
Qed.
Print Assumptions C18_unary_codes.

Lemma grpc_complete_reset sc (web : bool) r rh rt k m ds o md :
  grpc_complete sc web r rh rt (Some (EConnect k m ds)) = (o, md) ->
  o = None \/ (exists m' ds', o = Some (EConnect k m' ds'))
  \/ exists d, d <> [] /\ undecodable sc d
     /\ (In d (values_in (if web then r_trl r else rt) (lit "grpc-status-details-bin"))
         \/ In d (values_in rh (lit "grpc-status-details-bin"))).
Proof.
  unfold grpc_complete. set (ts := if web then r_trl r else rt).
  assert (X : forall ts' md', (forall d, In d (values_in ts' (lit "grpc-status-details-bin")) ->
        In d (values_in ts (lit "grpc-status-details-bin")) \/ In d (values_in rh (lit "grpc-status-details-bin"))) ->
     match hh_get ts' (lit "grpc-status") with
      | None => (Some (EConnect k m ds), md')
      | Some status =>
          if str_eqb status (lit "0") then (None, md')
          else
            let code := Some k in
            let message := match hh_get ts' (lit "grpc-message") with Some m => m | None => [] end in
            let details := match hh_get ts' (lit "grpc-status-details-bin") with
                           | Some d => if nonempty d then Some d else None
                           | None => None
                           end in
            match details with
            | Some d =>
                match b64decode (d ++ lit "===") with
                | None => (Some (EOther KValue (lit "base64")), md')
                | Some bin =>
                    match st_from sc bin with
                    | Raise x => (Some x, md')
                    | Ok st =>
                        let c := match code with
                                 | Some c => c
                                 | None => grpc_status_to_connect (dec_of_Z (s_code st))
                                 end in
                        (Some (EConnect c (s_message st) (map (fun a => mk_detail a None) (s_details st))), md')
                    end
                end
            | None =>
                let c := match code with Some c => c | None => grpc_status_to_connect status end in
                (Some (EConnect c (unquote message) []), md')
            end
      end = (o, md) -> o = None \/ (exists m' ds', o = Some (EConnect k m' ds'))
  \/ exists d, d <> [] /\ undecodable sc d
     /\ (In d (values_in ts (lit "grpc-status-details-bin"))
         \/ In d (values_in rh (lit "grpc-status-details-bin")))).
  { intros ts' md' Hts H. destruct (hh_get ts' (lit "grpc-status")) as [st|]; [|injection H as <- _; eauto].
    destruct (str_eqb st (lit "0")); [injection H as <- _; auto|]. cbv zeta in H.
    rewrite (hh_get_values ts' (lit "grpc-status-details-bin")) in H.
    destruct (hd_error (values_in ts' (lit "grpc-status-details-bin"))) as [d|] eqn:D; [|injection H as <- _; eauto].
    destruct (nonempty d) eqn:N; [|injection H as <- _; eauto].
    assert (Hd : In d (values_in ts' (lit "grpc-status-details-bin"))).
    { destruct (values_in ts' (lit "grpc-status-details-bin")); [discriminate|]. injection D as ->. now left. }
    assert (Hne : d <> []) by (destruct d; discriminate).
    destruct (b64decode (d ++ lit "===")) as [bin|] eqn:E.
    - destruct (st_from sc bin) eqn:F; [injection H as <- _; eauto|].
      right. right. exists d. split; auto. split; [right; exists bin, e; auto|auto].
    - right. right. exists d. split; auto. split; [now left|auto]. }
  destruct (hh_get ts (lit "grpc-status")) as [s|] eqn:E.
  - pose proof (X ts (handle_trailers_http (r_md r) ts)) as Y. rewrite E in *. apply Y. auto.
  - destruct (r_read r); [intro H; injection H as <- _; eauto|]. apply X. auto.
Qed.

Lemma stream_except_err {A B} (c : client A B) ex rd serr md f : 
  match serr with Some (EConnect _ _ _) | None => True | _ => False end ->
  match fst (stream_except c ex rd serr md f) with
  | COk _ => False
  | CErr e => (exists k m ds, e = EConnect k m ds)
     \/ (cl_proto c <> PConnect /\ exists r resp rc m d, rd = Some (r, resp) /\ f = FExn (EOther (KReset rc) m)
         /\ d <> [] /\ undecodable (cl_sc c) d)
  | CRaw f => f = FClose \/ (f = FCancel /\ cl_sync c = true)
  end.
Proof.
  intro Hserr. unfold stream_except. destruct f as [e| |]; [|cbn; destruct (cl_sync c); cbn; [auto|unfold was_cancelled; eauto]|cbn; auto].
  assert (X : forall e, (forall k m, e = EOther k m -> k <> KTimeout) -> match fst (match serr with
      | Some s => (CErr s, md)
      | None =>
          match map_stream_reset e ex with
          | Some rst =>
              match rd with
              | Some (r, resp) =>
                  let (o, md) := response_complete (cl_sc c) (reader_kind (cl_proto c)) r
                                   (sp_headers resp) (sp_trailers resp) (Some rst) in
                  (@CErr unit (match o with Some x => x | None => rst end), md)
              | None => (CErr rst, md)
              end
          | None => (CErr (EConnect Unavailable (str_of_exn e) []), md)
          end end) with COk _ => False | CErr e' => (exists k m ds, e' = EConnect k m ds)
     \/ (cl_proto c <> PConnect /\ exists r resp rc m d, rd = Some (r, resp) /\ FExn e = FExn (EOther (KReset rc) m)
         /\ d <> [] /\ undecodable (cl_sc c) d)
     | CRaw f => f = FClose \/ (f = FCancel /\ cl_sync c = true) end).
  { intros e' He'. destruct serr as [s|]; [destruct s; cbn; [eauto|tauto|tauto]|].
    destruct (map_stream_reset e' ex) as [rst|] eqn:R; [|cbn; eauto].
    assert (Hr : (exists k m ds, rst = EConnect k m ds) /\ exists rc m, e' = EOther (KReset rc) m).
    { destruct e' as [| |k m]; try discriminate. destruct k; try discriminate. cbn in R. destruct c0; try discriminate; injection R as <-; eauto 10. }
    destruct Hr as ((k&m&ds&->)&rc&msg&->). destruct rd as [[r resp]|]; [|cbn; eauto].
    destruct (response_complete _ _ _ _ _ _) as [o md'] eqn:G. cbn [fst].
    unfold response_complete in G. destruct (cl_proto c) eqn:P; cbn [reader_kind] in G.
    - injection G as <- _. left. eauto.
    - destruct (grpc_complete_reset _ _ _ _ _ _ _ _ _ _ G) as [->|[(m'&ds'&->)|(d&H1&H2&_)]]; [left; eauto|left; eauto|].
      right. split; [congruence|]. exists r, resp, rc, msg, d. auto.
    - destruct (grpc_complete_reset _ _ _ _ _ _ _ _ _ _ G) as [->|[(m'&ds'&->)|(d&H1&H2&_)]]; [left; eauto|left; eauto|].
      right. split; [congruence|]. exists r, resp, rc, msg, d. auto. }
  destruct e as [k m ds| |k m]; [cbn; eauto|apply X; discriminate|].
  destruct k; try (apply X; congruence). cbn. unfold timed_out. eauto.
Qed.

(** A streaming call fails only with ConnectErrors, unless an HTTP/2 reset arrives in a gRPC or gRPC-Web response together
    with a malformed grpc-status-details-bin (see [C18_stream_refuted]). *)
Theorem C18_stream_partial : forall (A B : Type) (c : client A B) ck net timeout stop s,
  streamed c ck net timeout stop s ->
  match sr_end s with
  | COk _ => True
  | CErr e => (exists k msg ds, e = EConnect k msg ds)
      \/ (cl_proto c <> PConnect /\ exists d, d <> [] /\ undecodable (cl_sc c) d)
  | CRaw f => f = FClose \/ (f = FCancel /\ cl_sync c = true)
  end.
Proof.
  intros A B c ck net timeout stop s Hs. destruct (streamed_inv _ _ _ _ _ _ Hs) as (cx&md&reqs&->&_).
  unfold send_stream. set (q := mk_rq _ _ _ _ _). cbv zeta.
  assert (F : forall ms rd serr md f, match serr with Some (EConnect _ _ _) | None => True | _ => False end ->
     match sr_end (let (e, md) := stream_except c (deadline_passed cx (ck_late ck)) rd serr md f in @mk_sr B [q] ms e md) with
     | COk _ => True
     | CErr e => (exists k msg ds, e = EConnect k msg ds) \/ (cl_proto c <> PConnect /\ exists d, d <> [] /\ undecodable (cl_sc c) d)
     | CRaw f => f = FClose \/ (f = FCancel /\ cl_sync c = true) end).
  { intros ms rd serr md' f H. pose proof (stream_except_err c (deadline_passed cx (ck_late ck)) rd serr md' f H) as X.
    destruct (stream_except _ _ _ _ _ _) as [e md'']. cbn [fst sr_end] in *. destruct e as [|e|f']; auto.
    destruct X as [X|(H1&_&_&_&_&d&_&_&H2)]; eauto. }
  destruct (nw_stream net q) as [resp|f]; [|now apply F].
  set (finish := fun (ms : list B) rd serr md (f : option fault) => match leave resp f with None => mk_sr [q] ms (COk tt) md
     | Some f => let (e, md) := stream_except c (deadline_passed cx (ck_late ck)) rd serr md f in mk_sr [q] ms e md end).
  assert (Fi : forall ms rd serr md f, match serr with Some (EConnect _ _ _) | None => True | _ => False end ->
     match sr_end (finish ms rd serr md f) with
     | COk _ => True
     | CErr e => (exists k msg ds, e = EConnect k msg ds) \/ (cl_proto c <> PConnect /\ exists d, d <> [] /\ undecodable (cl_sc c) d)
     | CRaw f => f = FClose \/ (f = FCancel /\ cl_sync c = true) end).
  { intros. unfold finish. destruct (leave resp f); [now apply F|exact I]. }
  destruct (sp_status resp =? 200).
  - destruct (validate_stream_response _ _ _); [now apply Fi|].
    destruct (handle_response_compression _ _ _ _) as [z|e]; [|now apply Fi].
    destruct (consume _ _ _ _) as [[ms f] r].
    destruct (match f with Some f => Some f | None => sp_fault resp end) as [g|].
    + apply (Fi ms (Some (r, resp)) _ (r_md r) (Some g)). destruct g as [e| |]; auto. destruct e; auto. destruct (cl_sync c); auto.
    + destruct (cl_sync c && _); [now apply Fi|]. destruct (response_complete _ _ _ _ _ _) as [o md']. now apply Fi.
  - destruct (sp_fault resp); [now apply Fi|]. destruct (we_from_response _ _); now apply Fi.
Qed.
Print Assumptions C18_stream_partial.

(** Finding: the error handler itself decodes grpc-status-details-bin, and lets its exception escape. *)
Theorem C18_stream_refuted : exists (c : client pystr pystr) ck net s resp msg,
  streamed c ck net None None s /\ (forall rq, nw_stream net rq = SResp resp)
  /\ sp_fault resp = Some (FExn (EOther (KReset RRefusedStream) (lit "refused")))
  /\ sr_end s = CErr (EOther KValue msg).
Proof.
  set (resp := ex_stream PGrpc [] (Some (FExn (EOther (KReset RRefusedStream) (lit "refused"))))
                 [(lit "grpc-status", lit "13"); (lit "grpc-status-details-bin", lit "A")]).
  exists (ex_client PGrpc None), ex_clocks, (ex_answer resp), (ex_call PGrpc resp), resp, (lit "base64").
  split; [apply st_bidi|]. split; [reflexivity|]. split; [reflexivity|]. vm_compute. reflexivity.
Qed.
Print Assumptions C18_stream_refuted.

(** The transport failed with [f], before or while sending the response body. *)
Definition stream_fails {A B} (c : client A B) (net : network) (f : fault) (ms : list B) : Prop :=
  (ms = [] /\ forall rq, nw_stream net rq = SFault f)
  \/ exists resp, (forall rq, nw_stream net rq = SResp resp) /\ readable c resp ms /\ sp_fault resp = Some f
     /\ sp_exit resp false = None
     /\ forall d, d <> [] -> In d (values_in (sp_trailers resp) (lit "grpc-status-details-bin"))
                             \/ In d (values_in (sp_headers resp) (lit "grpc-status-details-bin")) -> ~ undecodable (cl_sc c) d.

Lemma stream_fails_end {A B} (c : client A B) cx ck net md reqs f ms : stream_fails c net f ms ->
  match f with FExn (EConnect _ _ _) => False | _ => True end ->
  let s := send_stream c cx ck net md reqs None in
  sr_msgs s = ms
  /\ exists rd md', sr_end s = fst (stream_except c (deadline_passed cx (ck_late ck)) rd None md' f)
     /\ forall r resp, rd = Some (r, resp) -> r_trl r = []
        /\ forall d, d <> [] -> In d (values_in (sp_trailers resp) (lit "grpc-status-details-bin"))
                                \/ In d (values_in (sp_headers resp) (lit "grpc-status-details-bin")) -> ~ undecodable (cl_sc c) d.
Proof.
  intros H Hf s. unfold s, send_stream. destruct H as [[-> Hn]|(resp&Hn&Hr&Hfault&Hx&Hd)]; rewrite Hn; cbv zeta.
  - split; [destruct (stream_except _ _ _ _ _ _); reflexivity|]. exists None, md. split; [destruct (stream_except _ _ _ _ _ _); reflexivity|discriminate].
  - destruct (readable_consume _ _ _ Hr) as (z&(Ha1&Ha2&Ha3)&Hc). rewrite Ha1. change (200 =? 200) with true. cbv iota. rewrite Ha2, Ha3. cbv zeta.
    destruct (Hc (handle_response_headers md (sp_headers resp))) as (r&->&Hrt&_). cbv zeta. rewrite Hfault. cbv iota zeta.
    unfold leave. rewrite Hx.
    assert (E : match f with FExn (EConnect k m ds) => if cl_sync c then Some (EConnect k m ds) else None | _ => None end = None).
    { destruct f as [e| |]; auto. destruct e; tauto. }
    rewrite E. split; [destruct (stream_except _ _ _ _ _ _); reflexivity|]. exists (Some (r, resp)), (r_md r).
    split; [destruct (stream_except _ _ _ _ _ _); reflexivity|]. intros r0 resp0 Q. injection Q as <- <-. auto.
Qed.

(** Streaming calls: the messages received before the failure are delivered, then timeouts give DEADLINE_EXCEEDED,
    cancellation CANCELED, and other failures of the transport UNAVAILABLE. *)
Theorem C18_stream_codes : forall (A B : Type) (c : client A B) ck net timeout s f ms k,
  streamed c ck net timeout None s -> stream_fails c net f ms -> fault_code (cl_sync c) f = Some k ->
  sr_msgs s = ms /\ exists msg, sr_end s = CErr (EConnect k msg []).
Proof.
  intros A B c ck net timeout s f ms k Hs Hf Hk. destruct (streamed_inv _ _ _ _ _ _ Hs) as (cx&md&reqs&->&_).
  destruct (stream_fails_end c cx ck net md reqs f ms Hf) as [Hm (rd&md'&He&_)].
  { destruct f as [e| |]; auto. destruct e; auto. discriminate. }
  split; auto. rewrite He. unfold stream_except. unfold fault_code in Hk.
  destruct f as [e| |]; [|destruct (cl_sync c); [discriminate|]; injection Hk as <-; cbn; unfold was_cancelled; eauto|discriminate].
  destruct e as [k' m ds| |k' m]; [discriminate|injection Hk as <-; cbn; eauto|].
  destruct k'; try discriminate; injection Hk as <-; cbn; unfold timed_out; eauto.
Qed.
Print Assumptions C18_stream_codes.

(** ** C19: HTTP/2 resets *)

(** A reset of the response stream is reported with the code assigned to it, after the messages received before it, even
    when the response also carries a gRPC status; CANCEL is DEADLINE_EXCEEDED exactly when the call had a timeout and the
    clock has reached its end. *)
Theorem C19_reset : forall (A B : Type) (c : client A B) ck net timeout s rc msg ms,
  streamed c ck net timeout None s -> stream_fails c net (FExn (EOther (KReset rc) msg)) ms ->
  let over := deadline_over (ck_start ck) (effective_timeout timeout (cl_timeout c)) (ck_late ck) in
  sr_msgs s = ms /\ exists m ds, sr_end s = CErr (EConnect (reset_spec rc over) m ds).
Proof.
  intros A B c ck net timeout s rc msg ms Hs Hf over. destruct (streamed_inv _ _ _ _ _ _ Hs) as (cx&md&reqs&->&HD).
  destruct (stream_fails_end c cx ck net md reqs _ ms Hf I) as [Hm (rd&md'&He&Hrd)].
  split; auto. rewrite He. rewrite HD. fold over. unfold stream_except.
  destruct (map_stream_reset (EOther (KReset rc) msg) over) as [rst|] eqn:R.
  - assert (E : exists m', rst = EConnect (reset_spec rc over) m' []).
    { cbn in R. destruct rc; try discriminate; injection R as <-; cbn; eauto. }
    destruct E as [m' ->]. destruct rd as [[r resp]|]; [|cbn; eauto].
    destruct (Hrd _ _ eq_refl) as [Hrt Hd].
    destruct (response_complete _ _ _ _ _ _) as [o md''] eqn:G. cbn [fst].
    unfold response_complete in G. destruct (cl_proto c); cbn [reader_kind] in G.
    + injection G as <- _. eauto.
    + destruct (grpc_complete_reset _ _ _ _ _ _ _ _ _ _ G) as [->|[(m2&ds'&->)|(d&H1&H2&H3)]]; eauto. exfalso. eapply Hd; eauto.
    + destruct (grpc_complete_reset _ _ _ _ _ _ _ _ _ _ G) as [->|[(m2&ds'&->)|(d&H1&H2&H3)]]; eauto. exfalso. rewrite Hrt in H3.
      eapply Hd; eauto. destruct H3 as [[]|H3]; auto.
  - assert (reset_spec rc over = Unavailable) as ->. { cbn in R. destruct rc; try discriminate; reflexivity. }
    cbn. eauto.
Qed.
Print Assumptions C19_reset.

(** A reset CANCEL after one message, with gRPC trailers, for a call with a timeout of one second that started at 0. *)
Lemma ex_end_time : end_time 0%Z 1000 = fl_unit.
Proof.
  pose proof fl_unit_pos as U. assert (R : forall q, (0 < q)%Z -> rne (fl_unit * q) q = fl_unit).
  { intros q Hq. pose proof (rne_dyadic 1 0 q ltac:(lia) ltac:(lia) Hq) as E. rewrite Z.mul_1_l, Z.sub_0_r in E. exact E. }
  unfold end_time, fl_div, fl_add. rewrite fl_1000_value. generalize dependent fl_unit. intros u U R.
  replace (1000 * u <? 0)%Z with false by lia. replace (1000 * u * u)%Z with (u * (1000 * u))%Z by ring. rewrite R by lia.
  replace (0 + u)%Z with (u * 1)%Z by ring. apply R. lia.
Qed.

Definition ex_reset_resp : stream_response :=
  ex_stream PGrpc [ex_frame 0 [1]] (Some (FExn (EOther (KReset RCancel) (lit "r"))))
    [(lit "grpc-status", lit "5"); (lit "grpc-message", lit "m")].

Lemma ex_reset_fails t : stream_fails (ex_client PGrpc t) (ex_answer ex_reset_resp) (FExn (EOther (KReset RCancel) (lit "r"))) [[1]].
Proof.
  right. exists ex_reset_resp. split; [reflexivity|]. split.
  - exists identity_comp, [mk_frame 0 [1]], []. split; [repeat split|]. split.
    + apply (fo_cons (mk_frame 0 [1]) [0; 0; 0; 0; 1; 1] []); [exists 0, 0, 0, 1; auto|apply frames_of_nil].
    + constructor; [|constructor]. split; [reflexivity|]. exists [1]. split; [left; auto|]. split; [exact I|reflexivity].
  - split; [reflexivity|]. split; [reflexivity|]. intros d _ [H|H]; destruct H.
Qed.

Example C19_example : forall late, exists m ds,
  sr_end (execute_bidi_stream (ex_client PGrpc (Some 1000%Z)) (mk_clk 0%Z 0%Z late) (ex_answer ex_reset_resp) None ex_method UNone None
            ([], None) None)
  = CErr (EConnect (if (fl_unit <=? late)%Z then DeadlineExceeded else Canceled) m ds).
Proof.
  intro late. destruct (C19_reset _ _ (ex_client PGrpc (Some 1000%Z)) (mk_clk 0%Z 0%Z late) (ex_answer ex_reset_resp) None _ _ _ _
    (st_bidi _ _ _ _ _ None ex_method UNone ([], None)) (ex_reset_fails _)) as [_ (m&ds&E)].
  exists m, ds. rewrite E. rewrite <- ex_end_time. reflexivity.
Qed.

(** ** C38, client side: one message *)

(** A call that returns a message read exactly one from the response: one message frame (within the size limit) and, for
    gRPC-Web and Connect, an end frame after which nothing follows. *)
Theorem C38_client_one : forall (A B : Type) (c : client A B) ck net timeout stop s b,
  answered_by_stream c ck net timeout stop s -> cr_out s = COk b ->
  exists rq resp z, cr_sent s = [rq] /\ nw_stream net rq = SResp resp /\ acceptable c resp z
    /\ let k := reader_kind (cl_proto c) in
       (nothing_after_end k (List.concat (sp_chunks resp)) ->
        exists fs tl f, frames_of (List.concat (sp_chunks resp)) fs tl
          /\ filter (fun g => negb (end_flag k g)) fs = [f]
          /\ message_frame k z (cl_max c) (k_dec_res (cl_codec c)) f b).
Proof.
  intros A B c ck net timeout stop s b Hs He. destruct (answered_inv _ _ _ _ _ _ Hs) as (cx&md&reqs&->&_&_).
  apply single_ok in He. destruct He as [Hm He].
  destruct (send_stream_ok _ _ _ _ _ _ _ He) as (rq&resp&z&r&Hsent&Hn&Ht&Hv&Hz&Hf&Hno&Hc&_).
  exists rq, resp, z. split; auto. split; auto. split; [repeat split; auto|]. intros k Hclean.
  set (cf := mk_rconf (reader_kind (cl_proto c)) z (cl_max c) (k_dec_res (cl_codec c))) in *.
  destruct (frames_of_exists (List.concat (sp_chunks resp))) as (fs&tl&Hfo).
  destruct (feed_all_clean cf (sp_chunks resp) (reader_new (handle_response_headers md (sp_headers resp))) fs tl
              (reader_new_inv _) (reader_new_incomplete _) Hfo) as (ms&e&r'&b'&n'&Hsk&Hfa&_).
  { intros f a b0 H1 H2. exact (Hclean fs tl Hfo f a b0 H1 H2). }
  rewrite Hf, Hm in Hfa. injection Hfa as <- <- _. apply run_skip_ok in Hsk.
  change (rc_kind cf) with k in Hsk. destruct (filter _ fs) as [|f [|g l]] eqn:Q; inversion Hsk as [|f0 m0 l0 ms0 G1 G2]; subst; [|inversion G2].
  exists fs, tl, f. rewrite Q. auto.
Qed.
Print Assumptions C38_client_one.

(** Two messages: the call fails with UNIMPLEMENTED, whatever follows them. *)
Theorem C38_client_many : forall (A B : Type) (c : client A B) ck net timeout s resp z f1 f2 fs tl m1 m2,
  answered_by_stream c ck net timeout None s -> (forall rq, nw_stream net rq = SResp resp) ->
  acceptable c resp z -> frames_of (List.concat (sp_chunks resp)) (f1 :: f2 :: fs) tl ->
  message_frame (reader_kind (cl_proto c)) z (cl_max c) (k_dec_res (cl_codec c)) f1 m1 ->
  message_frame (reader_kind (cl_proto c)) z (cl_max c) (k_dec_res (cl_codec c)) f2 m2 ->
  exists msg, cr_out s = CErr (EConnect Unimplemented msg []).
Proof.
  intros A B c ck net timeout s resp z f1 f2 fs tl m1 m2 Hs Hn (Ha1&Ha2&Ha3) Hfo G1 G2.
  destruct (answered_inv _ _ _ _ _ _ Hs) as (cx&md&reqs&_&->&_).
  set (cf := mk_rconf (reader_kind (cl_proto c)) z (cl_max c) (k_dec_res (cl_codec c))).
  assert (X : exists x y l, sr_msgs (send_stream c cx ck net md reqs None) = x :: y :: l).
  { unfold send_stream. rewrite Hn, Ha1. change (200 =? 200) with true. cbv iota. rewrite Ha2, Ha3. cbv zeta.
    fold cf. rewrite consume_all.
    destruct (feed_all_why cf (sp_chunks resp) (reader_new (handle_response_headers md (sp_headers resp))) _ tl
              (reader_new_inv _) (reader_new_incomplete _) Hfo) as (used&lft&ms&e&r'&b'&n'&E&Hsk&Hfa&Hw).
    assert (U : exists rest, used = f1 :: f2 :: rest).
    { destruct (read_good cf f1 m1 (reader_new (handle_response_headers md (sp_headers resp))) G1) as (r1&R1&_).
      destruct used as [|g1 [|g2 rest]]; cbn [app] in E.
      - exfalso. cbn [run_skip] in Hsk. injection Hsk as <- <- <-. destruct Hw as [Hw|[Hw|(f&[]&_)]]; [congruence|congruence].
      - exfalso. injection E as <- E. cbn [run_skip] in Hsk. rewrite R1 in Hsk. injection Hsk as <- <- <-.
        destruct Hw as [Hw|[Hw|(f&[<-|[]]&Hf)]]; [congruence|congruence|]. destruct G1 as [G1 _]. change (rc_kind cf) with (reader_kind (cl_proto c)) in Hf. congruence.
      - injection E as <- <- _. eauto. }
    destruct U as [rest ->].
    assert (M : exists x y l, ms = x :: y :: l).
    { cbn [run_skip] in Hsk. destruct (read_good cf f1 m1 (reader_new (handle_response_headers md (sp_headers resp))) G1) as (r1&R1&_). rewrite R1 in Hsk.
      destruct (read_good cf f2 m2 r1 G2) as (r2&R2&_). rewrite R2 in Hsk. destruct (run_skip cf rest r2) as [[ms2 e2] r3]. injection Hsk as <- _ _. eauto. }
    destruct M as (x&y&l&->). exists x, y, l. rewrite Hfa. cbv zeta.
    destruct (match (match e with Some x => Some (FExn x) | None => None end) with Some f => Some f | None => sp_fault resp end) as [g|].
    - unfold leave. destruct (sp_exit resp false); destruct (stream_except _ _ _ _ _ _); reflexivity.
    - destruct (cl_sync c && _).
      + unfold leave. destruct (sp_exit resp false); destruct (stream_except _ _ _ _ _ _); reflexivity.
      + destruct (response_complete _ _ _ _ _ _) as [o md']. unfold leave. destruct o.
        * destruct (sp_exit resp false); destruct (stream_except _ _ _ _ _ _); reflexivity.
        * destruct (sp_exit resp true); [destruct (stream_except _ _ _ _ _ _)|]; reflexivity. }
  destruct X as (x&y&l&X). unfold single_result. cbn [cr_out]. rewrite X. cbn. eauto.
Qed.
Print Assumptions C38_client_many.

(** No message in a response that otherwise ended well: UNIMPLEMENTED. *)
Theorem C38_client_none : forall (A B : Type) (c : client A B) ck net timeout s resp,
  answered_by_stream c ck net timeout None s -> (forall rq, nw_stream net rq = SResp resp) -> readable c resp [] ->
  sp_fault resp = None -> sp_exit resp true = None ->
  (cl_sync c = true -> deadline_over (ck_start ck) (effective_timeout timeout (cl_timeout c)) (ck_late ck) = false) ->
  cl_proto c = PConnect \/ (cl_proto c = PGrpc /\ hd_error (values_in (sp_trailers resp) (lit "grpc-status")) = Some (lit "0"))
  \/ hd_error (values_in (sp_headers resp) (lit "grpc-status")) = Some (lit "0") /\ values_in (sp_trailers resp) (lit "grpc-status") = [] ->
  exists msg, cr_out s = CErr (EConnect Unimplemented msg []).
Proof.
  intros A B c ck net timeout s resp Hs Hn Hr Hf Hx Hdl Hst. destruct (answered_inv _ _ _ _ _ _ Hs) as (cx&md&reqs&_&->&HD).
  pose proof Hr as (z0&fs&tl&_&Hfo&Hfm). inversion Hfm; subst. clear Hfm.
  destruct (readable_consume _ _ _ Hr) as (z&(Ha1&Ha2&Ha3)&Hc).
  unfold single_result. cbn [cr_out].
  assert (X : sr_msgs (send_stream c cx ck net md reqs None) = [] /\ sr_end (send_stream c cx ck net md reqs None) = COk tt).
  { unfold send_stream. rewrite Hn, Ha1. change (200 =? 200) with true. cbv iota. rewrite Ha2, Ha3. cbv zeta.
    pose proof (Hc (handle_response_headers md (sp_headers resp))) as (r&Hcr&Hrt&_). pose proof Hcr as Hcr2.
    rewrite consume_all in Hcr2.
    destruct (feed_all_why (mk_rconf (reader_kind (cl_proto c)) z (cl_max c) (k_dec_res (cl_codec c))) (sp_chunks resp)
       (reader_new (handle_response_headers md (sp_headers resp))) [] tl (reader_new_inv _) (reader_new_incomplete _) Hfo)
       as (used&lft&ms&e&r'&b'&n'&E&Hsk&Hfa&_). destruct used; [|discriminate]. cbn [run_skip] in Hsk. injection Hsk as <- <- <-.
    rewrite Hfa in Hcr2. injection Hcr2 as <-. rewrite Hcr. cbv zeta. rewrite Hf. cbv iota zeta.
    assert (D : cl_sync c && deadline_passed cx (ck_late ck) = false).
    { destruct (cl_sync c); auto. rewrite HD. cbn [andb]. auto. }
    rewrite D.
    assert (R : exists md', response_complete (cl_sc c) (reader_kind (cl_proto c)) (with_buf (reader_new (handle_response_headers md (sp_headers resp))) b' n') (sp_headers resp) (sp_trailers resp) None = (None, md')).
    { destruct Hst as [->|[[-> H]|[H1 H2]]]; [cbn; eauto| |].
      - cbn [reader_kind response_complete]. unfold grpc_complete. rewrite (hh_get_values (sp_trailers resp)), H. cbv iota.
        rewrite hh_get_values, H. cbv iota. rewrite str_eqb_refl. eauto.
      - assert (G : forall web, exists md', grpc_complete (cl_sc c) web (with_buf (reader_new (handle_response_headers md (sp_headers resp))) b' n') (sp_headers resp) (sp_trailers resp) None = (None, md')).
        { intro web. unfold grpc_complete. cbn [with_buf reader_new r_trl r_read r_md].
          assert (E2 : hh_get (if web then [] else sp_trailers resp) (lit "grpc-status") = None).
          { destruct web; [reflexivity|]. now rewrite hh_get_values, H2. }
          rewrite E2. rewrite (hh_get_values (sp_headers resp) (lit "grpc-status")), H1, str_eqb_refl. eauto. }
        destruct (cl_proto c); [cbn; eauto|apply G|apply G]. }
    destruct R as [md' R]. rewrite R. unfold leave. rewrite Hx. auto. }
  destruct X as [-> ->]. cbn. eauto.
Qed.
Print Assumptions C38_client_none.

Example C38_client_example :
  let call chunks := cr_out (execute_unary (ex_client PGrpc None) ex_clocks
     (ex_answer (ex_stream PGrpc chunks None [(lit "grpc-status", lit "0")])) None ex_method UNone None false [1] None) in
  call [ex_frame 0 [7; 8]] = COk [7; 8]
  /\ call [ex_frame 0 [7; 8]; ex_frame 0 [9]] = CErr (EConnect Unimplemented (lit "unary response has multiple messages") [])
  /\ call [] = CErr (EConnect Unimplemented (lit "unary response has zero messages") []).
Proof. vm_compute. auto. Qed.

(** ** C44, client side: size limit of unary responses *)

(** A Connect unary call returns only messages decoded from a body within read_max_bytes; a larger one of an otherwise
    acceptable response gives RESOURCE_EXHAUSTED.  (Other calls: [C38_client_one] and C03.) *)
Theorem C44_client : forall (A B : Type) (c : client A B) ck net md m u timeout get a stop mx,
  let o := execute_unary c ck net md m u timeout get a stop in
  cl_proto c = PConnect -> cl_max c = Some mx ->
  (forall b, cr_out o = COk b -> exists rq r, cr_sent o = [rq] /\ nw_unary net rq = UResp r /\ fr_status r = 200
     /\ N.of_nat (List.length (fr_content r)) <= mx /\ k_dec_res (cl_codec c) (fr_content r) = Ok b)
  /\ (forall r, (forall rq, nw_unary net rq = UResp r) -> cr_sent o <> [] -> fr_status r = 200 ->
     validate_response PConnect (k_name (cl_codec c)) 200 (content_type_of (fr_headers r)) = None ->
     values_in (fr_headers r) (lit "content-encoding") = [] ->
     mx < N.of_nat (List.length (fr_content r)) -> exists msg, cr_out o = CErr (EConnect ResourceExhausted msg [])).
Proof.
  intros A B c ck net md m u timeout get a stop mx o Hp Hm.
  assert (NO : forall sy f b, @unary_except B sy f <> COk b).
  { intros sy f b. destruct f as [e| |]; [|cbn; destruct sy; discriminate|discriminate]. destruct e as [| |k]; try discriminate. destruct k; discriminate. }
  unfold o, execute_unary, send_unary. rewrite Hp. unfold send_unary_connect. destruct (unary_request _ _ _ _) as [rq|e].
  2: { cbn [cr_out cr_sent]. split; [intros b H; now apply NO in H|congruence]. }
  split.
  - intros b H. destruct (nw_unary net rq) as [r|f] eqn:N; [|cbn [cr_out] in H; now apply NO in H].
    destruct (unary_response c r md) as [v md'] eqn:R. cbn [cr_out cr_sent] in *. destruct v as [b'|e]; [|now apply NO in H].
    injection H as ->. exists rq, r. split; auto. split; auto. unfold unary_response in R. rewrite Hp in R.
    destruct (validate_response _ _ _ _); [discriminate|]. destruct (handle_response_compression _ _ _ _); [|discriminate].
    destruct (fr_status r =? 200) eqn:S; [|destruct (we_from_response _ _); discriminate]. split; [lia|]. rewrite Hm in R.
    destruct (mx <? lenN (fr_content r)) eqn:L; [discriminate|]. injection R as R _. split; auto. unfold lenN in L. lia.
  - intros r Hn _ Hst Hv Hz Hl. rewrite Hn. unfold unary_response. rewrite content_type_get, Hp, Hst, Hv.
    unfold handle_response_compression. rewrite hh_get_values. unfold client_compression_header. rewrite Hz. cbn [hd_error].
    change (200 =? 200) with true. cbv iota. rewrite Hm. assert (E : mx <? lenN (fr_content r) = true) by (unfold lenN; lia).
    rewrite E. cbn. eauto.
Qed.
Print Assumptions C44_client.

Example C44_client_example :
  let c := client_new false (lit "http://h") PConnect ex_codec [] None None (Some 3) (lit "ua/1") ex_sc in
  let call b := cr_out (execute_unary c ex_clocks
     (mk_net (fun _ => UResp (mk_fr 200 [(lit "content-type", lit "application/proto")] b)) (fun _ => SFault FClose)) None ex_method UNone None false [1] None) in
  call [1; 2; 3] = COk [1; 2; 3] /\ exists m, call [1; 2; 3; 4] = CErr (EConnect ResourceExhausted m []).
Proof. split; [reflexivity|]. eexists. reflexivity. Qed.

(** ** C51: a closed client *)

(** Finding: closing a client changes nothing about its calls: they still send requests. *)
Theorem C51_closed_client_refuted : forall (A B : Type) (c : client A B) ck net md m u timeout reqs stop,
  exists rq, sr_sent (execute_bidi_stream (client_close c) ck net md m u timeout reqs stop) = [rq].
Proof.
  intros. apply send_stream_sent_one.
Qed.
Print Assumptions C51_closed_client_refuted.
