(** C14, C16, C22, C31, C33, C34: status tables, request headers, protocol and compression negotiation. *)
From Coq Require Import List NArith ZArith Bool String Lia ZifyBool ZifyNat.
From Verif Require Import MBase MPyStr MHeaders SHeaders LBase LPyStr LHeaders MPercent MWire MTimeout MEnvelope LWire
  MProtocol SProtocol MClient LProtocol STimeout PTimeout.
Import ListNotations.
Local Open Scope N_scope.

(** ** C14: codes and gRPC status numbers *)

Lemma grpc_trailers_status : forall sc u err t,
  grpc_trailers sc u err = Ok t ->
  exists s, h_getall t (lit "grpc-status") = [s]
    /\ match err with
       | None => s = lit "0"
       | Some w => exists n, In (n, we_code w) grpc_spec_codes /\ s = lit n
       end.
Proof.
  intros sc u err t H. unfold grpc_trailers in H.
  assert (I0 : h_inv (h_of_pairs (h_allitems u))) by apply h_inv_of_pairs.
  destruct err as [w|].
  - exists (connect_status_to_grpc (we_code w)). split.
    + set (t1 := h_setitem _ (lit "grpc-status") _) in H.
      assert (I1 : h_inv t1) by (apply h_inv_set; auto).
      assert (G1 : h_getall t1 (lit "grpc-status") = [connect_status_to_grpc (we_code w)]) by (unfold t1; now rewrite getall_set).
      assert (X : exists t2, h_inv t2 /\ h_getall t2 (lit "grpc-status") = [connect_status_to_grpc (we_code w)]
                /\ (if nonempty (we_details w)
                    then do bin <- st_to sc (mk_status (Z.of_N (code_to_grpc (we_code w))) (we_msg w) (map d_any (we_details w))) ;
                         Ok (h_setitem t2 (lit "grpc-status-details-bin") (rstrip_eq (MBase64.b64encode bin)))
                    else Ok t2) = Ok t).
      { destruct (nonempty (we_msg w)); [destruct (quote (we_msg w)) as [q|]; [|discriminate]|]; cbn [bind] in H.
        - eexists. split; [|split; [|exact H]]; [apply h_inv_set; auto|]. rewrite getall_set by auto. exact G1.
        - eexists. split; [exact I1|]. split; [exact G1|exact H]. }
      destruct X as [t2 [I2 [G2 X]]]. destruct (nonempty (we_details w)).
      * destruct (st_to _ _); [|discriminate]. cbn [bind] in X. injection X as <-. rewrite getall_set by auto. exact G2.
      * injection X as <-. exact G2.
    + destruct (we_code w); eexists; (split; [unfold grpc_spec_codes; simpl; eauto 20|reflexivity]).
  - exists (lit "0"). split; auto. injection H as <-. now rewrite getall_set.
Qed.

(** Whatever error ends a call, the trailers sent have one grpc-status: "0" without an error, the published number of
    its code otherwise. *)
Theorem C14_status_sent : forall sc ops err t,
  grpc_trailers sc (h_run h_empty ops) err = Ok t ->
  exists s, h_getall t (lit "grpc-status") = [s]
    /\ match err with
       | None => s = lit "0"
       | Some w => exists n, In (n, we_code w) grpc_spec_codes /\ s = lit n
       end.
Proof. intros sc ops err t. apply grpc_trailers_status. Qed.
Print Assumptions C14_status_sent.

(** The 16 numbers are distinct, none is 0, and every code has one. *)
Theorem C14_table : NoDup (map fst grpc_spec_codes) /\ NoDup (map snd grpc_spec_codes)
  /\ ~ In "0"%string (map fst grpc_spec_codes) /\ forall c, In c (map snd grpc_spec_codes).
Proof.
  split; [|split; [|split]].
  - repeat constructor; simpl; intuition discriminate.
  - repeat constructor; simpl; intuition discriminate.
  - simpl; intuition discriminate.
  - destruct c; simpl; auto 20.
Qed.

(** A gRPC or gRPC-Web client that reads status text [s] in the trailers reports success exactly for "0", the code of the
    number otherwise, UNKNOWN for any other text. *)
Theorem C14_status_read : forall sc (web : bool) r rh rt s,
  let ts := if web then r_trl r else rt in
  hh_get ts (lit "grpc-status") = Some s -> hh_get ts (lit "grpc-status-details-bin") = None ->
  let out := fst (grpc_complete sc web r rh rt None) in
  (s = lit "0" -> out = None)
  /\ (forall n c, In (n, c) grpc_spec_codes -> s = lit n -> exists m, out = Some (EConnect c m []))
  /\ (s <> lit "0" -> (forall n c, In (n, c) grpc_spec_codes -> s <> lit n) -> exists m, out = Some (EConnect Unknown m [])).
Proof.
  intros sc web r rh rt s ts Hs Hd out. unfold out, grpc_complete. fold ts. rewrite Hs. cbv iota. rewrite Hs, Hd.
  assert (X : forall n c, In (n, c) grpc_spec_codes -> connect_status_to_grpc c = lit n).
  { intros n c Hin. unfold grpc_spec_codes in Hin. simpl in Hin.
    repeat (destruct Hin as [Hin|Hin]; [injection Hin as <- <-; vm_compute; reflexivity|]). destruct Hin. }
  split; [|split].
  - intros ->. reflexivity.
  - intros n c Hin ->. rewrite <- (X n c Hin). rewrite grpc_status_nonzero, grpc_status_inv. cbn [fst]. eauto.
  - intros H0 Hn. destruct (str_eqb_spec s (lit "0")); [contradiction|]. cbn [fst].
    assert (grpc_status_to_connect s = Unknown) as ->.
    { unfold grpc_status_to_connect. destruct (find _ all_codes) as [c|] eqn:F; auto. exfalso.
      apply find_some in F. destruct F as [_ F]. apply str_eqb_eq in F.
      destruct C14_table as [_ [_ [_ T]]]. specialize (T c). rewrite in_map_iff in T. destruct T as [[n' c'] [E Hin]].
      cbn [snd] in E. subst c'. apply (Hn n' c Hin). rewrite <- F. apply (X _ _ Hin). }
    eauto.
Qed.
Print Assumptions C14_status_read.

Example C14_example : fst (grpc_complete (mk_sc (fun _ => Ok []) (fun _ => Ok (mk_status 0 [] []))) false (reader_new None) []
                             [(lit "grpc-status", lit "5"); (lit "grpc-message", lit "gone%21")] None)
                      = Some (EConnect NotFound (lit "gone!") []).
Proof. reflexivity. Qed.

(** ** C16: HTTP status of a unary error *)

(** The status is the published one, it never is 200, and a Connect client treats it as a failure. *)
Theorem C16_status : forall e, let w := we_from_exception e in
  fst (we_to_http_status w) = connect_spec_status (we_code w)
  /\ fst (we_to_http_status w) <> 200
  /\ 400 <= fst (we_to_http_status w) < 600.
Proof. intros e w. unfold we_to_http_status. destruct (we_code w); cbn; lia. Qed.
Print Assumptions C16_status.

(** An error that names no known code still maps to the code the Connect protocol gives its HTTP status. *)
Theorem C16_code_of_status : forall st, http_code_or_unknown st = connect_spec_code_of_status st.
Proof.
  intro st. unfold http_code_or_unknown, http_status_code_to_error, assoc_N. cbn [find fst].
  repeat match goal with |- context [if ?a =? st then _ else _] =>
    destruct (N.eqb_spec a st) as [<-|]; [reflexivity|] end.
  unfold connect_spec_code_of_status.
  repeat match goal with
  | |- context [match ?x with _ => _ end] => is_var x; destruct x; try reflexivity; try congruence
  end.
Qed.
Print Assumptions C16_code_of_status.

(** ** C22: the caller's headers are all sent *)

Section Calls.
Context {A B : Type}.

Definition timed (timeout default : option Z) : bool :=
  match timeout, default with None, None => false | _, _ => true end.

Definition expected_user_values (ua : pystr) (hist : list hop) (k : pystr) : list pystr :=
  if same_name k (lit "User-Agent") then match values_of hist (lit "User-Agent") with [] => [ua] | vs => vs end
  else values_of hist k.

Lemma ctx_values (c : client A B) start m u hist timeout stream get k : called_with u hist ->
  owned (cl_proto c) stream (timed timeout (cl_timeout c)) k = false ->
  h_getall (cx_headers (call_ctx c start m u timeout stream get)) k = expected_user_values (cl_ua c) hist k.
Proof.
  intros C O. unfold call_ctx, client_create_context, make_ctx. cbn [cx_headers].
  rewrite (client_headers_values _ _ _ _ hist) by auto.
  assert (T : match effective_timeout timeout (cl_timeout c), same_name k (timeout_header (cl_proto c)) with
              | Some _, true => False | _, _ => True end).
  { destruct (effective_timeout timeout (cl_timeout c)) eqn:E; auto. destruct (same_name k (timeout_header (cl_proto c))) eqn:S; auto.
    assert (Ht : timed timeout (cl_timeout c) = true).
    { destruct timeout, (cl_timeout c); auto. discriminate. }
    rewrite Ht in O. unfold owned, owned_names in O. destruct (cl_proto c), stream; cbn [existsb app] in O;
    rewrite !orb_false_iff in O; decompose [and] O;
    match goal with H : same_name k (lit "Connect-Timeout-Ms") = false |- _ =>
      change (same_name k (timeout_header PConnect)) with (same_name k (lit "Connect-Timeout-Ms")) in S; congruence
    | H : same_name k (lit "Grpc-Timeout") = false |- _ =>
      change (same_name k (lit "Grpc-Timeout") = true) in S; congruence end. }
  match goal with |- match ?o with _ => _ end = ?r => 
    assert (Q : forall X, X = r -> match o, same_name k (timeout_header (cl_proto c)) with Some t, true => [timeout_text (cl_proto c) t] | _, _ => X end = r) end.
  { intros X HX. destruct (effective_timeout timeout (cl_timeout c)); auto. destruct (same_name k (timeout_header (cl_proto c))); auto. destruct T. }
  apply Q. clear Q T. unfold owned, owned_names in O. unfold expected_user_values.
  change (same_name k (lit "User-Agent")) with (same_name k (lit "user-agent")).
  assert (UA : values_of hist (lit "User-Agent") = values_of hist (lit "user-agent")).
  { rewrite <- (values_of_lower hist (lit "User-Agent")). reflexivity. }
  rewrite UA.
  destruct (cl_proto c), stream, (timed timeout (cl_timeout c)); cbn [existsb app client_compression_header client_accept_header] in *;
  rewrite !orb_false_iff in O; decompose [and] O; clear O;
  repeat match goal with
  | H : same_name k (lit ?x) = false |- context [same_name k (lit ?y)] =>
      change (same_name k (lit y)) with (same_name k (lit x)); rewrite H
  end; cbv iota; destruct (same_name k (lit "user-agent")); reflexivity.
Qed.
End Calls.

(** Every header value the caller passed is in the request, all duplicates in the order given, under any spelling of the
    name, unless the protocol sets that name itself; a user agent is only added when the caller gave none. *)
Theorem C22_unary : forall (A B : Type) (c : client A B) ck net md m u hist timeout get a stop rq k,
  called_with u hist ->
  In rq (cr_sent (execute_unary c ck net md m u timeout get a stop)) ->
  owned (cl_proto c) false (timed timeout (cl_timeout c)) k = false ->
  values_in (rq_headers rq) k = expected_user_values (cl_ua c) hist k.
Proof.
  intros A B c ck net md m u hist timeout get a stop rq k C H O.
  unfold execute_unary, send_unary in H. set (cx := call_ctx c (ck_start ck) m u timeout false get) in *.
  assert (I : h_inv (cx_headers cx)) by (eapply client_headers_inv; eauto).
  assert (V : h_getall (cx_headers cx) k = expected_user_values (cl_ua c) hist k) by (apply ctx_values; auto).
  destruct (cl_proto c) eqn:P.
  - apply send_unary_connect_sent in H. rewrite (unary_request_headers _ _ _ _ _ H I).
    destruct (str_eqb (cx_http cx) (lit "GET")); [|exact V]. cbn [andb].
    unfold owned, owned_names in O. cbn [app existsb] in O. rewrite !orb_false_iff in O. decompose [and] O.
    change (same_name k (lit "content-type")) with (same_name k (lit "Content-Type")).
    change (same_name k (lit "content-encoding")) with (same_name k (lit "Content-Encoding")).
    repeat match goal with H : same_name k _ = false |- _ => rewrite H; clear H end. exact V.
  - apply send_stream_sent in H. destruct H as [-> _]. rewrite values_in_allitems by auto. exact V.
  - apply send_stream_sent in H. destruct H as [-> _]. rewrite values_in_allitems by auto. exact V.
Qed.
Print Assumptions C22_unary.

Theorem C22_stream : forall (A B : Type) (c : client A B) ck net md m u hist timeout reqs stop rq k,
  called_with u hist ->
  In rq (sr_sent (execute_bidi_stream c ck net md m u timeout reqs stop)) \/
  In rq (cr_sent (execute_client_stream c ck net md m u timeout reqs stop)) \/
  (exists a, In rq (sr_sent (execute_server_stream c ck net md m u timeout a stop))) ->
  owned (cl_proto c) true (timed timeout (cl_timeout c)) k = false ->
  values_in (rq_headers rq) k = expected_user_values (cl_ua c) hist k.
Proof.
  intros A B c ck net md m u hist timeout reqs stop rq k C H O.
  assert (I : h_inv (cx_headers (call_ctx c (ck_start ck) m u timeout true false))) by (eapply client_headers_inv; eauto).
  assert (E : rq_headers rq = h_allitems (cx_headers (call_ctx c (ck_start ck) m u timeout true false))).
  { destruct H as [H|[H|[a H]]].
    - apply (send_stream_sent c _ _ _ _ _ _ _ H).
    - apply (send_stream_sent c _ _ _ _ _ _ _ H).
    - apply (send_stream_sent c _ _ _ _ _ _ _ H). }
  rewrite E, values_in_allitems by auto. now apply ctx_values.
Qed.
Print Assumptions C22_stream.

(** A client and library for examples. *)
Definition ex_codec : codec pystr pystr := mk_codec (lit "proto") Ok Ok Ok Ok.
Definition ex_sc : status_codec := mk_sc (fun _ => Ok []) (fun _ => Ok (mk_status 0 [] [])).
Definition ex_client (p : proto) (timeout : option Z) : client pystr pystr :=
  client_new false (lit "http://h") p ex_codec [] None timeout None (lit "ua/1") ex_sc.
Definition ex_net : network := mk_net (fun _ => UFault (FExn (EOther KOSError []))) (fun _ => SFault (FExn (EOther KOSError []))).
Definition ex_method : method_info := mk_method (lit "pkg.Svc") (lit "Get") NoSideEffects.
Definition ex_clocks : clocks := mk_clk 0%Z 0%Z 0%Z.

Example C22_example :
  let u := UHeaders (h_run h_empty [Add (lit "X-A") (lit "1"); Add (lit "x-a") (lit "2"); Add (lit "Te") (lit "deflate")]) in
  owned PGrpc true false (lit "X-a") = false /\ owned PGrpc true false (lit "Te") = true /\
  map (fun rq => (values_in (rq_headers rq) (lit "X-a"), values_in (rq_headers rq) (lit "te")))
      (sr_sent (execute_bidi_stream (ex_client PGrpc None) ex_clocks ex_net None ex_method u None ([], None) None))
  = [([lit "1"; lit "2"], [lit "trailers"])].
Proof. split; [reflexivity|]. split; reflexivity. Qed.

(** ** C31: the timeout of a call *)

(** A non-zero timeout given to a call replaces the client's default [d]: the call behaves as one of a client whose
    default is that timeout, in every respect. *)
Theorem C31_call_timeout : forall (A B : Type) sync addr p (k : codec A B) accept send d max ua sc ck net md m u t stop,
  t <> 0%Z ->
  let given := client_new sync addr p k accept send d max ua sc in
  let other := client_new sync addr p k accept send (Some t) max ua sc in
  (forall get a, execute_unary given ck net md m u (Some t) get a stop = execute_unary other ck net md m u None get a stop)
  /\ (forall reqs, execute_bidi_stream given ck net md m u (Some t) reqs stop = execute_bidi_stream other ck net md m u None reqs stop)
  /\ (forall reqs, execute_client_stream given ck net md m u (Some t) reqs stop = execute_client_stream other ck net md m u None reqs stop)
  /\ (forall a, execute_server_stream given ck net md m u (Some t) a stop = execute_server_stream other ck net md m u None a stop).
Proof.
  intros A B sync addr p k accept send d max ua sc ck net md m u t stop H given other.
  assert (E : effective_timeout (Some t) d = effective_timeout None (Some t)).
  { unfold effective_timeout. replace (t =? 0)%Z with false by lia. reflexivity. }
  assert (X : forall stream get, call_ctx given (ck_start ck) m u (Some t) stream get = call_ctx other (ck_start ck) m u None stream get).
  { intros. unfold call_ctx. change (cl_timeout given) with d. change (cl_timeout other) with (Some t). rewrite E. reflexivity. }
  assert (R : forall reqs tail, request_content given reqs tail = request_content other reqs tail).
  { induction reqs; intros; cbn [request_content]; auto. rewrite IHreqs. reflexivity. }
  assert (S : forall cx reqs stop, send_stream given cx ck net md reqs stop = send_stream other cx ck net md reqs stop).
  { intros. unfold send_stream. rewrite R. reflexivity. }
  unfold execute_unary, send_unary, execute_bidi_stream, execute_client_stream, execute_server_stream.
  split; [|split; [|split]]; intros; rewrite X, ?S; try reflexivity.
Qed.
Print Assumptions C31_call_timeout.

(** That timeout is what the request tells the server. *)
Theorem C31_sent : forall (A B : Type) (c : client A B) ck net md m u hist t get a stop rq,
  called_with u hist -> (0 < t < grpc_limit_ms)%Z -> (cl_proto c = PConnect -> t < 10000000000)%Z ->
  In rq (cr_sent (execute_unary c ck net md m u (Some t) get a stop)) ->
  match cl_proto c with
  | PConnect => connect_server_timeout (hh_get (rq_headers rq) (lit "connect-timeout-ms")) = Ok (Some t)
  | _ => exists r, grpc_server_timeout (hh_get (rq_headers rq) (lit "grpc-timeout")) = Ok (Some r) /\ (r <= t)%Z /\ (t < 100000000 -> r = t)%Z
  end.
Proof.
  intros A B c ck net md m u hist t get a stop rq C T1 T2 H.
  unfold execute_unary, send_unary in H. set (cx := call_ctx c (ck_start ck) m u (Some t) false get) in *.
  assert (I : h_inv (cx_headers cx)) by (eapply client_headers_inv; eauto).
  assert (V : forall k, same_name k (timeout_header (cl_proto c)) = true -> h_getall (cx_headers cx) k = [timeout_text (cl_proto c) t]).
  { intros k S. unfold cx, call_ctx, client_create_context, make_ctx. cbn [cx_headers].
    rewrite (client_headers_values _ _ _ _ hist) by auto. rewrite S.
    unfold effective_timeout. replace (t =? 0)%Z with false by lia. reflexivity. }
  destruct (cl_proto c) eqn:P.
  - apply send_unary_connect_sent in H. rewrite hh_get_values, (unary_request_headers _ _ _ _ _ H I).
    change (same_name (lit "connect-timeout-ms") (lit "content-type") || same_name (lit "connect-timeout-ms") (lit "content-encoding")) with false.
    rewrite andb_false_r, V by reflexivity. cbn [hd_error timeout_text]. apply (C30_connect_roundtrip t); [lia|]. exact (T2 eq_refl).
  - apply send_stream_sent in H. destruct H as [-> _]. rewrite hh_get_values, values_in_allitems, V by auto.
    cbn [hd_error timeout_text]. destruct (C26_deadline_never_grows t) as [r [v [k [_ [R1 [R2 [_ [R3 _]]]]]]]]; [lia|].
    exists r. split; [exact R1|]. lia.
  - apply send_stream_sent in H. destruct H as [-> _]. rewrite hh_get_values, values_in_allitems, V by auto.
    cbn [hd_error timeout_text]. destruct (C26_deadline_never_grows t) as [r [v [k [_ [R1 [R2 [_ [R3 _]]]]]]]]; [lia|].
    exists r. split; [exact R1|]. lia.
Qed.
Print Assumptions C31_sent.

(** Finding: a timeout of 0 given to a call is ignored in favour of the default. *)
Theorem C31_zero_refuted : exists d,
  map (fun rq => hh_get (rq_headers rq) (lit "connect-timeout-ms"))
    (sr_sent (execute_bidi_stream (ex_client PConnect (Some d)) ex_clocks ex_net None ex_method UNone (Some 0%Z) ([], None) None))
  = [Some (lit "5000")].
Proof. exists 5000%Z. reflexivity. Qed.
Print Assumptions C31_zero_refuted.

Example C31_example :
  map (fun rq => hh_get (rq_headers rq) (lit "connect-timeout-ms"))
    (sr_sent (execute_bidi_stream (ex_client PConnect (Some 5000%Z)) ex_clocks ex_net None ex_method UNone (Some 70%Z) ([], None) None))
  = [Some (lit "70")].
Proof. reflexivity. Qed.

(** ** C33: protocol and codec agreement *)

(** Every POST request carries one content type, from which the server derives the client's protocol and codec name. *)
Theorem C33_unary_request : forall (A B : Type) (c : client A B) ck net md m u hist timeout get a stop rq,
  let n := k_name (cl_codec c) in
  called_with u hist -> codec_name_ok n -> (cl_proto c = PConnect -> grpc_like n = false) ->
  In rq (cr_sent (execute_unary c ck net md m u timeout get a stop)) -> rq_method rq = lit "POST" ->
  exists ct, values_in (rq_headers rq) (lit "content-type") = [ct]
    /\ negotiate_server_protocol ct = cl_proto c
    /\ codec_name_from_content_type (cl_proto c) false ct = n.
Proof.
  intros A B c ck net md m u hist timeout get a stop rq n C N G H M.
  unfold execute_unary, send_unary in H. set (cx := call_ctx c (ck_start ck) m u timeout false get) in *.
  assert (I : h_inv (cx_headers cx)) by (eapply client_headers_inv; eauto).
  assert (V : h_getall (cx_headers cx) (lit "content-type") = [client_content_type (cl_proto c) false n]).
  { unfold cx, call_ctx, client_create_context, make_ctx. cbn [cx_headers].
    rewrite (client_headers_values _ _ _ _ hist) by auto.
    assert (F : same_name (lit "content-type") (timeout_header (cl_proto c)) = false) by (destruct (cl_proto c); reflexivity).
    rewrite F. destruct (effective_timeout timeout (cl_timeout c)); reflexivity. }
  exists (client_content_type (cl_proto c) false n). split; [|split; [|now apply codec_name_client]].
  - destruct (cl_proto c) eqn:P.
    + apply send_unary_connect_sent in H. rewrite (unary_request_headers _ _ _ _ _ H I).
      destruct (str_eqb (cx_http cx) (lit "GET")) eqn:E; [|exact V].
      exfalso. unfold unary_request in H. rewrite E in H. destruct (k_enc_req _ _); [|discriminate]. cbn [bind] in H.
      destruct (z_compress _ _); [|discriminate]. cbn [bind] in H. destruct (prepare_get_params _ _ _).
      destruct (urlencode _); [|discriminate]. injection H as <-. discriminate M.
    + apply send_stream_sent in H. destruct H as [-> _]. rewrite values_in_allitems by auto. exact V.
    + apply send_stream_sent in H. destruct H as [-> _]. rewrite values_in_allitems by auto. exact V.
  - destruct (cl_proto c); [apply negotiate_connect_unary; auto|reflexivity|reflexivity].
Qed.
Print Assumptions C33_unary_request.

Theorem C33_stream_request : forall (A B : Type) (c : client A B) ck net md m u hist timeout reqs stop rq,
  let n := k_name (cl_codec c) in
  called_with u hist -> codec_name_ok n ->
  In rq (sr_sent (execute_bidi_stream c ck net md m u timeout reqs stop)) ->
  rq_method rq = lit "POST" /\
  exists ct, values_in (rq_headers rq) (lit "content-type") = [ct]
    /\ negotiate_server_protocol ct = cl_proto c
    /\ codec_name_from_content_type (cl_proto c) true ct = n.
Proof.
  intros A B c ck net md m u hist timeout reqs stop rq n C N H.
  unfold execute_bidi_stream in H. set (cx := call_ctx c (ck_start ck) m u timeout true false) in *.
  assert (I : h_inv (cx_headers cx)) by (eapply client_headers_inv; eauto).
  assert (V : h_getall (cx_headers cx) (lit "content-type") = [client_content_type (cl_proto c) true n]).
  { unfold cx, call_ctx, client_create_context, make_ctx. cbn [cx_headers].
    rewrite (client_headers_values _ _ _ _ hist) by auto.
    assert (F : same_name (lit "content-type") (timeout_header (cl_proto c)) = false) by (destruct (cl_proto c); reflexivity).
    rewrite F. destruct (effective_timeout timeout (cl_timeout c)); reflexivity. }
  apply send_stream_sent in H. destruct H as [Hh [Hm _]]. split; [exact Hm|].
  exists (client_content_type (cl_proto c) true n). split; [|split; [apply negotiate_client|now apply codec_name_client]].
  rewrite Hh, values_in_allitems by auto. exact V.
Qed.
Print Assumptions C33_stream_request.

(** The content type of the response passes the client's validation, for success, unary error and stream responses. *)
Theorem C33_response : forall p n, codec_name_ok n ->
  validate_response PConnect n 200 (lit "application/" ++ n) = None
  /\ (forall st, validate_response PConnect n st (if st =? 200 then lit "application/" ++ n else lit "application/json") = None)
  /\ validate_stream_response p n (server_content_type p n) = None.
Proof.
  intros p n H. split; [now apply validate_unary_ok|]. split; [|apply validate_stream_ok].
  intro st. destruct (N.eqb_spec st 200) as [->|E]; [now apply validate_unary_ok|].
  unfold validate_response. replace (st =? 200) with false by lia. reflexivity.
Qed.
Print Assumptions C33_response.

(** A response in another codec is refused, whatever the protocol. *)
Theorem C33_other_codec_refused : forall p n n', codec_name_ok n -> codec_name_ok n' -> n <> n' ->
  (exists m, validate_stream_response p n (server_content_type p n') = Some (EConnect Internal m []))
  /\ (exists m, validate_response PConnect n 200 (lit "application/" ++ n') = Some (EConnect Internal m [])).
Proof.
  intros p n n' H H' D. split.
  - unfold validate_stream_response.
    assert (E : server_content_type p n' = server_content_type p [] ++ n') by (destruct p; reflexivity).
    rewrite E, startswith_app, skipn_app_exact, orb_true_r. cbn [negb].
    destruct (str_eqb_spec n' n); [congruence|]. unfold bad_content_type. eauto.
  - unfold validate_response. rewrite normalize_type by (apply type_chars; auto). cbn [negb N.eqb Pos.eqb].
    change connect_unary_prefix with (lit "application/"). rewrite startswith_app. cbn [negb].
    cbn [codec_name_from_content_type]. rewrite normalize_type by (apply type_chars; auto).
    change connect_unary_prefix with (lit "application/"). rewrite startswith_app, skipn_app_exact.
    destruct (str_eqb_spec n' n); [congruence|]. unfold bad_content_type. eauto.
Qed.
Print Assumptions C33_other_codec_refused.

Lemma starts_with_split p s : startswith p s = true -> exists r, s = p ++ r.
Proof.
  revert s. induction p as [|a p IH]; intros s H; [now exists s|]. destruct s as [|b s]; [discriminate|]. cbn in H.
  apply andb_prop in H. destruct H as [H1 H2]. apply N.eqb_eq in H1. subst. destruct (IH s H2) as [r ->]. now exists r.
Qed.

Definition stream_media (p : proto) : pystr :=
  match p with PConnect => lit "application/connect+" | PGrpc => lit "application/grpc+" | PGrpcWeb => lit "application/grpc-web+" end.
(** Exactly these content types of a stream pass: the one that names the codec, and, over gRPC and gRPC-Web, the bare one, which
    stands for protobuf. *)
Theorem C33_stream_types : forall p n ct,
  validate_stream_response p n ct = None
  <-> ct = stream_media p ++ n
      \/ n = lit "proto" /\ match p with PConnect => False | PGrpc => ct = lit "application/grpc" | PGrpcWeb => ct = lit "application/grpc-web" end.
Proof.
  intros p n ct. unfold validate_stream_response. cbv zeta.
  assert (E : server_content_type p [] = stream_media p)
    by (destruct p; reflexivity).
  rewrite E. set (pre := stream_media p).
  destruct (startswith pre ct) eqn:S.
  - apply starts_with_split in S. destruct S as [r ->]. rewrite orb_true_r. cbn [negb]. rewrite skipn_app_exact. split.
    + destruct (str_eqb_spec r n); [subst; auto|discriminate].
    + intros [X|(->&X)]; [apply app_inv_head in X; subst; now rewrite str_eqb_refl|]. destruct p; [contradiction|discriminate X..].
  - assert (Nn : ct <> pre ++ n) by (intros ->; rewrite startswith_app in S; discriminate). rewrite orb_false_r.
    destruct p.
    + cbn [negb]. split; [discriminate|intros [X|(_&[])]; contradiction].
    + change grpc_default with (lit "application/grpc"). destruct (str_eqb_spec ct (lit "application/grpc")) as [X|X]; cbn [negb].
      * destruct (str_eqb_spec (lit "proto") n) as [<-|Y]; split; auto; [discriminate|]. intros [Z|(Z&_)]; congruence.
      * split; [discriminate|]. intros [Z|(_&Z)]; congruence.
    + change grpc_web_default with (lit "application/grpc-web"). destruct (str_eqb_spec ct (lit "application/grpc-web")) as [X|X]; cbn [negb].
      * destruct (str_eqb_spec (lit "proto") n) as [<-|Y]; split; auto; [discriminate|]. intros [Z|(Z&_)]; congruence.
      * split; [discriminate|]. intros [Z|(_&Z)]; congruence.
Qed.
Print Assumptions C33_stream_types.

Example C33_example : codec_name_ok (lit "proto") /\ codec_name_ok (lit "json") /\ grpc_like (lit "json") = false.
Proof. repeat split. Qed.

(** A codec whose name looks like gRPC's media type is not recognised as Connect: the side condition is needed. *)
Example C33_grpc_like : negotiate_server_protocol (client_content_type PConnect false (lit "grpc")) = PGrpc.
Proof. reflexivity. Qed.

(** ** C34: response compression *)

(** The compression chosen for an accept list [names] (comma separated, white space ignored) is the first one the server
    has, and identity when it has none of them. *)
Theorem C34_first_supported : forall accept comps,
  let names := map strip (split_on 44 accept) in
  (exists pre n c post, names = pre ++ n :: post /\ dget comps n = Some c
      /\ Forall (fun x => dget comps x = None) pre /\ negotiate_compression accept comps = c)
  \/ (Forall (fun x => dget comps x = None) names /\ negotiate_compression accept comps = identity_comp).
Proof.
  intros accept comps names. unfold negotiate_compression, names.
  destruct (negotiate_first_spec (split_on 44 accept) comps) as [[pre [n [c [post [E [H1 [H2 H3]]]]]]]|[H1 H2]].
  - left. exists (map strip pre), (strip n), c, (map strip post). rewrite E, map_app. repeat split; auto.
    + now rewrite Forall_map.
    + now rewrite <- E.
  - right. split; auto. now rewrite Forall_map.
Qed.
Print Assumptions C34_first_supported.

(** Between a client that accepts [ca] and a server that has [cs], with names that can be listed: the server picks a
    compression of that name or identity, and the client accepts the response, resolving it to its own compression of
    the same name. *)
Theorem C34_client_can_decode : forall (ca cs : list compression) p (stream : bool) (other : list (pystr * pystr)),
  Forall (fun c => listable (z_name c)) ca ->
  let chosen := negotiate_compression (join (lit ",") (dkeys (resolve_compressions ca))) (resolve_compressions cs) in
  let h := client_compression_header p stream in
  values_in other h = [] ->
  (In (z_name chosen) (map z_name ca) \/ chosen = identity_comp)
  /\ (In chosen cs \/ chosen = identity_comp)
  /\ exists c, handle_response_compression p stream ((h, z_name chosen) :: other) (resolve_compressions ca) = Ok c
        /\ z_name c = z_name chosen.
Proof.
  intros ca cs p stream other L chosen h O.
  assert (K : Forall (fun n => ~ In 44 n /\ strip n = n /\ n <> []) (dkeys (resolve_compressions ca))).
  { apply Forall_forall. intros n Hn. apply resolve_keys in Hn. destruct Hn as [->|Hn].
    - repeat split; try discriminate. vm_compute. intuition discriminate.
    - apply in_map_iff in Hn. destruct Hn as [c [<- Hc]]. rewrite Forall_forall in L. apply L; auto. }
  assert (Ne : dkeys (resolve_compressions ca) <> []).
  { intro E. assert (In (lit "identity") (dkeys (resolve_compressions ca))) by (apply resolve_keys; auto). rewrite E in H. destruct H. }
  assert (Names : map strip (split_on 44 (join (lit ",") (dkeys (resolve_compressions ca)))) = dkeys (resolve_compressions ca)).
  { change (lit ",") with [44]. rewrite split_join; auto.
    - etransitivity; [|apply map_id]. apply map_ext_in. intros n Hn. rewrite Forall_forall in K. apply K; auto.
    - eapply Forall_impl; [|exact K]. cbv beta. tauto. }
  assert (Q : In (z_name chosen) (dkeys (resolve_compressions ca)) /\ (In chosen cs \/ chosen = identity_comp)
              /\ (chosen = identity_comp \/ z_name chosen <> lit "identity")).
  { destruct (C34_first_supported (join (lit ",") (dkeys (resolve_compressions ca))) (resolve_compressions cs))
      as [[pre [n [c [post [E [H1 [H2 H3]]]]]]]|[H1 H2]].
    - unfold chosen. rewrite H3. rewrite (resolve_name _ _ _ H1). split; [|split].
      + rewrite <- Names, E. apply in_or_app. right. left. reflexivity.
      + apply resolve_get in H1. tauto.
      + apply resolve_get in H1. tauto.
    - unfold chosen. rewrite H2. split; [|auto]. apply resolve_keys. left. reflexivity. }
  destruct Q as [Q1 [Q2 Q3]]. split; [|split; auto].
  - apply resolve_keys in Q1. destruct Q3 as [Q3|Q3]; auto. destruct Q1; auto. contradiction.
  - unfold handle_response_compression. fold h. rewrite hh_get_values. unfold values_in. cbn [filter fst].
    rewrite same_name_refl. cbn [map snd hd_error].
    assert (Nn : z_name chosen <> []) by (rewrite Forall_forall in K; apply K; auto).
    destruct (z_name chosen) as [|x s] eqn:Ez; [congruence|]. apply dmem_true in Q1. unfold dmem in Q1.
    destruct (dget (resolve_compressions ca) (x :: s)) as [c|] eqn:D; [|discriminate].
    exists c. split; auto. now apply resolve_name in D.
Qed.
Print Assumptions C34_client_can_decode.

Definition ex_zip (n : string) : compression := mk_comp (lit n) false (fun b => Ok (1 :: b)) (fun b => Ok (skipn 1 b)).
Example C34_example : listable (lit "gzip") /\
  z_name (negotiate_compression (join (lit ",") (dkeys (resolve_compressions [ex_zip "br"; ex_zip "gzip"])))
            (resolve_compressions [ex_zip "zstd"; ex_zip "gzip"])) = lit "gzip".
Proof. split; [|reflexivity]. repeat split; try discriminate. vm_compute. intuition discriminate. Qed.
