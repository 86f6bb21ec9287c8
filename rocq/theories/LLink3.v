From Coq Require Import List NArith ZArith Bool String Lia ZifyBool ZifyNat ZifyN.
From Verif Require Import MBase MPyStr MHeaders SHeaders LHeaders LBase MUtf8 MJson SJson MBase64 MPercent LUtf8 LBase64 LPyStr LPercent
  LJson MWire MEnvelope SEnvelope LEnvelope PEnvelope MStatusPb LStatusPb LWire MTimeout STimeout LTimeout MProtocol SProtocol MClient LProtocol
  PProtocol SClient LClient MServer MAsgi MWsgi SServer LServer LStream PResponse LRequest PRequest SLink LLink LLink2.
Import ListNotations.
Local Open Scope N_scope.

(** ** The request of a unary Connect call *)

(** The query string of a GET request. *)
Definition get_query (n zn : pystr) (y : bytes) (q : pystr) : Prop :=
  parse_qs q = [(lit "connect", [lit "v1"]); (lit "base64", [lit "1"]); (lit "compression", [zn]); (lit "encoding", [n]);
                (lit "message", [urlsafe_b64encode y])]
  /\ ascii q.

Lemma is_scalar_ascii s : ascii s -> Forall is_scalar s.
Proof. apply Forall_impl. intros c H. unfold is_scalar, is_surrogate. lia. Qed.
Lemma urlsafe_ascii y : is_bytes y -> ascii (urlsafe_b64encode y).
Proof.
  intro H. eapply Forall_impl; [|exact (urlsafe_chars y H)]. cbv beta. intros c [Hc| ->]; [now apply is_b64_ascii in Hc|lia].
Qed.

Lemma join_ascii sep l : ascii sep -> Forall ascii l -> ascii (join sep l).
Proof.
  intros S F. induction F as [|a l Fa Fl IH]; [constructor|]. destruct l as [|b l]; [exact Fa|].
  change (join sep (a :: b :: l)) with (a ++ sep ++ join sep (b :: l)). apply ascii_app; [exact Fa|]. apply ascii_app; [exact S|exact IH].
Qed.
Lemma urlencode_ascii ps q : urlencode ps = Some q -> ascii q.
Proof.
  unfold urlencode. destruct (urlencode_pairs ps) as [l|] eqn:E; [|discriminate]. intro H. injection H as <-.
  apply join_ascii; [repeat constructor|]. revert l E. induction ps as [|[k v] ps IH]; intros l E; cbn [urlencode_pairs] in E.
  - injection E as <-. constructor.
  - destruct (quote_plus k) as [k'|] eqn:Ek; [|discriminate]. destruct (quote_plus v) as [v'|] eqn:Ev; [|discriminate].
    destruct (urlencode_pairs ps) as [r|]; [|discriminate]. injection E as <-. constructor; [|auto].
    apply ascii_app; [apply qp_lt128; eapply quote_plus_chars; eauto|]. constructor; [lia|]. apply qp_lt128. eapply quote_plus_chars; eauto.
Qed.

(** What a unary call sends. *)
Lemma unary_sends {A B} (c : client A B) start m u hist timeout get now a d y : cl_proto c = PConnect -> called_with u hist ->
  codec_name_ok (k_name (cl_codec c)) -> ascii (z_name (cl_send c)) ->
  k_enc_req (cl_codec c) a = Ok d -> z_compress (cl_send c) d = Ok y -> is_bytes y ->
  let ccx := call_ctx c start m u timeout false get in
  exists rq, unary_request c ccx now a = Ok rq
    /\ rq_method rq = (if get then lit "GET" else lit "POST")
    /\ (if get then exists q, rq_url rq = call_url c m ++ 63 :: q /\ get_query (k_name (cl_codec c)) (z_name (cl_send c)) y q
        else rq_url rq = call_url c m)
    /\ rq_body rq = (if get then ([], None) else ([y], None)).
Proof.
  intros P C Nm Az Ed Ey By ccx. destruct (call_lines c start m u hist timeout false get C) as [I V]. fold ccx in I, V.
  assert (Ce : hh_get (h_allitems (cx_headers ccx)) (lit "content-encoding") = Some (z_name (cl_send c))).
  { rewrite hh_get_values, values_in_allitems by auto. rewrite V, P. destruct (effective_timeout timeout (cl_timeout c)); reflexivity. }
  unfold unary_request. rewrite Ed. cbn [bind]. rewrite Ey. cbn [bind].
  change (cx_http ccx) with (if get then lit "GET" else lit "POST"). change (cx_method ccx) with m. destruct get.
  - change (str_eqb (lit "GET") (lit "GET")) with true. cbv iota. unfold prepare_get_params. rewrite Ce.
    set (ps := ([(lit "connect", lit "v1"); (lit "base64", lit "1")] ++ [(lit "compression", z_name (cl_send c))] ++
         [(lit "encoding", k_name (cl_codec c)); (lit "message", urlsafe_b64encode y)])).
    destruct (urlencode_some ps) as (q&Eq).
    { assert (Q : forall s v, ascii (lit s) -> ascii v -> Forall is_scalar (fst (lit s, v)) /\ Forall is_scalar (snd (lit s, v)))
        by (intros; split; now apply is_scalar_ascii).
      unfold ps. cbn [List.app].
      constructor; [apply Q; repeat constructor|]. constructor; [apply Q; repeat constructor|].
      constructor; [apply Q; [repeat constructor|exact Az]|]. constructor; [apply Q; [repeat constructor|now apply codec_name_ascii]|].
      constructor; [apply Q; [repeat constructor|now apply urlsafe_ascii]|]. constructor. }
    rewrite Eq. eexists. split; [reflexivity|]. cbn [rq_method rq_url rq_body]. split; [reflexivity|]. split; [|reflexivity].
    exists q. split; [reflexivity|]. split.
    + rewrite (parse_qs_urlencode ps q Eq); [reflexivity|]. unfold ps. cbn [List.app map fst]. repeat constructor; cbn [In]; intuition discriminate.
    + eapply urlencode_ascii; eauto.
  - change (str_eqb (lit "POST") (lit "GET")) with false. cbv iota. eexists. split; [reflexivity|]. split; [reflexivity|]. split; reflexivity.
Qed.

(** What the server needs to find in the headers of a unary request. *)
Record unary_lines {A B} (c : client A B) (timeout : option Z) (get : bool) (hs : headers) : Prop := mk_ul {
  ul_inv : h_inv hs;
  ul_type : h_getall hs (lit "content-type") = if get then [] else [lit "application/" ++ k_name (cl_codec c)];
  ul_comp : h_getall hs (lit "content-encoding") = if get then [] else [z_name (cl_send c)];
  ul_accept : h_getall hs (lit "accept-encoding") = [accept_header_value c];
  ul_version : h_getall hs (lit "connect-protocol-version") = [lit "1"];
  ul_timeout : h_getall hs (lit "connect-timeout-ms")
               = match effective_timeout timeout (cl_timeout c) with Some t => [timeout_text PConnect t] | None => [] end
}.

Lemma call_unary_lines {A B} (c : client A B) start m u hist timeout get now a rq hs : cl_proto c = PConnect -> called_with u hist ->
  timeout_fits c timeout hist -> h_inv hs ->
  unary_request c (call_ctx c start m u timeout false get) now a = Ok rq ->
  (forall k, In k [lit "content-type"; lit "content-encoding"; lit "accept-encoding"; lit "connect-protocol-version"; lit "connect-timeout-ms"] ->
     h_getall hs k = values_in (rq_headers rq) k) ->
  unary_lines c timeout get hs.
Proof.
  intros P C Tf I Er H. destruct (call_lines c start m u hist timeout false get C) as [Ic V].
  pose proof (unary_request_headers c _ now a rq Er Ic) as Vr.
  change (cx_http (call_ctx c start m u timeout false get)) with (if get then lit "GET" else lit "POST") in Vr.
  assert (G : str_eqb (if get then lit "GET" else lit "POST") (lit "GET") = get) by (destruct get; reflexivity). rewrite G in Vr. clear G.
  unfold timeout_fits in Tf. rewrite P in *.
  constructor; [exact I| | | | |]; rewrite H by (cbn [In]; tauto); rewrite Vr, V.
  - destruct get, (effective_timeout timeout (cl_timeout c)); reflexivity.
  - destruct get, (effective_timeout timeout (cl_timeout c)); reflexivity.
  - change (same_name (lit "accept-encoding") (lit "content-type") || same_name (lit "accept-encoding") (lit "content-encoding")) with false.
    rewrite andb_false_r. destruct (effective_timeout timeout (cl_timeout c)); reflexivity.
  - change (same_name (lit "connect-protocol-version") (lit "content-type") || same_name (lit "connect-protocol-version") (lit "content-encoding")) with false.
    rewrite andb_false_r. destruct (effective_timeout timeout (cl_timeout c)); reflexivity.
  - change (same_name (lit "connect-timeout-ms") (lit "content-type") || same_name (lit "connect-timeout-ms") (lit "content-encoding")) with false.
    rewrite andb_false_r. destruct (effective_timeout timeout (cl_timeout c)); [reflexivity|]. exact Tf.
Qed.

Lemma unary_opens {A B} (c : client A B) (m : method_info) timeout hist get hs now scheme peer :
  cl_proto c = PConnect -> timeout_fits c timeout hist -> unary_lines c timeout get hs ->
  codec_name_ok (k_name (cl_codec c)) -> grpc_like (k_name (cl_codec c)) = false -> (get = true -> mi_idem m = NoSideEffects) ->
  let ct := h_get_default hs (lit "content-type") [] in
  negotiate_server_protocol ct = PConnect
  /\ (get = false -> codec_name_from_content_type PConnect false ct = k_name (cl_codec c))
  /\ exists cx, server_create_context now PConnect m (if get then lit "GET" else lit "POST") scheme hs peer = Ok cx
        /\ cx_method cx = m /\ cx_headers cx = hs /\ cx_http cx = (if get then lit "GET" else lit "POST")
        /\ match effective_timeout timeout (cl_timeout c) with
           | None => cx_timeout cx = None
           | Some t => exists r, cx_timeout cx = Some r /\ (r <= Z.max 0 t)%Z
           end.
Proof.
  intros P Tf [I Lt Lc La Lv Lm] Nm Gl Gi ct.
  assert (Ct : ct = if get then [] else lit "application/" ++ k_name (cl_codec c)).
  { unfold ct. destruct get; [|apply get_default_one; exact Lt]. unfold h_get_default. now rewrite getitem_getall, Lt. }
  rewrite Ct. split; [destruct get; [reflexivity|now apply negotiate_connect_unary]|]. split.
  { intros ->. exact (codec_name_client PConnect false _ Nm). }
  assert (T : exists t, connect_server_timeout (h_get hs (lit "connect-timeout-ms")) = Ok t
     /\ match effective_timeout timeout (cl_timeout c) with
           | None => t = None
           | Some x => exists r, t = Some r /\ (r <= Z.max 0 x)%Z
           end).
  { unfold timeout_fits in Tf. rewrite P in Tf. destruct (effective_timeout timeout (cl_timeout c)) as [t|].
    - rewrite (get_one _ _ _ Lm). destruct (PTimeout.C30_connect_roundtrip t ltac:(lia)) as [C _].
      cbn [timeout_text]. rewrite C by lia. exists (Some t). split; [reflexivity|]. exists t. split; [reflexivity|lia].
    - rewrite (get_none _ _ Lm). exists None; auto. }
  destruct T as (t&Et&Ht). unfold server_create_context.
  assert (Mp : check_http_method PConnect (mi_idem m) (if get then lit "GET" else lit "POST") = None).
  { apply check_method_permitted. unfold permitted. destruct get; [rewrite Gi by auto; cbn; auto|]. destruct (mi_idem m); cbn; auto. }
  rewrite Mp. eexists. split; [|split; [|split; [|split; [|]]]].
  - cbv zeta. rewrite (get_default_one _ _ _ _ Lv), str_eqb_refl, Et. cbn [bind]. reflexivity.
  - reflexivity.
  - reflexivity.
  - reflexivity.
  - exact Ht.
Qed.

(** ** The answer *)
Definition unary_resp {A B} (k : codec A B) (z : compression) (steps : list (rstate * B)) (rs : rstate) (e : option interrupt)
    (R : response) : Prop :=
  match e, steps with
  | None, [(_, b)] => exists d y, k_enc_res k b = Ok d /\ z_compress z d = Ok y
      /\ R = mk_resp 200 ([(lit "content-type", connect_unary_prefix ++ k_name k); (lit "content-encoding", z_name z);
                           (lit "vary", lit "Accept-Encoding")] ++ context_headers rs) y []
  | Some (IExn x), [] => exists ct body, same_name ct (lit "content-type") = true /\ we_to_json_bytes (we_from_exception x) = Ok body
      /\ R = mk_resp (fst (we_to_http_status (we_from_exception x))) ((ct, lit "application/json") :: context_headers rs) body []
  | _, _ => False
  end.

Lemma context_ascii rs : ascii_pairs (h_allitems (rs_h rs)) -> ascii_pairs (h_allitems (rs_t rs)) -> ascii_pairs (context_headers rs).
Proof.
  intros H T. unfold context_headers. apply Forall_app. split; [exact H|]. induction T as [|[a v] l [Ha Hv] Hl IH]; cbn [map]; constructor; auto.
  split; [|exact Hv]. cbn [fst]. apply ascii_app; [repeat constructor|exact Ha].
Qed.
Lemma prefix_ascii n : codec_name_ok n -> ascii (connect_unary_prefix ++ n).
Proof. intro H. apply ascii_app; [repeat constructor|now apply codec_name_ascii]. Qed.

Lemma error_body x : sendable_error PConnect x -> exists b, we_to_json_bytes (we_from_exception x) = Ok b.
Proof. intro H. destruct (we_json_roundtrip (we_from_exception x) 0 Unavailable H) as (b&_&E&_). eauto. Qed.

Lemma io_bind_res {X Y} (r : res X) (k : X -> io Y) s v : r = Ok v -> io_bind (io_res r) k s = k v s.
Proof. intros ->. reflexivity. Qed.

Lemma asgi_unary_answer {A B} (ap : app A B) now sc en mi f hs cx params k z x a (steps : list (rstate * B)) rs e max :
  open_request ap now sc = Ok (EpUnary mi f, hs, PConnect, cx) -> select_codec ap sc (EpUnary mi f) hs PConnect = Ok (params, k) ->
  sends_ok (en_send en) ->
  (if str_eqb (sc_method sc) (lit "GET") then match read_get_request ap k params with Ok a => inl a | Raise e => inr (IExn e) end
   else read_post_request ap k hs (en_recv en)) = inl a ->
  negotiate_compression (h_get_default hs (lit "accept-encoding") []) (ap_comps ap) = z ->
  dget (ap_comps ap) x = Some z -> ascii (z_name z) -> codec_name_ok (k_name k) ->
  returns (f a cx) ([], None) steps rs e -> sendable_answer ap k max steps rs e ->
  exists R, asgi_answers (asgi_call ap now sc en) R /\ unary_resp k z steps rs e R /\ ar_inv (asgi_call ap now sc en) = [InvMsg a].
Proof.
  intros Ho Hk So Hr Hz Dz Az Kn Rt (S1&S2&S3&_). unfold asgi_call. rewrite Ho, Hk. unfold handle_unary_connect. rewrite Hr, Hz. clear Ho Hk Hr Hz.
  pose proof (context_ascii rs S2 S3) as Ca. pose proof (encode_pairs_ascii _ Ca) as Ce.
  unfold returns in Rt. destruct (run_fn (f a cx) ([], None) rs_new) as [[b|i] r].
  - destruct Rt as (->&->&->). cbn [map snd] in S1. inversion S1 as [|y l (d&Ed&_&Zd) _]; subst. destruct (Zd _ _ Dz) as (y&Ey).
    unfold send_unary_response.
    assert (Ct : encode_str (connect_unary_prefix ++ k_name k) = Ok (connect_unary_prefix ++ k_name k)).
    { unfold encode_str. now rewrite (ascii_encode _ (prefix_ascii _ Kn)). }
    assert (Cz : encode_str (z_name z) = Ok (z_name z)) by (unfold encode_str; now rewrite (ascii_encode _ Az)).
    rewrite (io_bind_res _ _ _ _ Ed), (io_bind_res _ _ _ _ Ct), (io_bind_res _ _ _ _ Ey), (io_bind_res _ _ _ _ Cz), (io_bind_res _ _ _ _ Ce).
    rewrite (io_bind_ok _ _ _ _ _ (sends_ok_send _ _ _ So)), (sends_ok_send _ _ _ So). cbv beta iota.
    eexists (mk_resp 200 _ y []). split; [|split; [|reflexivity]].
    + exists None. cbn [re_status re_headers re_body re_trailers ar_events as_ev]. split; [|split; [reflexivity|split; [|constructor]]].
      * exists [], y. split; reflexivity.
      * constructor; [split; [repeat constructor|exact (prefix_ascii _ Kn)]|]. constructor; [split; [repeat constructor|exact Az]|].
        constructor; [split; repeat constructor|exact Ca].
    + cbn [unary_resp]. exists d, y. auto.
  - destruct Rt as (->&->&->). destruct i as [x'|]; [|destruct S1]. destruct S1 as [S1 Nh]. destruct (error_body x' S1) as (body&Eb).
    unfold call_error, handle_error.
    assert (Em : match x' with
                    | EHttp status hs => do hs <- encode_pairs hs ; Ok (status, hs, [])
                    | _ => let w := we_from_exception x' in
                           do body <- we_to_json_bytes w ;
                           Ok (fst (we_to_http_status w), [(lit "content-type", lit "application/json")], body)
                    end = Ok (fst (we_to_http_status (we_from_exception x')), [(lit "content-type", lit "application/json")], body)).
    { destruct x'; try discriminate; cbv zeta; rewrite Eb; reflexivity. }
    rewrite (io_bind_res _ _ _ _ Em). cbv beta iota. rewrite (io_bind_res _ _ _ _ Ce).
    rewrite (io_bind_ok _ _ _ _ _ (sends_ok_send _ _ _ So)), (sends_ok_send _ _ _ So). cbv beta iota.
    eexists (mk_resp _ ((lit "content-type", lit "application/json") :: context_headers _) body []). split; [|split; [|reflexivity]].
    + exists None. cbn [re_status re_headers re_body re_trailers ar_events as_ev]. split; [|split; [reflexivity|split; [|constructor]]].
      * exists [], body. split; reflexivity.
      * constructor; [split; repeat constructor|exact Ca].
    + cbn [unary_resp]. exists (lit "content-type"), body. auto.
Qed.

Lemma wsgi_unary_answer {A B} (ap : app A B) now q mi f hs cx k z x a (steps : list (rstate * B)) rs e max :
  wsgi_open_request ap now q = Ok (EpUnary mi f, hs, PConnect, cx) -> (forall i, wq_drain q i = None) ->
  (if str_eqb (cx_http cx) (lit "GET") then wsgi_get_request ap q else wsgi_post_request ap q hs) = Ok (a, k) ->
  negotiate_compression (h_get_default hs (lit "accept-encoding") (lit "identity")) (ap_comps ap) = z ->
  dget (ap_comps ap) x = Some z -> ascii (z_name z) -> codec_name_ok (k_name k) ->
  returns (f a cx) ([], None) steps rs e -> sendable_answer ap k max steps rs e ->
  exists R, wsgi_answers (wsgi_call ap now q) R /\ unary_resp k z steps rs e R /\ wr_inv (wsgi_call ap now q) = [InvMsg a].
Proof.
  intros Ho Hd Hr Hz Dz Az Kn Rt (S1&S2&S3&_). unfold wsgi_call. rewrite Ho. unfold wsgi_unary. rewrite Hr. cbv zeta. rewrite Hz. clear Ho Hr Hz.
  pose proof (context_ascii rs S2 S3) as Ca.
  unfold returns in Rt. destruct (run_fn (f a cx) ([], None) rs_new) as [[b|i] r].
  - destruct Rt as (->&->&->). cbn [map snd] in S1. inversion S1 as [|y l (d&Ed&_&Zd) _]; subst. destruct (Zd _ _ Dz) as (y&Ey).
    rewrite Ed. cbn [bind]. rewrite Ey. cbn [bind].
    eexists (mk_resp 200 _ y []). split; [|split; [|reflexivity]].
    + split; [reflexivity|]. exists (lit "OK"), None. cbn [re_status re_headers re_body re_trailers wr_events].
      split; [|split; [reflexivity|split; [|constructor]]].
      * exists [y], []. split; [reflexivity|]. cbn. now rewrite !app_nil_r.
      * constructor; [split; [repeat constructor|exact (prefix_ascii _ Kn)]|]. constructor; [split; [repeat constructor|exact Az]|].
        constructor; [split; repeat constructor|exact Ca].
    + cbn [unary_resp]. exists d, y. auto.
  - destruct Rt as (->&->&->). destruct i as [x'|]; [|destruct S1]. destruct S1 as [S1 Nh]. destruct (error_body x' S1) as (body&Eb).
    unfold wsgi_call_error. assert (Dr : drain q 1 = None) by (unfold drain; rewrite Hd; now destruct (startswith _ _)). rewrite Dr.
    assert (Em : forall r, wsgi_handle_error x' (Some r) = Ok
      [WStart (status_line (fst (we_to_http_status (we_from_exception x'))) (snd (we_to_http_status (we_from_exception x'))))
              ((lit "Content-Type", lit "application/json") :: context_headers r); WBody body]).
    { intro r0. unfold wsgi_handle_error. destruct x'; try discriminate; cbv zeta; rewrite Eb; reflexivity. }
    rewrite Em.
    eexists (mk_resp _ ((lit "Content-Type", lit "application/json") :: context_headers _) body []). split; [|split; [|reflexivity]].
    + split; [reflexivity|]. exists (snd (we_to_http_status (we_from_exception x'))), None.
      cbn [re_status re_headers re_body re_trailers wr_events].
      split; [|split; [reflexivity|split; [|constructor]]].
      * exists [body], []. cbn [List.app]. rewrite without_logs_app, without_logs_maybe. split; [reflexivity|]. cbn. now rewrite !app_nil_r.
      * constructor; [split; repeat constructor|exact Ca].
    + cbn [unary_resp]. exists (lit "Content-Type"), body. auto.
Qed.

(** ** The client reads the answer *)
Definition marked (l : list (pystr * pystr)) : list (pystr * pystr) := map (fun kv => (lit "trailer-" ++ fst kv, snd kv)) l.

Lemma lower_mark k : lower (lit "trailer-" ++ k) = lit "trailer-" ++ lower k.
Proof. unfold lower. rewrite map_app. reflexivity. Qed.
Lemma same_marked a b : same_name (lit "trailer-" ++ a) (lit "trailer-" ++ b) = same_name a b.
Proof. unfold same_name. rewrite !lower_mark. apply str_eqb_common. Qed.
Lemma marked_values l k : values_in (marked l) (trailer_mark ++ k) = values_in l k.
Proof.
  induction l as [|[a v] l IH]; [reflexivity|]. cbn [marked map fst snd]. rewrite !values_in_cons. unfold trailer_mark. rewrite same_marked.
  unfold trailer_mark in IH. unfold marked in IH. now rewrite IH.
Qed.
Lemma marked_none l k : startswith trailer_mark (lower k) = false -> values_in (marked l) k = [].
Proof.
  intro H. induction l as [|[a v] l IH]; [reflexivity|]. cbn [marked map fst snd]. rewrite values_in_cons. fold (marked l). rewrite IH.
  destruct (same_name k (lit "trailer-" ++ a)) eqn:S; [|reflexivity]. exfalso. unfold same_name in S.
  destruct (str_eqb_spec (lower k) (lower (lit "trailer-" ++ a))) as [E|]; [|discriminate].
  rewrite E, lower_mark in H. unfold trailer_mark in H. now rewrite startswith_app in H.
Qed.
Lemma context_values rs k : rs_ok rs -> startswith trailer_mark (lower k) = false -> values_in (context_headers rs) k = h_getall (rs_h rs) k.
Proof.
  intros [Ih It] H. unfold context_headers. rewrite values_in_app, values_in_allitems by auto. fold (marked (h_allitems (rs_t rs))).
  rewrite marked_none by auto. apply app_nil_r.
Qed.
Lemma context_trailers rs k : rs_ok rs ->
  values_in (context_headers rs) (trailer_mark ++ k) = h_getall (rs_h rs) (trailer_mark ++ k) ++ h_getall (rs_t rs) k.
Proof.
  intros [Ih It]. unfold context_headers. rewrite values_in_app, values_in_allitems by auto. fold (marked (h_allitems (rs_t rs))).
  rewrite marked_values. now rewrite values_in_allitems.
Qed.

Lemma unary_head rs hd : rs_ok rs -> Forall (fun kv => unary_line (fst kv) = true) hd ->
  (forall k, unary_line k = false -> startswith trailer_mark (lower k) = false -> values_in (hd ++ context_headers rs) k = h_getall (rs_h rs) k)
  /\ (forall k, values_in (hd ++ context_headers rs) (trailer_mark ++ k) = h_getall (rs_h rs) (trailer_mark ++ k) ++ h_getall (rs_t rs) k).
Proof.
  intros Ro F.
  assert (N : forall k, unary_line k = false -> values_in hd k = []).
  { intros k H. induction F as [|[a v] l Fa Fl IH]; [reflexivity|]. rewrite values_in_cons, IH.
    destruct (same_name k a) eqn:S; [|reflexivity]. exfalso. cbn [fst] in Fa. unfold unary_line in *.
    rewrite <- !(same_name_trans _ _ _ S) in Fa. congruence. }
  split; intro k.
  - intros H1 H2. rewrite values_in_app, N by auto. now apply context_values.
  - rewrite values_in_app, N by reflexivity. now apply context_trailers.
Qed.

Lemma unary_metadata_seen inflate rs hd st body r : rs_ok rs -> Forall (fun kv => unary_line (fst kv) = true) hd ->
  delivered_unary inflate (mk_resp st (hd ++ context_headers rs) body []) r ->
  exists md, handle_response_headers (Some md_new) (fr_headers r) = Some md /\ unary_metadata (rs_h rs) (rs_t rs) md.
Proof.
  intros Ro F (_&D2&_&D4&_). cbn [re_headers] in D2. destruct (metadata_headers (fr_headers r) D4) as (md&E&_&M1&M2).
  destruct (unary_head rs hd Ro F) as [V1 V2]. exists md. split; [exact E|]. split; [|split].
  - intros k Hl Hm Ht. rewrite M1. change trailer_prefix with trailer_mark. rewrite Hm.
    rewrite <- (V1 k Hl Hm) in *. destruct (D2 k) as [G|[G1 G2]]; [|exact G|destruct Ht; congruence].
    unfold unary_line in Hl. apply orb_false_iff in Hl. destruct Hl as [Hl _]. now apply orb_false_iff in Hl.
  - intros k Hm. rewrite M1. change trailer_prefix with trailer_mark. now rewrite Hm.
  - intro k. rewrite M2. change trailer_prefix with trailer_mark. rewrite <- V2.
    destruct (D2 (trailer_mark ++ k) eq_refl) as [G|[G _]]; [exact G|]. pose proof (trailer_not_transport k). unfold trailer_mark, trailer_prefix in *. congruence.
Qed.

Lemma code_status c : fst (error_to_http_status c) <> 200.
Proof. destruct c; discriminate. Qed.

Lemma unary_reads {A B} (c : client A B) (ap : app A B) (k : codec A B) z zc inflate (steps : list (rstate * B)) rs e R r :
  cl_proto c = PConnect -> k_name k = k_name (cl_codec c) -> codec_name_ok (k_name (cl_codec c)) ->
  dget (cl_comps c) (z_name z) = Some zc -> z_name z <> [] ->
  (forall d y, z_compress z d = Ok y -> if str_eqb (z_name z) (lit "identity") then y = d else inflate (z_name z) y = Some d) ->
  (forall b d, k_enc_res k b = Ok d -> k_dec_res (cl_codec c) d = Ok b) ->
  rs_ok rs -> unary_resp k z steps rs e R -> sendable_answer ap k (cl_max c) steps rs e -> delivered_unary inflate R r ->
  exists md v, unary_response c r (Some md_new) = (v, Some md) /\ unary_metadata (rs_h rs) (rs_t rs) md
    /\ match e, steps with
       | None, [(_, b)] => v = Ok b
       | Some (IExn x), [] => exists x', v = Raise x' /\ is_connect x' = true /\ same_error x x'
       | _, _ => False
       end.
Proof.
  intros P Kn Nm Dc Nz Zi De Ro Ur (S1&_&_&S4) D. destruct e as [[x|]|], steps as [|[r0 b] [|s2 steps]]; try (destruct Ur; fail).
  - destruct Ur as (ct&body&Sc&Eb&->). destruct S1 as [S1 Nh].
    assert (Fh : Forall (fun kv : pystr * pystr => unary_line (fst kv) = true) [(ct, lit "application/json")]).
    { constructor; [|constructor]. cbn [fst]. unfold unary_line. now rewrite Sc. }
    destruct (unary_metadata_seen inflate rs _ _ _ _ Ro Fh D) as (md&E&M).
    destruct D as (D1&D2&D3&D4&D5). cbn [re_status re_headers re_body] in *.
    destruct (we_json_roundtrip (we_from_exception x) (fr_status r) Unavailable S1) as (b'&d&Eb'&Ej&Ew).
    assert (b' = body) by congruence. subst b'.
    set (w := we_from_exception x) in *.
    assert (Vc : values_in ((ct, lit "application/json") :: context_headers rs) (lit "content-encoding") = []).
    { rewrite values_in_cons. rewrite context_values by auto. rewrite S4.
      rewrite same_name_sym, (same_name_trans _ _ (lit "content-encoding") Sc). reflexivity. }
    rewrite Vc in *.
    assert (Ct : hh_get (fr_headers r) (lit "content-type") = Some (lit "application/json")).
    { rewrite hh_get_values. destruct (D2 (lit "content-type") eq_refl) as [G|[G _]]; [|discriminate G]. rewrite G, values_in_cons.
      rewrite same_name_sym, Sc. reflexivity. }
    exists md, (Raise (we_to_exception (mk_we (we_code w) (we_msg w) (map recv_detail (we_details w))))).
    split; [|split; [exact M|]].
    + unfold unary_response. rewrite Ct, P, D1. unfold validate_response, we_to_http_status.
      replace (fst (error_to_http_status (we_code w)) =? 200) with false by (pose proof (code_status (we_code w)); lia).
      change (str_eqb (normalize_content_type (lit "application/json")) (lit "application/json")) with true. cbn [negb].
      unfold handle_response_compression. rewrite hh_get_values. change (client_compression_header PConnect false) with (lit "content-encoding").
      assert (Ve : values_in (fr_headers r) (lit "content-encoding") = []) by (destruct D3; assumption). rewrite Ve. cbn [hd_error]. rewrite E.
      unfold we_from_response. rewrite D5, Ej. unfold we_to_http_status in D1. rewrite <- D1, Ew. reflexivity.
    + eexists. split; [reflexivity|]. split; [reflexivity|].
      destruct (same_end_received PConnect (Some (IExn x)) S1) as (x'&Ex&Sx). cbn [reported option_map] in Ex. injection Ex as <-. exact Sx.
  - destruct Ur as (d&y&Ed&Ey&->). cbn [map snd] in S1. inversion S1 as [|b1 l (d'&Ed'&Fi&_) _]; subst. assert (d' = d) by congruence. subst d'.
    assert (Fh : Forall (fun kv : pystr * pystr => unary_line (fst kv) = true)
      [(lit "content-type", connect_unary_prefix ++ k_name k); (lit "content-encoding", z_name z); (lit "vary", lit "Accept-Encoding")])
      by repeat constructor.
    destruct (unary_metadata_seen inflate rs _ _ _ _ Ro Fh D) as (md&E&M).
    destruct D as (D1&D2&D3&D4&D5). cbn [re_status re_headers re_body] in *.
    assert (Vc : values_in ([(lit "content-type", connect_unary_prefix ++ k_name k); (lit "content-encoding", z_name z);
                           (lit "vary", lit "Accept-Encoding")] ++ context_headers rs) (lit "content-encoding") = [z_name z]).
    { cbn [List.app]. rewrite !values_in_cons. rewrite context_values by auto. rewrite S4. reflexivity. }
    rewrite Vc in *.
    assert (Ct : hh_get (fr_headers r) (lit "content-type") = Some (lit "application/" ++ k_name (cl_codec c))).
    { rewrite hh_get_values. destruct (D2 (lit "content-type") eq_refl) as [G|[G _]]; [|discriminate G]. rewrite G. cbn [List.app].
      rewrite values_in_cons, <- Kn. reflexivity. }
    assert (Co : fr_content r = d).
    { specialize (Zi d y Ey). destruct (str_eqb (z_name z) (lit "identity")); congruence. }
    exists md, (Ok b). split; [|split; [exact M|reflexivity]].
    unfold unary_response. rewrite Ct, P, D1, validate_unary_ok by auto.
    assert (Hc : handle_response_compression PConnect false (fr_headers r) (cl_comps c) = Ok identity_comp
                 \/ handle_response_compression PConnect false (fr_headers r) (cl_comps c) = Ok zc).
    { unfold handle_response_compression. rewrite hh_get_values. change (client_compression_header PConnect false) with (lit "content-encoding").
      destruct D3 as [G|G]; rewrite G; cbn [hd_error]; [left; reflexivity|right].
      destruct (z_name z) as [|c0 s0] eqn:Zn; [congruence|]. now rewrite Dc. }
    assert (Dv : match cl_max c with
             | Some mx => if mx <? lenN (fr_content r) then Raise (too_large mx)
                          else k_dec_res (cl_codec c) (fr_content r)
             | None => k_dec_res (cl_codec c) (fr_content r)
             end = Ok b).
    { rewrite Co, (De b d Ed). destruct (cl_max c) as [mx|]; [|reflexivity]. unfold fits_in in Fi. now replace (mx <? lenN d) with false by lia. }
    destruct Hc as [-> | ->]; rewrite E, Dv; reflexivity.
Qed.

(** ** The request arrives *)

Lemma path_no_query m : ~ In 63 (mi_service m) -> ~ In 63 (mi_name m) -> ~ In 63 (lit "/" ++ mi_service m ++ lit "/" ++ mi_name m).
Proof.
  intros F2 F3 H. apply in_app_or in H. destruct H as [H|H]; [cbn in H; intuition discriminate|].
  apply in_app_or in H. destruct H as [H|H]; [contradiction|].
  apply in_app_or in H. destruct H as [H|H]; [cbn in H; intuition discriminate|contradiction].
Qed.
Lemma split_at (c : N) a b a' b' : ~ In c a -> ~ In c a' -> a ++ c :: b = a' ++ c :: b' -> a = a' /\ b = b'.
Proof.
  revert a'. induction a as [|x a IH]; intros [|x' a'] H H' E; cbn [List.app] in E.
  - injection E as ->. auto.
  - injection E as -> _. exfalso. apply H'. now left.
  - injection E as -> _. exfalso. apply H. now left.
  - injection E as -> E. destruct (IH a') as [-> ->]; auto.
    + intro X. apply H. now right.
    + intro X. apply H'. now right.
Qed.

Lemma unary_target {A B} (c : client A B) m rq path query (get : bool) zn n y : ~ In 63 (mi_service m) -> ~ In 63 (mi_name m) ->
  (if get then exists q, rq_url rq = call_url c m ++ 63 :: q /\ get_query n zn y q else rq_url rq = call_url c m) ->
  request_target (cl_address c) rq path query ->
  path = lit "/" ++ mi_service m ++ lit "/" ++ mi_name m /\ (get = true -> get_query n zn y query).
Proof.
  intros F2 F3 U (P1&P2). pose proof (path_no_query m F2 F3) as Q. unfold call_url in U. destruct get.
  - destruct U as (q&U&G). rewrite U in P2. destruct P2 as [[E _]|E].
    + rewrite <- !app_assoc in E. apply app_inv_head in E. exfalso. apply P1. rewrite <- E. rewrite !in_app_iff. cbn. tauto.
    + rewrite <- !app_assoc in E. apply app_inv_head in E.
      assert (E' : (lit "/" ++ mi_service m ++ lit "/" ++ mi_name m) ++ 63 :: q = path ++ 63 :: query) by (rewrite <- !app_assoc; exact E).
      apply split_at in E'; auto. destruct E' as [<- <-]. auto.
  - rewrite U in P2. split; [|discriminate]. destruct P2 as [[E _]|E]; apply app_inv_head in E.
    + now symmetry.
    + exfalso. apply Q. rewrite E. apply in_or_app. right. left. reflexivity.
Qed.

Lemma get_params n zn y : forall ps, ps = [(lit "connect", [lit "v1"]); (lit "base64", [lit "1"]); (lit "compression", [zn]); (lit "encoding", [n]);
                (lit "message", [urlsafe_b64encode y])] ->
  param ps (lit "message") = Some (urlsafe_b64encode y) /\ param ps (lit "base64") = Some (lit "1")
  /\ param ps (lit "compression") = Some zn /\ param ps (lit "encoding") = Some n.
Proof. intros ps ->. repeat split. Qed.

Lemma read_get_written {A B} (ap : app A B) (k : codec A B) z params zn n y d a : is_bytes y ->
  params = [(lit "connect", [lit "v1"]); (lit "base64", [lit "1"]); (lit "compression", [zn]); (lit "encoding", [n]);
                (lit "message", [urlsafe_b64encode y])] ->
  dget (ap_comps ap) zn = Some z -> z_decompress z y = Ok d -> (y = [] -> d = []) -> k_dec_req k d = Ok a ->
  read_get_request ap k params = Ok a.
Proof.
  intros By Ep Dz Zd Ze Ka. destruct (get_params n zn y params Ep) as (G1&G2&G3&_). unfold read_get_request.
  rewrite G1, G2, G3. rewrite str_eqb_refl. change (lit "===") with [61; 61; 61]. rewrite urlsafe_roundtrip by auto. cbn [bind]. rewrite Dz.
  destruct y as [|b y]; cbn [nonempty].
  - rewrite (Ze eq_refl) in Ka. exact Ka.
  - rewrite Zd. exact Ka.
Qed.
Lemma wsgi_get_written {A B} (ap : app A B) (k : codec A B) q z zn n y d a : is_bytes y ->
  parse_qs (env_default q "QUERY_STRING" []) = [(lit "connect", [lit "v1"]); (lit "base64", [lit "1"]); (lit "compression", [zn]); (lit "encoding", [n]);
                (lit "message", [urlsafe_b64encode y])] ->
  dget (ap_comps ap) zn = Some z -> z_decompress z y = Ok d -> dget (ap_codecs ap) n = Some k -> k_dec_req k d = Ok a ->
  wsgi_get_request ap q = Ok (a, k).
Proof.
  intros By Ep Dz Zd Kk Ka. destruct (get_params n zn y _ Ep) as (G1&G2&G3&G4). unfold wsgi_get_request. cbv zeta.
  rewrite G1, G2, G3, G4. rewrite str_eqb_refl. change (lit "===") with [61; 61; 61]. rewrite urlsafe_roundtrip by auto. cbn [bind]. rewrite Dz.
  rewrite Zd. cbn [bind]. rewrite Kk, Ka. reflexivity.
Qed.

Lemma exists_not l k a : existsb (same_name k) l = false -> existsb (fun b => same_name b a) l = true -> same_name k a = false.
Proof.
  induction l as [|b l IH]; intros Hl Ha; [discriminate|]. cbn [existsb] in *. apply orb_false_iff in Hl. destruct Hl as [Hb Hl].
  apply orb_true_iff in Ha. destruct Ha as [Ha|Ha]; [|auto].
  rewrite (same_name_sym k a), <- (same_name_trans _ _ k Ha), same_name_sym. exact Hb.
Qed.

Lemma asgi_unary_opens {A B} inflate (c : client A B) (ap : app A B) m mi f k start u hist timeout get cnow a d y rq now sc en :
  unary_connected false inflate c ap m (EpUnary mi f) k u hist timeout get ->
  k_enc_req (cl_codec c) a = Ok d -> z_compress (cl_send c) d = Ok y -> fits_in (ap_max ap) d -> is_bytes y ->
  unary_request c (call_ctx c start m u timeout false get) cnow a = Ok rq ->
  rq_method rq = (if get then lit "GET" else lit "POST") ->
  (if get then exists q, rq_url rq = call_url c m ++ 63 :: q /\ get_query (k_name (cl_codec c)) (z_name (cl_send c)) y q
   else rq_url rq = call_url c m) ->
  rq_body rq = (if get then ([], None) else ([y], None)) ->
  arrives_asgi (cl_address c) rq sc en ->
  exists hs cx params, open_request ap now sc = Ok (EpUnary mi f, hs, PConnect, cx)
    /\ select_codec ap sc (EpUnary mi f) hs PConnect = Ok (params, k)
    /\ context_of PConnect false hist (effective_timeout timeout (cl_timeout c)) mi cx
    /\ h_get_default hs (lit "accept-encoding") [] = accept_header_value c
    /\ (if str_eqb (sc_method sc) (lit "GET") then match read_get_request ap k params with Ok a => inl a | Raise e => inr (IExn e) end
        else read_post_request ap k hs (en_recv en)) = inl a.
Proof.
  intros (P&F&C&_&Tf&Gl&Zl&Az&(rz&Dz&Un)&_&Gi) Ed Ey Fi By Er Rm Ru Rb (A1&A2&A3&A4&A5&A6&A7&A8&A9&A10).
  destruct (process_headers_values (sc_headers sc) h_empty h_inv_empty A4) as (hs&Eh&Ih&Vh).
  destruct (call_lines c start m u hist timeout false get C) as [Ic _].
  pose proof (unary_request_headers c _ cnow a rq Er Ic) as Vr.
  assert (Hv : forall k, transport_name k = false \/ values_in (rq_headers rq) k <> [] -> h_getall hs k = values_in (rq_headers rq) k).
  { intros x Hx. rewrite Vh. change (h_getall h_empty x) with (@nil pystr). cbn [List.app].
    destruct (A3 x) as [E|[E1 E2]]; [exact E|]. destruct Hx; congruence. }
  assert (Va : values_in (rq_headers rq) (lit "accept-encoding") <> []).
  { rewrite Vr.
    change (same_name (lit "accept-encoding") (lit "content-type") || same_name (lit "accept-encoding") (lit "content-encoding")) with false.
    rewrite andb_false_r. destruct (call_lines c start m u hist timeout false get C) as [_ V]. rewrite V, P.
    destruct (effective_timeout timeout (cl_timeout c)); discriminate. }
  assert (UL : unary_lines c timeout get hs).
  { apply (call_unary_lines c start m u hist timeout get cnow a rq); auto.
    intros x Hx. apply Hv. cbn [In] in Hx. destruct Hx as [<-|[<-|[<-|[<-|[<-|[]]]]]]; [left; reflexivity|left; reflexivity|right; exact Va|left; reflexivity|left; reflexivity]. }
  destruct F as (F1&F2&F3&F4&F5&F6&F7&_).
  destruct (unary_opens c mi timeout hist get hs now (sc_scheme sc)
     (match sc_client sc with Some (h, p) => Some (h ++ lit ":" ++ p) | None => None end) P Tf UL F4 Gl Gi) as (O1&O2&cx&O4&O5&O6&O7&O8).
  destruct (unary_target c m rq _ _ get _ _ _ F2 F3 Ru A2) as [Path Query].
  assert (Meth : sc_method sc = if get then lit "GET" else lit "POST") by congruence.
  destruct (Un d y Ey) as (U1&U2&_).
  set (params := if get then parse_qs (sc_query sc) else []).
  exists hs, cx, params. split; [|split; [|split; [|split]]].
  - unfold open_request, find_endpoint. rewrite Path, F1. cbn [bind]. rewrite Eh. cbn [bind]. cbv zeta. rewrite O1. cbn [uses_trailers andb].
    rewrite Meth. exact (f_equal (fun r => bind r (fun cx => Ok (EpUnary mi f, hs, PConnect, cx))) O4).
  - unfold select_codec, params. rewrite Meth. destruct get.
    + change (str_eqb (lit "GET") (lit "GET")) with true. cbv iota. destruct (Query eq_refl) as [Q1 Q2].
      rewrite (ascii_utf8 _ Q2). cbn [bind fst snd]. destruct (get_params _ _ _ _ Q1) as (_&_&_&G4). rewrite G4, F5. reflexivity.
    + change (str_eqb (lit "POST") (lit "GET")) with false. cbv iota. cbn [bind fst snd is_unary negb]. rewrite (O2 eq_refl), F5. reflexivity.
  - split; [exact O5|]. split; [|exact O8]. intros x L T. rewrite O6.
    assert (L' : client_line (cl_proto c) false x = false) by (rewrite P; exact L).
    pose proof (call_user_line c start m u hist timeout false get x C L') as Lu.
    assert (Vx : values_in (rq_headers rq) x = values_of hist x).
    { rewrite Vr, Lu. replace (same_name x (lit "content-type") || same_name x (lit "content-encoding")) with false.
      - now rewrite andb_false_r.
      - symmetry. unfold client_line in L. apply orb_false_iff in L. destruct L as [L _]. apply orb_false_iff.
        split; apply (exists_not _ _ _ L); reflexivity. }
    rewrite <- Vx in *. now apply Hv.
  - apply get_default_one. apply UL.
  - rewrite Meth. destruct get.
    + change (str_eqb (lit "GET") (lit "GET")) with true. cbv iota. destruct (Query eq_refl) as [Q1 _]. unfold params.
      rewrite (read_get_written ap k rz _ (z_name (cl_send c)) (k_name (cl_codec c)) y d a); auto.
    + change (str_eqb (lit "POST") (lit "GET")) with false. cbv iota. unfold read_post_request.
      destruct (read_body_receives _ _ A7) as (ch&Eb&Ec). rewrite Eb. cbv beta iota zeta.
      rewrite (get_default_one _ _ _ _ (ul_comp _ _ _ _ UL)), Zl, Dz.
      rewrite Rb in Ec. cbn [fst List.concat] in Ec. rewrite app_nil_r in Ec. rewrite Ec.
      assert (Z : (if nonempty y then z_decompress rz y else Ok y) = Ok d).
      { destruct y as [|b y]; cbn [nonempty]; [now rewrite (U2 eq_refl)|exact U1]. }
      refine (eq_trans (f_equal (fun x => match x with Ok _ => _ | Raise _ => _ end) Z) _). rewrite (F7 a d Ed). destruct (ap_max ap) as [mx|]; [|reflexivity]. cbn [fits_in] in Fi. now replace (mx <? lenN d) with false by lia.
Qed.

(** WSGI: the body of a unary POST. *)
Lemma available_pieces pieces : Forall (fun b => b <> []) pieces -> available (map RD pieces) = List.concat pieces.
Proof. induction 1 as [|b l Hb Hl IH]; [reflexivity|]. cbn [map available List.concat]. destruct b; [congruence|]. now rewrite IH. Qed.
Lemma eof_pieces pieces : Forall (fun b => b <> []) pieces -> eof_final (map RD pieces).
Proof.
  intros F x y E. exfalso. revert x E. induction F as [|b l Hb Hl IH]; intros [|r x] E; try discriminate.
  - injection E as E _. congruence.
  - injection E as _ E. eauto.
Qed.

Lemma wsgi_body_read q pieces y : wq_input q = map RD pieces -> Forall (fun b => b <> []) pieces -> List.concat pieces = y ->
  lenN y < 4294967296 ->
  (env_get q "CONTENT_LENGTH" = None \/ env_get q "CONTENT_LENGTH" = Some (dec_of_N (lenN y))) ->
  exists n, match env_get q "CONTENT_LENGTH" with
            | None | Some [] => Ok 0%Z
            | Some s => match int_of_str s with
                        | Some n => Ok n
                        | None => Raise (EOther KValue (lit "invalid literal for int() with base 10: '" ++ s ++ lit "'"))
                        end
            end = Ok n
    /\ (if (0 <? n)%Z then read_body_with_content_length (Z.to_N n) (wq_input q)
        else match wsgi_body q with
             | (_, Some e) => Raise e
             | (cs, None) => Ok (List.concat cs)
             end) = Ok y.
Proof.
  intros Hi Hp Hc Hl H.
  assert (Whole : match wsgi_body q with
             | (_, Some e) => Raise e
             | (cs, None) => Ok (List.concat cs)
             end = Ok y).
  { unfold wsgi_body. rewrite Hi. destruct (read_chunks_pieces (input_fuel (map RD pieces)) pieces Hp (le_n _)) as (cs&->&->). now rewrite Hc. }
  destruct H as [-> | ->]; [exists 0%Z; split; [reflexivity|exact Whole]|].
  assert (Len : N.of_nat (List.length (dec_of_N (lenN y))) <= 4300).
  { pose proof (dec_of_N_length 10 (lenN y) ltac:(change (10 ^ N.of_nat 10) with 10000000000; lia) ltac:(lia)). lia. }
  rewrite (int_of_str_dec_N _ Len). exists (Z.of_N (lenN y)).
  split; [pose proof (dec_of_N_nonempty (lenN y)); destruct (dec_of_N (lenN y)); congruence|].
  destruct (0 <? Z.of_N (lenN y))%Z eqn:Pos; [|exact Whole].
  rewrite N2Z.id, Hi. pose proof (@C43_exact (lenN y) (map RD pieces) ltac:(lia) (eof_pieces _ Hp)) as X. rewrite (available_pieces _ Hp), Hc in X.
  destruct (read_body_with_content_length (lenN y) (map RD pieces)) as [b|e].
  - destruct X as (L&rest&E). f_equal. assert (R : rest = []).
    { apply (f_equal lenN) in E. rewrite lenN_app in E. destruct rest; [reflexivity|]. unfold lenN in *. cbn [List.length] in *. lia. }
    subst rest. rewrite app_nil_r in E. congruence.
  - destruct X as (L&_). lia.
Qed.

Lemma wsgi_unary_opens {A B} inflate (c : client A B) (ap : app A B) m mi f k start u hist timeout get cnow a d y rq now q :
  unary_connected true inflate c ap m (EpUnary mi f) k u hist timeout get ->
  k_enc_req (cl_codec c) a = Ok d -> z_compress (cl_send c) d = Ok y -> fits_in (ap_max ap) d -> is_bytes y -> lenN y < 4294967296 ->
  unary_request c (call_ctx c start m u timeout false get) cnow a = Ok rq ->
  rq_method rq = (if get then lit "GET" else lit "POST") ->
  (if get then exists q, rq_url rq = call_url c m ++ 63 :: q /\ get_query (k_name (cl_codec c)) (z_name (cl_send c)) y q
   else rq_url rq = call_url c m) ->
  rq_body rq = (if get then ([], None) else ([y], None)) ->
  arrives_wsgi (cl_address c) rq q ->
  exists hs cx, wsgi_open_request ap now q = Ok (EpUnary mi f, hs, PConnect, cx)
    /\ context_of PConnect false hist (effective_timeout timeout (cl_timeout c)) mi cx
    /\ h_get_default hs (lit "accept-encoding") (lit "identity") = accept_header_value c
    /\ (if str_eqb (cx_http cx) (lit "GET") then wsgi_get_request ap q else wsgi_post_request ap q hs) = Ok (a, k).
Proof.
  intros (P&F&C&Wl&Tf&Gl&Zl&Az&(rz&Dz&Un)&_&Gi) Ed Ey Fi By Ly Er Rm Ru Rb Ar. specialize (Wl eq_refl).
  destruct (call_lines c start m u hist timeout false get C) as [Ic Vc].
  destruct (call_lines_wsgi c start m u hist timeout false get C Wl) as [W1 W2].
  pose proof (unary_request_headers c _ cnow a rq Er Ic) as Vr.
  destruct (wsgi_lines_arrive _ _ _ Ar) as [Ih Hv].
  { intro x. rewrite Vr. destruct (_ && _); [cbn; lia|apply W1]. }
  { intros x Hx. rewrite Vr. destruct (_ && _); [reflexivity|now apply W2]. }
  set (hs := wsgi_headers q) in *.
  assert (Va : values_in (rq_headers rq) (lit "accept-encoding") <> []).
  { rewrite Vr.
    change (same_name (lit "accept-encoding") (lit "content-type") || same_name (lit "accept-encoding") (lit "content-encoding")) with false.
    rewrite andb_false_r. rewrite Vc, P. destruct (effective_timeout timeout (cl_timeout c)); discriminate. }
  assert (UL : unary_lines c timeout get hs).
  { apply (call_unary_lines c start m u hist timeout get cnow a rq); auto.
    intros x Hx. cbn [In] in Hx.
    destruct Hx as [<-|[<-|[<-|[<-|[<-|[]]]]]]; (apply Hv; [reflexivity|]); [left; reflexivity|left; reflexivity|right; exact Va|left; reflexivity|left; reflexivity]. }
  destruct F as (F1&F2&F3&F4&F5&F6&F7&_).
  destruct Ar as (R1&_&_&(path&R3&R3'&Tg)&R4&_&_&_&R7&R8&(pieces&R9&R9'&R9'')&R10&R11).
  destruct (unary_opens c mi timeout hist get hs now (env_default q "wsgi.url_scheme" (lit "http"))
     (match env_get q "REMOTE_ADDR" with
                | None | Some [] => None
                | Some ra => Some (ra ++ lit ":" ++ env_default q "REMOTE_PORT" (lit "0"))
                end) P Tf UL F4 Gl Gi) as (O1&O2&cx&O4&O5&O6&O7&O8).
  destruct (unary_target c m rq _ _ get _ _ _ F2 F3 Ru Tg) as [Path Query].
  destruct (Un d y Ey) as (U1&U2&U3).
  exists hs, cx. split; [|split; [|split]].
  - unfold wsgi_open_request, wsgi_find_endpoint, env_item. rewrite R3. cbn [bind].
    assert (Pm : match path with [] => lit "/" | _ => path end = path) by (destruct path; [congruence|reflexivity]).
    rewrite Pm, Path, F1. cbn [bind]. rewrite R1, Rm. cbn [bind]. cbv zeta. fold hs. rewrite O1. cbn [uses_trailers andb].
    exact (f_equal (fun r => bind r (fun cx => Ok (EpUnary mi f, hs, PConnect, cx))) O4).
  - split; [exact O5|]. split; [|exact O8]. intros x L T. rewrite O6.
    assert (L' : client_line (cl_proto c) false x = false) by (rewrite P; exact L).
    pose proof (call_user_line c start m u hist timeout false get x C L') as Lu.
    assert (Vx : values_in (rq_headers rq) x = values_of hist x).
    { rewrite Vr, Lu. replace (same_name x (lit "content-type") || same_name x (lit "content-encoding")) with false.
      - now rewrite andb_false_r.
      - symmetry. unfold client_line in L. apply orb_false_iff in L. destruct L as [L _]. apply orb_false_iff.
        split; apply (exists_not _ _ _ L); reflexivity. }
    rewrite <- Vx in *. apply Hv; [|exact T].
    destruct (same_name x (lit "content-length")) eqn:E; [|reflexivity]. exfalso. destruct Wl as (_&_&Wc).
    assert (Vx0 : values_of hist x = []) by (rewrite <- Wc, <- (values_of_lower hist x), <- (values_of_lower hist (lit "content-length")); f_equal; unfold same_name in E; destruct (str_eqb_spec (lower x) (lower (lit "content-length"))); [assumption|discriminate]).
    destruct T as [T|T]; [|congruence]. unfold transport_name in T.
    assert (X : existsb (same_name x) transport_names = true); [|congruence].
    apply existsb_exists. exists (lit "content-length"). split; [cbn; tauto|exact E].
  - apply get_default_one. apply UL.
  - rewrite O7. destruct get.
    + change (str_eqb (lit "GET") (lit "GET")) with true. cbv iota. destruct (Query eq_refl) as [Q1 _].
      eapply wsgi_get_written; eauto.
    + change (str_eqb (lit "POST") (lit "GET")) with false. cbv iota. unfold wsgi_post_request. rewrite (O2 eq_refl), F5.
      rewrite Rb in R7, R9''. cbn [fst List.concat] in R7, R9''. rewrite app_nil_r in R7, R9''.
      destruct (wsgi_body_read q pieces y R9 R9' R9'' Ly R7) as (n&En&Eb). rewrite En. cbn [bind].
      refine (eq_trans (f_equal (fun x => to_internal (bind x _)) Eb) _). cbn [bind]. cbv zeta.
      assert (Ce : env_get q "HTTP_CONTENT_ENCODING" = Some (z_name (cl_send c))).
      { assert (Vce : values_in (rq_headers rq) (lit "content-encoding") = [z_name (cl_send c)]).
        { rewrite <- Hv; [exact (ul_comp _ _ _ _ UL)|reflexivity|left; reflexivity]. }
        exact (R4 (lit "content-encoding") _ Vce). }
      unfold env_default. rewrite Ce, Zl, Dz.
      assert (Z : (if str_eqb (z_name (cl_send c)) (lit "identity") then Ok y
                   else or_invalid (lit "Failed to decompress request body: ") (z_decompress rz y)) = Ok d).
      { destruct (str_eqb_spec (z_name (cl_send c)) (lit "identity")) as [Ei|Ei]; [now rewrite (U3 Ei)|now rewrite U1]. }
      refine (eq_trans (f_equal (fun x => to_internal (bind x _)) Z) _). cbn [bind].
      assert (Lim : match ap_max ap with Some mx => mx <? lenN d | None => false end = false).
      { destruct (ap_max ap) as [mx|]; [|reflexivity]. cbn [fits_in] in Fi. lia. }
      rewrite Lim, (F7 a d Ed). reflexivity.
Qed.

(** ** End to end *)
Lemma unary_sent {A B} (c : client A B) cx ck net md a rq : unary_request c cx (ck_send ck) a = Ok rq ->
  cr_sent (send_unary_connect c cx ck net md a) = [rq].
Proof.
  intro H. unfold send_unary_connect. rewrite H. destruct (nw_unary net rq) as [r|f]; [|reflexivity]. now destruct (unary_response c r md).
Qed.

Lemma unary_ends {A B} (c : client A B) (ap : app A B) m mi f k ck net u hist timeout get w inflate rq a (steps : list (rstate * B)) rs e R r :
  let ccx := call_ctx c (ck_start ck) m u timeout false get in
  let z := negotiate_compression (accept_header_value c) (ap_comps ap) in
  unary_connected w inflate c ap m (EpUnary mi f) k u hist timeout get ->
  unary_request c ccx (ck_send ck) a = Ok rq -> nw_unary net rq = UResp r -> delivered_unary inflate R r ->
  unary_resp k z steps rs e R -> rs_ok rs -> sendable_answer ap k (cl_max c) steps rs e ->
  seen_unary steps rs e (send_unary_connect c ccx ck net (Some md_new) a).
Proof.
  intros ccx z (P&F&C&_&Tf&Gl&Zl&Az&_&Inf&Gi) Er Hn D Ur Ro S.
  destruct (chosen_compression c ap m _ k F) as (zc&x&Dc&_&Nz&_&Dz). fold z in Dc, Nz, Dz.
  pose proof F as (_&_&_&F4&_&F6&_&F8&_).
  destruct (unary_reads c ap k z zc inflate steps rs e R r P F6 F4 Dc Nz (fun d y => Inf x z d y Dz) F8 Ro Ur S D) as (md&v&Ev&M&V).
  unfold send_unary_connect. rewrite Er, Hn, Ev. split; [|exists md; auto]. cbn [cr_out].
  destruct e as [[x0|]|], steps as [|[r0 b] [|s2 steps]]; try (destruct V; fail).
  - destruct V as (x'&->&Cx&Sx). exists x'. split; [|exact Sx]. destruct x'; [reflexivity|discriminate|discriminate].
  - now subst v.
Qed.

Lemma unary_through {A B} w inflate (c : client A B) (ap : app A B) m mi f k ck net u hist timeout get a now :
  unary_connected w inflate c ap m (EpUnary mi f) k u hist timeout get -> sendable_request c ap a ->
  let call := execute_unary c ck net (Some md_new) m u timeout get a None in
  unary_link w inflate ap now (cl_address c) net (cr_sent call) ->
  exists rq cx, cr_sent call = [rq] /\ rq_method rq = (if get then lit "GET" else lit "POST")
    /\ context_of PConnect false hist (effective_timeout timeout (cl_timeout c)) mi cx
    /\ forall steps rs e, returns (f a cx) ([], None) steps rs e -> sendable_answer ap k (cl_max c) steps rs e ->
         ran w ap now (cl_address c) rq [InvMsg a] /\ seen_unary steps rs e call.
Proof.
  intros U (d&y&Ed&Ey&Fi&By&Ly) call L. pose proof U as (P&F&C&_&_&_&_&Az&_). pose proof F as (_&_&_&F4&_&F6&_).
  destruct (unary_sends c (ck_start ck) m u hist timeout get (ck_send ck) a d y P C F4 Az Ed Ey By) as (rq&Er&Rm&Ru&Rb).
  assert (Ec : call = send_unary_connect c (call_ctx c (ck_start ck) m u timeout false get) ck net (Some md_new) a).
  { unfold call, execute_unary, send_unary. now rewrite P. }
  assert (Es : cr_sent call = [rq]) by (rewrite Ec; now apply unary_sent). rewrite Es in L.
  destruct (chosen_compression c ap m _ k F) as (zc&x&_&_&_&Az'&Dz). rewrite <- F6 in F4.
  destruct w; cbn [unary_link ran] in *.
  - destruct (L rq (or_introl eq_refl)) as (q&Ar&An).
    destruct (wsgi_unary_opens inflate c ap m mi f k (ck_start ck) u hist timeout get (ck_send ck) a d y rq now q U Ed Ey Fi By Ly Er Rm Ru Rb Ar)
      as (hs&cx&O1&O2&O3&O4).
    exists rq, cx. split; [exact Es|]. split; [exact Rm|]. split; [exact O2|]. intros steps rs e Rt S.
    pose proof Ar as (_&_&_&_&_&_&_&_&_&_&_&_&Dr).
    destruct (wsgi_unary_answer ap now q mi f hs cx k _ x a steps rs e (cl_max c) O1 Dr O4 (f_equal (fun v => negotiate_compression v (ap_comps ap)) O3)
       Dz Az' F4 Rt S) as (R&R1&R2&R3).
    split; [eauto|]. destruct (An R R1) as (r&Hn&D). destruct (returns_ok _ _ _ _ _ Rt) as [Ro _]. rewrite Ec.
    eapply unary_ends; eauto.
  - destruct (L rq (or_introl eq_refl)) as (sc&en&Ar&An).
    destruct (asgi_unary_opens inflate c ap m mi f k (ck_start ck) u hist timeout get (ck_send ck) a d y rq now sc en U Ed Ey Fi By Er Rm Ru Rb Ar)
      as (hs&cx&params&O1&O1'&O2&O3&O4).
    exists rq, cx. split; [exact Es|]. split; [exact Rm|]. split; [exact O2|]. intros steps rs e Rt S.
    pose proof Ar as (_&_&_&_&_&_&_&_&_&So).
    destruct (asgi_unary_answer ap now sc en mi f hs cx params k _ x a steps rs e (cl_max c) O1 O1' So O4 (f_equal (fun v => negotiate_compression v (ap_comps ap)) O3)
       Dz Az' F4 Rt S) as (R&R1&R2&R3).
    split; [eauto|]. destruct (An R R1) as (r&Hn&D). destruct (returns_ok _ _ _ _ _ Rt) as [Ro _]. rewrite Ec.
    eapply unary_ends; eauto.
Qed.
