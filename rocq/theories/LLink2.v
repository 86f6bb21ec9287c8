From Coq Require Import List NArith ZArith Bool String Lia ZifyBool ZifyNat ZifyN.
From Verif Require Import MBase MPyStr MHeaders SHeaders LHeaders LBase MUtf8 MJson SJson MBase64 MPercent LUtf8 LBase64 LPyStr LPercent
  LJson MWire MEnvelope SEnvelope LEnvelope PEnvelope MStatusPb LStatusPb LWire MTimeout STimeout LTimeout MProtocol SProtocol MClient LProtocol
  PProtocol SClient LClient MServer MAsgi MWsgi SServer LServer LStream PResponse LRequest SLink LLink.
Import ListNotations.
Local Open Scope N_scope.

(** ** Requests as the server reads them *)

Lemma ascii_utf8 s : ascii s -> utf8_decode s = Some s.
Proof. apply utf8_decode_ascii. Qed.

Lemma process_headers_values l : forall h, h_inv h -> ascii_pairs l ->
  exists hs, process_headers h l = Ok hs /\ h_inv hs /\ forall k, h_getall hs k = h_getall h k ++ values_in l k.
Proof.
  induction l as [|[a v] l IH]; intros h I F; cbn [process_headers].
  - exists h. split; [reflexivity|]. split; [exact I|]. intro k. change (values_in [] k) with (@nil pystr). now rewrite app_nil_r.
  - inversion F as [|x y [Fa Fv] Fl]; subst. cbn [fst snd] in *. rewrite (ascii_utf8 a), (ascii_utf8 v) by auto.
    destruct (IH (h_add h a v) (h_inv_add _ _ _ I) Fl) as (hs&E&I'&V). exists hs. split; [exact E|]. split; [exact I'|].
    intro k. rewrite V, getall_add, values_in_cons by auto. destruct (same_name k a); [|reflexivity]. now rewrite <- app_assoc.
Qed.

(** What the server needs to find in the headers of a streaming request. *)
Record request_lines {A B} (c : client A B) (timeout : option Z) (hs : headers) : Prop := mk_rl {
  rl_inv : h_inv hs;
  rl_type : h_getall hs (lit "content-type") = [client_content_type (cl_proto c) true (k_name (cl_codec c))];
  rl_comp : h_getall hs (compression_header_name (cl_proto c)) = [z_name (cl_send c)];
  rl_accept : h_getall hs (accept_header_name (cl_proto c)) = [accept_header_value c];
  rl_version : cl_proto c = PConnect -> h_getall hs (lit "connect-protocol-version") = [lit "1"];
  rl_timeout : h_getall hs (timeout_header (cl_proto c))
               = match effective_timeout timeout (cl_timeout c) with Some t => [timeout_text (cl_proto c) t] | None => [] end
}.

Lemma get_default_one h k v d : h_getall h k = [v] -> h_get_default h k d = v.
Proof. intro H. unfold h_get_default. rewrite getitem_getall, H. reflexivity. Qed.
Lemma get_one h k v : h_getall h k = [v] -> h_get h k = Some v.
Proof. intro H. unfold h_get. rewrite getitem_getall, H. reflexivity. Qed.
Lemma get_none h k : h_getall h k = [] -> h_get h k = None.
Proof. intro H. unfold h_get. rewrite getitem_getall, H. reflexivity. Qed.

(** The compression chosen for the response: the client has one of that name, and its name can be written in a header. *)
Lemma chosen_compression {A B} (c : client A B) (ap : app A B) m ep k : fits c ap m ep k ->
  let z := negotiate_compression (accept_header_value c) (ap_comps ap) in
  exists zc x, dget (cl_comps c) (z_name z) = Some zc /\ undoes zc z /\ z_name z <> [] /\ ascii (z_name z)
    /\ dget (ap_comps ap) x = Some z.
Proof.
  intros (_&_&_&_&_&_&_&_&(ca&cs&Ca&Cs&L)&_&Z&_) z.
  assert (L1 : Forall (fun z => listable (z_name z)) ca) by (eapply Forall_impl; [|exact L]; cbv beta; tauto).
  destruct (C34_client_can_decode ca cs PConnect true [] L1 eq_refl) as (H1&H2&zc&H3&H4).
  assert (Ez : negotiate_compression (join (lit ",") (dkeys (resolve_compressions ca))) (resolve_compressions cs) = z).
  { unfold z, accept_header_value. now rewrite Ca, Cs. }
  rewrite Ez in *. clear Ez.
  assert (Nm : z_name z <> [] /\ ascii (z_name z)).
  { destruct H1 as [H1| ->].
    - apply in_map_iff in H1. destruct H1 as (x&Ex&Hx). rewrite <- Ex. rewrite Forall_forall in L. destruct (L x Hx) as ((_&_&N)&F). auto.
    - split; [discriminate|]. repeat constructor. }
  unfold handle_response_compression in H3. rewrite hh_get_values, values_in_cons, same_name_refl in H3. cbn [hd_error] in H3.
  rewrite <- Ca in H3.
  assert (D : dget (cl_comps c) (z_name z) = Some zc).
  { destruct (z_name z) as [|a s]; [tauto|]. destruct (dget (cl_comps c) (a :: s)); [congruence|discriminate]. }
  assert (Dz : dget (ap_comps ap) (z_name z) = Some z).
  { unfold z, accept_header_value. rewrite Cs.
    destruct (C34_first_supported (join (lit ",") (dkeys (cl_comps c))) (resolve_compressions cs)) as [(pre&n&x&post&_&G1&_&G2)|(_&G)].
    - rewrite G2. now rewrite (resolve_name _ _ _ G1).
    - rewrite G. unfold resolve_compressions. rewrite dget_dset. reflexivity. }
  exists zc, (z_name z). split; [exact D|]. split; [exact (Z _ _ _ Dz D)|]. tauto.
Qed.

Lemma stream_opens {A B} (c : client A B) (ap : app A B) m ep k timeout hist hs now scheme peer : fits c ap m ep k ->
  timeout_fits c timeout hist -> request_lines c timeout hs ->
  let p := cl_proto c in
  let ct := h_get_default hs (lit "content-type") [] in
  negotiate_server_protocol ct = p
  /\ (forall stream, (p = PConnect -> stream = true) -> codec_name_from_content_type p stream ct = k_name (cl_codec c))
  /\ (exists rz, negotiate_stream_compression p hs (ap_comps ap) = (Some rz, negotiate_compression (accept_header_value c) (ap_comps ap))
        /\ undoes rz (cl_send c))
  /\ exists cx, server_create_context now p (ep_method ep) (lit "POST") scheme hs peer = Ok cx
        /\ cx_method cx = ep_method ep /\ cx_headers cx = hs /\ cx_http cx = lit "POST"
        /\ match effective_timeout timeout (cl_timeout c) with
           | None => cx_timeout cx = None
           | Some t => exists r, cx_timeout cx = Some r /\ (r <= Z.max 0 t)%Z
           end.
Proof.
  intros (_&_&_&Nm&_&_&_&_&_&(rz&Dz&Uz)&_) Tf [I Lt Lc La Lv Lm] p ct. fold p in Lt, Lc, La, Lv, Lm.
  assert (Ct : ct = client_content_type p true (k_name (cl_codec c))) by (apply get_default_one; exact Lt).
  rewrite Ct. split; [apply negotiate_client|]. split.
  { intros stream S. destruct p eqn:P; [rewrite (S eq_refl)| |]; try now apply codec_name_client.
    - change (client_content_type PGrpc true) with (client_content_type PGrpc stream). now apply codec_name_client.
    - change (client_content_type PGrpcWeb true) with (client_content_type PGrpcWeb stream). now apply codec_name_client. }
  split.
  { exists rz. split; [|exact Uz]. unfold negotiate_stream_compression. rewrite (get_default_one _ _ _ _ Lc), (get_default_one _ _ _ _ La), Dz.
    destruct p; reflexivity. }
  assert (Mp : check_http_method p (mi_idem (ep_method ep)) (lit "POST") = None).
  { apply check_method_permitted. unfold permitted. destruct p, (mi_idem (ep_method ep)); cbn; auto. }
  assert (T : exists t, (match p with PConnect => connect_server_timeout (h_get hs (lit "connect-timeout-ms"))
                 | _ => grpc_server_timeout (h_get hs (lit "grpc-timeout")) end) = Ok t
     /\ match effective_timeout timeout (cl_timeout c) with
           | None => t = None
           | Some x => exists r, t = Some r /\ (r <= Z.max 0 x)%Z
           end).
  { unfold timeout_fits in Tf. fold p in Tf. destruct (effective_timeout timeout (cl_timeout c)) as [t|].
    - assert (G : (p <> PConnect -> (t < grpc_limit_ms)%Z) -> p <> PConnect -> exists t0, grpc_server_timeout (Some (serialize_timeout t)) = Ok t0 /\
                 exists r, t0 = Some r /\ (r <= Z.max 0 t)%Z).
      { intros Tl Np. destruct (PTimeout.C26_deadline_never_grows t (Tl Np)) as (r&_&_&_&R&Le&_). eauto. }
      destruct p; cbn [timeout_header timeout_text] in *.
      + rewrite (get_one _ _ _ Lm). destruct (PTimeout.C30_connect_roundtrip t ltac:(lia)) as [C _].
        rewrite C by lia. exists (Some t). split; [reflexivity|]. exists t. split; [reflexivity|lia].
      + rewrite (get_one _ _ _ Lm). apply G; [auto|discriminate].
      + rewrite (get_one _ _ _ Lm). apply G; [auto|discriminate].
    - destruct p; cbn [timeout_header] in *; rewrite (get_none _ _ Lm); exists None; auto. }
  destruct T as (t&Et&Ht). unfold server_create_context. rewrite Mp.
  exists (make_ctx now (ep_method ep) (lit "POST") hs t (host_to_server_address (h_get hs (lit "host")) scheme) peer).
  split; [|split; [reflexivity|split; [reflexivity|split; [reflexivity|exact Ht]]]].
  destruct p; cbv zeta.
  - rewrite (get_default_one _ _ _ _ (Lv eq_refl)), str_eqb_refl. rewrite Et. reflexivity.
  - rewrite Et. reflexivity.
  - rewrite Et. reflexivity.
Qed.

(** The frames of a request that was written completely. *)
Lemma request_content_written {A B} (c : client A B) msgs tail : snd (request_content c msgs tail) = None ->
  tail = None /\ Forall2 (fun m b => write_message (k_enc_req (cl_codec c)) (Some (cl_send c)) m = Ok b) msgs (fst (request_content c msgs tail)).
Proof.
  induction msgs as [|a msgs IH]; cbn [request_content].
  - cbn. auto.
  - destruct (write_message _ _ a) as [b|e] eqn:W; [|discriminate]. destruct (request_content c msgs tail) as [bs x]. cbn [fst snd] in *.
    intro H. destruct (IH H) as [-> F]. split; [reflexivity|]. constructor; auto.
Qed.

Lemma frames_read {A B} (c : client A B) (ap : app A B) m ep k rz msgs chunks : fits c ap m ep k -> undoes rz (cl_send c) ->
  (forall a d, In a msgs -> k_enc_req (cl_codec c) a = Ok d -> fits_in (ap_max ap) d) ->
  snd (request_content c msgs None) = None -> List.concat chunks = List.concat (fst (request_content c msgs None)) ->
  exists r, feed_all (mk_rconf RBase rz (ap_max ap) (k_dec_req k)) (reader_new None) chunks = (msgs, None, r).
Proof.
  intros (_&_&_&_&_&_&D&_) U L S E. destruct (request_content_written _ _ _ S) as [_ F].
  destruct (C02_stream_roundtrip A (k_enc_req (cl_codec c)) (Some (cl_send c)) (mk_rconf RBase rz (ap_max ap) (k_dec_req k)) None msgs
     (fst (request_content c msgs None)) chunks D (undoes_lossless _ _ U) L F E) as (r&H&_).
  eauto.
Qed.

Lemma read_body_receives l body : receives l body -> exists chunks, read_body l = (chunks, None) /\ List.concat chunks = body.
Proof.
  intros (bs&fin&rest&->&->). induction bs as [|b bs IH]; cbn [map List.app read_body].
  - exists [fin]. split; [reflexivity|]. cbn. now rewrite app_nil_r.
  - destruct IH as (ch&E&C). rewrite E. exists (b :: ch). split; [reflexivity|]. cbn [List.concat]. rewrite C. apply app_assoc.
Qed.

(** Lines of the client's request. *)
Lemma call_lines {A B} (c : client A B) start m u hist timeout stream get : called_with u hist ->
  let cx := call_ctx c start m u timeout stream get in
  h_inv (cx_headers cx) /\ forall k, h_getall (cx_headers cx) k =
    match effective_timeout timeout (cl_timeout c), same_name k (timeout_header (cl_proto c)) with
    | Some t, true => [timeout_text (cl_proto c) t]
    | _, _ =>
    if same_name k (lit "content-type") then [client_content_type (cl_proto c) stream (k_name (cl_codec c))]
    else if same_name k (client_compression_header (cl_proto c) stream) then [z_name (cl_send c)]
    else if same_name k (client_accept_header (cl_proto c) stream) then [accept_header_value c]
    else if match (cl_proto c) with PConnect => same_name k (lit "connect-protocol-version") | _ => false end then [lit "1"]
    else if same_name k (lit "user-agent")
         then match values_of hist (lit "user-agent") with [] => [cl_ua c] | vs => vs end
    else if match (cl_proto c) with PConnect => false | _ => same_name k (lit "te") end then [lit "trailers"]
    else values_of hist k
    end.
Proof.
  intros C cx. unfold cx, call_ctx, client_create_context, make_ctx. cbn [cx_headers]. split.
  - eapply client_headers_inv; eauto.
  - intro k. now rewrite (client_headers_values _ _ _ _ hist) by auto.
Qed.

Lemma call_user_line {A B} (c : client A B) start m u hist timeout stream get k : called_with u hist ->
  client_line (cl_proto c) stream k = false ->
  h_getall (cx_headers (call_ctx c start m u timeout stream get)) k = values_of hist k.
Proof.
  intros C L. destruct (call_lines c start m u hist timeout stream get C) as [_ V]. rewrite V. clear V.
  unfold client_line, owned in L. apply orb_false_iff in L. destruct L as [L1 L2].
  assert (S : forall a b, same_name k a = false -> same_name a b = true -> same_name k b = false).
  { intros a b Ha Hab. rewrite (same_name_sym k b), <- (same_name_trans _ _ k Hab), same_name_sym. exact Ha. }
  assert (F : forall l a, existsb (same_name k) l = false -> existsb (fun b => same_name b a) l = true -> same_name k a = false).
  { clear L1. induction l as [|b l IH]; intros a Hl Ha; [discriminate|]. cbn [existsb] in *. apply orb_false_iff in Hl. destruct Hl as [Hb Hl].
    apply orb_true_iff in Ha. destruct Ha as [Ha|Ha]; eauto. }
  rewrite L2.
  assert (T : same_name k (timeout_header (cl_proto c)) = false).
  { apply (F _ _ L1). destruct (cl_proto c), stream; reflexivity. }
  rewrite T, (F _ (lit "content-type") L1) by (destruct (cl_proto c), stream; reflexivity).
  rewrite (F _ (client_compression_header (cl_proto c) stream) L1) by (destruct (cl_proto c), stream; reflexivity).
  rewrite (F _ (client_accept_header (cl_proto c) stream) L1) by (destruct (cl_proto c), stream; reflexivity).
  destruct (cl_proto c) eqn:P.
  - rewrite (F _ (lit "connect-protocol-version") L1) by (destruct stream; reflexivity). now destruct (effective_timeout _ _).
  - rewrite (F _ (lit "te") L1) by (destruct stream; reflexivity). now destruct (effective_timeout _ _).
  - rewrite (F _ (lit "te") L1) by (destruct stream; reflexivity). now destruct (effective_timeout _ _).
Qed.

Lemma call_request_lines {A B} (c : client A B) start m u hist timeout stream hs : called_with u hist -> timeout_fits c timeout hist ->
  (cl_proto c = PConnect -> stream = true) -> h_inv hs ->
  (forall k, In k [lit "content-type"; compression_header_name (cl_proto c); accept_header_name (cl_proto c);
                   timeout_header (cl_proto c)] \/ (cl_proto c = PConnect /\ k = lit "connect-protocol-version") ->
     h_getall hs k = h_getall (cx_headers (call_ctx c start m u timeout stream false)) k) ->
  request_lines c timeout hs.
Proof.
  intros C Tf S I H. destruct (call_lines c start m u hist timeout stream false C) as [_ V].
  unfold timeout_fits in Tf.
  assert (X : forall s, (cl_proto c = PConnect -> s = true) -> client_content_type (cl_proto c) s = client_content_type (cl_proto c) true
     /\ client_compression_header (cl_proto c) s = compression_header_name (cl_proto c)
     /\ client_accept_header (cl_proto c) s = accept_header_name (cl_proto c)).
  { intros s Hs. destruct (cl_proto c); [rewrite (Hs eq_refl)| |]; repeat split; reflexivity. }
  destruct (X stream S) as (X1&X2&X3). rewrite X1, X2, X3 in V. clear X X1 X2 X3.
  constructor; [exact I| | | | |].
  - rewrite H by (cbn; tauto). rewrite V.
    destruct (cl_proto c), (effective_timeout timeout (cl_timeout c)); reflexivity.
  - rewrite H by (cbn; tauto). rewrite V.
    destruct (cl_proto c), (effective_timeout timeout (cl_timeout c)); reflexivity.
  - rewrite H by (cbn; tauto). rewrite V.
    destruct (cl_proto c), (effective_timeout timeout (cl_timeout c)); reflexivity.
  - intro P. rewrite H by (right; auto). rewrite V. rewrite P. destruct (effective_timeout timeout (cl_timeout c)); reflexivity.
  - rewrite H by (cbn; tauto). rewrite V. rewrite same_name_refl.
    destruct (effective_timeout timeout (cl_timeout c)); [reflexivity|].
    destruct (cl_proto c); exact Tf.
Qed.

(** ** Response states are built by header operations *)
Definition rs_ok (rs : rstate) : Prop := h_inv (rs_h rs) /\ h_inv (rs_t rs).
Lemma rs_new_ok : rs_ok rs_new.
Proof. split; apply h_inv_empty. Qed.
Lemma exec_inv h op : h_inv h -> h_inv (h_exec h op).
Proof. apply h_inv_exec. Qed.
Lemma behaves_ok {A B} (g : prog A B unit) ps rs steps rs' e : behaves g ps rs steps rs' e -> rs_ok rs ->
  rs_ok rs' /\ Forall (fun s => rs_ok (fst s)) steps.
Proof.
  induction 1; intros [Ih It]; auto.
  - split; [split|constructor]; auto.
  - split; [split|constructor]; auto.
  - apply IHbehaves. split; auto.
  - apply IHbehaves. split; auto. now apply exec_inv.
  - apply IHbehaves. split; auto. now apply exec_inv.
  - destruct IHbehaves as [H1 H2]; [split; auto|]. split; auto. constructor; [split; auto|auto].
Qed.

Lemma run_fn_ok {A R} (g : prog A Empty_set R) : forall ps rs, rs_ok rs -> rs_ok (snd (run_fn g ps rs)).
Proof.
  induction g as [r|i|k IH|b c k IH|op k IH|op k IH]; intros ps rs I; cbn [run_fn]; auto.
  - destruct (pull_next ps). now apply IH.
  - destruct b.
  - apply IH. split; [apply h_inv_exec|]; apply I.
  - apply IH. split; [|apply h_inv_exec]; apply I.
Qed.
Lemma returns_ok {A B} (g : prog A Empty_set B) ps steps rs' e : returns g ps steps rs' e ->
  rs_ok rs' /\ Forall (fun s => rs_ok (fst s)) steps.
Proof.
  unfold returns. pose proof (run_fn_ok g ps rs_new rs_new_ok) as I. destruct (run_fn g ps rs_new) as [[b|i] rs]; cbn [snd] in I.
  - intros (->&->&_). split; [exact I|]. constructor; [exact I|constructor].
  - intros (->&->&_). split; [exact I|constructor].
Qed.
Lemma method_does_ok {A B} (ep : endpoint A B) cx ps inv steps rs' e : method_does ep cx ps inv steps rs' e ->
  rs_ok rs' /\ rs_ok (head_state steps rs').
Proof.
  assert (X : rs_ok rs' /\ Forall (fun s => rs_ok (fst s)) steps -> rs_ok rs' /\ rs_ok (head_state steps rs')).
  { intros [H1 H2]. split; auto. destruct H2; auto. }
  intro H. apply X. destruct ep; cbn [method_does] in H.
  - destruct H as (a&_&_&H). now apply returns_ok in H.
  - destruct H as (_&H). now apply returns_ok in H.
  - destruct H as (a&_&_&H). exact (behaves_ok _ _ _ _ _ _ H rs_new_ok).
  - destruct H as (_&H). exact (behaves_ok _ _ _ _ _ _ H rs_new_ok).
Qed.

(** ** What the server writes *)

Lemma sendable_written {A B} (ap : app A B) k max x z (steps : list (rstate * B)) : dget (ap_comps ap) x = Some z ->
  sendable_messages ap k max (map snd steps) -> exists frs, written (k_enc_res k) z steps frs.
Proof.
  intros Dz S. induction steps as [|s steps IH]; [exists []; constructor|].
  inversion S as [|y l (d&E&_&Z) S']; subst. destruct (IH S') as (frs&W). destruct (Z _ _ Dz) as (y&Ey&Ly).
  assert (P : exists hd, struct_pack_BI (writer_prefix (Some z)) (lenN y) = Ok hd).
  { unfold struct_pack_BI. destruct (prefix_cases z) as [-> | ->]; replace (lenN y <? 4294967296) with true by lia; cbn; eauto. }
  destruct P as (hd&P). exists ((hd ++ y) :: frs). constructor; [|exact W].
  unfold write_message. rewrite E. cbn [bind maybe_compress]. rewrite Ey. cbn [bind]. rewrite P. reflexivity.
Qed.

Lemma struct_pack_ok z b n : b = 2 \/ b = 128 -> n < 4294967296 -> exists hd, struct_pack_BI (N.lor (writer_prefix (Some z)) b) n = Ok hd.
Proof.
  intros Hb Hn. unfold struct_pack_BI. destruct (prefix_cases z) as [-> | ->], Hb as [-> | ->]; replace (n <? 4294967296) with true by lia; cbn; eauto.
Qed.

Lemma sendable_error_wire p x : sendable_error p x ->
  match p with PConnect => wire_ok (we_from_exception x) | _ => grpc_err_ok (we_from_exception x) end.
Proof. destruct p; intro H; exact H. Qed.

Lemma end_written {A B} (ap : app A B) p max x z ts e : dget (ap_comps ap) x = Some z -> ap_sc ap = pb_codec ->
  h_inv ts -> sendable_end ap p max ts e ->
  match e with None => True | Some (IExn x) => sendable_error p x | Some ICancel => False end ->
  exists em, writer_end (ap_sc ap) p z ts (option_map we_from_exception (reported e)) = Ok em.
Proof.
  intros Dz Sc I (d&T&_&Z) Er. destruct (Z _ _ Dz) as (y&Ey&Ly). unfold writer_end. destruct p; cbn [end_text] in T.
  - unfold connect_end. rewrite T. cbn [bind maybe_compress]. rewrite Ey. cbn [bind].
    destruct (struct_pack_ok z 2 (lenN y) ltac:(auto) Ly) as (hd&->). cbn [bind]. eauto.
  - rewrite Sc. destruct e as [[x'|]|]; [|destruct Er|]; cbn [reported option_map].
    + destruct (grpc_trailers_ok pb_codec ts (we_from_exception x') pb_codec_ok I Er) as (t&Et&_). rewrite Et. cbn [bind]. eauto.
    + cbn. eauto.
  - destruct T as (t&Et&Ed). unfold grpc_web_end. rewrite Et. cbn [bind]. rewrite Ed. cbn [bind maybe_compress]. rewrite Ey. cbn [bind].
    destruct (struct_pack_ok z 128 (lenN y) ltac:(auto) Ly) as (hd&->). cbn [bind]. eauto.
Qed.

Lemma ascii_encode s : ascii s -> utf8_encode s = Some s.
Proof.
  intro H. apply utf8_encode_ascii. exact H.
Qed.
Lemma encode_pairs_ascii l : ascii_pairs l -> encode_pairs l = Ok l.
Proof.
  induction 1 as [|[a v] l [Ha Hv] Hl IH]; [reflexivity|]. cbn [encode_pairs fst snd] in *. unfold encode_str.
  rewrite (ascii_encode a Ha), (ascii_encode v Hv). cbn [bind]. rewrite IH. reflexivity.
Qed.

Lemma codec_name_ascii n : codec_name_ok n -> ascii n.
Proof.
  intro H. apply media_forall in H. eapply Forall_impl; [|exact H]. cbv beta. unfold media_char. lia.
Qed.
Lemma ascii_app a b : ascii a -> ascii b -> ascii (a ++ b).
Proof. intros. apply Forall_app. auto. Qed.

Lemma stream_headers_ascii p n zn rs : codec_name_ok n -> ascii zn -> ascii_pairs (h_allitems (rs_h rs)) -> ascii_pairs (stream_headers p n zn rs).
Proof.
  intros Hn Hz Hr. unfold stream_headers. constructor; [|constructor; [|exact Hr]]; cbn [fst snd]; split.
  - repeat constructor.
  - destruct p; cbn [server_content_type]; apply ascii_app; try (now apply codec_name_ascii); repeat constructor.
  - destruct p; repeat constructor.
  - exact Hz.
Qed.

(** ** The request arrives *)
Lemma asgi_opens_undoes {A B} (c : client A B) (ap : app A B) m ep k ck u hist timeout stream reqs now sc en rq :
  fits c ap m ep k -> called_with u hist -> timeout_fits c timeout hist ->
  (cl_proto c = PConnect -> stream = true /\ is_unary ep = false) ->
  let ccx := call_ctx c (ck_start ck) m u timeout stream false in
  rq = mk_rq (lit "POST") (call_url c m) (h_allitems (cx_headers ccx)) (request_content c (fst reqs) (snd reqs)) (timeout_s ccx (ck_send ck)) ->
  arrives_asgi (cl_address c) rq sc en ->
  (forall a d, In a (fst reqs) -> k_enc_req (cl_codec c) a = Ok d -> fits_in (ap_max ap) d) ->
  exists hs cx rz, undoes rz (cl_send c) /\ asgi_stream_request ap now sc ep hs (cl_proto c) cx k
    /\ context_of (cl_proto c) stream hist (effective_timeout timeout (cl_timeout c)) (ep_method ep) cx
    /\ negotiate_stream_compression (cl_proto c) hs (ap_comps ap) = (Some rz, negotiate_compression (accept_header_value c) (ap_comps ap))
    /\ snd reqs = None /\ request_stream ap k rz en = (fst reqs, None).
Proof.
  intros F C Tf Sp ccx Erq (A1&(P1&P2)&A3&A4&A5&A6&A7&A8&A9&A10) Sz.
  destruct (process_headers_values (sc_headers sc) h_empty h_inv_empty A4) as (hs&Eh&Ih&Vh).
  destruct (call_lines c (ck_start ck) m u hist timeout stream false C) as [Ic Vc]. fold ccx in Ic, Vc.
  assert (Hv : forall k, transport_name k = false \/ h_getall (cx_headers ccx) k <> [] -> h_getall hs k = h_getall (cx_headers ccx) k).
  { intros x Hx. rewrite Vh. change (h_getall h_empty x) with (@nil pystr). cbn [List.app].
    destruct (A3 x) as [E|[E1 E2]].
    - rewrite E, Erq. cbn [rq_headers]. now apply values_in_allitems.
    - rewrite Erq in E2. cbn [rq_headers] in E2. rewrite values_in_allitems in E2 by auto. destruct Hx; congruence. }
  assert (RL : request_lines c timeout hs).
  { apply (call_request_lines c (ck_start ck) m u hist timeout stream); auto; [intro; now apply Sp|].
    intros x [Hx|[_ ->]]; apply Hv; [|left; reflexivity].
    cbn [In] in Hx. destruct Hx as [<-|[<-|[<-|[<-|[]]]]]; left; destruct (cl_proto c); reflexivity. }
  destruct (stream_opens c ap m ep k timeout hist hs now (sc_scheme sc)
     (match sc_client sc with Some (h, p) => Some (h ++ lit ":" ++ p) | None => None end) F Tf RL) as (O1&O2&(rz&O3&U)&cx&O4&O5&O6&O7&O8).
  destruct (F) as (F1&F2&F3&F4&F5&F6&_).
  assert (Path : sc_path sc = lit "/" ++ mi_service m ++ lit "/" ++ mi_name m).
  { assert (Q : ~ In 63 (lit "/" ++ mi_service m ++ lit "/" ++ mi_name m)).
    { intro H. apply in_app_or in H. destruct H as [H|H]; [cbn in H; intuition discriminate|].
      apply in_app_or in H. destruct H as [H|H]; [contradiction|].
      apply in_app_or in H. destruct H as [H|H]; [cbn in H; intuition discriminate|contradiction]. }
    destruct P2 as [[E _]|E]; rewrite Erq in E; cbn [rq_url] in E; unfold call_url in E; apply app_inv_head in E.
    - now symmetry.
    - exfalso. apply Q. rewrite E. apply in_or_app. right. left. reflexivity. }
  exists hs, cx, rz. split; [exact U|].
  assert (Meth : sc_method sc = lit "POST") by (rewrite A1, Erq; reflexivity).
  split; [split; [|split]|split; [|split; [|split]]].
  - unfold open_request, find_endpoint. rewrite Path, F1. cbn [bind]. rewrite Eh. cbn [bind]. cbv zeta. rewrite O1, A5.
    rewrite andb_false_r. rewrite Meth. exact (f_equal (fun r => bind r (fun cx => Ok (ep, hs, cl_proto c, cx))) O4).
  - unfold select_codec. rewrite Meth. cbn [bind]. exists []. 
    change (str_eqb (lit "POST") (lit "GET")) with false. cbv iota. cbn [bind fst snd].
    rewrite O2 by (intro P; destruct (Sp P) as [_ ->]; reflexivity). rewrite F5. reflexivity.
  - intro P. now destruct (Sp P).
  - split; [exact O5|]. split; [|exact O8]. intros x L T. rewrite O6.
    rewrite <- (call_user_line c (ck_start ck) m u hist timeout stream false x C L). apply Hv.
    destruct T as [T|T]; [left; exact T|right]. unfold ccx. rewrite (call_user_line c (ck_start ck) m u hist timeout stream false x C L). exact T.
  - exact O3.
  - rewrite Erq in A6. cbn [rq_body] in A6. now destruct (request_content_written _ _ _ A6).
  - rewrite Erq in A6, A7. cbn [rq_body] in A6, A7. destruct (request_content_written _ _ _ A6) as [T _]. rewrite T in *.
    destruct (read_body_receives _ _ A7) as (ch&Eb&Ec).
    destruct (frames_read c ap m ep k rz (fst reqs) ch F U Sz A6 Ec) as (r&Er).
    unfold request_stream. rewrite Eb, Er, A8. reflexivity.
Qed.

Lemma asgi_opens {A B} (c : client A B) (ap : app A B) m ep k ck u hist timeout stream reqs now sc en rq :
  fits c ap m ep k -> called_with u hist -> timeout_fits c timeout hist ->
  (cl_proto c = PConnect -> stream = true /\ is_unary ep = false) ->
  let ccx := call_ctx c (ck_start ck) m u timeout stream false in
  rq = mk_rq (lit "POST") (call_url c m) (h_allitems (cx_headers ccx)) (request_content c (fst reqs) (snd reqs)) (timeout_s ccx (ck_send ck)) ->
  arrives_asgi (cl_address c) rq sc en ->
  (forall a d, In a (fst reqs) -> k_enc_req (cl_codec c) a = Ok d -> fits_in (ap_max ap) d) ->
  exists hs cx rz, asgi_stream_request ap now sc ep hs (cl_proto c) cx k
    /\ context_of (cl_proto c) stream hist (effective_timeout timeout (cl_timeout c)) (ep_method ep) cx
    /\ negotiate_stream_compression (cl_proto c) hs (ap_comps ap) = (Some rz, negotiate_compression (accept_header_value c) (ap_comps ap))
    /\ snd reqs = None /\ request_stream ap k rz en = (fst reqs, None).
Proof.
  intros F C Tf Sp ccx Erq Ar Sz. destruct (asgi_opens_undoes c ap m ep k ck u hist timeout stream reqs now sc en rq F C Tf Sp Erq Ar Sz) as (hs&cx&rz&_&H). exists hs, cx, rz. exact H.
Qed.

Lemma not_cancelled {A B} (ap : app A B) k p max (steps : list (rstate * B)) rs e : sendable ap k p max steps rs e -> e <> Some ICancel.
Proof. intros (_&_&_&_&H) ->. exact H. Qed.

Lemma asgi_answer {A B} (ap : app A B) now sc en ep hs p cx k rz z x msgs inv (steps : list (rstate * B)) rs e max :
  asgi_stream_request ap now sc ep hs p cx k -> sends_ok (en_send en) -> en_watch en = WIdle ->
  negotiate_stream_compression p hs (ap_comps ap) = (Some rz, z) -> dget (ap_comps ap) x = Some z -> ascii (z_name z) ->
  codec_name_ok (k_name k) -> ap_sc ap = pb_codec ->
  request_stream ap k rz en = (msgs, None) -> method_does ep cx (msgs, None) inv steps rs e ->
  sendable ap k p max steps rs e ->
  exists R, asgi_answers (asgi_call ap now sc en) R
    /\ answer (ap_sc ap) p (k_enc_res k) (k_name k) z steps rs (option_map we_from_exception (reported e)) R
    /\ ar_inv (asgi_call ap now sc en) = inv.
Proof.
  intros H Ho Hw Hn Dz Az Kn Sc Er Md S. pose proof (not_cancelled _ _ _ _ _ _ _ S) as Nc.
  destruct S as (S1&S2&S3&S4&S5).
  destruct (method_does_ok _ _ _ _ _ _ _ Md) as [[_ It] [Ih _]].
  destruct (sendable_written ap k max x z steps Dz S1) as (frs&W).
  destruct (end_written ap p max x z (rs_t rs) e Dz Sc It S4 S5) as (em&Em).
  set (head := stream_headers p (k_name k) (z_name z) (head_state steps rs)).
  assert (Ah : ascii_pairs head) by (apply stream_headers_ascii; auto).
  set (ts := match em with EndTrailers t => h_allitems t | _ => [] end).
  assert (At : ascii_pairs ts).
  { unfold ts. destruct em as [b|t]; [constructor|]. unfold writer_end in Em. destruct p.
    - destruct (connect_end _ _ _); discriminate.
    - destruct (grpc_trailers _ _ _) as [t'|] eqn:Et; [|discriminate]. cbn [bind] in Em. apply ok_inj in Em. injection Em as <-.
      rewrite Sc in Et. destruct S3 as ((_&S3)&_). eapply grpc_trailers_ascii; [exact pb_codec_ok|exact It| |exact S3|exact Et].
      destruct e as [[x'|]|]; [exact S5|destruct S5|exact I].
    - destruct (grpc_web_end _ _ _ _); discriminate. }
  pose proof (C57_asgi_response ap now sc en ep hs p cx k (Some rz) z inv steps rs e frs head em ts H Ho Hn) as C.
  rewrite C; clear C; auto.
  - exists (mk_resp 200 head (List.concat frs ++ match em with EndBytes b => b | EndTrailers _ => [] end) ts).
    split; [|split; [|reflexivity]].
    + unfold asgi_answers. cbn [ar_events re_status re_headers re_body re_trailers].
      assert (U : uses_trailers p = match em with EndTrailers _ => true | _ => false end).
      { unfold writer_end in Em. destruct p; cbn [uses_trailers].
        - destruct (connect_end _ _ _); [|discriminate]. apply ok_inj in Em. now subst em.
        - destruct (grpc_trailers _ _ _); [|discriminate]. apply ok_inj in Em. now subst em.
        - destruct (grpc_web_end _ _ _ _); [|discriminate]. apply ok_inj in Em. now subst em. }
      rewrite U. destruct em as [b|t]; cbn [asgi_tail].
      * exists None. split; [|split; [reflexivity|split; assumption]]. exists frs, b. split; reflexivity.
      * exists (Some ts). split; [|split; [reflexivity|split; assumption]]. exists frs, []. split; reflexivity.
    + exists frs, em. repeat split; auto.
  - cbn [stream_runs]. rewrite Er. left. exact Md.
  - unfold unwatched. rewrite Hw. now destruct ep.
  - now apply encode_pairs_ascii.
  - intros t ->. now apply encode_pairs_ascii.
Qed.

(** ** End to end *)
Lemma same_end_received p e : match e with None => True | Some (IExn x) => sendable_error p x | Some ICancel => False end ->
  same_end e (match option_map we_from_exception (reported e) with None => COk tt | Some w => CErr (received p w) end).
Proof.
  destruct e as [[x|]|]; cbn [reported option_map same_end]; [|tauto|reflexivity]. intro S. eexists. split; [reflexivity|].
  unfold received. destruct x as [c m ds|st hs|k m]; cbn [we_from_exception we_code we_msg we_details same_error grpc_received].
  - destruct p; eexists; (split; [reflexivity|]); clear; induction ds as [|d ds IH]; cbn [map]; constructor; auto; try apply recv_same.
    + split; reflexivity.
    + split; reflexivity.
  - destruct p; reflexivity.
  - destruct p; reflexivity.
Qed.

Lemma sendable_conditions {A B} (c : client A B) (ap : app A B) k p max (steps : list (rstate * B)) rs e :
  sendable ap k p max steps rs e ->
  (forall b d, In b (map snd steps) -> k_enc_res k b = Ok d -> within max d)
  /\ match option_map we_from_exception (reported e) with
     | None => True
     | Some w => match p with PConnect => wire_ok w | _ => grpc_err_ok w end
     end
  /\ match p with
     | PConnect => json_headers_ok (rs_t rs)
     | PGrpc => True
     | PGrpcWeb => Forall (fun kv => legal_name (fst kv) /\ legal_value (snd kv)) (h_allitems (rs_t rs))
     end
  /\ (p <> PConnect -> option_map we_from_exception (reported e) <> None -> forall k, grpc_error_name k = true -> h_getall (rs_t rs) k = [])
  /\ match p with
     | PConnect => forall d, json_bytes (connect_end_json (rs_t rs) (option_map we_from_exception (reported e))) = Ok d -> within max d
     | PGrpc => True
     | PGrpcWeb => forall t d, grpc_trailers (ap_sc ap) (rs_t rs) (option_map we_from_exception (reported e)) = Ok t ->
                    utf8_encode (trailer_block (h_allitems t)) = Some d -> within max d
     end.
Proof.
  intros (S1&S2&(S3&S3')&(d&S4&S4'&_)&S5). split; [|split; [|split; [|split]]].
  - intros b d' Hb Hd. unfold sendable_messages in S1. rewrite Forall_forall in S1. destruct (S1 b Hb) as (d0&E&Fi&_).
    assert (d' = d0) by congruence. subst. exact Fi.
  - destruct e as [[x|]|]; cbn [reported option_map]; [|destruct S5|exact I]. now apply sendable_error_wire.
  - destruct p; [exact S3|exact I|exact S3].
  - intros Np We k0. apply S3'; auto. intros ->. apply We. reflexivity.
  - destruct p; [|exact I|].
    + intros d' E. cbn [end_text] in S4. assert (d' = d) by congruence. subst. exact S4'.
    + intros t d' E E'. destruct S4 as (t0&G1&G2). assert (t = t0) by congruence. subst. assert (d' = d) by congruence. subst. exact S4'.
Qed.

Lemma send_stream_sent_rq {A B} (c : client A B) cx ck net md reqs stop :
  sr_sent (send_stream c cx ck net md reqs stop) =
  [mk_rq (lit "POST") (call_url c (cx_method cx)) (h_allitems (cx_headers cx)) (request_content c (fst reqs) (snd reqs)) (timeout_s cx (ck_send ck))].
Proof.
  unfold send_stream. set (q := mk_rq _ _ _ _ _). destruct (nw_stream net q) as [resp|f].
  - cbv zeta. destruct (sp_status resp =? 200).
    + destruct (validate_stream_response _ _ _).
      * destruct (leave resp _); auto. destruct (stream_except _ _ _ _ _ _); auto.
      * destruct (handle_response_compression _ _ _ _).
        2: { destruct (leave resp _); auto. destruct (stream_except _ _ _ _ _ _); auto. }
        destruct (consume _ _ _ _) as [[ms f] r]. destruct (match f with Some _ => _ | None => _ end) as [g|].
        -- destruct (leave resp _); auto. destruct (stream_except _ _ _ _ _ _); auto.
        -- destruct (cl_sync c && _).
           ++ destruct (leave resp _); auto. destruct (stream_except _ _ _ _ _ _); auto.
           ++ destruct (response_complete _ _ _ _ _ _). destruct (leave resp _); auto. destruct (stream_except _ _ _ _ _ _); auto.
    + destruct (sp_fault resp).
      * destruct (leave resp _); auto. destruct (stream_except _ _ _ _ _ _); auto.
      * destruct (we_from_response _ _); destruct (leave resp _); auto; destruct (stream_except _ _ _ _ _ _); auto.
  - destruct (stream_except _ _ _ _ _ _); auto.
Qed.

Lemma call_reads {A B} (c : client A B) (ap : app A B) m ep k ck net u timeout stream reqs R resp (steps : list (rstate * B)) rs e :
  let ccx := call_ctx c (ck_start ck) m u timeout stream false in
  let z := negotiate_compression (accept_header_value c) (ap_comps ap) in
  fits c ap m ep k -> in_time c ck timeout ->
  nw_stream net (mk_rq (lit "POST") (call_url c m) (h_allitems (cx_headers ccx)) (request_content c (fst reqs) (snd reqs))
                   (timeout_s ccx (ck_send ck))) = SResp resp ->
  delivered R resp ->
  answer (ap_sc ap) (cl_proto c) (k_enc_res k) (k_name k) z steps rs (option_map we_from_exception (reported e)) R ->
  rs_ok rs -> rs_ok (head_state steps rs) -> sendable ap k (cl_proto c) (cl_max c) steps rs e ->
  seen_stream (cl_proto c) steps rs e (send_stream c ccx ck net (Some md_new) reqs None).
Proof.
  intros ccx z F Ti Hn D An [_ It] [Ih _] S. pose proof F as (_&_&_&_&_&Kn&_&De&_&_&_&Sc&Sa).
  destruct (chosen_compression c ap m ep k F) as (zc&x&Dc&U&Nz&_&_). fold z in Dc, U, Nz.
  destruct (sendable_conditions c ap k (cl_proto c) (cl_max c) steps rs e S) as (C1&C2&C3&C4&C5).
  rewrite Sa in *. rewrite <- Sc in *. rewrite Kn in An.
  destruct (client_reads c ccx ck net reqs resp R (k_enc_res k) z zc steps rs _ Hn D An ltac:(rewrite Sc; exact pb_codec_ok)
    Ih It Nz Dc U De C1 C2 C3 C4 C5) as (rq&md&E&H1&H2).
  { intro Sy. unfold ccx. rewrite deadline_over_call. now apply Ti. }
  rewrite E. split; [reflexivity|]. split; [|exists md; auto].
  cbn [sr_end]. apply same_end_received. apply S.
Qed.

Lemma asgi_through {A B} (c : client A B) (ap : app A B) m ep k ck net u hist timeout stream reqs now :
  fits c ap m ep k -> called_with u hist -> timeout_fits c timeout hist -> in_time c ck timeout ->
  (cl_proto c = PConnect -> stream = true /\ is_unary ep = false) ->
  let call := send_stream c (call_ctx c (ck_start ck) m u timeout stream false) ck net (Some md_new) reqs None in
  asgi_stream_link ap now (cl_address c) net (sr_sent call) ->
  (forall a d, In a (fst reqs) -> k_enc_req (cl_codec c) a = Ok d -> fits_in (ap_max ap) d) ->
  exists rq sc en cx, sr_sent call = [rq] /\ arrives_asgi (cl_address c) rq sc en
    /\ context_of (cl_proto c) stream hist (effective_timeout timeout (cl_timeout c)) (ep_method ep) cx
    /\ forall inv steps rs e, method_does ep cx (fst reqs, None) inv steps rs e ->
         sendable ap k (cl_proto c) (cl_max c) steps rs e ->
         ar_inv (asgi_call ap now sc en) = inv /\ seen_stream (cl_proto c) steps rs e call.
Proof.
  intros F C Tf Ti Sp call L Sz. set (ccx := call_ctx c (ck_start ck) m u timeout stream false) in *.
  pose proof (send_stream_sent_rq c ccx ck net (Some md_new) reqs None) as E. fold call in E.
  set (rq := mk_rq _ _ _ _ _) in E.
  destruct (L rq ltac:(rewrite E; left; reflexivity)) as (sc&en&Ar&An).
  destruct (asgi_opens c ap m ep k ck u hist timeout stream reqs now sc en rq F C Tf Sp eq_refl Ar Sz) as (hs&cx&rz&O1&O2&O3&O4&O5).
  exists rq, sc, en, cx. split; [exact E|]. split; [exact Ar|]. split; [exact O2|].
  intros inv steps rs e Md S. destruct Ar as (_&_&_&_&_&_&_&_&Aw&As).
  destruct (chosen_compression c ap m ep k F) as (zc&x&Dc&U&Nz&Az&Dz).
  pose proof F as (_&_&_&Kn&_&Kn'&_&_&_&_&_&_&Sa). rewrite <- Kn' in Kn.
  destruct (asgi_answer ap now sc en ep hs (cl_proto c) cx k rz _ x (fst reqs) inv steps rs e (cl_max c) O1 As Aw O3 Dz Az Kn Sa O5 Md S)
    as (R&R1&R2&R3).
  split; [exact R3|]. destruct (An R R1) as (resp&Hn&D). destruct (method_does_ok _ _ _ _ _ _ _ Md) as [K1 K2].
  exact (call_reads c ap m ep k ck net u timeout stream reqs R resp steps rs e F Ti Hn D R2 K1 K2 S).
Qed.

Lemma through_single {A B} p (steps : list (rstate * B)) rs e (c : client A B) cx ck net md reqs :
  match e with None => exists b, steps = [(rs, b)] | Some _ => steps = [] end -> e <> Some ICancel ->
  seen_stream p steps rs e (send_stream c cx ck net md reqs None) ->
  seen_single p steps rs e (single_result (send_stream c cx ck net md reqs (single_stop None))).
Proof.
  intros H Nc (S1&S2&S3). rewrite single_whole.
  2:{ rewrite S1, map_length. destruct e as [i|]; [subst steps; cbn; lia|]. destruct H as (b&->). cbn. lia. }
  set (r := send_stream c cx ck net md reqs None) in *. split; [|exact S3]. unfold single_result. cbn [cr_out]. destruct e as [[x|]|]; [|congruence|].
  - subst steps. destruct S2 as (x'&E&Sx). rewrite S1, E. exists x'. auto.
  - destruct H as (b&->). cbn [same_end] in S2. rewrite S1, S2. reflexivity.
Qed.

(** ** WSGI: header lines as environment variables *)
Definition dash (c : N) : N := if c =? 95 then 45 else c.

Lemma mangle_name k k' : ~ In 95 k -> same_name k (map dash (mangle k')) = str_eqb (mangle k) (mangle k').
Proof.
  unfold same_name. revert k'. induction k as [|a k IH]; intros k' H; destruct k' as [|b k']; try reflexivity.
  cbn [mangle map lower]. change (lower (a :: k)) with (lower_c a :: lower k).
  change (lower (dash (if b =? 45 then 95 else if (97 <=? b) && (b <=? 122) then b - 32 else b) :: map dash (mangle k')))
    with (lower_c (dash (if b =? 45 then 95 else if (97 <=? b) && (b <=? 122) then b - 32 else b)) :: lower (map dash (mangle k'))).
  assert (E : forall x y l l', str_eqb (x :: l) (y :: l') = (x =? y) && str_eqb l l') by reflexivity. rewrite !E.
  change (map (fun c => if c =? 45 then 95 else if (97 <=? c) && (c <=? 122) then c - 32 else c) k) with (mangle k).
  change (map (fun c => if c =? 45 then 95 else if (97 <=? c) && (c <=? 122) then c - 32 else c) k') with (mangle k').
  rewrite IH by (intro; apply H; now right). f_equal.
  assert (a <> 95) by (intros ->; apply H; now left). clear - H0. unfold lower_c, dash.
  apply eq_true_iff_eq. rewrite !N.eqb_eq.
  destruct (N.eqb_spec a 45), ((97 <=? a) && (a <=? 122)) eqn:A2, ((65 <=? a) && (a <=? 90)) eqn:A3, (N.eqb_spec b 45),
    ((97 <=? b) && (b <=? 122)) eqn:B2;
  repeat match goal with |- context [if ?x then _ else _] => destruct x eqn:? end; lia.
Qed.

Lemma wsgi_fold k l : ~ In 95 k -> NoDup (dkeys l) ->
  (forall key, In key (dkeys l) -> startswith (lit "HTTP_") key = true -> exists k', key = lit "HTTP_" ++ mangle k') ->
  forall h, h_inv h ->
  let h' := fold_left (fun h (kv : pystr * pystr) =>
               if startswith (lit "HTTP_") (fst kv)
               then h_setitem h (map dash (skipn 5 (fst kv))) (snd kv)
               else h) l h in
  h_inv h' /\ h_getall h' k = match dget l (lit "HTTP_" ++ mangle k) with Some v => [v] | None => h_getall h k end.
Proof.
  intros Hk. induction l as [|[key v] l IH]; intros Nd Km h I; [split; [exact I|reflexivity]|].
  cbn [fold_left fst snd]. change (dkeys ((key, v) :: l)) with (key :: dkeys l) in *. inversion Nd as [|x y Ni Nd']; subst.
  assert (Km' : forall key0, In key0 (dkeys l) -> startswith (lit "HTTP_") key0 = true -> exists k', key0 = lit "HTTP_" ++ mangle k')
    by (intros; apply Km; auto; now right).
  cbn [dget]. destruct (startswith (lit "HTTP_") key) eqn:Sw.
  - destruct (Km key (or_introl eq_refl) Sw) as (k'&->). 
    change (skipn 5 (lit "HTTP_" ++ mangle k')) with (mangle k').
    destruct (IH Nd' Km' (h_setitem h (map dash (mangle k')) v) (h_inv_set _ _ _ I)) as [I' V]. split; [exact I'|].
    cbv zeta in V. rewrite V, getall_set by auto. rewrite mangle_name by auto.
    destruct (str_eqb_spec (lit "HTTP_" ++ mangle k') (lit "HTTP_" ++ mangle k)) as [E|E].
    + rewrite E in *. apply app_inv_head in E. rewrite E, str_eqb_refl.
      destruct (dget l (lit "HTTP_" ++ mangle k)) as [w|] eqn:D; [|reflexivity]. exfalso. apply Ni. apply dmem_true. unfold dmem. now rewrite D.
    + destruct (dget l (lit "HTTP_" ++ mangle k)) as [w|]; [reflexivity|].
      destruct (str_eqb_spec (mangle k) (mangle k')) as [E'|E']; [|reflexivity]. exfalso. apply E. now rewrite E'.
  - destruct (IH Nd' Km' h I) as [I' V]. split; [exact I'|]. cbv zeta in V. rewrite V.
    destruct (str_eqb_spec key (lit "HTTP_" ++ mangle k)) as [E|E]; [|reflexivity].
    exfalso. rewrite E, startswith_app in Sw. discriminate.
Qed.

Lemma wsgi_headers_values q k : ~ In 95 k -> NoDup (dkeys (wq_env q)) ->
  (forall key, In key (dkeys (wq_env q)) -> startswith (lit "HTTP_") key = true -> exists k', key = lit "HTTP_" ++ mangle k') ->
  h_inv (wsgi_headers q)
  /\ (same_name k (lit "content-length") = false ->
      h_getall (wsgi_headers q) k = match dget (wq_env q) (lit "HTTP_" ++ mangle k) with
                                    | Some v => [v]
                                    | None => if same_name k (lit "content-type")
                                              then match env_get q "CONTENT_TYPE" with Some v => [v] | None => [] end else []
                                    end).
Proof.
  intros Hk Nd Km. unfold wsgi_headers. cbv zeta.
  set (h1 := match env_get q "CONTENT_TYPE" with Some v => h_setitem h_empty (lit "content-type") v | None => h_empty end).
  set (h2 := match env_get q "CONTENT_LENGTH" with Some v => h_setitem h1 (lit "content-length") v | None => h1 end).
  assert (I1 : h_inv h1) by (unfold h1; destruct (env_get q "CONTENT_TYPE"); [apply h_inv_set|]; apply h_inv_empty).
  assert (I2 : h_inv h2) by (unfold h2; destruct (env_get q "CONTENT_LENGTH"); [apply h_inv_set|]; exact I1).
  destruct (wsgi_fold k (wq_env q) Hk Nd Km h2 I2) as [I V]. split; [exact I|]. intro Nl.
  etransitivity; [exact V|]. destruct (dget (wq_env q) (lit "HTTP_" ++ mangle k)); [reflexivity|].
  assert (E2 : h_getall h2 k = h_getall h1 k).
  { unfold h2. destruct (env_get q "CONTENT_LENGTH"); [|reflexivity]. now rewrite getall_set, Nl by auto. }
  rewrite E2. unfold h1. destruct (env_get q "CONTENT_TYPE").
  - rewrite getall_set by apply h_inv_empty. now destruct (same_name k (lit "content-type")).
  - now destruct (same_name k (lit "content-type")).
Qed.

Lemma lower_c_95 c : lower_c c = 95 <-> c = 95.
Proof. unfold lower_c. destruct ((65 <=? c) && (c <=? 90)) eqn:E; lia. Qed.
Lemma in95_lower k : In 95 (lower k) <-> In 95 k.
Proof.
  unfold lower. rewrite in_map_iff. split.
  - intros (c&E&H). rewrite (proj1 (lower_c_95 c) E) in H. exact H.
  - intro H. exists 95. split; [reflexivity|exact H].
Qed.
Lemma in95_same k k' : same_name k k' = true -> In 95 k -> In 95 k'.
Proof.
  unfold same_name. intros E H. destruct (str_eqb_spec (lower k) (lower k')) as [E'|]; [|discriminate].
  apply in95_lower. rewrite <- E'. now apply in95_lower.
Qed.
Lemma dash_no95 s : ~ In 95 (map dash s).
Proof. intro H. apply in_map_iff in H. destruct H as (c&E&_). unfold dash in E. destruct (N.eqb_spec c 95); [discriminate|congruence]. Qed.

Lemma unmangle k : ~ In 95 k -> lower (map dash (mangle k)) = lower k.
Proof.
  induction k as [|c k IH]; intro H; [reflexivity|].
  change (lower_c (dash (if c =? 45 then 95 else if (97 <=? c) && (c <=? 122) then c - 32 else c)) :: lower (map dash (mangle k)) = lower_c c :: lower k).
  rewrite IH by (intro; apply H; now right). f_equal. assert (c <> 95) by (intros ->; apply H; now left). clear - H0.
  unfold lower_c, dash. destruct (N.eqb_spec c 45), ((97 <=? c) && (c <=? 122)) eqn:A2, ((65 <=? c) && (c <=? 90)) eqn:A3;
  repeat match goal with |- context [if ?x then _ else _] => destruct x eqn:? end; lia.
Qed.

Lemma wsgi_underscore q k : In 95 k -> h_getall (wsgi_headers q) k = [].
Proof.
  intro H. unfold wsgi_headers. cbv zeta.
  assert (S : forall nm, ~ In 95 nm -> same_name k nm = false).
  { intros nm N. destruct (same_name k nm) eqn:E; [|reflexivity]. exfalso. apply N. eapply in95_same; eauto. }
  assert (G : forall l h, h_inv h -> h_getall h k = [] -> h_getall (fold_left (fun h (kv : pystr * pystr) =>
               if startswith (lit "HTTP_") (fst kv)
               then h_setitem h (map (fun c => if c =? 95 then 45 else c) (skipn 5 (fst kv))) (snd kv)
               else h) l h) k = []).
  { induction l as [|[a v] l IH]; intros h I E; [exact E|]. cbn [fold_left fst snd]. destruct (startswith (lit "HTTP_") a); [|auto].
    apply IH; [apply h_inv_set; exact I|]. rewrite getall_set by auto. rewrite S; [exact E|]. apply dash_no95. }
  assert (X : forall o nm h, ~ In 95 nm -> h_inv h -> h_getall h k = [] ->
     h_inv (match o with Some v => h_setitem h nm v | None => h end) /\ h_getall (match o with Some v => h_setitem h nm v | None => h end) k = []).
  { intros o nm h N I E. destruct o; [|auto]. split; [apply h_inv_set; exact I|]. rewrite getall_set by auto. now rewrite S. }
  destruct (X (env_get q "CONTENT_TYPE") (lit "content-type") h_empty) as [I1 E1]; [cbn; intuition discriminate|apply h_inv_empty|reflexivity|].
  destruct (X (env_get q "CONTENT_LENGTH") (lit "content-length") _ ltac:(cbn; intuition discriminate) I1 E1) as [I2 E2].
  now apply G.
Qed.

Lemma values_in_same l a b : same_name a b = true -> values_in l a = values_in l b.
Proof. intro H. unfold values_in. f_equal. apply filter_ext. intro kv. now apply same_name_trans. Qed.

Lemma wsgi_lines_arrive address rq q : arrives_wsgi address rq q ->
  (forall k, (List.length (values_in (rq_headers rq) k) <= 1)%nat) -> (forall k, In 95 k -> values_in (rq_headers rq) k = []) ->
  h_inv (wsgi_headers q) /\
  forall k, same_name k (lit "content-length") = false -> transport_name k = false \/ values_in (rq_headers rq) k <> [] ->
    h_getall (wsgi_headers q) k = values_in (rq_headers rq) k.
Proof.
  intros (_&Nd&Km&_&A1&A2&A3&A4&_) One Und. split.
  { exact (proj1 (wsgi_headers_values q (lit "x") ltac:(cbn; intuition discriminate) Nd Km)). }
  intros k Nl T. destruct (in_dec N.eq_dec 95 k) as [U|U].
  { rewrite (Und k U). now apply wsgi_underscore. }
  destruct (wsgi_headers_values q k U Nd Km) as [_ V]. rewrite (V Nl). clear V.
  destruct (same_name k (lit "content-type")) eqn:Ct.
  - assert (E : lit "HTTP_" ++ mangle k = lit "HTTP_CONTENT_TYPE").
    { change (lit "HTTP_CONTENT_TYPE") with (lit "HTTP_" ++ mangle (lit "content-type")). f_equal.
      pose proof (mangle_name k (lit "content-type") U) as M. change (map dash (mangle (lit "content-type"))) with (lit "CONTENT-TYPE") in M.
      assert (S : same_name k (lit "CONTENT-TYPE") = true) by exact Ct. rewrite S in M.
      destruct (str_eqb_spec (mangle k) (mangle (lit "content-type"))) as [E|]; [exact E|discriminate]. }
    rewrite E, A3. pose proof (A1 k) as A1k. rewrite Ct in A1k. specialize (One k).
    pose proof (values_in_same (rq_headers rq) _ _ Ct) as Vs.
    destruct (values_in (rq_headers rq) k) as [|v [|w r]]; [|rewrite (A1k v eq_refl); reflexivity|cbn in One; lia].
    rewrite (A2 (eq_sym Vs)). reflexivity.
  - pose proof (A1 k) as A1k. rewrite Ct, Nl in A1k. specialize (One k).
    destruct (values_in (rq_headers rq) k) as [|v [|w r]] eqn:Vk; [|rewrite (A1k v eq_refl); reflexivity|cbn in One; lia].
    destruct T as [T|T]; [|congruence]. rewrite (A4 k); [reflexivity| |exact T].
    intros k' Em. destruct (in_dec N.eq_dec 95 k') as [U'|U']; [now apply Und|].
    rewrite <- Vk. apply values_in_same. rewrite same_name_sym. 
    pose proof (mangle_name k k' U) as M. rewrite <- Em, str_eqb_refl in M. unfold same_name in *. now rewrite <- (unmangle k' U').
Qed.

Lemma call_lines_wsgi {A B} (c : client A B) start m u hist timeout stream get : called_with u hist -> wsgi_lines hist ->
  let h := cx_headers (call_ctx c start m u timeout stream get) in
  (forall k, (List.length (h_getall h k) <= 1)%nat) /\ (forall k, In 95 k -> h_getall h k = []).
Proof.
  intros C (W1&W2&W3) h. destruct (call_lines c start m u hist timeout stream get C) as [_ V]. fold h in V. split; intro k.
  - rewrite V. specialize (W1 k) as Wk. specialize (W1 (lit "user-agent")) as Wu.
    assert (Lu : (List.length (match values_of hist (lit "user-agent") with [] => [cl_ua c] | vs => vs end) <= 1)%nat)
      by (destruct (values_of hist (lit "user-agent")); [cbn; lia|exact Wu]).
    destruct (effective_timeout timeout (cl_timeout c)); repeat match goal with |- context [if ?x then _ else _] => destruct x; [cbn; auto; lia|] end;
    exact Wk.
  - intro H. rewrite V.
    assert (S : forall nm, ~ In 95 nm -> same_name k nm = false).
    { intros nm N. destruct (same_name k nm) eqn:E; [|reflexivity]. exfalso. apply N. eapply in95_same; eauto. }
    assert (T : same_name k (timeout_header (cl_proto c)) = false) by (apply S; destruct (cl_proto c); cbn; intuition discriminate).
    rewrite T. rewrite (S (lit "content-type")) by (cbn; intuition discriminate).
    rewrite (S (client_compression_header (cl_proto c) stream)) by (destruct (cl_proto c), stream; cbn; intuition discriminate).
    rewrite (S (client_accept_header (cl_proto c) stream)) by (destruct (cl_proto c), stream; cbn; intuition discriminate).
    rewrite (S (lit "connect-protocol-version")) by (cbn; intuition discriminate).
    rewrite (S (lit "user-agent")) by (cbn; intuition discriminate). rewrite (S (lit "te")) by (cbn; intuition discriminate).
    rewrite (W2 k H). destruct (effective_timeout timeout (cl_timeout c)), (cl_proto c); reflexivity.
Qed.

Lemma read_chunks_pieces fuel : forall pieces, Forall (fun b => b <> []) pieces -> (input_fuel (map RD pieces) <= fuel)%nat ->
  exists cs, read_chunks fuel (map RD pieces) = (cs, None) /\ List.concat cs = List.concat pieces.
Proof.
  induction fuel as [|f IH]; intros pieces F Hf; [unfold input_fuel in Hf; lia|]. cbn [read_chunks].
  destruct pieces as [|b pieces]; [exists []; split; reflexivity|].
  cbn [map] in *. rewrite input_fuel_cons in Hf. inversion F as [|x y Fb Fp]; subst. cbn [wread].
  destruct (lenN b <=? 4096) eqn:L.
  - destruct b as [|c b]; [congruence|]. destruct (IH pieces Fp ltac:(cbn [List.length] in Hf; lia)) as (cs&E&C). rewrite E.
    exists ((c :: b) :: cs). split; [reflexivity|]. cbn [List.concat]. now rewrite C.
  - assert (D : exists c t, takeN 4096 b = c :: t).
    { unfold takeN. destruct b as [|c b]; [congruence|]. change (N.to_nat 4096) with (S (N.to_nat 4095)). cbn [firstn]. eauto. }
    destruct D as (c&t&D). 
    assert (Sp : b = takeN 4096 b ++ dropN 4096 b) by (unfold takeN, dropN; symmetry; apply firstn_skipn).
    assert (Nd : dropN 4096 b <> []).
    { intro E. rewrite E, app_nil_r in Sp. assert (lenN b <= 4096); [|lia]. rewrite Sp. unfold takeN, lenN. rewrite firstn_length. lia. }
    assert (Len : (List.length (dropN 4096 b) < List.length b)%nat).
    { rewrite Sp at 2. rewrite app_length, D. cbn [List.length]. lia. }
    destruct (IH (dropN 4096 b :: pieces)) as (cs&E&C).
    { constructor; auto. }
    { cbn [map]. rewrite input_fuel_cons. lia. }
    cbn [map] in E. rewrite E. rewrite D. exists ((c :: t) :: cs). split; [reflexivity|]. cbn [List.concat]. rewrite C, <- D. cbn [List.concat].
    rewrite app_assoc, <- Sp. reflexivity.
Qed.

Lemma wsgi_opens_undoes {A B} (c : client A B) (ap : app A B) m ep k ck u hist timeout stream reqs now q rq :
  fits c ap m ep k -> called_with u hist -> wsgi_lines hist -> timeout_fits c timeout hist ->
  (cl_proto c = PConnect -> stream = true /\ is_unary ep = false) ->
  let ccx := call_ctx c (ck_start ck) m u timeout stream false in
  rq = mk_rq (lit "POST") (call_url c m) (h_allitems (cx_headers ccx)) (request_content c (fst reqs) (snd reqs)) (timeout_s ccx (ck_send ck)) ->
  arrives_wsgi (cl_address c) rq q ->
  (forall a d, In a (fst reqs) -> k_enc_req (cl_codec c) a = Ok d -> fits_in (ap_max ap) d) ->
  exists hs cx rz, undoes rz (cl_send c) /\ wsgi_stream_request ap now q ep hs (cl_proto c) cx k
    /\ context_of (cl_proto c) stream hist (effective_timeout timeout (cl_timeout c)) (ep_method ep) cx
    /\ negotiate_stream_compression (cl_proto c) hs (ap_comps ap) = (Some rz, negotiate_compression (accept_header_value c) (ap_comps ap))
    /\ wsgi_request_stream ap k rz q = (fst reqs, None).
Proof.
  intros F C Wl Tf Sp ccx Erq Ar Sz.
  destruct (call_lines c (ck_start ck) m u hist timeout stream false C) as [Ic Vc]. fold ccx in Ic, Vc.
  destruct (call_lines_wsgi c (ck_start ck) m u hist timeout stream false C Wl) as [W1 W2]. fold ccx in W1, W2.
  assert (Vr : forall k, values_in (rq_headers rq) k = h_getall (cx_headers ccx) k).
  { intro x. rewrite Erq. cbn [rq_headers]. now apply values_in_allitems. }
  destruct (wsgi_lines_arrive _ _ _ Ar) as [Ih Hv0].
  { intro x. rewrite Vr. apply W1. }
  { intros x Hx. rewrite Vr. now apply W2. }
  set (hs := wsgi_headers q) in *.
  assert (Hv : forall k, same_name k (lit "content-length") = false -> transport_name k = false \/ h_getall (cx_headers ccx) k <> [] ->
     h_getall hs k = h_getall (cx_headers ccx) k).
  { intros x Hx Tx. rewrite <- Vr in *. now apply Hv0. }
  assert (RL : request_lines c timeout hs).
  { apply (call_request_lines c (ck_start ck) m u hist timeout stream); auto; [intro; now apply Sp|].
    intros x [Hx|[_ ->]]; (apply Hv; [|left]); try reflexivity.
    - cbn [In] in Hx. destruct Hx as [<-|[<-|[<-|[<-|[]]]]]; destruct (cl_proto c); reflexivity.
    - cbn [In] in Hx. destruct Hx as [<-|[<-|[<-|[<-|[]]]]]; destruct (cl_proto c); reflexivity. }
  destruct Ar as (R1&_&_&(path&R3&R3'&P1&P2)&_&_&_&_&_&R8&(pieces&R9&R9'&R9'')&R10&R11).
  destruct (stream_opens c ap m ep k timeout hist hs now (env_default q "wsgi.url_scheme" (lit "http"))
     (match env_get q "REMOTE_ADDR" with
                | None | Some [] => None
                | Some ra => Some (ra ++ lit ":" ++ env_default q "REMOTE_PORT" (lit "0"))
                end) F Tf RL) as (O1&O2&(rz&O3&U)&cx&O4&O5&O6&O7&O8).
  destruct (F) as (F1&F2&F3&F4&F5&F6&_).
  assert (Path : path = lit "/" ++ mi_service m ++ lit "/" ++ mi_name m).
  { assert (Q : ~ In 63 (lit "/" ++ mi_service m ++ lit "/" ++ mi_name m)).
    { intro H. apply in_app_or in H. destruct H as [H|H]; [cbn in H; intuition discriminate|].
      apply in_app_or in H. destruct H as [H|H]; [contradiction|].
      apply in_app_or in H. destruct H as [H|H]; [cbn in H; intuition discriminate|contradiction]. }
    destruct P2 as [[E _]|E]; rewrite Erq in E; cbn [rq_url] in E; unfold call_url in E; apply app_inv_head in E.
    - now symmetry.
    - exfalso. apply Q. rewrite E. apply in_or_app. right. left. reflexivity. }
  exists hs, cx, rz. split; [exact U|].
  split; [split; [|split]|split; [|split]].
  - unfold wsgi_open_request, wsgi_find_endpoint, env_item. rewrite R3. cbn [bind].
    assert (Pm : match path with [] => lit "/" | _ => path end = path) by (destruct path; [congruence|reflexivity]).
    rewrite Pm, Path, F1. cbn [bind]. rewrite R1, Erq. cbn [bind rq_method]. cbv zeta. fold hs. rewrite O1, R10, andb_false_r.
    exact (f_equal (fun r => bind r (fun cx => Ok (ep, hs, cl_proto c, cx))) O4).
  - rewrite O2 by reflexivity. exact F5.
  - intro P. now destruct (Sp P).
  - split; [exact O5|]. split; [|exact O8]. intros x L T. rewrite O6.
    rewrite <- (call_user_line c (ck_start ck) m u hist timeout stream false x C L). apply Hv.
    + destruct (same_name x (lit "content-length")) eqn:E; [|reflexivity]. exfalso. destruct Wl as (_&_&Wc).
      assert (Vx : values_of hist x = []) by (rewrite <- Wc, <- (values_of_lower hist x), <- (values_of_lower hist (lit "content-length")); f_equal; unfold same_name in E; destruct (str_eqb_spec (lower x) (lower (lit "content-length"))); [assumption|discriminate]).
      destruct T as [T|T]; [|congruence]. unfold transport_name in T.
      assert (X : existsb (same_name x) transport_names = true); [|congruence].
      apply existsb_exists. exists (lit "content-length"). split; [cbn; tauto|exact E].
    + destruct T as [T|T]; [left; exact T|right]. unfold ccx. rewrite (call_user_line c (ck_start ck) m u hist timeout stream false x C L). exact T.
  - exact O3.
  - rewrite Erq in R8, R9''. cbn [rq_body] in R8, R9''. destruct (request_content_written _ _ _ R8) as [T _]. rewrite T in *.
    destruct (read_chunks_pieces (input_fuel (wq_input q)) pieces R9' ltac:(rewrite R9; lia)) as (cs&Ec&Cc).
    destruct (frames_read c ap m ep k rz (fst reqs) cs F U Sz R8 ltac:(congruence)) as (r&Er).
    unfold wsgi_request_stream, wsgi_body. rewrite R9 in *. rewrite Ec, Er. reflexivity.
Qed.

Lemma wsgi_opens {A B} (c : client A B) (ap : app A B) m ep k ck u hist timeout stream reqs now q rq :
  fits c ap m ep k -> called_with u hist -> wsgi_lines hist -> timeout_fits c timeout hist ->
  (cl_proto c = PConnect -> stream = true /\ is_unary ep = false) ->
  let ccx := call_ctx c (ck_start ck) m u timeout stream false in
  rq = mk_rq (lit "POST") (call_url c m) (h_allitems (cx_headers ccx)) (request_content c (fst reqs) (snd reqs)) (timeout_s ccx (ck_send ck)) ->
  arrives_wsgi (cl_address c) rq q ->
  (forall a d, In a (fst reqs) -> k_enc_req (cl_codec c) a = Ok d -> fits_in (ap_max ap) d) ->
  exists hs cx rz, wsgi_stream_request ap now q ep hs (cl_proto c) cx k
    /\ context_of (cl_proto c) stream hist (effective_timeout timeout (cl_timeout c)) (ep_method ep) cx
    /\ negotiate_stream_compression (cl_proto c) hs (ap_comps ap) = (Some rz, negotiate_compression (accept_header_value c) (ap_comps ap))
    /\ wsgi_request_stream ap k rz q = (fst reqs, None).
Proof.
  intros F C Wl Tf Sp ccx Erq Ar Sz. destruct (wsgi_opens_undoes c ap m ep k ck u hist timeout stream reqs now q rq F C Wl Tf Sp Erq Ar Sz) as (hs&cx&rz&_&H). exists hs, cx, rz. exact H.
Qed.

Lemma without_logs_body frs : without_logs (map WBody frs) = map WBody frs.
Proof. induction frs; cbn; auto. now f_equal. Qed.
Lemma without_logs_logged {B} (steps : list (rstate * B)) e : without_logs (wsgi_logged steps e) = [].
Proof. unfold wsgi_logged. destruct steps, e as [[x|]|]; try reflexivity. apply without_logs_maybe. Qed.

Lemma wsgi_answer {A B} (ap : app A B) now q ep hs p cx k rz z x msgs inv (steps : list (rstate * B)) rs e max :
  wsgi_stream_request ap now q ep hs p cx k -> (forall i, wq_drain q i = None) ->
  negotiate_stream_compression p hs (ap_comps ap) = (Some rz, z) -> dget (ap_comps ap) x = Some z -> ascii (z_name z) ->
  codec_name_ok (k_name k) -> ap_sc ap = pb_codec ->
  wsgi_request_stream ap k rz q = (msgs, None) -> method_does ep cx (msgs, None) inv steps rs e ->
  sendable ap k p max steps rs e ->
  exists R, wsgi_answers (wsgi_call ap now q) R
    /\ answer (ap_sc ap) p (k_enc_res k) (k_name k) z steps rs (option_map we_from_exception (reported e)) R
    /\ wr_inv (wsgi_call ap now q) = inv.
Proof.
  intros H Hd Hn Dz Az Kn Sc Er Md S. pose proof (not_cancelled _ _ _ _ _ _ _ S) as Nc.
  destruct S as (S1&S2&S3&S4&S5).
  destruct (method_does_ok _ _ _ _ _ _ _ Md) as [[_ It] [Ih _]].
  destruct (sendable_written ap k max x z steps Dz S1) as (frs&W).
  destruct (end_written ap p max x z (rs_t rs) e Dz Sc It S4 S5) as (em&Em).
  set (head := stream_headers p (k_name k) (z_name z) (head_state steps rs)).
  assert (Ah : ascii_pairs head) by (apply stream_headers_ascii; auto).
  set (ts := match em with EndTrailers t => h_allitems t | _ => [] end).
  assert (At : ascii_pairs ts).
  { unfold ts. destruct em as [b|t]; [constructor|]. unfold writer_end in Em. destruct p.
    - destruct (connect_end _ _ _); discriminate.
    - destruct (grpc_trailers _ _ _) as [t'|] eqn:Et; [|discriminate]. cbn [bind] in Em. apply ok_inj in Em. injection Em as <-.
      rewrite Sc in Et. destruct S3 as ((_&S3)&_). eapply grpc_trailers_ascii; [exact pb_codec_ok|exact It| |exact S3|exact Et].
      destruct e as [[x'|]|]; [exact S5|destruct S5|exact I].
    - destruct (grpc_web_end _ _ _ _); discriminate. }
  assert (Dr : forall i, drain q i = None) by (intro i; unfold drain; rewrite Hd; now destruct (startswith _ _)).
  rewrite (C57_wsgi_response ap now q ep hs p cx k (Some rz) z inv steps rs e frs em H (Dr _) (Dr _) Hn); auto.
  2: { cbn [stream_runs]. rewrite Er. left. exact Md. }
  exists (mk_resp 200 head (List.concat frs ++ match em with EndBytes b => b | EndTrailers _ => [] end) ts).
  split; [|split; [|reflexivity]].
  - split; [reflexivity|]. cbn [wr_events re_status re_headers re_body re_trailers]. exists (lit "OK").
    change (dec_of_N 200 ++ lit " " ++ lit "OK") with (lit "200 OK").
    destruct em as [b|t]; cbn [wsgi_tail].
    + exists None. split; [|split; [reflexivity|split; assumption]]. exists frs, [b].
      rewrite without_logs_app, without_logs_logged. cbn [List.app without_logs]. rewrite without_logs_app, without_logs_body. split; [reflexivity|].
      cbn [List.concat]. now rewrite app_nil_r.
    + exists (Some ts). split; [|split; [reflexivity|split; assumption]]. exists frs, [[]].
      rewrite without_logs_app, without_logs_logged. cbn [List.app without_logs]. rewrite without_logs_app, without_logs_body. split; reflexivity.
  - exists frs, em. repeat split; auto.
Qed.

Lemma wsgi_through {A B} (c : client A B) (ap : app A B) m ep k ck net u hist timeout stream reqs now :
  fits c ap m ep k -> called_with u hist -> wsgi_lines hist -> timeout_fits c timeout hist -> in_time c ck timeout ->
  (cl_proto c = PConnect -> stream = true /\ is_unary ep = false) ->
  let call := send_stream c (call_ctx c (ck_start ck) m u timeout stream false) ck net (Some md_new) reqs None in
  wsgi_stream_link ap now (cl_address c) net (sr_sent call) ->
  (forall a d, In a (fst reqs) -> k_enc_req (cl_codec c) a = Ok d -> fits_in (ap_max ap) d) ->
  exists rq q cx, sr_sent call = [rq] /\ arrives_wsgi (cl_address c) rq q
    /\ context_of (cl_proto c) stream hist (effective_timeout timeout (cl_timeout c)) (ep_method ep) cx
    /\ forall inv steps rs e, method_does ep cx (fst reqs, None) inv steps rs e ->
         sendable ap k (cl_proto c) (cl_max c) steps rs e ->
         wr_inv (wsgi_call ap now q) = inv /\ seen_stream (cl_proto c) steps rs e call.
Proof.
  intros F C Wl Tf Ti Sp call L Sz. set (ccx := call_ctx c (ck_start ck) m u timeout stream false) in *.
  pose proof (send_stream_sent_rq c ccx ck net (Some md_new) reqs None) as E. fold call in E.
  set (rq := mk_rq _ _ _ _ _) in E.
  destruct (L rq ltac:(rewrite E; left; reflexivity)) as (q&Ar&An).
  destruct (wsgi_opens c ap m ep k ck u hist timeout stream reqs now q rq F C Wl Tf Sp eq_refl Ar Sz) as (hs&cx&rz&O1&O2&O3&O5).
  exists rq, q, cx. split; [exact E|]. split; [exact Ar|]. split; [exact O2|].
  intros inv steps rs e Md S. destruct Ar as (_&_&_&_&_&_&_&_&_&_&_&_&Dr).
  destruct (chosen_compression c ap m ep k F) as (zc&x&Dc&U&Nz&Az&Dz).
  pose proof F as (_&_&_&Kn&_&Kn'&_&_&_&_&_&_&Sa). rewrite <- Kn' in Kn.
  destruct (wsgi_answer ap now q ep hs (cl_proto c) cx k rz _ x (fst reqs) inv steps rs e (cl_max c) O1 Dr O3 Dz Az Kn Sa O5 Md S)
    as (R&R1&R2&R3).
  split; [exact R3|]. destruct (An R R1) as (resp&Hn&D). destruct (method_does_ok _ _ _ _ _ _ _ Md) as [K1 K2].
  exact (call_reads c ap m ep k ck net u timeout stream reqs R resp steps rs e F Ti Hn D R2 K1 K2 S).
Qed.

Lemma stream_through {A B} w (c : client A B) (ap : app A B) m ep k ck net u hist timeout stream reqs now :
  connected w c ap m ep k ck u hist timeout ->
  (cl_proto c = PConnect -> stream = true /\ is_unary ep = false) ->
  let call := send_stream c (call_ctx c (ck_start ck) m u timeout stream false) ck net (Some md_new) reqs None in
  stream_link w ap now (cl_address c) net (sr_sent call) -> request_fits c ap (fst reqs) ->
  exists rq cx, sr_sent call = [rq]
    /\ context_of (cl_proto c) stream hist (effective_timeout timeout (cl_timeout c)) (ep_method ep) cx
    /\ forall inv steps rs e, method_does ep cx (fst reqs, None) inv steps rs e ->
         sendable ap k (cl_proto c) (cl_max c) steps rs e ->
         ran w ap now (cl_address c) rq inv /\ seen_stream (cl_proto c) steps rs e call.
Proof.
  intros (F&C&Wl&Tf&Ti) Sp call L Sz. destruct w; cbn [stream_link ran] in *.
  - destruct (wsgi_through c ap m ep k ck net u hist timeout stream reqs now F C (Wl eq_refl) Tf Ti Sp L Sz) as (rq&q&cx&H1&H2&H3&H4).
    exists rq, cx. split; [exact H1|]. split; [exact H3|]. intros inv steps rs e Md S. destruct (H4 _ _ _ _ Md S) as [G1 G2]. eauto.
  - destruct (asgi_through c ap m ep k ck net u hist timeout stream reqs now F C Tf Ti Sp L Sz) as (rq&sc&en&cx&H1&H2&H3&H4).
    exists rq, cx. split; [exact H1|]. split; [exact H3|]. intros inv steps rs e Md S. destruct (H4 _ _ _ _ Md S) as [G1 G2].
    split; [|exact G2]. eauto.
Qed.

(** The request of a unary call over gRPC does not depend on [use_get]. *)
Lemma unary_stream_get {A B} (c : client A B) ck net md m u timeout get a stop : cl_proto c <> PConnect ->
  execute_unary c ck net md m u timeout get a stop
  = single_result (send_stream c (call_ctx c (ck_start ck) m u timeout false false) ck net md ([a], None) (single_stop stop)).
Proof. intro H. unfold execute_unary, send_unary. destruct (cl_proto c) eqn:P; [congruence| |]; reflexivity. Qed.

Lemma method_single {A B} (ep : endpoint A B) cx ps inv steps rs e : match ep with EpUnary _ _ | EpClientStream _ _ => True | _ => False end ->
  method_does ep cx ps inv steps rs e -> match e with None => exists b, steps = [(rs, b)] | Some _ => steps = [] end.
Proof.
  assert (X : forall X Y (g : prog X Empty_set Y) ps steps rs e, returns g ps steps rs e ->
    match e with None => exists b, steps = [(rs, b)] | Some _ => steps = [] end).
  { intros X Y g ps' st rs' e' H. unfold returns in H. destruct (run_fn g ps' rs_new) as [[b|i] r].
    - destruct H as (->&->&->). eauto.
    - destruct H as (->&->&->). reflexivity. }
  destruct ep; cbn [method_does]; try tauto; intros _ H.
  - destruct H as (a&_&_&H). exact (X _ _ _ _ _ _ _ H).
  - destruct H as (_&H). exact (X _ _ _ _ _ _ _ H).
Qed.
