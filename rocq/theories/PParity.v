(** C46: the ASGI and the WSGI application answer alike. *)
From Coq Require Import List NArith ZArith Bool String Lia ZifyBool ZifyNat.
From Verif Require Import MBase MPyStr MHeaders LBase LHeaders MUtf8 MBase64 MPercent MWire MEnvelope SEnvelope MTimeout MProtocol SProtocol MClient
  MServer MAsgi MWsgi SServer LServer LStream LWsgi LRequest LEnvelope PProtocol PResponse PRequest PGen SParity LParity.
Import ListNotations.
Local Open Scope N_scope.

(** ** Streams *)
Lemma same_stream_answer {A B} (ap : app A B) now sc en q hs body ep p cx cx' k :
  same_request sc en q hs body -> undisturbed en q -> order_blind ap ->
  asgi_stream_request ap now sc ep hs p cx k -> wsgi_stream_request ap now q ep (wsgi_headers q) p cx' k -> same_ctx cx cx' ->
  writable_stream ap en p ep k hs cx ->
  same_answer (asgi_call ap now sc en) (wsgi_call ap now q).
Proof.
  intros R (Hcut&Hw&So&Hd) O Ra Rw Sc W. unfold writable_stream in W.
  destruct (negotiate_stream_compression p hs (ap_comps ap)) as [req z] eqn:Hn.
  destruct (stream_runs_total ep cx req (fun rz => request_stream ap k rz en)) as (inv&steps&rs'&e&Hr).
  destruct (W _ _ _ _ Hr) as (He&(frs&Hf)&(head&Hh)&em&Hem&Hts).
  destruct (found_endpoint ap now sc ep hs p cx (proj1 Ra)) as [key D].
  assert (Hr' : stream_runs ep cx' req (fun rz => wsgi_request_stream ap k rz q) inv steps rs' e).
  { eapply same_runs; eauto. intro rz. exact (same_stream ap k rz en q body (sr_body _ _ _ _ _ R) Hcut). }
  assert (Hn' : negotiate_stream_compression p (wsgi_headers q) (ap_comps ap) = (req, z)).
  { rewrite <- Hn. symmetry. apply same_negotiation. exact (sr_same_headers _ _ _ _ _ R). }
  rewrite (C57_wsgi_response ap now q ep _ p cx' k req z inv steps rs' e frs em Rw (Hd 0%nat) (Hd 2%nat) Hn' Hr' He Hf Hem).
  assert (Hu : unwatched ep en (List.length steps)) by (unfold unwatched; rewrite Hw; destruct ep; exact I).
  assert (L : without_logs (wsgi_logged steps e) = []).
  { unfold wsgi_logged. destruct steps; [|reflexivity]. destruct e as [[x|]|]; try reflexivity. apply without_logs_maybe. }
  assert (B1 : forall l, without_logs (map WBody frs ++ l) = map WBody frs ++ without_logs l).
  { clear. intro l. induction frs; cbn; congruence. }
  assert (T : exists ts, match em with EndTrailers t => encode_pairs (h_allitems t) = Ok ts | EndBytes _ => True end).
  { destruct em as [b|t]; [exists []; exact I|]. exact (Hts t eq_refl). }
  destruct T as [ts T].
  rewrite (C57_asgi_response ap now sc en ep hs p cx k req z inv steps rs' e frs head em ts Ra So Hn Hr Hu Hf Hh Hem)
    by (intros t ->; exact T).
  split; [reflexivity|]. split; [reflexivity|].
  assert (Up : match em with EndTrailers _ => uses_trailers p = true | EndBytes _ => uses_trailers p = false end).
  { unfold writer_end in Hem. destruct p; cbn [bind] in Hem.
    - destruct (connect_end _ _ _); [|discriminate]. injection Hem as <-. reflexivity.
    - destruct (grpc_trailers _ _ _); [|discriminate]. injection Hem as <-. reflexivity.
    - destruct (grpc_web_end _ _ _ _); [|discriminate]. injection Hem as <-. reflexivity. }
  exists 200, (lit "OK"), head, (stream_headers p (k_name k) (z_name z) (head_state steps rs')). cbn [ar_events wr_events].
  destruct em as [b|t]; cbn [asgi_tail wsgi_tail].
  - exists (List.concat frs ++ b), None, None. split; [|split; [|split; [|exact I]]].
    + exists frs, b. rewrite Up. split; reflexivity.
    + exists (frs ++ [b]), []. rewrite without_logs_app, L. cbn [without_logs List.app]. rewrite B1, map_app. cbn [without_logs map List.app].
      rewrite app_nil_r. split; [reflexivity|]. rewrite concat_app. cbn. now rewrite !app_nil_r.
    + now apply encoded_same.
  - exists (List.concat frs), (Some ts), (Some (h_allitems t)). split; [|split; [|split]].
    + exists frs, []. rewrite Up. split; [reflexivity|]. now rewrite app_nil_r.
    + exists frs, [[]]. rewrite without_logs_app, L. cbn [without_logs List.app]. rewrite B1. split; [reflexivity|]. cbn. now rewrite !app_nil_r.
    + now apply encoded_same.
    + cbn. now apply encoded_same.
Qed.

(** ** Unary methods of the Connect protocol *)
Lemma same_post {A B} (ap : app A B) en q hs body k : sound_tables ap -> same_body en q body ->
  same_header_values hs (wsgi_headers q) -> env_get q "HTTP_CONTENT_ENCODING" = h_get hs (lit "content-encoding") ->
  dget (ap_codecs ap) (codec_name_from_content_type PConnect false (h_get_default hs (lit "content-type") [])) = Some k ->
  readable_post ap hs body ->
  match read_post_request ap k hs (en_recv en), wsgi_post_request ap q (wsgi_headers q) with
  | inl a, Ok (a', k') => a = a' /\ k = k'
  | inr (IExn e), Raise e' => e = e' /\ answerable e
  | _, _ => False
  end.
Proof.
  intros (Hid&_&_&_) Hb Hh He Hk Hr. pose proof (same_body_read en q body Hb) as Rw. destruct Hb as ((cs&Ec&Cc)&_).
  unfold read_post_request, wsgi_post_request. rewrite Ec, <- (same_get_default _ _ _ _ Hh), Hk, (wsgi_read_do ap q body _ Rw), Cc. cbv zeta.
  assert (En : env_default q "HTTP_CONTENT_ENCODING" (lit "identity") = h_get_default hs (lit "content-encoding") (lit "identity")).
  { unfold env_default, h_get_default. rewrite He. reflexivity. }
  rewrite En. specialize (Hr k). set (name := lower _) in *.
  destruct (dget (ap_comps ap) name) as [z|] eqn:D.
  2:{ destruct (str_eqb_spec name (lit "identity")) as [E|E]; [rewrite E, Hid in D; discriminate|].
      unfold unknown_compression. cbn [to_internal is_connect bind]. split; [reflexivity|apply answerable_connect]. }
  destruct (Hr z Hk eq_refl) as (d&Hd&Hnil&Ha).
  assert (E1 : (if nonempty body then z_decompress z body else @Ok (list N) body) = Ok d).
  { destruct body as [|x b]; [cbn [nonempty]; now rewrite Hnil|exact Hd]. }
  rewrite E1.
  assert (E2 : (if str_eqb name (lit "identity") then Ok body
               else or_invalid (lit "Failed to decompress request body: ") (z_decompress z body)) = Ok d).
  { destruct (str_eqb_spec name (lit "identity")) as [E|E]; [|now rewrite Hd].
    rewrite E, Hid in D. injection D as <-. exact Hd. }
  rewrite E2. cbn [bind].
  destruct (ap_max ap) as [mx|].
  - destruct (mx <? lenN d) eqn:L.
    + cbn [to_internal is_connect bind]. split; [reflexivity|apply answerable_connect].
    + destruct (Ha ltac:(lia)) as [a Ea]. rewrite Ea. cbn. auto.
  - destruct (Ha I) as [a Ea]. rewrite Ea. cbn. auto.
Qed.

Lemma same_get_request {A B} (ap : app A B) q params k : sound_tables ap -> params = parse_qs (env_default q "QUERY_STRING" []) ->
  dget (ap_codecs ap) (match param params (lit "encoding") with Some n => n | None => [] end) = Some k ->
  readable_get ap params ->
  match read_get_request ap k params, wsgi_get_request ap q with
  | Ok a, Ok (a', k') => a = a' /\ k = k'
  | Raise e, Raise e' => e = e' /\ answerable e
  | _, _ => False
  end.
Proof.
  intros (Hid&_&_&_) Ep Hk (k'&Hk'&Hm). rewrite Hk in Hk'. injection Hk' as <-. unfold read_get_request, wsgi_get_request. rewrite <- Ep. cbv zeta.
  destruct (param params (lit "message")) as [message|]; [|cbn [to_internal is_connect bind]; split; [reflexivity|apply answerable_connect]].
  destruct (Hm message eq_refl) as (data&Hdata&Hz). rewrite Hk.
  assert (E1 : (if match param params (lit "base64") with Some v => str_eqb v (lit "1") | None => false end
                then match urlsafe_b64decode (message ++ lit "===") with Some d => Ok d | None => Raise (EConnect InvalidArgument (lit "Invalid base64 encoding") []) end
                else encode_str message) = Ok data).
  { unfold query_data in Hdata. destruct (match param params (lit "base64") with Some v => str_eqb v (lit "1") | None => false end);
      [now rewrite Hdata|unfold encode_str; now rewrite Hdata]. }
  rewrite E1. cbn [bind].
  assert (E2 : (if match param params (lit "base64") with Some v => str_eqb v (lit "1") | None => false end
                then match urlsafe_b64decode (message ++ lit "===") with Some d => Ok d | None => Raise (EConnect InvalidArgument (lit "Invalid base64 encoding: ...") []) end
                else match utf8_encode message with Some d => Ok d | None => Raise (EOther KValue (lit "surrogates not allowed")) end) = Ok data).
  { unfold query_data in Hdata. destruct (match param params (lit "base64") with Some v => str_eqb v (lit "1") | None => false end); now rewrite Hdata. }
  rewrite E2. cbn [bind]. clear E1 E2.
  destruct (param params (lit "compression")) as [name|].
  - destruct (dget (ap_comps ap) name) as [z|]; [|unfold unknown_compression; cbn [to_internal is_connect bind]; split; [reflexivity|apply answerable_connect]].
    destruct (Hz z eq_refl) as (d&Hd&Hnil&Ha). rewrite Hd.
    assert (E3 : (if nonempty data then Ok d else Ok data) = Ok d).
    { destruct data as [|x b]; [cbn [nonempty]; now rewrite Hnil|reflexivity]. }
    rewrite E3. cbn [bind]. destruct (Ha I) as [a Ea]. rewrite Ea. cbn. auto.
  - rewrite Hid in Hz |- *. destruct (Hz _ eq_refl) as (d&Hd&Hnil&Ha). cbn in Hd. injection Hd as <-.
    assert (E3 : (if nonempty data then z_decompress identity_comp data else Ok data) = Ok data) by (destruct data; reflexivity).
    rewrite E3. cbn [bind]. destruct (Ha I) as [a Ea]. rewrite Ea. cbn. auto.
Qed.

(** Once the request message is read. *)
Lemma same_unary_answer {A B} (ap : app A B) en q http hs params f cx cx' n k a :
  sound_tables ap -> tame_app ap -> tame_method f -> undisturbed en q -> dget (ap_codecs ap) n = Some k ->
  same_header_values hs (wsgi_headers q) -> (forall a, f a cx = f a cx') ->
  (if str_eqb http (lit "GET") then match read_get_request ap k params with Ok a => inl a | Raise e => inr (IExn e) end
   else read_post_request ap k hs (en_recv en)) = inl a ->
  (if str_eqb http (lit "GET") then wsgi_get_request ap q else wsgi_post_request ap q (wsgi_headers q)) = Ok (a, k) ->
  same_answer
    (match handle_unary_connect ap en http hs k params f cx (mk_ast 0 []) with
     | (inv, rs, (s, inl _)) => mk_ar inv (as_ev s) AReturn
     | (inv, rs, (s, inr ICancel)) => mk_ar inv (as_ev s) ACancelled
     | (inv, rs, (s, inr (IExn e))) => call_error en inv s e (Some rs)
     end)
    (match wsgi_unary ap q http f cx' (wsgi_headers q) with
     | (inv, rs, ev, None) => mk_wr inv ev WReturn
     | (inv, rs, ev, Some ICancel) => mk_wr inv ev WBase
     | (inv, rs, ev, Some (IExn e)) => wsgi_call_error q inv ev e (Some rs)
     end).
Proof.
  intros (Hid&Hno&Hkn&Hzn) Ta Tm (_&_&So&Hd) Hk Hh Hf Ra Rw. unfold handle_unary_connect, wsgi_unary. rewrite Ra, Rw, <- Hf.
  specialize (Tm a cx). destruct (run_fn (f a cx) ([], None) rs_new) as [[b|[x|]] rs]; [| |contradiction].
  2:{ destruct Tm as [T1 T2]. apply same_error; auto. }
  unfold send_unary_response.
  assert (Ez : negotiate_compression (h_get_default hs (lit "accept-encoding") []) (ap_comps ap)
             = negotiate_compression (h_get_default (wsgi_headers q) (lit "accept-encoding") (lit "identity")) (ap_comps ap)).
  { unfold h_get_default. rewrite (same_get _ _ _ Hh). destruct (h_getitem (wsgi_headers q) _); [reflexivity|].
    unfold negotiate_compression. change (split_on 44 (lit "identity")) with [lit "identity"]. change (split_on 44 []) with [@nil N].
    cbn [negotiate_first]. change (strip (lit "identity")) with (lit "identity"). rewrite Hid. change (strip []) with (@nil N).
    now rewrite Hno. }
  rewrite <- Ez. set (z := negotiate_compression _ _).
  assert (Hz : exists zb, encode_str (z_name z) = Ok zb).
  { unfold z, negotiate_compression. destruct (negotiated_known (ap_comps ap) (split_on 44 (h_get_default hs (lit "accept-encoding") []))) as [[m D]| ->];
      [exact (Hzn _ _ D)|]. eexists. reflexivity. }
  destruct Hz as [zb Hz]. destruct (Hkn _ _ Hk) as [ct Hct].
  destruct (k_enc_res k b) as [d|x] eqn:E1.
  2:{ rewrite (io_bind_err _ _ _ _ _ (io_res_raise _ _ _ eq_refl)). cbn [bind]. apply same_error; auto. exact (proj2 (proj1 Ta _ _ Hk) _ _ E1). }
  rewrite (io_bind_ok _ _ _ _ _ (io_res_ok _ _ _ eq_refl)). rewrite (io_bind_ok _ _ _ _ _ (io_res_ok _ _ _ Hct)). cbn [bind].
  destruct (z_compress z d) as [d'|x] eqn:E2.
  2:{ rewrite (io_bind_err _ _ _ _ _ (io_res_raise _ _ _ eq_refl)). cbn [bind]. apply same_error; auto. eapply negotiated_tame; eauto. }
  rewrite (io_bind_ok _ _ _ _ _ (io_res_ok _ _ _ eq_refl)). rewrite (io_bind_ok _ _ _ _ _ (io_res_ok _ _ _ Hz)). cbn [bind].
  destruct Tm as [extra Hx]. rewrite (io_bind_ok _ _ _ _ _ (io_res_ok _ _ _ Hx)).
  rewrite (io_bind_ok _ _ _ _ _ (sends_ok_send _ _ _ So)). rewrite (sends_ok_send _ _ _ So). cbn [as_ev as_n List.app].
  split; [reflexivity|]. split; [reflexivity|]. exists 200, (lit "OK"). do 2 eexists. exists d', None, None. cbn [ar_events wr_events].
  split; [|split; [|split; [|exact I]]].
  - exists [], d'. split; reflexivity.
  - exists [d'], []. split; [reflexivity|]. cbn. now rewrite !app_nil_r.
  - assert (V : forall s b, encode_str s = Ok b -> utf8_encode s = Some b).
    { intros s0 b0. unfold encode_str. destruct (utf8_encode s0); congruence. }
    constructor; [cbn [fst snd]; split; [eexists; split; reflexivity|now apply V]|].
    constructor; [cbn [fst snd]; split; [eexists; split; reflexivity|now apply V]|].
    constructor; [cbn [fst snd]; split; [eexists; split; reflexivity|reflexivity]|]. now apply encoded_same.
Qed.

(** ** C46 *)

Lemma stream_codec_name {A B} p (ep : endpoint A B) ct : (p = PConnect -> is_unary ep = false) ->
  codec_name_from_content_type p (negb (is_unary ep)) ct = codec_name_from_content_type p true ct.
Proof. intro H. destruct p; try reflexivity. now rewrite (H eq_refl). Qed.

(** For every application whose methods, codecs and compressions behave decently, and every request: reported by an ASGI server and
    by a WSGI server, cut into events and reads in any way, the two applications run the same methods with the same messages and
    answer with the same status, headers, body and trailers; that includes unknown paths, wrong HTTP methods, bad timeouts or
    protocol versions, unsupported codecs and compressions, messages that are too large, streams with malformed or superfluous
    messages, and every way a method can fail.  Missing: the requests for which they do differ, see the refutations below, and
    disturbances that only one kind of server knows. *)
Theorem C46_same_partial {A B} (ap : app A B) now sc en q hs body :
  service_paths ap -> sound_tables ap -> tame_app ap -> order_blind ap ->
  (forall key m f, dget (ap_endpoints ap) key = Some (EpUnary m f) -> tame_method f) ->
  same_request sc en q hs body -> undisturbed en q -> can_trail sc q hs ->
  readable_request ap now sc q hs body -> stream_codec ap now sc hs ->
  (forall ep p cx k, asgi_stream_request ap now sc ep hs p cx k -> writable_stream ap en p ep k hs cx) ->
  same_answer (asgi_call ap now sc en) (wsgi_call ap now q).
Proof.
  intros Sp St Ta O Tm R U T Rr Sk W. pose proof U as (Hcut&Hw&So&Hd). pose proof (sr_same_headers _ _ _ _ _ R) as S.
  destruct (same_open ap now sc en q hs body Sp R T) as [(e&E1&E2)|(ep&p&cx&cx'&E1&E2&Sc)].
  { unfold asgi_call, wsgi_call. rewrite E1, E2. apply same_error; auto. exact (open_request_raise ap now sc e E1). exact I. }
  destruct (found_endpoint ap now sc ep hs p cx E1) as [key D].
  assert (Stream : (p = PConnect -> is_unary ep = false) -> same_answer (asgi_call ap now sc en) (wsgi_call ap now q)).
  { intro Hp. destruct (Sk ep p cx E1 Hp) as (Hg&k&Hk).
    assert (Ra : asgi_stream_request ap now sc ep hs p cx k).
    { split; [exact E1|]. split; [|exact Hp]. exists []. unfold select_codec. destruct (str_eqb_spec (sc_method sc) (lit "GET")); [contradiction|].
      cbn [bind fst snd]. rewrite (stream_codec_name p ep _ Hp), Hk. reflexivity. }
    apply (same_stream_answer ap now sc en q hs body ep p cx cx' k); auto. split; [exact E2|]. split; [|exact Hp].
    now rewrite <- (same_get_default _ _ _ _ S). }
  destruct ep as [m f|m f|m f|m f]; try (apply Stream; reflexivity).
  destruct p; try (apply Stream; discriminate). clear Stream Sk W.
  specialize (Rr m f cx E1). specialize (Tm key m f D). specialize (O key _ D cx cx' Sc). cbn beta iota in O.
  assert (Hm : cx_http cx' = sc_method sc).
  { destruct (open_request_ok _ _ _ _ _ _ _ E1) as (_&_&_&_&c&C). apply create_context_ok in C. destruct C as (_&_&_&C).
    destruct Sc as (_&X&_). congruence. }
  assert (Sel : (exists e, select_codec ap sc (EpUnary m f) hs PConnect = Raise e /\ wsgi_post_request ap q (wsgi_headers q) = Raise e
                  /\ sc_method sc <> lit "GET" /\ e = unsupported_media accept_post)
            \/ exists params n k, select_codec ap sc (EpUnary m f) hs PConnect = Ok (params, k) /\ dget (ap_codecs ap) n = Some k
               /\ match (if str_eqb (sc_method sc) (lit "GET") then match read_get_request ap k params with Ok a => inl a | Raise e => inr (IExn e) end
                         else read_post_request ap k hs (en_recv en)),
                        (if str_eqb (sc_method sc) (lit "GET") then wsgi_get_request ap q else wsgi_post_request ap q (wsgi_headers q)) with
                  | inl a, Ok (a', k') => a = a' /\ k = k'
                  | inr (IExn e), Raise e' => e = e' /\ answerable e
                  | _, _ => False
                  end).
  { unfold select_codec. destruct (str_eqb_spec (sc_method sc) (lit "GET")) as [Hg|Hg].
    - right. rewrite (sr_query _ _ _ _ _ R). cbn [bind fst snd]. pose proof Rr as (k&Hk&_). rewrite Hk. do 2 eexists. exists k.
      split; [reflexivity|]. split; [exact Hk|].
      pose proof (same_get_request ap q _ k St eq_refl Hk Rr) as X. destruct (read_get_request _ _ _), (wsgi_get_request _ _) as [[a' k']|e']; exact X.
    - cbn [bind fst snd is_unary negb].
      destruct (dget (ap_codecs ap) (codec_name_from_content_type PConnect false (h_get_default hs (lit "content-type") []))) as [k|] eqn:Hk.
      + right. do 2 eexists. exists k. split; [reflexivity|]. split; [exact Hk|].
        exact (same_post ap en q hs body k St (sr_body _ _ _ _ _ R) S (sr_encoding _ _ _ _ _ R) Hk Rr).
      + left. eexists. split; [reflexivity|]. split; [|auto]. unfold wsgi_post_request. now rewrite <- (same_get_default _ _ _ _ S), Hk. }
  unfold asgi_call, wsgi_call. rewrite E1, E2. destruct Sel as [(e&F1&F2&Hg&->)|(params&n&k&F1&Hk&F2)].
  - rewrite F1. unfold wsgi_unary. rewrite Hm. destruct (str_eqb_spec (sc_method sc) (lit "GET")); [contradiction|]. rewrite F2.
    apply same_error; auto; [eexists; reflexivity|]. exists []. reflexivity.
  - rewrite F1, Hm.
    destruct (if str_eqb (sc_method sc) (lit "GET") then match read_get_request ap k params with Ok a => inl a | Raise e => inr (IExn e) end
              else read_post_request ap k hs (en_recv en)) as [a|[e|]] eqn:Ga;
    destruct (if str_eqb (sc_method sc) (lit "GET") then wsgi_get_request ap q else wsgi_post_request ap q (wsgi_headers q)) as [[a' k']|e'] eqn:Gw; try contradiction.
    + destruct F2 as [<- <-]. exact (same_unary_answer ap en q (sc_method sc) hs params f cx cx' n k a St Ta Tm U Hk S O Ga Gw).
    + destruct F2 as [<- An]. unfold handle_unary_connect, wsgi_unary. rewrite Ga, Gw. apply same_error; auto. exists []. reflexivity.
Qed.
Print Assumptions C46_same_partial.

(** Streams whose codec is unknown: the same but for the headers. *)
Theorem C46_unsupported_codec_partial {A B} (ap : app A B) now sc en q hs body ep p cx :
  service_paths ap -> same_request sc en q hs body -> undisturbed en q -> can_trail sc q hs ->
  open_request ap now sc = Ok (ep, hs, p, cx) -> (p = PConnect -> is_unary ep = false) -> sc_method sc <> lit "GET" ->
  dget (ap_codecs ap) (codec_name_from_content_type p true (h_get_default hs (lit "content-type") [])) = None ->
  same_but_headers (asgi_call ap now sc en) (wsgi_call ap now q)
  /\ asgi_status (ar_events (asgi_call ap now sc en)) = Some 415.
Proof.
  intros Sp R (_&_&So&Hd) T E1 Hp Hg Hk.
  destruct (same_open ap now sc en q hs body Sp R T) as [(e&F1&F2)|(ep'&p'&cx0&cx'&F1&F2&Sc)]; [congruence|].
  rewrite E1 in F1. injection F1 as <- <- <-. pose proof (sr_same_headers _ _ _ _ _ R) as S.
  assert (Ea : asgi_call ap now sc en = call_error en [] (mk_ast 0 []) (unsupported_media accept_post) (Some rs_new)).
  { unfold asgi_call. rewrite E1. unfold select_codec. destruct (str_eqb_spec (sc_method sc) (lit "GET")); [contradiction|]. cbn [bind fst snd].
    rewrite (stream_codec_name p ep _ Hp), Hk. reflexivity. }
  assert (Ew : wsgi_call ap now q = wsgi_call_error q [] [] (unsupported_media wsgi_accept_stream) (Some rs_new)).
  { unfold wsgi_call. rewrite F2. assert (X : wsgi_stream ap q p (wsgi_headers q) ep cx' = inl ([], rs_new, [], Some (IExn (unsupported_media wsgi_accept_stream)))).
    { unfold wsgi_stream. destruct (negotiate_stream_compression _ _ _). now rewrite <- (same_get_default _ _ _ _ S), Hk. }
    destruct ep, p; try (now rewrite X). discriminate (Hp eq_refl). }
  unfold unsupported_media in Ea. rewrite (call_error_http en [] 415 [(lit "Accept-Post", accept_post)] [(lit "Accept-Post", accept_post)] (Some rs_new) So eq_refl (or_intror eq_refl)) in Ea.
  rewrite Ea, Ew. unfold wsgi_call_error. rewrite Hd. split; [|reflexivity].
  split; [reflexivity|]. split; [reflexivity|]. exists 415. do 3 eexists. exists [], None, None. split; [exists [], []; split; reflexivity|].
  split; [exists [], []; split; reflexivity|exact I].
Qed.
Print Assumptions C46_unsupported_codec_partial.

(** ** Examples *)
Lemma ex_app_paths ep : service_paths (ex_app ep).
Proof.
  exists (lit "pkg.Svc"). split; [reflexivity|]. split; [cbn; intuition discriminate|]. intros key e H. exists (lit "Get").
  change (dget [(lit "/pkg.Svc/Get", ep)] key = Some e) in H. cbn [dget] in H. destruct (str_eqb_spec (lit "/pkg.Svc/Get") key) as [<-|]; [|discriminate].
  split; [reflexivity|cbn; intuition discriminate].
Qed.
Lemma ex_app_sound ep : sound_tables (ex_app ep).
Proof.
  split; [reflexivity|]. split; [reflexivity|]. split; intros n x H.
  - change (dget [(lit "proto", ex_codec)] n = Some x) in H. cbn [dget] in H. destruct (str_eqb (lit "proto") n); [|discriminate]. injection H as <-. eexists. reflexivity.
  - change (dget [(lit "identity", identity_comp)] n = Some x) in H. cbn [dget] in H. destruct (str_eqb (lit "identity") n); [|discriminate]. injection H as <-. eexists. reflexivity.
Qed.
Lemma ex_app_tame ep : tame_app (ex_app ep).
Proof.
  split; intros n x H.
  - change (dget [(lit "proto", ex_codec)] n = Some x) in H. cbn [dget] in H. destruct (str_eqb (lit "proto") n); [|discriminate]. injection H as <-. split; intros b e E; discriminate.
  - change (dget [(lit "identity", identity_comp)] n = Some x) in H. cbn [dget] in H. destruct (str_eqb (lit "identity") n); [|discriminate]. injection H as <-. split; intros b e E; discriminate.
Qed.
Lemma ex_app_only ep key e : dget (ap_endpoints (ex_app ep)) key = Some e -> e = ep.
Proof.
  intro H. change (dget [(lit "/pkg.Svc/Get", ep)] key = Some e) in H. cbn [dget] in H. destruct (str_eqb (lit "/pkg.Svc/Get") key); congruence.
Qed.

(** A request with the given body, in two events and in two reads. *)
Definition ex_pieces (b1 b2 : bytes) : env := mk_env [RReq b1 true; RReq b2 false] None WIdle (fun _ => SOk).
Lemma ex_same http ct ahs whs query b1 b2 hs :
  process_headers h_empty (sc_headers (ex_scope_with http ct ahs query)) = Ok hs -> same_header_values hs (wsgi_headers (ex_wq_with http ct whs [RD b1; RD b2])) ->
  env_get (ex_wq_with http ct whs [RD b1; RD b2]) "HTTP_CONTENT_ENCODING" = h_get hs (lit "content-encoding") ->
  utf8_decode (lit query) = Some (env_default (ex_wq_with http ct whs [RD b1; RD b2]) "QUERY_STRING" []) ->
  env_get (ex_wq_with http ct whs [RD b1; RD b2]) "REMOTE_ADDR" = None -> env_get (ex_wq_with http ct whs [RD b1; RD b2]) "CONTENT_LENGTH" = None ->
  env_get (ex_wq_with http ct whs [RD b1; RD b2]) "wsgi.url_scheme" = None -> b1 <> [] -> b2 <> [] ->
  same_request (ex_scope_with http ct ahs query) (ex_pieces b1 b2) (ex_wq_with http ct whs [RD b1; RD b2]) hs (b1 ++ b2).
Proof.
  intros H1 H2 H3 H4 H5 H6 H7 N1 N2. constructor; auto.
  - exists [], (lit "pkg.Svc/Get"). repeat split; reflexivity.
  - unfold env_default. now rewrite H7.
  - now left.
  - split; [exists [b1; b2]; split; [reflexivity|cbn; now rewrite app_nil_r]|]. destruct b1 as [|x b1]; [congruence|]. destruct b2 as [|y b2]; [congruence|].
    split; [cbn; now rewrite app_nil_r|]. split; [reflexivity|]. rewrite H6. split; [|exact I].
    intros u v E. destruct u as [|r u]; [discriminate|]. destruct u as [|r' u]; [discriminate|]. destruct u; discriminate.
Qed.
Lemma ex_undisturbed http ct whs b1 b2 inp : undisturbed (ex_pieces b1 b2) (ex_wq_with http ct whs inp).
Proof. split; [reflexivity|]. split; [reflexivity|]. split; [intro n; reflexivity|]. intro place. unfold drain. destruct (startswith _ _); reflexivity. Qed.

(** A unary call over Connect and a stream over gRPC whose method fails after two messages. *)
Example C46_example :
  (let sc := ex_scope_with "POST" "application/proto" [("x-a", "1")]%string "" in
   let q := ex_wq_with "POST" "application/proto" [("HTTP_X_A", "1")]%string [RD (lit "m"); RD (lit "sg")] in
   exists hs, same_request sc (ex_pieces (lit "m") (lit "sg")) q hs (lit "msg") /\ undisturbed (ex_pieces (lit "m") (lit "sg")) q
   /\ readable_request (ex_app ex_echo) 0%Z sc q hs (lit "msg") /\ order_blind (ex_app ex_echo)
   /\ (forall key m f, dget (ap_endpoints (ex_app ex_echo)) key = Some (EpUnary m f) -> tame_method f)
   /\ ar_inv (asgi_call (ex_app ex_echo) 0%Z sc (ex_pieces (lit "m") (lit "sg"))) = [InvMsg (lit "msg")]
   /\ same_answer (asgi_call (ex_app ex_echo) 0%Z sc (ex_pieces (lit "m") (lit "sg"))) (wsgi_call (ex_app ex_echo) 0%Z q))
  /\ (let sc := ex_scope_with "POST" "application/grpc" [("x-a", "1")]%string "" in
      let q := ex_wq_with "POST" "application/grpc" [("HTTP_X_A", "1")]%string [RD [0]; RD [0; 0; 0; 1; 97]] in
      let ep := ex_two (IExn ex_gone) in let en := ex_pieces [0; 0; 0; 0] [1; 97] in
      exists hs cx, asgi_stream_request (ex_app ep) 0%Z sc ep hs PGrpc cx ex_codec /\ writable_stream (ex_app ep) en PGrpc ep ex_codec hs cx
      /\ stream_codec (ex_app ep) 0%Z sc hs /\ order_blind (ex_app ep)).
Proof.
  assert (R : forall ep, order_blind (ex_app (EpUnary ex_method (fun a _ => ep a)))).
  { intros ep key e D. apply ex_app_only in D. subst e. intros cx cx' _ a. reflexivity. }
  split.
  - cbv zeta. eexists. split; [|split; [apply ex_undisturbed|]].
    { apply (ex_same "POST" "application/proto" [("x-a", "1")]%string [("HTTP_X_A", "1")]%string "" (lit "m") (lit "sg"));
        try reflexivity; try discriminate. intro n. reflexivity. }
    assert (Rr : readable_request (ex_app ex_echo) 0%Z (ex_scope_with "POST" "application/proto" [("x-a", "1")]%string "")
       (ex_wq_with "POST" "application/proto" [("HTTP_X_A", "1")]%string [RD (lit "m"); RD (lit "sg")]) (h_of_pairs [(lit "content-type", lit "application/proto"); (lit "x-a", lit "1")]) (lit "msg")).
    { intros m f cx _. cbn [str_eqb]. intros k z Hk Hz.
      change (Some ex_codec = Some k) in Hk. injection Hk as <-. change (Some identity_comp = Some z) in Hz. injection Hz as <-.
      exists (lit "msg"). split; [reflexivity|]. split; [discriminate|]. intros _. eexists. reflexivity. }
    assert (Tm : forall key m f, dget (ap_endpoints (ex_app ex_echo)) key = Some (EpUnary m f) -> tame_method f).
    { intros key m f D. apply ex_app_only in D. injection D as -> ->. intros a cx. eexists. reflexivity. }
    split; [exact Rr|]. split; [apply R|]. split; [exact Tm|]. split; [reflexivity|].
    apply (C46_same_partial (ex_app ex_echo) 0%Z _ _ _ (h_of_pairs [(lit "content-type", lit "application/proto"); (lit "x-a", lit "1")]) (lit "msg")).
    + apply ex_app_paths.
    + apply ex_app_sound.
    + apply ex_app_tame.
    + apply R.
    + exact Tm.
    + apply (ex_same "POST" "application/proto" [("x-a", "1")]%string [("HTTP_X_A", "1")]%string "" (lit "m") (lit "sg"));
        try reflexivity; try discriminate. intro n. reflexivity.
    + apply ex_undisturbed.
    + intro X. discriminate X.
    + exact Rr.
    + intros ep p cx E Hp. exfalso. assert (X : open_request (ex_app ex_echo) 0%Z (ex_scope_with "POST" "application/proto" [("x-a", "1")]%string "") = Ok (ep, h_of_pairs [(lit "content-type", lit "application/proto"); (lit "x-a", lit "1")], p, cx)) by exact E.
      vm_compute in X. injection X as <- <- <-. discriminate (Hp eq_refl).
    + intros ep p cx k (E&_&Hp). exfalso. vm_compute in E. injection E as <- <- <-. discriminate (Hp eq_refl).
  - cbv zeta. do 2 eexists. split; [split; [reflexivity|]; split; [eexists; reflexivity|discriminate]|]. split; [|split].
    + unfold writable_stream.
      match goal with |- let (_, _) := ?n in _ => assert (N : n = (Some identity_comp, identity_comp)) by reflexivity; rewrite N; clear N end.
      intros inv steps rs' e H. cbn [stream_runs] in H. destruct H as [H|(H&_)]; [|discriminate]. destruct H as [-> H].
      assert (K : exists rs0, behaves (Hdr (Add (lit "x-h") (lit "1")) (Yield (lit "a") quiet (Trl (Add (lit "x-t") (lit "2"))
         (Hdr (Add (lit "late") (lit "1")) (Yield (lit "b") quiet (Fail (IExn ex_gone))))))) (request_stream (ex_app (ex_two (IExn ex_gone))) ex_codec identity_comp (ex_pieces [0; 0; 0; 0] [1; 97])) rs_new ex_steps rs0 (Some (IExn ex_gone))
         /\ rs_t rs0 = h_add h_empty (lit "x-t") (lit "2")).
      { eexists. split; [repeat constructor|reflexivity]. }
      destruct K as (rs0&K&Kt). destruct (behaves_det _ _ _ _ _ _ H _ _ _ K) as (->&->&->).
      split; [discriminate|]. split; [eexists; repeat constructor|]. split; [eexists; reflexivity|]. rewrite Kt. eexists. split; [reflexivity|].
      intros t E. injection E as <-. eexists. reflexivity.
    + intros ep p cx E Hp. split; [discriminate|]. vm_compute in E. injection E as <- <- <-. eexists. reflexivity.
    + intros key ep D. apply ex_app_only in D. subst ep. intros cx cx' _. reflexivity.
Qed.

(** ** Where the two differ

    The theorem above asks for readable requests, known codecs, and streams that can be written.  Outside that the two
    applications give different answers to the same request; each difference is shown on a concrete request. *)

(** A compression whose decoder accepts only what its encoder produced. *)
Definition ex_strict : compression :=
  mk_comp (lit "gzip") false (fun b => Ok (1 :: b)) (fun b => match b with 1 :: r => Ok r | _ => Raise (EOther KValue (lit "not gzip")) end).
Definition ex_service (ep : endpoint pystr pystr) (k : codec pystr pystr) : app pystr pystr :=
  app_new (lit "/pkg.Svc") [(lit "/pkg.Svc/Get", ep)] (Some 1000) [ex_strict] [k] ex_sc.
Lemma ex_service_usual ep k : k_name k = lit "proto" -> (forall cx cx', same_ctx cx cx' ->
  match ep with EpUnary _ f => forall a, f a cx = f a cx' | EpClientStream _ f => f cx = f cx' | EpServerStream _ f => forall a, f a cx = f a cx' | EpBidi _ f => f cx = f cx' end) ->
  usual (ex_service ep k).
Proof.
  intros Hk Ho. split; [|split].
  - exists (lit "pkg.Svc"). split; [reflexivity|]. split; [cbn; intuition discriminate|]. intros key e H. exists (lit "Get").
    change (dget [(lit "/pkg.Svc/Get", ep)] key = Some e) in H. cbn [dget] in H. destruct (str_eqb_spec (lit "/pkg.Svc/Get") key) as [<-|]; [|discriminate].
    split; [reflexivity|cbn; intuition discriminate].
  - split; [reflexivity|]. split; [reflexivity|]. split; intros n x H.
    + unfold ex_service, app_new in H. cbn [ap_codecs fold_left] in H. rewrite Hk in H.
      change (dget [(lit "proto", k)] n = Some x) in H. cbn [dget] in H. destruct (str_eqb (lit "proto") n); [|discriminate]. injection H as <-. rewrite Hk. eexists. reflexivity.
    + change (dget [(lit "gzip", ex_strict); (lit "identity", identity_comp)] n = Some x) in H. cbn [dget] in H.
      destruct (str_eqb (lit "gzip") n); [|destruct (str_eqb (lit "identity") n); [|discriminate]]; injection H as <-; eexists; reflexivity.
  - intros key e H. change (dget [(lit "/pkg.Svc/Get", ep)] key = Some e) in H. cbn [dget] in H. destruct (str_eqb (lit "/pkg.Svc/Get") key); [|discriminate].
    injection H as <-. exact Ho.
Qed.
Lemma ex_same_empty http ct ahs whs query hs :
  process_headers h_empty (sc_headers (ex_scope_with http ct ahs query)) = Ok hs -> same_header_values hs (wsgi_headers (ex_wq_with http ct whs [])) ->
  env_get (ex_wq_with http ct whs []) "HTTP_CONTENT_ENCODING" = h_get hs (lit "content-encoding") ->
  utf8_decode (lit query) = Some (env_default (ex_wq_with http ct whs []) "QUERY_STRING" []) ->
  env_get (ex_wq_with http ct whs []) "REMOTE_ADDR" = None -> env_get (ex_wq_with http ct whs []) "CONTENT_LENGTH" = None ->
  env_get (ex_wq_with http ct whs []) "wsgi.url_scheme" = None ->
  same_request (ex_scope_with http ct ahs query) ex_env (ex_wq_with http ct whs []) hs [].
Proof.
  intros H1 H2 H3 H4 H5 H6 H7. constructor; auto.
  - exists [], (lit "pkg.Svc/Get"). repeat split; reflexivity.
  - unfold env_default. now rewrite H7.
  - now left.
  - split; [exists [[]]; split; reflexivity|]. split; [reflexivity|]. split; [reflexivity|]. rewrite H6. split; [|exact I].
    intros u v E. destruct u; discriminate.
Qed.
Lemma ex_undisturbed_empty http ct whs inp : undisturbed ex_env (ex_wq_with http ct whs inp).
Proof. split; [reflexivity|]. split; [reflexivity|]. split; [intro n; reflexivity|]. intro place. unfold drain. destruct (startswith _ _); reflexivity. Qed.

(** Finding: a body that does not decode is HTTP 500 (unknown) under ASGI and HTTP 400 (invalid_argument) under WSGI. *)
Theorem C46_undecodable_refuted : exists (ap : app pystr pystr) sc en q hs body,
  usual ap /\ same_request sc en q hs body /\ undisturbed en q
  /\ asgi_status (ar_events (asgi_call ap 0%Z sc en)) = Some 500
  /\ wsgi_status (wr_events (wsgi_call ap 0%Z q)) = Some (lit "400 Bad Request").
Proof.
  exists (ex_service ex_echo ex_picky), (ex_scope_with "POST" "application/proto" [] ""), (ex_pieces (lit "z") (lit "z")),
    (ex_wq_with "POST" "application/proto" [] [RD (lit "z"); RD (lit "z")]). do 2 eexists.
  split; [apply ex_service_usual; [reflexivity|intros cx cx' _ a; reflexivity]|].
  split; [apply (ex_same "POST" "application/proto" [] [] "" (lit "z") (lit "z")); try reflexivity; try discriminate; intro n; reflexivity|].
  split; [apply ex_undisturbed|]. split; vm_compute; reflexivity.
Qed.
Print Assumptions C46_undecodable_refuted.

(** Finding: so is a body that does not decompress. *)
Theorem C46_undecompressable_refuted : exists (ap : app pystr pystr) sc en q hs body,
  usual ap /\ same_request sc en q hs body /\ undisturbed en q
  /\ asgi_status (ar_events (asgi_call ap 0%Z sc en)) = Some 500
  /\ wsgi_status (wr_events (wsgi_call ap 0%Z q)) = Some (lit "400 Bad Request").
Proof.
  exists (ex_service ex_echo ex_codec), (ex_scope_with "POST" "application/proto" [("content-encoding", "gzip")]%string ""), (ex_pieces (lit "z") (lit "z")),
    (ex_wq_with "POST" "application/proto" [("HTTP_CONTENT_ENCODING", "gzip")]%string [RD (lit "z"); RD (lit "z")]). do 2 eexists.
  split; [apply ex_service_usual; [reflexivity|intros cx cx' _ a; reflexivity]|].
  split; [apply (ex_same "POST" "application/proto" [("content-encoding", "gzip")]%string [("HTTP_CONTENT_ENCODING", "gzip")]%string "" (lit "z") (lit "z")); try reflexivity; try discriminate; intro n; reflexivity|].
  split; [apply ex_undisturbed|]. split; vm_compute; reflexivity.
Qed.
Print Assumptions C46_undecompressable_refuted.

(** Finding: an empty body under a content-encoding: ASGI runs the method with the empty message, WSGI decompresses the
    empty body, and with a compression that rejects it answers HTTP 400 without running the method. *)
Theorem C46_empty_refuted : exists (ap : app pystr pystr) sc en q hs body,
  usual ap /\ same_request sc en q hs body /\ undisturbed en q
  /\ ar_inv (asgi_call ap 0%Z sc en) = [InvMsg []] /\ asgi_status (ar_events (asgi_call ap 0%Z sc en)) = Some 200
  /\ wr_inv (wsgi_call ap 0%Z q) = [] /\ wsgi_status (wr_events (wsgi_call ap 0%Z q)) = Some (lit "400 Bad Request").
Proof.
  exists (ex_service ex_echo ex_codec), (ex_scope_with "POST" "application/proto" [("content-encoding", "gzip")]%string ""), ex_env,
    (ex_wq_with "POST" "application/proto" [("HTTP_CONTENT_ENCODING", "gzip")]%string []). do 2 eexists.
  split; [apply ex_service_usual; [reflexivity|intros cx cx' _ a; reflexivity]|].
  split; [apply (ex_same_empty "POST" "application/proto" [("content-encoding", "gzip")]%string [("HTTP_CONTENT_ENCODING", "gzip")]%string ""); try reflexivity; intro n; reflexivity|].
  split; [apply ex_undisturbed_empty|]. repeat split; vm_compute; reflexivity.
Qed.
Print Assumptions C46_empty_refuted.

(** Finding: a GET with an unknown encoding is HTTP 415 under ASGI and HTTP 501 (unimplemented) under WSGI. *)
Theorem C46_get_codec_refuted : exists (ap : app pystr pystr) sc en q hs body,
  usual ap /\ same_request sc en q hs body /\ undisturbed en q
  /\ asgi_status (ar_events (asgi_call ap 0%Z sc en)) = Some 415
  /\ wsgi_status (wr_events (wsgi_call ap 0%Z q)) = Some (lit "501 Not Implemented").
Proof.
  exists (ex_service ex_echo ex_codec), (ex_scope_with "GET" "" [] "encoding=xml&message=a"), ex_env,
    (ex_wq_with "GET" "" [("QUERY_STRING", "encoding=xml&message=a")]%string []). do 2 eexists.
  split; [apply ex_service_usual; [reflexivity|intros cx cx' _ a; reflexivity]|].
  split; [apply (ex_same_empty "GET" "" [] [("QUERY_STRING", "encoding=xml&message=a")]%string "encoding=xml&message=a"); try reflexivity; intro n; reflexivity|].
  split; [apply ex_undisturbed_empty|]. repeat split; vm_compute; reflexivity.
Qed.
Print Assumptions C46_get_codec_refuted.

(** Finding: a GET to a streaming method declared free of side effects: ASGI takes the codec from the query and answers
    200, WSGI takes it from the content type and answers 415. *)
Theorem C46_get_stream_refuted : exists (ap : app pystr pystr) sc en q hs body,
  usual ap /\ same_request sc en q hs body /\ undisturbed en q
  /\ asgi_status (ar_events (asgi_call ap 0%Z sc en)) = Some 200
  /\ wsgi_status (wr_events (wsgi_call ap 0%Z q)) = Some (lit "415 Unsupported Media Type").
Proof.
  exists (ex_service (ex_two (IExn ex_gone)) ex_codec), (ex_scope_with "GET" "" [] "encoding=proto&message=a"), ex_env,
    (ex_wq_with "GET" "" [("QUERY_STRING", "encoding=proto&message=a")]%string []). do 2 eexists.
  split; [apply ex_service_usual; [reflexivity|intros cx cx' _; reflexivity]|].
  split; [apply (ex_same_empty "GET" "" [] [("QUERY_STRING", "encoding=proto&message=a")]%string "encoding=proto&message=a"); try reflexivity; intro n; reflexivity|].
  split; [apply ex_undisturbed_empty|]. repeat split; vm_compute; reflexivity.
Qed.
Print Assumptions C46_get_stream_refuted.

(** Finding: the Accept-Post header of a 415 to a stream lists the unary content types under ASGI, the streaming ones
    under WSGI. *)
Theorem C46_accept_post_refuted : exists (ap : app pystr pystr) sc en q hs body,
  usual ap /\ same_request sc en q hs body /\ undisturbed en q
  /\ ar_events (asgi_call ap 0%Z sc en) = [EvStart 415 [(lit "Accept-Post", lit "application/json, application/proto")] false; EvBody [] false]
  /\ wr_events (wsgi_call ap 0%Z q)
     = [WStart (lit "415 Unsupported Media Type") [(lit "Accept-Post", lit "application/connect+json, application/connect+proto")]].
Proof.
  exists (ex_service (ex_two (IExn ex_gone)) ex_codec), (ex_scope_with "POST" "application/connect+xml" [] ""), ex_env,
    (ex_wq_with "POST" "application/connect+xml" [] []). do 2 eexists.
  split; [apply ex_service_usual; [reflexivity|intros cx cx' _; reflexivity]|].
  split; [apply (ex_same_empty "POST" "application/connect+xml" [] [] ""); try reflexivity; intro n; reflexivity|].
  split; [apply ex_undisturbed_empty|]. repeat split; vm_compute; reflexivity.
Qed.
Print Assumptions C46_accept_post_refuted.

(** Finding: when a message of a stream cannot be encoded, ASGI closes the generator before it sends the trailers, so a
    trailer set by the method's cleanup is sent; WSGI does not, and it is not. *)
Definition ex_shy : codec pystr pystr :=
  mk_codec (lit "proto") (@Ok _) (@Ok _) (fun b => match b with 122 :: _ => Raise (EOther KValue (lit "no")) | _ => Ok b end) (@Ok _).
Definition ex_tidy : endpoint pystr pystr :=
  EpBidi ex_method (fun _ => Yield (lit "a") quiet (Yield (lit "z") (mk_close [] [Add (lit "x-cleanup") (lit "done")] None) (Ret tt))).
Theorem C46_cleanup_refuted : exists (ap : app pystr pystr) sc en q hs body ea ta ew tw,
  usual ap /\ same_request sc en q hs body /\ undisturbed en q
  /\ ar_events (asgi_call ap 0%Z sc en) = ea ++ [EvTrailers ta]
  /\ wr_events (wsgi_call ap 0%Z q) = ew ++ [WTrailers tw; WBody []]
  /\ In (lit "x-cleanup") (map fst ta) /\ ~ In (lit "x-cleanup") (map fst tw).
Proof.
  exists (ex_service ex_tidy ex_shy), (ex_scope_with "POST" "application/grpc" [] ""), ex_env, (ex_wq_with "POST" "application/grpc" [] []). do 2 eexists.
  set (ra := ar_events (asgi_call (ex_service ex_tidy ex_shy) 0%Z (ex_scope_with "POST" "application/grpc" [] "") ex_env)).
  set (rw := wr_events (wsgi_call (ex_service ex_tidy ex_shy) 0%Z (ex_wq_with "POST" "application/grpc" [] []))).
  vm_compute in ra. vm_compute in rw.
  exists (removelast ra), (match last ra (EvTrailers []) with EvTrailers t => t | _ => [] end),
    (removelast (removelast rw)), (match last (removelast rw) (WBody []) with WTrailers t => t | _ => [] end).
  split; [apply ex_service_usual; [reflexivity|intros cx cx' _; reflexivity]|].
  split; [apply (ex_same_empty "POST" "application/grpc" [] [] ""); try reflexivity; intro n; reflexivity|].
  split; [apply ex_undisturbed_empty|]. split; [reflexivity|]. split; [reflexivity|].
  split; [vm_compute; intuition|vm_compute; intuition discriminate].
Qed.
Print Assumptions C46_cleanup_refuted.
