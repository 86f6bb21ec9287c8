(** Lemmas for C46. *)
From Coq Require Import List NArith ZArith Bool String Lia ZifyBool ZifyNat.
From Verif Require Import MBase MPyStr MHeaders LBase LHeaders MUtf8 MBase64 MPercent MWire MEnvelope SEnvelope MTimeout MProtocol SProtocol MClient
  MServer MAsgi MWsgi SServer LServer LStream LWsgi LRequest LEnvelope PProtocol PResponse PRequest PGen SParity.
Import ListNotations.
Local Open Scope N_scope.

(** ** Headers *)
Lemma same_get h h' n : same_header_values h h' -> h_getitem h n = h_getitem h' n.
Proof. intro H. now rewrite !getitem_getall, H. Qed.
Lemma same_get_default h h' n d : same_header_values h h' -> h_get_default h n d = h_get_default h' n d.
Proof. intro H. unfold h_get_default. now rewrite (same_get _ _ _ H). Qed.
Lemma same_negotiation p h h' comps : same_header_values h h' -> negotiate_stream_compression p h comps = negotiate_stream_compression p h' comps.
Proof. intro H. unfold negotiate_stream_compression. now rewrite !(same_get_default _ _ _ _ H). Qed.

Lemma encoded_same l l' : encode_pairs l = Ok l' -> same_pairs l' l.
Proof.
  revert l'. induction l as [|[k v] l IH]; intros l' E; cbn [encode_pairs] in E; [injection E as <-; constructor|].
  unfold encode_str in E. destruct (utf8_encode k) as [k'|] eqn:Ek; [|discriminate]. cbn [bind] in E.
  destruct (utf8_encode v) as [v'|] eqn:Ev; [|discriminate]. cbn [bind] in E.
  destruct (encode_pairs l) as [r|]; [|discriminate]. cbn [bind] in E. injection E as <-. constructor; [|now apply IH].
  cbn [fst snd]. split; eauto.
Qed.

Lemma same_pairs_app a a' w w' : same_pairs a w -> same_pairs a' w' -> same_pairs (a ++ a') (w ++ w').
Proof. apply Forall2_app. Qed.

(** ** Error responses *)
Lemma same_error {A} en q (inv : list (invoked A)) e ctx :
  sends_ok (en_send en) -> drain q 1 = None -> answerable e -> encodable ctx ->
  same_answer (call_error en inv (mk_ast 0 []) e ctx) (wsgi_call_error q inv [] e ctx).
Proof.
  intros So Hd Ha Hc. unfold call_error, handle_error, wsgi_call_error, wsgi_handle_error. rewrite Hd.
  assert (X : exists extra, match ctx with Some rs => io_res (encode_pairs (context_headers rs)) | None => io_ret [] end (mk_ast 0 [])
              = (mk_ast 0 [], inl extra)
              /\ same_pairs extra (match ctx with Some rs => context_headers rs | None => [] end)).
  { destruct ctx as [rs|]; cbn [encodable] in Hc; [destruct Hc as [h Hh]; exists h; rewrite Hh; split; [reflexivity|now apply encoded_same]|].
    exists []. split; [reflexivity|constructor]. }
  destruct X as (extra&X&Sx).
  assert (J : forall w body st h st', we_to_json_bytes w = Ok body ->
     st = fst (we_to_http_status w) -> h = [(lit "content-type", lit "application/json")] -> st' = dec_of_N st ++ lit " " ++ snd (we_to_http_status w) ->
     forall lg, without_logs lg = [] -> forall out,
     same_answer (mk_ar inv [EvStart st (h ++ extra) false; EvBody body false] out)
       (mk_wr inv (lg ++ WStart st' ([(lit "Content-Type", lit "application/json")] ++ match ctx with Some rs => context_headers rs | None => [] end) :: [WBody body]) WReturn)).
  { intros w body st h st' _ _ -> -> lg Hl out. split; [reflexivity|]. split; [reflexivity|].
    exists st, (snd (we_to_http_status w)). do 2 eexists. exists body, None, None. split; [|split; [|split; [|exact I]]].
    - exists [], body. split; reflexivity.
    - exists [body], []. cbn [wr_events]. rewrite without_logs_app, Hl. split; [reflexivity|]. cbn. now rewrite !app_nil_r.
    - apply same_pairs_app; [|exact Sx]. repeat constructor; cbn [fst snd]. eexists. split; reflexivity. }
  destruct e as [c m ds|st hs|kd m]; cbn [answerable] in Ha.
  - destruct Ha as [b E]. cbv zeta. rewrite E. cbn [bind]. rewrite (io_bind_ok _ _ _ _ _ (io_res_ok _ _ _ eq_refl)). cbn beta iota.
    rewrite (io_bind_ok _ _ _ _ _ X). rewrite (io_bind_ok _ _ _ _ _ (sends_ok_send _ _ _ So)). rewrite (sends_ok_send _ _ _ So).
    cbn [as_ev as_n List.app]. eapply (J _ _ _ [(lit "content-type", lit "application/json")] _ E eq_refl eq_refl eq_refl []). reflexivity.
  - destruct Ha as [h E]. rewrite E. cbn [bind]. rewrite (io_bind_ok _ _ _ _ _ (io_res_ok _ _ _ eq_refl)). cbn beta iota.
    rewrite (io_bind_ok _ _ _ _ _ X). rewrite (io_bind_ok _ _ _ _ _ (sends_ok_send _ _ _ So)). rewrite (sends_ok_send _ _ _ So).
    cbn [as_ev as_n List.app maybe_log is_connect is_http orb]. split; [reflexivity|]. split; [reflexivity|].
    exists st. eexists. do 2 eexists. exists [], None, None. split; [|split; [|split; [|exact I]]].
    + exists [], []. split; reflexivity.
    + exists [], []. split; reflexivity.
    + apply same_pairs_app; [now apply encoded_same|exact Sx].
  - destruct Ha as [b E]. cbv zeta. rewrite E. cbn [bind]. rewrite (io_bind_ok _ _ _ _ _ (io_res_ok _ _ _ eq_refl)). cbn beta iota.
    rewrite (io_bind_ok _ _ _ _ _ X). rewrite (io_bind_ok _ _ _ _ _ (sends_ok_send _ _ _ So)). rewrite (sends_ok_send _ _ _ So).
    cbn [as_ev as_n List.app]. eapply (J _ _ _ [(lit "content-type", lit "application/json")] _ E eq_refl eq_refl eq_refl [WLog (EOther kd m)]). reflexivity.
Qed.

(** ** Routing *)
Lemma in_split_last c (l : list N) : In c l -> exists x y, l = x ++ c :: y /\ ~ In c y.
Proof.
  induction l as [|a l IH]; [intros []|]. intro H. destruct (in_dec N.eq_dec c l) as [I|NI].
  - destruct (IH I) as (x&y&->&Hy). exists (a :: x), y. split; [reflexivity|exact Hy].
  - destruct H as [->|H]; [|contradiction]. exists [], l. split; [reflexivity|exact NI].
Qed.

Lemma same_endpoint {A B} (ap : app A B) sc q : service_paths ap -> same_target sc q ->
  find_endpoint ap sc = wsgi_find_endpoint ap q.
Proof.
  intros (svc&Ep&Ns&Hk) (root&path&Hr&Hp&Hs&Hi). unfold find_endpoint, wsgi_find_endpoint, env_item. rewrite Hp, Hr, Hs, Hi. cbn [bind].
  destruct root as [|c root].
  { cbn [List.app]. destruct (dget (ap_endpoints ap) (47 :: path)); [reflexivity|]. destruct (str_eqb_spec [] (ap_path ap)) as [E|E]; [|reflexivity].
    rewrite Ep in E. discriminate. }
  rewrite removeprefix_app. destruct (dget (ap_endpoints ap) ((c :: root) ++ 47 :: path)) as [e|] eqn:D.
  - assert (R : c :: root = 47 :: svc /\ ~ In 47 path).
    { destruct (Hk _ _ D) as (name&E&Nn). destruct (in_dec N.eq_dec 47 path) as [I|NI].
      - exfalso. apply in_split_last in I. destruct I as (x&y&->&Ny).
        change (47 :: x ++ 47 :: y) with ((47 :: x) ++ 47 :: y) in E. rewrite app_assoc in E. change (47 :: svc ++ 47 :: name) with ((47 :: svc) ++ 47 :: name) in E.
        apply split_at_slash in E; auto. destruct E as [E _]. cbn [List.app] in E. injection E as _ E. apply Ns. rewrite <- E. apply in_or_app. right. now left.
      - change (47 :: svc ++ 47 :: name) with ((47 :: svc) ++ 47 :: name) in E. apply split_at_slash in E; auto. tauto. }
    destruct R as [R Np]. rewrite Ep, <- R. rewrite str_eqb_refl, D.
    destruct (dget (ap_endpoints ap) (47 :: path)) as [e'|] eqn:D'; [|reflexivity]. exfalso.
    destruct (Hk _ _ D') as (name&E&Nn). injection E as E. apply Np. rewrite E. apply in_or_app. right. now left.
  - destruct (dget (ap_endpoints ap) (47 :: path)) as [e'|] eqn:D'; [reflexivity|].
    destruct (str_eqb_spec (c :: root) (ap_path ap)) as [E|E]; [|reflexivity]. now rewrite <- E, D.
Qed.

(** ** Contexts *)
Lemma same_context now p m http scheme hs hs' client : same_header_values hs hs' ->
  match server_create_context now p m http scheme hs client, server_create_context now p m http scheme hs' client with
  | Ok cx, Ok cx' => same_ctx cx cx'
  | Raise e, Raise e' => e = e'
  | _, _ => False
  end.
Proof.
  intro H. unfold server_create_context. destruct (check_http_method _ _ _); [reflexivity|]. unfold h_get. rewrite !(same_get_default _ _ _ _ H), !(same_get _ _ _ H).
  match goal with |- match bind ?x _ with _ => _ end => destruct x end; cbn [bind]; [|reflexivity].
  unfold same_ctx, make_ctx. cbn. tauto.
Qed.

Lemma same_open {A B} (ap : app A B) now sc en q hs body : service_paths ap -> same_request sc en q hs body -> can_trail sc q hs ->
  (exists e, open_request ap now sc = Raise e /\ wsgi_open_request ap now q = Raise e)
  \/ exists ep p cx cx', open_request ap now sc = Ok (ep, hs, p, cx) /\ wsgi_open_request ap now q = Ok (ep, wsgi_headers q, p, cx') /\ same_ctx cx cx'.
Proof.
  intros Hs R T. unfold open_request, wsgi_open_request. rewrite (same_endpoint ap sc q Hs (sr_target _ _ _ _ _ R)).
  destruct (wsgi_find_endpoint ap q) as [ep|e]; cbn [bind]; [|left; eauto]. rewrite (sr_headers _ _ _ _ _ R). cbn [bind].
  unfold env_item. rewrite (sr_method _ _ _ _ _ R). cbn [bind]. pose proof (sr_same_headers _ _ _ _ _ R) as S.
  rewrite <- (same_get_default _ _ (lit "content-type") [] S). unfold can_trail in T.
  set (p := negotiate_server_protocol _) in *.
  assert (Y : uses_trailers p && negb (sc_trailers sc) = false /\ uses_trailers p && negb (wq_trailers q) = false).
  { destruct p; auto. destruct (T eq_refl) as [-> ->]. auto. }
  destruct Y as [-> ->].
  assert (C : match sc_client sc with Some (h, p) => Some (h ++ lit ":" ++ p) | None => None end
          = match env_get q "REMOTE_ADDR" with None | Some [] => None | Some ra => Some (ra ++ lit ":" ++ env_default q "REMOTE_PORT" (lit "0")) end).
  { pose proof (sr_peer _ _ _ _ _ R) as P. unfold same_peer in P. destruct (sc_client sc) as [[h pt]|].
    - destruct P as (Hne&Ha&Hp). unfold env_default. rewrite Ha, Hp. destruct h; [congruence|reflexivity].
    - destruct P as [-> | ->]; reflexivity. }
  rewrite <- C, (sr_scheme _ _ _ _ _ R).
  set (client := match sc_client sc with Some _ => _ | None => None end).
  pose proof (same_context now p (ep_method ep) (sc_method sc) (sc_scheme sc) hs (wsgi_headers q) client S) as X.
  destruct (server_create_context now p (ep_method ep) (sc_method sc) (sc_scheme sc) hs client) as [cx|e],
    (server_create_context now p (ep_method ep) (sc_method sc) (sc_scheme sc) (wsgi_headers q) client) as [cx'|e']; try contradiction; cbn [bind].
  - right. exists ep, p, cx, cx'. auto.
  - subst e'. left. eauto.
Qed.

(** ** Bodies *)
Lemma wsgi_body_available q : fault (wq_input q) = None ->
  exists cs, wsgi_body q = (cs, None) /\ List.concat cs = available (wq_input q).
Proof.
  unfold wsgi_body. assert (G : forall fuel inp, (input_fuel inp <= fuel)%nat -> fault inp = None ->
     exists cs, read_chunks fuel inp = (cs, None) /\ List.concat cs = available inp).
  { induction fuel as [|f IH]; intros inp Hf F; [unfold input_fuel in Hf; lia|]. cbn [read_chunks].
    destruct (wread 4096 inp) as [[[|x b]|e] r] eqn:W.
    - apply wread_end in W; [|lia]. exists []. split; [reflexivity|]. destruct W as [-> _]. reflexivity.
    - apply wread_available in W; [|lia|discriminate]. destruct W as (Wa&Wf&_&Wu).
      destruct (IH r) as (cs&E&C); [lia|congruence|]. rewrite E. exists ((x :: b) :: cs). split; [reflexivity|]. cbn [List.concat]. now rewrite C, Wa.
    - apply wread_fault in W. destruct W as [_ W]. congruence. }
  apply G. lia.
Qed.

Lemma same_body_read en q body : same_body en q body -> wsgi_read q body.
Proof.
  intros (_&Ha&Hf&He&Hl). unfold wsgi_read.
  assert (Z : exists cs, wsgi_body q = (cs, None) /\ body = List.concat cs).
  { destruct (wsgi_body_available q Hf) as (cs&E&C). exists cs. split; [exact E|congruence]. }
  destruct (env_get q "CONTENT_LENGTH") as [[|c s]|]; [exists 0%Z; auto| |exists 0%Z; auto].
  exists (Z.of_N (lenN body)). split; [exact Hl|]. destruct (0 <? Z.of_N (lenN body))%Z eqn:L; [|exact Z].
  rewrite N2Z.id. pose proof (@C43_exact (lenN body) (wq_input q) ltac:(lia) He) as X.
  destruct (read_body_with_content_length _ _) as [b|e].
  - destruct X as (Lb&rest&E). rewrite Ha in E. rewrite E in Lb. rewrite lenN_app in Lb.
    destruct rest as [|y rest]; [now rewrite app_nil_r in E; rewrite E|]. rewrite lenN_cons in Lb. lia.
  - destruct X as [X _]. rewrite Ha in X. lia.
Qed.

Lemma feed_all_same {M} (cf : rconf M) cs cs' md : rc_kind cf = RBase -> List.concat cs = List.concat cs' ->
  fst (feed_all cf (reader_new md) cs) = fst (feed_all cf (reader_new md) cs').
Proof.
  intros K E. destruct (frames_of_exists (List.concat cs)) as (fs&tl&F).
  assert (C : ends_clean (rc_kind cf) fs tl) by (rewrite K; intros f b a _ H; discriminate H).
  destruct (feed_all_clean cf cs (reader_new md) fs tl (reader_new_inv md) (reader_new_incomplete md) F C) as (ms&e&r'&b'&n'&H1&H2&_).
  rewrite E in F.
  destruct (feed_all_clean cf cs' (reader_new md) fs tl (reader_new_inv md) (reader_new_incomplete md) F C) as (ms2&e2&r2&b2&n2&H3&H4&_).
  rewrite H1 in H3. injection H3 as <- <- <-. now rewrite H2, H4.
Qed.

Lemma same_stream {A B} (ap : app A B) k z en q body : same_body en q body -> en_cut en = None ->
  request_stream ap k z en = wsgi_request_stream ap k z q.
Proof.
  intros ((cs&Ec&Cc)&Ha&Hf&_) Hn. destruct (wsgi_body_available q Hf) as (cs'&Ew&Cw). unfold request_stream, wsgi_request_stream. rewrite Ec, Ew, Hn.
  pose proof (feed_all_same (mk_rconf RBase z (ap_max ap) (k_dec_req k)) cs cs' None eq_refl ltac:(congruence)) as X.
  destruct (feed_all _ _ cs) as [[ms e] r], (feed_all _ _ cs') as [[ms' e'] r']. cbn [fst] in X. injection X as <- <-. now destruct e.
Qed.

(** ** Methods *)
Lemma found_endpoint {A B} (ap : app A B) now sc ep hs p cx : open_request ap now sc = Ok (ep, hs, p, cx) ->
  exists key, dget (ap_endpoints ap) key = Some ep.
Proof.
  intro H. apply open_request_ok in H. destruct H as [H _]. destruct (C52_asgi ap sc ep H) as [D|(r&key&_&_&D)]; eauto.
Qed.

Lemma same_runs {A B} (ap : app A B) key ep cx cx' req (ps ps' : compression -> pulls A) inv steps rs' e :
  order_blind ap -> dget (ap_endpoints ap) key = Some ep -> same_ctx cx cx' -> (forall z, ps z = ps' z) ->
  stream_runs ep cx req ps inv steps rs' e -> stream_runs ep cx' req ps' inv steps rs' e.
Proof.
  intros O D S P R. destruct req as [z|]; cbn [stream_runs] in *; [|exact R]. rewrite <- P. destruct R as [R|R]; [left|right; exact R].
  specialize (O key ep D cx cx' S). destruct ep; cbn [method_does] in *.
  - destruct R as (a&H1&H2&H3). exists a. now rewrite <- O.
  - now rewrite <- O.
  - destruct R as (a&H1&H2&H3). exists a. now rewrite <- O.
  - now rewrite <- O.
Qed.
