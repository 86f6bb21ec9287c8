(** Lemmas on query strings. *)
From Coq Require Import List NArith ZArith Bool String Lia ZifyBool ZifyN.
From Verif Require Import MBase MPyStr LBase LPyStr MUtf8 LUtf8 MBase64 MPercent LPercent MHeaders MJson MWire MEnvelope MProtocol MServer MWsgi MAsgi
  SQuery PText.
Import ListNotations.
Local Open Scope N_scope.

Lemma digit_val v c : digit v c -> hex_val c = Some v /\ c < 128 /\ c <> 38 /\ c <> 43 /\ c <> 61 /\ v < 16.
Proof.
  intro H. unfold hex_val.
  assert (D : (v < 10 /\ c = 48 + v) \/ (10 <= v < 16 /\ c = 55 + v) \/ (10 <= v < 16 /\ c = 87 + v)) by (unfold digit in H; lia).
  destruct D as [[V ->]|[[V ->]|[V ->]]].
  - replace ((48 <=? 48 + v) && (48 + v <=? 57)) with true by lia. repeat split; try lia. f_equal. lia.
  - replace ((48 <=? 55 + v) && (55 + v <=? 57)) with false by lia. replace ((65 <=? 55 + v) && (55 + v <=? 70)) with true by lia.
    repeat split; try lia. f_equal. lia.
  - replace ((48 <=? 87 + v) && (87 + v <=? 57)) with false by lia. replace ((65 <=? 87 + v) && (87 + v <=? 70)) with false by lia.
    replace ((97 <=? 87 + v) && (87 + v <=? 102)) with true by lia. repeat split; try lia. f_equal. lia.
Qed.

Lemma value_plain b : in_value b = true -> b <> 37 /\ b <> 38 /\ b <> 43.
Proof. unfold in_value. cbn. lia. Qed.
Lemma name_plain b : in_name b = true -> in_value b = true /\ b <> 61.
Proof. unfold in_name, in_value. cbn. lia. Qed.

Lemma name_value bs s : bytes_written in_name bs s -> bytes_written in_value bs s.
Proof. induction 1 as [|b s bs r W _ IH]; constructor; auto. destruct W; constructor; auto. now apply name_plain. Qed.

Lemma written_chars bs s : bytes_written in_value bs s -> Forall (fun c => c < 128 /\ c <> 38) s.
Proof.
  induction 1 as [|b s bs r W _ IH]; [constructor|]. apply Forall_app. split; [|exact IH]. destruct W as [b L P| |hi lo h l H1 H2].
  - apply value_plain in P. repeat constructor; [exact L|tauto].
  - repeat constructor; lia.
  - apply digit_val in H1, H2. repeat constructor; lia.
Qed.
Lemma name_chars bs s : bytes_written in_name bs s -> ~ In 61 s.
Proof.
  induction 1 as [|b s bs r W _ IH]; [auto|]. rewrite in_app_iff. intros [I|I]; [|tauto]. destruct W as [b L P| |hi lo h l H1 H2]; cbn in I.
  - apply name_plain in P. intuition.
  - lia.
  - apply digit_val in H1, H2. lia.
Qed.

Lemma written_bytes bs s : bytes_written in_value bs s -> unquote_to_bytes (plus_to_space s) = bs.
Proof.
  induction 1 as [|b s bs r W _ IH]; [reflexivity|]. rewrite plus_to_space_app. destruct W as [b L P| |hi lo h l H1 H2].
  - apply value_plain in P. cbn. replace (b =? 43) with false by lia. cbn. replace (b =? 37) with false by lia. now rewrite IH.
  - cbn. now rewrite IH.
  - apply digit_val in H1, H2. destruct H1 as (V1&_&_&P1&_). destruct H2 as (V2&_&_&P2&_). cbn.
    replace (h =? 43) with false by lia. replace (l =? 43) with false by lia. cbn. now rewrite V1, V2, IH.
Qed.

Lemma written_text t s bs : utf8_encode t = Some bs -> bytes_written in_value bs s -> unquote (plus_to_space s) = t.
Proof.
  intros E W. rewrite unquote_ascii.
  - rewrite (written_bytes _ _ W). now apply utf8_roundtrip_replace.
  - apply written_chars in W. unfold plus_to_space. clear E. induction W as [|c s [L _] W IH]; cbn; constructor; auto. destruct (c =? 43); lia.
Qed.

Definition part_pairs (nv : pystr) : list (pystr * pystr) :=
  match nv with
  | [] => []
  | _ => let '(n, v) := match split_first 61 nv with Some p => p | None => (nv, []) end in
         [(unquote (plus_to_space n), unquote (plus_to_space v))]
  end.

Lemma split_none sep s : ~ In sep s -> split_first sep s = None.
Proof. induction s as [|c s IH]; intro H; [reflexivity|]. cbn in *. destruct (c =? sep) eqn:E; [lia|]. rewrite IH; [reflexivity|tauto]. Qed.

Lemma parts_read ps l : parts_written ps l -> Forall (fun p => ~ In 38 p) l /\ Forall (fun p => Forall (fun c => c < 128) p) l /\ flat_map part_pairs l = ps.
Proof.
  assert (X : forall bs s, bytes_written in_value bs s -> ~ In 38 s /\ Forall (fun c => c < 128) s).
  { intros bs s W. apply written_chars in W. split; [intro I; rewrite Forall_forall in W; apply W in I; lia|]. eapply Forall_impl; [|exact W]. cbn. tauto. }
  induction 1 as [|ps l H (IH1&IH2&IH3)|n v n' v' ps l (bn&En&Wn) (bv&Ev&Wv) H (IH1&IH2&IH3)|n n' ps l (bn&En&Wn) N H (IH1&IH2&IH3)].
  - repeat split; constructor.
  - split; [constructor; auto|]. split; [constructor; auto|]. exact IH3.
  - destruct (X _ _ (name_value _ _ Wn)) as [A1 A2]. destruct (X _ _ Wv) as [B1 B2]. split; [|split].
    + constructor; [|exact IH1]. rewrite !in_app_iff. cbn. intuition lia.
    + constructor; [|exact IH2]. repeat (apply Forall_app; split); auto. repeat constructor; lia.
    + cbn [flat_map]. rewrite IH3. f_equal. unfold part_pairs. change (n' ++ [61] ++ v') with (n' ++ 61 :: v').
      rewrite (split_first_app 61 n' v' (name_chars _ _ Wn)). rewrite (written_text _ _ _ En (name_value _ _ Wn)), (written_text _ _ _ Ev Wv).
      destruct n'; reflexivity.
  - destruct (X _ _ (name_value _ _ Wn)) as [A1 A2]. split; [|split].
    + constructor; auto.
    + constructor; auto.
    + cbn [flat_map]. rewrite IH3. unfold part_pairs. rewrite (split_none 61 n' (name_chars _ _ Wn)). rewrite (written_text _ _ _ En (name_value _ _ Wn)).
      destruct n' as [|c n']; [congruence|]. reflexivity.
Qed.

Lemma join_ascii l : Forall (fun p => Forall (fun c => c < 128) p) l -> Forall (fun c => c < 128) (join [38] l).
Proof.
  induction 1 as [|p l P H IH]; [constructor|]. cbn [join]. destruct l; [exact P|]. repeat (apply Forall_app; split); auto. repeat constructor; lia.
Qed.

Lemma query_read ps q : query_written ps q -> parse_qsl q = ps /\ Forall (fun c => c < 128) q.
Proof.
  intros (l&W&->). destruct (parts_read _ _ W) as (H1&H2&H3). split; [|now apply join_ascii]. unfold parse_qsl. fold part_pairs.
  destruct l as [|p l]; [cbn in H3; subst; reflexivity|]. rewrite split_join; [exact H3|discriminate|exact H1].
Qed.

Lemma param_value ps : forall acc n, (forall k v, dget acc k = Some v -> v <> []) ->
  param (fold_left (fun d (nv : pystr * pystr) => let (n, v) := nv in dset d n ((match dget d n with Some l => l | None => [] end) ++ [v])) ps acc) n
  = match param acc n with Some v => Some v | None => value_of ps n end.
Proof.
  induction ps as [|[k v] ps IH]; intros acc n Ne; [cbn; now destruct (param acc n)|]. cbn [fold_left value_of]. rewrite IH.
  - unfold param. rewrite dget_dset. destruct (str_eqb k n) eqn:E.
    + apply str_eqb_eq in E. subst k. destruct (dget acc n) as [[|w l]|] eqn:D; reflexivity.
    + reflexivity.
  - intros k' v'. rewrite dget_dset. destruct (str_eqb k k'); [|apply Ne]. intros [= <-]. destruct (dget acc k) as [[|]|]; discriminate.
Qed.

Lemma query_param ps q n : query_written ps q -> param (parse_qs q) n = value_of ps n.
Proof. intro W. unfold parse_qs. rewrite (proj1 (query_read _ _ W)). rewrite param_value; [reflexivity|]. intros k v H. discriminate. Qed.

Lemma query_decodes ps q : query_written ps q -> utf8_decode q = Some q.
Proof. intro W. apply utf8_decode_ascii. now apply (query_read ps). Qed.

(** ** ASGI *)
Lemma get_same {A B} (ap : app A B) k d d' : (forall n, In n get_parameters -> param d n = param d' n) -> read_get_request ap k d = read_get_request ap k d'.
Proof.
  intro H. unfold read_get_request. rewrite (H (lit "message")), (H (lit "base64")), (H (lit "compression")); [reflexivity|cbn; tauto..].
Qed.

Lemma base64_value t m bs : utf8_encode t = Some bs -> (m = urlsafe_b64encode bs \/ m = rstrip_eq (urlsafe_b64encode bs)) ->
  urlsafe_b64decode (m ++ lit "===") = Some bs.
Proof.
  intros E H. pose proof (utf8_encode_bytes _ _ E) as Y. destruct H as [->| ->]; [now apply C58_urlsafe_padded|now apply C58_urlsafe_unpadded].
Qed.

Lemma get_base64 {A B} (ap : app A B) k d d' t m :
  param d (lit "base64") <> Some (lit "1") -> param d' (lit "base64") = Some (lit "1") ->
  param d (lit "message") = Some t -> param d' (lit "message") = Some m -> as_base64 t m ->
  param d (lit "compression") = param d' (lit "compression") ->
  read_get_request ap k d = read_get_request ap k d'.
Proof.
  intros B1 B2 M1 M2 (bs&E&Em) C. unfold read_get_request. rewrite M1, M2, B2, C.
  replace (str_eqb (lit "1") (lit "1")) with true by reflexivity. rewrite (base64_value t m bs E Em).
  replace (match param d (lit "base64") with Some v => str_eqb v (lit "1") | None => false end) with false.
  - unfold encode_str. rewrite E. reflexivity.
  - destruct (param d (lit "base64")) as [v|] in B1 |- *; [|reflexivity]. destruct (str_eqb v (lit "1")) eqn:X; [|reflexivity]. apply str_eqb_eq in X. subst v. now destruct B1.
Qed.

Lemma asgi_same {A B} (ap : app A B) now sc en s s' d d' :
  utf8_decode s = Some s -> utf8_decode s' = Some s' -> parse_qs s = d -> parse_qs s' = d' ->
  param d (lit "encoding") = param d' (lit "encoding") -> (forall k, read_get_request ap k d = read_get_request ap k d') ->
  asgi_call ap now (asgi_query sc s) en = asgi_call ap now (asgi_query sc s') en.
Proof.
  intros U U' P P' E G. unfold asgi_call. cbv zeta.
  change (open_request ap now (asgi_query sc s)) with (open_request ap now sc). change (open_request ap now (asgi_query sc s')) with (open_request ap now sc).
  destruct (open_request ap now sc) as [[[[ep hs] p] cx]|e]; [|reflexivity].
  unfold select_codec. cbn [asgi_query sc_method sc_query]. destruct (str_eqb (sc_method sc) (lit "GET")) eqn:Mt.
  - rewrite U, U', P, P', E. cbn [bind fst snd]. destruct (dget (ap_codecs ap) _) as [k|]; [|reflexivity].
    destruct ep as [mi f|mi f|mi f|mi f]; try reflexivity. destruct p; try reflexivity.
    unfold handle_unary_connect. rewrite Mt, (G k). reflexivity.
  - reflexivity.
Qed.

(** ** WSGI *)
Lemma env_query q s s' k : lit k <> lit "QUERY_STRING" -> env_get (wsgi_query q s) k = env_get (wsgi_query q s') k.
Proof. intro N. unfold env_get. cbn [wsgi_query wq_env]. rewrite !dget_dset_other by congruence. reflexivity. Qed.

Lemma headers_query q s s' : wsgi_headers (wsgi_query q s) = wsgi_headers (wsgi_query q s').
Proof.
  unfold wsgi_headers. rewrite (env_query q s s' "CONTENT_TYPE"), (env_query q s s' "CONTENT_LENGTH") by discriminate. cbv zeta.
  match goal with |- fold_left _ _ ?h = fold_left _ _ ?h => generalize h end. cbn [wsgi_query wq_env].
  induction (wq_env q) as [|[k v] env IH]; intro h; [reflexivity|]. cbn [dset]. destruct (str_eqb k (lit "QUERY_STRING")) eqn:E.
  - apply str_eqb_eq in E. subst k. reflexivity.
  - cbn [fold_left]. apply IH.
Qed.

Lemma default_query q s s' k d : lit k <> lit "QUERY_STRING" -> env_default (wsgi_query q s) k d = env_default (wsgi_query q s') k d.
Proof. intro N. unfold env_default. now rewrite (env_query q s s' k N). Qed.

Lemma drain_query q s s' n : drain (wsgi_query q s) n = drain (wsgi_query q s') n.
Proof. unfold drain. now rewrite (default_query q s s') by discriminate. Qed.

Lemma post_query {A B} (ap : app A B) q s s' hs : wsgi_post_request ap (wsgi_query q s) hs = wsgi_post_request ap (wsgi_query q s') hs.
Proof. unfold wsgi_post_request. rewrite (env_query q s s' "CONTENT_LENGTH"), (default_query q s s' "HTTP_CONTENT_ENCODING") by discriminate. reflexivity. Qed.

Lemma stream_query {A B} (ap : app A B) q s s' p hs ep cx : wsgi_stream ap (wsgi_query q s) p hs ep cx = wsgi_stream ap (wsgi_query q s') p hs ep cx.
Proof.
  unfold wsgi_stream, wsgi_stream_error, response_stream_end. rewrite !(drain_query q s s').
  reflexivity.
Qed.

Lemma open_query {A B} (ap : app A B) now q s s' : wsgi_open_request ap now (wsgi_query q s) = wsgi_open_request ap now (wsgi_query q s').
Proof.
  unfold wsgi_open_request, wsgi_find_endpoint, env_item.
  rewrite (env_query q s s' "PATH_INFO"), (env_query q s s' "SCRIPT_NAME"), (env_query q s s' "REQUEST_METHOD"), (env_query q s s' "REMOTE_ADDR"),
    (default_query q s s' "REMOTE_PORT"), (default_query q s s' "wsgi.url_scheme"), (headers_query q s s') by discriminate. reflexivity.
Qed.

Lemma wsgi_same {A B} (ap : app A B) now q s s' :
  wsgi_get_request ap (wsgi_query q s) = wsgi_get_request ap (wsgi_query q s') ->
  wsgi_call ap now (wsgi_query q s) = wsgi_call ap now (wsgi_query q s').
Proof.
  intro G. unfold wsgi_call. rewrite (open_query ap now q s s'). destruct (wsgi_open_request ap now (wsgi_query q s')) as [[[[ep hs] p] cx]|e].
  - assert (U : forall f, wsgi_unary ap (wsgi_query q s) (cx_http cx) f cx hs = wsgi_unary ap (wsgi_query q s') (cx_http cx) f cx hs)
      by (intro f; unfold wsgi_unary; now rewrite G, (post_query ap q s s')).
    assert (X : forall inv ev e ctx, @wsgi_call_error A (wsgi_query q s) inv ev e ctx = wsgi_call_error (wsgi_query q s') inv ev e ctx)
      by (intros; unfold wsgi_call_error; now rewrite (drain_query q s s')).
    assert (H : match ep, p with EpUnary _ f, PConnect => inl (wsgi_unary ap (wsgi_query q s) (cx_http cx) f cx hs) | _, _ => wsgi_stream ap (wsgi_query q s) p hs ep cx end
      = match ep, p with EpUnary _ f, PConnect => inl (wsgi_unary ap (wsgi_query q s') (cx_http cx) f cx hs) | _, _ => wsgi_stream ap (wsgi_query q s') p hs ep cx end)
      by (destruct ep, p; rewrite ?U, ?(stream_query ap q s s'); reflexivity).
    rewrite H. destruct (match ep, p with EpUnary _ f, PConnect => inl (wsgi_unary ap (wsgi_query q s') (cx_http cx) f cx hs) | _, _ => wsgi_stream ap (wsgi_query q s') p hs ep cx end)
      as [[[[inv rs] ev] [[e|]|]]|r]; rewrite ?X; reflexivity.
  - unfold wsgi_call_error. now rewrite (drain_query q s s').
Qed.

Lemma env_query_string q s : env_default (wsgi_query q s) "QUERY_STRING" [] = s.
Proof. unfold env_default, env_get. cbn [wsgi_query wq_env]. now rewrite dget_dset_same. Qed.

Lemma wget_same {A B} (ap : app A B) q s s' d d' : parse_qs s = d -> parse_qs s' = d' ->
  (forall n, In n get_parameters -> param d n = param d' n) -> wsgi_get_request ap (wsgi_query q s) = wsgi_get_request ap (wsgi_query q s').
Proof.
  intros P P' H. unfold wsgi_get_request. rewrite !env_query_string, P, P'. cbv zeta.
  rewrite (H (lit "message")), (H (lit "base64")), (H (lit "compression")), (H (lit "encoding")); [reflexivity|cbn; tauto..].
Qed.

Lemma wget_base64 {A B} (ap : app A B) q s s' d d' t m : parse_qs s = d -> parse_qs s' = d' ->
  param d (lit "base64") <> Some (lit "1") -> param d' (lit "base64") = Some (lit "1") ->
  param d (lit "message") = Some t -> param d' (lit "message") = Some m -> as_base64 t m ->
  param d (lit "compression") = param d' (lit "compression") -> param d (lit "encoding") = param d' (lit "encoding") ->
  wsgi_get_request ap (wsgi_query q s) = wsgi_get_request ap (wsgi_query q s').
Proof.
  intros P P' B1 B2 M1 M2 (bs&E&Em) C En. unfold wsgi_get_request. rewrite !env_query_string, P, P'. cbv zeta. rewrite M1, M2, B2, C, En.
  replace (str_eqb (lit "1") (lit "1")) with true by reflexivity. rewrite (base64_value t m bs E Em).
  replace (match param d (lit "base64") with Some v => str_eqb v (lit "1") | None => false end) with false.
  - rewrite E. reflexivity.
  - destruct (param d (lit "base64")) as [v|] in B1 |- *; [|reflexivity]. destruct (str_eqb v (lit "1")) eqn:X; [|reflexivity]. apply str_eqb_eq in X. subst v. now destruct B1.
Qed.
