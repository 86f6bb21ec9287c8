(** C83: content types are read as media types. *)
From Coq Require Import List NArith ZArith Bool String Lia.
From Verif Require Import MBase MPyStr MHeaders MUtf8 MWire MEnvelope MProtocol MClient MServer MAsgi MWsgi
  SServer SParity SProtocol SLink SHeaders SContext SMedia LBase LPyStr LUtf8 LHeaders LWire LLink LProtocol LMedia LLink2 LRequest PProtocol PResponse PRequest PContext PClient.
Import ListNotations.
Local Open Scope N_scope.

(** ** Headers *)
Lemma but_type_item h h' n : same_but_type h h' -> other_type n -> h_getitem h n = h_getitem h' n.
Proof. intros S O. now rewrite !getitem_getall, (S n O). Qed.

Ltac other := vm_compute; congruence.

Lemma named_get hs : h_get_default hs (lit "content-type") [] = named hs.
Proof. unfold h_get_default, named. rewrite getitem_getall. now destruct (h_getall hs (lit "content-type")). Qed.

(** Both content types lead to the Connect protocol and the same codec. *)
Definition retyped (hs hs' : headers) : Prop :=
  same_but_type hs hs' /\ negotiate_server_protocol (named hs) = negotiate_server_protocol (named hs')
  /\ (negotiate_server_protocol (named hs) = PConnect /\ normalize_content_type (named hs) = normalize_content_type (named hs')
      \/ named hs = named hs').

Lemma retyped_codec hs hs' stream : retyped hs hs' ->
  codec_name_from_content_type (negotiate_server_protocol (named hs)) stream (named hs)
  = codec_name_from_content_type (negotiate_server_protocol (named hs')) stream (named hs').
Proof.
  intros (_&E&H). rewrite <- E. destruct H as [[P N]|H]; [|now rewrite H]. rewrite P. cbn [codec_name_from_content_type]. now rewrite N.
Qed.

Lemma retyped_connect hs hs' stream : retyped hs hs' -> negotiate_server_protocol (named hs) = PConnect ->
  codec_name_from_content_type PConnect stream (named hs) = codec_name_from_content_type PConnect stream (named hs').
Proof. intros R E. pose proof (retyped_codec hs hs' stream R) as X. destruct R as (_&E'&_). rewrite <- E', E in X. exact X. Qed.

Lemma retyped_context now p m http scheme hs hs' client : same_but_type hs hs' ->
  match server_create_context now p m http scheme hs client, server_create_context now p m http scheme hs' client with
  | Ok cx, Ok cx' => same_ctx_but_type cx cx'
  | Raise e, Raise e' => e = e'
  | _, _ => False
  end.
Proof.
  intro S. unfold server_create_context. destruct (check_http_method _ _ _); [reflexivity|]. unfold h_get, h_get_default.
  rewrite (but_type_item _ _ (lit "connect-protocol-version") S), (but_type_item _ _ (lit "connect-timeout-ms") S),
    (but_type_item _ _ (lit "grpc-timeout") S), (but_type_item _ _ (lit "host") S) by other.
  match goal with |- match bind ?x _ with _ => _ end => destruct x end; cbn [bind]; [|reflexivity].
  unfold same_ctx_but_type, make_ctx. cbn. tauto.
Qed.

Lemma retyped_compression p hs hs' comps : same_but_type hs hs' -> negotiate_stream_compression p hs comps = negotiate_stream_compression p hs' comps.
Proof.
  intro S. unfold negotiate_stream_compression, h_get_default.
  rewrite (but_type_item _ _ (compression_header_name p) S), (but_type_item _ _ (accept_header_name p) S) by (destruct p; other). reflexivity.
Qed.

(** ** The types named *)
Definition solid (c : N) : Prop := ~ blank c /\ c <> 59.

Lemma solid_front bp core u c : Forall solid bp -> match u with x :: _ => ~ solid x | [] => True end -> core ++ u = bp ++ c ->
  exists c', core = bp ++ c'.
Proof.
  intros F. revert core. induction F as [|x bp Hx F IH]; intros core Hu E; [exists core; reflexivity|].
  destruct core as [|y core]; cbn [List.app] in E.
  - subst u. contradiction.
  - injection E as -> E. destruct (IH core Hu E) as (c'&->). now exists c'.
Qed.

Lemma plain_is_solid t : plain_type t -> Forall solid t.
Proof. intro P. eapply Forall_impl; [|exact P]. cbv beta. intros c H. unfold solid, blank, media_char in *. cbn [In]. lia. Qed.

Lemma connect_named ct t : plain_type t -> ~ grpc_type t -> names_type ct t -> negotiate_server_protocol ct = PConnect.
Proof.
  intros P G N. assert (X : negotiate_server_protocol ct <> PConnect -> False).
  2:{ destruct (negotiate_server_protocol ct); [reflexivity|exfalso; apply X; discriminate..]. }
  intro E. apply G. apply negotiated_type in E. clear G. destruct N as (w&core&w'&rest&Ect&Hw&Hc&Hw'&Hr). destruct E as (b&Hb&Hcase).
  assert (Pb : plain_type b) by (cbn [In] in Hb; destruct Hb as [<-|[<-|[]]]; apply plain_lit; reflexivity).
  assert (Nb : exists b0 b1, b = b0 :: b1) by (cbn [In] in Hb; destruct Hb as [<-|[<-|[]]]; repeat eexists).
  assert (W : w = []).
  { destruct Hw as [|x w B _]; [reflexivity|exfalso]. destruct Nb as (b0&b1&->).
    pose proof (plain_is_solid _ Pb) as S. inversion S as [|? ? [S1 _] _]; subst.
    apply S1. destruct Hcase as [Hcase|(c&Hcase)]; cbn [List.app] in Hcase; injection Hcase as <- _; exact B. }
  subst w. cbn [List.app] in Ect.
  assert (Hu : match w' ++ rest with x :: _ => ~ solid x | [] => True end).
  { destruct Hw' as [|x w' Hx _]; cbn [List.app]; unfold solid; [|tauto]. destruct Hr as [->|(q&->)]; [exact I|]. intros [_ Z]. now apply Z. }
  assert (Low : forall bp c', plain_type bp -> core = bp ++ c' -> t = bp ++ lower c').
  { intros bp c' Pbp ->. rewrite <- (lower_cased _ _ P Hc), lower_app. f_equal.
    apply lower_cased; [exact Pbp|]. clear. induction bp; constructor; [now left|assumption]. }
  destruct Hcase as [->|(c&->)].
  - destruct (solid_front b core (w' ++ rest) [] (plain_is_solid _ Pb) Hu) as (c'&Ec); [now rewrite app_nil_r, Ect|].
    assert (c' = []) as -> by (apply (f_equal (@List.length N)) in Ect; rewrite Ec, !app_length in Ect; destruct c'; [reflexivity|cbn in Ect; lia]).
    exists b. split; [exact Hb|left]. rewrite (Low b [] Pb Ec). apply app_nil_r.
  - assert (Pp : plain_type (b ++ lit "+")) by (apply Forall_app; split; [exact Pb|apply plain_lit; reflexivity]).
    destruct (solid_front (b ++ lit "+") core (w' ++ rest) c (plain_is_solid _ Pp) Hu) as (c'&Ec); [now rewrite <- app_assoc, Ect|].
    exists b. split; [exact Hb|right]. exists (lower c'). rewrite (Low _ _ Pp Ec), <- app_assoc. reflexivity.
Qed.

(** ** ASGI *)
Lemma process_app l1 : forall h l2, process_headers h (l1 ++ l2) = bind (process_headers h l1) (fun h => process_headers h l2).
Proof.
  induction l1 as [|[k v] l1 IH]; intros h l2; cbn [List.app process_headers bind]; [reflexivity|].
  destruct (utf8_decode k); [|reflexivity]. destruct (utf8_decode v); [|reflexivity]. apply IH.
Qed.

(** Whether the rest is read, and what, does not depend on the content type. *)
Lemma process_rest l : forall h h', h_inv h -> h_inv h' -> same_but_type h h' ->
  match process_headers h l, process_headers h' l with
  | Ok hs, Ok hs' => same_but_type hs hs'
  | Raise e, Raise e' => e = e'
  | _, _ => False
  end.
Proof.
  induction l as [|[k v] l IH]; intros h h' I I' S; cbn [process_headers]; [exact S|].
  destruct (utf8_decode k) as [k'|]; [|reflexivity]. destruct (utf8_decode v) as [v'|]; [|reflexivity].
  apply IH; [now apply h_inv_add|now apply h_inv_add|]. intros n O. rewrite !getall_add by assumption. destruct (same_name n k'); now rewrite (S n O).
Qed.

Lemma process_silent l : forall h hs, h_inv h -> process_headers h l = Ok hs ->
  (forall n v name, In (n, v) l -> utf8_decode n = Some name -> lower name <> lit "content-type") ->
  h_inv hs /\ h_getall hs (lit "content-type") = h_getall h (lit "content-type").
Proof.
  induction l as [|[k v] l IH]; intros h hs I P Q; cbn [process_headers] in P; [injection P as <-; auto|].
  destruct (utf8_decode k) as [k'|] eqn:Ek; [|discriminate]. destruct (utf8_decode v) as [v'|]; [|discriminate].
  destruct (IH _ _ (h_inv_add _ _ _ I) P) as (I'&E). { intros n x name H. apply (Q n x name). now right. }
  split; [exact I'|]. rewrite E, getall_add by exact I. destruct (same_name _ k') eqn:Sn; [|reflexivity].
  exfalso. apply (Q k v k' (or_introl eq_refl) Ek). unfold same_name in Sn. destruct (str_eqb_spec (lower (lit "content-type")) (lower k')) as [X|]; [|discriminate].
  now rewrite <- X.
Qed.

Lemma named_all hs v : h_getall hs (lit "content-type") = [v] -> named hs = v.
Proof. intro E. unfold named. now rewrite E. Qed.

Lemma retyped_lines b b' ct ct' sc sc' : retyped_scope b b' sc sc' -> utf8_decode b = Some ct -> utf8_decode b' = Some ct' ->
  match process_headers h_empty (sc_headers sc), process_headers h_empty (sc_headers sc') with
  | Ok hs, Ok hs' => same_but_type hs hs' /\ named hs = ct /\ named hs' = ct'
  | Raise e, Raise e' => e = e'
  | _, _ => False
  end.
Proof.
  intros (pre&post&E&->&Q) D D'. rewrite E. cbn [sc_headers]. rewrite !process_app.
  destruct (process_headers h_empty pre) as [h|e] eqn:P; cbn [bind]; [|reflexivity].
  destruct (process_silent _ _ _ h_inv_empty P) as (I&G). { intros n v name H. apply (Q n v name). apply in_app_iff. now left. }
  cbn [process_headers]. rewrite D, D'. change (utf8_decode (lit "content-type")) with (Some (lit "content-type")). cbn iota.
  pose proof (process_rest post (h_add h (lit "content-type") ct) (h_add h (lit "content-type") ct') (h_inv_add _ _ _ I) (h_inv_add _ _ _ I)) as R.
  destruct (process_headers (h_add h (lit "content-type") ct) post) as [hs|e] eqn:P1,
    (process_headers (h_add h (lit "content-type") ct') post) as [hs'|e'] eqn:P2; (apply R || (split; [apply R|]));
    try (intros n O; rewrite !getall_add by assumption; destruct (same_name n (lit "content-type")) eqn:Sn; [|reflexivity];
         exfalso; apply O; unfold same_name in Sn; destruct (str_eqb_spec (lower n) (lower (lit "content-type"))) as [X|]; [exact X|discriminate]).
  assert (Qp : forall n v name, In (n, v) post -> utf8_decode n = Some name -> lower name <> lit "content-type").
  { intros n v name H. apply (Q n v name). apply in_app_iff. now right. }
  destruct (process_silent _ _ _ (h_inv_add _ _ _ I) P1 Qp) as (_&G1). destruct (process_silent _ _ _ (h_inv_add _ _ _ I) P2 Qp) as (_&G2).
  rewrite getall_add, G in G1, G2 by exact I. split; apply named_all; [exact G1|exact G2].
Qed.

Lemma named_retyped t hs hs' : plain_type t -> ~ grpc_type t -> same_but_type hs hs' -> names_type (named hs) t -> names_type (named hs') t ->
  retyped hs hs' /\ negotiate_server_protocol (named hs) = PConnect /\ negotiate_server_protocol (named hs') = PConnect.
Proof.
  intros P G S N N'. pose proof (connect_named _ _ P G N) as C. pose proof (connect_named _ _ P G N') as C'.
  apply (names_normal _ _ P) in N. apply (names_normal _ _ P) in N'. unfold retyped. rewrite C, C', N, N'. tauto.
Qed.

Lemma blind_unary {A B} (ap : app A B) en http k params f cx cx' s hs hs' : same_but_type hs hs' -> (forall a, f a cx = f a cx') ->
  handle_unary_connect ap en http hs k params f cx s = handle_unary_connect ap en http hs' k params f cx' s.
Proof.
  intros S F. unfold handle_unary_connect, read_post_request, h_get_default.
  rewrite (but_type_item _ _ (lit "accept-encoding") S), (but_type_item _ _ (lit "content-encoding") S) by other.
  match goal with |- match ?x with _ => _ end = _ => destruct x as [a|i] end; [|reflexivity]. now rewrite (F a).
Qed.

Lemma blind_stream {A B} (ap : app A B) en p ep k cx cx' hs hs' : same_but_type hs hs' ->
  match ep with EpUnary _ f => forall a, f a cx = f a cx' | EpClientStream _ f => f cx = f cx'
              | EpServerStream _ f => forall a, f a cx = f a cx' | EpBidi _ f => f cx = f cx' end ->
  handle_stream ap en p ep k hs cx = handle_stream ap en p ep k hs' cx'.
Proof.
  intros S F. unfold handle_stream. rewrite (retyped_compression p hs hs' _ S). destruct (negotiate_stream_compression p hs' (ap_comps ap)) as [req z].
  assert (E : stream_try ap en p ep k req z cx (mk_lst (mk_ast 0 []) false 0) = stream_try ap en p ep k req z cx' (mk_lst (mk_ast 0 []) false 0)).
  { unfold stream_try. destruct req as [rz|]; [|reflexivity]. destruct ep as [m f|m f|m f|m f].
    - destruct (consume_single_request _); [|reflexivity]. now rewrite F.
    - now rewrite F.
    - destruct (consume_single_request _); [|reflexivity]. now rewrite F.
    - now rewrite F. }
  now rewrite E.
Qed.

(** An ASGI application answers a request alike however its content type is written. *)
Theorem C83_asgi : forall (A B : Type) (ap : app A B) now sc sc' en b b' ct ct' t,
  type_blind ap -> retyped_scope b b' sc sc' -> utf8_decode b = Some ct -> utf8_decode b' = Some ct' ->
  plain_type t -> ~ grpc_type t -> names_type ct t -> names_type ct' t ->
  asgi_call ap now sc' en = asgi_call ap now sc en.
Proof.
  intros A B ap now sc sc' en b b' ct ct' t Bl R D D' P G N N'. pose proof (retyped_lines _ _ _ _ _ _ R D D') as L.
  destruct R as (pre&post&_&Esc&_).
  assert (F : find_endpoint ap sc' = find_endpoint ap sc) by (rewrite Esc; reflexivity).
  unfold asgi_call, open_request. rewrite F. destruct (find_endpoint ap sc) as [ep|e] eqn:Ep; cbn [bind]; [|reflexivity].
  destruct (process_headers h_empty (sc_headers sc)) as [hs|e] eqn:Ph, (process_headers h_empty (sc_headers sc')) as [hs'|e'] eqn:Ph'; try contradiction; cbn [bind];
    [|now rewrite L].
  destruct L as (S&Nm&Nm'). rewrite !named_get.
  destruct (named_retyped t hs hs' P G S ltac:(now rewrite Nm) ltac:(now rewrite Nm')) as (Rt&C&C').
  cbv zeta. rewrite C, C'. cbn [uses_trailers andb].
  assert (Es : sc_method sc' = sc_method sc /\ sc_scheme sc' = sc_scheme sc /\ sc_client sc' = sc_client sc /\ sc_query sc' = sc_query sc)
    by (rewrite Esc; repeat split). destruct Es as (E1&E2&E3&E4). rewrite E1, E2, E3.
  set (client := match sc_client sc with Some (h, p) => Some (h ++ lit ":" ++ p) | None => None end).
  pose proof (retyped_context now PConnect (ep_method ep) (sc_method sc) (sc_scheme sc) hs hs' client S) as X.
  destruct (server_create_context now PConnect (ep_method ep) (sc_method sc) (sc_scheme sc) hs client) as [cx|e],
    (server_create_context now PConnect (ep_method ep) (sc_method sc) (sc_scheme sc) hs' client) as [cx'|e']; try contradiction; cbn [bind];
    [|now rewrite X].
  assert (Sk : select_codec ap sc' ep hs' PConnect = select_codec ap sc ep hs PConnect).
  { unfold select_codec. rewrite E1, E4, !named_get. now rewrite (retyped_connect hs hs' _ Rt C). }
  rewrite Sk. destruct (select_codec ap sc ep hs PConnect) as [[params k]|e]; [|reflexivity].
  assert (Fb : match ep with EpUnary _ f => forall a, f a cx = f a cx' | EpClientStream _ f => f cx = f cx'
              | EpServerStream _ f => forall a, f a cx = f a cx' | EpBidi _ f => f cx = f cx' end).
  { unfold find_endpoint in Ep. destruct (dget (ap_endpoints ap) (sc_path sc)) as [e|] eqn:Ed.
    - injection Ep as ->. exact (Bl _ _ Ed cx cx' X).
    - destruct (sc_root sc) as [[|c r]|]; try discriminate. destruct (dget (ap_endpoints ap) (removeprefix (c :: r) (sc_path sc))) as [e|] eqn:Ed'; [|discriminate].
      injection Ep as ->. exact (Bl _ _ Ed' cx cx' X). }
  destruct ep as [m f|m f|m f|m f]; [|symmetry; apply blind_stream; assumption..].
  now rewrite <- (blind_unary ap en (sc_method sc) k params f cx cx' (mk_ast 0 []) hs hs' S Fb).
Qed.
Print Assumptions C83_asgi.

(** ** WSGI *)
Lemma dget_mid {V} (pre post : dict V) k v k' : k' <> k ->
  dget (pre ++ (k, v) :: post) k' = dget (pre ++ post) k'.
Proof.
  intro N. induction pre as [|[a x] pre IH]; cbn [List.app dget].
  - destruct (str_eqb_spec k k') as [->|]; [congruence|reflexivity].
  - now rewrite IH.
Qed.

Lemma dget_at {V} (pre post : dict V) k v : (forall x, ~ In (k, x) pre) -> dget (pre ++ (k, v) :: post) k = Some v.
Proof.
  induction pre as [|[a x] pre IH]; intro N; cbn [List.app dget]; [now rewrite str_eqb_refl|].
  destruct (str_eqb_spec a k) as [->|]; [exfalso; apply (N x); now left|]. apply IH. intros y H. apply (N y). now right.
Qed.

(** The headers of the two requests, [CONTENT_TYPE] apart. *)
Definition typed_alike (ct ct' : pystr) (h h' : headers) : Prop :=
  h_inv h /\ h_inv h' /\ same_but_type h h'
  /\ (h_getall h (lit "content-type") = [ct] /\ h_getall h' (lit "content-type") = [ct']
      \/ h_getall h (lit "content-type") = h_getall h' (lit "content-type")).

Lemma alike_set ct ct' h h' k v : typed_alike ct ct' h h' -> typed_alike ct ct' (h_setitem h k v) (h_setitem h' k v).
Proof.
  intros (I&I'&S&T). split; [now apply h_inv_set|]. split; [now apply h_inv_set|]. split.
  - intros n O. rewrite !getall_set by assumption. destruct (same_name n k); [reflexivity|]. exact (S n O).
  - rewrite !getall_set by assumption. destruct (same_name _ k); [now right|exact T].
Qed.

Lemma alike_fold ct ct' l : forall h h', typed_alike ct ct' h h' ->
  let add := fun h (kv : pystr * pystr) =>
     if startswith (lit "HTTP_") (fst kv) then h_setitem h (map (fun c => if c =? 95 then 45 else c) (skipn 5 (fst kv))) (snd kv) else h in
  typed_alike ct ct' (fold_left add l h) (fold_left add l h').
Proof.
  induction l as [|kv l IH]; intros h h' T; cbn [fold_left]; [exact T|]. apply IH. destruct (startswith _ _); [now apply alike_set|exact T].
Qed.

Lemma environ_get ct ct' q q' k : retyped_environ ct ct' q q' -> lit k <> lit "CONTENT_TYPE" -> env_get q' k = env_get q k.
Proof. intros (pre&post&E&->&_) N. unfold env_get. rewrite E. cbn [wq_env]. now rewrite !dget_mid. Qed.

Lemma environ_type ct ct' q q' : retyped_environ ct ct' q q' -> env_get q "CONTENT_TYPE" = Some ct /\ env_get q' "CONTENT_TYPE" = Some ct'.
Proof.
  intros (pre&post&E&->&N). unfold env_get. rewrite E. cbn [wq_env].
  split; apply dget_at; intros x H; apply (N x), in_app_iff; now left.
Qed.

Lemma environ_headers ct ct' q q' : retyped_environ ct ct' q q' -> typed_alike ct ct' (wsgi_headers q) (wsgi_headers q').
Proof.
  intro R. unfold wsgi_headers. destruct (environ_type _ _ _ _ R) as (E1&E2). rewrite E1, E2.
  rewrite (environ_get _ _ _ _ "CONTENT_LENGTH"%string R ltac:(discriminate)).
  assert (T0 : typed_alike ct ct' (h_setitem h_empty (lit "content-type") ct) (h_setitem h_empty (lit "content-type") ct')).
  { split; [apply h_inv_set, h_inv_empty|]. split; [apply h_inv_set, h_inv_empty|]. split.
    - intros n O. rewrite !getall_set by apply h_inv_empty. destruct (same_name n (lit "content-type")) eqn:Sn; [|reflexivity].
      exfalso. apply O. unfold same_name in Sn. destruct (str_eqb_spec (lower n) (lower (lit "content-type"))) as [X|]; [exact X|discriminate].
    - left. rewrite !getall_set by apply h_inv_empty. split; reflexivity. }
  assert (T1 : typed_alike ct ct' (match env_get q "CONTENT_LENGTH" with Some v => h_setitem (h_setitem h_empty (lit "content-type") ct) (lit "content-length") v
      | None => h_setitem h_empty (lit "content-type") ct end)
     (match env_get q "CONTENT_LENGTH" with Some v => h_setitem (h_setitem h_empty (lit "content-type") ct') (lit "content-length") v
      | None => h_setitem h_empty (lit "content-type") ct' end)).
  { destruct (env_get q "CONTENT_LENGTH"); [now apply alike_set|exact T0]. }
  destruct R as (pre&post&E&->&_). rewrite E. cbn [wq_env]. rewrite !fold_left_app. cbn [fold_left fst].
  change (startswith (lit "HTTP_") (lit "CONTENT_TYPE")) with false. cbn iota. apply alike_fold, alike_fold. exact T1.
Qed.

Lemma alike_retyped t ct ct' h h' : plain_type t -> ~ grpc_type t -> names_type ct t -> names_type ct' t ->
  typed_alike ct ct' h h' -> retyped h h'.
Proof.
  intros P G N N' (_&_&S&T). destruct T as [[T1 T2]|T].
  - apply named_all in T1. apply named_all in T2. apply (named_retyped t); auto; now rewrite ?T1, ?T2.
  - assert (E : named h = named h') by (unfold named; now rewrite T). unfold retyped. rewrite E. auto.
Qed.

(** A WSGI application, too. *)
Theorem C83_wsgi : forall (A B : Type) (ap : app A B) now q q' ct ct' t,
  type_blind ap -> retyped_environ ct ct' q q' -> plain_type t -> ~ grpc_type t -> names_type ct t -> names_type ct' t ->
  wsgi_call ap now q' = wsgi_call ap now q.
Proof.
  intros A B ap now q q' ct ct' t Bl R P G N N'. pose proof (environ_headers _ _ _ _ R) as T. pose proof (alike_retyped t _ _ _ _ P G N N' T) as Rt.
  assert (Eg : forall k, lit k <> lit "CONTENT_TYPE" -> env_get q' k = env_get q k) by (intros; eapply environ_get; eauto).
  assert (Ed : forall k d, lit k <> lit "CONTENT_TYPE" -> env_default q' k d = env_default q k d) by (intros k d H; unfold env_default; now rewrite Eg).
  assert (Ei : forall k, lit k <> lit "CONTENT_TYPE" -> env_item q' k = env_item q k) by (intros k H; unfold env_item; now rewrite Eg).
  destruct R as (pre&post&_&Eq&_).
  assert (Q : wq_input q' = wq_input q /\ wq_trailers q' = wq_trailers q /\ wq_drain q' = wq_drain q) by (rewrite Eq; auto). destruct Q as (Q1&Q2&Q3).
  assert (Dr : forall n, drain q' n = drain q n) by (intro n; unfold drain; now rewrite (Ed "SERVER_PROTOCOL"%string) by discriminate; rewrite Q3).
  assert (Er : forall inv ev e ctx, wsgi_call_error (A := A) q' inv ev e ctx = wsgi_call_error q inv ev e ctx) by (intros; unfold wsgi_call_error; now rewrite Dr).
  assert (Bd : wsgi_body q' = wsgi_body q) by (unfold wsgi_body; now rewrite Q1).
  assert (F : wsgi_find_endpoint ap q' = wsgi_find_endpoint ap q) by (unfold wsgi_find_endpoint; now rewrite !Ei by discriminate).
  unfold wsgi_call, wsgi_open_request. rewrite F. destruct (wsgi_find_endpoint ap q) as [ep|e] eqn:Ep; cbn [bind]; [|apply Er].
  rewrite (Ei "REQUEST_METHOD"%string) by discriminate. destruct (env_item q "REQUEST_METHOD") as [http|e]; cbn [bind]; [|apply Er].
  cbv zeta. rewrite !named_get. set (hs := wsgi_headers q) in *. set (hs' := wsgi_headers q') in *. clearbody hs hs'.
  rewrite Q2, !Eg, !Ed by discriminate.
  assert (Ep' : negotiate_server_protocol (named hs') = negotiate_server_protocol (named hs)) by (destruct Rt as (_&X&_); congruence).
  assert (Cd : forall p, p = negotiate_server_protocol (named hs) -> forall st, codec_name_from_content_type p st (named hs') = codec_name_from_content_type p st (named hs)).
  { intros p -> st. pose proof (retyped_codec hs hs' st Rt) as X. rewrite Ep' in X. congruence. }
  assert (S : same_but_type hs hs') by (destruct Rt; assumption).
  assert (Tr : uses_trailers (negotiate_server_protocol (named hs)) = true -> named hs' = named hs).
  { destruct Rt as (_&_&[[X _]|X]); [rewrite X; discriminate|congruence]. }
  rewrite Ep'. specialize (Cd _ eq_refl). set (p := negotiate_server_protocol (named hs)) in *. clearbody p.
  destruct (uses_trailers p && negb (wq_trailers q)) eqn:Ut.
  { apply andb_true_iff in Ut. destruct Ut as (U&_). rewrite (Tr U). apply Er. }
  match goal with |- context [server_create_context now p (ep_method ep) http ?s hs ?c] =>
    pose proof (retyped_context now p (ep_method ep) http s hs hs' c S) as X; set (scheme := s) in *; set (client := c) in * end.
  destruct (server_create_context now p (ep_method ep) http scheme hs client) as [cx|e] eqn:Ecx,
    (server_create_context now p (ep_method ep) http scheme hs' client) as [cx'|e']; try contradiction; cbn [bind]; [|rewrite X; apply Er].
  assert (Fb : match ep with EpUnary _ f => forall a, f a cx = f a cx' | EpClientStream _ f => f cx = f cx'
              | EpServerStream _ f => forall a, f a cx = f a cx' | EpBidi _ f => f cx = f cx' end).
  { unfold wsgi_find_endpoint in Ep. destruct (env_item q "PATH_INFO") as [path|]; cbn [bind] in Ep; [|discriminate]. cbv zeta in Ep.
    match type of Ep with context [dget (ap_endpoints ap) ?x] => destruct (dget (ap_endpoints ap) x) as [e|] eqn:E1 end.
    - injection Ep as ->. exact (Bl _ _ E1 cx cx' X).
    - destruct (env_item q "SCRIPT_NAME") as [script|]; cbn [bind] in Ep; [|discriminate]. destruct (str_eqb script (ap_path ap)); [|discriminate].
      match type of Ep with context [dget (ap_endpoints ap) ?x] => destruct (dget (ap_endpoints ap) x) as [e|] eqn:E2 end; [|discriminate].
      injection Ep as ->. exact (Bl _ _ E2 cx cx' X). }
  assert (Hx : cx_http cx' = cx_http cx) by (destruct X as (_&X&_); congruence).
  assert (Wu : forall f, p = PConnect -> (forall a, f a cx = f a cx') -> wsgi_unary ap q' (cx_http cx') f cx' hs' = wsgi_unary ap q (cx_http cx) f cx hs).
  { intros f -> Ff. unfold wsgi_unary. rewrite Hx.
    assert (Pq : wsgi_post_request ap q' hs' = wsgi_post_request ap q hs).
    { unfold wsgi_post_request. rewrite !named_get, Cd, !Eg, Ed, Q1, Bd by discriminate. reflexivity. }
    assert (Gq : wsgi_get_request ap q' = wsgi_get_request ap q) by (unfold wsgi_get_request; now rewrite Ed by discriminate).
    rewrite Pq, Gq. match goal with |- match ?x with _ => _ end = _ => destruct x as [[a k]|e] end; [|reflexivity].
    unfold h_get_default. now rewrite <- (Ff a), (but_type_item _ _ (lit "accept-encoding") S) by other. }
  assert (Ws : wsgi_stream ap q' p hs' ep cx' = wsgi_stream ap q p hs ep cx).
  { unfold wsgi_stream. rewrite (retyped_compression p hs hs' _ S). destruct (negotiate_stream_compression p hs' (ap_comps ap)) as [req z].
    rewrite !named_get, Cd. destruct (dget (ap_codecs ap) _) as [k|]; [|reflexivity].
    assert (We : forall inv rs ev e, wsgi_stream_error ap q' p (k_name k) z inv rs ev e = wsgi_stream_error ap q p (k_name k) z inv rs ev e)
      by (intros; unfold wsgi_stream_error; now rewrite Dr).
    assert (Wr : forall inv rs ev i, response_stream_end ap q' p z inv rs ev i = response_stream_end ap q p z inv rs ev i)
      by (intros; unfold response_stream_end; now rewrite Dr).
    cbv zeta. rewrite We. destruct req as [rz|]; [|reflexivity].
    assert (Rs : wsgi_request_stream ap k rz q' = wsgi_request_stream ap k rz q) by (unfold wsgi_request_stream; now rewrite Bd). rewrite Rs.
    assert (Wn : wsgi_run p ep k z (wsgi_request_stream ap k rz q) cx' = wsgi_run p ep k z (wsgi_request_stream ap k rz q) cx).
    { unfold wsgi_run. destruct ep as [m f|m f|m f|m f]; [destruct (consume_single_request _); [|reflexivity]| |destruct (consume_single_request _); [|reflexivity]|]; now rewrite Fb. }
    rewrite Wn. destruct (wsgi_run p ep k z (wsgi_request_stream ap k rz q) cx) as [inv [[s rs] e]]. rewrite Wr.
    destruct (ws_started s); [reflexivity|]. destruct (loop_interrupt e) as [[x|]|]; rewrite ?We; try reflexivity.
    destruct (end_response _ _ _ _ _); rewrite ?We; reflexivity. }
  assert (Eo : (match ep, p with EpUnary _ f, PConnect => inl (wsgi_unary ap q' (cx_http cx') f cx' hs') | _, _ => wsgi_stream ap q' p hs' ep cx' end)
             = (match ep, p with EpUnary _ f, PConnect => inl (wsgi_unary ap q (cx_http cx) f cx hs) | _, _ => wsgi_stream ap q p hs ep cx end)).
  { destruct ep as [m f|m f|m f|m f]; try exact Ws. destruct p eqn:Ep0; try exact Ws. now rewrite (Wu f eq_refl Fb). }
  rewrite Eo. clear Eo. match goal with |- match ?x with _ => _ end = _ => destruct x as [[[[inv rs] ev] [[e|]|]]|r] end; try reflexivity. apply Er.
Qed.
Print Assumptions C83_wsgi.

(** ** Clients *)
Lemma retyped_first ct ct' r r' : retyped_response ct ct' r r' ->
  hh_get (fr_headers r) (lit "content-type") = Some ct /\ hh_get (fr_headers r') (lit "content-type") = Some ct'
  /\ forall n, other_type n -> hh_get (fr_headers r) n = hh_get (fr_headers r') n.
Proof.
  intros (pre&name&post&->&L&->&_&_&Q). unfold hh_get.
  assert (F : forall v, find (fun p => str_eqb (lower (fst p)) (lower (lit "content-type"))) (pre ++ (name, v) :: post) = Some (name, v)).
  { intro v. induction pre as [|[a x] pre IH]; cbn [List.app find fst].
    - rewrite L. reflexivity.
    - destruct (str_eqb_spec (lower a) (lower (lit "content-type"))) as [E|]; [exfalso; apply (Q a x (or_introl eq_refl)); exact E|].
      apply IH. intros k y H. apply (Q k y). now right. }
  rewrite !F. split; [reflexivity|]. split; [reflexivity|]. intros n O. clear F Q. induction pre as [|[a x] pre IH]; cbn [List.app find fst].
  - destruct (str_eqb_spec (lower name) (lower n)) as [E|]; [|reflexivity]. exfalso. apply O. congruence.
  - destruct (str_eqb (lower a) (lower n)); [reflexivity|exact IH].
Qed.

(** A Connect client takes a unary response alike however its content type is written. *)
Theorem C83_client : forall (A B : Type) (c : client A B) ck net net' md m u timeout get a stop r r' ct ct' t,
  cl_proto c = PConnect -> (forall rq, nw_unary net rq = UResp r) -> (forall rq, nw_unary net' rq = UResp r') ->
  retyped_response ct ct' r r' -> plain_type t -> names_type ct t -> names_type ct' t ->
  let o := execute_unary c ck net md m u timeout get a stop in
  let o' := execute_unary c ck net' md m u timeout get a stop in
  cr_sent o' = cr_sent o /\ cr_out o' = cr_out o.
Proof.
  intros A B c ck net net' md m u timeout get a stop r r' ct ct' t Hp Hn Hn' R P N N'. cbv zeta.
  unfold execute_unary, send_unary. rewrite Hp. unfold send_unary_connect. destruct (unary_request _ _ _ _) as [rq|e]; [|auto].
  rewrite Hn, Hn'. destruct (retyped_first _ _ _ _ R) as (E1&E2&E3). destruct R as (_&_&_&_&_&_&Es&Ec&_).
  assert (X : fst (unary_response c r' md) = fst (unary_response c r md)).
  { unfold unary_response. rewrite E1, E2, Hp, Es, Ec. unfold validate_response, handle_response_compression.
    apply (names_normal _ _ P) in N. apply (names_normal _ _ P) in N'. rewrite N, N', <- (E3 (client_compression_header PConnect false)) by other.
    match goal with |- fst (match ?x with _ => _ end) = _ => destruct x as [e|] end; [reflexivity|].
    match goal with |- fst (match ?x with _ => _ end) = _ => destruct x as [z|e] end; reflexivity. }
  destruct (unary_response c r md) as [v d], (unary_response c r' md) as [v' d']. cbn [fst] in X. subst v'. auto.
Qed.
Print Assumptions C83_client.

Lemma space_lower c : is_space (lower_c c) = is_space c.
Proof. unfold is_space, lower_c. destruct ((65 <=? c) && (c <=? 90)) eqn:E; [|reflexivity]. lia. Qed.

Lemma drop_lower s : drop_while is_space (lower s) = lower (drop_while is_space s).
Proof. unfold lower. induction s as [|c s IH]; cbn; [reflexivity|]. rewrite space_lower. destruct (is_space c); [exact IH|reflexivity]. Qed.

Lemma strip_lower s : strip (lower s) = lower (strip s).
Proof.
  assert (R : forall l, rev (lower l) = lower (rev l)) by (intro l; unfold lower; now rewrite map_rev).
  unfold strip, rstrip_by. now rewrite drop_lower, R, drop_lower, R.
Qed.

Lemma drop_idem (f : N -> bool) s : drop_while f (drop_while f s) = drop_while f s.
Proof. induction s as [|c s IH]; cbn; [reflexivity|]. destruct (f c) eqn:E; [exact IH|]. cbn. now rewrite E. Qed.

Lemma drop_head (f : N -> bool) s : match drop_while f s with c :: _ => f c = false | [] => True end.
Proof. induction s as [|c s IH]; cbn; [exact I|]. destruct (f c) eqn:E; [exact IH|exact E]. Qed.

Lemma drop_last (f : N -> bool) s x : drop_while f (rev s) <> [] -> hd_error s = Some x -> hd_error (rev (drop_while f (rev s))) = Some x.
Proof.
  intros H. destruct s as [|y s]; [discriminate|]. cbn [hd_error]. intros [= ->]. cbn [rev] in *.
  assert (G : forall l, drop_while f (l ++ [x]) = [] \/ exists l', drop_while f (l ++ [x]) = l' ++ [x]).
  { induction l as [|c l IH]; cbn.
    - destruct (f x); [now left|]. right. exists []. reflexivity.
    - destruct (f c); [exact IH|]. right. now exists (c :: l). }
  destruct (G (rev s)) as [E|(l'&E)]; [congruence|]. rewrite E, rev_app_distr. reflexivity.
Qed.

Lemma strip_idem s : strip (strip s) = strip s.
Proof.
  unfold strip, rstrip_by. set (l := drop_while is_space s). pose proof (drop_head is_space s) as H. fold l in H.
  assert (E : drop_while is_space (rev (drop_while is_space (rev l))) = rev (drop_while is_space (rev l))).
  { destruct (drop_while is_space (rev l)) as [|c t] eqn:D; [reflexivity|].
    destruct l as [|x l]; [cbn in D; discriminate|].
    pose proof (drop_last is_space (x :: l) x ltac:(rewrite D; discriminate) eq_refl) as L. rewrite D in L.
    destruct (rev (c :: t)) as [|y r]; [discriminate|]. injection L as ->. cbn. now rewrite H. }
  rewrite E, rev_involutive, drop_idem. reflexivity.
Qed.

Lemma before_no sep s : ~ In sep (before sep s).
Proof. induction s as [|c s IH]; cbn; [tauto|]. destruct (N.eqb_spec c sep) as [E|E]; cbn; [tauto|]. intros [F|F]; [congruence|tauto]. Qed.

Lemma strip_in c s : In c (strip s) -> In c s.
Proof.
  assert (D : forall l, In c (drop_while is_space l) -> In c l).
  { induction l as [|x l IH]; cbn; [tauto|]. destruct (is_space x); [|tauto]. intro H. right. auto. }
  unfold strip, rstrip_by. rewrite <- in_rev. intro H. apply D in H. rewrite <- in_rev in H. now apply D.
Qed.

Lemma normal_idem ct : normalize_content_type (normalize_content_type ct) = normalize_content_type ct.
Proof.
  unfold normalize_content_type at 1. rewrite before_none.
  - unfold normalize_content_type. rewrite strip_lower, strip_idem, lower_idem. reflexivity.
  - unfold normalize_content_type. intro H. unfold lower in H. apply in_map_iff in H. destruct H as (c&E&H). apply strip_in in H.
    assert (c = 59) as -> by (unfold lower_c in E; destruct ((65 <=? c) && (c <=? 90)) eqn:X; lia). exact (before_no _ _ H).
Qed.

(** A message is accepted only if the response says that it is in the client's codec. *)
Theorem C83_client_only : forall (A B : Type) (c : client A B) ck net md m u timeout get a stop r b,
  cl_proto c = PConnect -> codec_name_ok (k_name (cl_codec c)) -> (forall rq, nw_unary net rq = UResp r) ->
  cr_out (execute_unary c ck net md m u timeout get a stop) = COk b ->
  names_type (content_type_of (fr_headers r)) (lit "application/" ++ k_name (cl_codec c)).
Proof.
  intros A B c ck net md m u timeout get a stop r b Hp Nk Hn H.
  destruct (N.eq_dec (fr_status r) 200) as [S|S].
  2:{ destruct (C15_unary A B c ck net md m u timeout get a stop r Hp Hn S) as (k&msg&ds&E&_). congruence. }
  assert (P : plain_type (lit "application/" ++ k_name (cl_codec c))) by (apply plain_app; [apply plain_lit; reflexivity|exact Nk]).
  unfold execute_unary, send_unary in H. rewrite Hp in H. unfold send_unary_connect in H. destruct (unary_request _ _ _ _) as [rq|e].
  2:{ cbn [cr_out unary_except] in H. destruct e as [k x y| |k x]; try discriminate H; destruct k; discriminate H. }
  rewrite Hn in H. unfold unary_response in H. rewrite content_type_get, Hp, S in H. unfold validate_response in H.
  apply (names_normal _ _ P). set (ct := content_type_of (fr_headers r)) in *. change (200 =? 200) with true in H. cbn [negb] in H.
  destruct (startswith connect_unary_prefix (normalize_content_type ct)) eqn:Sw; cbn [negb] in H; [|discriminate H].
  cbn [codec_name_from_content_type] in H. rewrite normal_idem, Sw in H. apply startswith_spec in Sw. destruct Sw as (n&Sw). rewrite Sw in *.
  rewrite skipn_app_exact in H. destruct (str_eqb_spec n (k_name (cl_codec c))) as [->|]; [reflexivity|discriminate H].
Qed.
Print Assumptions C83_client_only.

(** ** Unknown types *)
Lemma no_codec {A B} (ap : app A B) stream ct : names_no_codec ap stream ct -> dget (ap_codecs ap) (codec_name_from_content_type PConnect stream ct) = None.
Proof.
  intro H. apply dget_None_notin. intro I. destruct (H _ I) as (Ok&N1&N2). clear H I.
  remember (codec_name_from_content_type PConnect stream ct) as n eqn:E. cbn [codec_name_from_content_type] in E. cbv zeta in E.
  destruct (startswith _ _) eqn:S in E.
  - apply N2. apply names_normal.
    + apply plain_app; [destruct stream; apply plain_lit; reflexivity|exact Ok].
    + apply startswith_spec in S. destruct S as (r&S). rewrite S in E |- *. rewrite skipn_app_exact in E. subst r. now destruct stream.
  - apply N1. apply names_normal; [|congruence]. apply (plain_app []); [constructor|exact Ok].
Qed.

(** A request that is not a GET, whose content type names no codec of the application, is answered with HTTP 415 and runs nothing. *)
Theorem C83_asgi_unknown : forall (A B : Type) (ap : app A B) now sc en ep hs p cx,
  open_request ap now sc = Ok (ep, hs, p, cx) -> sends_ok (en_send en) -> sc_method sc <> lit "GET" ->
  ~ grpc_type (named hs) -> names_no_codec ap (negb (is_unary ep)) (named hs) ->
  let r := asgi_call ap now sc en in ar_inv r = [] /\ asgi_status (ar_events r) = Some 415 /\ ar_out r = AReturn.
Proof.
  intros A B ap now sc en ep hs p cx O So M G N. cbv zeta.
  assert (Hp : p = PConnect).
  { unfold open_request in O. destruct (find_endpoint ap sc); cbn [bind] in O; [|discriminate]. destruct (process_headers _ _) as [h|]; cbn [bind] in O; [|discriminate].
    cbv zeta in O. destruct (_ && _); [discriminate|]. destruct (server_create_context _ _ _ _ _ _ _); cbn [bind] in O; [|discriminate].
    injection O as _ -> <- _. rewrite named_get. destruct (negotiate_server_protocol (named hs)) eqn:E; auto; exfalso; apply G, negotiated_type; congruence. }
  subst p. unfold asgi_call. rewrite O. unfold select_codec. destruct (str_eqb_spec (sc_method sc) (lit "GET")); [contradiction|]. cbn [bind fst snd].
  rewrite named_get, (no_codec _ _ _ N). unfold unsupported_media.
  rewrite (call_error_http (A := A) en [] 415 [(lit "Accept-Post", accept_post)] [(lit "Accept-Post", accept_post)] (Some rs_new) So eq_refl (or_intror eq_refl)).
  repeat split.
Qed.
Print Assumptions C83_asgi_unknown.

Theorem C83_wsgi_unknown : forall (A B : Type) (ap : app A B) now q ep hs p cx,
  wsgi_open_request ap now q = Ok (ep, hs, p, cx) -> drain q 1 = None -> cx_http cx <> lit "GET" ->
  ~ grpc_type (named hs) -> names_no_codec ap (negb (is_unary ep)) (named hs) ->
  let r := wsgi_call ap now q in wr_inv r = [] /\ wsgi_status (wr_events r) = Some (lit "415 Unsupported Media Type") /\ wr_out r = WReturn.
Proof.
  intros A B ap now q ep hs p cx O Dr M G N. cbv zeta.
  assert (Hp : p = PConnect).
  { unfold wsgi_open_request in O. destruct (wsgi_find_endpoint ap q); cbn [bind] in O; [|discriminate]. destruct (env_item _ _) as [h|]; cbn [bind] in O; [|discriminate].
    cbv zeta in O. destruct (_ && _); [discriminate|]. destruct (server_create_context _ _ _ _ _ _ _); cbn [bind] in O; [|discriminate].
    injection O as _ <- <- _. rewrite named_get. destruct (negotiate_server_protocol (named (wsgi_headers q))) eqn:E; auto; exfalso; apply G, negotiated_type; congruence. }
  subst p. unfold wsgi_call. rewrite O. pose proof (no_codec _ _ _ N) as K.
  assert (W : forall x, wsgi_call_error (A := A) q [] [] (unsupported_media x) (Some rs_new) = mk_wr [] [WStart (lit "415 Unsupported Media Type") [(lit "Accept-Post", x)]] WReturn).
  { intro x. unfold wsgi_call_error. rewrite Dr. reflexivity. }
  assert (S : is_unary ep = false -> wsgi_stream ap q PConnect hs ep cx = inl ([], rs_new, [], Some (IExn (unsupported_media wsgi_accept_stream)))).
  { intro U. rewrite U in K. cbn [negb] in K. unfold wsgi_stream. destruct (negotiate_stream_compression _ _ _). now rewrite named_get, K. }
  destruct ep as [m f|m f|m f|m f]; try (rewrite S by reflexivity; rewrite W; repeat split).
  unfold wsgi_unary. destruct (str_eqb_spec (cx_http cx) (lit "GET")); [contradiction|]. unfold wsgi_post_request. cbn [is_unary negb] in K. rewrite named_get, K, W. repeat split.
Qed.
Print Assumptions C83_wsgi_unknown.

Definition wordy : pystr := lit " Application/PROTO ; charset=utf-8".

Lemma wordy_names : names_type wordy (lit "application/proto").
Proof. apply names_normal; [apply plain_lit; reflexivity|reflexivity]. Qed.

Example C83_example :
  type_blind (ex_app ex_echo)
  /\ retyped_scope (lit "application/proto") wordy (ex_scope "POST" "application/proto") (ex_scope "POST" " Application/PROTO ; charset=utf-8")
  /\ retyped_environ (lit "application/proto") wordy (ex_wq "POST" "application/proto") (ex_wq "POST" " Application/PROTO ; charset=utf-8")
  /\ names_type (lit "application/proto") (lit "application/proto") /\ ~ grpc_type (lit "application/proto")
  /\ asgi_status (ar_events (asgi_call (ex_app ex_echo) 0%Z (ex_scope "POST" " Application/PROTO ; charset=utf-8") ex_env)) = Some 200
  /\ wsgi_status (wr_events (wsgi_call (ex_app ex_echo) 0%Z (ex_wq "POST" " Application/PROTO ; charset=utf-8"))) = Some (lit "200 OK")
  /\ (exists ep hs cx, open_request (ex_app ex_echo) 0%Z (ex_scope "POST" "text/plain") = Ok (ep, hs, PConnect, cx)
        /\ names_no_codec (ex_app ex_echo) (negb (is_unary ep)) (named hs))
  /\ (exists ep hs cx, wsgi_open_request (ex_app ex_echo) 0%Z (ex_wq "POST" "text/plain") = Ok (ep, hs, PConnect, cx)
        /\ names_no_codec (ex_app ex_echo) (negb (is_unary ep)) (named hs)).
Proof.
  split. { intros key ep E cx cx' _. unfold ex_app, app_new in E. cbn [ap_endpoints dget] in E. destruct (str_eqb _ key); [|discriminate]. injection E as <-. intro a. reflexivity. }
  split. { exists [], []. repeat split. intros n v name []. }
  split. { exists [(lit "PATH_INFO", lit "/pkg.Svc/Get"); (lit "SCRIPT_NAME", []); (lit "REQUEST_METHOD", lit "POST")], [(lit "SERVER_PROTOCOL", lit "HTTP/1.1")].
    split; [reflexivity|]. split; [reflexivity|]. intros v H. cbn [List.app In] in H. repeat destruct H as [H|H]; try discriminate H; exact H. }
  split. { apply names_normal; [apply plain_lit; reflexivity|reflexivity]. }
  split. { rewrite negotiated_type. intro H. apply H. reflexivity. }
  split; [vm_compute; reflexivity|]. split; [vm_compute; reflexivity|].
  assert (X : forall ct, normalize_content_type ct = lit "text/plain" -> names_no_codec (ex_app ex_echo) false ct).
  { intros ct E n H. change (dkeys (ap_codecs (ex_app ex_echo))) with [lit "proto"] in H. destruct H as [<-|[]]. split; [reflexivity|].
    split; intro N; apply names_normal in N; try (apply plain_lit; reflexivity); rewrite E in N; discriminate N. }
  split; (do 3 eexists; split; [vm_compute; reflexivity|]; apply X; reflexivity).
Qed.

(** Clients: a response of the other form. *)
Example C83_client_example :
  let answer ct := mk_fr 200 [(lit "x", lit "1"); (lit "Content-Type", ct)] [7] in
  let call ct := execute_unary (ex_client PConnect None) ex_clocks (mk_net (fun _ => UResp (answer ct)) (nw_stream ex_net)) None ex_method UNone None false [1] None in
  retyped_response (lit "application/proto") wordy (answer (lit "application/proto")) (answer wordy)
  /\ cr_out (call wordy) = COk [7] /\ cr_out (call (lit "application/proto")) = COk [7]
  /\ exists m, cr_out (call (lit "application/json")) = CErr (EConnect Internal m []).
Proof.
  cbv zeta. split. { exists [(lit "x", lit "1")], (lit "Content-Type"), []. repeat split. intros n v [H|[]]. injection H as <- _. discriminate. }
  split; [vm_compute; reflexivity|]. split; [vm_compute; reflexivity|]. eexists. vm_compute. reflexivity.
Qed.

(** Finding: the gRPC types must be written exactly; in any other form the request is taken for one of the Connect protocol, and refused. *)
Theorem C83_grpc_refuted : exists (ap : app pystr pystr) now sc sc' en b b' t,
  type_blind ap /\ retyped_scope b b' sc sc' /\ plain_type t /\ names_type b t /\ names_type b' t
  /\ ar_inv (asgi_call ap now sc en) <> []
  /\ ar_inv (asgi_call ap now sc' en) = [] /\ asgi_status (ar_events (asgi_call ap now sc' en)) = Some 415.
Proof.
  exists (ex_app ex_echo), 0%Z, (ex_scope "POST" "application/grpc+proto"), (ex_scope "POST" "application/grpc+proto;charset=utf-8"),
    (mk_env [RReq [0; 0; 0; 0; 1; 9] false] None WIdle (fun _ => SOk)), (lit "application/grpc+proto"), (lit "application/grpc+proto;charset=utf-8"),
    (lit "application/grpc+proto").
  split; [apply C83_example|]. split. { exists [], []. repeat split. intros n v name []. }
  assert (P : plain_type (lit "application/grpc+proto")) by (apply plain_lit; reflexivity). split; [exact P|].
  split; [apply names_normal; [exact P|reflexivity]|]. split; [apply names_normal; [exact P|reflexivity]|].
  split; [vm_compute; discriminate|]. split; vm_compute; reflexivity.
Qed.
Print Assumptions C83_grpc_refuted.

(** Finding: the bare name of a codec, which is no media type, is taken for one. *)
Theorem C83_bare_name_refuted : exists (ap : app pystr pystr) now sc en b q,
  sc_headers sc = [(lit "content-type", b)] /\ (forall n, ~ names_type b (lit "application/" ++ n)) /\ env_get q "CONTENT_TYPE" = Some b
  /\ ar_inv (asgi_call ap now sc en) <> [] /\ asgi_status (ar_events (asgi_call ap now sc en)) = Some 200
  /\ wr_inv (wsgi_call ap now q) <> [] /\ wsgi_status (wr_events (wsgi_call ap now q)) = Some (lit "200 OK").
Proof.
  exists (ex_app ex_echo), 0%Z, (ex_scope "POST" "proto"), ex_env, (lit "proto"), (ex_wq "POST" "proto"). split; [reflexivity|]. split.
  { intros n (w&core&w'&rest&E&Hw&Hc&_). 
    assert (L : List.length core = List.length (lit "application/" ++ n)) by (clear -Hc; induction Hc; cbn; congruence). apply (f_equal (@List.length N)) in E. rewrite !app_length, L in E. rewrite app_length in E. cbn in E. lia. }
  split; [reflexivity|]. split; [vm_compute; discriminate|]. split; [vm_compute; reflexivity|]. split; [vm_compute; discriminate|]. vm_compute; reflexivity.
Qed.
Print Assumptions C83_bare_name_refuted.

(** Finding: a client refuses a stream whose content type has parameters, although it accepts them in a unary response. *)
Theorem C83_stream_client_refuted : exists ct ct' t body,
  let call ct := ex_call PConnect (mk_sp 200 [(lit "content-type", ct)] [body] None [] (fun _ => None)) in
  plain_type t /\ names_type ct t /\ names_type ct' t
  /\ sr_msgs (call ct) = [[7]] /\ sr_end (call ct) = COk tt
  /\ sr_msgs (call ct') = [] /\ exists m, sr_end (call ct') = CErr (EConnect Internal m []).
Proof.
  exists (lit "application/connect+proto"), (lit "application/connect+proto; charset=utf-8"), (lit "application/connect+proto"),
    (ex_frame 0 [7] ++ ex_frame 2 (lit "{}")). cbv zeta.
  assert (P : plain_type (lit "application/connect+proto")) by (apply plain_lit; reflexivity). split; [exact P|].
  split; [apply names_normal; [exact P|reflexivity]|]. split; [apply names_normal; [exact P|reflexivity]|].
  split; [vm_compute; reflexivity|]. split; [vm_compute; reflexivity|]. split; [vm_compute; reflexivity|]. eexists. vm_compute. reflexivity.
Qed.
Print Assumptions C83_stream_client_refuted.
