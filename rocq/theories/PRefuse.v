(** C92: requests that are refused before a method is looked at are told why, in the same way by both applications. *)
From Coq Require Import List NArith ZArith Bool String Lia ZifyBool ZifyNat.
From Verif Require Import MBase MPyStr MHeaders LBase MJson MWire MEnvelope MTimeout MProtocol SProtocol MClient MServer MAsgi MWsgi SServer SParity SLine SRefuse
  LPyStr LServer LStream LWsgi LRequest PProtocol PResponse PRequest.
Import ListNotations.
Local Open Scope N_scope.

Definition refusal_exn (r : refusal) : exn :=
  match r with NoSuchPath => EHttp 404 [] | NotAllowed a => EHttp 405 [(lit "allow", a)] | Invalid m => EConnect InvalidArgument m [] end.

Lemma refused_context now p m http scheme hs client r : refused (mi_idem m) http hs p r ->
  server_create_context now p m http scheme hs client = Raise (refusal_exn r).
Proof.
  intro H. unfold server_create_context. destruct H as [H|v H -> Hv Hn|t H -> Hv Ht L|t H -> Hv Ht Hn L Hi].
  - now rewrite (check_method_refused _ _ _ H).
  - rewrite (proj2 (check_method_permitted _ _ _)) by exact H. cbv zeta. unfold h_get_default. change (h_getitem hs) with (h_get hs). rewrite Hv.
    destruct (str_eqb_spec v (lit "1")); [congruence|]. reflexivity.
  - rewrite (proj2 (check_method_permitted _ _ _)) by exact H. cbv zeta. unfold h_get_default. change (h_getitem hs) with (h_get hs).
    replace (str_eqb _ (lit "1")) with true.
    2:{ destruct (h_get hs (lit "connect-protocol-version")) as [v|]; [|reflexivity]. now rewrite (Hv v eq_refl). }
    rewrite Ht. unfold connect_server_timeout. destruct t as [|c t]; [cbn in L; lia|].
    replace (10 <? N.of_nat (List.length (c :: t))) with true by (symmetry; apply N.ltb_lt; lia). reflexivity.
  - rewrite (proj2 (check_method_permitted _ _ _)) by exact H. cbv zeta. unfold h_get_default. change (h_getitem hs) with (h_get hs).
    replace (str_eqb _ (lit "1")) with true.
    2:{ destruct (h_get hs (lit "connect-protocol-version")) as [v|]; [|reflexivity]. now rewrite (Hv v eq_refl). }
    rewrite Ht. unfold connect_server_timeout. destruct t as [|c t]; [congruence|].
    replace (10 <? N.of_nat (List.length (c :: t))) with false by (symmetry; apply N.ltb_ge; lia). rewrite Hi. reflexivity.
Qed.

Lemma refusal_asgi {A} en r : (forall a, r = NotAllowed a -> exists p level, a = allow_header p level) -> sends_ok (en_send en) ->
  refused_asgi r (call_error (A := A) en [] (mk_ast 0 []) (refusal_exn r) None).
Proof.
  intros Ha So. destruct r as [|a|m]; cbn [refused_asgi refusal_exn].
  - apply call_error_http; auto.
  - destruct (Ha a eq_refl) as (p&level&->). apply call_error_http; auto. unfold allow_header, permitted. destruct p, level; reflexivity.
  - unfold call_error, handle_error. destruct (we_json_always InvalidArgument m) as [b Eb]. exists b. split; [exact Eb|].
    cbn [we_from_exception]. rewrite Eb. cbn [bind]. rewrite (io_bind_ok _ _ _ _ _ (io_res_ok _ _ _ eq_refl)). cbn beta iota.
    rewrite (io_bind_ok _ _ _ _ _ (eq_refl : io_ret [] (mk_ast 0 []) = (mk_ast 0 [], inl []))).
    rewrite (io_bind_ok _ _ _ _ _ (sends_ok_send _ _ _ So)). rewrite (sends_ok_send _ _ _ So). reflexivity.
Qed.
Lemma refusal_wsgi {A} q r : drain q 1 = None -> refused_wsgi r (wsgi_call_error (A := A) q [] [] (refusal_exn r) None).
Proof.
  intro Hd. unfold wsgi_call_error, wsgi_handle_error. rewrite Hd. destruct r as [|a|m]; cbn [refused_wsgi refusal_exn].
  - reflexivity.
  - reflexivity.
  - destruct (we_json_always InvalidArgument m) as [b Eb]. exists b. split; [exact Eb|].
    cbn [we_from_exception]. cbv zeta. rewrite Eb. reflexivity.
Qed.
Lemma refused_allow level http hs p r : refused level http hs p r -> forall a, r = NotAllowed a -> exists p level, a = allow_header p level.
Proof. intros H a E. destruct H; try discriminate. injection E as <-. eauto. Qed.

(** A path at which nothing is registered, neither as it is nor below the mount point: 404 and nothing else. *)
Theorem C92_asgi_path {A B} (ap : app A B) now sc en root :
  dget (ap_endpoints ap) (sc_path sc) = None -> sc_root sc = Some root ->
  (forall rest, sc_path sc = root ++ rest -> dget (ap_endpoints ap) rest = None) -> sends_ok (en_send en) ->
  refused_asgi NoSuchPath (asgi_call ap now sc en).
Proof.
  intros Hp Hr Hm So. unfold asgi_call.
  assert (O : open_request ap now sc = Raise (refusal_exn NoSuchPath)).
  { unfold open_request, find_endpoint. rewrite Hp, Hr. destruct root as [|c root]; [reflexivity|].
    assert (N : dget (ap_endpoints ap) (removeprefix (c :: root) (sc_path sc)) = None).
    { unfold removeprefix. destruct (startswith (c :: root) (sc_path sc)) eqn:E; [|exact Hp]. apply Hm.
      apply startswith_spec in E as [t ->]. f_equal. symmetry. exact (skipn_app_exact (c :: root) t). }
    rewrite N. reflexivity. }
  rewrite O. apply refusal_asgi; [discriminate|exact So].
Qed.
Print Assumptions C92_asgi_path.

Theorem C92_wsgi_path {A B} (ap : app A B) now q path script :
  env_get q "PATH_INFO" = Some path -> env_get q "SCRIPT_NAME" = Some script ->
  let path := match path with [] => lit "/" | _ => path end in
  dget (ap_endpoints ap) path = None -> (script = ap_path ap -> dget (ap_endpoints ap) (script ++ path) = None) -> drain q 1 = None ->
  refused_wsgi NoSuchPath (wsgi_call ap now q).
Proof.
  intros Hp Hs path' Hd Hm Hr. unfold wsgi_call.
  assert (O : wsgi_open_request ap now q = Raise (refusal_exn NoSuchPath)).
  { unfold wsgi_open_request, wsgi_find_endpoint, env_item. rewrite Hp. cbn [bind]. fold path'. cbv zeta. rewrite Hd, Hs. cbn [bind].
    destruct (str_eqb_spec script (ap_path ap)) as [E|E]; [|reflexivity]. rewrite <- E, (Hm E). reflexivity. }
  rewrite O. now apply refusal_wsgi.
Qed.
Print Assumptions C92_wsgi_path.

(** A request to a registered path with a wrong HTTP method, version of the Connect protocol or timeout. *)
Theorem C92_asgi {A B} (ap : app A B) now sc en ep hs r :
  find_endpoint ap sc = Ok ep -> process_headers h_empty (sc_headers sc) = Ok hs ->
  let p := negotiate_server_protocol (h_get_default hs (lit "content-type") []) in
  (p = PGrpc -> sc_trailers sc = true) -> sends_ok (en_send en) ->
  refused (mi_idem (ep_method ep)) (sc_method sc) hs p r -> refused_asgi r (asgi_call ap now sc en).
Proof.
  intros Hf Hh p Ht So H. unfold asgi_call.
  assert (O : open_request ap now sc = Raise (refusal_exn r)).
  { unfold open_request. rewrite Hf. cbn [bind]. rewrite Hh. cbn [bind]. cbv zeta. fold p.
    assert (T : uses_trailers p && negb (sc_trailers sc) = false) by (destruct p; auto; rewrite Ht by reflexivity; reflexivity).
    rewrite T, (refused_context _ _ _ _ _ _ _ _ H). reflexivity. }
  rewrite O. apply refusal_asgi; [exact (refused_allow _ _ _ _ _ H)|exact So].
Qed.
Print Assumptions C92_asgi.

Theorem C92_wsgi {A B} (ap : app A B) now q ep http r :
  wsgi_find_endpoint ap q = Ok ep -> env_get q "REQUEST_METHOD" = Some http ->
  let p := negotiate_server_protocol (h_get_default (wsgi_headers q) (lit "content-type") []) in
  (p = PGrpc -> wq_trailers q = true) -> drain q 1 = None ->
  refused (mi_idem (ep_method ep)) http (wsgi_headers q) p r -> refused_wsgi r (wsgi_call ap now q).
Proof.
  intros Hf Hh p Ht Hd H. unfold wsgi_call.
  assert (O : wsgi_open_request ap now q = Raise (refusal_exn r)).
  { unfold wsgi_open_request, env_item. rewrite Hf. cbn [bind]. rewrite Hh. cbn [bind]. cbv zeta. fold p.
    assert (T : uses_trailers p && negb (wq_trailers q) = false) by (destruct p; auto; rewrite Ht by reflexivity; reflexivity).
    rewrite T, (refused_context _ _ _ _ _ _ _ _ H). reflexivity. }
  rewrite O. now apply refusal_wsgi.
Qed.
Print Assumptions C92_wsgi.

(** Nothing else in the head of a Connect request is refused at this stage: without any of these faults there is a request context,
    and the request goes on to its codec. *)
Lemma unrefused_context now m http scheme hs client : (forall r, ~ refused (mi_idem m) http hs PConnect r) ->
  exists cx, server_create_context now PConnect m http scheme hs client = Ok cx.
Proof.
  intro H. unfold server_create_context.
  destruct (check_http_method PConnect (mi_idem m) http) as [x|] eqn:E.
  { exfalso. apply (H (NotAllowed (allow_header PConnect (mi_idem m)))). constructor. intro K. apply check_method_permitted in K. congruence. }
  apply check_method_permitted in E. cbv zeta. unfold h_get_default. change (h_getitem hs) with (h_get hs).
  assert (V : forall v, h_get hs (lit "connect-protocol-version") = Some v -> v = lit "1").
  { intros v Hv. destruct (str_eqb_spec v (lit "1")) as [|N]; [assumption|]. exfalso. eapply H. eapply RefVersion; eauto. }
  replace (str_eqb _ (lit "1")) with true.
  2:{ destruct (h_get hs (lit "connect-protocol-version")) as [v|]; [|reflexivity]. now rewrite (V v eq_refl). }
  unfold connect_server_timeout. destruct (h_get hs (lit "connect-timeout-ms")) as [[|c t]|] eqn:T; cbn [bind]; try (eexists; reflexivity).
  destruct (10 <? N.of_nat (List.length (c :: t))) eqn:L.
  { exfalso. eapply H. eapply RefLong; eauto. apply N.ltb_lt in L. lia. }
  destruct (int_of_str (c :: t)) eqn:I; cbn [bind]; [eexists; reflexivity|].
  exfalso. eapply H. eapply RefNumber; eauto; [discriminate|]. apply N.ltb_ge in L. lia.
Qed.

Theorem C92_accepted {A B} (ap : app A B) now sc q ep hs http :
  (find_endpoint ap sc = Ok ep -> process_headers h_empty (sc_headers sc) = Ok hs ->
   negotiate_server_protocol (h_get_default hs (lit "content-type") []) = PConnect ->
   (forall r, ~ refused (mi_idem (ep_method ep)) (sc_method sc) hs PConnect r) ->
   exists cx, open_request ap now sc = Ok (ep, hs, PConnect, cx))
  /\ (wsgi_find_endpoint ap q = Ok ep -> env_get q "REQUEST_METHOD" = Some http -> wsgi_headers q = hs ->
   negotiate_server_protocol (h_get_default hs (lit "content-type") []) = PConnect ->
   (forall r, ~ refused (mi_idem (ep_method ep)) http hs PConnect r) ->
   exists cx, wsgi_open_request ap now q = Ok (ep, hs, PConnect, cx)).
Proof.
  split.
  - intros Hf Hh Hp H. unfold open_request. rewrite Hf. cbn [bind]. rewrite Hh. cbn [bind]. cbv zeta. rewrite Hp. cbn [uses_trailers andb].
    match goal with |- context [server_create_context now PConnect ?m ?h ?s ?hh ?c] => destruct (unrefused_context now m h s hh c H) as [cx ->] end.
    exists cx. reflexivity.
  - intros Hf Hm <- Hp H. unfold wsgi_open_request, env_item. rewrite Hf. cbn [bind]. rewrite Hm. cbn [bind]. cbv zeta. rewrite Hp. cbn [uses_trailers andb].
    match goal with |- context [server_create_context now PConnect ?m ?h ?s ?hh ?c] => destruct (unrefused_context now m h s hh c H) as [cx ->] end.
    exists cx. reflexivity.
Qed.
Print Assumptions C92_accepted.

(** Requests with each fault, and one without. *)
Example C92_example :
  let ap := ex_app ex_echo in
  ar_events (asgi_call ap 0%Z (ex_scope_with "POST" "application/proto" [("connect-protocol-version", "2")]%string "") ex_env)
  = [EvStart 400 [(lit "content-type", lit "application/json")] false;
     EvBody (lit "{""code"": ""invalid_argument"", ""message"": ""connect-protocol-version must be '1': got '2'""}") false]
  /\ refused NoSideEffects (lit "POST") (wsgi_headers (ex_wq_with "POST" "application/proto" [("HTTP_CONNECT_PROTOCOL_VERSION", "")]%string [])) PConnect
       (Invalid (lit "connect-protocol-version must be '1': got ''"))
  /\ refused NoSideEffects (lit "POST") (wsgi_headers (ex_wq_with "POST" "application/proto" [("HTTP_CONNECT_TIMEOUT_MS", "12345678901")]%string [])) PConnect
       (Invalid (lit "Invalid timeout header: '12345678901 has >10 digits"))
  /\ refused NoSideEffects (lit "POST") (wsgi_headers (ex_wq_with "POST" "application/proto" [("HTTP_CONNECT_TIMEOUT_MS", "5s")]%string [])) PConnect
       (Invalid (lit "Invalid timeout header: '5s'"))
  /\ refused NoSideEffects (lit "PUT") h_empty PConnect (NotAllowed (lit "GET, POST"))
  /\ (exists cx, wsgi_open_request ap 0%Z (ex_wq_with "POST" "application/proto" [("HTTP_CONNECT_PROTOCOL_VERSION", "1")]%string [])
                 = Ok (ex_echo, wsgi_headers (ex_wq_with "POST" "application/proto" [("HTTP_CONNECT_PROTOCOL_VERSION", "1")]%string []), PConnect, cx)).
Proof.
  cbv zeta. split; [vm_compute; reflexivity|]. split.
  { apply (RefVersion _ _ _ _ []); try reflexivity; [cbn; auto|discriminate]. }
  split.
  { apply (RefLong _ _ _ _ (lit "12345678901")); try reflexivity; [cbn; auto|discriminate|cbn; lia]. }
  split.
  { apply (RefNumber _ _ _ _ (lit "5s")); try reflexivity; [cbn; auto|discriminate..|cbn; lia]. }
  split; [|eexists; vm_compute; reflexivity].
  apply (RefMethod NoSideEffects (lit "PUT") h_empty PConnect). cbn. intuition discriminate.
Qed.

(** Finding: the version a GET request names, in its [connect] parameter, is not looked at.  A request of a version of the protocol that
    does not exist runs the method. *)
Theorem C92_get_version_refuted : exists (ap : app pystr pystr) sc q,
  sc_method sc = lit "GET" /\ sc_query sc = lit "connect=v9&encoding=proto&message=x"
  /\ env_get q "REQUEST_METHOD" = Some (lit "GET") /\ env_get q "QUERY_STRING" = Some (lit "connect=v9&encoding=proto&message=x")
  /\ ar_inv (asgi_call ap 0%Z sc ex_env) = [InvMsg (lit "x")] /\ wr_inv (wsgi_call ap 0%Z q) = [InvMsg (lit "x")].
Proof.
  exists (ex_app ex_echo), (ex_scope_with "GET" "" [] "connect=v9&encoding=proto&message=x"),
    (ex_wq_with "GET" "" [("QUERY_STRING", "connect=v9&encoding=proto&message=x")]%string []).
  repeat split; vm_compute; reflexivity.
Qed.
Print Assumptions C92_get_version_refuted.
