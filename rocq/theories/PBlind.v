(** C89: header lines that neither the library nor the method looks at change nothing.  C90: deadlines. *)
From Coq Require Import List NArith ZArith Bool String Lia.
From Verif Require Import MBase MPyStr MHeaders MView MUtf8 MWire MEnvelope MTimeout MProtocol MClient MServer MAsgi MWsgi SHeaders SJson STimeout SProtocol SLink SContext SBlind LHeaders LBase LPyStr LUtf8 LTimeout LProtocol LProtocol LServer LRequest LLink LLink2 LWire SClient LClient PTimeout PProtocol PResponse PRequest PContext PClient PTwin.
Import ListNotations.
Local Open Scope N_scope.

Definition agree (hs hs' : headers) : Prop := forall k, In k protocol_names -> h_get hs k = h_get hs' k.
Lemma agree_default hs hs' k d : agree hs hs' -> In k protocol_names -> h_get_default hs k d = h_get_default hs' k d.
Proof. intros G H. pose proof (G k H) as E. unfold h_get_default. unfold h_get in E. now rewrite E. Qed.
Ltac name := unfold protocol_names; cbn [In]; tauto.

Lemma good_connect first : good_timeouts first -> exists t, connect_server_timeout (first (lit "connect-timeout-ms")) = Ok t.
Proof.
  intros [G _]. destruct (first _) as [[|c s]|]; try (eexists; reflexivity). destruct G as [P L]. eexists. apply connect_digits; [exact P|]. cbn in *. lia.
Qed.
Lemma good_grpc first : good_timeouts first -> exists t, grpc_server_timeout (first (lit "grpc-timeout")) = Ok t.
Proof.
  intros [_ G]. destruct (first _) as [[|c s]|]; try (eexists; reflexivity). destruct G as (v & k & G). eexists. exact (C28_exact_milliseconds _ _ _ G).
Qed.

(** The contexts of two requests. *)
Lemma contexts_alike (seen : pystr -> Prop) (time : bool) now now' p m http scheme hs hs' client :
  agree hs hs' -> (forall k, seen k -> h_getall hs k = h_getall hs' k) ->
  (if time then now = now' /\ same_timeouts (h_get hs) (h_get hs') else good_timeouts (h_get hs) /\ good_timeouts (h_get hs')) ->
  match server_create_context now p m http scheme hs client, server_create_context now' p m http scheme hs' client with
  | Ok cx, Ok cx' => looks_like seen time cx cx' /\ cx_http cx = http /\ cx_http cx' = http
  | Raise e, Raise e' => e = e'
  | _, _ => False
  end.
Proof.
  intros G S T. unfold server_create_context. destruct (check_http_method _ _ _) as [e|]; [reflexivity|].
  rewrite (agree_default hs hs' (lit "connect-protocol-version") (lit "1") G) by name.
  rewrite (G (lit "host")) by name. destruct time.
  - destruct T as [<- [T1 T2]]. rewrite T1, T2.
    set (r := match p with PConnect => _ | _ => _ end). destruct r as [t|e]; [|reflexivity]. unfold make_ctx. cbn. repeat split; auto.
  - destruct T as [T T']. destruct (good_connect _ T) as (t1 & ->), (good_connect _ T') as (t1' & ->), (good_grpc _ T) as (t2 & ->), (good_grpc _ T') as (t2' & ->).
    destruct p; try (destruct (str_eqb _ _); [|reflexivity]); unfold make_ctx, looks_like; cbn; repeat split; auto; discriminate.
Qed.

Lemma stream_compression_agree p hs hs' comps : agree hs hs' -> negotiate_stream_compression p hs comps = negotiate_stream_compression p hs' comps.
Proof.
  intro G. unfold negotiate_stream_compression. rewrite (agree_default hs hs' (compression_header_name p) _ G) by (destruct p; name).
  now rewrite (agree_default hs hs' (accept_header_name p) _ G) by (destruct p; name).
Qed.

(** ** ASGI *)
Lemma asgi_handlers_agree {A B} (ap : app A B) seen time en ep p k hs hs' cx cx' : looks_at seen time ep -> looks_like seen time cx cx' -> agree hs hs' ->
  handle_stream ap en p ep k hs cx = handle_stream ap en p ep k hs' cx'.
Proof.
  intros L C G. unfold handle_stream. rewrite (stream_compression_agree p hs hs' _ G). destruct (negotiate_stream_compression _ _ _) as [req z].
  assert (E : forall s, stream_try ap en p ep k req z cx s = stream_try ap en p ep k req z cx' s); [|now rewrite E].
  intro s. unfold stream_try. destruct req as [rz|]; [|reflexivity]. destruct ep as [m f|m f|m f|m f]; cbn [looks_at] in L.
  - destruct (consume_single_request _) as [a|e]; [|reflexivity]. now rewrite (L a _ _ C).
  - now rewrite (L _ _ C).
  - destruct (consume_single_request _) as [a|e]; [|reflexivity]. now rewrite (L a _ _ C).
  - now rewrite (L _ _ C).
Qed.
Lemma asgi_unary_agree {A B} (ap : app A B) seen time en http m f k params hs hs' cx cx' s : looks_at seen time (@EpUnary A B m f) -> looks_like seen time cx cx' -> agree hs hs' ->
  handle_unary_connect ap en http hs k params f cx s = handle_unary_connect ap en http hs' k params f cx' s.
Proof.
  intros L C G. unfold handle_unary_connect, read_post_request. rewrite (agree_default hs hs' (lit "accept-encoding") _ G) by name.
  rewrite (agree_default hs hs' (lit "content-encoding") _ G) by name. cbn [looks_at] in L.
  destruct (if str_eqb http (lit "GET") then _ else _) as [a|i]; [|reflexivity]. now rewrite (L a _ _ C).
Qed.

(** Two requests to an ASGI application with the same method, path, query and body, and with the same first values of the headers
    that concern the library, are answered in the same way, whatever other header lines they have, if the method addressed looks
    at those in [seen] only and these are the same.  If it does not look at the time it has, the timeouts may be any valid ones.
    Missing: lines that are not UTF-8, [C89_bytes_refuted]. *)
Theorem C89_asgi_partial {A B} (ap : app A B) seen time now now' en sc hs' lines lines' :
  (forall ep, find_endpoint ap sc = Ok ep -> looks_at seen time ep) ->
  Forall2 line_text (sc_headers sc) lines -> Forall2 line_text hs' lines' ->
  let first l k := hd_error (values_in l k) in
  (forall k, In k protocol_names -> first lines k = first lines' k) ->
  (forall k, seen k -> values_in lines k = values_in lines' k) ->
  (if time then now = now' /\ same_timeouts (first lines) (first lines') else good_timeouts (first lines) /\ good_timeouts (first lines')) ->
  let sc' := mk_scope (sc_path sc) (sc_root sc) (sc_method sc) (sc_scheme sc) hs' (sc_client sc) (sc_query sc) (sc_trailers sc) in
  asgi_call ap now sc en = asgi_call ap now' sc' en.
Proof.
  intros L F F' first P S T sc'.
  assert (Process : forall l ls, Forall2 line_text l ls -> forall h, exists hs, process_headers h l = Ok hs /\ (h_inv h -> forall k, h_getall hs k = h_getall h k ++ values_in ls k)).
  { clear. induction 1 as [|[a v] [a' v'] l ls [X Y] H IH]; intros h; cbn [process_headers].
    - exists h. split; [reflexivity|]. intros _ k. change (values_in [] k) with (@nil pystr). now rewrite app_nil_r.
    - cbn [fst snd] in X, Y. rewrite X, Y. destruct (IH (h_add h a' v')) as (hs & E & V). exists hs. split; [exact E|]. intros I k. rewrite V by now apply h_inv_add.
      rewrite getall_add, values_in_cons by auto. destruct (same_name k a'); [|reflexivity]. now rewrite <- app_assoc. }
  destruct (Process _ _ F h_empty) as (h & E & V). specialize (V h_inv_empty). destruct (Process _ _ F' h_empty) as (h' & E' & V'). specialize (V' h_inv_empty).
  assert (Vn : forall k, h_getall h k = values_in lines k) by (intro k; now rewrite V). assert (Vn' : forall k, h_getall h' k = values_in lines' k) by (intro k; now rewrite V').
  assert (Fh : forall k, h_get h k = first lines k) by (intro k; now rewrite get_hd, Vn). assert (Fh' : forall k, h_get h' k = first lines' k) by (intro k; now rewrite get_hd, Vn').
  assert (G : agree h h') by (intros k Hk; rewrite Fh, Fh'; now apply P).
  assert (Sh : forall k, seen k -> h_getall h k = h_getall h' k) by (intros k Hk; rewrite Vn, Vn'; now apply S).
  assert (Th : if time then now = now' /\ same_timeouts (h_get h) (h_get h') else good_timeouts (h_get h) /\ good_timeouts (h_get h')).
  { unfold same_timeouts, good_timeouts in *. rewrite !Fh, !Fh'. exact T. }
  unfold asgi_call, open_request. assert (Fe : find_endpoint ap sc' = find_endpoint ap sc) by reflexivity. rewrite Fe. change (sc_headers sc') with hs'.
  change (sc_client sc') with (sc_client sc). change (sc_method sc') with (sc_method sc). change (sc_scheme sc') with (sc_scheme sc). change (sc_trailers sc') with (sc_trailers sc).
  destruct (find_endpoint ap sc) as [ep|e] eqn:Ep; [|reflexivity]. specialize (L ep eq_refl). rewrite E, E'. cbn [bind].
  rewrite (agree_default h h' (lit "content-type") [] G) by name. set (ct := h_get_default h' (lit "content-type") []).
  destruct (uses_trailers _ && negb _); [reflexivity|].
  pose proof (contexts_alike seen time now now' (negotiate_server_protocol ct) (ep_method ep) (sc_method sc) (sc_scheme sc) h h'
    (match sc_client sc with Some (h, p) => Some (h ++ lit ":" ++ p) | None => None end) G Sh Th) as C.
  destruct (server_create_context now _ _ _ _ h _) as [cx|e], (server_create_context now' _ _ _ _ h' _) as [cx'|e']; try contradiction; [|subst e'; reflexivity].
  destruct C as (C & _ & _). cbn [bind].
  assert (Sc : forall p, select_codec ap sc' ep h' p = select_codec ap sc ep h p).
  { intro p. unfold select_codec. change (sc_method sc') with (sc_method sc). change (sc_query sc') with (sc_query sc). now rewrite (agree_default h h' (lit "content-type") [] G) by name. }
  rewrite Sc. destruct (select_codec ap sc ep h _) as [[params k]|e]; [|reflexivity].
  destruct ep as [m f|m f|m f|m f]; destruct (negotiate_server_protocol ct); try exact (asgi_handlers_agree ap seen time en _ _ k h h' cx cx' L C G).
  now rewrite (asgi_unary_agree ap seen time en (sc_method sc) m f k params h h' cx cx' (mk_ast 0 []) L C G).
Qed.
Print Assumptions C89_asgi_partial.

(** Finding: a header line that nobody looks at makes the ASGI application fail if it is not UTF-8: "caf\233" in a cookie. *)
Theorem C89_bytes_refuted : exists line b,
  let answer hs := asgi_call (ex_app ex_echo) 0%Z (mk_scope (lit "/pkg.Svc/Get") (Some []) (lit "POST") (lit "http") hs None [] true) ex_env in
  (exists hs, answer [(lit "content-type", lit "application/proto")] = mk_ar [InvMsg []] [EvStart 200 hs false; EvBody [] false] AReturn)
  /\ (exists hs e, answer [(lit "content-type", lit "application/proto"); line] = mk_ar [] [EvStart 500 hs false; EvBody b false] (ARaise e))
  /\ fst line = lit "cookie".
Proof. exists (lit "cookie", lit "caf" ++ [233]). eexists. cbv zeta. split; [eexists; vm_compute; reflexivity|]. split; [eexists _, _; vm_compute; reflexivity|reflexivity]. Qed.
Print Assumptions C89_bytes_refuted.

(** ** WSGI *)
Lemma wsgi_stream_agree {A B} (ap : app A B) seen time q q' p ep hs hs' cx cx' : looks_at seen time ep -> looks_like seen time cx cx' -> agree hs hs' ->
  wq_input q = wq_input q' -> wq_drain q = wq_drain q' -> env_get q "SERVER_PROTOCOL" = env_get q' "SERVER_PROTOCOL" ->
  wsgi_stream ap q p hs ep cx = wsgi_stream ap q' p hs' ep cx'.
Proof.
  intros L C G Qi Qd Qp. unfold wsgi_stream. rewrite (stream_compression_agree p hs hs' _ G). destruct (negotiate_stream_compression _ _ _) as [req z].
  rewrite (agree_default hs hs' (lit "content-type") _ G) by name. destruct (dget (ap_codecs ap) _) as [k|]; [|reflexivity].
  assert (D : forall n, drain q n = drain q' n) by (intro n; unfold drain, env_default; now rewrite Qp, Qd).
  assert (X : forall inv rs ev e, wsgi_stream_error ap q p (k_name k) z inv rs ev e = wsgi_stream_error ap q' p (k_name k) z inv rs ev e).
  { intros. unfold wsgi_stream_error. now rewrite D. }
  assert (Y : forall inv rs ev i, response_stream_end ap q p z inv rs ev i = response_stream_end ap q' p z inv rs ev i).
  { intros. unfold response_stream_end. now rewrite D. }
  destruct req as [rz|]; [|now rewrite X].
  assert (R : forall ps, wsgi_run p ep k z ps cx = wsgi_run p ep k z ps cx').
  { intro ps. unfold wsgi_run. destruct ep as [m f|m f|m f|m f]; cbn [looks_at] in L.
    - destruct (consume_single_request _) as [a|e]; [|reflexivity]. now rewrite (L a _ _ C).
    - now rewrite (L _ _ C).
    - destruct (consume_single_request _) as [a|e]; [|reflexivity]. now rewrite (L a _ _ C).
    - now rewrite (L _ _ C). }
  assert (Q : wsgi_request_stream ap k rz q = wsgi_request_stream ap k rz q') by (unfold wsgi_request_stream, wsgi_body; now rewrite Qi).
  rewrite R, Q. destruct (wsgi_run p ep k z _ cx') as [inv [[s rs] e]]. destruct (ws_started s); [now rewrite Y|].
  destruct (loop_interrupt e) as [[x|]|]; [now rewrite X|reflexivity|]. destruct (end_response _ _ _ _ _) as [fin|x]; [reflexivity|now rewrite X].
Qed.

Definition same_entries : list string :=
  ["PATH_INFO"; "SCRIPT_NAME"; "REQUEST_METHOD"; "QUERY_STRING"; "CONTENT_LENGTH"; "SERVER_PROTOCOL"; "REMOTE_ADDR"; "REMOTE_PORT"; "wsgi.url_scheme"]%string.

(** The same for a WSGI application. *)
Theorem C89_wsgi {A B} (ap : app A B) (seen : pystr -> Prop) (time : bool) now now' q q' :
  (forall ep, wsgi_find_endpoint ap q = Ok ep -> looks_at seen time ep) ->
  cgi_environ q -> cgi_environ q' ->
  wq_input q = wq_input q' -> wq_trailers q = wq_trailers q' -> wq_drain q = wq_drain q' ->
  (forall k, In k same_entries -> env_get q k = env_get q' k) ->
  (forall k, In k protocol_names -> cgi_value q k = cgi_value q' k) ->
  (forall k, seen k -> cgi_value q k = cgi_value q' k) ->
  (if time then now = now' /\ same_timeouts (cgi_value q) (cgi_value q') else good_timeouts (cgi_value q) /\ good_timeouts (cgi_value q')) ->
  wsgi_call ap now q = wsgi_call ap now' q'.
Proof.
  intros L Q Q' Qi Qt Qd Qe P S T.
  assert (V : forall k, h_getall (wsgi_headers q) k = match cgi_value q k with Some v => [v] | None => [] end) by (intro; now apply wsgi_values).
  assert (V' : forall k, h_getall (wsgi_headers q') k = match cgi_value q' k with Some v => [v] | None => [] end) by (intro; now apply wsgi_values).
  set (h := wsgi_headers q) in *. set (h' := wsgi_headers q') in *.
  assert (Fh : forall k, h_get h k = cgi_value q k) by (intro k; rewrite get_hd, V; now destruct (cgi_value q k)).
  assert (Fh' : forall k, h_get h' k = cgi_value q' k) by (intro k; rewrite get_hd, V'; now destruct (cgi_value q' k)).
  assert (G : agree h h') by (intros k Hk; rewrite Fh, Fh'; now apply P).
  assert (Sh : forall k, seen k -> h_getall h k = h_getall h' k) by (intros k Hk; rewrite V, V'; now rewrite (S k Hk)).
  assert (Th : if time then now = now' /\ same_timeouts (h_get h) (h_get h') else good_timeouts (h_get h) /\ good_timeouts (h_get h')).
  { unfold same_timeouts, good_timeouts in *. rewrite !Fh, !Fh'. exact T. }
  assert (En : forall k, In k same_entries -> env_get q k = env_get q' k) by exact Qe.
  assert (D : forall n, drain q n = drain q' n) by (intro n; unfold drain, env_default; rewrite (En "SERVER_PROTOCOL"%string), Qd; [reflexivity|cbn; tauto]).
  assert (X : forall inv ev e ctx, @wsgi_call_error A q inv ev e ctx = wsgi_call_error q' inv ev e ctx) by (intros; unfold wsgi_call_error; now rewrite D).
  unfold wsgi_call, wsgi_open_request.
  assert (Fe : wsgi_find_endpoint ap q' = wsgi_find_endpoint ap q).
  { unfold wsgi_find_endpoint, env_item. rewrite !En by (cbn; tauto). reflexivity. }
  rewrite Fe. destruct (wsgi_find_endpoint ap q) as [ep|e]; [|apply X]. specialize (L ep eq_refl). cbn [bind]. unfold env_item, env_default. fold h h'.
  rewrite (En "REQUEST_METHOD"%string), (En "REMOTE_ADDR"%string), (En "REMOTE_PORT"%string), (En "wsgi.url_scheme"%string), Qt by (cbn; tauto).
  destruct (env_get q' "REQUEST_METHOD") as [http|]; [|apply X]. cbn [bind].
  rewrite (agree_default h h' (lit "content-type") [] G) by name. set (ct := h_get_default h' (lit "content-type") []).
  destruct (uses_trailers _ && negb _); [apply X|].
  match goal with |- context [server_create_context now ?p ?m ?http ?scheme h ?client] =>
    pose proof (contexts_alike seen time now now' p m http scheme h h' client G Sh Th) as C;
    destruct (server_create_context now p m http scheme h client) as [cx|e], (server_create_context now' p m http scheme h' client) as [cx'|e']; try contradiction end; [|subst e'; apply X].
  destruct C as (C & H1 & H2). cbn [bind]. rewrite H1, H2. clear H1 H2.
  assert (St : forall p, wsgi_stream ap q p h ep cx = wsgi_stream ap q' p h' ep cx').
  { intro p. apply (wsgi_stream_agree ap seen time); auto. apply En. cbn. tauto. }
  assert (Fin : forall x : whandled A + wsgi_result A,
    match x with inl (inv, _, ev, None) => mk_wr inv ev WReturn | inl (inv, rs, ev, Some (IExn e)) => wsgi_call_error q inv ev e (Some rs) | inl (inv, rs, ev, Some ICancel) => mk_wr inv ev WBase | inr r => r end
    = match x with inl (inv, _, ev, None) => mk_wr inv ev WReturn | inl (inv, rs, ev, Some (IExn e)) => wsgi_call_error q' inv ev e (Some rs) | inl (inv, rs, ev, Some ICancel) => mk_wr inv ev WBase | inr r => r end).
  { intros [[[[inv rs] ev] [[e|]|]]|r]; auto. }
  rewrite Fin. destruct ep as [m f|m f|m f|m f]; destruct (negotiate_server_protocol ct); rewrite ?St; try reflexivity.
  assert (U : wsgi_unary ap q http f cx h = wsgi_unary ap q' http f cx' h'); [|now rewrite U].
  unfold wsgi_unary. cbn [looks_at] in L.
  assert (R : (if str_eqb http (lit "GET") then wsgi_get_request ap q else wsgi_post_request ap q h) = (if str_eqb http (lit "GET") then wsgi_get_request ap q' else wsgi_post_request ap q' h')).
  { destruct (str_eqb http (lit "GET")).
    - unfold wsgi_get_request, env_default. now rewrite (En "QUERY_STRING"%string) by (cbn; tauto).
    - unfold wsgi_post_request, env_default, wsgi_body. rewrite (agree_default h h' (lit "content-type") [] G), (En "CONTENT_LENGTH"%string), Qi by (cbn; tauto || name).
      assert (Ce : env_get q "HTTP_CONTENT_ENCODING" = env_get q' "HTTP_CONTENT_ENCODING"); [|now rewrite Ce].
      assert (Y : forall q, cgi_value q (lit "content-encoding") = env_get q "HTTP_CONTENT_ENCODING").
      { intro x. change (cgi_value x (lit "content-encoding")) with (match env_get x "HTTP_CONTENT_ENCODING" with Some v => Some v | None => None end). now destruct (env_get x _). }
      rewrite <- !Y. apply P. name. }
  rewrite R. clear R. destruct (if str_eqb http (lit "GET") then _ else _) as [[a k]|e]; [|reflexivity]. rewrite (L a _ _ C). destruct (run_fn _ _ _) as [[b|i] rs]; [|reflexivity].
  now rewrite (agree_default h h' (lit "accept-encoding") _ G) by name.
Qed.
Print Assumptions C89_wsgi.

(** A request with a session cookie and a timeout, to a method that looks at the authorization only. *)
Definition ex_auth : endpoint pystr pystr := EpUnary ex_method (fun a cx => Hdr (Add (lit "x-user") (List.concat (h_getall (cx_headers cx) (lit "authorization")))) (Ret a)).
Definition ex_seen (k : pystr) : Prop := k = lit "authorization".
Lemma ex_auth_looks : looks_at ex_seen false ex_auth.
Proof. intros a cx cx' (_ & _ & _ & _ & S & _). now rewrite (S (lit "authorization") eq_refl). Qed.
Example C89_example :
  (let lines t := [(lit "content-type", lit "application/proto"); (lit "Authorization", lit "me")] ++ t in
   let more := [(lit "cookie", lit "s=1"); (lit "Cookie", lit "t=2"); (lit "connect-timeout-ms", lit "5")] in
   Forall2 line_text (lines []) (lines []) /\ Forall2 line_text (lines more) (lines more)
   /\ (forall k, In k protocol_names -> hd_error (values_in (lines []) k) = hd_error (values_in (lines more) k))
   /\ (forall k, ex_seen k -> values_in (lines []) k = values_in (lines more) k)
   /\ good_timeouts (fun k => hd_error (values_in (lines []) k)) /\ good_timeouts (fun k => hd_error (values_in (lines more) k))
   /\ exists hs, ar_events (asgi_call (ex_app ex_auth) 0%Z (mk_scope (lit "/pkg.Svc/Get") (Some []) (lit "POST") (lit "http") (lines more) None [] true) ex_env) = [EvStart 200 hs false; EvBody [] false]
      /\ In (lit "x-user", lit "me") hs)
  /\ let q e := ex_wq_with "POST" "application/proto" (("HTTP_AUTHORIZATION", "me")%string :: e) [RD [7]] in
     let more := [("HTTP_COOKIE", "s=1"); ("HTTP_CONNECT_TIMEOUT_MS", "5")]%string in
     cgi_environ (q []) /\ cgi_environ (q more)
     /\ (forall k, In k same_entries -> env_get (q []) k = env_get (q more) k)
     /\ (forall k, In k protocol_names -> cgi_value (q []) k = cgi_value (q more) k) /\ (forall k, ex_seen k -> cgi_value (q []) k = cgi_value (q more) k)
     /\ good_timeouts (cgi_value (q [])) /\ good_timeouts (cgi_value (q more)).
Proof.
  cbv zeta. split.
  - split; [repeat constructor|]. split; [repeat constructor|]. split.
    { intros k H. cbn [In protocol_names] in H. repeat (destruct H as [<-|H]; [vm_compute; reflexivity|]). contradiction. }
    split; [intros k ->; vm_compute; reflexivity|]. split; [split; vm_compute; exact Logic.I|]. split.
    { split; [|vm_compute; exact Logic.I]. change (plain_digits (lit "5") /\ (List.length (lit "5") <= 10)%nat). split; [repeat constructor; vm_compute; discriminate|cbn; lia]. }
    eexists. split; [vm_compute; reflexivity|]. cbn. tauto.
  - split; [split; [unfold dkeys; cbn; repeat constructor; cbn; intuition discriminate|]|].
    { intros key H S. cbn in H. repeat destruct H as [<-|H]; try discriminate; try contradiction. now exists (lit "authorization"). }
    split; [split; [unfold dkeys; cbn; repeat constructor; cbn; intuition discriminate|]|].
    { intros key H S. cbn in H. repeat destruct H as [<-|H]; try discriminate; try contradiction; [now exists (lit "authorization")|now exists (lit "cookie")|now exists (lit "connect-timeout-ms")]. }
    split; [intros k H; cbn [In same_entries] in H; repeat (destruct H as [<-|H]; [vm_compute; reflexivity|]); contradiction|].
    split; [intros k H; cbn [In protocol_names] in H; repeat (destruct H as [<-|H]; [vm_compute; reflexivity|]); contradiction|].
    split; [intros k ->; vm_compute; reflexivity|]. split; [split; vm_compute; exact Logic.I|].
    split; [|vm_compute; exact Logic.I]. change (plain_digits (lit "5") /\ (List.length (lit "5") <= 10)%nat). split; [repeat constructor; vm_compute; discriminate|cbn; lia].
Qed.

(** ** C90: deadlines *)

(** A synchronous call that reads its response as a stream succeeds only if its deadline has not passed when the response is complete. *)
Lemma send_stream_late {A B} (c : client A B) cx ck net md reqs stop : cl_sync c = true -> sr_end (send_stream c cx ck net md reqs stop) = COk tt ->
  deadline_passed cx (ck_late ck) = false.
Proof.
  intros Sy. unfold send_stream.
  assert (X : forall expired rd serr md f, fst (@stream_except A B c expired rd serr md f) <> COk tt).
  { intros expired rd serr md' f. unfold stream_except. destruct f as [e| |]; [|destruct (cl_sync c); discriminate|discriminate].
    assert (O : fst (match serr with
      | Some s => (@CErr unit s, md')
      | None => match map_stream_reset e expired with
                | Some rst => match rd with
                              | Some (r, resp) => let (o, md) := response_complete (cl_sc c) (reader_kind (cl_proto c)) r (sp_headers resp) (sp_trailers resp) (Some rst) in
                                                  (CErr (match o with Some x => x | None => rst end), md)
                              | None => (CErr rst, md')
                              end
                | None => (CErr (EConnect Unavailable (str_of_exn e) []), md')
                end
      end) <> COk tt).
    { destruct serr; [discriminate|]. destruct (map_stream_reset e expired); [|discriminate]. destruct rd as [[r resp]|]; [|discriminate]. destruct (response_complete _ _ _ _ _ _). discriminate. }
    destruct e as [k m ds| |k m]; [discriminate|exact O|]. destruct k; first [exact O|discriminate]. }
  assert (Y : forall q ms expired rd serr md f, sr_end (let (e, md) := @stream_except A B c expired rd serr md f in @mk_sr B q ms e md) <> COk tt).
  { intros. specialize (X expired rd serr md0 f). destruct (stream_except c expired rd serr md0 f). exact X. }
  assert (Z : forall resp f, exists f', leave resp (Some f) = Some f') by (intros resp f; unfold leave; destruct (sp_exit resp false); eauto).
  destruct (nw_stream net _) as [resp|f]; [|intro H; now apply Y in H]. destruct (sp_status resp =? 200).
  - destruct (validate_stream_response _ _ _) as [e|]; [destruct (Z resp (FExn e)) as (f' & ->); intro H; now apply Y in H|].
    destruct (handle_response_compression _ _ _ _) as [z|e]; [|destruct (Z resp (FExn e)) as (f' & ->); intro H; now apply Y in H].
    destruct (consume _ _ _ _) as [[ms f] r]. destruct (match f with Some f => Some f | None => sp_fault resp end) as [f'|].
    { destruct (Z resp f') as (f2 & ->). intro H. now apply Y in H. }
    rewrite Sy. cbn [andb]. destruct (deadline_passed cx (ck_late ck)); [|reflexivity].
    destruct (Z resp (FExn (EOther KTimeout []))) as (f2 & ->). intro H. now apply Y in H.
  - destruct (sp_fault resp) as [f|]; [destruct (Z resp f) as (f' & ->); intro H; now apply Y in H|].
    destruct (we_from_response _ _) as [w|e]; [destruct (Z resp (FExn (we_to_exception w))) as (f' & ->)|destruct (Z resp (FExn e)) as (f' & ->)]; intro H; now apply Y in H.
Qed.
Theorem C90_sync_partial : forall A B (c : client A B) ck net timeout stop, cl_sync c = true ->
  let over := deadline_over (ck_start ck) (effective_timeout timeout (cl_timeout c)) (ck_late ck) in
  (forall s, streamed c ck net timeout stop s -> sr_end s = COk tt -> over = false)
  /\ (forall s b, answered_by_stream c ck net timeout stop s -> cr_out s = COk b -> over = false).
Proof.
  intros A B c ck net timeout stop Sy over. split.
  - intros s H E. destruct (streamed_inv _ _ _ _ _ _ H) as (cx & md & reqs & -> & D). unfold over. rewrite <- D. exact (send_stream_late c cx ck net md reqs stop Sy E).
  - intros s b H E. destruct (answered_inv _ _ _ _ _ _ H) as (cx & md & reqs & -> & _ & D). unfold over. rewrite <- D. apply (send_stream_late c cx ck net md reqs (single_stop stop) Sy).
    cbn [single_result cr_out] in E. unfold consume_single in E. destruct (sr_msgs _) as [|b1 [|b2 l]]; [| |discriminate]; destruct (sr_end _) as [[]| |]; try discriminate; reflexivity.
Qed.
Print Assumptions C90_sync_partial.

(** One message and a complete gRPC response, read before and after the end of a timeout of one second. *)
Definition ex_late (late : fl) : stream_result pystr :=
  execute_bidi_stream (as_sync true (ex_client PGrpc (Some 1000%Z))) (mk_clk 0%Z 0%Z late) (ex_answer (ex_stream PGrpc [ex_frame 0 [7]] None [(lit "grpc-status", lit "0")])) None ex_method UNone None ([], None) None.
Example C90_example : sr_end (ex_late 5%Z) = COk tt /\ sr_end (ex_late fl_unit) = CErr timed_out /\ sr_msgs (ex_late fl_unit) = [[7]].
Proof. split; [|split]; vm_compute; reflexivity. Qed.

(** The servers do not act on deadlines: a timeout that is added to a request without one changes nothing of the response if the
    method does not look at the time it has, not even a timeout of 0. *)
Definition timeout_line (n t : pystr) : Prop :=
  (n = lit "connect-timeout-ms" /\ plain_digits t /\ (1 <= List.length t <= 10)%nat) \/ (n = lit "grpc-timeout" /\ exists v k, grpc_timeout_text t v k).
Theorem C90_server_asgi {A B} (ap : app A B) now now' en sc lines b n t :
  let seen k := same_name k (lit "connect-timeout-ms") = false /\ same_name k (lit "grpc-timeout") = false in
  (forall ep, find_endpoint ap sc = Ok ep -> looks_at seen false ep) ->
  Forall2 line_text (sc_headers sc) lines -> values_in lines (lit "connect-timeout-ms") = [] -> values_in lines (lit "grpc-timeout") = [] ->
  line_text b (n, t) -> timeout_line n t ->
  let sc' := mk_scope (sc_path sc) (sc_root sc) (sc_method sc) (sc_scheme sc) (sc_headers sc ++ [b]) (sc_client sc) (sc_query sc) (sc_trailers sc) in
  asgi_call ap now sc en = asgi_call ap now' sc' en.
Proof.
  intros seen L F V1 V2 Lb T sc'. apply (C89_asgi_partial ap seen false now now' en sc (sc_headers sc ++ [b]) lines (lines ++ [(n, t)]) L F).
  - apply Forall2_app; [exact F|]. now constructor.
  - intros k H. rewrite values_in_app, values_in_cons. replace (same_name k n) with false; [now rewrite app_nil_r|]. symmetry.
    destruct T as [[-> _]|[-> _]]; cbn [In protocol_names] in H; repeat (destruct H as [<-|H]; [reflexivity|]); contradiction.
  - intros k [H1 H2]. rewrite values_in_app, values_in_cons. replace (same_name k n) with false; [now rewrite app_nil_r|]. destruct T as [[-> _]|[-> _]]; congruence.
  - split; [split; [now rewrite V1|now rewrite V2]|]. unfold good_timeouts. rewrite !values_in_app, V1, V2, !values_in_cons. change (values_in [] (lit "connect-timeout-ms")) with (@nil pystr).
    change (values_in [] (lit "grpc-timeout")) with (@nil pystr).
    destruct T as [(-> & P & Ln)|(-> & P)].
    + change (same_name (lit "connect-timeout-ms") (lit "connect-timeout-ms")) with true. change (same_name (lit "grpc-timeout") (lit "connect-timeout-ms")) with false. cbn [List.app hd_error].
      split; [|exact Logic.I]. destruct t; [exact Logic.I|]. split; [exact P|lia].
    + change (same_name (lit "connect-timeout-ms") (lit "grpc-timeout")) with false. change (same_name (lit "grpc-timeout") (lit "grpc-timeout")) with true. cbn [List.app hd_error].
      split; [exact Logic.I|]. destruct t; [exact Logic.I|]. exact P.
Qed.
Print Assumptions C90_server_asgi.

Lemma dget_snoc (l : list (pystr * pystr)) a v k : dget (l ++ [(a, v)]) k = match dget l k with Some x => Some x | None => if str_eqb a k then Some v else None end.
Proof. induction l as [|[b w] l IH]; cbn [List.app dget]; [reflexivity|]. destruct (str_eqb b k); [reflexivity|exact IH]. Qed.
Lemma mangle_names k n : ~ In 95 k -> ~ In 95 n -> mangle n = mangle k -> same_name k n = true.
Proof. intros Hk Hn E. unfold same_name. rewrite <- (unmangle k Hk), <- (unmangle n Hn), E. apply str_eqb_refl. Qed.
Lemma cgi_snoc q n t k : ~ In 95 n -> same_name k n = false ->
  cgi_value q k = cgi_value (mk_wq (wq_env q ++ [(lit "HTTP_" ++ mangle n, t)]) (wq_input q) (wq_trailers q) (wq_drain q)) k.
Proof.
  intros Hn H. unfold cgi_value, env_get. cbn [wq_env]. destruct (existsb (N.eqb 95) k) eqn:U; [reflexivity|].
  assert (Hk : ~ In 95 k) by (intro X; apply existsb_in95 in X; congruence).
  rewrite !dget_snoc. change (str_eqb (lit "HTTP_" ++ mangle n) (lit "CONTENT_TYPE")) with false. change (str_eqb (lit "HTTP_" ++ mangle n) (lit "CONTENT_LENGTH")) with false.
  assert (E : str_eqb (lit "HTTP_" ++ mangle n) (lit "HTTP_" ++ mangle k) = false).
  { apply Bool.not_true_iff_false. intro E. apply str_eqb_eq in E. apply app_inv_head in E. rewrite (mangle_names k n Hk Hn E) in H. discriminate. }
  rewrite E. destruct (dget (wq_env q) (lit "HTTP_" ++ mangle k)); [reflexivity|].
  destruct (dget (wq_env q) (lit "CONTENT_TYPE")), (dget (wq_env q) (lit "CONTENT_LENGTH")); reflexivity.
Qed.
Theorem C90_server_wsgi {A B} (ap : app A B) now now' q n t :
  let seen k := same_name k (lit "connect-timeout-ms") = false /\ same_name k (lit "grpc-timeout") = false in
  (forall ep, wsgi_find_endpoint ap q = Ok ep -> looks_at seen false ep) ->
  cgi_environ q -> cgi_value q (lit "connect-timeout-ms") = None -> cgi_value q (lit "grpc-timeout") = None -> timeout_line n t ->
  let q' := mk_wq (wq_env q ++ [(lit "HTTP_" ++ mangle n, t)]) (wq_input q) (wq_trailers q) (wq_drain q) in
  wsgi_call ap now q = wsgi_call ap now' q'.
Proof.
  intros seen L [Nd Km] V1 V2 T q'.
  assert (Hn : ~ In 95 n) by (intro X; apply existsb_in95 in X; destruct T as [[-> _]|[-> _]]; discriminate X).
  assert (Dn : dget (wq_env q) (lit "HTTP_" ++ mangle n) = None).
  { destruct T as [[-> _]|[-> _]]; [revert V1|revert V2]; unfold cgi_value; cbn [existsb]; match goal with |- (if ?c then _ else _) = _ -> _ => change c with false end; cbv iota;
      (destruct (dget (wq_env q) _); [discriminate|reflexivity]). }
  apply (C89_wsgi ap seen false now now' q q' L); [now split| |reflexivity|reflexivity|reflexivity| | | |].
  - split.
    + unfold q', dkeys. cbn [wq_env]. rewrite map_app. cbn [map fst]. apply NoDup_rev in Nd. rewrite <- (rev_involutive (_ ++ _)), rev_app_distr. apply NoDup_rev. cbn [rev List.app]. constructor; [|exact Nd]. rewrite <- in_rev. now apply dget_None_notin.
    + unfold q', dkeys. cbn [wq_env]. rewrite map_app. intros key H S. apply in_app_or in H. destruct H as [H|[<-|[]]]; [now apply Km|]. now exists n.
  - intros k H. unfold env_get, q'. cbn [wq_env]. rewrite dget_snoc. unfold same_entries in H. cbn [In] in H.
    repeat (destruct H as [<-|H]; [match goal with |- context [str_eqb (lit "HTTP_" ++ mangle n) ?x] => change (str_eqb (lit "HTTP_" ++ mangle n) x) with false end; match goal with |- ?d = _ => destruct d; reflexivity end|]). contradiction.
  - intros k H. apply cgi_snoc; [exact Hn|].
    destruct T as [[-> _]|[-> _]]; cbn [In protocol_names] in H; repeat (destruct H as [<-|H]; [reflexivity|]); contradiction.
  - intros k [H1 H2]. apply cgi_snoc; [exact Hn|]. destruct T as [[-> _]|[-> _]]; assumption.
  - split; [split; [now rewrite V1|now rewrite V2]|]. destruct T as [(-> & P & Ln)|(-> & P)].
    + split; [|unfold q'; rewrite <- (cgi_snoc q _ t (lit "grpc-timeout") Hn eq_refl); now rewrite V2].
      unfold cgi_value, q'. cbn [wq_env]. rewrite dget_snoc, Dn. cbn [existsb]. rewrite str_eqb_refl.
      match goal with |- context [if ?c then None else _] => change c with false end. cbv iota. destruct t; [exact Logic.I|]. split; [exact P|lia].
    + split; [unfold q'; rewrite <- (cgi_snoc q _ t (lit "connect-timeout-ms") Hn eq_refl); now rewrite V1|].
      unfold cgi_value, q'. cbn [wq_env]. rewrite dget_snoc, Dn. cbn [existsb]. rewrite str_eqb_refl.
      match goal with |- context [if ?c then None else _] => change c with false end. cbv iota. destruct t; [exact Logic.I|]. exact P.
Qed.
Print Assumptions C90_server_wsgi.

(** Finding: a request whose time is over when it arrives is given to the method and answered with success. *)
Theorem C90_expired_refuted :
  (exists hs b, asgi_call (ex_app ex_echo) 0%Z (ex_scope_with "POST" "application/proto" [("connect-timeout-ms", "0")]%string "") ex_env
     = mk_ar [InvMsg []] [EvStart 200 hs false; EvBody b false] AReturn)
  /\ (exists hs b, wsgi_call (ex_app ex_echo) 0%Z (ex_wq_with "POST" "application/proto" [("HTTP_CONNECT_TIMEOUT_MS", "0")]%string [])
     = mk_wr [InvMsg []] [WStart (lit "200 OK") hs; WBody b] WReturn).
Proof. split; eexists _, _; vm_compute; reflexivity. Qed.
Print Assumptions C90_expired_refuted.

Example C90_server_example :
  looks_at (fun k => same_name k (lit "connect-timeout-ms") = false /\ same_name k (lit "grpc-timeout") = false) false ex_auth
  /\ timeout_line (lit "connect-timeout-ms") (lit "0") /\ timeout_line (lit "grpc-timeout") (lit "1n").
Proof.
  split; [|split].
  - intros a cx cx' (_ & _ & _ & _ & S & _). rewrite (S (lit "authorization")); [reflexivity|]. split; reflexivity.
  - left. split; [reflexivity|]. split; [repeat constructor; vm_compute; discriminate|cbn; lia].
  - right. split; [reflexivity|]. exists 1%Z, 1%Z. exists (lit "1"), 110. split; [reflexivity|]. split; [repeat constructor; vm_compute; discriminate|]. split; [cbn; lia|]. split; reflexivity.
Qed.
