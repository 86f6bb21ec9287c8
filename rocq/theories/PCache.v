(** C73: a cached response of a GET request may be reused as its Vary header says. *)
From Coq Require Import List NArith ZArith Bool String Lia.
From Verif Require Import MBase MPyStr LBase LPyStr MHeaders SHeaders LHeaders MUtf8 LUtf8 MPercent MWire MTimeout MProtocol SProtocol MClient MServer MAsgi MWsgi
  SServer LServer LRequest SLink LLink2 LWire SParity LParity LNet SContext PContext PProtocol PResponse PRequest.
Import ListNotations.
Local Open Scope N_scope.

(** ** Specification *)

(** The Vary lines among the response headers [hs] name the request header [k]. *)
Definition varies_on (hs : list (pystr * pystr)) (k : pystr) : Prop :=
  exists v piece, In v (values_in hs (lit "vary")) /\ In piece (split_on 44 v) /\ same_name (strip piece) k = true.

(** Two ASGI requests for the same URL whose header lines have the same values for the name [k]. *)
Definition same_url (sc sc' : scope) : Prop := sc_path sc' = sc_path sc /\ sc_root sc' = sc_root sc /\ sc_query sc' = sc_query sc.
Definition same_lines (k : pystr) (sc sc' : scope) : Prop :=
  forall lines lines', Forall2 line_text (sc_headers sc) lines -> Forall2 line_text (sc_headers sc') lines' ->
  values_in lines' k = values_in lines k.
(** The same of WSGI requests. *)
Definition same_variable (x : string) (q q' : wsgi_request) : Prop := env_get q' x = env_get q x.
Definition same_place (q q' : wsgi_request) : Prop :=
  same_variable "SCRIPT_NAME" q q' /\ same_variable "PATH_INFO" q q' /\ same_variable "QUERY_STRING" q q'.

(** A unary method that does not look at its context. *)
Definition ignores_context {A B} (ep : endpoint A B) : Prop :=
  match ep with EpUnary _ f => forall a cx cx', f a cx = f a cx' | _ => False end.
(** So are all methods registered under paths that end like [path] or like a part of it. *)
Definition context_free {A B} (ap : app A B) (path : pystr) : Prop :=
  forall key ep, dget (ap_endpoints ap) key = Some ep -> (exists x, key = x ++ path \/ path = x ++ key) -> ignores_context ep.

(** Compressing does not raise the exception by which the library answers with a bare HTTP status. *)
Definition plain_compressions {A B} (ap : app A B) : Prop :=
  forall n z b st hs, dget (ap_comps ap) n = Some z -> z_compress z b <> Raise (EHttp st hs).

(** ** Lemmas *)

Definition not_ok (e : exn) : Prop := forall hs, e <> EHttp 200 hs.

Lemma not_ok_other k m : not_ok (EOther k m). Proof. intros hs H. discriminate. Qed.
Lemma not_ok_connect c m ds : not_ok (EConnect c m ds). Proof. intros hs H. discriminate. Qed.
#[local] Hint Resolve not_ok_other not_ok_connect : core.

Lemma parse_timeout_not_ok s e : parse_timeout s = Raise e -> not_ok e.
Proof.
  unfold parse_timeout, scale_timeout. destruct (lookup_timeout_unit _) as [f|]; [|intro H; injection H as <-; auto].
  destruct (int_of_str _) as [v|]; [|intro H; injection H as <-; auto].
  destruct (_ <? _)%Z; [intro H; injection H as <-; auto|].
  repeat match goal with |- context [match ?x with _ => _ end] => destruct x end; intro H; try discriminate; injection H as <-; auto.
Qed.

Lemma create_context_not_ok now p m http scheme hs client e :
  server_create_context now p m http scheme hs client = Raise e -> not_ok e.
Proof.
  unfold server_create_context. destruct (check_http_method p (mi_idem m) http) as [x|] eqn:C.
  - intro H. injection H as <-. unfold check_http_method in C.
    destruct p, (mi_idem m); repeat match type of C with (if ?b then _ else _) = _ => destruct b; try discriminate end;
      injection C as <-; intros hs' E; discriminate.
  - clear C. intro H.
    assert (T : (match p with
              | PConnect =>
                  let v := h_get_default hs (lit "connect-protocol-version") (lit "1") in
                  if str_eqb v (lit "1") then connect_server_timeout (h_get hs (lit "connect-timeout-ms"))
                  else Raise (EConnect InvalidArgument
                                (lit "connect-protocol-version must be '1': got '" ++ v ++ lit "'") [])
              | _ => grpc_server_timeout (h_get hs (lit "grpc-timeout"))
              end) = Raise e) by (destruct (match p with PConnect => _ | _ => _ end); [discriminate|injection H as ->; reflexivity]).
    assert (G : grpc_server_timeout (h_get hs (lit "grpc-timeout")) = Raise e -> not_ok e).
    { unfold grpc_server_timeout. intro G. destruct (h_get hs (lit "grpc-timeout")) as [[|c s]|]; try discriminate.
      destruct (parse_timeout (c :: s)) eqn:P; [discriminate|]. injection G as <-. eapply parse_timeout_not_ok; exact P. }
    destruct p; auto. cbv zeta in T. destruct (str_eqb _ _).
    + unfold connect_server_timeout in T. destruct (h_get hs _) as [[|c s]|]; try discriminate.
      destruct (10 <? _); [injection T as <-; auto|]. destruct (int_of_str _); [discriminate|injection T as <-; auto].
    + injection T as <-. auto.
Qed.

Lemma open_not_ok {A B} (ap : app A B) now sc e : open_request ap now sc = Raise e -> not_ok e.
Proof.
  assert (NF : not_ok not_found) by (intros hs H; discriminate).
  unfold open_request. destruct (find_endpoint ap sc) as [ep|x] eqn:F; cbn [bind].
  2:{ intro H. injection H as <-. unfold find_endpoint in F.
      destruct (dget _ _); [discriminate|]. destruct (sc_root sc) as [[|c r]|].
      - injection F as <-. auto.
      - destruct (dget _ _); [discriminate|]. injection F as <-. auto.
      - injection F as <-. auto. }
  destruct (process_headers h_empty (sc_headers sc)) as [hs|x] eqn:P; cbn [bind].
  2:{ intro H. injection H as <-. revert P. generalize h_empty. induction (sc_headers sc) as [|[k v] l IH]; intro h; cbn [process_headers]; [discriminate|].
      destruct (utf8_decode k), (utf8_decode v); try (intro P; injection P as <-; auto); apply IH. }
  cbv zeta. destruct (_ && _).
  - intro H. injection H as <-. auto.
  - destruct (server_create_context _ _ _ _ _ _ _) eqn:C; [discriminate|]. intro H. injection H as <-.
    eapply create_context_not_ok; exact C.
Qed.

Lemma wsgi_open_not_ok {A B} (ap : app A B) now q e : wsgi_open_request ap now q = Raise e -> not_ok e.
Proof.
  assert (NF : not_ok not_found) by (intros hs H; discriminate).
  unfold wsgi_open_request. intro O. apply bind_raise in O. destruct O as [F|(ep&_&O)].
  - unfold wsgi_find_endpoint, env_item in F. destruct (env_get q "PATH_INFO"); cbn [bind] in F; [|injection F as <-; auto].
    cbv zeta in F. destruct (dget _ _); [discriminate|]. destruct (env_get q "SCRIPT_NAME"); cbn [bind] in F; [|injection F as <-; auto].
    destruct (str_eqb _ _); [destruct (dget _ _); [discriminate|]|]; injection F as <-; auto.
  - unfold env_item in O. destruct (env_get q "REQUEST_METHOD"); cbn [bind] in O; [|injection O as <-; auto]. cbv zeta in O.
    destruct (_ && _); [injection O as <-; auto|]. destruct (server_create_context _ _ _ _ _ _ _) eqn:C; [discriminate|].
    injection O as <-. eapply create_context_not_ok; exact C.
Qed.

Lemma send_sent o ev s : sends_ok o -> send o ev s = (mk_ast (S (as_n s)) (as_ev s ++ [ev]), inl tt).
Proof. intro H. unfold send. now rewrite H. Qed.

Lemma handle_error_same o o' e ctx s : sends_ok o -> sends_ok o' -> handle_error o e ctx s = handle_error o' e ctx s.
Proof.
  intros H H'. unfold handle_error, io_bind.
  destruct (io_res _ s) as [s1 [shb|i]]; [|reflexivity]. destruct shb as [[st hs] body].
  destruct ctx as [rs|].
  - destruct (io_res (encode_pairs (context_headers rs)) s1) as [s2 [extra|i]]; [|reflexivity].
    rewrite (send_sent o), (send_sent o') by auto. now rewrite (send_sent o), (send_sent o') by auto.
  - unfold io_ret. rewrite (send_sent o), (send_sent o') by auto. now rewrite (send_sent o), (send_sent o') by auto.
Qed.

Lemma call_error_same {A} en en' (inv : list (invoked A)) s e ctx : sends_ok (en_send en) -> sends_ok (en_send en') ->
  call_error en inv s e ctx = call_error en' inv s e ctx.
Proof. intros H H'. unfold call_error. now rewrite (handle_error_same _ _ e ctx s H H'). Qed.

(** An error is not answered with 200. *)
Lemma call_error_status {A} en (inv : list (invoked A)) n e ctx : sends_ok (en_send en) -> not_ok e ->
  asgi_status (ar_events (call_error en inv (mk_ast n []) e ctx)) <> Some 200.
Proof.
  intros H Ne. unfold call_error, handle_error, io_bind.
  assert (X : forall (r : res (N * list (bytes * bytes) * bytes)),
    (forall st hs b, r = Ok (st, hs, b) -> st <> 200) ->
    asgi_status (ar_events (let (s, r) := match io_res r (mk_ast n []) with
      | (s', inl shb) => (let '(status, hs, body) := shb in fun s =>
          match (match ctx with Some rs => io_res (encode_pairs (context_headers rs)) | None => io_ret [] end) s with
          | (s', inl extra) => match send (en_send en) (EvStart status (hs ++ extra) false) s' with
                               | (s', inl _) => send (en_send en) (EvBody body false) s'
                               | (s', inr i) => (s', inr i)
                               end
          | (s', inr i) => (s', inr i)
          end) s'
      | (s', inr i) => (s', inr i)
      end in mk_ar inv (as_ev s) match r with inl _ => if is_connect e || is_http e then AReturn else ARaise e | inr i => aout_of (inr i) end)) <> Some 200).
  { intros [[[st hs] b]|x] Hst; cbn [io_res]; unfold io_ret, io_raise; [|discriminate].
    destruct ctx as [rs|].
    - destruct (encode_pairs (context_headers rs)) as [extra|x]; cbn [io_res]; unfold io_ret, io_raise; [|discriminate].
      rewrite send_sent by auto. rewrite send_sent by auto. cbn. intro E. injection E as E. now apply (Hst st hs b).
    - rewrite send_sent by auto. rewrite send_sent by auto. cbn. intro E. injection E as E. now apply (Hst st hs b). }
  apply X. intros st hs b. destruct e as [c m ds|st' hs'|kd m].
  - cbv zeta. destruct (we_to_json_bytes _); cbn [bind]; [|discriminate]. intro E. injection E as <- <- <-. apply (C16_status (EConnect c m ds)).
  - destruct (encode_pairs hs'); cbn [bind]; [|discriminate]. intro E. injection E as <- <- <-. intros ->. now apply (Ne hs').
  - cbv zeta. destruct (we_to_json_bytes _); cbn [bind]; [|discriminate]. intro E. injection E as <- <- <-. apply (C16_status (EOther kd m)).
Qed.

(** ** ASGI *)

Lemma same_accept k hs hs' sc sc' : process_headers h_empty (sc_headers sc) = Ok hs -> process_headers h_empty (sc_headers sc') = Ok hs' ->
  same_lines k sc sc' -> forall d, h_get_default hs' k d = h_get_default hs k d.
Proof.
  intros P P' S d. destruct (lines_told _ _ _ h_inv_empty P) as (l&F&V). destruct (lines_told _ _ _ h_inv_empty P') as (l'&F'&V').
  assert (G : h_get hs' k = h_get hs k).
  { rewrite !get_hd, V, V'. rewrite (S l l' F F'). reflexivity. }
  unfold h_get in G. unfold h_get_default. destruct (h_getitem hs' k), (h_getitem hs k); congruence.
Qed.

Lemma reads_lines sc hs : process_headers h_empty (sc_headers sc) = Ok hs -> exists lines, Forall2 line_text (sc_headers sc) lines.
Proof. intro P. destruct (lines_told _ _ _ h_inv_empty P) as (l&F&_). now exists l. Qed.

Lemma vary_encoded z ct enc extra : varies_on ([(lit "content-type", ct); (lit "content-encoding", enc); (lit "vary", lit "Accept-Encoding")] ++ extra) z
  <-> same_name (lit "Accept-Encoding") z = true \/ varies_on extra z.
Proof.
  unfold varies_on, values_in. split.
  - intros (v&piece&Hv&Hp&E). cbn [List.app filter fst] in Hv. change (same_name (lit "vary") (lit "content-type")) with false in Hv.
    change (same_name (lit "vary") (lit "content-encoding")) with false in Hv. change (same_name (lit "vary") (lit "vary")) with true in Hv.
    cbn [map snd In] in Hv. destruct Hv as [<-|Hv]; [|right; now exists v, piece]. left.
    rewrite split_on_nil in Hp by (vm_compute; intuition discriminate). destruct Hp as [<-|[]].
    exact E.
  - intros [E|(v&piece&Hv&Hp&E)].
    + exists (lit "Accept-Encoding"), (lit "Accept-Encoding"). split; [now left|]. split; [now left|]. exact E.
    + exists v, piece. split; [now right|]. now split.
Qed.

Lemma negotiated_known accept (comps : dict compression) : negotiate_compression accept comps = identity_comp
  \/ exists n, dget comps n = Some (negotiate_compression accept comps).
Proof.
  unfold negotiate_compression. induction (split_on 44 accept) as [|a l IH]; [now left|]. cbn [negotiate_first].
  destruct (dget comps (strip a)) eqn:E; [|exact IH]. right. now exists (strip a).
Qed.

Lemma compress_not_ok {A B} (ap : app A B) accept b e : plain_compressions ap ->
  z_compress (negotiate_compression accept (ap_comps ap)) b = Raise e -> not_ok e.
Proof.
  intros Pl H hs ->. destruct (negotiated_known accept (ap_comps ap)) as [E|(n&E)].
  - rewrite E in H. discriminate.
  - exact (Pl _ _ _ _ _ E H).
Qed.

Lemma encode_pairs_not_ok l e : encode_pairs l = Raise e -> not_ok e.
Proof.
  induction l as [|[k v] l IH]; cbn [encode_pairs]; [discriminate|]. unfold encode_str.
  destruct (utf8_encode k); cbn [bind]; [|intro H; injection H as <-; unfold surrogates; auto].
  destruct (utf8_encode v); cbn [bind]; [|intro H; injection H as <-; unfold surrogates; auto].
  destruct (encode_pairs l); cbn [bind]; [discriminate|]. intro H. apply IH. congruence.
Qed.

Lemma encode_str_not_ok s e : encode_str s = Raise e -> not_ok e.
Proof. unfold encode_str. destruct (utf8_encode s); [discriminate|]. intro H. injection H as <-. unfold surrogates; auto. Qed.

(** A unary response that was sent names Accept-Encoding in its Vary header; otherwise an exception that is not a bare 200 is raised, or one that does
    not depend on the compression. *)
Lemma unary_response_cases {A B} (ap : app A B) o (k : codec A B) accept b rs n : sends_ok o -> plain_compressions ap ->
  (exists hs body n', send_unary_response o k (negotiate_compression accept (ap_comps ap)) b rs (mk_ast n []) = (mk_ast n' [EvStart 200 hs false; EvBody body false], inl tt)
     /\ varies_on hs (lit "accept-encoding")
     /\ forall o', sends_ok o' -> send_unary_response o' k (negotiate_compression accept (ap_comps ap)) b rs (mk_ast n [])
        = send_unary_response o k (negotiate_compression accept (ap_comps ap)) b rs (mk_ast n []))
  \/ (exists e, send_unary_response o k (negotiate_compression accept (ap_comps ap)) b rs (mk_ast n []) = (mk_ast n [], inr (IExn e))
     /\ (not_ok e \/ forall o' z', send_unary_response o' k z' b rs (mk_ast n []) = (mk_ast n [], inr (IExn e)))).
Proof.
  intros So Pl. unfold send_unary_response, io_bind.
  destruct (k_enc_res k b) as [body|e]; cbn [io_res]; unfold io_ret, io_raise; [|right; exists e; split; [reflexivity|now right]].
  destruct (encode_str (connect_unary_prefix ++ k_name k)) as [ct|e]; cbn [io_res]; [|right; exists e; split; [reflexivity|now right]]. unfold io_ret.
  destruct (z_compress _ body) as [body'|e] eqn:Ez; cbn [io_res]; [|right; exists e; split; [reflexivity|left; eapply compress_not_ok; eassumption]]. unfold io_ret.
  destruct (encode_str (z_name _)) as [enc|e] eqn:Ee; cbn [io_res]; [|right; exists e; split; [reflexivity|left; eapply encode_str_not_ok; eassumption]]. unfold io_ret.
  destruct (encode_pairs (context_headers rs)) as [extra|e] eqn:Ex; cbn [io_res]; [|right; exists e; split; [reflexivity|left; eapply encode_pairs_not_ok; eassumption]].
  unfold io_ret. left. rewrite send_sent by auto. rewrite send_sent by auto. cbn [as_n as_ev List.app].
  eexists _, _, _. split; [reflexivity|]. split.
  - apply (vary_encoded (lit "accept-encoding") ct enc extra). left. reflexivity.
  - intros o' So'. rewrite (send_sent o') by auto. rewrite (send_sent o') by auto. reflexivity.
Qed.

Lemma get_is_connect p level : In (lit "GET") (map lit (permitted p level)) -> p = PConnect.
Proof. destruct p; [reflexivity| |]; cbn; intuition discriminate. Qed.

Lemma removeprefix_suffix p s : exists x, s = x ++ removeprefix p s.
Proof.
  unfold removeprefix. destruct (startswith p s) eqn:E; [|now exists []]. apply starts_split in E. destruct E as [r ->].
  exists p. now rewrite skipn_app, skipn_all, Nat.sub_diag.
Qed.

Lemma found_key {A B} (ap : app A B) sc ep : find_endpoint ap sc = Ok ep ->
  exists key x, dget (ap_endpoints ap) key = Some ep /\ sc_path sc = x ++ key.
Proof.
  unfold find_endpoint. destruct (dget (ap_endpoints ap) (sc_path sc)) as [e|] eqn:D.
  - intro H. injection H as <-. exists (sc_path sc), []. now split.
  - destruct (sc_root sc) as [[|c r]|]; try discriminate. destruct (dget (ap_endpoints ap) (removeprefix (c :: r) (sc_path sc))) as [e|] eqn:D'; [|discriminate].
    intro H. injection H as <-. destruct (removeprefix_suffix (c :: r) (sc_path sc)) as [x Hx]. exists (removeprefix (c :: r) (sc_path sc)), x. now split.
Qed.

(** Proved for methods that take one message and responses with status 200; the rest is refuted below.  Whatever the client, the clock, the header lines that Vary does not name, and the speed of the network, the server would have sent what
    the cache has stored. *)
Theorem C73_asgi_partial : forall A B (ap : app A B) now now' sc sc' en en' hs tr rest,
  same_url sc sc' -> sc_method sc = lit "GET" -> sc_method sc' = lit "GET" ->
  context_free ap (sc_path sc) -> plain_compressions ap -> sends_ok (en_send en) -> sends_ok (en_send en') ->
  ar_events (asgi_call ap now sc en) = EvStart 200 hs tr :: rest ->
  (forall k, varies_on hs k -> same_lines k sc sc') ->
  asgi_status (ar_events (asgi_call ap now' sc' en')) = Some 200 ->
  ar_events (asgi_call ap now' sc' en') = ar_events (asgi_call ap now sc en).
Proof.
  intros A B ap now now' sc sc' en en' hs tr rest (Up&Ur&Uq) M M' Cf Pl So So' Ev Va St'.
  assert (St : asgi_status (ar_events (asgi_call ap now sc en)) = Some 200) by now rewrite Ev.
  unfold asgi_call in Ev, St, St' |- *. cbv zeta in Ev, St, St' |- *.
  destruct (open_request ap now sc) as [[[[ep h] p] cx]|e] eqn:O.
  2:{ exfalso. exact (call_error_status en [] 0 e None So (open_not_ok _ _ _ _ O) St). }
  destruct (open_request ap now' sc') as [[[[ep' h'] p'] cx']|e] eqn:O'.
  2:{ exfalso. exact (call_error_status en' [] 0 e None So' (open_not_ok _ _ _ _ O') St'). }
  apply open_request_ok in O, O'. destruct O as (F&P&Np&_&cl&C). destruct O' as (F'&P'&Np'&_&cl'&C').
  apply create_context_ok in C, C'. destruct C as (C&_). destruct C' as (C'&_). rewrite M in C. rewrite M' in C'.
  apply get_is_connect in C, C'. rewrite C in *. rewrite C' in *. clear C C' Np Np'.
  assert (ep' = ep).
  { unfold find_endpoint in F, F'. rewrite Up, Ur in F'. congruence. }
  subst ep'. destruct (found_key _ _ _ F) as (key&x&D&Hk). pose proof (Cf key ep D (ex_intro _ x (or_intror Hk))) as Ig.
  destruct ep as [m f|m f|m f|m f]; try contradiction. cbn [ignores_context] in Ig.
  unfold select_codec in Ev, St, St' |- *. rewrite M in Ev, St |- *. rewrite M' in St' |- *. rewrite Uq in St' |- *.
  rewrite str_eqb_refl in Ev, St, St' |- *.
  destruct (utf8_decode (sc_query sc)) as [qs|]; cbn [bind] in Ev, St, St' |- *.
  2:{ now rewrite (call_error_same en' en). }
  cbv zeta in Ev, St, St' |- *. cbn [fst snd] in Ev, St, St' |- *.
  destruct (dget (ap_codecs ap) _) as [k|]; [|now rewrite (call_error_same en' en)].
  unfold handle_unary_connect in Ev, St, St' |- *. rewrite str_eqb_refl in Ev, St, St' |- *. cbv zeta in Ev, St, St' |- *.
  destruct (read_get_request ap k (parse_qs qs)) as [a|e]; [|now rewrite (call_error_same en' en)].
  rewrite (Ig a cx' cx) in *. destruct (run_fn (f a cx) ([], None) rs_new) as [[b|[e|]] rs]; [|now rewrite (call_error_same en' en)|reflexivity].
  destruct (unary_response_cases ap (en_send en) k (h_get_default h (lit "accept-encoding") []) b rs 0 So Pl) as [(hs1&body&n1&R&V&Same)|(e&R&Ne)].
  - rewrite R in Ev, St |- *. cbn [ar_events as_ev] in Ev |- *. injection Ev as <- <- <-.
    rewrite (same_accept _ h h' sc sc' P P' (Va _ V)). rewrite (Same (en_send en') So'), R. reflexivity.
  - rewrite R in St |- *. destruct Ne as [Ne|Ne].
    + exfalso. exact (call_error_status en _ 0 e _ So Ne St).
    + rewrite Ne. now rewrite (call_error_same en' en).
Qed.
Print Assumptions C73_asgi_partial.

(** ** WSGI *)

Lemma status_line_200 n phrase : status_line n phrase = lit "200 OK" -> n = 200.
Proof.
  unfold status_line. change (lit " " ++ phrase) with (32 :: phrase). intro H. apply (f_equal before_space) in H.
  rewrite before_space_app in H by apply dec_of_N_digits. apply (f_equal digits_val) in H. rewrite dec_of_N_val in H. exact H.
Qed.

Lemma some_inj {X} (a b : X) : Some a = Some b -> a = b.
Proof. now intros [=]. Qed.

Lemma wsgi_error_same {A} q q' (inv : list (invoked A)) e ctx st :
  wsgi_status (wr_events (wsgi_call_error q inv [] e ctx)) = Some st -> wsgi_status (wr_events (wsgi_call_error q' inv [] e ctx)) = Some st ->
  wr_events (wsgi_call_error q' inv [] e ctx) = wr_events (wsgi_call_error q inv [] e ctx).
Proof.
  unfold wsgi_call_error. destruct (drain q 1); [discriminate|]. destruct (drain q' 1); [discriminate|]. reflexivity.
Qed.

Lemma wsgi_error_status {A} q (inv : list (invoked A)) e ctx : not_ok e ->
  wsgi_status (wr_events (wsgi_call_error q inv [] e ctx)) <> Some (lit "200 OK").
Proof.
  intros Ne. unfold wsgi_call_error. destruct (drain q 1); [discriminate|]. cbv zeta. cbn [List.app].
  assert (L : forall out, without_logs (maybe_log e ++ out) = without_logs out) by (intro out; unfold maybe_log; now destruct (is_connect e || is_http e)).
  unfold wsgi_status, wsgi_handle_error. destruct e as [c m ds|st hs|kd m].
  - cbv zeta. destruct (we_to_json_bytes _); cbn [bind wr_events]; [|discriminate]. rewrite L. cbn [without_logs]. intro H. apply some_inj, status_line_200 in H. now apply (C16_status (EConnect c m ds)) in H.
  - cbn [bind wr_events]. rewrite L. cbn [without_logs]. intro H. apply some_inj, status_line_200 in H. subst st. now apply (Ne hs).
  - cbv zeta. destruct (we_to_json_bytes _); cbn [bind wr_events]; [|rewrite <- (app_nil_r (maybe_log _)), L; discriminate]. rewrite L. cbn [without_logs]. intro H. apply some_inj, status_line_200 in H. now apply (C16_status (EOther kd m)) in H.
Qed.

Lemma same_cgi k q q' : cgi_environ q -> cgi_environ q' -> cgi_value q' k = cgi_value q k ->
  forall d, h_get_default (wsgi_headers q') k d = h_get_default (wsgi_headers q) k d.
Proof.
  intros C C' E d. assert (G : h_get (wsgi_headers q') k = h_get (wsgi_headers q) k) by now rewrite !get_hd, !wsgi_values, E.
  unfold h_get in G. unfold h_get_default. destruct (h_getitem (wsgi_headers q') k), (h_getitem (wsgi_headers q) k); congruence.
Qed.

Lemma wsgi_found_key {A B} (ap : app A B) q ep : wsgi_find_endpoint ap q = Ok ep ->
  exists path key x, env_get q "PATH_INFO" = Some path /\ dget (ap_endpoints ap) key = Some ep /\ key = x ++ path.
Proof.
  unfold wsgi_find_endpoint, env_item. destruct (env_get q "PATH_INFO") as [path|]; cbn [bind]; [|discriminate]. cbv zeta. intro H.
  exists path. destruct path as [|c path].
  - assert (K : exists key, dget (ap_endpoints ap) key = Some ep).
    { destruct (dget (ap_endpoints ap) (lit "/")) eqn:D; [injection H as <-; eauto|].
      destruct (env_get q "SCRIPT_NAME"); cbn [bind] in H; [|discriminate]. destruct (str_eqb _ _); [|discriminate].
      destruct (dget (ap_endpoints ap) (ap_path ap ++ lit "/")) eqn:D'; [injection H as <-; eauto|discriminate]. }
    destruct K as [key K]. exists key, key. now rewrite app_nil_r.
  - destruct (dget (ap_endpoints ap) (c :: path)) eqn:D; [injection H as <-; exists (c :: path), []; auto|].
    destruct (env_get q "SCRIPT_NAME"); cbn [bind] in H; [|discriminate]. destruct (str_eqb _ _); [|discriminate].
    destruct (dget (ap_endpoints ap) (ap_path ap ++ c :: path)) eqn:D'; [injection H as <-|discriminate]. exists (ap_path ap ++ c :: path), (ap_path ap). auto.
Qed.

(** The same of a WSGI server. *)
Theorem C73_wsgi_partial : forall A B (ap : app A B) now now' q q' path hs rest,
  cgi_environ q -> cgi_environ q' -> same_place q q' ->
  env_get q "REQUEST_METHOD" = Some (lit "GET") -> env_get q' "REQUEST_METHOD" = Some (lit "GET") ->
  env_get q "PATH_INFO" = Some path -> context_free ap path -> plain_compressions ap ->
  without_logs (wr_events (wsgi_call ap now q)) = WStart (lit "200 OK") hs :: rest ->
  (forall k, varies_on hs k -> cgi_value q' k = cgi_value q k) ->
  wsgi_status (wr_events (wsgi_call ap now' q')) = Some (lit "200 OK") ->
  wr_events (wsgi_call ap now' q') = wr_events (wsgi_call ap now q).
Proof.
  intros A B ap now now' q q' path hs rest Cq Cq' (Us&Up&Uq) M M' Pa Cf Pl Ev Va St'.
  assert (St : wsgi_status (wr_events (wsgi_call ap now q)) = Some (lit "200 OK")) by (unfold wsgi_status; now rewrite Ev).
  unfold wsgi_call in Ev, St, St' |- *.
  destruct (wsgi_open_request ap now q) as [[[[ep h] p] cx]|e] eqn:O.
  2:{ exfalso. exact (wsgi_error_status q [] e None (wsgi_open_not_ok _ _ _ _ O) St). }
  destruct (wsgi_open_request ap now' q') as [[[[ep' h'] p'] cx']|e] eqn:O'.
  2:{ exfalso. exact (wsgi_error_status q' [] e None (wsgi_open_not_ok _ _ _ _ O') St'). }
  apply wsgi_open_request_ok in O, O'. destruct O as (ht&F&Hm&->&Np&_&sch&cl&C). destruct O' as (ht'&F'&Hm'&->&Np'&_&sch'&cl'&C').
  rewrite M in Hm. injection Hm as <-. rewrite M' in Hm'. injection Hm' as <-.
  apply create_context_ok in C, C'. destruct C as (C&_&_&Ch). destruct C' as (C'&_&_&Ch').
  apply get_is_connect in C, C'. rewrite C in *. rewrite C' in *. clear C C' Np Np'.
  assert (ep' = ep).
  { unfold wsgi_find_endpoint, env_item in F, F'. unfold same_variable in Us, Up. rewrite Up, Us in F'. congruence. }
  subst ep'. destruct (wsgi_found_key _ _ _ F) as (path'&key&x&Pa'&D&Hk). rewrite Pa in Pa'. injection Pa' as <-.
  pose proof (Cf key ep D (ex_intro _ x (or_introl Hk))) as Ig.
  destruct ep as [m f|m f|m f|m f]; try contradiction. cbn [ignores_context] in Ig.
  unfold wsgi_unary in Ev, St, St' |- *. rewrite Ch in Ev, St |- *. rewrite Ch' in St' |- *. rewrite str_eqb_refl in Ev, St, St' |- *.
  assert (G : wsgi_get_request ap q' = wsgi_get_request ap q).
  { unfold wsgi_get_request, env_default. now rewrite Uq. }
  rewrite G in St' |- *. clear G.
  destruct (wsgi_get_request ap q) as [[a k]|e]; [|exact (wsgi_error_same q q' _ _ _ _ St St')].
  rewrite (Ig a cx' cx) in *. destruct (run_fn (f a cx) ([], None) rs_new) as [[b|[e|]] rs]; [|exact (wsgi_error_same q q' _ _ _ _ St St')|discriminate].
  destruct (k_enc_res k b) as [body|e]; cbn [bind] in Ev, St, St' |- *; [|exact (wsgi_error_same q q' _ _ _ _ St St')]. cbv zeta in Ev, St, St' |- *.
  destruct (z_compress (negotiate_compression (h_get_default (wsgi_headers q) _ _) _) body) as [body'|e] eqn:Ez; cbn [bind] in Ev, St |- *.
  2:{ exfalso. exact (wsgi_error_status q _ e _ (compress_not_ok _ _ _ _ Pl Ez) St). }
  cbn [wr_events without_logs] in Ev. injection Ev as <- <-.
  assert (V : cgi_value q' (lit "accept-encoding") = cgi_value q (lit "accept-encoding")).
  { apply Va. apply (vary_encoded (lit "accept-encoding") _ _ (context_headers rs)). left. reflexivity. }
  rewrite (same_cgi _ q q' Cq Cq' V). rewrite Ez. reflexivity.
Qed.
Print Assumptions C73_wsgi_partial.

(** ** Example: two clients that differ in everything but the URL and the encodings they accept *)
Definition ex_gz : compression := mk_comp (lit "gz") false (fun b => Ok (1 :: b)) (fun b => Ok (tl b)).
Definition ex_gz_app (ep : endpoint pystr pystr) : app pystr pystr := app_new (lit "/pkg.Svc") [(lit "/pkg.Svc/Get", ep)] (Some 1000) [ex_gz] [ex_codec] ex_sc.
Lemma ex_gz_only ep key ep' : dget (ap_endpoints (ex_gz_app ep)) key = Some ep' -> ep' = ep.
Proof.
  change (dget [(lit "/pkg.Svc/Get", ep)] key = Some ep' -> ep' = ep). cbn [dget]. destruct (str_eqb _ key); [|discriminate]. intro H. now injection H.
Qed.
Definition ex_get (hs : list (string * string)) : scope :=
  mk_scope (lit "/pkg.Svc/Get") (Some []) (lit "GET") (lit "http") (map (fun kv => (lit (fst kv), lit (snd kv))) hs) None (lit "encoding=proto&message=x") true.
Definition ex_wget (hs : list (string * string)) : wsgi_request :=
  mk_wq ([(lit "PATH_INFO", lit "/pkg.Svc/Get"); (lit "SCRIPT_NAME", []); (lit "REQUEST_METHOD", lit "GET"); (lit "QUERY_STRING", lit "encoding=proto&message=x")]
         ++ map (fun kv => (lit (fst kv), lit (snd kv))) hs) [] true (fun _ => None).

Example C73_example :
  let ap := ex_gz_app ex_echo in
  let sc := ex_get [("accept-encoding", "gz"); ("user-agent", "a")]%string in
  let sc' := ex_get [("user-agent", "b"); ("connect-timeout-ms", "5"); ("Accept-Encoding", "gz")]%string in
  let q := ex_wget [("HTTP_ACCEPT_ENCODING", "gz")]%string in
  let q' := ex_wget [("HTTP_USER_AGENT", "b"); ("HTTP_ACCEPT_ENCODING", "gz")]%string in
  (exists hs, ar_events (asgi_call ap 0%Z sc ex_env) = [EvStart 200 hs false; EvBody (1 :: lit "x") false]
     /\ (varies_on hs (lit "accept-encoding") /\ ~ varies_on hs (lit "user-agent")))
  /\ same_url sc sc' /\ same_lines (lit "accept-encoding") sc sc' /\ ~ same_lines (lit "user-agent") sc sc'
  /\ (exists hs, wr_events (wsgi_call ap 0%Z q) = [WStart (lit "200 OK") hs; WBody (1 :: lit "x")])
  /\ same_place q q' /\ cgi_environ q /\ cgi_environ q' /\ cgi_value q' (lit "accept-encoding") = cgi_value q (lit "accept-encoding")
  /\ context_free ap (lit "/pkg.Svc/Get") /\ plain_compressions ap
  /\ ar_events (asgi_call ap 0%Z (ex_get []) ex_env) <> ar_events (asgi_call ap 0%Z sc ex_env).
Proof.
  cbv zeta.
  assert (Dec : forall hs lines, Forall2 line_text (map (fun kv : string * string => (lit (fst kv), lit (snd kv))) hs) lines ->
    forallb (fun kv : string * string => match utf8_decode (lit (fst kv)), utf8_decode (lit (snd kv)) with
                    | Some a, Some b => str_eqb a (lit (fst kv)) && str_eqb b (lit (snd kv)) | _, _ => false end) hs = true ->
    lines = map (fun kv => (lit (fst kv), lit (snd kv))) hs).
  { intros hs lines F. remember (map _ hs) as l eqn:El. revert hs El. induction F as [|x [c d] l lines [E1 E2] F IH]; intros [|[a b] hs] El Fb; try discriminate; [reflexivity|].
    cbn [map fst snd] in El. injection El as -> El. cbn [fst snd] in E1, E2. cbn [forallb fst snd] in Fb. rewrite E1, E2 in Fb.
    apply andb_prop in Fb. destruct Fb as [Fb Fr]. apply andb_prop in Fb. destruct Fb as [Fa Fb].
    destruct (str_eqb_spec c (lit a)) as [->|]; [|discriminate]. destruct (str_eqb_spec d (lit b)) as [->|]; [|discriminate].
    f_equal. exact (IH hs El Fr). }
  split; [|split; [|split; [|split; [|split; [|split; [|split; [|split; [|split; [|split; [|split]]]]]]]]]].
  - eexists. split; [vm_compute; reflexivity|]. split.
    + exists (lit "Accept-Encoding"), (lit "Accept-Encoding"). split; [left; reflexivity|]. split; [left; reflexivity|reflexivity].
    + intros (v&piece&Hv&Hp&E). vm_compute in Hv. destruct Hv as [<-|[]]. vm_compute in Hp. destruct Hp as [<-|[]]. discriminate.
  - now repeat split.
  - intros l l' F F'. rewrite (Dec [("accept-encoding", "gz"); ("user-agent", "a")]%string l F eq_refl).
    rewrite (Dec [("user-agent", "b"); ("connect-timeout-ms", "5"); ("Accept-Encoding", "gz")]%string l' F' eq_refl). reflexivity.
  - intro H. specialize (H [(lit "accept-encoding", lit "gz"); (lit "user-agent", lit "a")]
      [(lit "user-agent", lit "b"); (lit "connect-timeout-ms", lit "5"); (lit "Accept-Encoding", lit "gz")]).
    assert (X : [lit "b"] = [lit "a"]) by (apply H; repeat constructor). discriminate.
  - eexists. vm_compute. reflexivity.
  - now repeat split.
  - split; [unfold dkeys; cbn; repeat constructor; cbn; intuition discriminate|].
    intros key H S. cbn in H. repeat destruct H as [<-|H]; try discriminate; try contradiction. now exists (lit "accept-encoding").
  - split; [unfold dkeys; cbn; repeat constructor; cbn; intuition discriminate|].
    intros key H S. cbn in H. repeat destruct H as [<-|H]; try discriminate; try contradiction; [now exists (lit "user-agent")|now exists (lit "accept-encoding")].
  - reflexivity.
  - intros key ep D _. apply ex_gz_only in D. subst ep. intros a cx cx'. reflexivity.
  - intros n z b st hs D H.
    change (dget [(lit "gz", ex_gz); (lit "identity", identity_comp)] n = Some z) in D. cbn [dget] in D.
    destruct (str_eqb _ n); [injection D as <-; discriminate|]. destruct (str_eqb _ n); [injection D as <-; discriminate|discriminate].
  - vm_compute. discriminate.
Qed.

(** Finding: the response to a GET request for a streaming method that has no side effects is not marked with Vary, although it is encoded as the
    Connect-Accept-Encoding header of the request asks. *)
Theorem C73_stream_refuted : exists (ap : app pystr pystr) sc sc' hs rest,
  same_url sc sc' /\ sc_method sc = lit "GET" /\ sc_method sc' = lit "GET"
  /\ (forall key ep, dget (ap_endpoints ap) key = Some ep -> exists m, ep = EpClientStream m (fun _ => Ret (lit "x")))
  /\ ar_events (asgi_call ap 0%Z sc ex_env) = EvStart 200 hs false :: rest /\ values_in hs (lit "vary") = []
  /\ asgi_status (ar_events (asgi_call ap 0%Z sc' ex_env)) = Some 200
  /\ ar_events (asgi_call ap 0%Z sc' ex_env) <> ar_events (asgi_call ap 0%Z sc ex_env).
Proof.
  exists (ex_gz_app (EpClientStream ex_method (fun _ => Ret (lit "x")))), (ex_get [("connect-accept-encoding", "gz")]%string), (ex_get []).
  eexists _, _. split; [now repeat split|]. split; [reflexivity|]. split; [reflexivity|]. split.
  - intros key ep D. apply ex_gz_only in D. subst ep. now eexists.
  - split; [vm_compute; reflexivity|]. split; [reflexivity|]. split; [reflexivity|]. vm_compute. discriminate.
Qed.
Print Assumptions C73_stream_refuted.

(** Finding: a GET request is refused with 405 because of its Content-Type, and the response, which a cache may store, is not marked with Vary. *)
Theorem C73_refused_refuted : exists (ap : app pystr pystr) sc sc' hs rest,
  same_url sc sc' /\ sc_method sc = lit "GET" /\ sc_method sc' = lit "GET" /\ context_free ap (sc_path sc)
  /\ ar_events (asgi_call ap 0%Z sc ex_env) = EvStart 405 hs false :: rest /\ values_in hs (lit "vary") = []
  /\ asgi_status (ar_events (asgi_call ap 0%Z sc' ex_env)) = Some 200.
Proof.
  exists (ex_gz_app ex_echo), (ex_get [("content-type", "application/grpc")]%string), (ex_get []).
  eexists _, _. split; [now repeat split|]. split; [reflexivity|]. split; [reflexivity|]. split.
  - intros key ep D _. apply ex_gz_only in D. subst ep. intros a cx cx'. reflexivity.
  - split; [vm_compute; reflexivity|]. now split.
Qed.
Print Assumptions C73_refused_refuted.
