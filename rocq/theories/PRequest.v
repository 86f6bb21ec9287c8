(** C35-C38, C43, C44, C56 and the server side of C07: which requests reach a method, and how the others are answered. *)
From Coq Require Import List NArith ZArith Bool String Lia ZifyBool ZifyNat.
From Verif Require Import MBase MPyStr MHeaders LBase MUtf8 MBase64 MPercent MWire MEnvelope SEnvelope MTimeout MProtocol SProtocol MClient MServer MAsgi MWsgi SServer
  LServer LStream LWsgi LRequest LEnvelope PProtocol PResponse.
Import ListNotations.
Local Open Scope N_scope.

(** ** C35: unknown request compression *)

(** Full statement: a request whose compression the server does not have runs no method and is answered UNIMPLEMENTED.
    Proved for unary Connect requests and for gRPC and gRPC-Web; false for Connect streams ([C35_connect_streams_refuted]). *)
Theorem C35_asgi_post_partial {A B} (ap : app A B) now sc en f hs cx params k chunks :
  asgi_unary_request ap now sc f hs cx params k -> sc_method sc = lit "POST" ->
  sends_ok (en_send en) -> read_body (en_recv en) = (chunks, None) ->
  dget (ap_comps ap) (lower (h_get_default hs (lit "content-encoding") (lit "identity"))) = None ->
  let r := asgi_call ap now sc en in ar_inv r = [] /\ ar_out r = AReturn /\ asgi_error (ar_events r) Unimplemented.
Proof.
  intros Hq Hm So Hb Hc. cbv zeta.
  rewrite (asgi_unary_rejected ap now sc en f hs cx params k
             (unknown_compression ap (lower (h_get_default hs (lit "content-encoding") (lit "identity")))) Hq).
  2:{ rewrite Hm. change (str_eqb (lit "POST") (lit "GET")) with false. unfold read_post_request. rewrite Hb. cbv zeta. now rewrite Hc. }
  destruct (call_error_connect (A := A) en [] Unimplemented (lit "unknown compression: '" ++ lower (h_get_default hs (lit "content-encoding") (lit "identity"))
      ++ lit "': supported encodings are " ++ comp_names (ap_comps ap)) (Some rs_new) So (or_intror eq_refl)) as (ev&E&He).
  unfold unknown_compression. rewrite E. auto.
Qed.
Print Assumptions C35_asgi_post_partial.

Theorem C35_asgi_get_partial {A B} (ap : app A B) now sc en f hs cx params k message data name :
  asgi_unary_request ap now sc f hs cx params k -> sc_method sc = lit "GET" ->
  sends_ok (en_send en) ->
  param params (lit "message") = Some message ->
  (if match param params (lit "base64") with Some v => str_eqb v (lit "1") | None => false end
   then urlsafe_b64decode (message ++ lit "===") else utf8_encode message) = Some data ->
  param params (lit "compression") = Some name -> dget (ap_comps ap) name = None ->
  let r := asgi_call ap now sc en in ar_inv r = [] /\ ar_out r = AReturn /\ asgi_error (ar_events r) Unimplemented.
Proof.
  intros Hq Hm So Hmsg Hd Hn Hc. cbv zeta.
  rewrite (asgi_unary_rejected ap now sc en f hs cx params k (unknown_compression ap name) Hq).
  2:{ rewrite Hm. change (str_eqb (lit "GET") (lit "GET")) with true. cbn iota. unfold read_get_request. rewrite Hmsg.
      destruct (match param params (lit "base64") with Some _ => _ | None => _ end).
      - rewrite Hd. cbn [bind]. cbv zeta. now rewrite Hn, Hc.
      - unfold encode_str. rewrite Hd. cbn [bind]. cbv zeta. now rewrite Hn, Hc. }
  destruct (call_error_connect (A := A) en [] Unimplemented (lit "unknown compression: '" ++ name ++ lit "': supported encodings are "
     ++ comp_names (ap_comps ap)) (Some rs_new) So (or_intror eq_refl)) as (ev&E&He).
  unfold unknown_compression. rewrite E. auto.
Qed.
Print Assumptions C35_asgi_get_partial.

(** gRPC and gRPC-Web: the response is the end of a stream with code UNIMPLEMENTED; for gRPC these are the trailers. *)
Theorem C35_asgi_grpc_partial {A B} (ap : app A B) now sc en ep hs p cx k z :
  asgi_stream_request ap now sc ep hs p cx k -> p <> PConnect -> sends_ok (en_send en) -> unwatched ep en 0 ->
  dget (ap_comps ap) (h_get_default hs (lit "grpc-encoding") (lit "identity")) = None ->
  z = snd (negotiate_stream_compression p hs (ap_comps ap)) ->
  asgi_refusal ap p k z (EConnect Unimplemented (lit "Unrecognized request compression") []) (asgi_call ap now sc en)
  /\ (p = PGrpc -> forall head, encode_pairs (stream_headers p (k_name k) (z_name z) rs_new) = Ok head ->
      ar_events (asgi_call ap now sc en)
      = [EvStart 200 head true; EvBody [] false;
         EvTrailers [(lit "grpc-status", lit "12"); (lit "grpc-message", lit "Unrecognized%20request%20compression")]]).
Proof.
  intros Hq Hp So Hu Hc ->.
  assert (Hn : negotiate_stream_compression p hs (ap_comps ap) = (None, snd (negotiate_stream_compression p hs (ap_comps ap)))).
  { unfold negotiate_stream_compression. cbv zeta. cbn [snd]. destruct p; [congruence| |]; cbn [compression_header_name]; now rewrite Hc. }
  pose proof (asgi_refused ap now sc en ep hs p cx k None _ unknown_stream_compression Hq So Hn ltac:(cbn; auto) Hu) as R.
  split; [exact R|]. intros -> head Hh. destruct R as [_ R].
  rewrite (R head (EndTrailers (h_of_pairs [(lit "grpc-status", lit "12"); (lit "grpc-message", lit "Unrecognized%20request%20compression")]))
             [(lit "grpc-status", lit "12"); (lit "grpc-message", lit "Unrecognized%20request%20compression")] Hh).
  - reflexivity.
  - reflexivity.
  - intros t E. injection E as <-. reflexivity.
Qed.
Print Assumptions C35_asgi_grpc_partial.

(** What the reading of a WSGI body gives: the declared number of bytes, or everything without a declared length. *)
Definition wsgi_read (q : wsgi_request) (body : bytes) : Prop :=
  exists n, (match env_get q "CONTENT_LENGTH" with None | Some [] => Some 0%Z | Some s => int_of_str s end) = Some n
    /\ (if (0 <? n)%Z then read_body_with_content_length (Z.to_N n) (wq_input q) = Ok body
        else exists cs, wsgi_body q = (cs, None) /\ body = List.concat cs).

Lemma wsgi_read_do {A B X} (ap : app A B) q body (rest : bytes -> res X) : wsgi_read q body ->
  (do n <- match env_get q "CONTENT_LENGTH" with
           | None | Some [] => Ok 0%Z
           | Some s => match int_of_str s with
                       | Some n => Ok n
                       | None => Raise (EOther KValue (lit "invalid literal for int() with base 10: '" ++ s ++ lit "'"))
                       end
           end ;
   do body <- (if (0 <? n)%Z then read_body_with_content_length (Z.to_N n) (wq_input q)
               else match wsgi_body q with (_, Some e) => Raise e | (cs, None) => Ok (List.concat cs) end) ;
   rest body) = rest body.
Proof.
  intros (n&Hn&Hb).
  assert (E : match env_get q "CONTENT_LENGTH" with
           | None | Some [] => Ok 0%Z
           | Some s => match int_of_str s with
                       | Some n => Ok n
                       | None => Raise (EOther KValue (lit "invalid literal for int() with base 10: '" ++ s ++ lit "'"))
                       end
           end = Ok n).
  { destruct (env_get q "CONTENT_LENGTH") as [[|c s]|]; [injection Hn as <-; reflexivity|now rewrite Hn|injection Hn as <-; reflexivity]. }
  rewrite E. cbn [bind]. destruct (0 <? n)%Z.
  - now rewrite Hb.
  - destruct Hb as (cs&Hb&->). now rewrite Hb.
Qed.

Theorem C35_wsgi_post_partial {A B} (ap : app A B) now q f hs cx k body :
  wsgi_unary_request ap now q f hs cx -> cx_http cx = lit "POST" -> drain q 1 = None ->
  dget (ap_codecs ap) (codec_name_from_content_type PConnect false (h_get_default hs (lit "content-type") [])) = Some k ->
  wsgi_read q body ->
  lower (env_default q "HTTP_CONTENT_ENCODING" (lit "identity")) <> lit "identity" ->
  dget (ap_comps ap) (lower (env_default q "HTTP_CONTENT_ENCODING" (lit "identity"))) = None ->
  let r := wsgi_call ap now q in wr_inv r = [] /\ wr_out r = WReturn /\ wsgi_error (wr_events r) Unimplemented.
Proof.
  intros Hq Hm Hd Hk Hr Hi Hc. cbv zeta.
  rewrite (wsgi_unary_rejected ap now q f hs cx
     (unknown_compression ap (lower (env_default q "HTTP_CONTENT_ENCODING" (lit "identity")))) Hq).
  2:{ rewrite Hm. change (str_eqb (lit "POST") (lit "GET")) with false. cbn iota. unfold wsgi_post_request. rewrite Hk.
      rewrite (wsgi_read_do ap q body _ Hr). cbv zeta. apply str_eqb_neq in Hi. rewrite Hi, Hc. reflexivity. }
  destruct (wsgi_call_error_connect (A := A) q [] Unimplemented (lit "unknown compression: '" ++ lower (env_default q "HTTP_CONTENT_ENCODING" (lit "identity"))
      ++ lit "': supported encodings are " ++ comp_names (ap_comps ap)) (Some rs_new) Hd (or_intror eq_refl)) as (ev&E&He).
  unfold unknown_compression. rewrite E. auto.
Qed.
Print Assumptions C35_wsgi_post_partial.

Theorem C35_wsgi_get_partial {A B} (ap : app A B) now q f hs cx message data name :
  let params := parse_qs (env_default q "QUERY_STRING" []) in
  wsgi_unary_request ap now q f hs cx -> cx_http cx = lit "GET" -> drain q 1 = None ->
  param params (lit "message") = Some message ->
  (if match param params (lit "base64") with Some v => str_eqb v (lit "1") | None => false end
   then urlsafe_b64decode (message ++ lit "===") else utf8_encode message) = Some data ->
  param params (lit "compression") = Some name -> dget (ap_comps ap) name = None ->
  let r := wsgi_call ap now q in wr_inv r = [] /\ wr_out r = WReturn /\ wsgi_error (wr_events r) Unimplemented.
Proof.
  intros params Hq Hm Hd Hmsg Hdata Hn Hc. cbv zeta.
  rewrite (wsgi_unary_rejected ap now q f hs cx (unknown_compression ap name) Hq).
  2:{ rewrite Hm. change (str_eqb (lit "GET") (lit "GET")) with true. cbn iota. unfold wsgi_get_request. cbv zeta. fold params. rewrite Hmsg.
      destruct (match param params (lit "base64") with Some _ => _ | None => _ end); rewrite Hdata; cbn [bind]; now rewrite Hn, Hc. }
  destruct (wsgi_call_error_connect (A := A) q [] Unimplemented (lit "unknown compression: '" ++ name ++ lit "': supported encodings are "
     ++ comp_names (ap_comps ap)) (Some rs_new) Hd (or_intror eq_refl)) as (ev&E&He).
  unfold unknown_compression. rewrite E. auto.
Qed.
Print Assumptions C35_wsgi_get_partial.

Theorem C35_wsgi_grpc_partial {A B} (ap : app A B) now q ep hs p cx k z :
  wsgi_stream_request ap now q ep hs p cx k -> p <> PConnect -> drain q 0 = None -> drain q 2 = None ->
  dget (ap_comps ap) (h_get_default hs (lit "grpc-encoding") (lit "identity")) = None ->
  z = snd (negotiate_stream_compression p hs (ap_comps ap)) ->
  wsgi_refusal ap p k z (EConnect Unimplemented (lit "Unrecognized request compression") []) (wsgi_call ap now q)
  /\ (p = PGrpc ->
      without_logs (wr_events (wsgi_call ap now q))
      = [WStart (lit "200 OK") (stream_headers p (k_name k) (z_name z) rs_new);
         WTrailers [(lit "grpc-status", lit "12"); (lit "grpc-message", lit "Unrecognized%20request%20compression")]; WBody []]).
Proof.
  intros Hq Hp D0 D2 Hc ->.
  assert (Hn : negotiate_stream_compression p hs (ap_comps ap) = (None, snd (negotiate_stream_compression p hs (ap_comps ap)))).
  { unfold negotiate_stream_compression. cbv zeta. cbn [snd]. destruct p; [congruence| |]; cbn [compression_header_name]; now rewrite Hc. }
  pose proof (wsgi_refused ap now q ep hs p cx k None _ unknown_stream_compression Hq D0 D2 Hn ltac:(cbn; auto)) as R.
  split; [exact R|]. intros ->. destruct R as [_ R].
  rewrite (R (EndTrailers (h_of_pairs [(lit "grpc-status", lit "12"); (lit "grpc-message", lit "Unrecognized%20request%20compression")])));
    reflexivity.
Qed.
Print Assumptions C35_wsgi_grpc_partial.

Definition ex_scope_with (http ct : string) (hs : list (string * string)) (query : string) : scope :=
  mk_scope (lit "/pkg.Svc/Get") (Some []) (lit http) (lit "http")
    ((lit "content-type", lit ct) :: map (fun kv => (lit (fst kv), lit (snd kv))) hs) None (lit query) true.
Definition ex_wq_with (http ct : string) (en : list (string * string)) (body : list rd) : wsgi_request :=
  mk_wq (wq_env (ex_wq http ct) ++ map (fun kv => (lit (fst kv), lit (snd kv))) en) body true (fun _ => None).

Example C35_example :
  let ap := ex_app ex_echo in
  (exists hs cx f, asgi_unary_request ap 0%Z (ex_scope_with "POST" "application/proto" [("content-encoding", "br")] "") f hs cx [] ex_codec
     /\ dget (ap_comps ap) (lower (h_get_default hs (lit "content-encoding") (lit "identity"))) = None)%string
  /\ (exists hs cx f params, asgi_unary_request ap 0%Z (ex_scope_with "GET" "" [] "encoding=proto&message=x&compression=br") f hs cx params ex_codec
     /\ param params (lit "compression") = Some (lit "br") /\ param params (lit "message") = Some (lit "x"))
  /\ (exists hs cx, asgi_stream_request ap 0%Z (ex_scope_with "POST" "application/grpc" [("grpc-encoding", "br")] "") ex_echo hs PGrpc cx ex_codec
     /\ dget (ap_comps ap) (h_get_default hs (lit "grpc-encoding") (lit "identity")) = None)%string
  /\ (exists hs cx f, wsgi_unary_request ap 0%Z (ex_wq_with "POST" "application/proto" [("HTTP_CONTENT_ENCODING", "br"); ("CONTENT_LENGTH", "2")] [RD [1]; RD [2]]) f hs cx
     /\ wsgi_read (ex_wq_with "POST" "application/proto" [("HTTP_CONTENT_ENCODING", "br"); ("CONTENT_LENGTH", "2")] [RD [1]; RD [2]]) [1; 2])%string
  /\ (exists hs cx, wsgi_stream_request ap 0%Z (ex_wq_with "POST" "application/grpc" [("HTTP_GRPC_ENCODING", "br")] []) ex_echo hs PGrpc cx ex_codec
     /\ dget (ap_comps ap) (h_get_default hs (lit "grpc-encoding") (lit "identity")) = None)%string.
Proof.
  cbv zeta. split; [|split; [|split; [|split]]].
  - eexists _, _, _. split; [eexists; split; reflexivity|reflexivity].
  - eexists _, _, _, _. split; [eexists; split; reflexivity|]. split; reflexivity.
  - eexists _, _. split; [split; [reflexivity|]; split; [eexists; reflexivity|discriminate]|reflexivity].
  - eexists _, _, _. split; [eexists; reflexivity|]. exists 2%Z. split; reflexivity.
  - eexists _, _. split; [split; [reflexivity|]; split; [reflexivity|discriminate]|reflexivity].
Qed.

(** Finding: a Connect stream that declares an unknown encoding is read as if it were not compressed, and the method runs. *)
Theorem C35_connect_streams_refuted :
  exists (ap : app pystr pystr) sc en q ep hs cx k hs' cx' k' ,
    asgi_stream_request ap 0%Z sc ep hs PConnect cx k
    /\ dget (ap_comps ap) (h_get_default hs (lit "connect-content-encoding") (lit "identity")) = None
    /\ ar_inv (asgi_call ap 0%Z sc en) = [InvMsg (lit "a")]
    /\ wsgi_stream_request ap 0%Z q ep hs' PConnect cx' k'
    /\ dget (ap_comps ap) (h_get_default hs' (lit "connect-content-encoding") (lit "identity")) = None
    /\ wr_inv (wsgi_call ap 0%Z q) = [InvMsg (lit "a")].
Proof.
  set (ep := EpServerStream ex_method (fun a _ => Yield a quiet (Ret tt)) : endpoint pystr pystr).
  exists (ex_app ep), (ex_scope_with "POST" "application/connect+proto" [("connect-content-encoding", "br")]%string "").
  exists (mk_env [RReq [0; 0; 0; 0; 1; 97] false] None WIdle (fun _ => SOk)).
  exists (ex_wq_with "POST" "application/connect+proto" [("HTTP_CONNECT_CONTENT_ENCODING", "br")]%string [RD [0; 0; 0; 0; 1; 97]]).
  eexists ep, _, _, ex_codec, _, _, ex_codec.
  split; [split; [reflexivity|split; [eexists; reflexivity|reflexivity]]|]. split; [reflexivity|]. split; [reflexivity|].
  split; [split; [reflexivity|split; [reflexivity|reflexivity]]|]. split; reflexivity.
Qed.
Print Assumptions C35_connect_streams_refuted.

(** ** C36: HTTP methods *)

(** A method runs only for POST, or for GET if it is declared free of side effects and the protocol is Connect. *)
Theorem C36_asgi_permitted {A B} (ap : app A B) now sc en :
  ar_inv (asgi_call ap now sc en) <> [] ->
  exists ep, find_endpoint ap sc = Ok ep
    /\ (sc_method sc = lit "POST" \/ (sc_method sc = lit "GET" /\ mi_idem (ep_method ep) = NoSideEffects)).
Proof.
  intro H. unfold asgi_call in H. destruct (open_request ap now sc) as [[[[ep hs] p] cx]|e] eqn:O.
  2:{ rewrite call_error_inv in H. congruence. }
  apply open_request_ok in O. destruct O as (Hf&_&_&_&client&Hc). apply create_context_ok in Hc. destruct Hc as (Hm&_).
  exists ep. split; auto. unfold permitted in Hm. destruct p, (mi_idem (ep_method ep)); cbn [map In] in Hm;
    repeat match type of Hm with _ \/ _ => destruct Hm as [Hm|Hm] end; auto; try contradiction.
Qed.
Print Assumptions C36_asgi_permitted.

Theorem C36_wsgi_permitted {A B} (ap : app A B) now q :
  wr_inv (wsgi_call ap now q) <> [] ->
  exists ep http, wsgi_find_endpoint ap q = Ok ep /\ env_get q "REQUEST_METHOD" = Some http
    /\ (http = lit "POST" \/ (http = lit "GET" /\ mi_idem (ep_method ep) = NoSideEffects)).
Proof.
  intro H. unfold wsgi_call in H. destruct (wsgi_open_request ap now q) as [[[[ep hs] p] cx]|e] eqn:O.
  2:{ rewrite wsgi_call_error_inv in H. congruence. }
  apply wsgi_open_request_ok in O. destruct O as (http&Hf&Hh&_&_&_&scheme&client&Hc). apply create_context_ok in Hc. destruct Hc as (Hm&_).
  exists ep, http. split; auto. split; auto. unfold permitted in Hm. destruct p, (mi_idem (ep_method ep)); cbn [map In] in Hm;
    repeat match type of Hm with _ \/ _ => destruct Hm as [Hm|Hm] end; auto; try contradiction.
Qed.
Print Assumptions C36_wsgi_permitted.

(** Any other HTTP method gets 405 and the list of permitted ones. *)
Theorem C36_asgi_405 {A B} (ap : app A B) now sc en ep hs :
  find_endpoint ap sc = Ok ep -> process_headers h_empty (sc_headers sc) = Ok hs ->
  let p := negotiate_server_protocol (h_get_default hs (lit "content-type") []) in
  (p = PGrpc -> sc_trailers sc = true) ->
  ~ In (sc_method sc) (map lit (permitted p (mi_idem (ep_method ep)))) -> sends_ok (en_send en) ->
  asgi_call ap now sc en
  = mk_ar [] [EvStart 405 [(lit "allow", allow_header p (mi_idem (ep_method ep)))] false; EvBody [] false] AReturn.
Proof.
  intros Hf Hh p Ht Hm So. unfold asgi_call.
  assert (O : open_request ap now sc = Raise (EHttp 405 [(lit "allow", allow_header p (mi_idem (ep_method ep)))])).
  { unfold open_request. rewrite Hf. cbn [bind]. rewrite Hh. cbn [bind]. cbv zeta. fold p.
    assert (T : uses_trailers p && negb (sc_trailers sc) = false) by (destruct p; auto; rewrite Ht by reflexivity; reflexivity).
    rewrite T. unfold server_create_context. rewrite (check_method_refused _ _ _ Hm). reflexivity. }
  rewrite O. apply call_error_http; auto. unfold allow_header, permitted. destruct p, (mi_idem (ep_method ep)); reflexivity.
Qed.
Print Assumptions C36_asgi_405.

Theorem C36_wsgi_405 {A B} (ap : app A B) now q ep http :
  wsgi_find_endpoint ap q = Ok ep -> env_get q "REQUEST_METHOD" = Some http ->
  let p := negotiate_server_protocol (h_get_default (wsgi_headers q) (lit "content-type") []) in
  (p = PGrpc -> wq_trailers q = true) ->
  ~ In http (map lit (permitted p (mi_idem (ep_method ep)))) -> drain q 1 = None ->
  wsgi_call ap now q
  = mk_wr [] [WStart (lit "405 Method Not Allowed") [(lit "allow", allow_header p (mi_idem (ep_method ep)))]] WReturn.
Proof.
  intros Hf Hh p Ht Hm Hd. unfold wsgi_call.
  assert (O : wsgi_open_request ap now q = Raise (EHttp 405 [(lit "allow", allow_header p (mi_idem (ep_method ep)))])).
  { unfold wsgi_open_request, env_item. rewrite Hf. cbn [bind]. rewrite Hh. cbn [bind]. cbv zeta. fold p.
    assert (T : uses_trailers p && negb (wq_trailers q) = false) by (destruct p; auto; rewrite Ht by reflexivity; reflexivity).
    rewrite T. unfold server_create_context. rewrite (check_method_refused _ _ _ Hm). reflexivity. }
  rewrite O. unfold wsgi_call_error. rewrite Hd. reflexivity.
Qed.
Print Assumptions C36_wsgi_405.

Definition ex_plain_method : method_info := mk_method (lit "pkg.Svc") (lit "Get") IdemUnknown.
Example C36_example :
  let plain : endpoint pystr pystr := EpUnary ex_plain_method (fun a _ => Ret a) in
  ar_inv (asgi_call (ex_app ex_echo) 0%Z (ex_scope_with "GET" "" [] "encoding=proto&message=x") ex_env) = [InvMsg (lit "x")]
  /\ ar_events (asgi_call (ex_app plain) 0%Z (ex_scope_with "GET" "" [] "encoding=proto&message=x") ex_env)
     = [EvStart 405 [(lit "allow", lit "POST")] false; EvBody [] false]
  /\ ar_events (asgi_call (ex_app ex_echo) 0%Z (ex_scope "PUT" "application/proto") ex_env)
     = [EvStart 405 [(lit "allow", lit "GET, POST")] false; EvBody [] false]
  /\ wr_events (wsgi_call (ex_app ex_echo) 0%Z (ex_wq "GET" "application/grpc"))
     = [WStart (lit "405 Method Not Allowed") [(lit "allow", lit "POST")]].
Proof. cbv zeta. split; [reflexivity|]. split; [reflexivity|]. split; reflexivity. Qed.

(** Finding: the restriction of GET to unary methods is not enforced; a server-streaming method declared NO_SIDE_EFFECTS
    runs for a GET request (with the body of the request as its stream). *)
Theorem C36_unary_only_refuted :
  exists (ap : app pystr pystr) sc en m f hs cx k,
    sc_method sc = lit "GET"
    /\ asgi_stream_request ap 0%Z sc (EpServerStream m f) hs PConnect cx k
    /\ ar_inv (asgi_call ap 0%Z sc en) = [InvMsg (lit "a")].
Proof.
  set (f := (fun a _ => Yield a quiet (Ret tt)) : pystr -> req_ctx -> prog Empty_set pystr unit).
  exists (ex_app (EpServerStream ex_method f)), (ex_scope_with "GET" "" [] "encoding=proto").
  eexists (mk_env [RReq [0; 0; 0; 0; 1; 97] false] None WIdle (fun _ => SOk)), ex_method, f, _, _, ex_codec.
  split; [reflexivity|]. split; [split; [reflexivity|split; [eexists; reflexivity|reflexivity]]|reflexivity].
Qed.
Print Assumptions C36_unary_only_refuted.

(** ** C37: at most one invocation, and only for well-formed requests *)

(** The checks every request has to pass, as a user would list them: a known path, readable headers, trailers if the
    protocol needs them, a permitted HTTP method, protocol version 1 for Connect, and a timeout that can be parsed. *)
Definition well_formed (now : fl) {A B} (ep : endpoint A B) (http : pystr) (hs : headers) (p : proto) (trailers : bool) : Prop :=
  p = negotiate_server_protocol (h_get_default hs (lit "content-type") [])
  /\ (p = PGrpc -> trailers = true)
  /\ In http (map lit (permitted p (mi_idem (ep_method ep))))
  /\ (p = PConnect -> h_get_default hs (lit "connect-protocol-version") (lit "1") = lit "1")
  /\ exists t, (match p with PConnect => connect_server_timeout (h_get hs (lit "connect-timeout-ms"))
                | _ => grpc_server_timeout (h_get hs (lit "grpc-timeout")) end) = Ok t.

(** Connect unary requests, ASGI. *)
Definition asgi_message {A B} (ap : app A B) (sc : scope) (en : env) (hs : headers) (params : dict (list pystr)) (k : codec A B) (a : A) : Prop :=
  if str_eqb (sc_method sc) (lit "GET") then read_get_request ap k params = Ok a
  else exists chunks z d, read_body (en_recv en) = (chunks, None)
    /\ dget (ap_comps ap) (lower (h_get_default hs (lit "content-encoding") (lit "identity"))) = Some z
    /\ (if nonempty (List.concat chunks) then z_decompress z (List.concat chunks) else Ok (List.concat chunks)) = Ok d
    /\ match ap_max ap with Some mx => lenN d <= mx | None => True end
    /\ k_dec_req k d = Ok a.

Lemma read_post_ok {A B} (ap : app A B) k hs l a : read_post_request ap k hs l = inl a <->
  exists chunks z d, read_body l = (chunks, None)
    /\ dget (ap_comps ap) (lower (h_get_default hs (lit "content-encoding") (lit "identity"))) = Some z
    /\ (if nonempty (List.concat chunks) then z_decompress z (List.concat chunks) else Ok (List.concat chunks)) = Ok d
    /\ match ap_max ap with Some mx => lenN d <= mx | None => True end
    /\ k_dec_req k d = Ok a.
Proof.
  unfold read_post_request. destruct (read_body l) as [cs [i|]].
  { split; [discriminate|]. intros (?&?&?&E&_). discriminate. }
  cbv zeta. destruct (dget (ap_comps ap) _) as [z|].
  2:{ split; [discriminate|]. intros (?&?&?&_&E&_). discriminate. }
  destruct (if nonempty (List.concat cs) then z_decompress z (List.concat cs) else Ok (List.concat cs)) as [d|e] eqn:D.
  2:{ split; [discriminate|]. intros (?&?&?&E&E'&E''&_). injection E as <-. injection E' as <-. rewrite D in E''. discriminate. }
  split.
  - intro H. exists cs, z, d. repeat split; auto.
    + destruct (ap_max ap) as [mx|]; auto. destruct (mx <? lenN d) eqn:L; [discriminate|lia].
    + destruct (ap_max ap) as [mx|]; [destruct (mx <? lenN d); [discriminate|]|]; destruct (k_dec_req k d); congruence.
  - intros (?&?&?&E&E'&E''&Hm&Hd). injection E as <-. injection E' as <-. rewrite D in E''. injection E'' as <-. rewrite Hd.
    destruct (ap_max ap) as [mx|]; auto. replace (mx <? lenN d) with false by lia. reflexivity.
Qed.

Theorem C37_asgi {A B} (ap : app A B) now sc en :
  let inv := ar_inv (asgi_call ap now sc en) in
  (List.length inv <= 1)%nat
  /\ (inv <> [] ->
      exists ep hs p cx params k,
        find_endpoint ap sc = Ok ep /\ process_headers h_empty (sc_headers sc) = Ok hs
        /\ well_formed now ep (sc_method sc) hs p (sc_trailers sc)
        /\ open_request ap now sc = Ok (ep, hs, p, cx) /\ select_codec ap sc ep hs p = Ok (params, k)
        /\ match ep, p with
           | EpUnary _ _, PConnect => exists a, inv = [InvMsg a] /\ asgi_message ap sc en hs params k a
           | _, _ => exists z, fst (negotiate_stream_compression p hs (ap_comps ap)) = Some z
               /\ if takes_one ep then exists a, inv = [InvMsg a] /\ request_stream ap k z en = ([a], None)
                  else inv = [InvStream]
           end).
Proof.
  cbv zeta. destruct (open_request ap now sc) as [[[[ep hs] p] cx]|e] eqn:O.
  2:{ unfold asgi_call. rewrite O, call_error_inv. split; [cbn; lia|congruence]. }
  destruct (select_codec ap sc ep hs p) as [[params k]|e] eqn:S.
  2:{ unfold asgi_call. rewrite O, S, call_error_inv. split; [cbn; lia|congruence]. }
  pose proof (open_request_ok _ _ _ _ _ _ _ O) as (Hf&Hh&Hp&Ht&client&Hc). apply create_context_ok in Hc. destruct Hc as (Hm&Hv&Htm&_).
  assert (W : well_formed now ep (sc_method sc) hs p (sc_trailers sc)) by (unfold well_formed; auto 6).
  assert (Str : (p = PConnect -> is_unary ep = false) ->
     (List.length (ar_inv (asgi_call ap now sc en)) <= 1)%nat /\
     (ar_inv (asgi_call ap now sc en) <> [] -> exists z, fst (negotiate_stream_compression p hs (ap_comps ap)) = Some z
               /\ if takes_one ep then exists a, ar_inv (asgi_call ap now sc en) = [InvMsg a] /\ request_stream ap k z en = ([a], None)
                  else ar_inv (asgi_call ap now sc en) = [InvStream])).
  { intro Hu. rewrite (asgi_call_stream ap now sc en ep hs p cx k) by (split; [exact O|]; split; [eauto|exact Hu]).
    rewrite handle_stream_inv. destruct (fst (negotiate_stream_compression p hs (ap_comps ap))) as [z|]; [|split; [cbn; lia|congruence]].
    destruct ep as [m f|m f|m f|m f]; cbn [takes_one]; try (split; [cbn; lia|]; intros _; exists z; auto; fail).
    - destruct (consume_single_request (request_stream ap k z en)) as [a|x] eqn:C; [|split; [cbn; lia|congruence]].
      apply consume_single_ok in C. split; [cbn; lia|]. intros _. eauto 6.
    - destruct (consume_single_request (request_stream ap k z en)) as [a|x] eqn:C; [|split; [cbn; lia|congruence]].
      apply consume_single_ok in C. split; [cbn; lia|]. intros _. eauto 6. }
  destruct ep as [m f|m f|m f|m f]; destruct p;
    try (destruct (Str ltac:(reflexivity || discriminate)) as [Hl Hs]; split; [exact Hl|]; intro Hne; eexists _, hs, _, cx, params, k;
         split; [exact Hf|]; split; [exact Hh|]; split; [exact W|]; split; [reflexivity|]; split; [exact S|exact (Hs Hne)]).
  clear Str. rewrite (asgi_unary_inv ap now sc en f hs cx params k) by (exists m; auto).
  unfold asgi_message. destruct (str_eqb (sc_method sc) (lit "GET")) eqn:Eg.
  - destruct (read_get_request ap k params) as [a|x] eqn:R; [|split; [cbn; lia|congruence]].
    split; [cbn; lia|]. intros _. eexists _, hs, _, cx, params, k.
    split; [exact Hf|]. split; [exact Hh|]. split; [exact W|]. split; [reflexivity|]. split; [exact S|]. cbn iota. eauto.
  - destruct (read_post_request ap k hs (en_recv en)) as [a|x] eqn:R; [|split; [cbn; lia|congruence]].
    split; [cbn; lia|]. intros _. eexists _, hs, _, cx, params, k.
    split; [exact Hf|]. split; [exact Hh|]. split; [exact W|]. split; [reflexivity|]. split; [exact S|]. cbn iota.
    exists a. split; [reflexivity|]. now apply read_post_ok.
Qed.
Print Assumptions C37_asgi.

(** Connect unary requests, WSGI. *)
Definition wsgi_message {A B} (ap : app A B) (q : wsgi_request) (http : pystr) (hs : headers) (k : codec A B) (a : A) : Prop :=
  if str_eqb http (lit "GET") then wsgi_get_request ap q = Ok (a, k)
  else exists body d,
    dget (ap_codecs ap) (codec_name_from_content_type PConnect false (h_get_default hs (lit "content-type") [])) = Some k
    /\ wsgi_read q body
    /\ (let name := lower (env_default q "HTTP_CONTENT_ENCODING" (lit "identity")) in
        (name = lit "identity" /\ d = body)
        \/ (name <> lit "identity" /\ exists z, dget (ap_comps ap) name = Some z /\ z_decompress z body = Ok d))
    /\ match ap_max ap with Some mx => lenN d <= mx | None => True end
    /\ k_dec_req k d = Ok a.

Lemma to_internal_ok {X} (r : res X) x : to_internal r = Ok x -> r = Ok x.
Proof. destruct r as [y|e]; cbn; [auto|]. destruct (is_connect e); discriminate. Qed.
Lemma or_invalid_ok {X} t (r : res X) x : or_invalid t r = Ok x -> r = Ok x.
Proof. destruct r as [y|e]; cbn; [auto|]. discriminate. Qed.

Lemma wsgi_post_ok {A B} (ap : app A B) q hs a k : wsgi_post_request ap q hs = Ok (a, k) ->
  exists body d,
    dget (ap_codecs ap) (codec_name_from_content_type PConnect false (h_get_default hs (lit "content-type") [])) = Some k
    /\ wsgi_read q body
    /\ (let name := lower (env_default q "HTTP_CONTENT_ENCODING" (lit "identity")) in
        (name = lit "identity" /\ d = body)
        \/ (name <> lit "identity" /\ exists z, dget (ap_comps ap) name = Some z /\ z_decompress z body = Ok d))
    /\ match ap_max ap with Some mx => lenN d <= mx | None => True end
    /\ k_dec_req k d = Ok a.
Proof.
  unfold wsgi_post_request. destruct (dget (ap_codecs ap) _) as [k'|]; [|discriminate]. intro H. apply to_internal_ok in H.
  match type of H with (do _ <- ?x; _) = _ => destruct x as [n|e] eqn:En end; cbn [bind] in H; [|discriminate].
  match type of H with (do _ <- ?x; _) = _ => destruct x as [body|e] eqn:Eb end; cbn [bind] in H; [|discriminate].
  cbv zeta in H. match type of H with (do _ <- ?x; _) = _ => destruct x as [d|e] eqn:Ed end; cbn [bind] in H; [|discriminate].
  match type of H with (if ?x then _ else _) = _ => destruct x eqn:Em end; [discriminate|].
  destruct (k_dec_req k' d) as [a'|e] eqn:Ek; cbn [or_invalid bind] in H; [|discriminate].
  apply (f_equal (fun r => match r with Ok (x, _) => Some x | _ => None end)) in H as Ha. injection Ha as ->.
  apply (f_equal (fun r => match r with Ok (_, y) => Some y | _ => None end)) in H. injection H as ->.
  exists body, d. split; [reflexivity|]. split.
  - exists n. split.
    + destruct (env_get q "CONTENT_LENGTH") as [[|c s]|]; [injection En as <-; reflexivity| |injection En as <-; reflexivity].
      destruct (int_of_str (c :: s)); [injection En as <-; reflexivity|discriminate].
    + destruct (0 <? n)%Z; [exact Eb|]. destruct (wsgi_body q) as [cs [e|]]; [discriminate|]. injection Eb as <-. eauto.
  - split; [|split; [|exact Ek]].
    + cbv zeta. destruct (str_eqb_spec (lower (env_default q "HTTP_CONTENT_ENCODING" (lit "identity"))) (lit "identity")) as [E|E].
      * injection Ed as <-. auto.
      * destruct (dget (ap_comps ap) _) as [z|]; [|discriminate]. apply or_invalid_ok in Ed. eauto.
    + destruct (ap_max ap) as [mx|]; auto. lia.
Qed.

Theorem C37_wsgi {A B} (ap : app A B) now q :
  let inv := wr_inv (wsgi_call ap now q) in
  (List.length inv <= 1)%nat
  /\ (inv <> [] ->
      exists ep http hs p k,
        wsgi_find_endpoint ap q = Ok ep /\ env_get q "REQUEST_METHOD" = Some http /\ hs = wsgi_headers q
        /\ well_formed now ep http hs p (wq_trailers q)
        /\ match ep, p with
           | EpUnary _ _, PConnect => exists a, inv = [InvMsg a] /\ wsgi_message ap q http hs k a
           | _, _ => dget (ap_codecs ap) (codec_name_from_content_type p true (h_get_default hs (lit "content-type") [])) = Some k
               /\ exists z, fst (negotiate_stream_compression p hs (ap_comps ap)) = Some z
               /\ if takes_one ep then exists a, inv = [InvMsg a] /\ wsgi_request_stream ap k z q = ([a], None)
                  else inv = [InvStream]
           end).
Proof.
  cbv zeta. destruct (wsgi_open_request ap now q) as [[[[ep hs] p] cx]|e] eqn:O.
  2:{ unfold wsgi_call. rewrite O, wsgi_call_error_inv. split; [cbn; lia|congruence]. }
  pose proof (wsgi_open_request_ok _ _ _ _ _ _ _ O) as (http&Hf&Hh&Hs&Hp&Ht&scheme&client&Hc). apply create_context_ok in Hc.
  destruct Hc as (Hm&Hv&Htm&Hx).
  assert (W : well_formed now ep http hs p (wq_trailers q)) by (unfold well_formed; auto 6).
  assert (Str : (p = PConnect -> is_unary ep = false) ->
     (List.length (wr_inv (wsgi_call ap now q)) <= 1)%nat /\
     (wr_inv (wsgi_call ap now q) <> [] -> exists k, dget (ap_codecs ap) (codec_name_from_content_type p true (h_get_default hs (lit "content-type") [])) = Some k
               /\ exists z, fst (negotiate_stream_compression p hs (ap_comps ap)) = Some z
               /\ if takes_one ep then exists a, wr_inv (wsgi_call ap now q) = [InvMsg a] /\ wsgi_request_stream ap k z q = ([a], None)
                  else wr_inv (wsgi_call ap now q) = [InvStream])).
  { intro Hu. rewrite (wsgi_call_stream_inv ap now q ep hs p cx O Hu), wsgi_stream_inv.
    destruct (dget (ap_codecs ap) _) as [k|]; [|split; [cbn; lia|congruence]].
    destruct (fst (negotiate_stream_compression p hs (ap_comps ap))) as [z|]; [|split; [cbn; lia|congruence]].
    destruct ep as [m f|m f|m f|m f]; cbn [takes_one]; try (split; [cbn; lia|]; intros _; exists k; split; auto; exists z; auto; fail).
    - destruct (consume_single_request (wsgi_request_stream ap k z q)) as [a|x] eqn:C; [|split; [cbn; lia|congruence]].
      apply consume_single_ok in C. split; [cbn; lia|]. intros _. eauto 8.
    - destruct (consume_single_request (wsgi_request_stream ap k z q)) as [a|x] eqn:C; [|split; [cbn; lia|congruence]].
      apply consume_single_ok in C. split; [cbn; lia|]. intros _. eauto 8. }
  destruct ep as [m f|m f|m f|m f]; destruct p;
    try (destruct (Str ltac:(reflexivity || discriminate)) as [Hl Hz]; split; [exact Hl|]; intro Hne; destruct (Hz Hne) as [k Hk];
         eexists _, http, hs, _, k; split; [exact Hf|]; split; [exact Hh|]; split; [exact Hs|]; split; [exact W|exact Hk]).
  clear Str. rewrite (wsgi_unary_inv ap now q f hs cx) by (exists m; auto).
  unfold wsgi_message. rewrite Hx. destruct (str_eqb http (lit "GET")) eqn:Eg.
  - destruct (wsgi_get_request ap q) as [[a k]|x] eqn:R; [|split; [cbn; lia|congruence]].
    split; [cbn; lia|]. intros _. eexists _, http, hs, _, k. split; [exact Hf|]. split; [exact Hh|]. split; [exact Hs|]. split; [exact W|].
    cbn iota. rewrite Eg. eauto.
  - destruct (wsgi_post_request ap q hs) as [[a k]|x] eqn:R; [|split; [cbn; lia|congruence]].
    split; [cbn; lia|]. intros _. eexists _, http, hs, _, k. split; [exact Hf|]. split; [exact Hh|]. split; [exact Hs|]. split; [exact W|].
    cbn iota. rewrite Eg. exists a. split; auto. now apply wsgi_post_ok.
Qed.
Print Assumptions C37_wsgi.

(** A request that passes the checks does run the method. *)
Theorem C37_asgi_accepted {A B} (ap : app A B) now sc en f hs cx params k a :
  asgi_unary_request ap now sc f hs cx params k -> asgi_message ap sc en hs params k a ->
  ar_inv (asgi_call ap now sc en) = [InvMsg a].
Proof.
  intros Hq Hm. rewrite (asgi_unary_inv _ _ _ _ _ _ _ _ _ Hq). unfold asgi_message in Hm. destruct (str_eqb _ _); [now rewrite Hm|].
  apply read_post_ok in Hm. now rewrite Hm.
Qed.
Print Assumptions C37_asgi_accepted.

Example C37_example :
  ar_inv (asgi_call (ex_app ex_echo) 0%Z (ex_scope "POST" "application/proto") (mk_env [RReq (lit "ab") true; RReq (lit "c") false] None WIdle (fun _ => SOk)))
  = [InvMsg (lit "abc")]
  /\ wr_inv (wsgi_call (ex_app ex_echo) 0%Z (ex_wq_with "POST" "application/proto" [("CONTENT_LENGTH", "3")]%string [RD (lit "ab"); RD (lit "c")]))
     = [InvMsg (lit "abc")]
  /\ ar_inv (asgi_call (ex_app (ex_two (IExn ex_gone))) 0%Z (ex_scope "POST" "application/grpc") ex_env) = [InvStream]
  /\ ar_inv (asgi_call (ex_app ex_echo) 0%Z (ex_scope_with "POST" "application/proto" [("connect-protocol-version", "2")]%string "") ex_env) = []
  /\ ar_inv (asgi_call (ex_app ex_echo) 0%Z (ex_scope_with "POST" "application/proto" [("connect-timeout-ms", "x")]%string "") ex_env) = []
  /\ ar_inv (asgi_call (ex_app ex_echo) 0%Z (ex_scope "POST" "application/json") ex_env) = [].
Proof. repeat (split; [reflexivity|]). reflexivity. Qed.

(** ** C38, server side: exactly one request message *)
Theorem C38_asgi_one {A B} (ap : app A B) now sc en ep hs p cx k z rz :
  asgi_stream_request ap now sc ep hs p cx k -> takes_one ep = true ->
  negotiate_stream_compression p hs (ap_comps ap) = (Some rz, z) ->
  let ps := request_stream ap k rz en in
  let r := asgi_call ap now sc en in
  (forall a, ps = ([a], None) -> ar_inv r = [InvMsg a])
  /\ (forall x, refused ps x -> sends_ok (en_send en) -> unwatched ep en 0 -> asgi_refusal ap p k z x r)
  /\ ((forall a, ps <> ([a], None)) -> ar_inv r = []).
Proof.
  intros Hq Ht Hn. cbv zeta.
  assert (E : ar_inv (asgi_call ap now sc en)
     = match consume_single_request (request_stream ap k rz en) with Ok a => [InvMsg a] | Raise _ => [] end).
  { rewrite (asgi_call_stream _ _ _ _ _ _ _ _ _ Hq), handle_stream_inv, Hn. destruct ep; try discriminate; reflexivity. }
  split; [|split].
  - intros a Ha. apply consume_single_ok in Ha. now rewrite E, Ha.
  - intros x Hx So Hu. apply (asgi_refused ap now sc en ep hs p cx k (Some rz) z x Hq So Hn); auto.
    right. repeat split; auto. eauto.
  - intro H. rewrite E. destruct (consume_single_request _) as [a|x] eqn:C; auto. apply consume_single_ok in C. now destruct (H a).
Qed.
Print Assumptions C38_asgi_one.

Theorem C38_wsgi_one {A B} (ap : app A B) now q ep hs p cx k z rz :
  wsgi_stream_request ap now q ep hs p cx k -> takes_one ep = true ->
  negotiate_stream_compression p hs (ap_comps ap) = (Some rz, z) ->
  let ps := wsgi_request_stream ap k rz q in
  let r := wsgi_call ap now q in
  (forall a, ps = ([a], None) -> wr_inv r = [InvMsg a])
  /\ (forall x, refused ps x -> drain q 0 = None -> drain q 2 = None -> wsgi_refusal ap p k z x r)
  /\ ((forall a, ps <> ([a], None)) -> wr_inv r = []).
Proof.
  intros Hq Ht Hn. cbv zeta. pose proof Hq as (Ho&Hk&Hu).
  assert (E : wr_inv (wsgi_call ap now q)
     = match consume_single_request (wsgi_request_stream ap k rz q) with Ok a => [InvMsg a] | Raise _ => [] end).
  { rewrite (wsgi_call_stream_inv _ _ _ _ _ _ _ Ho Hu), wsgi_stream_inv, Hk, Hn. destruct ep; try discriminate; reflexivity. }
  split; [|split].
  - intros a Ha. apply consume_single_ok in Ha. now rewrite E, Ha.
  - intros x Hx D0 D2. apply (wsgi_refused ap now q ep hs p cx k (Some rz) z x Hq D0 D2 Hn).
    right. repeat split; auto. eauto.
  - intro H. rewrite E. destruct (consume_single_request _) as [a|x] eqn:C; auto. apply consume_single_ok in C. now destruct (H a).
Qed.
Print Assumptions C38_wsgi_one.

Definition ex_body2 : bytes := [0; 0; 0; 0; 1; 97; 0; 0; 0; 0; 1; 98].
Example C38_server_example :
  exists hs cx, asgi_stream_request (ex_app ex_echo) 0%Z (ex_scope "POST" "application/grpc") ex_echo hs PGrpc cx ex_codec
  /\ negotiate_stream_compression PGrpc hs (ap_comps (ex_app ex_echo)) = (Some identity_comp, identity_comp)
  /\ refused (request_stream (ex_app ex_echo) ex_codec identity_comp (mk_env [RReq ex_body2 false] None WIdle (fun _ => SOk)))
       (EConnect Unimplemented (lit "unary request has multiple messages") [])
  /\ refused (request_stream (ex_app ex_echo) ex_codec identity_comp (mk_env [RReq [] false] None WIdle (fun _ => SOk)))
       (EConnect Unimplemented (lit "unary request has zero messages") [])
  /\ match ar_events (asgi_call (ex_app ex_echo) 0%Z (ex_scope "POST" "application/grpc") (mk_env [RReq ex_body2 false] None WIdle (fun _ => SOk))) with
     | [EvStart 200 _ true; EvBody [] false; EvTrailers ts] => In (lit "grpc-status", lit "12") ts
     | _ => False
     end.
Proof.
  do 2 eexists. split; [split; [reflexivity|]; split; [eexists; reflexivity|discriminate]|].
  split; [reflexivity|]. split; [apply rf_many|]. split; [apply rf_none|]. vm_compute. auto.
Qed.

(** ** C43: declared body length *)

(** The body handed on has exactly the declared length and is the beginning of the input; a shorter input is refused,
    however the server splits the reads. *)
Theorem C43_exact {n inp} : 0 < n -> eof_final inp ->
  match read_body_with_content_length n inp with
  | Ok body => lenN body = n /\ exists rest, available inp = body ++ rest
  | Raise e => lenN (available inp) < n
               /\ (fault inp = Some e \/ (fault inp = None /\ exists msg, e = EConnect InvalidArgument msg []))
  end.
Proof.
  intros Hn He. rewrite (read_length_result n inp Hn).
  assert (A : available (after_empty inp) = available inp /\ fault (after_empty inp) = fault inp).
  { destruct inp as [|[[|x b]|e] rest]; auto. cbn [after_empty]. pose proof (He [] rest eq_refl) as ->. auto. }
  destruct A as [A F]. unfold read_result. rewrite A, F. change (lenN []) with 0. rewrite N.sub_0_r.
  destruct (n <=? lenN (available inp)) eqn:L.
  - cbn [List.app]. split.
    + unfold takeN, lenN in *. rewrite firstn_length. lia.
    + exists (dropN n (available inp)). symmetry. apply firstn_skipn.
  - destruct (fault inp) as [e|]; (split; [lia|]); [auto|]. right. split; auto. unfold truncated. eauto.
Qed.
Print Assumptions C43_exact.

(** The whole request: a unary POST whose body is shorter than Content-Length gets INVALID_ARGUMENT and runs nothing. *)
Theorem C43_short_request {A B} (ap : app A B) now q f hs cx k s n :
  wsgi_unary_request ap now q f hs cx -> cx_http cx = lit "POST" -> drain q 1 = None ->
  dget (ap_codecs ap) (codec_name_from_content_type PConnect false (h_get_default hs (lit "content-type") [])) = Some k ->
  env_get q "CONTENT_LENGTH" = Some s -> s <> [] -> int_of_str s = Some n -> (0 < n)%Z ->
  eof_final (wq_input q) -> fault (wq_input q) = None -> lenN (available (wq_input q)) < Z.to_N n ->
  let r := wsgi_call ap now q in wr_inv r = [] /\ wr_out r = WReturn /\ wsgi_error (wr_events r) InvalidArgument.
Proof.
  intros Hq Hm Hd Hk Hs Hne Hi Hn He Hf Hl. cbv zeta.
  pose proof (@C43_exact (Z.to_N n) (wq_input q) ltac:(lia) He) as X.
  destruct (read_body_with_content_length (Z.to_N n) (wq_input q)) as [b|e] eqn:R.
  { destruct X as (L&rest&E). rewrite E, lenN_app in Hl. lia. }
  destruct X as (_&[X|(_&msg&->)]); [congruence|].
  rewrite (wsgi_unary_rejected ap now q f hs cx (EConnect InvalidArgument msg []) Hq).
  2:{ rewrite Hm. change (str_eqb (lit "POST") (lit "GET")) with false. cbn iota. unfold wsgi_post_request. rewrite Hk, Hs.
      destruct s as [|c s]; [congruence|]. rewrite Hi. cbn [bind]. replace (0 <? n)%Z with true by lia. now rewrite R. }
  destruct (wsgi_call_error_connect (A := A) q [] InvalidArgument msg (Some rs_new) Hd (or_intror eq_refl)) as (ev&E&X).
  rewrite E. auto.
Qed.
Print Assumptions C43_short_request.

Example C43_example :
  eof_final [RD [1; 2]; RD [3]; RD []]
  /\ read_body_with_content_length 3 [RD [1; 2]; RD [3]; RD []] = Ok [1; 2; 3]
  /\ (exists m, read_body_with_content_length 4 [RD [1; 2]; RD [3]; RD []] = Raise (EConnect InvalidArgument m []))
  /\ (let q := ex_wq_with "POST" "application/proto" [("CONTENT_LENGTH", "9")]%string [RD [1; 2]; RD [3]] in
      exists hs cx f, wsgi_unary_request (ex_app ex_echo) 0%Z q f hs cx /\ cx_http cx = lit "POST" /\ drain q 1 = None
        /\ lenN (available (wq_input q)) < 9).
Proof.
  split.
  { intros x y H. destruct x as [|a x]; [discriminate|]. injection H as <- H. destruct x as [|a x]; [discriminate|]. injection H as <- H.
    destruct x as [|a x]; [injection H as <-; reflexivity|]. injection H as <- H. destruct x; discriminate. }
  split; [reflexivity|]. split; [eexists; reflexivity|]. cbv zeta. eexists _, _, _. split; [eexists; reflexivity|].
  split; [reflexivity|]. split; reflexivity.
Qed.

(** ** C44, server side: read_max_bytes of unary requests *)

(** POST: a message larger than the limit is refused and never reaches the method.  Full statement also for GET, which is
    refuted below. *)
Theorem C44_asgi_post_partial {A B} (ap : app A B) now sc en f hs cx params k chunks z d mx :
  asgi_unary_request ap now sc f hs cx params k -> sc_method sc = lit "POST" ->
  sends_ok (en_send en) -> read_body (en_recv en) = (chunks, None) ->
  dget (ap_comps ap) (lower (h_get_default hs (lit "content-encoding") (lit "identity"))) = Some z ->
  (if nonempty (List.concat chunks) then z_decompress z (List.concat chunks) else Ok (List.concat chunks)) = Ok d ->
  ap_max ap = Some mx -> mx < lenN d ->
  let r := asgi_call ap now sc en in ar_inv r = [] /\ ar_out r = AReturn /\ asgi_error (ar_events r) ResourceExhausted.
Proof.
  intros Hq Hm So Hb Hz Hd Hx Hl. cbv zeta.
  rewrite (asgi_unary_rejected ap now sc en f hs cx params k (request_too_large mx) Hq).
  2:{ rewrite Hm. change (str_eqb (lit "POST") (lit "GET")) with false. cbn iota. unfold read_post_request. rewrite Hb. cbv zeta.
      rewrite Hz, Hd, Hx. now replace (mx <? lenN d) with true by lia. }
  destruct (call_error_connect (A := A) en [] ResourceExhausted (lit "message is larger than configured max " ++ dec_of_N mx) (Some rs_new) So (or_intror eq_refl)) as (ev&E&He).
  unfold request_too_large. rewrite E. auto.
Qed.
Print Assumptions C44_asgi_post_partial.

Theorem C44_wsgi_post_partial {A B} (ap : app A B) now q f hs cx k body d mx :
  wsgi_unary_request ap now q f hs cx -> cx_http cx = lit "POST" -> drain q 1 = None ->
  dget (ap_codecs ap) (codec_name_from_content_type PConnect false (h_get_default hs (lit "content-type") [])) = Some k ->
  wsgi_read q body ->
  (let name := lower (env_default q "HTTP_CONTENT_ENCODING" (lit "identity")) in
   (name = lit "identity" /\ d = body)
   \/ (name <> lit "identity" /\ exists z, dget (ap_comps ap) name = Some z /\ z_decompress z body = Ok d)) ->
  ap_max ap = Some mx -> mx < lenN d ->
  let r := wsgi_call ap now q in wr_inv r = [] /\ wr_out r = WReturn /\ wsgi_error (wr_events r) ResourceExhausted.
Proof.
  intros Hq Hm Hdr Hk Hr Hd Hx Hl. cbv zeta in *.
  rewrite (wsgi_unary_rejected ap now q f hs cx (EConnect ResourceExhausted (lit "message is larger than configured max " ++ dec_of_N mx) []) Hq).
  2:{ rewrite Hm. change (str_eqb (lit "POST") (lit "GET")) with false. cbn iota. unfold wsgi_post_request. rewrite Hk.
      rewrite (wsgi_read_do ap q body _ Hr). cbv zeta.
      destruct Hd as [[E ->]|(E&z&Hz&Hd)].
      - rewrite E. change (str_eqb (lit "identity") (lit "identity")) with true. cbn [bind]. cbn iota. cbn [bind]. rewrite Hx. now replace (mx <? lenN body) with true by lia.
      - apply str_eqb_neq in E. rewrite E, Hz, Hd. cbn [or_invalid bind]. rewrite Hx. now replace (mx <? lenN d) with true by lia. }
  destruct (wsgi_call_error_connect (A := A) q [] ResourceExhausted (lit "message is larger than configured max " ++ dec_of_N mx) (Some rs_new) Hdr (or_intror eq_refl)) as (ev&E&He).
  rewrite E. auto.
Qed.
Print Assumptions C44_wsgi_post_partial.

Definition ex_small (ep : endpoint pystr pystr) : app pystr pystr :=
  app_new (lit "/pkg.Svc") [(lit "/pkg.Svc/Get", ep)] (Some 2) [] [ex_codec] ex_sc.
Example C44_server_example :
  ar_inv (asgi_call (ex_small ex_echo) 0%Z (ex_scope "POST" "application/proto") (mk_env [RReq (lit "ab") false] None WIdle (fun _ => SOk))) = [InvMsg (lit "ab")]
  /\ ar_inv (asgi_call (ex_small ex_echo) 0%Z (ex_scope "POST" "application/proto") (mk_env [RReq (lit "abc") false] None WIdle (fun _ => SOk))) = []
  /\ wr_inv (wsgi_call (ex_small ex_echo) 0%Z (ex_wq_with "POST" "application/proto" [] [RD (lit "ab")])) = [InvMsg (lit "ab")]
  /\ wr_inv (wsgi_call (ex_small ex_echo) 0%Z (ex_wq_with "POST" "application/proto" [] [RD (lit "ab"); RD (lit "c")])) = [].
Proof. repeat (split; [reflexivity|]). reflexivity. Qed.

(** Finding: the limit is not applied to GET requests by either server. *)
Theorem C44_get_refuted :
  exists (ap : app pystr pystr) sc en q mx a,
    ap_max ap = Some mx /\ sc_method sc = lit "GET" /\ mx < lenN a
    /\ ar_inv (asgi_call ap 0%Z sc en) = [InvMsg a] /\ wr_inv (wsgi_call ap 0%Z q) = [InvMsg a]
    /\ exists k, dget (ap_codecs ap) (lit "proto") = Some k /\ k_dec_req k a = Ok a.
Proof.
  exists (ex_small ex_echo), (ex_scope_with "GET" "" [] "encoding=proto&message=abcdef"), ex_env.
  exists (ex_wq_with "GET" "" [("QUERY_STRING", "encoding=proto&message=abcdef")]%string []), 2, (lit "abcdef").
  split; [reflexivity|]. split; [reflexivity|]. split; [reflexivity|]. split; [reflexivity|]. split; [reflexivity|].
  exists ex_codec. split; reflexivity.
Qed.
Print Assumptions C44_get_refuted.

(** ** C56: unary requests are always answered *)

(** ASGI: whatever the path, headers, query, body and codec or compression failures, a request for a unary Connect method (or
    one that is rejected before its endpoint is known) gets a complete HTTP response, provided the exceptions of the
    user-supplied parts can be put into one. *)
Theorem C56_asgi_answered {A B} (ap : app A B) now sc en :
  tame_app ap -> tame_recv (en_recv en) -> sends_ok (en_send en) ->
  (forall ep hs p cx, open_request ap now sc = Ok (ep, hs, p, cx) ->
     match ep, p with EpUnary _ f, PConnect => tame_method f | _, _ => False end) ->
  asgi_complete (ar_events (asgi_call ap now sc en)).
Proof.
  intros Ta Tr So Hu.
  assert (C : forall st hs body, asgi_complete [EvStart st hs false; EvBody body false]) by (intros st hs body; exists st, hs, body, None, [], body; auto).
  assert (Err : forall inv e ctx, answerable e -> encodable ctx -> asgi_complete (ar_events (call_error (A := A) en inv (mk_ast 0 []) e ctx))).
  { intros inv e ctx Ha Hc. destruct (call_error_ok en inv 0 e ctx So Ha Hc) as (st&hs&body&->&_). apply C. }
  assert (New : encodable (Some rs_new)) by (now exists []).
  unfold asgi_call. destruct (open_request ap now sc) as [[[[ep hs] p] cx]|e] eqn:O.
  2:{ apply Err; [eapply open_request_raise; exact O|exact I]. }
  destruct (select_codec ap sc ep hs p) as [[params k]|e] eqn:S.
  2:{ apply Err; [eapply select_codec_raise; exact S|exact New]. }
  destruct (select_codec_known _ _ _ _ _ _ _ S) as [n Hk]. specialize (Hu _ _ _ _ eq_refl).
  destruct ep as [m f|m f|m f|m f]; try contradiction. destruct p; try contradiction.
  unfold handle_unary_connect. cbv zeta. destruct (if str_eqb _ _ then _ else _) as [a|i] eqn:R.
  - specialize (Hu a cx). destruct (run_fn (f a cx) ([], None) rs_new) as [[b|[e|]] rs].
    + destruct Hu as [h Hh].
      destruct (send_unary_tame ap en n k (h_get_default hs (lit "accept-encoding") []) b rs Ta Hk So) as [(h'&body&->)|[(e&Ha&->)|(e&E)]].
      * apply C.
      * apply Err; [exact Ha|exists h; exact Hh].
      * rewrite E in Hh. discriminate.
    + destruct Hu as [Ha Hh]. apply Err; [exact Ha|exact Hh].
    + contradiction.
  - assert (Hi : exists e, i = IExn e /\ answerable e).
    { destruct (str_eqb _ _).
      - destruct (read_get_request ap k params) eqn:G; [discriminate|]. injection R as <-. eexists. split; [reflexivity|]. eapply read_get_raise; eauto.
      - eapply read_post_raise; eauto. }
    destruct Hi as (e&->&Ha). apply Err; [exact Ha|exact New].
Qed.
Print Assumptions C56_asgi_answered.

Theorem C56_wsgi_answered {A B} (ap : app A B) now q :
  tame_app ap -> tame_input (wq_input q) -> drain q 1 = None ->
  (forall ep hs p cx, wsgi_open_request ap now q = Ok (ep, hs, p, cx) ->
     match ep, p with EpUnary _ f, PConnect => tame_method f | _, _ => False end) ->
  wr_out (wsgi_call ap now q) = WReturn
  /\ exists status hs body, wsgi_response (wr_events (wsgi_call ap now q)) status hs body None.
Proof.
  intros Ta Ti Hd Hu. unfold wsgi_call. destruct (wsgi_open_request ap now q) as [[[[ep hs] p] cx]|e] eqn:O.
  2:{ apply wsgi_error_answered; auto. eapply wsgi_open_raise; exact O. }
  specialize (Hu _ _ _ _ eq_refl). destruct ep as [m f|m f|m f|m f]; try contradiction. destruct p; try contradiction.
  unfold wsgi_unary. destruct (if str_eqb (cx_http cx) (lit "GET") then wsgi_get_request ap q else wsgi_post_request ap q hs) as [[a k]|e] eqn:R.
  - specialize (Hu a cx). destruct (run_fn (f a cx) ([], None) rs_new) as [[b|[e|]] rs].
    + assert (Hk : exists n, dget (ap_codecs ap) n = Some k).
      { destruct (str_eqb (cx_http cx) (lit "GET")).
        - unfold wsgi_get_request in R. apply to_internal_ok in R. cbv zeta in R. destruct (param _ (lit "message")); [|discriminate].
          match type of R with (do _ <- ?x; _) = _ => destruct x end; cbn [bind] in R; [|discriminate].
          match type of R with (do _ <- ?x; _) = _ => destruct x end; cbn [bind] in R; [|discriminate].
          destruct (dget (ap_codecs ap) _) as [k'|] eqn:D; [|discriminate]. destruct (k_dec_req k' _); cbn in R; [|discriminate]. injection R as _ <-. eauto.
        - apply wsgi_post_ok in R. destruct R as (?&?&D&_). eauto. }
      destruct Hk as [n Hk]. cbv zeta.
      destruct (k_enc_res k b) as [body|e] eqn:E1; cbn [bind]; [|apply wsgi_error_answered; auto; exact (proj2 (proj1 Ta _ _ Hk) _ _ E1)].
      destruct (z_compress _ body) as [body'|e] eqn:E2; cbn [bind].
      * split; [reflexivity|]. do 2 eexists. exists body', [body'], []. split; [reflexivity|]. cbn. now rewrite !app_nil_r.
      * apply wsgi_error_answered; auto. eapply negotiated_tame; eauto.
    + apply wsgi_error_answered; auto. apply Hu.
    + contradiction.
  - apply wsgi_error_answered; auto. destruct (str_eqb (cx_http cx) (lit "GET")); [eapply wsgi_get_raise|eapply wsgi_post_raise]; eauto.
Qed.
Print Assumptions C56_wsgi_answered.

(** WSGI: bytes the codec cannot decode or the compression cannot decompress are INVALID_ARGUMENT. *)
Theorem C56_wsgi_undecodable {A B} (ap : app A B) now q f hs cx k body name :
  wsgi_unary_request ap now q f hs cx -> cx_http cx = lit "POST" -> drain q 1 = None ->
  dget (ap_codecs ap) (codec_name_from_content_type PConnect false (h_get_default hs (lit "content-type") [])) = Some k ->
  wsgi_read q body -> name = lower (env_default q "HTTP_CONTENT_ENCODING" (lit "identity")) ->
  (exists e, name = lit "identity" /\ match ap_max ap with Some mx => lenN body <= mx | None => True end /\ k_dec_req k body = Raise e)
  \/ (name <> lit "identity" /\ exists z, dget (ap_comps ap) name = Some z
        /\ ((exists e, z_decompress z body = Raise e)
            \/ (exists d e, z_decompress z body = Ok d /\ match ap_max ap with Some mx => lenN d <= mx | None => True end /\ k_dec_req k d = Raise e))) ->
  let r := wsgi_call ap now q in wr_inv r = [] /\ wr_out r = WReturn /\ wsgi_error (wr_events r) InvalidArgument.
Proof.
  intros Hq Hm Hdr Hk Hr -> Hd. cbv zeta.
  assert (Lim : forall d : bytes, match ap_max ap with Some mx => lenN d <= mx | None => True end ->
                match ap_max ap with Some mx => mx <? lenN d | None => false end = false) by (intro d; destruct (ap_max ap); lia || auto).
  assert (Hx : exists m, wsgi_post_request ap q hs = Raise (EConnect InvalidArgument m [])).
  { unfold wsgi_post_request. rewrite Hk, (wsgi_read_do ap q body _ Hr). cbv zeta.
    destruct Hd as [(e&E&L&D)|(E&z&Hz&[(e&D)|(d&e&D&L&Hd)])].
    - rewrite E. change (str_eqb (lit "identity") (lit "identity")) with true. cbn iota. cbn [bind]. rewrite (Lim body L), D. cbn [or_invalid bind to_internal is_connect]. eauto.
    - apply str_eqb_neq in E. rewrite E, Hz, D. cbn [or_invalid bind to_internal is_connect]. eauto.
    - apply str_eqb_neq in E. rewrite E, Hz, D. cbn [or_invalid bind]. rewrite (Lim d L), Hd. cbn [or_invalid bind to_internal is_connect]. eauto. }
  destruct Hx as [m Hx].
  rewrite (wsgi_unary_rejected ap now q f hs cx _ Hq) by (rewrite Hm; exact Hx).
  destruct (wsgi_call_error_connect (A := A) q [] InvalidArgument m (Some rs_new) Hdr (or_intror eq_refl)) as (ev&E&He). rewrite E. auto.
Qed.
Print Assumptions C56_wsgi_undecodable.

(** A codec that accepts only bodies starting with "a". *)
Definition ex_picky : codec pystr pystr :=
  mk_codec (lit "proto") (@Ok _) (fun b => match b with 97 :: _ => Ok b | _ => Raise (EOther KValue (lit "Error parsing message")) end) (@Ok _) (@Ok _).
Definition ex_picky_app : app pystr pystr := app_new (lit "/pkg.Svc") [(lit "/pkg.Svc/Get", ex_echo)] (Some 1000) [] [ex_picky] ex_sc.

Example C56_example :
  tame_app ex_picky_app
  /\ (exists hs cx f k, wsgi_unary_request ex_picky_app 0%Z (ex_wq_with "POST" "application/proto" [] [RD (lit "zz")]) f hs cx
        /\ cx_http cx = lit "POST" /\ tame_method f
        /\ dget (ap_codecs ex_picky_app) (codec_name_from_content_type PConnect false (h_get_default hs (lit "content-type") [])) = Some k
        /\ wsgi_read (ex_wq_with "POST" "application/proto" [] [RD (lit "zz")]) (lit "zz")
        /\ exists e, k_dec_req k (lit "zz") = Raise e).
Proof.
  split.
  - split.
    + intros n k H. change (dget [(lit "proto", ex_picky)] n = Some k) in H. cbn [dget] in H. destruct (str_eqb (lit "proto") n); [|discriminate]. injection H as <-. split.
      * intros b e H. cbn in H. destruct b as [|[|p] b]; try (injection H as <-; auto).
        do 7 (destruct p as [p|p|]; try (injection H as <-; auto; fail)); discriminate.
      * intros m e H. discriminate.
    + intros n z H. change (dget [(lit "identity", identity_comp)] n = Some z) in H. cbn [dget] in H. destruct (str_eqb (lit "identity") n); [|discriminate]. injection H as <-.
      split; intros b e H; discriminate.
  - do 4 eexists. split; [eexists; reflexivity|]. split; [reflexivity|]. split.
    + intros a cx. cbn. eexists. reflexivity.
    + split; [reflexivity|]. split; [|eexists; reflexivity]. exists 0%Z. split; [reflexivity|]. cbn. exists [lit "zz"]. auto.
Qed.

(** Finding: the ASGI server does not call it INVALID_ARGUMENT; the codec's own exception becomes UNKNOWN, HTTP 500. *)
Theorem C56_asgi_undecodable_refuted :
  exists (ap : app pystr pystr) sc en k e,
    dget (ap_codecs ap) (lit "proto") = Some k /\ k_dec_req k (lit "zz") = Raise e /\ read_body (en_recv en) = ([lit "zz"], None)
    /\ ar_inv (asgi_call ap 0%Z sc en) = [] /\ asgi_error (ar_events (asgi_call ap 0%Z sc en)) Unknown.
Proof.
  exists ex_picky_app, (ex_scope "POST" "application/proto"), (mk_env [RReq (lit "zz") false] None WIdle (fun _ => SOk)), ex_picky.
  eexists. split; [reflexivity|]. split; [reflexivity|]. split; [reflexivity|]. split; [reflexivity|].
  exists (lit "Error parsing message"). eexists. split; [vm_compute; reflexivity|]. vm_compute. reflexivity.
Qed.
Print Assumptions C56_asgi_undecodable_refuted.

(** ** C07, server side *)

(** Finding: a request stream that ends inside a message is taken as if that message had not been sent. *)
Theorem C07_server_refuted :
  exists (ap : app pystr pystr) sc en q whole cut,
    cut <> [] /\ incomplete cut /\ frame_wire (mk_frame 0 (lit "a")) whole
    /\ read_body (en_recv en) = ([whole ++ cut], None) /\ wsgi_body q = ([whole ++ cut], None)
    /\ (exists hs cx k, asgi_stream_request ap 0%Z sc ex_echo hs PGrpc cx k)
    /\ (exists hs cx k, wsgi_stream_request ap 0%Z q ex_echo hs PGrpc cx k)
    /\ ar_inv (asgi_call ap 0%Z sc en) = [InvMsg (lit "a")] /\ wr_inv (wsgi_call ap 0%Z q) = [InvMsg (lit "a")].
Proof.
  set (whole := [0; 0; 0; 0; 1; 97]). set (cut := [0; 0; 0; 0; 9; 1; 2; 3]).
  exists (ex_app ex_echo), (ex_scope "POST" "application/grpc"), (mk_env [RReq (whole ++ cut) false] None WIdle (fun _ => SOk)).
  exists (mk_wq (wq_env (ex_wq "POST" "application/grpc")) [RD (whole ++ cut)] true (fun _ => None)), whole, cut.
  split; [discriminate|]. split; [right; exists 0, 0, 0, 0, 9, [1; 2; 3]; split; reflexivity|]. split; [exists 0, 0, 0, 1; split; reflexivity|].
  split; [reflexivity|]. split; [reflexivity|].
  split; [do 3 eexists; split; [reflexivity|]; split; [eexists; reflexivity|discriminate]|].
  split; [do 3 eexists; split; [reflexivity|]; split; [reflexivity|discriminate]|].
  split; reflexivity.
Qed.
Print Assumptions C07_server_refuted.
