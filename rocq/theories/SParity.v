(** What it means that the ASGI and the WSGI application answer the same request alike. *)
From Coq Require Import List NArith ZArith Bool String.
From Verif Require Import MBase MPyStr MHeaders MUtf8 MBase64 MPercent MWire MEnvelope MTimeout MProtocol MClient MServer MAsgi MWsgi SServer.
Import ListNotations.
Local Open Scope N_scope.

(** ** The same request *)

(** The same values for every header name; the order of the names may differ. *)
Definition same_header_values (h h' : headers) : Prop := forall n, h_getall h n = h_getall h' n.

(** The paths of a generated application: "/" and the service, then "/" and the method, neither containing "/". *)
Definition service_paths {A B} (ap : app A B) : Prop :=
  exists svc, ap_path ap = 47 :: svc /\ ~ In 47 svc
  /\ forall key ep, dget (ap_endpoints ap) key = Some ep -> exists name, key = 47 :: svc ++ 47 :: name /\ ~ In 47 name.

(** The same target: mounted at the same place (ASGI reports the whole path, WSGI the part below the mount point). *)
Definition same_target (sc : scope) (q : wsgi_request) : Prop :=
  exists root path, sc_root sc = Some root /\ sc_path sc = root ++ 47 :: path
  /\ env_get q "SCRIPT_NAME" = Some root /\ env_get q "PATH_INFO" = Some (47 :: path).

(** The same peer address, if the server knows it. *)
Definition same_peer (sc : scope) (q : wsgi_request) : Prop :=
  match sc_client sc with
  | None => env_get q "REMOTE_ADDR" = None \/ env_get q "REMOTE_ADDR" = Some []
  | Some (host, port) => host <> [] /\ env_get q "REMOTE_ADDR" = Some host /\ env_get q "REMOTE_PORT" = Some port
  end.

(** The same body, completely received: by ASGI in any number of events, by WSGI in reads of any size, with or without a
    declared length. *)
Definition same_body (en : env) (q : wsgi_request) (body : bytes) : Prop :=
  (exists chunks, read_body (en_recv en) = (chunks, None) /\ List.concat chunks = body)
  /\ available (wq_input q) = body /\ fault (wq_input q) = None /\ eof_final (wq_input q)
  /\ match env_get q "CONTENT_LENGTH" with
     | None | Some [] => True
     | Some s => int_of_str s = Some (Z.of_N (lenN body))
     end.

(** The two servers report the same request.  [hs] are its headers. *)
Record same_request (sc : scope) (en : env) (q : wsgi_request) (hs : headers) (body : bytes) : Prop := mk_same {
  sr_target : same_target sc q;
  sr_method : env_get q "REQUEST_METHOD" = Some (sc_method sc);
  sr_scheme : env_default q "wsgi.url_scheme" (lit "http") = sc_scheme sc;
  sr_headers : process_headers h_empty (sc_headers sc) = Ok hs;
  sr_same_headers : same_header_values hs (wsgi_headers q);
  sr_encoding : env_get q "HTTP_CONTENT_ENCODING" = h_get hs (lit "content-encoding");
  sr_query : utf8_decode (sc_query sc) = Some (env_default q "QUERY_STRING" []);
  sr_peer : same_peer sc q;
  sr_body : same_body en q body
}.

(** Nothing goes wrong between the server and the application: no cancellation, no disconnect, every send and every read succeeds. *)
Definition undisturbed (en : env) (q : wsgi_request) : Prop :=
  en_cut en = None /\ en_watch en = WIdle /\ sends_ok (en_send en) /\ forall place, drain q place = None.

(** Both servers can send trailers if the protocol needs them. *)
Definition can_trail (sc : scope) (q : wsgi_request) (hs : headers) : Prop :=
  negotiate_server_protocol (h_get_default hs (lit "content-type") []) = PGrpc -> sc_trailers sc = true /\ wq_trailers q = true.

(** ** The same methods *)

(** The same context, apart from the order of the request headers. *)
Definition same_ctx (cx cx' : req_ctx) : Prop :=
  cx_method cx = cx_method cx' /\ cx_http cx = cx_http cx' /\ same_header_values (cx_headers cx) (cx_headers cx')
  /\ cx_timeout cx = cx_timeout cx' /\ cx_end cx = cx_end cx' /\ cx_server cx = cx_server cx' /\ cx_client cx = cx_client cx'.

(** Methods that do not depend on the order of the request headers. *)
Definition order_blind {A B} (ap : app A B) : Prop :=
  forall key ep, dget (ap_endpoints ap) key = Some ep -> forall cx cx', same_ctx cx cx' ->
  match ep with
  | EpUnary _ f => forall a, f a cx = f a cx'
  | EpClientStream _ f => f cx = f cx'
  | EpServerStream _ f => forall a, f a cx = f a cx'
  | EpBidi _ f => f cx = f cx'
  end.

(** ** Requests that can be read, responses that can be written *)

(** What every application has: a compression named identity that changes nothing; no compression has an empty name; names of codecs and compressions are text. *)
Definition sound_tables {A B} (ap : app A B) : Prop :=
  dget (ap_comps ap) (lit "identity") = Some identity_comp /\ dget (ap_comps ap) [] = None
  /\ (forall n k, dget (ap_codecs ap) n = Some k -> exists b, encode_str (connect_unary_prefix ++ k_name k) = Ok b)
  /\ (forall n z, dget (ap_comps ap) n = Some z -> exists b, encode_str (z_name z) = Ok b).

(** Bytes [data], compressed with [z], hold a message of codec [k], unless they are too large. *)
Definition readable {A B} (k : codec A B) (max : option N) (z : compression) (data : bytes) : Prop :=
  exists d, z_decompress z data = Ok d /\ (data = [] -> d = [])
  /\ (match max with Some mx => lenN d <= mx | None => True end -> exists a, k_dec_req k d = Ok a).

(** The body of a POST is readable, if its codec and compression are known to the application. *)
Definition readable_post {A B} (ap : app A B) (hs : headers) (body : bytes) : Prop :=
  forall k z, dget (ap_codecs ap) (codec_name_from_content_type PConnect false (h_get_default hs (lit "content-type") [])) = Some k ->
    dget (ap_comps ap) (lower (h_get_default hs (lit "content-encoding") (lit "identity"))) = Some z ->
    readable k (ap_max ap) z body.

(** The bytes in the query of a GET. *)
Definition query_data (params : dict (list pystr)) (message : pystr) : option bytes :=
  if match param params (lit "base64") with Some v => str_eqb v (lit "1") | None => false end
  then urlsafe_b64decode (message ++ lit "===") else utf8_encode message.

(** The query of a GET names a codec of the application, and its message, if any, is readable if its compression is known. *)
Definition readable_get {A B} (ap : app A B) (params : dict (list pystr)) : Prop :=
  exists k, dget (ap_codecs ap) (match param params (lit "encoding") with Some n => n | None => [] end) = Some k
  /\ forall message, param params (lit "message") = Some message ->
     exists data, query_data params message = Some data
     /\ forall z, dget (ap_comps ap) (match param params (lit "compression") with Some n => n | None => lit "identity" end) = Some z ->
        readable k None z data.

(** Whatever a stream method does for this request, it is not cancelled, its messages, headers and trailers can be written, and
    so can the error it raises. *)
Definition writable_stream {A B} (ap : app A B) (en : env) (p : proto) (ep : endpoint A B) (k : codec A B) (hs : headers) (cx : req_ctx) : Prop :=
  let (req, z) := negotiate_stream_compression p hs (ap_comps ap) in
  forall inv steps rs' e, stream_runs ep cx req (fun rz => request_stream ap k rz en) inv steps rs' e ->
    e <> Some ICancel
    /\ (exists frs, written (k_enc_res k) z steps frs)
    /\ (exists head, encode_pairs (stream_headers p (k_name k) (z_name z) (head_state steps rs')) = Ok head)
    /\ exists em, writer_end (ap_sc ap) p z (rs_t rs') (option_map we_from_exception (reported e)) = Ok em
       /\ forall t, em = EndTrailers t -> exists ts, encode_pairs (h_allitems t) = Ok ts.

(** ** The same answer *)

(** The same headers in the same order: ASGI takes bytes, WSGI text; the case of names does not matter. *)
Definition same_pairs (a : list (bytes * bytes)) (w : list (pystr * pystr)) : Prop :=
  Forall2 (fun (x : bytes * bytes) (y : pystr * pystr) =>
             (exists n, utf8_encode (fst y) = Some n /\ lower n = lower (fst x)) /\ utf8_encode (snd y) = Some (snd x)) a w.
Definition same_trailers (a : option (list (bytes * bytes))) (w : option (list (pystr * pystr))) : Prop :=
  match a, w with None, None => True | Some a, Some w => same_pairs a w | _, _ => False end.

(** The same methods were run with the same messages, and the responses have the same status, headers, body and trailers. *)
Definition same_answer {A} (ra : asgi_result A) (rw : wsgi_result A) : Prop :=
  ar_inv ra = wr_inv rw /\ wr_out rw = WReturn
  /\ exists status phrase ah wh body at_ wt,
       asgi_response (ar_events ra) status ah body at_
       /\ wsgi_response (wr_events rw) (dec_of_N status ++ lit " " ++ phrase) wh body wt
       /\ same_pairs ah wh /\ same_trailers at_ wt.
(** The same but for the headers. *)
Definition same_but_headers {A} (ra : asgi_result A) (rw : wsgi_result A) : Prop :=
  ar_inv ra = wr_inv rw /\ wr_out rw = WReturn
  /\ exists status phrase ah wh body at_ wt,
       asgi_response (ar_events ra) status ah body at_
       /\ wsgi_response (wr_events rw) (dec_of_N status ++ lit " " ++ phrase) wh body wt
       /\ same_trailers at_ wt.

(** ** Which requests *)

(** A request to a unary method over the Connect protocol carries a readable message. *)
Definition readable_request {A B} (ap : app A B) (now : fl) (sc : scope) (q : wsgi_request) (hs : headers) (body : bytes) : Prop :=
  forall m f cx, open_request ap now sc = Ok (EpUnary m f, hs, PConnect, cx) ->
  if str_eqb (sc_method sc) (lit "GET") then readable_get ap (parse_qs (env_default q "QUERY_STRING" [])) else readable_post ap hs body.

(** A request that opens a stream is not a GET, and its codec is known to the application. *)
Definition stream_codec {A B} (ap : app A B) (now : fl) (sc : scope) (hs : headers) : Prop :=
  forall ep p cx, open_request ap now sc = Ok (ep, hs, p, cx) -> (p = PConnect -> is_unary ep = false) ->
  sc_method sc <> lit "GET"
  /\ exists k, dget (ap_codecs ap) (codec_name_from_content_type p true (h_get_default hs (lit "content-type") [])) = Some k.

(** ** Comparing responses *)
Definition asgi_status (t : list aevent) : option N := match t with EvStart st _ _ :: _ => Some st | _ => None end.
Definition wsgi_status (t : list wevent) : option pystr := match without_logs t with WStart st _ :: _ => Some st | _ => None end.

(** An ordinary application. *)
Definition usual {A B} (ap : app A B) : Prop := service_paths ap /\ sound_tables ap /\ order_blind ap.
