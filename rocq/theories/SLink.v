(** HTTP between a client and a server application: what the transport may do with requests and responses, and when a
    client and a server fit together. *)
From Coq Require Import List NArith ZArith Bool String.
From Verif Require Import MBase MPyStr MHeaders SHeaders MUtf8 MJson SJson MBase64 MPercent MWire MEnvelope SEnvelope MStatusPb MTimeout STimeout
  MProtocol SProtocol MClient SClient MServer MAsgi MWsgi SServer.
Import ListNotations.
Local Open Scope N_scope.

(** ** Header lines *)

(** Names under which servers, proxies and HTTP libraries add lines of their own. *)
Definition transport_names : list pystr :=
  [lit "date"; lit "server"; lit "connection"; lit "keep-alive"; lit "content-length"; lit "transfer-encoding"; lit "via";
   lit "alt-svc"; lit "host"; lit "accept"; lit "accept-encoding"; lit "forwarded"; lit "x-forwarded-for";
   lit "x-forwarded-proto"; lit "trailer"].
Definition transport_name (k : pystr) : bool := existsb (same_name k) transport_names.

(** The lines received under a name are those sent, in order; only under a name the sender did not use, and only if it is one
    of the above, may there be others. *)
Definition carried_at (sent got : list (pystr * pystr)) (k : pystr) : Prop :=
  values_in got k = values_in sent k \/ (transport_name k = true /\ values_in sent k = []).
Definition carried (sent got : list (pystr * pystr)) : Prop := forall k, carried_at sent got k.

Definition lower_names (hs : list (pystr * pystr)) : Prop := Forall (fun kv => lower (fst kv) = fst kv) hs.
Definition ascii (s : list N) : Prop := Forall (fun c => c < 128) s.
Definition ascii_pairs (hs : list (pystr * pystr)) : Prop := Forall (fun kv => ascii (fst kv) /\ ascii (snd kv)) hs.

(** ** Responses *)

(** A complete response, independently of the interface it was sent through. *)
Record response := mk_resp {
  re_status : N;
  re_headers : list (pystr * pystr);
  re_body : bytes;
  re_trailers : list (pystr * pystr)
}.

(** The application gave its server a complete response.  The text of ASGI header lines is ASCII. *)
Definition asgi_answers {A} (r : asgi_result A) (R : response) : Prop :=
  exists ts, asgi_response (ar_events r) (re_status R) (re_headers R) (re_body R) ts
    /\ re_trailers R = (match ts with Some l => l | None => [] end)
    /\ ascii_pairs (re_headers R) /\ ascii_pairs (re_trailers R).
Definition wsgi_answers {A} (r : wsgi_result A) (R : response) : Prop :=
  wr_out r = WReturn
  /\ exists phrase ts, wsgi_response (wr_events r) (dec_of_N (re_status R) ++ lit " " ++ phrase) (re_headers R) (re_body R) ts
    /\ re_trailers R = (match ts with Some l => l | None => [] end)
    /\ ascii_pairs (re_headers R) /\ ascii_pairs (re_trailers R).

(** Delivery of a response to a streaming client: same status, lines, trailers and body, in chunks of any sizes.  The HTTP
    library gives names in lower case. *)
Definition delivered (R : response) (resp : stream_response) : Prop :=
  sp_status resp = re_status R
  /\ carried (re_headers R) (sp_headers resp) /\ lower_names (sp_headers resp)
  /\ List.concat (sp_chunks resp) = re_body R /\ sp_fault resp = None
  /\ (forall k, values_in (sp_trailers resp) k = values_in (re_trailers R) k)
  /\ forall b, sp_exit resp b = None.

(** Delivery to a unary client: the library undoes the content-encoding with its decoder [inflate], and may remove that line. *)
Definition delivered_unary (inflate : pystr -> bytes -> option bytes) (R : response) (r : full_response) : Prop :=
  fr_status r = re_status R
  /\ (forall k, same_name k (lit "content-encoding") = false -> carried_at (re_headers R) (fr_headers r) k)
  /\ (values_in (fr_headers r) (lit "content-encoding") = []
      \/ values_in (fr_headers r) (lit "content-encoding") = values_in (re_headers R) (lit "content-encoding"))
  /\ lower_names (fr_headers r)
  /\ match values_in (re_headers R) (lit "content-encoding") with
     | [] => fr_content r = re_body R
     | [n] => if str_eqb n (lit "identity") then fr_content r = re_body R else inflate n (re_body R) = Some (fr_content r)
     | _ => True
     end.

(** ** Requests *)

(** The part of the URL after [address] is [path], with query string [query]. *)
Definition request_target (address : pystr) (rq : http_request) (path query : pystr) : Prop :=
  ~ In 63 path
  /\ ((rq_url rq = address ++ path /\ query = []) \/ rq_url rq = address ++ path ++ 63 :: query).

(** The body arrives in pieces of any sizes. *)
Definition receives (l : list recv) (body : bytes) : Prop :=
  exists bs fin rest, l = map (fun b => RReq b true) bs ++ RReq fin false :: rest /\ body = List.concat bs ++ fin.

(** The request reaches an ASGI application: same method, target, header lines and body; the connection stays usable, the task
    is not cancelled, and the server can send trailers.  Paths are compared without percent-encoding: service and method names
    do not need any. *)
Definition arrives_asgi (address : pystr) (rq : http_request) (sc : scope) (en : env) : Prop :=
  sc_method sc = rq_method rq /\ request_target address rq (sc_path sc) (sc_query sc)
  /\ carried (rq_headers rq) (sc_headers sc) /\ ascii_pairs (sc_headers sc) /\ sc_trailers sc = true
  /\ snd (rq_body rq) = None /\ receives (en_recv en) (List.concat (fst (rq_body rq)))
  /\ en_cut en = None /\ en_watch en = WIdle /\ sends_ok (en_send en).

(** Names of header lines as environment variables: HTTP_ and the name in upper case with "_" for "-". *)
Definition mangle (k : pystr) : pystr :=
  map (fun c => if c =? 45 then 95 else if (97 <=? c) && (c <=? 122) then c - 32 else c) k.

(** The request reaches a WSGI application.  Lines with one name are joined by the server, so only single ones are described;
    two names must not become the same variable.  Every HTTP_ variable comes from a name. *)
Definition arrives_wsgi (address : pystr) (rq : http_request) (q : wsgi_request) : Prop :=
  env_get q "REQUEST_METHOD" = Some (rq_method rq) /\ NoDup (dkeys (wq_env q))
  /\ (forall key, In key (dkeys (wq_env q)) -> startswith (lit "HTTP_") key = true -> exists k, key = lit "HTTP_" ++ mangle k)
  /\ (exists path, env_get q "PATH_INFO" = Some path /\ path <> [] /\ request_target address rq path (env_default q "QUERY_STRING" []))
  /\ (forall k v, values_in (rq_headers rq) k = [v] ->
        if same_name k (lit "content-type") then env_get q "CONTENT_TYPE" = Some v
        else if same_name k (lit "content-length") then True
        else dget (wq_env q) (lit "HTTP_" ++ mangle k) = Some v)
  /\ (values_in (rq_headers rq) (lit "content-type") = [] -> env_get q "CONTENT_TYPE" = None)
  /\ dget (wq_env q) (lit "HTTP_CONTENT_TYPE") = None
  /\ (forall k, (forall k', mangle k' = mangle k -> values_in (rq_headers rq) k' = []) -> transport_name k = false ->
        dget (wq_env q) (lit "HTTP_" ++ mangle k) = None)
  /\ (env_get q "CONTENT_LENGTH" = None
      \/ env_get q "CONTENT_LENGTH" = Some (dec_of_N (lenN (List.concat (fst (rq_body rq))))))
  /\ snd (rq_body rq) = None
  /\ (exists pieces, wq_input q = map RD pieces /\ Forall (fun b => b <> []) pieces
        /\ List.concat pieces = List.concat (fst (rq_body rq)))
  /\ wq_trailers q = true /\ forall i, wq_drain q i = None.

(** ** Networks *)

(** Every request in [sent] reaches the application (at its clock time [now]), and a complete answer is delivered. *)
Definition asgi_stream_link {A B} (ap : app A B) (now : fl) (address : pystr) (net : network) (sent : list http_request) : Prop :=
  forall rq, In rq sent -> exists sc en, arrives_asgi address rq sc en
    /\ forall R, asgi_answers (asgi_call ap now sc en) R -> exists resp, nw_stream net rq = SResp resp /\ delivered R resp.
Definition wsgi_stream_link {A B} (ap : app A B) (now : fl) (address : pystr) (net : network) (sent : list http_request) : Prop :=
  forall rq, In rq sent -> exists q, arrives_wsgi address rq q
    /\ forall R, wsgi_answers (wsgi_call ap now q) R -> exists resp, nw_stream net rq = SResp resp /\ delivered R resp.
Definition asgi_unary_link {A B} (inflate : pystr -> bytes -> option bytes) (ap : app A B) (now : fl) (address : pystr)
    (net : network) (sent : list http_request) : Prop :=
  forall rq, In rq sent -> exists sc en, arrives_asgi address rq sc en
    /\ forall R, asgi_answers (asgi_call ap now sc en) R ->
         exists r, nw_unary net rq = UResp r /\ delivered_unary inflate R r.
Definition wsgi_unary_link {A B} (inflate : pystr -> bytes -> option bytes) (ap : app A B) (now : fl) (address : pystr)
    (net : network) (sent : list http_request) : Prop :=
  forall rq, In rq sent -> exists q, arrives_wsgi address rq q
    /\ forall R, wsgi_answers (wsgi_call ap now q) R ->
         exists r, nw_unary net rq = UResp r /\ delivered_unary inflate R r.

(** ** Clients and servers that fit *)

(** What [w] writes, [r] reads back. *)
Definition undoes (r w : compression) : Prop :=
  forall d y, z_compress w d = Ok y -> if z_identity w then y = d else z_identity r = false /\ z_decompress r y = Ok d.

(** The server serves the method at its path with the client's codec, the compressions were given as lists of objects with
    names that can be listed, the server has the one the client sends with, and objects of the same name understand each
    other.  Both use the protobuf runtime for google.rpc.Status. *)
Definition fits {A B} (c : client A B) (ap : app A B) (m : method_info) (ep : endpoint A B) (k : codec A B) : Prop :=
  let n := k_name (cl_codec c) in
  dget (ap_endpoints ap) (lit "/" ++ mi_service m ++ lit "/" ++ mi_name m) = Some ep
  /\ ~ In 63 (mi_service m) /\ ~ In 63 (mi_name m)
  /\ codec_name_ok n /\ dget (ap_codecs ap) n = Some k /\ k_name k = n
  /\ (forall a d, k_enc_req (cl_codec c) a = Ok d -> k_dec_req k d = Ok a)
  /\ (forall b d, k_enc_res k b = Ok d -> k_dec_res (cl_codec c) d = Ok b)
  /\ (exists ca cs, cl_comps c = resolve_compressions ca /\ ap_comps ap = resolve_compressions cs
        /\ Forall (fun z => listable (z_name z) /\ ascii (z_name z)) ca)
  /\ (exists rz, dget (ap_comps ap) (z_name (cl_send c)) = Some rz /\ undoes rz (cl_send c))
  /\ (forall x zs zc, dget (ap_comps ap) x = Some zs -> dget (cl_comps c) x = Some zc -> undoes zc zs)
  /\ cl_sc c = pb_codec /\ ap_sc ap = pb_codec.

(** The timeout of a call, if any, can be written in the protocol; without one the caller passes no timeout header. *)
Definition timeout_fits {A B} (c : client A B) (timeout : option Z) (hist : list hop) : Prop :=
  match effective_timeout timeout (cl_timeout c) with
  | None => values_of hist (timeout_header (cl_proto c)) = []
  | Some t => match cl_proto c with PConnect => (0 <= t < 10000000000)%Z | _ => (t < grpc_limit_ms)%Z end
  end.

(** Size limits. *)
Definition fits_in (max : option N) (d : bytes) : Prop := match max with Some n => lenN d <= n | None => True end.

(** A sync client still has time when the response has arrived. *)
Definition in_time {A B} (c : client A B) (ck : clocks) (timeout : option Z) : Prop :=
  cl_sync c = true -> deadline_over (ck_start ck) (effective_timeout timeout (cl_timeout c)) (ck_late ck) = false.

(** Header lines a WSGI server passes on unchanged: one per name, no "_" in names, no content-length. *)
Definition wsgi_lines (hist : list hop) : Prop :=
  (forall k, (List.length (values_of hist k) <= 1)%nat) /\ (forall k, In 95 k -> values_of hist k = [])
  /\ values_of hist (lit "content-length") = [].

(** ** What the method sees of a request *)

(** Names the client sets or may set itself. *)
Definition client_line (p : proto) (stream : bool) (k : pystr) : bool := owned p stream true k || same_name k (lit "user-agent").
(** The context of the method on the server: its deadline is not later than the caller's, and it has every header line the
    caller gave. *)
Definition context_of (p : proto) (stream : bool) (hist : list hop) (timeout : option Z) (mi : method_info) (cx : req_ctx) : Prop :=
  cx_method cx = mi
  /\ (forall k, client_line p stream k = false -> (transport_name k = false \/ values_of hist k <> []) ->
        h_getall (cx_headers cx) k = values_of hist k)
  /\ match timeout with
     | None => cx_timeout cx = None
     | Some t => exists r, cx_timeout cx = Some r /\ (r <= Z.max 0 t)%Z
     end.

(** ** What a client sees of an error *)

(** Error details are compared by type name and bytes. *)
Definition same_detail (d d' : detail) : Prop := type_name d' = type_name d /\ message_bytes d' = message_bytes d.
(** [e'] is a ConnectError with the code, message and details of a ConnectError, or UNKNOWN with the text of any other
    exception. *)
Definition same_error (e e' : exn) : Prop :=
  match e with
  | EConnect c m ds => exists ds', e' = EConnect c m ds' /\ Forall2 same_detail ds ds'
  | _ => e' = EConnect Unknown (str_of_exn e) []
  end.

(** The method ended normally or with [e]; the client's call ended the same way. *)
Definition same_end (e : option interrupt) (o : stream_end) : Prop :=
  match e with
  | None => o = COk tt
  | Some (IExn x) => exists x', o = CErr x' /\ same_error x x'
  | Some ICancel => True
  end.

(** ** What can be sent *)

(** Text without surrogates. *)
Definition scalar_text (s : pystr) : Prop := Forall is_scalar s.
(** The text and details of the exception can be written: JSON for Connect, percent-encoding and protobuf for gRPC. *)
Definition sendable_error (p : proto) (e : exn) : Prop :=
  let w := we_from_exception e in
  match p with
  | PConnect => json_str_ok (we_msg w)
      /\ Forall (fun d => json_str_ok (type_name d) /\ is_bytes (message_bytes d)
                          /\ match d_debug d with Some v => json_ok v | None => True end) (we_details w)
  | _ => scalar_text (we_msg w)
      /\ Forall (fun d => scalar_text (type_url (d_any d)) /\ is_bytes (message_bytes d)) (we_details w)
  end.

(** Trailers each protocol can write: JSON text; header lines; lines of a trailer block.  For an error over gRPC, no trailers
    under the names that describe it. *)
Definition grpc_error_name (k : pystr) : bool := same_name k (lit "grpc-message") || same_name k (lit "grpc-status-details-bin").
Definition sendable_trailers (p : proto) (e : option interrupt) (ts : headers) : Prop :=
  match p with
  | PConnect => Forall (fun kv => json_str_ok (fst kv) /\ json_str_ok (snd kv)) (h_allitems ts)
  | PGrpc => Forall (fun kv => legal_name (fst kv) /\ legal_value (snd kv)) (h_allitems ts) /\ ascii_pairs (h_allitems ts)
  | PGrpcWeb => Forall (fun kv => legal_name (fst kv) /\ legal_value (snd kv)) (h_allitems ts)
  end
  /\ (p <> PConnect -> e <> None -> forall k, grpc_error_name k = true -> h_getall ts k = []).

(** The text of the end of a stream, before compression. *)
Definition end_text (sc : status_codec) (p : proto) (ts : headers) (e : option exn) (d : bytes) : Prop :=
  let err := option_map we_from_exception e in
  match p with
  | PConnect => json_bytes (connect_end_json ts err) = Ok d
  | PGrpc => d = []
  | PGrpcWeb => exists t, grpc_trailers sc ts err = Ok t /\ utf8_encode (trailer_block (h_allitems t)) = Some d
  end.

(** What can be written, whichever compression of the application is used, and does not exceed the reader's limit. *)
Definition sendable_bytes {A B} (ap : app A B) (max : option N) (d : bytes) : Prop :=
  fits_in max d /\ forall x z, dget (ap_comps ap) x = Some z -> exists y, z_compress z d = Ok y /\ lenN y < 4294967296.
Definition sendable_messages {A B} (ap : app A B) (k : codec A B) (max : option N) (ms : list B) : Prop :=
  Forall (fun b => exists d, k_enc_res k b = Ok d /\ sendable_bytes ap max d) ms.
Definition sendable_end {A B} (ap : app A B) (p : proto) (max : option N) (ts : headers) (e : option interrupt) : Prop :=
  exists d, end_text (ap_sc ap) p ts (reported e) d /\ sendable_bytes ap max d.

(** Everything a method did over [p] can be sent: its messages, the header lines set before the first one, its trailers and
    how it ended. *)
Definition sendable {A B} (ap : app A B) (k : codec A B) (p : proto) (max : option N) (steps : list (rstate * B)) (rs : rstate)
    (e : option interrupt) : Prop :=
  sendable_messages ap k max (map snd steps)
  /\ ascii_pairs (h_allitems (rs_h (head_state steps rs)))
  /\ sendable_trailers p e (rs_t rs)
  /\ sendable_end ap p max (rs_t rs) e
  /\ match e with None => True | Some (IExn x) => sendable_error p x | Some ICancel => False end.

(** Names of the status lines of gRPC. *)
Definition grpc_status_name (k : pystr) : bool := same_name k (lit "grpc-status") || grpc_error_name k.
Definition reserved_trailer (p : proto) (k : pystr) : bool := match p with PConnect => false | _ => grpc_status_name k end.

(** Names of the header lines the server protocol sets on a streaming response. *)
Definition stream_line (p : proto) (k : pystr) : bool := same_name k (lit "content-type") || same_name k (compression_header_name p).

(** What the caller reads from [ResponseMetadata] after a streaming call: the header lines set by the method before its first
    message, and its trailers.  Not described: names the protocol or the transport uses itself; names starting with
    "trailer-", which the client takes for trailers. *)
Definition trailer_mark : pystr := lit "trailer-".
Definition headers_seen (p : proto) (sent : headers) (m : metadata) : Prop :=
  forall k, stream_line p k = false -> startswith trailer_mark (lower k) = false ->
    (transport_name k = false \/ h_getall sent k <> []) -> h_getall (rm_headers m) k = h_getall sent k.
Definition trailers_seen (p : proto) (head sent : headers) (m : metadata) : Prop :=
  forall k, reserved_trailer p k = false -> h_getall head (trailer_mark ++ k) = [] ->
    h_getall (rm_trailers m) k = h_getall sent k.

(** What a streaming call gives its caller when the method produced [steps] and ended with [e] and response state [rs]. *)
Definition seen_stream {B} (p : proto) (steps : list (rstate * B)) (rs : rstate) (e : option interrupt) (r : stream_result B) : Prop :=
  sr_msgs r = map snd steps /\ same_end e (sr_end r)
  /\ exists md, sr_md r = Some md /\ headers_seen p (rs_h (head_state steps rs)) md
       /\ trailers_seen p (rs_h (head_state steps rs)) (rs_t rs) md.
(** The same for a call with one response message. *)
Definition seen_single {B} (p : proto) (steps : list (rstate * B)) (rs : rstate) (e : option interrupt) (r : call_result B) : Prop :=
  match e, steps with
  | None, [(_, b)] => cr_out r = COk b
  | Some (IExn x), [] => exists x', cr_out r = CErr x' /\ same_error x x'
  | _, _ => False
  end
  /\ exists md, cr_md r = Some md /\ headers_seen p (rs_h (head_state steps rs)) md
       /\ trailers_seen p (rs_h (head_state steps rs)) (rs_t rs) md.

(** ** Calls over a link *)

(** The servers behind a link: an ASGI application, or ([w = true]) a WSGI application. *)
Definition stream_link {A B} (w : bool) (ap : app A B) (now : fl) (address : pystr) (net : network) (sent : list http_request) : Prop :=
  if w then wsgi_stream_link ap now address net sent else asgi_stream_link ap now address net sent.
Definition unary_link {A B} (w : bool) (inflate : pystr -> bytes -> option bytes) (ap : app A B) (now : fl) (address : pystr)
    (net : network) (sent : list http_request) : Prop :=
  if w then wsgi_unary_link inflate ap now address net sent else asgi_unary_link inflate ap now address net sent.

(** The request arrived and made the application run methods [inv]. *)
Definition ran {A B} (w : bool) (ap : app A B) (now : fl) (address : pystr) (rq : http_request) (inv : list (invoked A)) : Prop :=
  if w then exists q, arrives_wsgi address rq q /\ wr_inv (wsgi_call ap now q) = inv
  else exists sc en, arrives_asgi address rq sc en /\ ar_inv (asgi_call ap now sc en) = inv.

(** A call that can work. *)
Definition connected {A B} (w : bool) (c : client A B) (ap : app A B) (m : method_info) (ep : endpoint A B) (k : codec A B)
    (ck : clocks) (u : uheaders) (hist : list hop) (timeout : option Z) : Prop :=
  fits c ap m ep k /\ called_with u hist /\ (w = true -> wsgi_lines hist) /\ timeout_fits c timeout hist /\ in_time c ck timeout.
(** The server's size limit admits the request messages. *)
Definition request_fits {A B} (c : client A B) (ap : app A B) (reqs : list A) : Prop :=
  forall a d, In a reqs -> k_enc_req (cl_codec c) a = Ok d -> fits_in (ap_max ap) d.

(** ** Unary calls of the Connect protocol *)

(** [r] undoes [w] on whole bodies: nothing is compressed to nothing only if it was empty, and what is named identity is it. *)
Definition undone (r w : compression) : Prop :=
  forall d y, z_compress w d = Ok y ->
    z_decompress r y = Ok d /\ (y = [] -> d = []) /\ (z_name w = lit "identity" -> y = d).

(** A Connect unary call, by GET if [get], that can work.  Besides [fits]: the codec's name is not taken by gRPC, the client's
    compression has a lower-case ASCII name and the server undoes it, the client's HTTP library ([inflate]) undoes what the
    server may use, and a method called by GET has no side effects. *)
Definition unary_connected {A B} (w : bool) (inflate : pystr -> bytes -> option bytes) (c : client A B) (ap : app A B)
    (m : method_info) (ep : endpoint A B) (k : codec A B) (u : uheaders) (hist : list hop) (timeout : option Z) (get : bool) : Prop :=
  cl_proto c = PConnect /\ fits c ap m ep k /\ called_with u hist /\ (w = true -> wsgi_lines hist) /\ timeout_fits c timeout hist
  /\ grpc_like (k_name (cl_codec c)) = false
  /\ lower (z_name (cl_send c)) = z_name (cl_send c) /\ ascii (z_name (cl_send c))
  /\ (exists rz, dget (ap_comps ap) (z_name (cl_send c)) = Some rz /\ undone rz (cl_send c))
  /\ (forall x z d y, dget (ap_comps ap) x = Some z -> z_compress z d = Ok y ->
        if str_eqb (z_name z) (lit "identity") then y = d else inflate (z_name z) y = Some d)
  /\ (get = true -> mi_idem (ep_method ep) = NoSideEffects).

(** The request message can be written, and the server's size limit admits it. *)
Definition sendable_request {A B} (c : client A B) (ap : app A B) (a : A) : Prop :=
  exists d y, k_enc_req (cl_codec c) a = Ok d /\ z_compress (cl_send c) d = Ok y
    /\ fits_in (ap_max ap) d /\ is_bytes y /\ lenN y < 4294967296.

(** The answer of a unary method can be written: its message, or its exception; header and trailer lines are ASCII, and none
    is a content-encoding. *)
Definition sendable_answer {A B} (ap : app A B) (k : codec A B) (max : option N) (steps : list (rstate * B)) (rs : rstate)
    (e : option interrupt) : Prop :=
  match e with
  | None => Forall (fun b => exists d, k_enc_res k b = Ok d /\ fits_in max d
                               /\ forall x z, dget (ap_comps ap) x = Some z -> exists y, z_compress z d = Ok y) (map snd steps)
  | Some (IExn x) => sendable_error PConnect x /\ is_http x = false
  | Some ICancel => False
  end
  /\ ascii_pairs (h_allitems (rs_h rs)) /\ ascii_pairs (h_allitems (rs_t rs)) /\ h_getall (rs_h rs) (lit "content-encoding") = [].

(** Names of the header lines the server sets on a unary response. *)
Definition unary_line (k : pystr) : bool :=
  same_name k (lit "content-type") || same_name k (lit "content-encoding") || same_name k (lit "vary").

(** What the caller reads from [ResponseMetadata] after a unary call when the method set headers [hs] and trailers [ts]: a
    header is a header unless its name starts with "trailer-"; everything else is a trailer. *)
Definition unary_metadata (hs ts : headers) (m : metadata) : Prop :=
  (forall k, unary_line k = false -> startswith trailer_mark (lower k) = false ->
     (transport_name k = false \/ h_getall hs k <> []) -> h_getall (rm_headers m) k = h_getall hs k)
  /\ (forall k, startswith trailer_mark (lower k) = true -> h_getall (rm_headers m) k = [])
  /\ (forall k, h_getall (rm_trailers m) k = h_getall hs (trailer_mark ++ k) ++ h_getall ts k).

(** What a unary call gives its caller. *)
Definition seen_unary {B} (steps : list (rstate * B)) (rs : rstate) (e : option interrupt) (r : call_result B) : Prop :=
  match e, steps with
  | None, [(_, b)] => cr_out r = COk b
  | Some (IExn x), [] => exists x', cr_out r = CErr x' /\ same_error x x'
  | _, _ => False
  end
  /\ exists md, cr_md r = Some md /\ unary_metadata (rs_h rs) (rs_t rs) md.
