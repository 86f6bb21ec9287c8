(** The three protocols: request contexts, content types and compression negotiation, client and server side.
    Models src/connectrpc/_protocol_connect.py, _protocol_grpc.py, _protocol_server.py, request.py:18-116,
    _protocol.py:284-304, method.py. *)
From Coq Require Import List NArith ZArith Bool String.
From Verif Require Import MBase MPyStr MHeaders MWire MTimeout.
Import ListNotations.
Local Open Scope N_scope.

Inductive proto := PConnect | PGrpc | PGrpcWeb.

(** [IdempotencyLevel] and [MethodInfo] (method.py:13-46); [input] and [output] are the message types, which
    the codecs of the model take as type parameters. *)
Inductive idem := IdemUnknown | NoSideEffects | Idempotent.
Record method_info := mk_method { mi_service : pystr; mi_name : pystr; mi_idem : idem }.

(** [RequestContext] (request.py:18-116).  [cx_timeout] is the constructor argument, [cx_end] the stored
    [_end_time] (request.py:41-45), in the clock of MTimeout. *)
Record req_ctx := mk_ctx {
  cx_method : method_info;
  cx_http : pystr;
  cx_headers : headers;
  cx_timeout : option Z;
  cx_end : option fl;
  cx_server : option pystr;
  cx_client : option pystr
}.

(** The constructor (request.py:24-53), called at clock time [now]. *)
Definition make_ctx (now : fl) (m : method_info) (http : pystr) (hs : headers) (t : option Z)
    (server client : option pystr) : req_ctx :=
  mk_ctx m http hs t (match t with Some ms => Some (end_time now ms) | None => None end) server client.

(** [ctx.timeout_ms] read at clock time [now] (request.py:81-91). *)
Definition cx_remaining (c : req_ctx) (now : fl) : option fl :=
  match cx_end c with Some e => Some (remaining_ms e now) | None => None end.

(** [host_to_server_address(host, http_scheme)] (_protocol.py:284-293). *)
Definition host_to_server_address (host : option pystr) (scheme : pystr) : option pystr :=
  match host with
  | None => None
  | Some h =>
      if contains_char 58 h then Some h
      else if str_eqb scheme (lit "https") then Some (h ++ lit ":443")
      else if str_eqb scheme (lit "http") then Some (h ++ lit ":80")
      else Some h
  end.

(** [url_to_server_address(address)] (_protocol.py:296-304). *)
Definition url_to_server_address (address : pystr) : option pystr :=
  if startswith (lit "https://") address
  then host_to_server_address (Some (skipn 8 address)) (lit "https")
  else host_to_server_address (Some (skipn 7 address)) (lit "http").

(** ** Content types *)

(** [_normalize_content_type] (_protocol_connect.py:52-57). *)
Definition normalize_content_type (ct : pystr) : pystr := lower (strip (before 59 ct)).

Definition connect_unary_prefix : pystr := lit "application/".
Definition connect_stream_prefix : pystr := lit "application/connect+".
Definition grpc_default : pystr := lit "application/grpc".
Definition grpc_prefix : pystr := lit "application/grpc+".
Definition grpc_web_default : pystr := lit "application/grpc-web".
Definition grpc_web_prefix : pystr := lit "application/grpc-web+".

(** [codec_name_from_content_type] of each server protocol
    (_protocol_connect.py:60-71, 143-144; _protocol_grpc.py:90-93, 113-116). *)
Definition codec_name_from_content_type (p : proto) (stream : bool) (ct : pystr) : pystr :=
  match p with
  | PConnect =>
      let ct := normalize_content_type ct in
      let prefix := if stream then connect_stream_prefix else connect_unary_prefix in
      if startswith prefix ct then skipn (List.length prefix) ct else ct
  | PGrpc => if startswith grpc_prefix ct then skipn (List.length grpc_prefix) ct else lit "proto"
  | PGrpcWeb => if startswith grpc_web_prefix ct then skipn (List.length grpc_web_prefix) ct else lit "proto"
  end.

(** [negotiate_server_protocol] (_protocol_server.py:19-28). *)
Definition negotiate_server_protocol (ct : pystr) : proto :=
  if str_eqb ct grpc_default || startswith grpc_prefix ct then PGrpc
  else if str_eqb ct grpc_web_default || startswith grpc_web_prefix ct then PGrpcWeb
  else PConnect.

(** [content_type(codec)] of the server protocols (_protocol_connect.py:137-138; _protocol_grpc.py:84-85, 110-111). *)
Definition server_content_type (p : proto) (codec_name : pystr) : pystr :=
  match p with
  | PConnect => connect_stream_prefix ++ codec_name
  | PGrpc => grpc_prefix ++ codec_name
  | PGrpcWeb => grpc_web_prefix ++ codec_name
  end.

(** [uses_trailers()] (_protocol_connect.py:134-135; _protocol_grpc.py:81-82, 107-108). *)
Definition uses_trailers (p : proto) : bool := match p with PGrpc => true | _ => false end.

(** [compression_header_name()] (_protocol_connect.py:140-141; _protocol_grpc.py:87-88). *)
Definition compression_header_name (p : proto) : pystr :=
  match p with PConnect => lit "connect-content-encoding" | _ => lit "grpc-encoding" end.
Definition accept_header_name (p : proto) : pystr :=
  match p with PConnect => lit "connect-accept-encoding" | _ => lit "grpc-accept-encoding" end.

(** ** Server side *)

(** Method check of [create_request_context] (_protocol_connect.py:83-89; _protocol_grpc.py:60-61). *)
Definition check_http_method (p : proto) (level : idem) (http : pystr) : option exn :=
  match p, level with
  | PConnect, NoSideEffects =>
      if str_eqb http (lit "GET") || str_eqb http (lit "POST") then None
      else Some (EHttp 405 [(lit "allow", lit "GET, POST")])
  | _, _ =>
      if str_eqb http (lit "POST") then None else Some (EHttp 405 [(lit "allow", lit "POST")])
  end.

(** [create_request_context] of the server protocols (_protocol_connect.py:75-127; _protocol_grpc.py:52-74). *)
Definition server_create_context (now : fl) (p : proto) (m : method_info) (http scheme : pystr) (hs : headers)
    (client : option pystr) : res req_ctx :=
  match check_http_method p (mi_idem m) http with
  | Some e => Raise e
  | None =>
      do t <- match p with
              | PConnect =>
                  let v := h_get_default hs (lit "connect-protocol-version") (lit "1") in
                  if str_eqb v (lit "1") then connect_server_timeout (h_get hs (lit "connect-timeout-ms"))
                  else Raise (EConnect InvalidArgument
                                (lit "connect-protocol-version must be '1': got '" ++ v ++ lit "'") [])
              | _ => grpc_server_timeout (h_get hs (lit "grpc-timeout"))
              end ;
      Ok (make_ctx now m http hs t (host_to_server_address (h_get hs (lit "host")) scheme) client)
  end.

(** [negotiate_stream_compression] (_protocol_connect.py:146-159; _protocol_grpc.py:95-103). *)
Definition negotiate_stream_compression (p : proto) (hs : headers) (comps : dict compression)
  : option compression * compression :=
  let name := h_get_default hs (compression_header_name p) (lit "identity") in
  let req := match p, dget comps name with
             | PConnect, None => Some identity_comp
             | _, r => r
             end in
  (req, negotiate_compression (h_get_default hs (accept_header_name p) []) comps).

(** ** Client side *)

(** The [headers=] argument of a call: nothing, a [Headers] object or a plain mapping. *)
Inductive uheaders :=
| UNone
| UHeaders (h : headers)
| UMapping (items : list (pystr * pystr)).

(** Copy of the caller's headers (_protocol_connect.py:192-200; _protocol_grpc.py:213-221). *)
Definition copy_uheaders (u : uheaders) : headers :=
  match u with
  | UNone => h_empty
  | UHeaders h => h_of_pairs (h_allitems h)
  | UMapping items => h_of_mapping items
  end.

Definition set_default_header (h : headers) (k v : pystr) : headers :=
  if h_contains h k then h else h_setitem h k v.

Definition set_or_pop (h : headers) (k : pystr) (v : option pystr) : headers :=
  match v with Some x => h_setitem h k x | None => snd (h_pop h k) end.

Definition client_content_type (p : proto) (stream : bool) (codec_name : pystr) : pystr :=
  match p with
  | PConnect => (if stream then connect_stream_prefix else connect_unary_prefix) ++ codec_name
  | PGrpc => grpc_prefix ++ codec_name
  | PGrpcWeb => grpc_web_prefix ++ codec_name
  end.

Definition client_compression_header (p : proto) (stream : bool) : pystr :=
  match p with
  | PConnect => if stream then lit "connect-content-encoding" else lit "content-encoding"
  | _ => lit "grpc-encoding"
  end.
Definition client_accept_header (p : proto) (stream : bool) : pystr :=
  match p with
  | PConnect => if stream then lit "connect-accept-encoding" else lit "accept-encoding"
  | _ => lit "grpc-accept-encoding"
  end.
Definition timeout_header (p : proto) : pystr :=
  match p with PConnect => lit "connect-timeout-ms" | _ => lit "grpc-timeout" end.
Definition timeout_text (p : proto) (t : Z) : pystr :=
  match p with PConnect => connect_client_timeout t | _ => serialize_timeout t end.

(** Request headers built by [create_request_context] of the client protocols (_protocol_connect.py:192-226;
    _protocol_grpc.py:213-234).  [ua] is the default user agent, which contains version strings. *)
Definition client_headers (ua : pystr) (p : proto) (stream : bool) (u : uheaders) (timeout : option Z)
    (codec_name accept : pystr) (send : option compression) : headers :=
  let h := copy_uheaders u in
  let h := match p with
           | PConnect => h_setitem (set_default_header h (lit "user-agent") ua)
                           (lit "connect-protocol-version") (lit "1")
           | _ => set_default_header (h_setitem h (lit "te") (lit "trailers")) (lit "user-agent") ua
           end in
  let h := h_setitem h (client_accept_header p stream) accept in
  let h := set_or_pop h (client_compression_header p stream)
             (match send with Some c => Some (z_name c) | None => None end) in
  let h := h_setitem h (lit "content-type") (client_content_type p stream codec_name) in
  match timeout with
  | Some t => h_setitem h (timeout_header p) (timeout_text p t)
  | None => h
  end.

(** [create_request_context] of the client protocols (_protocol_connect.py:179-236; _protocol_grpc.py:200-244). *)
Definition client_create_context (now : fl) (ua : pystr) (p : proto) (m : method_info) (url http : pystr)
    (u : uheaders) (timeout : option Z) (codec_name : pystr) (stream : bool) (accept : pystr)
    (send : option compression) : req_ctx :=
  make_ctx now m http (client_headers ua p stream u timeout codec_name accept send) timeout
    (url_to_server_address url) None.

Definition bad_content_type (c : code) (got prefix name : pystr) : exn :=
  EConnect c (lit "invalid content-type: '" ++ got ++ lit "'; expecting '" ++ prefix ++ name ++ lit "'") [].

(** [validate_response] (_protocol_connect.py:238-263; _protocol_grpc.py:246-249). *)
Definition validate_response (p : proto) (codec_name : pystr) (status : N) (ct : pystr) : option exn :=
  match p with
  | PConnect =>
      let ct := normalize_content_type ct in
      if negb (status =? 200) then
        if str_eqb ct (lit "application/json") then None
        else Some (we_to_exception (we_from_http_status status))
      else if negb (startswith connect_unary_prefix ct)
      then Some (bad_content_type Unknown ct connect_unary_prefix codec_name)
      else if str_eqb (codec_name_from_content_type PConnect false ct) codec_name then None
      else Some (bad_content_type Internal ct connect_unary_prefix codec_name)
  | _ => Some (EOther KNotImpl [])
  end.

(** [validate_stream_response] (_protocol_connect.py:265-281; _protocol_grpc.py:251-272, 297-300). *)
Definition validate_stream_response (p : proto) (codec_name ct : pystr) : option exn :=
  let prefix := server_content_type p [] in
  let has_prefix := startswith prefix ct in
  let bare := match p with
              | PConnect => false
              | PGrpc => str_eqb ct grpc_default
              | PGrpcWeb => str_eqb ct grpc_web_default
              end in
  if negb (bare || has_prefix) then Some (bad_content_type Unknown ct prefix codec_name)
  else
    let got := if has_prefix then skipn (List.length prefix) ct else lit "proto" in
    if str_eqb got codec_name then None else Some (bad_content_type Internal ct prefix codec_name).

(** [', '.join(compressions.keys())]. *)
Definition comp_names (comps : dict compression) : pystr := join (lit ", ") (dkeys comps).

(** [handle_response_compression] (_protocol_connect.py:283-304; _protocol_grpc.py:274-287). *)
Definition handle_response_compression (p : proto) (stream : bool) (hs : http_headers) (comps : dict compression)
  : res compression :=
  match hh_get hs (client_compression_header p stream) with
  | None | Some [] => Ok identity_comp
  | Some e =>
      match dget comps e with
      | Some c => Ok c
      | None => Raise (EConnect Internal
                  (lit "unknown encoding '" ++ e ++ lit "'; accepted encodings are " ++ comp_names comps) [])
      end
  end.
