(** Specification vocabulary for client calls. *)
From Coq Require Import List NArith ZArith Bool String.
From Verif Require Import MBase MPyStr MHeaders SHeaders MUtf8 MBase64 MWire MEnvelope SEnvelope MTimeout MProtocol SProtocol MClient.
Import ListNotations.
Local Open Scope N_scope.

(** Frame [f] carries a message that decodes to [m] within the size limit. *)
Definition message_frame {M} (k : rkind) (z : compression) (max : option N) (dec : bytes -> res M) (f : frame) (m : M) : Prop :=
  end_flag k f = false
  /\ exists d, content_of z f d /\ match max with Some n => N.of_nat (List.length d) <= n | None => True end /\ dec d = Ok m.

(** The response is one the client can read: status 200, acceptable content type, a compression [z] it offered. *)
Definition acceptable {A B} (c : client A B) (resp : stream_response) (z : compression) : Prop :=
  sp_status resp = 200
  /\ validate_stream_response (cl_proto c) (k_name (cl_codec c))
       (match hh_get (sp_headers resp) (lit "content-type") with Some v => v | None => [] end) = None
  /\ handle_response_compression (cl_proto c) true (sp_headers resp) (cl_comps c) = Ok z.

(** ... and its body consists of frames carrying the messages [ms], and an incomplete rest. *)
Definition readable {A B} (c : client A B) (resp : stream_response) (ms : list B) : Prop :=
  exists z fs tl, acceptable c resp z
  /\ frames_of (List.concat (sp_chunks resp)) fs tl
  /\ Forall2 (message_frame (reader_kind (cl_proto c)) z (cl_max c) (k_dec_res (cl_codec c))) fs ms.

(** A JSON value that says nothing: null, false, a zero, an empty text, list or object. *)
Inductive no_value : json -> Prop :=
| nv_null : no_value JNull
| nv_false : no_value (JBool false)
| nv_zero : no_value (JInt 0%Z)
| nv_float m r : Forall (fun c => ~ (49 <= c <= 57) /\ c <> 78 /\ c <> 73) m -> match r with [] => True | c :: _ => c = 69 \/ c = 101 end ->
    no_value (JFloat (m ++ r)) (* no digit but 0 before the exponent, not NaN or Infinity *)
| nv_str : no_value (JStr [])
| nv_arr : no_value (JArr [])
| nv_obj : no_value (JObj []).

(** The text an HTTP status stands for: its registered phrase, with the usual one for 499. *)
Definition registered : list (N * string) :=
  [(100, "Continue"); (101, "Switching Protocols"); (102, "Processing"); (103, "Early Hints"); (200, "OK");
   (201, "Created"); (202, "Accepted"); (203, "Non-Authoritative Information"); (204, "No Content");
   (205, "Reset Content"); (206, "Partial Content"); (207, "Multi-Status"); (208, "Already Reported");
   (226, "IM Used"); (300, "Multiple Choices"); (301, "Moved Permanently"); (302, "Found"); (303, "See Other");
   (304, "Not Modified"); (305, "Use Proxy"); (307, "Temporary Redirect"); (308, "Permanent Redirect");
   (400, "Bad Request"); (401, "Unauthorized"); (402, "Payment Required"); (403, "Forbidden"); (404, "Not Found");
   (405, "Method Not Allowed"); (406, "Not Acceptable"); (407, "Proxy Authentication Required");
   (408, "Request Timeout"); (409, "Conflict"); (410, "Gone"); (411, "Length Required");
   (412, "Precondition Failed"); (413, "Request Entity Too Large"); (414, "Request-URI Too Long");
   (415, "Unsupported Media Type"); (416, "Requested Range Not Satisfiable"); (417, "Expectation Failed");
   (418, "I'm a Teapot"); (421, "Misdirected Request"); (422, "Unprocessable Entity"); (423, "Locked");
   (424, "Failed Dependency"); (425, "Too Early"); (426, "Upgrade Required"); (428, "Precondition Required");
   (429, "Too Many Requests"); (431, "Request Header Fields Too Large"); (451, "Unavailable For Legal Reasons");
   (500, "Internal Server Error"); (501, "Not Implemented"); (502, "Bad Gateway"); (503, "Service Unavailable");
   (504, "Gateway Timeout"); (505, "HTTP Version Not Supported"); (506, "Variant Also Negotiates");
   (507, "Insufficient Storage"); (508, "Loop Detected"); (510, "Not Extended");
   (511, "Network Authentication Required")]%string.
Definition status_text (st : N) (msg : pystr) : Prop :=
  (forall p, In (st, p) registered -> msg = lit p)
  /\ (st = 499 -> msg = lit "Client Closed Request")
  /\ (~ In st (map fst registered) -> st <> 499 -> msg = []).

(** A line [name: value] of a gRPC-Web trailer block; lines are separated by CR LF. *)
Definition trailer_line (block : bytes) (name value : pystr) : Prop :=
  exists pre a b post k v,
    block = pre ++ a ++ 58 :: b ++ post
    /\ (pre = [] \/ exists p, pre = p ++ [13; 10]) /\ (post = [] \/ exists p, post = 13 :: 10 :: p)
    /\ ~ In 58 a /\ utf8_decode a = Some k /\ utf8_decode b = Some v
    /\ same_name name (strip k) = true /\ value = strip v.

(** The server reported gRPC status [s] in the trailers, or in the headers when the body holds no frame. *)
Definition status_in_headers (resp : stream_response) (s : pystr) : Prop :=
  hd_error (values_in (sp_headers resp) (lit "grpc-status")) = Some s
  /\ frames_of (List.concat (sp_chunks resp)) [] (List.concat (sp_chunks resp)).
Definition grpc_reported (p : proto) (z : compression) (resp : stream_response) (s : pystr) : Prop :=
  match p with
  | PConnect => False
  | PGrpc => hd_error (values_in (sp_trailers resp) (lit "grpc-status")) = Some s \/ status_in_headers resp s
  | PGrpcWeb =>
      (exists fs tl f d, frames_of (List.concat (sp_chunks resp)) fs tl /\ In f fs /\ end_flag RGrpcWeb f = true
         /\ content_of z f d /\ trailer_line d (lit "grpc-status") s)
      \/ status_in_headers resp s
  end.

(** https://connectrpc.com/docs/protocol and https://github.com/grpc/grpc/blob/master/doc/PROTOCOL-HTTP2.md#errors:
    code for an HTTP/2 reset; codes not listed there are transport failures. *)
Definition reset_spec (c : reset_code) (deadline_over : bool) : code :=
  match c with
  | RNoError | RProtocolError | RInternalError | RFlowControlError | RSettingsTimeout | RFrameSizeError
  | RCompressionError | RConnectError => Internal
  | RRefusedStream => Unavailable
  | RCancel => if deadline_over then DeadlineExceeded else Canceled
  | REnhanceYourCalm => ResourceExhausted
  | RInadequateSecurity => PermissionDenied
  | RStreamClosed | RHTTP11Required | RUnknownReset => Unavailable
  end.

(** The call's deadline [start + timeout] has been reached at [now]. *)
Definition deadline_over (start : fl) (timeout : option Z) (now : fl) : bool :=
  match timeout with
  | Some t => (end_time start t <=? now)%Z
  | None => false
  end.

(** A value of grpc-status-details-bin that cannot be decoded. *)
Definition undecodable (sc : status_codec) (d : pystr) : Prop :=
  b64decode (d ++ lit "===") = None \/ exists bin x, b64decode (d ++ lit "===") = Some bin /\ st_from sc bin = Raise x.

(** What a fault of the transport becomes; [None] for HTTP/2 resets (see [reset_spec]), for errors that are already
    ConnectErrors, and for the closing of the response iterator by the caller. *)
Definition fault_code (sync : bool) (f : fault) : option code :=
  match f with
  | FExn (EOther KTimeout _) => Some DeadlineExceeded
  | FExn (EOther (KReset _) _) => None
  | FExn (EConnect _ _ _) => None
  | FExn _ => Some Unavailable
  | FCancel => if sync then None else Some Canceled
  | FClose => None
  end.

(** [streamed c ck net timeout stop s]: [s] is the result of a streaming call of client [c] (bidirectional or server
    streaming), with any arguments. *)
Inductive streamed {A B} (c : client A B) (ck : clocks) (net : network) (timeout : option Z) (stop : option (nat * fault))
  : stream_result B -> Prop :=
| st_bidi md m u reqs : streamed c ck net timeout stop (execute_bidi_stream c ck net md m u timeout reqs stop)
| st_server md m u a : streamed c ck net timeout stop (execute_server_stream c ck net md m u timeout a stop).

(** [answered_by_stream ... s]: [s] is the result of a call that returns one message taken from a response stream: client
    streaming, or unary over gRPC and gRPC-Web. *)
Inductive answered_by_stream {A B} (c : client A B) (ck : clocks) (net : network) (timeout : option Z)
    (stop : option (nat * fault)) : call_result B -> Prop :=
| as_client_stream md m u reqs :
    answered_by_stream c ck net timeout stop (execute_client_stream c ck net md m u timeout reqs stop)
| as_unary md m u get a : cl_proto c <> PConnect ->
    answered_by_stream c ck net timeout stop (execute_unary c ck net md m u timeout get a stop).
