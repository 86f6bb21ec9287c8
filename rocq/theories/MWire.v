(** Compression registry, wire errors and response metadata.
    Models src/connectrpc/_compression.py, src/connectrpc/_protocol.py:51-186,
    src/connectrpc/_response_metadata.py. *)
From Coq Require Import List NArith ZArith Bool String.
From Verif Require Import MBase MPyStr MHeaders MUtf8 MBase64 MJson.
Import ListNotations.
Local Open Scope N_scope.

(** ** Compression (src/connectrpc/compression/__init__.py, _compression.py:13-23).
    [z_identity] is [isinstance(c, IdentityCompression)]. *)
Record compression := mk_comp {
  z_name : pystr;
  z_identity : bool;
  z_compress : bytes -> res bytes;
  z_decompress : bytes -> res bytes
}.

(** [IdentityCompression()] (_compression.py:13-23). *)
Definition identity_comp : compression := mk_comp (lit "identity") true Ok Ok.

(** [resolve_compressions(compressions)] for an explicit iterable (_compression.py:32-40).
    [None] (the default table) is [resolve_compressions [gzip]]: same names, same objects. *)
Definition resolve_compressions (cs : list compression) : dict compression :=
  dset (fold_left (fun d c => dset d (z_name c) c) cs []) (lit "identity") identity_comp.

(** [negotiate_compression(accept_encoding, compressions)] (_compression.py:43-50). *)
Fixpoint negotiate_first (accepts : list pystr) (comps : dict compression) : compression :=
  match accepts with
  | [] => identity_comp
  | a :: r => match dget comps (strip a) with Some c => c | None => negotiate_first r comps end
  end.
Definition negotiate_compression (accept : pystr) (comps : dict compression) : compression :=
  negotiate_first (split_on 44 accept) comps.

(** ** HTTP statuses *)

(** [http.HTTPStatus(n).phrase] (CPython 3.11). *)
Definition http_phrases : list (N * pystr) :=
  [(100, lit "Continue");
   (101, lit "Switching Protocols");
   (102, lit "Processing");
   (103, lit "Early Hints");
   (200, lit "OK");
   (201, lit "Created");
   (202, lit "Accepted");
   (203, lit "Non-Authoritative Information");
   (204, lit "No Content");
   (205, lit "Reset Content");
   (206, lit "Partial Content");
   (207, lit "Multi-Status");
   (208, lit "Already Reported");
   (226, lit "IM Used");
   (300, lit "Multiple Choices");
   (301, lit "Moved Permanently");
   (302, lit "Found");
   (303, lit "See Other");
   (304, lit "Not Modified");
   (305, lit "Use Proxy");
   (307, lit "Temporary Redirect");
   (308, lit "Permanent Redirect");
   (400, lit "Bad Request");
   (401, lit "Unauthorized");
   (402, lit "Payment Required");
   (403, lit "Forbidden");
   (404, lit "Not Found");
   (405, lit "Method Not Allowed");
   (406, lit "Not Acceptable");
   (407, lit "Proxy Authentication Required");
   (408, lit "Request Timeout");
   (409, lit "Conflict");
   (410, lit "Gone");
   (411, lit "Length Required");
   (412, lit "Precondition Failed");
   (413, lit "Request Entity Too Large");
   (414, lit "Request-URI Too Long");
   (415, lit "Unsupported Media Type");
   (416, lit "Requested Range Not Satisfiable");
   (417, lit "Expectation Failed");
   (418, lit "I'm a Teapot");
   (421, lit "Misdirected Request");
   (422, lit "Unprocessable Entity");
   (423, lit "Locked");
   (424, lit "Failed Dependency");
   (425, lit "Too Early");
   (426, lit "Upgrade Required");
   (428, lit "Precondition Required");
   (429, lit "Too Many Requests");
   (431, lit "Request Header Fields Too Large");
   (451, lit "Unavailable For Legal Reasons");
   (500, lit "Internal Server Error");
   (501, lit "Not Implemented");
   (502, lit "Bad Gateway");
   (503, lit "Service Unavailable");
   (504, lit "Gateway Timeout");
   (505, lit "HTTP Version Not Supported");
   (506, lit "Variant Also Negotiates");
   (507, lit "Insufficient Storage");
   (508, lit "Loop Detected");
   (510, lit "Not Extended");
   (511, lit "Network Authentication Required")].

Definition assoc_N {A} (l : list (N * A)) (n : N) : option A :=
  match find (fun p => fst p =? n) l with Some p => Some (snd p) | None => None end.

(** [_error_to_http_status] (_protocol.py:51-74): code and reason phrase. *)
Definition error_to_http_status (c : code) : N * pystr :=
  match c with
  | Canceled => (499, lit "Client Closed Request")
  | Unknown => (500, lit "Internal Server Error")
  | InvalidArgument => (400, lit "Bad Request")
  | DeadlineExceeded => (504, lit "Gateway Timeout")
  | NotFound => (404, lit "Not Found")
  | AlreadyExists => (409, lit "Conflict")
  | PermissionDenied => (403, lit "Forbidden")
  | ResourceExhausted => (429, lit "Too Many Requests")
  | FailedPrecondition => (400, lit "Bad Request")
  | Aborted => (409, lit "Conflict")
  | OutOfRange => (400, lit "Bad Request")
  | Unimplemented => (501, lit "Not Implemented")
  | Internal => (500, lit "Internal Server Error")
  | Unavailable => (503, lit "Service Unavailable")
  | DataLoss => (500, lit "Internal Server Error")
  | Unauthenticated => (401, lit "Unauthorized")
  end.

(** [_http_status_code_to_error] (_protocol.py:77-86). *)
Definition http_status_code_to_error : list (N * code) :=
  [(400, Internal); (401, Unauthenticated); (403, PermissionDenied); (404, Unimplemented);
   (429, Unavailable); (502, Unavailable); (503, Unavailable); (504, Unavailable)].

Definition http_code_or_unknown (st : N) : code :=
  match assoc_N http_status_code_to_error st with Some c => c | None => Unknown end.

(** ** ConnectWireError (_protocol.py:89-186) *)
Record wire_error := mk_we { we_code : code; we_msg : pystr; we_details : list detail }.

(** [ConnectWireError.from_exception] (_protocol.py:95-99). *)
Definition we_from_exception (e : exn) : wire_error :=
  match e with
  | EConnect c m ds => mk_we c m ds
  | _ => mk_we Unknown (str_of_exn e) []
  end.

(** Python truthiness of a JSON value.  A float is falsy when its mantissa has no non-zero digit
    (underflow of a tiny literal to 0.0 is not modelled). *)
Definition json_truthy (v : json) : bool :=
  match v with
  | JNull => false
  | JBool b => b
  | JInt z => negb (Z.eqb z 0)
  | JFloat t => existsb (fun c => ((49 <=? c) && (c <=? 57)) || (c =? 78) || (c =? 73)) (before 101 (before 69 t))
  | JStr s => nonempty s
  | JArr l => nonempty l
  | JObj d => nonempty d
  end.

Definition google_prefix : pystr := lit "type.googleapis.com/".

(** [ErrorDetail.type_name] / [.message_bytes] (errors.py:38-46). *)
Definition type_name (d : detail) : pystr := removeprefix google_prefix (type_url (d_any d)).
Definition message_bytes (d : detail) : bytes := any_value (d_any d).

(** One element of the "details" list (_protocol.py:128-141).  [None] is "skip". *)
Definition detail_of_json (v : json) : res (option detail) :=
  match v with
  | JObj d =>
      match dget d (lit "type"), dget d (lit "value") with
      | None, _ | _, None | Some JNull, _ | _, Some JNull => Ok None
      | Some (JStr t), Some (JStr b) =>
          match b64decode (b ++ lit "===") with
          | Some bs => Ok (Some (mk_detail (mk_any (google_prefix ++ t) bs) None))
          | None => Raise (EOther KValue (lit "base64"))
          end
      | Some _, Some _ => Raise (EOther KType (lit "can only concatenate str"))
      end
  | _ => Raise (EOther KAttr (lit "object has no attribute 'get'"))
  end.

Fixpoint details_of_list (l : list json) : res (list detail) :=
  match l with
  | [] => Ok []
  | v :: t => do o <- detail_of_json v ;
              do r <- details_of_list t ;
              Ok (match o with Some d => d :: r | None => r end)
  end.

(** Iterating the value of "details" (_protocol.py:125-128). *)
Definition details_of_json (o : option json) : res (list detail) :=
  match o with
  | None => Ok []
  | Some v =>
      if json_truthy v then
        match v with
        | JArr l => details_of_list l
        | JStr _ | JObj _ => Raise (EOther KAttr (lit "'str' object has no attribute 'get'"))
        | _ => Raise (EOther KType (lit "object is not iterable"))
        end
      else Ok []
  end.

(** [data.get("message", "")].  Simplification: a message that is not a JSON string is kept as its JSON text
    (Python keeps the object). *)
Definition message_of_json (o : option json) : pystr :=
  match o with None => [] | Some (JStr s) => s | Some v => json_dumps v end.

(** [ConnectWireError.from_dict(data, http_status, unexpected_code)] (_protocol.py:111-142). *)
Definition we_from_dict (d : dict json) (http_status : N) (unexpected : code) : res wire_error :=
  let c := match dget d (lit "code") with
           | Some v =>
               if json_truthy v then
                 match v with
                 | JStr s => match code_of_value s with Some c => c | None => unexpected end
                 | _ => unexpected
                 end
               else http_code_or_unknown http_status
           | None => http_code_or_unknown http_status
           end in
  let m := message_of_json (dget d (lit "message")) in
  do ds <- details_of_json (dget d (lit "details")) ;
  Ok (mk_we c m ds).

(** [ConnectWireError.from_http_status] (_protocol.py:144-152). *)
Definition we_from_http_status (st : N) : wire_error :=
  let m := match assoc_N http_phrases st with
           | Some p => p
           | None => if st =? 499 then lit "Client Closed Request" else []
           end in
  mk_we (http_code_or_unknown st) m [].

(** [ConnectWireError.from_response] (_protocol.py:101-109); [response.json()] parses the body bytes. *)
Definition we_from_response (st : N) (content : bytes) : res wire_error :=
  match json_loads_bytes content with
  | Some (JObj d) => we_from_dict d st Unavailable
  | _ => Ok (we_from_http_status st)
  end.

(** [ConnectWireError.to_exception] (_protocol.py:154-155). *)
Definition we_to_exception (w : wire_error) : exn := EConnect (we_code w) (we_msg w) (we_details w).

(** [ConnectWireError.to_http_status] (_protocol.py:157-158). *)
Definition we_to_http_status (w : wire_error) : N * pystr := error_to_http_status (we_code w).

(** [ConnectWireError.to_dict] (_protocol.py:160-183). *)
Definition detail_to_json (d : detail) : json :=
  JObj ([(lit "type", JStr (type_name d));
         (lit "value", JStr (rstrip_eq (b64encode (message_bytes d))))]
        ++ match d_debug d with Some v => [(lit "debug", v)] | None => [] end).

Definition we_to_dict (w : wire_error) : json :=
  JObj ([(lit "code", JStr (code_value (we_code w))); (lit "message", JStr (we_msg w))]
        ++ match we_details w with
           | [] => []
           | ds => [(lit "details", JArr (map detail_to_json ds))]
           end).

(** [json.dumps(v).encode()]: encoding ASCII text cannot fail; a non-ASCII [JFloat] text cannot occur. *)
Definition json_bytes (v : json) : res bytes :=
  match utf8_encode (json_dumps v) with
  | Some b => Ok b
  | None => Raise (EOther KValue (lit "utf-8"))
  end.

(** [ConnectWireError.to_json_bytes] (_protocol.py:185-186). *)
Definition we_to_json_bytes (w : wire_error) : res bytes := json_bytes (we_to_dict w).

(** ** pyqwest headers: names compare case-insensitively, all pairs are kept in order
    (third-party library; modelled as a list of pairs). *)
Definition http_headers := list (pystr * pystr).
Definition hh_get (h : http_headers) (k : pystr) : option pystr :=
  match find (fun p => str_eqb (lower (fst p)) (lower k)) h with Some p => Some (snd p) | None => None end.

(** ** ResponseMetadata (_response_metadata.py) *)

(** [_headers], [_trailers] of a ResponseMetadata object (lines 76-77). *)
Record metadata := mk_md { md_headers : option headers; md_trailers : option headers }.
Definition md_new : metadata := mk_md None None.

Definition opt_headers (o : option headers) : headers := match o with Some h => h | None => h_empty end.

(** [rm.headers] / [rm.trailers] (lines 98-110). *)
Definition rm_headers (m : metadata) : headers := opt_headers (md_headers m).
Definition rm_trailers (m : metadata) : headers := opt_headers (md_trailers m).

Definition trailer_prefix : pystr := lit "trailer-".

(** [handle_response_headers(headers)] (lines 19-37); the argument [None] is "no active ResponseMetadata".
    The keys of pyqwest headers are lower case. *)
Definition split_trailers (hs : http_headers) : headers * headers :=
  fold_left (fun (acc : headers * headers) kv =>
               let '(rh, rt) := acc in
               if startswith trailer_prefix (fst kv)
               then (rh, h_add rt (skipn (List.length trailer_prefix) (fst kv)) (snd kv))
               else (h_add rh (fst kv) (snd kv), rt)) hs (h_empty, h_empty).

Definition handle_response_headers (cur : option metadata) (hs : http_headers) : option metadata :=
  match cur with
  | None => None
  | Some m =>
      let (rh, rt) := split_trailers hs in
      Some (mk_md (if h_truthy rh then Some rh else md_headers m)
                  (if h_truthy rt then Some rt else md_trailers m))
  end.

(** [handle_response_trailers(trailers)] with HTTP headers (lines 40-54, values are [str]). *)
Definition handle_trailers_http (cur : option metadata) (ts : http_headers) : option metadata :=
  match cur with
  | None => None
  | Some m =>
      let t := fold_left (fun h kv => h_add h (fst kv) (snd kv)) ts (rm_trailers m) in
      Some (mk_md (md_headers m) (if h_truthy t then Some t else md_trailers m))
  end.

(** Values added for one key of a JSON mapping (lines 47-52): a string is one value, any other iterable gives
    one value per element, anything else is a TypeError.  Simplification: elements that are not strings
    are kept as JSON text; iterating a dict value gives its keys. *)
Definition json_text (v : json) : pystr := match v with JStr s => s | _ => json_dumps v end.
Definition trailer_values (v : json) : option (list pystr) :=
  match v with
  | JStr s => Some [s]
  | JArr l => Some (map json_text l)
  | JObj d => Some (map fst d)
  | _ => None
  end.

Fixpoint add_json_trailers (h : headers) (d : dict json) : headers * option exn :=
  match d with
  | [] => (h, None)
  | (k, v) :: r =>
      match trailer_values v with
      | Some vs => add_json_trailers (fold_left (fun h x => h_add h k x) vs h) r
      | None => (h, Some (EOther KType (lit "object is not iterable")))
      end
  end.

(** [handle_response_trailers(metadata)] with the "metadata" value of a Connect end message (lines 40-54).
    When the loop raises, a trailers object that already existed has been updated in place, a fresh one is
    dropped. *)
Definition handle_trailers_json (cur : option metadata) (v : json) : option metadata * option exn :=
  match cur with
  | None => (None, None)
  | Some m =>
      match v with
      | JObj d =>
          let (t, e) := add_json_trailers (rm_trailers m) d in
          match e with
          | None => (Some (mk_md (md_headers m) (if h_truthy t then Some t else md_trailers m)), None)
          | Some x => (Some (mk_md (md_headers m)
                                   (match md_trailers m with Some _ => Some t | None => None end)), Some x)
          end
      | _ => (Some m, Some (EOther KAttr (lit "object has no attribute 'items'")))
      end
  end.
