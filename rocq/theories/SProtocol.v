(** Specification vocabulary for the protocol layer: header lists, protocol-owned names, the published status tables
    and the names codecs and compressions may have. *)
From Coq Require Import List NArith ZArith Bool String.
From Verif Require Import MBase MPyStr MHeaders SHeaders MProtocol.
Import ListNotations.
Local Open Scope N_scope.

(** All values a list of header pairs gives for a name, in order. *)
Definition values_in (hs : list (pystr * pystr)) (k : pystr) : list pystr :=
  map snd (filter (fun p => same_name k (fst p)) hs).

(** The [headers=] argument [u] has the contents described by the history [hist]: nothing, a [Headers] object with that
    history, or a mapping with those items. *)
Inductive called_with : uheaders -> list hop -> Prop :=
| cw_none : called_with UNone []
| cw_headers hist : called_with (UHeaders (h_run h_empty hist)) hist
| cw_mapping items : called_with (UMapping items) (map (fun kv => Set_ (fst kv) (snd kv)) items).

(** Names each protocol sets itself on a request.  [timed]: a timeout applies to the call. *)
Definition owned_names (p : proto) (stream timed : bool) : list pystr :=
  match p with
  | PConnect =>
      [lit "Connect-Protocol-Version"; lit "Content-Type"]
      ++ (if stream then [lit "Connect-Content-Encoding"; lit "Connect-Accept-Encoding"]
          else [lit "Content-Encoding"; lit "Accept-Encoding"])
      ++ (if timed then [lit "Connect-Timeout-Ms"] else [])
  | PGrpc | PGrpcWeb =>
      [lit "TE"; lit "Content-Type"; lit "Grpc-Encoding"; lit "Grpc-Accept-Encoding"]
      ++ (if timed then [lit "Grpc-Timeout"] else [])
  end.
Definition owned (p : proto) (stream timed : bool) (k : pystr) : bool :=
  existsb (same_name k) (owned_names p stream timed).

(** https://connectrpc.com/docs/protocol/#error-codes *)
Definition connect_spec_status (c : code) : N :=
  match c with
  | Canceled => 499 | Unknown => 500 | InvalidArgument => 400 | DeadlineExceeded => 504 | NotFound => 404
  | AlreadyExists => 409 | PermissionDenied => 403 | ResourceExhausted => 429 | FailedPrecondition => 400
  | Aborted => 409 | OutOfRange => 400 | Unimplemented => 501 | Internal => 500 | Unavailable => 503
  | DataLoss => 500 | Unauthenticated => 401
  end.

(** https://grpc.github.io/grpc/core/md_doc_statuscodes.html: the code of each number 1..16, in order. *)
Definition grpc_spec_codes : list (string * code) :=
  [("1", Canceled); ("2", Unknown); ("3", InvalidArgument); ("4", DeadlineExceeded); ("5", NotFound);
   ("6", AlreadyExists); ("7", PermissionDenied); ("8", ResourceExhausted); ("9", FailedPrecondition);
   ("10", Aborted); ("11", OutOfRange); ("12", Unimplemented); ("13", Internal); ("14", Unavailable);
   ("15", DataLoss); ("16", Unauthenticated)]%string.

(** https://connectrpc.com/docs/protocol/#http-to-error-code; any other status is [unknown]. *)
Definition connect_spec_code_of_status (st : N) : code :=
  match st with
  | 400 => Internal | 401 => Unauthenticated | 403 => PermissionDenied | 404 => Unimplemented
  | 429 => Unavailable | 502 => Unavailable | 503 => Unavailable | 504 => Unavailable
  | _ => Unknown
  end.

(** A codec name that can be used in a media type: lower case, without parameters or white space. *)
Definition media_char (c : N) : bool :=
  ((97 <=? c) && (c <=? 122)) || ((48 <=? c) && (c <=? 57)) || (c =? 43) || (c =? 45) || (c =? 46) || (c =? 95).
Definition codec_name_ok (n : pystr) : Prop := forallb media_char n = true.

(** Codec names that make a Connect unary media type coincide with a gRPC one. *)
Definition grpc_like (n : pystr) : bool :=
  str_eqb n (lit "grpc") || startswith (lit "grpc+") n || str_eqb n (lit "grpc-web") || startswith (lit "grpc-web+") n.

(** A compression name that can be listed in an accept header: no comma, no white space around it. *)
Definition listable (n : pystr) : Prop := ~ In 44 n /\ strip n = n /\ n <> [].
