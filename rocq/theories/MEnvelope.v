(** Envelope framing.  Models src/connectrpc/_envelope.py, the end-message handling of
    src/connectrpc/_protocol_connect.py:162-175, 316-332 and of src/connectrpc/_protocol_grpc.py:160-192, 312-399. *)
From Coq Require Import List NArith ZArith Bool String.
From Verif Require Import MBase MPyStr MHeaders MUtf8 MBase64 MPercent MJson MWire.
Import ListNotations.
Local Open Scope N_scope.

Definition lenN {A} (l : list A) : N := N.of_nat (List.length l).
Definition takeN {A} (n : N) (l : list A) : list A := firstn (N.to_nat n) l.
Definition dropN {A} (n : N) (l : list A) : list A := skipn (N.to_nat n) l.

(** [int.from_bytes(b, "big")] *)
Definition be_val (b : bytes) : N := fold_left (fun a x => a * 256 + x) b 0.

(** [struct.pack(">BI", prefix, n)]; values out of range are struct.error. *)
Definition be32 (n : N) : bytes := [n / 16777216 mod 256; n / 65536 mod 256; n / 256 mod 256; n mod 256].
Definition struct_pack_BI (prefix n : N) : res bytes :=
  if (prefix <? 256) && (n <? 4294967296) then Ok (prefix :: be32 n)
  else Raise (EOther KStruct (lit "'I' format requires 0 <= number <= 4294967295")).

(** ** Writer *)

(** [EnvelopeWriter.__init__]: the flag byte (_envelope.py:103-108). *)
Definition writer_prefix (c : option compression) : N :=
  match c with
  | None => 0
  | Some z => if z_identity z then 0 else 1
  end.

(** [if self._compression: data = self._compression.compress(data)] *)
Definition maybe_compress (c : option compression) (data : bytes) : res bytes :=
  match c with None => Ok data | Some z => z_compress z data end.

(** [EnvelopeWriter.write] (_envelope.py:110-116). *)
Definition write_message {M} (enc : M -> res bytes) (c : option compression) (m : M) : res bytes :=
  do data <- enc m ;
  do data <- maybe_compress c data ;
  do hd <- struct_pack_BI (writer_prefix c) (lenN data) ;
  Ok (hd ++ data).

(** ** gRPC status numbers (_protocol_grpc.py:424-443) *)
Definition code_to_grpc (c : code) : N :=
  match c with
  | Canceled => 1 | Unknown => 2 | InvalidArgument => 3 | DeadlineExceeded => 4 | NotFound => 5
  | AlreadyExists => 6 | PermissionDenied => 7 | ResourceExhausted => 8 | FailedPrecondition => 9
  | Aborted => 10 | OutOfRange => 11 | Unimplemented => 12 | Internal => 13 | Unavailable => 14
  | DataLoss => 15 | Unauthenticated => 16
  end.

(** [_connect_status_to_grpc[code]]: the literal strings "1".."16" (_protocol_grpc.py:424-441). *)
Definition connect_status_to_grpc (c : code) : pystr := dec_of_N (code_to_grpc c).

(** [_grpc_status_to_connect.get(s, Code.UNKNOWN)] (_protocol_grpc.py:443). *)
Definition grpc_status_to_connect (s : pystr) : code :=
  match find (fun c => str_eqb (connect_status_to_grpc c) s) all_codes with
  | Some c => c
  | None => Unknown
  end.

(** ** google.rpc.Status messages (src/connectrpc/_gen/status_pb.py).  The protobuf runtime is a parameter:
    [st_to] is [Status(code=, message=, details=).to_binary()], [st_from] is [Status.from_binary]. *)
Record status_pb := mk_status { s_code : Z; s_message : pystr; s_details : list any }.
Record status_codec := mk_sc { st_to : status_pb -> res bytes; st_from : bytes -> res status_pb }.

(** ** End of stream, writer side *)

(** [metadata.setdefault(key, []).append(value)] over [user_trailers.allitems()]
    (_protocol_connect.py:166-168). *)
Definition group_metadata (ts : list (pystr * pystr)) : dict (list pystr) :=
  fold_left (fun d (kv : pystr * pystr) =>
               dset d (fst kv) ((match dget d (fst kv) with Some l => l | None => [] end) ++ [snd kv])) ts [].

(** The end-stream JSON object (_protocol_connect.py:164-171). *)
Definition connect_end_json (trailers : headers) (err : option wire_error) : json :=
  JObj ((if h_truthy trailers
         then [(lit "metadata", JObj (map (fun kv : pystr * list pystr => (fst kv, JArr (map JStr (snd kv))))
                                          (group_metadata (h_allitems trailers))))]
         else [])
        ++ match err with Some w => [(lit "error", we_to_dict w)] | None => [] end).

(** [ConnectEnvelopeWriter.end] (_protocol_connect.py:162-175). *)
Definition connect_end (c : option compression) (trailers : headers) (err : option wire_error) : res bytes :=
  do data <- json_bytes (connect_end_json trailers err) ;
  do data <- maybe_compress c data ;
  do hd <- struct_pack_BI (N.lor (writer_prefix c) 2) (lenN data) ;
  Ok (hd ++ data).

(** [GRPCEnvelopeWriter.end] (_protocol_grpc.py:160-182). *)
Definition grpc_trailers (sc : status_codec) (user : headers) (err : option wire_error) : res headers :=
  let t := h_of_pairs (h_allitems user) in
  match err with
  | None => Ok (h_setitem t (lit "grpc-status") (lit "0"))
  | Some w =>
      let status := connect_status_to_grpc (we_code w) in
      let t := h_setitem t (lit "grpc-status") status in
      do t <- (if nonempty (we_msg w) then
                 match quote (we_msg w) with
                 | Some q => Ok (h_setitem t (lit "grpc-message") q)
                 | None => Raise (EOther KValue (lit "surrogates not allowed"))
                 end
               else Ok t) ;
      if nonempty (we_details w) then
        do bin <- st_to sc (mk_status (Z.of_N (code_to_grpc (we_code w))) (we_msg w) (map d_any (we_details w))) ;
        Ok (h_setitem t (lit "grpc-status-details-bin") (rstrip_eq (b64encode bin)))
      else Ok t
  end.

(** The trailer block text (_protocol_grpc.py:188). *)
Definition trailer_block (ts : list (pystr * pystr)) : pystr :=
  flat_map (fun kv => fst kv ++ lit ": " ++ snd kv ++ [13; 10]) ts.

(** [GRPCWebEnvelopeWriter.end] (_protocol_grpc.py:185-192). *)
Definition grpc_web_end (sc : status_codec) (c : option compression) (user : headers) (err : option wire_error)
  : res bytes :=
  do t <- grpc_trailers sc user err ;
  do data <- match utf8_encode (trailer_block (h_allitems t)) with
             | Some b => Ok b
             | None => Raise (EOther KValue (lit "surrogates not allowed"))
             end ;
  do data <- maybe_compress c data ;
  do hd <- struct_pack_BI (N.lor (writer_prefix c) 128) (lenN data) ;
  Ok (hd ++ data).

(** ** Reader *)

(** Which class the reader is: EnvelopeReader (server), ConnectEnvelopeReader, GRPCEnvelopeReader,
    GRPCWebEnvelopeReader. *)
Inductive rkind := RBase | RConnect | RGrpc | RGrpcWeb.

(** Reader attributes: [_buffer], [_next_message_length], [_read_message], [_trailers], plus the active
    ResponseMetadata (a context variable) that end messages update. *)
Record reader := mk_reader {
  r_buf : bytes;
  r_next : option N;
  r_read : bool;
  r_trl : http_headers;
  r_md : option metadata
}.

Definition reader_new (md : option metadata) : reader := mk_reader [] None false [] md.

(** Reader parameters: class, compression, read_max_bytes, codec decode. *)
Record rconf (M : Type) := mk_rconf {
  rc_kind : rkind;
  rc_comp : compression;
  rc_max : option N;
  rc_dec : bytes -> res M
}.
Arguments mk_rconf {M}.
Arguments rc_kind {M}. Arguments rc_comp {M}. Arguments rc_max {M}. Arguments rc_dec {M}.

(** [message_data.split(b"\r\n")] lines of a gRPC-Web trailer block into headers
    (_protocol_grpc.py:388-393). *)
Fixpoint web_lines (lines : list bytes) (acc : http_headers) : http_headers * option exn :=
  match lines with
  | [] => (acc, None)
  | [] :: r => web_lines r acc
  | l :: r =>
      match split_first 58 l with
      | None => (acc, Some (EOther KValue (lit "not enough values to unpack")))
      | Some (k, v) =>
          match utf8_decode k, utf8_decode v with
          | Some k', Some v' => web_lines r (acc ++ [(strip k', strip v')])
          | _, _ => (acc, Some (EOther KValue (lit "utf-8")))
          end
      end
  end.

(** Result of [handle_end_message]: returns [False], returns [True], or raises. *)
Inductive endres := EFalse | ETrue | ERaise (e : exn).

(** [ConnectEnvelopeReader.handle_end_message] (_protocol_connect.py:317-332) after the flag test. *)
Definition connect_handle_end (md : option metadata) (data : bytes) : endres * option metadata :=
  match json_loads_bytes data with
  | None => (ERaise (EOther KValue (lit "invalid json")), md)
  | Some (JObj d) =>
      let '(md1, e1) := match dget d (lit "metadata") with
                        | Some v => if json_truthy v then handle_trailers_json md v else (md, None)
                        | None => (md, None)
                        end in
      match e1 with
      | Some e => (ERaise e, md1)
      | None =>
          match dget d (lit "error") with
          | Some v =>
              if json_truthy v then
                match v with
                | JObj ed => match we_from_dict ed 500 Unknown with
                             | Ok w => (ERaise (we_to_exception w), md1)
                             | Raise e => (ERaise e, md1)
                             end
                | _ => (ERaise (EOther KAttr (lit "object has no attribute 'get'")), md1)
                end
              else (ETrue, md1)
          | None => (ETrue, md1)
          end
      end
  | Some _ => (ERaise (EOther KAttr (lit "object has no attribute 'get'")), md)
  end.

(** [handle_end_message(prefix_byte, message_data)] of each class (_envelope.py:86-92,
    _protocol_connect.py:317-332, _protocol_grpc.py:323-330, 383-394). *)
Definition handle_end (k : rkind) (prefix : N) (data : bytes) (r : reader) : endres * reader :=
  match k with
  | RBase => (EFalse, r)
  | RConnect =>
      if N.testbit prefix 1 then
        let '(res, md) := connect_handle_end (r_md r) data in
        (res, mk_reader (r_buf r) (r_next r) (r_read r) (r_trl r) md)
      else (EFalse, r)
  | RGrpc => (EFalse, mk_reader (r_buf r) (r_next r) true (r_trl r) (r_md r))
  | RGrpcWeb =>
      if N.testbit prefix 7 then
        let '(t, e) := web_lines (split_crlf data) (r_trl r) in
        (match e with Some x => ERaise x | None => ETrue end,
         mk_reader (r_buf r) (r_next r) true t (r_md r))
      else (EFalse, mk_reader (r_buf r) (r_next r) true (r_trl r) (r_md r))
  end.

(** What happens to one complete frame (_envelope.py:58-79): deliver a message, stop at an end message, raise. *)
Inductive frame_res (M : Type) := FMsg (m : M) | FEnd | FErr (e : exn).
Arguments FMsg {M}. Arguments FEnd {M}. Arguments FErr {M}.

Definition read_frame {M} (cf : rconf M) (prefix : N) (data : bytes) (r : reader) : frame_res M * reader :=
  let data1 :=
    if N.testbit prefix 0 then
      if z_identity (rc_comp cf)
      then Raise (EConnect Internal (lit "protocol error: sent compressed message without compression support") [])
      else z_decompress (rc_comp cf) data
    else Ok data in
  match data1 with
  | Raise e => (FErr e, r)
  | Ok data =>
      let too_long := match rc_max cf with Some n => n <? lenN data | None => false end in
      if too_long then
        (FErr (EConnect ResourceExhausted
                 (lit "message is larger than configured max "
                  ++ dec_of_N (match rc_max cf with Some n => n | None => 0 end)) []), r)
      else
        let '(er, r) := handle_end (rc_kind cf) prefix data r in
        match er with
        | ERaise e => (FErr e, r)
        | ETrue => (FEnd, r)
        | EFalse => match rc_dec cf data with
                    | Raise e => (FErr e, r)
                    | Ok m => (FMsg m, r)
                    end
        end
  end.

(** Lines 81-84: read the next length if the header is complete. *)
Definition peek_len (r : reader) : option reader :=
  if lenN (r_buf r) <? 5 then None
  else Some (mk_reader (r_buf r) (Some (be_val (takeN 4 (dropN 1 (r_buf r))))) (r_read r) (r_trl r) (r_md r)).

(** [_read_messages] (_envelope.py:46-84): the messages yielded, the exception if it raises, the new state.
    [fuel] bounds the iterations of the while loop; [feed] gives enough (LEnvelope.v, read_loop_fuel). *)
Fixpoint read_loop {M} (fuel : nat) (cf : rconf M) (r : reader) : list M * option exn * reader :=
  match fuel with
  | O => ([], None, r)
  | S f =>
      match r_buf r with
      | [] => ([], None, r)
      | prefix :: _ =>
          match r_next r with
          | Some n =>
              if lenN (r_buf r) <? n + 5 then ([], None, r)
              else
                let data := takeN n (dropN 5 (r_buf r)) in
                let r := mk_reader (dropN (5 + n) (r_buf r)) None (r_read r) (r_trl r) (r_md r) in
                match read_frame cf prefix data r with
                | (FErr e, r) => ([], Some e, r)
                | (FEnd, r) => ([], None, r)
                | (FMsg m, r) =>
                    match peek_len r with
                    | None => ([m], None, r)
                    | Some r => let '(ms, e, r) := read_loop f cf r in (m :: ms, e, r)
                    end
                end
          | None =>
              match peek_len r with
              | None => ([], None, r)
              | Some r => read_loop f cf r
              end
          end
      end
  end.

(** [list(reader.feed(data))] (_envelope.py:42-44). *)
Definition feed {M} (cf : rconf M) (r : reader) (data : bytes) : list M * option exn * reader :=
  let r := mk_reader (r_buf r ++ data) (r_next r) (r_read r) (r_trl r) (r_md r) in
  read_loop (S (S (List.length (r_buf r)))) cf r.

(** [_read_messages] as the generator it is: where it stands once its consumer has asked for a message.  It has yielded one, it
    has returned, or it has raised. *)
Inductive pause (M : Type) := YMsg (m : M) (r : reader) | YEnd (r : reader) | YErr (e : exn) (r : reader).
Arguments YMsg {M}. Arguments YEnd {M}. Arguments YErr {M}.

(** Lines 48-79, where the length is known. *)
Definition read_known {M} (cf : rconf M) (r : reader) : pause M :=
  match r_buf r, r_next r with
  | prefix :: _, Some n =>
      if lenN (r_buf r) <? n + 5 then YEnd r
      else
        let data := takeN n (dropN 5 (r_buf r)) in
        let r := mk_reader (dropN (5 + n) (r_buf r)) None (r_read r) (r_trl r) (r_md r) in
        match read_frame cf prefix data r with
        | (FErr e, r) => YErr e r
        | (FEnd, r) => YEnd r
        | (FMsg m, r) => YMsg m r
        end
  | _, _ => YEnd r
  end.
(** The generator goes on after a [yield] (lines 81-84, and back to line 47). *)
Definition read_resume {M} (cf : rconf M) (r : reader) : pause M :=
  match peek_len r with None => YEnd r | Some r => read_known cf r end.
(** The first message of [reader.feed(data)]. *)
Definition feed_first {M} (cf : rconf M) (r : reader) (data : bytes) : pause M :=
  let r := mk_reader (r_buf r ++ data) (r_next r) (r_read r) (r_trl r) (r_md r) in
  match r_buf r, r_next r with
  | [], _ => YEnd r
  | _, Some _ => read_known cf r
  | _, None => read_resume cf r
  end.
(** The reader once [n] more messages have been asked for. *)
Fixpoint reader_at {M} (cf : rconf M) (p : pause M) (n : nat) : reader :=
  match p with
  | YMsg _ r => match n with O => r | S n => reader_at cf (read_resume cf r) n end
  | YEnd r | YErr _ r => r
  end.

(** The consuming loop [for chunk in chunks: for m in reader.feed(chunk): yield m]
    (_server_async.py:561-577, _server_sync.py:544-577, _client_async.py:400-404, _client_sync.py:400-404). *)
Fixpoint feed_all {M} (cf : rconf M) (r : reader) (chunks : list bytes) : list M * option exn * reader :=
  match chunks with
  | [] => ([], None, r)
  | c :: cs =>
      let '(ms, e, r) := feed cf r c in
      match e with
      | Some _ => (ms, e, r)
      | None => let '(ms', e', r') := feed_all cf r cs in (ms ++ ms', e', r')
      end
  end.

(** [GRPCEnvelopeReader.handle_response_complete] (_protocol_grpc.py:335-370) for the HTTP trailers and headers
    of the response; [web] selects [get_response_trailers].  [None] means it returned normally. *)
Definition grpc_complete (sc : status_codec) (web : bool) (r : reader) (resp_headers resp_trailers : http_headers)
           (e : option exn) : option exn * option metadata :=
  let missing := match e with
                 | Some x => x
                 | None => EConnect Internal (lit "missing grpc-status trailer") []
                 end in
  let trailers := if web then r_trl r else resp_trailers in
  let use := match hh_get trailers (lit "grpc-status") with
             | Some _ => Some trailers
             | None => if r_read r then None else Some resp_headers
             end in
  match use with
  | None => (Some missing, r_md r)
  | Some trailers =>
      let md := handle_trailers_http (r_md r) trailers in
      match hh_get trailers (lit "grpc-status") with
      | None => (Some missing, md)
      | Some status =>
          if str_eqb status (lit "0") then (None, md)
          else
            let code := match e with Some (EConnect c _ _) => Some c | _ => None end in
            let message := match hh_get trailers (lit "grpc-message") with Some m => m | None => [] end in
            let details := match hh_get trailers (lit "grpc-status-details-bin") with
                           | Some d => if nonempty d then Some d else None
                           | None => None
                           end in
            match details with
            | Some d =>
                match b64decode (d ++ lit "===") with
                | None => (Some (EOther KValue (lit "base64")), md)
                | Some bin =>
                    match st_from sc bin with
                    | Raise x => (Some x, md)
                    | Ok st =>
                        let c := match code with
                                 | Some c => c
                                 | None => grpc_status_to_connect (dec_of_Z (s_code st))
                                 end in
                        (Some (EConnect c (s_message st) (map (fun a => mk_detail a None) (s_details st))), md)
                    end
                end
            | None =>
                let c := match code with Some c => c | None => grpc_status_to_connect status end in
                (Some (EConnect c (unquote message) []), md)
            end
      end
  end.

(** [handle_response_complete] of each reader class (_envelope.py:94-99, _protocol_grpc.py:335-370). *)
Definition response_complete (sc : status_codec) (k : rkind) (r : reader)
           (resp_headers resp_trailers : http_headers) (e : option exn) : option exn * option metadata :=
  match k with
  | RBase | RConnect => (None, r_md r)
  | RGrpc => grpc_complete sc false r resp_headers resp_trailers e
  | RGrpcWeb => grpc_complete sc true r resp_headers resp_trailers e
  end.
