(** The WSGI application.  Models src/connectrpc/_server_sync.py:73-143, 192-618, 655-670 (interceptors are in
    MIntercept). *)
From Coq Require Import List NArith ZArith Bool String.
From Verif Require Import MBase MPyStr MHeaders MUtf8 MBase64 MPercent MWire MEnvelope MTimeout MProtocol MClient MServer.
Import ListNotations.
Local Open Scope N_scope.

(** ** The WSGI server *)

(** [environ["wsgi.input"]]: the pieces in which the server makes the body available.  A [read(n)] takes at most [n] bytes
    of the next piece (short reads), an empty piece is a read that returns b"", and [RDErr] a read that raises. *)
Inductive rd := RD (b : bytes) | RDErr (e : exn).

(** One request.  [wq_env] are the string entries of [environ]; [wq_trailers] tells whether
    "wsgi.ext.http.send_trailers" is present.  [wq_drain i] is what reading the rest of the body raises, for the three
    places where the code drains (0: [_handle_stream], 1: [__call__], 2: [_response_stream]); over-approximation: the
    exception is not tied to what is left of [wq_input] (it is in MTalk). *)
Record wsgi_request := mk_wq {
  wq_env : dict pystr;
  wq_input : list rd;
  wq_trailers : bool;
  wq_drain : nat -> option exn
}.

(** What the application does that the server can see: [start_response(status, headers)], body chunks, [send_trailers],
    messages on "wsgi.errors".  [start_response] and [send_trailers] do not raise; the body is consumed to its end. *)
Inductive wevent :=
| WStart (status : pystr) (hs : list (pystr * pystr))
| WBody (b : bytes)
| WTrailers (hs : list (pystr * pystr))
| WLog (e : exn).

Inductive wout := WReturn | WExn (e : exn) | WBase.
Record wsgi_result (A : Type) := mk_wr { wr_inv : list (invoked A); wr_events : list wevent; wr_out : wout }.
Arguments mk_wr {A}. Arguments wr_inv {A}. Arguments wr_events {A}. Arguments wr_out {A}.

Definition env_get (q : wsgi_request) (k : string) : option pystr := dget (wq_env q) (lit k).
Definition env_default (q : wsgi_request) (k : string) (d : pystr) : pystr :=
  match env_get q k with Some v => v | None => d end.
(** [environ[key]] *)
Definition env_item (q : wsgi_request) (k : string) : res pystr :=
  match env_get q k with Some v => Ok v | None => Raise (EOther KKey (lit "'" ++ lit k ++ lit "'")) end.

(** [input_stream.read(n)] *)
Definition wread (n : N) (inp : list rd) : res bytes * list rd :=
  match inp with
  | [] => (Ok [], [])
  | RDErr e :: r => (Raise e, r)
  | RD b :: r => if lenN b <=? n then (Ok b, r) else (Ok (takeN n b), RD (dropN n b) :: r)
  end.

(** Enough iterations for the reading loops below. *)
Definition input_fuel (inp : list rd) : nat :=
  S (list_sum (map (fun x => match x with RD b => S (List.length b) | RDErr _ => 1%nat end) inp)).

(** [_read_body] (_server_sync.py:137-143): the chunks it yields and what it raises. *)
Fixpoint read_chunks (fuel : nat) (inp : list rd) : list bytes * option exn :=
  match fuel with
  | O => ([], None)
  | S f =>
      match wread 4096 inp with
      | (Raise e, _) => ([], Some e)
      | (Ok [], _) => ([], None)
      | (Ok chunk, r) => let (cs, e) := read_chunks f r in (chunk :: cs, e)
      end
  end.
Definition wsgi_body (q : wsgi_request) : list bytes * option exn := read_chunks (input_fuel (wq_input q)) (wq_input q).

Definition truncated (expected got : Z) : exn :=
  EConnect InvalidArgument (lit "request truncated, expected " ++ dec_of_Z expected
                            ++ lit " bytes but only received " ++ dec_of_Z got ++ lit " bytes") [].

(** The loop of [_read_body_with_content_length] (_server_sync.py:120-134); [acc] is [b"".join(chunks)]. *)
Fixpoint read_exact (fuel : nat) (n : N) (acc : bytes) (inp : list rd) : res bytes :=
  if lenN acc <? n then
    match fuel with
    | O => Raise (truncated (Z.of_N n) (Z.of_N (lenN acc)))
    | S f =>
        match wread (n - lenN acc) inp with
        | (Raise e, _) => Raise e
        | (Ok [], _) => Raise (truncated (Z.of_N n) (Z.of_N (lenN acc)))
        | (Ok chunk, r) => read_exact f n (acc ++ chunk) r
        end
    end
  else Ok acc.

(** [_read_body_with_content_length] (_server_sync.py:109-134) for a positive length. *)
Definition read_body_with_content_length (n : N) (inp : list rd) : res bytes :=
  match wread n inp with
  | (Raise e, _) => Raise e
  | (Ok chunk, r) => if lenN chunk =? n then Ok chunk else read_exact (input_fuel inp) n chunk r
  end.

(** [_process_headers] (_server_sync.py:73-84). *)
Definition wsgi_headers (q : wsgi_request) : headers :=
  let h := match env_get q "CONTENT_TYPE" with Some v => h_setitem h_empty (lit "content-type") v | None => h_empty end in
  let h := match env_get q "CONTENT_LENGTH" with Some v => h_setitem h (lit "content-length") v | None => h end in
  fold_left (fun h (kv : pystr * pystr) =>
               if startswith (lit "HTTP_") (fst kv)
               then h_setitem h (map (fun c => if c =? 95 then 45 else c) (skipn 5 (fst kv))) (snd kv)
               else h) (wq_env q) h.

(** ** Unary requests of the Connect protocol *)

Definition wsgi_accept_post : pystr := lit "application/json, application/proto".

(** [except Exception as e: if not isinstance(e, ConnectError): raise ConnectError(INTERNAL, str(e))]
    (_server_sync.py:345-351, 406-409). *)
Definition to_internal {X} (r : res X) : res X :=
  match r with
  | Raise e => if is_connect e then Raise e else Raise (EConnect Internal (str_of_exn e) [])
  | Ok x => Ok x
  end.
Definition or_invalid {X} (text : pystr) (r : res X) : res X :=
  match r with Raise e => Raise (EConnect InvalidArgument (text ++ str_of_exn e) []) | Ok x => Ok x end.

(** [_handle_post_request] (_server_sync.py:286-351). *)
Definition wsgi_post_request {A B} (ap : app A B) (q : wsgi_request) (hs : headers) : res (A * codec A B) :=
  match dget (ap_codecs ap) (codec_name_from_content_type PConnect false (h_get_default hs (lit "content-type") [])) with
  | None => Raise (unsupported_media wsgi_accept_post)
  | Some k =>
      to_internal
        (do n <- match env_get q "CONTENT_LENGTH" with
                 | None | Some [] => Ok 0%Z
                 | Some s => match int_of_str s with
                             | Some n => Ok n
                             | None => Raise (EOther KValue (lit "invalid literal for int() with base 10: '" ++ s ++ lit "'"))
                             end
                 end ;
         do body <- (if (0 <? n)%Z then read_body_with_content_length (Z.to_N n) (wq_input q)
                     else match wsgi_body q with
                          | (_, Some e) => Raise e
                          | (cs, None) => Ok (List.concat cs)
                          end) ;
         let name := lower (env_default q "HTTP_CONTENT_ENCODING" (lit "identity")) in
         do body <- (if str_eqb name (lit "identity") then Ok body
                     else match dget (ap_comps ap) name with
                          | None => Raise (unknown_compression ap name)
                          | Some z => or_invalid (lit "Failed to decompress request body: ") (z_decompress z body)
                          end) ;
         if match ap_max ap with Some mx => mx <? lenN body | None => false end
         then Raise (EConnect ResourceExhausted
                       (lit "message is larger than configured max "
                        ++ dec_of_N (match ap_max ap with Some mx => mx | None => 0 end)) [])
         else
           do a <- or_invalid (lit "Failed to decode request body: ") (k_dec_req k body) ;
           Ok (a, k))
  end.

(** [_handle_get_request] (_server_sync.py:353-409).  The text of the binascii error is not modelled ("..."). *)
Definition wsgi_get_request {A B} (ap : app A B) (q : wsgi_request) : res (A * codec A B) :=
  to_internal
    (let params := parse_qs (env_default q "QUERY_STRING" []) in
     match param params (lit "message") with
     | None => Raise (EConnect InvalidArgument (lit "'message' parameter is required for GET requests") [])
     | Some message =>
         do data <- (if match param params (lit "base64") with Some v => str_eqb v (lit "1") | None => false end
                     then match urlsafe_b64decode (message ++ lit "===") with
                          | Some d => Ok d
                          | None => Raise (EConnect InvalidArgument (lit "Invalid base64 encoding: ...") [])
                          end
                     else match utf8_encode message with
                          | Some d => Ok d
                          | None => Raise (EOther KValue (lit "surrogates not allowed"))
                          end) ;
         do data <- match param params (lit "compression") with
                    | None => Ok data
                    | Some name => match dget (ap_comps ap) name with
                                   | None => Raise (unknown_compression ap name)
                                   | Some z => z_decompress z data
                                   end
                    end ;
         let name := match param params (lit "encoding") with Some n => n | None => [] end in
         match dget (ap_codecs ap) name with
         | None => Raise (EConnect Unimplemented (lit "invalid message encoding: '" ++ name ++ lit "'") [])
         | Some k => do a <- or_invalid (lit "Failed to decode message: ") (k_dec_req k data) ; Ok (a, k)
         end
     end).

(** Methods invoked, response state, events, and what interrupted the handler. *)
Definition whandled (A : Type) := (list (invoked A) * rstate * list wevent * option interrupt)%type.

(** [_handle_unary] (_server_sync.py:246-284), with [prepare_response_headers] (87-106). *)
Definition wsgi_unary {A B} (ap : app A B) (q : wsgi_request) (http : pystr)
    (f : A -> req_ctx -> prog Empty_set Empty_set B) (cx : req_ctx) (hs : headers) : whandled A :=
  match (if str_eqb http (lit "GET") then wsgi_get_request ap q else wsgi_post_request ap q hs) with
  | Raise e => ([], rs_new, [], Some (IExn e))
  | Ok (a, k) =>
      let (r, rs) := run_fn (f a cx) ([], None) rs_new in
      match r with
      | FInt i => ([InvMsg a], rs, [], Some i)
      | FRet b =>
          match (do body <- k_enc_res k b ;
                 let z := negotiate_compression (h_get_default hs (lit "accept-encoding") (lit "identity")) (ap_comps ap) in
                 do body <- z_compress z body ;
                 Ok (z, body)) with
          | Raise e => ([InvMsg a], rs, [], Some (IExn e))
          | Ok (z, body) =>
              ([InvMsg a], rs,
               [WStart (lit "200 OK")
                  ([(lit "content-type", connect_unary_prefix ++ k_name k); (lit "content-encoding", z_name z);
                    (lit "vary", lit "Accept-Encoding")] ++ context_headers rs);
                WBody body], None)
          end
      end
  end.

(** ** Streams *)

(** [_drain_request_body] (_server_sync.py:655-661): the exception reading raises. *)
Definition drain (q : wsgi_request) (place : nat) : option exn :=
  if startswith (lit "HTTP/1") (env_default q "SERVER_PROTOCOL" []) then wq_drain q place else None.

(** [_maybe_log_exception] (_server_sync.py:664-670). *)
Definition maybe_log (e : exn) : list wevent := if is_connect e || is_http e then [] else [WLog e].

(** [_request_stream] (_server_sync.py:568-577). *)
Definition wsgi_request_stream {A B} (ap : app A B) (k : codec A B) (z : compression) (q : wsgi_request) : pulls A :=
  let (chunks, fin) := wsgi_body q in
  let '(ms, e, _) := feed_all (mk_rconf RBase z (ap_max ap) (k_dec_req k)) (reader_new None) chunks in
  (ms, match e with Some x => Some x | None => fin end).

(** [_end_response(writer.end(trailers, error), send_trailers)] (_server_sync.py:533-541); the returned chunk is part of
    the body. *)
Definition end_response (sc : status_codec) (p : proto) (z : compression) (trailers : headers) (err : option exn)
  : res (list wevent) :=
  do em <- writer_end sc p z trailers (option_map we_from_exception err) ;
  Ok (match em with
      | EndBytes b => [WBody b]
      | EndTrailers h => [WTrailers (h_allitems h); WBody []]
      end).

(** State of the loop over the response stream: the events so far, and whether start_response was called. *)
Record wst := mk_wst { ws_ev : list wevent; ws_started : bool }.

(** One message (_server_sync.py:467-472 and 590-594): start_response before the first one. *)
Definition wsgi_body_step {B} (p : proto) (name : pystr) (enc : B -> res bytes) (z : compression) (s : wst) (rs : rstate)
    (b : B) : wst * option interrupt :=
  let ev := if ws_started s then ws_ev s
            else ws_ev s ++ [WStart (lit "200 OK") (stream_headers p name (z_name z) rs)] in
  match write_message enc (Some z) b with
  | Ok body => (mk_wst (ev ++ [WBody body]) true, None)
  | Raise e => (mk_wst ev true, Some (IExn e))
  end.

Definition wsgi_accept_stream : pystr := lit "application/connect+json, application/connect+proto".

(** [except Exception as e] of [_handle_stream] (_server_sync.py:490-506), with the events [ev] so far. *)
Definition wsgi_stream_error {A B} (ap : app A B) (q : wsgi_request) (p : proto) (name : pystr) (z : compression)
    (inv : list (invoked A)) (rs : rstate) (ev : list wevent) (e : exn) : whandled A :=
  match drain q 0 with
  | Some x => (inv, rs, ev, Some (IExn x))
  | None =>
      let ev := ev ++ maybe_log e ++ [WStart (lit "200 OK") (stream_headers p name (z_name z) rs)] in
      match end_response (ap_sc ap) p z (rs_t rs) (Some e) with
      | Ok fin => (inv, rs, ev ++ fin, None)
      | Raise x => (inv, rs, ev, Some (IExn x))
      end
  end.

(** The response stream after the first message: [_response_stream] (_server_sync.py:580-605).  It runs after
    [__call__] returned, so what it raises goes to the server. *)
Definition response_stream_end {A B} (ap : app A B) (q : wsgi_request) (p : proto) (z : compression)
    (inv : list (invoked A)) (rs : rstate) (ev : list wevent) (i : option interrupt) : wsgi_result A :=
  let finish err :=
    match end_response (ap_sc ap) p z (rs_t rs) err with
    | Ok fin => mk_wr inv (ev ++ fin) WReturn
    | Raise x => mk_wr inv ev (WExn x)
    end in
  match i with
  | None => finish None
  | Some ICancel => mk_wr inv ev WBase
  | Some (IExn e) => match drain q 2 with Some x => mk_wr inv ev (WExn x) | None => finish (Some e) end
  end.

Definition loop_interrupt (e : loop_end) : option interrupt :=
  match e with LDone => None | LFail i | LBroken i _ => Some i end.

(** The [match endpoint] and the loop over its messages (_server_sync.py:452-489). *)
Definition wsgi_run {A B} (p : proto) (ep : endpoint A B) (k : codec A B) (z : compression) (ps : pulls A) (cx : req_ctx)
  : list (invoked A) * (wst * rstate * loop_end) :=
  let s := mk_wst [] false in
  let step := wsgi_body_step p (k_name k) (k_enc_res k) z in
  match ep with
  | EpUnary _ f =>
      match consume_single_request ps with
      | Raise e => ([], (s, rs_new, LFail (IExn e)))
      | Ok a =>
          let (r, rs) := run_fn (f a cx) ([], None) rs_new in
          ([InvMsg a], match r with
                       | FInt i => (s, rs, LFail i)
                       | FRet b => drive step (@single_response A B b) ([], None) rs s
                       end)
      end
  | EpClientStream _ f =>
      let (r, rs) := run_fn (f cx) ps rs_new in
      ([InvStream], match r with
                    | FInt i => (s, rs, LFail i)
                    | FRet b => drive step (@single_response A B b) ([], None) rs s
                    end)
  | EpServerStream _ f =>
      match consume_single_request ps with
      | Raise e => ([], (s, rs_new, LFail (IExn e)))
      | Ok a => ([InvMsg a], drive step (f a cx) ([], None) rs_new s)
      end
  | EpBidi _ f => ([InvStream], drive step (f cx) ps rs_new s)
  end.

(** [_handle_stream] (_server_sync.py:411-506).  [inl]: it raised or returned a finished response; [inr]: the response
    stream it returned, run to its end. *)
Definition wsgi_stream {A B} (ap : app A B) (q : wsgi_request) (p : proto) (hs : headers) (ep : endpoint A B) (cx : req_ctx)
  : whandled A + wsgi_result A :=
  let (req, z) := negotiate_stream_compression p hs (ap_comps ap) in
  match dget (ap_codecs ap) (codec_name_from_content_type p true (h_get_default hs (lit "content-type") [])) with
  | None => inl ([], rs_new, [], Some (IExn (unsupported_media wsgi_accept_stream)))
  | Some k =>
      let error inv rs ev e := inl (wsgi_stream_error ap q p (k_name k) z inv rs ev e) in
      match req with
      | None => error [] rs_new [] (EConnect Unimplemented (lit "Unrecognized request compression") [])
      | Some rz =>
          let '(inv, (s, rs, e)) := wsgi_run p ep k z (wsgi_request_stream ap k rz q) cx in
          if ws_started s then inr (response_stream_end ap q p z inv rs (ws_ev s) (loop_interrupt e))
          else
            match loop_interrupt e with
            | Some ICancel => inl (inv, rs, ws_ev s, Some ICancel)
            | Some (IExn x) => error inv rs (ws_ev s) x
            | None =>
                let ev := ws_ev s ++ [WStart (lit "200 OK") (stream_headers p (k_name k) (z_name z) rs)] in
                match end_response (ap_sc ap) p z (rs_t rs) None with
                | Ok fin => inl (inv, rs, ev ++ fin, None)
                | Raise x => error inv rs ev x
                end
            end
      end
  end.

(** ** The application call *)

(** [f"{status} {phrase}"] *)
Definition status_line (status : N) (phrase : pystr) : pystr := dec_of_N status ++ lit " " ++ phrase.

(** [_handle_error] (_server_sync.py:508-530). *)
Definition wsgi_handle_error (e : exn) (ctx : option rstate) : res (list wevent) :=
  do shb <- match e with
            | EHttp status hs =>
                Ok (status_line status (match assoc_N http_phrases status with Some p => p | None => [] end), hs, [])
            | _ => let w := we_from_exception e in
                   let st := we_to_http_status w in
                   do body <- we_to_json_bytes w ;
                   Ok (status_line (fst st) (snd st), [(lit "Content-Type", lit "application/json")], [WBody body])
            end ;
  let '(status, hs, body) := shb in
  Ok (WStart status (hs ++ match ctx with Some rs => context_headers rs | None => [] end) :: body).

(** [except Exception as e] of [__call__] (_server_sync.py:241-244). *)
Definition wsgi_call_error {A} (q : wsgi_request) (inv : list (invoked A)) (ev : list wevent) (e : exn) (ctx : option rstate)
  : wsgi_result A :=
  match drain q 1 with
  | Some x => mk_wr inv ev (WExn x)
  | None =>
      let ev := ev ++ maybe_log e in
      match wsgi_handle_error e ctx with
      | Ok out => mk_wr inv (ev ++ out) WReturn
      | Raise x => mk_wr inv ev (WExn x)
      end
  end.

(** Finding the endpoint (_server_sync.py:197-207). *)
Definition wsgi_find_endpoint {A B} (ap : app A B) (q : wsgi_request) : res (endpoint A B) :=
  do path <- env_item q "PATH_INFO" ;
  let path := match path with [] => lit "/" | _ => path end in
  match dget (ap_endpoints ap) path with
  | Some e => Ok e
  | None =>
      do script <- env_item q "SCRIPT_NAME" ;
      if str_eqb script (ap_path ap) then
        match dget (ap_endpoints ap) (ap_path ap ++ path) with Some e => Ok e | None => Raise not_found end
      else Raise not_found
  end.

(** Everything up to the request context (_server_sync.py:197-229). *)
Definition wsgi_open_request {A B} (ap : app A B) (now : fl) (q : wsgi_request)
  : res (endpoint A B * headers * proto * req_ctx) :=
  do ep <- wsgi_find_endpoint ap q ;
  do http <- env_item q "REQUEST_METHOD" ;
  let hs := wsgi_headers q in
  let client := match env_get q "REMOTE_ADDR" with
                | None | Some [] => None
                | Some ra => Some (ra ++ lit ":" ++ env_default q "REMOTE_PORT" (lit "0"))
                end in
  let ct := h_get_default hs (lit "content-type") [] in
  let p := negotiate_server_protocol ct in
  if uses_trailers p && negb (wq_trailers q)
  then Raise (EOther KRuntime (lit "WSGI server does not support WSGI trailers extension but protocol for content-type '"
                               ++ ct ++ lit "' requires trailers"))
  else
    do cx <- server_create_context now p (ep_method ep) http (env_default q "wsgi.url_scheme" (lit "http")) hs client ;
    Ok (ep, hs, p, cx).

(** [__call__] and the consumption of the body it returns (_server_sync.py:192-244). *)
Definition wsgi_call {A B} (ap : app A B) (now : fl) (q : wsgi_request) : wsgi_result A :=
  match wsgi_open_request ap now q with
  | Raise e => wsgi_call_error q [] [] e None
  | Ok (ep, hs, p, cx) =>
      match (match ep, p with
             | EpUnary _ f, PConnect => inl (wsgi_unary ap q (cx_http cx) f cx hs)
             | _, _ => wsgi_stream ap q p hs ep cx
             end) with
      | inr r => r
      | inl (inv, rs, ev, None) => mk_wr inv ev WReturn
      | inl (inv, rs, ev, Some ICancel) => mk_wr inv ev WBase
      | inl (inv, rs, ev, Some (IExn e)) => wsgi_call_error q inv ev e (Some rs)
      end
  end.
