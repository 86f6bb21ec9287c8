(** The ASGI application.  Models src/connectrpc/_server_async.py:120-126, 167-631 (HTTP requests; the lifespan
    protocol is in MLifespan, interceptors in MIntercept). *)
From Coq Require Import List NArith ZArith Bool String.
From Verif Require Import MBase MPyStr MHeaders MUtf8 MBase64 MPercent MWire MEnvelope MTimeout MProtocol MClient MServer.
Import ListNotations.
Local Open Scope N_scope.

(** ** The ASGI server *)

(** An HTTP scope, the keys the code reads.  [sc_client] is the pair [scope["client"]] as text; [sc_trailers] tells
    whether "http.response.trailers" is among the extensions.  [sc_root = None]: no "root_path" key. *)
Record scope := mk_scope {
  sc_path : pystr;
  sc_root : option pystr;
  sc_method : pystr;
  sc_scheme : pystr;
  sc_headers : list (bytes * bytes);
  sc_client : option (pystr * pystr);
  sc_query : bytes;
  sc_trailers : bool
}.

(** What one [await receive()] does: an http.request event, http.disconnect, an event of another type, an exception,
    or the cancellation of the task at that point.  After the last listed event the server reports a disconnect. *)
Inductive recv := RReq (body : bytes) (more : bool) | RDisconnect | ROther | RRaise (e : exn) | RCancel.

(** Events the application sends. *)
Inductive aevent :=
| EvStart (status : N) (hs : list (bytes * bytes)) (trailers : bool)
| EvBody (body : bytes) (more : bool)
| EvTrailers (hs : list (bytes * bytes)).

(** What the n-th [await send(event)] does.  An event whose send raises has not been emitted. *)
Inductive send_res := SOk | SRaise (e : exn) | SCancel.

(** What the disconnect monitor of a server stream does: nothing; it sees the disconnect before message number [n] of the
    response is looked at; or its [receive()] raises. *)
Inductive watch := WIdle | WSeen (n : nat) | WRaise (e : exn).

(** The environment of one request.  [en_cut = Some n]: the task is cancelled while the request stream is suspended in
    [sleep(0)] after its message number [n] (counting from 1). *)
Record env := mk_env {
  en_recv : list recv;
  en_cut : option nat;
  en_watch : watch;
  en_send : nat -> send_res
}.

(** ** Actions: sends so far and emitted events, with interrupts *)
Record ast := mk_ast { as_n : nat; as_ev : list aevent }.
Definition io (X : Type) := ast -> ast * (X + interrupt).
Definition io_ret {X} (x : X) : io X := fun s => (s, inl x).
Definition io_raise {X} (i : interrupt) : io X := fun s => (s, inr i).
Definition io_bind {X Y} (m : io X) (k : X -> io Y) : io Y :=
  fun s => match m s with (s', inl x) => k x s' | (s', inr i) => (s', inr i) end.
Definition io_res {X} (r : res X) : io X := match r with Ok x => io_ret x | Raise e => io_raise (IExn e) end.
Notation "'act' x <- m ; k" := (io_bind m (fun x => k))
  (at level 200, x pattern, m at level 100, k at level 200).

Definition send (o : nat -> send_res) (ev : aevent) : io unit := fun s =>
  match o (as_n s) with
  | SOk => (mk_ast (S (as_n s)) (as_ev s ++ [ev]), inl tt)
  | SRaise e => (mk_ast (S (as_n s)) (as_ev s), inr (IExn e))
  | SCancel => (mk_ast (S (as_n s)) (as_ev s), inr ICancel)
  end.

Definition surrogates : exn := EOther KValue (lit "surrogates not allowed").

(** [s.encode()] *)
Definition encode_str (s : pystr) : res bytes :=
  match utf8_encode s with Some b => Ok b | None => Raise surrogates end.

(** [[(k.encode(), v.encode()) for k, v in pairs]] *)
Fixpoint encode_pairs (l : list (pystr * pystr)) : res (list (bytes * bytes)) :=
  match l with
  | [] => Ok []
  | (k, v) :: r => do k <- encode_str k ; do v <- encode_str v ; do r <- encode_pairs r ; Ok ((k, v) :: r)
  end.

(** ** Requests *)

(** [_process_headers] (_server_async.py:615-619). *)
Fixpoint process_headers (h : headers) (l : list (bytes * bytes)) : res headers :=
  match l with
  | [] => Ok h
  | (k, v) :: r =>
      match utf8_decode k, utf8_decode v with
      | Some k, Some v => process_headers (h_add h k v) r
      | _, _ => Raise (EOther KValue (lit "'utf-8' codec can't decode"))
      end
  end.

Definition disconnected : exn := EConnect Canceled (lit "Client disconnected before request completion") [].

(** [_read_body] (_server_async.py:580-595): the chunks it yields and what ends it abnormally. *)
Fixpoint read_body (l : list recv) : list bytes * option interrupt :=
  match l with
  | [] | RDisconnect :: _ => ([], Some (IExn disconnected))
  | RReq b more :: r => if more then let (bs, e) := read_body r in (b :: bs, e) else ([b], None)
  | ROther :: _ => ([], Some (IExn (EConnect Unknown (lit "Unexpected message type") [])))
  | RRaise e :: _ => ([], Some (IExn e))
  | RCancel :: _ => ([], Some ICancel)
  end.

(** [_request_stream] (_server_async.py:561-577): cancellation becomes a ConnectError. *)
Definition request_stream {A B} (ap : app A B) (k : codec A B) (z : compression) (en : env) : pulls A :=
  let (chunks, fin) := read_body (en_recv en) in
  let '(ms, e, _) := feed_all (mk_rconf RBase z (ap_max ap) (k_dec_req k)) (reader_new None) chunks in
  let e := match e with
           | Some x => Some x
           | None => match fin with
                     | None => None
                     | Some (IExn x) => Some x
                     | Some ICancel => Some was_cancelled
                     end
           end in
  match en_cut en with
  | Some (S n) => if Nat.ltb n (List.length ms) then (firstn (S n) ms, Some was_cancelled) else (ms, e)
  | _ => (ms, e)
  end.

(** ** Unary requests of the Connect protocol *)

(** [_read_get_request] (_server_async.py:291-333). *)
Definition read_get_request {A B} (ap : app A B) (k : codec A B) (params : dict (list pystr)) : res A :=
  match param params (lit "message") with
  | None => Raise (EConnect InvalidArgument (lit "'message' parameter is required for GET requests") [])
  | Some message =>
      do data <- (if match param params (lit "base64") with Some v => str_eqb v (lit "1") | None => false end
                  then match urlsafe_b64decode (message ++ lit "===") with
                       | Some d => Ok d
                       | None => Raise (EConnect InvalidArgument (lit "Invalid base64 encoding") [])
                       end
                  else encode_str message) ;
      let name := match param params (lit "compression") with Some n => n | None => lit "identity" end in
      match dget (ap_comps ap) name with
      | None => Raise (unknown_compression ap name)
      | Some z =>
          do data <- (if nonempty data then z_decompress z data else Ok data) ;
          k_dec_req k data
      end
  end.

Definition request_too_large (max : N) : exn :=
  EConnect ResourceExhausted (lit "message is larger than configured max " ++ dec_of_N max) [].

(** [_read_post_request] (_server_async.py:335-366). *)
Definition read_post_request {A B} (ap : app A B) (k : codec A B) (hs : headers) (events : list recv)
  : A + interrupt :=
  let (chunks, fin) := read_body events in
  match fin with
  | Some i => inr i
  | None =>
      let body := List.concat chunks in
      let name := lower (h_get_default hs (lit "content-encoding") (lit "identity")) in
      match dget (ap_comps ap) name with
      | None => inr (IExn (unknown_compression ap name))
      | Some z =>
          match (if nonempty body then z_decompress z body else Ok body) with
          | Raise e => inr (IExn e)
          | Ok body =>
              match ap_max ap with
              | Some mx => if mx <? lenN body then inr (IExn (request_too_large mx))
                           else match k_dec_req k body with Ok a => inl a | Raise e => inr (IExn e) end
              | None => match k_dec_req k body with Ok a => inl a | Raise e => inr (IExn e) end
              end
          end
      end
  end.

Definition from_sum {X} (x : X + interrupt) : io X :=
  match x with inl a => io_ret a | inr i => io_raise i end.

(** Everything one request did: methods invoked, events emitted, how the application call ended. *)
Inductive aout := AReturn | ARaise (e : exn) | ACancelled.
Record asgi_result (A : Type) := mk_ar { ar_inv : list (invoked A); ar_events : list aevent; ar_out : aout }.
Arguments mk_ar {A}. Arguments ar_inv {A}. Arguments ar_events {A}. Arguments ar_out {A}.

(** The response of a unary call (_server_async.py:266-289), after the method returned [b]. *)
Definition send_unary_response {A B} (o : nat -> send_res) (k : codec A B) (z : compression) (b : B) (rs : rstate)
  : io unit :=
  act body <- io_res (k_enc_res k b) ;
  act ct <- io_res (encode_str (connect_unary_prefix ++ k_name k)) ;
  act body <- io_res (z_compress z body) ;
  act enc <- io_res (encode_str (z_name z)) ;
  act extra <- io_res (encode_pairs (context_headers rs)) ;
  act _ <- send o (EvStart 200 ([(lit "content-type", ct); (lit "content-encoding", enc);
                                 (lit "vary", lit "Accept-Encoding")] ++ extra) false) ;
  send o (EvBody body false).

(** [_handle_unary_connect] (_server_async.py:245-289): invoked methods, response state, events. *)
Definition handle_unary_connect {A B} (ap : app A B) (en : env) (http : pystr) (hs : headers) (k : codec A B)
    (params : dict (list pystr)) (f : A -> req_ctx -> prog Empty_set Empty_set B) (cx : req_ctx) (s : ast)
  : list (invoked A) * rstate * (ast * (unit + interrupt)) :=
  let z := negotiate_compression (h_get_default hs (lit "accept-encoding") []) (ap_comps ap) in
  let request := if str_eqb http (lit "GET")
                 then match read_get_request ap k params with Ok a => inl a | Raise e => inr (IExn e) end
                 else read_post_request ap k hs (en_recv en) in
  match request with
  | inr i => ([], rs_new, (s, inr i))
  | inl a =>
      let (r, rs) := run_fn (f a cx) ([], None) rs_new in
      match r with
      | FInt i => ([InvMsg a], rs, (s, inr i))
      | FRet b => ([InvMsg a], rs, send_unary_response (en_send en) k z b rs s)
      end
  end.

(** [_handle_error] (_server_async.py:495-523). *)
Definition handle_error (o : nat -> send_res) (e : exn) (ctx : option rstate) : io unit :=
  act shb <- io_res match e with
                    | EHttp status hs => do hs <- encode_pairs hs ; Ok (status, hs, [])
                    | _ => let w := we_from_exception e in
                           do body <- we_to_json_bytes w ;
                           Ok (fst (we_to_http_status w), [(lit "content-type", lit "application/json")], body)
                    end ;
  let '(status, hs, body) := shb in
  act extra <- match ctx with Some rs => io_res (encode_pairs (context_headers rs)) | None => io_ret [] end ;
  act _ <- send o (EvStart status (hs ++ extra) false) ;
  send o (EvBody body false).

(** ** Streams *)

(** [_send_stream_response_headers] (_server_async.py:537-558). *)
Definition send_stream_headers (o : nat -> send_res) (p : proto) (codec_name comp_name : pystr) (rs : rstate) : io unit :=
  act hs <- io_res (encode_pairs (stream_headers p codec_name comp_name rs)) ;
  send o (EvStart 200 hs (uses_trailers p)).

(** State of the response loop: sends, [sent_headers], number of messages taken from the response stream. *)
Record lst := mk_lst { ls_a : ast; ls_sent : bool; ls_i : nat }.

Definition client_disconnected : exn := EConnect Canceled (lit "Client disconnected") [].

(** The body of [async for message in response_stream] (_server_async.py:430-444); [seen n] tells whether the monitor has
    seen the disconnect when message [n] is looked at. *)
Definition stream_body {B} (o : nat -> send_res) (seen : nat -> bool) (p : proto) (name : pystr) (enc : B -> res bytes)
    (z : compression) (s : lst) (rs : rstate) (b : B) : lst * option interrupt :=
  let i := S (ls_i s) in
  if seen (ls_i s) then (mk_lst (ls_a s) (ls_sent s) i, Some (IExn client_disconnected))
  else
    let '(a, r) := if ls_sent s then (ls_a s, inl tt)
                   else send_stream_headers o p name (z_name z) rs (ls_a s) in
    match r with
    | inr x => (mk_lst a (ls_sent s) i, Some x)
    | inl _ =>
        let '(a, r) := (act body <- io_res (write_message enc (Some z) b) ; send o (EvBody body true)) a in
        (mk_lst a true i, match r with inr x => Some x | inl _ => None end)
    end.

Definition run_hops (rs : rstate) (c : on_close) : rstate :=
  mk_rs (h_run (rs_h rs) (cl_hdr c)) (h_run (rs_t rs) (cl_trl c)).

(** The response loop with its inner [finally] (_server_async.py:429-456): the monitor is awaited first, and raises if
    its receive() did; then the stream is closed.  [mon] is what awaiting the monitor raises. *)
Definition stream_loop {A B} (o : nat -> send_res) (seen : nat -> bool) (mon : option exn) (p : proto) (name : pystr)
    (enc : B -> res bytes) (z : compression) (g : prog A B unit) (ps : pulls A) (rs : rstate) (s : lst)
  : lst * rstate * option interrupt :=
  let '(s, rs, e) := drive (stream_body o seen p name enc z) g ps rs s in
  match mon with
  | Some x => (s, rs, Some (IExn x))
  | None =>
      match e with
      | LDone => (s, rs, None)
      | LFail i => (s, rs, Some i)
      | LBroken i c => (s, run_hops rs c, Some (match cl_raise c with Some j => j | None => i end))
      end
  end.

(** The [try] of [_handle_stream] (_server_async.py:386-456). *)
Definition stream_try {A B} (ap : app A B) (en : env) (p : proto) (ep : endpoint A B) (k : codec A B)
    (req : option compression) (z : compression) (cx : req_ctx) (s : lst)
  : list (invoked A) * (lst * rstate * option interrupt) :=
  match req with
  | None => ([], (s, rs_new, Some (IExn (EConnect Unimplemented (lit "Unrecognized request compression") []))))
  | Some rz =>
      let ps := request_stream ap k rz en in
      let never := fun _ : nat => false in
      match ep with
      | EpUnary _ f =>
          match consume_single_request ps with
          | Raise e => ([], (s, rs_new, Some (IExn e)))
          | Ok a =>
              let (r, rs) := run_fn (f a cx) ([], None) rs_new in
              ([InvMsg a], match r with
                           | FInt i => (s, rs, Some i)
                           | FRet b => stream_loop (en_send en) never None p (k_name k) (k_enc_res k) z
                                         (@single_response A B b) ([], None) rs s
                           end)
          end
      | EpClientStream _ f =>
          let (r, rs) := run_fn (f cx) ps rs_new in
          ([InvStream], match r with
                        | FInt i => (s, rs, Some i)
                        | FRet b => stream_loop (en_send en) never None p (k_name k) (k_enc_res k) z
                                      (@single_response A B b) ([], None) rs s
                        end)
      | EpServerStream _ f =>
          match consume_single_request ps with
          | Raise e => ([], (s, rs_new, Some (IExn e)))
          | Ok a =>
              ([InvMsg a],
               stream_loop (en_send en) (match en_watch en with WSeen n => fun i => Nat.leb n i | _ => never end)
                 (match en_watch en with WRaise e => Some e | _ => None end) p (k_name k) (k_enc_res k) z
                 (f a cx) ([], None) rs_new s)
          end
      | EpBidi _ f =>
          ([InvStream], stream_loop (en_send en) never None p (k_name k) (k_enc_res k) z (f cx) ps rs_new s)
      end
  end.

(** The outer [except] and [finally] (_server_async.py:457-493).  An Exception becomes [error]; a cancellation becomes
    a ConnectError that is raised after the [finally] block, with [error] unset. *)
Definition stream_finally (o : nat -> send_res) (sc : status_codec) (p : proto) (codec_name : pystr) (z : compression)
    (s : lst) (rs : rstate) (i : option interrupt) : io unit :=
  let error := match i with Some (IExn e) => Some e | _ => None end in
  act em <- io_res (writer_end sc p z (rs_t rs) (option_map we_from_exception error)) ;
  act _ <- (if ls_sent s then io_ret tt else send_stream_headers o p codec_name (z_name z) rs) ;
  act _ <- match em with
           | EndBytes b => send o (EvBody b false)
           | EndTrailers h =>
               act _ <- send o (EvBody [] false) ;
               act hs <- io_res (encode_pairs (h_allitems h)) ;
               send o (EvTrailers hs)
           end ;
  match error with
  | Some e => if is_connect e then io_ret tt else io_raise (IExn e)
  | None => match i with Some ICancel => io_raise (IExn was_cancelled) | _ => io_ret tt end
  end.

Definition aout_of (r : unit + interrupt) : aout :=
  match r with inl _ => AReturn | inr (IExn e) => ARaise e | inr ICancel => ACancelled end.

(** [_handle_stream] (_server_async.py:368-493). *)
Definition handle_stream {A B} (ap : app A B) (en : env) (p : proto) (ep : endpoint A B) (k : codec A B) (hs : headers)
    (cx : req_ctx) : asgi_result A :=
  let (req, z) := negotiate_stream_compression p hs (ap_comps ap) in
  let '(inv, (s, rs, i)) := stream_try ap en p ep k req z cx (mk_lst (mk_ast 0 []) false 0) in
  let (a, r) := stream_finally (en_send en) (ap_sc ap) p (k_name k) z s rs i (ls_a s) in
  mk_ar inv (as_ev a) (aout_of r).

(** ** The application call *)

(** [endpoints.get(path)], then with the root path removed (_server_async.py:179-186). *)
Definition find_endpoint {A B} (ap : app A B) (sc : scope) : res (endpoint A B) :=
  match dget (ap_endpoints ap) (sc_path sc) with
  | Some e => Ok e
  | None =>
      match sc_root sc with
      | None => Raise (EOther KKey (lit "'root_path'"))
      | Some [] => Raise not_found
      | Some root =>
          match dget (ap_endpoints ap) (removeprefix root (sc_path sc)) with
          | Some e => Ok e
          | None => Raise not_found
          end
      end
  end.

(** Everything up to the request context (_server_async.py:179-203). *)
Definition open_request {A B} (ap : app A B) (now : fl) (sc : scope) : res (endpoint A B * headers * proto * req_ctx) :=
  do ep <- find_endpoint ap sc ;
  do hs <- process_headers h_empty (sc_headers sc) ;
  let client := match sc_client sc with Some (h, p) => Some (h ++ lit ":" ++ p) | None => None end in
  let ct := h_get_default hs (lit "content-type") [] in
  let p := negotiate_server_protocol ct in
  if uses_trailers p && negb (sc_trailers sc)
  then Raise (EOther KRuntime (lit "ASGI server does not support ASGI trailers extension but protocol for content-type '"
                               ++ ct ++ lit "' requires trailers"))
  else
    do cx <- server_create_context now p (ep_method ep) (sc_method sc) (sc_scheme sc) hs client ;
    Ok (ep, hs, p, cx).

Definition accept_post : pystr := lit "application/json, application/proto".

(** Query parameters and codec (_server_async.py:205-221). *)
Definition select_codec {A B} (ap : app A B) (sc : scope) (ep : endpoint A B) (hs : headers) (p : proto)
  : res (dict (list pystr) * codec A B) :=
  do qn <- (if str_eqb (sc_method sc) (lit "GET") then
              match utf8_decode (sc_query sc) with
              | None => Raise (EOther KValue (lit "'utf-8' codec can't decode"))
              | Some q => let params := parse_qs q in
                          Ok (params, match param params (lit "encoding") with Some n => n | None => [] end)
              end
            else Ok ([], codec_name_from_content_type p (negb (is_unary ep)) (h_get_default hs (lit "content-type") []))) ;
  match dget (ap_codecs ap) (snd qn) with
  | Some k => Ok (fst qn, k)
  | None => Raise (unsupported_media accept_post)
  end.

(** [except Exception as e] of [__call__] (_server_async.py:234-238). *)
Definition call_error {A} (en : env) (inv : list (invoked A)) (s : ast) (e : exn) (ctx : option rstate) : asgi_result A :=
  let (s, r) := handle_error (en_send en) e ctx s in
  mk_ar inv (as_ev s)
    (match r with
     | inl _ => if is_connect e || is_http e then AReturn else ARaise e
     | inr i => aout_of (inr i)
     end).

(** [__call__] for an HTTP scope (_server_async.py:177-243). *)
Definition asgi_call {A B} (ap : app A B) (now : fl) (sc : scope) (en : env) : asgi_result A :=
  let s := mk_ast 0 [] in
  match open_request ap now sc with
  | Raise e => call_error en [] s e None
  | Ok (ep, hs, p, cx) =>
      match select_codec ap sc ep hs p with
      | Raise e => call_error en [] s e (Some rs_new)
      | Ok (params, k) =>
          match ep, p with
          | EpUnary _ f, PConnect =>
              match handle_unary_connect ap en (sc_method sc) hs k params f cx s with
              | (inv, rs, (s, inl _)) => mk_ar inv (as_ev s) AReturn
              | (inv, rs, (s, inr ICancel)) => mk_ar inv (as_ev s) ACancelled
              | (inv, rs, (s, inr (IExn e))) => call_error en inv s e (Some rs)
              end
          | _, _ => handle_stream ap en p ep k hs cx
          end
      end
  end.
