(** Specification vocabulary for the server applications. *)
From Coq Require Import List NArith ZArith Bool String.
From Verif Require Import MBase MPyStr MHeaders MUtf8 MPercent MWire MEnvelope MTimeout MProtocol SProtocol MClient MServer MAsgi MWsgi.
Import ListNotations.
Local Open Scope N_scope.

(** ** Responses *)

(** [asgi_response t status hs body ts]: the event sequence [t] is the HTTP response with this status, headers, body and
    trailers: one start event, body events of which exactly the last has more_body false, and a trailers event if and only
    if the start event announced trailers. *)
Definition asgi_response (t : list aevent) (status : N) (hs : list (bytes * bytes)) (body : bytes)
    (ts : option (list (bytes * bytes))) : Prop :=
  exists chunks last,
    t = EvStart status hs (match ts with Some _ => true | None => false end)
          :: map (fun b => EvBody b true) chunks ++ EvBody last false
          :: match ts with Some l => [EvTrailers l] | None => [] end
    /\ body = List.concat chunks ++ last.

Definition asgi_complete (t : list aevent) : Prop := exists status hs body ts, asgi_response t status hs body ts.

(** An initial part of a well-formed response. *)
Definition asgi_prefix (t : list aevent) : Prop := exists rest, asgi_complete (t ++ rest).

(** Sends that fail once keep failing (the connection is gone). *)
Definition sticky (o : nat -> send_res) : Prop := forall n m, (n <= m)%nat -> o m = SOk -> o n = SOk.
(** Every send succeeds. *)
Definition sends_ok (o : nat -> send_res) : Prop := forall n, o n = SOk.

(** [wsgi_response t status hs body ts]: [t], apart from log messages, is one [start_response] call, then body chunks with
    at most one call of [send_trailers] among them. *)
Fixpoint without_logs (t : list wevent) : list wevent :=
  match t with
  | [] => []
  | WLog _ :: r => without_logs r
  | e :: r => e :: without_logs r
  end.
Definition wsgi_response (t : list wevent) (status : pystr) (hs : list (pystr * pystr)) (body : bytes)
    (ts : option (list (pystr * pystr))) : Prop :=
  exists chunks last,
    without_logs t = WStart status hs :: map WBody chunks
                       ++ match ts with Some l => [WTrailers l] | None => [] end ++ map WBody last
    /\ body = List.concat chunks ++ List.concat last.

(** Number of [start_response] calls. *)
Fixpoint starts (t : list wevent) : nat :=
  match t with
  | [] => 0
  | WStart _ _ :: r => S (starts r)
  | _ :: r => starts r
  end.
(** No body chunk before the first [start_response]. *)
Fixpoint start_first (t : list wevent) : Prop :=
  match t with
  | [] => True
  | WLog _ :: r => start_first r
  | WStart _ _ :: _ => True
  | WBody _ :: _ | WTrailers _ :: _ => False
  end.

(** ** Method behaviour, without reference to a server

    [behaves g ps rs steps rs' e]: run on the request stream [ps] with response state [rs] and its messages always accepted, the
    generator [g] produces the messages [steps], each with the response state when it is produced, and then ends with response
    state [rs'], returning ([e = None]) or raising. *)
Inductive behaves {A B} : prog A B unit -> pulls A -> rstate -> list (rstate * B) -> rstate -> option interrupt -> Prop :=
| bh_ret u ps rs : behaves (Ret u) ps rs [] rs None
| bh_fail i ps rs : behaves (Fail i) ps rs [] rs (Some i)
| bh_pull k ps rs steps rs' e :
    behaves (k (fst (pull_next ps))) (snd (pull_next ps)) rs steps rs' e -> behaves (Pull k) ps rs steps rs' e
| bh_hdr op k ps rs steps rs' e :
    behaves k ps (mk_rs (h_exec (rs_h rs) op) (rs_t rs)) steps rs' e -> behaves (Hdr op k) ps rs steps rs' e
| bh_trl op k ps rs steps rs' e :
    behaves k ps (mk_rs (rs_h rs) (h_exec (rs_t rs) op)) steps rs' e -> behaves (Trl op k) ps rs steps rs' e
| bh_yield b c k ps rs steps rs' e :
    behaves k ps rs steps rs' e -> behaves (Yield b c k) ps rs ((rs, b) :: steps) rs' e.

(** Behaviour of a method that returns one message. *)
Definition returns {A B} (g : prog A Empty_set B) (ps : pulls A) (steps : list (rstate * B)) (rs' : rstate)
    (e : option interrupt) : Prop :=
  match run_fn g ps rs_new with
  | (FRet b, rs) => steps = [(rs, b)] /\ rs' = rs /\ e = None
  | (FInt i, rs) => steps = [] /\ rs' = rs /\ e = Some i
  end.

(** [method_does ep cx ps inv steps rs' e]: what the method behind [ep] does for a request stream [ps] over an envelope
    protocol.  A method taking one message runs only if the stream holds exactly one message and ends normally. *)
Definition method_does {A B} (ep : endpoint A B) (cx : req_ctx) (ps : pulls A) (inv : list (invoked A))
    (steps : list (rstate * B)) (rs' : rstate) (e : option interrupt) : Prop :=
  match ep with
  | EpUnary _ f => exists a, ps = ([a], None) /\ inv = [InvMsg a] /\ returns (f a cx) ([], None) steps rs' e
  | EpServerStream _ f => exists a, ps = ([a], None) /\ inv = [InvMsg a] /\ behaves (f a cx) ([], None) rs_new steps rs' e
  | EpClientStream _ f => inv = [InvStream] /\ returns (f cx) ps steps rs' e
  | EpBidi _ f => inv = [InvStream] /\ behaves (f cx) ps rs_new steps rs' e
  end.

(** [refused ps x]: the request stream [ps] does not hold exactly one message, which is reported as [x]. *)
Inductive refused {A} : pulls A -> exn -> Prop :=
| rf_many a b l e : refused (a :: b :: l, e) (EConnect Unimplemented (lit "unary request has multiple messages") [])
| rf_error l x : (List.length l <= 1)%nat -> refused (l, Some x) x
| rf_none : refused ([], None) (EConnect Unimplemented (lit "unary request has zero messages") []).

(** Method behaviour including the requests that are refused before the method runs: [req] is the request compression if
    the server knows it, [ps] the request stream it gives. *)
Definition takes_one {A B} (ep : endpoint A B) : bool :=
  match ep with EpUnary _ _ | EpServerStream _ _ => true | _ => false end.
Definition runs {A B} (ep : endpoint A B) (cx : req_ctx) (ps : pulls A) (inv : list (invoked A)) (steps : list (rstate * B))
    (rs' : rstate) (e : option interrupt) : Prop :=
  method_does ep cx ps inv steps rs' e
  \/ (takes_one ep = true /\ inv = [] /\ steps = [] /\ rs' = rs_new /\ exists x, refused ps x /\ e = Some (IExn x)).
Definition unknown_stream_compression : exn := EConnect Unimplemented (lit "Unrecognized request compression") [].
Definition stream_runs {A B} (ep : endpoint A B) (cx : req_ctx) (req : option compression) (ps : compression -> pulls A)
    (inv : list (invoked A)) (steps : list (rstate * B)) (rs' : rstate) (e : option interrupt) : Prop :=
  match req with
  | None => inv = [] /\ steps = [] /\ rs' = rs_new /\ e = Some (IExn unknown_stream_compression)
  | Some rz => runs ep cx (ps rz) inv steps rs' e
  end.

(** [closed_after n g ps rs steps rs' c]: the consumer takes [n] messages from [g] and closes it at the next one; [steps] are
    the messages taken, [rs'] the response state at that point, [c] what closing does. *)
Inductive closed_after {A B} : nat -> prog A B unit -> pulls A -> rstate -> list (rstate * B) -> rstate -> on_close -> Prop :=
| ca_here b c k ps rs : closed_after 0 (Yield b c k) ps rs [] rs c
| ca_yield n b c k ps rs steps rs' c' :
    closed_after n k ps rs steps rs' c' -> closed_after (S n) (Yield b c k) ps rs ((rs, b) :: steps) rs' c'
| ca_pull n k ps rs steps rs' c :
    closed_after n (k (fst (pull_next ps))) (snd (pull_next ps)) rs steps rs' c -> closed_after n (Pull k) ps rs steps rs' c
| ca_hdr n op k ps rs steps rs' c :
    closed_after n k ps (mk_rs (h_exec (rs_h rs) op) (rs_t rs)) steps rs' c -> closed_after n (Hdr op k) ps rs steps rs' c
| ca_trl n op k ps rs steps rs' c :
    closed_after n k ps (mk_rs (rs_h rs) (h_exec (rs_t rs) op)) steps rs' c -> closed_after n (Trl op k) ps rs steps rs' c.

(** The response state after closing. *)
Definition after_close (rs : rstate) (c : on_close) : rstate :=
  mk_rs (h_run (rs_h rs) (cl_hdr c)) (h_run (rs_t rs) (cl_trl c)).

(** ** Requests that reach a streaming response *)

(** The request selects endpoint [ep], protocol [p], codec [k]; [hs] are its headers, [cx] its context.  Every request
    except a Connect unary one is answered by a stream. *)
Definition asgi_stream_request {A B} (ap : app A B) (now : fl) (sc : scope) (ep : endpoint A B) (hs : headers) (p : proto)
    (cx : req_ctx) (k : codec A B) : Prop :=
  open_request ap now sc = Ok (ep, hs, p, cx) /\ (exists params, select_codec ap sc ep hs p = Ok (params, k))
  /\ (p = PConnect -> is_unary ep = false).
Definition wsgi_stream_request {A B} (ap : app A B) (now : fl) (q : wsgi_request) (ep : endpoint A B) (hs : headers) (p : proto)
    (cx : req_ctx) (k : codec A B) : Prop :=
  wsgi_open_request ap now q = Ok (ep, hs, p, cx)
  /\ dget (ap_codecs ap) (codec_name_from_content_type p true (h_get_default hs (lit "content-type") [])) = Some k
  /\ (p = PConnect -> is_unary ep = false).

(** The messages of [steps] as frames, in order. *)
Definition written {B} (enc : B -> res bytes) (z : compression) (steps : list (rstate * B)) (frs : list bytes) : Prop :=
  Forall2 (fun st fr => write_message enc (Some z) (snd st) = Ok fr) steps frs.

(** The response state whose headers are sent: that of the first message, or the last one if there is none. *)
Definition head_state {B} (steps : list (rstate * B)) (rs : rstate) : rstate :=
  match steps with [] => rs | s :: _ => fst s end.

(** The disconnect monitor of a server stream does not interfere with its first [n] messages. *)
Definition unwatched {A B} (ep : endpoint A B) (en : env) (n : nat) : Prop :=
  match ep, en_watch en with
  | EpServerStream _ _, WSeen m => (n <= m)%nat
  | EpServerStream _ _, WRaise _ => False
  | _, _ => True
  end.

(** Number of message bodies in an ASGI event sequence. *)
Definition message_events (t : list aevent) : nat :=
  List.length (filter (fun e => match e with EvBody _ true => true | _ => false end) t).
(** Events that end a response. *)
Definition ending (e : aevent) : Prop := match e with EvBody _ false | EvTrailers _ => True | _ => False end.
Definition wsgi_ending (e : wevent) : Prop := match e with WStart _ _ => False | _ => True end.

(** The end of a stream as events.  An exception is reported in the end message; a cancellation is not. *)
Definition reported (e : option interrupt) : option exn := match e with Some (IExn x) => Some x | _ => None end.
Definition asgi_tail (em : end_msg) (ts : list (bytes * bytes)) : list aevent :=
  match em with EndBytes b => [EvBody b false] | EndTrailers _ => [EvBody [] false; EvTrailers ts] end.
Definition wsgi_tail (em : end_msg) : list wevent :=
  match em with EndBytes b => [WBody b] | EndTrailers h => [WTrailers (h_allitems h); WBody []] end.

(** How the ASGI application call ends when the method ended with [e]. *)
Definition asgi_out (e : option interrupt) : aout :=
  match e with
  | None => AReturn
  | Some (IExn x) => if is_connect x then AReturn else ARaise x
  | Some ICancel => ARaise was_cancelled
  end.

(** What WSGI logs: only what a method raises before its first message. *)
Definition wsgi_logged {B} (steps : list (rstate * B)) (e : option interrupt) : list wevent :=
  match steps, e with [], Some (IExn x) => maybe_log x | _, _ => [] end.

(** When a WSGI stream ends without a message, its end message can be encoded. *)
Definition ends_writable {A B} (ap : app A B) (q : wsgi_request) (p : proto) (ep : endpoint A B) (k : codec A B)
    (hs : headers) (cx : req_ctx) : Prop :=
  forall req z inv rs' e, negotiate_stream_compression p hs (ap_comps ap) = (req, z) ->
    stream_runs ep cx req (fun rz => wsgi_request_stream ap k rz q) inv [] rs' e ->
    exists em, writer_end (ap_sc ap) p z (rs_t rs') (option_map we_from_exception (reported e)) = Ok em.


(** ** Requests *)

(** HTTP methods a method may be called with, and the Allow header listing them. *)
Definition permitted (p : proto) (level : idem) : list string :=
  match p, level with PConnect, NoSideEffects => ["GET"; "POST"]%string | _, _ => ["POST"%string] end.
Definition allow_header (p : proto) (level : idem) : pystr := join (lit ", ") (map lit (permitted p level)).

(** The request selects a unary method of the Connect protocol. *)
Definition asgi_unary_request {A B} (ap : app A B) (now : fl) (sc : scope) (f : A -> req_ctx -> prog Empty_set Empty_set B)
    (hs : headers) (cx : req_ctx) (params : dict (list pystr)) (k : codec A B) : Prop :=
  exists m, open_request ap now sc = Ok (EpUnary m f, hs, PConnect, cx)
    /\ select_codec ap sc (EpUnary m f) hs PConnect = Ok (params, k).
Definition wsgi_unary_request {A B} (ap : app A B) (now : fl) (q : wsgi_request) (f : A -> req_ctx -> prog Empty_set Empty_set B)
    (hs : headers) (cx : req_ctx) : Prop :=
  exists m, wsgi_open_request ap now q = Ok (EpUnary m f, hs, PConnect, cx).

(** A unary error response without details: the status of code [c], and [c] in the JSON body. *)
Definition asgi_error (t : list aevent) (c : code) : Prop :=
  exists msg body, we_to_json_bytes (mk_we c msg []) = Ok body
    /\ t = [EvStart (connect_spec_status c) [(lit "content-type", lit "application/json")] false; EvBody body false].
Definition wsgi_error (t : list wevent) (c : code) : Prop :=
  exists msg phrase body, we_to_json_bytes (mk_we c msg []) = Ok body
    /\ t = [WStart (dec_of_N (connect_spec_status c) ++ lit " " ++ phrase) [(lit "Content-Type", lit "application/json")];
            WBody body].

(** Bytes a WSGI input gives before it reports its end or fails, and what it fails with. *)
Fixpoint available (inp : list rd) : bytes :=
  match inp with
  | [] | RD [] :: _ | RDErr _ :: _ => []
  | RD b :: r => b ++ available r
  end.
Fixpoint fault (inp : list rd) : option exn :=
  match inp with
  | [] | RD [] :: _ => None
  | RDErr e :: _ => Some e
  | RD _ :: r => fault r
  end.

(** An exception that can be turned into an error response. *)
Definition answerable (e : exn) : Prop :=
  match e with
  | EHttp _ hs => exists hs', encode_pairs hs = Ok hs'
  | _ => exists b, we_to_json_bytes (we_from_exception e) = Ok b
  end.

(** An application whose codecs and compressions raise answerable exceptions. *)
Definition tame_app {A B} (ap : app A B) : Prop :=
  (forall n k, dget (ap_codecs ap) n = Some k ->
     (forall b e, k_dec_req k b = Raise e -> answerable e) /\ (forall m e, k_enc_res k m = Raise e -> answerable e))
  /\ (forall n z, dget (ap_comps ap) n = Some z ->
     (forall b e, z_decompress z b = Raise e -> answerable e) /\ (forall b e, z_compress z b = Raise e -> answerable e)).

(** A method that is not cancelled, raises answerable exceptions and sets encodable headers. *)
Definition tame_method {A B} (f : A -> req_ctx -> prog Empty_set Empty_set B) : Prop :=
  forall a cx, match run_fn (f a cx) ([], None) rs_new with
               | (FInt ICancel, _) => False
               | (FInt (IExn e), rs) => answerable e /\ exists hs, encode_pairs (context_headers rs) = Ok hs
               | (FRet _, rs) => exists hs, encode_pairs (context_headers rs) = Ok hs
               end.

(** A [receive] that is not cancelled and raises answerable exceptions. *)
Definition tame_recv (l : list recv) : Prop :=
  Forall (fun r => match r with RRaise e => answerable e | RCancel => False | _ => True end) l.

(** A WSGI input that raises answerable exceptions. *)
Definition tame_input (inp : list rd) : Prop := Forall (fun r => match r with RDErr e => answerable e | RD _ => True end) inp.

(** Reading nothing means the end of the input. *)
Definition eof_final (inp : list rd) : Prop := forall x y, inp = x ++ RD [] :: y -> y = [].

(** The response to a stream request that is refused with [x] before the method runs: nothing but the end of a stream. *)
Definition asgi_refusal {A B} (ap : app A B) (p : proto) (k : codec A B) (z : compression) (x : exn) (r : asgi_result A) : Prop :=
  ar_inv r = []
  /\ forall head em ts, encode_pairs (stream_headers p (k_name k) (z_name z) rs_new) = Ok head ->
       writer_end (ap_sc ap) p z h_empty (Some (we_from_exception x)) = Ok em ->
       (forall t, em = EndTrailers t -> encode_pairs (h_allitems t) = Ok ts) ->
       ar_events r = EvStart 200 head (uses_trailers p) :: asgi_tail em ts.
Definition wsgi_refusal {A B} (ap : app A B) (p : proto) (k : codec A B) (z : compression) (x : exn) (r : wsgi_result A) : Prop :=
  wr_inv r = []
  /\ forall em, writer_end (ap_sc ap) p z h_empty (Some (we_from_exception x)) = Ok em ->
       without_logs (wr_events r) = WStart (lit "200 OK") (stream_headers p (k_name k) (z_name z) rs_new) :: wsgi_tail em.
