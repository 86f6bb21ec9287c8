(** A stream on the ASGI server as a conversation: what the application receives and sends, and what the method takes and yields,
    in the order in which it happens.  Models src/connectrpc/_server_async.py:368-493, 561-608, which are coroutines and
    asynchronous generators; [handle_stream] of MAsgi.v is the same code with the request stream as a list. *)
From Coq Require Import List NArith ZArith Bool String.
From Verif Require Import MBase MPyStr MHeaders MWire MEnvelope MTimeout MProtocol MClient MServer MAsgi.
Import ListNotations.
Local Open Scope N_scope.

(** What happens: the method asks its request stream for the next element; the application receives an event from the server;
    the method is given the element; the method yields a message; the application hands an event to the server. *)
Inductive devent (A B : Type) := DAsk | DRecv (r : recv) | DGive (x : pulled A) | DYield (b : B) | DSend (e : aevent).
Arguments DAsk {A B}. Arguments DRecv {A B}. Arguments DGive {A B}. Arguments DYield {A B}. Arguments DSend {A B}.

(** Where the generator [_request_stream] stands (lines 561-577): not started; suspended at its [yield], with what the reader holds,
    whether the server has announced more of the body, what [receive()] will answer, and the number of messages yielded;
    finished. *)
Inductive rqpos := RqStart (evs : list recv) | RqYield (r : reader) (more : bool) (evs : list recv) (n : nat) | RqEnd.

(** [async for chunk in _read_body(receive): for message in reader.feed(chunk): yield message] up to the next [yield]
    (lines 566-569, 580-595). *)
Inductive rstand (M : Type) := RsMsg (m : M) (r : reader) (more : bool) (evs : list recv) | RsErr (e : exn) | RsEnd.
Arguments RsMsg {M}. Arguments RsErr {M}. Arguments RsEnd {M}.
Fixpoint rpump {M} (cf : rconf M) (p : pause M) (more : bool) (evs : list recv) : rstand M * list recv :=
  match p with
  | YMsg m r => (RsMsg m r more evs, [])
  | YErr e r => (RsErr e, [])
  | YEnd r =>
      if more then
        match evs with
        | [] => (RsErr disconnected, [RDisconnect])
        | x :: evs =>
            let '(s, o) := match x with
                           | RReq b more => rpump cf (feed_first cf r b) more evs
                           | RDisconnect => (RsErr disconnected, [])
                           | ROther => (RsErr (EConnect Unknown (lit "Unexpected message type") []), [])
                           | RRaise e => (RsErr e, [])
                           | RCancel => (RsErr was_cancelled, [])
                           end in
            (s, x :: o)
        end
      else (RsEnd, [])
  end.
(** [await anext(request_stream)]; after a [yield] comes [sleep(0)], where a cancellation arrives (lines 570-577). *)
Definition rq_next {M} (cf : rconf M) (cut : option nat) (q : rqpos) : pulled M * rqpos * list recv :=
  let go p more evs n :=
    let (s, o) := rpump cf p more evs in
    match s with
    | RsMsg m r more evs => (PMsg m, RqYield r more evs (S n), o)
    | RsErr e => (PExn e, RqEnd, o)
    | RsEnd => (PEnd, RqEnd, o)
    end in
  match q with
  | RqStart evs => go (YEnd (reader_new None)) true evs O
  | RqYield r more evs n =>
      if match cut with Some k => Nat.eqb k n | None => false end then (PExn was_cancelled, RqEnd, [])
      else go (read_resume cf r) more evs n
  | RqEnd => (PEnd, RqEnd, [])
  end.

(** A method that returns one value, asking its request stream. *)
Fixpoint run_fn_t {A B R} (cf : rconf A) (cut : option nat) (g : prog A Empty_set R) (q : rqpos) (rs : rstate)
  : fres R * rstate * list (devent A B) :=
  match g with
  | Ret r => (FRet r, rs, [])
  | Fail i => (FInt i, rs, [])
  | Pull k =>
      let '(x, q, o) := rq_next cf cut q in
      let '(r, rs, t) := run_fn_t cf cut (k x) q rs in
      (r, rs, DAsk :: map DRecv o ++ DGive x :: t)
  | Yield b _ _ => match b with end
  | Hdr op k => run_fn_t cf cut k q (mk_rs (h_exec (rs_h rs) op) (rs_t rs))
  | Trl op k => run_fn_t cf cut k q (mk_rs (rs_h rs) (h_exec (rs_t rs) op))
  end.

(** What an action added to the emitted events. *)
Definition newly {A B} (before after : ast) : list (devent A B) := map DSend (skipn (List.length (as_ev before)) (as_ev after)).

(** [async for message in response_stream: body] (lines 429-444). *)
Fixpoint drive_t {A B} (body : lst -> rstate -> B -> lst * option interrupt) (cf : rconf A) (cut : option nat) (g : prog A B unit)
    (q : rqpos) (rs : rstate) (s : lst) : lst * rstate * loop_end * list (devent A B) :=
  match g with
  | Ret _ => (s, rs, LDone, [])
  | Fail i => (s, rs, LFail i, [])
  | Pull k =>
      let '(x, q, o) := rq_next cf cut q in
      let '(s, rs, e, t) := drive_t body cf cut (k x) q rs s in
      (s, rs, e, DAsk :: map DRecv o ++ DGive x :: t)
  | Hdr op k => drive_t body cf cut k q (mk_rs (h_exec (rs_h rs) op) (rs_t rs)) s
  | Trl op k => drive_t body cf cut k q (mk_rs (rs_h rs) (h_exec (rs_t rs) op)) s
  | Yield b c k =>
      match body s rs b with
      | (s', None) =>
          let '(s'', rs, e, t) := drive_t body cf cut k q rs s' in
          (s'', rs, e, DYield b :: newly (ls_a s) (ls_a s') ++ t)
      | (s', Some i) => (s', rs, LBroken i c, DYield b :: newly (ls_a s) (ls_a s'))
      end
  end.

(** The response loop with its inner [finally] (lines 429-456). *)
Definition stream_loop_t {A B} (o : nat -> send_res) (seen : nat -> bool) (mon : option exn) (p : proto) (name : pystr)
    (enc : B -> res bytes) (z : compression) (cf : rconf A) (cut : option nat) (g : prog A B unit) (q : rqpos) (rs : rstate) (s : lst)
  : lst * rstate * option interrupt * list (devent A B) :=
  let '(s, rs, e, t) := drive_t (stream_body o seen p name enc z) cf cut g q rs s in
  match mon with
  | Some x => (s, rs, Some (IExn x), t)
  | None =>
      match e with
      | LDone => (s, rs, None, t)
      | LFail i => (s, rs, Some i, t)
      | LBroken i c => (s, run_hops rs c, Some (match cl_raise c with Some j => j | None => i end), t)
      end
  end.

(** [_consume_single_request] (lines 598-608): the library asks, not the method. *)
Definition consume_single_t {A B} (cf : rconf A) (cut : option nat) (q : rqpos) : res A * list (devent A B) :=
  let '(x, q, o) := rq_next cf cut q in
  match x with
  | PExn e => (Raise e, map DRecv o)
  | PEnd => (Raise (EConnect Unimplemented (lit "unary request has zero messages") []), map DRecv o)
  | PMsg a =>
      let '(y, q, o') := rq_next cf cut q in
      (match y with
       | PExn e => Raise e
       | PEnd => Ok a
       | PMsg _ => Raise (EConnect Unimplemented (lit "unary request has multiple messages") [])
       end, map DRecv (o ++ o'))
  end.

(** A method without request stream has nothing to ask for. *)
Definition no_requests : rconf Empty_set := mk_rconf RBase identity_comp None (fun _ => Raise (EOther KValue [])).
Definition of_closed {A B} (e : devent Empty_set B) : list (devent A B) :=
  match e with DYield b => [DYield b] | DSend e => [DSend e] | _ => [] end.

(** The [try] of [_handle_stream] (lines 386-456).  Simplification: what the disconnect monitor of a server stream receives is not
    listed; what it causes is, as in MAsgi.v. *)
Definition stream_try_t {A B} (ap : app A B) (en : env) (p : proto) (ep : endpoint A B) (k : codec A B)
    (req : option compression) (z : compression) (cx : req_ctx) (s : lst)
  : list (invoked A) * (lst * rstate * option interrupt) * list (devent A B) :=
  match req with
  | None => ([], (s, rs_new, Some (IExn (EConnect Unimplemented (lit "Unrecognized request compression") []))), [])
  | Some rz =>
      let cf := mk_rconf RBase rz (ap_max ap) (k_dec_req k) in
      let q := RqStart (en_recv en) in
      let cut := en_cut en in
      let never := fun _ : nat => false in
      let single b rs t :=
        let '(s, rs, i, t') := stream_loop_t (en_send en) never None p (k_name k) (k_enc_res k) z cf cut (@single_response A B b) RqEnd rs s in
        (s, rs, i, t ++ t') in
      match ep with
      | EpUnary _ f =>
          let (r, t) := consume_single_t cf cut q in
          match r with
          | Raise e => ([], (s, rs_new, Some (IExn e)), t)
          | Ok a =>
              let (r, rs) := run_fn (f a cx) ([], None) rs_new in
              match r with
              | FInt i => ([InvMsg a], (s, rs, Some i), t)
              | FRet b => let '(x, t) := single b rs t in ([InvMsg a], x, t)
              end
          end
      | EpClientStream _ f =>
          let '(r, rs, t) := run_fn_t cf cut (f cx) q rs_new in
          match r with
          | FInt i => ([InvStream], (s, rs, Some i), t)
          | FRet b => let '(x, t) := single b rs t in ([InvStream], x, t)
          end
      | EpServerStream _ f =>
          let (r, t) := consume_single_t cf cut q in
          match r with
          | Raise e => ([], (s, rs_new, Some (IExn e)), t)
          | Ok a =>
              let '(x, t') := stream_loop_t (en_send en) (match en_watch en with WSeen n => fun i => Nat.leb n i | _ => never end)
                                (match en_watch en with WRaise e => Some e | _ => None end) p (k_name k) (k_enc_res k) z
                                no_requests None (f a cx) RqEnd rs_new s in
              ([InvMsg a], x, t ++ flat_map of_closed t')
          end
      | EpBidi _ f =>
          let '(x, t) := stream_loop_t (en_send en) never None p (k_name k) (k_enc_res k) z cf cut (f cx) q rs_new s in
          ([InvStream], x, t)
      end
  end.

(** [_handle_stream] (lines 368-493). *)
Definition handle_stream_t {A B} (ap : app A B) (en : env) (p : proto) (ep : endpoint A B) (k : codec A B) (hs : headers)
    (cx : req_ctx) : asgi_result A * list (devent A B) :=
  let (req, z) := negotiate_stream_compression p hs (ap_comps ap) in
  let '(inv, (s, rs, i), t) := stream_try_t ap en p ep k req z cx (mk_lst (mk_ast 0 []) false 0) in
  let (a, r) := stream_finally (en_send en) (ap_sc ap) p (k_name k) z s rs i (ls_a s) in
  (mk_ar inv (as_ev a) (aout_of r), t ++ newly (ls_a s) a).

(** What [_read_body] (lines 580-595) receives when nothing stops it before its end, as in a unary request, where the parts are
    gathered before anything else is done with them (line 346); [read_body] of MAsgi.v says what it gives. *)
Fixpoint body_events (l : list recv) : list recv :=
  match l with
  | [] => [RDisconnect]
  | RReq b true :: r => RReq b true :: body_events r
  | x :: _ => [x]
  end.

(** [__call__] (lines 177-243).  A unary GET request of the Connect protocol is not received; of a POST request everything is received
    before the method is called (lines 259-264). *)
Definition asgi_conversation {A B} (ap : app A B) (now : fl) (sc : scope) (en : env) : asgi_result A * list (devent A B) :=
  let plain o r := (r, map DRecv o ++ map DSend (ar_events r)) in
  match open_request ap now sc with
  | Raise e => plain [] (call_error en [] (mk_ast 0 []) e None)
  | Ok (ep, hs, p, cx) =>
      match select_codec ap sc ep hs p with
      | Raise e => plain [] (call_error en [] (mk_ast 0 []) e (Some rs_new))
      | Ok (params, k) =>
          match ep, p with
          | EpUnary _ f, PConnect =>
              plain (if str_eqb (sc_method sc) (lit "GET") then [] else body_events (en_recv en))
                    match handle_unary_connect ap en (sc_method sc) hs k params f cx (mk_ast 0 []) with
                    | (inv, rs, (s, inl _)) => mk_ar inv (as_ev s) AReturn
                    | (inv, rs, (s, inr ICancel)) => mk_ar inv (as_ev s) ACancelled
                    | (inv, rs, (s, inr (IExn e))) => call_error en inv s e (Some rs)
                    end
          | _, _ => handle_stream_t ap en p ep k hs cx
          end
      end
  end.
