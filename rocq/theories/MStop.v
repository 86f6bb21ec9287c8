(** A WSGI server that does not consume the whole body (src/connectrpc/_server_sync.py): it takes some chunks of the
    iterable that [__call__] returned and then calls its [close()], as servers do when the client goes away. *)
From Coq Require Import List NArith ZArith Bool String.
From Verif Require Import MBase MPyStr MHeaders MUtf8 MBase64 MPercent MWire MEnvelope MTimeout MProtocol MClient MServer MWsgi.
Import ListNotations.

(** One message when the server takes [n] chunks (_server_sync.py:467-488, 590-594).  The first message is taken from the
    method before [__call__] returns; it is written, and every later one produced, when the server asks for a chunk.
    Interruption by [close()] is [ICancel], the GeneratorExit that [close()] raises at the [yield]: it is not an
    [Exception], so the [except] of [_response_stream] does not see it, and what follows the [try] is not run.
    The state counts the chunks taken. *)
Definition stop_step {B} (n : nat) (p : proto) (name : pystr) (enc : B -> res bytes) (z : compression) (s : wst * nat)
    (rs : rstate) (b : B) : (wst * nat) * option interrupt :=
  let '(w, i) := s in
  if Nat.leb n i then
    (* n = 0: closed before it was started; start_response has been called *)
    (mk_wst (if ws_started w then ws_ev w else ws_ev w ++ [WStart (lit "200 OK") (stream_headers p name (z_name z) rs)]) true, i, Some ICancel)
  else
    match wsgi_body_step p name enc z w rs b with
    | (w, Some x) => (w, i, Some x)
    | (w, None) => (w, S i, if Nat.eqb (S i) n then Some ICancel else None)
    end.

(** [wsgi_run] with that loop (_server_sync.py:452-489). *)
Definition stop_run {A B} (n : nat) (p : proto) (ep : endpoint A B) (k : codec A B) (z : compression) (ps : pulls A) (cx : req_ctx)
  : list (invoked A) * (wst * nat * rstate * loop_end) :=
  let s := (mk_wst [] false, O) in
  let step := stop_step n p (k_name k) (k_enc_res k) z in
  match ep with
  | EpUnary _ f =>
      match consume_single_request ps with
      | Raise e => ([], (s, rs_new, LFail (IExn e)))
      | Ok a =>
          let (r, rs) := run_fn (f a cx) ([], None) rs_new in
          ([InvMsg a], match r with
                       | FInt i => (s, rs, LFail i)
                       | FRet b => drive step (@single_response A B b) ([], None) rs s
                       end)
      end
  | EpClientStream _ f =>
      let (r, rs) := run_fn (f cx) ps rs_new in
      ([InvStream], match r with
                    | FInt i => (s, rs, LFail i)
                    | FRet b => drive step (@single_response A B b) ([], None) rs s
                    end)
  | EpServerStream _ f =>
      match consume_single_request ps with
      | Raise e => ([], (s, rs_new, LFail (IExn e)))
      | Ok a => ([InvMsg a], drive step (f a cx) ([], None) rs_new s)
      end
  | EpBidi _ f => ([InvStream], drive step (f cx) ps rs_new s)
  end.

(** The end of a body: at most [n] chunks of those left are taken.  Everything before the chunk of a list has been done by the
    time the list is returned; [_end_response] sends the trailers when its chunk is asked for (_server_sync.py:599-605). *)
Definition taken_list (n : nat) (ev : list wevent) : list wevent :=
  filter (fun e => match e with WBody _ => negb (Nat.eqb n 0) | _ => true end) ev.

(** [_handle_stream] and what the server takes of its result (_server_sync.py:411-506, 580-605). *)
Definition stop_stream {A B} (n : nat) (ap : app A B) (q : wsgi_request) (p : proto) (hs : headers) (ep : endpoint A B) (cx : req_ctx)
  : whandled A + wsgi_result A :=
  let (req, z) := negotiate_stream_compression p hs (ap_comps ap) in
  match dget (ap_codecs ap) (codec_name_from_content_type p true (h_get_default hs (lit "content-type") [])) with
  | None => inl ([], rs_new, [], Some (IExn (unsupported_media wsgi_accept_stream)))
  | Some k =>
      let error inv rs ev e := inl (wsgi_stream_error ap q p (k_name k) z inv rs ev e) in
      match req with
      | None => error [] rs_new [] (EConnect Unimplemented (lit "Unrecognized request compression") [])
      | Some rz =>
          let '(inv, (s, i, rs, e)) := stop_run n p ep k z (wsgi_request_stream ap k rz q) cx in
          if ws_started s then
            match e with
            | LBroken ICancel _ => inr (mk_wr inv (ws_ev s) WReturn)
            | _ => inr (response_stream_end ap q p z inv rs (ws_ev s) (loop_interrupt e))
            end
          else
            match loop_interrupt e with
            | Some ICancel => inl (inv, rs, ws_ev s, Some ICancel)
            | Some (IExn x) => error inv rs (ws_ev s) x
            | None =>
                let ev := ws_ev s ++ [WStart (lit "200 OK") (stream_headers p (k_name k) (z_name z) rs)] in
                match end_response (ap_sc ap) p z (rs_t rs) None with
                | Ok fin => inl (inv, rs, ev ++ fin, None)
                | Raise x => error inv rs ev x
                end
            end
      end
  end.

(** [__call__] and a server that takes at most [n] chunks of the body and then calls [close()] (_server_sync.py:192-244). *)
Definition wsgi_stop {A B} (n : nat) (ap : app A B) (now : fl) (q : wsgi_request) : wsgi_result A :=
  let listed (r : wsgi_result A) := mk_wr (wr_inv r) (taken_list n (wr_events r)) (wr_out r) in
  match wsgi_open_request ap now q with
  | Raise e => listed (wsgi_call_error q [] [] e None)
  | Ok (ep, hs, p, cx) =>
      match (match ep, p with
             | EpUnary _ f, PConnect => inl (wsgi_unary ap q (cx_http cx) f cx hs)
             | _, _ => stop_stream n ap q p hs ep cx
             end) with
      | inr r => r
      | inl (inv, rs, ev, None) => listed (mk_wr inv ev WReturn)
      | inl (inv, rs, ev, Some ICancel) => mk_wr inv ev WBase
      | inl (inv, rs, ev, Some (IExn e)) => listed (wsgi_call_error q inv ev e (Some rs))
      end
  end.
