(** A request on the WSGI server as a conversation: what is read of the request body, what the method takes and yields, and what is
    handed to the server, in the order in which it happens, and how much of the request body is left at the end.  Models
    src/connectrpc/_server_sync.py:109-143, 192-506, 568-605, 655-661; [wsgi_call] of MWsgi.v is the same code with the request
    stream as a list and with an oracle for what draining the body raises. *)
From Coq Require Import List NArith ZArith Bool String.
From Verif Require Import MBase MPyStr MHeaders MWire MEnvelope MTimeout MProtocol MClient MServer MWsgi.
Import ListNotations.
Local Open Scope N_scope.

(** What happens: the method asks its request stream for the next element; the application reads from "wsgi.input"; the method is
    given the element; the method yields a message; something is handed to the server. *)
Inductive tevent (A B : Type) := TAsk | TRead (r : res bytes) | TGive (x : pulled A) | TYield (b : B) | TOut (e : wevent).
Arguments TAsk {A B}. Arguments TRead {A B}. Arguments TGive {A B}. Arguments TYield {A B}. Arguments TOut {A B}.

(** Where the generator [_request_stream] stands (lines 568-577): not started; suspended at a [yield], with what the reader holds;
    finished. *)
Inductive tqpos := TqStart | TqYield (r : reader) | TqEnd.

(** [for chunk in _read_body(environ): yield from reader.feed(chunk)] up to the next [yield] (lines 576-577, 137-143): where it
    stands, what is left of the input, and what was read.  [fuel] bounds the number of reads; see [input_fuel]. *)
Inductive tstand (M : Type) := TsMsg (m : M) (r : reader) | TsErr (e : exn) | TsEnd.
Arguments TsMsg {M}. Arguments TsErr {M}. Arguments TsEnd {M}.
Fixpoint tpump {M} (cf : rconf M) (fuel : nat) (p : pause M) (inp : list rd) : tstand M * list rd * list (res bytes) :=
  match p with
  | YMsg m r => (TsMsg m r, inp, [])
  | YErr e r => (TsErr e, inp, [])
  | YEnd r =>
      match fuel with
      | O => (TsEnd, inp, [])
      | S f =>
          let (x, inp) := wread 4096 inp in
          let '(s, inp, o) := match x with
                              | Raise e => (TsErr e, inp, [])
                              | Ok [] => (TsEnd, inp, [])
                              | Ok chunk => tpump cf f (feed_first cf r chunk) inp
                              end in
          (s, inp, x :: o)
      end
  end.
(** [next(request_stream)] *)
Definition tq_next {M} (cf : rconf M) (q : tqpos) (inp : list rd) : pulled M * tqpos * list rd * list (res bytes) :=
  let go p :=
    let '(s, inp, o) := tpump cf (input_fuel inp) p inp in
    match s with
    | TsMsg m r => (PMsg m, TqYield r, inp, o)
    | TsErr e => (PExn e, TqEnd, inp, o)
    | TsEnd => (PEnd, TqEnd, inp, o)
    end in
  match q with
  | TqStart => go (YEnd (reader_new None))
  | TqYield r => go (read_resume cf r)
  | TqEnd => (PEnd, TqEnd, inp, [])
  end.

(** A method that returns one value, asking its request stream. *)
Fixpoint run_fn_w {A B R} (cf : rconf A) (g : prog A Empty_set R) (q : tqpos) (inp : list rd) (rs : rstate)
  : fres R * rstate * list rd * list (tevent A B) :=
  match g with
  | Ret r => (FRet r, rs, inp, [])
  | Fail i => (FInt i, rs, inp, [])
  | Pull k =>
      let '(x, q, inp, o) := tq_next cf q inp in
      let '(r, rs, inp, t) := run_fn_w cf (k x) q inp rs in
      (r, rs, inp, TAsk :: map TRead o ++ TGive x :: t)
  | Yield b _ _ => match b with end
  | Hdr op k => run_fn_w cf k q inp (mk_rs (h_exec (rs_h rs) op) (rs_t rs))
  | Trl op k => run_fn_w cf k q inp (mk_rs (rs_h rs) (h_exec (rs_t rs) op))
  end.

(** What was handed to the server since [before]. *)
Definition wnewly {A B} (before after : list wevent) : list (tevent A B) := map TOut (skipn (List.length before) after).

(** [next(response_stream, None)] and [for message in response_stream: ...] (lines 467-489, 589-594). *)
Fixpoint drive_w {A B} (body : wst -> rstate -> B -> wst * option interrupt) (cf : rconf A) (g : prog A B unit)
    (q : tqpos) (inp : list rd) (rs : rstate) (s : wst) : wst * rstate * loop_end * list rd * list (tevent A B) :=
  match g with
  | Ret _ => (s, rs, LDone, inp, [])
  | Fail i => (s, rs, LFail i, inp, [])
  | Pull k =>
      let '(x, q, inp, o) := tq_next cf q inp in
      let '(s, rs, e, inp, t) := drive_w body cf (k x) q inp rs s in
      (s, rs, e, inp, TAsk :: map TRead o ++ TGive x :: t)
  | Hdr op k => drive_w body cf k q inp (mk_rs (h_exec (rs_h rs) op) (rs_t rs)) s
  | Trl op k => drive_w body cf k q inp (mk_rs (rs_h rs) (h_exec (rs_t rs) op)) s
  | Yield b c k =>
      match body s rs b with
      | (s', None) =>
          let '(s'', rs, e, inp, t) := drive_w body cf k q inp rs s' in
          (s'', rs, e, inp, TYield b :: wnewly (ws_ev s) (ws_ev s') ++ t)
      | (s', Some i) => (s', rs, LBroken i c, inp, TYield b :: wnewly (ws_ev s) (ws_ev s'))
      end
  end.

(** [_consume_single_request] (lines 608-618): the library asks, not the method.  It stops at the second message. *)
Definition consume_single_w {A} (cf : rconf A) (inp : list rd) : res A * list rd * list (res bytes) :=
  let '(x, q, inp, o) := tq_next cf TqStart inp in
  match x with
  | PExn e => (Raise e, inp, o)
  | PEnd => (Raise (EConnect Unimplemented (lit "unary request has zero messages") []), inp, o)
  | PMsg a =>
      let '(y, q, inp, o') := tq_next cf q inp in
      (match y with
       | PExn e => Raise e
       | PEnd => Ok a
       | PMsg _ => Raise (EConnect Unimplemented (lit "unary request has multiple messages") [])
       end, inp, o ++ o')
  end.

(** A method without request stream has nothing to ask for. *)
Definition no_reads : rconf Empty_set := mk_rconf RBase identity_comp None (fun _ => Raise (EOther KValue [])).
Definition of_closed_w {A B} (e : tevent Empty_set B) : list (tevent A B) :=
  match e with TYield b => [TYield b] | TOut e => [TOut e] | _ => [] end.

(** The [match endpoint] and the loop over its messages (lines 452-489). *)
Definition wsgi_run_t {A B} (p : proto) (ep : endpoint A B) (k : codec A B) (z : compression) (cf : rconf A) (cx : req_ctx)
    (inp : list rd) : list (invoked A) * (wst * rstate * loop_end) * list rd * list (tevent A B) :=
  let s := mk_wst [] false in
  let step := wsgi_body_step p (k_name k) (k_enc_res k) z in
  let single b rs inp t :=
    let '(s, rs, e, inp, t') := drive_w step cf (@single_response A B b) TqEnd inp rs s in ((s, rs, e), inp, t ++ t') in
  match ep with
  | EpUnary _ f =>
      let '(r, inp, o) := consume_single_w cf inp in
      match r with
      | Raise e => ([], (s, rs_new, LFail (IExn e)), inp, map TRead o)
      | Ok a =>
          let (r, rs) := run_fn (f a cx) ([], None) rs_new in
          match r with
          | FInt i => ([InvMsg a], (s, rs, LFail i), inp, map TRead o)
          | FRet b => let '(x, inp, t) := single b rs inp (map TRead o) in ([InvMsg a], x, inp, t)
          end
      end
  | EpClientStream _ f =>
      let '(r, rs, inp, t) := run_fn_w cf (f cx) TqStart inp rs_new in
      match r with
      | FInt i => ([InvStream], (s, rs, LFail i), inp, t)
      | FRet b => let '(x, inp, t) := single b rs inp t in ([InvStream], x, inp, t)
      end
  | EpServerStream _ f =>
      let '(r, inp, o) := consume_single_w cf inp in
      match r with
      | Raise e => ([], (s, rs_new, LFail (IExn e)), inp, map TRead o)
      | Ok a =>
          let '(s, rs, e, _, t) := drive_w step no_reads (f a cx) TqEnd [] rs_new s in
          ([InvMsg a], (s, rs, e), inp, map TRead o ++ flat_map of_closed_w t)
      end
  | EpBidi _ f =>
      let '(s, rs, e, inp, t) := drive_w step cf (f cx) TqStart inp rs_new s in ([InvStream], (s, rs, e), inp, t)
  end.

(** [for _ in _read_body(environ): pass] (lines 137-143, 660-661): what it raises, what is left, what was read. *)
Fixpoint drain_loop (fuel : nat) (inp : list rd) : option exn * list rd * list (res bytes) :=
  match fuel with
  | O => (None, inp, [])
  | S f =>
      let (x, inp) := wread 4096 inp in
      let '(e, inp, o) := match x with
                          | Raise e => (Some e, inp, [])
                          | Ok [] => (None, inp, [])
                          | Ok _ => drain_loop f inp
                          end in
      (e, inp, x :: o)
  end.
(** [_drain_request_body] (lines 655-661). *)
Definition drain_body (q : wsgi_request) (inp : list rd) : option exn * list rd * list (res bytes) :=
  if startswith (lit "HTTP/1") (env_default q "SERVER_PROTOCOL" []) then drain_loop (input_fuel inp) inp else (None, inp, []).
(** [q] when draining its body raises [d]. *)
Definition draining (q : wsgi_request) (d : nat -> option exn) : wsgi_request := mk_wq (wq_env q) (wq_input q) (wq_trailers q) d.

(** [_handle_stream] and the response stream it returns (lines 411-506, 580-605), as [wsgi_stream] of MWsgi.v. *)
Definition wsgi_stream_t {A B} (ap : app A B) (q : wsgi_request) (p : proto) (hs : headers) (ep : endpoint A B) (cx : req_ctx)
  : (whandled A + wsgi_result A) * list rd * list (tevent A B) :=
  let (req, z) := negotiate_stream_compression p hs (ap_comps ap) in
  match dget (ap_codecs ap) (codec_name_from_content_type p true (h_get_default hs (lit "content-type") [])) with
  | None => (inl ([], rs_new, [], Some (IExn (unsupported_media wsgi_accept_stream))), wq_input q, [])
  | Some k =>
      let error inv rs ev e inp t :=
        let '(d, inp, o) := drain_body q inp in
        let h := wsgi_stream_error ap (draining q (fun _ => d)) p (k_name k) z inv rs ev e in
        let '(_, _, ev', _) := h in
        (inl h, inp, t ++ map TRead o ++ wnewly ev ev') in
      match req with
      | None => error [] rs_new [] (EConnect Unimplemented (lit "Unrecognized request compression") []) (wq_input q) []
      | Some rz =>
          let cf := mk_rconf RBase rz (ap_max ap) (k_dec_req k) in
          let '(inv, (s, rs, e), inp, t) := wsgi_run_t p ep k z cf cx (wq_input q) in
          if ws_started s then
            let '(d, inp, o) := match loop_interrupt e with Some (IExn _) => drain_body q inp | _ => (None, inp, []) end in
            let r := response_stream_end ap (draining q (fun _ => d)) p z inv rs (ws_ev s) (loop_interrupt e) in
            (inr r, inp, t ++ map TRead o ++ wnewly (ws_ev s) (wr_events r))
          else
            match loop_interrupt e with
            | Some ICancel => (inl (inv, rs, ws_ev s, Some ICancel), inp, t)
            | Some (IExn x) => error inv rs (ws_ev s) x inp t
            | None =>
                let ev := ws_ev s ++ [WStart (lit "200 OK") (stream_headers p (k_name k) (z_name z) rs)] in
                match end_response (ap_sc ap) p z (rs_t rs) None with
                | Ok fin => (inl (inv, rs, ev ++ fin, None), inp, t ++ wnewly (ws_ev s) (ev ++ fin))
                | Raise x => error inv rs ev x inp (t ++ wnewly (ws_ev s) ev)
                end
            end
      end
  end.

(** The loop of [_read_body_with_content_length] (lines 120-134), as [read_exact] of MWsgi.v. *)
Fixpoint read_exact_t (fuel : nat) (n : N) (acc : bytes) (inp : list rd) : res bytes * list rd * list (res bytes) :=
  if lenN acc <? n then
    match fuel with
    | O => (Raise (truncated (Z.of_N n) (Z.of_N (lenN acc))), inp, [])
    | S f =>
        let (x, inp) := wread (n - lenN acc) inp in
        let '(r, inp, o) := match x with
                            | Raise e => (Raise e, inp, [])
                            | Ok [] => (Raise (truncated (Z.of_N n) (Z.of_N (lenN acc))), inp, [])
                            | Ok chunk => read_exact_t f n (acc ++ chunk) inp
                            end in
        (r, inp, x :: o)
    end
  else (Ok acc, inp, []).
(** [_read_body_with_content_length] (lines 109-134) for a positive length. *)
Definition read_body_with_content_length_t (n : N) (inp : list rd) : res bytes * list rd * list (res bytes) :=
  let (x, inp') := wread n inp in
  let '(r, inp', o) := match x with
                       | Raise e => (Raise e, inp', [])
                       | Ok chunk => if lenN chunk =? n then (Ok chunk, inp', []) else read_exact_t (input_fuel inp) n chunk inp'
                       end in
  (r, inp', x :: o).

(** What [_handle_post_request] reads (lines 304-311): nothing when the media type is not supported or the content length is not a
    number. *)
Definition post_reads {A B} (ap : app A B) (q : wsgi_request) (hs : headers) : list rd * list (res bytes) :=
  match dget (ap_codecs ap) (codec_name_from_content_type PConnect false (h_get_default hs (lit "content-type") [])) with
  | None => (wq_input q, [])
  | Some _ =>
      match (match env_get q "CONTENT_LENGTH" with None | Some [] => Some 0%Z | Some s => int_of_str s end) with
      | None => (wq_input q, [])
      | Some n =>
          if (0 <? n)%Z then let '(_, inp, o) := read_body_with_content_length_t (Z.to_N n) (wq_input q) in (inp, o)
          else let '(_, inp, o) := drain_loop (input_fuel (wq_input q)) (wq_input q) in (inp, o)
      end
  end.

(** [_handle_unary] (lines 246-284).  A GET request is not read. *)
Definition wsgi_unary_t {A B} (ap : app A B) (q : wsgi_request) (http : pystr)
    (f : A -> req_ctx -> prog Empty_set Empty_set B) (cx : req_ctx) (hs : headers) : whandled A * list rd * list (tevent A B) :=
  let h := wsgi_unary ap q http f cx hs in
  let '(_, _, ev, _) := h in
  let (inp, o) := if str_eqb http (lit "GET") then (wq_input q, []) else post_reads ap q hs in
  (h, inp, map TRead o ++ map TOut ev).

(** [__call__] and the consumption of the body it returns (lines 192-244). *)
Definition wsgi_talk {A B} (ap : app A B) (now : fl) (q : wsgi_request) : wsgi_result A * list rd * list (tevent A B) :=
  let error inv ev e ctx inp t :=
    let '(d, inp, o) := drain_body q inp in
    let r := wsgi_call_error (draining q (fun _ => d)) inv ev e ctx in
    (r, inp, t ++ map TRead o ++ wnewly ev (wr_events r)) in
  match wsgi_open_request ap now q with
  | Raise e => error [] [] e None (wq_input q) []
  | Ok (ep, hs, p, cx) =>
      let '(r, inp, t) := match ep, p with
                          | EpUnary _ f, PConnect =>
                              let '(h, inp, t) := wsgi_unary_t ap q (cx_http cx) f cx hs in (inl h, inp, t)
                          | _, _ => wsgi_stream_t ap q p hs ep cx
                          end in
      match r with
      | inr r => (r, inp, t)
      | inl (inv, rs, ev, None) => (mk_wr inv ev WReturn, inp, t)
      | inl (inv, rs, ev, Some ICancel) => (mk_wr inv ev WBase, inp, t)
      | inl (inv, rs, ev, Some (IExn e)) => error inv ev e (Some rs) inp t
      end
  end.
