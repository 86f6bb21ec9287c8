(** Methods that may run for ever, and how far the applications have got after a number of steps of the method.
    The finite trees of MServer are the methods that end; the loops and handlers below are those of MAsgi, MWsgi and MStop
    (src/connectrpc/_server_async.py:167-493, src/connectrpc/_server_sync.py:192-506, 580-605), observed after [n] steps. *)
From Coq Require Import List NArith ZArith Bool String.
From Verif Require Import MBase MPyStr MHeaders MUtf8 MBase64 MPercent MWire MEnvelope MTimeout MProtocol MClient MServer MAsgi MWsgi MStop.
Import ListNotations.

(** A method body (the user's code called at _server_async.py:264, 403-409, 428 and _server_sync.py:265, 455-466), possibly
    endless.  The steps are those of [prog]; [MTau] is one that cannot be observed here: waiting for something else, or computing. *)
CoInductive emeth (A B R : Type) :=
| MRet (r : R)
| MFail (i : interrupt)
| MPull (k : pulled A -> emeth A B R)
| MYield (b : B) (c : on_close) (k : emeth A B R)
| MHdr (op : hop) (k : emeth A B R)
| MTrl (op : hop) (k : emeth A B R)
| MTau (k : emeth A B R).
Arguments MRet {A B R}. Arguments MFail {A B R}. Arguments MPull {A B R}. Arguments MYield {A B R}.
Arguments MHdr {A B R}. Arguments MTrl {A B R}. Arguments MTau {A B R}.

(** The four kinds of endpoints (_server_shared.py:22-138). *)
Inductive eendpoint (A B : Type) :=
| EeUnary (m : method_info) (f : A -> req_ctx -> emeth Empty_set Empty_set B)
| EeClientStream (m : method_info) (f : req_ctx -> emeth A Empty_set B)
| EeServerStream (m : method_info) (f : A -> req_ctx -> emeth Empty_set B unit)
| EeBidi (m : method_info) (f : req_ctx -> emeth A B unit).
Arguments EeUnary {A B}. Arguments EeClientStream {A B}. Arguments EeServerStream {A B}. Arguments EeBidi {A B}.

(** An application: [ea_app] holds its settings (its own endpoints are not used), [ea_endpoints] its endpoints
    (_server_async.py:120-165, _server_sync.py:140-190). *)
Record eapp (A B : Type) := mk_eapp { ea_app : app A B; ea_endpoints : dict (eendpoint A B) }.
Arguments mk_eapp {A B}. Arguments ea_app {A B}. Arguments ea_endpoints {A B}.

(** [endpoint.method] (_server_shared.py:22-24) and which endpoints are [EndpointUnary]. *)
Definition ee_method {A B} (e : eendpoint A B) : method_info :=
  match e with EeUnary m _ | EeClientStream m _ | EeServerStream m _ | EeBidi m _ => m end.
Definition ee_is_unary {A B} (e : eendpoint A B) : bool := match e with EeUnary _ _ => true | _ => false end.

(** [n] steps of an awaited or called function ([run_fn]; _server_async.py:264, 404, 407; _server_sync.py:265, 456, 460).
    [None]: it has not returned yet. *)
Fixpoint erun_fn {A R} (n : nat) (g : emeth A Empty_set R) (ps : pulls A) (rs : rstate) : option (fres R) * rstate :=
  match n with
  | O => (None, rs)
  | S n =>
      match g with
      | MRet r => (Some (FRet r), rs)
      | MFail i => (Some (FInt i), rs)
      | MPull k => let (x, ps') := pull_next ps in erun_fn n (k x) ps' rs
      | MYield b _ _ => match b with end
      | MHdr op k => erun_fn n k ps (mk_rs (h_exec (rs_h rs) op) (rs_t rs))
      | MTrl op k => erun_fn n k ps (mk_rs (rs_h rs) (h_exec (rs_t rs) op))
      | MTau k => erun_fn n k ps rs
      end
  end.

(** [n] steps of a generator and the loop over its messages ([drive]; _server_async.py:429-444, _server_sync.py:467-488, 590-594).
    [None]: the loop has not ended yet. *)
Fixpoint edrive {S A B} (n : nat) (body : S -> rstate -> B -> S * option interrupt) (g : emeth A B unit) (ps : pulls A)
    (rs : rstate) (s : S) : S * rstate * option loop_end :=
  match n with
  | O => (s, rs, None)
  | Datatypes.S n =>
      match g with
      | MRet _ => (s, rs, Some LDone)
      | MFail i => (s, rs, Some (LFail i))
      | MPull k => let (x, ps') := pull_next ps in edrive n body (k x) ps' rs s
      | MHdr op k => edrive n body k ps (mk_rs (h_exec (rs_h rs) op) (rs_t rs)) s
      | MTrl op k => edrive n body k ps (mk_rs (rs_h rs) (h_exec (rs_t rs) op)) s
      | MTau k => edrive n body k ps rs s
      | MYield b c k =>
          match body s rs b with
          | (s', None) => edrive n body k ps rs s'
          | (s', Some i) => (s', rs, Some (LBroken i c))
          end
      end
  end.

(** How far a request has got: finished with this result, or its method still running, having been invoked and the events
    sent so far being these.  (Of the model, not of the code.) *)
Inductive progress (A R E : Type) := Finished (r : R) | Running (inv : list (invoked A)) (ev : list E).
Arguments Finished {A R E}. Arguments Running {A R E}.

(** ** ASGI *)

(** What follows the loop ([stream_loop]; _server_async.py:445-456). *)
Definition loop_after (mon : option exn) (r : lst * rstate * loop_end) : lst * rstate * option interrupt :=
  let '(s, rs, e) := r in
  match mon with
  | Some x => (s, rs, Some (IExn x))
  | None =>
      match e with
      | LDone => (s, rs, None)
      | LFail i => (s, rs, Some i)
      | LBroken i c => (s, run_hops rs c, Some (match cl_raise c with Some j => j | None => i end))
      end
  end.

(** The [try] of [_handle_stream] ([stream_try]; _server_async.py:386-456).  [inr]: still running. *)
Definition estream_try {A B} (n : nat) (ap : app A B) (en : env) (p : proto) (e : eendpoint A B) (k : codec A B)
    (req : option compression) (z : compression) (cx : req_ctx) (s : lst)
  : list (invoked A) * ((lst * rstate * option interrupt) + lst) :=
  match req with
  | None => ([], inl (s, rs_new, Some (IExn (EConnect Unimplemented (lit "Unrecognized request compression") []))))
  | Some rz =>
      let ps := request_stream ap k rz en in
      let never := fun _ : nat => false in
      let body seen := stream_body (en_send en) seen p (k_name k) (k_enc_res k) z in
      let single r rs :=
        match r with
        | None => inr s
        | Some (FInt i) => inl (s, rs, Some i)
        | Some (FRet b) => inl (loop_after None (drive (body never) (@single_response A B b) ([], None) rs s))
        end in
      let stream mon (r : lst * rstate * option loop_end) :=
        match r with
        | (s, _, None) => inr s
        | (s, rs, Some e) => inl (loop_after mon (s, rs, e))
        end in
      match e with
      | EeUnary _ f =>
          match consume_single_request ps with
          | Raise e => ([], inl (s, rs_new, Some (IExn e)))
          | Ok a => let (r, rs) := erun_fn n (f a cx) ([], None) rs_new in ([InvMsg a], single r rs)
          end
      | EeClientStream _ f => let (r, rs) := erun_fn n (f cx) ps rs_new in ([InvStream], single r rs)
      | EeServerStream _ f =>
          match consume_single_request ps with
          | Raise e => ([], inl (s, rs_new, Some (IExn e)))
          | Ok a =>
              ([InvMsg a],
               stream (match en_watch en with WRaise e => Some e | _ => None end)
                 (edrive n (body (match en_watch en with WSeen n => fun i => Nat.leb n i | _ => never end))
                    (f a cx) ([], None) rs_new s))
          end
      | EeBidi _ f => ([InvStream], stream None (edrive n (body never) (f cx) ps rs_new s))
      end
  end.

(** [_handle_stream] ([handle_stream]; _server_async.py:368-493). *)
Definition ehandle_stream {A B} (n : nat) (ap : app A B) (en : env) (p : proto) (e : eendpoint A B) (k : codec A B) (hs : headers)
    (cx : req_ctx) : progress A (asgi_result A) aevent :=
  let (req, z) := negotiate_stream_compression p hs (ap_comps ap) in
  match estream_try n ap en p e k req z cx (mk_lst (mk_ast 0 []) false 0) with
  | (inv, inr s) => Running inv (as_ev (ls_a s))
  | (inv, inl (s, rs, i)) =>
      let (a, r) := stream_finally (en_send en) (ap_sc ap) p (k_name k) z s rs i (ls_a s) in
      Finished (mk_ar inv (as_ev a) (aout_of r))
  end.

(** [_handle_unary_connect] and its caller ([handle_unary_connect]; _server_async.py:222-289). *)
Definition ehandle_unary {A B} (n : nat) (ap : app A B) (en : env) (http : pystr) (hs : headers) (k : codec A B)
    (params : dict (list pystr)) (f : A -> req_ctx -> emeth Empty_set Empty_set B) (cx : req_ctx)
  : progress A (asgi_result A) aevent :=
  let s := mk_ast 0 [] in
  let z := negotiate_compression (h_get_default hs (lit "accept-encoding") []) (ap_comps ap) in
  let request := if str_eqb http (lit "GET")
                 then match read_get_request ap k params with Ok a => inl a | Raise e => inr (IExn e) end
                 else read_post_request ap k hs (en_recv en) in
  let done inv rs (r : ast * (unit + interrupt)) :=
    match r with
    | (s, inl _) => mk_ar inv (as_ev s) AReturn
    | (s, inr ICancel) => mk_ar inv (as_ev s) ACancelled
    | (s, inr (IExn e)) => call_error en inv s e (Some rs)
    end in
  match request with
  | inr i => Finished (done [] rs_new (s, inr i))
  | inl a =>
      match erun_fn n (f a cx) ([], None) rs_new with
      | (None, _) => Running [InvMsg a] []
      | (Some (FInt i), rs) => Finished (done [InvMsg a] rs (s, inr i))
      | (Some (FRet b), rs) => Finished (done [InvMsg a] rs (send_unary_response (en_send en) k z b rs s))
      end
  end.

(** [endpoints.get(path)], then with the root path removed ([find_endpoint]; _server_async.py:179-186). *)
Definition efind_endpoint {A B} (ea : eapp A B) (sc : scope) : res (eendpoint A B) :=
  match dget (ea_endpoints ea) (sc_path sc) with
  | Some e => Ok e
  | None =>
      match sc_root sc with
      | None => Raise (EOther KKey (lit "'root_path'"))
      | Some [] => Raise not_found
      | Some root =>
          match dget (ea_endpoints ea) (removeprefix root (sc_path sc)) with
          | Some e => Ok e
          | None => Raise not_found
          end
      end
  end.

(** Everything up to the request context ([open_request]; _server_async.py:179-203). *)
Definition eopen_request {A B} (ea : eapp A B) (now : fl) (sc : scope) : res (eendpoint A B * headers * proto * req_ctx) :=
  do e <- efind_endpoint ea sc ;
  do hs <- process_headers h_empty (sc_headers sc) ;
  let client := match sc_client sc with Some (h, p) => Some (h ++ lit ":" ++ p) | None => None end in
  let ct := h_get_default hs (lit "content-type") [] in
  let p := negotiate_server_protocol ct in
  if uses_trailers p && negb (sc_trailers sc)
  then Raise (EOther KRuntime (lit "ASGI server does not support ASGI trailers extension but protocol for content-type '"
                               ++ ct ++ lit "' requires trailers"))
  else
    do cx <- server_create_context now p (ee_method e) (sc_method sc) (sc_scheme sc) hs client ;
    Ok (e, hs, p, cx).

(** Query parameters and codec ([select_codec]; _server_async.py:205-221). *)
Definition eselect_codec {A B} (ea : eapp A B) (sc : scope) (e : eendpoint A B) (hs : headers) (p : proto)
  : res (dict (list pystr) * codec A B) :=
  do qn <- (if str_eqb (sc_method sc) (lit "GET") then
              match utf8_decode (sc_query sc) with
              | None => Raise (EOther KValue (lit "'utf-8' codec can't decode"))
              | Some q => let params := parse_qs q in
                          Ok (params, match param params (lit "encoding") with Some n => n | None => [] end)
              end
            else Ok ([], codec_name_from_content_type p (negb (ee_is_unary e)) (h_get_default hs (lit "content-type") []))) ;
  match dget (ap_codecs (ea_app ea)) (snd qn) with
  | Some k => Ok (fst qn, k)
  | None => Raise (unsupported_media accept_post)
  end.

(** [__call__] for an HTTP scope, after [n] steps of the method ([asgi_call]; _server_async.py:177-243). *)
Definition asgi_after {A B} (n : nat) (ea : eapp A B) (now : fl) (sc : scope) (en : env) : progress A (asgi_result A) aevent :=
  let s := mk_ast 0 [] in
  match eopen_request ea now sc with
  | Raise e => Finished (call_error en [] s e None)
  | Ok (e, hs, p, cx) =>
      match eselect_codec ea sc e hs p with
      | Raise x => Finished (call_error en [] s x (Some rs_new))
      | Ok (params, k) =>
          match e, p with
          | EeUnary _ f, PConnect => ehandle_unary n (ea_app ea) en (sc_method sc) hs k params f cx
          | _, _ => ehandle_stream n (ea_app ea) en p e k hs cx
          end
      end
  end.

(** ** WSGI, with a server that takes at most [c] chunks of the body and then calls [close()] *)

(** The [match endpoint] and the loop ([stop_run]; _server_sync.py:452-489).  [inr]: still running. *)
Definition estop_run {A B} (n c : nat) (p : proto) (e : eendpoint A B) (k : codec A B) (z : compression) (ps : pulls A) (cx : req_ctx)
  : list (invoked A) * ((wst * nat * rstate * loop_end) + wst) :=
  let s := (mk_wst [] false, O) in
  let step := stop_step c p (k_name k) (k_enc_res k) z in
  let single r rs :=
    match r with
    | None => inr (fst s)
    | Some (FInt i) => inl (s, rs, LFail i)
    | Some (FRet b) => inl (drive step (@single_response A B b) ([], None) rs s)
    end in
  let stream (r : wst * nat * rstate * option loop_end) :=
    match r with (w, _, _, None) => inr w | (w, i, rs, Some e) => inl (w, i, rs, e) end in
  match e with
  | EeUnary _ f =>
      match consume_single_request ps with
      | Raise e => ([], inl (s, rs_new, LFail (IExn e)))
      | Ok a => let (r, rs) := erun_fn n (f a cx) ([], None) rs_new in ([InvMsg a], single r rs)
      end
  | EeClientStream _ f => let (r, rs) := erun_fn n (f cx) ps rs_new in ([InvStream], single r rs)
  | EeServerStream _ f =>
      match consume_single_request ps with
      | Raise e => ([], inl (s, rs_new, LFail (IExn e)))
      | Ok a => ([InvMsg a], stream (edrive n step (f a cx) ([], None) rs_new s))
      end
  | EeBidi _ f => ([InvStream], stream (edrive n step (f cx) ps rs_new s))
  end.

(** [_handle_stream] and what the server takes of its result ([stop_stream]; _server_sync.py:411-506, 580-605). *)
Definition estop_stream {A B} (n c : nat) (ap : app A B) (q : wsgi_request) (p : proto) (hs : headers) (e : eendpoint A B) (cx : req_ctx)
  : progress A (whandled A + wsgi_result A) wevent :=
  let (req, z) := negotiate_stream_compression p hs (ap_comps ap) in
  match dget (ap_codecs ap) (codec_name_from_content_type p true (h_get_default hs (lit "content-type") [])) with
  | None => Finished (inl ([], rs_new, [], Some (IExn (unsupported_media wsgi_accept_stream))))
  | Some k =>
      let error inv rs ev e := inl (wsgi_stream_error ap q p (k_name k) z inv rs ev e) in
      match req with
      | None => Finished (error [] rs_new [] (EConnect Unimplemented (lit "Unrecognized request compression") []))
      | Some rz =>
          match estop_run n c p e k z (wsgi_request_stream ap k rz q) cx with
          | (inv, inr w) => Running inv (ws_ev w)
          | (inv, inl (s, i, rs, e)) =>
              Finished
                (if ws_started s then
                   match e with
                   | LBroken ICancel _ => inr (mk_wr inv (ws_ev s) WReturn)
                   | _ => inr (response_stream_end ap q p z inv rs (ws_ev s) (loop_interrupt e))
                   end
                 else
                   match loop_interrupt e with
                   | Some ICancel => inl (inv, rs, ws_ev s, Some ICancel)
                   | Some (IExn x) => error inv rs (ws_ev s) x
                   | None =>
                       let ev := ws_ev s ++ [WStart (lit "200 OK") (stream_headers p (k_name k) (z_name z) rs)] in
                       match end_response (ap_sc ap) p z (rs_t rs) None with
                       | Ok fin => inl (inv, rs, ev ++ fin, None)
                       | Raise x => error inv rs ev x
                       end
                   end)
          end
      end
  end.

(** [_handle_unary] ([wsgi_unary]; _server_sync.py:246-284). *)
Definition ewsgi_unary {A B} (n : nat) (ap : app A B) (q : wsgi_request) (http : pystr)
    (f : A -> req_ctx -> emeth Empty_set Empty_set B) (cx : req_ctx) (hs : headers)
  : progress A (whandled A + wsgi_result A) wevent :=
  match (if str_eqb http (lit "GET") then wsgi_get_request ap q else wsgi_post_request ap q hs) with
  | Raise e => Finished (inl ([], rs_new, [], Some (IExn e)))
  | Ok (a, k) =>
      match erun_fn n (f a cx) ([], None) rs_new with
      | (None, _) => Running [InvMsg a] []
      | (Some (FInt i), rs) => Finished (inl ([InvMsg a], rs, [], Some i))
      | (Some (FRet b), rs) =>
          Finished (inl
            match (do body <- k_enc_res k b ;
                   let z := negotiate_compression (h_get_default hs (lit "accept-encoding") (lit "identity")) (ap_comps ap) in
                   do body <- z_compress z body ;
                   Ok (z, body)) with
            | Raise e => ([InvMsg a], rs, [], Some (IExn e))
            | Ok (z, body) =>
                ([InvMsg a], rs,
                 [WStart (lit "200 OK")
                    ([(lit "content-type", connect_unary_prefix ++ k_name k); (lit "content-encoding", z_name z);
                      (lit "vary", lit "Accept-Encoding")] ++ context_headers rs);
                  WBody body], None)
            end)
      end
  end.

(** Finding the endpoint ([wsgi_find_endpoint]; _server_sync.py:197-207). *)
Definition ewsgi_find_endpoint {A B} (ea : eapp A B) (q : wsgi_request) : res (eendpoint A B) :=
  do path <- env_item q "PATH_INFO" ;
  let path := match path with [] => lit "/" | _ => path end in
  match dget (ea_endpoints ea) path with
  | Some e => Ok e
  | None =>
      do script <- env_item q "SCRIPT_NAME" ;
      if str_eqb script (ap_path (ea_app ea)) then
        match dget (ea_endpoints ea) (ap_path (ea_app ea) ++ path) with Some e => Ok e | None => Raise not_found end
      else Raise not_found
  end.

(** Everything up to the request context ([wsgi_open_request]; _server_sync.py:197-229). *)
Definition ewsgi_open_request {A B} (ea : eapp A B) (now : fl) (q : wsgi_request)
  : res (eendpoint A B * headers * proto * req_ctx) :=
  do e <- ewsgi_find_endpoint ea q ;
  do http <- env_item q "REQUEST_METHOD" ;
  let hs := wsgi_headers q in
  let client := match env_get q "REMOTE_ADDR" with
                | None | Some [] => None
                | Some ra => Some (ra ++ lit ":" ++ env_default q "REMOTE_PORT" (lit "0"))
                end in
  let ct := h_get_default hs (lit "content-type") [] in
  let p := negotiate_server_protocol ct in
  if uses_trailers p && negb (wq_trailers q)
  then Raise (EOther KRuntime (lit "WSGI server does not support WSGI trailers extension but protocol for content-type '"
                               ++ ct ++ lit "' requires trailers"))
  else
    do cx <- server_create_context now p (ee_method e) http (env_default q "wsgi.url_scheme" (lit "http")) hs client ;
    Ok (e, hs, p, cx).

(** [__call__] and the consumption of at most [c] chunks, after [n] steps of the method ([wsgi_stop]; _server_sync.py:192-244). *)
Definition wsgi_after {A B} (n c : nat) (ea : eapp A B) (now : fl) (q : wsgi_request) : progress A (wsgi_result A) wevent :=
  let listed (r : wsgi_result A) := mk_wr (wr_inv r) (taken_list c (wr_events r)) (wr_out r) in
  match ewsgi_open_request ea now q with
  | Raise e => Finished (listed (wsgi_call_error q [] [] e None))
  | Ok (e, hs, p, cx) =>
      match (match e, p with
             | EeUnary _ f, PConnect => ewsgi_unary n (ea_app ea) q (cx_http cx) f cx hs
             | _, _ => estop_stream n c (ea_app ea) q p hs e cx
             end) with
      | Running inv ev => Running inv ev
      | Finished (inr r) => Finished r
      | Finished (inl (inv, rs, ev, None)) => Finished (listed (mk_wr inv ev WReturn))
      | Finished (inl (inv, rs, ev, Some ICancel)) => Finished (mk_wr inv ev WBase)
      | Finished (inl (inv, rs, ev, Some (IExn e))) => Finished (listed (wsgi_call_error q inv ev e (Some rs)))
      end
  end.
