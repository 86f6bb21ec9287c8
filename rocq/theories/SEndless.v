(** Specification vocabulary for methods that may run for ever. *)
From Coq Require Import List NArith ZArith Bool String.
From Verif Require Import MBase MPyStr MHeaders MWire MTimeout MProtocol MClient MServer MAsgi MWsgi MEndless SContext.
Import ListNotations.

(** [alike n g g']: in its first [n] steps the endless method [g] does what the ending method [g'] does (steps of [g] that
    cannot be observed are left out in [g']). *)
Fixpoint alike {A B R} (n : nat) (g : emeth A B R) (g' : prog A B R) : Prop :=
  match n with
  | O => True
  | S n =>
      match g, g' with
      | MTau k, _ => alike n k g'
      | MRet r, Ret r' => r' = r
      | MFail i, Fail i' => i' = i
      | MPull k, Pull k' => forall x, alike n (k x) (k' x)
      | MYield b c k, Yield b' c' k' => b' = b /\ c' = c /\ alike n k k'
      | MHdr op k, Hdr op' k' => op' = op /\ alike n k k'
      | MTrl op k, Trl op' k' => op' = op /\ alike n k k'
      | _, _ => False
      end
  end.

(** Endpoints of the same kind and method description, with methods alike for [n] steps. *)
Definition alike_endpoint {A B} (n : nat) (e : eendpoint A B) (e' : endpoint A B) : Prop :=
  match e, e' with
  | EeUnary m f, EpUnary m' f' => m' = m /\ forall a cx, alike n (f a cx) (f' a cx)
  | EeClientStream m f, EpClientStream m' f' => m' = m /\ forall cx, alike n (f cx) (f' cx)
  | EeServerStream m f, EpServerStream m' f' => m' = m /\ forall a cx, alike n (f a cx) (f' a cx)
  | EeBidi m f, EpBidi m' f' => m' = m /\ forall cx, alike n (f cx) (f' cx)
  | _, _ => False
  end.

(** Applications with the same settings and, at the same paths, endpoints alike for [n] steps. *)
Definition alike_app {A B} (n : nat) (ea : eapp A B) (ap : app A B) : Prop :=
  same_settings (ea_app ea) ap /\ ap_path ap = ap_path (ea_app ea)
  /\ Forall2 (fun x y => fst y = fst x /\ alike_endpoint n (snd x) (snd y)) (ea_endpoints ea) (ap_endpoints ap).

(** The application [ap], its ending methods seen as possibly endless ones. *)
Fixpoint ending_method {A B R} (g : prog A B R) : emeth A B R :=
  match g with
  | Ret r => MRet r
  | Fail i => MFail i
  | Pull k => MPull (fun x => ending_method (k x))
  | Yield b c k => MYield b c (ending_method k)
  | Hdr op k => MHdr op (ending_method k)
  | Trl op k => MTrl op (ending_method k)
  end.
Definition ending_endpoint {A B} (e : endpoint A B) : eendpoint A B :=
  match e with
  | EpUnary m f => EeUnary m (fun a cx => ending_method (f a cx))
  | EpClientStream m f => EeClientStream m (fun cx => ending_method (f cx))
  | EpServerStream m f => EeServerStream m (fun a cx => ending_method (f a cx))
  | EpBidi m f => EeBidi m (fun cx => ending_method (f cx))
  end.
Definition ending_app {A B} (ap : app A B) : eapp A B :=
  mk_eapp ap (map (fun x => (fst x, ending_endpoint (snd x))) (ap_endpoints ap)).

(** Read [ps], the method comes to its [n]-th message, or ends before it: it does not stop producing messages for ever. *)
Inductive comes_to {A B} : nat -> emeth A B unit -> pulls A -> Prop :=
| ct_0 g ps : comes_to 0 g ps
| ct_ret n r ps : comes_to n (MRet r) ps
| ct_fail n i ps : comes_to n (MFail i) ps
| ct_pull n k ps : comes_to n (k (fst (pull_next ps))) (snd (pull_next ps)) -> comes_to n (MPull k) ps
| ct_yield n b c k ps : comes_to n k ps -> comes_to (S n) (MYield b c k) ps
| ct_hdr n op k ps : comes_to n k ps -> comes_to n (MHdr op k) ps
| ct_trl n op k ps : comes_to n k ps -> comes_to n (MTrl op k) ps
| ct_tau n k ps : comes_to n k ps -> comes_to n (MTau k) ps.

(** The first messages of a method, each with the response state when it is produced. *)
Inductive begins_with {A B} : emeth A B unit -> pulls A -> rstate -> list (rstate * B) -> Prop :=
| bw_nil g ps rs : begins_with g ps rs []
| bw_pull k ps rs l : begins_with (k (fst (pull_next ps))) (snd (pull_next ps)) rs l -> begins_with (MPull k) ps rs l
| bw_yield b c k ps rs l : begins_with k ps rs l -> begins_with (MYield b c k) ps rs ((rs, b) :: l)
| bw_hdr op k ps rs l : begins_with k ps (mk_rs (h_exec (rs_h rs) op) (rs_t rs)) l -> begins_with (MHdr op k) ps rs l
| bw_trl op k ps rs l : begins_with k ps (mk_rs (rs_h rs) (h_exec (rs_t rs) op)) l -> begins_with (MTrl op k) ps rs l
| bw_tau k ps rs l : begins_with k ps rs l -> begins_with (MTau k) ps rs l.

(** Events sent so far. *)
Definition asgi_events {A} (x : progress A (asgi_result A) aevent) : list aevent :=
  match x with Finished r => ar_events r | Running _ ev => ev end.
Definition asgi_invoked {A} (x : progress A (asgi_result A) aevent) : list (invoked A) :=
  match x with Finished r => ar_inv r | Running inv _ => inv end.
Definition wsgi_events {A} (x : progress A (wsgi_result A) wevent) : list wevent :=
  match x with Finished r => wr_events r | Running _ ev => ev end.
Definition wsgi_invoked {A} (x : progress A (wsgi_result A) wevent) : list (invoked A) :=
  match x with Finished r => wr_inv r | Running inv _ => inv end.

(** The request reaches the streaming endpoint [e], which is run on the request stream [ps] when given the message or stream. *)
Definition asgi_reaches {A B} (ea : eapp A B) (now : fl) (sc : scope) (e : eendpoint A B) (hs : headers) (p : proto) (cx : req_ctx)
    (k : codec A B) : Prop :=
  eopen_request ea now sc = Ok (e, hs, p, cx) /\ exists params, eselect_codec ea sc e hs p = Ok (params, k).
Definition wsgi_reaches {A B} (ea : eapp A B) (now : fl) (q : wsgi_request) (e : eendpoint A B) (hs : headers) (p : proto) (cx : req_ctx)
    (k : codec A B) : Prop :=
  ewsgi_open_request ea now q = Ok (e, hs, p, cx)
  /\ dget (ap_codecs (ea_app ea)) (codec_name_from_content_type p true (h_get_default hs (lit "content-type") [])) = Some k.

(** What the method of a streaming endpoint is run on, for the request stream [ps], and how it begins. *)
Definition streams {A B} (e : eendpoint A B) (cx : req_ctx) (ps : pulls A) (steps : list (rstate * B)) : Prop :=
  match e with
  | EeServerStream _ f => exists a, ps = ([a], None) /\ begins_with (f a cx) ([], None) rs_new steps
  | EeBidi _ f => begins_with (f cx) ps rs_new steps
  | _ => False
  end.
(** Whatever the request stream, the method of a streaming endpoint comes to its [n]-th message or ends before it. *)
Definition goes_on {A B} (n : nat) (e : eendpoint A B) (cx : req_ctx) : Prop :=
  match e with
  | EeServerStream _ f => forall a, comes_to n (f a cx) ([], None)
  | EeBidi _ f => forall ps, comes_to n (f cx) ps
  | _ => False
  end.
