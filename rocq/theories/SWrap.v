(** Specification vocabulary for applications and clients with interceptors. *)
From Coq Require Import List NArith ZArith Bool String.
From Verif Require Import MBase MPyStr MHeaders MWire MTimeout MProtocol MClient MServer MAsgi MWsgi MIntercept MWrap SIntercept.
Import ListNotations.

(** [does ls r g]: whatever it gets back, [g] has the effects [ls], one after the other, and returns [r]. *)
Inductive does {L X T B R} : list L -> R -> gen L X T B R -> Prop :=
| d_ret r : does [] r (GRet r)
| d_do l ls r k : (forall x, does ls r (k x)) -> does (l :: ls) r (GDo l k).
(** [throws ls e g]: ... and raises the Exception [e]. *)
Inductive throws {L X T B R} : list L -> exn -> gen L X T B R -> Prop :=
| t_raise e : throws [] e (GRaise (FExn e))
| t_do l ls e k : (forall x, throws ls e (k x)) -> throws (l :: ls) e (GDo l k).

(** The same as code. *)
Fixpoint doing {L X T B R} (ls : list L) (g : gen L X T B R) : gen L X T B R :=
  match ls with [] => g | l :: ls => GDo l (fun _ => doing ls g) end.

(** A metadata interceptor that, for this context, has effects [ls] before the call ([on_start]) and none after it. *)
Definition decorates {L X T C} (m : meta L X T C) (ctx : C) (ls : list L) : Prop :=
  (exists t, does ls t (me_start m ctx)) /\ forall t e, me_end m t ctx e = GRet tt.
(** An interceptor that refuses calls with this context: it has effects [ls], never calls [call_next], and raises [e]: a
    metadata interceptor in [on_start], any other whatever the kind of the call. *)
Definition refuses {L X T A Q B C} (i : interceptor L X T A Q B C) (ctx : C) (ls : list L) (e : exn) : Prop :=
  match ic_meta i with
  | Some m => throws ls e (me_start m ctx)
  | None =>
      (exists w, ic_unary i = Some w /\ forall next a, throws ls e (w next a ctx))
      /\ (exists w, ic_client_stream i = Some w /\ forall next q, throws ls e (w next q ctx))
      /\ (exists w, ic_server_stream i = Some w /\ forall next a, throws ls e (w next a ctx))
      /\ (exists w, ic_bidi_stream i = Some w /\ forall next q, throws ls e (w next q ctx))
  end.
(** Code that does not return, whatever it gets back. *)
Fixpoint never_returns {L X T B R} (g : gen L X T B R) : Prop :=
  match g with
  | GRet _ => False
  | GRaise _ => True
  | GDo _ k => forall x, never_returns (k x)
  | GMark _ k => never_returns k
  | GYield _ k h => never_returns k /\ forall f, never_returns (h f)
  end.
(** An interceptor that does not go on to [call_next] in this context, whatever else it does. *)
Definition blocks {L X T A Q B C} (i : interceptor L X T A Q B C) (ctx : C) : Prop :=
  match ic_meta i with
  | Some m => never_returns (me_start m ctx)
  | None =>
      (exists w, ic_unary i = Some w /\ forall next next' a, w next a ctx = w next' a ctx)
      /\ (exists w, ic_client_stream i = Some w /\ forall next next' q, w next q ctx = w next' q ctx)
      /\ (exists w, ic_server_stream i = Some w /\ forall next next' a, w next a ctx = w next' a ctx)
      /\ (exists w, ic_bidi_stream i = Some w /\ forall next next' q, w next q ctx = w next' q ctx)
  end.
Definition is_meta {L X T A Q B C} (i : interceptor L X T A Q B C) : Prop := ic_meta i <> None.
(** Metadata interceptors with these effects in this context, each before the call. *)
Definition decorated {L X T A Q B C} (ctx : C) (is : list (interceptor L X T A Q B C)) (lss : list (list L)) : Prop :=
  Forall2 (fun i ls => exists m, ic_meta i = Some m /\ decorates m ctx ls) is lss.

(** ** Servers *)

(** The application without interceptors, with these methods. *)
Definition plain {A T B} (w : wapp A T B) (ms : dict (smethod A T B)) : wapp A T B :=
  mk_wapp (wa_app w) (wa_info w) ms (Sequence []).
(** A method that first has the effects [ops], and then is [f]. *)
Definition after_ops {A T B} (ops : list seff) (f : smethod A T B) : smethod A T B :=
  match f with
  | FUnary f => FUnary (fun a cx => doing ops (f a cx))
  | FClientStream f => FClientStream (fun q cx => doing ops (f q cx))
  | FServerStream f => FServerStream (fun a cx => doing ops (f a cx))
  | FBidiStream f => FBidiStream (fun q cx => doing ops (f q cx))
  end.
(** A method of the kind of [f] that has the effects [ops] and raises [e]. *)
Definition failing {A T B} (ops : list seff) (e : exn) (f : smethod A T B) : smethod A T B :=
  match f with
  | FUnary _ => FUnary (fun _ _ => doing ops (GRaise (FExn e)))
  | FClientStream _ => FClientStream (fun _ _ => doing ops (GRaise (FExn e)))
  | FServerStream _ => FServerStream (fun _ _ => doing ops (GRaise (FExn e)))
  | FBidiStream _ => FBidiStream (fun _ _ => doing ops (GRaise (FExn e)))
  end.
Definition same_kind {A T B} (f f' : smethod A T B) : Prop :=
  match f, f' with
  | FUnary _, FUnary _ | FClientStream _, FClientStream _ | FServerStream _, FServerStream _ | FBidiStream _, FBidiStream _ => True
  | _, _ => False
  end.
Definition of_methods {A T B} (f : smethod A T B -> smethod A T B) (ms : dict (smethod A T B)) : dict (smethod A T B) :=
  map (fun kf => (fst kf, f (snd kf))) ms.
(** Two sets of methods of the same kinds at the same paths. *)
Definition same_paths {A T B} (ms ms' : dict (smethod A T B)) : Prop :=
  Forall2 (fun x y => fst y = fst x /\ same_kind (snd x) (snd y)) ms ms'.

(** Closing the method while it is suspended has no effect on the response. *)
Fixpoint quiet_closing {A B R} (g : prog A B R) : Prop :=
  match g with
  | Ret _ | Fail _ => True
  | Pull k => forall x, quiet_closing (k x)
  | Yield _ c k => c = mk_close [] [] None /\ quiet_closing k
  | Hdr _ k | Trl _ k => quiet_closing k
  end.
Definition closes_quietly {A T B} (f : smethod A T B) : Prop :=
  match f with
  | FServerStream f => forall a cx, quiet_closing (body_of (@no_message A) (f a cx))
  | FBidiStream f => forall cx, quiet_closing (body_of (@id A) (f incoming cx))
  | _ => True
  end.

(** [try: x = next(q)  except ...]: what follows gets the result or the exception. *)
Fixpoint trying {L X T B Y R} (q : gen L X T Empty_set Y) (k : Y + fault -> gen L X T B R) : gen L X T B R :=
  match q with
  | GRet y => k (inl y)
  | GRaise f => k (inr f)
  | GDo l c => GDo l (fun x => trying (c x) k)
  | GMark m c => GMark m (trying c k)
  | GYield b _ _ => match b with end
  end.
(** The methods of [MServer] as code that takes its messages from [q]. *)
Definition fault_of (i : interrupt) : fault := match i with IExn e => FExn e | ICancel => FCancel end.
Fixpoint code_of {P A T B R} (back : A -> option P) (q : next_of A T) (g : prog P B R) : sgen A T B R :=
  match g with
  | Ret r => GRet r
  | Fail i => GRaise (fault_of i)
  | Pull k => trying q (fun x => match x with
                                 | inl (Some a) => match back a with Some p => code_of back q (k (PMsg p)) | None => GRaise FCancel end
                                 | inl None => code_of back q (k PEnd)
                                 | inr (FExn e) => code_of back q (k (PExn e))
                                 | inr f => GRaise f
                                 end)
  | Hdr op k => GDo (EOp (OHdr op)) (fun _ => code_of back q k)
  | Trl op k => GDo (EOp (OTrl op)) (fun _ => code_of back q k)
  | Yield b c k => GYield b (code_of back q k) (fun f =>
      doing (map (fun op => EOp (OHdr op)) (cl_hdr c) ++ map (fun op => EOp (OTrl op)) (cl_trl c))
            (GRaise match cl_raise c with Some i => fault_of i | None => f end))
  end.
Definition method_of {A T B} (e : endpoint A B) : smethod A T B :=
  match e with
  | EpUnary _ f => FUnary (fun a cx => code_of (fun _ => None) incoming (f a cx))
  | EpClientStream _ f => FClientStream (fun q cx => code_of Some q (f cx))
  | EpServerStream _ f => FServerStream (fun a cx => code_of (fun _ => None) incoming (f a cx))
  | EpBidi _ f => FBidiStream (fun q cx => code_of Some q (f cx))
  end.

(** The context of a request that is served. *)
Definition asgi_context {A B} (ap : app A B) (now : fl) (sc : scope) (cx : req_ctx) : Prop :=
  exists e hs p, open_request ap now sc = Ok (e, hs, p, cx).
Definition wsgi_context {A B} (ap : app A B) (now : fl) (q : wsgi_request) (cx : req_ctx) : Prop :=
  exists e hs p, wsgi_open_request ap now q = Ok (e, hs, p, cx).

(** ** Clients *)

(** What can be seen of a call: the requests made, the messages its consumer got, how it ended. *)
Definition yielded {L T B} (t : list (event L T B)) : list B :=
  flat_map (fun e => match e with Yielded b => [b] | _ => [] end) t.
Definition observed {Q L T B R} (r : Q * list (event L T B) * outcome R) : Q * list B * outcome R :=
  let '(q, t, o) := r in (q, yielded t, o).
Definition seen_call {B} (r : call_result B) : list http_request * list Empty_set * outcome B :=
  (cr_sent r, [], match cr_out r with COk b => Returned b | CErr e => Raised (FExn e) | CRaw f => Raised f end).
Definition seen_stream {B} (r : stream_result B) : list http_request * list B * outcome unit :=
  (sr_sent r, sr_msgs r, match sr_end r with COk _ => Returned tt | CErr e => Raised (FExn e) | CRaw f => Raised f end).
