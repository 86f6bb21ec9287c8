(** Specification for "every request gets a complete response": applications that write Unicode text only. *)
From Coq Require Import List NArith ZArith Bool String.
From Verif Require Import MBase MPyStr MHeaders SHeaders MUtf8 MWire MStatusPb MEnvelope MProtocol MClient MServer MAsgi MWsgi SJson SServer SLink.
Import ListNotations.
Local Open Scope N_scope.

(** Names and values without surrogates. *)
Definition unicode_pairs (l : list (pystr * pystr)) : Prop := Forall (fun kv => scalar_text (fst kv) /\ scalar_text (snd kv)) l.
Definition unicode_op (o : hop) : Prop := match o with Add k v | Set_ k v => scalar_text k /\ scalar_text v | Del _ | Clear => True end.

(** An exception whose text, details and headers can be written in every protocol. *)
Definition unicode_error (e : exn) : Prop :=
  sendable_error PConnect e /\ sendable_error PGrpc e /\ match e with EHttp _ hs => unicode_pairs hs | _ => True end.

(** [unicode_int cancel i]: what interrupts a method; [cancel] tells whether cancellations are admitted. *)
Definition unicode_int (cancel : bool) (i : interrupt) : Prop := match i with IExn e => unicode_error e | ICancel => cancel = true end.

(** A method that puts Unicode text in its response headers and trailers and raises writable exceptions, as long as what it
    is given to read fails with writable exceptions only. *)
Fixpoint unicode_prog {A B R} (cancel : bool) (g : prog A B R) : Prop :=
  match g with
  | Ret _ => True
  | Fail i => unicode_int cancel i
  | Pull k => forall x, match x with PExn e => unicode_error e | _ => True end -> unicode_prog cancel (k x)
  | Yield _ c k => Forall unicode_op (cl_hdr c) /\ Forall unicode_op (cl_trl c)
                   /\ match cl_raise c with Some i => unicode_int cancel i | None => True end /\ unicode_prog cancel k
  | Hdr op k | Trl op k => unicode_op op /\ unicode_prog cancel k
  end.
Definition unicode_endpoint {A B} (cancel : bool) (ep : endpoint A B) : Prop :=
  match ep with
  | EpUnary _ f => forall a cx, unicode_prog cancel (f a cx)
  | EpClientStream _ f => forall cx, unicode_prog cancel (f cx)
  | EpServerStream _ f => forall a cx, unicode_prog cancel (f a cx)
  | EpBidi _ f => forall cx, unicode_prog cancel (f cx)
  end.

(** An application of such methods.  Its codecs and compressions have Unicode names and raise writable exceptions; compressing
    never fails; protobuf encodes every status message made of Unicode text. *)
Definition unicode_app {A B} (cancel : bool) (ap : app A B) : Prop :=
  (forall path ep, dget (ap_endpoints ap) path = Some ep -> unicode_endpoint cancel ep)
  /\ (forall n k, dget (ap_codecs ap) n = Some k ->
       scalar_text (k_name k) /\ (forall b e, k_dec_req k b = Raise e -> unicode_error e)
       /\ (forall m e, k_enc_res k m = Raise e -> unicode_error e))
  /\ (forall n z, dget (ap_comps ap) n = Some z ->
       scalar_text (z_name z) /\ (forall b e, z_decompress z b = Raise e -> unicode_error e) /\ forall b, exists d, z_compress z b = Ok d)
  /\ status_codec_ok (ap_sc ap).

(** Failures of the connection that can be written. *)
Definition unicode_recv (l : list recv) : Prop := Forall (fun r => match r with RRaise e => unicode_error e | _ => True end) l.
Definition unicode_env (en : env) : Prop :=
  unicode_recv (en_recv en) /\ match en_watch en with WRaise e => unicode_error e | _ => True end.
Definition unicode_input (inp : list rd) : Prop := Forall (fun r => match r with RDErr e => unicode_error e | RD _ => True end) inp.

(** The [struct.error] of a message of 4 GiB or more, whose length does not fit the envelope. *)
Definition beyond_4gib : exn := EOther KStruct (lit "'I' format requires 0 <= number <= 4294967295").
