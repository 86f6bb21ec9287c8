(** Specification of envelope framing, independent of the reader and writer.

    A frame on the wire is one flag byte, four bytes holding the payload length (most significant first) and the
    payload.  Every byte string is, in exactly one way, a sequence of frames followed by an incomplete rest. *)
From Coq Require Import List NArith Bool.
From Verif Require Import MBase MWire MEnvelope.
Import ListNotations.
Local Open Scope N_scope.

Record frame := mk_frame { f_flag : N; f_payload : bytes }.

(** [frame_wire f b]: [b] is the encoding of [f]. *)
Definition frame_wire (f : frame) (b : bytes) : Prop :=
  exists h3 h2 h1 h0,
    b = f_flag f :: h3 :: h2 :: h1 :: h0 :: f_payload f
    /\ N.of_nat (List.length (f_payload f)) = h3 * 16777216 + h2 * 65536 + h1 * 256 + h0.

(** [incomplete b]: [b] does not contain a whole frame at its start. *)
Definition incomplete (b : bytes) : Prop :=
  (List.length b < 5)%nat
  \/ exists fl h3 h2 h1 h0 rest,
       b = fl :: h3 :: h2 :: h1 :: h0 :: rest
       /\ N.of_nat (List.length rest) < h3 * 16777216 + h2 * 65536 + h1 * 256 + h0.

(** [frames_of b fs tl]: [b] is the frames [fs] followed by the incomplete rest [tl]. *)
Inductive frames_of : bytes -> list frame -> bytes -> Prop :=
| fo_nil : forall tl, incomplete tl -> frames_of tl [] tl
| fo_cons : forall f b rest fs tl,
    frame_wire f b -> frames_of rest fs tl -> frames_of (b ++ rest) (f :: fs) tl.

(** Frame flags of the protocols: bit 0 compressed, bit 1 Connect end-of-stream, bit 7 gRPC-Web trailers. *)
Definition compressed_flag (f : frame) : bool := N.odd (f_flag f).
Definition end_flag (k : rkind) (f : frame) : bool :=
  match k with
  | RConnect => N.odd (f_flag f / 2)
  | RGrpcWeb => N.odd (f_flag f / 128)
  | RBase | RGrpc => false
  end.

(** Nothing follows an end-of-stream frame. *)
Definition nothing_after_end (k : rkind) (body : bytes) : Prop :=
  forall fs tl, frames_of body fs tl ->
  forall f before after, fs = before ++ f :: after -> end_flag k f = true -> after = [] /\ tl = [].

(** The uncompressed content of a frame for a receiver that negotiated [c]. *)
Definition content_of (c : compression) (f : frame) (d : bytes) : Prop :=
  (compressed_flag f = false /\ d = f_payload f)
  \/ (compressed_flag f = true /\ z_identity c = false /\ z_decompress c (f_payload f) = Ok d).

(** What the application and ResponseMetadata can observe of a reader after a stream: messages, error, whether a
    message frame was seen, gRPC-Web trailers, reported metadata. *)
Definition observed {M} (o : list M * option exn * reader) :=
  let '(ms, e, r) := o in (ms, e, r_read r, r_trl r, r_md r).
