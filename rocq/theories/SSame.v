(** Specification: calls whose callers cannot tell which protocol, codec, compression, client or server they went through. *)
From Coq Require Import List NArith ZArith Bool String.
From Verif Require Import MBase MPyStr MHeaders SHeaders MUtf8 MWire MEnvelope MTimeout MProtocol SProtocol MClient SClient MServer MAsgi MWsgi SServer SLink.
Import ListNotations.

(** The same message (or normal end), or ConnectErrors with the same code, message and details. *)
Definition same_outcome {B} (o o' : cout B) : Prop :=
  match o, o' with
  | COk b, COk b' => b = b'
  | CErr (EConnect c m ds), CErr (EConnect c' m' ds') => c = c' /\ m = m' /\ Forall2 same_detail ds ds'
  | _, _ => False
  end.

(** Names that neither the protocols nor HTTP use themselves. *)
Definition plain_header (k : pystr) : Prop :=
  startswith trailer_mark (lower k) = false /\ transport_name k = false /\ unary_line k = false
  /\ forall p, stream_line p k = false.
Definition plain_trailer (k : pystr) : Prop := grpc_status_name k = false.

(** The same response metadata under these names, given that the method set headers [hs]: of those, names starting with "trailer-" are
    taken for trailers. *)
Definition same_metadata (hs : headers) (o o' : option metadata) : Prop :=
  exists m m', o = Some m /\ o' = Some m'
  /\ (forall k, plain_header k -> h_getall (rm_headers m) k = h_getall (rm_headers m') k)
  /\ (forall k, plain_trailer k -> h_getall hs (trailer_mark ++ k) = [] -> h_getall (rm_trailers m) k = h_getall (rm_trailers m') k).

(** A streaming call over a working link to a method that, whatever it sees of the protocol, does [steps] and ends with [rs] and [e]. *)
Definition streams {A B} (w : bool) (c : client A B) (ap : app A B) m ep k ck net u hist timeout (reqs : list A * option exn) now inv
    (steps : list (rstate * B)) rs e (call : stream_result B) : Prop :=
  connected w c ap m ep k ck u hist timeout /\ (cl_proto c = PConnect -> is_unary ep = false)
  /\ call = execute_bidi_stream c ck net (Some md_new) m u timeout reqs None
  /\ stream_link w ap now (cl_address c) net (sr_sent call) /\ request_fits c ap (fst reqs)
  /\ (forall cx, context_of (cl_proto c) true hist (effective_timeout timeout (cl_timeout c)) (ep_method ep) cx ->
        method_does ep cx (fst reqs, None) inv steps rs e)
  /\ sendable ap k (cl_proto c) (cl_max c) steps rs e.

(** The same for client streams. *)
Definition uploads {A B} (w : bool) (c : client A B) (ap : app A B) m mi f k ck net u hist timeout (reqs : list A * option exn) now inv
    (steps : list (rstate * B)) rs e (call : call_result B) : Prop :=
  connected w c ap m (EpClientStream mi f) k ck u hist timeout
  /\ call = execute_client_stream c ck net (Some md_new) m u timeout reqs None
  /\ stream_link w ap now (cl_address c) net (cr_sent call) /\ request_fits c ap (fst reqs)
  /\ (forall cx, context_of (cl_proto c) true hist (effective_timeout timeout (cl_timeout c)) mi cx ->
        method_does (EpClientStream mi f) cx (fst reqs, None) inv steps rs e)
  /\ sendable ap k (cl_proto c) (cl_max c) steps rs e.

(** The same for unary calls, by GET or POST.  The links differ: the response of a unary Connect call is read whole. *)
Definition answers {A B} (w : bool) inflate (c : client A B) (ap : app A B) m mi f k ck net u hist timeout get (a : A) now
    (steps : list (rstate * B)) rs e (call : call_result B) : Prop :=
  call = execute_unary c ck net (Some md_new) m u timeout get a None
  /\ (forall cx, context_of (cl_proto c) false hist (effective_timeout timeout (cl_timeout c)) mi cx ->
        returns (f a cx) ([], None) steps rs e)
  /\ match cl_proto c with
     | PConnect => unary_connected w inflate c ap m (EpUnary mi f) k u hist timeout get /\ sendable_request c ap a
                   /\ unary_link w inflate ap now (cl_address c) net (cr_sent call) /\ sendable_answer ap k (cl_max c) steps rs e
     | p => connected w c ap m (EpUnary mi f) k ck u hist timeout /\ request_fits c ap [a]
            /\ stream_link w ap now (cl_address c) net (cr_sent call) /\ sendable ap k p (cl_max c) steps rs e
     end.
