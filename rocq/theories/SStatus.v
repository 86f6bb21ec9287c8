(** Specification for C65: the status a response reports, and what a successful call is. *)
From Coq Require Import List NArith ZArith Bool String.
From Verif Require Import MBase MPyStr MHeaders SHeaders MWire MEnvelope SEnvelope MTimeout MProtocol MClient MServer MAsgi MWsgi SServer.
Import ListNotations.
Local Open Scope N_scope.

(** The values of the lines named grpc-status (in any case) of a trailer block. *)
Definition statuses (ts : list (bytes * bytes)) : list bytes :=
  map snd (filter (fun kv => same_name (lit "grpc-status") (fst kv)) ts).

(** The method behind [ep] ran to its end without raising, every message it produced was sent in order, and then [tail]
    was sent. *)
Definition asgi_succeeded {A B} (ap : app A B) (now : fl) (sc : scope) (en : env) (ep : endpoint A B) (hs : headers) (p : proto)
    (cx : req_ctx) (k : codec A B) (tail : list aevent) : Prop :=
  exists req z inv steps rs' frs head,
    negotiate_stream_compression p hs (ap_comps ap) = (req, z)
    /\ stream_runs ep cx req (fun rz => request_stream ap k rz en) inv steps rs' None
    /\ written (k_enc_res k) z steps frs
    /\ encode_pairs (stream_headers p (k_name k) (z_name z) (head_state steps rs')) = Ok head
    /\ asgi_call ap now sc en
       = mk_ar inv (EvStart 200 head (uses_trailers p) :: map (fun b => EvBody b true) frs ++ tail) AReturn.
Definition wsgi_succeeded {A B} (ap : app A B) (now : fl) (q : wsgi_request) (ep : endpoint A B) (hs : headers) (p : proto)
    (cx : req_ctx) (k : codec A B) (tail : list wevent) : Prop :=
  exists req z inv steps rs' frs,
    negotiate_stream_compression p hs (ap_comps ap) = (req, z)
    /\ stream_runs ep cx req (fun rz => wsgi_request_stream ap k rz q) inv steps rs' None
    /\ written (k_enc_res k) z steps frs
    /\ wsgi_call ap now q
       = mk_wr inv (WStart (lit "200 OK") (stream_headers p (k_name k) (z_name z) (head_state steps rs')) :: map WBody frs ++ tail) WReturn.

(** [b] is the frame that ends a response: the bytes [d], compressed with [z] unless that is identity, flagged with [bit]. *)
Definition end_frame (bit : N) (z : compression) (d b : bytes) : Prop :=
  exists data, z_compress z d = Ok data /\ frame_wire (mk_frame (if z_identity z then bit else bit + 1) data) b.

(** The text of a gRPC-Web trailer frame: one line per trailer. *)
Definition web_lines (ts : list (pystr * pystr)) : pystr :=
  List.concat (map (fun kv => fst kv ++ lit ": " ++ snd kv ++ [13; 10]) ts).
