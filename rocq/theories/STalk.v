(** A conversation on the WSGI server read from the outside: what was read, given, yielded and handed over, and when the request body
    has been read to its end. *)
From Coq Require Import List NArith ZArith Bool String.
From Verif Require Import MBase MPyStr MHeaders MWire MEnvelope MTimeout MProtocol MClient MServer MWsgi SServer MTalk.
Import ListNotations.

(** What the reads of the request body returned, and the bytes among it. *)
Definition reads {A B} (t : list (tevent A B)) : list (res bytes) := flat_map (fun e => match e with TRead r => [r] | _ => [] end) t.
Definition pieces (l : list (res bytes)) : list bytes := flat_map (fun r => match r with Ok b => [b] | Raise _ => [] end) l.
(** The messages the method was given, and those it yielded. *)
Definition wgiven {A B} (t : list (tevent A B)) : list A := flat_map (fun e => match e with TGive (PMsg a) => [a] | _ => [] end) t.
Definition wyielded {A B} (t : list (tevent A B)) : list B := flat_map (fun e => match e with TYield b => [b] | _ => [] end) t.
(** What was handed to the server, and the chunks of the response body among it. *)
Definition handed {A B} (t : list (tevent A B)) : list wevent := flat_map (fun e => match e with TOut e => [e] | _ => [] end) t.
Definition chunks_of (l : list wevent) : list bytes := flat_map (fun e => match e with WBody b => [b] | _ => [] end) l.

(** The last read returned b"", which is how "wsgi.input" says that the body is over. *)
Definition read_to_end {A B} (t : list (tevent A B)) : Prop := exists l, reads t = l ++ [Ok []].
(** An input that says so only at its end. *)
Definition honest (inp : list rd) : Prop := Forall (fun x => x <> RD []) inp.
(** The bytes that an input holds. *)
Definition content (inp : list rd) : bytes := flat_map (fun x => match x with RD b => b | RDErr _ => [] end) inp.

(** A complete response to a call that succeeded: the method returned without raising, all its messages were written, and nothing in
    the response says otherwise. *)
Definition call_succeeded {A B} (ap : app A B) (now : fl) (q : wsgi_request) (r : wsgi_result A) : Prop :=
  wr_out r = WReturn
  /\ ((exists f hs cx a b rs h body, wsgi_unary_request ap now q f hs cx /\ run_fn (f a cx) ([], None) rs_new = (FRet b, rs)
         /\ wr_inv r = [InvMsg a] /\ wr_events r = [WStart (lit "200 OK") h; WBody body])
      \/ exists ep hs p cx k rz z steps rs frs h fin, wsgi_stream_request ap now q ep hs p cx k
         /\ negotiate_stream_compression p hs (ap_comps ap) = (Some rz, z)
         /\ method_does ep cx (wsgi_request_stream ap k rz q) (wr_inv r) steps rs None
         /\ written (k_enc_res k) z steps frs /\ end_response (ap_sc ap) p z (rs_t rs) None = Ok fin
         /\ wr_events r = WStart (lit "200 OK") h :: map WBody frs ++ fin).
(** The body of a request with a positive Content-Length is read when that many bytes were read. *)
Definition read_to_length {A B} (q : wsgi_request) (t : list (tevent A B)) : Prop :=
  exists s n, env_get q "CONTENT_LENGTH" = Some s /\ int_of_str s = Some n /\ (0 < n)%Z /\ Z.of_N (lenN (List.concat (pieces (reads t)))) = n.
(** The same request but for its body. *)
Definition with_input (q : wsgi_request) (i : list rd) : wsgi_request := mk_wq (wq_env q) i (wq_trailers q) (wq_drain q).
