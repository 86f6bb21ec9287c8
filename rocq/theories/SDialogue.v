(** A client application and a method that talk to each other, and what lies between them. *)
From Coq Require Import List NArith Bool.
From Verif Require Import MBase MWire MEnvelope MProtocol MClient MServer MAsgi MPyStr SLink MDuplex SDuplex.
Import ListNotations.

(** A client application: the messages it has sent once it has got these responses, and whether it has ended its stream. *)
Definition talker (A B : Type) := list B -> list A * bool.
(** It takes nothing back, and sends nothing after the end. *)
Definition steady {A B} (says : talker A B) : Prop :=
  forall ys more, exists ms,
    fst (says (ys ++ more)) = fst (says ys) ++ ms /\ (snd (says ys) = true -> ms = [] /\ snd (says (ys ++ more)) = true).

(** What passes between the two: the method is told what comes next in its request stream, and it says a message. *)
Inductive said (A B : Type) := Told (x : pulled A) | Said (b : B).
Arguments Told {A B}. Arguments Said {A B}.

(** The two face to face.  The method has been told [n] messages, or the end ([over]), and has said [ys].  It waits for what the
    client application does not send. *)
Fixpoint dialogue {A B} (says : talker A B) (g : prog A B unit) (over : bool) (n : nat) (ys : list B) : list (said A B) :=
  match g with
  | Ret _ | Fail _ => []
  | Pull k =>
      if over then Told PEnd :: dialogue says (k PEnd) true n ys
      else match nth_error (fst (says ys)) n with
           | Some a => Told (PMsg a) :: dialogue says (k (PMsg a)) false (S n) ys
           | None => if snd (says ys) then Told PEnd :: dialogue says (k PEnd) true n ys else []
           end
  | Yield b _ g => Said b :: dialogue says g over n (ys ++ [b])
  | Hdr _ g | Trl _ g => dialogue says g over n ys
  end.
(** Here the method never waits in vain. *)
Fixpoint converses {A B} (says : talker A B) (g : prog A B unit) (over : bool) (n : nat) (ys : list B) : Prop :=
  match g with
  | Ret _ | Fail _ => True
  | Pull k =>
      if over then converses says (k PEnd) true n ys
      else match nth_error (fst (says ys)) n with
           | Some a => converses says (k (PMsg a)) false (S n) ys
           | None => snd (says ys) = true /\ converses says (k PEnd) true n ys
           end
  | Yield b _ g => converses says g over n (ys ++ [b])
  | Hdr _ g | Trl _ g => converses says g over n ys
  end.
(** What a conversation was between the two, and what the method said. *)
Definition dialog_of {A B} (t : list (devent A B)) : list (said A B) :=
  flat_map (fun e => match e with DGive x => [Told x] | DYield b => [Said b] | _ => [] end) t.

(** What a client reads from these parts of a response body. *)
Definition client_reads {A B} (c : client A B) (zc : compression) (body : list bytes) : list B :=
  fst (fst (feed_all (mk_rconf (reader_kind (cl_proto c)) zc (cl_max c) (k_dec_res (cl_codec c))) (reader_new None) body)).
(** What it writes for its messages. *)
Definition client_writes {A B} (c : client A B) (ms : list A) (bs : list bytes) : Prop :=
  Forall2 (fun a b => write_message (k_enc_req (cl_codec c)) (Some (cl_send c)) a = Ok b) ms bs.

(** After [w] the server reports [x] of the client: a further part, cut anywhere, of what the client has written; the client has
    read the response as far as it had been sent, or less far.  The end is reported after all that the client has written. *)
Definition reports {A B} (c : client A B) (zc : compression) (says : talker A B) (w : list (devent A B)) (x : recv) : Prop :=
  exists b more ys later bs unread,
    x = RReq b more
    /\ client_reads c zc (bodies (sent w)) = ys ++ later
    /\ client_writes c (fst (says ys)) bs
    /\ List.concat bs = List.concat (received w) ++ b ++ unread
    /\ (more = false -> snd (says ys) = true /\ unread = []).
(** So it is at every reception. *)
Definition relayed {A B} (c : client A B) (zc : compression) (says : talker A B) (t : list (devent A B)) : Prop :=
  forall w x r, t = w ++ DRecv x :: r -> reports c zc says w x.

(** The head of a request reaches an ASGI application: same method, target and header lines, and the server can send trailers. *)
Definition head_reaches (address : pystr) (rq : http_request) (sc : scope) : Prop :=
  sc_method sc = rq_method rq /\ request_target address rq (sc_path sc) (sc_query sc)
  /\ carried (rq_headers rq) (sc_headers sc) /\ ascii_pairs (sc_headers sc) /\ sc_trailers sc = true.
