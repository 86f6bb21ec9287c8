(** The ways to write the parameters of a GET request into a query string. *)
From Coq Require Import List NArith Bool String.
From Verif Require Import MBase MPyStr MUtf8 MBase64 MHeaders MWsgi MAsgi.
Import ListNotations.
Local Open Scope N_scope.

(** A hexadecimal digit, in either case. *)
Definition digit (v c : N) : Prop := (v < 10 /\ c = 48 + v) \/ (10 <= v < 16 /\ (c = 55 + v \/ c = 87 + v)).
(** A byte is written as itself if it is ASCII and has no meaning in a query string, as "%" and two digits always, and a space
    as "+" too. *)
Inductive byte_written (plain : N -> bool) : N -> pystr -> Prop :=
| bw_plain b : b < 128 -> plain b = true -> byte_written plain b [b]
| bw_plus : byte_written plain 32 [43]
| bw_hex hi lo h l : digit hi h -> digit lo l -> byte_written plain (hi * 16 + lo) [37; h; l].
Inductive bytes_written (plain : N -> bool) : bytes -> pystr -> Prop :=
| bsw_nil : bytes_written plain [] []
| bsw_cons b s bs r : byte_written plain b s -> bytes_written plain bs r -> bytes_written plain (b :: bs) (s ++ r).
(** A text is written as its UTF-8. *)
Definition text_written (plain : N -> bool) (t s : pystr) : Prop := exists bs, utf8_encode t = Some bs /\ bytes_written plain bs s.

(** Not "%", "&", "+"; in names, not "=" either. *)
Definition in_value (b : N) : bool := negb (existsb (N.eqb b) (lit "%&+")).
Definition in_name (b : N) : bool := negb (existsb (N.eqb b) (lit "%&+=")).

(** The parts between the "&": "name=value", a name alone for an empty value, or nothing at all. *)
Inductive parts_written : list (pystr * pystr) -> list pystr -> Prop :=
| pw_nil : parts_written [] []
| pw_empty ps l : parts_written ps l -> parts_written ps ([] :: l)
| pw_both n v n' v' ps l : text_written in_name n n' -> text_written in_value v v' -> parts_written ps l ->
    parts_written ((n, v) :: ps) ((n' ++ [61] ++ v') :: l)
| pw_name n n' ps l : text_written in_name n n' -> n' <> [] -> parts_written ps l -> parts_written ((n, []) :: ps) (n' :: l).
Definition query_written (ps : list (pystr * pystr)) (q : pystr) : Prop := exists l, parts_written ps l /\ q = join [38] l.

(** The first value of a parameter. *)
Fixpoint value_of (ps : list (pystr * pystr)) (n : pystr) : option pystr :=
  match ps with [] => None | (k, v) :: ps => if str_eqb k n then Some v else value_of ps n end.
(** The parameters that the Connect protocol gives a meaning to, but for "connect", its version. *)
Definition get_parameters : list pystr := [lit "message"; lit "base64"; lit "compression"; lit "encoding"].
Definition same_parameters (ps ps' : list (pystr * pystr)) : Prop := forall n, In n get_parameters -> value_of ps n = value_of ps' n.

(** A message may be given as text, or in base64 (URL-safe alphabet) with or without padding. *)
Definition as_base64 (t m : pystr) : Prop :=
  exists bs, utf8_encode t = Some bs /\ (m = urlsafe_b64encode bs \/ m = rstrip_eq (urlsafe_b64encode bs)).
Definition same_but_base64 (ps ps' : list (pystr * pystr)) : Prop :=
  value_of ps (lit "base64") <> Some (lit "1") /\ value_of ps' (lit "base64") = Some (lit "1")
  /\ (exists t m, value_of ps (lit "message") = Some t /\ value_of ps' (lit "message") = Some m /\ as_base64 t m)
  /\ value_of ps (lit "compression") = value_of ps' (lit "compression") /\ value_of ps (lit "encoding") = value_of ps' (lit "encoding").

(** The same request with the query string [s]. *)
Definition asgi_query (sc : scope) (s : pystr) : scope :=
  mk_scope (sc_path sc) (sc_root sc) (sc_method sc) (sc_scheme sc) (sc_headers sc) (sc_client sc) s (sc_trailers sc).
Definition wsgi_query (q : wsgi_request) (s : pystr) : wsgi_request :=
  mk_wq (dset (wq_env q) (lit "QUERY_STRING") s) (wq_input q) (wq_trailers q) (wq_drain q).
