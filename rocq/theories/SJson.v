(** Which JSON values a JSON text can carry back unchanged. *)
From Coq Require Import List NArith ZArith Bool String.
From Verif Require Import MBase MPyStr MJson.
Import ListNotations.
Local Open Scope N_scope.

(** A high surrogate immediately followed by a low one would be read back as one character, so a string with
    such a pair of *lone* surrogates cannot be transported.  Every other Python string can. *)
Fixpoint no_pair (s : pystr) : bool :=
  match s with
  | c :: t => negb (is_high c && match t with d :: _ => is_low d | [] => false end) && no_pair t
  | [] => true
  end.

(** A Python string JSON can carry: code points only, no lone high+low pair. *)
Definition json_str_ok (s : pystr) : Prop := Forall (fun c => c < 1114112) s /\ no_pair s = true.

(** Digits, non-empty. *)
Definition digits1 (s : pystr) : Prop := s <> [] /\ Forall (fun c => is_digit c = true) s.

(** Text of a finite Python float: sign, integer part, fraction and/or exponent. *)
Definition float_text (t : pystr) : Prop :=
  exists (neg : bool) ds frac ex,
    t = (if neg then [45] else []) ++ ds ++ frac ++ ex /\
    digits1 ds /\ (ds = [48] \/ hd 48 ds <> 48) /\
    (frac = [] \/ exists f, frac = 46 :: f /\ digits1 f) /\
    (ex = [] \/ exists e x, ex = e :: x /\ (e = 101 \/ e = 69) /\
        (digits1 x \/ exists sg x', x = sg :: x' /\ (sg = 43 \/ sg = 45) /\ digits1 x')) /\
    ~ (frac = [] /\ ex = []).

(** JSON values all of whose strings can be carried and whose objects have distinct keys. *)
Fixpoint json_ok (v : json) : Prop :=
  match v with
  | JNull | JBool _ | JInt _ => True
  | JFloat t => float_text t \/ t = lit "NaN" \/ t = lit "Infinity" \/ t = lit "-Infinity"
  | JStr s => json_str_ok s
  | JArr l => (fix all l := match l with [] => True | x :: r => json_ok x /\ all r end) l
  | JObj d => NoDup (map fst d) /\
              (fix all (d : list (pystr * json)) :=
                 match d with [] => True | (k, x) :: r => json_str_ok k /\ json_ok x /\ all r end) d
  end.
