(** Models of the Python string primitives the code calls.  No file of /repo is modelled here; each
    definition names the CPython operation.  All were compared with CPython 3.11. *)
From Coq Require Import List NArith ZArith Bool String Ascii.
From Verif Require Import MBase.
Import ListNotations.
Local Open Scope N_scope.

(** [str.lower], restricted to ASCII letters (simplification: non-ASCII letters are left alone). *)
Definition lower_c (c : N) : N := if (65 <=? c) && (c <=? 90) then c + 32 else c.
Definition lower (s : pystr) : pystr := map lower_c s.

(** [str.isspace] per character: the complete list of Unicode white space used by [str.strip]. *)
Definition is_space (c : N) : bool :=
  ((9 <=? c) && (c <=? 13)) || ((28 <=? c) && (c <=? 32)) || (c =? 133) || (c =? 160)
  || (c =? 5760) || ((8192 <=? c) && (c <=? 8202)) || (c =? 8232) || (c =? 8233)
  || (c =? 8239) || (c =? 8287) || (c =? 12288).

Fixpoint drop_while {A} (f : A -> bool) (l : list A) : list A :=
  match l with
  | [] => []
  | x :: t => if f x then drop_while f t else l
  end.

Definition rstrip_by {A} (f : A -> bool) (l : list A) : list A := rev (drop_while f (rev l)).

(** [s.strip()] *)
Definition strip (s : pystr) : pystr := rstrip_by is_space (drop_while is_space s).

(** [s.startswith(p)] *)
Fixpoint startswith (p s : pystr) : bool :=
  match p, s with
  | [], _ => true
  | _, [] => false
  | a :: p', b :: s' => (a =? b) && startswith p' s'
  end.

(** [s.removeprefix(p)] *)
Definition removeprefix (p s : pystr) : pystr :=
  if startswith p s then skipn (List.length p) s else s.

(** [s.partition(sep)[0]] for a one-character separator. *)
Fixpoint before (sep : N) (s : pystr) : pystr :=
  match s with
  | [] => []
  | c :: t => if c =? sep then [] else c :: before sep t
  end.

(** [s.split(sep, 1)] for a one-character separator: [None] when the separator is absent. *)
Fixpoint split_first (sep : N) (s : pystr) : option (pystr * pystr) :=
  match s with
  | [] => None
  | c :: t =>
      if c =? sep then Some ([], t)
      else match split_first sep t with
           | Some (a, b) => Some (c :: a, b)
           | None => None
           end
  end.

(** [s.split(sep)] for a one-character separator (never empty). *)
Fixpoint split_on (sep : N) (s : pystr) : list pystr :=
  match s with
  | [] => [[]]
  | c :: t =>
      if c =? sep then [] :: split_on sep t
      else match split_on sep t with
           | [] => [[c]]
           | h :: r => (c :: h) :: r
           end
  end.

(** [b.split(b"\r\n")]. *)
Fixpoint split_crlf (s : bytes) : list bytes :=
  match s with
  | [] => [[]]
  | c :: t =>
      match t with
      | d :: t' =>
          if (c =? 13) && (d =? 10) then [] :: split_crlf t'
          else match split_crlf t with
               | [] => [[c]]
               | h :: r => (c :: h) :: r
               end
      | [] => [[c]]
      end
  end.

(** [sep.join(parts)] *)
Fixpoint join (sep : pystr) (parts : list pystr) : pystr :=
  match parts with
  | [] => []
  | [p] => p
  | p :: r => p ++ sep ++ join sep r
  end.

Definition contains_char (c : N) (s : pystr) : bool := existsb (N.eqb c) s.

(** [s.rstrip("=")] *)
Definition rstrip_eq (s : pystr) : pystr := rstrip_by (N.eqb 61) s.

(** ** Decimal integers *)

(** [str(n)] for a non-negative integer. *)
Fixpoint dec_aux (fuel : nat) (n : N) : pystr :=
  match fuel with
  | O => []
  | S f => if n <? 10 then [48 + n] else dec_aux f (n / 10) ++ [48 + n mod 10]
  end.
Definition dec_of_N (n : N) : pystr := dec_aux (S (N.size_nat n)) n.

(** [str(z)] *)
Definition dec_of_Z (z : Z) : pystr :=
  match z with
  | Z0 => [48]
  | Zpos p => dec_of_N (Npos p)
  | Zneg p => 45 :: dec_of_N (Npos p)
  end.

Definition is_digit (c : N) : bool := (48 <=? c) && (c <=? 57).

(** First code points of the Unicode decimal digit ranges (category Nd, Unicode 14). *)
Definition nd_starts : list N :=
  [1632; 1776; 1984; 2406; 2534; 2662; 2790; 2918; 3046; 3174; 3302; 3430; 3558; 3664; 3792; 3872;
   4160; 4240; 6112; 6160; 6470; 6608; 6784; 6800; 6992; 7088; 7232; 7248; 42528; 43216; 43264; 43472;
   43504; 43600; 44016; 65296; 66720; 68912; 69734; 69872; 69942; 70096; 70384; 70736; 70864; 71248;
   71360; 71472; 71904; 72016; 72784; 73040; 73120; 92768; 92864; 93008; 120782; 120792; 120802;
   120812; 120822; 123200; 123632; 125264; 130032].

(** CPython [_PyUnicode_TransformDecimalAndSpaceToASCII]: per character. *)
Definition int_norm (c : N) : N :=
  if c <? 127 then c
  else if is_space c then 32
  else match find (fun s => (s <=? c) && (c <? s + 10)) nd_starts with
       | Some s => 48 + (c - s)
       | None => 63
       end.

(** C [isspace] as used by [PyLong_FromString]. *)
Definition is_cspace (c : N) : bool := ((9 <=? c) && (c <=? 13)) || (c =? 32).

(** Digits with single underscores between them. *)
Fixpoint int_digits (prev : bool) (s : pystr) : option (list N) :=
  match s with
  | [] => if prev then Some [] else None
  | c :: t =>
      if is_digit c then
        match int_digits true t with Some r => Some (c :: r) | None => None end
      else if (c =? 95) && prev then int_digits false t
      else None
  end.

Definition digits_val (ds : list N) : N := fold_left (fun a d => 10 * a + (d - 48)) ds 0.

(** Python [int(s)] for a [str] argument; [None] is ValueError.  Includes the default limit of 4300
    digits (sys.set_int_max_str_digits). *)
Definition int_of_str (s : pystr) : option Z :=
  let s1 := rstrip_by is_cspace (drop_while is_cspace (map int_norm s)) in
  let '(neg, body) := match s1 with
                      | 43 :: t => (false, t)
                      | 45 :: t => (true, t)
                      | _ => (false, s1)
                      end in
  match int_digits false body with
  | None => None
  | Some ds =>
      if 4300 <? N.of_nat (List.length ds) then None
      else let v := Z.of_N (digits_val ds) in Some (if neg then (- v)%Z else v)
  end.
