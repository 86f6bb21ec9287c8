(** Specification of a case-insensitive header multimap, by the history of operations alone.
    It mentions no representation: the content under a name is computed from the list of operations. *)
From Coq Require Import List NArith ZArith Bool.
From Verif Require Import MBase MPyStr MHeaders.
Import ListNotations.

(** Two names denote the same header when they are equal up to letter case. *)
Definition same_name (a b : pystr) : bool := str_eqb (lower a) (lower b).

(** Values held under [k] after one more operation. *)
Definition values_step (k : pystr) (vs : list pystr) (op : hop) : list pystr :=
  match op with
  | Add k' v => if same_name k k' then vs ++ [v] else vs
  | Set_ k' v => if same_name k k' then [v] else vs
  | Del k' => if same_name k k' then [] else vs
  | Clear => []
  end.

(** Values held under [k] after a history. *)
Definition values_of (hist : list hop) (k : pystr) : list pystr :=
  fold_left (values_step k) hist [].

(** Names present after one more operation, in order of first insertion. *)
Definition names_step (ns : list pystr) (op : hop) : list pystr :=
  match op with
  | Add k _ | Set_ k _ => if existsb (str_eqb (lower k)) ns then ns else ns ++ [lower k]
  | Del k => filter (fun n => negb (str_eqb n (lower k))) ns
  | Clear => []
  end.

Definition names_of (hist : list hop) : list pystr := fold_left names_step hist [].

(** Header text that HTTP can carry: a name without colon, CR or LF, a value without CR or LF, neither with leading or
    trailing white space, both encodable. *)
Definition legal_name (k : pystr) : Prop :=
  Forall (fun c => (c < 1114112)%N /\ (c < 55296 \/ 57343 < c)%N /\ c <> 58%N /\ c <> 13%N /\ c <> 10%N) k /\ strip k = k.
Definition legal_value (v : pystr) : Prop :=
  Forall (fun c => (c < 1114112)%N /\ (c < 55296 \/ 57343 < c)%N /\ c <> 13%N /\ c <> 10%N) v /\ strip v = v.
