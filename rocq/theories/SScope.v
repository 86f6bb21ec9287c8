(** Specification of ResponseMetadata scopes. *)
From Coq Require Import List NArith Bool Arith.
From Verif Require Import MBase MPyStr MHeaders SHeaders MJson MWire MScope SProtocol SLink.
Import ListNotations.

(** The blocks that are open in each context, innermost first, as (object, context in which it was entered): a task starts with
    those of its creator. *)
Definition blocks := nat -> list (nat * nat).
Definition none_open : blocks := fun _ => [].
Definition put (b : blocks) (c : nat) (l : list (nat * nat)) : blocks := fun d => if Nat.eqb c d then l else b d.
Definition after (b : blocks) (o : scope_op) : blocks :=
  match o with
  | Enter c i => put b c ((i, c) :: b c)
  | Exit c i => put b c (tl (b c))
  | Report _ _ => b
  | Copy c c' => put b c' (b c)
  end.
(** The next step of a history of proper [with] blocks: the object of a block that is entered is not in use for an open block, the
    block that is left is the innermost one and was entered in this context, and a context is copied into a new one. *)
Definition proper (b : blocks) (o : scope_op) : Prop :=
  match o with
  | Enter c i => forall d, ~ In (i, d) (b d)
  | Exit c i => hd_error (b c) = Some (i, c)
  | Report _ _ => True
  | Copy c c' => c <> c' /\ forall d i, ~ In (i, c') (b d)
  end.
Fixpoint history (b : blocks) (h : list scope_op) : Prop :=
  match h with [] => True | o :: h => proper b o /\ history (after b o) h end.

(** The innermost open block of a context. *)
Definition innermost (b : blocks) (c : nat) : option nat := hd_error (map fst (b c)).
(** What the calls report while [i] is the innermost block of their context, along a history. *)
Fixpoint heard (i : nat) (b : blocks) (h : list scope_op) : list report :=
  match h with
  | [] => []
  | o :: h =>
      match o with
      | Report c r => match innermost b c with
                      | Some j => if Nat.eqb i j then [r] else []
                      | None => []
                      end
      | _ => []
      end ++ heard i (after b o) h
  end.
Definition all_blocks (b : blocks) (h : list scope_op) : blocks := fold_left after h b.

(** The values under a name after the reports [rs]: headers are those of the last report of headers; trailers are those of the
    last report of headers that had any, and all reported after. *)
Definition is_trailer (kv : pystr * pystr) : bool := startswith trailer_prefix (fst kv).
Definition json_values (v : json) (k : pystr) : list pystr :=
  match v with
  | JObj d => flat_map (fun kv => if same_name k (fst kv) then match trailer_values (snd kv) with Some l => l | None => [] end else []) d
  | _ => []
  end.
Definition headers_after (k : pystr) (old : list pystr) (r : report) : list pystr :=
  match r with
  | RHeaders hs => if forallb is_trailer hs then old else if startswith trailer_prefix (lower k) then [] else values_in hs k
  | _ => old
  end.
Definition trailers_after (k : pystr) (old : list pystr) (r : report) : list pystr :=
  match r with
  | RHeaders hs => if existsb is_trailer hs then values_in hs (trailer_prefix ++ k) else old
  | RTrailers ts => old ++ values_in ts k
  | RJson v => old ++ json_values v k
  end.
(** Reports as the client makes them: header names in lower case, trailers of an end message lists of strings. *)
Definition report_ok (r : report) : Prop :=
  match r with
  | RHeaders hs => lower_names hs
  | RTrailers _ => True
  | RJson v => exists d, v = JObj d /\ Forall (fun kv => trailer_values (snd kv) <> None) d
  end.
