(** Specification of programs that use several Headers objects: every object has its own history of operations. *)
From Coq Require Import List NArith ZArith Bool.
From Verif Require Import MBase MPyStr MHeaders MHeap SHeaders.
Import ListNotations.

(** The items that are held after a history, and the first item of every name. *)
Definition all_of (hist : list hop) : list (pystr * pystr) := flat_map (fun k => map (fun v => (k, v)) (values_of hist k)) (names_of hist).
Definition firsts_of (hist : list hop) : list (pystr * pystr) := flat_map (fun k => map (fun v => (k, v)) (firstn 1 (values_of hist k))) (names_of hist).
Definition adds (items : list (pystr * pystr)) : list hop := map (fun kv => Add (fst kv) (snd kv)) items.
Definition sets (items : list (pystr * pystr)) : list hop := map (fun kv => Set_ (fst kv) (snd kv)) items.

(** The histories of all objects after one more step: a new object begins with what it was made from; an operation is one of its
    object and of no other. *)
Definition histories_step (hs : list (list hop)) (x : hstep) : list (list hop) :=
  match x with
  | HPairs items => hs ++ [adds items]
  | HMapping items => hs ++ [sets items]
  | HCopy i => match nth_error hs i with Some hist => hs ++ [adds (all_of hist)] | None => hs end
  | HOf i => match nth_error hs i with Some hist => hs ++ [sets (firsts_of hist)] | None => hs end
  | HDo i op => map (fun jh => if Nat.eqb (fst jh) i then snd jh ++ [op] else snd jh) (combine (seq 0 (List.length hs)) hs)
  | HView _ => hs
  end.
Definition histories (p : list hstep) : list (list hop) := fold_left histories_step p [].

(** The views taken: of which object, and after how many of its operations. *)
Definition taken_step (st : list (list hop) * list (nat * nat)) (x : hstep) : list (list hop) * list (nat * nat) :=
  (histories_step (fst st) x,
   match x with
   | HView i => match nth_error (fst st) i with Some hist => snd st ++ [(i, List.length hist)] | None => snd st end
   | _ => snd st
   end).
Definition views_taken (p : list hstep) : list (nat * nat) := snd (fold_left taken_step p ([], [])).
