(** Comparison of headers, and the objects that [Headers.allitems] returns (src/connectrpc/_headers.py). *)
From Coq Require Import List NArith ZArith Bool String.
From Verif Require Import MBase MPyStr MHeaders.
Import ListNotations.

(** Python's [==] of two [dict]s with [str] values. *)
Definition dict_eqb (a b : dict pystr) : bool :=
  Nat.eqb (List.length a) (List.length b)
  && forallb (fun kv => match dget b (fst kv) with Some v => str_eqb v (snd kv) | None => false end) a.

(** [h == other]: inherited from collections.abc.Mapping (_headers.py:15 defines no [__eq__]):
    [dict(self.items()) == dict(other.items())], with [items] of _headers.py:106-108. *)
Definition h_eq (h other : headers) : bool := dict_eqb (h_items h) (h_items other).
Definition h_eq_dict (h : headers) (other : dict pystr) : bool := dict_eqb (h_items h) other.

(** The object [h.allitems()] returns (_headers.py:97-101): the items view of [_store], or an [_AllItemsView] that holds
    [_store] and the dict [_extra] refers to at that moment (_headers.py:131-135).  [shared]: that dict is still the
    [_extra] of the headers object. *)
Inductive view := VStore | VAll (extra : dict (list pystr)) (shared : bool).
Definition take_view (h : headers) : view := match h_extra h with None => VStore | Some e => VAll e true end.

(** A view after one more operation on its headers object.  [_store] and [_extra] are changed in place
    (_headers.py:46-58, 69-80); [clear] empties [_store] in place and lets go of [_extra] (_headers.py:82-85). *)
Definition view_exec (h : headers) (v : view) (op : hop) : view :=
  match v with
  | VStore => VStore
  | VAll e false => VAll e false
  | VAll e true => match h_extra (h_exec h op) with Some e' => VAll e' true | None => VAll e false end
  end.
Fixpoint view_run (h : headers) (v : view) (ops : list hop) : headers * view :=
  match ops with
  | [] => (h, v)
  | op :: ops => view_run (h_exec h op) (view_exec h v op) ops
  end.

(** [list(v)] (_headers.py:137-142; the built-in items view otherwise). *)
Definition view_list (hv : headers * view) : list (pystr * pystr) :=
  match snd hv with
  | VStore => h_store (fst hv)
  | VAll e _ => all_items_iter (h_store (fst hv)) (Some e)
  end.
(** [len(v)] (_headers.py:144-148). *)
Definition view_len (hv : headers * view) : nat :=
  match snd hv with
  | VStore => List.length (h_store (fst hv))
  | VAll e _ => all_items_len (h_store (fst hv)) (Some e)
  end.
(** [(key, value) in v].  [_AllItemsView] inherits collections.abc.ItemsView.[__contains__], which reads [self._mapping]; its
    own [__init__] (_headers.py:131-135) does not set that. *)
Definition view_contains (hv : headers * view) (item : pystr * pystr) : res bool :=
  match snd hv with
  | VStore => Ok (match dget (h_store (fst hv)) (fst item) with Some v => str_eqb v (snd item) | None => false end)
  | VAll _ _ => Raise (EOther KAttr (lit "'_AllItemsView' object has no attribute '_mapping'"))
  end.
