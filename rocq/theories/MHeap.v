(** Headers objects, their dictionaries and lists, and the views of them as objects with identity (src/connectrpc/_headers.py,
    connectrpc/_protocol_connect.py:192-200): the same code as MHeaders.v and MView.v, where they are values. *)
From Coq Require Import List NArith ZArith Bool.
From Verif Require Import MBase MPyStr MHeaders.
Import ListNotations.

(** A mutable object: a [Headers] object with its attributes [_store] and [_extra] (_headers.py:24-25), a dictionary with [str]
    values, a dictionary of lists, a list of [str].  A heap maps addresses to objects. *)
Inductive cell := CObj (store : nat) (extra : option nat) | CDict (d : dict pystr) | CLists (d : dict nat) | CList (l : list pystr).
Definition heap := list cell.
Fixpoint hset (h : heap) (a : nat) (c : cell) : heap :=
  match h, a with
  | [], _ => []
  | _ :: h, O => c :: h
  | x :: h, S a => x :: hset h a c
  end.
(** A new object. *)
Definition halloc (h : heap) (c : cell) : heap * nat := (h ++ [c], List.length h).

(** Access to an object of the expected kind; [None] stands for an access that the code never makes. *)
Definition the_obj (h : heap) (a : nat) : option (nat * option nat) := match nth_error h a with Some (CObj s e) => Some (s, e) | _ => None end.
Definition the_dict (h : heap) (a : nat) : option (dict pystr) := match nth_error h a with Some (CDict d) => Some d | _ => None end.
Definition the_lists (h : heap) (a : nat) : option (dict nat) := match nth_error h a with Some (CLists d) => Some d | _ => None end.
Definition the_list (h : heap) (a : nat) : option (list pystr) := match nth_error h a with Some (CList l) => Some l | _ => None end.
Notation "'let?' x := a 'in' b" := (match a with Some x => b | None => None end) (at level 200, x pattern, b at level 200).

(** [h.add(key, value)] (_headers.py:69-80). *)
Definition heap_add (h : heap) (self : nat) (key value : pystr) : option heap :=
  let key := lower key in
  let? (s, e) := the_obj h self in
  let? d := the_dict h s in
  if dmem d key then
    let (h, x) := match e with
                  | Some x => (h, x)
                  | None => let (h, x) := halloc h (CLists []) in (hset h self (CObj s (Some x)), x)
                  end in
    let? m := the_lists h x in
    let (h, l) := match dget m key with
                  | Some l => (h, l)
                  | None => let (h, l) := halloc h (CList []) in (hset h x (CLists (dset m key l)), l)
                  end in
    let? vs := the_list h l in
    Some (hset h l (CList (vs ++ [value])))
  else Some (hset h s (CDict (dset d key value))).

(** [if self._extra is not None: self._extra.pop(key, None)] (_headers.py:49-50, 57-58). *)
Definition heap_pop (h : heap) (e : option nat) (key : pystr) : option heap :=
  match e with
  | None => Some h
  | Some x => let? m := the_lists h x in Some (hset h x (CLists (ddel m key)))
  end.
(** [h[key] = value] (_headers.py:46-50). *)
Definition heap_set (h : heap) (self : nat) (key value : pystr) : option heap :=
  let key := lower key in
  let? (s, e) := the_obj h self in
  let? d := the_dict h s in
  heap_pop (hset h s (CDict (dset d key value))) e key.
(** [del h[key]] (_headers.py:52-58).  KeyError changes nothing. *)
Definition heap_del (h : heap) (self : nat) (key : pystr) : option heap :=
  let key := lower key in
  let? (s, e) := the_obj h self in
  let? d := the_dict h s in
  if dmem d key then heap_pop (hset h s (CDict (ddel d key))) e key else Some h.
(** [h.clear()] (_headers.py:82-85). *)
Definition heap_clear (h : heap) (self : nat) : option heap :=
  let? (s, e) := the_obj h self in
  let? d := the_dict h s in
  Some (hset (hset h s (CDict [])) self (CObj s None)).
Definition heap_do (h : heap) (self : nat) (op : hop) : option heap :=
  match op with
  | Add k v => heap_add h self k v
  | Set_ k v => heap_set h self k v
  | Del k => heap_del h self k
  | Clear => heap_clear h self
  end.

(** [h.allitems()] (_headers.py:97-101): the items view of [_store], or an [_AllItemsView] with both dictionaries (131-135). *)
Inductive pyview := PvItems (store : nat) | PvAll (store extra : nat).
Definition heap_allitems (h : heap) (self : nat) : option pyview :=
  let? (s, e) := the_obj h self in
  Some (match e with None => PvItems s | Some x => PvAll s x end).
(** [self._extra.get(key, ())] (_headers.py:141). *)
Definition heap_extra (h : heap) (m : dict nat) (key : pystr) : option (list pystr) :=
  match dget m key with None => Some [] | Some l => the_list h l end.
(** [list(view)] (_headers.py:137-142).  An empty [_extra] has no values to give. *)
Fixpoint iter_items (h : heap) (m : dict nat) (d : dict pystr) : option (list (pystr * pystr)) :=
  match d with
  | [] => Some []
  | (k, v) :: d =>
      let? vs := heap_extra h m k in
      let? r := iter_items h m d in
      Some ((k, v) :: map (fun vv => (k, vv)) vs ++ r)
  end.
Definition heap_list (h : heap) (v : pyview) : option (list (pystr * pystr)) :=
  match v with
  | PvItems s => the_dict h s
  | PvAll s x => let? d := the_dict h s in let? m := the_lists h x in iter_items h m d
  end.
(** [h.getall(key)] (_headers.py:87-95). *)
Definition heap_getall (h : heap) (self : nat) (key : pystr) : option (list pystr) :=
  let key := lower key in
  let? (s, e) := the_obj h self in
  let? d := the_dict h s in
  match dget d key with
  | None => Some []
  | Some v =>
      match e with
      | None => Some [v]
      | Some x => let? m := the_lists h x in let? vs := heap_extra h m key in Some (v :: vs)
      end
  end.

(** [Headers(items)] (_headers.py:27-40) for a mapping, and for a sequence of pairs. *)
Definition heap_mapping (h : heap) (items : list (pystr * pystr)) : option (heap * nat) :=
  let (h, s) := halloc h (CDict (fold_left (fun d kv => dset d (lower (fst kv)) (snd kv)) items [])) in
  Some (halloc h (CObj s None)).
Fixpoint add_pairs (h : heap) (self : nat) (items : list (pystr * pystr)) : option heap :=
  match items with
  | [] => Some h
  | (k, v) :: items => let? h := heap_add h self k v in add_pairs h self items
  end.
Definition heap_pairs (h : heap) (items : list (pystr * pystr)) : option (heap * nat) :=
  let (h, s) := halloc h (CDict []) in
  let (h, self) := halloc h (CObj s None) in
  let? h := add_pairs h self items in Some (h, self).
(** [Headers(tuple(other.allitems()))] (_protocol_connect.py:196, _protocol_grpc.py:217). *)
Definition heap_copy (h : heap) (other : nat) : option (heap * nat) :=
  let? v := heap_allitems h other in let? items := heap_list h v in heap_pairs h items.
(** [Headers(other)]: a [Headers] object is a Mapping; [items] (_headers.py:31-36, 106-108). *)
Definition heap_of (h : heap) (other : nat) : option (heap * nat) :=
  let? (s, e) := the_obj h other in let? d := the_dict h s in heap_mapping h d.

(** A program that makes, uses, copies and looks at Headers objects.  It names the objects and the views it has got by numbers;
    a step on an object that there is not does nothing. *)
Inductive hstep := HPairs (items : list (pystr * pystr)) | HMapping (items : list (pystr * pystr)) | HCopy (i : nat) | HOf (i : nat)
                 | HDo (i : nat) (op : hop) | HView (i : nat).
Record hstate := mk_hstate { hs_heap : heap; hs_objs : list nat; hs_views : list pyview }.
Definition hstep_run (st : hstate) (x : hstep) : option hstate :=
  let add r := let? (h, a) := r in Some (mk_hstate h (hs_objs st ++ [a]) (hs_views st)) in
  let on i f := match nth_error (hs_objs st) i with Some a => f a | None => Some st end in
  match x with
  | HPairs items => add (heap_pairs (hs_heap st) items)
  | HMapping items => add (heap_mapping (hs_heap st) items)
  | HCopy i => on i (fun a => add (heap_copy (hs_heap st) a))
  | HOf i => on i (fun a => add (heap_of (hs_heap st) a))
  | HDo i op => on i (fun a => let? h := heap_do (hs_heap st) a op in Some (mk_hstate h (hs_objs st) (hs_views st)))
  | HView i => on i (fun a => let? v := heap_allitems (hs_heap st) a in Some (mk_hstate (hs_heap st) (hs_objs st) (hs_views st ++ [v])))
  end.
Fixpoint hprog_run (st : hstate) (p : list hstep) : option hstate :=
  match p with [] => Some st | x :: p => let? st := hstep_run st x in hprog_run st p end.
Definition hstate_new : hstate := mk_hstate [] [] [].
