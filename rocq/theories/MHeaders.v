(** Model of connectrpc.request.Headers (src/connectrpc/_headers.py:15-148). *)
From Coq Require Import List NArith ZArith Bool.
From Verif Require Import MBase MPyStr.
Import ListNotations.

(** [_store] and [_extra] (_headers.py:24-25). *)
Record headers := mk_headers {
  h_store : dict pystr;
  h_extra : option (dict (list pystr))
}.

(** [Headers()] (_headers.py:27-40 with no items). *)
Definition h_empty : headers := mk_headers [] None.

(** [h[key]] (_headers.py:42-44); [None] is KeyError. *)
Definition h_getitem (h : headers) (key : pystr) : option pystr :=
  let key := lower key in dget (h_store h) key.

(** [if self._extra is not None: self._extra.pop(key, None)] (_headers.py:49-50, 57-58). *)
Definition extra_pop (e : option (dict (list pystr))) (key : pystr) : option (dict (list pystr)) :=
  match e with
  | None => None
  | Some d => Some (ddel d key)
  end.

(** [h[key] = value] (_headers.py:46-50). *)
Definition h_setitem (h : headers) (key value : pystr) : headers :=
  let key := lower key in
  mk_headers (dset (h_store h) key value) (extra_pop (h_extra h) key).

(** [del h[key]] (_headers.py:52-58); [None] is KeyError. *)
Definition h_delitem (h : headers) (key : pystr) : option headers :=
  let key := lower key in
  if dmem (h_store h) key
  then Some (mk_headers (ddel (h_store h) key) (extra_pop (h_extra h) key))
  else None.

(** [iter(h)] / [h.keys()] (_headers.py:60-61, 110-112). *)
Definition h_keys (h : headers) : list pystr := dkeys (h_store h).

(** [len(h)] (_headers.py:63-64). *)
Definition h_len (h : headers) : nat := length (h_store h).

(** [bool(h)]: Python falls back to [__len__]. *)
Definition h_truthy (h : headers) : bool := nonempty (h_store h).

(** [h.add(key, value)] (_headers.py:69-80). *)
Definition h_add (h : headers) (key value : pystr) : headers :=
  let key := lower key in
  if dmem (h_store h) key then
    let e := match h_extra h with None => [] | Some e => e end in
    let cur := match dget e key with None => [] | Some l => l end in
    mk_headers (h_store h) (Some (dset e key (cur ++ [value])))
  else mk_headers (dset (h_store h) key value) (h_extra h).

(** [h.clear()] (_headers.py:82-85). *)
Definition h_clear (h : headers) : headers := mk_headers [] None.

(** [h.getall(key)] (_headers.py:87-95). *)
Definition h_getall (h : headers) (key : pystr) : list pystr :=
  let key := lower key in
  match dget (h_store h) key with
  | None => []
  | Some v =>
      v :: match h_extra h with
           | None => []
           | Some e => match dget e key with None => [] | Some l => l end
           end
  end.

(** [_AllItemsView.__iter__] (_headers.py:137-142). *)
Definition all_items_iter (store : dict pystr) (extra : option (dict (list pystr)))
  : list (pystr * pystr) :=
  flat_map (fun kv : pystr * pystr =>
              let (key, v) := kv in
              (key, v) :: match extra with
                          | None => []
                          | Some e =>
                              map (fun vv => (key, vv))
                                  (match dget e key with None => [] | Some l => l end)
                          end) store.

(** [_AllItemsView.__len__] (_headers.py:144-148). *)
Definition all_items_len (store : dict pystr) (extra : option (dict (list pystr))) : nat :=
  length store +
  match extra with
  | None => 0
  | Some e => fold_right (fun kv n => length (snd kv) + n)%nat 0%nat e
  end.

(** [h.allitems()] (_headers.py:97-101), as the list its iteration yields. *)
Definition h_allitems (h : headers) : list (pystr * pystr) :=
  match h_extra h with
  | None => h_store h
  | Some e => all_items_iter (h_store h) (Some e)
  end.

(** [len(h.allitems())]. *)
Definition h_allitems_len (h : headers) : nat :=
  match h_extra h with
  | None => length (h_store h)
  | Some e => all_items_len (h_store h) (Some e)
  end.

(** [h.items()], [h.values()] (_headers.py:106-116). *)
Definition h_items (h : headers) : list (pystr * pystr) := h_store h.
Definition h_values (h : headers) : list pystr := map snd (h_store h).

(** [key in h] for a [str] key (_headers.py:118-122). *)
Definition h_contains (h : headers) (key : pystr) : bool :=
  let key := lower key in dmem (h_store h) key.

(** [h.get(key, default)]: collections.abc.Mapping.get over [__getitem__]. *)
Definition h_get (h : headers) (key : pystr) : option pystr := h_getitem h key.
Definition h_get_default (h : headers) (key default : pystr) : pystr :=
  match h_getitem h key with Some v => v | None => default end.

(** [h.pop(key, None)]: collections.abc.MutableMapping.pop with a default. *)
Definition h_pop (h : headers) (key : pystr) : option pystr * headers :=
  match h_getitem h key with
  | None => (None, h)
  | Some v => (Some v, match h_delitem h key with Some h' => h' | None => h end)
  end.

(** [Headers(items)] for a sequence of pairs (_headers.py:37-40). *)
Definition h_of_pairs (items : list (pystr * pystr)) : headers :=
  fold_left (fun h kv => h_add h (fst kv) (snd kv)) items h_empty.

(** [Headers(items)] for a Mapping (_headers.py:31-36). *)
Definition h_of_mapping (items : list (pystr * pystr)) : headers :=
  mk_headers (fold_left (fun d kv => dset d (lower (fst kv)) (snd kv)) items []) None.

(** [h.setdefault(key, v)]: collections.abc.MutableMapping.setdefault. *)
Definition h_setdefault (h : headers) (key v : pystr) : pystr * headers :=
  match h_getitem h key with
  | Some x => (x, h)
  | None => (v, h_setitem h key v)
  end.

(** [h.popitem()]: collections.abc.MutableMapping.popitem; [None] is KeyError. *)
Definition h_popitem (h : headers) : option ((pystr * pystr) * headers) :=
  match h_keys h with
  | [] => None
  | k :: _ =>
      match h_getitem h k, h_delitem h k with
      | Some v, Some h' => Some ((k, v), h')
      | _, _ => None
      end
  end.

(** [h.update(pairs)]: collections.abc.MutableMapping.update over a mapping or pairs. *)
Definition h_update (h : headers) (items : list (pystr * pystr)) : headers :=
  fold_left (fun h kv => h_setitem h (fst kv) (snd kv)) items h.

(** ** Operations as data, to talk about histories *)

(** An operation a caller performs on a headers object. *)
Inductive hop :=
| Add (k v : pystr)      (* headers.add(k, v) *)
| Set_ (k v : pystr)     (* headers[k] = v *)
| Del (k : pystr)        (* del headers[k] / headers.pop(k, None) *)
| Clear.                 (* headers.clear() *)

(** Executing one operation; a failing [del] (KeyError) leaves the object unchanged. *)
Definition h_exec (h : headers) (op : hop) : headers :=
  match op with
  | Add k v => h_add h k v
  | Set_ k v => h_setitem h k v
  | Del k => match h_delitem h k with Some h' => h' | None => h end
  | Clear => h_clear h
  end.
Definition h_run (h : headers) (ops : list hop) : headers := fold_left h_exec ops h.
