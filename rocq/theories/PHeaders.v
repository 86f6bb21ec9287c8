(** C20, C21: the public header container.
    [h_run h ops] performs the operations [ops] (add / item assignment / item deletion / clear) on [h] in order;
    [values_of], [names_of] (SHeaders.v) compute the expected contents from the history alone. *)
From Coq Require Import List NArith ZArith Bool String Lia.
From Verif Require Import MBase MPyStr MHeaders SHeaders LBase LHeaders.
Import ListNotations.

(** Values under any spelling of a name, after any history. *)
Theorem C20_getall_is_history : forall ops k,
    h_getall (h_run h_empty ops) k = values_of ops k.
Proof. exact getall_spec. Qed.
Print Assumptions C20_getall_is_history.

(** [headers[k]] and [headers.get(k)]: the first value; absent exactly when there is none. *)
Theorem C20_getitem_is_first : forall ops k,
    h_getitem (h_run h_empty ops) k = hd_error (values_of ops k).
Proof. intros. rewrite getitem_getall, getall_spec. reflexivity. Qed.

(** Letter case of the name used to read never matters. *)
Theorem C20_case_insensitive : forall ops k k',
    lower k = lower k' -> h_getall (h_run h_empty ops) k = h_getall (h_run h_empty ops) k'.
Proof. intros ops k k' H. unfold h_getall. now rewrite H. Qed.

(** Construction from pairs keeps every pair; from a mapping, the last value of equal names. *)
Theorem C20_of_pairs : forall ps k,
    h_getall (h_of_pairs ps) k = map snd (filter (fun p => same_name k (fst p)) ps).
Proof.
  intros ps k. rewrite h_of_pairs_run, getall_spec. unfold values_of.
  rewrite <- (app_nil_l (map snd _)). generalize (@nil pystr) as acc.
  induction ps as [|[a b] ps IH]; simpl; intros acc; [now rewrite app_nil_r|].
  rewrite IH. unfold same_name in *. destruct (str_eqb (lower k) (lower a)); simpl; auto.
  now rewrite <- app_assoc.
Qed.

Theorem C20_of_mapping : forall ps k,
    h_getall (h_of_mapping ps) k =
    match rev (filter (fun p => same_name k (fst p)) ps) with (_, v) :: _ => [v] | [] => [] end.
Proof.
  intros ps k. rewrite h_of_mapping_run, getall_spec. unfold values_of.
  induction ps as [|[a b] ps IH] using rev_ind; simpl; auto.
  rewrite map_app, fold_left_app, filter_app, rev_app_distr. simpl. rewrite IH.
  destruct (same_name k a); reflexivity.
Qed.

(** Deleting an absent name raises KeyError and deleting a present one removes all its values. *)
Theorem C20_delete : forall ops k,
    (values_of ops k = [] -> h_delitem (h_run h_empty ops) k = None) /\
    (values_of ops k <> [] -> exists h', h_delitem (h_run h_empty ops) k = Some h' /\
        (forall k', h_getall h' k' = if same_name k' k then [] else values_of ops k')).
Proof.
  intros ops k. split; intro H.
  - apply delitem_none. now rewrite getall_spec.
  - destruct (h_delitem (h_run h_empty ops) k) as [h'|] eqn:E.
    + exists h'. split; auto. intro k'.
      assert (X : h' = h_run h_empty (ops ++ [Del k])).
      { unfold h_run. rewrite fold_left_app. simpl. fold (h_run h_empty ops). now rewrite E. }
      subst. rewrite getall_spec. unfold values_of. rewrite fold_left_app. simpl. reflexivity.
    + apply delitem_none in E. rewrite getall_spec in E. contradiction.
Qed.

(** The derived MutableMapping methods are sequences of the basic operations. *)
Theorem C20_update : forall h items,
    h_update h items = h_run h (map (fun kv => Set_ (fst kv) (snd kv)) items).
Proof.
  intros h items. unfold h_update. revert h. induction items as [|[a b] l IH]; intros; simpl; auto.
Qed.

Theorem C20_pop : forall ops k,
    h_pop (h_run h_empty ops) k = (hd_error (values_of ops k), h_run h_empty (ops ++ [Del k])).
Proof.
  intros. rewrite pop_exec, getall_spec. f_equal. unfold h_run. now rewrite fold_left_app.
Qed.

Theorem C20_setdefault : forall ops k v,
    h_setdefault (h_run h_empty ops) k v =
    match values_of ops k with
    | x :: _ => (x, h_run h_empty ops)
    | [] => (v, h_run h_empty (ops ++ [Set_ k v]))
    end.
Proof.
  intros. unfold h_setdefault. rewrite getitem_getall, getall_spec.
  destruct (values_of ops k); simpl; auto. unfold h_run. now rewrite fold_left_app.
Qed.
Print Assumptions C20_delete.

(** A history mixing spellings, duplicates, overwrite and deletion. *)
Example C20_example :
  h_getall (h_run h_empty [Add (lit "X-Tag") (lit "a"); Add (lit "x-tag") (lit "b"); Set_ (lit "Q") (lit "1");
                           Add (lit "q") (lit "2"); Del (lit "Z"); Add (lit "X-TAG") (lit "c")]) (lit "x-Tag")
  = [lit "a"; lit "b"; lit "c"].
Proof. reflexivity. Qed.

(** C21: the views agree. *)
Theorem C21_keys : forall ops,
    h_keys (h_run h_empty ops) = names_of ops /\ NoDup (h_keys (h_run h_empty ops)).
Proof.
  intro ops. split; [apply keys_spec|]. apply inv_nd, h_inv_run, h_inv_empty.
Qed.

Theorem C21_allitems : forall ops,
    h_allitems (h_run h_empty ops) =
    flat_map (fun k => map (fun v => (k, v)) (values_of ops k)) (names_of ops).
Proof.
  intro ops. rewrite allitems_getall by (apply h_inv_run, h_inv_empty). rewrite keys_spec.
  apply flat_map_ext_in. intros k _. now rewrite getall_spec.
Qed.

Theorem C21_items : forall ops,
    h_items (h_run h_empty ops) =
    flat_map (fun k => match values_of ops k with v :: _ => [(k, v)] | [] => [] end) (names_of ops) /\
    h_values (h_run h_empty ops) = map snd (h_items (h_run h_empty ops)).
Proof.
  intro ops. split; [|reflexivity]. rewrite items_getall by (apply h_inv_run, h_inv_empty). rewrite keys_spec.
  apply flat_map_ext_in. intros k _. now rewrite getall_spec.
Qed.

Theorem C21_lengths : forall ops,
    h_allitems_len (h_run h_empty ops) = List.length (h_allitems (h_run h_empty ops)) /\
    h_len (h_run h_empty ops) = List.length (names_of ops).
Proof.
  intro ops. split; [apply allitems_len_ok, h_inv_run, h_inv_empty|].
  rewrite <- keys_spec. unfold h_len, h_keys, dkeys. now rewrite map_length.
Qed.

Theorem C21_contains : forall ops k,
    (h_contains (h_run h_empty ops) k = true <-> values_of ops k <> []) /\
    (In (lower k) (names_of ops) <-> values_of ops k <> []).
Proof.
  intros ops k.
  assert (A : h_contains (h_run h_empty ops) k = true <-> values_of ops k <> []).
  { rewrite contains_getall, getall_spec. destruct (values_of ops k); simpl; split; congruence. }
  split; [exact A|]. rewrite <- A, <- keys_spec. unfold h_contains, h_keys. symmetry. apply dmem_true.
Qed.
Print Assumptions C21_keys.
Print Assumptions C21_allitems.
Print Assumptions C21_items.
Print Assumptions C21_lengths.
Print Assumptions C21_contains.

Example C21_example :
  let h := h_run h_empty [Add (lit "B") (lit "1"); Add (lit "a") (lit "2"); Add (lit "b") (lit "3")] in
  h_allitems h = [(lit "b", lit "1"); (lit "b", lit "3"); (lit "a", lit "2")] /\ h_allitems_len h = 3.
Proof. split; reflexivity. Qed.
