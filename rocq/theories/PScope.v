(** ResponseMetadata scopes: C25. *)
From Coq Require Import List NArith Bool Arith String.
From Verif Require Import MBase MPyStr MHeaders SHeaders LHeaders MJson MWire MScope SProtocol SLink SScope LScope.
Import ListNotations.

(** After any history of [with] blocks, calls and task creations in any number of contexts, interleaved in any way: the object
    whose attributes the next call in a context sets is that of the innermost open block, and what each object reports is what
    the calls reported while it was the innermost one, in order, and nothing else.  Missing: a block that is entered again with
    an object that is in use ([C25_reentrant_refuted]). *)
Theorem C25_scopes_partial h : history none_open h ->
  (forall c, sc_current (scope_run scopes_new h) c = innermost (all_blocks none_open h) c)
  /\ (Forall (fun o => match o with Report _ r => report_ok r | _ => True end) h -> forall i k,
        let m := ro_md (sc_object (scope_run scopes_new h) i) in
        h_getall (rm_headers m) k = fold_left (headers_after k) (heard i none_open h) []
        /\ h_getall (rm_trailers m) k = fold_left (trailers_after k) (heard i none_open h) []).
Proof.
  intro H. split.
  - apply (si_cur _ _ (run_inv h _ _ si_new H)).
  - intros F i k m. unfold m. rewrite (run_md i h _ _ si_new H).
    assert (Fr : Forall report_ok (heard i none_open h)).
    { clear H. generalize none_open. induction F as [|o h Fo F IH]; intro b; [constructor|]. cbn [heard].
      apply Forall_app. split; [|apply IH]. destruct o as [| |c r|]; try constructor. destruct (innermost b c) as [j|]; [|constructor].
      destruct (Nat.eqb i j); repeat constructor. exact Fo. }
    destruct (reported_values _ md_new (conj h_inv_empty h_inv_empty) Fr) as (_&V1&V2).
    exact (conj (V1 k) (V2 k)).
Qed.
Print Assumptions C25_scopes_partial.

(** Leaving a block restores the outer one: a block, whatever is in it, does not change where later calls report to. *)
Theorem C25_restores h c i body : history none_open (h ++ Enter c i :: body ++ [Exit c i]) ->
  all_blocks none_open (h ++ Enter c i :: body) c = (i, c) :: all_blocks none_open h c ->
  sc_current (scope_run scopes_new (h ++ Enter c i :: body ++ [Exit c i])) c = sc_current (scope_run scopes_new h) c.
Proof.
  intros H E.
  assert (H1 : forall a b x, history b (a ++ x) -> history b a).
  { induction a as [|o a IH]; intros b x Hx; [exact I|]. destruct Hx as [P Hx]. split; [exact P|]. exact (IH _ _ Hx). }
  rewrite (proj1 (C25_scopes_partial _ H)), (proj1 (C25_scopes_partial _ (H1 _ _ _ H))).
  unfold innermost. replace (h ++ Enter c i :: body ++ [Exit c i]) with ((h ++ Enter c i :: body) ++ [Exit c i]) by (now rewrite <- app_assoc).
  unfold all_blocks in *. rewrite fold_left_app. cbn [fold_left after]. unfold put. rewrite Nat.eqb_refl, E. reflexivity.
Qed.
Print Assumptions C25_restores.

(** Nested blocks, and a task of its own that a third object is used in: each hears its own calls. *)
Example C25_example :
  let call v := RHeaders [(lit "x", v); (lit "trailer-t", v)] in
  let h := [Enter 0 1; Report 0 (call (lit "a")); Enter 0 2; Copy 0 7; Report 7 (call (lit "b")); Enter 7 3; Report 0 (RTrailers [(lit "t", lit "c")]); Report 7 (call (lit "d"));
            Exit 0 2; Report 0 (call (lit "e")); Exit 7 3; Exit 0 1; Report 0 (call (lit "f"))] in
  history none_open h /\ Forall (fun o => match o with Report _ r => report_ok r | _ => True end) h
  /\ (let st := scope_run scopes_new h in
      map (fun i => h_getall (rm_trailers (ro_md (sc_object st i))) (lit "t")) [1; 2; 3] = [[lit "e"]; [lit "b"; lit "c"]; [lit "d"]]
      /\ sc_current st 0 = None)
  /\ all_blocks none_open (firstn 8 h) 0 = (2, 0) :: all_blocks none_open (firstn 2 h) 0.
Proof.
  cbv zeta. split; [|split; [|split; [split|]]]; try reflexivity.
  - unfold history.
    assert (D : forall (b : blocks) c l d e, ~ In e (b d) -> (c = d -> ~ In e l) -> ~ In e (put b c l d)).
    { intros b c l d e Hb Hl. unfold put. destruct (Nat.eqb c d) eqn:E; [|exact Hb]. apply Hl. now apply Nat.eqb_eq. }
    repeat match goal with |- _ /\ _ => split | |- True => exact I end; cbn [proper]; try exact I; try reflexivity; try (split; [discriminate|]);
      
      unfold after;
      repeat match goal with
             | |- ~ In _ (put _ _ _ _) => apply D
             | |- ~ _ => fail 1
             | |- _ = _ -> _ => intro; subst
             | |- forall _ : nat, _ => intro
             end; clear D; unfold put, none_open; cbn; intuition congruence.
  - repeat constructor; reflexivity.
Qed.

(** Finding: when the object of an open block is entered again, leaving both blocks does not restore the state before: calls
    made after still report to the object. *)
Theorem C25_reentrant_refuted : exists r,
  let st := scope_run scopes_new [Enter 0 1; Enter 0 1; Exit 0 1; Exit 0 1] in
  sc_current st 0 = Some 1
  /\ h_getall (rm_headers (ro_md (sc_object (scope_step st (Report 0 r)) 1))) (lit "x") = [lit "a"].
Proof. exists (RHeaders [(lit "x", lit "a")]). split; reflexivity. Qed.
Print Assumptions C25_reentrant_refuted.

(** Finding: two calls in one block: the second call's trailers are added to the first one's, and a second call without
    trailers leaves those of the first. *)
Theorem C25_two_calls_refuted : exists first second : list report,
  let m rs := ro_md (sc_object (scope_run scopes_new (Enter 0 1 :: map (Report 0) rs ++ [Exit 0 1])) 1) in
  h_getall (rm_trailers (m second)) (lit "t") = [lit "b"]
  /\ h_getall (rm_trailers (m (first ++ second))) (lit "t") = [lit "a"; lit "b"]
  /\ h_getall (rm_trailers (m (first ++ [RHeaders [(lit "x", lit "y")]]))) (lit "t") = [lit "a"].
Proof.
  exists [RHeaders [(lit "x", lit "1")]; RTrailers [(lit "t", lit "a")]], [RHeaders [(lit "x", lit "2")]; RTrailers [(lit "t", lit "b")]].
  split; [reflexivity|]. split; reflexivity.
Qed.
Print Assumptions C25_two_calls_refuted.
