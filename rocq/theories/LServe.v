(** Lemmas for the server process. *)
From Coq Require Import List NArith Arith Bool Lia.
From Verif Require Import MBase MPyStr MWire MTimeout MServer MAsgi MLifespan MEndless MServe SServe.
Import ListNotations.

Lemma nth_set {X} i j (x : X) l : nth_error (set_nth i x l) j = if Nat.eqb i j then match nth_error l j with Some _ => Some x | None => None end else nth_error l j.
Proof.
  revert i j. induction l as [|y l IH]; intros [|i] [|j]; cbn; try reflexivity.
  - now destruct (Nat.eqb i j).
  - apply IH.
Qed.
Lemma length_set {X} i (x : X) l : List.length (set_nth i x l) = List.length l.
Proof. revert i. induction l; intros [|i]; cbn; auto. Qed.

Lemma happens_app {V A B} (s : process V A B) h h' : happens s (h ++ h') = happens (happens s h) h'.
Proof. apply fold_left_app. Qed.
Lemma happens_cons {V A B} (s : process V A B) x h : happens s (x :: h) = happens (happen s x) h.
Proof. reflexivity. Qed.

Lemma happen_app {V A B} (s : process V A B) x : pr_app (happen s x) = pr_app s.
Proof.
  destruct x as [c|i|i m r]; cbn; [reflexivity| |]; destruct (nth_error _ i); try reflexivity.
  - now destruct (run_task _ _).
  - now destruct (tell_task _ _ _ _).
Qed.
Lemma happens_pr_app {V A B} h : forall (s : process V A B), pr_app (happens s h) = pr_app s.
Proof. induction h as [|x h IH]; intro s; [reflexivity|]. rewrite happens_cons. now rewrite IH, happen_app. Qed.
Lemma happen_length {V A B} (s : process V A B) x : List.length (pr_tasks (happen s x)) = List.length (pr_tasks s) + calls [x].
Proof.
  destruct x as [c|i|i m r]; cbn; [now rewrite app_length| |]; destruct (nth_error _ i); try lia.
  - destruct (run_task _ _). cbn. rewrite length_set. lia.
  - destruct (tell_task _ _ _ _). cbn. rewrite length_set. lia.
Qed.
Lemma calls_app h h' : calls (h ++ h') = calls h + calls h'.
Proof. unfold calls. now rewrite filter_app, app_length. Qed.
Lemma turns_app i h h' : turns i (h ++ h') = turns i h + turns i h'.
Proof. unfold turns. now rewrite filter_app, app_length. Qed.
Lemma happens_length {V A B} h : forall (s : process V A B), List.length (pr_tasks (happens s h)) = List.length (pr_tasks s) + calls h.
Proof.
  induction h as [|x h IH]; intro s; [cbn; lia|]. rewrite happens_cons.
  rewrite IH, happen_length. change (x :: h) with ([x] ++ h). rewrite calls_app. lia.
Qed.

(** What the i-th call is after one action. *)
Lemma happen_nth {V A B} (s : process V A B) x i t : nth_error (pr_tasks s) i = Some t ->
  nth_error (pr_tasks (happen s x)) i =
  Some (match x with
        | Call _ => t
        | Run j => if Nat.eqb j i then snd (run_task (pr_obj s) t) else t
        | Message j m r => if Nat.eqb j i then snd (tell_task (pr_obj s) t m r) else t
        end).
Proof.
  intro H. destruct x as [c|j|j m r]; cbn.
  - rewrite nth_error_app1; [assumption|]. apply nth_error_Some. congruence.
  - destruct (Nat.eqb_spec j i) as [->|Ne].
    + rewrite H. destruct (run_task (pr_obj s) t) as [a t'] eqn:E. cbn. now rewrite nth_set, Nat.eqb_refl, H.
    + destruct (nth_error (pr_tasks s) j); [|assumption]. destruct (run_task _ _). cbn. rewrite nth_set.
      apply Nat.eqb_neq in Ne. now rewrite Ne.
  - destruct (Nat.eqb_spec j i) as [->|Ne].
    + rewrite H. destruct (tell_task (pr_obj s) t m r) as [a t'] eqn:E. cbn. now rewrite nth_set, Nat.eqb_refl, H.
    + destruct (nth_error (pr_tasks s) j); [|assumption]. destruct (tell_task _ _ _ _). cbn. rewrite nth_set.
      apply Nat.eqb_neq in Ne. now rewrite Ne.
Qed.
Lemma happens_call {V A B} (s : process V A B) c : nth_error (pr_tasks (happen s (Call c))) (List.length (pr_tasks s)) = Some (TNew c).
Proof. cbn. rewrite nth_error_app2, Nat.sub_diag by lia. reflexivity. Qed.

Lemma turns_cons i x h : turns i (x :: h) = turns i [x] + turns i h.
Proof. change (x :: h) with ([x] ++ h). apply turns_app. Qed.

Lemma turns_run i j : turns i [Run j] = if Nat.eqb j i then 1 else 0.
Proof. unfold turns. cbn. rewrite (Nat.eqb_sym i j). now destruct (Nat.eqb j i). Qed.
Lemma turns_call i c : turns i [Call c] = 0.
Proof. reflexivity. Qed.
Lemma turns_message i j m r : turns i [Message j m r] = 0.
Proof. reflexivity. Qed.

(** A request in service goes on with the endpoints it began with. *)
Lemma goes_on_serving {V A B} now sc en d i h : forall n (s : process V A B), nth_error (pr_tasks s) i = Some (TServe now sc en d n) ->
  nth_error (pr_tasks (happens s h)) i = Some (TServe now sc en d (turns i h + n)).
Proof.
  induction h as [|x h IH]; intros n s H; [exact H|]. rewrite happens_cons, turns_cons.
  apply (happen_nth _ x) in H. destruct x as [c|j|j m r]; rewrite ?turns_run, ?turns_call, ?turns_message.
  - now apply IH.
  - destruct (Nat.eqb j i); cbn [run_task snd] in H.
    + rewrite (IH _ _ H). cbn. do 2 f_equal. lia.
    + now rewrite (IH _ _ H).
  - destruct (Nat.eqb j i); now rewrite (IH _ _ H).
Qed.
Lemma stays_raised {V A B} e i h : forall (s : process V A B), nth_error (pr_tasks s) i = Some (TRaised e) ->
  nth_error (pr_tasks (happens s h)) i = Some (TRaised e).
Proof.
  induction h as [|x h IH]; intros s H; [exact H|]. rewrite happens_cons. apply IH.
  apply (happen_nth _ x) in H. rewrite H. destruct x as [c|j|j m r]; try destruct (Nat.eqb j i); reflexivity.
Qed.
Lemma waits {V A B} c i h : forall (s : process V A B), nth_error (pr_tasks s) i = Some (TNew c) -> turns i h = 0 ->
  nth_error (pr_tasks (happens s h)) i = Some (TNew c).
Proof.
  induction h as [|x h IH]; intros s H T; [exact H|]. rewrite happens_cons. rewrite turns_cons in T. apply IH; [|lia].
  apply (happen_nth _ x) in H. rewrite H. destruct x as [c'|j|j m r]; try reflexivity.
  - rewrite turns_run in T. destruct (Nat.eqb j i); [lia|reflexivity].
  - destruct (Nat.eqb j i); reflexivity.
Qed.

Definition keeps {V A B} (Inv : lapp V (eendpoint A B) -> Prop) (x : action) : Prop :=
  forall s : process V A B, Inv (pr_obj s) -> Inv (pr_obj (happen s x)).
Lemma kept {V A B} (Inv : lapp V (eendpoint A B) -> Prop) h : Forall (keeps Inv) h -> forall s : process V A B, Inv (pr_obj s) -> Inv (pr_obj (happens s h)).
Proof. induction 1 as [|x h K Hh IH]; intros s I0; [exact I0|]. rewrite happens_cons. apply IH, K, I0. Qed.

Lemma serves {V A B} (Inv : lapp V (eendpoint A B) -> Prop) d now sc en i h :
  Forall (keeps Inv) h -> (forall a, Inv a -> exists a', http_endpoints a = Ok (a', d)) ->
  forall s : process V A B, Inv (pr_obj s) -> nth_error (pr_tasks s) i = Some (TNew (CHttp now sc en)) ->
  nth_error (pr_tasks (happens s h)) i = Some (match turns i h with O => TNew (CHttp now sc en) | S n => TServe now sc en d n end).
Proof.
  intros K He. induction K as [|x h Kx Kh IH]; intros s I0 H; [exact H|]. rewrite happens_cons, turns_cons.
  pose proof (Kx _ I0) as I1. apply (happen_nth _ x) in H. destruct x as [c|j|j m r]; rewrite ?turns_run, ?turns_call, ?turns_message.
  - now apply IH.
  - destruct (Nat.eqb j i); cbn [run_task snd] in H.
    + destruct (He _ I0) as (a'&E). rewrite E in H. cbn [snd] in H. rewrite (goes_on_serving _ _ _ _ _ h _ _ H). cbn [Nat.add]. now rewrite Nat.add_0_r.
    + now apply IH.
  - destruct (Nat.eqb j i); now apply IH.
Qed.

(** The application object under a service object, under a generator not started, and once a service is started. *)
Definition with_object {V E} (v : V) (f : V -> res (dict E)) d (a : lapp V E) : Prop :=
  la_service a = SvcObject v /\ la_endpoints a = f /\ (la_resolved a = None \/ la_resolved a = Some d).
Definition unstarted {V E} g (f : V -> res (dict E)) (a : lapp V E) : Prop := a = mk_lapp (SvcGenerator g) f None.
Definition started {V E} (d : dict E) (a : lapp V E) : Prop := (exists g, la_service a = SvcGenerator g) /\ la_resolved a = Some d.

Lemma with_object_endpoints {V E} (v : V) (f : V -> res (dict E)) d a : f v = Ok d -> with_object v f d a ->
  exists a', http_endpoints a = Ok (a', d) /\ with_object v f d a'.
Proof.
  destruct a as [sv fa re]. intros F (S1&S2&S3). cbn in S1, S2, S3. subst sv fa. unfold http_endpoints. cbn [la_resolved la_service la_endpoints].
  destruct S3 as [->| ->]; [rewrite F|destruct d; [rewrite F|]]; cbn; eexists; (split; [reflexivity|]); unfold with_object; cbn; auto.
Qed.
Lemma with_object_turn {V E} (v : V) (f : V -> res (dict E)) d a it m r : f v = Ok d -> with_object v f d a ->
  with_object v f d (fst (fst (fst (life_turn r it a m)))).
Proof.
  destruct a as [sv fa re]. intros F (S1&S2&S3). cbn in S1, S2, S3. subst sv fa. unfold life_turn.
  destruct m; cbn; try rewrite F; destruct r; try destruct it; cbn; unfold with_object; cbn; auto.
Qed.
Lemma keeps_object {V A B} (v : V) (f : V -> res (dict (eendpoint A B))) d x : f v = Ok d -> keeps (with_object v f d) x.
Proof.
  intros F s I0. destruct x as [c|i|i m r]; cbn; [assumption| |]; destruct (nth_error _ i) as [t|]; try assumption.
  - destruct t as [[]| | | |]; cbn; try assumption. destruct (with_object_endpoints _ _ _ _ F I0) as (a'&E&I1). now rewrite E.
  - destruct t; cbn; try assumption. pose proof (with_object_turn v f d (pr_obj s) it m r F I0) as W.
    destruct (life_turn r it (pr_obj s) m) as [[[a it'] t] out]. exact W.
Qed.

Lemma keeps_unstarted {V A B} g (f : V -> res (dict (eendpoint A B))) x :
  match x with Message _ m _ => m = LOther | _ => True end -> keeps (unstarted g f) x.
Proof.
  intros Hx s I0. destruct x as [c|i|i m r]; cbn; [assumption| |]; destruct (nth_error _ i) as [t|]; try assumption.
  - destruct t as [[]| | | |]; cbn; try assumption. pose proof I0 as I1. unfold unstarted in I1. destruct (pr_obj s) as [sv fs re]. injection I1 as -> -> ->. exact I0.
  - subst m. destruct t; cbn; assumption.
Qed.
Lemma keeps_started {V A B} (d : dict (eendpoint A B)) x : d <> [] ->
  match x with Message _ m _ => m <> LStartup | _ => True end -> keeps (V := V) (started d) x.
Proof.
  intros Nd Hx s I0. destruct x as [c|i|i m r]; cbn; [assumption| |]; destruct (nth_error _ i) as [t|]; try assumption.
  - destruct t as [[]| | | |]; cbn; try assumption. destruct I0 as ((g&G)&R). unfold http_endpoints. rewrite R.
    destruct d as [|e d]; [now elim Nd|]. cbn. split; eauto.
  - destruct t; cbn; try assumption. destruct I0 as ((g&G)&R). unfold life_turn.
    destruct m; try (now elim Hx); rewrite ?G; destruct it; cbn; try (destruct (gen_close g) as [[[]|[]] g']); destruct r; cbn; split; cbn; eauto.
Qed.
Lemma started_endpoints {V E} (d : dict E) (a : lapp V E) : d <> [] -> started d a -> exists a', http_endpoints a = Ok (a', d).
Proof. intros Nd (_&R). unfold http_endpoints. rewrite R. destruct d; [now elim Nd|eauto]. Qed.

(** A lifespan call that has run listens until it gets more than other messages. *)
Lemma listens {V A B} l h : only_messages (fun m => m = LOther) h -> forall (s : process V A B),
  (exists ev, nth_error (pr_tasks s) l = Some (TLife false ev)) \/ (nth_error (pr_tasks s) l = Some (TNew CLifespan) /\ turns l h <> 0) ->
  exists ev, nth_error (pr_tasks (happens s h)) l = Some (TLife false ev).
Proof.
  induction 1 as [|x h Hx Hh IH]; intros s H.
  - destruct H as [H|[_ H]]; [exact H|now elim H].
  - rewrite happens_cons. apply IH. destruct H as [(ev&H)|[H T]].
    + left. apply (happen_nth _ x) in H. rewrite H. destruct x as [c|j|j m r]; try destruct (Nat.eqb j l); eauto; cbn in Hx; subst; cbn; eauto.

    + rewrite turns_cons in T. pose proof (happen_nth _ x _ _ H) as H'. rewrite H'. destruct x as [c|j|j m r].
      * right. split; [reflexivity|exact T].
      * rewrite turns_run in T. destruct (Nat.eqb j l); [left; cbn; eauto|right; split; [reflexivity|exact T]].
      * right. destruct (Nat.eqb j l); split; try reflexivity; exact T.
Qed.

(** Endpoints once made are kept. *)
Definition object_made {V E} (v : V) (f : V -> res (dict E)) d (a : lapp V E) : Prop := with_object v f d a /\ la_resolved a = Some d.
Lemma made_endpoints {V E} (v : V) (f : V -> res (dict E)) d a : f v = Ok d -> with_object v f d a ->
  exists a', http_endpoints a = Ok (a', d) /\ object_made v f d a'.
Proof.
  destruct a as [sv fa re]. intros F (S1&S2&S3). cbn in S1, S2, S3. subst sv fa. unfold http_endpoints. cbn [la_resolved la_service la_endpoints].
  destruct S3 as [->| ->]; [rewrite F|destruct d; [rewrite F|]]; cbn; eexists; (split; [reflexivity|]); unfold object_made, with_object; cbn; auto.
Qed.
Lemma keeps_made {V A B} (v : V) (f : V -> res (dict (eendpoint A B))) d x : f v = Ok d -> keeps (object_made v f d) x.
Proof.
  intros F s I0. destruct x as [c|i|i m r]; cbn; [assumption| |]; destruct (nth_error _ i) as [t|]; try assumption.
  - destruct t as [[]| | | |]; cbn; try assumption. destruct (made_endpoints _ _ _ _ F (proj1 I0)) as (a'&E&I1). now rewrite E.
  - destruct t; cbn; try assumption. destruct (pr_obj s) as [sv fa re]. destruct I0 as ((S1&S2&_)&S3). cbn in S1, S2, S3. subst sv fa re.
    unfold life_turn. destruct m; cbn; try rewrite F; destruct r; try destruct it; cbn; unfold object_made, with_object; cbn; auto.
Qed.
