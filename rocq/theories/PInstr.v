(** C70: clients and applications are instrumented exactly while the instrumentation is switched on. *)
From Coq Require Import List NArith Bool String Lia.
From Verif Require Import MBase MPyStr MIntercept MOtel MInstr.
Import ListNotations.

(** ** Specification *)

(** The providers in force after a history of switching on and off; switching on what is on, or off what is off, does nothing. *)
Definition in_force {P} (hist : list (ins_op P)) : option P :=
  fold_left (fun cur op => match op, cur with
                           | Instrument p, None => Some p
                           | Uninstrument, _ => None
                           | _, _ => cur
                           end) hist None.
(** The interceptors of a client or application: with telemetry first unless they have it, or as given. *)
Definition as_instrumented {I} (is_otel : I -> bool) (o : option I) (given : list I) : list I :=
  match o with
  | None => given
  | Some o => if existsb is_otel given then given else o :: given
  end.
(** The argument of the constructor, and the list it stands for. *)
Definition gives {I} (arg : option (iterable I)) (l : list I) : Prop :=
  match arg with None => l = [] | Some it => it = Sequence l end.
Definition import_of {P} (client : bool) : ins_op P := if client then ImportClient else ImportServer.

(** ** Proofs *)

Definition the_mod {P} (client : bool) (s : instrumentor P) : modst := if client then in_client s else in_server s.

(** Before the module is imported, if the instrumentation was never switched off. *)
Lemma before {P} (client : bool) (pre : list (ins_op P)) : ~ In Uninstrument pre -> ~ In (import_of client) pre ->
  let s := ins_run ins_new pre in
  m_imported (the_mod client s) = false /\ m_layers (the_mod client s) = 0%nat
  /\ match in_force pre with
     | None => in_on s = false /\ in_prov s = None /\ m_hooks (the_mod client s) = 0%nat
     | Some p => in_on s = true /\ in_prov s = Some p /\ m_hooks (the_mod client s) = 1%nat
     end.
Proof.
  induction pre as [|op pre IH] using rev_ind; intros Nu Ni; [destruct client; cbn; auto|].
  assert (Nu' : ~ In Uninstrument pre) by (intro; apply Nu, in_or_app; auto).
  assert (Ni' : ~ In (import_of client) pre) by (intro; apply Ni, in_or_app; auto).
  specialize (IH Nu' Ni'). cbv zeta in *. unfold ins_run, in_force in *. rewrite !fold_left_app. cbn [fold_left].
  destruct IH as (H1&H2&H3). set (s := fold_left ins_exec pre ins_new) in *.
  set (f := fold_left _ pre None) in *.
  destruct op as [p| | |].
  - destruct f as [p0|]; destruct H3 as (O&Pr&Hk); cbn [ins_exec]; rewrite O; [auto|].
    destruct client; cbn [the_mod in_client in_server in_on in_prov] in *; unfold register; rewrite H1; cbn [m_imported m_hooks m_layers]; rewrite Hk; auto.
  - exfalso. apply Nu, in_or_app. right. now left.
  - destruct client; [exfalso; apply Ni, in_or_app; right; now left|]. cbn [ins_exec the_mod in_server in_on in_prov]. auto.
  - destruct client; [|exfalso; apply Ni, in_or_app; right; now left]. cbn [ins_exec the_mod in_client in_on in_prov]. auto.
Qed.

(** After it. *)
Definition settled {P} (client : bool) (cur : option P) (s : instrumentor P) : Prop :=
  m_imported (the_mod client s) = true /\ m_hooks (the_mod client s) = 0%nat
  /\ match cur with
     | None => in_on s = false /\ m_layers (the_mod client s) = 0%nat
     | Some p => in_on s = true /\ in_prov s = Some p /\ m_layers (the_mod client s) = 1%nat
     end.

Lemma after {P} (client : bool) (post : list (ins_op P)) : forall cur s, settled client cur s ->
  settled client (fold_left (fun cur op => match op, cur with Instrument p, None => Some p | Uninstrument, _ => None | _, _ => cur end) post cur)
    (ins_run s post).
Proof.
  induction post as [|op post IH]; intros cur s St; [exact St|]. cbn [fold_left ins_run]. apply IH. clear IH.
  destruct St as (H1&H2&H3). destruct op as [p| | |]; destruct cur as [p0|]; cbn [ins_exec]; destruct H3 as [O H3]; rewrite ?O;
    try (destruct client; cbn [the_mod in_client in_server in_on in_prov] in *; unfold settled, register, unwrap, import_module; cbn [the_mod in_client in_server in_on in_prov];
         rewrite ?H1; cbn [m_imported m_hooks m_layers]; repeat split; try tauto; try (destruct H3 as [_ ->]; reflexivity); try (now rewrite H3)).
  all: repeat split; tauto.
Qed.

(** If the instrumentation was not switched off before the module was imported, then whatever follows, a client or application
    made at any later time has the telemetry interceptor in force at that time, first and once, and otherwise only its own. *)
Theorem C70_partial {P I} (is_otel : I -> bool) (mk : P -> bool -> I) client (pre post : list (ins_op P)) arg given :
  ~ In Uninstrument pre -> gives arg given ->
  let hist := pre ++ import_of client :: post in
  gives (constructed is_otel mk (ins_run ins_new hist) client arg)
    (as_instrumented is_otel (option_map (fun p => mk p client) (in_force hist)) given).
Proof.
  intros Nu G hist.
  (* the first import *)
  assert (F : exists pre1 post1, hist = pre1 ++ import_of client :: post1 /\ ~ In Uninstrument pre1 /\ ~ In (import_of client) pre1).
  { unfold hist. clear hist. revert Nu. induction pre as [|op pre IH]; intro Nu; [exists [], post; repeat split; auto|].
    assert (D : op = import_of client \/ op <> import_of client) by (destruct op, client; (left; reflexivity) || (right; discriminate)).
    destruct D as [->|D].
    - exists [], (pre ++ import_of client :: post). repeat split; auto.
    - destruct (IH ltac:(intro; apply Nu; now right)) as (p1&q1&E&H1&H2). exists (op :: p1), q1. split; [cbn; now rewrite E|].
      split; intros [H|H]; auto. apply Nu. now left. }
  destruct F as (pre1&post1&E&Nu1&Ni1). rewrite E. clear E hist Nu pre post.
  pose proof (before client pre1 Nu1 Ni1) as B. cbv zeta in B.
  assert (S1 : settled client (in_force pre1) (ins_exec (ins_run ins_new pre1) (import_of client))).
  { destruct B as (B1&B2&B3). destruct client; cbn [import_of ins_exec]; unfold settled; cbn [the_mod in_client in_server in_on in_prov] in *;
    unfold import_module; rewrite B1; cbn [m_imported m_hooks m_layers]; rewrite B2; destruct (in_force pre1) as [p|]; destruct B3 as (O&Pr&Hk); rewrite Hk; auto. }
  pose proof (after client post1 _ _ S1) as S2.
  assert (E1 : ins_run (ins_exec (ins_run ins_new pre1) (import_of client)) post1 = ins_run ins_new (pre1 ++ import_of client :: post1)).
  { unfold ins_run. now rewrite fold_left_app. }
  assert (E2 : fold_left (fun cur op => match op, cur with Instrument p, None => Some p | Uninstrument, _ => None | _, _ => cur end) post1 (in_force pre1)
               = in_force (pre1 ++ import_of client :: post1)).
  { unfold in_force. rewrite fold_left_app. cbn [fold_left]. f_equal. destruct client, (fold_left _ pre1 None); reflexivity. }
  rewrite E1, E2 in S2. clear E1 E2 S1 B.
  destruct S2 as (_&_&H). unfold constructed. set (s := ins_run ins_new _) in *. change (if client then in_client s else in_server s) with (the_mod client s).
  destruct (in_force _) as [p|]; cbn [option_map as_instrumented].
  - destruct H as (_&->&->). cbn [Nat.iter nat_rect]. destruct arg as [it|]; cbn [gives init_wrapper] in *.
    + subst it. cbn [iterate]. destruct (existsb is_otel given); reflexivity.
    + subst given. reflexivity.
  - destruct H as (_&->). cbn [Nat.iter nat_rect]. destruct (in_prov s); exact G.
Qed.
Print Assumptions C70_partial.

(** Full statement, refuted (finding): switched off before the module is imported, the instrumentation comes back when it is. *)
Theorem C70_refuted {P I} (is_otel : I -> bool) (mk : P -> bool -> I) (p : P) client :
  let hist := [Instrument p; Uninstrument; import_of client] in
  in_force hist = None /\ constructed is_otel mk (ins_run ins_new hist) client None = Some (Sequence [mk p client]).
Proof. destruct client; split; reflexivity. Qed.
Print Assumptions C70_refuted.
(** ... and switching it off once more is refused, so that it stays. *)
Theorem C70_stays_refuted {P I} (is_otel : I -> bool) (mk : P -> bool -> I) (p : P) client n :
  let hist := [Instrument p; Uninstrument; import_of client] ++ repeat Uninstrument n in
  in_force hist = None /\ constructed is_otel mk (ins_run ins_new hist) client None = Some (Sequence [mk p client]).
Proof.
  cbv zeta. assert (X : forall s : instrumentor P, in_on s = false -> ins_run s (repeat Uninstrument n) = s).
  { induction n as [|n IH]; intros s H; [reflexivity|]. cbn [repeat ins_run fold_left ins_exec]. rewrite H. now apply IH. }
  assert (Y : forall c : option P, c = None -> fold_left (fun cur op => match op, cur with Instrument p, None => Some p | Uninstrument, _ => None | _, _ => cur end) (repeat Uninstrument n) c = None).
  { clear X. induction n as [|n IH]; intros c H; [exact H|]. cbn [repeat fold_left]. apply IH. now subst. }
  unfold in_force, ins_run. rewrite !fold_left_app. split; [apply Y; destruct client; reflexivity|].
  fold (ins_run (fold_left ins_exec [Instrument p; Uninstrument; import_of client] ins_new) (repeat Uninstrument n)).
  rewrite X; destruct client; reflexivity.
Qed.
Print Assumptions C70_stays_refuted.

(** Switched on, imported, off, on with other providers: the conditions hold, and the providers are the later ones. *)
Example C70_example : exists pre post : list (ins_op nat), ~ In Uninstrument pre /\ gives (Some (Sequence [5%nat])) [5%nat]
  /\ in_force (pre ++ import_of true :: post) = Some 2%nat
  /\ constructed (fun i => Nat.leb 10 i) (fun p _ => (10 + p)%nat) (ins_run ins_new (pre ++ import_of true :: post)) true (Some (Sequence [5%nat]))
     = Some (Sequence [12%nat; 5%nat]).
Proof.
  exists [Instrument 1%nat], [Uninstrument; Instrument 2%nat; Instrument 3%nat]. repeat split. cbn. intuition discriminate.
Qed.
