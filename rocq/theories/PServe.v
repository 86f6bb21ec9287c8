(** C86: concurrent calls of one application. *)
From Coq Require Import List NArith ZArith Arith Bool String Lia.
From Verif Require Import MBase MPyStr MHeaders MUtf8 MWire MEnvelope MTimeout MProtocol MClient MServer MAsgi MLifespan MEndless MServe SServe
  LServe PProtocol PResponse PRequest PStop PEndless.
Import ListNotations.

(** With a service object: whatever other requests and lifespans there are, before, between and after, a request is where it
    is with [n] turns of its own alone in a fresh application. *)
Theorem C86_independent {V A B} (ap : app A B) (v : V) (f : V -> res (dict (eendpoint A B))) d now sc en before after :
  f v = Ok d ->
  let i := calls before in
  let p := proc_new ap (SvcObject v) f in
  sight_of (happens p (before ++ Call (CHttp now sc en) :: after)) i
  = sight_of (happens p (alone (CHttp now sc en) (turns i after))) 0
  /\ sight_of (happens p (before ++ Call (CHttp now sc en) :: after)) i
  = Some match turns i after with O => Waiting | S n => Answering (asgi_after n (mk_eapp ap d) now sc en) end.
Proof.
  intros F i p.
  assert (G : forall before after, sight_of (happens p (before ++ Call (CHttp now sc en) :: after)) (calls before)
     = Some match turns (calls before) after with O => Waiting | S n => Answering (asgi_after n (mk_eapp ap d) now sc en) end).
  { clear i before after. intros before after. unfold sight_of. rewrite happens_app, happens_cons.
    assert (I0 : with_object v f d (pr_obj (happens p before))).
    { apply kept; [apply Forall_forall; intros x _; now apply keeps_object|]. unfold with_object. cbn. auto. }
    pose proof (keeps_object v f d (Call (CHttp now sc en)) F _ I0) as I1.
    pose proof (happens_call (happens p before) (CHttp now sc en)) as C. rewrite happens_length in C. cbn [proc_new pr_tasks List.length p Nat.add] in C.
    rewrite (serves (with_object v f d) d now sc en (calls before) after) with (2 := fun a Ia => match with_object_endpoints v f d a F Ia with ex_intro _ a' (conj E _) => ex_intro _ a' E end) (3 := I1) (4 := C)
      by (apply Forall_forall; intros x _; now apply keeps_object).
    rewrite !happens_pr_app, happen_app, happens_pr_app. now destruct (turns (calls before) after). }
  split; [|apply G]. pose proof (G before after) as G1. fold i in G1. rewrite G1. clear G1. specialize (G [] (repeat (Run 0) (turns i after))). cbn [List.app] in G.
  unfold alone. change (calls []) with 0 in G. rewrite G.
  replace (turns 0 (repeat (Run 0) (turns i after))) with (turns i after); [reflexivity|].
  generalize (turns i after). clear. induction n as [|n IH]; [reflexivity|]. cbn [repeat]. rewrite turns_cons, <- IH. reflexivity.
Qed.
Print Assumptions C86_independent.

(** The endpoints are made at the first request, and kept whatever happens then. *)
Theorem C86_made_once {V A B} (ap : app A B) (v : V) (f : V -> res (dict (eendpoint A B))) d now sc en before after :
  f v = Ok d -> turns (calls before) after <> 0 ->
  la_resolved (pr_obj (happens (proc_new ap (SvcObject v) f) (before ++ Call (CHttp now sc en) :: after))) = Some d.
Proof.
  intros F T. set (p := proc_new ap (SvcObject v) f). rewrite happens_app, happens_cons.
  assert (I0 : with_object v f d (pr_obj (happens p before))).
  { apply kept; [apply Forall_forall; intros x _; now apply keeps_object|]. unfold with_object. cbn. auto. }
  pose proof (keeps_object v f d (Call (CHttp now sc en)) F _ I0) as I1.
  pose proof (happens_call (happens p before) (CHttp now sc en)) as C. rewrite happens_length in C. cbn [proc_new pr_tasks List.length p Nat.add] in C.
  revert I1 C T. generalize (happen (happens p before) (Call (CHttp now sc en))) (calls before). intros s i. revert s.
  induction after as [|x h IH]; intros s I1 C T; [now elim T|]. rewrite happens_cons. pose proof (happen_nth _ x _ _ C) as C'.
  pose proof (keeps_object v f d x F _ I1) as I2. rewrite turns_cons in T. destruct x as [c|j|j m r].
  - apply IH; auto.
  - rewrite turns_run in T. destruct (Nat.eqb_spec j i) as [->|Ne]; [|apply IH; auto].
    assert (M : object_made v f d (pr_obj (happen s (Run i)))).
    { cbn. rewrite C. cbn [run_task]. destruct (made_endpoints v f d _ F I1) as (a'&E&Ma). now rewrite E. }
    apply (kept (object_made v f d) h); [apply Forall_forall; intros y _; now apply keeps_made|exact M].
  - apply IH; auto. rewrite C'. now destruct (Nat.eqb j i).
Qed.
Print Assumptions C86_made_once.

(** Once a request is being served nothing else changes what it is served with: not the end or restart of a lifespan. *)
Theorem C86_in_service {V A B} (s : process V A B) i now sc en d n after :
  nth_error (pr_tasks s) i = Some (TServe now sc en d n) ->
  sight_of (happens s after) i = Some (Answering (asgi_after (turns i after + n) (mk_eapp (pr_app s) d) now sc en)).
Proof. intro H. unfold sight_of. rewrite (goes_on_serving _ _ _ _ _ after _ _ H). now rewrite happens_pr_app. Qed.
Print Assumptions C86_in_service.

(** With a generator: a request that runs before any startup is refused, and stays so. *)
Theorem C86_before_startup {V A B} (ap : app A B) g (f : V -> res (dict (eendpoint A B))) now sc en before between rest :
  only_messages (fun m => m = LOther) (before ++ between) ->
  let i := calls before in turns i between <> 0 ->
  sight_of (happens (proc_new ap (SvcGenerator g) f) (before ++ Call (CHttp now sc en) :: between ++ rest)) i = Some (Raising no_lifespan).
Proof.
  intros Om i T. unfold only_messages in Om. rewrite Forall_app in Om. destruct Om as (Ob&Oa).
  rewrite happens_app, happens_cons, happens_app.
  set (p := proc_new ap (SvcGenerator g) f).
  assert (I0 : unstarted g f (pr_obj (happens p before))).
  { apply kept; [|reflexivity]. eapply Forall_impl; [|exact Ob]. intros x Hx. apply keeps_unstarted. destruct x; auto. }
  pose proof (keeps_unstarted g f (Call (CHttp now sc en)) I _ I0) as I1.
  pose proof (happens_call (happens p before) (CHttp now sc en)) as C. rewrite happens_length in C. cbn [proc_new pr_tasks List.length p Nat.add] in C.
  fold p i in C. revert I1 C. generalize (happen (happens p before) (Call (CHttp now sc en))). intros s I1 C.
  assert (R : nth_error (pr_tasks (happens s between)) i = Some (TRaised no_lifespan)).
  { clear I0 Ob. revert s I1 C. induction Oa as [|x h Hx Hh IH]; intros s I1 C; [now elim T|]. rewrite happens_cons.
    assert (Kx : keeps (V := V) (unstarted g f) x) by (apply keeps_unstarted; destruct x; auto).
    pose proof (happen_nth _ x _ _ C) as C'. rewrite turns_cons in T. destruct x as [c|j|j m r].
    - apply IH; auto.
    - rewrite turns_run in T. destruct (Nat.eqb j i).
      + cbn [run_task] in C'. replace (http_endpoints (pr_obj s)) with (@Raise (lapp V (eendpoint A B) * dict (eendpoint A B)) no_lifespan) in C'.
        * apply stays_raised. exact C'.
        * unfold unstarted in I1. rewrite I1. reflexivity.
      + apply IH; auto.
    - apply IH; auto. rewrite C'. now destruct (Nat.eqb j i). }
  unfold sight_of. now rewrite (stays_raised _ _ rest _ R).
Qed.
Print Assumptions C86_before_startup.

(** A request that first runs after the startup of a lifespan is where it is alone in an application of the service the
    generator yielded, whenever it was called and whatever else happens, shutdown included. *)
Theorem C86_after_startup {V A B} (ap : app A B) v next c (f : V -> res (dict (eendpoint A B))) d now sc en h0 h1 r h2 before after :
  f v = Ok d -> d <> [] ->
  let l := calls h0 in turns l h1 <> 0 ->
  only_messages (fun m => m = LOther) (h0 ++ h1) -> only_messages (fun m => m <> LStartup) h2 ->
  let i := calls before in
  let h := h0 ++ Call CLifespan :: h1 ++ Message l LStartup r :: h2 in
  h = before ++ Call (CHttp now sc en) :: after -> turns i (h0 ++ Call CLifespan :: h1) = 0 ->
  sight_of (happens (proc_new ap (SvcGenerator (GenNew (SvYield v next c))) f) h) i
  = sight_of (happens (proc_new ap (SvcObject v) f) (alone (CHttp now sc en) (turns i after))) 0.
Proof.
  intros F Nd l Tl O1 O2 i h Eh Ti.
  pose proof (C86_independent ap v f d now sc en [] (repeat (Run 0) (turns i after)) F) as [_ Al]. cbn [List.app] in Al.
  change (calls []) with 0 in Al. unfold alone. rewrite Al. clear Al.
  replace (turns 0 (repeat (Run 0) (turns i after))) with (turns i after)
    by (generalize (turns i after); clear; induction n as [|n IH]; [reflexivity|]; cbn [repeat]; now rewrite turns_cons, <- IH).
  set (p := proc_new ap (SvcGenerator (GenNew (SvYield v next c))) f).
  set (g := GenNew (SvYield v next c)) in p.
  (* the object after the startup *)
  assert (Pre : h = (h0 ++ Call CLifespan :: h1) ++ Message l LStartup r :: h2) by (unfold h; now rewrite <- app_assoc).
  set (pre := h0 ++ Call CLifespan :: h1) in *.
  assert (Op : only_messages (fun m => m = LOther) pre).
  { unfold pre, only_messages in *. rewrite Forall_app in *. destruct O1. repeat split; auto. }
  assert (Iu : unstarted g f (pr_obj (happens p pre))).
  { apply kept; [|reflexivity]. eapply Forall_impl; [|exact Op]. intros x Hx. apply keeps_unstarted. destruct x; auto. }
  assert (Li : exists ev, nth_error (pr_tasks (happens p pre)) l = Some (TLife false ev)).
  { unfold pre. rewrite happens_app, happens_cons. apply listens.
    - unfold only_messages in *. rewrite Forall_app in O1. tauto.
    - right. split; [|exact Tl]. pose proof (happens_call (happens p h0) CLifespan) as C. rewrite happens_length in C. exact C. }
  assert (Is : started d (pr_obj (happen (happens p pre) (Message l LStartup r)))).
  { destruct Li as (ev&Li). cbn [happen]. rewrite Li. unfold tell_task, life_turn. unfold unstarted in Iu. rewrite Iu. cbn. rewrite F.
    destruct r; cbn; split; cbn; eauto. }
  assert (K2 : Forall (keeps (V := V) (started d)) h2).
  { eapply Forall_impl; [|exact O2]. intros x Hx. apply keeps_started; [assumption|]. destruct x; auto. }
  assert (Sv : forall a : lapp V (eendpoint A B), started d a -> exists a', http_endpoints a = Ok (a', d)) by (intros; now apply started_endpoints).
  assert (Goal : nth_error (pr_tasks (happens p h)) i
     = Some match turns i after with O => TNew (CHttp now sc en) | S n => TServe now sc en d n end).
  { rewrite Pre in Eh. assert (Eh' := Eh). apply app_eq_app in Eh'. destruct Eh' as (l'&[(P&Q)|(P&Q)]).
    - (* called before the startup, or by the action that is the startup: impossible *)
      destruct l' as [|x l']; [cbn in Q; discriminate|]. cbn in Q. injection Q as <- Q.
      rewrite P in Ti. rewrite turns_app, turns_cons in Ti. assert (T0 : turns i l' = 0) by lia.
      assert (W : nth_error (pr_tasks (happens p pre)) i = Some (TNew (CHttp now sc en))).
      { rewrite P, happens_app, happens_cons. apply waits; [|exact T0].
        pose proof (happens_call (happens p before) (CHttp now sc en)) as C. rewrite happens_length in C. exact C. }
      rewrite Pre, happens_app, happens_cons.
      rewrite Q, turns_app, T0, turns_cons, turns_message. cbn [Nat.add].
      apply (serves (started d) d now sc en i h2 K2 Sv _ Is).
      rewrite (happen_nth _ _ _ _ W). now destruct (Nat.eqb l i).
    - destruct l' as [|x l']; [cbn in Q; discriminate|]. cbn in Q. injection Q as <- Q.
      rewrite Pre, happens_app, happens_cons, Q, happens_app, happens_cons. rewrite Q in K2. apply Forall_app in K2. destruct K2 as (K2&K3).
      apply Forall_cons_iff in K3. destruct K3 as (K4&K5). apply (serves (started d) d now sc en i after K5 Sv).
      + apply K4. apply kept; assumption.
      + unfold i. rewrite P. replace (calls (pre ++ Message l LStartup r :: l')) with (List.length (pr_tasks (happens (happen (happens p pre) (Message l LStartup r)) l'))); [apply happens_call|].
        rewrite happens_length, happen_length, happens_length. rewrite calls_app. change (Message l LStartup r :: l') with ([Message l LStartup r] ++ l'). rewrite calls_app. cbn. lia. }
  unfold sight_of. rewrite Goal, happens_pr_app. now destruct (turns i after).
Qed.
Print Assumptions C86_after_startup.

(** The lifespan of the process is that of C50. *)
Theorem C86_lifespan {V A B} (ap : app A B) s (f : V -> res (dict (eendpoint A B))) o ms :
  let '(a, t, out) := lifespan o (lapp_new s f) ms in
  let p := happens (proc_new ap s f) (alone CLifespan 1 ++ told o 0 ms) in
  sight_of p 0 = Some (Living t out) /\ pr_obj p = a.
Proof.
  unfold lifespan, alone. cbn [repeat List.app]. rewrite !happens_cons. cbn [happen proc_new pr_tasks pr_obj pr_app nth_error List.app run_task set_nth].
  assert (Over : forall ms a n ev out, happens (mk_proc ap a [@TLifeOver A B ev out]) (told o n ms) = mk_proc (V := V) ap a [TLifeOver ev out]).
  { clear. induction ms as [|m ms IH]; intros a n ev out; [reflexivity|]. cbn [told]. rewrite happens_cons. cbn. apply IH. }
  assert (G : forall ms (a : lapp V (eendpoint A B)) n it ev, let '(a', t, out) := lifespan_loop o n it a ms in
     let p := happens (mk_proc ap a [@TLife A B it ev]) (told o n ms) in sight_of p 0 = Some (Living (ev ++ t) out) /\ pr_obj p = a').
  { clear ms. induction ms as [|m ms IH]; intros a n it ev; [cbn; unfold sight_of; unfold sight_of; cbn; rewrite app_nil_r; split; reflexivity|]. cbn [lifespan_loop told]. rewrite happens_cons.
    cbn [happen pr_tasks pr_obj pr_app nth_error tell_task]. unfold life_turn, lsend. destruct m as [| | |e|].
    - destruct (la_service a) as [v|g].
      + destruct (la_endpoints a v) as [d|e]; cbn [set_nth].
        * destruct (o n); cbn [set_nth]; rewrite ?Over.
          -- specialize (IH (set_resolved a d) (S n) it (ev ++ [TGot LStartup; TSent StartupComplete])).
             cbn [List.app]. destruct (lifespan_loop o (S n) it (set_resolved a d) ms) as [[a' t'] out']. rewrite <- app_assoc in IH. exact IH.
          -- unfold sight_of; cbn; split; reflexivity.
          -- unfold sight_of; cbn; split; reflexivity.
        * rewrite Over. unfold sight_of; cbn; split; reflexivity.
      + destruct (gen_next g) as [[v|[e|]] g'] eqn:Gn.
        * cbn [la_endpoints set_service]. destruct (la_endpoints a v) as [d|e]; cbn [set_nth].
          -- destruct (o n); cbn [set_nth]; rewrite ?Over.
             ++ match goal with |- context[lifespan_loop _ _ _ ?a1 _] => specialize (IH a1 (S n) true (ev ++ [TGot LStartup; TAdvanced; TSent StartupComplete])) end.
                cbn [List.app]. match goal with |- context[lifespan_loop ?o ?n ?it ?a1 ?ms] => destruct (lifespan_loop o n it a1 ms) as [[a' t'] out'] end. rewrite <- app_assoc in IH. exact IH.
             ++ unfold sight_of; cbn; split; reflexivity.
             ++ unfold sight_of; cbn; split; reflexivity.
          -- rewrite Over. unfold sight_of; cbn; split; reflexivity.
        * destruct (o n); cbn [set_nth]; rewrite ?Over; unfold sight_of; cbn; split; reflexivity.
        * cbn [set_nth]. rewrite Over. unfold sight_of; cbn; split; reflexivity.
    - destruct it; [destruct (la_service a) as [v|g]; [|destruct (gen_close g) as [[u|[e|]] g'] eqn:Gn]|];
        try (destruct (o n)); cbn [set_nth]; rewrite ?Over; unfold sight_of; cbn; split; reflexivity.
    - cbn [set_nth]. specialize (IH a n it (ev ++ [TGot LOther])). destruct (lifespan_loop o n it a ms) as [[a' t'] out'].
      rewrite <- app_assoc in IH. exact IH.
    - cbn [set_nth]. rewrite Over. unfold sight_of; cbn; rewrite app_nil_r; split; reflexivity.
    - cbn [set_nth]. rewrite Over. unfold sight_of; cbn; rewrite app_nil_r; split; reflexivity. }
  specialize (G ms (lapp_new s f) 0 false []). exact G.
Qed.
Print Assumptions C86_lifespan.

(** Two streams and a lifespan in turns: each is where it is alone. *)
Definition ex_serve (n : nat) : res (dict (eendpoint pystr pystr)) := Ok [(lit "/pkg.Svc/Get", ex_all)].
Definition ex_request : call := CHttp 0%Z (ex_scope "POST" "application/grpc+proto") (ex_went WIdle).
Definition ex_turns : list action :=
  [Call ex_request; Run 0; Call CLifespan; Run 1; Call ex_request; Run 0; Run 2; Message 1 LStartup SOk; Run 2; Run 0; Run 2; Message 1 LShutdown SOk; Run 2].
Example C86_example :
  let p := happens (proc_new (ex_app ex_echo) (SvcObject 5) ex_serve) ex_turns in
  sight_of p 0 = sight_of (happens (proc_new (ex_app ex_echo) (SvcObject 5) ex_serve) (alone ex_request 3)) 0
  /\ sight_of p 2 = Some (Answering (Running [InvMsg []]
       (EvStart 200 [(lit "content-type", lit "application/grpc+proto"); (lit "grpc-encoding", lit "identity")] true
        :: repeat (EvBody [0; 0; 0; 0; 1; 97]%N true) 3)))
  /\ sight_of p 1 = Some (Living [TGot LStartup; TSent StartupComplete; TGot LShutdown; TSent ShutdownComplete] LReturned).
Proof. split; [vm_compute; reflexivity|]. split; vm_compute; reflexivity. Qed.
(** With a generator: the first request runs before startup, the second, called before, runs after. *)
Definition ex_generator : service nat := SvcGenerator (GenNew (SvYield 5 SvStop XDone)).
Example C86_generator_example :
  let p := happens (proc_new (ex_app ex_echo) ex_generator ex_serve)
    [Call ex_request; Run 0; Call CLifespan; Run 1; Call ex_request; Message 1 LStartup SOk; Run 2; Message 1 LShutdown SOk; Run 2] in
  sight_of p 0 = Some (Raising no_lifespan)
  /\ sight_of p 2 = sight_of (happens (proc_new (ex_app ex_echo) (SvcObject 5) ex_serve) (alone ex_request 2)) 0
  /\ sight_of p 1 = Some (Living [TGot LStartup; TAdvanced; TSent StartupComplete; TGot LShutdown; TClosed; TSent ShutdownComplete] LReturned).
Proof. split; [vm_compute; reflexivity|]. split; vm_compute; reflexivity. Qed.

(** Finding: the endpoints of a service outlive it.  When the application is started a second time its generator is exhausted
    and the startup fails, and still requests are served, by the service that was closed. *)
Theorem C86_restart_refuted :
  let p := happens (proc_new (ex_app ex_echo) ex_generator ex_serve)
    [Call CLifespan; Run 0; Message 0 LStartup SOk; Message 0 LShutdown SOk; Call CLifespan; Run 1; Message 1 LStartup SOk; Call ex_request; Run 2; Run 2] in
  sight_of p 0 = Some (Living [TGot LStartup; TAdvanced; TSent StartupComplete; TGot LShutdown; TClosed; TSent ShutdownComplete] LReturned)
  /\ sight_of p 1 = Some (Living [TGot LStartup; TAdvanced; TSent (StartupFailed [])] LReturned)
  /\ sight_of p 2 = Some (Answering (Running [InvMsg []]
       [EvStart 200 [(lit "content-type", lit "application/grpc+proto"); (lit "grpc-encoding", lit "identity")] true;
        EvBody [0; 0; 0; 0; 1; 97]%N true])).
Proof. split; [vm_compute; reflexivity|]. split; vm_compute; reflexivity. Qed.
Print Assumptions C86_restart_refuted.
