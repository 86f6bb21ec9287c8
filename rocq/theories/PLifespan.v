(** The lifespan of ASGI applications: C50. *)
From Coq Require Import List NArith Bool String.
From Verif Require Import MBase MPyStr MWire MServer MAsgi MLifespan SLifespan.
Import ListNotations.

Lemma lifespan_conversation {V E} (o : nat -> send_res) ms : forall n it (a : lapp V E), (it = true -> is_generator (la_service a) = true) ->
  let '(a', t, out) := lifespan_loop o n it a ms in
  is_generator (la_service a') = is_generator (la_service a)
  /\ (exists later, got t ++ later = ms)
  /\ forall st, (is_generator (la_service a) = true -> st = it) ->
       (exists rest, conversation (is_generator (la_service a)) st (t ++ rest))
       /\ (out = LReturned \/ out = LWaiting -> conversation (is_generator (la_service a)) st t)
       /\ (out = LWaiting -> got t = ms).
Proof.
  induction ms as [|m ms IH]; intros n it a Hit; cbn [lifespan_loop].
  { split; [reflexivity|]. split; [exists []; reflexivity|]. intros st _. split; [exists []; constructor|]. split; [constructor|reflexivity]. }
  destruct m as [| | |e|].
  - (* startup *)
    destruct (la_service a) as [v|g] eqn:Sv; cbn [is_generator].
    + destruct (la_endpoints a v) as [d|e]; cbn [is_generator la_service set_resolved].
      * assert (it = false) as -> by (destruct it; [discriminate (Hit eq_refl)|reflexivity]).
        unfold lsend. destruct (o n) as [|e|].
        -- specialize (IH (S n) false (set_resolved a d)). cbn [la_service set_resolved] in IH. rewrite Sv in IH. cbn [is_generator] in IH.
           specialize (IH ltac:(discriminate)). destruct (lifespan_loop o (S n) false (set_resolved a d) ms) as [[a' t] out].
           destruct IH as (G&(l&P)&C). split; [exact G|]. split; [exists l; cbn; now rewrite <- P|]. intros st Hst.
           destruct (C true ltac:(discriminate)) as ((r&C1)&C2&C3). split; [exists r; exact (cv_start false st _ C1)|]. split.
           ++ intro H. exact (cv_start false st _ (C2 H)).
           ++ intro H. cbn. f_equal. exact (C3 H).
        -- cbn. rewrite Sv. split; [reflexivity|]. split; [exists ms; reflexivity|]. intros st _.
           split; [|split; [intros [H|H]; discriminate H|discriminate]]. exists [TSent StartupComplete]. exact (cv_start false st _ (cv_wait _ _)).
        -- cbn. rewrite Sv. split; [reflexivity|]. split; [exists ms; reflexivity|]. intros st _.
           split; [|split; [intros [H|H]; discriminate H|discriminate]]. exists [TSent StartupComplete]. exact (cv_start false st _ (cv_wait _ _)).
      * cbn. rewrite Sv. split; [reflexivity|]. split; [exists ms; reflexivity|]. intros st _.
        split; [|split; [intros [H|H]; discriminate H|discriminate]]. exists [TSent StartupComplete]. exact (cv_start false st _ (cv_wait _ _)).
    + assert (Pre : forall st, exists rest, conversation true st ([TGot LStartup; TAdvanced] ++ rest))
        by (intro st; exists [TSent StartupComplete]; exact (cv_start true st _ (cv_wait _ _))).
      destruct (gen_next g) as [[v|[e|]] g'].
      * destruct (la_endpoints (set_service a (SvcGenerator g')) v) as [d|e].
        2:{ cbn. split; [reflexivity|]. split; [exists ms; reflexivity|]. intros st _.
            split; [apply Pre|split; [intros [H|H]; discriminate H|discriminate]]. }
        unfold lsend. destruct (o n) as [|e|].
        2,3: cbn; split; [reflexivity|]; split; [exists ms; reflexivity|]; intros st _;
             (split; [apply Pre|split; [intros [H|H]; discriminate H|discriminate]]).
        specialize (IH (S n) true (set_resolved (set_service a (SvcGenerator g')) d) ltac:(reflexivity)).
        cbn [la_service set_resolved set_service is_generator] in IH.
        destruct (lifespan_loop o (S n) true (set_resolved (set_service a (SvcGenerator g')) d) ms) as [[a' t] out].
        destruct IH as (G&(l&P)&C). split; [exact G|]. split; [exists l; cbn; now rewrite <- P|]. intros st Hst.
        destruct (C true ltac:(reflexivity)) as ((r&C1)&C2&C3). split; [exists r; exact (cv_start true st _ C1)|]. split.
        -- intro H. exact (cv_start true st _ (C2 H)).
        -- intro H. cbn. f_equal. exact (C3 H).
      * unfold lsend. destruct (o n) as [|e'|]; cbn; (split; [reflexivity|]); (split; [exists ms; reflexivity|]); intros st _.
        -- split; [exists []; now apply (cv_start_failed true)|]. split; [intros _; now apply (cv_start_failed true)|discriminate].
        -- split; [apply Pre|split; [intros [H|H]; discriminate H|discriminate]].
        -- split; [apply Pre|split; [intros [H|H]; discriminate H|discriminate]].
      * cbn. split; [reflexivity|]. split; [exists ms; reflexivity|]. intros st _.
        split; [apply Pre|split; [intros [H|H]; discriminate H|discriminate]].
  - (* shutdown *)
    destruct (la_service a) as [v|g] eqn:Sv; cbn [is_generator] in *.
    + assert (it = false) as -> by (destruct it; [discriminate (Hit eq_refl)|reflexivity]).
      unfold lsend. destruct (o n) as [|e'|]; cbn; rewrite Sv; (split; [reflexivity|]); (split; [exists ms; reflexivity|]); intros st _.
      * split; [exists []; exact (cv_stop false st)|]. split; [intros _; exact (cv_stop false st)|discriminate].
      * split; [exists [TSent ShutdownComplete]; exact (cv_stop false st)|]. split; [intros [H|H]; discriminate H|discriminate].
      * split; [exists [TSent ShutdownComplete]; exact (cv_stop false st)|]. split; [intros [H|H]; discriminate H|discriminate].
    + destruct it.
      * destruct (gen_close g) as [[[]|[e|]] g']; unfold lsend.
        -- destruct (o n) as [|e'|]; cbn; (split; [reflexivity|]); (split; [exists ms; reflexivity|]); intros st Hst; rewrite (Hst eq_refl).
           ++ split; [exists []; exact (cv_stop true true)|]. split; [intros _; exact (cv_stop true true)|discriminate].
           ++ split; [exists [TSent ShutdownComplete]; exact (cv_stop true true)|]. split; [intros [H|H]; discriminate H|discriminate].
           ++ split; [exists [TSent ShutdownComplete]; exact (cv_stop true true)|]. split; [intros [H|H]; discriminate H|discriminate].
        -- destruct (o n) as [|e'|]; cbn; (split; [reflexivity|]); (split; [exists ms; reflexivity|]); intros st Hst; rewrite (Hst eq_refl).
           ++ split; [exists []; now apply (cv_stop_failed true)|]. split; [intros _; now apply (cv_stop_failed true)|discriminate].
           ++ split; [exists [TSent ShutdownComplete]; exact (cv_stop true true)|]. split; [intros [H|H]; discriminate H|discriminate].
           ++ split; [exists [TSent ShutdownComplete]; exact (cv_stop true true)|]. split; [intros [H|H]; discriminate H|discriminate].
        -- cbn. split; [reflexivity|]. split; [exists ms; reflexivity|]. intros st Hst. rewrite (Hst eq_refl).
           split; [exists [TSent ShutdownComplete]; exact (cv_stop true true)|]. split; [intros [H|H]; discriminate H|discriminate].
      * unfold lsend. destruct (o n) as [|e'|]; cbn; rewrite Sv; (split; [reflexivity|]); (split; [exists ms; reflexivity|]); intros st Hst; rewrite (Hst eq_refl).
        -- split; [exists []; exact (cv_stop true false)|]. split; [intros _; exact (cv_stop true false)|discriminate].
        -- split; [exists [TSent ShutdownComplete]; exact (cv_stop true false)|]. split; [intros [H|H]; discriminate H|discriminate].
        -- split; [exists [TSent ShutdownComplete]; exact (cv_stop true false)|]. split; [intros [H|H]; discriminate H|discriminate].
  - specialize (IH n it a Hit). destruct (lifespan_loop o n it a ms) as [[a' t] out]. destruct IH as (G&(l&P)&C).
    split; [exact G|]. split; [exists l; cbn; now rewrite <- P|]. intros st Hst. destruct (C st Hst) as ((r&C1)&C2&C3).
    split; [exists r; exact (cv_other _ st _ C1)|]. split; [intro H; exact (cv_other _ st _ (C2 H))|intro H; cbn; f_equal; exact (C3 H)].
  - cbn. split; [reflexivity|]. split; [exists (LRaise e :: ms); reflexivity|]. intros st _.
    split; [exists []; constructor|]. split; [intros [H|H]; discriminate H|discriminate].
  - cbn. split; [reflexivity|]. split; [exists (LCancel :: ms); reflexivity|]. intros st _.
    split; [exists []; constructor|]. split; [intros [H|H]; discriminate H|discriminate].
Qed.

(** Whatever the server sends, the service does and fails: the application follows the protocol up to where it stops, and a run
    that returns or waits for a message has answered all it received. *)
Theorem C50_protocol {V E} (o : nat -> send_res) (a : lapp V E) ms :
  let '(_, t, out) := lifespan o a ms in
  (exists later, got t ++ later = ms)
  /\ (exists rest, conversation (is_generator (la_service a)) false (t ++ rest))
  /\ (out = LReturned \/ out = LWaiting -> conversation (is_generator (la_service a)) false t)
  /\ (out = LWaiting -> got t = ms).
Proof.
  pose proof (lifespan_conversation o ms 0 false a ltac:(discriminate)) as H. unfold lifespan.
  destruct (lifespan_loop o 0 false a ms) as [[a' t] out]. destruct H as (_&P&C). destruct (C false ltac:(reflexivity)) as (C1&C2&C3).
  split; [exact P|]. split; [exact C1|]. split; assumption.
Qed.
Print Assumptions C50_protocol.

(** It only stops otherwise if a send or receive fails, something is cancelled, or the endpoints cannot be made of the service.
    Missing: a reply in this last case ([C50_endpoints_refuted]). *)
Theorem C50_always_replies_partial {V E} (o : nat -> send_res) (a : lapp V E) ms :
  (forall n, o n = SOk) -> messages ms -> service_uncancelled (la_service a) -> (forall v, exists d, la_endpoints a v = Ok d) ->
  let '(_, t, out) := lifespan o a ms in (out = LReturned \/ out = LWaiting) /\ conversation (is_generator (la_service a)) false t.
Proof.
  intros Ho Hm Hu He. pose proof (C50_protocol o a ms) as Pr.
  assert (Out : forall n it, let '(_, t, out) := lifespan_loop o n it a ms in out = LReturned \/ out = LWaiting).
  { clear Pr. revert a Hu He. induction Hm as [|m ms Hm Hms IH]; intros a Hu He n it; cbn [lifespan_loop]; [now right|].
    destruct m as [| | |e|]; [| | |destruct Hm|destruct Hm].
    - unfold lsend. rewrite Ho. destruct (la_service a) as [v|g] eqn:Sv.
      + destruct (He v) as [d Ed]. rewrite Ed. specialize (IH (set_resolved a d)). cbn [la_service set_resolved la_endpoints] in IH.
        rewrite Sv in IH. specialize (IH Hu He (S n) it). destruct (lifespan_loop o (S n) it _ ms) as [[? ?] ?]. exact IH.
      + destruct (gen_next g) as [[v|[e|]] g'] eqn:Gn.
        * cbn [set_service la_endpoints]. destruct (He v) as [d Ed]. rewrite Ed.
          specialize (IH (set_resolved (set_service a (SvcGenerator g')) d)). cbn [la_service set_resolved set_service la_endpoints] in IH.
          assert (Hu' : service_uncancelled (SvcGenerator g')).
          { unfold gen_next in Gn. destruct g as [g|g c|]; [destruct g as [w nx c1| | |]|destruct g as [w nx c1| | |]|]; try discriminate Gn;
              injection Gn as <- <-; cbn in Hu |- *; tauto. }
          specialize (IH Hu' He (S n) true). destruct (lifespan_loop o (S n) true _ ms) as [[? ?] ?]. exact IH.
        * now left.
        * exfalso. unfold gen_next in Gn. destruct g as [g|g c|]; [destruct g|destruct g|]; try discriminate Gn; cbn in Hu; tauto.
    - unfold lsend. rewrite Ho. destruct it; [|now left]. destruct (la_service a) as [v|g] eqn:Sv; [now left|].
      destruct (gen_close g) as [[[]|[e|]] g'] eqn:Gc; [now left|now left|]. exfalso. unfold gen_close in Gc.
      destruct g as [g|g []|]; try discriminate Gc. cbn in Hu. tauto.
    - specialize (IH a Hu He n it). destruct (lifespan_loop o n it a ms) as [[? ?] ?]. exact IH. }
  specialize (Out 0 false). fold (lifespan o a ms) in Out. destruct (lifespan o a ms) as [[a' t] out]. destruct Pr as (_&_&Pr&_). split; [exact Out|]. exact (Pr Out).
Qed.
Print Assumptions C50_always_replies_partial.

Lemma others {V E} (o : nat -> send_res) l : Forall (fun m => m = LOther) l -> forall n it (a : lapp V E) ms,
  lifespan_loop o n it a (l ++ ms) = (let '(a, t, out) := lifespan_loop o n it a ms in (a, map TGot l ++ t, out)).
Proof.
  induction 1 as [|m l -> Hl IH]; intros n it a ms; [cbn; now destruct (lifespan_loop o n it a ms) as [[? ?] ?]|].
  cbn [List.app lifespan_loop map]. rewrite IH. destruct (lifespan_loop o n it a ms) as [[? ?] ?]. reflexivity.
Qed.

(** The usual course: a generator that yields a service is advanced once, startup is completed and requests are served with
    the endpoints of that service; at shutdown the generator is closed where it yielded. *)
Theorem C50_course {V E} (o : nat -> send_res) (f : V -> res (dict E)) v next c d os os' rest :
  (forall n, o n = SOk) -> f v = Ok d -> Forall (fun m => m = LOther) os -> Forall (fun m => m = LOther) os' ->
  let a := lapp_new (SvcGenerator (GenNew (SvYield v next c))) f in
  http_endpoints a = Raise no_lifespan
  /\ (let '(a1, t, out) := lifespan o a (os ++ LStartup :: os') in
      out = LWaiting /\ sent t = [StartupComplete] /\ (d <> [] -> http_endpoints a1 = Ok (a1, d)))
  /\ (let '(a2, t, out) := lifespan o a (os ++ LStartup :: os' ++ LShutdown :: rest) in
      match c with
      | XDone => out = LReturned /\ sent t = [StartupComplete; ShutdownComplete] /\ la_service a2 = SvcGenerator GenDone
      | XRaise e => out = LReturned /\ sent t = [StartupComplete; ShutdownFailed (str_of_exn e)] /\ la_service a2 = SvcGenerator GenDone
      | XYield => out = LReturned /\ sent t = [StartupComplete; ShutdownFailed (str_of_exn ignored_generator_exit)]
      | XCancel => out = LCancelled /\ sent t = [StartupComplete] /\ la_service a2 = SvcGenerator GenDone
      end).
Proof.
  intros Ho Ef Fo Fo'. cbv zeta.
  assert (Sg : forall l, sent (map TGot l) = []) by (induction l; [reflexivity|assumption]).
  assert (Sa : forall x y, sent (x ++ y) = sent x ++ sent y) by (intros; apply flat_map_app).
  split; [reflexivity|]. unfold lifespan. rewrite !(others o os Fo). cbn [lifespan_loop lapp_new la_service gen_next set_service la_endpoints].
  rewrite Ef. unfold lsend. rewrite !Ho. split.
  - replace os' with (os' ++ []) by apply app_nil_r. rewrite (others o os' Fo'). cbn [lifespan_loop]. split; [reflexivity|]. split.
    + rewrite Sa, Sg. cbn. rewrite app_nil_r. f_equal. apply Sg.
    + intro N. unfold http_endpoints. cbn [la_resolved set_resolved]. destruct d; [now elim N|reflexivity].
  - rewrite (others o os' Fo'). cbn [lifespan_loop set_resolved la_service]. unfold lsend.
    destruct c as [|e| |]; cbn [gen_close]; rewrite ?Ho; (split; [reflexivity|]); repeat split;
      rewrite Sa, Sg; cbn; rewrite Sa, Sg; reflexivity.
Qed.
Print Assumptions C50_course.

(** A generator that does not yield a service: startup failed, with its message, and requests are not served. *)
Theorem C50_failed {V E} (o : nat -> send_res) (f : V -> res (dict E)) g os rest :
  (forall n, o n = SOk) -> Forall (fun m => m = LOther) os -> g = SvStop \/ (exists e, g = SvRaise e) ->
  let '(a, t, out) := lifespan o (lapp_new (SvcGenerator (GenNew g)) f) (os ++ LStartup :: rest) in
  out = LReturned /\ sent t = [StartupFailed (match g with SvRaise e => str_of_exn e | _ => [] end)] /\ http_endpoints a = Raise no_lifespan.
Proof.
  intros Ho Fo Hg.
  assert (Sg : forall l, sent (map TGot l) = []) by (induction l; [reflexivity|assumption]).
  unfold lifespan. rewrite (others o os Fo). unfold lsend.
  destruct Hg as [->|[e ->]]; cbn [lifespan_loop lapp_new la_service gen_next]; unfold lsend; rewrite Ho; (split; [reflexivity|]);
    (split; [|reflexivity]); unfold sent in *; rewrite flat_map_app, Sg; reflexivity.
Qed.
Print Assumptions C50_failed.

(** A service object is served with and without a lifespan; its endpoints are made at the first request and kept: making them
    again would not matter. *)
Theorem C50_object {V E} (f : V -> res (dict E)) v d : f v = Ok d ->
  exists a, http_endpoints (lapp_new (SvcObject v) f) = Ok (a, d)
    /\ (d <> [] -> forall g, let a' := mk_lapp (la_service a) g (la_resolved a) in http_endpoints a' = Ok (a', d)).
Proof.
  intro H. eexists. unfold http_endpoints. cbn. rewrite H. split; [reflexivity|]. intros N g. cbn. destruct d; [now elim N|reflexivity].
Qed.
Print Assumptions C50_object.

Example C50_example :
  let f (v : nat) := Ok [(lit "/p", v)] in
  lifespan (fun _ => SOk) (lapp_new (SvcGenerator (GenNew (SvYield 5 SvStop XDone))) f) [LOther; LStartup; LOther; LShutdown; LStartup]
  = (mk_lapp (SvcGenerator GenDone) f (Some [(lit "/p", 5)]),
     [TGot LOther; TGot LStartup; TAdvanced; TSent StartupComplete; TGot LOther; TGot LShutdown; TClosed; TSent ShutdownComplete], LReturned)
  /\ messages [LOther; LStartup; LOther; LShutdown; LStartup] /\ service_uncancelled (SvcGenerator (GenNew (SvYield 5 SvStop XDone)))
  /\ forall v, exists d, f v = Ok d.
Proof.
  cbv zeta. split; [reflexivity|]. split; [repeat constructor|]. split; [split; [discriminate|exact I]|]. intro v. eexists. reflexivity.
Qed.

(** Finding: when the endpoints cannot be made of the service the exception leaves the application without a reply, and the
    generator is not closed. *)
Theorem C50_endpoints_refuted : exists (f : nat -> res (dict nat)) e,
  let '(a, t, out) := lifespan (fun _ => SOk) (lapp_new (SvcGenerator (GenNew (SvYield 5 SvStop XDone))) f) [LStartup; LShutdown] in
  out = LRaised e /\ sent t = [] /\ la_service a <> SvcGenerator GenDone.
Proof. exists (fun _ => Raise (EOther KValue [])), (EOther KValue []). cbn. split; [reflexivity|]. split; [reflexivity|discriminate]. Qed.
Print Assumptions C50_endpoints_refuted.

(** Finding: a service without methods is not served after a completed startup: the empty mapping counts as no lifespan. *)
Theorem C50_empty_refuted : exists (f : nat -> res (dict nat)),
  let '(a, t, out) := lifespan (fun _ => SOk) (lapp_new (SvcGenerator (GenNew (SvYield 5 SvStop XDone))) f) [LStartup] in
  sent t = [StartupComplete] /\ http_endpoints a = Raise no_lifespan.
Proof. exists (fun _ => Ok []). split; reflexivity. Qed.
Print Assumptions C50_empty_refuted.
