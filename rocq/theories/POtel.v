(** Telemetry: C54. *)
From Coq Require Import List NArith ZArith Bool String Lia ZifyBool ZifyN.
From Verif Require Import MBase MPyStr MHeaders LBase LPyStr MProtocol MClient MIntercept SIntercept LIntercept PIntercept MOtel SOtel.
Import ListNotations.
Local Open Scope N_scope.

Lemma rsplit_none s : rsplit_colon s = None <-> ~ In 58 s.
Proof.
  induction s as [|c s IH]; cbn [rsplit_colon]; [split; auto|]. destruct (rsplit_colon s) as [[a b]|] eqn:R.
  - split; [intro X; discriminate X|]. intro N. exfalso. destruct IH as [_ IH]. discriminate IH. intro I. apply N. now right.
  - destruct IH as [IH _]. specialize (IH eq_refl). destruct (c =? 58) eqn:E; split.
    + intro X; discriminate X.
    + intro N. elim N. left. lia.
    + intros _ [->|I]; [lia|auto].
    + reflexivity.
Qed.
Lemma rsplit_some s a b : rsplit_colon s = Some (a, b) <-> s = a ++ 58 :: b /\ ~ In 58 b.
Proof.
  revert a b. induction s as [|c s IH]; intros a b; cbn [rsplit_colon].
  - split; [intro X; discriminate X|]. intros [E _]. destruct a; discriminate.
  - destruct (rsplit_colon s) as [[a' b']|] eqn:R.
    + destruct (proj1 (IH a' b') eq_refl) as [-> Nb]. split.
      * intro E. injection E as <- <-. auto.
      * intros [E N]. destruct a as [|c' a]; cbn [List.app] in E.
        -- injection E as -> E. exfalso. apply N. rewrite <- E. apply in_or_app. right. now left.
        -- injection E as <- E. assert (X : Some (a', b') = Some (a, b)) by (apply IH; auto). injection X as -> ->. reflexivity.
    + pose proof (proj1 (rsplit_none s) R) as N. destruct (c =? 58) eqn:E.
      * split.
        -- intro X. injection X as <- <-. split; [cbn [List.app]; f_equal; lia|exact N].
        -- intros [X Nb]. destruct a as [|c' a]; cbn [List.app] in X; [injection X as _ ->; reflexivity|]. injection X as _ ->. exfalso. apply N, in_or_app. right. now left.
      * split; [intro X; discriminate X|]. intros [X Nb]. destruct a as [|c' a]; cbn [List.app] in X; [injection X as -> _; discriminate|]. injection X as _ ->. exfalso. apply N, in_or_app. right. now left.
Qed.

(** ** Addresses *)

Lemma address_good kaddr kport sa a :
  good_address sa <-> exists a', address_attrs kaddr kport sa a = Ok a'.
Proof.
  destruct sa as [[|c s]|]; cbn [good_address address_attrs]; [split; [eexists; reflexivity|auto]| |split; [eexists; reflexivity|auto]].
  destruct (rsplit_colon (c :: s)) as [[h p]|] eqn:R.
  - destruct (proj1 (rsplit_some _ _ _) R) as [E N]. destruct (int_of_str p) as [n|] eqn:P.
    + split; [eexists; reflexivity|]. intros _. now exists h, p, n.
    + split; [|intros [a' X]; discriminate X]. intros (h'&p'&n'&E'&N'&P').
      assert (X : rsplit_colon (c :: s) = Some (h', p')) by (now apply rsplit_some). congruence.
  - split; [|intros [a' X]; discriminate X]. intros (h'&p'&n'&E'&N'&P').
    assert (X : rsplit_colon (c :: s) = Some (h', p')) by (now apply rsplit_some). congruence.
Qed.
Lemma address_bad kaddr kport sa a : ~ good_address sa -> exists msg, address_attrs kaddr kport sa a = Raise (EOther KValue msg).
Proof.
  intro N. destruct (address_attrs kaddr kport sa a) as [a'|e] eqn:E; [elim N; apply (address_good kaddr kport sa a); eauto|].
  destruct sa as [[|c s]|]; cbn [address_attrs] in E; try discriminate E.
  destruct (rsplit_colon (c :: s)) as [[h p]|]; [destruct (int_of_str p)|]; try discriminate E; injection E as <-; eexists; reflexivity.
Qed.
Lemma address_named who sa a a' : address_attrs (who ++ lit ".address") (who ++ lit ".port") sa a = Ok a' ->
  names_address who sa a'
  /\ forall k, k <> who ++ lit ".address" -> k <> who ++ lit ".port" -> dget a' k = dget a k.
Proof.
  intro E. split.
  - intros h p n -> N P. unfold address_attrs in E.
    assert (X : exists c s, h ++ 58 :: p = c :: s) by (destruct h; eexists _, _; reflexivity). destruct X as (c&s&X). rewrite X in E. rewrite <- X in E.
    rewrite (proj2 (rsplit_some _ h p)) in E by auto. rewrite P in E. injection E as <-.
    rewrite !dget_dset, !str_eqb_refl. split; [|reflexivity].
    destruct (str_eqb (who ++ lit ".port") (who ++ lit ".address")) eqn:Q; [|reflexivity].
    apply str_eqb_eq, app_inv_head in Q. discriminate Q.
  - intros k K1 K2. destruct sa as [[|c s]|]; cbn [address_attrs] in E; try (injection E as <-; reflexivity).
    destruct (rsplit_colon (c :: s)) as [[h p]|]; [|discriminate E]. destruct (int_of_str p); [|discriminate E]. injection E as <-.
    rewrite !dget_dset. 
    destruct (str_eqb (who ++ lit ".port") k) eqn:Q; [apply str_eqb_eq in Q; congruence|].
    destruct (str_eqb (who ++ lit ".address") k) eqn:Q'; [apply str_eqb_eq in Q'; congruence|]. reflexivity.
Qed.

(** ** The hooks *)
Lemma app_events_app {L T B} (a b : list (event (otel_op + L) T B)) : app_events (a ++ b) = app_events a ++ app_events b.
Proof. apply flat_map_app. Qed.
Lemma otel_events_app {L T B} (a b : list (event (otel_op + L) T B)) : otel_events (a ++ b) = otel_events a ++ otel_events b.
Proof. apply flat_map_app. Qed.
Lemma app_events_recast {L T B} (t : list (event (otel_op + L) T Empty_set)) : app_events t = [] -> app_events (map (@recast _ T B) t) = [].
Proof.
  induction t as [|[[o|l]|m|[]] t IH]; auto. discriminate.
Qed.
Lemma otel_events_recast {L T B} (t : list (event (otel_op + L) T Empty_set)) : otel_events (map (@recast _ T B) t) = otel_events t.
Proof.
  induction t as [|[[o|l]|m|[]] t IH]; auto. cbn. f_equal. exact IH.
Qed.

Section Hooks.
  Context {St Sa L X : Type}.
  Variable w : world (St * Sa) (otel_op + L) (otel_answer + X).
  Hypothesis Hw : harmless w.

  Lemma start_good client ctx t a : good_address (cx_server ctx) -> good_address (cx_client ctx) ->
    exists token t1 tr before spanned extracted,
      run w (t, a) [] (otel_start client ctx) = ((t1, if client then snd (snd (w (t, a) (inl OInject))) else a), tr, Returned token)
      /\ app_events tr = []
      /\ otel_events tr = before ++ [OStart (mi_service (cx_method ctx) ++ lit "/" ++ mi_name (cx_method ctx)) client spanned extracted]
      /\ (if client then before = [OInject] /\ extracted = false
          else before = [OCurrent] /\ extracted = false \/ before = [OCurrent; OExtract] /\ extracted = true)
      /\ names_method ctx spanned /\ names_address (lit "server") (cx_server ctx) spanned /\ names_address (lit "client") (cx_client ctx) spanned
      /\ names_method ctx token /\ names_address (lit "server") (cx_server ctx) token /\ names_error (fun _ => []) None token.
  Proof.
    intros Gs Gc. unfold otel_start.
    destruct (proj1 (address_good (lit "server.address") (lit "server.port") _ (shared_attrs ctx)) Gs) as [shared Es]. rewrite Es.
    destruct (proj1 (address_good (lit "client.address") (lit "client.port") _ shared) Gc) as [spanned Ec]. rewrite Ec.
    destruct (address_named (lit "server") _ _ _ Es) as [Ns Os]. destruct (address_named (lit "client") _ _ _ Ec) as [Nc Oc].
    assert (Ms : names_method ctx shared) by (split; rewrite Os; [reflexivity|discriminate|discriminate|reflexivity|discriminate|discriminate]).
    assert (Mc : names_method ctx spanned) by (destruct Ms as [M1 M2]; split; (rewrite Oc; [assumption|discriminate|discriminate])).
    assert (Nsc : names_address (lit "server") (cx_server ctx) spanned).
    { intros h p n E N P. destruct (Ns h p n E N P) as [N1 N2]. split; (rewrite Oc; [assumption|discriminate|discriminate]). }
    assert (Ne : names_error (fun _ => []) None shared) by (split; rewrite Os; [reflexivity|discriminate|discriminate|reflexivity|discriminate|discriminate]).
    set (nm := mi_service (cx_method ctx) ++ lit "/" ++ mi_name (cx_method ctx)). change (rpc_method ctx) with nm. destruct client.
    - destruct (Hw t a OInject) as (x1&t1&a1&E1&_). destruct (Hw t1 a1 (OStart nm true spanned false)) as (x2&t2&a2&E2&K2).
      rewrite K2 in E2 by discriminate.
      exists shared, t2, [Effect (inl OInject); Effect (inl (OStart nm true spanned false))], [OInject], spanned, false.
      unfold api. cbn [run]. rewrite E1. cbn [run]. rewrite E2. cbn [run snd fst]. repeat split; auto; try apply Ms; try apply Mc; try apply Ne.
      all: eapply Nsc || eapply Nc || eapply Ns; eassumption.
    - destruct (Hw t a OCurrent) as (x1&t1&a1&E1&K1). rewrite K1 in E1 by discriminate.
      assert (C : x1 = OValid true \/ x1 <> OValid true) by (destruct x1 as [|[|]]; auto; right; discriminate). destruct C as [->|C].
      + destruct (Hw t1 a (OStart nm false spanned false)) as (x2&t2&a2&E2&K2). rewrite K2 in E2 by discriminate.
        exists shared, t2, [Effect (inl OCurrent); Effect (inl (OStart nm false spanned false))], [OCurrent], spanned, false.
        unfold api. cbn [run]. rewrite E1. cbn [run]. rewrite E2. cbn [run]. repeat split; auto; try apply Ms; try apply Mc; try apply Ne.
        all: eapply Nsc || eapply Nc || eapply Ns; eassumption.
      + destruct (Hw t1 a OExtract) as (x3&t3&a3&E3&K3). rewrite K3 in E3 by discriminate.
        destruct (Hw t3 a (OStart nm false spanned true)) as (x2&t2&a2&E2&K2). rewrite K2 in E2 by discriminate.
        exists shared, t2, [Effect (inl OCurrent); Effect (inl OExtract); Effect (inl (OStart nm false spanned true))], [OCurrent; OExtract], spanned, true.
        unfold api. cbn [run]. rewrite E1. assert (Y : forall (A : Type) (u v : A), match x1 with OValid true => u | _ => v end = v) by (intros; destruct x1 as [|[|]]; try reflexivity; now elim C).
        rewrite Y. cbn [run]. rewrite E3. cbn [run]. rewrite E2. cbn [run]. repeat split; auto; try apply Ms; try apply Mc; try apply Ne.
        all: eapply Nsc || eapply Nc || eapply Ns; eassumption.
  Qed.

  Lemma dupdate_error q token e : names_error (fun _ => []) None token -> names_error q e (dupdate token (error_attrs q e)).
  Proof.
    intros [N1 N2]. destruct e as [e|]; [|split; assumption]. unfold dupdate, error_attrs. cbn [fold_left fst snd]. split; rewrite !dget_dset; reflexivity.
  Qed.
  Lemma dupdate_other q token e k : k <> lit "error.type" -> k <> lit "rpc.response.status_code" -> dget (dupdate token (error_attrs q e)) k = dget token k.
  Proof.
    intros K1 K2. destruct e as [e|]; [|reflexivity]. unfold dupdate, error_attrs. cbn [fold_left fst snd].
    rewrite !dget_dset. destruct (str_eqb (lit "rpc.response.status_code") k) eqn:Q; [apply str_eqb_eq in Q; congruence|].
    destruct (str_eqb (lit "error.type") k) eqn:Q'; [apply str_eqb_eq in Q'; congruence|]. reflexivity.
  Qed.

  Lemma end_good q token ctx e t a :
    exists t1 tr errors, run w (t, a) [] (otel_end q token ctx e) = ((t1, a), tr, Returned tt)
      /\ app_events tr = [] /\ otel_events tr = errors ++ [ORecord (dupdate token (error_attrs q e)); OStop e]
      /\ match e with None => errors = [] | Some e => exists a, errors = [OAttributes a] /\ names_error q (Some e) a end.
  Proof.
    assert (F : forall t, exists t1, run (R := unit) w (t, a) [] (api (ORecord (dupdate token (error_attrs q e))) (fun _ => api (OStop e) (fun _ => GRet tt)))
       = ((t1, a), [Effect (inl (ORecord (dupdate token (error_attrs q e)))); Effect (inl (OStop e))], Returned tt)).
    { intro t0. destruct (Hw t0 a (ORecord (dupdate token (error_attrs q e)))) as (x1&t1&a1&E1&K1). rewrite K1 in E1 by discriminate.
      destruct (Hw t1 a (OStop e)) as (x2&t2&a2&E2&K2). rewrite K2 in E2 by discriminate. exists t2.
      unfold api. cbn [run]. rewrite E1. cbn [run]. rewrite E2. reflexivity. }
    unfold otel_end. destruct e as [e|].
    - destruct (Hw t a (OAttributes (error_attrs q (Some e)))) as (x1&t1&a1&E1&K1). rewrite K1 in E1 by discriminate.
      destruct (F t1) as [t2 E2]. eexists t2, _, [_]. unfold api at 1. cbn [run]. rewrite E1. rewrite E2. repeat split. now eexists.
    - destruct (F t) as [t2 E2]. rewrite E2. now eexists t2, _, [].
  Qed.

  (** The two claims, from the bracket of C48. *)
  Lemma wrapped {B R} q i client ctx t a (inner : St * Sa -> (St * Sa) * list (event (otel_op + L) attrs B) * outcome R) r :
    good_address (cx_server ctx) -> good_address (cx_client ctx) -> bracketed w (otel q i client) ctx (t, a) inner r ->
    exists t1, let a1 := if client then snd (snd (w (t, a) (inl OInject))) else a in
      let '(s2, tr, o) := inner (t1, a1) in let '(s2', tr', o') := r in
      snd s2' = snd s2 /\ app_events tr' = app_events tr /\ o' = o /\ one_span q client ctx (otel_events tr) (tr', o').
  Proof.
    intros Gs Gc. unfold bracketed. cbn [otel me_start me_end me_id].
    destruct (start_good client ctx t a Gs Gc) as (token&t1&tr1&before&spanned&extracted&E1&A1&O1&Bf&M1&N1&N2&M2&N3&Er). rewrite E1.
    intro H. exists t1. destruct (inner (t1, if client then snd (snd (w (t, a) (inl OInject))) else a)) as [[[t2 a2] tr2] o2] eqn:In.
    assert (Mr : forall e, names_method ctx (dupdate token (error_attrs q e))) by (intro e; destruct M2 as [M M']; split; (rewrite dupdate_other; [assumption|discriminate|discriminate])).
    assert (Nr : forall e, names_address (lit "server") (cx_server ctx) (dupdate token (error_attrs q e))).
    { intros e h p n E N P. destruct (N3 h p n E N P) as [N4 N5]. split; (rewrite dupdate_other; [assumption|discriminate|discriminate]). }
    assert (D : o2 = Suspended \/ o2 <> Suspended) by (destruct o2; auto; right; discriminate).
    destruct D as [->|D].
    - subst r. cbn [fst snd]. split; [reflexivity|]. split; [|split; [reflexivity|]].
      + cbn [app_events flat_map]. fold (app_events (map (@recast _ attrs B) tr1 ++ Marked (Started i token) :: tr2)).
        change (app_events (map recast tr1 ++ Marked (Started i token) :: tr2) = app_events tr2).
        rewrite app_events_app, app_events_recast by exact A1. reflexivity.
      + exists before, spanned, extracted, []. repeat (split; [assumption|]). split; [|split; [auto|intro C; now elim C]].
        change (otel_events (map recast tr1 ++ Marked (Started i token) :: tr2) = before ++ OStart (mi_service (cx_method ctx) ++ lit "/" ++ mi_name (cx_method ctx)) client spanned extracted :: otel_events tr2 ++ []).
        rewrite otel_events_app, otel_events_recast, O1, app_nil_r, <- app_assoc. reflexivity.
    - destruct (end_good q token ctx (call_error o2) t2 a2) as (t3&tr3&errors&E3&A3&O3&Es).
      assert (H' : r = (t3, a2, (Marked (OnStart i) :: map recast tr1 ++ Marked (Started i token) :: tr2) ++ Marked (OnEnd i token (call_error o2)) :: map recast tr3, o2)).
      { destruct o2; [| |now elim D]; rewrite E3 in H; exact H. }
      subst r. clear H. cbn [fst snd]. split; [reflexivity|]. split; [|split; [reflexivity|]].
      + rewrite app_events_app. change (app_events (map (@recast _ attrs B) tr1 ++ Marked (Started i token) :: tr2) ++ app_events (map (@recast _ attrs B) tr3) = app_events tr2).
        rewrite app_events_app, !app_events_recast by assumption. cbn. now rewrite app_nil_r.
      + exists before, spanned, extracted, (errors ++ [ORecord (dupdate token (error_attrs q (call_error o2))); OStop (call_error o2)]).
        repeat (split; [assumption|]). split; [|split; [intro C; now elim D|intros _]].
        * rewrite otel_events_app.
          change (otel_events (map (@recast _ attrs B) tr1 ++ Marked (Started i token) :: tr2) ++ otel_events (map (@recast _ attrs B) tr3) = before ++ OStart (mi_service (cx_method ctx) ++ lit "/" ++ mi_name (cx_method ctx)) client spanned extracted :: otel_events tr2 ++ errors ++ [ORecord (dupdate token (error_attrs q (call_error o2))); OStop (call_error o2)]).
          rewrite otel_events_app, !otel_events_recast, O1, O3, <- !app_assoc. reflexivity.
        * eexists _, errors. split; [reflexivity|]. split; [apply Mr|]. split; [apply Nr|]. split; [now apply dupdate_error|exact Es].
  Qed.
End Hooks.

Lemma apply_first {L X T A Q B C} sync (m : meta L X T C) is (f : method_fn L X T A Q B C) :
  let rs := resolve_interceptors sync is in
  apply_interceptors f (resolve_interceptors sync (only_meta m :: is)) =
  match apply_interceptors f rs with
  | FUnary g => FUnary (fun request ctx => invoke m ctx (g request ctx))
  | FClientStream g => FClientStream (fun request ctx => invoke m ctx (g request ctx))
  | FServerStream g => FServerStream (fun request ctx => invoke m ctx (if sync then yield_from (g request ctx) else async_for (g request ctx)))
  | FBidiStream g => FBidiStream (fun request ctx => invoke m ctx (if sync then yield_from (g request ctx) else async_for (g request ctx)))
  end.
Proof. cbv zeta. rewrite !C47_order. destruct f; reflexivity. Qed.

(** ** C54: telemetry does not change calls *)

(** A method (or call) with any interceptors [is], and the same with the telemetry interceptor before them: the same outcome, the same messages yielded, the
    same effects in the same order, the same state of the program at the end; for the client, with the trace headers injected.
    And the library sees one span and one record, with the error the call ended with.
    Missing: exceptions of the OpenTelemetry library itself; addresses that are not host:port ([C54_address], [C54_url_refuted]);
    asynchronous streams whose consumer throws or closes; cancellations are not told ([C54_cancelled_refuted]). *)
Theorem C54_same_partial {St Sa L X A Q B} qualname i sync client
    (w : world (St * Sa) (otel_op + L) (otel_answer + X)) (is : list (interceptor (otel_op + L) (otel_answer + X) attrs A Q B req_ctx)) f ctx t a c :
  harmless w -> good_address (cx_server ctx) -> good_address (cx_client ctx) ->
  let without := apply_interceptors f (resolve_interceptors sync is) in
  let instrumented := apply_interceptors f (resolve_interceptors sync (only_meta (otel qualname i client) :: is)) in
  match without, instrumented with
  | FUnary g0, FUnary g => forall request,
      same_outcome w client t a (fun s => run w s c (g0 request ctx)) (run w (t, a) c (g request ctx))
  | FClientStream g0, FClientStream g => forall request,
      same_outcome w client t a (fun s => run w s c (g0 request ctx)) (run w (t, a) c (g request ctx))
  | FServerStream g0, FServerStream g => forall request, sync = true \/ patient c ->
      same_outcome w client t a (fun s => run w s c (g0 request ctx)) (run w (t, a) c (g request ctx))
  | FBidiStream g0, FBidiStream g => forall request, sync = true \/ patient c ->
      same_outcome w client t a (fun s => run w s c (g0 request ctx)) (run w (t, a) c (g request ctx))
  | _, _ => False
  end.
Proof.
  intros Hw Gs Gc. cbv zeta. rewrite apply_first.
  pose proof (C48_bracket_partial (A := A) (Q := Q) (B := B) sync w (otel qualname i client) ctx (t, a) c) as (Bu&Bc&Bs).
  assert (K : forall B' R (inner : St * Sa -> (St * Sa) * list (event (otel_op + L) attrs B') * outcome R) r,
     bracketed w (otel qualname i client) ctx (t, a) inner r -> same_outcome w client t a inner r).
  { intros B' R inner r H. destruct (wrapped w Hw qualname i client ctx t a inner r Gs Gc H) as [t1 H']. exists t1. cbv zeta in *.
    destruct (inner _) as [[s2 tr] o]. destruct r as [[s2' tr'] o']. tauto. }
  destruct (apply_interceptors f (resolve_interceptors sync is)) as [g|g|g|g].
  - intro request. apply K. exact (Bu _ g request eq_refl).
  - intro request. apply K. exact (Bc _ g request eq_refl).
  - intros request Hc. apply K. exact (proj1 (Bs Hc) _ g request eq_refl).
  - intros request Hc. apply K. exact (proj2 (Bs Hc) _ g request eq_refl).
Qed.
Print Assumptions C54_same_partial.

(** What the library is told about a call: [inner] are its own calls of the library, if any. *)
Theorem C54_span_partial {St Sa L X A Q B} qualname i sync client
    (w : world (St * Sa) (otel_op + L) (otel_answer + X)) (is : list (interceptor (otel_op + L) (otel_answer + X) attrs A Q B req_ctx)) f ctx t a c :
  harmless w -> good_address (cx_server ctx) -> good_address (cx_client ctx) ->
  let told {B R} (r : (St * Sa) * list (event (otel_op + L) attrs B) * outcome R) (call : St * Sa -> (St * Sa) * list (event (otel_op + L) attrs B) * outcome R) :=
    exists s, one_span qualname client ctx (otel_events (snd (fst (call s)))) (snd (fst r), snd r) in
  let without := apply_interceptors f (resolve_interceptors sync is) in
  let instrumented := apply_interceptors f (resolve_interceptors sync (only_meta (otel qualname i client) :: is)) in
  match without, instrumented with
  | FUnary g0, FUnary g => forall request, told (run w (t, a) c (g request ctx)) (fun s => run w s c (g0 request ctx))
  | FClientStream g0, FClientStream g => forall request, told (run w (t, a) c (g request ctx)) (fun s => run w s c (g0 request ctx))
  | FServerStream g0, FServerStream g => forall request, sync = true \/ patient c ->
      told (run w (t, a) c (g request ctx)) (fun s => run w s c (g0 request ctx))
  | FBidiStream g0, FBidiStream g => forall request, sync = true \/ patient c ->
      told (run w (t, a) c (g request ctx)) (fun s => run w s c (g0 request ctx))
  | _, _ => False
  end.
Proof.
  intros Hw Gs Gc. cbv zeta. rewrite apply_first.
  pose proof (C48_bracket_partial (A := A) (Q := Q) (B := B) sync w (otel qualname i client) ctx (t, a) c) as (Bu&Bc&Bs).
  assert (K : forall B' R (inner : St * Sa -> (St * Sa) * list (event (otel_op + L) attrs B') * outcome R) r,
     bracketed w (otel qualname i client) ctx (t, a) inner r ->
     exists s, one_span qualname client ctx (otel_events (snd (fst (inner s)))) (snd (fst r), snd r)).
  { intros B' R inner r H. destruct (wrapped w Hw qualname i client ctx t a inner r Gs Gc H) as [t1 H']. cbv zeta in *.
    exists (t1, if client then snd (snd (w (t, a) (inl OInject))) else a). destruct (inner _) as [[s2 tr] o]. destruct r as [[s2' tr'] o']. exact (proj2 (proj2 (proj2 H'))). }
  destruct (apply_interceptors f (resolve_interceptors sync is)) as [g|g|g|g].
  - intro request. apply K with (inner := fun s => run w s c (g request ctx)). exact (Bu _ g request eq_refl).
  - intro request. apply K with (inner := fun s => run w s c (g request ctx)). exact (Bc _ g request eq_refl).
  - intros request Hc. apply K with (inner := fun s => run w s c (g request ctx)). exact (proj1 (Bs Hc) _ g request eq_refl).
  - intros request Hc. apply K with (inner := fun s => run w s c (g request ctx)). exact (proj2 (Bs Hc) _ g request eq_refl).
Qed.
Print Assumptions C54_span_partial.

(** ** Addresses the interceptor accepts *)

(** The hook fails, before the method has run, on any other address of the server. *)
Theorem C54_address {S L X B R} (w : world S (otel_op + L) (otel_answer + X)) qualname i client ctx s c (inner : gen (otel_op + L) (otel_answer + X) attrs B R) :
  ~ good_address (cx_server ctx) ->
  exists msg tr, run w s c (invoke (otel qualname i client) ctx inner) = (s, tr, Raised (FExn (EOther KValue msg))) /\ app_events tr = [].
Proof.
  intro N. destruct (address_bad (lit "server.address") (lit "server.port") (cx_server ctx) (shared_attrs ctx) N) as [msg E].
  eexists msg, _. unfold invoke. cbn [otel me_start me_id]. unfold otel_start. rewrite E. cbn. split; reflexivity.
Qed.
Print Assumptions C54_address.

(** http(s)://host and http(s)://host:port, with a host without colons and slashes, are accepted. *)
Lemma contains_58 s : contains_char 58 s = true <-> In 58 s.
Proof.
  unfold contains_char. rewrite existsb_exists. split; [intros (x&I&E); apply N.eqb_eq in E; now subst|].
  intro I. exists 58. split; [assumption|reflexivity].
Qed.
Theorem C54_usual_addresses host scheme port n : (scheme = lit "http" \/ scheme = lit "https") -> ~ In 58 host ->
  ~ In 58 port -> int_of_str port = Some n ->
  good_address (host_to_server_address (Some host) scheme) /\ good_address (host_to_server_address (Some (host ++ 58 :: port)) scheme)
  /\ good_address (url_to_server_address (scheme ++ lit "://" ++ host)) /\ good_address (url_to_server_address (scheme ++ lit "://" ++ host ++ 58 :: port)).
Proof.
  intros Hs Hh Hp Pn.
  assert (G1 : forall sch, sch = lit "http" \/ sch = lit "https" -> good_address (host_to_server_address (Some host) sch)).
  { intros sch Hsch. unfold host_to_server_address. destruct (contains_char 58 host) eqn:C; [apply contains_58 in C; now elim Hh|].
    destruct Hsch as [-> | ->]; cbn [str_eqb].
    - change (good_address (Some (host ++ lit ":80"))). destruct (host ++ lit ":80") eqn:E; [exact I|]. unfold good_address. rewrite <- E.
      exists host, (lit "80"), 80%Z. split; [reflexivity|]. split; [cbn; intuition discriminate|reflexivity].
    - change (good_address (Some (host ++ lit ":443"))). destruct (host ++ lit ":443") eqn:E; [exact I|]. unfold good_address. rewrite <- E.
      exists host, (lit "443"), 443%Z. split; [reflexivity|]. split; [cbn; intuition discriminate|reflexivity]. }
  assert (G2 : forall sch, good_address (host_to_server_address (Some (host ++ 58 :: port)) sch)).
  { intros sch. unfold host_to_server_address. rewrite (proj2 (contains_58 _)) by (apply in_or_app; right; now left).
    destruct (host ++ 58 :: port) eqn:E; [exact I|]. unfold good_address. rewrite <- E. now exists host, port, n. }
  split; [now apply G1|]. split; [apply G2|].
  destruct Hs as [-> | ->]; (split; [apply G1; auto|apply G2]).
Qed.
Print Assumptions C54_usual_addresses.
Example C54_address_example : exists host port, ~ In 58 host /\ ~ In 58 port /\ int_of_str port = Some 8080%Z /\
  url_to_server_address (lit "http" ++ lit "://" ++ host ++ 58 :: port) = Some (lit "localhost:8080").
Proof. exists (lit "localhost"), (lit "8080"). repeat split; cbn; intuition discriminate. Qed.

Lemma bad_by_attrs sa e : address_attrs [] [] sa [] = Raise e -> ~ good_address sa.
Proof. intros E G. apply (address_good [] [] sa []) in G. destruct G as [a G]. congruence. Qed.

(** Finding: a client whose address has a port and a path (or just ends in a slash) works without telemetry; with it every call fails with
    ValueError before anything is sent. *)
Theorem C54_url_refuted : forall url, In url [lit "http://localhost:8080/"; lit "http://localhost:8080/api"; lit "http://[::1]"] ->
  forall S L X B R (w : world S (otel_op + L) (otel_answer + X)) qualname i ctx s c (inner : gen (otel_op + L) (otel_answer + X) attrs B R),
    cx_server ctx = url_to_server_address url ->
    exists msg tr, run w s c (invoke (otel qualname i true) ctx inner) = (s, tr, Raised (FExn (EOther KValue msg))) /\ app_events tr = [].
Proof.
  intros url Hu S L X B R w qualname i ctx s c inner E. apply C54_address. rewrite E.
  cbn [In] in Hu. destruct Hu as [<-|[<-|[<-|[]]]]; eapply bad_by_attrs; reflexivity.
Qed.
Print Assumptions C54_url_refuted.
(** Finding: a request with such a Host header fails at an instrumented server; any client can send these. *)
Theorem C54_host_refuted : forall host, In host [lit "[::1]"; lit "example.com:"; lit "example.com:x"] ->
  forall S L X B R (w : world S (otel_op + L) (otel_answer + X)) qualname i ctx s c (inner : gen (otel_op + L) (otel_answer + X) attrs B R) scheme,
    cx_server ctx = host_to_server_address (Some host) scheme ->
    exists msg tr, run w s c (invoke (otel qualname i false) ctx inner) = (s, tr, Raised (FExn (EOther KValue msg))) /\ app_events tr = [].
Proof.
  intros host Hu S L X B R w qualname i ctx s c inner scheme E. apply C54_address. rewrite E.
  cbn [In] in Hu. destruct Hu as [<-|[<-|[<-|[]]]]; eapply bad_by_attrs; reflexivity.
Qed.
Print Assumptions C54_host_refuted.

(** ** Propagation *)

Lemma sdk_harmless {L X} (others : L -> X) : harmless (sdk others).
Proof.
  intros t a o. destruct o; cbn [sdk]; eexists _, _, _; (split; [reflexivity|]); congruence.
Qed.

(** Finding: the trace header a client sends never names the client's own span, which is open and current while the request is sent: the headers are written
    before it is started.  It names the span of the caller, and without one there is no header: the server's span is not below
    the client's, and with no caller span the two are in different traces. *)
Theorem C54_propagation_refuted {L X} (others : L -> X) ctx open next :
  good_address (cx_server ctx) -> good_address (cx_client ctx) -> Forall (fun i => i < next)%nat open ->
  exists tr token,
    run (sdk others) (mk_sdk open next, None) [] (otel_start true ctx)
    = ((mk_sdk (next :: open) (S next), hd_error open), tr, Returned token)
    /\ hd_error open <> Some next /\ (open = [] -> hd_error open = None).
Proof.
  intros Gs Gc F. unfold otel_start.
  destruct (proj1 (address_good (lit "server.address") (lit "server.port") _ (shared_attrs ctx)) Gs) as [shared Es]. rewrite Es.
  destruct (proj1 (address_good (lit "client.address") (lit "client.port") _ shared) Gc) as [spanned Ec]. rewrite Ec.
  eexists _, shared. split; [destruct open; reflexivity|]. split; [|intros ->; reflexivity].
  destruct F as [|j open Hj _]; [discriminate|]. cbn. intro E. injection E as ->. lia.
Qed.
Print Assumptions C54_propagation_refuted.

(** ** Cancellation *)

(** Finding: a cancelled call (the request's deadline, a disconnect, task cancellation) is recorded as one without error. *)
Theorem C54_cancelled_refuted qualname i client ctx :
  good_address (cx_server ctx) -> good_address (cx_client ctx) ->
  exists s tr before spanned extracted recorded,
    run (B := Empty_set) (R := unit) (sdk (fun _ : unit => tt)) (mk_sdk [] 0, None) [] (invoke (otel qualname i client) ctx (GRaise FCancel)) = (s, tr, Raised FCancel)
    /\ otel_events tr = before ++ [OStart (mi_service (cx_method ctx) ++ lit "/" ++ mi_name (cx_method ctx)) client spanned extracted; ORecord recorded; OStop None]
    /\ dget recorded (lit "error.type") = None.
Proof.
  intros Gs Gc. set (w := sdk _).
  pose proof (C48_bracket_partial (A := unit) (Q := unit) (B := unit) true w (otel qualname i client) ctx (mk_sdk [] 0, None) []) as (Bu&_&_).
  specialize (Bu _ (fun _ _ => GRaise FCancel) tt eq_refl). cbv beta in Bu. cbn [run] in Bu.
  destruct (wrapped w (sdk_harmless _) qualname i client ctx _ _ _ _ Gs Gc Bu) as [t1 H]. cbv zeta beta in H.
  destruct (run w (mk_sdk [] 0, None) [] (invoke (otel qualname i client) ctx (GRaise FCancel))) as [[s tr] o] eqn:E.
  destruct H as (_&_&->&before&spanned&extracted&ends&_&_&_&_&Ev&_&En).
  destruct (En ltac:(discriminate)) as (recorded&errors&->&_&_&[N _]&->).
  exists s, tr, before, spanned, extracted, recorded. split; [reflexivity|split; [exact Ev|exact N]].
Qed.
Print Assumptions C54_cancelled_refuted.

(** ** The instrumentor *)

(** With a sequence of interceptors, or none given, the telemetry interceptor comes first, once, and the others follow in order; also
    with an iterator without one. *)
Theorem C54_instrumentor_partial {I} (is_otel : I -> bool) (o : I) given l :
  is_otel o = true ->
  given = None /\ l = [] \/ given = Some (Sequence l) \/ given = Some (Iterator l) /\ existsb is_otel l = false ->
  exists l', init_wrapper is_otel o given = Some (Sequence l')
    /\ (existsb is_otel l = false -> l' = o :: l) /\ (existsb is_otel l = true -> l' = l)
    /\ existsb is_otel l' = true.
Proof.
  intros Ho [[-> ->]|[->|[-> Hl]]]; cbn [init_wrapper iterate].
  - exists [o]. cbn [existsb]. rewrite Ho. repeat split; discriminate || auto.
  - destruct (existsb is_otel l) eqn:E; [exists l; repeat split; auto; discriminate|].
    exists (o :: l). cbn [existsb]. rewrite Ho. repeat split; auto; discriminate.
  - rewrite Hl. exists (o :: l). cbn [existsb]. rewrite Ho. repeat split; auto; discriminate.
Qed.
Print Assumptions C54_instrumentor_partial.
(** Finding: with an iterator that has a telemetry interceptor in it, the instrumentor uses it up, and the application or client has none
    of its interceptors. *)
Theorem C54_instrumentor_refuted {I} (is_otel : I -> bool) (o : I) l :
  existsb is_otel l = true -> exists it, init_wrapper is_otel o (Some (Iterator l)) = Some it /\ fst (iterate it) = [].
Proof. intro E. cbn [init_wrapper iterate]. rewrite E. now exists (Iterator []). Qed.
Print Assumptions C54_instrumentor_refuted.

(** An instrumented server method that fails after one effect. *)
Definition ex_otel_ctx : req_ctx :=
  make_ctx 0%Z (mk_method (lit "test.Svc") (lit "Echo") IdemUnknown) (lit "POST") h_empty None (Some (lit "localhost:8080")) (Some (lit "10.0.0.1:50000")).
Example C54_example : exists g : unary_fn (otel_op + nat) (otel_answer + unit) attrs unit unit req_ctx,
  harmless (sdk (fun _ : nat => tt)) /\ good_address (cx_server ex_otel_ctx) /\ good_address (cx_client ex_otel_ctx)
  /\ apply_interceptors (FUnary (fun _ _ => GDo (inr 7%nat) (fun _ => GRaise (FExn (EConnect NotFound (lit "x") [])))) : method_fn _ _ attrs unit unit unit req_ctx)
       (resolve_interceptors true [only_meta (otel (fun _ => lit "ConnectError") 1 false)]) = FUnary g
  /\ (let '(_, tr, o) := run (sdk (fun _ : nat => tt)) (mk_sdk [] 0, None) [] (g tt ex_otel_ctx) in
      o = Raised (FExn (EConnect NotFound (lit "x") [])) /\ app_events tr = [inl 7%nat]
      /\ map (fun o => match o with OStart n _ _ _ => n | OStop (Some _) => lit "stop" | ORecord a => (match dget a (lit "rpc.response.status_code") with Some (AText c) => c | _ => [] end) | _ => [] end) (otel_events tr)
         = [[]; []; lit "test.Svc/Echo"; []; lit "not_found"; lit "stop"]).
Proof.
  eexists. split; [apply sdk_harmless|].
  split; [exists (lit "localhost"), (lit "8080"), 8080%Z; split; [reflexivity|]; split; [cbn; intuition discriminate|reflexivity]|].
  split; [exists (lit "10.0.0.1"), (lit "50000"), 50000%Z; split; [reflexivity|]; split; [cbn; intuition discriminate|reflexivity]|].
  split; [reflexivity|]. vm_compute. repeat split.
Qed.
