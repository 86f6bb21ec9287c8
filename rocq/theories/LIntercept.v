(** Lemmas about interceptors. *)
From Coq Require Import List Bool Lia.
From Verif Require Import MBase MPyStr MClient MIntercept SIntercept.
Import ListNotations.

Lemma apply_loop_onion {I F} (get : I -> option (F -> F)) is f : apply_loop get is f = onion (offered get is) f.
Proof.
  unfold apply_loop. rewrite <- fold_left_rev_right, rev_involutive. induction is as [|i is IH]; [reflexivity|].
  cbn [fold_right offered]. rewrite IH. now destruct (get i).
Qed.
Lemma offered_app {I F} (get : I -> option (F -> F)) is js : offered get (is ++ js) = offered get is ++ offered get js.
Proof. induction is as [|i is IH]; [reflexivity|]. cbn. rewrite IH. now destruct (get i). Qed.
Lemma onion_app {F} (ws vs : list (F -> F)) f : onion (ws ++ vs) f = onion ws (onion vs f).
Proof. induction ws as [|w ws IH]; [reflexivity|]. cbn. now rewrite IH. Qed.

Lemma marks_recast {L T B} (t : list (event L T Empty_set)) : marks (map (@recast L T B) t) = marks t.
Proof. induction t as [|[l|m|b] t IH]; [reflexivity|exact IH|cbn; now f_equal|destruct b]. Qed.
Lemma marks_app {L T B} (t t' : list (event L T B)) : marks (t ++ t') = marks t ++ marks t'.
Proof. apply flat_map_app. Qed.

(** Code that yields nothing does not depend on the consumer, and is never left suspended. *)
Lemma run_silent {S L X T R} (w : world S L X) (g : gen L X T Empty_set R) : forall s c, run w s c g = run w s [] g.
Proof.
  induction g as [r|f|l k IH|m k IH|b]; intros s c; cbn [run]; auto.
  - destruct (w s l) as [x s']. now rewrite IH.
  - now rewrite IH.
  - destruct b.
Qed.
Lemma silent_ends {S L X T R} (w : world S L X) (g : gen L X T Empty_set R) : forall s c, snd (run w s c g) <> Suspended.
Proof.
  induction g as [r|f|l k IH|m k IH|b]; intros s c; cbn [run]; try discriminate.
  - destruct (w s l) as [x s']. specialize (IH x s' c). destruct (run w s' c (k x)) as [[? ?] ?]. exact IH.
  - specialize (IH s c). destruct (run w s c k) as [[? ?] ?]. exact IH.
  - destruct b.
Qed.

(** A call followed by the rest. *)
Lemma run_gcall {S L X T B Y R} (w : world S L X) (g : gen L X T Empty_set Y) (k : Y -> gen L X T B R) : forall s c,
  run w s c (gcall g k) =
  match run w s [] g with
  | (s', t, Returned y) => let '(s'', t', o) := run w s' c (k y) in (s'', map recast t ++ t', o)
  | (s', t, Raised f) => (s', map recast t, Raised f)
  | (s', t, Suspended) => (s', map recast t, Suspended)
  end.
Proof.
  induction g as [r|f|l c0 IH|m c0 IH|b]; intros s c; cbn [run gcall].
  - destruct (run w s c (k r)) as [[? ?] ?]. reflexivity.
  - reflexivity.
  - destruct (w s l) as [x s']. rewrite IH. destruct (run w s' [] (c0 x)) as [[s1 t1] [y|f|]]; try reflexivity.
    destruct (run w s1 c (k y)) as [[? ?] ?]. reflexivity.
  - rewrite IH. destruct (run w s [] c0) as [[s1 t1] [y|f|]]; try reflexivity.
    destruct (run w s1 c (k y)) as [[? ?] ?]. reflexivity.
  - destruct b.
Qed.
Lemma shut_gcall {S L X T B Y R} (w : world S L X) (g : gen L X T Empty_set Y) (k : Y -> gen L X T B R) : forall s,
  shut w s (gcall g k) =
  match run w s [] g with
  | (s', t, Returned y) => let '(s'', t', o) := shut w s' (k y) in (s'', map recast t ++ t', o)
  | (s', t, Raised f) => (s', map recast t, Raised f)
  | (s', t, Suspended) => (s', map recast t, Suspended)
  end.
Proof.
  induction g as [r|f|l c0 IH|m c0 IH|b]; intros s; cbn [run shut gcall].
  - destruct (shut w s (k r)) as [[? ?] ?]. reflexivity.
  - reflexivity.
  - destruct (w s l) as [x s']. rewrite IH. destruct (run w s' [] (c0 x)) as [[s1 t1] [y|f|]]; try reflexivity.
    destruct (shut w s1 (k y)) as [[? ?] ?]. reflexivity.
  - rewrite IH. destruct (run w s [] c0) as [[s1 t1] [y|f|]]; try reflexivity.
    destruct (shut w s1 (k y)) as [[? ?] ?]. reflexivity.
  - destruct b.
Qed.

(** A run followed by [on_end]. *)
Definition finish {S L X T B R} (w : world S L X) (e : option exn -> gen L X T Empty_set unit)
    (r : S * list (event L T B) * outcome R) : S * list (event L T B) * outcome R :=
  let '(s, t, o) := r in
  match o with
  | Suspended => (s, t, Suspended)
  | _ => let '(s', t', o') := run w s [] (e (call_error o)) in
         (s', t ++ map recast t', match o' with Raised f => Raised f | _ => o end)
  end.

Lemma finish_cons {S L X T B R} (w : world S L X) e x (r : S * list (event L T B) * outcome R) :
  finish w e (let '(s, t, o) := r in (s, x :: t, o)) = let '(s, t, o) := finish w e r in (s, x :: t, o).
Proof. destruct r as [[s t] o]. cbn [finish]. destruct o; try reflexivity; destruct (run w s [] _) as [[? ?] ?]; reflexivity. Qed.

Lemma run_return {S L X T B R} (w : world S L X) (e : option exn -> gen L X T Empty_set unit) s c (r : R) :
  run w s c (gcall (e None) (fun _ => GRet r)) = finish w e (s, ([] : list (event L T B)), Returned r).
Proof.
  rewrite run_gcall. cbn [finish call_error]. pose proof (silent_ends w (e None) s []) as N.
  destruct (run w s [] (e None)) as [[s1 t1] [y|f|]]; cbn [run]; try reflexivity; [now rewrite app_nil_r|]. now elim N.
Qed.
Lemma run_raise {S L X T B R} (w : world S L X) (e : option exn -> gen L X T Empty_set unit) s c f :
  run w s c (gcall (e (error_of f)) (fun _ => GRaise f)) = finish w e (s, ([] : list (event L T B)), @Raised R f).
Proof.
  rewrite run_gcall. cbn [finish]. replace (call_error (@Raised R f)) with (error_of f) by (now destruct f).
  pose proof (silent_ends w (e (error_of f)) s []) as N.
  destruct (run w s [] (e (error_of f))) as [[s1 t1] [y|f'|]]; cbn [run]; try reflexivity; [now rewrite app_nil_r|]. now elim N.
Qed.
Lemma shut_raise {S L X T B R} (w : world S L X) (e : option exn -> gen L X T Empty_set unit) s f :
  shut w s (gcall (e (error_of f)) (fun _ => GRaise f)) = finish w e (s, ([] : list (event L T B)), @Raised R f).
Proof.
  rewrite shut_gcall. cbn [finish]. replace (call_error (@Raised R f)) with (error_of f) by (now destruct f).
  pose proof (silent_ends w (e (error_of f)) s []) as N.
  destruct (run w s [] (e (error_of f))) as [[s1 t1] [y|f'|]]; cbn [shut]; try reflexivity; [now rewrite app_nil_r|]. now elim N.
Qed.

(** One wrapper: [return call_next(...)]. *)
Lemma run_ending_silent {S L X T R} (w : world S L X) e (g : gen L X T Empty_set R) : forall s c,
  run w s c (ending e g) = finish w e (run w s c g).
Proof.
  induction g as [r|f|l k IH|m k IH|b]; intros s c.
  - apply run_return.
  - apply run_raise.
  - cbn [run ending]. destruct (w s l) as [x s']. rewrite IH. symmetry. apply finish_cons.
  - cbn [run ending]. rewrite IH. symmetry. apply finish_cons.
  - destruct b.
Qed.
(** [yield from call_next(...)]. *)
Lemma shut_closing {S L X T B R} (w : world S L X) e (g : gen L X T B R) : forall s,
  shut w s (ending e (closing g)) = finish w e (shut w s g).
Proof.
  induction g as [r|f|l k IH|m k IH|b k IH h IHh]; intros s.
  - cbn [closing ending shut]. apply (shut_raise w e s FClose).
  - apply shut_raise.
  - cbn [closing shut ending]. destruct (w s l) as [x s']. rewrite IH. symmetry. apply finish_cons.
  - cbn [closing shut ending]. rewrite IH. symmetry. apply finish_cons.
  - cbn [closing shut ending]. apply (shut_raise w e s ignored_exit).
Qed.
Lemma run_ending_sync {S L X T B R} (w : world S L X) e (g : gen L X T B R) : forall s c,
  run w s c (ending e (yield_from g)) = finish w e (run w s c g).
Proof.
  induction g as [r|f|l k IH|m k IH|b k IH h IHh]; intros s c.
  - apply run_return.
  - apply run_raise.
  - cbn [run ending yield_from]. destruct (w s l) as [x s']. rewrite IH. symmetry. apply finish_cons.
  - cbn [run ending yield_from]. rewrite IH. symmetry. apply finish_cons.
  - cbn [run ending yield_from]. rewrite finish_cons. destruct c as [|[|f] c].
    + reflexivity.
    + rewrite IH. reflexivity.
    + destruct f as [x| |].
      * rewrite IHh. reflexivity.
      * rewrite IHh. reflexivity.
      * rewrite shut_closing. reflexivity.
Qed.
(** [async for response in call_next(...): yield response], when the consumer never throws. *)
Lemma run_ending_async {S L X T B R} (w : world S L X) e (g : gen L X T B R) : forall s c, patient c ->
  run w s c (ending e (async_for g)) = finish w e (run w s c g).
Proof.
  induction g as [r|f|l k IH|m k IH|b k IH h IHh]; intros s c P.
  - apply run_return.
  - apply run_raise.
  - cbn [run ending async_for]. destruct (w s l) as [x s']. rewrite IH by auto. symmetry. apply finish_cons.
  - cbn [run ending async_for]. rewrite IH by auto. symmetry. apply finish_cons.
  - cbn [run ending async_for]. rewrite finish_cons. destruct P as [|r c -> P]; [reflexivity|]. rewrite IH by auto. reflexivity.
Qed.

(** All of [invoke], once the [try] is known. *)
Definition bracket {S L X T B R C} (w : world S L X) (m : meta L X T C) (ctx : C) (s : S)
    (inner : S -> S * list (event L T B) * outcome R) : S * list (event L T B) * outcome R :=
  match run w s [] (me_start m ctx) with
  | (s1, t1, Returned token) =>
      let '(s2, t2, o) := finish w (fun error => GMark (OnEnd (me_id m) token error) (me_end m token ctx error)) (inner s1) in
      (s2, Marked (OnStart (me_id m)) :: map recast t1 ++ Marked (Started (me_id m) token) :: t2, o)
  | (s1, t1, Raised f) => (s1, Marked (OnStart (me_id m)) :: map recast t1, Raised f)
  | (s1, t1, Suspended) => (s1, Marked (OnStart (me_id m)) :: map recast t1, Suspended)
  end.
Lemma run_invoke {S L X T B R C} (w : world S L X) (m : meta L X T C) ctx s c (g : gen L X T B R) inner :
  (forall e s, run w s c (ending e g) = finish w e (inner s)) ->
  run w s c (invoke m ctx g) = bracket w m ctx s inner.
Proof.
  intro H. unfold invoke, bracket. cbn [run]. rewrite run_gcall. destruct (run w s [] (me_start m ctx)) as [[s1 t1] [token|f|]]; try reflexivity.
  cbn [run]. rewrite H. destruct (finish w _ (inner s1)) as [[s2 t2] o]. reflexivity.
Qed.

(** ** Brackets *)
Lemma unmarked_run {S L X T B R} (w : world S L X) (g : gen L X T B R) : unmarked g -> forall s c,
  marks (snd (fst (run w s c g))) = [] /\ marks (snd (fst (shut w s g))) = [].
Proof.
  induction g as [r|f|l k IH|m k IH|b k IH h IHh]; intros U s c; cbn [run shut unmarked] in *; auto.
  - destruct (w s l) as [x s']. destruct (IH x (U x) s' c) as [I1 I2].
    destruct (run w s' c (k x)) as [[? ?] ?], (shut w s' (k x)) as [[? ?] ?]. auto.
  - contradiction.
  - destruct U as [U1 U2]. split; [|reflexivity]. destruct c as [|[|f] c]; [reflexivity| |].
    + destruct (IH U1 s c) as [I1 _]. destruct (run w s c k) as [[? ?] ?]. exact I1.
    + destruct (IHh f (U2 f) s c) as [I1 I2]. destruct f; (destruct (run w s c _) as [[? ?] ?]; exact I1) || idtac.
      destruct (shut w s (h FClose)) as [[? ?] ?]. exact I2.
Qed.
Lemma nested_app {T} st ms st1 ms' st2 : @nested T st ms st1 -> nested st1 ms' st2 -> nested st (ms ++ ms') st2.
Proof. intros H H'. induction H; cbn; try constructor; auto. Qed.

Lemma recast_unmarked {S L X T B R} (w : world S L X) (g : gen L X T Empty_set R) s c : unmarked g ->
  marks (map (@recast L T B) (snd (fst (run w s c g)))) = [].
Proof. intro U. rewrite marks_recast. now apply unmarked_run. Qed.

(** What [hooked] needs of a run, for any interceptors open before. *)
Definition well {S L X T C B R} (w : world S L X) (ms : list (meta L X T C)) (r : S * list (event L T B) * outcome R) : Prop :=
  let '(_, t, o) := r in
  (exists later, map me_id ms = starts (marks t) ++ later)
  /\ (exists left_open, (forall st, nested st (marks t) (left_open ++ st)) /\ (ended o -> left_open = []))
  /\ (Forall (quiet_end w) ms -> ended o -> Forall (fun x => snd x = call_error o) (ends (marks t))).
Lemma well_hooked {S L X T C B R} (w : world S L X) (ms : list (meta L X T C)) (r : S * list (event L T B) * outcome R) :
  well w ms r -> hooked w ms r.
Proof.
  destruct r as [[s t] o]. intros (H1&(lo&H2&H3)&H4). split; [exact H1|]. split; [|exact H4]. exists lo. split; [|exact H3].
  specialize (H2 []). now rewrite app_nil_r in H2.
Qed.
Lemma well_unmarked {S L X T C B R} (w : world S L X) s c (g : gen L X T B R) : unmarked g -> well w ([] : list (meta L X T C)) (run w s c g).
Proof.
  intro U. destruct (unmarked_run w g U s c) as [M _]. destruct (run w s c g) as [[s' t] o]. cbn [fst snd] in M.
  unfold well. rewrite M. split; [exists []; reflexivity|]. split; [exists []; split; [constructor|reflexivity]|]. constructor.
Qed.

Lemma starts_app {T} (a b : list (mark T)) : starts (a ++ b) = starts a ++ starts b.
Proof. apply flat_map_app. Qed.
Lemma ends_app {T} (a b : list (mark T)) : ends (a ++ b) = ends a ++ ends b.
Proof. apply flat_map_app. Qed.

Lemma well_bracket {S L X T C B R} (w : world S L X) (m : meta L X T C) ms ctx s (inner : S -> S * list (event L T B) * outcome R) :
  unmarked_meta m -> (forall s, well w ms (inner s)) -> well w (m :: ms) (bracket w m ctx s inner).
Proof.
  intros [U1 U2] H. unfold bracket. pose proof (recast_unmarked (B := B) w _ s [] (U1 ctx)) as M.
  pose proof (silent_ends w (me_start m ctx) s []) as N.
  destruct (run w s [] (me_start m ctx)) as [[s1 t1] [token|f|]]; cbn [fst snd] in M, N.
  - specialize (H s1). destruct (inner s1) as [[s2 t2] o2]. destruct H as ((later&E)&(lo&Nest&Lo)&Err).
    unfold finish. cbn [run].
    assert (Fin : forall s3 t3 (o3 : outcome unit), run w s2 [] (me_end m token ctx (call_error o2)) = (s3, t3, o3) ->
              marks (map (@recast L T B) t3) = [] /\ o3 <> Suspended /\ (quiet_end w m -> o3 = Returned tt)).
    { intros s3 t3 o3 E3. pose proof (recast_unmarked (B := B) w _ s2 [] (U2 token ctx (call_error o2))) as M3.
      pose proof (silent_ends w (me_end m token ctx (call_error o2)) s2 []) as N3. rewrite E3 in M3, N3. split; [exact M3|].
      split; [exact N3|]. intro Q. destruct (Q s2 token ctx (call_error o2)) as (s4&t4&E4). rewrite E3 in E4. congruence. }
    assert (Case : forall s3 t3 (o3 : outcome unit), run w s2 [] (me_end m token ctx (call_error o2)) = (s3, t3, o3) -> ended o2 ->
              well w (m :: ms) (s3, Marked (OnStart (me_id m)) :: map recast t1 ++ Marked (Started (me_id m) token) ::
                (t2 ++ map recast (Marked (OnEnd (me_id m) token (call_error o2)) :: t3)),
                match o3 with Raised f => Raised f | _ => o2 end)).
    { intros s3 t3 o3 E3 En. destruct (Fin s3 t3 o3 E3) as (M3&N3&Q3). rewrite (Lo En) in Nest. cbn [List.app] in Nest.
      assert (Mk : marks (Marked (OnStart (me_id m)) :: map recast t1 ++ Marked (Started (me_id m) token) ::
                (t2 ++ map (@recast L T B) (Marked (OnEnd (me_id m) token (call_error o2)) :: t3)))
              = OnStart (me_id m) :: Started (me_id m) token :: marks t2 ++ [OnEnd (me_id m) token (call_error o2)]).
      { cbn [marks flat_map List.app map recast]. f_equal. change (marks (map recast t1 ++ Marked (Started (me_id m) token) ::
          (t2 ++ Marked (OnEnd (me_id m) token (call_error o2)) :: map (@recast L T B) t3)) = Started (me_id m) token :: marks t2 ++ [OnEnd (me_id m) token (call_error o2)]).
        rewrite marks_app, M. cbn [List.app]. cbn [marks flat_map List.app]. f_equal.
        change (marks (t2 ++ Marked (OnEnd (me_id m) token (call_error o2)) :: map (@recast L T B) t3) = marks t2 ++ [OnEnd (me_id m) token (call_error o2)]).
        rewrite marks_app. f_equal. cbn [marks flat_map List.app]. f_equal. exact M3. }
      unfold well. rewrite Mk. split; [|split].
      - exists later. cbn [map]. rewrite E. change (me_id m :: starts (marks t2) ++ later = me_id m :: starts (marks t2 ++ [OnEnd (me_id m) token (call_error o2)]) ++ later).
        rewrite starts_app. cbn. now rewrite app_nil_r.
      - exists []. split; [|reflexivity]. intro st. constructor. constructor. eapply nested_app; [apply Nest|]. repeat constructor.
      - intros Q _. inversion Q as [|? ? Qm Qs]; subst. rewrite (Q3 Qm). change (ends _) with (ends (marks t2 ++ [OnEnd (me_id m) token (call_error o2)])).
        rewrite ends_app. apply Forall_app. split; [now apply Err|]. repeat constructor. }
    destruct (run w s2 [] (me_end m token ctx (call_error o2))) as [[s3 t3] o3] eqn:E3.
    destruct o2 as [r|f|].
    + apply (Case s3 t3 o3 eq_refl). discriminate.
    + apply (Case s3 t3 o3 eq_refl). discriminate.
    + clear Case Fin E3. cbn iota.
      assert (Mk : marks (Marked (OnStart (me_id m)) :: map (@recast L T B) t1 ++ Marked (Started (me_id m) token) :: t2)
              = OnStart (me_id m) :: Started (me_id m) token :: marks t2).
      { cbn [marks flat_map List.app]. f_equal. change (marks (map (@recast L T B) t1 ++ Marked (Started (me_id m) token) :: t2) = Started (me_id m) token :: marks t2).
        rewrite marks_app, M. reflexivity. }
      unfold well. rewrite Mk. split; [|split].
      * exists later. cbn [map]. rewrite E. reflexivity.
      * exists (lo ++ [(me_id m, token)]). split; [|intro X0; now elim X0]. intro st. constructor. constructor. rewrite <- app_assoc. apply Nest.
      * intros _ X0. now elim X0.
  - assert (Mk : marks (Marked (OnStart (me_id m)) :: map (@recast L T B) t1) = [OnStart (me_id m)])
      by (cbn [marks flat_map List.app]; f_equal; exact M).
    unfold well. rewrite Mk. split; [exists (map me_id ms); reflexivity|]. split; [|constructor].
    exists []. split; [|reflexivity]. intro st. repeat constructor.
  - now elim N.
Qed.

(** Offered wrappers of metadata interceptors. *)
Lemma offered_unary {L X T A Q B C} sync (ms : list (meta L X T C)) :
  offered (@ic_unary L X T A Q B C) (resolve_interceptors sync (map only_meta ms))
  = map (fun m next request ctx => invoke m ctx (next request ctx)) ms.
Proof. induction ms as [|m ms IH]; [reflexivity|]. cbn. f_equal. exact IH. Qed.
Lemma offered_client_stream {L X T A Q B C} sync (ms : list (meta L X T C)) :
  offered (@ic_client_stream L X T A Q B C) (resolve_interceptors sync (map only_meta ms))
  = map (fun m next request ctx => invoke m ctx (next request ctx)) ms.
Proof. induction ms as [|m ms IH]; [reflexivity|]. cbn. f_equal. exact IH. Qed.
Lemma offered_server_stream {L X T A Q B C} sync (ms : list (meta L X T C)) :
  offered (@ic_server_stream L X T A Q B C) (resolve_interceptors sync (map only_meta ms))
  = map (fun m next request ctx => invoke m ctx ((if sync then yield_from else async_for) (next request ctx))) ms.
Proof. induction ms as [|m ms IH]; [reflexivity|]. cbn. f_equal; [destruct sync; reflexivity|exact IH]. Qed.
Lemma offered_bidi_stream {L X T A Q B C} sync (ms : list (meta L X T C)) :
  offered (@ic_bidi_stream L X T A Q B C) (resolve_interceptors sync (map only_meta ms))
  = map (fun m next request ctx => invoke m ctx ((if sync then yield_from else async_for) (next request ctx))) ms.
Proof. induction ms as [|m ms IH]; [reflexivity|]. cbn. f_equal; [destruct sync; reflexivity|exact IH]. Qed.

Lemma onion_single {S L X T Y B C} (w : world S L X) (ms : list (meta L X T C)) (f : Y -> C -> gen L X T Empty_set B) request ctx :
  Forall unmarked_meta ms -> unmarked (f request ctx) -> forall s c,
  well w ms (run w s c (onion (map (fun m next request ctx => invoke m ctx (next request ctx)) ms) f request ctx)).
Proof.
  intros Um Uf. induction Um as [|m ms Hm Hms IH]; intros s c; cbn [map onion]; [now apply well_unmarked|].
  rewrite (run_invoke w m ctx s c _ (fun s => run w s c (onion (map (fun m next request ctx => invoke m ctx (next request ctx)) ms) f request ctx))).
  - apply well_bracket; auto.
  - intros e s1. apply run_ending_silent.
Qed.
Lemma onion_stream {S L X T Y B C} (sync : bool) (w : world S L X) (ms : list (meta L X T C)) (f : Y -> C -> gen L X T B unit) request ctx c :
  Forall unmarked_meta ms -> unmarked (f request ctx) -> sync = true \/ patient c -> forall s,
  well w ms (run w s c (onion (map (fun m next request ctx => invoke m ctx ((if sync then yield_from else async_for) (next request ctx))) ms) f request ctx)).
Proof.
  intros Um Uf Hc. induction Um as [|m ms Hm Hms IH]; intros s; cbn [map onion]; [now apply well_unmarked|].
  rewrite (run_invoke w m ctx s c _ (fun s => run w s c (onion (map (fun m next request ctx => invoke m ctx ((if sync then yield_from else async_for) (next request ctx))) ms) f request ctx))).
  - apply well_bracket; auto.
  - intros e s1. destruct sync; [apply run_ending_sync|]. apply run_ending_async. destruct Hc as [Hc|Hc]; [discriminate|exact Hc].
Qed.

(** One asynchronous wrapper, whatever the consumer does. *)
Lemma run_ending_async1 {S L X T B R} (w : world S L X) e (g : gen L X T B R) : forall s c,
  run w s c (ending e (async_for g)) = finish w e (run w s c (async_for g)).
Proof.
  induction g as [r|f|l k IH|m k IH|b k IH h IHh]; intros s c.
  - apply run_return.
  - apply run_raise.
  - cbn [run ending async_for]. destruct (w s l) as [x s']. rewrite IH. symmetry. apply finish_cons.
  - cbn [run ending async_for]. rewrite IH. symmetry. apply finish_cons.
  - cbn [run ending async_for]. rewrite finish_cons. destruct c as [|[|f] c]; [reflexivity|rewrite IH; reflexivity|].
    destruct f as [x| |].
    + rewrite run_raise. reflexivity.
    + rewrite (run_raise w e s c FCancel). reflexivity.
    + rewrite (shut_raise w e s FClose). reflexivity.
Qed.
Lemma async_unmarked {L X T B R} (g : gen L X T B R) : unmarked g -> unmarked (async_for g).
Proof. induction g; cbn; intuition. Qed.
Lemma async_one {S L X T B C} (w : world S L X) (m : meta L X T C) ctx (g : gen L X T B unit) :
  unmarked_meta m -> unmarked g -> forall s c, well w [m] (run w s c (invoke m ctx (async_for g))).
Proof.
  intros Um Uf s c. rewrite (run_invoke w m ctx s c _ (fun s => run w s c (async_for g))).
  - apply well_bracket; auto. intro s1. apply well_unmarked. now apply async_unmarked.
  - intros e s1. apply run_ending_async1.
Qed.
