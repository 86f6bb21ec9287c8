(** The timeout of streaming calls of the asynchronous client: C55. *)
From Coq Require Import List ZArith Bool String Lia ZifyBool.
From Verif Require Import MBase MPyStr MTimer STimer.
Import ListNotations.
Local Open Scope Z_scope.

Record tm_ok (s : tsys) (f : bool) : Prop := mk_to {
  to_state : tm_state (ts_timer s) = if f then Expiring else Entered;
  to_handler : match tm_handler (ts_timer s) with
               | Some d => f = false /\ exists w, tm_when (ts_timer s) = Some w /\ w <= d
               | None => f = true \/ tm_when (ts_timer s) = None
               end
}.

Lemma reschedule_ok s f w : tm_ok s f ->
  match reschedule (ts_now s) (ts_timer s) w with
  | Ok t => f = false /\ tm_ok (set_timer s t) false
  | Raise _ => f = true
  end.
Proof.
  intros [Ht Hh]. unfold reschedule. rewrite Ht. destruct f; [reflexivity|]. split; [reflexivity|].
  split; [reflexivity|]. cbn. destruct w as [w|]; [|now right]. split; [reflexivity|]. exists w. split; [reflexivity|].
  destruct (w <=? ts_now s) eqn:E; lia.
Qed.

Lemma settle_ok b : forall s f, tm_ok s f ->
  let (s', b') := settle s b in
  tm_ok s' f /\ ts_now s' = ts_now s /\ ts_pending s' = ts_pending s /\ (forall w k, b' <> TReschedule w k)
  /\ (never_yields b -> never_yields b') /\ (keeps_deadline b -> s' = s /\ b' = b).
Proof.
  induction b as [|x|k IH|k IH|w k IH]; intros s f I; cbn [settle];
    try (split; [exact I|]; split; [reflexivity|]; split; [reflexivity|]; split; [discriminate|]; split; auto; fail).
  pose proof (reschedule_ok s f w I) as R. destruct (reschedule (ts_now s) (ts_timer s) w) as [t|e].
  - destruct R as [-> R]. specialize (IH (Ok tt) _ _ R). destruct (settle (set_timer s t) (k (Ok tt))) as [s' b'].
    destruct IH as (H1&H2&H3&H4&H5&_). split; [exact H1|]. split; [exact H2|]. split; [exact H3|]. split; [exact H4|].
    split; [intro N; apply H5, N|]. intros [].
  - specialize (IH (Raise e) _ _ I). destruct (settle s (k (Raise e))) as [s' b'].
    destruct IH as (H1&H2&H3&H4&H5&_). split; [exact H1|]. split; [exact H2|]. split; [exact H3|]. split; [exact H4|].
    split; [intro N; apply H5, N|]. intros [].
Qed.

Lemma fire_ok s f : tm_ok s f ->
  let (s', o) := loop_fire s in
  ts_now s' = ts_now s
  /\ ((o = [] /\ s' = s /\ (f = true \/ tm_when (ts_timer s) = None \/ exists d, tm_handler (ts_timer s) = Some d /\ ts_now s < d))
      \/ (f = false /\ tm_ok s' true /\ ts_pending s' = true /\ exists w, tm_when (ts_timer s) = Some w /\ w <= ts_now s /\ o = [OFired (ts_now s) (Some w)])).
Proof.
  intros [Ht Hh]. unfold loop_fire. destruct (tm_handler (ts_timer s)) as [d|] eqn:Eh.
  - destruct Hh as (->&w&Ew&L). destruct (d <=? ts_now s) eqn:E.
    + unfold on_timeout. rewrite Ht. split; [reflexivity|]. right. split; [reflexivity|]. split; [split; [reflexivity|now left]|].
      split; [reflexivity|]. exists w. rewrite Ew. split; [reflexivity|]. split; [lia|reflexivity].
    + split; [reflexivity|]. left. split; [reflexivity|]. split; [reflexivity|]. right. right. exists d. split; [reflexivity|lia].
  - split; [reflexivity|]. left. split; [reflexivity|]. split; [reflexivity|]. tauto.
Qed.

Definition one_fired (o : list tobs) (f : bool) : Prop :=
  ~ In OFailedAssert o
  /\ (List.length (filter is_fired o) <= (if f then 0 else 1))%nat
  /\ forall now w, In (OFired now w) o -> exists d, w = Some d /\ d <= now.

Lemma deliver_ok s b v f : tm_ok s f ->
  let '(s', o, _) := deliver s b v in
  tm_ok s' (f || existsb is_fired o) /\ one_fired o f.
Proof.
  intro I. pose proof I as [Ht Hh].
  assert (Q : one_fired [] f) by (split; [intros []|split; [destruct f; cbn; lia|intros ? ? []]]).
  assert (C : forall x, is_fired x = false -> x <> OFailedAssert -> one_fired [x] f).
  { intros x X N. split; [intros [H|[]]; now apply N|]. split; [cbn; rewrite X; cbn; destruct f; lia|].
    intros now w [H|[]]. subst x. discriminate X. }
  assert (I' : forall n p, tm_ok (mk_tsys n (ts_timer s) p) (f || false)) by (intros; rewrite orb_false_r; split; assumption).
  destruct v as [d| | |w| |a]; cbn [deliver].
  - split; [apply I'|exact Q].
  - pose proof (fire_ok s f I) as F. destruct (loop_fire s) as [s' o]. destruct F as [_ [(->&->&_)|(->&Is&_&w&Ew&L&->)]].
    + cbn [existsb]. rewrite orb_false_r. split; [exact I|exact Q].
    + split; [exact Is|]. split; [intros [H|[]]; discriminate H|]. split; [cbn; lia|]. intros now w' [H|[]]. injection H as <- <-. exists w. split; [reflexivity|exact L].
  - split; [apply I'|exact Q].
  - pose proof (reschedule_ok s f w I) as R. destruct (reschedule (ts_now s) (ts_timer s) w) as [t|e].
    + destruct R as [-> R]. split; [exact R|exact Q].
    + cbn [existsb]. rewrite orb_false_r. split; [exact I|exact Q].
  - destruct b as [|x|k|k|w k]; try (cbn [existsb]; rewrite orb_false_r; split; [exact I|exact Q]);
      destruct (ts_pending s); (split; [apply I'|]); try exact Q; apply C; (reflexivity || discriminate).
  - destruct b as [|x|k|k|w k]; cbn [existsb]; rewrite orb_false_r; (split; [exact I|exact Q]).
Qed.

Lemma one_fired_app a b f : one_fired a f -> one_fired b (f || existsb is_fired a) -> one_fired (a ++ b) f.
Proof.
  intros (A1&A2&A3) (B1&B2&B3). split; [|split].
  - rewrite in_app_iff. tauto.
  - rewrite filter_app, app_length.
    assert (E : existsb is_fired a = Nat.ltb 0 (List.length (filter is_fired a))).
    { clear. induction a as [|x a IH]; [reflexivity|]. cbn. destruct (is_fired x); [reflexivity|exact IH]. }
    rewrite E in B2. destruct f; cbn [orb] in B2; [lia|]. destruct (Nat.ltb_spec 0 (List.length (filter is_fired a))); lia.
  - intros now w. rewrite in_app_iff. intros [H|H]; [exact (A3 _ _ H)|exact (B3 _ _ H)].
Qed.

Lemma body_ok vs : forall s b f, tm_ok s f ->
  let '(s', o, e) := body_run s b vs in tm_ok s' (f || existsb is_fired o) /\ one_fired o f.
Proof.
  assert (Q : forall f, one_fired [] f) by (intro f; split; [intros []|split; [destruct f; cbn; lia|intros ? ? []]]).
  induction vs as [|v vs IH]; intros s b f I; cbn [body_run]; pose proof (settle_ok b s f I) as S; destruct (settle s b) as [s1 b1]; destruct S as (I1&_).
  - destruct b1; cbn [existsb]; rewrite orb_false_r; (split; [exact I1|apply Q]).
  - destruct b1 as [|x|k|k|w k] eqn:Eb; try (cbn [existsb]; rewrite orb_false_r; split; [exact I1|apply Q]); rewrite <- Eb;
      pose proof (deliver_ok s1 b1 v f I1) as D; destruct (deliver s1 b1 v) as [[s2 o] b2]; destruct D as [D1 D2];
      specialize (IH s2 (match b2 with Some b => b | None => b1 end) _ D1);
      destruct (body_run s2 (match b2 with Some b => b | None => b1 end) vs) as [[s3 o'] e];
      rewrite existsb_app, orb_assoc; destruct IH as [J1 J2]; (split; [exact J1|]); now apply one_fired_app.
Qed.

Lemma enter_ok s w : tm_state (ts_timer s) = Created -> tm_when (ts_timer s) = w ->
  exists t, timer_enter true (ts_now s) (ts_timer s) = Ok t /\ tm_ok (set_timer s t) false
    /\ tm_when t = w /\ (forall d, w = Some d -> tm_handler t = Some (Z.max (ts_now s) d)).
Proof.
  intros Hc Hw. unfold timer_enter. rewrite Hc. cbn [tstate_eqb negb]. unfold reschedule. cbn [tm_state]. rewrite Hw.
  eexists. split; [reflexivity|]. split; [|split].
  - split; [reflexivity|]. cbn. destruct w as [d|]; [|now right]. split; [reflexivity|]. exists d. split; [reflexivity|]. destruct (d <=? ts_now s) eqn:E; lia.
  - reflexivity.
  - intros d ->. cbn. f_equal. destruct (d <=? ts_now s) eqn:E; lia.
Qed.

(** Every body, every interleaving of timer, other cancellations, rescheduling and the body: no assertion of the class fails; the
    deadline fires at most once, and not before the time it is set to; what leaves the block is what ended the body, unless the
    deadline fired and the body ended with a cancellation: then, and only then, it is the block's own TimeoutError. *)
Theorem C55_outcome now w pending b vs :
  let '(_, o, e, y) := with_timeout true (mk_tsys now (timer_new w) pending) b vs in
  ~ In OFailedAssert o
  /\ (List.length (filter is_fired o) <= 1)%nat
  /\ (forall t d, In (OFired t d) o -> exists d', d = Some d' /\ d' <= t)
  /\ match e with
     | Unfinished => y = LeftNot
     | EndAt x => exists x', y = LeftWith x' /\ left_with (fired o) x x'
                    /\ (kind_of x <> Some XTimeout -> (kind_of x' = Some XTimeout <-> fired o /\ kind_of x = Some XCancelled))
     end.
Proof.
  set (s := mk_tsys now (timer_new w) pending). destruct (enter_ok s w eq_refl eq_refl) as (t&Et&It&_). unfold with_timeout. rewrite Et.
  pose proof (body_ok vs _ b _ It) as B. destruct (body_run (set_timer s t) b vs) as [[s1 o] e]. destruct B as [I1 (O1&O2&O3)]. cbn [orb] in I1.
  assert (X : forall x, exists t' x', timer_exit (ts_timer s1) x = Ok (t', x') /\ left_with (fired o) x x'
    /\ (kind_of x <> Some XTimeout -> (kind_of x' = Some XTimeout <-> fired o /\ kind_of x = Some XCancelled))).
  { intro x. unfold timer_exit, left_with, fired. destruct I1 as [Ht _]. rewrite Ht. destruct (existsb is_fired o).
    - eexists _, _. split; [reflexivity|].
      assert (Ins : forall ctx, exists a b, insert_timeout ctx = a ++ b /\ (ctx = a ++ b \/ exists b', b = XTimeout :: b' /\ ctx = a ++ b')).
      { induction ctx as [|k ctx (a&b'&E&H)]; [exists [], []; split; [reflexivity|now left]|]. destruct k.
        { exists [], (XTimeout :: XCancelled :: ctx). split; [reflexivity|]. right. exists (XCancelled :: ctx). split; reflexivity. }
        all: cbn; rewrite E; eexists (_ :: a), b'; (split; [reflexivity|]); (destruct H as [H|(b2&H1&H2)];
          [left; now rewrite H|right; exists b2; split; [exact H1|now rewrite H2]]). }
      split.
      + split; [intro N; now elim N|]. intros _. destruct x as [[[| | |e'] ctx]|]; try reflexivity;
          destruct (Ins ctx) as (a&b'&E&H); exists a, b'; (split; [now rewrite E|exact H]).
      + intro N. destruct x as [[[| | |e'] ctx]|]; cbn; split; try discriminate; try tauto; intros [? ?]; discriminate.
    - eexists _, _. split; [reflexivity|]. split; [split; [reflexivity|discriminate]|]. intro N. split; [intro H; now elim N|]. intros [? ?]. discriminate. }
  destruct e as [x|].
  - destruct (X x) as (t'&x'&E&H). rewrite E. split; [exact O1|]. split; [exact O2|]. split; [exact O3|]. exists x'. split; [reflexivity|exact H].
  - split; [exact O1|]. split; [exact O2|]. split; [exact O3|]. reflexivity.
Qed.
Print Assumptions C55_outcome.

(** ** Firing *)

Lemma body_fires vs2 vs1 : forall s b h, tm_ok s false -> keeps_deadline b -> no_reschedule (vs1 ++ vs2) ->
  match h with
  | None => tm_when (ts_timer s) = None
  | Some (w, d) => tm_when (ts_timer s) = Some w /\ tm_handler (ts_timer s) = Some d
  end ->
  let '(s', o, e) := body_run s b (vs1 ++ vs2) in
  match h with
  | None => existsb is_fired o = false
  | Some (w, d) =>
      (forall t x, In (OFired t x) o -> x = Some w)
      /\ (vs2 <> [] -> hd_error vs2 = Some VLoop -> snd (body_run s b vs1) = Unfinished -> d <= ts_now s + elapsed vs1 -> existsb is_fired o = true)
  end.
Proof.
  assert (Fired : forall vs s b, tm_ok s true -> let '(_, o, _) := body_run s b vs in existsb is_fired o = false).
  { intros vs s b I. pose proof (body_ok vs s b true I) as B. destruct (body_run s b vs) as [[s' o] e]. destruct B as [_ (_&B&_)].
    destruct (existsb is_fired o) eqn:E; [|reflexivity]. apply existsb_exists in E. destruct E as (x&Hx&Fx).
    assert (In x (filter is_fired o)) as H by (apply filter_In; auto). destruct (filter is_fired o); [destruct H|cbn in B; lia]. }
  (* one step of a suspended body *)
  assert (Step : forall s b v h, tm_ok s false -> keeps_deadline b -> (forall w, v <> VReschedule w) ->
    match h with
    | None => tm_when (ts_timer s) = None
    | Some (w, d) => tm_when (ts_timer s) = Some w /\ tm_handler (ts_timer s) = Some d
    end ->
    let '(s', o, b') := deliver s b v in
    keeps_deadline (match b' with Some b => b | None => b end)
    /\ ((tm_ok s' false /\ ts_timer s' = ts_timer s /\ existsb is_fired o = false
         /\ ts_now s' = ts_now s + match v with VTime n => Z.of_nat n | _ => 0 end
         /\ (v = VLoop -> match h with Some (w, d) => ts_now s < d | None => True end))
        \/ (v = VLoop /\ tm_ok s' true /\ exists w, tm_when (ts_timer s) = Some w /\ o = [OFired (ts_now s) (Some w)]))).
  { intros s b v h I K N H. destruct v as [n| | |w| |a]; cbn [deliver].
    - split; [exact K|]. left. split; [destruct I; split; assumption|]. split; [reflexivity|]. split; [reflexivity|]. split; [reflexivity|discriminate].
    - pose proof (fire_ok s false I) as F. destruct (loop_fire s) as [s' o]. destruct F as [_ [(->&->&F)|(_&F&_&w&Ew&L&->)]]; (split; [exact K|]).
      + left. split; [exact I|]. split; [reflexivity|]. split; [reflexivity|]. split; [lia|]. intros _. destruct h as [[w d]|]; [|exact Logic.I].
        destruct F as [F|[F|(d'&F1&F2)]]; [discriminate F|destruct H as [H _]; rewrite H in F; discriminate F|]. destruct H as [_ H]. rewrite H in F1. injection F1 as ->. exact F2.
      + right. split; [reflexivity|]. split; [exact F|]. exists w. split; [exact Ew|reflexivity].
    - split; [exact K|]. left. split; [destruct I; split; assumption|]. split; [reflexivity|]. split; [reflexivity|]. split; [cbn; lia|discriminate].
    - now elim (N w).
    - destruct b as [|x|k|k|w0 k]; try destruct (ts_pending s); cbn [keeps_deadline] in *; (split; [first [exact K|apply K|exact Logic.I]|]); left;
        (split; [destruct I; split; assumption|]); (split; [reflexivity|]); (split; [reflexivity|]); (split; [cbn; lia|discriminate]).
    - destruct b as [|x|k|k|w0 k]; cbn [keeps_deadline] in *; (split; [first [exact K|apply K|exact Logic.I]|]); left;
        (split; [exact I|]); (split; [reflexivity|]); (split; [reflexivity|]); (split; [lia|discriminate]). }
  induction vs1 as [|v vs1 IH]; intros s b h I K N H.
  - (* the loop runs now *)
    cbn [List.app elapsed fold_right] in *. destruct vs2 as [|v vs2].
    + cbn [body_run]. pose proof (settle_ok b s false I) as S. destruct (settle s b) as [s1 b1]. destruct S as (_&_&_&_&_&S). destruct (S K) as [-> ->].
      destruct b; destruct h as [[w1 d]|]; try reflexivity; (split; [intros ? ? []|intro X; now elim X]).
    + revert s b h I K N H. set (vs := v :: vs2) in *.
      assert (Gen : forall vs s b h, tm_ok s false -> keeps_deadline b -> no_reschedule vs ->
         match h with None => tm_when (ts_timer s) = None | Some (w, d) => tm_when (ts_timer s) = Some w /\ tm_handler (ts_timer s) = Some d end ->
         let '(s', o, e) := body_run s b vs in
         match h with None => existsb is_fired o = false | Some (w, d) => forall t x, In (OFired t x) o -> x = Some w end).
      { clear vs vs2 v. induction vs as [|v vs IHv]; intros s b h I K N H; cbn [body_run];
          pose proof (settle_ok b s false I) as S; destruct (settle s b) as [s1 b1]; destruct S as (_&_&_&_&_&S); destruct (S K) as [-> ->].
        - destruct b; destruct h as [[w1 d]|]; try reflexivity; intros ? ? [].
        - inversion N as [|v' vs' Nv Nvs]; subst v' vs'.
          assert (Go : let '(s', o, e) := (let '(s, o, b') := deliver s b v in
             let '(s, o', e) := body_run s (match b' with Some b => b | None => b end) vs in (s, o ++ o', e)) in
             match h with None => existsb is_fired o = false | Some (w, d) => forall t x, In (OFired t x) o -> x = Some w end).
          { pose proof (Step s b v h I K Nv H) as D. destruct (deliver s b v) as [[s2 o] b2]. destruct D as [K2 [(I2&T2&O2&_)|(_&I2&w&Ew&->)]].
            - specialize (IHv s2 _ h I2 K2 Nvs). rewrite T2 in IHv. specialize (IHv H).
              destruct (body_run s2 (match b2 with Some b => b | None => b end) vs) as [[s3 o'] e]. destruct h as [[w d]|].
              + intros t x. rewrite in_app_iff. intros [Hx|Hx]; [|exact (IHv t x Hx)]. exfalso.
                rewrite <- not_true_iff_false in O2. apply O2. apply existsb_exists. eexists. split; [exact Hx|reflexivity].
              + rewrite existsb_app, O2. exact IHv.
            - specialize (Fired vs s2 (match b2 with Some b => b | None => b end) I2).
              destruct (body_run s2 (match b2 with Some b => b | None => b end) vs) as [[s3 o'] e]. destruct h as [[w' d]|].
              + destruct H as [H _]. rewrite H in Ew. injection Ew as ->. intros t x [Hx|Hx]; [now injection Hx as _ <-|]. exfalso.
                rewrite <- not_true_iff_false in Fired. apply Fired. apply existsb_exists. eexists. split; [exact Hx|reflexivity].
              + rewrite H in Ew. discriminate Ew. }
          destruct b; try exact Go; destruct h as [[w' d]|]; try reflexivity; intros ? ? []. }
      intros s b h I K N H. pose proof (Gen vs s b h I K N H) as G. destruct (body_run s b vs) as [[s' o] e] eqn:Er.
      destruct h as [[w d]|]; [|exact G]. split; [exact G|]. intros _ Hv U L. injection Hv as ->. clear G.
      unfold vs in Er. cbn [body_run] in Er. cbn [body_run] in U.
      pose proof (settle_ok b s false I) as S. destruct (settle s b) as [s1 b1]. destruct S as (_&_&_&_&_&S). destruct (S K) as [-> ->].
      assert (Go : (let '(s, o, b') := deliver s b VLoop in
             let '(s, o', e) := body_run s (match b' with Some b => b | None => b end) vs2 in (s, o ++ o', e)) = (s', o, e)).
      { destruct b; try exact Er; discriminate U. }
      pose proof (Step s b VLoop (Some (w, d)) I K ltac:(discriminate) H) as D. destruct (deliver s b VLoop) as [[s2 o1] b2].
      destruct D as [_ [(_&_&_&_&D)|(_&_&w'&_&->)]]; [specialize (D eq_refl); lia|].
      destruct (body_run s2 (match b2 with Some b => b | None => b end) vs2) as [[s3 o'] e']. injection Go as _ <- _. reflexivity.
  - cbn [List.app] in *. inversion N as [|v' vs' Nv Nvs]; subst v' vs'. cbn [body_run].
    pose proof (settle_ok b s false I) as S. destruct (settle s b) as [s1 b1]. destruct S as (_&_&_&_&_&S). destruct (S K) as [-> ->].
    assert (Go : let '(s', o, e) := (let '(s, o, b') := deliver s b v in
             let '(s, o', e) := body_run s (match b' with Some b => b | None => b end) (vs1 ++ vs2) in (s, o ++ o', e)) in
       match h with
       | None => existsb is_fired o = false
       | Some (w, d) =>
           (forall t x, In (OFired t x) o -> x = Some w)
           /\ (vs2 <> [] -> hd_error vs2 = Some VLoop ->
               snd (let '(s, o, b') := deliver s b v in
                    let '(s, o', e) := body_run s (match b' with Some b => b | None => b end) vs1 in (s, o ++ o', e)) = Unfinished ->
               d <= ts_now s + elapsed (v :: vs1) -> existsb is_fired o = true)
       end).
    { pose proof (Step s b v h I K Nv H) as D. destruct (deliver s b v) as [[s2 o] b2]. destruct D as [K2 [(I2&T2&O2&Nw&_)|(_&I2&w&Ew&->)]].
      - specialize (IH s2 _ h I2 K2 Nvs). rewrite T2 in IH. specialize (IH H).
        destruct (body_run s2 (match b2 with Some b => b | None => b end) (vs1 ++ vs2)) as [[s3 o'] e].
        destruct (body_run s2 (match b2 with Some b => b | None => b end) vs1) as [[s4 o''] e'']. cbn [snd] in *.
        destruct h as [[w d]|].
        + destruct IH as [IH1 IH2]. split.
          * intros t x. rewrite in_app_iff. intros [Hx|Hx]; [|exact (IH1 t x Hx)]. exfalso.
            rewrite <- not_true_iff_false in O2. apply O2. apply existsb_exists. eexists. split; [exact Hx|reflexivity].
          * intros Nz Hv U L. rewrite existsb_app, O2. apply IH2; auto. rewrite Nw. cbn [elapsed fold_right] in L. fold (elapsed vs1) in L. destruct v; lia.
        + rewrite existsb_app, O2. exact IH.
      - specialize (Fired (vs1 ++ vs2) s2 (match b2 with Some b => b | None => b end) I2).
        destruct (body_run s2 (match b2 with Some b => b | None => b end) (vs1 ++ vs2)) as [[s3 o'] e]. destruct h as [[w' d]|].
        + destruct H as [H _]. rewrite H in Ew. injection Ew as ->. split; [|reflexivity]. intros t x [Hx|Hx]; [now injection Hx as _ <-|]. exfalso.
          rewrite <- not_true_iff_false in Fired. apply Fired. apply existsb_exists. eexists. split; [exact Hx|reflexivity].
        + rewrite H in Ew. discriminate Ew. }
    destruct b; try exact Go; destruct h as [[w' d]|]; try reflexivity; (split; [intros ? ? []|]); intros _ _ U; discriminate U.
Qed.

Lemma elapsed_nonneg l : 0 <= elapsed l.
Proof. induction l as [|v l IH]; [cbn; lia|]. change (elapsed (v :: l)) with (match v with VTime d => Z.of_nat d + elapsed l | _ => elapsed l end). destruct v; lia. Qed.

(** A timeout that nobody reschedules: without a deadline it never fires; with one, what fires is that deadline, and it does fire when the event
    loop runs while the body is not finished and the time has come. *)
Theorem C55_fires now w pending b vs1 vs2 : keeps_deadline b -> no_reschedule (vs1 ++ VLoop :: vs2) ->
  let '(_, o, _, _) := with_timeout true (mk_tsys now (timer_new w) pending) b (vs1 ++ VLoop :: vs2) in
  let '(_, _, e1, _) := with_timeout true (mk_tsys now (timer_new w) pending) b vs1 in
  match w with
  | None => ~ fired o
  | Some w => (forall t d, In (OFired t d) o -> d = Some w /\ w <= t)
              /\ (e1 = Unfinished -> w <= now + elapsed vs1 -> fired o)
  end.
Proof.
  intros K N. pose proof (C55_outcome now w pending b (vs1 ++ VLoop :: vs2)) as O.
  set (s := mk_tsys now (timer_new w) pending) in *. destruct (enter_ok s w eq_refl eq_refl) as (t&Et&It&Ew&Eh).
  unfold with_timeout in *. rewrite Et in *.
  pose proof (body_fires (VLoop :: vs2) vs1 (set_timer s t) b (match w with Some d => Some (d, Z.max now d) | None => None end) It K N) as F.
  destruct (body_run (set_timer s t) b (vs1 ++ VLoop :: vs2)) as [[s1 o] e].
  destruct (body_run (set_timer s t) b vs1) as [[s2 o2] e2]. cbn [snd] in F.
  assert (Fo : forall (r : tsys * list tobs * tend * tleft), match e with
      | Unfinished => (s1, o, e, LeftNot)
      | EndAt x => match timer_exit (ts_timer s1) x with Ok (t, x) => (set_timer s1 t, o, e, LeftWith x) | Raise _ => (s1, o, e, LeftAssert) end
      end = r -> snd (fst (fst r)) = o).
  { intros r <-. destruct e; [|reflexivity]. destruct (timer_exit (ts_timer s1) x) as [[? ?]|]; reflexivity. }
  assert (Fe : forall (r : tsys * list tobs * tend * tleft), match e2 with
      | Unfinished => (s2, o2, e2, LeftNot)
      | EndAt x => match timer_exit (ts_timer s2) x with Ok (t, x) => (set_timer s2 t, o2, e2, LeftWith x) | Raise _ => (s2, o2, e2, LeftAssert) end
      end = r -> snd (fst r) = e2).
  { intros r <-. destruct e2; [|reflexivity]. destruct (timer_exit (ts_timer s2) x) as [[? ?]|]; reflexivity. }
  destruct (match e with Unfinished => (s1, o, e, LeftNot) | _ => _ end) as [[[r1 r2] r3] r4].
  destruct (match e2 with Unfinished => (s2, o2, e2, LeftNot) | _ => _ end) as [[[q1 q2] q3] q4].
  specialize (Fo _ eq_refl). specialize (Fe _ eq_refl). cbn [fst snd] in Fo, Fe. subst r2 q3. destruct O as (_&_&O&_).
  destruct w as [w|].
  - specialize (F (conj Ew (Eh w eq_refl))). destruct F as [F1 F2]. split.
    + intros t' d Hd. pose proof (F1 t' d Hd) as Ed. split; [exact Ed|]. destruct (O t' d Hd) as (d'&E&L). rewrite Ed in E. injection E as ->. exact L.
    + intros U L. apply F2; auto; [discriminate|]. cbn [ts_now set_timer]. change (ts_now s) with now.
      pose proof (elapsed_nonneg vs1). lia.
  - specialize (F Ew). unfold fired. rewrite F. discriminate.
Qed.
Print Assumptions C55_fires.

(** ** The body is told *)

Lemma body_told vs : forall s b f, tm_ok s f -> never_yields b -> (f = true -> ts_pending s = true) ->
  let '(_, o, e) := body_run s b vs in
  (f = true \/ existsb is_fired o = true) -> (f = true -> exists k, snd (settle s b) = TAwait k) -> e <> Unfinished -> In OCancelled o.
Proof.
  induction vs as [|v vs IH]; intros s b f I Y P; cbn [body_run]; pose proof (settle_ok b s f I) as S; destruct (settle s b) as [s1 b1];
    destruct S as (I1&_&P1&Nr&Y1&_); specialize (Y1 Y); cbn [snd].
  - destruct b1; intros [F|F] A U; try discriminate F; try (now elim U); destruct (A F) as [k' E]; discriminate E.
  - destruct b1 as [|x|k|k|w k].
    1,2: intros [F|F] A U; [destruct (A F) as [k' E]; discriminate E|discriminate F].
    2: exact (False_ind _ Y1).
    2: now elim (Nr w k).
    pose proof (deliver_ok s1 (TAwait k) v f I1) as D.
    assert (Pd : let '(s2, o, b2) := deliver s1 (TAwait k) v in In OCancelled o \/ (b2 = None /\ (f || existsb is_fired o = true -> ts_pending s2 = true))
      \/ ((exists w, b2 = Some (k w)) /\ ts_pending s1 = false /\ o = [])).
    { destruct v as [n| | |w| |a]; cbn [deliver].
      - right. left. split; [reflexivity|]. cbn. rewrite orb_false_r, P1. exact P.
      - pose proof (fire_ok s1 f I1) as F. destruct (loop_fire s1) as [s2 o]. right. left. split; [reflexivity|].
        destruct F as [_ [(->&->&_)|(_&_&Pp&_)]]; [|intros _; exact Pp]. cbn [existsb]. rewrite orb_false_r, P1. exact P.
      - right. left. split; reflexivity.
      - destruct (reschedule _ _ _); right; left; (split; [reflexivity|]); cbn; rewrite orb_false_r, P1; exact P.
      - destruct (ts_pending s1) eqn:Ep; [left; now left|]. right. right. split; [eexists; reflexivity|]. split; reflexivity.
      - right. left. split; [reflexivity|]. cbn. rewrite orb_false_r, P1. exact P. }
    destruct (deliver s1 (TAwait k) v) as [[s2 o] b2]. destruct D as [D1 _]. destruct Pd as [Pd|[(->&Pd)|((w&->)&Pp&->)]].
    + destruct (body_run s2 _ vs) as [[s3 o'] e]. intros _ _ _. apply in_app_iff. now left.
    + specialize (IH s2 (TAwait k) _ D1 Y1 Pd). destruct (body_run s2 (TAwait k) vs) as [[s3 o'] e]. intros F A U.
      apply in_app_iff. right. apply IH; [|intros _; eexists; reflexivity|exact U].
      rewrite existsb_app in F. destruct f, (existsb is_fired o), (existsb is_fired o'); cbn in *; tauto.
    + assert (f = false) as -> by (destruct f; [rewrite P1, (P eq_refl) in Pp; discriminate Pp|reflexivity]).
      cbn [existsb] in D1. specialize (IH s2 (k w) false D1 (Y1 w) ltac:(discriminate)). destruct (body_run s2 (k w) vs) as [[s3 o'] e].
      intros F A U. apply IH; [exact F|discriminate|exact U].
Qed.

(** If the deadline fired, a body that does not yield has had a CancelledError raised at one of its awaits. *)
Theorem C55_told now w b vs : never_yields b ->
  let '(_, o, e, _) := with_timeout true (mk_tsys now (timer_new w) false) b vs in
  fired o -> e <> Unfinished -> In OCancelled o.
Proof.
  intro Y. set (s := mk_tsys now (timer_new w) false). destruct (enter_ok s w eq_refl eq_refl) as (t&Et&It&_).
  unfold with_timeout. rewrite Et. pose proof (body_told vs (set_timer s t) b false It Y ltac:(discriminate)) as T.
  destruct (body_run (set_timer s t) b vs) as [[s1 o] e]. destruct e as [x|].
  - destruct (timer_exit (ts_timer s1) x) as [[t' x']|]; intros F U; (apply T; [right; exact F|discriminate|exact U]).
  - intros _ U. now elim U.
Qed.
Print Assumptions C55_told.

(** The object cannot be used again, nor outside a task. *)
Theorem C55_misuse in_task s b vs : in_task = false \/ tm_state (ts_timer s) <> Created ->
  exists e, with_timeout in_task s b vs = (s, [], Unfinished, LeftUnentered e) /\ (e = outside_task \/ e = already_entered).
Proof.
  intro H. unfold with_timeout, timer_enter. destruct (tm_state (ts_timer s)) eqn:E; cbn [tstate_eqb negb].
  - destruct H as [->|H]; [|now elim H]. cbn. eexists. split; [reflexivity|now left].
  - eexists; split; [reflexivity|now right].
  - eexists; split; [reflexivity|now right].
  - eexists; split; [reflexivity|now right].
  - eexists; split; [reflexivity|now right].
Qed.
Print Assumptions C55_misuse.

(** A body that awaits once and lets a cancellation through. *)
Definition ex_body : tbody := TAwait (fun w => match w with Woken => TRet | Cancelled => TRaise (XCancelled, []) end).
Example C55_example :
  with_timeout true (mk_tsys 100 (timeout_of 100 (Some 5)) false) ex_body [VTime 3; VLoop; VTime 3; VLoop; VTime 1; VWake]
  = (mk_tsys 107 (mk_timer Expired (Some 105) None) false, [OFired 106 (Some 105); OCancelled], EndAt (Some (XCancelled, [])), LeftWith (Some (XTimeout, [XCancelled])))
  /\ with_timeout true (mk_tsys 100 (timeout_of 100 (Some 5)) false) ex_body [VTime 3; VLoop; VCancel; VWake]
  = (mk_tsys 103 (mk_timer Exited (Some 105) None) false, [OCancelled], EndAt (Some (XCancelled, [])), LeftWith (Some (XCancelled, [])))
  /\ keeps_deadline ex_body /\ never_yields ex_body.
Proof. split; [reflexivity|]. split; [reflexivity|]. split; intros []; exact I. Qed.

(** Finding: a cancellation from elsewhere that comes together with the deadline is lost: a TimeoutError leaves the block and the task goes on
    (asyncio's own timeout, since Python 3.11, lets the CancelledError through). *)
Theorem C55_cancellation_lost : exists vs,
  In VCancel vs /\ snd (with_timeout true (mk_tsys 100 (timeout_of 100 (Some 5)) false) ex_body vs) = LeftWith (Some (XTimeout, [XCancelled])).
Proof. exists [VCancel; VTime 6; VLoop; VWake]. split; [now left|reflexivity]. Qed.
Print Assumptions C55_cancellation_lost.

(** Finding: in a streaming call the block is around a [yield]: when the deadline fires while the consumer of the stream awaits
    something else, it is the consumer that is cancelled.  The call itself sees no cancellation; the stream then goes on
    without a deadline, or is closed, and never reports a timeout. *)
Definition ex_stream : tbody :=
  TYield (fun a => match a with AskNext => TAwait (fun w => match w with Woken => TRet | Cancelled => TRaise (XCancelled, []) end) | AskClose => TRaise (XClose, []) end).
Theorem C55_consumer_refuted :
  (exists o e, with_timeout true (mk_tsys 100 (timeout_of 100 (Some 5)) false) ex_stream [VTime 6; VLoop; VWake; VAsk AskNext; VTime 100; VLoop; VWake]
     = o /\ snd o = LeftWith None /\ snd (fst (fst o)) = [OFired 106 (Some 105); OConsumerCancelled] /\ snd (fst o) = e)
  /\ snd (with_timeout true (mk_tsys 100 (timeout_of 100 (Some 5)) false) ex_stream [VTime 6; VLoop; VWake; VAsk AskClose]) = LeftWith (Some (XClose, [])).
Proof. split; [eexists _, _; split; [reflexivity|split; [reflexivity|split; reflexivity]]|reflexivity]. Qed.
Print Assumptions C55_consumer_refuted.
