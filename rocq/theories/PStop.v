(** C69: a WSGI server that stops taking the response stops the method. *)
From Coq Require Import List NArith ZArith Bool String Lia.
From Verif Require Import MBase MPyStr MHeaders MUtf8 MWire MEnvelope MTimeout MProtocol SProtocol MClient MServer MAsgi MWsgi MStop SServer LServer LRequest SContext
  PProtocol PResponse PRequest.
Import ListNotations.

(** ** Specification *)

(** Chunks of the body that the server took. *)
Definition chunks (ev : list wevent) : nat := List.length (filter (fun e => match e with WBody _ => true | _ => false end) ev).
Definition no_trailers (ev : list wevent) : Prop := forall hs, ~ In (WTrailers hs) ev.

(** [part] is [full] up to its [n]-th chunk, all of it if there are fewer; cut short, it has no trailers. *)
Definition cut_to (n : nat) (full part : list wevent) : Prop :=
  (exists rest, full = part ++ rest) /\ chunks part = Nat.min n (chunks full)
  /\ ((chunks full < n)%nat -> part = full) /\ ((0 < n < chunks full)%nat -> no_trailers part).

(** Two methods that behave alike up to and including their [n]-th message (the first one if [n] is 0), whatever they do after it. *)
Fixpoint alike_until {A B R} (n : nat) (g g' : prog A B R) : Prop :=
  match g, g' with
  | Ret r, Ret r' => r' = r
  | Fail i, Fail i' => i' = i
  | Pull k, Pull k' => forall x, alike_until n (k x) (k' x)
  | Yield b _ k, Yield b' _ k' => b' = b /\ ((n <= 1)%nat \/ alike_until (pred n) k k')
  | Hdr op k, Hdr op' k' => op' = op /\ alike_until n k k'
  | Trl op k, Trl op' k' => op' = op /\ alike_until n k k'
  | _, _ => False
  end.
(** The same of endpoints that stream responses; others are compared as a whole. *)
Definition endpoints_until {A B} (n : nat) (e e' : endpoint A B) : Prop :=
  match e, e' with
  | EpServerStream m f, EpServerStream m' f' => m' = m /\ forall a cx, alike_until n (f a cx) (f' a cx)
  | EpBidi m f, EpBidi m' f' => m' = m /\ forall cx, alike_until n (f cx) (f' cx)
  | _, _ => agree_on (fun _ => True) e e'
  end.

(** ** The loop *)

Lemma chunks_app a b : chunks (a ++ b) = (chunks a + chunks b)%nat.
Proof. unfold chunks. now rewrite filter_app, app_length. Qed.
Lemma no_trailers_app a b : no_trailers a -> no_trailers b -> no_trailers (a ++ b).
Proof. intros H K hs X. apply in_app_or in X as [X|X]; [eapply H|eapply K]; eauto. Qed.
Lemma no_trailers_nil : no_trailers [].
Proof. intros hs []. Qed.
Lemma no_trailers_start st hs : no_trailers [WStart st hs].
Proof. intros x [H|[]]. discriminate. Qed.
Lemma no_trailers_body b : no_trailers [WBody b].
Proof. intros x [H|[]]. discriminate. Qed.

(** What the loop has done so far. *)
Definition loop_ok (w : wst) (i : nat) : Prop :=
  chunks (ws_ev w) = i /\ no_trailers (ws_ev w) /\ (ws_started w = false -> ws_ev w = []).

Lemma body_step_ok {B} p name (enc : B -> res bytes) z w i rs b w' r :
  loop_ok w i -> wsgi_body_step p name enc z w rs b = (w', r) ->
  ws_started w' = true /\ no_trailers (ws_ev w') /\ (exists l, ws_ev w' = ws_ev w ++ l)
  /\ match r with
     | None => loop_ok w' (S i)
               /\ exists body, ws_ev w' = (if ws_started w then ws_ev w else ws_ev w ++ [WStart (lit "200 OK") (stream_headers p name (z_name z) rs)]) ++ [WBody body]
     | Some (IExn _) => loop_ok w' i
               /\ ws_ev w' = (if ws_started w then ws_ev w else ws_ev w ++ [WStart (lit "200 OK") (stream_headers p name (z_name z) rs)])
     | Some ICancel => False
     end.
Proof.
  intros (C&T&S) H. unfold wsgi_body_step in H. cbv zeta in H.
  set (ev := if ws_started w then ws_ev w else ws_ev w ++ [WStart (lit "200 OK") (stream_headers p name (z_name z) rs)]) in *.
  assert (Cv : chunks ev = i) by (unfold ev; destruct (ws_started w); [exact C|]; rewrite chunks_app, C; cbn; lia).
  assert (Tv : no_trailers ev) by (unfold ev; destruct (ws_started w); [exact T|]; apply no_trailers_app; [exact T|apply no_trailers_start]).
  assert (Pv : exists l, ev = ws_ev w ++ l) by (unfold ev; destruct (ws_started w); [exists []; now rewrite app_nil_r|eauto]).
  destruct (write_message enc (Some z) b) as [body|e]; injection H as <- <-; cbn [ws_started ws_ev].
  - split; [reflexivity|]. split; [apply no_trailers_app; [exact Tv|apply no_trailers_body]|].
    split; [destruct Pv as [l ->]; exists (l ++ [WBody body]); now rewrite app_assoc|]. split; [|eauto].
    split; [cbn [ws_ev]; rewrite chunks_app, Cv; cbn; lia|]. split; [apply no_trailers_app; [exact Tv|apply no_trailers_body]|discriminate].
  - split; [reflexivity|]. split; [exact Tv|]. split; [exact Pv|]. split; [|reflexivity]. split; [exact Cv|]. split; [exact Tv|discriminate].
Qed.

(** The loop only adds events, and keeps its invariant. *)
Lemma full_drive {A B} p name (enc : B -> res bytes) z (g : prog A B unit) : forall ps rs w i, loop_ok w i ->
  forall w' rs' e, drive (wsgi_body_step p name enc z) g ps rs w = (w', rs', e) ->
  (exists l, ws_ev w' = ws_ev w ++ l) /\ (ws_started w = true -> ws_started w' = true) /\ no_trailers (ws_ev w') /\ (exists i', loop_ok w' i')
  /\ forall c, e <> LBroken ICancel c.
Proof.
  induction g as [r|x|k IH|b c k IH|op k IH|op k IH]; intros ps rs w i Ok0 w' rs' e D; cbn [drive] in D.
  - injection D as <- <- <-. split; [exists []; now rewrite app_nil_r|]. repeat split; try discriminate; auto; try apply Ok0. now exists i.
  - injection D as <- <- <-. split; [exists []; now rewrite app_nil_r|]. repeat split; try discriminate; auto; try apply Ok0. now exists i.
  - destruct (pull_next ps) as [y ps']. eapply IH; eauto.
  - destruct (wsgi_body_step p name enc z w rs b) as [w1 r1] eqn:E. destruct (body_step_ok _ _ _ _ _ _ _ _ _ _ Ok0 E) as (S1&T1&(l&P1)&R).
    destruct r1 as [[x|]|]; [|contradiction|].
    + injection D as <- <- <-. split; [now exists l|]. split; [auto|]. split; [exact T1|]. split; [exists i; apply R|discriminate].
    + destruct R as [R _]. destruct (IH _ _ _ _ R _ _ _ D) as ((l'&P2)&S2&T2&I2&B2). split; [exists (l ++ l'); rewrite P2, P1; now rewrite app_assoc|].
      split; [auto|]. split; [exact T2|]. split; [exact I2|exact B2].
  - eapply IH; eauto.
  - eapply IH; eauto.
Qed.

(** The loop of a server that takes [n] chunks, against the loop of one that takes all: it is not stopped, or it is. *)
Lemma stop_drive {A B} n p name (enc : B -> res bytes) z (g : prog A B unit) : forall ps rs w i, loop_ok w i ->
  ((i < n)%nat \/ (ws_started w = false /\ i = 0%nat)) ->
  forall w' rs' e, drive (wsgi_body_step p name enc z) g ps rs w = (w', rs', e) ->
  forall s i' rs2 e2, drive (stop_step n p name enc z) g ps rs (w, i) = (s, i', rs2, e2) ->
  (s = w' /\ rs2 = rs' /\ e2 = e /\ (ws_started w' = true -> (chunks (ws_ev s) < n)%nat))
  \/ (exists c, e2 = LBroken ICancel c /\ ws_started s = true /\ ws_started w' = true /\ chunks (ws_ev s) = n /\ no_trailers (ws_ev s)
       /\ exists l, ws_ev w' = ws_ev s ++ l).
Proof.
  induction g as [r|x|k IH|b c k IH|op k IH|op k IH]; intros ps rs w i Ok0 Hi w' rs' e D s i' rs2 e2 D2; cbn [drive] in D, D2.
  - injection D as <- <- <-. injection D2 as <- <- <- <-. left. repeat split. intro S. destruct Hi as [Hi|[Hi _]]; [|congruence].
    destruct Ok0 as [-> _]. exact Hi.
  - injection D as <- <- <-. injection D2 as <- <- <- <-. left. repeat split. intro S. destruct Hi as [Hi|[Hi _]]; [|congruence].
    destruct Ok0 as [-> _]. exact Hi.
  - destruct (pull_next ps) as [y ps']. eapply IH; eauto.
  - destruct (wsgi_body_step p name enc z w rs b) as [w1 r1] eqn:E. destruct (body_step_ok _ _ _ _ _ _ _ _ _ _ Ok0 E) as (S1&T1&P1&R).
    unfold stop_step in D2 at 1. destruct (Nat.leb_spec n i) as [L|L].
    + injection D2 as <- <- <- <-. right. destruct Hi as [Hi|[Hs ->]]; [lia|]. rewrite Hs in *. exists c. cbn [ws_started ws_ev].
      destruct Ok0 as (C0&T0&_).
      assert (P : exists l, ws_ev w1 = (ws_ev w ++ [WStart (lit "200 OK") (stream_headers p name (z_name z) rs)]) ++ l).
      { destruct r1 as [[y|]|]; [|contradiction|]; destruct R as [_ R]; [rewrite R; exists []; now rewrite app_nil_r|]. destruct R as [body R]. eauto. }
      assert (Q : ws_started w' = true /\ exists l, ws_ev w' = ws_ev w1 ++ l).
      { destruct r1 as [[y|]|]; [|contradiction|].
        - injection D as <- <- <-. split; [exact S1|]. exists []. now rewrite app_nil_r.
        - destruct R as [R _]. destruct (full_drive _ _ _ _ _ _ _ _ _ R _ _ _ D) as (P2&S2&_). auto. }
      destruct Q as (Q1&l2&Q2), P as [l1 P]. repeat split; auto.
      * rewrite chunks_app, C0. cbn. lia.
      * apply no_trailers_app; [exact T0|apply no_trailers_start].
      * exists (l1 ++ l2). rewrite Q2, P. now rewrite <- !app_assoc.
    + rewrite E in D2. destruct r1 as [[y|]|]; [|contradiction|].
      * injection D as <- <- <-. injection D2 as <- <- <- <-. left. repeat split. intros _. destruct R as [[-> _] _]. exact L.
      * destruct R as [R _]. destruct (Nat.eqb_spec (S i) n) as [En|En].
        -- injection D2 as <- <- <- <-. right. exists c. destruct (full_drive _ _ _ _ _ _ _ _ _ R _ _ _ D) as (P2&S2&_).
           repeat split; auto. destruct R as [-> _]. exact En.
        -- eapply IH; [exact R| |exact D|exact D2]. left. lia.
  - eapply IH; eauto.
  - eapply IH; eauto.
Qed.

(** ** Runs *)

Lemma ok_start : loop_ok (mk_wst [] false) 0.
Proof. split; [reflexivity|]. split; [apply no_trailers_nil|reflexivity]. Qed.

Lemma stop_run_full {A B} n p (ep : endpoint A B) k z ps cx inv w rs e inv2 s i rs2 e2 :
  wsgi_run p ep k z ps cx = (inv, (w, rs, e)) -> stop_run n p ep k z ps cx = (inv2, (s, i, rs2, e2)) ->
  inv2 = inv /\ (exists j, loop_ok w j) /\ (forall c, e <> LBroken ICancel c)
  /\ ((s = w /\ rs2 = rs /\ e2 = e /\ (ws_started w = true -> (chunks (ws_ev s) < n)%nat))
      \/ (exists c, e2 = LBroken ICancel c /\ ws_started s = true /\ ws_started w = true /\ chunks (ws_ev s) = n /\ no_trailers (ws_ev s)
           /\ exists l, ws_ev w = ws_ev s ++ l)).
Proof.
  assert (D : forall A' (g : prog A' B unit) ps rs0 X Y,
    drive (wsgi_body_step p (k_name k) (k_enc_res k) z) g ps rs0 (mk_wst [] false) = X ->
    drive (stop_step n p (k_name k) (k_enc_res k) z) g ps rs0 (mk_wst [] false, 0%nat) = Y ->
    X = (w, rs, e) -> Y = (s, i, rs2, e2) ->
    (exists j, loop_ok w j) /\ (forall c, e <> LBroken ICancel c)
    /\ ((s = w /\ rs2 = rs /\ e2 = e /\ (ws_started w = true -> (chunks (ws_ev s) < n)%nat))
        \/ (exists c, e2 = LBroken ICancel c /\ ws_started s = true /\ ws_started w = true /\ chunks (ws_ev s) = n /\ no_trailers (ws_ev s)
             /\ exists l, ws_ev w = ws_ev s ++ l))).
  { intros A' g ps0 rs0 X Y HX HY -> ->. destruct (full_drive _ _ _ _ _ _ _ _ _ ok_start _ _ _ HX) as (_&_&_&J&Br).
    split; [exact J|]. split; [exact Br|]. eapply stop_drive; [exact ok_start| |exact HX|exact HY]. right. auto. }
  assert (F : forall x rs0, (mk_wst [] false, rs0, LFail x) = (w, rs, e) -> (mk_wst [] false, 0%nat, rs0, LFail x) = (s, i, rs2, e2) ->
    (exists j, loop_ok w j) /\ (forall c, e <> LBroken ICancel c)
    /\ ((s = w /\ rs2 = rs /\ e2 = e /\ (ws_started w = true -> (chunks (ws_ev s) < n)%nat))
        \/ (exists c, e2 = LBroken ICancel c /\ ws_started s = true /\ ws_started w = true /\ chunks (ws_ev s) = n /\ no_trailers (ws_ev s)
             /\ exists l, ws_ev w = ws_ev s ++ l))).
  { intros x rs0 X Y. injection X as <- <- <-. injection Y as <- <- <- <-. split; [exists 0%nat; apply ok_start|]. split; [discriminate|].
    left. repeat split. discriminate. }
  unfold wsgi_run, stop_run. cbv zeta. intros X Y. destruct ep as [m f|m f|m f|m f].
  - destruct (consume_single_request ps) as [a|x].
    + destruct (run_fn (f a cx) ([], None) rs_new) as [[b|x] rs0]; injection X as <- X; injection Y as <- Y; (split; [reflexivity|]); [exact (D _ (@single_response A B b) ([], None) rs0 _ _ eq_refl eq_refl X Y)|subst; eapply F; reflexivity].
    + injection X as <- <- <- <-. injection Y as <- <- <- <- <-. split; [reflexivity|]. apply (F (IExn x) rs_new); reflexivity.
  - destruct (run_fn (f cx) ps rs_new) as [[b|x] rs0]; injection X as <- X; injection Y as <- Y; (split; [reflexivity|]); [exact (D _ (@single_response A B b) ([], None) rs0 _ _ eq_refl eq_refl X Y)|subst; eapply F; reflexivity].
  - destruct (consume_single_request ps) as [a|x].
    + injection X as <- X. injection Y as <- Y. split; [reflexivity|]. exact (D _ (f a cx) ([], None) rs_new _ _ eq_refl eq_refl X Y).
    + injection X as <- <- <- <-. injection Y as <- <- <- <- <-. split; [reflexivity|]. apply (F (IExn x) rs_new); reflexivity.
  - injection X as <- X. injection Y as <- Y. split; [reflexivity|]. exact (D _ (f cx) ps rs_new _ _ eq_refl eq_refl X Y).
Qed.

(** ** Responses that are lists *)

Definition one_chunk (ev : list wevent) : Prop := exists pre, chunks pre = 0%nat /\ (ev = pre \/ exists b, ev = pre ++ [WBody b]).

Lemma chunks_zero_filter ev : chunks ev = 0%nat -> filter (fun e => match e with WBody _ => false | _ => true end) ev = ev.
Proof.
  induction ev as [|e ev IH]; [reflexivity|]. destruct e; cbn; intro H; try discriminate; f_equal; apply IH; exact H.
Qed.
Lemma taken_all n ev : (0 < n)%nat -> taken_list n ev = ev.
Proof.
  intro H. unfold taken_list. replace (Nat.eqb n 0) with false by (symmetry; apply Nat.eqb_neq; lia). change (negb false) with true.
  induction ev as [|e ev IH]; [reflexivity|]. destruct e; cbn; now rewrite IH.
Qed.
Lemma taken_none ev : taken_list 0 ev = filter (fun e => match e with WBody _ => false | _ => true end) ev.
Proof. reflexivity. Qed.

Lemma cut_list n ev : one_chunk ev -> cut_to n ev (taken_list n ev).
Proof.
  intros (pre&C&H). destruct n as [|n].
  - rewrite taken_none. destruct H as [->|[b ->]].
    + rewrite chunks_zero_filter by exact C. split; [exists []; now rewrite app_nil_r|]. split; [rewrite C; reflexivity|]. split; [lia|lia].
    + rewrite filter_app. cbn [filter]. rewrite app_nil_r, chunks_zero_filter by exact C. split; [eauto|]. split; [rewrite C; reflexivity|]. split; lia.
  - rewrite taken_all by lia. split; [exists []; now rewrite app_nil_r|].
    assert (L : (chunks ev <= 1)%nat).
    { destruct H as [->|[b ->]]; [lia|]. rewrite chunks_app, C. cbn. lia. }
    split; [lia|]. split; [reflexivity|]. lia.
Qed.

Lemma chunks_log e : chunks (maybe_log e) = 0%nat.
Proof. unfold maybe_log. now destruct (_ || _). Qed.

Lemma one_app pre ev : chunks pre = 0%nat -> one_chunk ev -> one_chunk (pre ++ ev).
Proof.
  intros C (p&Cp&H). exists (pre ++ p). split; [rewrite chunks_app; lia|]. destruct H as [->|[b ->]]; [now left|]. right. exists b. now rewrite app_assoc.
Qed.
Lemma one_zero ev : chunks ev = 0%nat -> one_chunk ev.
Proof. intro H. exists ev. auto. Qed.

Lemma end_response_one sc p z t err fin : end_response sc p z t err = Ok fin -> one_chunk fin.
Proof.
  unfold end_response. destruct (writer_end _ _ _ _ _) as [[b|h]|e]; cbn [bind]; intro H; [| |discriminate]; injection H as <-.
  - exists []. split; [reflexivity|]. right. now exists b.
  - exists [WTrailers (h_allitems h)]. split; [reflexivity|]. right. now exists [].
Qed.

Lemma end_response_chunks sc p z t err fin : end_response sc p z t err = Ok fin -> chunks fin = 1%nat.
Proof.
  unfold end_response. destruct (writer_end _ _ _ _ _) as [[b|h]|e]; cbn [bind]; intro H; [| |discriminate]; injection H as <-; reflexivity.
Qed.

Lemma call_error_one {A} q (inv : list (invoked A)) ev e ctx : chunks ev = 0%nat -> one_chunk (wr_events (wsgi_call_error q inv ev e ctx)).
Proof.
  intro C. unfold wsgi_call_error. destruct (drain q 1); [now apply one_zero|]. cbv zeta.
  assert (C' : chunks (ev ++ maybe_log e) = 0%nat) by (rewrite chunks_app, C, chunks_log; reflexivity).
  destruct (wsgi_handle_error e ctx) as [out|x] eqn:H; [|now apply one_zero]. cbn [wr_events]. apply one_app; [exact C'|].
  unfold wsgi_handle_error in H.
  match type of H with bind ?x _ = _ => destruct x as [[[st hs] body]|] eqn:E end; cbn [bind] in H; [|discriminate].
  injection H as <-. change (WStart st (hs ++ match ctx with Some rs => context_headers rs | None => [] end) :: body)
    with ([WStart st (hs ++ match ctx with Some rs => context_headers rs | None => [] end)] ++ body).
  apply one_app; [reflexivity|].
  destruct e as [c m ds|s h|k m]; cbv zeta in E;
  try (destruct (we_to_json_bytes _) as [b|]; cbn [bind] in E; [|discriminate]; injection E as <- <- <-; exists []; split; [reflexivity|]; right; now exists b).
  injection E as <- <- <-. now apply one_zero.
Qed.

(** The result of a handler that is a list, or an exception. *)
Definition list_ok {A} (h : whandled A) : Prop :=
  let '(_, _, ev, i) := h in match i with None => one_chunk ev | Some _ => chunks ev = 0%nat end.

Lemma unary_list {A B} (ap : app A B) q http f cx hs : list_ok (wsgi_unary ap q http f cx hs).
Proof.
  unfold wsgi_unary. match goal with |- context [match ?x with Ok _ => _ | Raise _ => _ end] => destruct x as [[a k]|e] end; [|reflexivity].
  destruct (run_fn (f a cx) ([], None) rs_new) as [[b|i] rs]; [|reflexivity].
  match goal with |- context [match ?x with Ok _ => _ | Raise _ => _ end] => destruct x as [[z body]|e] end; [|reflexivity].
  match goal with |- list_ok (_, _, [?x; _], _) => exists [x] end. split; [reflexivity|]. right. exists body. reflexivity.
Qed.

Lemma stream_error_list {A B} (ap : app A B) q p name z (inv : list (invoked A)) rs ev e : chunks ev = 0%nat ->
  list_ok (wsgi_stream_error ap q p name z inv rs ev e).
Proof.
  intro C. unfold wsgi_stream_error. destruct (drain q 0); [exact C|]. cbv zeta.
  assert (C' : forall x, chunks (ev ++ maybe_log e ++ [WStart (lit "200 OK") x]) = 0%nat) by (intro; rewrite !chunks_app, C, chunks_log; reflexivity).
  destruct (end_response _ _ _ _ _) as [fin|x] eqn:E; cbn [list_ok]; [|apply C']. apply one_app; [apply C'|]. eapply end_response_one; eauto.
Qed.

Lemma stream_end_cases {A B} (ap : app A B) q p z (inv : list (invoked A)) rs ev i :
  wr_inv (response_stream_end ap q p z inv rs ev i) = inv
  /\ exists fin, wr_events (response_stream_end ap q p z inv rs ev i) = ev ++ fin /\ (chunks fin <= 1)%nat.
Proof.
  unfold response_stream_end. cbv zeta.
  assert (F : forall err, let r := match end_response (ap_sc ap) p z (rs_t rs) err with Ok fin => mk_wr inv (ev ++ fin) WReturn | Raise x => mk_wr inv ev (WExn x) end in
     wr_inv r = inv /\ exists fin, wr_events r = ev ++ fin /\ (chunks fin <= 1)%nat).
  { intro err. cbv zeta. destruct (end_response _ _ _ _ _) as [fin|x] eqn:E; cbn [wr_inv wr_events]; (split; [reflexivity|]).
    - exists fin. split; [reflexivity|]. rewrite (end_response_chunks _ _ _ _ _ _ E). lia.
    - exists []. rewrite app_nil_r. split; [reflexivity|cbn; lia]. }
  destruct i as [[e|]|]; [destruct (drain q 2)| |]; try apply F; cbn [wr_inv wr_events]; (split; [reflexivity|]); exists []; rewrite app_nil_r; split; try reflexivity; cbn; lia.
Qed.

Lemma stop_stream_full {A B} n (ap : app A B) q p hs ep cx :
  (exists h, wsgi_stream ap q p hs ep cx = inl h /\ stop_stream n ap q p hs ep cx = inl h /\ list_ok h)
  \/ (exists r r', wsgi_stream ap q p hs ep cx = inr r /\ stop_stream n ap q p hs ep cx = inr r'
        /\ wr_inv r' = wr_inv r /\ cut_to n (wr_events r) (wr_events r') /\ ((chunks (wr_events r) < n)%nat -> r' = r)).
Proof.
  unfold wsgi_stream, stop_stream. destruct (negotiate_stream_compression p hs (ap_comps ap)) as [req z].
  destruct (dget (ap_codecs ap) _) as [k|]; [|left; eexists; split; [reflexivity|]; split; reflexivity]. cbv zeta.
  destruct req as [rz|]; [|left; eexists; split; [reflexivity|]; split; [reflexivity|]; apply stream_error_list; reflexivity].
  destruct (wsgi_run p ep k z (wsgi_request_stream ap k rz q) cx) as [inv [[w rs] e]] eqn:W.
  destruct (stop_run n p ep k z (wsgi_request_stream ap k rz q) cx) as [inv2 [[[s i] rs2] e2]] eqn:R.
  destruct (stop_run_full _ _ _ _ _ _ _ _ _ _ _ _ _ _ _ _ W R) as (->&(j&Lk)&Br&[(->&->&->&Cn)|(c&->&Ss&Sw&Cn&Tn&(l&Pl))]).
  - destruct (ws_started w) eqn:St.
    + right. eexists _, _. split; [reflexivity|].
      assert (E : match e with LBroken ICancel _ => inr (mk_wr inv (ws_ev w) WReturn)
                  | _ => inr (response_stream_end ap q p z inv rs (ws_ev w) (loop_interrupt e)) end
                  = @inr (whandled A) _ (response_stream_end ap q p z inv rs (ws_ev w) (loop_interrupt e))).
      { destruct e as [|x|[x|] c]; try reflexivity. exfalso. now apply (Br c). }
      split; [exact E|]. split; [reflexivity|]. destruct (stream_end_cases ap q p z inv rs (ws_ev w) (loop_interrupt e)) as (_&fin&Ef&Cf).
      specialize (Cn eq_refl). split; [|reflexivity]. split; [exists []; now rewrite app_nil_r|].
      assert (L : (chunks (wr_events (response_stream_end ap q p z inv rs (ws_ev w) (loop_interrupt e))) <= n)%nat) by (rewrite Ef, chunks_app; lia).
      split; [lia|]. split; [reflexivity|]. lia.
    + left. destruct Lk as (_&_&Ev). rewrite (Ev St).
      destruct (loop_interrupt e) as [[x|]|]; [eexists; split; [reflexivity|]; split; [reflexivity|]; apply stream_error_list; reflexivity|eexists; split; [reflexivity|]; split; reflexivity|].
      destruct (end_response _ _ _ _ _) as [fin|x] eqn:E; eexists; (split; [reflexivity|]); (split; [reflexivity|]); [|apply stream_error_list; reflexivity].
      cbn [list_ok]. apply one_app; [reflexivity|]. eapply end_response_one; eauto.
  - rewrite Ss, Sw. right. eexists _, _. split; [reflexivity|]. split; [reflexivity|].
    destruct (stream_end_cases ap q p z inv rs (ws_ev w) (loop_interrupt e)) as (Ei&fin&Ef&Cf). cbn [wr_inv wr_events]. split; [now rewrite Ei|].
    assert (L : chunks (wr_events (response_stream_end ap q p z inv rs (ws_ev w) (loop_interrupt e))) = (n + chunks l + chunks fin)%nat).
    { rewrite Ef, Pl, !chunks_app, Cn. lia. }
    split; [|lia]. split; [exists (l ++ fin); rewrite Ef, Pl; now rewrite app_assoc|]. split; [lia|]. split; [lia|]. intros _. exact Tn.
Qed.

(** ** The property *)

(** The server takes at most [n] chunks and calls [close()]: what it has seen by then is the beginning of the response, up to and
    including the [n]-th chunk; the rest is not produced.  In particular a response that is cut short has no trailers. *)
Theorem C69_cut {A B} n (ap : app A B) now q :
  wr_inv (wsgi_stop n ap now q) = wr_inv (wsgi_call ap now q)
  /\ cut_to n (wr_events (wsgi_call ap now q)) (wr_events (wsgi_stop n ap now q))
  /\ ((chunks (wr_events (wsgi_call ap now q)) < n)%nat -> wsgi_stop n ap now q = wsgi_call ap now q).
Proof.
  assert (Li : forall r : wsgi_result A, one_chunk (wr_events r) ->
    wr_inv (mk_wr (wr_inv r) (taken_list n (wr_events r)) (wr_out r)) = wr_inv r
    /\ cut_to n (wr_events r) (wr_events (mk_wr (wr_inv r) (taken_list n (wr_events r)) (wr_out r)))
    /\ ((chunks (wr_events r) < n)%nat -> mk_wr (wr_inv r) (taken_list n (wr_events r)) (wr_out r) = r)).
  { intros r H. split; [reflexivity|]. pose proof (cut_list n _ H) as C. split; [exact C|]. destruct C as (_&_&C&_). intro L. rewrite (C L). now destruct r. }
  assert (Lh : forall h : whandled A, list_ok h ->
    let f := match h with
             | (inv, rs, ev, None) => mk_wr inv ev WReturn
             | (inv, rs, ev, Some ICancel) => mk_wr inv ev WBase
             | (inv, rs, ev, Some (IExn e)) => wsgi_call_error q inv ev e (Some rs)
             end in
    let g := match h with
             | (inv, rs, ev, None) => mk_wr inv (taken_list n ev) WReturn
             | (inv, rs, ev, Some ICancel) => mk_wr inv ev WBase
             | (inv, rs, ev, Some (IExn e)) => let r := wsgi_call_error q inv ev e (Some rs) in mk_wr (wr_inv r) (taken_list n (wr_events r)) (wr_out r)
             end in
    wr_inv g = wr_inv f /\ cut_to n (wr_events f) (wr_events g) /\ ((chunks (wr_events f) < n)%nat -> g = f)).
  { intros [[[inv rs] ev] [[e|]|]] H; cbn [list_ok] in H; cbv zeta.
    - apply Li. now apply call_error_one.
    - cbn [wr_inv wr_events]. split; [reflexivity|]. split; [|reflexivity]. split; [exists []; now rewrite app_nil_r|]. split; [rewrite H; lia|]. split; [reflexivity|lia].
    - apply (Li (mk_wr inv ev WReturn)). exact H. }
  unfold wsgi_call, wsgi_stop. cbv zeta. destruct (wsgi_open_request ap now q) as [[[[ep hs] p] cx]|e].
  2:{ apply Li. now apply call_error_one. }
  assert (St : let x := wsgi_stream ap q p hs ep cx in let y := stop_stream n ap q p hs ep cx in
    let f := match x with
             | inr r => r
             | inl (inv, rs, ev, None) => mk_wr inv ev WReturn
             | inl (inv, rs, ev, Some ICancel) => mk_wr inv ev WBase
             | inl (inv, rs, ev, Some (IExn e)) => wsgi_call_error q inv ev e (Some rs)
             end in
    let g := match y with
             | inr r => r
             | inl (inv, rs, ev, None) => mk_wr inv (taken_list n ev) WReturn
             | inl (inv, rs, ev, Some ICancel) => mk_wr inv ev WBase
             | inl (inv, rs, ev, Some (IExn e)) => let r := wsgi_call_error q inv ev e (Some rs) in mk_wr (wr_inv r) (taken_list n (wr_events r)) (wr_out r)
             end in
    wr_inv g = wr_inv f /\ cut_to n (wr_events f) (wr_events g) /\ ((chunks (wr_events f) < n)%nat -> g = f)).
  { cbv zeta. destruct (stop_stream_full n ap q p hs ep cx) as [(h&E1&E2&H)|(r&r'&E1&E2&H1&H2&H3)]; rewrite E1, E2.
    - pose proof (Lh h H) as L. destruct h as [[[inv rs] ev] [[e|]|]]; exact L.
    - auto. }
  destruct ep as [m f|m f|m f|m f], p; try exact St.
  pose proof (Lh _ (unary_list ap q (cx_http cx) f cx hs)) as L. destruct (wsgi_unary ap q (cx_http cx) f cx hs) as [[[inv rs] ev] [[e|]|]]; exact L.
Qed.
Print Assumptions C69_cut.

Definition same_end (e e' : loop_end) : Prop :=
  match e, e' with
  | LDone, LDone => True
  | LFail i, LFail i' | LBroken i _, LBroken i' _ => i' = i
  | _, _ => False
  end.

Lemma lazy_drive {A B} n p name (enc : B -> res bytes) z (g : prog A B unit) : forall g' ps rs w i, ((i < n)%nat \/ i = 0%nat) -> alike_until (n - i) g g' ->
  forall s rs1 e s' rs1' e', drive (stop_step n p name enc z) g ps rs (w, i) = (s, rs1, e) -> drive (stop_step n p name enc z) g' ps rs (w, i) = (s', rs1', e') ->
  s' = s /\ rs1' = rs1 /\ same_end e e'.
Proof.
  induction g as [r|x|k IH|b c k IH|op k IH|op k IH]; intros g' ps rs w i Hi Al s rs1 e s' rs1' e' D D'; destruct g' as [r'|x'|k'|b' c' k'|op' k'|op' k'];
    cbn [alike_until] in Al; try contradiction; cbn [drive] in D, D'.
  - injection D as <- <- <-. injection D' as <- <- <-. repeat split.
  - injection D as <- <- <-. injection D' as <- <- <-. repeat split. exact Al.
  - destruct (pull_next ps) as [y ps']. eapply IH; eauto.
  - destruct Al as [-> Al]. destruct (stop_step n p name enc z (w, i) rs b) as [[w1 i1] [x|]] eqn:E.
    + injection D as <- <- <-. injection D' as <- <- <-. repeat split.
    + unfold stop_step in E. destruct (Nat.leb_spec n i) as [L|L]; [discriminate|].
      destruct (wsgi_body_step p name enc z w rs b) as [w2 [x|]]; [discriminate|]. revert E.
      destruct (Nat.eqb_spec (S i) n) as [Q|Q]; intro E; [discriminate|]. injection E as <- <-. destruct Al as [Al|Al]; [lia|]. replace (pred (n - i)) with (n - S i)%nat in Al by lia.
      eapply (IH k' ps rs w2 (S i)); eauto. left. lia.
  - destruct Al as [-> Al]. eapply IH; eauto.
  - destruct Al as [-> Al]. eapply IH; eauto.
Qed.

Lemma lazy_run {A B} n p (ep ep' : endpoint A B) k z ps cx inv s rs e inv' s' rs' e' : endpoints_until n ep ep' ->
  stop_run n p ep k z ps cx = (inv, (s, rs, e)) -> stop_run n p ep' k z ps cx = (inv', (s', rs', e')) ->
  inv' = inv /\ s' = s /\ rs' = rs /\ same_end e e'.
Proof.
  intros Al X Y.
  assert (Rf : forall e0, same_end e0 e0) by (intros [|x|x c]; reflexivity).
  destruct ep as [m f|m f|m f|m f], ep' as [m' f'|m' f'|m' f'|m' f']; cbn in Al; try contradiction; unfold stop_run in X, Y; cbv zeta in X, Y; destruct Al as [-> Al].
  - destruct (consume_single_request ps) as [a|x]; [rewrite (Al a cx I) in Y|]; assert (E : (inv', (s', rs', e')) = (inv, (s, rs, e))) by (rewrite <- X, <- Y; reflexivity);
    injection E as -> -> -> ->; auto.
  - rewrite (Al cx I) in Y. assert (E : (inv', (s', rs', e')) = (inv, (s, rs, e))) by (rewrite <- X, <- Y; reflexivity). injection E as -> -> -> ->; auto.
  - destruct (consume_single_request ps) as [a|x].
    + injection X as <- X. injection Y as <- Y. split; [reflexivity|].
      eapply (lazy_drive n p (k_name k) (k_enc_res k) z (f a cx) (f' a cx) ([], None) rs_new (mk_wst [] false) 0); [now right| |exact X|exact Y]. rewrite Nat.sub_0_r. apply Al.
    + injection X as <- <- <- <-. injection Y as <- <- <- <-. auto.
  - injection X as <- X. injection Y as <- Y. split; [reflexivity|].
    eapply (lazy_drive n p (k_name k) (k_enc_res k) z (f cx) (f' cx) ps rs_new (mk_wst [] false) 0); [now right| |exact X|exact Y]. rewrite Nat.sub_0_r. apply Al.
Qed.

(** The method is not run past its [n]-th message: what it would do after that makes no difference. *)
Theorem C69_lazy {A B} n (ap ap' : app A B) now q ep ep' :
  same_settings ap ap' -> wsgi_find_endpoint ap q = Ok ep -> wsgi_find_endpoint ap' q = Ok ep' -> endpoints_until n ep ep' ->
  wsgi_stop n ap' now q = wsgi_stop n ap now q.
Proof.
  intros (Sm&Sc&Sk&Ss) F F' Al.
  assert (Em : ep_method ep' = ep_method ep) by (destruct ep, ep'; cbn in Al |- *; tauto).
  assert (O : match wsgi_open_request ap now q with
              | Ok (e0, hs, p, cx) => e0 = ep /\ wsgi_open_request ap' now q = Ok (ep', hs, p, cx)
              | Raise e => wsgi_open_request ap' now q = Raise e
              end).
  { unfold wsgi_open_request. rewrite F, F'. cbn [bind]. rewrite Em. destruct (env_item q "REQUEST_METHOD"); cbn [bind]; [|reflexivity]. cbv zeta.
    destruct (_ && _); [reflexivity|]. destruct (server_create_context _ _ _ _ _ _ _); cbn [bind]; auto. }
  unfold wsgi_stop. cbv zeta. destruct (wsgi_open_request ap now q) as [[[[e0 hs] p] cx]|e]; [|now rewrite O]. destruct O as [-> O]. rewrite O.
  assert (Hs : stop_stream n ap' q p hs ep' cx = stop_stream n ap q p hs ep cx).
  { unfold stop_stream. rewrite Sc, Ss, Sk. destruct (negotiate_stream_compression p hs (ap_comps ap)) as [req z].
    destruct (dget (ap_codecs ap) _) as [k|]; [|reflexivity]. cbv zeta. unfold wsgi_stream_error, response_stream_end. rewrite Ss.
    destruct req as [rz|]; [|reflexivity].
    assert (R : wsgi_request_stream ap' k rz q = wsgi_request_stream ap k rz q) by (unfold wsgi_request_stream; now rewrite Sm). rewrite R.
    destruct (stop_run n p ep k z (wsgi_request_stream ap k rz q) cx) as [inv [[[s i] rs] e]] eqn:X.
    destruct (stop_run n p ep' k z (wsgi_request_stream ap k rz q) cx) as [inv' [[[s' i'] rs'] e']] eqn:Y.
    destruct (lazy_run _ _ _ _ _ _ _ _ _ _ _ _ _ _ _ _ Al X Y) as (->&E&->&Se). injection E as -> ->.
    destruct e as [|x|x c], e' as [|x'|x' c']; cbn in Se; try contradiction; try subst x'; reflexivity. }
  rewrite Hs.
  destruct ep as [m f|m f|m f|m f], ep' as [m' f'|m' f'|m' f'|m' f']; cbn in Al; try contradiction; try reflexivity.
  destruct p; try reflexivity. destruct Al as [_ Al].
  assert (H : wsgi_unary ap' q (cx_http cx) f' cx hs = wsgi_unary ap q (cx_http cx) f cx hs).
  { unfold wsgi_unary. rewrite Sc.
    assert (G : wsgi_get_request ap' q = wsgi_get_request ap q) by (unfold wsgi_get_request, unknown_compression; now rewrite ?Sc, ?Sm, ?Sk).
    assert (P : wsgi_post_request ap' q hs = wsgi_post_request ap q hs) by (unfold wsgi_post_request, unknown_compression; now rewrite ?Sc, ?Sm, ?Sk).
    rewrite G, P. match goal with |- match ?x with _ => _ end = _ => destruct x as [[a k]|i] end; [|reflexivity]. now rewrite (Al _ _ I). }
  now rewrite H.
Qed.
Print Assumptions C69_lazy.

(** ** A case: a method that sends two messages and then fails, against one that sends the first and then returns. *)
Definition ex_stop_wq : wsgi_request :=
  ex_wq_with "POST" "application/grpc" [] [].
Definition ex_one : endpoint pystr pystr :=
  EpBidi ex_method (fun _ => Hdr (Add (lit "x-h") (lit "1")) (Yield (lit "a") (mk_close [] [] (Some (IExn ex_bug))) (Ret tt))).
Example C69_example :
  endpoints_until 1 (ex_two (IExn ex_gone)) ex_one /\ ~ endpoints_until 2 (ex_two (IExn ex_gone)) ex_one
  /\ chunks (wr_events (wsgi_call (ex_app (ex_two (IExn ex_gone))) 0%Z ex_stop_wq)) = 3%nat
  /\ chunks (wr_events (wsgi_stop 1 (ex_app (ex_two (IExn ex_gone))) 0%Z ex_stop_wq)) = 1%nat
  /\ ~ no_trailers (wr_events (wsgi_call (ex_app (ex_two (IExn ex_gone))) 0%Z ex_stop_wq))
  /\ wsgi_stop 1 (ex_app ex_one) 0%Z ex_stop_wq = wsgi_stop 1 (ex_app (ex_two (IExn ex_gone))) 0%Z ex_stop_wq.
Proof.
  split; [|split; [|split; [|split; [|split]]]].
  - cbn. repeat split. left. lia.
  - cbn. intros (_&H). destruct (H (make_ctx 0%Z ex_method [] h_empty None None None)) as (_&_&[H'|H']); [lia|exact H'].
  - vm_compute. reflexivity.
  - vm_compute. reflexivity.
  - intro H. eapply H. vm_compute. right. right. right. left. reflexivity.
  - vm_compute. reflexivity.
Qed.
