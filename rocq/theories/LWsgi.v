(** The shape of WSGI responses. *)
From Coq Require Import List NArith ZArith Bool String Lia ZifyBool ZifyNat.
From Verif Require Import MBase MPyStr MHeaders MUtf8 MWire MEnvelope MTimeout MProtocol MClient MServer MAsgi MWsgi SServer LServer LStream.
Import ListNotations.
Local Open Scope N_scope.

Lemma starts_app x y : starts (x ++ y) = (starts x + starts y)%nat.
Proof. induction x as [|[] x IH]; cbn; lia. Qed.
Lemma starts_bodies frs : starts (map WBody frs) = 0%nat.
Proof. induction frs; auto. Qed.
Lemma starts_log e : starts (maybe_log e) = 0%nat.
Proof. unfold maybe_log. destruct (_ || _); reflexivity. Qed.
Lemma start_first_app x y : start_first x -> (starts x = 0%nat -> start_first y) -> start_first (x ++ y).
Proof. induction x as [|[] x IH]; cbn; try tauto. Qed.
Lemma start_first_log e y : start_first y -> start_first (maybe_log e ++ y).
Proof. unfold maybe_log. destruct (_ || _); auto. Qed.

(** Events of a stream so far: nothing, or one start and body chunks. *)
Definition wshape (started : bool) (ev : list wevent) : Prop :=
  if started then exists hs frs, ev = WStart (lit "200 OK") hs :: map WBody frs else ev = [].

Lemma wsgi_body_step_shape {B} p name (enc : B -> res bytes) z s rs b :
  wshape (ws_started s) (ws_ev s) ->
  let s' := fst (wsgi_body_step p name enc z s rs b) in wshape (ws_started s') (ws_ev s').
Proof.
  intro H. unfold wsgi_body_step. destruct (ws_started s) eqn:Es; cbn [wshape] in H.
  - destruct H as (hs&frs&->). destruct (write_message enc (Some z) b) as [fr|x]; cbn.
    + exists hs, (frs ++ [fr]). now rewrite map_app.
    + exists hs, frs. reflexivity.
  - rewrite H. destruct (write_message enc (Some z) b) as [fr|x]; cbn.
    + eexists _, [fr]. reflexivity.
    + eexists _, []. reflexivity.
Qed.

Lemma wsgi_run_shape {A B} p (ep : endpoint A B) k z ps cx :
  let '(_, (s, _, _)) := wsgi_run p ep k z ps cx in wshape (ws_started s) (ws_ev s).
Proof.
  assert (D : forall X (g : prog X B unit) ps rs,
      let '(s, _, _) := drive (wsgi_body_step p (k_name k) (k_enc_res k) z) g ps rs (mk_wst [] false) in wshape (ws_started s) (ws_ev s)).
  { intros X g ps0 rs.
    pose proof (drive_inv (wsgi_body_step p (k_name k) (k_enc_res k) z) (fun s => wshape (ws_started s) (ws_ev s))
      (fun s rs b => wsgi_body_step_shape p (k_name k) (k_enc_res k) z s rs b) g ps0 rs (mk_wst [] false) eq_refl) as K.
    destruct (drive _ _ _ _ _) as [[s r] e]. exact K. }
  unfold wsgi_run. destruct ep as [m f|m f|m f|m f].
  - destruct (consume_single_request ps) as [a|e]; [|reflexivity].
    destruct (run_fn _ _ _) as [[b|i] rs]; [|reflexivity]. apply (D A).
  - destruct (run_fn _ _ _) as [[b|i] rs]; [|reflexivity]. apply (D A).
  - destruct (consume_single_request ps) as [a|e]; [|reflexivity]. apply D.
  - apply D.
Qed.

(** Without a first message nothing was started. *)
Lemma drive_started {A B} p name (enc : B -> res bytes) z (g : prog A B unit) : forall ps rs s,
  ws_started s = true -> ws_started (fst (fst (drive (wsgi_body_step p name enc z) g ps rs s))) = true.
Proof.
  intros ps rs s H. apply (drive_inv (wsgi_body_step p name enc z) (fun s => ws_started s = true)); auto.
  intros s' rs' b _. unfold wsgi_body_step. destruct (write_message _ _ _); reflexivity.
Qed.

Lemma drive_unstarted {A B} p name (enc : B -> res bytes) z (g : prog A B unit) : forall ps rs ev s rs' le,
  drive (wsgi_body_step p name enc z) g ps rs (mk_wst ev false) = (s, rs', le) -> ws_started s = false ->
  exists e, le = end_of e /\ behaves g ps rs [] rs' e.
Proof.
  induction g as [u|i|k IH|b c k IH|op k IH|op k IH]; intros ps rs ev s rs' le H Hs; cbn [drive] in H.
  - injection H as <- <- <-. exists None. split; [reflexivity|constructor].
  - injection H as <- <- <-. exists (Some i). split; [reflexivity|constructor].
  - destruct (pull_next ps) as [x ps'] eqn:Ep. destruct (IH _ _ _ _ _ _ _ H Hs) as (e&He&Hb). exists e. split; auto.
    constructor. now rewrite Ep.
  - exfalso. unfold wsgi_body_step in H at 1. cbn [ws_started ws_ev] in H. destruct (write_message enc (Some z) b) as [fr|x].
    + pose proof (drive_started p name enc z k ps rs (mk_wst ((ev ++ [WStart (lit "200 OK") (stream_headers p name (z_name z) rs)]) ++ [WBody fr]) true) eq_refl) as K.
      rewrite H in K. cbn in K. congruence.
    + injection H as <- <- <-. discriminate.
  - destruct (IH _ _ _ _ _ _ H Hs) as (e&He&Hb). exists e. split; auto. now constructor.
  - destruct (IH _ _ _ _ _ _ H Hs) as (e&He&Hb). exists e. split; auto. now constructor.
Qed.

Lemma wsgi_run_unstarted {A B} p (ep : endpoint A B) k z ps cx inv s rs' le :
  wsgi_run p ep k z ps cx = (inv, (s, rs', le)) -> ws_started s = false ->
  exists e, le = end_of e /\ runs ep cx ps inv [] rs' e.
Proof.
  unfold wsgi_run, runs. destruct ep as [m f|m f|m f|m f]; cbn [method_does takes_one]; intros H Hs.
  - destruct (consume_single_request ps) as [a|x] eqn:C.
    + destruct (run_fn (f a cx) ([], None) rs_new) as [[b|i] rs] eqn:R.
      * exfalso. apply (f_equal snd) in H; cbn [snd] in H. destruct (drive_unstarted p (k_name k) (k_enc_res k) z _ _ _ _ _ _ _ H Hs) as (e&_&Hb). inversion Hb.
      * injection H as <- <- <- <-. exists (Some i). split; [reflexivity|]. left. exists a. apply consume_single_ok in C.
        repeat split; auto. unfold returns. rewrite R. auto.
    + injection H as <- <- <- <-. exists (Some (IExn x)). split; [reflexivity|]. right. apply consume_single_raise in C. repeat split; eauto.
  - destruct (run_fn (f cx) ps rs_new) as [[b|i] rs] eqn:R.
    + exfalso. apply (f_equal snd) in H; cbn [snd] in H. destruct (drive_unstarted p (k_name k) (k_enc_res k) z _ _ _ _ _ _ _ H Hs) as (e&_&Hb). inversion Hb.
    + injection H as <- <- <- <-. exists (Some i). split; [reflexivity|]. left. split; auto. unfold returns. rewrite R. auto.
  - destruct (consume_single_request ps) as [a|x] eqn:C.
    + pose proof (f_equal fst H) as Hi; apply (f_equal snd) in H; cbn [fst snd] in H, Hi; subst inv. destruct (drive_unstarted p (k_name k) (k_enc_res k) z _ _ _ _ _ _ _ H Hs) as (e&He&Hb).
      exists e. split; auto. left. exists a. apply consume_single_ok in C. auto.
    + injection H as <- <- <- <-. exists (Some (IExn x)). split; [reflexivity|]. right. apply consume_single_raise in C. repeat split; eauto.
  - pose proof (f_equal fst H) as Hi; apply (f_equal snd) in H; cbn [fst snd] in H, Hi; subst inv. destruct (drive_unstarted p (k_name k) (k_enc_res k) z _ _ _ _ _ _ _ H Hs) as (e&He&Hb).
    exists e. split; auto.
Qed.

Lemma end_response_starts sc p z t err fin : end_response sc p z t err = Ok fin -> starts fin = 0%nat.
Proof. unfold end_response. destruct (writer_end _ _ _ _ _) as [[b|h]|x]; cbn; [intros [= <-]|intros [= <-]|discriminate]; reflexivity. Qed.

Lemma handle_error_starts e ctx out : wsgi_handle_error e ctx = Ok out -> starts out = 1%nat /\ start_first out.
Proof.
  unfold wsgi_handle_error. destruct (match e with EHttp _ _ => _ | _ => _ end) as [[[st hs] body]|x] eqn:E; cbn; [|discriminate].
  intros [= <-]. cbn. split; auto. f_equal. destruct e as [c m ds|st' hs'|k m].
  - destruct (we_to_json_bytes _); cbn in E; [injection E as <- <- <-|]; [reflexivity|discriminate].
  - injection E as <- <- <-. reflexivity.
  - destruct (we_to_json_bytes _); cbn in E; [injection E as <- <- <-|]; [reflexivity|discriminate].
Qed.

Lemma call_error_starts {A} q (inv : list (invoked A)) ev e ctx :
  start_first ev ->
  let r := wsgi_call_error q inv ev e ctx in
  start_first (wr_events r) /\ (wr_out r = WReturn -> starts (wr_events r) = S (starts ev))
  /\ (wr_out r <> WReturn -> starts (wr_events r) = starts ev).
Proof.
  intro H. unfold wsgi_call_error. destruct (drain q 1) as [x|].
  - cbn. split; auto. split; [discriminate|auto].
  - destruct (wsgi_handle_error e ctx) as [out|x] eqn:E; cbn.
    + destruct (handle_error_starts _ _ _ E) as [E1 E2]. rewrite !starts_app, starts_log, E1. split; [|split; [lia|congruence]].
      apply start_first_app; [apply start_first_app; auto|auto]. intros _. unfold maybe_log. destruct (_ || _); cbn; auto.
    + rewrite starts_app, starts_log. split; [|split; [discriminate|lia]].
      apply start_first_app; auto. intros _. unfold maybe_log. destruct (_ || _); cbn; auto.
Qed.

Lemma wshape_first b ev : wshape b ev -> start_first ev.
Proof. destruct b; cbn; [intros (hs&frs&->)|intros ->]; exact I. Qed.

Lemma stream_error_first {A B} (ap : app A B) q p name z inv rs ev e :
  start_first ev -> let '(_, _, ev', i) := wsgi_stream_error ap q p name z inv rs ev e in
  start_first ev' /\ (i = None -> (1 <= starts ev')%nat).
Proof.
  intro H. unfold wsgi_stream_error. destruct (drain q 0); [split; [auto|discriminate]|].
  assert (F : start_first (ev ++ maybe_log e ++ [WStart (lit "200 OK") (stream_headers p name (z_name z) rs)])).
  { apply start_first_app; auto. intros _. apply start_first_log. exact I. }
  destruct (end_response _ _ _ _ _) as [fin|x] eqn:E.
  - split; [|intros _; rewrite !starts_app; cbn; lia]. apply start_first_app; auto. rewrite !starts_app, starts_log. cbn. lia.
  - split; [exact F|discriminate].
Qed.

Lemma wsgi_stream_shape {A B} (ap : app A B) q p hs (ep : endpoint A B) cx :
  match wsgi_stream ap q p hs ep cx with
  | inl (_, _, ev, i) => start_first ev /\ (i = None -> (1 <= starts ev)%nat)
  | inr r => start_first (wr_events r) /\ starts (wr_events r) = 1%nat
  end.
Proof.
  unfold wsgi_stream. destruct (negotiate_stream_compression p hs (ap_comps ap)) as [req z].
  destruct (dget _ _) as [k|]; [|split; [exact I|discriminate]]. cbv zeta.
  destruct req as [rz|].
  2:{ match goal with |- context[wsgi_stream_error ap q p ?n z ?i ?r ?ev ?e] => pose proof (stream_error_first ap q p n z i r ev e I) as K; destruct (wsgi_stream_error ap q p n z i r ev e) as [[[? ?] ?] ?] end. exact K. }
  pose proof (wsgi_run_shape p ep k z (wsgi_request_stream ap k rz q) cx) as Sh.
  destruct (wsgi_run p ep k z _ cx) as [inv [[s rs] le]]. destruct (ws_started s) eqn:Es; cbn [wshape] in Sh.
  - destruct Sh as (h&frs&Sh). rewrite Sh. unfold response_stream_end.
    assert (N : starts (WStart (lit "200 OK") h :: map WBody frs) = 1%nat) by (cbn; now rewrite starts_bodies).
    destruct (loop_interrupt le) as [[x|]|].
    + destruct (drain q 2); [split; [exact I|exact N]|]. destruct (end_response _ _ _ _ _) as [fin|y] eqn:E; cbn [wr_events].
      * split; [exact I|]. rewrite starts_app, N, (end_response_starts _ _ _ _ _ _ E). lia.
      * split; [exact I|exact N].
    + split; [exact I|exact N].
    + destruct (end_response _ _ _ _ _) as [fin|y] eqn:E; cbn [wr_events].
      * split; [exact I|]. rewrite starts_app, N, (end_response_starts _ _ _ _ _ _ E). lia.
      * split; [exact I|exact N].
  - rewrite Sh. destruct (loop_interrupt le) as [[x|]|].
    + match goal with |- context[wsgi_stream_error ap q p ?n z ?i ?r ?ev ?e] => pose proof (stream_error_first ap q p n z i r ev e I) as K; destruct (wsgi_stream_error ap q p n z i r ev e) as [[[? ?] ?] ?] end. exact K.
    + split; [exact I|discriminate].
    + destruct (end_response _ _ _ _ _) as [fin|y] eqn:E.
      * split; [exact I|]. intros _. rewrite !starts_app. cbn. lia.
      * match goal with |- context[wsgi_stream_error ap q p ?n z ?i ?r ?ev ?e] => pose proof (stream_error_first ap q p n z i r ev e I) as K; destruct (wsgi_stream_error ap q p n z i r ev e) as [[[? ?] ?] ?] end. exact K.
Qed.

Lemma wsgi_stream_once {A B} (ap : app A B) q p hs (ep : endpoint A B) cx k :
  dget (ap_codecs ap) (codec_name_from_content_type p true (h_get_default hs (lit "content-type") [])) = Some k ->
  ends_writable ap q p ep k hs cx ->
  match wsgi_stream ap q p hs ep cx with
  | inl (_, _, ev, i) => starts ev = match i with None => 1%nat | Some _ => 0%nat end
  | inr r => starts (wr_events r) = 1%nat
  end.
Proof.
  intros Hk W. pose proof (wsgi_stream_shape ap q p hs ep cx) as Sh0. revert Sh0. unfold wsgi_stream.
  destruct (negotiate_stream_compression p hs (ap_comps ap)) as [req z] eqn:N. rewrite Hk. cbv zeta. unfold ends_writable in W.
  assert (Err : forall inv rs x em, writer_end (ap_sc ap) p z (rs_t rs) (option_map we_from_exception (Some x)) = Ok em ->
     let '(_, _, ev, i) := wsgi_stream_error ap q p (k_name k) z inv rs [] x in starts ev = match i with None => 1%nat | Some _ => 0%nat end).
  { intros inv rs x em Hem. unfold wsgi_stream_error. destruct (drain q 0); [reflexivity|].
    rewrite (end_response_ok _ _ _ _ (Some x) _ Hem). rewrite !starts_app, starts_log. destruct em; reflexivity. }
  destruct req as [rz|].
  2:{ intros _. destruct (W None z [] rs_new (Some (IExn unknown_stream_compression)) N) as [em Hem]; [cbn; auto|].
      specialize (Err [] rs_new _ _ Hem). exact Err. }
  destruct (wsgi_run p ep k z _ cx) as [inv [[s rs] le]] eqn:R. pose proof (wsgi_run_shape p ep k z (wsgi_request_stream ap k rz q) cx) as Sh.
  rewrite R in Sh. destruct (ws_started s) eqn:Es; [intros [_ H]; exact H|]. intros _. cbn in Sh.
  destruct (wsgi_run_unstarted _ _ _ _ _ _ _ _ _ _ R Es) as (e&->&Hr). rewrite end_of_interrupt, Sh.
  destruct (W (Some rz) z inv rs e N Hr) as [em Hem]. destruct e as [[x|]|].
  - exact (Err inv rs x em Hem).
  - reflexivity.
  - rewrite (end_response_ok _ _ _ _ None _ Hem). rewrite !starts_app. destruct em; reflexivity.
Qed.

Lemma wsgi_unary_starts {A B} (ap : app A B) q http f cx hs :
  let '(_, _, ev, i) := wsgi_unary ap q http f cx hs in
  start_first ev /\ starts ev = match i with None => 1%nat | Some _ => 0%nat end.
Proof.
  unfold wsgi_unary. destruct (if str_eqb _ _ then _ else _) as [[a k]|e]; [|split; [exact I|reflexivity]].
  destruct (run_fn _ _ _) as [[b|i] rs]; [|split; [exact I|reflexivity]].
  destruct (do body <- k_enc_res k b; _) as [[z body]|e]; split; try exact I; reflexivity.
Qed.

Lemma wsgi_call_shape {A B} (ap : app A B) now q :
  let r := wsgi_call ap now q in
  start_first (wr_events r) /\ (wr_out r = WReturn -> (1 <= starts (wr_events r))%nat).
Proof.
  unfold wsgi_call. destruct (wsgi_open_request ap now q) as [[[[ep hs] p] cx]|e].
  2:{ destruct (@call_error_starts A q [] [] e None I) as (K1&K2&_). split; auto. intro H. rewrite (K2 H). cbn. lia. }
  assert (C : forall inv rs ev i, start_first ev -> (i = None -> (1 <= starts ev)%nat) ->
     let r := match (inv, rs, ev, i) with
       | (inv, rs, ev, None) => mk_wr inv ev WReturn
       | (inv, rs, ev, Some ICancel) => mk_wr inv ev WBase
       | (inv, rs, ev, Some (IExn e)) => wsgi_call_error q inv ev e (Some rs)
       end : wsgi_result A in
     start_first (wr_events r) /\ (wr_out r = WReturn -> (1 <= starts (wr_events r))%nat)).
  { intros inv rs ev i H1 H2. destruct i as [[x|]|]; cbv zeta beta iota.
    - destruct (call_error_starts q inv ev x (Some rs) H1) as (K1&K2&_). split; auto. intro H. rewrite (K2 H). lia.
    - split; [exact H1|discriminate].
    - split; auto. }
  assert (S : let r := match wsgi_stream ap q p hs ep cx with
      | inr r => r
      | inl (inv, rs, ev, None) => mk_wr inv ev WReturn
      | inl (inv, rs, ev, Some ICancel) => mk_wr inv ev WBase
      | inl (inv, rs, ev, Some (IExn e)) => wsgi_call_error q inv ev e (Some rs)
      end in start_first (wr_events r) /\ (wr_out r = WReturn -> (1 <= starts (wr_events r))%nat)).
  { pose proof (wsgi_stream_shape ap q p hs ep cx) as K. destruct (wsgi_stream ap q p hs ep cx) as [[[[inv rs] ev] i]|r].
    - destruct K as [K1 K2]. exact (C inv rs ev i K1 K2).
    - destruct K as [K1 K2]. split; auto. lia. }
  destruct ep as [m f|m f|m f|m f]; [destruct p|..]; try exact S.
  pose proof (wsgi_unary_starts ap q (cx_http cx) f cx hs) as K. destruct (wsgi_unary ap q (cx_http cx) f cx hs) as [[[inv rs] ev] i].
  destruct K as [K1 K2]. apply (C inv rs ev i K1). intros ->. lia.
Qed.

Lemma wsgi_call_once {A B} (ap : app A B) now q :
  (forall ep hs p cx k, wsgi_stream_request ap now q ep hs p cx k -> ends_writable ap q p ep k hs cx) ->
  let r := wsgi_call ap now q in
  (starts (wr_events r) <= 1)%nat.
Proof.
  intro W. unfold wsgi_call. destruct (wsgi_open_request ap now q) as [[[[ep hs] p] cx]|e] eqn:O.
  2:{ destruct (@call_error_starts A q [] [] e None I) as (_&K2&K3). destruct (wsgi_call_error q [] [] e None) as [i ev [| |]] eqn:Ec.
      - cbn in *. rewrite K2; auto.
      - cbn in *. rewrite K3; [lia|congruence].
      - cbn in *. rewrite K3; [lia|congruence]. }
  assert (C : forall inv rs ev i, start_first ev -> starts ev = match i with None => 1%nat | Some _ => 0%nat end ->
     let r := match (inv, rs, ev, i) with
       | (inv, rs, ev, None) => mk_wr inv ev WReturn
       | (inv, rs, ev, Some ICancel) => mk_wr inv ev WBase
       | (inv, rs, ev, Some (IExn e)) => wsgi_call_error q inv ev e (Some rs)
       end : wsgi_result A in (starts (wr_events r) <= 1)%nat).
  { intros inv rs ev i H1 H2. destruct i as [[x|]|]; cbv zeta beta iota.
    - destruct (call_error_starts q inv ev x (Some rs) H1) as (_&K2&K3).
      destruct (wsgi_call_error q inv ev x (Some rs)) as [i' ev' [| |]] eqn:Ec; cbn [wr_out wr_events] in *.
      + rewrite K2; [lia|reflexivity].
      + rewrite K3; [lia|discriminate].
      + rewrite K3; [lia|discriminate].
    - cbn. lia.
    - cbn. lia. }
  assert (S : (p = PConnect -> is_unary ep = false) -> let r := match wsgi_stream ap q p hs ep cx with
      | inr r => r
      | inl (inv, rs, ev, None) => mk_wr inv ev WReturn
      | inl (inv, rs, ev, Some ICancel) => mk_wr inv ev WBase
      | inl (inv, rs, ev, Some (IExn e)) => wsgi_call_error q inv ev e (Some rs)
      end in (starts (wr_events r) <= 1)%nat).
  { intro Hp. destruct (dget (ap_codecs ap) (codec_name_from_content_type p true (h_get_default hs (lit "content-type") []))) as [k|] eqn:Hk.
    - assert (Wk : ends_writable ap q p ep k hs cx) by (apply W; repeat split; auto).
      pose proof (wsgi_stream_once ap q p hs ep cx k Hk Wk) as K. pose proof (wsgi_stream_shape ap q p hs ep cx) as K'.
      destruct (wsgi_stream ap q p hs ep cx) as [[[[inv rs] ev] i]|r].
      + destruct K' as [K' _]. exact (C inv rs ev i K' K).
      + cbv zeta. lia.
    - unfold wsgi_stream. destruct (negotiate_stream_compression _ _ _). rewrite Hk. apply (C [] rs_new [] (Some (IExn (unsupported_media wsgi_accept_stream))) I). reflexivity. }
  destruct ep as [m f|m f|m f|m f]; [destruct p|..]; try (apply S; (discriminate || reflexivity)).
  pose proof (wsgi_unary_starts ap q (cx_http cx) f cx hs) as K. destruct (wsgi_unary ap q (cx_http cx) f cx hs) as [[[inv rs] ev] i].
  destruct K as [K1 K2]. apply (C inv rs ev i K1 K2).
Qed.
