(** Lemmas on applications and clients with interceptors. *)
From Coq Require Import List NArith ZArith Bool String Lia.
From Verif Require Import MBase MPyStr MHeaders MUtf8 MWire MEnvelope MTimeout MProtocol MClient MServer MAsgi MWsgi MStop MIntercept MWrap SContext SIntercept SWrap LIntercept.
Import ListNotations.

(** ** Bodies that take the same steps *)

(** [strict]: with the same behaviour when they are closed. *)
Fixpoint same_steps {A B R} (strict : bool) (g g' : prog A B R) : Prop :=
  match g, g' with
  | Ret r, Ret r' => r' = r
  | Fail i, Fail i' => i' = i
  | Pull k, Pull k' => forall x, same_steps strict (k x) (k' x)
  | Yield b c k, Yield b' c' k' => b' = b /\ (strict = true -> c' = c) /\ same_steps strict k k'
  | Hdr op k, Hdr op' k' => op' = op /\ same_steps strict k k'
  | Trl op k, Trl op' k' => op' = op /\ same_steps strict k k'
  | _, _ => False
  end.
Lemma same_refl {A B R} s (g : prog A B R) : same_steps s g g.
Proof. induction g; cbn; auto. Qed.
Lemma same_trans {A B R} s (g : prog A B R) : forall g' g'', same_steps s g g' -> same_steps s g' g'' -> same_steps s g g''.
Proof.
  induction g as [r|i|k IH|b c g IH|op g IH|op g IH]; intros [r'|i'|k'|b' c' g'|op' g'|op' g'] [r''|i''|k''|b'' c'' g''|op'' g''|op'' g''] H1 H2; cbn in *; try contradiction.
  - congruence.
  - congruence.
  - intro x. eauto.
  - destruct H1 as (->&H1&H1'), H2 as (->&H2&H2'). split; [reflexivity|]. split; [intro E; rewrite (H2 E); auto|eauto].
  - destruct H1 as (->&H1), H2 as (->&H2). split; [reflexivity|eauto].
  - destruct H1 as (->&H1), H2 as (->&H2). split; [reflexivity|eauto].
Qed.
Lemma run_same {A R} s (g : prog A Empty_set R) : forall g' ps rs, same_steps s g g' -> run_fn g' ps rs = run_fn g ps rs.
Proof.
  induction g as [r|i|k IH|b c g IH|op g IH|op g IH]; intros [r'|i'|k'|b' c' g'|op' g'|op' g'] ps rs H; cbn in *; try contradiction.
  - congruence.
  - congruence.
  - destruct (pull_next ps). eauto.
  - destruct H as (->&H). eauto.
  - destruct H as (->&H). eauto.
Qed.
Definition same_end (strict : bool) (e e' : loop_end) : Prop :=
  match e, e' with
  | LDone, LDone => True
  | LFail i, LFail i' => i' = i
  | LBroken i c, LBroken i' c' => i' = i /\ (strict = true -> c' = c)
  | _, _ => False
  end.
Lemma same_end_refl s e : same_end s e e.
Proof. destruct e; cbn; auto. Qed.
Lemma same_end_strict e e' : same_end true e e' -> e' = e.
Proof. destruct e, e'; cbn; try contradiction; intuition congruence. Qed.
Lemma drive_same {S A B} st (body : S -> rstate -> B -> S * option interrupt) (g : prog A B unit) : forall g' ps rs s, same_steps st g g' ->
  exists e', drive body g' ps rs s = (fst (drive body g ps rs s), e') /\ same_end st (snd (drive body g ps rs s)) e'.
Proof.
  induction g as [r|i|k IH|b c g IH|op g IH|op g IH]; intros [r'|i'|k'|b' c' g'|op' g'|op' g'] ps rs s H; cbn [same_steps] in H; try contradiction; cbn [drive].
  - eexists. split; [reflexivity|exact I].
  - subst i'. eexists. split; [reflexivity|reflexivity].
  - destruct (pull_next ps). eauto.
  - destruct H as (->&Hc&H). destruct (body s rs b) as [s' [i|]]; [|eauto]. eexists. split; [reflexivity|]. cbn. auto.
  - destruct H as (->&H). eauto.
  - destruct H as (->&H). eauto.
Qed.

(** ** Applications whose methods take the same steps *)

(** Endpoints of one kind whose methods take the same steps in contexts that satisfy [P]. *)
Definition same_ep {A B} (st : bool) (P : req_ctx -> Prop) (e e' : endpoint A B) : Prop :=
  match e, e' with
  | EpUnary m f, EpUnary m' f' => m' = m /\ forall a cx, P cx -> same_steps st (f a cx) (f' a cx)
  | EpClientStream m f, EpClientStream m' f' => m' = m /\ forall cx, P cx -> same_steps st (f cx) (f' cx)
  | EpServerStream m f, EpServerStream m' f' => m' = m /\ forall a cx, P cx -> same_steps st (f a cx) (f' a cx)
  | EpBidi m f, EpBidi m' f' => m' = m /\ forall cx, P cx -> same_steps st (f cx) (f' cx)
  | _, _ => False
  end.
Definition same_apps {A B} st P (ap ap' : app A B) : Prop :=
  same_settings ap ap' /\ ap_path ap' = ap_path ap
  /\ Forall2 (fun x y => fst y = fst x /\ same_ep st P (snd x) (snd y)) (ap_endpoints ap) (ap_endpoints ap').

Lemma same_get {A B} st P (d d' : dict (endpoint A B)) key : Forall2 (fun x y => fst y = fst x /\ same_ep st P (snd x) (snd y)) d d' ->
  match dget d key, dget d' key with Some e, Some e' => same_ep st P e e' | None, None => True | _, _ => False end.
Proof.
  induction 1 as [|[k e] [k' e'] d d' [H1 H2] _ IH]; [exact I|]. cbn [fst snd] in H1, H2. cbn [dget]. subst k'. destruct (str_eqb k key); [exact H2|exact IH].
Qed.
Lemma same_method {A B} st P (e e' : endpoint A B) : same_ep st P e e' -> ep_method e' = ep_method e /\ is_unary e' = is_unary e.
Proof. destruct e, e'; cbn; try contradiction; intros [-> _]; auto. Qed.

Lemma same_find {A B} st P (ap ap' : app A B) sc : same_apps st P ap ap' ->
  match find_endpoint ap sc with
  | Ok e => exists e', find_endpoint ap' sc = Ok e' /\ same_ep st P e e'
  | Raise x => find_endpoint ap' sc = Raise x
  end.
Proof.
  intros (_&_&F). unfold find_endpoint. pose proof (same_get st P _ _ (sc_path sc) F) as G.
  destruct (dget (ap_endpoints ap) (sc_path sc)) as [e|], (dget (ap_endpoints ap') (sc_path sc)) as [e'|]; try contradiction; [eauto|].
  destruct (sc_root sc) as [[|c root]|]; try reflexivity. set (path := removeprefix _ _).
  pose proof (same_get st P _ _ path F) as G'. destruct (dget (ap_endpoints ap) path), (dget (ap_endpoints ap') path); try contradiction; [eauto|reflexivity].
Qed.
Lemma same_open {A B} st P (ap ap' : app A B) now sc : same_apps st P ap ap' ->
  match open_request ap now sc with
  | Ok (e, hs, p, cx) => exists e', open_request ap' now sc = Ok (e', hs, p, cx) /\ same_ep st P e e'
  | Raise x => open_request ap' now sc = Raise x
  end.
Proof.
  intro S. pose proof (same_find st P ap ap' sc S) as F. unfold open_request.
  destruct (find_endpoint ap sc) as [e|x]; cbn [bind]; [|now rewrite F].
  destruct F as (e'&F&G). rewrite F. cbn [bind]. rewrite (proj1 (same_method _ _ _ _ G)).
  destruct (process_headers _ _) as [hs|x]; cbn [bind]; [|reflexivity]. cbv zeta. destruct (_ && _); [reflexivity|].
  destruct (server_create_context _ _ _ _ _ _ _); cbn [bind]; [eauto|reflexivity].
Qed.
Lemma same_loop {A B} o seen mon p name (enc : B -> res bytes) z (g g' : prog A B unit) ps rs s : same_steps true g g' ->
  stream_loop o seen mon p name enc z g' ps rs s = stream_loop o seen mon p name enc z g ps rs s.
Proof.
  intro H. unfold stream_loop. destruct (drive_same true (stream_body o seen p name enc z) g g' ps rs s H) as (e'&E&Se).
  destruct (drive _ g ps rs s) as [[s1 rs1] e]. cbn [fst snd] in *. apply same_end_strict in Se. subst e'. now rewrite E.
Qed.

Lemma same_call {A B} P (ap ap' : app A B) now sc en : same_apps true P ap ap' ->
  (forall e hs p cx, open_request ap now sc = Ok (e, hs, p, cx) -> P cx) -> asgi_call ap' now sc en = asgi_call ap now sc en.
Proof.
  intros S Hp. pose proof (same_open true P ap ap' now sc S) as O. destruct S as ((Sm&Sc&Sk&Ss)&_&_).
  unfold asgi_call. destruct (open_request ap now sc) as [[[[e hs] p] cx]|x]; [|now rewrite O].
  specialize (Hp _ _ _ _ eq_refl). destruct O as (e'&O&G). rewrite O. destruct (same_method _ _ _ _ G) as [Em Eu].
  assert (Q : select_codec ap' sc e' hs p = select_codec ap sc e hs p) by (unfold select_codec; now rewrite Sk, Eu).
  rewrite Q. destruct (select_codec ap sc e hs p) as [[params k]|x]; [|reflexivity].
  assert (R : forall rz, request_stream ap' k rz en = request_stream ap k rz en) by (intro; unfold request_stream; now rewrite Sm).
  assert (Hs : handle_stream ap' en p e' k hs cx = handle_stream ap en p e k hs cx).
  { unfold handle_stream. rewrite Sc, Ss. destruct (negotiate_stream_compression p hs (ap_comps ap)) as [req z].
    assert (T : stream_try ap' en p e' k req z cx (mk_lst (mk_ast 0 []) false 0) = stream_try ap en p e k req z cx (mk_lst (mk_ast 0 []) false 0)).
    { unfold stream_try. destruct req as [rz|]; [|reflexivity]. cbv zeta. rewrite R.
      destruct e as [m f|m f|m f|m f], e' as [m' f'|m' f'|m' f'|m' f']; cbn in G; try contradiction; destruct G as [-> G].
      - destruct (consume_single_request _); [|reflexivity]. now rewrite (run_same true _ _ _ _ (G _ _ Hp)).
      - now rewrite (run_same true _ _ _ _ (G _ Hp)).
      - destruct (consume_single_request _); [|reflexivity]. now rewrite (same_loop _ _ _ _ _ _ _ _ _ _ _ _ (G _ _ Hp)).
      - now rewrite (same_loop _ _ _ _ _ _ _ _ _ _ _ _ (G _ Hp)). }
    now rewrite T. }
  rewrite Hs. destruct e as [m f|m f|m f|m f], e' as [m' f'|m' f'|m' f'|m' f']; cbn in G; try contradiction; try reflexivity.
  destruct p; try reflexivity. destruct G as [_ G].
  assert (H : handle_unary_connect ap' en (sc_method sc) hs k params f' cx (mk_ast 0 []) = handle_unary_connect ap en (sc_method sc) hs k params f cx (mk_ast 0 [])).
  { unfold handle_unary_connect. rewrite Sc. cbv zeta.
    assert (X : read_get_request ap' k params = read_get_request ap k params) by (unfold read_get_request, unknown_compression; now rewrite Sc, ?Sm).
    assert (Y : read_post_request ap' k hs (en_recv en) = read_post_request ap k hs (en_recv en)) by (unfold read_post_request, unknown_compression; now rewrite Sc, ?Sm).
    rewrite X, Y. match goal with |- match ?x with _ => _ end = _ => destruct x as [a|i] end; [|reflexivity]. now rewrite (run_same true _ _ _ _ (G _ _ Hp)). }
  now rewrite H.
Qed.

Lemma same_wsgi_find {A B} st P (ap ap' : app A B) q : same_apps st P ap ap' ->
  match wsgi_find_endpoint ap q with
  | Ok e => exists e', wsgi_find_endpoint ap' q = Ok e' /\ same_ep st P e e'
  | Raise x => wsgi_find_endpoint ap' q = Raise x
  end.
Proof.
  intros (_&Pa&F). unfold wsgi_find_endpoint. destruct (env_item q "PATH_INFO") as [path|x]; cbn [bind]; [|reflexivity]. cbv zeta.
  set (path1 := match path with [] => lit "/" | _ => path end). pose proof (same_get st P _ _ path1 F) as G.
  destruct (dget (ap_endpoints ap) path1) as [e|], (dget (ap_endpoints ap') path1) as [e'|]; try contradiction; [eauto|].
  destruct (env_item q "SCRIPT_NAME") as [script|x]; cbn [bind]; [|reflexivity]. rewrite Pa. destruct (str_eqb script (ap_path ap)); [|reflexivity].
  pose proof (same_get st P _ _ (ap_path ap ++ path1) F) as G'.
  destruct (dget (ap_endpoints ap) (ap_path ap ++ path1)), (dget (ap_endpoints ap') (ap_path ap ++ path1)); try contradiction; [eauto|reflexivity].
Qed.
Lemma same_wsgi_open {A B} st P (ap ap' : app A B) now q : same_apps st P ap ap' ->
  match wsgi_open_request ap now q with
  | Ok (e, hs, p, cx) => exists e', wsgi_open_request ap' now q = Ok (e', hs, p, cx) /\ same_ep st P e e'
  | Raise x => wsgi_open_request ap' now q = Raise x
  end.
Proof.
  intro S. pose proof (same_wsgi_find st P ap ap' q S) as F. unfold wsgi_open_request.
  destruct (wsgi_find_endpoint ap q) as [e|x]; cbn [bind]; [|now rewrite F].
  destruct F as (e'&F&G). rewrite F. cbn [bind]. rewrite (proj1 (same_method _ _ _ _ G)).
  destruct (env_item q "REQUEST_METHOD"); cbn [bind]; [|reflexivity]. cbv zeta. destruct (_ && _); [reflexivity|].
  destruct (server_create_context _ _ _ _ _ _ _); cbn [bind]; [eauto|reflexivity].
Qed.

Lemma same_interrupt st e e' : same_end st e e' -> loop_interrupt e' = loop_interrupt e.
Proof. destruct e, e'; cbn; try contradiction; intuition congruence. Qed.
Lemma same_wsgi_run {A B} st P p (e e' : endpoint A B) k z ps cx : same_ep st P e e' -> P cx ->
  exists l', wsgi_run p e' k z ps cx = (fst (wsgi_run p e k z ps cx), (fst (snd (wsgi_run p e k z ps cx)), l')) /\ same_end st (snd (snd (wsgi_run p e k z ps cx))) l'.
Proof.
  intros G Hp. unfold wsgi_run. cbv zeta. destruct e as [m f|m f|m f|m f], e' as [m' f'|m' f'|m' f'|m' f']; cbn in G; try contradiction; destruct G as [-> G].
  - destruct (consume_single_request _); [|eexists; split; [reflexivity|apply same_end_refl]]. rewrite (run_same st _ _ _ _ (G _ _ Hp)).
    destruct (run_fn (f a cx) ([], None) rs_new) as [[b|i] rs]; cbn [fst snd]; [|eexists; split; [reflexivity|apply same_end_refl]].
    destruct (drive _ (single_response b) _ rs _) as [[s1 rs1] e1]. eexists. split; [reflexivity|apply same_end_refl].
  - rewrite (run_same st _ _ _ _ (G _ Hp)).
    destruct (run_fn (f cx) ps rs_new) as [[b|i] rs]; cbn [fst snd]; [|eexists; split; [reflexivity|apply same_end_refl]].
    destruct (drive _ (single_response b) _ rs _) as [[s1 rs1] e1]. eexists. split; [reflexivity|apply same_end_refl].
  - destruct (consume_single_request _); [|eexists; split; [reflexivity|apply same_end_refl]].
    destruct (drive_same st (wsgi_body_step p (k_name k) (k_enc_res k) z) _ _ ([], None) rs_new (mk_wst [] false) (G a _ Hp)) as (l'&E&Se). rewrite E. eexists. split; [reflexivity|exact Se].
  - destruct (drive_same st (wsgi_body_step p (k_name k) (k_enc_res k) z) _ _ ps rs_new (mk_wst [] false) (G _ Hp)) as (l'&E&Se). rewrite E. eexists. split; [reflexivity|exact Se].
Qed.
Lemma same_stop_run {A B} st P n p (e e' : endpoint A B) k z ps cx : same_ep st P e e' -> P cx ->
  exists l', stop_run n p e' k z ps cx = (fst (stop_run n p e k z ps cx), (fst (snd (stop_run n p e k z ps cx)), l')) /\ same_end st (snd (snd (stop_run n p e k z ps cx))) l'.
Proof.
  intros G Hp. unfold stop_run. cbv zeta. destruct e as [m f|m f|m f|m f], e' as [m' f'|m' f'|m' f'|m' f']; cbn in G; try contradiction; destruct G as [-> G].
  - destruct (consume_single_request _); [|eexists; split; [reflexivity|apply same_end_refl]]. rewrite (run_same st _ _ _ _ (G _ _ Hp)).
    destruct (run_fn (f a cx) ([], None) rs_new) as [[b|i] rs]; cbn [fst snd]; [|eexists; split; [reflexivity|apply same_end_refl]].
    destruct (drive _ (single_response b) _ rs _) as [[s1 rs1] e1]. eexists. split; [reflexivity|apply same_end_refl].
  - rewrite (run_same st _ _ _ _ (G _ Hp)).
    destruct (run_fn (f cx) ps rs_new) as [[b|i] rs]; cbn [fst snd]; [|eexists; split; [reflexivity|apply same_end_refl]].
    destruct (drive _ (single_response b) _ rs _) as [[s1 rs1] e1]. eexists. split; [reflexivity|apply same_end_refl].
  - destruct (consume_single_request _); [|eexists; split; [reflexivity|apply same_end_refl]].
    destruct (drive_same st (stop_step n p (k_name k) (k_enc_res k) z) _ _ ([], None) rs_new (mk_wst [] false, 0%nat) (G a _ Hp)) as (l'&E&Se). rewrite E. eexists. split; [reflexivity|exact Se].
  - destruct (drive_same st (stop_step n p (k_name k) (k_enc_res k) z) _ _ ps rs_new (mk_wst [] false, 0%nat) (G _ Hp)) as (l'&E&Se). rewrite E. eexists. split; [reflexivity|exact Se].
Qed.

Lemma same_wsgi_unary {A B} st P (ap ap' : app A B) q http m m' f f' cx hs : same_settings ap ap' -> same_ep st P (EpUnary m f) (EpUnary m' f') -> P cx ->
  wsgi_unary ap' q http f' cx hs = wsgi_unary ap q http f cx hs.
Proof.
  intros (Sm&Sc&Sk&Ss) [_ G] Hp. unfold wsgi_unary. rewrite Sc.
  assert (X : wsgi_get_request ap' q = wsgi_get_request ap q) by (unfold wsgi_get_request, unknown_compression; now rewrite ?Sc, ?Sm, ?Sk).
  assert (Y : wsgi_post_request ap' q hs = wsgi_post_request ap q hs) by (unfold wsgi_post_request, unknown_compression; now rewrite ?Sc, ?Sm, ?Sk).
  rewrite X, Y. match goal with |- match ?x with _ => _ end = _ => destruct x as [[a k]|i] end; [|reflexivity]. now rewrite (run_same st _ _ _ _ (G _ _ Hp)).
Qed.

Lemma same_wsgi_call {A B} P (ap ap' : app A B) now q : same_apps false P ap ap' ->
  (forall e hs p cx, wsgi_open_request ap now q = Ok (e, hs, p, cx) -> P cx) -> wsgi_call ap' now q = wsgi_call ap now q.
Proof.
  intros S Hp. pose proof (same_wsgi_open false P ap ap' now q S) as O. destruct S as (Se&_&_).
  unfold wsgi_call. destruct (wsgi_open_request ap now q) as [[[[e hs] p] cx]|x]; [|now rewrite O].
  specialize (Hp _ _ _ _ eq_refl). destruct O as (e'&O&G). rewrite O.
  assert (Hs : wsgi_stream ap' q p hs e' cx = wsgi_stream ap q p hs e cx).
  { destruct Se as (Sm&Sc&Sk&Ss). unfold wsgi_stream. rewrite Sc, Ss, Sk. destruct (negotiate_stream_compression p hs (ap_comps ap)) as [req z].
    destruct (dget (ap_codecs ap) _) as [k|]; [|reflexivity]. cbv zeta. unfold wsgi_stream_error, response_stream_end. rewrite Ss.
    destruct req as [rz|]; [|reflexivity]. assert (R : wsgi_request_stream ap' k rz q = wsgi_request_stream ap k rz q) by (unfold wsgi_request_stream; now rewrite Sm).
    rewrite R. destruct (same_wsgi_run false P p e e' k z (wsgi_request_stream ap k rz q) cx G Hp) as (l'&E&L). rewrite E.
    destruct (wsgi_run p e k z (wsgi_request_stream ap k rz q) cx) as [inv [[s rs] l]]. cbn [fst snd] in *. now rewrite (same_interrupt _ _ _ L). }
  rewrite Hs. destruct e as [m f|m f|m f|m f], e' as [m' f'|m' f'|m' f'|m' f']; cbn in G; try contradiction; try reflexivity.
  destruct p; try reflexivity. now rewrite (same_wsgi_unary false P ap ap' q (cx_http cx) m m' f f' cx hs Se G Hp).
Qed.
Lemma same_wsgi_stop {A B} P n (ap ap' : app A B) now q : same_apps false P ap ap' ->
  (forall e hs p cx, wsgi_open_request ap now q = Ok (e, hs, p, cx) -> P cx) -> wsgi_stop n ap' now q = wsgi_stop n ap now q.
Proof.
  intros S Hp. pose proof (same_wsgi_open false P ap ap' now q S) as O. destruct S as (Se&_&_).
  unfold wsgi_stop. cbv zeta. destruct (wsgi_open_request ap now q) as [[[[e hs] p] cx]|x]; [|now rewrite O].
  specialize (Hp _ _ _ _ eq_refl). destruct O as (e'&O&G). rewrite O.
  assert (Hs : stop_stream n ap' q p hs e' cx = stop_stream n ap q p hs e cx).
  { destruct Se as (Sm&Sc&Sk&Ss). unfold stop_stream. rewrite Sc, Ss, Sk. destruct (negotiate_stream_compression p hs (ap_comps ap)) as [req z].
    destruct (dget (ap_codecs ap) _) as [k|]; [|reflexivity]. cbv zeta. unfold wsgi_stream_error, response_stream_end. rewrite Ss.
    destruct req as [rz|]; [|reflexivity]. assert (R : wsgi_request_stream ap' k rz q = wsgi_request_stream ap k rz q) by (unfold wsgi_request_stream; now rewrite Sm).
    rewrite R. destruct (same_stop_run false P n p e e' k z (wsgi_request_stream ap k rz q) cx G Hp) as (l'&E&L). rewrite E.
    destruct (stop_run n p e k z (wsgi_request_stream ap k rz q) cx) as [inv [[[s i] rs] l]]. cbn [fst snd] in *. rewrite (same_interrupt _ _ _ L).
    destruct (ws_started s); [|reflexivity]. destruct l as [|x|x c], l' as [|x'|x' c']; cbn in L; try contradiction; try reflexivity. destruct L as [-> _]. reflexivity. }
  rewrite Hs. destruct e as [m f|m f|m f|m f], e' as [m' f'|m' f'|m' f'|m' f']; cbn in G; try contradiction; try reflexivity.
  destruct p; try reflexivity. now rewrite (same_wsgi_unary false P ap ap' q (cx_http cx) m m' f f' cx hs Se G Hp).
Qed.

(** ** What interceptors do to bodies *)

Section Bodies.
Context {P A T : Type} (conv : P -> A).

Lemma doing_same {B R} st ls : forall g g' : sgen A T B R, same_steps st (body_of conv g) (body_of conv g') -> same_steps st (body_of conv (doing ls g)) (body_of conv (doing ls g')).
Proof. induction ls as [|[|[op|op]] ls IH]; intros g g' H; cbn; auto. intros []; auto. Qed.
Lemma doing_app {L X T' B R} ls ls' (g : gen L X T' B R) : doing (ls ++ ls') g = doing ls (doing ls' g).
Proof. induction ls as [|l ls IH]; [reflexivity|]. cbn. now rewrite IH. Qed.
Lemma does_body {B Y R} st ls t (g : sgen A T Empty_set Y) (k : Y -> sgen A T B R) : does ls t g -> same_steps st (body_of conv (gcall g k)) (body_of conv (doing ls (k t))).
Proof.
  induction 1 as [r|l ls r c H IH]; [apply same_refl|]. destruct l as [|[op|op]]; cbn.
  - intros []; apply IH.
  - split; [reflexivity|apply IH].
  - split; [reflexivity|apply IH].
Qed.
Lemma throws_body {B Y R} st ls e (g : sgen A T Empty_set Y) (k : Y -> sgen A T B R) : throws ls e g ->
  same_steps st (body_of conv (gcall g k)) (body_of conv (doing ls (GRaise (FExn e) : sgen A T B R))).
Proof.
  induction 1 as [e|l ls e c H IH]; [reflexivity|]. destruct l as [|[op|op]]; cbn.
  - intros []; apply IH.
  - split; [reflexivity|apply IH].
  - split; [reflexivity|apply IH].
Qed.
Lemma throws_direct {B R} st ls e (g : sgen A T B R) : throws ls e g -> same_steps st (body_of conv g) (body_of conv (doing ls (GRaise (FExn e) : sgen A T B R))).
Proof.
  induction 1 as [e|l ls e c H IH]; [reflexivity|]. destruct l as [|[op|op]]; cbn.
  - intros []; apply IH.
  - split; [reflexivity|apply IH].
  - split; [reflexivity|apply IH].
Qed.

Definition silent_end (on_end : option exn -> sgen A T Empty_set unit) : Prop := forall e, exists m, on_end e = GMark m (GRet tt).
Lemma closer_ending {B R} on_end (g : sgen A T B R) : silent_end on_end -> closer (ending on_end g) = closer g.
Proof.
  intro S. induction g as [r|f|l k IH|m k IH|b k IHk h IHh]; cbn [ending].
  - destruct (S None) as [m ->]. reflexivity.
  - destruct (S (error_of f)) as [m ->]. destruct f; reflexivity.
  - destruct l as [|[op|op]]; cbn [closer]; [apply IH|now rewrite IH|now rewrite IH].
  - apply IH.
  - reflexivity.
Qed.
Lemma body_ending {B R} on_end (g : sgen A T B R) : silent_end on_end -> same_steps true (body_of conv (ending on_end g)) (body_of conv g).
Proof.
  intro S. induction g as [r|f|l k IH|m k IH|b k IHk h IHh]; cbn [ending].
  - destruct (S None) as [m ->]. reflexivity.
  - destruct (S (error_of f)) as [m ->]. reflexivity.
  - destruct l as [|[op|op]]; cbn; [intros []; apply IH|split; [reflexivity|apply IH]|split; [reflexivity|apply IH]].
  - apply IH.
  - cbn. split; [reflexivity|]. split; [intros _; now rewrite closer_ending|exact IHk].
Qed.
Lemma closer_closing {B R} (g : sgen A T B R) : closer (closing g) = closer g.
Proof.
  induction g as [r|f|l k IH|m k IH|b k IHk h IHh]; cbn [closing]; auto.
  destruct l as [|[op|op]]; cbn [closer]; [apply IH|now rewrite IH|now rewrite IH].
Qed.
Lemma body_yield_from {B R} (g : sgen A T B R) : same_steps true (body_of conv (yield_from g)) (body_of conv g).
Proof.
  induction g as [r|f|l k IH|m k IH|b k IHk h IHh]; try reflexivity.
  - cbn [yield_from]. destruct l as [|[op|op]]; cbn; [intros []; apply IH|split; [reflexivity|apply IH]|split; [reflexivity|apply IH]].
  - apply IH.
  - cbn. split; [reflexivity|]. split; [intros _; now rewrite closer_closing|exact IHk].
Qed.
Lemma body_async_for {B R} st (g : sgen A T B R) : (st = true -> quiet_closing (body_of conv g)) -> same_steps st (body_of conv (async_for g)) (body_of conv g).
Proof.
  induction g as [r|f|l k IH|m k IH|b k IHk h IHh]; intro Q; try reflexivity.
  - cbn [async_for]. destruct l as [|[op|op]]; cbn in Q |- *.
    + intros [a| |e]; apply IH; intro E; [exact (Q E (PMsg a))|exact (Q E PEnd)|exact (Q E (PExn e))].
    + split; [reflexivity|apply IH, Q].
    + split; [reflexivity|apply IH, Q].
  - apply IH, Q.
  - cbn in Q |- *. split; [reflexivity|]. split; [intro E; exact (proj1 (Q E))|]. apply IHk. intro E. exact (proj2 (Q E)).
Qed.
End Bodies.
Lemma quiet_same {A B R} (g : prog A B R) : forall g', same_steps true g g' -> quiet_closing g' -> quiet_closing g.
Proof.
  induction g as [r|i|k IH|b c g IH|op g IH|op g IH]; intros [r'|i'|k'|b' c' g'|op' g'|op' g'] H; cbn in *; try contradiction; auto.
  - intros Q x. eauto.
  - destruct H as (_&Hc&H). intros [Qc Q]. rewrite <- (Hc eq_refl). split; [exact Qc|eauto].
  - destruct H. eauto.
  - destruct H. eauto.
Qed.
Lemma quiet_doing {P A T B R} (conv : P -> A) ls (g : sgen A T B R) : quiet_closing (body_of conv g) -> quiet_closing (body_of conv (doing ls g)).
Proof. intro Q. induction ls as [|[|[op|op]] ls IH]; cbn; auto. intros []; exact IH. Qed.

(** A metadata interceptor around [inner], run by [rn]. *)
Definition meta_fn {L X T C Y B R} (rn : gen L X T B R -> gen L X T B R) (m : meta L X T C) (next : Y -> C -> gen L X T B R) : Y -> C -> gen L X T B R :=
  fun y ctx => invoke m ctx (rn (next y ctx)).

Lemma invoke_body {P A T B R} (conv : P -> A) st (m : meta seff (option A) T req_ctx) cx ls (g : sgen A T B R) : decorates m cx ls -> same_steps st (body_of conv (invoke m cx g)) (body_of conv (doing ls g)).
Proof.
  intros [[t D] E]. unfold invoke. cbn [body_of].
  eapply same_trans; [exact (does_body conv st ls t _ _ D)|]. apply doing_same. cbn [body_of].
  assert (S : same_steps true (body_of conv (ending (fun error => GMark (OnEnd (me_id m) t error) (me_end m t cx error)) g)) (body_of conv g)).
  { apply body_ending. intro e. exists (OnEnd (me_id m) t e). now rewrite E. }
  revert S. destruct st; [auto|]. generalize (body_of conv g). generalize (body_of conv (ending (fun error => GMark (OnEnd (me_id m) t error) (me_end m t cx error)) g)).
  intro p0. induction p0 as [r|i|k IH|b c p0 IH|op p0 IH|op p0 IH]; intros [r'|i'|k'|b' c' p'|op' p'|op' p'] H; cbn in *; try contradiction; auto.
  - destruct H as (->&H). split; [reflexivity|]. split; [discriminate|]. apply IH, H.
  - destruct H. auto.
  - destruct H. auto.
Qed.

(** [rn] changes nothing, of the bodies that satisfy [Q]. *)
Definition harmless {P A T B R} (conv : P -> A) (st : bool) (rn : sgen A T B R -> sgen A T B R) (Q : prog P B R -> Prop) : Prop :=
  (forall g, Q (body_of conv g) -> same_steps st (body_of conv (rn g)) (body_of conv g))
  /\ (forall g g', same_steps st g g' -> Q g' -> Q g)
  /\ (forall ls (g : sgen A T B R), Q (body_of conv g) -> Q (body_of conv (doing ls g))).
Lemma metas_body {P A T Y B R} (conv : P -> A) st rn Q (ms : list (meta seff (option A) T req_ctx)) cx lss (f : Y -> req_ctx -> sgen A T B R) y : harmless conv st rn Q ->
  Forall2 (fun m ls => decorates m cx ls) ms lss -> Q (body_of conv (f y cx)) ->
  same_steps st (body_of conv (onion (map (meta_fn rn) ms) f y cx)) (body_of conv (doing (List.concat lss) (f y cx))).
Proof.
  intros (H1&H2&H3) D Qf. induction D as [|m ls ms lss Dm _ IH]; [apply same_refl|]. cbn [map onion List.concat]. rewrite doing_app. unfold meta_fn at 1.
  eapply same_trans; [exact (invoke_body conv st m cx ls _ Dm)|]. apply doing_same.
  eapply same_trans; [|exact IH]. apply H1. eapply H2; [exact IH|]. apply H3, Qf.
Qed.

Lemma harmless_id {P A T B R} (conv : P -> A) st : harmless conv st (fun g : sgen A T B R => g) (fun _ => True).
Proof. split; [intros; apply same_refl|]. split; auto. Qed.
Lemma same_weaken {A B R} (g : prog A B R) : forall g', same_steps true g g' -> same_steps false g g'.
Proof.
  induction g as [r|i|k IH|b c g IH|op g IH|op g IH]; intros [r'|i'|k'|b' c' g'|op' g'|op' g'] H; cbn in *; try contradiction; auto.
  - destruct H as (->&H&H'). split; [reflexivity|]. split; [discriminate|auto].
  - destruct H. auto.
  - destruct H. auto.
Qed.
Lemma harmless_sync {P A T B R} (conv : P -> A) st : harmless conv st (@yield_from seff (option A) T B R) (fun _ => True).
Proof. split; [intros g _; destruct st; [|apply same_weaken]; apply body_yield_from|]. split; auto. Qed.
Lemma harmless_async {P A T B R} (conv : P -> A) : harmless conv true (@async_for seff (option A) T B R) quiet_closing.
Proof. split; [intros g Q; apply body_async_for; auto|]. split; [exact quiet_same|]. intros ls g. apply quiet_doing. Qed.

(** ** All kinds of methods *)

Definition run_by {L X T B R} (sync : bool) (g : gen L X T B R) : gen L X T B R := if sync then yield_from g else async_for g.

Lemma resolve_app {L X T A Q B C} sync (l l' : list (interceptor L X T A Q B C)) : resolve_interceptors sync (l ++ l') = resolve_interceptors sync l ++ resolve_interceptors sync l'.
Proof. apply map_app. Qed.
Lemma decorated_metas {L X T A Q B C} (ctx : C) (l : list (interceptor L X T A Q B C)) lss : decorated ctx l lss ->
  exists ms, Forall2 (fun i m => ic_meta i = Some m) l ms /\ Forall2 (fun m ls => decorates m ctx ls) ms lss.
Proof.
  induction 1 as [|i ls l lss (m&E&D) _ (ms&H1&H2)]; [exists []; split; constructor|]. exists (m :: ms). split; constructor; auto.
Qed.
Section Loops.
Context {L X T A Q B C : Type}.
Implicit Types l : list (interceptor L X T A Q B C).
Lemma loop_unary sync l l' ms f : Forall2 (fun i m => ic_meta i = Some m) l ms ->
  apply_loop ic_unary (resolve_interceptors sync (l ++ l')) f = onion (map (meta_fn (fun g => g)) ms) (apply_loop ic_unary (resolve_interceptors sync l') f).
Proof.
  intro H. rewrite !apply_loop_onion, resolve_app, offered_app, onion_app. f_equal.
  induction H as [|i m l ms E _ IH]; [reflexivity|]. cbn. rewrite E. cbn. f_equal. exact IH.
Qed.
Lemma loop_client_stream sync l l' ms f : Forall2 (fun i m => ic_meta i = Some m) l ms ->
  apply_loop ic_client_stream (resolve_interceptors sync (l ++ l')) f = onion (map (meta_fn (fun g => g)) ms) (apply_loop ic_client_stream (resolve_interceptors sync l') f).
Proof.
  intro H. rewrite !apply_loop_onion, resolve_app, offered_app, onion_app. f_equal.
  induction H as [|i m l ms E _ IH]; [reflexivity|]. cbn. rewrite E. cbn. f_equal. exact IH.
Qed.
Lemma loop_server_stream sync l l' ms f : Forall2 (fun i m => ic_meta i = Some m) l ms ->
  apply_loop ic_server_stream (resolve_interceptors sync (l ++ l')) f = onion (map (meta_fn (run_by sync)) ms) (apply_loop ic_server_stream (resolve_interceptors sync l') f).
Proof.
  intro H. rewrite !apply_loop_onion, resolve_app, offered_app, onion_app. f_equal.
  induction H as [|i m l ms E _ IH]; [reflexivity|]. cbn. rewrite E. cbn. f_equal. exact IH.
Qed.
Lemma loop_bidi_stream sync l l' ms f : Forall2 (fun i m => ic_meta i = Some m) l ms ->
  apply_loop ic_bidi_stream (resolve_interceptors sync (l ++ l')) f = onion (map (meta_fn (run_by sync)) ms) (apply_loop ic_bidi_stream (resolve_interceptors sync l') f).
Proof.
  intro H. rewrite !apply_loop_onion, resolve_app, offered_app, onion_app. f_equal.
  induction H as [|i m l ms E _ IH]; [reflexivity|]. cbn. rewrite E. cbn. f_equal. exact IH.
Qed.

End Loops.
Section Kinds.
Context {A T B : Type}.
Implicit Types l : list (sinterceptor A T B).
(** Metadata interceptors [l] around what [l'] make of a method. *)
Lemma around_same sync info l l' lss (f f' : smethod A T B) (P : req_ctx -> Prop) :
  (forall cx, P cx -> decorated cx l lss) -> (sync = true \/ closes_quietly f') ->
  same_ep true P (endpoint_of info (apply_interceptors f (resolve_interceptors sync l'))) (endpoint_of info f') ->
  same_ep true P (endpoint_of info (apply_interceptors f (resolve_interceptors sync (l ++ l')))) (endpoint_of info (after_ops (List.concat lss) f')).
Proof.
  intros D Q S. destruct f as [f|f|f|f], f' as [f'|f'|f'|f']; try contradiction; cbn [apply_interceptors after_ops endpoint_of same_ep] in *; (split; [reflexivity|]); destruct S as [_ S].
  - intros a cx Hp. destruct (decorated_metas _ _ _ (D _ Hp)) as (ms&M&Dm). rewrite (loop_unary sync l l' ms f M).
    eapply same_trans; [apply (metas_body no_message true (fun g => g) (fun _ => True) ms cx lss); auto; apply harmless_id|]. apply doing_same, S, Hp.
  - intros cx Hp. destruct (decorated_metas _ _ _ (D _ Hp)) as (ms&M&Dm). rewrite (loop_client_stream sync l l' ms f M).
    eapply same_trans; [apply (metas_body id true (fun g => g) (fun _ => True) ms cx lss); auto; apply harmless_id|]. apply doing_same, S, Hp.
  - intros a cx Hp. destruct (decorated_metas _ _ _ (D _ Hp)) as (ms&M&Dm). rewrite (loop_server_stream sync l l' ms f M).
    eapply same_trans; [|apply doing_same, S, Hp].
    destruct sync; [apply (metas_body no_message true (run_by true) (fun _ => True) ms cx lss); auto; apply harmless_sync|].
    destruct Q as [Q|Q]; [discriminate|].
    apply (metas_body no_message true (run_by false) quiet_closing ms cx lss); auto; [apply harmless_async|].
    eapply quiet_same; [apply S, Hp|]. apply Q.
  - intros cx Hp. destruct (decorated_metas _ _ _ (D _ Hp)) as (ms&M&Dm). rewrite (loop_bidi_stream sync l l' ms f M).
    eapply same_trans; [|apply doing_same, S, Hp].
    destruct sync; [apply (metas_body id true (run_by true) (fun _ => True) ms cx lss); auto; apply harmless_sync|].
    destruct Q as [Q|Q]; [discriminate|].
    apply (metas_body id true (run_by false) quiet_closing ms cx lss); auto; [apply harmless_async|].
    eapply quiet_same; [apply S, Hp|]. apply Q.
Qed.
(** A guard, and all it keeps from running. *)
Lemma refused_same sync info i l' ls e (f : smethod A T B) (P : req_ctx -> Prop) : (forall cx, P cx -> refuses i cx ls e) ->
  same_ep true P (endpoint_of info (apply_interceptors f (resolve_interceptors sync (i :: l')))) (endpoint_of info (failing ls e f)).
Proof.
  intros D. destruct f as [f|f|f|f]; cbn [apply_interceptors endpoint_of same_ep failing]; (split; [reflexivity|]).
  - intros a cx Hp. specialize (D _ Hp). rewrite apply_loop_onion. unfold refuses in D. cbn. destruct (ic_meta i) as [m|]; cbn.
    + apply (throws_body no_message true ls e _ _ D).
    + destruct D as ((w&->&D)&_). cbn. apply throws_direct, D.
  - intros cx Hp. specialize (D _ Hp). rewrite apply_loop_onion. unfold refuses in D. cbn. destruct (ic_meta i) as [m|]; cbn.
    + apply (throws_body id true ls e _ _ D).
    + destruct D as (_&(w&->&D)&_). cbn. apply throws_direct, D.
  - intros a cx Hp. specialize (D _ Hp). rewrite apply_loop_onion. unfold refuses in D. cbn. destruct (ic_meta i) as [m|]; cbn.
    + apply (throws_body no_message true ls e _ _ D).
    + destruct D as (_&_&(w&->&D)&_). cbn. apply throws_direct, D.
  - intros cx Hp. specialize (D _ Hp). rewrite apply_loop_onion. unfold refuses in D. cbn. destruct (ic_meta i) as [m|]; cbn.
    + apply (throws_body id true ls e _ _ D).
    + destruct D as (_&_&_&(w&->&D)). cbn. apply throws_direct, D.
Qed.
End Kinds.

(** ** Code that is the same, step by step *)

Fixpoint geq {L X T B R} (g g' : gen L X T B R) : Prop :=
  match g, g' with
  | GRet r, GRet r' => r' = r
  | GRaise f, GRaise f' => f' = f
  | GDo l k, GDo l' k' => l' = l /\ forall x, geq (k x) (k' x)
  | GMark m k, GMark m' k' => m' = m /\ geq k k'
  | GYield b k h, GYield b' k' h' => b' = b /\ geq k k' /\ forall f, geq (h f) (h' f)
  | _, _ => False
  end.
Lemma geq_refl {L X T B R} (g : gen L X T B R) : geq g g.
Proof. induction g; cbn; auto. Qed.
Lemma geq_gcall {L X T B Y R} (g : gen L X T Empty_set Y) (k k' : Y -> gen L X T B R) : (forall y, geq (k y) (k' y)) -> geq (gcall g k) (gcall g k').
Proof. intro H. induction g as [y|f|l c IH|m c IH|[]]; cbn; auto. Qed.
Lemma geq_blocked {L X T B Y R} (g : gen L X T Empty_set Y) (k k' : Y -> gen L X T B R) : never_returns g -> geq (gcall g k) (gcall g k').
Proof. intro H. induction g as [y|f|l c IH|m c IH|[]]; cbn in *; try contradiction; auto. Qed.
Ltac geq_ind g := induction g as [r|f|l k IH|m k IH|b k IHk h IHh]; intros [r'|f'|l' k'|m' k'|b' k' h'] E; cbn in E |- *; try contradiction.
Lemma geq_ending {L X T B R} oe (g : gen L X T B R) : forall g', geq g g' -> geq (ending oe g) (ending oe g').
Proof.
  geq_ind g; subst; try apply geq_refl.
  - destruct E as [-> E]. split; auto.
  - destruct E as [-> E]. split; auto.
  - destruct E as (->&E&E'). split; auto.
Qed.
Lemma geq_closing {L X T B R} (g : gen L X T B R) : forall g', geq g g' -> geq (closing g) (closing g').
Proof.
  geq_ind g; subst; try apply geq_refl; try reflexivity.
  - destruct E as [-> E]. split; auto.
  - destruct E as [-> E]. split; auto.
Qed.
Lemma geq_yield_from {L X T B R} (g : gen L X T B R) : forall g', geq g g' -> geq (yield_from g) (yield_from g').
Proof.
  geq_ind g; subst; try apply geq_refl; try reflexivity.
  - destruct E as [-> E]. split; auto.
  - destruct E as [-> E]. split; auto.
  - destruct E as (->&E&E'). split; [reflexivity|]. split; [auto|]. intros [e| |]; auto. apply geq_closing, E'.
Qed.
Lemma geq_async_for {L X T B R} (g : gen L X T B R) : forall g', geq g g' -> geq (async_for g) (async_for g').
Proof.
  geq_ind g; subst; try apply geq_refl; try reflexivity.
  - destruct E as [-> E]. split; auto.
  - destruct E as [-> E]. split; auto.
  - destruct E as (->&E&E'). split; [reflexivity|]. split; [auto|]. intro; reflexivity.
Qed.
Lemma geq_run_by {L X T B R} sync (g g' : gen L X T B R) : geq g g' -> geq (run_by sync g) (run_by sync g').
Proof. destruct sync; [apply geq_yield_from|apply geq_async_for]. Qed.
Lemma geq_invoke {L X T C B R} (m : meta L X T C) cx (g g' : gen L X T B R) : geq g g' -> geq (invoke m cx g) (invoke m cx g').
Proof. intro E. unfold invoke. cbn. split; [reflexivity|]. apply geq_gcall. intro t. cbn. split; [reflexivity|]. now apply geq_ending. Qed.
Lemma geq_onion {A T Y B R} rn (ms : list (meta seff (option A) T req_ctx)) (f f' : Y -> req_ctx -> sgen A T B R) y cx : (forall g g', geq g g' -> geq (rn g) (rn g')) ->
  geq (f y cx) (f' y cx) -> geq (onion (map (meta_fn rn) ms) f y cx) (onion (map (meta_fn rn) ms) f' y cx).
Proof. intros Hr E. induction ms as [|m ms IH]; [exact E|]. cbn [map onion]. unfold meta_fn at 1 3. apply geq_invoke, Hr, IH. Qed.
Lemma geq_closer {A T B R} (g : sgen A T B R) : forall g', geq g g' -> closer g' = closer g.
Proof.
  geq_ind g; subst; try reflexivity.
  - destruct E as [-> E]. destruct l as [|[op|op]]; [apply IH, E| |]; now rewrite (IH _ _ (E _)).
  - destruct E as [-> E]. auto.
Qed.
Lemma geq_body {P A T B R} (conv : P -> A) (g : sgen A T B R) : forall g', geq g g' -> same_steps true (body_of conv g) (body_of conv g').
Proof.
  geq_ind g; subst; try reflexivity.
  - destruct E as [-> E]. destruct l as [|[op|op]]; cbn; [intros []; auto|auto|auto].
  - destruct E as [-> E]. auto.
  - destruct E as (->&E&E'). split; [reflexivity|]. split; [intros _; apply geq_closer, E'|auto].
Qed.

Lemma metas_of {L X T A Q B C} (l : list (interceptor L X T A Q B C)) : Forall is_meta l -> exists ms, Forall2 (fun i m => ic_meta i = Some m) l ms.
Proof.
  induction 1 as [|i l H _ (ms&IH)]; [exists []; constructor|]. unfold is_meta in H. destruct (ic_meta i) as [m|] eqn:E; [|contradiction].
  exists (m :: ms). constructor; auto.
Qed.
(** What comes after a guard does not matter. *)
Lemma guarded_same {A T B} sync info (l : list (sinterceptor A T B)) i l1 l2 (f f' : smethod A T B) (P : req_ctx -> Prop) :
  Forall is_meta l -> same_kind f f' -> (forall cx, P cx -> blocks i cx) ->
  same_ep true P (endpoint_of info (apply_interceptors f (resolve_interceptors sync (l ++ i :: l1)))) (endpoint_of info (apply_interceptors f' (resolve_interceptors sync (l ++ i :: l2)))).
Proof.
  intros M K D. destruct (metas_of l M) as (ms&Hm).
  destruct f as [f|f|f|f], f' as [f'|f'|f'|f']; try contradiction; cbn [apply_interceptors endpoint_of same_ep]; (split; [reflexivity|]).
  - intros a cx Hp. specialize (D _ Hp). rewrite !(loop_unary sync l _ ms _ Hm). apply geq_body, geq_onion; [auto|]. rewrite !apply_loop_onion.
    unfold blocks in D. cbn. destruct (ic_meta i) as [m|]; cbn; [split; [reflexivity|now apply geq_blocked]|].
    destruct D as ((w&->&D)&_). cbn. rewrite (D _ (onion (offered ic_unary (resolve_interceptors sync l2)) f')). apply geq_refl.
  - intros cx Hp. specialize (D _ Hp). rewrite !(loop_client_stream sync l _ ms _ Hm). apply geq_body, geq_onion; [auto|]. rewrite !apply_loop_onion.
    unfold blocks in D. cbn. destruct (ic_meta i) as [m|]; cbn; [split; [reflexivity|now apply geq_blocked]|].
    destruct D as (_&(w&->&D)&_). cbn. rewrite (D _ (onion (offered ic_client_stream (resolve_interceptors sync l2)) f')). apply geq_refl.
  - intros a cx Hp. specialize (D _ Hp). rewrite !(loop_server_stream sync l _ ms _ Hm). apply geq_body, geq_onion; [apply geq_run_by|]. rewrite !apply_loop_onion.
    unfold blocks in D. cbn. destruct (ic_meta i) as [m|]; cbn; [split; [reflexivity|now apply geq_blocked]|].
    destruct D as (_&_&(w&->&D)&_). cbn. rewrite (D _ (onion (offered ic_server_stream (resolve_interceptors sync l2)) f')). apply geq_refl.
  - intros cx Hp. specialize (D _ Hp). rewrite !(loop_bidi_stream sync l _ ms _ Hm). apply geq_body, geq_onion; [apply geq_run_by|]. rewrite !apply_loop_onion.
    unfold blocks in D. cbn. destruct (ic_meta i) as [m|]; cbn; [split; [reflexivity|now apply geq_blocked]|].
    destruct D as (_&_&_&(w&->&D)). cbn. rewrite (D _ (onion (offered ic_bidi_stream (resolve_interceptors sync l2)) f')). apply geq_refl.
Qed.

Lemma apps_same {A T B} (w : wapp A T B) P (ms ms' : dict (smethod A T B)) :
  Forall2 (fun x y => fst y = fst x /\ same_ep true P (endpoint_of (wa_info w (fst x)) (snd x)) (endpoint_of (wa_info w (fst x)) (snd y))) ms ms' ->
  same_apps true P (with_methods (wa_app w) (wa_info w) ms) (with_methods (wa_app w) (wa_info w) ms').
Proof.
  intro H. split; [repeat split|]. split; [reflexivity|]. cbn. induction H as [|x y ms ms' [E S] _ IH]; [constructor|]. cbn. constructor; [|exact IH].
  cbn. rewrite E. split; [reflexivity|exact S].
Qed.

(** ** Methods as code *)

Lemma closer_doing {A T B R} hs ts f : closer (doing (map (fun op => EOp (OHdr op)) hs ++ map (fun op => EOp (OTrl op)) ts) (GRaise f : sgen A T B R))
  = mk_close hs ts (match f with FClose => None | _ => Some (interrupt_of f) end).
Proof.
  induction hs as [|op hs IH]; cbn; [|now rewrite IH]. induction ts as [|op ts IH]; cbn; [now destruct f|]. now rewrite IH.
Qed.
Lemma body_code {P A T B R} (conv : P -> A) back (g : prog P B R) : (forall p, back (conv p) = Some p) ->
  same_steps true g (body_of conv (code_of (T:=T) back incoming g)).
Proof.
  intro H. induction g as [r|i|k IH|b c g IH|op g IH|op g IH]; cbn.
  - reflexivity.
  - destruct i; reflexivity.
  - intros [p| |e]; [rewrite H; apply IH|apply IH|apply IH].
  - split; [reflexivity|]. split; [|exact IH]. intros _. rewrite closer_doing. destruct c as [hs ts [[e|]|]]; reflexivity.
  - split; [reflexivity|exact IH].
  - split; [reflexivity|exact IH].
Qed.
Lemma method_same {A T B} P (e : endpoint A B) : same_ep true P e (endpoint_of (ep_method e) (method_of (T:=T) e)).
Proof. destruct e as [m f|m f|m f|m f]; cbn; (split; [reflexivity|]); intros; apply body_code; first [reflexivity|intros []]. Qed.

(** ** Calls of clients *)

(** A run, without what happened on the way but messages. *)
Notation settled := observed.
Fixpoint after {S L X} (w : world S L X) (s : S) (ls : list L) : S := match ls with [] => s | l :: ls => after w (snd (w s l)) ls end.
Lemma after_app {S L X} (w : world S L X) ls ls' : forall s, after w s (ls ++ ls') = after w (after w s ls) ls'.
Proof. induction ls as [|l ls IH]; intro s; [reflexivity|]. apply IH. Qed.

Section Runs.
Context {S L X T : Type} (w : world S L X).
Lemma settled_do {B R} s c l (k : X + fault -> gen L X T B R) : settled (run w s c (GDo l k)) = settled (run w (snd (w s l)) c (k (fst (w s l)))).
Proof. cbn. destruct (w s l) as [x s']. cbn. now destruct (run w s' c (k x)) as [[s1 t] o]. Qed.
Lemma settled_mark {B R} s c m (g : gen L X T B R) : settled (run w s c (GMark m g)) = settled (run w s c g).
Proof. cbn. now destruct (run w s c g) as [[s1 t] o]. Qed.
Lemma settled_yield {B R} s c b (k : gen L X T B R) h : settled (run w s (Next :: c) (GYield b k h)) = (let '(s, ys, o) := settled (run w s c k) in (s, b :: ys, o)).
Proof. cbn. now destruct (run w s c k) as [[s1 t] o]. Qed.
Lemma settled_does {B Y R} ls y (g : gen L X T Empty_set Y) (k : Y -> gen L X T B R) : does ls y g -> forall s c,
  settled (run w s c (gcall g k)) = settled (run w (after w s ls) c (k y)).
Proof. induction 1 as [y|l ls y k0 _ IH]; intros s c; [reflexivity|]. cbn [gcall after]. rewrite settled_do. apply IH. Qed.
Lemma settled_throws {B Y R} ls e (g : gen L X T Empty_set Y) (k : Y -> gen L X T B R) : throws ls e g -> forall s c,
  settled (run w s c (gcall g k)) = (after w s ls, [], Raised (FExn e)).
Proof. induction 1 as [y|l ls y k0 _ IH]; intros s c; [reflexivity|]. cbn [gcall after]. rewrite settled_do. apply IH. Qed.
Lemma settled_direct {B R} ls e (g : gen L X T B R) : throws ls e g -> forall s c, settled (run w s c g) = (after w s ls, [], Raised (FExn e)).
Proof. induction 1 as [y|l ls y k0 _ IH]; intros s c; [reflexivity|]. cbn [after]. rewrite settled_do. apply IH. Qed.
Lemma settled_ending {B R} oe (g : gen L X T B R) : (forall e, exists m, oe e = GMark m (GRet tt)) -> forall s n,
  settled (run w s (repeat Next n) (ending oe g)) = settled (run w s (repeat Next n) g).
Proof.
  intro E. induction g as [r|f|l k IH|m k IH|b k IHk h IHh]; intros s n; cbn [ending].
  - destruct (E None) as [m ->]. reflexivity.
  - destruct (E (error_of f)) as [m ->]. reflexivity.
  - rewrite !settled_do. apply IH.
  - rewrite !settled_mark. apply IH.
  - destruct n as [|n]; [reflexivity|]. cbn [repeat]. rewrite !settled_yield. now rewrite IHk.
Qed.
Lemma settled_run_by {B R} sync (g : gen L X T B R) : forall s n, settled (run w s (repeat Next n) (run_by sync g)) = settled (run w s (repeat Next n) g).
Proof.
  unfold run_by. induction g as [r|f|l k IH|m k IH|b k IHk h IHh]; intros s n.
  - now destruct sync.
  - now destruct sync.
  - rewrite settled_do, <- IH. destruct sync; cbn [yield_from async_for]; now rewrite settled_do.
  - rewrite settled_mark, <- IH. destruct sync; cbn [yield_from async_for]; now rewrite settled_mark.
  - destruct sync; cbn [yield_from async_for]; (destruct n as [|n]; [reflexivity|]; cbn [repeat]; rewrite !settled_yield; now rewrite IHk).
Qed.
Lemma settled_invoke {C B R} (m : meta L X T C) cx ls (g : gen L X T B R) s n : decorates m cx ls ->
  settled (run w s (repeat Next n) (invoke m cx g)) = settled (run w (after w s ls) (repeat Next n) g).
Proof.
  intros [[t D] E]. unfold invoke. rewrite settled_mark, (settled_does ls t _ _ D), settled_mark. apply settled_ending.
  intro e. exists (OnEnd (me_id m) t e). now rewrite E.
Qed.
Lemma settled_onion {C Y B R} rn (ms : list (meta L X T C)) cx lss (f : Y -> C -> gen L X T B R) y n :
  (forall g s, settled (run w s (repeat Next n) (rn g)) = settled (run w s (repeat Next n) g)) ->
  Forall2 (fun m ls => decorates m cx ls) ms lss -> forall s,
  settled (run w s (repeat Next n) (onion (map (meta_fn rn) ms) f y cx)) = settled (run w (after w s (List.concat lss)) (repeat Next n) (f y cx)).
Proof.
  intros H D. induction D as [|m ls ms lss Dm _ IH]; intro s; [reflexivity|]. cbn [map onion List.concat]. rewrite after_app. unfold meta_fn at 1.
  rewrite (settled_invoke m cx ls _ _ _ Dm), H. apply IH.
Qed.
(** The last of them is a guard. *)
Lemma settled_guard {A Q B C} sync (i : interceptor L X T A Q B C) l' cx ls e : refuses i cx ls e -> forall n s,
  (forall f a, settled (run w s (repeat Next n) (apply_loop ic_unary (resolve_interceptors sync (i :: l')) f a cx)) = (after w s ls, [], Raised (FExn e)))
  /\ (forall f q, settled (run w s (repeat Next n) (apply_loop ic_client_stream (resolve_interceptors sync (i :: l')) f q cx)) = (after w s ls, [], Raised (FExn e)))
  /\ (forall f a, settled (run w s (repeat Next n) (apply_loop ic_server_stream (resolve_interceptors sync (i :: l')) f a cx)) = (after w s ls, [], Raised (FExn e)))
  /\ (forall f q, settled (run w s (repeat Next n) (apply_loop ic_bidi_stream (resolve_interceptors sync (i :: l')) f q cx)) = (after w s ls, [], Raised (FExn e))).
Proof.
  unfold refuses. intros D n s. repeat split; intros f y; rewrite apply_loop_onion; cbn [resolve_interceptors map]; destruct (ic_meta i) as [m|];
    try (cbn [offered invoker ic_unary ic_client_stream ic_server_stream ic_bidi_stream onion]; unfold invoke; rewrite settled_mark; now apply settled_throws).
  - destruct D as ((v&E&D)&_). cbn [offered]. rewrite E. apply settled_direct, D.
  - destruct D as (_&(v&E&D)&_). cbn [offered]. rewrite E. apply settled_direct, D.
  - destruct D as (_&_&(v&E&D)&_). cbn [offered]. rewrite E. apply settled_direct, D.
  - destruct D as (_&_&_&(v&E&D)). cbn [offered]. rewrite E. apply settled_direct, D.
Qed.
End Runs.

Lemma after_headers {A B} (c : client A B) ck net md ops : forall s,
  after (client_world c ck net md) s (map CHdr ops) = mk_cw (with_headers (cw_ctx s) (h_run (cx_headers (cw_ctx s)) ops)) (cw_sent s).
Proof.
  induction ops as [|op ops IH]; intros [cx sent]; cbn; [now destruct cx|]. rewrite IH. reflexivity.
Qed.
Lemma settled_replay {S L X T B} (w : world S L X) s (ms : list B) e : forall n, (List.length ms <= n)%nat ->
  settled (run w s (repeat Next n) (replay ms e : gen L X T B unit)) = (s, ms, match e with COk _ => Returned tt | CErr x => Raised (FExn x) | CRaw f => Raised f end).
Proof.
  induction ms as [|b ms IH]; intros n H; [destruct e; reflexivity|]. cbn in H. destruct n as [|n]; [lia|]. cbn [repeat replay]. rewrite settled_yield, IH by lia. reflexivity.
Qed.
