(** Lemmas on methods that may run for ever. *)
From Coq Require Import List NArith ZArith Bool String Lia.
From Verif Require Import MBase MPyStr MHeaders MUtf8 MWire MEnvelope MTimeout MProtocol MClient MServer MAsgi MWsgi MStop MEndless SServer SContext SEndless
  LServer LStream.
Import ListNotations.

(** ** Steps of a method against a method that ends *)
Lemma alike_run {A R} n : forall (g : emeth A Empty_set R) g' ps rs r rs', alike n g g' ->
  erun_fn n g ps rs = (Some r, rs') -> run_fn g' ps rs = (r, rs').
Proof.
  induction n as [|n IH]; intros g g' ps rs r rs' Al E; cbn [erun_fn alike] in *; [discriminate|].
  destruct g as [x|i|k|[] c k|op k|op k|k]; try (now apply (IH k g')); destruct g' as [x'|i'|k'|[] c' k'|op' k'|op' k']; try contradiction; cbn [run_fn].
  - subst. now injection E as <- <-.
  - subst. now injection E as <- <-.
  - destruct (pull_next ps) as [x ps']. now apply (IH (k x)).
  - destruct Al as [-> Al]. now apply (IH k).
  - destruct Al as [-> Al]. now apply (IH k).
Qed.

Lemma alike_drive {S A B} n (body : S -> rstate -> B -> S * option interrupt) : forall (g : emeth A B unit) g' ps rs s s' rs' e, alike n g g' ->
  edrive n body g ps rs s = (s', rs', Some e) -> drive body g' ps rs s = (s', rs', e).
Proof.
  induction n as [|n IH]; intros g g' ps rs s s' rs' e Al E; cbn [edrive alike] in *; [discriminate|].
  destruct g as [x|i|k|b c k|op k|op k|k]; try (now apply (IH k g')); destruct g' as [x'|i'|k'|b' c' k'|op' k'|op' k']; try contradiction; cbn [drive].
  - now injection E as <- <- <-.
  - subst. now injection E as <- <- <-.
  - destruct (pull_next ps) as [x ps']. now apply (IH (k x)).
  - destruct Al as (->&->&Al). destruct (body s rs b) as [s1 [i|]]; [now injection E as <- <- <-|]. now apply (IH k).
  - destruct Al as [-> Al]. now apply (IH k).
  - destruct Al as [-> Al]. now apply (IH k).
Qed.

Lemma alike_drive_on {S A B} n (body : S -> rstate -> B -> S * option interrupt) : forall (g : emeth A B unit) g' ps rs s s' rs', alike n g g' ->
  edrive n body g ps rs s = (s', rs', None) -> exists (g2 : prog A B unit) ps2, drive body g' ps rs s = drive body g2 ps2 rs' s'.
Proof.
  induction n as [|n IH]; intros g g' ps rs s s' rs' Al E; cbn [edrive alike] in *; [injection E as <- <-; eauto|].
  destruct g as [x|i|k|b c k|op k|op k|k]; try (now apply (IH k g')); destruct g' as [x'|i'|k'|b' c' k'|op' k'|op' k']; try contradiction; cbn [drive].
  - discriminate.
  - discriminate.
  - destruct (pull_next ps) as [x ps']. now apply (IH (k x)).
  - destruct Al as (->&->&Al). destruct (body s rs b) as [s1 [i|]]; [discriminate|]. now apply (IH k).
  - destruct Al as [-> Al]. now apply (IH k).
  - destruct Al as [-> Al]. now apply (IH k).
Qed.

(** ** More steps *)
Lemma erun_more {A R} n : forall m (g : emeth A Empty_set R) ps rs r rs', (n <= m)%nat ->
  erun_fn n g ps rs = (Some r, rs') -> erun_fn m g ps rs = (Some r, rs').
Proof.
  induction n as [|n IH]; intros m g ps rs r rs' L E; [discriminate|]. destruct m as [|m]; [lia|]. cbn [erun_fn] in *.
  destruct g as [x|i|k|[] c k|op k|op k|k]; auto; try (now apply IH; [lia|]).
  destruct (pull_next ps) as [x ps']. now apply IH; [lia|].
Qed.
Lemma edrive_more {S A B} n (body : S -> rstate -> B -> S * option interrupt) : forall m (g : emeth A B unit) ps rs s s' rs' e, (n <= m)%nat ->
  edrive n body g ps rs s = (s', rs', Some e) -> edrive m body g ps rs s = (s', rs', Some e).
Proof.
  induction n as [|n IH]; intros m g ps rs s s' rs' e L E; [discriminate|]. destruct m as [|m]; [lia|]. cbn [edrive] in *.
  destruct g as [x|i|k|b c k|op k|op k|k]; auto; try (now apply IH; [lia|]).
  - destruct (pull_next ps) as [x ps']. now apply IH; [lia|].
  - destruct (body s rs b) as [s1 [i|]]; auto. now apply IH; [lia|].
Qed.
Lemma edrive_on {S A B} n (body : S -> rstate -> B -> S * option interrupt) : forall m (g : emeth A B unit) ps rs s s' rs', (n <= m)%nat ->
  edrive n body g ps rs s = (s', rs', None) -> exists (g2 : emeth A B unit) ps2, edrive m body g ps rs s = edrive (m - n) body g2 ps2 rs' s'.
Proof.
  induction n as [|n IH]; intros m g ps rs s s' rs' L E; [cbn [edrive] in E; injection E as <- <-; rewrite Nat.sub_0_r; eauto|].
  destruct m as [|m]; [lia|]. rewrite Nat.sub_succ. cbn [edrive] in *.
  destruct g as [x|i|k|b c k|op k|op k|k]; try discriminate; try (now apply IH; [lia|]).
  - destruct (pull_next ps) as [x ps']. now apply IH; [lia|].
  - destruct (body s rs b) as [s1 [i|]]; [discriminate|]. now apply IH; [lia|].
Qed.

(** ** Methods that end *)
Lemma alike_ending {A B R} n : forall (g : prog A B R), alike n (ending_method g) g.
Proof.
  induction n as [|n IH]; intro g; [exact I|]. destruct g as [r|i|k|b c k|op k|op k]; cbn [ending_method alike]; auto.
Qed.
Lemma erun_ending {A R} (g : prog A Empty_set R) : forall ps rs, exists n r rs', forall m, (n <= m)%nat -> erun_fn m (ending_method g) ps rs = (Some r, rs').
Proof.
  induction g as [r|i|k IH|[] c k IH|op k IH|op k IH]; intros ps rs; cbn [ending_method].
  - exists 1%nat, (FRet r), rs. intros [|m] L; [lia|reflexivity].
  - exists 1%nat, (FInt i), rs. intros [|m] L; [lia|reflexivity].
  - destruct (IH (fst (pull_next ps)) (snd (pull_next ps)) rs) as (n&r&rs'&H). exists (S n), r, rs'. intros [|m] L; [lia|].
    cbn [erun_fn]. destruct (pull_next ps) as [x ps']. apply H. lia.
  - destruct (IH ps (mk_rs (h_exec (rs_h rs) op) (rs_t rs))) as (n&r&rs'&H). exists (S n), r, rs'. intros [|m] L; [lia|]. apply H. lia.
  - destruct (IH ps (mk_rs (rs_h rs) (h_exec (rs_t rs) op))) as (n&r&rs'&H). exists (S n), r, rs'. intros [|m] L; [lia|]. apply H. lia.
Qed.
Lemma edrive_ending {S A B} (body : S -> rstate -> B -> S * option interrupt) (g : prog A B unit) : forall ps rs s,
  exists n s' rs' e, forall m, (n <= m)%nat -> edrive m body (ending_method g) ps rs s = (s', rs', Some e).
Proof.
  induction g as [r|i|k IH|b c k IH|op k IH|op k IH]; intros ps rs s; cbn [ending_method].
  - exists 1%nat, s, rs, LDone. intros [|m] L; [lia|reflexivity].
  - exists 1%nat, s, rs, (LFail i). intros [|m] L; [lia|reflexivity].
  - destruct (IH (fst (pull_next ps)) (snd (pull_next ps)) rs s) as (n&s'&rs'&e&H). exists (Datatypes.S n), s', rs', e. intros [|m] L; [lia|].
    cbn [edrive]. destruct (pull_next ps) as [x ps']. apply H. lia.
  - destruct (body s rs b) as [s1 [i|]] eqn:E.
    + exists 1%nat, s1, rs, (LBroken i c). intros [|m] L; [lia|]. cbn [edrive]. now rewrite E.
    + destruct (IH ps rs s1) as (n&s'&rs'&e&H). exists (Datatypes.S n), s', rs', e. intros [|m] L; [lia|]. cbn [edrive]. rewrite E. apply H. lia.
  - destruct (IH ps (mk_rs (h_exec (rs_h rs) op) (rs_t rs)) s) as (n&s'&rs'&e&H). exists (Datatypes.S n), s', rs', e. intros [|m] L; [lia|]. apply H. lia.
  - destruct (IH ps (mk_rs (rs_h rs) (h_exec (rs_t rs) op)) s) as (n&s'&rs'&e&H). exists (Datatypes.S n), s', rs', e. intros [|m] L; [lia|]. apply H. lia.
Qed.

(** A method cut off after [n] steps. *)
Fixpoint cut_off {A B R} (n : nat) (g : emeth A B R) : prog A B R :=
  match n with
  | O => Fail ICancel
  | S n =>
      match g with
      | MRet r => Ret r
      | MFail i => Fail i
      | MPull k => Pull (fun x => cut_off n (k x))
      | MYield b c k => Yield b c (cut_off n k)
      | MHdr op k => Hdr op (cut_off n k)
      | MTrl op k => Trl op (cut_off n k)
      | MTau k => cut_off n k
      end
  end.
Lemma alike_cut {A B R} n : forall g : emeth A B R, alike n g (cut_off n g).
Proof. induction n as [|n IH]; intro g; [exact I|]. destruct g; cbn [cut_off alike]; auto. Qed.
Definition cut_endpoint {A B} (n : nat) (e : eendpoint A B) : endpoint A B :=
  match e with
  | EeUnary m f => EpUnary m (fun a cx => cut_off n (f a cx))
  | EeClientStream m f => EpClientStream m (fun cx => cut_off n (f cx))
  | EeServerStream m f => EpServerStream m (fun a cx => cut_off n (f a cx))
  | EeBidi m f => EpBidi m (fun cx => cut_off n (f cx))
  end.
Definition cut_app {A B} (n : nat) (ea : eapp A B) : app A B :=
  let ap := ea_app ea in
  mk_app (ap_path ap) (map (fun x => (fst x, cut_endpoint n (snd x))) (ea_endpoints ea)) (ap_max ap) (ap_comps ap) (ap_codecs ap) (ap_sc ap).
Lemma alike_cut_app {A B} n (ea : eapp A B) : alike_app n ea (cut_app n ea).
Proof.
  split; [|split]; [repeat split|reflexivity|]. cbn [cut_app ap_endpoints]. induction (ea_endpoints ea) as [|[x e] l IH]; constructor; auto.
  split; [reflexivity|]. cbn [snd]. destruct e; cbn; split; auto; intros; apply alike_cut.
Qed.
Lemma alike_ending_app {A B} n (ap : app A B) : alike_app n (ending_app ap) ap.
Proof.
  split; [|split]; [repeat split|reflexivity|]. cbn [ending_app ea_endpoints]. induction (ap_endpoints ap) as [|[x e] l IH]; constructor; auto.
  split; [reflexivity|]. cbn [snd]. destruct e; cbn; split; auto; intros; apply alike_ending.
Qed.

(** ** Events only grow *)
Definition growing {S E} (ev : S -> list E) {B} (body : S -> rstate -> B -> S * option interrupt) : Prop :=
  forall s rs b, exists l, ev (fst (body s rs b)) = ev s ++ l.
Lemma drive_grows {S E A B} (ev : S -> list E) (body : S -> rstate -> B -> S * option interrupt) : growing ev body ->
  forall (g : prog A B unit) ps rs s, exists l, ev (fst (fst (drive body g ps rs s))) = ev s ++ l.
Proof.
  intros G g. induction g as [r|i|k IH|b c k IH|op k IH|op k IH]; intros ps rs s; cbn [drive]; auto.
  - exists []. cbn. now rewrite app_nil_r.
  - exists []. cbn. now rewrite app_nil_r.
  - destruct (pull_next ps) as [x ps']. apply IH.
  - destruct (G s rs b) as [l E1]. destruct (body s rs b) as [s1 [i|]]; cbn [fst] in *; [eauto|]. destruct (IH ps rs s1) as [l' ->].
    exists (l ++ l'). now rewrite E1, <- app_assoc.
Qed.
Lemma edrive_grows {S E A B} (ev : S -> list E) (body : S -> rstate -> B -> S * option interrupt) : growing ev body ->
  forall n (g : emeth A B unit) ps rs s, exists l, ev (fst (fst (edrive n body g ps rs s))) = ev s ++ l.
Proof.
  intros G n. induction n as [|n IH]; intros g ps rs s; [exists []; cbn; now rewrite app_nil_r|].
  destruct g as [r|i|k|b c k|op k|op k|k]; cbn [edrive]; auto.
  - exists []. cbn. now rewrite app_nil_r.
  - exists []. cbn. now rewrite app_nil_r.
  - destruct (pull_next ps) as [x ps']. apply IH.
  - destruct (G s rs b) as [l E1]. destruct (body s rs b) as [s1 [i|]]; cbn [fst] in *; [eauto|]. destruct (IH k ps rs s1) as [l' ->].
    exists (l ++ l'). now rewrite E1, <- app_assoc.
Qed.

Lemma send_grows o ev s : exists l, as_ev (fst (send o ev s)) = as_ev s ++ l.
Proof. unfold send. destruct (o (as_n s)); cbn; [eauto|exists []; now rewrite app_nil_r|exists []; now rewrite app_nil_r]. Qed.
Lemma asgi_body_grows {B} o seen p name (enc : B -> res bytes) z : growing (fun s => as_ev (ls_a s)) (stream_body o seen p name enc z).
Proof.
  intros s rs b. unfold stream_body. destruct (seen (ls_i s)); [exists []; cbn; now rewrite app_nil_r|].
  assert (H : exists a r l, (if ls_sent s then (ls_a s, inl tt) else send_stream_headers o p name (z_name z) rs (ls_a s)) = (a, r) /\ as_ev a = as_ev (ls_a s) ++ l).
  { destruct (ls_sent s); [eexists _, _, []; split; [reflexivity|now rewrite app_nil_r]|].
    unfold send_stream_headers, io_bind. destruct (encode_pairs _) as [hs|x]; cbn [io_res io_ret io_raise].
    - destruct (send_grows o (EvStart 200 hs (uses_trailers p)) (ls_a s)) as [l H]. destruct (send _ _ _) as [a r]. eauto.
    - eexists _, _, []. split; [reflexivity|now rewrite app_nil_r]. }
  destruct H as (a&r&l&->&H). destruct r as [u|i]; [|cbn; eauto].
  unfold io_bind. destruct (write_message enc (Some z) b) as [body|x]; cbn [io_res io_ret io_raise].
  - destruct (send_grows o (EvBody body true) a) as [l' H']. destruct (send _ _ a) as [a' r']. cbn in *. exists (l ++ l'). now rewrite H', H, <- app_assoc.
  - cbn. eauto.
Qed.

(** ** Requests *)
Lemma alike_method {A B} n (e : eendpoint A B) ep : alike_endpoint n e ep -> ep_method ep = ee_method e /\ is_unary ep = ee_is_unary e.
Proof. destruct e, ep; cbn; try tauto; intros [-> _]; auto. Qed.
Lemma alike_get {A B} n (d : dict (eendpoint A B)) d' : Forall2 (fun x y => fst y = fst x /\ alike_endpoint n (snd x) (snd y)) d d' ->
  forall key, match dget d key with
              | Some e => exists ep, dget d' key = Some ep /\ alike_endpoint n e ep
              | None => dget d' key = None
              end.
Proof.
  intros H key. induction H as [|[x e] [y ep] l l' [Hk He] H IH]; [reflexivity|]. cbn [fst snd] in *. subst y. cbn [dget].
  destruct (str_eqb x key); eauto.
Qed.
Lemma alike_find {A B} n (ea : eapp A B) ap sc : alike_app n ea ap ->
  match efind_endpoint ea sc with
  | Ok e => exists ep, find_endpoint ap sc = Ok ep /\ alike_endpoint n e ep
  | Raise x => find_endpoint ap sc = Raise x
  end.
Proof.
  intros (_&_&H). pose proof (alike_get _ _ _ H) as G. unfold efind_endpoint, find_endpoint. pose proof (G (sc_path sc)) as G1.
  destruct (dget (ea_endpoints ea) (sc_path sc)) as [e|]; [destruct G1 as (ep&->&G1); eauto|]. rewrite G1.
  destruct (sc_root sc) as [[|c r]|]; auto. pose proof (G (removeprefix (c :: r) (sc_path sc))) as G2.
  destruct (dget (ea_endpoints ea) _) as [e|]; [destruct G2 as (ep&->&G2); eauto|]. now rewrite G2.
Qed.
Lemma alike_open {A B} n (ea : eapp A B) ap now sc : alike_app n ea ap ->
  match eopen_request ea now sc with
  | Ok (e, hs, p, cx) => exists ep, open_request ap now sc = Ok (ep, hs, p, cx) /\ alike_endpoint n e ep
  | Raise x => open_request ap now sc = Raise x
  end.
Proof.
  intro H. pose proof (alike_find _ _ _ sc H) as F. unfold eopen_request, open_request.
  destruct (efind_endpoint ea sc) as [e|x]; [destruct F as (ep&->&F)|now rewrite F]. cbn [bind].
  destruct (process_headers h_empty (sc_headers sc)) as [hs|x]; cbn [bind]; [|reflexivity]. cbv zeta.
  destruct (_ && _); [reflexivity|]. destruct (alike_method _ _ _ F) as [-> _].
  destruct (server_create_context _ _ _ _ _ _ _) as [cx|x]; cbn [bind]; eauto.
Qed.
Lemma alike_codec {A B} n (ea : eapp A B) ap sc e ep hs p : alike_app n ea ap -> alike_endpoint n e ep ->
  eselect_codec ea sc e hs p = select_codec ap sc ep hs p.
Proof. intros ((_&_&K&_)&_) F. unfold eselect_codec, select_codec. now rewrite K, (proj2 (alike_method _ _ _ F)). Qed.

Lemma settings_requests {A B} (ap ap' : app A B) : same_settings ap ap' ->
  (forall k z en, request_stream ap' k z en = request_stream ap k z en)
  /\ (forall k hs ev, read_post_request ap' k hs ev = read_post_request ap k hs ev)
  /\ (forall k ps, read_get_request ap' k ps = read_get_request ap k ps).
Proof.
  intros (Sm&Sc&Sk&Ss). repeat split; intros.
  - unfold request_stream. now rewrite Sm.
  - unfold read_post_request, unknown_compression. now rewrite Sc, Sm.
  - unfold read_get_request, unknown_compression. now rewrite Sc.
Qed.

(** ** The stream handler *)
Lemma loop_is_after {A B} o seen mon p name (enc : B -> res bytes) z (g : prog A B unit) ps rs s :
  stream_loop o seen mon p name enc z g ps rs s = loop_after mon (drive (stream_body o seen p name enc z) g ps rs s).
Proof. reflexivity. Qed.

Lemma loop_after_state mon s rs e : fst (fst (loop_after mon (s, rs, e))) = s.
Proof. unfold loop_after. destruct mon; [reflexivity|]. now destruct e. Qed.

Lemma alike_try {A B} n (ap ap' : app A B) en p e ep k req z cx s inv : same_settings ap ap' -> alike_endpoint n e ep ->
  (forall x, estream_try n ap en p e k req z cx s = (inv, inl x) -> stream_try ap' en p ep k req z cx s = (inv, x))
  /\ (forall s1, estream_try n ap en p e k req z cx s = (inv, inr s1) -> exists s2 rs2 i l,
       stream_try ap' en p ep k req z cx s = (inv, (s2, rs2, i)) /\ as_ev (ls_a s2) = as_ev (ls_a s1) ++ l).
Proof.
  intros Sg Al. destruct (settings_requests _ _ Sg) as (R&_&_). unfold estream_try, stream_try.
  destruct req as [rz|]; [|split; intros x E; [now injection E as <- <-|discriminate]]. cbv zeta. rewrite R.
  assert (Single : forall (b : B) rs s0, let r := loop_after None (drive (stream_body (en_send en) (fun _ : nat => false) p (k_name k) (k_enc_res k) z) (@single_response A B b) ([], None) rs s0) in
                     exists l, as_ev (ls_a (fst (fst r))) = as_ev (ls_a s0) ++ l).
  { intros b rs s0. cbv zeta. destruct (drive _ _ _ _ s0) as [[s2 rs2] le] eqn:D.
    rewrite loop_after_state. destruct (drive_grows (fun s => as_ev (ls_a s)) _ (asgi_body_grows (en_send en) (fun _ => false) p (k_name k) (k_enc_res k) z) (@single_response A B b) ([], None) rs s0) as [l H].
    rewrite D in H. eauto. }
  assert (Fin : forall seen mon C (g : emeth C B unit) g' ps r, alike n g g' ->
    edrive n (stream_body (en_send en) seen p (k_name k) (k_enc_res k) z) g ps rs_new s = r ->
    match r with
    | (s1, _, None) => exists s2 rs2 i l, loop_after mon (drive (stream_body (en_send en) seen p (k_name k) (k_enc_res k) z) g' ps rs_new s) = (s2, rs2, i) /\ as_ev (ls_a s2) = as_ev (ls_a s1) ++ l
    | (s1, rs1, Some le) => loop_after mon (drive (stream_body (en_send en) seen p (k_name k) (k_enc_res k) z) g' ps rs_new s) = loop_after mon (s1, rs1, le)
    end).
  { intros seen mon C g g' ps [[s1 rs1] [le|]] Ag E.
    - now rewrite (alike_drive _ _ _ _ _ _ _ _ _ _ Ag E).
    - destruct (alike_drive_on _ _ _ _ _ _ _ _ _ Ag E) as (g2&ps2&->).
      destruct (drive_grows (fun s => as_ev (ls_a s)) _ (asgi_body_grows (en_send en) seen p (k_name k) (k_enc_res k) z) g2 ps2 rs1 s1) as [l H].
      destruct (drive _ g2 ps2 rs1 s1) as [[s2 rs2] le]. cbn [fst] in H. pose proof (loop_after_state mon s2 rs2 le) as Q.
      destruct (loop_after mon (s2, rs2, le)) as [[s3 rs3] i]. cbn in Q. subst s3. eauto 6. }
  destruct e as [m f|m f|m f|m f], ep as [m' f'|m' f'|m' f'|m' f']; cbn [alike_endpoint] in Al; try contradiction; destruct Al as [-> Al].
  - destruct (consume_single_request _) as [a|x]; [|split; intros x0 E; [now injection E as <- <-|discriminate]].
    destruct (erun_fn n (f a cx) ([], None) rs_new) as [[r|] rs1] eqn:E1.
    + rewrite (alike_run _ _ _ _ _ _ _ (Al a cx) E1). split; intros x E; [|destruct r; discriminate]. destruct r; rewrite ?loop_is_after; now injection E as <- <-.
    + split; intros x E; [discriminate|]. injection E as <- <-. destruct (run_fn (f' a cx) ([], None) rs_new) as [[b|i] rs2].
      * rewrite loop_is_after. destruct (Single b rs2 s) as [l H]. cbv zeta in H. destruct (loop_after _ _) as [[s2 rs3] i]. cbn in H. eauto 7.
      * eexists _, _, _, []. split; [reflexivity|now rewrite app_nil_r].
  - destruct (erun_fn n (f cx) _ rs_new) as [[r|] rs1] eqn:E1.
    + rewrite (alike_run _ _ _ _ _ _ _ (Al cx) E1). split; intros x E; [|destruct r; discriminate]. destruct r; rewrite ?loop_is_after; now injection E as <- <-.
    + split; intros x E; [discriminate|]. injection E as <- <-. destruct (run_fn (f' cx) _ rs_new) as [[b|i] rs2].
      * rewrite loop_is_after. destruct (Single b rs2 s) as [l H]. cbv zeta in H. destruct (loop_after _ _) as [[s2 rs3] i]. cbn in H. eauto 7.
      * eexists _, _, _, []. split; [reflexivity|now rewrite app_nil_r].
  - destruct (consume_single_request _) as [a|x]; [|split; intros x0 E; [now injection E as <- <-|discriminate]].
    match goal with |- context[edrive n (stream_body _ ?seen _ _ _ _) _ _ _ _] => set (sn := seen) end.
    rewrite loop_is_after. match goal with |- context[loop_after ?mon (drive _ _ _ _ _)] => set (mo := mon) end.
    destruct (edrive n _ (f a cx) ([], None) rs_new s) as [[s1 rs1] [le|]] eqn:E1.
    + pose proof (Fin sn mo _ _ _ _ _ (Al a cx) E1) as F. cbv beta iota in F. rewrite F. split; intros x E; [now injection E as <- <-|discriminate].
    + pose proof (Fin sn mo _ _ _ _ _ (Al a cx) E1) as (s2&rs2&i&l&->&H). split; intros x E; [discriminate|]. injection E as <- <-. eauto 7.
  - rewrite loop_is_after. match goal with |- context[edrive n (stream_body _ ?seen _ _ _ _) _ _ _ _] => set (sn := seen) end.
    destruct (edrive n _ (f cx) _ rs_new s) as [[s1 rs1] [le|]] eqn:E1.
    + pose proof (Fin sn None _ _ _ _ _ (Al cx) E1) as F. cbv beta iota in F. rewrite F. split; intros x E; [now injection E as <- <-|discriminate].
    + pose proof (Fin sn None _ _ _ _ _ (Al cx) E1) as (s2&rs2&i&l&->&H). split; intros x E; [discriminate|]. injection E as <- <-. eauto 7.
Qed.

Lemma alike_stream {A B} n (ap ap' : app A B) en p e ep k hs cx : same_settings ap ap' -> alike_endpoint n e ep ->
  match ehandle_stream n ap en p e k hs cx with
  | Finished r => handle_stream ap' en p ep k hs cx = r
  | Running inv ev => let r := handle_stream ap' en p ep k hs cx in ar_inv r = inv /\ exists l, ar_events r = ev ++ l
  end.
Proof.
  intros Sg Al. unfold ehandle_stream, handle_stream. destruct Sg as (Sm&Sc&Sk&Ss). rewrite Sc, Ss.
  destruct (negotiate_stream_compression p hs (ap_comps ap)) as [req z].
  assert (Sg : same_settings ap ap') by (repeat split; assumption).
  destruct (estream_try n ap en p e k req z cx _) as [inv [[[s rs] i]|s1]] eqn:E.
  - rewrite (proj1 (alike_try _ _ _ _ _ _ _ _ _ _ _ _ inv Sg Al) _ E). destruct (stream_finally _ _ _ _ _ _ _ _ _) as [a r]. reflexivity.
  - destruct (proj2 (alike_try _ _ _ _ _ _ _ _ _ _ _ _ inv Sg Al) _ E) as (s2&rs2&i&l&->&H). cbv zeta.
    destruct (stream_finally _ _ _ _ _ s2 rs2 i (ls_a s2)) as [a r] eqn:F. cbn [ar_inv ar_events]. split; [reflexivity|].
    destruct (finally_messages _ _ _ _ _ _ _ _ _ _ F) as (tail&->&_). exists (l ++ tail). now rewrite H, <- app_assoc.
Qed.

Lemma alike_call {A B} n (ea : eapp A B) ap now sc en : alike_app n ea ap ->
  match asgi_after n ea now sc en with
  | Finished r => asgi_call ap now sc en = r
  | Running inv ev => ar_inv (asgi_call ap now sc en) = inv /\ exists l, ar_events (asgi_call ap now sc en) = ev ++ l
  end.
Proof.
  intro H. pose proof (alike_open _ _ _ now sc H) as O. unfold asgi_after, asgi_call. cbv zeta.
  destruct (eopen_request ea now sc) as [[[[e hs] p] cx]|x]; [destruct O as (ep&->&Al)|now rewrite O].
  rewrite <- (alike_codec n ea ap sc e ep hs p H Al). destruct (eselect_codec ea sc e hs p) as [[params k]|x]; [|reflexivity].
  assert (Sg : same_settings (ea_app ea) ap) by apply H.
  pose proof (alike_stream n (ea_app ea) ap en p e ep k hs cx Sg Al) as St.
  destruct e as [m f|m f|m f|m f], ep as [m' f'|m' f'|m' f'|m' f']; cbn [alike_endpoint] in Al; try contradiction; try exact St.
  destruct p; try exact St. clear St. destruct Al as [-> Al]. destruct (settings_requests _ _ Sg) as (_&Rp&Rg). destruct Sg as (Sm&Sc&Sk&Ss).
  unfold ehandle_unary, handle_unary_connect. cbv zeta. rewrite Sc, Rp, Rg.
  destruct (if str_eqb (sc_method sc) (lit "GET") then _ else _) as [a|i]; [|destruct i; reflexivity].
  destruct (erun_fn n (f a cx) ([], None) rs_new) as [[r|] rs1] eqn:E1.
  - rewrite (alike_run _ _ _ _ _ _ _ (Al a cx) E1). destruct r as [b|i]; [|destruct i; reflexivity].
    destruct (send_unary_response _ _ _ _ _ _) as [s [u|i]]; [reflexivity|]. destruct i; reflexivity.
  - destruct (run_fn (f' a cx) ([], None) rs_new) as [[b|i] rs2].
    + destruct (send_unary_response _ _ _ _ _ _) as [s [u|i]]; [cbn; split; [reflexivity|now exists (as_ev s)]|].
      destruct i as [x|]; [|cbn; split; [reflexivity|now exists (as_ev s)]]. unfold call_error. destruct (handle_error _ _ _ _) as [s' r]. cbn. split; [reflexivity|now exists (as_ev s')].
    + destruct i as [x|]; [|cbn; split; [reflexivity|now exists []]]. unfold call_error. destruct (handle_error _ _ _ _) as [s' r]. cbn. split; [reflexivity|now exists (as_ev s')].
Qed.

(** ** More steps of a request *)
Lemma more_try {A B} n m (ap : app A B) en p e k req z cx s inv : (n <= m)%nat ->
  (forall x, estream_try n ap en p e k req z cx s = (inv, inl x) -> estream_try m ap en p e k req z cx s = (inv, inl x))
  /\ (forall s1, estream_try n ap en p e k req z cx s = (inv, inr s1) -> exists x l,
       estream_try m ap en p e k req z cx s = (inv, x)
       /\ as_ev (ls_a (match x with inl (s2, _, _) => s2 | inr s2 => s2 end)) = as_ev (ls_a s1) ++ l).
Proof.
  intro L. unfold estream_try. destruct req as [rz|]; [|split; intros x E; [exact E|discriminate]]. cbv zeta.
  assert (Single : forall (b : B) rs s0, let r := loop_after None (drive (stream_body (en_send en) (fun _ : nat => false) p (k_name k) (k_enc_res k) z) (@single_response A B b) ([], None) rs s0) in
                     exists l, as_ev (ls_a (fst (fst r))) = as_ev (ls_a s0) ++ l).
  { intros b rs s0. cbv zeta. destruct (drive _ _ _ _ s0) as [[s2 rs2] le] eqn:D.
    rewrite loop_after_state. destruct (drive_grows (fun s => as_ev (ls_a s)) _ (asgi_body_grows (en_send en) (fun _ => false) p (k_name k) (k_enc_res k) z) (@single_response A B b) ([], None) rs s0) as [l H].
    rewrite D in H. eauto. }
  assert (Single' : forall C (g : emeth C Empty_set B) ps rs1, exists x l,
     match fst (erun_fn m g ps rs1) with
     | None => inr s
     | Some (FInt i) => inl (s, snd (erun_fn m g ps rs1), Some i)
     | Some (FRet b) => inl (loop_after None (drive (stream_body (en_send en) (fun _ : nat => false) p (k_name k) (k_enc_res k) z) (@single_response A B b) ([], None) (snd (erun_fn m g ps rs1)) s))
     end = x /\ as_ev (ls_a (match x with inl (s2, _, _) => s2 | inr s2 => s2 end)) = as_ev (ls_a s) ++ l).
  { intros C g ps rs1. destruct (erun_fn m g ps rs1) as [[[b|i]|] rs2]; cbn [fst snd].
    - destruct (Single b rs2 s) as [l H]. cbv zeta in H. destruct (loop_after _ _) as [[s2 rs3] i]. cbn in H. do 2 eexists. split; [reflexivity|]. exact H.
    - eexists _, []. split; [reflexivity|now rewrite app_nil_r].
    - eexists _, []. split; [reflexivity|now rewrite app_nil_r]. }
  assert (Fin : forall seen mon C (g : emeth C B unit) ps,
    match edrive n (stream_body (en_send en) seen p (k_name k) (k_enc_res k) z) g ps rs_new s with
    | (s1, _, None) => exists x l,
         match edrive m (stream_body (en_send en) seen p (k_name k) (k_enc_res k) z) g ps rs_new s with
         | (s, _, None) => inr s
         | (s, rs, Some e) => inl (loop_after mon (s, rs, e))
         end = x /\ as_ev (ls_a (match x with inl (s2, _, _) => s2 | inr s2 => s2 end)) = as_ev (ls_a s1) ++ l
    | (s1, rs1, Some le) => edrive m (stream_body (en_send en) seen p (k_name k) (k_enc_res k) z) g ps rs_new s = (s1, rs1, Some le)
    end).
  { intros seen mon C g ps. destruct (edrive n _ g ps rs_new s) as [[s1 rs1] [le|]] eqn:E.
    - exact (edrive_more _ _ _ _ _ _ _ _ _ _ L E).
    - destruct (edrive_on _ _ _ _ _ _ _ _ _ L E) as (g2&ps2&->).
      destruct (edrive_grows (fun s => as_ev (ls_a s)) _ (asgi_body_grows (en_send en) seen p (k_name k) (k_enc_res k) z) (m - n) g2 ps2 rs1 s1) as [l H].
      destruct (edrive (m - n) _ g2 ps2 rs1 s1) as [[s2 rs2] [le|]]; cbn [fst] in H; do 2 eexists; (split; [reflexivity|]); [|exact H].
      pose proof (loop_after_state mon s2 rs2 le) as Q. destruct (loop_after mon (s2, rs2, le)) as [[s3 rs3] i]. cbn in Q. subst s3. exact H. }
  destruct e as [i f|i f|i f|i f].
  - destruct (consume_single_request _) as [a|x]; [|split; intros x0 E; [exact E|discriminate]].
    destruct (erun_fn n (f a cx) ([], None) rs_new) as [[r|] rs1] eqn:E1.
    + rewrite (erun_more _ _ _ _ _ _ _ L E1). split; intros x E; [exact E|]. destruct r; discriminate.
    + split; intros x E; [discriminate|]. injection E as <- <-. destruct (Single' _ (f a cx) ([], None) rs_new) as (x&l&H&H'). exists x, l.
      destruct (erun_fn m (f a cx) ([], None) rs_new) as [r rs2]. cbn [fst snd] in H. now rewrite H.
  - destruct (erun_fn n (f cx) _ rs_new) as [[r|] rs1] eqn:E1.
    + rewrite (erun_more _ _ _ _ _ _ _ L E1). split; intros x E; [exact E|]. destruct r; discriminate.
    + split; intros x E; [discriminate|]. injection E as <- <-. destruct (Single' _ (f cx) (request_stream ap k rz en) rs_new) as (x&l&H&H'). exists x, l.
      destruct (erun_fn m (f cx) _ rs_new) as [r rs2]. cbn [fst snd] in H. now rewrite H.
  - destruct (consume_single_request _) as [a|x]; [|split; intros x0 E; [exact E|discriminate]].
    match goal with |- context[edrive n (stream_body _ ?seen _ _ _ _) _ _ _ _] => set (sn := seen) end.
    match goal with |- context[loop_after ?mon _] => set (mo := mon) end.
    pose proof (Fin sn mo _ (f a cx) ([], None)) as F. destruct (edrive n _ (f a cx) ([], None) rs_new s) as [[s1 rs1] [le|]].
    + rewrite F. split; intros x E; [exact E|discriminate].
    + destruct F as (x&l&->&H). split; intros x0 E; [discriminate|]. injection E as <- <-. eauto.
  - match goal with |- context[edrive n (stream_body _ ?seen _ _ _ _) _ _ _ _] => set (sn := seen) end.
    pose proof (Fin sn None _ (f cx) (request_stream ap k rz en)) as F. destruct (edrive n _ (f cx) _ rs_new s) as [[s1 rs1] [le|]].
    + rewrite F. split; intros x E; [exact E|discriminate].
    + destruct F as (x&l&->&H). split; intros x0 E; [discriminate|]. injection E as <- <-. eauto.
Qed.

Lemma more_call {A B} n m (ea : eapp A B) now sc en : (n <= m)%nat ->
  match asgi_after n ea now sc en with
  | Finished r => asgi_after m ea now sc en = Finished r
  | Running inv ev => asgi_invoked (asgi_after m ea now sc en) = inv /\ exists l, asgi_events (asgi_after m ea now sc en) = ev ++ l
  end.
Proof.
  intro L. unfold asgi_after. cbv zeta. destruct (eopen_request ea now sc) as [[[[e hs] p] cx]|x]; [|reflexivity].
  destruct (eselect_codec ea sc e hs p) as [[params k]|x]; [|reflexivity].
  assert (St : match ehandle_stream n (ea_app ea) en p e k hs cx with
               | Finished r => ehandle_stream m (ea_app ea) en p e k hs cx = Finished r
               | Running inv ev => asgi_invoked (ehandle_stream m (ea_app ea) en p e k hs cx) = inv
                                   /\ exists l, asgi_events (ehandle_stream m (ea_app ea) en p e k hs cx) = ev ++ l
               end).
  { unfold ehandle_stream. destruct (negotiate_stream_compression p hs (ap_comps (ea_app ea))) as [req z].
    destruct (estream_try n (ea_app ea) en p e k req z cx _) as [inv [[[s rs] i]|s1]] eqn:E.
    - rewrite (proj1 (more_try _ _ _ _ _ _ _ _ _ _ _ inv L) _ E). destruct (stream_finally _ _ _ _ _ _ _ _ _) as [a r]. reflexivity.
    - destruct (proj2 (more_try _ _ _ _ _ _ _ _ _ _ _ inv L) _ E) as (x&l&->&H). destruct x as [[[s2 rs2] i]|s2].
      + destruct (stream_finally _ _ _ _ _ s2 rs2 i (ls_a s2)) as [a r] eqn:F. cbn [asgi_invoked asgi_events ar_inv ar_events]. split; [reflexivity|].
        destruct (finally_messages _ _ _ _ _ _ _ _ _ _ F) as (tail&->&_). exists (l ++ tail). now rewrite H, <- app_assoc.
      + cbn [asgi_invoked asgi_events]. eauto. }
  destruct e as [i f|i f|i f|i f]; try exact St. destruct p; try exact St. clear St. unfold ehandle_unary. cbv zeta.
  destruct (if str_eqb (sc_method sc) (lit "GET") then _ else _) as [a|i0]; [|reflexivity].
  destruct (erun_fn n (f a cx) ([], None) rs_new) as [[r|] rs1] eqn:E1.
  - rewrite (erun_more _ _ _ _ _ _ _ L E1). destruct r; reflexivity.
  - assert (I1 : forall (inv : list (invoked A)) (x : ast * (unit + interrupt)) rs,
      ar_inv (match x with (s, inl _) => mk_ar inv (as_ev s) AReturn | (s, inr ICancel) => mk_ar inv (as_ev s) ACancelled
              | (s, inr (IExn e)) => call_error en inv s e (Some rs) end) = inv).
    { intros inv [s [u|[x|]]] rs; try reflexivity. unfold call_error. now destruct (handle_error _ _ _ _). }
    destruct (erun_fn m (f a cx) ([], None) rs_new) as [[[b|i0]|] rs2]; cbn [asgi_invoked asgi_events].
    + split; [apply I1|]. eexists. reflexivity.
    + split; [apply (I1 _ (mk_ast 0 [], inr i0))|]. eexists. reflexivity.
    + split; [reflexivity|]. now exists [].
Qed.

(** ** Requests that come to an end *)
Definition tries_end {A B} (ap : app A B) en p (e : eendpoint A B) k req z cx s : Prop :=
  exists n inv x, estream_try n ap en p e k req z cx s = (inv, inl x).
Lemma end_call {A B} (ea : eapp A B) now sc en e hs p cx params k : eopen_request ea now sc = Ok (e, hs, p, cx) ->
  eselect_codec ea sc e hs p = Ok (params, k) -> ee_is_unary e = false ->
  (forall req z, tries_end (ea_app ea) en p e k req z cx (mk_lst (mk_ast 0 []) false 0)) -> exists n r, asgi_after n ea now sc en = Finished r.
Proof.
  intros O K U T. destruct (negotiate_stream_compression p hs (ap_comps (ea_app ea))) as [req z] eqn:N. destruct (T req z) as (n&inv&[[s rs] i]&E).
  exists n. unfold asgi_after. cbv zeta. rewrite O, K. unfold ehandle_stream. rewrite N, E.
  destruct (stream_finally _ _ _ _ _ _ _ _ _) as [a r]. destruct e; try discriminate; eauto.
Qed.

Lemma seen_ends {A B} o j p name (enc : B -> res bytes) z n (g : emeth A B unit) ps : comes_to n g ps ->
  forall rs s, (ls_i s <= j)%nat -> (j < n + ls_i s)%nat ->
  exists m s' rs' e, edrive m (stream_body o (fun i => Nat.leb j i) p name enc z) g ps rs s = (s', rs', Some e).
Proof.
  induction 1 as [g ps|n r ps|n i ps|n k ps H IH|n b c k ps H IH|n op k ps H IH|n op k ps H IH|n k ps H IH]; intros rs s L M.
  - lia.
  - exists 1%nat. cbn. eauto.
  - exists 1%nat. cbn. eauto.
  - destruct (IH rs s L M) as (m&s'&rs'&e&E). exists (S m). cbn [edrive]. destruct (pull_next ps) as [x ps']. eauto.
  - destruct (stream_body o (fun i => Nat.leb j i) p name enc z s rs b) as [s1 [i|]] eqn:E.
    + exists 1%nat. cbn [edrive]. rewrite E. eauto.
    + assert (Hi : ls_i s1 = S (ls_i s) /\ (ls_i s < j)%nat).
      { unfold stream_body in E. destruct (Nat.leb_spec j (ls_i s)); [discriminate|]. split; [|lia].
        destruct (if ls_sent s then _ else _) as [a [u|i]]; [|discriminate]. destruct (io_bind _ _ a) as [a' [u'|i]]; [|discriminate]. now injection E as <-. }
      destruct (IH rs s1 ltac:(lia) ltac:(lia)) as (m&s'&rs'&e&E'). exists (S m). cbn [edrive]. rewrite E. eauto.
  - destruct (IH (mk_rs (h_exec (rs_h rs) op) (rs_t rs)) s L M) as (m&s'&rs'&e&E). exists (S m). cbn [edrive]. eauto.
  - destruct (IH (mk_rs (rs_h rs) (h_exec (rs_t rs) op)) s L M) as (m&s'&rs'&e&E). exists (S m). cbn [edrive]. eauto.
  - destruct (IH rs s L M) as (m&s'&rs'&e&E). exists (S m). cbn [edrive]. eauto.
Qed.

Lemma send_count o ev s s' : send o ev s = (s', inl tt) -> as_n s' = S (as_n s) /\ o (as_n s) = SOk.
Proof. unfold send. destruct (o (as_n s)); intros [= <-]; auto. Qed.
Lemma unsent_ends {A B} o seen j p name (enc : B -> res bytes) z n (g : emeth A B unit) ps : o j <> SOk -> comes_to n g ps ->
  forall rs s, (as_n (ls_a s) <= j)%nat -> (j < n + as_n (ls_a s))%nat ->
  exists m s' rs' e, edrive m (stream_body o seen p name enc z) g ps rs s = (s', rs', Some e).
Proof.
  intro Hj. induction 1 as [g ps|n r ps|n i ps|n k ps H IH|n b c k ps H IH|n op k ps H IH|n op k ps H IH|n k ps H IH]; intros rs s L M.
  - lia.
  - exists 1%nat. cbn. eauto.
  - exists 1%nat. cbn. eauto.
  - destruct (IH rs s L M) as (m&s'&rs'&e&E). exists (S m). cbn [edrive]. destruct (pull_next ps) as [x ps']. eauto.
  - destruct (stream_body o seen p name enc z s rs b) as [s1 [i|]] eqn:E.
    + exists 1%nat. cbn [edrive]. rewrite E. eauto.
    + assert (Hi : (as_n (ls_a s) < as_n (ls_a s1) <= j)%nat).
      { unfold stream_body in E. destruct (seen (ls_i s)); [discriminate|].
        destruct (if ls_sent s then _ else _) as [a [u|i]] eqn:E1; [|discriminate].
        assert (Ha : (as_n (ls_a s) <= as_n a <= j)%nat).
        { destruct (ls_sent s); [injection E1 as <- _; lia|]. unfold send_stream_headers, io_bind in E1.
          destruct (io_res _ (ls_a s)) as [a1 [h|]] eqn:E2; [|discriminate]. destruct u. apply send_count in E1 as [E1 E3].
          assert (a1 = ls_a s) as -> by (unfold io_res, io_ret, io_raise in E2; destruct (encode_pairs _); congruence). assert (as_n (ls_a s) <> j) by congruence. lia. }
        destruct (io_bind _ _ a) as [a' [u'|i]] eqn:E4; [|discriminate]. injection E as <-. cbn [ls_a]. unfold io_bind in E4.
        destruct (io_res _ a) as [a1 [h|]] eqn:E2; [|discriminate]. destruct u'. apply send_count in E4 as [E4 E3].
        assert (a1 = a) as -> by (unfold io_res, io_ret, io_raise in E2; destruct (write_message _ _ _); congruence). assert (as_n a <> j) by congruence. lia. }
      destruct (IH rs s1 ltac:(lia) ltac:(lia)) as (m&s'&rs'&e&E'). exists (S m). cbn [edrive]. rewrite E. eauto.
  - destruct (IH (mk_rs (h_exec (rs_h rs) op) (rs_t rs)) s L M) as (m&s'&rs'&e&E). exists (S m). cbn [edrive]. eauto.
  - destruct (IH (mk_rs (rs_h rs) (h_exec (rs_t rs) op)) s L M) as (m&s'&rs'&e&E). exists (S m). cbn [edrive]. eauto.
  - destruct (IH rs s L M) as (m&s'&rs'&e&E). exists (S m). cbn [edrive]. eauto.
Qed.

(** ** Messages on their way *)
Lemma served_sent {A B} o seen p name (enc : B -> res bytes) z (g : emeth A B unit) ps rs steps : begins_with g ps rs steps -> sends_ok o ->
  forall frs, written enc z steps frs -> forall a i, (forall j, (i <= j < i + List.length steps)%nat -> seen j = false) ->
  exists n a' i' rs', edrive n (stream_body o seen p name enc z) g ps rs (mk_lst a true i) = (mk_lst a' true i', rs', None)
    /\ as_ev a' = as_ev a ++ map (fun b => EvBody b true) frs.
Proof.
  intros H Ho. induction H as [g ps rs|k ps rs l H IH|b c k ps rs l H IH|op k ps rs l H IH|op k ps rs l H IH|k ps rs l H IH]; intros frs Hw a i Hs.
  - inversion Hw; subst. exists 0%nat, a, i, rs. split; [reflexivity|]. cbn. now rewrite app_nil_r.
  - destruct (IH frs Hw a i Hs) as (n&a'&i'&rs'&E&Ha). exists (S n), a', i', rs'. split; [|exact Ha]. cbn [edrive]. now destruct (pull_next ps).
  - inversion Hw as [|? fr ? frs' Hfr Hrest]; subst. cbn [snd] in Hfr.
    assert (E : stream_body o seen p name enc z (mk_lst a true i) rs b
                = (mk_lst (mk_ast (S (as_n a)) (as_ev a ++ [EvBody fr true])) true (S i), None)).
    { unfold stream_body. cbn [ls_i ls_a ls_sent]. rewrite Hs by (cbn; lia).
      rewrite (io_bind_ok _ _ _ _ _ (io_res_ok _ _ a Hfr)). unfold send. now rewrite Ho. }
    destruct (IH frs' Hrest (mk_ast (S (as_n a)) (as_ev a ++ [EvBody fr true])) (S i)) as (n&a'&i'&rs'&E'&Ha).
    { intros j Hj. apply Hs. cbn. lia. }
    exists (S n), a', i', rs'. cbn [edrive]. rewrite E, E'. split; [reflexivity|]. rewrite Ha. cbn [as_ev map]. now rewrite <- app_assoc.
  - destruct (IH frs Hw a i Hs) as (n&a'&i'&rs'&E&Ha). exists (S n), a', i', rs'. auto.
  - destruct (IH frs Hw a i Hs) as (n&a'&i'&rs'&E&Ha). exists (S n), a', i', rs'. auto.
  - destruct (IH frs Hw a i Hs) as (n&a'&i'&rs'&E&Ha). exists (S n), a', i', rs'. auto.
Qed.
Lemma served {A B} o seen p name (enc : B -> res bytes) z (g : emeth A B unit) ps rs st steps : begins_with g ps rs (st :: steps) -> sends_ok o ->
  forall frs, written enc z (st :: steps) frs -> forall head, encode_pairs (stream_headers p name (z_name z) (fst st)) = Ok head ->
  (forall j, (j < List.length (st :: steps))%nat -> seen j = false) ->
  exists n s' rs', edrive n (stream_body o seen p name enc z) g ps rs (mk_lst (mk_ast 0 []) false 0) = (s', rs', None)
    /\ as_ev (ls_a s') = EvStart 200 head (uses_trailers p) :: map (fun b => EvBody b true) frs.
Proof.
  intros H Ho. remember (st :: steps) as l eqn:El. revert El.
  induction H as [g ps rs|k ps rs l H IH|b c k ps rs l H IH|op k ps rs l H IH|op k ps rs l H IH|k ps rs l H IH]; intros El frs Hw head Hh Hs.
  - discriminate.
  - destruct (IH El frs Hw head Hh Hs) as (n&s'&rs'&E&Ha). exists (S n), s', rs'. split; [|exact Ha]. cbn [edrive]. now destruct (pull_next ps).
  - injection El as <- ->. inversion Hw as [|? fr ? frs' Hfr Hrest]; subst. cbn [snd fst] in Hfr, Hh.
    assert (E : stream_body o seen p name enc z (mk_lst (mk_ast 0 []) false 0) rs b
                = (mk_lst (mk_ast 2 [EvStart 200 head (uses_trailers p); EvBody fr true]) true 1, None)).
    { unfold stream_body. cbn [ls_i ls_a ls_sent]. rewrite Hs by (cbn; lia).
      unfold send_stream_headers. rewrite (io_bind_ok _ _ _ _ _ (io_res_ok _ _ (mk_ast 0 []) Hh)). unfold send at 1. rewrite Ho.
      rewrite (io_bind_ok _ _ _ _ _ (io_res_ok _ _ _ Hfr)). unfold send. now rewrite Ho. }
    destruct (served_sent o seen p name enc z k ps rs steps H Ho frs' Hrest (mk_ast 2 [EvStart 200 head (uses_trailers p); EvBody fr true]) 1) as (n&a'&i'&rs'&E'&Ha).
    { intros j Hj. apply Hs. cbn. lia. }
    exists (S n). cbn [edrive]. rewrite E, E'. do 2 eexists. split; [reflexivity|]. cbn [ls_a]. rewrite Ha. reflexivity.
  - destruct (IH El frs Hw head Hh Hs) as (n&s'&rs'&E&Ha). exists (S n), s', rs'. auto.
  - destruct (IH El frs Hw head Hh Hs) as (n&s'&rs'&E&Ha). exists (S n), s', rs'. auto.
  - destruct (IH El frs Hw head Hh Hs) as (n&s'&rs'&E&Ha). exists (S n), s', rs'. auto.
Qed.

(** ** WSGI *)
Lemma stop_grows {B} c p name (enc : B -> res bytes) z : growing (fun s => ws_ev (fst s)) (stop_step c p name enc z).
Proof.
  intros [w i] rs b. unfold stop_step, wsgi_body_step. destruct (Nat.leb c i); cbn [fst ws_ev].
  - destruct (ws_started w); [exists []; now rewrite app_nil_r|eauto].
  - destruct (write_message enc (Some z) b); cbn [fst ws_ev]; destruct (ws_started w); rewrite <- ?app_assoc; eauto. exists []. now rewrite app_nil_r.
Qed.
Lemma stop_starts {B} c p name (enc : B -> res bytes) z s rs b : ws_started (fst (fst (stop_step c p name enc z s rs b))) = true.
Proof. destruct s as [w i]. unfold stop_step, wsgi_body_step. destruct (Nat.leb c i); [reflexivity|]. now destruct (write_message enc (Some z) b). Qed.
Lemma drive_starts {A B} c p name (enc : B -> res bytes) z (g : prog A B unit) : forall ps rs s, ws_started (fst s) = true ->
  ws_started (fst (fst (fst (drive (stop_step c p name enc z) g ps rs s)))) = true.
Proof.
  induction g as [r|i|k IH|b c' k IH|op k IH|op k IH]; intros ps rs s H; cbn [drive]; auto.
  - destruct (pull_next ps). auto.
  - pose proof (stop_starts c p name enc z s rs b) as S1. destruct (stop_step c p name enc z s rs b) as [s1 [i|]]; auto.
Qed.
Lemma edrive_starts {A B} c p name (enc : B -> res bytes) z n : forall (g : emeth A B unit) ps rs s,
  let s' := fst (fst (edrive n (stop_step c p name enc z) g ps rs s)) in (ws_started (fst s) = true -> ws_started (fst s') = true) /\ (ws_started (fst s') = true \/ s' = s).
Proof.
  cbv zeta. induction n as [|n IH]; intros g ps rs s; [auto|]. destruct g as [r|i|k|b c' k|op k|op k|k]; cbn [edrive]; auto.
  - destruct (pull_next ps). auto.
  - pose proof (stop_starts c p name enc z s rs b) as S1. destruct (stop_step c p name enc z s rs b) as [s1 [i|]]; auto. cbn [fst] in S1. specialize (IH k ps rs s1). tauto.
Qed.
Lemma settings_wsgi {A B} (ap ap' : app A B) : same_settings ap ap' ->
  (forall k z q, wsgi_request_stream ap' k z q = wsgi_request_stream ap k z q)
  /\ (forall q hs, wsgi_post_request ap' q hs = wsgi_post_request ap q hs) /\ (forall q, wsgi_get_request ap' q = wsgi_get_request ap q)
  /\ (forall q p nm z inv rs ev e, wsgi_stream_error ap' q p nm z inv rs ev e = wsgi_stream_error ap q p nm z inv rs ev e)
  /\ (forall q p z inv rs ev e, response_stream_end ap' q p z inv rs ev e = response_stream_end ap q p z inv rs ev e).
Proof.
  intros (Sm&Sc&Sk&Ss). repeat split; intros.
  - unfold wsgi_request_stream. now rewrite Sm.
  - unfold wsgi_post_request, unknown_compression. now rewrite ?Sc, ?Sm, ?Sk.
  - unfold wsgi_get_request, unknown_compression. now rewrite ?Sc, ?Sm, ?Sk.
  - unfold wsgi_stream_error. now rewrite Ss.
  - unfold response_stream_end. now rewrite Ss.
Qed.

(** [s] comes after [w] in one response. *)
Definition follows (w s : wst) : Prop :=
  (exists l, ws_ev s = ws_ev w ++ l) /\ (ws_started w = true -> ws_started s = true) /\ (ws_started w = false -> ws_ev w = []).
Lemma follows_start s : (exists l, ws_ev s = [] ++ l) -> follows (mk_wst [] false) s.
Proof. intros H. split; [exact H|]. split; [discriminate|reflexivity]. Qed.

Lemma alike_stop_run {A B} n c p (e : eendpoint A B) ep k z ps cx inv : alike_endpoint n e ep ->
  (forall x, estop_run n c p e k z ps cx = (inv, inl x) -> stop_run c p ep k z ps cx = (inv, x))
  /\ (forall w, estop_run n c p e k z ps cx = (inv, inr w) -> exists s i rs le, stop_run c p ep k z ps cx = (inv, (s, i, rs, le)) /\ follows w s).
Proof.
  intro Al. unfold estop_run, stop_run. cbv zeta. cbn [fst].
  set (step := stop_step c p (k_name k) (k_enc_res k) z).
  assert (Gr : forall C (g : prog C B unit) ps rs s, exists l, ws_ev (fst (fst (fst (drive step g ps rs s)))) = ws_ev (fst s) ++ l)
    by (intros; apply (drive_grows (fun s => ws_ev (fst s)) _ (stop_grows c p (k_name k) (k_enc_res k) z))).
  assert (Single : forall (b : B) rs, follows (mk_wst [] false) (fst (fst (fst (drive step (@single_response A B b) ([], None) rs (mk_wst [] false, O)))))).
  { intros b rs. apply follows_start. apply (Gr A (single_response b) ([], None) rs (mk_wst [] false, O)). }
  assert (Fin : forall C (g : emeth C B unit) g' ps, alike n g g' ->
    match edrive n step g ps rs_new (mk_wst [] false, O) with
    | (w, _, _, None) => exists s i rs le, drive step g' ps rs_new (mk_wst [] false, O) = (s, i, rs, le) /\ follows w s
    | (w, i, rs, Some le) => drive step g' ps rs_new (mk_wst [] false, O) = (w, i, rs, le)
    end).
  { intros C g g' ps0 Ag. destruct (edrive n step g ps0 rs_new (mk_wst [] false, O)) as [[[w i] rs] [le|]] eqn:E.
    - exact (alike_drive _ _ _ _ _ _ _ _ _ _ Ag E).
    - destruct (alike_drive_on _ _ _ _ _ _ _ _ _ Ag E) as (g2&ps2&->). destruct (Gr C g2 ps2 rs (w, i)) as [l H].
      pose proof (drive_starts c p (k_name k) (k_enc_res k) z g2 ps2 rs (w, i)) as St. fold step in St.
      pose proof (proj2 (edrive_starts c p (k_name k) (k_enc_res k) z n g ps0 rs_new (mk_wst [] false, O))) as Ei. fold step in Ei. rewrite E in Ei. cbn [fst] in Ei.
      destruct (drive step g2 ps2 rs (w, i)) as [[[s i2] rs2] le]. cbn [fst] in H, St. do 4 eexists. split; [reflexivity|].
      split; [eauto|]. split; [exact St|]. intro F. destruct Ei as [Ei|Ei]; [congruence|]. now injection Ei as -> _. }
  destruct e as [m f|m f|m f|m f], ep as [m' f'|m' f'|m' f'|m' f']; cbn [alike_endpoint] in Al; try contradiction; destruct Al as [-> Al].
  - destruct (consume_single_request ps) as [a|x]; [|split; intros x0 E; [now injection E as <- <-|discriminate]].
    destruct (erun_fn n (f a cx) ([], None) rs_new) as [[r|] rs1] eqn:E1.
    + rewrite (alike_run _ _ _ _ _ _ _ (Al a cx) E1). split; intros x E; [|destruct r; discriminate]. destruct r; now injection E as <- <-.
    + split; intros x E; [discriminate|]. injection E as <- <-. destruct (run_fn (f' a cx) ([], None) rs_new) as [[b|i] rs2].
      * pose proof (Single b rs2) as H. destruct (drive step _ _ rs2 _) as [[[s i] rs3] le]. eauto 6.
      * do 4 eexists. split; [reflexivity|]. apply follows_start. now exists [].
  - destruct (erun_fn n (f cx) ps rs_new) as [[r|] rs1] eqn:E1.
    + rewrite (alike_run _ _ _ _ _ _ _ (Al cx) E1). split; intros x E; [|destruct r; discriminate]. destruct r; now injection E as <- <-.
    + split; intros x E; [discriminate|]. injection E as <- <-. destruct (run_fn (f' cx) ps rs_new) as [[b|i] rs2].
      * pose proof (Single b rs2) as H. destruct (drive step _ _ rs2 _) as [[[s i] rs3] le]. eauto 6.
      * do 4 eexists. split; [reflexivity|]. apply follows_start. now exists [].
  - destruct (consume_single_request ps) as [a|x]; [|split; intros x0 E; [now injection E as <- <-|discriminate]].
    pose proof (Fin _ _ _ ([], None) (Al a cx)) as F. destruct (edrive n step (f a cx) _ rs_new _) as [[[w i] rs] [le|]].
    + rewrite F. split; intros x E; [now injection E as <- <-|discriminate].
    + destruct F as (s&i2&rs2&le&->&H). split; intros x E; [discriminate|]. injection E as <- <-. eauto 6.
  - pose proof (Fin _ _ _ ps (Al cx)) as F. destruct (edrive n step (f cx) _ rs_new _) as [[[w i] rs] [le|]].
    + rewrite F. split; intros x E; [now injection E as <- <-|discriminate].
    + destruct F as (s&i2&rs2&le&->&H). split; intros x E; [discriminate|]. injection E as <- <-. eauto 6.
Qed.

(** A handled request or a result of the application [inv], with the events [ev] before the others. *)
Definition continues {A} (inv : list (invoked A)) (ev : list wevent) (x : whandled A + wsgi_result A) : Prop :=
  match x with
  | inl (inv', _, _, _) => inv' = inv /\ ev = []
  | inr r => wr_inv r = inv /\ exists l, wr_events r = ev ++ l
  end.
Lemma stream_end_continues {A B} (ap : app A B) q p z inv rs ev i l : continues inv ev (inr (response_stream_end ap q p z inv rs (ev ++ l) i)).
Proof.
  unfold continues, response_stream_end. destruct i as [[x|]|].
  - destruct (drain q 2); cbn; [eauto|]. destruct (end_response _ _ _ _ _); cbn; split; rewrite <- ?app_assoc; eauto.
  - cbn. eauto.
  - destruct (end_response _ _ _ _ _); cbn; split; rewrite <- ?app_assoc; eauto.
Qed.
Lemma stream_error_continues {A B} (ap : app A B) q p nm z (inv : list (invoked A)) rs ev e : continues inv [] (inl (wsgi_stream_error ap q p nm z inv rs ev e)).
Proof.
  unfold continues, wsgi_stream_error. destruct (drain q 0); [auto|]. destruct (end_response _ _ _ _ _); auto.
Qed.

(** The end of a stream, from the end of its loop on. *)
Definition stop_finish {A B} (ap : app A B) q p (k : codec A B) z (inv : list (invoked A)) (s : wst) (rs : rstate) (e : loop_end) : whandled A + wsgi_result A :=
  if ws_started s then
    match e with
    | LBroken ICancel _ => inr (mk_wr inv (ws_ev s) WReturn)
    | _ => inr (response_stream_end ap q p z inv rs (ws_ev s) (loop_interrupt e))
    end
  else
    match loop_interrupt e with
    | Some ICancel => inl (inv, rs, ws_ev s, Some ICancel)
    | Some (IExn x) => inl (wsgi_stream_error ap q p (k_name k) z inv rs (ws_ev s) x)
    | None =>
        let ev := ws_ev s ++ [WStart (lit "200 OK") (stream_headers p (k_name k) (z_name z) rs)] in
        match end_response (ap_sc ap) p z (rs_t rs) None with
        | Ok fin => inl (inv, rs, ev ++ fin, None)
        | Raise x => inl (wsgi_stream_error ap q p (k_name k) z inv rs ev x)
        end
    end.
Lemma stop_finish_continues {A B} (ap : app A B) q p k z inv w s rs e : follows w s -> continues inv (ws_ev w) (stop_finish ap q p k z inv s rs e).
Proof.
  intros ([l H]&H1&H2). unfold stop_finish. destruct (ws_started s) eqn:Es.
  - assert (G : continues inv (ws_ev w) (inr (mk_wr inv (ws_ev s) WReturn))) by (cbn; eauto).
    rewrite H. destruct e as [|i|[x|] c]; try apply stream_end_continues. rewrite <- H. exact G.
  - assert (W : ws_ev w = []) by (apply H2; destruct (ws_started w); [specialize (H1 eq_refl); discriminate|reflexivity]). rewrite W.
    destruct (loop_interrupt e) as [[x|]|]; [apply stream_error_continues|cbn; auto|]. cbv zeta.
    destruct (end_response _ _ _ _ _); [cbn; auto|apply stream_error_continues].
Qed.

Lemma settings_finish {A B} (ap ap' : app A B) q p k z inv s rs e : same_settings ap ap' -> stop_finish ap' q p k z inv s rs e = stop_finish ap q p k z inv s rs e.
Proof.
  intro Sg. destruct (settings_wsgi _ _ Sg) as (_&_&_&Er&Rs). destruct Sg as (_&_&_&Ss). unfold stop_finish. rewrite Ss.
  destruct (ws_started s); [destruct e as [|i|[x|] c]; now rewrite ?Rs|]. destruct (loop_interrupt e) as [[x|]|]; rewrite ?Er; auto.
  cbv zeta. destruct (end_response _ _ _ _ _); rewrite ?Er; auto.
Qed.

Lemma alike_stop_stream {A B} n c (ap ap' : app A B) q p hs e ep cx : same_settings ap ap' -> alike_endpoint n e ep ->
  match estop_stream n c ap q p hs e cx with
  | Finished x => stop_stream c ap' q p hs ep cx = x
  | Running inv ev => continues inv ev (stop_stream c ap' q p hs ep cx)
  end.
Proof.
  intros Sg Al. destruct (settings_wsgi _ _ Sg) as (R&_&_&Er&_). pose proof Sg as (Sm&Sc&Sk&Ss). unfold estop_stream, stop_stream. rewrite Sc, Sk.
  destruct (negotiate_stream_compression p hs (ap_comps ap)) as [req z]. destruct (dget (ap_codecs ap) _) as [k|]; [|reflexivity]. cbv zeta. rewrite Er.
  destruct req as [rz|]; [|reflexivity]. rewrite R.
  destruct (estop_run n c p e k z _ cx) as [inv [[[[s i] rs] le]|w]] eqn:E.
  - rewrite (proj1 (alike_stop_run _ _ _ _ _ _ _ _ _ inv Al) _ E). exact (settings_finish ap ap' q p k z inv s rs le Sg).
  - destruct (proj2 (alike_stop_run _ _ _ _ _ _ _ _ _ inv Al) _ E) as (s&i&rs&le&->&F).
    apply (stop_finish_continues ap' q p k z inv w s rs le F).
Qed.

Lemma wsgi_error_inv {A} q (inv : list (invoked A)) ev e rs : wr_inv (wsgi_call_error q inv ev e rs) = inv.
Proof. unfold wsgi_call_error. destruct (drain q 1); [reflexivity|]. destruct (wsgi_handle_error e rs); reflexivity. Qed.

Lemma alike_wsgi_find {A B} n (ea : eapp A B) ap q : alike_app n ea ap ->
  match ewsgi_find_endpoint ea q with
  | Ok e => exists ep, wsgi_find_endpoint ap q = Ok ep /\ alike_endpoint n e ep
  | Raise x => wsgi_find_endpoint ap q = Raise x
  end.
Proof.
  intros (_&P&H). pose proof (alike_get _ _ _ H) as G. unfold ewsgi_find_endpoint, wsgi_find_endpoint. rewrite P.
  destruct (env_item q "PATH_INFO") as [path|x]; cbn [bind]; [|reflexivity]. cbv zeta.
  set (path' := match path with [] => lit "/" | _ => path end). pose proof (G path') as G1.
  destruct (dget (ea_endpoints ea) path') as [e|]; [destruct G1 as (ep&->&G1); eauto|]. rewrite G1.
  destruct (env_item q "SCRIPT_NAME") as [script|x]; cbn [bind]; [|reflexivity]. destruct (str_eqb script _); [|reflexivity].
  pose proof (G (ap_path (ea_app ea) ++ path')) as G2.
  destruct (dget (ea_endpoints ea) _) as [e|]; [destruct G2 as (ep&->&G2); eauto|]. now rewrite G2.
Qed.
Lemma alike_wsgi_open {A B} n (ea : eapp A B) ap now q : alike_app n ea ap ->
  match ewsgi_open_request ea now q with
  | Ok (e, hs, p, cx) => exists ep, wsgi_open_request ap now q = Ok (ep, hs, p, cx) /\ alike_endpoint n e ep
  | Raise x => wsgi_open_request ap now q = Raise x
  end.
Proof.
  intro H. pose proof (alike_wsgi_find _ _ _ q H) as F. unfold ewsgi_open_request, wsgi_open_request.
  destruct (ewsgi_find_endpoint ea q) as [e|x]; [destruct F as (ep&->&F)|now rewrite F]. cbn [bind].
  destruct (env_item q "REQUEST_METHOD") as [http|x]; cbn [bind]; [|reflexivity]. cbv zeta.
  destruct (_ && _); [reflexivity|]. destruct (alike_method _ _ _ F) as [-> _].
  destruct (server_create_context _ _ _ _ _ _ _) as [cx|x]; cbn [bind]; eauto.
Qed.

(** What [__call__] makes of a handled request. *)
Definition stop_call {A} (c : nat) (q : wsgi_request) (x : whandled A + wsgi_result A) : wsgi_result A :=
  let listed (r : wsgi_result A) := mk_wr (wr_inv r) (taken_list c (wr_events r)) (wr_out r) in
  match x with
  | inr r => r
  | inl (inv, rs, ev, None) => listed (mk_wr inv ev WReturn)
  | inl (inv, rs, ev, Some ICancel) => mk_wr inv ev WBase
  | inl (inv, rs, ev, Some (IExn e)) => listed (wsgi_call_error q inv ev e (Some rs))
  end.
Lemma stop_call_continues {A} c q inv ev (x : whandled A + wsgi_result A) : continues inv ev x ->
  wr_inv (stop_call c q x) = inv /\ exists l, wr_events (stop_call c q x) = ev ++ l.
Proof.
  destruct x as [[[[inv' rs] ev'] o]|r]; cbn [continues stop_call]; [|auto]. intros [-> ->].
  destruct o as [[e|]|]; cbn [wr_inv wr_events]; rewrite ?wsgi_error_inv; split; auto; eexists; reflexivity.
Qed.

Lemma alike_wsgi_call {A B} n c (ea : eapp A B) ap now q : alike_app n ea ap ->
  match wsgi_after n c ea now q with
  | Finished r => wsgi_stop c ap now q = r
  | Running inv ev => wr_inv (wsgi_stop c ap now q) = inv /\ exists l, wr_events (wsgi_stop c ap now q) = ev ++ l
  end.
Proof.
  intro H. pose proof (alike_wsgi_open _ _ _ now q H) as O. unfold wsgi_after, wsgi_stop. cbv zeta.
  destruct (ewsgi_open_request ea now q) as [[[[e hs] p] cx]|x]; [destruct O as (ep&->&Al)|now rewrite O].
  assert (Sg : same_settings (ea_app ea) ap) by apply H.
  pose proof (alike_stop_stream n c (ea_app ea) ap q p hs e ep cx Sg Al) as St.
  assert (D : match (match e, p with EeUnary _ f, PConnect => ewsgi_unary n (ea_app ea) q (cx_http cx) f cx hs | _, _ => estop_stream n c (ea_app ea) q p hs e cx end) with
              | Finished x => (match ep, p with EpUnary _ f, PConnect => inl (wsgi_unary ap q (cx_http cx) f cx hs) | _, _ => stop_stream c ap q p hs ep cx end) = x
              | Running inv ev => continues inv ev (match ep, p with EpUnary _ f, PConnect => inl (wsgi_unary ap q (cx_http cx) f cx hs) | _, _ => stop_stream c ap q p hs ep cx end)
              end).
  { destruct e as [m f|m f|m f|m f], ep as [m' f'|m' f'|m' f'|m' f']; cbn [alike_endpoint] in Al; try contradiction; try exact St.
    destruct p; try exact St. clear St. destruct Al as [-> Al]. destruct (settings_wsgi _ _ Sg) as (_&Rp&Rg&_). destruct Sg as (Sm&Sc&Sk&Ss).
    unfold ewsgi_unary, wsgi_unary. rewrite Sc, Rp, Rg. destruct (if str_eqb (cx_http cx) (lit "GET") then _ else _) as [[a k]|x]; [|reflexivity].
    destruct (erun_fn n (f a cx) ([], None) rs_new) as [[r|] rs1] eqn:E1.
    - rewrite (alike_run _ _ _ _ _ _ _ (Al a cx) E1). destruct r as [b|i]; reflexivity.
    - destruct (run_fn (f' a cx) ([], None) rs_new) as [[b|i] rs2]; cbn [continues]; [|auto].
      match goal with |- context[match ?y with Ok _ => _ | Raise _ => _ end] => destruct y as [[z body]|x0] end; auto. }
  destruct (match e, p with EeUnary _ f, PConnect => _ | _, _ => _ end) as [x|inv ev].
  - rewrite D. destruct x as [[[[inv rs] ev] [[x|]|]]|r]; reflexivity.
  - destruct (stop_call_continues c q inv ev _ D) as (D1&D2). split; [exact D1|exact D2].
Qed.

(** *** More steps *)
Lemma more_stop_run {A B} n m c p (e : eendpoint A B) k z ps cx inv : (n <= m)%nat ->
  (forall x, estop_run n c p e k z ps cx = (inv, inl x) -> estop_run m c p e k z ps cx = (inv, inl x))
  /\ (forall w, estop_run n c p e k z ps cx = (inv, inr w) -> exists x, estop_run m c p e k z ps cx = (inv, x)
        /\ follows w (match x with inl (s, _, _, _) => s | inr s => s end)).
Proof.
  intro L. unfold estop_run. cbv zeta. cbn [fst].
  set (step := stop_step c p (k_name k) (k_enc_res k) z).
  assert (Single : forall (b : B) rs, follows (mk_wst [] false) (fst (fst (fst (drive step (@single_response A B b) ([], None) rs (mk_wst [] false, O)))))).
  { intros b rs. apply follows_start. exact (drive_grows (fun s => ws_ev (fst s)) _ (stop_grows c p (k_name k) (k_enc_res k) z) (@single_response A B b) ([], None) rs (mk_wst [] false, O)). }
  assert (Single' : forall (r : option (fres B)) rs, follows (mk_wst [] false)
     (match (match r with
             | None => inr (mk_wst [] false)
             | Some (FInt i) => inl (mk_wst [] false, O, rs, LFail i)
             | Some (FRet b) => inl (drive step (@single_response A B b) ([], None) rs (mk_wst [] false, O))
             end) with inl (s, _, _, _) => s | inr s => s end)).
  { intros [[b|i]|] rs.
    - pose proof (Single b rs) as H. destruct (drive step _ _ rs _) as [[[s i] rs3] le]. exact H.
    - apply follows_start. now exists [].
    - apply follows_start. now exists []. }
  assert (Fin : forall C (g : emeth C B unit) ps,
    match edrive n step g ps rs_new (mk_wst [] false, O) with
    | (w, _, _, None) => follows w (match (match edrive m step g ps rs_new (mk_wst [] false, O) with (w, _, _, None) => inr w | (w, i, rs, Some e) => inl (w, i, rs, e) end)
                                    with inl (s, _, _, _) => s | inr s => s end)
    | (w, i, rs, Some le) => edrive m step g ps rs_new (mk_wst [] false, O) = (w, i, rs, Some le)
    end).
  { intros C g ps0. destruct (edrive n step g ps0 rs_new (mk_wst [] false, O)) as [[[w i] rs] [le|]] eqn:E.
    - exact (edrive_more _ _ _ _ _ _ _ _ _ _ L E).
    - destruct (edrive_on _ _ _ _ _ _ _ _ _ L E) as (g2&ps2&->).
      destruct (edrive_grows (fun s => ws_ev (fst s)) _ (stop_grows c p (k_name k) (k_enc_res k) z) (m - n) g2 ps2 rs (w, i)) as [l H]. fold step in H.
      pose proof (proj1 (edrive_starts c p (k_name k) (k_enc_res k) z (m - n) g2 ps2 rs (w, i))) as St. fold step in St.
      pose proof (proj2 (edrive_starts c p (k_name k) (k_enc_res k) z n g ps0 rs_new (mk_wst [] false, O))) as Ei. fold step in Ei. rewrite E in Ei. cbn [fst] in Ei.
      destruct (edrive (m - n) step g2 ps2 rs (w, i)) as [[[s i2] rs2] [le|]]; cbn [fst] in H, St;
        (split; [eauto|]); (split; [exact St|]); intro F; (destruct Ei as [Ei|Ei]; [congruence|]); now injection Ei as -> _. }
  destruct e as [i f|i f|i f|i f].
  - destruct (consume_single_request ps) as [a|x]; [|split; intros x0 E; [exact E|discriminate]].
    destruct (erun_fn n (f a cx) ([], None) rs_new) as [[r|] rs1] eqn:E1.
    + rewrite (erun_more _ _ _ _ _ _ _ L E1). split; intros x E; [exact E|]. destruct r; discriminate.
    + split; intros x E; [discriminate|]. injection E as <- <-. destruct (erun_fn m (f a cx) ([], None) rs_new) as [r rs2]. eexists. split; [reflexivity|apply Single'].
  - destruct (erun_fn n (f cx) ps rs_new) as [[r|] rs1] eqn:E1.
    + rewrite (erun_more _ _ _ _ _ _ _ L E1). split; intros x E; [exact E|]. destruct r; discriminate.
    + split; intros x E; [discriminate|]. injection E as <- <-. destruct (erun_fn m (f cx) ps rs_new) as [r rs2]. eexists. split; [reflexivity|apply Single'].
  - destruct (consume_single_request ps) as [a|x]; [|split; intros x0 E; [exact E|discriminate]].
    pose proof (Fin _ (f a cx) ([], None)) as F. destruct (edrive n step (f a cx) _ rs_new _) as [[[w j] rs] [le|]].
    + rewrite F. split; intros x E; [exact E|discriminate].
    + split; intros x E; [discriminate|]. injection E as <- <-. eexists. split; [reflexivity|exact F].
  - pose proof (Fin _ (f cx) ps) as F. destruct (edrive n step (f cx) _ rs_new _) as [[[w j] rs] [le|]].
    + rewrite F. split; intros x E; [exact E|discriminate].
    + split; intros x E; [discriminate|]. injection E as <- <-. eexists. split; [reflexivity|exact F].
Qed.

Definition on_with {A} (inv : list (invoked A)) (ev : list wevent) (x : progress A (whandled A + wsgi_result A) wevent) : Prop :=
  match x with
  | Finished x => continues inv ev x
  | Running inv' ev' => inv' = inv /\ exists l, ev' = ev ++ l
  end.
Lemma more_stop_stream {A B} n m c (ap : app A B) q p hs e cx : (n <= m)%nat ->
  match estop_stream n c ap q p hs e cx with
  | Finished x => estop_stream m c ap q p hs e cx = Finished x
  | Running inv ev => on_with inv ev (estop_stream m c ap q p hs e cx)
  end.
Proof.
  intro L. unfold estop_stream.
  destruct (negotiate_stream_compression p hs (ap_comps ap)) as [req z]. destruct (dget (ap_codecs ap) _) as [k|]; [|reflexivity]. cbv zeta.
  destruct req as [rz|]; [|reflexivity].
  destruct (estop_run n c p e k z _ cx) as [inv [[[[s i] rs] le]|w]] eqn:E.
  - now rewrite (proj1 (more_stop_run _ _ _ _ _ _ _ _ _ inv L) _ E).
  - destruct (proj2 (more_stop_run _ _ _ _ _ _ _ _ _ inv L) _ E) as (x&->&F). destruct x as [[[[s i] rs] le]|s].
    + apply (stop_finish_continues ap q p k z inv w s rs le F).
    + cbn [on_with]. split; [reflexivity|]. apply F.
Qed.

Lemma more_wsgi_call {A B} n m c (ea : eapp A B) now q : (n <= m)%nat ->
  match wsgi_after n c ea now q with
  | Finished r => wsgi_after m c ea now q = Finished r
  | Running inv ev => wsgi_invoked (wsgi_after m c ea now q) = inv /\ exists l, wsgi_events (wsgi_after m c ea now q) = ev ++ l
  end.
Proof.
  intro L. unfold wsgi_after. cbv zeta. destruct (ewsgi_open_request ea now q) as [[[[e hs] p] cx]|x]; [|reflexivity].
  pose proof (more_stop_stream n m c (ea_app ea) q p hs e cx L) as St.
  set (hn := match e, p with EeUnary _ f, PConnect => ewsgi_unary n (ea_app ea) q (cx_http cx) f cx hs | _, _ => estop_stream n c (ea_app ea) q p hs e cx end).
  set (hm := match e, p with EeUnary _ f, PConnect => ewsgi_unary m (ea_app ea) q (cx_http cx) f cx hs | _, _ => estop_stream m c (ea_app ea) q p hs e cx end).
  assert (D : match hn with Finished x => hm = Finished x | Running inv ev => on_with inv ev hm end).
  { unfold hn, hm. destruct e as [i f|i f|i f|i f]; try exact St. destruct p; try exact St. clear St. unfold ewsgi_unary.
    destruct (if str_eqb (cx_http cx) (lit "GET") then _ else _) as [[a k]|x]; [|reflexivity].
    destruct (erun_fn n (f a cx) ([], None) rs_new) as [[r|] rs1] eqn:E1.
    - rewrite (erun_more _ _ _ _ _ _ _ L E1). destruct r; reflexivity.
    - destruct (erun_fn m (f a cx) ([], None) rs_new) as [[[b|j]|] rs2]; cbn [on_with continues]; [|auto|split; [reflexivity|now exists []]].
      match goal with |- context[match ?y with Ok _ => _ | Raise _ => _ end] => destruct y as [[z body]|x0] end; auto. }
  clearbody hn hm. destruct hn as [x|inv ev].
  - rewrite D. destruct x as [[[[inv2 rs] ev2] [[y|]|]]|r]; reflexivity.
  - destruct hm as [x|inv' ev']; cbn [on_with] in D.
    + destruct (stop_call_continues c q inv ev x D) as [D1 D2]. destruct x as [[[[inv2 rs] ev2] [[y|]|]]|r]; cbn [wsgi_invoked wsgi_events]; split; [exact D1|exact D2|exact D1|exact D2|exact D1|exact D2|exact D1|exact D2].
    + exact D.
Qed.

(** *** Coming to an end *)
Lemma closed_ends {A B} c p name (enc : B -> res bytes) z n (g : emeth A B unit) ps : comes_to n g ps ->
  forall rs w i, (i < c \/ i = 0)%nat -> (c <= n + i)%nat -> (1 <= n)%nat ->
  exists m s' rs' e, edrive m (stop_step c p name enc z) g ps rs (w, i) = (s', rs', Some e).
Proof.
  induction 1 as [g ps|n r ps|n x ps|n k ps H IH|n b c' k ps H IH|n op k ps H IH|n op k ps H IH|n k ps H IH]; intros rs w i L M N.
  - lia.
  - exists 1%nat. cbn. eauto.
  - exists 1%nat. cbn. eauto.
  - destruct (IH rs w i L M N) as (m&s'&rs'&e&E). exists (S m). cbn [edrive]. destruct (pull_next ps) as [x ps']. eauto.
  - destruct (stop_step c p name enc z (w, i) rs b) as [[w1 i1] [x|]] eqn:E.
    + exists 1%nat. cbn [edrive]. rewrite E. eauto.
    + assert (Hi : i1 = S i /\ (S i < c)%nat).
      { unfold stop_step in E. destruct (Nat.leb_spec c i); [discriminate|]. destruct (wsgi_body_step _ _ _ _ _ _ _) as [w2 [x|]]; [discriminate|].
        revert E. destruct (Nat.eqb_spec (S i) c); [discriminate|]. intros [= <- <-]. lia. }
      destruct Hi as [-> Hi]. destruct (IH rs w1 (S i) ltac:(lia) ltac:(lia) ltac:(lia)) as (m&s'&rs'&e&E'). exists (S m). cbn [edrive]. rewrite E. eauto.
  - destruct (IH (mk_rs (h_exec (rs_h rs) op) (rs_t rs)) w i L M N) as (m&s'&rs'&e&E). exists (S m). cbn [edrive]. eauto.
  - destruct (IH (mk_rs (rs_h rs) (h_exec (rs_t rs) op)) w i L M N) as (m&s'&rs'&e&E). exists (S m). cbn [edrive]. eauto.
  - destruct (IH rs w i L M N) as (m&s'&rs'&e&E). exists (S m). cbn [edrive]. eauto.
Qed.
Lemma end_wsgi_call {A B} c (ea : eapp A B) now q e hs p cx : ewsgi_open_request ea now q = Ok (e, hs, p, cx) -> ee_is_unary e = false ->
  (forall k z ps, exists n inv x, estop_run n c p e k z ps cx = (inv, inl x)) -> exists n r, wsgi_after n c ea now q = Finished r.
Proof.
  intros O U T.
  assert (St : exists n x, estop_stream n c (ea_app ea) q p hs e cx = Finished x).
  { unfold estop_stream. destruct (negotiate_stream_compression p hs (ap_comps (ea_app ea))) as [req z].
    destruct (dget (ap_codecs (ea_app ea)) _) as [k|]; [|exists 0%nat; eauto]. cbv zeta. destruct req as [rz|]; [|exists 0%nat; eauto].
    destruct (T k z (wsgi_request_stream (ea_app ea) k rz q)) as (n&inv&[[[s i] rs] le]&E). exists n. rewrite E. eauto. }
  destruct St as (n&x&St). exists n. unfold wsgi_after. cbv zeta. rewrite O.
  destruct e; try discriminate; rewrite St; destruct x as [[[[inv2 rs] ev2] [[y|]|]]|r]; eauto.
Qed.

(** [stop_run] takes the first [c] messages of a method that has them. *)
Lemma stop_served {A B} p name (enc : B -> res bytes) z (g : emeth A B unit) ps rs steps : begins_with g ps rs steps -> steps <> [] ->
  forall frs, written enc z steps frs -> forall i w, exists n rs' cl,
  edrive n (stop_step (i + List.length steps) p name enc z) g ps rs (w, i)
  = (mk_wst ((if ws_started w then ws_ev w else ws_ev w ++ [WStart (lit "200 OK") (stream_headers p name (z_name z) (match steps with [] => rs | st :: _ => fst st end))]) ++ map WBody frs) true,
     (i + List.length steps)%nat, rs', Some (LBroken ICancel cl)).
Proof.
  intro H. induction H as [g ps rs|k ps rs l H IH|b c k ps rs l H IH|op k ps rs l H IH|op k ps rs l H IH|k ps rs l H IH]; intros Ne frs Hw i w.
  - congruence.
  - destruct (IH Ne frs Hw i w) as (n&rs'&cl&E). exists (S n), rs', cl. cbn [edrive]. destruct (pull_next ps) as [x ps']. cbn [fst snd] in E.
    rewrite E. destruct l; [congruence|reflexivity].
  - inversion Hw as [|? fr ? frs' Hfr Hrest]; subst. cbn [snd] in Hfr. cbn [List.length fst].
    assert (E : forall N, stop_step N p name enc z (w, i) rs b
                = if Nat.leb N i then (mk_wst (if ws_started w then ws_ev w else ws_ev w ++ [WStart (lit "200 OK") (stream_headers p name (z_name z) rs)]) true, i, Some ICancel)
                  else (mk_wst ((if ws_started w then ws_ev w else ws_ev w ++ [WStart (lit "200 OK") (stream_headers p name (z_name z) rs)]) ++ [WBody fr]) true, S i,
                        if Nat.eqb (S i) N then Some ICancel else None)).
    { intro N. unfold stop_step, wsgi_body_step. destruct (Nat.leb N i); [reflexivity|]. now rewrite Hfr. }
    destruct l as [|st l].
    + inversion Hrest; subst. exists 1%nat, rs, c. cbn [edrive List.length]. rewrite E.
      destruct (Nat.leb_spec (i + 1) i); [lia|]. replace (Nat.eqb (S i) (i + 1)) with true by (symmetry; apply Nat.eqb_eq; lia).
      now replace (i + 1)%nat with (S i) by lia.
    + destruct (IH ltac:(discriminate) frs' Hrest (S i) (mk_wst ((if ws_started w then ws_ev w else ws_ev w ++ [WStart (lit "200 OK") (stream_headers p name (z_name z) rs)]) ++ [WBody fr]) true)) as (n&rs'&cl&E').
      exists (S n), rs', cl. cbn [edrive]. rewrite E. destruct (Nat.leb_spec (i + S (List.length (st :: l))) i); [lia|].
      destruct (Nat.eqb_spec (S i) (i + S (List.length (st :: l)))); [cbn in *; lia|].
      replace (i + S (List.length (st :: l)))%nat with (S i + List.length (st :: l))%nat by lia. rewrite E'. cbn [ws_started ws_ev map]. now rewrite <- app_assoc.
  - destruct (IH Ne frs Hw i w) as (n&rs'&cl&E). exists (S n), rs', cl. cbn [edrive]. rewrite E. destruct l; [congruence|reflexivity].
  - destruct (IH Ne frs Hw i w) as (n&rs'&cl&E). exists (S n), rs', cl. cbn [edrive]. rewrite E. destruct l; [congruence|reflexivity].
  - destruct (IH Ne frs Hw i w) as (n&rs'&cl&E). exists (S n), rs', cl. cbn [edrive]. rewrite E. destruct l; [congruence|reflexivity].
Qed.

(** ** Applications whose methods end *)
Lemma ending_get {A B} (d : dict (endpoint A B)) key e : dget (map (fun x => (fst x, ending_endpoint (snd x))) d) key = Some e ->
  exists ep, e = ending_endpoint ep.
Proof.
  induction d as [|[x ep] d IH]; [discriminate|]. cbn [map fst snd dget]. destruct (str_eqb x key); [|exact IH]. intros [= <-]. eauto.
Qed.
Lemma ending_open {A B} (ap : app A B) now sc e hs p cx : eopen_request (ending_app ap) now sc = Ok (e, hs, p, cx) -> exists ep, e = ending_endpoint ep.
Proof.
  unfold eopen_request. destruct (efind_endpoint (ending_app ap) sc) as [e0|x] eqn:F; cbn [bind]; [|discriminate].
  destruct (process_headers h_empty (sc_headers sc)) as [h|x]; cbn [bind]; [|discriminate]. cbv zeta. destruct (_ && _); [discriminate|].
  destruct (server_create_context _ _ _ _ _ _ _) as [c|x]; cbn [bind]; [|discriminate]. intros [= <- <- <- <-].
  revert F. unfold efind_endpoint. destruct (dget _ (sc_path sc)) as [e1|] eqn:G; [intros [= <-]; exact (ending_get _ _ _ G)|].
  destruct (sc_root sc) as [[|y r]|]; try discriminate. destruct (dget (ea_endpoints (ending_app ap)) (removeprefix _ _)) as [e1|] eqn:G2; [intros [= <-]; exact (ending_get _ _ _ G2)|discriminate].
Qed.
Lemma ending_wsgi_open {A B} (ap : app A B) now q e hs p cx : ewsgi_open_request (ending_app ap) now q = Ok (e, hs, p, cx) -> exists ep, e = ending_endpoint ep.
Proof.
  unfold ewsgi_open_request. destruct (ewsgi_find_endpoint (ending_app ap) q) as [e0|x] eqn:F; cbn [bind]; [|discriminate].
  destruct (env_item q "REQUEST_METHOD") as [h|x]; cbn [bind]; [|discriminate]. cbv zeta. destruct (_ && _); [discriminate|].
  destruct (server_create_context _ _ _ _ _ _ _) as [c|x]; cbn [bind]; [|discriminate]. intros [= <- <- <- <-].
  revert F. unfold ewsgi_find_endpoint. destruct (env_item q "PATH_INFO") as [path|x]; cbn [bind]; [|discriminate]. cbv zeta.
  match goal with |- context[dget (ea_endpoints (ending_app ap)) ?x] => set (path1 := x) end.
  destruct (dget (ea_endpoints (ending_app ap)) path1) as [e1|] eqn:G; [intros [= <-]; exact (ending_get _ _ _ G)|].
  destruct (env_item q "SCRIPT_NAME") as [script|x]; cbn [bind]; [|discriminate]. destruct (str_eqb _ _); [|discriminate].
  destruct (dget (ea_endpoints (ending_app ap)) (_ ++ _)) as [e1|] eqn:G2; [intros [= <-]; exact (ending_get _ _ _ G2)|discriminate].
Qed.

Lemma ending_try {A B} (ap : app A B) en p ep k req z cx s : tries_end ap en p (@ending_endpoint A B ep) k req z cx s.
Proof.
  unfold tries_end, estream_try. destruct req as [rz|]; [|exists 0%nat; eauto]. cbv zeta. destruct ep as [i f|i f|i f|i f]; cbn [ending_endpoint].
  - destruct (consume_single_request _) as [a|x]; [|exists 0%nat; eauto]. destruct (erun_ending (f a cx) ([], None) rs_new) as (n&r&rs&H). exists n.
    rewrite (H n (le_n n)). destruct r; eauto.
  - destruct (erun_ending (f cx) (request_stream ap k rz en) rs_new) as (n&r&rs&H). exists n. rewrite (H n (le_n n)). destruct r; eauto.
  - destruct (consume_single_request _) as [a|x]; [|exists 0%nat; eauto].
    match goal with |- context[edrive _ ?b] => destruct (edrive_ending b (f a cx) ([], None) rs_new s) as (n&s'&rs&e&H) end. exists n. rewrite (H n (le_n n)). eauto.
  - match goal with |- context[edrive _ ?b] => destruct (edrive_ending b (f cx) (request_stream ap k rz en) rs_new s) as (n&s'&rs&e&H) end. exists n. rewrite (H n (le_n n)). eauto.
Qed.
Lemma ending_stop_run {A B} c p (ep : endpoint A B) k z ps cx : exists n inv x, estop_run n c p (ending_endpoint ep) k z ps cx = (inv, inl x).
Proof.
  unfold estop_run. cbv zeta. destruct ep as [i f|i f|i f|i f]; cbn [ending_endpoint].
  - destruct (consume_single_request _) as [a|x]; [|exists 0%nat; eauto]. destruct (erun_ending (f a cx) ([], None) rs_new) as (n&r&rs&H). exists n.
    rewrite (H n (le_n n)). destruct r; eauto.
  - destruct (erun_ending (f cx) ps rs_new) as (n&r&rs&H). exists n. rewrite (H n (le_n n)). destruct r; eauto.
  - destruct (consume_single_request _) as [a|x]; [|exists 0%nat; eauto].
    match goal with |- context[edrive _ ?b] => destruct (edrive_ending b (f a cx) ([], None) rs_new (mk_wst [] false, O)) as (n&[s' j]&rs&e&H) end. exists n. rewrite (H n (le_n n)). eauto.
  - match goal with |- context[edrive _ ?b] => destruct (edrive_ending b (f cx) ps rs_new (mk_wst [] false, O)) as (n&[s' j]&rs&e&H) end. exists n. rewrite (H n (le_n n)). eauto.
Qed.
Lemma ending_call {A B} (ap : app A B) now sc en : exists n r, asgi_after n (ending_app ap) now sc en = Finished r.
Proof.
  unfold asgi_after. cbv zeta. destruct (eopen_request (ending_app ap) now sc) as [[[[e hs] p] cx]|x] eqn:O; [|exists 0%nat; eauto].
  destruct (ending_open _ _ _ _ _ _ _ O) as [ep ->]. destruct (eselect_codec _ _ _ _ _) as [[params k]|x]; [|exists 0%nat; eauto].
  assert (St : exists n r, ehandle_stream n (ea_app (ending_app ap)) en p (ending_endpoint ep) k hs cx = Finished r).
  { unfold ehandle_stream. destruct (negotiate_stream_compression p hs _) as [req z].
    destruct (ending_try (ea_app (ending_app ap)) en p ep k req z cx (mk_lst (mk_ast 0 []) false 0)) as (n&inv&[[s rs] i]&E). exists n. rewrite E.
    destruct (stream_finally _ _ _ _ _ _ _ _ _). eauto. }
  destruct ep as [i f|i f|i f|i f]; try exact St. destruct p; try exact St. cbn [ending_endpoint]. unfold ehandle_unary. cbv zeta.
  destruct (if str_eqb (sc_method sc) (lit "GET") then _ else _) as [a|j]; [|exists 0%nat; eauto].
  destruct (erun_ending (f a cx) ([], None) rs_new) as (n&r&rs&H). exists n. rewrite (H n (le_n n)). destruct r; eauto.
Qed.
Lemma ending_wsgi_call {A B} c (ap : app A B) now q : exists n r, wsgi_after n c (ending_app ap) now q = Finished r.
Proof.
  unfold wsgi_after. cbv zeta. destruct (ewsgi_open_request (ending_app ap) now q) as [[[[e hs] p] cx]|x] eqn:O; [|exists 0%nat; eauto].
  destruct (ending_wsgi_open _ _ _ _ _ _ _ O) as [ep ->].
  assert (St : exists n x, estop_stream n c (ea_app (ending_app ap)) q p hs (ending_endpoint ep) cx = Finished x).
  { unfold estop_stream. destruct (negotiate_stream_compression p hs _) as [req z].
    destruct (dget (ap_codecs _) _) as [k|]; [|exists 0%nat; eauto]. cbv zeta. destruct req as [rz|]; [|exists 0%nat; eauto].
    destruct (ending_stop_run c p ep k z (wsgi_request_stream (ea_app (ending_app ap)) k rz q) cx) as (n&inv&[[[s i] rs] le]&E). exists n. rewrite E. eauto. }
  assert (Hd : exists n x, (match ending_endpoint ep, p with EeUnary _ f, PConnect => ewsgi_unary n (ea_app (ending_app ap)) q (cx_http cx) f cx hs
                             | _, _ => estop_stream n c (ea_app (ending_app ap)) q p hs (ending_endpoint ep) cx end) = Finished x).
  { destruct ep as [i f|i f|i f|i f]; try exact St. destruct p; try exact St. cbn [ending_endpoint]. unfold ewsgi_unary.
    destruct (if str_eqb (cx_http cx) (lit "GET") then _ else _) as [[a k]|x]; [|exists 0%nat; eauto].
    destruct (erun_ending (f a cx) ([], None) rs_new) as (n&r&rs&H). exists n. rewrite (H n (le_n n)). destruct r; eauto. }
  destruct Hd as (n&x&Hd). exists n. rewrite Hd. destruct x as [[[[inv2 rs] ev2] [[y|]|]]|r]; eauto.
Qed.
