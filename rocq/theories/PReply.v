(** C91: every request on a working connection gets a complete response. *)
From Coq Require Import List NArith ZArith Bool String Lia ZifyBool ZifyNat.
From Verif Require Import MBase MPyStr MHeaders SHeaders LBase LPyStr LHeaders MUtf8 LUtf8 MBase64 MPercent LPercent MJson SJson LJson MWire MStatusPb MEnvelope
  SEnvelope LEnvelope MTimeout MProtocol SProtocol MClient MServer MAsgi MWsgi SServer LServer LStream LWsgi LRequest LWire SLink LLink SReply PResponse PRequest LStatusPb PProtocol.
Import ListNotations.
Local Open Scope N_scope.

(** ** Text *)
Lemma unicode_lower s : scalar_text s -> scalar_text (lower s).
Proof.
  intro H. unfold scalar_text, lower. apply Forall_map. eapply Forall_impl; [|exact H]. intros c Hc. unfold lower_c.
  destruct ((65 <=? c) && (c <=? 90)) eqn:E; [|exact Hc]. unfold is_scalar, is_surrogate in *. lia.
Qed.
Lemma ascii_scalar s : Forall (fun c => c < 128) s -> scalar_text s.
Proof. intro H. eapply Forall_impl; [|exact H]. intros c Hc. unfold is_scalar, is_surrogate. cbn in Hc. lia. Qed.

Lemma unicode_encodes l : unicode_pairs l -> exists hs, encode_pairs l = Ok hs.
Proof.
  induction 1 as [|[k v] l [Hk Hv] _ (hs&IH)]; [now exists []|]. cbn [encode_pairs fst snd] in *.
  unfold encode_str. destruct (utf8_encode_some _ Hk) as [a ->], (utf8_encode_some _ Hv) as [b ->]. cbn [bind]. rewrite IH. cbn [bind]. eauto.
Qed.

Lemma unicode_connect c m : Forall (fun x => x < 128) m -> unicode_error (EConnect c m []).
Proof.
  intro H. apply ascii_scalar in H. split; [|split; [|exact I]]; cbn; (split; [|constructor]).
  - now apply scalar_json_ok.
  - exact H.
Qed.
Lemma unicode_other k m : Forall (fun x => x < 128) m -> unicode_error (EOther k m).
Proof.
  intro H. apply ascii_scalar in H. split; [|split; [|exact I]]; cbn; (split; [|constructor]).
  - now apply scalar_json_ok.
  - exact H.
Qed.

Lemma digits_lt n : Forall (fun c => c < 128) (dec_of_N n).
Proof. apply digits_ascii, dec_of_N_digits. Qed.

(** ** What a method leaves in its response headers and trailers *)
Definition rs_ok (rs : rstate) : Prop :=
  h_inv (rs_h rs) /\ h_inv (rs_t rs) /\ unicode_pairs (h_allitems (rs_h rs)) /\ unicode_pairs (h_allitems (rs_t rs)).

Lemma unicode_exec h op : h_inv h -> unicode_pairs (h_allitems h) -> unicode_op op -> unicode_pairs (h_allitems (h_exec h op)).
Proof.
  intros I F O. pose proof (h_inv_exec h op I) as I'. unfold unicode_pairs in *. rewrite Forall_forall in F.
  apply Forall_forall. intros [a b] Hin. apply in_allitems in Hin; [|exact I']. destruct Hin as [La Hb]. cbn [fst snd].
  assert (K : In b (h_getall h a) -> scalar_text a /\ scalar_text b) by (intro Hi; apply (F (a, b)); apply in_allitems; auto).
  destruct op as [k v|k v|k|]; cbn [h_exec unicode_op] in *.
  - destruct O as [Ok1 Ov]. rewrite getall_add in Hb by auto. destruct (same_name a k) eqn:S; [|auto].
    apply in_app_or in Hb. destruct Hb as [Hb|[<-|[]]]; [auto|]. split; [|exact Ov].
    unfold same_name in S. apply str_eqb_eq in S. rewrite <- La, S. now apply unicode_lower.
  - destruct O as [Ok1 Ov]. rewrite getall_set in Hb by auto. destruct (same_name a k) eqn:S; [|auto].
    destruct Hb as [<-|[]]. split; [|exact Ov]. unfold same_name in S. apply str_eqb_eq in S. rewrite <- La, S. now apply unicode_lower.
  - pose proof (getall_step h (Del k) a I) as G. cbn [h_exec] in G. rewrite G in Hb. cbn in Hb. destruct (same_name a k); [destruct Hb|auto].
  - destruct Hb.
Qed.
Lemma unicode_run ops : forall h, h_inv h -> unicode_pairs (h_allitems h) -> Forall unicode_op ops -> unicode_pairs (h_allitems (h_run h ops)).
Proof.
  induction ops as [|o ops IH]; intros h I F O; [exact F|]. inversion O; subst. cbn. apply IH; auto; [now apply h_inv_exec|now apply unicode_exec].
Qed.

Lemma rs_ok_new : rs_ok rs_new.
Proof. split; [apply h_inv_empty|split; [apply h_inv_empty|split; constructor]]. Qed.
Lemma rs_ok_h rs op : rs_ok rs -> unicode_op op -> rs_ok (mk_rs (h_exec (rs_h rs) op) (rs_t rs)).
Proof. intros (I&J&F&G) O. split; [now apply h_inv_exec|split; [exact J|split; [now apply unicode_exec|exact G]]]. Qed.
Lemma rs_ok_t rs op : rs_ok rs -> unicode_op op -> rs_ok (mk_rs (rs_h rs) (h_exec (rs_t rs) op)).
Proof. intros (I&J&F&G) O. split; [exact I|split; [now apply h_inv_exec|split; [exact F|now apply unicode_exec]]]. Qed.

Definition pulls_ok {A} (ps : pulls A) : Prop := match snd ps with Some e => unicode_error e | None => True end.
Lemma pull_ok {A} (ps : pulls A) x ps' : pulls_ok ps -> pull_next ps = (x, ps') -> match x with PExn e => unicode_error e | _ => True end /\ pulls_ok ps'.
Proof. destruct ps as [[|m ms] [e|]]; unfold pulls_ok; cbn; intros H [= <- <-]; cbn; auto. Qed.

Lemma run_fn_unicode {A R} cancel (g : prog A Empty_set R) : forall ps rs, unicode_prog cancel g -> pulls_ok ps -> rs_ok rs ->
  match run_fn g ps rs with (FInt i, rs') => unicode_int cancel i /\ rs_ok rs' | (FRet _, rs') => rs_ok rs' end.
Proof.
  induction g as [r|i|k IH|b|op k IH|op k IH]; intros ps rs U P O; cbn [run_fn unicode_prog] in *.
  - exact O.
  - auto.
  - destruct (pull_next ps) as [x ps'] eqn:E. destruct (pull_ok _ _ _ P E). apply IH; auto.
  - destruct b.
  - apply IH; [apply U|exact P|apply rs_ok_h; [exact O|apply U]].
  - apply IH; [apply U|exact P|apply rs_ok_t; [exact O|apply U]].
Qed.

Definition close_ok (cancel : bool) (c : on_close) : Prop :=
  Forall unicode_op (cl_hdr c) /\ Forall unicode_op (cl_trl c) /\ match cl_raise c with Some i => unicode_int cancel i | None => True end.
Definition end_ok (cancel : bool) (e : loop_end) : Prop :=
  match e with LDone => True | LFail i => unicode_int cancel i | LBroken i c => unicode_int cancel i /\ close_ok cancel c end.

Lemma drive_unicode {S A B} cancel (body : S -> rstate -> B -> S * option interrupt) (g : prog A B unit) :
  (forall s rs b s' i, rs_ok rs -> body s rs b = (s', Some i) -> unicode_int cancel i) ->
  forall ps rs s, unicode_prog cancel g -> pulls_ok ps -> rs_ok rs ->
  let '(_, rs', e) := drive body g ps rs s in rs_ok rs' /\ end_ok cancel e.
Proof.
  intro Hb. induction g as [r|i|k IH|b c k IH|op k IH|op k IH]; intros ps rs s U P O; cbn [drive unicode_prog] in *.
  - split; [exact O|exact I].
  - split; [exact O|exact U].
  - destruct (pull_next ps) as [x ps'] eqn:E. destruct (pull_ok _ _ _ P E). apply IH; auto.
  - destruct U as (U1&U2&U3&U4). destruct (body s rs b) as [s' [i|]] eqn:E.
    + split; [exact O|]. split; [eapply Hb; eauto|split; auto].
    + apply IH; auto.
  - apply IH; [apply U|exact P|apply rs_ok_h; [exact O|apply U]].
  - apply IH; [apply U|exact P|apply rs_ok_t; [exact O|apply U]].
Qed.

(** ** The end of a stream can be written *)
Definition wire_err_ok (w : option wire_error) : Prop := match w with Some w => wire_ok w /\ grpc_err_ok w | None => True end.

Lemma unicode_wire e : unicode_error e -> wire_err_ok (Some (we_from_exception e)).
Proof. intros (H&K&_). split; [exact H|exact K]. Qed.

Lemma pack_or_4gib prefix n : prefix < 256 -> (exists hd, struct_pack_BI prefix n = Ok hd) \/ struct_pack_BI prefix n = Raise beyond_4gib.
Proof. intro H. unfold struct_pack_BI. apply N.ltb_lt in H. rewrite H. cbn [andb]. destruct (n <? 4294967296); [left; eauto|right; reflexivity]. Qed.

Lemma trailer_block_scalar ps : unicode_pairs ps -> scalar_text (trailer_block ps).
Proof.
  intro H. unfold trailer_block, scalar_text. induction H as [|[k v] ps [Hk Hv] _ IH]; cbn [flat_map fst snd] in *; [constructor|].
  repeat (apply Forall_app; split); auto; apply ascii_scalar; repeat constructor; vm_compute; reflexivity.
Qed.

Lemma unicode_json ts : h_inv ts -> unicode_pairs (h_allitems ts) -> json_headers_ok ts.
Proof. intros _ F. unfold json_headers_ok. eapply Forall_impl; [|exact F]. intros kv [Hk Hv]. split; now apply scalar_json_ok. Qed.

Lemma grpc_trailers_unicode sc ts w : status_codec_ok sc -> h_inv ts -> unicode_pairs (h_allitems ts) -> wire_err_ok w ->
  exists t, grpc_trailers sc ts w = Ok t /\ unicode_pairs (h_allitems t).
Proof.
  intros Sc I F W. assert (E : exists t, grpc_trailers sc ts w = Ok t).
  { destruct w as [w|]; [|eexists; reflexivity]. destruct (grpc_trailers_ok sc ts w Sc I (proj2 W)) as (t&E&_). eauto. }
  destruct E as [t E]. exists t. split; [exact E|]. unfold unicode_pairs. eapply grpc_trailers_all; eauto.
  - destruct w; [exact (proj2 W)|exact Logic.I].
  - intros k v Hk Hv. cbn [fst snd]. split; apply ascii_scalar; [now apply ascii_reserved|now apply plain_ascii].
Qed.

Lemma writer_end_unicode sc p z ts w : status_codec_ok sc -> h_inv ts -> unicode_pairs (h_allitems ts) -> wire_err_ok w ->
  (forall b, exists d, z_compress z b = Ok d) ->
  (exists em, writer_end sc p z ts w = Ok em /\ match em with EndBytes _ => True | EndTrailers t => exists hs, encode_pairs (h_allitems t) = Ok hs end)
  \/ writer_end sc p z ts w = Raise beyond_4gib.
Proof.
  intros Sc I F W Z.
  assert (P : forall n, n < 255 -> N.lor (writer_prefix (Some z)) n < 256).
  { intros n Hn. assert (writer_prefix (Some z) <= 1) by (cbn; destruct (z_identity z); lia).
    destruct (N.eq_dec (N.lor (writer_prefix (Some z)) n) 0) as [->|Hz]; [lia|].
    apply N.log2_lt_pow2 with (b := 8); [lia|]. rewrite N.log2_lor. apply N.max_lub_lt.
    - apply N.le_lt_trans with (N.log2 1); [now apply N.log2_le_mono|vm_compute; reflexivity].
    - apply N.le_lt_trans with (N.log2 255); [apply N.log2_le_mono; lia|vm_compute; reflexivity]. }
  unfold writer_end. destruct p.
  - unfold connect_end. destruct (dumps_end_roundtrip None ts w I (unicode_json ts I F)) as [J _]; [destruct w; [exact (proj1 W)|exact Logic.I]|].
    rewrite (json_bytes_ok _ J). cbn [bind maybe_compress]. destruct (Z (json_dumps (connect_end_json ts w))) as [d ->]. cbn [bind].
    destruct (pack_or_4gib (N.lor (writer_prefix (Some z)) 2) (lenN d) (P 2 eq_refl)) as [[hd ->]| ->]; cbn [bind]; [left; eexists; split; [reflexivity|exact Logic.I]|right; reflexivity].
  - destruct (grpc_trailers_unicode sc ts w Sc I F W) as (t&->&U). cbn [bind]. left. eexists. split; [reflexivity|]. now apply unicode_encodes.
  - unfold grpc_web_end. destruct (grpc_trailers_unicode sc ts w Sc I F W) as (t&->&U). cbn [bind].
    destruct (utf8_encode_some _ (trailer_block_scalar _ U)) as [b ->]. cbn [bind maybe_compress]. destruct (Z b) as [d ->]. cbn [bind].
    destruct (pack_or_4gib (N.lor (writer_prefix (Some z)) 128) (lenN d) (P 128 eq_refl)) as [[hd ->]| ->]; cbn [bind]; [left; eexists; split; [reflexivity|exact Logic.I]|right; reflexivity].
Qed.

(** ** What reading the request raises *)
Lemma low_lit (s : pystr) : forallb (fun c => c <? 128) s = true -> Forall (fun c => c < 128) s.
Proof. rewrite forallb_forall, Forall_forall. intros H x Hx. apply N.ltb_lt. now apply H. Qed.
Ltac low_chars :=
  repeat match goal with
         | |- Forall _ (_ ++ _) => apply Forall_app; split
         | |- Forall _ (dec_of_N _) => apply digits_lt
         | |- Forall _ (_ :: _) => apply Forall_cons; [vm_compute; reflexivity|]
         | |- Forall _ _ => apply low_lit; vm_compute; reflexivity
         end.

Definition conf_ok {M} (cf : rconf M) : Prop :=
  rc_kind cf = RBase /\ (forall b e, z_decompress (rc_comp cf) b = Raise e -> unicode_error e) /\ (forall b e, rc_dec cf b = Raise e -> unicode_error e).

Lemma read_frame_unicode {M} (cf : rconf M) n d r e r' : conf_ok cf -> read_frame cf n d r = (FErr e, r') -> unicode_error e.
Proof.
  intros (K&Z&D) E. unfold read_frame in E. cbv zeta in E.
  destruct (if N.testbit n 0 then _ else Ok d) as [y|x] eqn:Y.
  - destruct (match rc_max cf with Some m => m <? lenN y | None => false end).
    + injection E as <- _. apply unicode_connect. low_chars.
    + rewrite K in E. cbn [handle_end] in E. destruct (rc_dec cf y) as [m|x] eqn:Dx; [discriminate|]. injection E as <- _. eauto.
  - injection E as <- _. destruct (N.testbit n 0); [|discriminate]. destruct (z_identity (rc_comp cf)).
    + injection Y as <-. apply unicode_connect. low_chars.
    + eauto.
Qed.

Lemma read_loop_unicode {M} (cf : rconf M) : conf_ok cf -> forall fuel r ms e r', read_loop fuel cf r = (ms, Some e, r') -> unicode_error e.
Proof.
  intro C. induction fuel as [|f IH]; intros r ms e r' E; [discriminate|]. cbn [read_loop] in E.
  destruct (r_buf r) as [|c b]; [discriminate|]. destruct (r_next r) as [n|].
  - destruct (lenN (c :: b) <? n + 5); [discriminate|]. cbv zeta in E.
    destruct (read_frame cf c _ _) as [[m| |x] r1] eqn:F; [|discriminate|injection E as _ <- _; eapply read_frame_unicode; eauto].
    destruct (peek_len r1) as [r2|]; [|discriminate]. destruct (read_loop f cf r2) as [[ms2 e2] r3] eqn:L. injection E as _ -> _. eauto.
  - destruct (peek_len r) as [r2|]; [|discriminate]. eauto.
Qed.

Lemma feed_all_unicode {M} (cf : rconf M) : conf_ok cf -> forall chunks r ms e r', feed_all cf r chunks = (ms, Some e, r') -> unicode_error e.
Proof.
  intro C. induction chunks as [|c cs IH]; intros r ms e r' E; [discriminate|]. cbn [feed_all] in E.
  destruct (feed cf r c) as [[m1 e1] r1] eqn:F. destruct e1 as [x|].
  - injection E as _ <- _. unfold feed in F. eapply read_loop_unicode; eauto.
  - destruct (feed_all cf r1 cs) as [[m2 e2] r2] eqn:G. injection E as _ -> _. eauto.
Qed.

Lemma single_ok {A} (ps : pulls A) e : pulls_ok ps -> consume_single_request ps = Raise e -> unicode_error e.
Proof.
  destruct ps as [[|a [|b l]] [x|]]; unfold pulls_ok; cbn; intros H [= <-]; auto; apply unicode_connect; low_chars.
Qed.

Section Codec.
  Context {A B : Type} (cancel : bool) (ap : app A B).
  Hypothesis U : unicode_app cancel ap.

  Lemma request_comp_ok p hs rz : fst (negotiate_stream_compression p hs (ap_comps ap)) = Some rz ->
    forall b e, z_decompress rz b = Raise e -> unicode_error e.
  Proof.
    destruct U as (_&_&Uz&_). unfold negotiate_stream_compression. cbn [fst]. intros E b e D.
    destruct (dget (ap_comps ap) (h_get_default hs (compression_header_name p) (lit "identity"))) as [z|] eqn:G.
    - assert (z = rz) by (destruct p; congruence). subst. apply (proj1 (proj2 (Uz _ _ G)) _ _ D).
    - destruct p; try discriminate. injection E as <-. discriminate.
  Qed.
  Lemma response_comp_ok p hs : let z := snd (negotiate_stream_compression p hs (ap_comps ap)) in
    scalar_text (z_name z) /\ forall b, exists d, z_compress z b = Ok d.
  Proof.
    destruct U as (_&_&Uz&_). unfold negotiate_stream_compression. cbn [snd]. unfold negotiate_compression.
    destruct (negotiated_known (ap_comps ap) (split_on 44 (h_get_default hs (accept_header_name p) []))) as [[n D]| ->].
    - split; [apply (Uz _ _ D)|apply (Uz _ _ D)].
    - split; [repeat constructor; vm_compute; reflexivity|]. intro b. exists b. reflexivity.
  Qed.

  Lemma recv_unicode l : unicode_recv l -> forall cs i, read_body l = (cs, Some i) -> match i with IExn e => unicode_error e | ICancel => True end.
  Proof.
    induction 1 as [|r l Hr Hl IH]; intros cs i E; cbn in E.
    - injection E as _ <-. apply unicode_connect. low_chars.
    - destruct r as [b m| | |e|].
      + destruct m; [|discriminate]. destruct (read_body l) as [bs x] eqn:R. injection E as _ ->. exact (IH _ _ eq_refl).
      + injection E as _ <-. apply unicode_connect. low_chars.
      + injection E as _ <-. apply unicode_connect. low_chars.
      + injection E as _ <-. exact Hr.
      + injection E as _ <-. exact I.
  Qed.

  Lemma request_stream_ok n k rz en : dget (ap_codecs ap) n = Some k ->
    (forall b e, z_decompress rz b = Raise e -> unicode_error e) -> unicode_env en -> pulls_ok (request_stream ap k rz en).
  Proof.
    intros D Z [R _]. destruct U as (_&Uk&_). destruct (Uk _ _ D) as (_&Dk&_). unfold request_stream.
    destruct (read_body (en_recv en)) as [chunks fin] eqn:Rb.
    destruct (feed_all _ (reader_new None) chunks) as [[ms e] r] eqn:F.
    assert (W : unicode_error was_cancelled) by (apply unicode_connect; low_chars).
    assert (E : match (match e with
           | Some x => Some x
           | None => match fin with
                     | None => None
                     | Some (IExn x) => Some x
                     | Some ICancel => Some was_cancelled
                     end
           end) with Some e => unicode_error e | None => True end).
    { destruct e as [x|].
      - eapply feed_all_unicode; [|exact F]. split; [reflexivity|split; [exact Z|exact Dk]].
      - destruct fin as [[x|]|]; [exact (recv_unicode _ R _ _ Rb)|exact W|exact I]. }
    destruct (en_cut en) as [[|m]|]; [exact E| |exact E]. destruct (Nat.ltb m (List.length ms)); [exact W|exact E].
  Qed.
End Codec.

(** ** ASGI *)
Lemma stream_headers_ok p name zname rs : scalar_text name -> scalar_text zname -> rs_ok rs ->
  exists hs, encode_pairs (stream_headers p name zname rs) = Ok hs.
Proof.
  intros N1 N2 (_&_&F&_). apply unicode_encodes. unfold stream_headers. constructor; [|constructor; [|exact F]]; cbn [fst snd].
  - split; [apply ascii_scalar; low_chars|]. unfold server_content_type.
    destruct p; repeat (apply Forall_app; split); try exact N1; apply ascii_scalar; low_chars.
  - split; [destruct p; apply ascii_scalar; apply low_lit; reflexivity|exact N2].
Qed.

Lemma write_unicode {A B} (k : codec A B) (z : compression) (b : B) e : (forall m e, k_enc_res k m = Raise e -> unicode_error e) ->
  (forall b, exists d, z_compress z b = Ok d) -> write_message (k_enc_res k) (Some z) b = Raise e -> unicode_error e.
Proof.
  intros K Z E. unfold write_message in E. destruct (k_enc_res k b) as [d|x] eqn:D; cbn [bind] in E; [|injection E as <-; eauto].
  cbn [maybe_compress] in E. destruct (Z d) as [d' Hd]. rewrite Hd in E. cbn [bind] in E.
  assert (P : writer_prefix (Some z) < 256) by (cbn; destruct (z_identity z); lia).
  destruct (pack_or_4gib _ (lenN d') P) as [[hd X]|X]; rewrite X in E; cbn [bind] in E; [discriminate|]. injection E as <-.
  apply unicode_other. low_chars.
Qed.

Section Asgi.
  Context {A B : Type} (cancel : bool) (ap : app A B).
  Hypothesis U : unicode_app cancel ap.
  Variables (k : codec A B) (n : pystr).
  Hypothesis D : dget (ap_codecs ap) n = Some k.

  Lemma codec_ok : scalar_text (k_name k) /\ (forall m e, k_enc_res k m = Raise e -> unicode_error e).
  Proof. destruct U as (_&Uk&_). destruct (Uk _ _ D) as (N1&_&N2). auto. Qed.

  Lemma stream_loop_unicode {Q} o seen mon p z (g : prog Q B unit) ps rs s : sends_ok o -> scalar_text (z_name z) ->
    (forall b, exists d, z_compress z b = Ok d) -> match mon with Some e => unicode_error e | None => True end ->
    unicode_prog cancel g -> pulls_ok ps -> rs_ok rs ->
    let '(_, rs', i) := stream_loop o seen mon p (k_name k) (k_enc_res k) z g ps rs s in
    rs_ok rs' /\ match i with Some (IExn e) => unicode_error e | _ => True end.
  Proof.
    intros So Zn Zc Hm G P R. destruct codec_ok as [Kn Ke]. unfold stream_loop.
    pose proof (drive_unicode cancel (stream_body o seen p (k_name k) (k_enc_res k) z) g) as H.
    assert (Hb : forall s rs b s' i, rs_ok rs -> stream_body o seen p (k_name k) (k_enc_res k) z s rs b = (s', Some i) -> unicode_int cancel i).
    { intros s0 rs0 b s' i R0 E. unfold stream_body in E. cbv zeta in E. destruct (seen (ls_i s0)).
      - injection E as _ <-. apply unicode_connect. low_chars.
      - assert (X : exists a, (if ls_sent s0 then (ls_a s0, inl tt) else send_stream_headers o p (k_name k) (z_name z) rs0 (ls_a s0)) = (a, inl tt)).
        { destruct (ls_sent s0); [eauto|]. unfold send_stream_headers. destruct (stream_headers_ok p _ _ rs0 Kn Zn R0) as [hs Eh].
          rewrite (io_bind_ok _ _ _ _ _ (io_res_ok _ _ _ Eh)). rewrite (sends_ok_send _ _ _ So). eauto. }
        destruct X as [a X]. rewrite X in E.
        destruct (write_message (k_enc_res k) (Some z) b) as [body|x] eqn:W.
        + rewrite (io_bind_ok _ _ _ _ _ (io_res_ok _ _ _ eq_refl)), (sends_ok_send _ _ _ So) in E. discriminate.
        + rewrite (io_bind_err _ _ _ _ _ (io_res_raise _ _ _ eq_refl)) in E. injection E as _ <-. cbn [unicode_int]. eapply write_unicode; eauto. }
    specialize (H Hb ps rs s G P R). destruct (drive _ g ps rs s) as [[s' rs'] e]. destruct H as [R' E]. destruct mon as [x|]; [auto|].
    destruct e as [|i|i c]; cbn [end_ok] in E.
    - auto.
    - split; [exact R'|]. destruct i; [exact E|exact I].
    - destruct E as [E (C1&C2&C3)]. split.
      + destruct R' as (I1&I2&F1&F2). unfold run_hops, rs_ok. cbn [rs_h rs_t]. auto using h_inv_run, unicode_run.
      + destruct (cl_raise c) as [[x|]|]; [exact C3|exact I|]. destruct i; [exact E|exact I].
  Qed.

  Lemma stream_try_unicode en p ep hs cx path : dget (ap_endpoints ap) path = Some ep -> sends_ok (en_send en) -> unicode_env en ->
    let (req, z) := negotiate_stream_compression p hs (ap_comps ap) in
    let '(_, (_, rs, i)) := stream_try ap en p ep k req z cx (mk_lst (mk_ast 0 []) false 0) in
    rs_ok rs /\ match i with Some (IExn e) => unicode_error e | _ => True end.
  Proof.
    intros Hp So Ue. pose proof (request_comp_ok cancel ap U p hs) as Rz. pose proof (response_comp_ok cancel ap U p hs) as Wz.
    destruct (negotiate_stream_compression p hs (ap_comps ap)) as [req z]. cbn [fst snd] in *. cbv zeta in Wz. destruct Wz as [Zn Zc].
    unfold stream_try. destruct req as [rz|].
    2:{ split; [apply rs_ok_new|]. apply unicode_connect. low_chars. }
    pose proof (request_stream_ok cancel ap U n k rz en D (Rz rz eq_refl) Ue) as P.
    destruct U as (Uep&_). specialize (Uep _ _ Hp).
    assert (P0 : forall T, pulls_ok (([], None) : pulls T)) by (intro T; exact I).
    assert (Single : forall b rs s, rs_ok rs ->
      let '(_, rs', i) := stream_loop (en_send en) (fun _ => false) None p (k_name k) (k_enc_res k) z (@single_response A B b) ([], None) rs s in
      rs_ok rs' /\ match i with Some (IExn e) => unicode_error e | _ => True end).
    { intros b rs s R. apply stream_loop_unicode; auto; try exact I. cbn. repeat split; constructor. }
    destruct ep as [m f|m f|m f|m f]; cbn [unicode_endpoint] in Uep.
    - destruct (consume_single_request _) as [a|e] eqn:C; [|split; [apply rs_ok_new|exact (single_ok _ _ P C)]].
      pose proof (run_fn_unicode cancel (f a cx) ([], None) rs_new (Uep a cx) (P0 _) rs_ok_new) as H.
      destruct (run_fn (f a cx) _ _) as [[b|i] rs]; [apply Single, H|]. destruct H as [H R]. split; [exact R|]. destruct i; [exact H|exact I].
    - pose proof (run_fn_unicode cancel (f cx) (request_stream ap k rz en) rs_new (Uep cx) P rs_ok_new) as H.
      destruct (run_fn (f cx) _ _) as [[b|i] rs]; [apply Single, H|]. destruct H as [H R]. split; [exact R|]. destruct i; [exact H|exact I].
    - destruct (consume_single_request _) as [a|e] eqn:C; [|split; [apply rs_ok_new|exact (single_ok _ _ P C)]].
      apply stream_loop_unicode; auto using rs_ok_new; try apply P0. destruct Ue as [_ Uw]. destruct (en_watch en); auto.
    - apply stream_loop_unicode; auto using rs_ok_new; try exact I.
  Qed.

  Lemma handle_stream_answered en p ep hs cx path : dget (ap_endpoints ap) path = Some ep -> sends_ok (en_send en) -> unicode_env en ->
    asgi_complete (ar_events (handle_stream ap en p ep k hs cx)) \/ ar_out (handle_stream ap en p ep k hs cx) = ARaise beyond_4gib.
  Proof.
    intros Hp So Ue. unfold handle_stream. pose proof (stream_try_unicode en p ep hs cx path Hp So Ue) as T.
    pose proof (response_comp_ok cancel ap U p hs) as Wz. destruct codec_ok as [Kn _].
    destruct (negotiate_stream_compression p hs (ap_comps ap)) as [req z]. cbn [snd] in Wz. cbv zeta in Wz. destruct Wz as [Zn Zc].
    pose proof (stream_try_inv ap en p ep k req z cx) as H.
    destruct (stream_try ap en p ep k req z cx _) as [inv [[s rs] i]]. destruct T as [R E].
    unfold stream_finally. cbv zeta. set (error := match i with Some (IExn e) => Some e | _ => None end).
    assert (W : wire_err_ok (option_map we_from_exception error)).
    { subst error. destruct i as [[e|]|]; try exact I. now apply unicode_wire. }
    pose proof R as (I1&I2&F1&F2).
    destruct (writer_end_unicode (ap_sc ap) p z (rs_t rs) (option_map we_from_exception error)) as [(em&Em&Ht)|Em]; auto.
    { apply U. }
    2:{ right. rewrite (io_bind_err _ _ _ _ _ (io_res_raise _ _ _ Em)). reflexivity. }
    left. pose proof (writer_end_kind _ _ _ _ _ _ Em) as Hk.
    rewrite (io_bind_ok _ _ _ _ _ (io_res_ok _ _ _ Em)).
    assert (K : exists a, (if ls_sent s then io_ret tt else send_stream_headers (en_send en) p (k_name k) (z_name z) rs) (ls_a s) = (a, inl tt)
                 /\ streaming p true (as_ev a)).
    { destruct (ls_sent s) eqn:Es; [exists (ls_a s); split; [reflexivity|exact H]|].
      unfold send_stream_headers. destruct (stream_headers_ok p _ _ rs Kn Zn R) as [hs' Eh].
      rewrite (io_bind_ok _ _ _ _ _ (io_res_ok _ _ _ Eh)). rewrite (sends_ok_send _ _ _ So). eexists. split; [reflexivity|].
      cbn [streaming] in H. cbn [as_ev]. rewrite H. exists hs', []. reflexivity. }
    destruct K as (a&Ka&hs'&chunks&Ks). rewrite (io_bind_ok _ _ _ _ _ Ka).
    assert (T : forall a', asgi_complete (as_ev a') ->
              asgi_complete (ar_events (let (a, r) := (match error with
               | Some e => if is_connect e then io_ret tt else io_raise (IExn e)
               | None => match i with Some ICancel => io_raise (IExn was_cancelled) | _ => io_ret tt end
               end) a' in mk_ar inv (as_ev a) (aout_of r)))).
    { intros a' Hc. destruct error as [e|]; [destruct (is_connect e)|destruct i as [[]|]]; exact Hc. }
    destruct em as [b|h].
    - rewrite (io_bind_ok _ _ _ _ _ (sends_ok_send _ _ _ So)). apply T.
      exists 200, hs', (List.concat chunks ++ b), None, chunks, b. cbn [as_ev]. rewrite Ks, Hk. auto.
    - destruct Ht as [ts Ht].
      rewrite (io_bind_ok _ _ a (mk_ast (S (S (as_n a))) ((as_ev a ++ [EvBody [] false]) ++ [EvTrailers ts])) tt).
      2:{ rewrite (io_bind_ok _ _ _ _ _ (sends_ok_send _ _ _ So)), (io_bind_ok _ _ _ _ _ (io_res_ok _ _ _ Ht)).
          rewrite (sends_ok_send _ _ _ So); reflexivity. }
      apply T. exists 200, hs', (List.concat chunks ++ []), (Some ts), chunks, []. cbn [as_ev]. rewrite Ks, Hk. split; [|reflexivity].
      cbn. now rewrite <- !app_assoc.
  Qed.
End Asgi.

Lemma open_endpoint {A B} (ap : app A B) now sc ep hs p cx : open_request ap now sc = Ok (ep, hs, p, cx) ->
  exists path, dget (ap_endpoints ap) path = Some ep.
Proof.
  unfold open_request. destruct (find_endpoint ap sc) as [ep'|e] eqn:F; cbn [bind]; [|discriminate]. intro E.
  assert (ep' = ep).
  { destruct (process_headers h_empty (sc_headers sc)); cbn [bind] in E; [|discriminate]. cbv zeta in E.
    destruct (uses_trailers _ && _); [discriminate|]. destruct (server_create_context _ _ _ _ _ _ _); cbn [bind] in E; [|discriminate]. congruence. }
  subst ep'. unfold find_endpoint in F. destruct (dget (ap_endpoints ap) (sc_path sc)) eqn:D1; [injection F as ->; eauto|].
  destruct (sc_root sc) as [[|c r]|]; [discriminate| |discriminate].
  destruct (dget (ap_endpoints ap) (removeprefix (c :: r) (sc_path sc))) eqn:D2; [injection F as ->; eauto|discriminate].
Qed.

Lemma unicode_answerable e : unicode_error e -> answerable e.
Proof.
  intros (H&_&K). assert (J : exists b, we_to_json_bytes (we_from_exception e) = Ok b).
  { unfold we_to_json_bytes. rewrite json_bytes_ok; [eauto|]. now apply we_json_ok. }
  destruct e as [c m ds|st hs|kd m]; cbn [answerable]; [exact J|now apply unicode_encodes|exact J].
Qed.

Lemma context_headers_ok rs : rs_ok rs -> exists hs, encode_pairs (context_headers rs) = Ok hs.
Proof.
  intros (_&_&F&G). apply unicode_encodes. unfold context_headers. apply Forall_app. split; [exact F|]. apply Forall_map.
  eapply Forall_impl; [|exact G]. intros kv [Hk Hv]. cbn [fst snd]. split; [|exact Hv]. apply Forall_app. split; [|exact Hk].
  apply ascii_scalar. low_chars.
Qed.

Lemma unicode_tame_method {A B} (f : A -> req_ctx -> prog Empty_set Empty_set B) : (forall a cx, unicode_prog false (f a cx)) -> tame_method f.
Proof.
  intros H a cx. pose proof (run_fn_unicode false (f a cx) ([], None) rs_new (H a cx) I rs_ok_new) as R.
  destruct (run_fn (f a cx) ([], None) rs_new) as [[b|[e|]] rs].
  - now apply context_headers_ok.
  - destruct R as [R1 R2]. split; [now apply unicode_answerable|now apply context_headers_ok].
  - destruct R as [R _]. discriminate.
Qed.

Lemma unicode_tame_app {A B} cancel (ap : app A B) : unicode_app cancel ap -> tame_app ap.
Proof.
  intros (_&Uk&Uz&_). split.
  - intros n k D. destruct (Uk _ _ D) as (_&K1&K2). split; intros; apply unicode_answerable; eauto.
  - intros n z D. destruct (Uz _ _ D) as (_&K1&K2). split; [intros; apply unicode_answerable; eauto|].
    intros b e E. destruct (K2 b) as [d X]. congruence.
Qed.

Lemma stream_answered {A B} cancel (ap : app A B) now sc en ep hs p cx :
  unicode_app cancel ap -> unicode_env en -> sends_ok (en_send en) ->
  open_request ap now sc = Ok (ep, hs, p, cx) -> (is_unary ep = false \/ p <> PConnect) ->
  asgi_complete (ar_events (asgi_call ap now sc en)) \/ ar_out (asgi_call ap now sc en) = ARaise beyond_4gib.
Proof.
  intros U Ue So O Hs. unfold asgi_call. rewrite O. destruct (select_codec ap sc ep hs p) as [[params k]|e] eqn:S.
  - destruct (select_codec_known _ _ _ _ _ _ _ S) as [n Hk]. destruct (open_endpoint _ _ _ _ _ _ _ O) as [path Hp].
    assert (K : match ep, p with
          | EpUnary _ f, PConnect =>
              match handle_unary_connect ap en (sc_method sc) hs k params f cx (mk_ast 0 []) with
              | (inv, rs, (s, inl _)) => mk_ar inv (as_ev s) AReturn
              | (inv, rs, (s, inr ICancel)) => mk_ar inv (as_ev s) ACancelled
              | (inv, rs, (s, inr (IExn e))) => call_error en inv s e (Some rs)
              end
          | _, _ => handle_stream ap en p ep k hs cx
          end = handle_stream ap en p ep k hs cx).
    { destruct ep; try reflexivity. destruct p; try reflexivity. destruct Hs as [Hs|Hs]; [discriminate|congruence]. }
    rewrite K. eapply handle_stream_answered; eauto.
  - left. destruct (call_error_ok (A := A) en [] 0 e (Some rs_new) So (select_codec_raise _ _ _ _ _ _ S)) as (st&h&body&->&_); [now exists []|].
    exists st, h, body, None, [], body. auto.
Qed.

(** Requests for streams, and for unary methods over gRPC or gRPC-Web: cancelled or not, whatever the bytes of the request and
    whatever is raised by the method, the codecs, the decompression and [receive]. *)
Theorem C91_asgi_stream {A B} (ap : app A B) now sc en ep hs p cx :
  unicode_app true ap -> unicode_env en -> sends_ok (en_send en) ->
  open_request ap now sc = Ok (ep, hs, p, cx) -> (is_unary ep = false \/ p <> PConnect) ->
  asgi_complete (ar_events (asgi_call ap now sc en)) \/ ar_out (asgi_call ap now sc en) = ARaise beyond_4gib.
Proof. apply stream_answered. Qed.
Print Assumptions C91_asgi_stream.

(** Any request that is not cancelled, valid or not. *)
Theorem C91_asgi {A B} (ap : app A B) now sc en :
  unicode_app false ap -> unicode_env en -> ~ In RCancel (en_recv en) -> sends_ok (en_send en) ->
  asgi_complete (ar_events (asgi_call ap now sc en)) \/ ar_out (asgi_call ap now sc en) = ARaise beyond_4gib.
Proof.
  intros U Ue Nc So. destruct (open_request ap now sc) as [[[[ep hs] p] cx]|e] eqn:O.
  2:{ left. unfold asgi_call. rewrite O. destruct (call_error_ok (A := A) en [] 0 e None So (open_request_raise _ _ _ _ O) I) as (st&h&body&->&_).
      exists st, h, body, None, [], body. auto. }
  assert (X : (is_unary ep = true /\ p = PConnect) \/ (is_unary ep = false \/ p <> PConnect)).
  { destruct (is_unary ep); [|auto]. destruct p; [left; auto|right; right; discriminate..]. }
  destruct X as [[Hu ->]|Hs].
  - left. apply C56_asgi_answered; auto.
    + eapply unicode_tame_app; eauto.
    + unfold tame_recv. destruct Ue as [Ur _]. unfold unicode_recv in Ur. rewrite Forall_forall in *. intros r Hr. specialize (Ur r Hr).
      destruct r; auto. now apply unicode_answerable.
    + intros ep' hs' p' cx' O'. rewrite O in O'. injection O' as <- <- <- <-. destruct ep as [m f|m f|m f|m f]; try discriminate.
      apply unicode_tame_method. destruct (open_endpoint _ _ _ _ _ _ _ O) as [path Hp]. exact (proj1 U _ _ Hp).
  - eapply stream_answered; eauto.
Qed.
Print Assumptions C91_asgi.

(** ** WSGI *)
Lemma end_response_unicode sc p z rs err : status_codec_ok sc -> rs_ok rs -> match err with Some e => unicode_error e | None => True end ->
  (forall b, exists d, z_compress z b = Ok d) ->
  (exists fin, end_response sc p z (rs_t rs) err = Ok fin /\ ((exists b, fin = [WBody b]) \/ exists t, fin = [WTrailers t; WBody []]))
  \/ end_response sc p z (rs_t rs) err = Raise beyond_4gib.
Proof.
  intros Sc (I1&I2&F1&F2) E Z. unfold end_response.
  assert (W : wire_err_ok (option_map we_from_exception err)) by (destruct err; [now apply unicode_wire|exact I]).
  destruct (writer_end_unicode sc p z (rs_t rs) _ Sc I2 F2 W Z) as [(em&->&_)| ->]; cbn [bind]; [left|right; reflexivity].
  destruct em; eexists; (split; [reflexivity|]); eauto.
Qed.

Definition answered {A} (r : wsgi_result A) : Prop :=
  wr_out r = WReturn /\ exists status hs body ts, wsgi_response (wr_events r) status hs body ts.
Definition gave_up {A} (r : wsgi_result A) : Prop := wr_out r = WExn beyond_4gib \/ In (WLog beyond_4gib) (wr_events r).

(** What [__call__] does with what its handlers leave. *)
Definition wsgi_close {A} (q : wsgi_request) (h : whandled A) : wsgi_result A :=
  match h with
  | (inv, rs, ev, None) => mk_wr inv ev WReturn
  | (inv, rs, ev, Some ICancel) => mk_wr inv ev WBase
  | (inv, rs, ev, Some (IExn e)) => wsgi_call_error q inv ev e (Some rs)
  end.

Lemma without_bodies frs rest : without_logs (map WBody frs ++ rest) = map WBody frs ++ without_logs rest.
Proof. induction frs as [|f frs IH]; [reflexivity|]. cbn. now rewrite IH. Qed.

Lemma finished_response hs frs fin (log : list wevent) : without_logs log = [] ->
  ((exists b, fin = [WBody b]) \/ exists t, fin = [WTrailers t; WBody []]) ->
  exists status hs' body ts, wsgi_response (log ++ (WStart (lit "200 OK") hs :: map WBody frs) ++ fin) status hs' body ts.
Proof.
  intros L F. assert (W : forall l, without_logs (log ++ l) = without_logs l).
  { clear F. induction log as [|e log IH]; intro l; [reflexivity|]. destruct e; cbn in *; try discriminate. now apply IH. }
  destruct F as [(b&->)|(t&->)].
  - exists (lit "200 OK"), hs, (List.concat frs ++ b), None, frs, [b]. split; [|now cbn; rewrite app_nil_r].
    rewrite W. cbn [List.app without_logs]. rewrite without_bodies. reflexivity.
  - exists (lit "200 OK"), hs, (List.concat frs ++ []), (Some t), frs, [[]]. split; [|reflexivity].
    rewrite W. cbn [List.app without_logs]. rewrite without_bodies. reflexivity.
Qed.

Lemma call_error_keeps {A} q (inv : list (invoked A)) ev e ctx x : In x ev -> In x (wr_events (wsgi_call_error q inv ev e ctx)).
Proof.
  intro H. unfold wsgi_call_error. destruct (drain q 1); [exact H|]. destruct (wsgi_handle_error e ctx); cbn [wr_events]; repeat (apply in_or_app; left); exact H.
Qed.

Lemma maybe_log_none e : without_logs (maybe_log e) = [].
Proof. unfold maybe_log. destruct (_ || _); reflexivity. Qed.

Section Wsgi.
  Context {A B : Type} (ap : app A B) (q : wsgi_request).
  Hypothesis U : unicode_app false ap.
  Hypothesis Ui : unicode_input (wq_input q).
  Hypothesis Dr : forall n, drain q n = None.

  Lemma wsgi_stream_error_answered p name z inv rs e : (forall b, exists d, z_compress z b = Ok d) -> rs_ok rs -> unicode_error e ->
    answered (wsgi_close q (wsgi_stream_error (A := A) ap q p name z inv rs [] e))
    \/ gave_up (wsgi_close q (wsgi_stream_error (A := A) ap q p name z inv rs [] e)).
  Proof.
    intros Z R E. unfold wsgi_stream_error. rewrite Dr. cbv zeta.
    destruct (end_response_unicode (ap_sc ap) p z rs (Some e)) as [(fin&->&F)| ->]; auto; [apply U| |].
    - left. split; [reflexivity|]. cbn [wsgi_close wr_events List.app].
      destruct (finished_response (stream_headers p name (z_name z) rs) [] fin (maybe_log e) (maybe_log_none e) F) as (st&h&b&ts&W).
      exists st, h, b, ts. cbn [map] in W. rewrite <- app_assoc. exact W.
    - right. cbn [wsgi_close List.app]. unfold wsgi_call_error. rewrite Dr. cbv zeta. right.
      destruct (wsgi_handle_error _ _); cbn [wr_events]; [apply in_or_app; left|]; apply in_or_app; right; left; reflexivity.
  Qed.

  Lemma wsgi_stream_error_logs p name z inv rs ev :
    gave_up (wsgi_close q (wsgi_stream_error (A := A) ap q p name z inv rs ev beyond_4gib)).
  Proof.
    unfold wsgi_stream_error. rewrite Dr. cbv zeta.
    assert (L : In (WLog beyond_4gib) (ev ++ maybe_log beyond_4gib ++ [WStart (lit "200 OK") (stream_headers p name (z_name z) rs)])).
    { apply in_or_app. right. left. reflexivity. }
    destruct (end_response _ _ _ _ _) as [fin|x]; cbn [wsgi_close]; right.
    - cbn [wr_events]. apply in_or_app. left. exact L.
    - apply call_error_keeps. exact L.
  Qed.

  Lemma wsgi_request_ok n k rz : dget (ap_codecs ap) n = Some k -> (forall b e, z_decompress rz b = Raise e -> unicode_error e) ->
    pulls_ok (wsgi_request_stream ap k rz q).
  Proof.
    intros D Z. destruct U as (_&Uk&_). destruct (Uk _ _ D) as (_&Dk&_). unfold wsgi_request_stream.
    destruct (wsgi_body q) as [chunks fin] eqn:Rb. destruct (feed_all _ (reader_new None) chunks) as [[ms e] r] eqn:F.
    unfold pulls_ok. cbn [snd]. destruct e as [x|].
    - eapply feed_all_unicode; [|exact F]. split; [reflexivity|split; [exact Z|exact Dk]].
    - destruct fin as [x|]; [|exact I]. apply read_chunks_raise in Rb. unfold unicode_input in Ui. rewrite Forall_forall in Ui. exact (Ui _ Rb).
  Qed.

  Lemma wsgi_run_ok path n p ep k z ps cx : dget (ap_endpoints ap) path = Some ep -> dget (ap_codecs ap) n = Some k ->
    (forall b, exists d, z_compress z b = Ok d) -> pulls_ok ps ->
    let '(_, (_, rs, e)) := wsgi_run p ep k z ps cx in rs_ok rs /\ end_ok false e.
  Proof.
    intros Hp D Z P. destruct U as (Uep&Uk&_). specialize (Uep _ _ Hp). destruct (Uk _ _ D) as (_&_&Ke).
    assert (Hb : forall s rs b s' i, rs_ok rs -> wsgi_body_step p (k_name k) (k_enc_res k) z s rs b = (s', Some i) -> unicode_int false i).
    { intros s rs b s' i _ E. unfold wsgi_body_step in E. cbv zeta in E. destruct (write_message (k_enc_res k) (Some z) b) as [body|x] eqn:W; [discriminate|].
      injection E as _ <-. cbn [unicode_int]. eapply write_unicode; eauto. }
    assert (Dv : forall Q (g : prog Q B unit) ps rs, unicode_prog false g -> pulls_ok ps -> rs_ok rs ->
      let '(_, rs', e) := drive (wsgi_body_step p (k_name k) (k_enc_res k) z) g ps rs (mk_wst [] false) in rs_ok rs' /\ end_ok false e).
    { intros Q g ps0 rs G P0 R. apply drive_unicode; auto. }
    assert (Sg : forall b, unicode_prog false (@single_response A B b)) by (intro b; cbn; repeat split; constructor).
    unfold wsgi_run. cbv zeta. destruct ep as [m f|m f|m f|m f]; cbn [unicode_endpoint] in Uep.
    - destruct (consume_single_request ps) as [a|e] eqn:C; [|split; [apply rs_ok_new|exact (single_ok _ _ P C)]].
      pose proof (run_fn_unicode false (f a cx) ([], None) rs_new (Uep a cx) I rs_ok_new) as H.
      destruct (run_fn (f a cx) _ _) as [[b|i] rs]; [apply Dv; [apply Sg|exact I|exact H]|]. destruct H as [H R]. split; [exact R|exact H].
    - pose proof (run_fn_unicode false (f cx) ps rs_new (Uep cx) P rs_ok_new) as H.
      destruct (run_fn (f cx) _ _) as [[b|i] rs]; [apply Dv; [apply Sg|exact I|exact H]|]. destruct H as [H R]. split; [exact R|exact H].
    - destruct (consume_single_request ps) as [a|e] eqn:C; [|split; [apply rs_ok_new|exact (single_ok _ _ P C)]].
      apply Dv; [apply Uep|exact I|apply rs_ok_new].
    - apply Dv; [apply Uep|exact P|apply rs_ok_new].
  Qed.

  Lemma wsgi_stream_answered path p hs ep cx : dget (ap_endpoints ap) path = Some ep ->
    let r := match wsgi_stream ap q p hs ep cx with inr r => r | inl h => wsgi_close q h end in answered r \/ gave_up r.
  Proof.
    intro Hp. cbv zeta. unfold wsgi_stream. pose proof (request_comp_ok false ap U p hs) as Rz. pose proof (response_comp_ok false ap U p hs) as Wz.
    destruct (negotiate_stream_compression p hs (ap_comps ap)) as [req z]. cbn [fst snd] in *. cbv zeta in Wz. destruct Wz as [Zn Zc].
    set (name := codec_name_from_content_type p true _). destruct (dget (ap_codecs ap) name) as [k|] eqn:D.
    2:{ left. cbn [wsgi_close]. destruct (wsgi_error_answered (A := A) q [] (unsupported_media wsgi_accept_stream) (Some rs_new) (Dr 1)) as (E&st&h&b&W);
        [cbn; eexists; reflexivity|]. split; [exact E|]. exists st, h, b, None. exact W. }
    destruct req as [rz|].
    2:{ apply wsgi_stream_error_answered; auto using rs_ok_new. apply unicode_connect. low_chars. }
    pose proof (wsgi_request_ok name k rz D (Rz rz eq_refl)) as P.
    pose proof (wsgi_run_ok path name p ep k z (wsgi_request_stream ap k rz q) cx Hp D Zc P) as H.
    pose proof (wsgi_run_shape p ep k z (wsgi_request_stream ap k rz q) cx) as Sh.
    destruct (wsgi_run p ep k z (wsgi_request_stream ap k rz q) cx) as [inv [[s rs] e]]. destruct H as [R E].
    assert (Ei : match loop_interrupt e with Some (IExn x) => unicode_error x | Some ICancel => False | None => True end).
    { destruct e as [|[x|]|[x|] c]; cbn [loop_interrupt end_ok unicode_int] in *; auto; try discriminate; [apply E|destruct E as [E _]; discriminate]. }
    destruct (ws_started s) eqn:St; cbn [wshape] in Sh.
    - destruct Sh as (h0&frs&Ev). unfold response_stream_end. rewrite Dr.
      assert (Fin : forall err, match err with Some x => unicode_error x | None => True end ->
        let r := match end_response (ap_sc ap) p z (rs_t rs) err with
                 | Ok fin => mk_wr inv (ws_ev s ++ fin) WReturn
                 | Raise x => mk_wr inv (ws_ev s) (WExn x)
                 end in answered r \/ gave_up r).
      { intros err He. cbv zeta. destruct (end_response_unicode (ap_sc ap) p z rs err) as [(fin&->&F)| ->]; auto; [apply U| |right; left; reflexivity].
        left. split; [reflexivity|]. cbn [wr_events]. rewrite Ev. exact (finished_response h0 frs fin [] eq_refl F). }
      destruct (loop_interrupt e) as [[x|]|]; [apply (Fin (Some x) Ei)|contradiction|apply (Fin None I)].
    - rewrite Sh. destruct (loop_interrupt e) as [[x|]|]; [apply wsgi_stream_error_answered; auto|contradiction|]. cbv zeta.
      destruct (end_response_unicode (ap_sc ap) p z rs None) as [(fin&->&F)| ->]; auto; [apply U| |right; apply wsgi_stream_error_logs].
      left. split; [reflexivity|]. cbn [wsgi_close wr_events List.app].
      exact (finished_response (stream_headers p (k_name k) (z_name z) rs) [] fin [] eq_refl F).
  Qed.
End Wsgi.

Lemma wsgi_open_endpoint {A B} (ap : app A B) now q ep hs p cx : wsgi_open_request ap now q = Ok (ep, hs, p, cx) ->
  exists path, dget (ap_endpoints ap) path = Some ep.
Proof.
  unfold wsgi_open_request. destruct (wsgi_find_endpoint ap q) as [ep'|e] eqn:F; cbn [bind]; [|discriminate]. intro E.
  assert (ep' = ep).
  { destruct (env_item q "REQUEST_METHOD"); cbn [bind] in E; [|discriminate]. cbv zeta in E.
    destruct (uses_trailers _ && _); [discriminate|]. destruct (server_create_context _ _ _ _ _ _ _); cbn [bind] in E; [|discriminate]. congruence. }
  subst ep'. unfold wsgi_find_endpoint in F. destruct (env_item q "PATH_INFO") as [path|]; cbn [bind] in F; [|discriminate]. cbv zeta in F.
  destruct (dget (ap_endpoints ap) _) eqn:D1; [injection F as ->; eauto|].
  destruct (env_item q "SCRIPT_NAME") as [script|]; cbn [bind] in F; [|discriminate]. destruct (str_eqb script (ap_path ap)); [|discriminate].
  destruct (dget (ap_endpoints ap) (ap_path ap ++ _)) eqn:D2; [injection F as ->; eauto|discriminate].
Qed.

(** WSGI: any request whose method raises no [BaseException] such as SystemExit. *)
Theorem C91_wsgi {A B} (ap : app A B) now q :
  unicode_app false ap -> unicode_input (wq_input q) -> (forall n, drain q n = None) ->
  let r := wsgi_call ap now q in
  (wr_out r = WReturn /\ exists status hs body ts, wsgi_response (wr_events r) status hs body ts)
  \/ wr_out r = WExn beyond_4gib \/ In (WLog beyond_4gib) (wr_events r).
Proof.
  intros U Ui Dr. cbv zeta. fold (answered (wsgi_call ap now q)). fold (gave_up (wsgi_call ap now q)).
  destruct (wsgi_open_request ap now q) as [[[[ep hs] p] cx]|e] eqn:O.
  2:{ left. unfold wsgi_call. rewrite O. destruct (wsgi_error_answered (A := A) q [] e None (Dr 1%nat) (wsgi_open_raise _ _ _ _ O)) as (E&st&h&b&W).
      split; [exact E|]. exists st, h, b, None. exact W. }
  destruct (wsgi_open_endpoint _ _ _ _ _ _ _ O) as [path Hp].
  assert (X : (is_unary ep = true /\ p = PConnect) \/ (is_unary ep = false \/ p <> PConnect)).
  { destruct (is_unary ep); [|auto]. destruct p; [left; auto|right; right; discriminate..]. }
  destruct X as [[Hu ->]|Hs].
  - left. destruct (C56_wsgi_answered ap now q) as (E&st&h&b&W).
    + eapply unicode_tame_app; eauto.
    + unfold tame_input, unicode_input in *. rewrite Forall_forall in *. intros r Hr. specialize (Ui r Hr). destruct r; auto. now apply unicode_answerable.
    + apply Dr.
    + intros ep' hs' p' cx' O'. rewrite O in O'. injection O' as <- <- <- <-. destruct ep as [m f|m f|m f|m f]; try discriminate.
      apply unicode_tame_method. exact (proj1 U _ _ Hp).
    + split; [exact E|]. exists st, h, b, None. exact W.
  - unfold wsgi_call. rewrite O. pose proof (wsgi_stream_answered ap q U Ui Dr path p hs ep cx Hp) as H. cbv zeta in H.
    assert (K : match ep, p with
             | EpUnary _ f, PConnect => inl (wsgi_unary ap q (cx_http cx) f cx hs)
             | _, _ => wsgi_stream ap q p hs ep cx
             end = wsgi_stream ap q p hs ep cx).
    { destruct ep; try reflexivity. destruct p; try reflexivity. destruct Hs as [Hs|Hs]; [discriminate|congruence]. }
    rewrite K. destruct (wsgi_stream ap q p hs ep cx) as [[[[inv rs] ev] [[x|]|]]|r]; exact H.
Qed.
Print Assumptions C91_wsgi.

(** A service that yields two messages and raises: its requests meet the hypotheses, and it is answered in full. *)
Definition ex_reply (e : exn) : app pystr pystr :=
  app_new (lit "/pkg.Svc") [(lit "/pkg.Svc/Get", ex_two (IExn e))] (Some 1000) [] [ex_picky] pb_codec.
Lemma ex_reply_unicode cancel e : unicode_error e -> unicode_app cancel (ex_reply e).
Proof.
  intro E.
  assert (T : forall s, forallb (fun c => c <? 128) s = true -> scalar_text s) by (intros; apply ascii_scalar; now apply low_lit).
  split; [|split; [|split; [|apply pb_codec_ok]]].
  - intros path ep. cbn [ex_reply app_new ap_endpoints dget]. destruct (str_eqb _ _); [|discriminate]. intros [= <-]. intro cx.
    assert (Q : forall k v, forallb (fun c => c <? 128) (lit k) = true -> forallb (fun c => c <? 128) (lit v) = true -> unicode_op (Add (lit k) (lit v)))
      by (intros; split; now apply T).
    cbn [unicode_prog quiet cl_hdr cl_trl cl_raise]. split; [apply Q; reflexivity|]. do 3 (split; [auto|]).
    split; [apply Q; reflexivity|]. split; [apply Q; reflexivity|]. do 3 (split; [auto|]). exact E.
  - intros n k. change (ap_codecs (ex_reply e)) with [(lit "proto", ex_picky)]. cbn [dget]. destruct (str_eqb _ _); [|discriminate]. intros [= <-].
    split; [apply T; reflexivity|]. split; [|discriminate]. intros b x H. cbn [ex_picky k_dec_req] in H.
    assert (x = EOther KValue (lit "Error parsing message")) as ->; [|apply unicode_other; low_chars].
    destruct b as [|c b]; [congruence|]. destruct c as [|c]; [congruence|]. repeat (destruct c; try congruence).
  - intros n z. change (ap_comps (ex_reply e)) with [(lit "identity", identity_comp)]. cbn [dget]. destruct (str_eqb _ _); [|discriminate]. intros [= <-].
    split; [apply T; reflexivity|]. split; [discriminate|]. intro b. exists b. reflexivity.
Qed.

Example C91_example :
  let e := EConnect NotFound [103; 246; 110] [] in
  unicode_app true (ex_reply e) /\ unicode_app false (ex_reply e) /\ unicode_env ex_env /\ sends_ok (en_send ex_env)
  /\ (exists ep hs cx, open_request (ex_reply e) 0%Z (ex_scope "POST" "application/grpc+proto") = Ok (ep, hs, PGrpc, cx) /\ is_unary ep = false)
  /\ (exists hs ts, ar_events (asgi_call (ex_reply e) 0%Z (ex_scope "POST" "application/grpc+proto") ex_env)
       = [EvStart 200 hs true; EvBody [0; 0; 0; 0; 1; 97] true; EvBody [0; 0; 0; 0; 1; 98] true; EvBody [] false; EvTrailers ts]
       /\ In (lit "grpc-message", lit "g%C3%B6n") ts)
  /\ wr_out (wsgi_call (ex_reply e) 0%Z (ex_wq "POST" "application/connect+proto")) = WReturn.
Proof.
  cbv zeta. assert (E : unicode_error (EConnect NotFound [103; 246; 110] [])).
  { assert (S : scalar_text [103; 246; 110]) by (repeat constructor; vm_compute; reflexivity).
    split; [|split; [|exact I]]; cbn; (split; [|constructor]); [now apply scalar_json_ok|exact S]. }
  split; [now apply ex_reply_unicode|]. split; [now apply ex_reply_unicode|]. split; [split; [repeat constructor|exact I]|].
  split; [intro n; reflexivity|]. split; [eexists _, _, _; split; [vm_compute; reflexivity|reflexivity]|]. split; [|vm_compute; reflexivity].
  eexists _, _. split; [vm_compute; reflexivity|]. vm_compute. auto.
Qed.

(** Finding: the text must be Unicode.  When a method raises an error whose message has a surrogate (which Python makes of
    undecodable bytes in file names and environment variables), over gRPC and gRPC-Web nothing at all is sent: writing the end
    of the stream fails before the response headers are sent, and UnicodeEncodeError goes to the ASGI server. *)
Theorem C91_text_refuted : exists (ap : app pystr pystr) sc e,
  ap = ex_app (EpBidi ex_method (fun _ => Fail (IExn e))) /\ sends_ok (en_send ex_env) /\ e = EConnect NotFound (lit "no file " ++ [56448]) []
  /\ ar_events (asgi_call ap 0%Z sc ex_env) = [] /\ ar_out (asgi_call ap 0%Z sc ex_env) = ARaise (EOther KValue (lit "surrogates not allowed")).
Proof.
  exists (ex_app (EpBidi ex_method (fun _ => Fail (IExn (EConnect NotFound (lit "no file " ++ [56448]) []))))), (ex_scope "POST" "application/grpc+proto").
  eexists. split; [reflexivity|]. split; [intro n; reflexivity|]. split; [reflexivity|]. split; vm_compute; reflexivity.
Qed.
Print Assumptions C91_text_refuted.

(** Finding: a trailer that is not Unicode text ends the body of a gRPC response but leaves its trailers, and with them the
    status of the call, unsent. *)
Theorem C91_trailers_refuted : exists (ap : app pystr pystr) sc hs,
  sends_ok (en_send ex_env) /\ ar_events (asgi_call ap 0%Z sc ex_env) = [EvStart 200 hs true; EvBody [] false]
  /\ ~ asgi_complete (ar_events (asgi_call ap 0%Z sc ex_env)).
Proof.
  exists (ex_app (EpBidi ex_method (fun _ => Trl (Add (lit "x-file") [56448]) (Ret tt)))), (ex_scope "POST" "application/grpc+proto").
  eexists. split; [intro n; reflexivity|]. split; [vm_compute; reflexivity|].
  match goal with |- ~ asgi_complete ?x => let y := eval vm_compute in x in change (~ asgi_complete y) end.
  intros (st&hs&body&ts&chunks&lst&H&_). injection H as _ _ Ht H. destruct ts as [ts|]; [|discriminate].
  destruct chunks as [|c [|c2 cs]]; cbn in H; try discriminate.
Qed.
Print Assumptions C91_trailers_refuted.
