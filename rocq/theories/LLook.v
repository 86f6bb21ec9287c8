(** Lemmas: what the reader, the iterator and a whole history do does not depend on the ResponseMetadata in scope. *)
From Coq Require Import List NArith ZArith Bool String Lia Arith ZifyN ZifyBool.
From Verif Require Import MBase MPyStr MHeaders MJson MWire MEnvelope SEnvelope LEnvelope MTimeout MProtocol MClient MIter LIter MScope MServe LServe
  MLook SLook.
Import ListNotations.
Local Open Scope N_scope.

(** ** Readers that differ in the metadata only *)

Definition unseen (r : reader) : reader := mk_reader (r_buf r) (r_next r) (r_read r) (r_trl r) None.
Definition like (r r' : reader) : Prop := unseen r = unseen r'.

Lemma like_eq r r' : like r r' <-> r_buf r = r_buf r' /\ r_next r = r_next r' /\ r_read r = r_read r' /\ r_trl r = r_trl r'.
Proof. unfold like, unseen. split; [intro H; injection H; auto|intros (->&->&->&->); reflexivity]. Qed.

Lemma like_inv r r' : like r r' -> r_inv r -> r_inv r'.
Proof. intros (E1&E2&_)%like_eq. unfold r_inv. rewrite E1, E2. auto. Qed.

(** A frame whose end-of-stream metadata, if it has any, can be read. *)
Definition tame {M} (cf : rconf M) (f : frame) : Prop :=
  rc_kind cf = RConnect -> end_flag RConnect f = true -> forall d, content_of (rc_comp cf) f d -> readable_end d.
Definition tame_bytes {M} (cf : rconf M) (b : bytes) : Prop := exists fs tl, frames_of b fs tl /\ Forall (tame cf) fs.

Lemma add_readable d : (forall k x, In (k, x) d -> readable_value x) -> forall h, snd (add_json_trailers h d) = None.
Proof.
  induction d as [|[k v] d IH]; intros H h; cbn [add_json_trailers]; auto.
  assert (R : readable_value v) by (eapply H; left; reflexivity).
  destruct v; cbn [trailer_values readable_value] in *; try contradiction; apply IH; intros; eapply H; right; eauto.
Qed.

Lemma trailers_quiet md v : (exists es, v = JObj es /\ forall k x, In (k, x) es -> readable_value x) -> snd (handle_trailers_json md v) = None.
Proof.
  intros (es&->&H). destruct md as [m|]; auto. unfold handle_trailers_json. pose proof (add_readable es H (rm_trailers m)) as E.
  destruct (add_json_trailers (rm_trailers m) es) as [t e]. cbn in E. subst. reflexivity.
Qed.

Lemma end_quiet md md' d : readable_end d -> fst (connect_handle_end md d) = fst (connect_handle_end md' d).
Proof.
  intro H. unfold connect_handle_end. destruct (json_loads_bytes d) as [[| | | | | |o]|] eqn:J; auto.
  destruct (dget o (lit "metadata")) as [v|] eqn:D.
  - destruct (json_truthy v) eqn:T.
    + pose proof (trailers_quiet md v (H _ _ J D T)) as E. pose proof (trailers_quiet md' v (H _ _ J D T)) as E'.
      destruct (handle_trailers_json md v) as [x e], (handle_trailers_json md' v) as [x' e']. cbn in E, E'. subst.
      destruct (dget o (lit "error")) as [w|]; auto. destruct (json_truthy w); auto. destruct w; auto. destruct (we_from_dict _ _ _); auto.
    + destruct (dget o (lit "error")) as [w|]; auto. destruct (json_truthy w); auto. destruct w; auto. destruct (we_from_dict _ _ _); auto.
  - destruct (dget o (lit "error")) as [w|]; auto. destruct (json_truthy w); auto. destruct w; auto. destruct (we_from_dict _ _ _); auto.
Qed.

Lemma testbit1 n : N.testbit n 1 = N.odd (n / 2).
Proof. rewrite <- (N.bit0_odd (n / 2)). rewrite <- N.div2_div, <- N.testbit_succ_r_div2 by lia. reflexivity. Qed.

Lemma read_frame_like {M} (cf : rconf M) p d r r' : like r r' -> tame cf (mk_frame p d) ->
  fst (read_frame cf p d r) = fst (read_frame cf p d r') /\ like (snd (read_frame cf p d r)) (snd (read_frame cf p d r'))
  /\ r_buf (snd (read_frame cf p d r)) = r_buf r /\ r_next (snd (read_frame cf p d r)) = r_next r.
Proof.
  intros L T. unfold read_frame.
  destruct (if N.testbit p 0 then _ else Ok d) as [x|e] eqn:X; [|cbn; auto].
  destruct (match rc_max cf with Some _ => _ | None => false end); [cbn; auto|].
  destruct (proj1 (like_eq _ _) L) as (E1&E2&E3&E4).
  assert (H : fst (handle_end (rc_kind cf) p x r) = fst (handle_end (rc_kind cf) p x r')
    /\ like (snd (handle_end (rc_kind cf) p x r)) (snd (handle_end (rc_kind cf) p x r'))
    /\ r_buf (snd (handle_end (rc_kind cf) p x r)) = r_buf r /\ r_next (snd (handle_end (rc_kind cf) p x r)) = r_next r).
  { destruct (rc_kind cf) eqn:K; cbn [handle_end fst snd].
    - auto.
    - destruct (N.testbit p 1) eqn:P; [|cbn; auto].
      assert (R : readable_end x).
      { apply T; auto; [cbn; rewrite <- testbit1; exact P|]. unfold content_of, compressed_flag. cbn. rewrite <- N.bit0_odd.
        destruct (N.testbit p 0); [right|left; injection X; auto]. destruct (z_identity (rc_comp cf)); [discriminate|auto]. }
      pose proof (end_quiet (r_md r) (r_md r') x R) as Q.
      destruct (connect_handle_end (r_md r) x) as [a m], (connect_handle_end (r_md r') x) as [a' m']. cbn in Q. subst a'.
      cbn. repeat split; auto; unfold like, unseen; cbn; congruence.
    - repeat split; auto. unfold like, unseen. cbn. congruence.
    - rewrite <- E4. destruct (N.testbit p 7).
      + destruct (web_lines (split_crlf x) (r_trl r)) as [t e]. cbn. repeat split; auto; unfold like, unseen; cbn; congruence.
      + cbn. repeat split; auto; unfold like, unseen; cbn; congruence. }
  destruct (handle_end (rc_kind cf) p x r) as [a r1], (handle_end (rc_kind cf) p x r') as [a' r1']. cbn [fst snd] in H.
  destruct H as (<-&H). destruct a; auto. destruct (rc_dec cf x); auto.
Qed.

(** ** Where the generator stands *)

(** The reader and what is still to come. *)
Definition sound {M} (cf : rconf M) (r : reader) (more : bytes) : Prop := r_inv r /\ tame_bytes cf (r_buf r ++ more).

Definition plike {M} (cf : rconf M) (more : bytes) (p p' : pause M) : Prop :=
  match p, p' with
  | YMsg m r, YMsg m' r' => m = m' /\ like r r' /\ sound cf r more
  | YEnd r, YEnd r' => like r r' /\ sound cf r more
  | YErr e r, YErr e' r' => e = e' /\ like r r'
  | _, _ => False
  end.

Lemma tame_step {M} (cf : rconf M) fl h3 h2 h1 h0 rest n more :
  n = h3 * 16777216 + h2 * 65536 + h1 * 256 + h0 -> n <= lenN rest ->
  tame_bytes cf ((fl :: h3 :: h2 :: h1 :: h0 :: rest) ++ more) ->
  tame cf (mk_frame fl (takeN n rest)) /\ tame_bytes cf (dropN n rest ++ more).
Proof.
  intros En Hn (fs&tl&F&A).
  assert (W : frame_wire (mk_frame fl (takeN n rest)) (fl :: h3 :: h2 :: h1 :: h0 :: takeN n rest)).
  { exists h3, h2, h1, h0. split; auto. cbn [f_payload]. rewrite <- En. unfold takeN. rewrite firstn_length. unfold lenN in Hn. lia. }
  assert (E : (fl :: h3 :: h2 :: h1 :: h0 :: rest) ++ more = (fl :: h3 :: h2 :: h1 :: h0 :: takeN n rest) ++ dropN n rest ++ more).
  { cbn. unfold takeN, dropN. rewrite app_assoc, firstn_skipn. reflexivity. }
  remember ((fl :: h3 :: h2 :: h1 :: h0 :: rest) ++ more) as b eqn:Eb. destruct F as [tl Hi|f w b fs tl Hw F].
  - exfalso. rewrite Eb in Hi. destruct Hi as [Hi|(a&g3&g2&g1&g0&r&Er&Hlt)]; [cbn in Hi; lia|].
    cbn in Er. injection Er as <- <- <- <- <- <-. rewrite app_length in Hlt. unfold lenN in Hn. lia.
  - destruct (frame_wire_det _ _ _ _ _ _ Hw W E) as (->&->&->). inversion A; subst. split; auto. exists fs, tl. auto.
Qed.

Lemma known_like {M} (cf : rconf M) r r' more : like r r' -> sound cf r more -> plike cf more (read_known cf r) (read_known cf r').
Proof.
  intros L (Hi&T). destruct (proj1 (like_eq _ _) L) as (E1&E2&E3&E4). unfold read_known. rewrite <- E1, <- E2.
  destruct (r_buf r) as [|p b] eqn:Eb; [cbn; split; auto; split; [auto|rewrite Eb; exact T]|].
  destruct (r_next r) as [n|] eqn:En; [|cbn; split; auto; split; [auto|rewrite Eb; exact T]].
  destruct (lenN (p :: b) <? n + 5) eqn:Hl; [cbn; split; auto; split; [auto|rewrite Eb; exact T]|].
  unfold r_inv in Hi. rewrite En, Eb in Hi. destruct Hi as (fl&h3&h2&h1&h0&rest&Hb&Hn). injection Hb as -> ->.
  destruct (tame_step cf fl h3 h2 h1 h0 rest n more Hn) as (Tf&Tb); [unfold lenN in *; cbn [List.length] in Hl; lia|exact T|].
  change (dropN 5 (fl :: h3 :: h2 :: h1 :: h0 :: rest)) with rest.
  assert (D : dropN (5 + n) (fl :: h3 :: h2 :: h1 :: h0 :: rest) = dropN n rest).
  { unfold dropN. replace (N.to_nat (5 + n)) with (5 + N.to_nat n)%nat by lia. reflexivity. }
  rewrite D.
  destruct (read_frame_like cf fl (takeN n rest) (mk_reader (dropN n rest) None (r_read r) (r_trl r) (r_md r))
    (mk_reader (dropN n rest) None (r_read r') (r_trl r') (r_md r'))) as (F1&F2&F3&F4); auto.
  { unfold like, unseen. cbn. congruence. }
  destruct (read_frame cf fl _ (mk_reader _ _ (r_read r) _ _)) as [x r1], (read_frame cf fl _ (mk_reader _ _ (r_read r') _ _)) as [x' r1'].
  cbn [fst snd r_buf r_next] in *. subst x'.
  assert (S1 : sound cf r1 more) by (split; [unfold r_inv; rewrite F4; exact I|rewrite F3; exact Tb]).
  destruct x; cbn; auto.
Qed.

Lemma resume_like {M} (cf : rconf M) r r' more : like r r' -> sound cf r more -> plike cf more (read_resume cf r) (read_resume cf r').
Proof.
  intros L (Hi&T). destruct (proj1 (like_eq _ _) L) as (E1&E2&E3&E4). unfold read_resume, peek_len. rewrite <- E1.
  destruct (lenN (r_buf r) <? 5) eqn:H5; [cbn; split; auto; split; auto|].
  apply known_like; [unfold like, unseen; cbn; congruence|]. split; [|exact T].
  destruct (len5_cases (r_buf r)) as (fl&k3&k2&k1&k0&rr&Hr); [unfold lenN in H5; lia|].
  unfold r_inv. cbn [r_next r_buf]. rewrite Hr. exists fl, k3, k2, k1, k0, rr. split; auto.
  change (takeN 4 (dropN 1 (fl :: k3 :: k2 :: k1 :: k0 :: rr))) with [k3; k2; k1; k0]. apply be_val_4.
Qed.

Lemma first_like {M} (cf : rconf M) r r' ch more : like r r' -> sound cf r (ch ++ more) ->
  plike cf more (feed_first cf r ch) (feed_first cf r' ch).
Proof.
  intros L (Hi&T). destruct (proj1 (like_eq _ _) L) as (E1&E2&E3&E4). unfold feed_first. cbn [r_buf r_next]. rewrite <- E1, <- E2.
  set (x := mk_reader (r_buf r ++ ch) (r_next r) (r_read r) (r_trl r) (r_md r)).
  set (x' := mk_reader (r_buf r ++ ch) (r_next r) (r_read r') (r_trl r') (r_md r')).
  assert (Lx : like x x') by (unfold like, unseen; cbn; congruence).
  assert (Sx : sound cf x more).
  { split; [|cbn; rewrite <- app_assoc; exact T]. unfold r_inv in *. cbn. destruct (r_next r) as [n|]; auto.
    destruct Hi as (fl&h3&h2&h1&h0&rest&Hb&Hn). rewrite Hb. exists fl, h3, h2, h1, h0, (rest ++ ch). auto. }
  destruct (r_buf r ++ ch); [cbn; auto|]. destruct (r_next r); [apply known_like|apply resume_like]; auto.
Qed.

Definition slike {M} (cf : rconf M) (s s' : stand M) : Prop :=
  match s, s' with
  | StMsg m r rest, StMsg m' r' rest' => m = m' /\ rest = rest' /\ like r r' /\ sound cf r (List.concat rest)
  | StErr e r, StErr e' r' => e = e' /\ like r r'
  | StEnd r, StEnd r' => like r r'
  | _, _ => False
  end.

Lemma pump_like {M} (cf : rconf M) : forall chunks p p', plike cf (List.concat chunks) p p' ->
  slike cf (fst (pump cf p chunks)) (fst (pump cf p' chunks)) /\ snd (pump cf p chunks) = snd (pump cf p' chunks).
Proof.
  induction chunks as [|ch cs IH]; intros p p' L; destruct p as [m r|r|e r], p' as [m' r'|r'|e' r']; cbn [plike] in L; try contradiction;
    cbn [pump].
  - cbn. intuition.
  - cbn. intuition.
  - cbn. intuition.
  - cbn. intuition.
  - destruct L as (L&Sd). specialize (IH _ _ (first_like cf r r' ch (List.concat cs) L Sd)).
    destruct (pump cf (feed_first cf r ch) cs) as [s o], (pump cf (feed_first cf r' ch) cs) as [s' o']. cbn [fst snd] in *.
    destruct IH as (IH&->). auto.
  - cbn. intuition.
Qed.

(** ** Iterators *)

Definition ilike {B} (it it' : iterator B) : Prop :=
  match it_pos it, it_pos it' with
  | AtStart, AtStart | AtEnd, AtEnd => True
  | AtYield rq resp cf r rest, AtYield rq' resp' cf' r' rest' =>
      rq = rq' /\ resp = resp' /\ cf = cf' /\ rest = rest' /\ like r r' /\ sound cf r (List.concat rest)
  | _, _ => False
  end.

Lemma complete_like sc k r r' hs ts e : like r r' -> fst (response_complete sc k r hs ts e) = fst (response_complete sc k r' hs ts e).
Proof.
  intros (E1&E2&E3&E4)%like_eq. destruct k; cbn [response_complete]; auto; unfold grpc_complete; rewrite E3, ?E4; cbv zeta iota;
    repeat (match goal with |- context [match ?x with _ => _ end] => destruct x end; cbn [fst]; auto).
Qed.

Lemma except_like {A B} (c : client A B) ex rd rd' serr md md' f :
  match rd, rd' with Some (r, p), Some (r', p') => like r r' /\ p = p' | None, None => True | _, _ => False end ->
  fst (stream_except c ex rd serr md f) = fst (stream_except c ex rd' serr md' f).
Proof.
  intro L. unfold stream_except. destruct f as [e| |]; auto.
  assert (H : forall g, fst (match map_stream_reset g ex with
    | Some rst => match rd with
        | Some (r, resp) => let (o, md) := response_complete (cl_sc c) (reader_kind (cl_proto c)) r (sp_headers resp) (sp_trailers resp) (Some rst) in
                            (CErr (match o with Some x => x | None => rst end), md)
        | None => (@CErr unit rst, md) end
    | None => (CErr (EConnect Unavailable (str_of_exn g) []), md) end) =
    fst (match map_stream_reset g ex with
    | Some rst => match rd' with
        | Some (r, resp) => let (o, md) := response_complete (cl_sc c) (reader_kind (cl_proto c)) r (sp_headers resp) (sp_trailers resp) (Some rst) in
                            (CErr (match o with Some x => x | None => rst end), md)
        | None => (@CErr unit rst, md') end
    | None => (CErr (EConnect Unavailable (str_of_exn g) []), md') end)).
  { intro g. destruct (map_stream_reset g ex) as [rst|]; auto. destruct rd as [[r p]|], rd' as [[r' p']|]; try contradiction; auto.
    destruct L as (L&->). pose proof (complete_like (cl_sc c) (reader_kind (cl_proto c)) r r' (sp_headers p') (sp_trailers p') (Some rst) L) as E.
    destruct (response_complete _ _ r _ _ _), (response_complete _ _ r' _ _ _). cbn in E. subst. reflexivity. }
  destruct e as [k m ds|s hs|k m].
  - reflexivity.
  - destruct serr; [reflexivity|]. exact (H (EHttp s hs)).
  - destruct k; try reflexivity; (destruct serr; [reflexivity|]; apply H).
Qed.

Definition same_but_md {B} (x y : iterator B * answer B * list http_event) : Prop :=
  ilike (fst (fst x)) (fst (fst y)) /\ snd (fst x) = snd (fst y) /\ snd x = snd y.

Lemma leave_like {A B} (c : client A B) ex resp rd rd' serr md md' f :
  match rd, rd' with Some (r, p), Some (r', p') => like r r' /\ p = p' | None, None => True | _, _ => False end ->
  @same_but_md B (it_leave c ex resp rd serr md f) (it_leave c ex resp rd' serr md' f).
Proof.
  intro L. unfold it_leave, same_but_md. destruct (leave resp f) as [g|]; [|cbn; auto].
  pose proof (except_like c ex rd rd' serr md md' g L) as E.
  destruct (stream_except c ex rd serr md g), (stream_except c ex rd' serr md' g). cbn in E. subst. cbn. auto.
Qed.

Lemma same_prefix {B} (x y : iterator B * answer B * list http_event) (o : list http_event) : same_but_md x y ->
  same_but_md (let '(it, a, o') := x in (it, a, o ++ o')) (let '(it, a, o') := y in (it, a, o ++ o')).
Proof. destruct x as [[i a] e], y as [[i' a'] e']. unfold same_but_md. cbn. intros (H&->&->). auto. Qed.

Lemma go_like {A B} (c : client A B) ex rq resp cf p p' chunks : plike cf (List.concat chunks) p p' ->
  @same_but_md B (it_go c ex rq resp cf p chunks) (it_go c ex rq resp cf p' chunks).
Proof.
  intro L. unfold it_go. destruct (pump_like cf chunks p p' L) as (S1&S2).
  destruct (pump cf p chunks) as [s o], (pump cf p' chunks) as [s' o']. cbn [fst snd] in *. subst o'.
  destruct s as [m r rest|e r|r], s' as [m' r' rest'|e' r'|r']; cbn [slike] in S1; try contradiction.
  - destruct S1 as (->&->&L1&Sd). unfold same_but_md, ilike. cbn. auto 10.
  - destruct S1 as (->&L1). cbv zeta. apply same_prefix. apply leave_like. auto.
  - apply same_prefix. destruct (sp_fault resp); [apply leave_like; auto|]. destruct (cl_sync c && ex); [apply leave_like; auto|].
    pose proof (complete_like (cl_sc c) (reader_kind (cl_proto c)) r r' (sp_headers resp) (sp_trailers resp) None S1) as E.
    destruct (response_complete _ _ r _ _ _), (response_complete _ _ r' _ _ _). cbn in E. subst. apply leave_like; auto.
Qed.

Lemma net_sound {A B} (c : client A B) net rq resp z md : readable_net c net -> nw_stream net rq = SResp resp ->
  handle_response_compression (cl_proto c) true (sp_headers resp) (cl_comps c) = Ok z ->
  sound (mk_rconf (reader_kind (cl_proto c)) z (cl_max c) (k_dec_res (cl_codec c))) (reader_new md) (List.concat (sp_chunks resp)).
Proof.
  intros R E Z. split; [exact I|]. cbn [reader_new r_buf app]. destruct (frames_of_exists (List.concat (sp_chunks resp))) as (fs&tl&F).
  exists fs, tl. split; auto. apply Forall_forall. intros f Hf K Ef d C. cbn in K, C.
  assert (P : cl_proto c = PConnect) by (destruct (cl_proto c); cbn in K; auto; discriminate).
  rewrite P in Z. exact (R P rq resp z E Z fs tl f d F Hf Ef C).
Qed.

Lemma start_like {A B} (c : client A B) cx ck net md md' reqs : readable_net c net ->
  same_but_md (it_start c cx ck net md reqs) (it_start c cx ck net md' reqs).
Proof.
  intro R. unfold it_start. set (rq := mk_rq _ _ _ _ _). set (ex := deadline_passed _ _).
  destruct (nw_stream net rq) as [resp|f] eqn:E.
  2:{ pose proof (except_like c ex None None None md md' f I) as X. destruct (stream_except c ex None None md f), (stream_except c ex None None md' f).
      cbn in X. subst. unfold same_but_md. cbn. auto. }
  cbv zeta. set (m1 := handle_response_headers md _). set (m2 := handle_response_headers md' _).
  assert (Lv : forall o f, @same_but_md B (let '(it, a, o') := it_leave c ex resp None None m1 f in (it, a, HRequest rq :: HResponse :: o ++ o'))
                                        (let '(it, a, o') := it_leave c ex resp None None m2 f in (it, a, HRequest rq :: HResponse :: o ++ o'))).
  { intros o f. apply (same_prefix _ _ (HRequest rq :: HResponse :: o)). apply leave_like. exact I. }
  destruct (sp_status resp =? 200).
  - destruct (validate_stream_response _ _ _); [apply Lv|]. destruct (handle_response_compression _ _ _ _) as [z|] eqn:Z; [|apply Lv].
    apply (same_prefix _ _ [HRequest rq; HResponse]). apply go_like. split; [reflexivity|]. eapply net_sound; eauto.
  - destruct (sp_fault resp); [apply Lv|]. destruct (we_from_response _ _); apply Lv.
Qed.

Lemma step_like {A B} (c : client A B) cx ck net reqs it it' a : readable_net c net -> ilike it it' ->
  same_but_md (it_step c cx ck net reqs it a) (it_step c cx ck net reqs it' a).
Proof.
  intros R L. unfold ilike in L. unfold it_step.
  destruct (it_pos it) as [|rq resp cf r rest|] eqn:P, (it_pos it') as [|rq' resp' cf' r' rest'|] eqn:P'; try contradiction.
  - destruct a; [apply start_like; auto|unfold same_but_md; cbn; auto].
  - destruct L as (<-&<-&<-&<-&L&Sd). destruct a.
    + apply go_like. apply resume_like; auto.
    + apply leave_like. auto.
  - destruct a; unfold same_but_md, ilike; cbn; rewrite P, P'; auto.
Qed.

Lemma scoped_like {B} md (it it' : iterator B) : ilike it it' -> ilike (scoped md it) it'.
Proof.
  unfold ilike, scoped. cbn. destruct (it_pos it), (it_pos it'); auto.
Qed.

(** ** The whole use of a stream *)

Lemma drive_like {A B} (c : client A B) cx ck net reqs : readable_net c net -> forall fuel it it' stop, ilike it it' ->
  let x := it_drive fuel c cx ck net reqs it stop in let y := it_drive fuel c cx ck net reqs it' stop in
  fst (fst (fst x)) = fst (fst (fst y)) /\ snd (fst (fst x)) = snd (fst (fst y)) /\ snd x = snd y.
Proof.
  intro R. induction fuel as [|fuel IH]; intros it it' stop L; cbv zeta; cbn [it_drive]; [cbn; auto|].
  destruct (step_like c cx ck net reqs it it' AskNext R L) as (L1&E1&E2).
  destruct (it_step c cx ck net reqs it AskNext) as [[i x] o], (it_step c cx ck net reqs it' AskNext) as [[i' x'] o']. cbn [fst snd] in *.
  subst x' o'. destruct x as [b|e]; [|cbn; auto].
  destruct stop as [[[|n] f]|].
  - destruct (step_like c cx ck net reqs i i' (AskThrow f) R L1) as (L2&E3&E4).
    destruct (it_step c cx ck net reqs i (AskThrow f)) as [[j y] o2], (it_step c cx ck net reqs i' (AskThrow f)) as [[j' y'] o2']. cbn [fst snd] in *.
    subst. auto.
  - specialize (IH i i' (Some (n, f)) L1). cbv zeta in IH.
    destruct (it_drive fuel c cx ck net reqs i (Some (n, f))) as [[[bs e] m] o2], (it_drive fuel c cx ck net reqs i' (Some (n, f))) as [[[bs' e'] m'] o2'].
    cbn [fst snd] in *. destruct IH as (->&->&->). auto.
  - specialize (IH i i' None L1). cbv zeta in IH.
    destruct (it_drive fuel c cx ck net reqs i None) as [[[bs e] m] o2], (it_drive fuel c cx ck net reqs i' None) as [[[bs' e'] m'] o2'].
    cbn [fst snd] in *. destruct IH as (->&->&->). auto.
Qed.

Lemma send_sent {A B} (c : client A B) cx ck net md reqs stop :
  sr_sent (send_stream c cx ck net md reqs stop) = [call_request c cx ck reqs].
Proof.
  rewrite send_stream_end. cbv zeta. destruct (nw_stream _ _) as [resp|]; [|reflexivity]. destruct (sp_status resp =? 200).
  - destruct (validate_stream_response _ _ _); [reflexivity|]. destruct (handle_response_compression _ _ _ _); [|reflexivity].
    destruct (consume _ _ _ _) as [[ms f] r]. reflexivity.
  - destruct (sp_fault resp); [reflexivity|]. destruct (we_from_response _ _); reflexivity.
Qed.

Lemma send_like {A B} (c : client A B) cx ck net md md' reqs stop : readable_net c net ->
  let x := send_stream c cx ck net md reqs stop in let y := send_stream c cx ck net md' reqs stop in
  sr_sent x = sr_sent y /\ sr_msgs x = sr_msgs y /\ sr_end x = sr_end y.
Proof.
  intro R. cbv zeta. rewrite !send_sent. split; auto.
  destruct (drive_send c cx ck net md reqs stop) as (n&H). destruct (drive_send c cx ck net md' reqs stop) as (n'&H').
  destruct (H (n + n')%nat ltac:(lia)) as (o&E). destruct (H' (n + n')%nat ltac:(lia)) as (o'&E').
  pose proof (drive_like c cx ck net reqs R (n + n') (iterator_new md) (iterator_new md') stop I) as D. cbv zeta in D.
  rewrite E, E' in D. cbn [fst snd] in D. destruct D as (D1&D2&_). injection D2 as D2. auto.
Qed.

Lemma response_like {A B} (c : client A B) r md md' : fst (unary_response c r md) = fst (unary_response c r md').
Proof.
  unfold unary_response. destruct (validate_response _ _ _ _); auto. destruct (handle_response_compression _ _ _ _); auto.
Qed.

Lemma connect_like {A B} (c : client A B) cx ck net md md' a :
  let x := send_unary_connect c cx ck net md a in let y := send_unary_connect c cx ck net md' a in cr_sent x = cr_sent y /\ cr_out x = cr_out y.
Proof.
  cbv zeta. unfold send_unary_connect. destruct (unary_request _ _ _ _) as [rq|]; auto. destruct (nw_unary net rq) as [r|]; auto.
  pose proof (response_like c r md md') as E. destruct (unary_response c r md), (unary_response c r md'). cbn in E. subst. auto.
Qed.

(** ** Many streams in many scopes *)

Lemma run_cons {A B} (c : client A B) cx ck net reqs it a asks :
  it_run c cx ck net reqs it (a :: asks) =
  let x := it_step c cx ck net reqs it a in let y := it_run c cx ck net reqs (fst (fst x)) asks in
  (fst (fst y), snd (fst x) :: snd (fst y), snd x ++ snd y).
Proof.
  cbn [it_run]. destruct (it_step c cx ck net reqs it a) as [[i x] o]. cbn. destruct (it_run c cx ck net reqs i asks) as [[i' xs] o']. reflexivity.
Qed.

Definition lc_run {A B} (k : look_call A B) (it : iterator B) (asks : list ask) :=
  it_run (lc_client k) (lc_ctx k) (lc_clocks k) (lc_net k) (lc_reqs k) it asks.

Lemma seen_cons {B} j (x : seen B) s :
  asked_of j (x :: s) = (if Nat.eqb (se_stream x) j then [se_ask x] else []) ++ asked_of j s
  /\ answers_of j (x :: s) = (if Nat.eqb (se_stream x) j then [se_answer x] else []) ++ answers_of j s
  /\ events_of j (x :: s) = (if Nat.eqb (se_stream x) j then se_events x else []) ++ events_of j s.
Proof. unfold asked_of, answers_of, events_of. cbn [filter]. destruct (Nat.eqb _ _); cbn; auto. Qed.

(** From any point on, a stream goes on as an equal one used by itself. *)
Lemma history_like {A B} (h : list (look_op A B)) : forall w j k it it',
  nth_error (lw_streams w) j = Some (k, it) -> readable_net (lc_client k) (lc_net k) -> ilike it it' ->
  let s := snd (look_run w h) in let y := lc_run k it' (asked_of j s) in answers_of j s = snd (fst y) /\ events_of j s = snd y.
Proof.
  induction h as [|o h IH]; intros w j k it it' E R L; cbv zeta; cbn [look_run]; [cbn; auto|].
  destruct (look_step w o) as [w1 s1] eqn:Es.
  destruct (look_run w1 h) as [w2 s2] eqn:Er. cbn [snd].
  assert (G : forall it2 it2', nth_error (lw_streams w1) j = Some (k, it2) -> ilike it2 it2' ->
    answers_of j s2 = snd (fst (lc_run k it2' (asked_of j s2))) /\ events_of j s2 = snd (lc_run k it2' (asked_of j s2))).
  { intros it2 it2' E2 L2. specialize (IH w1 j k it2 it2' E2 R L2). cbv zeta in IH. rewrite Er in IH. exact IH. }
  destruct o as [o|k2|c i a]; cbn [look_step] in Es.
  - injection Es as <- <-. cbn [app]. eapply G; eauto.
  - injection Es as <- <-. cbn [app]. eapply G; eauto. cbn. rewrite nth_error_app1; auto. apply nth_error_Some. congruence.
  - destruct (nth_error (lw_streams w) i) as [[k2 it2]|] eqn:Ei; [|injection Es as <- <-; cbn [app]; eapply G; eauto].
    destruct (lc_step k2 (scoped (in_scope (lw_scopes w) c) it2) a) as [[it3 x] ev] eqn:Ep. injection Es as <- <-.
    cbn [lw_streams] in G. cbn [app]. destruct (seen_cons j (mk_seen i (sc_current (lw_scopes w) c) a x ev) s2) as (->&->&->).
    cbn [se_stream se_ask se_answer se_events]. destruct (Nat.eqb i j) eqn:Eij.
    + apply Nat.eqb_eq in Eij. subst i. rewrite Ei in E. injection E as -> ->.
      pose proof (step_like (lc_client k) (lc_ctx k) (lc_clocks k) (lc_net k) (lc_reqs k) _ _ a R (scoped_like (in_scope (lw_scopes w) c) it it' L)) as X.
      unfold lc_step in Ep. rewrite Ep in X. destruct X as (X1&X2&X3). cbn [fst snd] in X1, X2, X3.
      destruct (G it3 _ ltac:(rewrite nth_set, Nat.eqb_refl, Ei; reflexivity) X1) as (G1&G2).
      cbn [app]. unfold lc_run in *. rewrite run_cons. cbn [fst snd]. rewrite <- G1, <- G2, X2, X3. auto.
    + cbn [app]. eapply G; eauto. rewrite nth_set, Eij. exact E.
Qed.

(** A stream that has not been made is not asked. *)
Lemma history_make {A B} (h : list (look_op A B)) : forall w j k,
  nth_error (filter (fun o => match o with LMake _ => true | _ => false end) h) (j - List.length (lw_streams w)) = Some (LMake k) ->
  (List.length (lw_streams w) <= j)%nat -> readable_net (lc_client k) (lc_net k) ->
  let s := snd (look_run w h) in let y := alone k None (asked_of j s) in answers_of j s = snd (fst y) /\ events_of j s = snd y.
Proof.
  induction h as [|o h IH]; intros w j k E Hj R; [destruct (j - _)%nat; discriminate|].
  cbv zeta. cbn [look_run]. destruct (look_step w o) as [w1 s1] eqn:Es. destruct (look_run w1 h) as [w2 s2] eqn:Er. cbn [snd].
  destruct o as [o|k2|c i a]; cbn [look_step] in Es; cbn [filter] in E.
  - injection Es as <- <-. specialize (IH (mk_lw (scope_step (lw_scopes w) o) (lw_streams w)) j k E Hj R). cbv zeta in IH. rewrite Er in IH. exact IH.
  - injection Es as <- <-. cbn [app]. destruct (Nat.eq_dec j (List.length (lw_streams w))) as [->|Hn].
    + rewrite Nat.sub_diag in E. injection E as ->.
      pose proof (history_like h (mk_lw (lw_scopes w) (lw_streams w ++ [(k, iterator_new None)])) (List.length (lw_streams w)) k
        (iterator_new None) (iterator_new None)) as H. cbv zeta in H. rewrite Er in H. apply H; auto.
      * cbn. rewrite nth_error_app2, Nat.sub_diag by lia. reflexivity.
      * exact I.
    + specialize (IH (mk_lw (lw_scopes w) (lw_streams w ++ [(k2, iterator_new None)])) j k). cbn [lw_streams] in IH.
      rewrite app_length in IH. cbn [List.length] in IH. cbv zeta in IH. rewrite Er in IH. apply IH; auto; [|lia].
      replace (j - List.length (lw_streams w))%nat with (S (j - (List.length (lw_streams w) + 1))) in E by lia. exact E.
  - destruct (nth_error (lw_streams w) i) as [[k2 it2]|] eqn:Ei.
    + destruct (lc_step k2 _ a) as [[it3 x] ev] eqn:Ep. injection Es as <- <-. cbn [app].
      destruct (seen_cons j (mk_seen i (sc_current (lw_scopes w) c) a x ev) s2) as (->&->&->). cbn [se_stream se_ask se_answer se_events].
      assert (Hi : (i < List.length (lw_streams w))%nat) by (apply nth_error_Some; congruence).
      assert (Nat.eqb i j = false) as -> by (apply Nat.eqb_neq; lia). cbn [app].
      specialize (IH (mk_lw (report_to (lw_scopes w) c (it_md it3)) (set_nth i (k2, it3) (lw_streams w))) j k). cbn [lw_streams] in IH.
      rewrite length_set in IH. specialize (IH E Hj R). cbv zeta in IH. rewrite Er in IH. exact IH.
    + injection Es as <- <-. specialize (IH w j k E Hj R). cbv zeta in IH. rewrite Er in IH. exact IH.
Qed.

(** ** Where the reports go *)

Definition watched (md : option metadata) : Prop := md <> None.

Lemma headers_watched md hs : watched md -> watched (handle_response_headers md hs).
Proof. unfold watched, handle_response_headers. destruct md; [|auto]. destruct (split_trailers hs). discriminate. Qed.
Lemma http_watched md ts : watched md -> watched (handle_trailers_http md ts).
Proof. unfold watched, handle_trailers_http. destruct md; [|auto]. discriminate. Qed.
Lemma json_watched md v : watched md -> watched (fst (handle_trailers_json md v)).
Proof. unfold watched, handle_trailers_json. destruct md as [m|]; [|auto]. intros _. destruct v; try discriminate.
  destruct (add_json_trailers _ _) as [t []]; discriminate. Qed.
Lemma end_watched md d : watched md -> watched (snd (connect_handle_end md d)).
Proof.
  intro H. unfold connect_handle_end. destruct (json_loads_bytes d) as [[| | | | | |o]|]; auto.
  assert (H1 : watched (fst (match dget o (lit "metadata") with
    | Some v => if json_truthy v then handle_trailers_json md v else (md, None) | None => (md, None) end))).
  { destruct (dget o (lit "metadata")) as [v|]; auto. destruct (json_truthy v); auto. apply json_watched. auto. }
  destruct (match dget o (lit "metadata") with Some v => _ | None => _ end) as [md1 [e|]]; cbn [fst] in H1; auto.
  destruct (dget o (lit "error")) as [v|]; auto. destruct (json_truthy v); auto. destruct v; auto. destruct (we_from_dict _ _ _); auto.
Qed.
Lemma frame_watched {M} (cf : rconf M) p d r : watched (r_md r) -> watched (r_md (snd (read_frame cf p d r))).
Proof.
  intro H. unfold read_frame. destruct (if N.testbit p 0 then _ else Ok d) as [x|e]; auto. destruct (match rc_max cf with Some _ => _ | None => false end); auto.
  assert (H1 : watched (r_md (snd (handle_end (rc_kind cf) p x r)))).
  { destruct (rc_kind cf); cbn [handle_end]; auto.
    - destruct (N.testbit p 1); auto. pose proof (end_watched (r_md r) x H). destruct (connect_handle_end (r_md r) x). auto.
    - destruct (N.testbit p 7); auto. destruct (web_lines _ _); auto. }
  destruct (handle_end (rc_kind cf) p x r) as [a r1]. destruct a; auto. destruct (rc_dec cf x); auto.
Qed.
Definition pmd {M} (p : pause M) : option metadata := match p with YMsg _ r | YEnd r | YErr _ r => r_md r end.
Lemma known_watched {M} (cf : rconf M) r : watched (r_md r) -> watched (pmd (read_known cf r)).
Proof.
  intro H. unfold read_known. destruct (r_buf r) as [|p b] eqn:Eb; auto. destruct (r_next r) as [n|]; auto. destruct (_ <? _); auto.
  pose proof (frame_watched cf p (takeN n (dropN 5 (p :: b))) (mk_reader (dropN (5 + n) (p :: b)) None (r_read r) (r_trl r) (r_md r)) H) as F.
  destruct (read_frame cf p _ _) as [[m| |e] r1]; auto.
Qed.
Lemma resume_watched {M} (cf : rconf M) r : watched (r_md r) -> watched (pmd (read_resume cf r)).
Proof. intro H. unfold read_resume, peek_len. destruct (_ <? _); auto. apply known_watched. auto. Qed.
Lemma first_watched {M} (cf : rconf M) r ch : watched (r_md r) -> watched (pmd (feed_first cf r ch)).
Proof.
  intro H. unfold feed_first. cbv zeta. cbn [r_buf r_next]. destruct (r_buf r ++ ch); auto. destruct (r_next r); [apply known_watched|apply resume_watched]; auto.
Qed.
Definition smd {M} (s : stand M) : option metadata := match s with StMsg _ r _ | StErr _ r | StEnd r => r_md r end.
Lemma pump_watched {M} (cf : rconf M) : forall chunks p, watched (pmd p) -> watched (smd (fst (pump cf p chunks))).
Proof.
  induction chunks as [|ch cs IH]; intros [m r|r|e r] H; cbn [pump]; auto.
  specialize (IH (feed_first cf r ch) (first_watched cf r ch H)). destruct (pump cf (feed_first cf r ch) cs). auto.
Qed.
Lemma complete_watched sc k r hs ts e : watched (r_md r) -> watched (snd (response_complete sc k r hs ts e)).
Proof.
  intro H. destruct k; cbn [response_complete]; auto; unfold grpc_complete; cbv zeta;
    repeat (match goal with |- context [match ?x with _ => _ end] => destruct x end; cbn [snd]; auto using http_watched).
Qed.
Lemma except_watched {A B} (c : client A B) ex rd serr md f : watched md -> (forall r p, rd = Some (r, p) -> watched (r_md r)) ->
  watched (snd (stream_except c ex rd serr md f)).
Proof.
  intros H R. unfold stream_except. destruct f as [e| |]; auto.
  assert (G : forall g, watched (snd (match map_stream_reset g ex with
    | Some rst => match rd with
        | Some (r, resp) => let (o, md) := response_complete (cl_sc c) (reader_kind (cl_proto c)) r (sp_headers resp) (sp_trailers resp) (Some rst) in
                            (CErr (match o with Some x => x | None => rst end), md)
        | None => (@CErr unit rst, md) end
    | None => (CErr (EConnect Unavailable (str_of_exn g) []), md) end))).
  { intro g. destruct (map_stream_reset g ex) as [rst|]; auto. destruct rd as [[r p]|]; auto.
    pose proof (complete_watched (cl_sc c) (reader_kind (cl_proto c)) r (sp_headers p) (sp_trailers p) (Some rst) (R _ _ eq_refl)).
    destruct (response_complete _ _ r _ _ _). auto. }
  destruct e as [k m ds|s hs|k m].
  - exact H.
  - destruct serr; [exact H|]. exact (G (EHttp s hs)).
  - destruct k; try exact H; (destruct serr; [exact H|]; apply G).
Qed.

(** A finished step leaves the iterator with the metadata it reported to. *)
Definition coherent {B} (it : iterator B) : Prop := scoped (it_md it) it = it.
Definition wstep {B} (x : iterator B * answer B * list http_event) : Prop := watched (it_md (fst (fst x))) /\ coherent (fst (fst x)).

Lemma coherent_end {B} md : @coherent B (mk_it AtEnd md).
Proof. reflexivity. Qed.
Lemma leave_watched {A B} (c : client A B) ex resp rd serr md f : watched md -> (forall r p, rd = Some (r, p) -> watched (r_md r)) ->
  @wstep B (it_leave c ex resp rd serr md f).
Proof.
  intros H R. unfold it_leave, wstep. destruct (leave resp f) as [g|]; [|cbn; split; auto; apply coherent_end].
  pose proof (except_watched c ex rd serr md g H R). destruct (stream_except c ex rd serr md g). cbn in *. split; auto. apply coherent_end.
Qed.
Lemma prefix_watched {B} (x : iterator B * answer B * list http_event) o : wstep x -> wstep (let '(it, a, o') := x in (it, a, o ++ o')).
Proof. destruct x as [[i a] e]. auto. Qed.
Lemma go_watched {A B} (c : client A B) ex rq resp cf p chunks : watched (pmd p) -> @wstep B (it_go c ex rq resp cf p chunks).
Proof.
  intro H. unfold it_go. pose proof (pump_watched cf chunks p H) as S1. destruct (pump cf p chunks) as [s o]. cbn [fst] in S1.
  destruct s as [m r rest|e r|r]; cbn [smd] in S1.
  - unfold wstep. cbn. split; auto. unfold coherent, scoped. cbn. destruct r. reflexivity.
  - cbv zeta. apply prefix_watched. apply leave_watched; auto. intros ? ? X. injection X as <- <-. auto.
  - apply prefix_watched.
    assert (R : forall r1 p1, Some (r, resp) = Some (r1, p1) -> watched (r_md r1)) by (intros ? ? X; injection X as <- <-; auto).
    destruct (sp_fault resp); [apply leave_watched; auto|]. destruct (cl_sync c && ex); [apply leave_watched; auto|].
    pose proof (complete_watched (cl_sc c) (reader_kind (cl_proto c)) r (sp_headers resp) (sp_trailers resp) None S1).
    destruct (response_complete _ _ r _ _ _). apply leave_watched; auto.
Qed.
Lemma start_watched {A B} (c : client A B) cx ck net md reqs : watched md -> wstep (it_start c cx ck net md reqs).
Proof.
  intro H. unfold it_start. set (rq := mk_rq _ _ _ _ _). set (ex := deadline_passed _ _).
  assert (Nn : forall r (p : stream_response), None = Some (r, p) -> watched (r_md r)) by discriminate.
  destruct (nw_stream net rq) as [resp|f].
  2:{ pose proof (except_watched c ex None None md f H Nn). destruct (stream_except c ex None None md f). split; [exact H0|apply coherent_end]. }
  cbv zeta. pose proof (headers_watched md (sp_headers resp) H) as H1. set (m1 := handle_response_headers md _) in *.
  assert (Lv : forall o f, @wstep B (let '(it, a, o') := it_leave c ex resp None None m1 f in (it, a, HRequest rq :: HResponse :: o ++ o'))).
  { intros o f. apply (prefix_watched _ (HRequest rq :: HResponse :: o)). apply leave_watched; auto. }
  destruct (sp_status resp =? 200).
  - destruct (validate_stream_response _ _ _); [apply Lv|]. destruct (handle_response_compression _ _ _ _) as [z|]; [|apply Lv].
    apply (prefix_watched _ [HRequest rq; HResponse]). apply go_watched. exact H1.
  - destruct (sp_fault resp); [apply Lv|]. destruct (we_from_response _ _); apply Lv.
Qed.
Lemma step_watched {A B} (c : client A B) cx ck net reqs it m a : wstep (it_step c cx ck net reqs (scoped (Some m) it) a).
Proof.
  assert (W : watched (Some m)) by discriminate. unfold it_step, scoped. cbn [it_pos it_md].
  destruct (it_pos it) as [|rq resp cf r rest|] eqn:P.
  - destruct a; [apply start_watched; auto|split; auto; apply coherent_end].
  - destruct a; [apply go_watched, resume_watched; auto|]. apply leave_watched; auto. intros ? ? X. injection X as <- <-. auto.
  - destruct a; (split; [exact W|unfold coherent, scoped; cbn; reflexivity]).
Qed.

Lemma scope_md st o i : (forall c r, o <> Report c r) -> ro_md (sc_object (scope_step st o) i) = ro_md (sc_object st i).
Proof.
  intro H. destruct o as [c k|c k|c r|c c']; cbn; auto; [| |exfalso; eapply H; eauto]; unfold upd; destruct (Nat.eqb k i) eqn:E; auto;
    apply Nat.eqb_eq in E; subst; reflexivity.
Qed.

Lemma scoped_twice {B} m m' (it : iterator B) : scoped m (scoped m' it) = scoped m it.
Proof. unfold scoped. cbn. destruct (it_pos it); reflexivity. Qed.

Lemma report_md st c m i : ro_md (sc_object (report_to st c (Some m)) i) = (if match sc_current st c with Some k => Nat.eqb k i | None => false end then m else ro_md (sc_object st i)).
Proof. unfold report_to. destruct (sc_current st c); auto. cbn. unfold upd. destruct (Nat.eqb n i); auto. Qed.

Lemma report_none st c md i : sc_current st c <> Some i -> ro_md (sc_object (report_to st c md) i) = ro_md (sc_object st i).
Proof.
  intro H. unfold report_to. destruct (sc_current st c) as [k|]; auto. destruct md; auto. cbn. unfold upd. destruct (Nat.eqb k i) eqn:E; auto.
  apply Nat.eqb_eq in E. congruence.
Qed.

Lemma history_report {A B} (h : list (look_op A B)) : forall w i j k it, quiet h ->
  nth_error (lw_streams w) j = Some (k, it) -> matched i j (snd (look_run w h)) ->
  it_md (fst (fst (lc_run k (scoped (Some (ro_md (sc_object (lw_scopes w) i))) it) (asked_of j (snd (look_run w h))))))
  = Some (ro_md (sc_object (lw_scopes (fst (look_run w h))) i)).
Proof.
  induction h as [|o h IH]; intros w i j k it Q E Mt; cbn [look_run]; [reflexivity|]. cbn [look_run] in Mt.
  destruct (look_step w o) as [w1 s1] eqn:Es. destruct (look_run w1 h) as [w2 s2] eqn:Er. cbn [fst snd] in *.
  assert (Q' : quiet h) by (intros c r X; exact (Q c r (or_intror X))).
  assert (Mt2 : matched i j s2) by (apply Forall_app in Mt; apply Mt).
  assert (G : forall it2, nth_error (lw_streams w1) j = Some (k, it2) ->
    it_md (fst (fst (lc_run k (scoped (Some (ro_md (sc_object (lw_scopes w1) i))) it2) (asked_of j s2)))) = Some (ro_md (sc_object (lw_scopes w2) i))).
  { intros it2 E2. specialize (IH w1 i j k it2 Q' E2). rewrite Er in IH. auto. }
  destruct o as [o|k2|c i2 a]; cbn [look_step] in Es.
  - injection Es as <- <-. cbn [app]. rewrite <- (G it E). cbn [lw_scopes]. rewrite scope_md; auto. intros c r ->. exact (Q c r (or_introl eq_refl)).
  - injection Es as <- <-. cbn [app]. rewrite <- (G it); auto. cbn. rewrite nth_error_app1; auto. apply nth_error_Some. congruence.
  - destruct (nth_error (lw_streams w) i2) as [[k2 it2]|] eqn:Ei; [|injection Es as <- <-; cbn [app]; apply G; auto].
    destruct (lc_step k2 (scoped (in_scope (lw_scopes w) c) it2) a) as [[it3 x] ev] eqn:Ep. injection Es as <- <-. cbn [lw_scopes lw_streams app] in *.
    destruct (seen_cons j (mk_seen i2 (sc_current (lw_scopes w) c) a x ev) s2) as (->&_&_). cbn [se_stream se_ask].
    inversion Mt as [|y l Hy _]; subst. cbn [se_stream se_scope] in Hy. destruct (Nat.eqb i2 j) eqn:Eij.
    + apply Nat.eqb_eq in Eij. subst i2. pose proof (proj1 Hy eq_refl) as Hc. rewrite Ei in E. injection E as -> ->.
      unfold in_scope in Ep. rewrite Hc in Ep. unfold lc_step in Ep.
      pose proof (step_watched (lc_client k) (lc_ctx k) (lc_clocks k) (lc_net k) (lc_reqs k) it (ro_md (sc_object (lw_scopes w) i)) a) as (W&Co).
      cbn [app]. unfold lc_run. rewrite run_cons. cbn [fst snd]. rewrite Ep in *. cbn [fst snd] in *.
      destruct (it_md it3) as [m3|] eqn:Em; [|contradiction].
      specialize (G it3 ltac:(rewrite nth_set, Nat.eqb_refl, Ei; reflexivity)). rewrite report_md, Hc, Nat.eqb_refl in G.
      unfold coherent in Co. rewrite Em in Co. rewrite Co in G. exact G.
    + cbn [app]. assert (Hc : sc_current (lw_scopes w) c <> Some i) by (intro X; apply Hy in X; apply Nat.eqb_neq in Eij; auto).
      specialize (G it ltac:(rewrite nth_set, Eij; exact E)). rewrite report_none in G by auto. exact G.
Qed.

Lemma history_make_report {A B} (h : list (look_op A B)) : forall w i j k, quiet h ->
  nth_error (filter (fun o => match o with LMake _ => true | _ => false end) h) (j - List.length (lw_streams w)) = Some (LMake k) ->
  (List.length (lw_streams w) <= j)%nat -> matched i j (snd (look_run w h)) ->
  it_md (fst (fst (alone k (Some (ro_md (sc_object (lw_scopes w) i))) (asked_of j (snd (look_run w h))))))
  = Some (ro_md (sc_object (lw_scopes (fst (look_run w h))) i)).
Proof.
  induction h as [|o h IH]; intros w i j k Q E Hj Mt; [destruct (j - _)%nat; discriminate|].
  cbn [look_run] in *. destruct (look_step w o) as [w1 s1] eqn:Es. destruct (look_run w1 h) as [w2 s2] eqn:Er. cbn [fst snd] in *.
  assert (Q' : quiet h) by (intros c r X; exact (Q c r (or_intror X))).
  assert (Mt2 : matched i j s2) by (apply Forall_app in Mt; apply Mt).
  destruct o as [o|k2|c i2 a]; cbn [look_step] in Es; cbn [filter] in E.
  - injection Es as <- <-. specialize (IH (mk_lw (scope_step (lw_scopes w) o) (lw_streams w)) i j k Q' E Hj). rewrite Er in IH. cbn [fst snd] in IH. rewrite <- (IH Mt2). cbn [lw_scopes].
    rewrite scope_md; auto. intros c r ->. exact (Q c r (or_introl eq_refl)).
  - injection Es as <- <-. cbn [app]. destruct (Nat.eq_dec j (List.length (lw_streams w))) as [->|Hn].
    + rewrite Nat.sub_diag in E. injection E as ->.
      pose proof (history_report h (mk_lw (lw_scopes w) (lw_streams w ++ [(k, iterator_new None)])) i (List.length (lw_streams w)) k
        (iterator_new None) Q') as H. rewrite Er in H. apply H; auto. cbn. rewrite nth_error_app2, Nat.sub_diag by lia. reflexivity.
    + specialize (IH (mk_lw (lw_scopes w) (lw_streams w ++ [(k2, iterator_new None)])) i j k Q'). cbn [lw_streams] in IH.
      rewrite app_length in IH. cbn [List.length] in IH. rewrite Er in IH. apply IH; auto; [|lia].
      replace (j - List.length (lw_streams w))%nat with (S (j - (List.length (lw_streams w) + 1))) in E by lia. exact E.
  - destruct (nth_error (lw_streams w) i2) as [[k2 it2]|] eqn:Ei.
    + destruct (lc_step k2 _ a) as [[it3 x] ev] eqn:Ep. injection Es as <- <-. cbn [app lw_scopes] in *.
      destruct (seen_cons j (mk_seen i2 (sc_current (lw_scopes w) c) a x ev) s2) as (->&_&_). cbn [se_stream se_ask].
      assert (Hi : (i2 < List.length (lw_streams w))%nat) by (apply nth_error_Some; congruence).
      inversion Mt as [|y l Hy _]; subst. cbn [se_stream se_scope] in Hy.
      assert (Eij : Nat.eqb i2 j = false) by (apply Nat.eqb_neq; lia). rewrite Eij. cbn [app].
      assert (Hc : sc_current (lw_scopes w) c <> Some i) by (intro X; apply Hy in X; apply Nat.eqb_neq in Eij; auto).
      specialize (IH (mk_lw (report_to (lw_scopes w) c (it_md it3)) (set_nth i2 (k2, it3) (lw_streams w))) i j k Q'). cbn [lw_streams lw_scopes] in IH.
      rewrite length_set in IH. specialize (IH E Hj). rewrite Er in IH. specialize (IH Mt2). rewrite report_none in IH by auto. exact IH.
    + injection Es as <- <-. specialize (IH w i j k Q' E Hj). rewrite Er in IH. auto.
Qed.

Lemma made_nth {A B} (h : list (look_op A B)) : forall j k, nth_error (made h) j = Some k ->
  nth_error (filter (fun o => match o with LMake _ => true | _ => false end) h) j = Some (LMake k).
Proof.
  induction h as [|o h IH]; intros j k E; [destruct j; discriminate|]. destruct o as [o|k2|c i a]; cbn in *; auto.
  destruct j; cbn in *; [congruence|auto].
Qed.
