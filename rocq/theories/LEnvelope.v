(** Lemmas on envelope framing. *)
From Coq Require Import List NArith ZArith Bool Lia String ZifyBool ZifyNat.
From Verif Require Import MBase MPyStr LBase MHeaders MWire MEnvelope SEnvelope.
Import ListNotations.
Local Open Scope N_scope.
Ltac Zify.zify_post_hook ::= Z.to_euclidean_division_equations.

Lemma lenN_app {A} (a b : list A) : lenN (a ++ b) = lenN a + lenN b.
Proof. unfold lenN. rewrite app_length. lia. Qed.
Lemma lenN_cons {A} (a : A) b : lenN (a :: b) = lenN b + 1.
Proof. unfold lenN. simpl List.length. lia. Qed.
Lemma lenN_nil {A} : lenN (@nil A) = 0. Proof. reflexivity. Qed.

Lemma dropN_app {A} (a b : list A) : dropN (lenN a) (a ++ b) = b.
Proof.
  unfold dropN, lenN. rewrite Nat2N.id. rewrite skipn_app, skipn_all, Nat.sub_diag. reflexivity.
Qed.
Lemma takeN_app {A} (a b : list A) : takeN (lenN a) (a ++ b) = a.
Proof.
  unfold takeN, lenN. rewrite Nat2N.id, firstn_app, firstn_all, Nat.sub_diag. simpl. apply app_nil_r.
Qed.

Lemma be_val_4 h3 h2 h1 h0 : be_val [h3; h2; h1; h0] = h3 * 16777216 + h2 * 65536 + h1 * 256 + h0.
Proof. unfold be_val. cbn [fold_left]. lia. Qed.

Lemma be_val_be32 n : n < 4294967296 -> be_val (be32 n) = n.
Proof. intro H. unfold be32. rewrite be_val_4. lia. Qed.

(** ** Decomposition into frames: existence and uniqueness *)

Lemma frame_wire_len f b : frame_wire f b -> (5 <= List.length b)%nat.
Proof. intros (h3&h2&h1&h0&->&_). simpl. lia. Qed.

Lemma frame_wire_not_incomplete f b rest : frame_wire f b -> ~ incomplete (b ++ rest).
Proof.
  intros (h3&h2&h1&h0&->&Hl) [H|(fl&g3&g2&g1&g0&r&Heq&Hlt)].
  - simpl in H. lia.
  - simpl in Heq. inversion Heq; subst. rewrite app_length in Hlt. lia.
Qed.

Lemma frame_wire_det f b rest f' b' rest' :
  frame_wire f b -> frame_wire f' b' -> b ++ rest = b' ++ rest' -> f = f' /\ b = b' /\ rest = rest'.
Proof.
  intros (h3&h2&h1&h0&->&Hl) (g3&g2&g1&g0&->&Hl') Heq. simpl in Heq.
  injection Heq as E0 E1 E2 E3 E4 Heq. subst.
  assert (Hn : List.length (f_payload f) = List.length (f_payload f')) by lia.
  assert (f_payload f = f_payload f' /\ rest = rest') as [Hp Hr].
  { clear -Hn Heq. revert Hn Heq. generalize (f_payload f) (f_payload f'). intros x y.
    revert y. induction x as [|a x IH]; intros [|b y] Hn Heq; simpl in *; try lia; auto.
    injection Heq as -> Heq. destruct (IH y ltac:(lia) Heq) as [-> ->]. auto. }
  subst. destruct f, f'; simpl in *. subst. auto.
Qed.

Lemma incomplete_dec b : {f & {r & {w | frame_wire f w /\ b = w ++ r}}} + {incomplete b}.
Proof.
  destruct b as [|fl [|h3 [|h2 [|h1 [|h0 r]]]]]; try (right; left; simpl; lia).
  destruct (N.of_nat (List.length r) <? h3 * 16777216 + h2 * 65536 + h1 * 256 + h0) eqn:E.
  - right. right. exists fl, h3, h2, h1, h0, r. split; auto. lia.
  - left. set (n := N.to_nat (h3 * 16777216 + h2 * 65536 + h1 * 256 + h0)).
    exists (mk_frame fl (firstn n r)), (skipn n r), (fl :: h3 :: h2 :: h1 :: h0 :: firstn n r).
    split.
    + exists h3, h2, h1, h0. split; auto. simpl f_payload. rewrite firstn_length. lia.
    + simpl. rewrite firstn_skipn. reflexivity.
Qed.

Lemma frames_of_exists b : exists fs tl, frames_of b fs tl.
Proof.
  remember (List.length b) as n eqn:Hn. revert b Hn.
  induction n as [n IH] using lt_wf_ind. intros b ->.
  destruct (incomplete_dec b) as [(f&r&w&Hw&->)|Hi].
  - pose proof (frame_wire_len _ _ Hw) as Hlen.
    destruct (IH (List.length r)) with (b := r) as (fs&tl&H); auto.
    { rewrite app_length. lia. }
    exists (f :: fs), tl. constructor; auto.
  - exists [], b. constructor; auto.
Qed.

Lemma frames_of_det b fs tl : frames_of b fs tl -> forall fs' tl', frames_of b fs' tl' -> fs = fs' /\ tl = tl'.
Proof.
  induction 1 as [tl Hi|f w rest fs tl Hw H IH]; intros fs' tl' H'.
  - inversion H'; subst; auto. exfalso. eapply frame_wire_not_incomplete; eauto.
  - inversion H'; subst.
    + exfalso. eapply frame_wire_not_incomplete; eauto.
    + destruct (frame_wire_det _ _ _ _ _ _ Hw H1 (eq_sym H0)) as (->&->&->).
      destruct (IH _ _ H2) as [-> ->]. auto.
Qed.

Lemma frames_of_app b fs tl : frames_of b fs tl ->
  forall x fs' tl', frames_of (tl ++ x) fs' tl' -> frames_of (b ++ x) (fs ++ fs') tl'.
Proof.
  induction 1 as [tl Hi|f w rest fs tl Hw H IH]; intros x fs' tl' H'; simpl; auto.
  rewrite <- app_assoc. constructor; auto.
Qed.

Lemma frames_of_incomplete b fs tl : frames_of b fs tl -> incomplete tl.
Proof. induction 1; auto. Qed.

Lemma frames_of_short b fs tl : frames_of b fs tl -> (List.length b < 5)%nat -> fs = [] /\ tl = b.
Proof.
  destruct 1 as [tl Hi|f w rest fs tl Hw H]; auto. intro Hl.
  pose proof (frame_wire_len _ _ Hw). rewrite app_length in Hl. lia.
Qed.

Lemma frames_of_nil : frames_of [] [] [].
Proof. constructor. left. simpl. lia. Qed.

(** ** The reader state *)

Definition with_buf (r : reader) (b : bytes) (n : option N) : reader :=
  mk_reader b n (r_read r) (r_trl r) (r_md r).

(** What an end message or frame can change. *)
Definition rest_of (r : reader) := (r_read r, r_trl r, r_md r).

Definition r_inv (r : reader) : Prop :=
  match r_next r with
  | None => True
  | Some n => exists fl h3 h2 h1 h0 rest,
      r_buf r = fl :: h3 :: h2 :: h1 :: h0 :: rest /\ n = h3 * 16777216 + h2 * 65536 + h1 * 256 + h0
  end.

Lemma handle_end_buf k p d r b n :
  handle_end k p d (with_buf r b n) = (fst (handle_end k p d r), with_buf (snd (handle_end k p d r)) b n).
Proof.
  unfold handle_end, with_buf. destruct k; simpl; auto.
  - destruct (N.testbit p 1); simpl; auto. destruct (connect_handle_end (r_md r) d); auto.
  - destruct (N.testbit p 7); simpl; auto. destruct (web_lines (split_crlf d) (r_trl r)); auto.
Qed.

Lemma read_frame_buf {M} (cf : rconf M) p d r b n :
  read_frame cf p d (with_buf r b n) = (fst (read_frame cf p d r), with_buf (snd (read_frame cf p d r)) b n).
Proof.
  unfold read_frame.
  destruct (if N.testbit p 0 then _ else _) as [x|e]; simpl; auto.
  destruct (match rc_max cf with Some _ => _ | None => _ end); simpl; auto.
  rewrite handle_end_buf. destruct (handle_end (rc_kind cf) p x r) as [er r']; simpl.
  destruct er; simpl; auto. destruct (rc_dec cf x); auto.
Qed.

(** Reading a list of complete frames one after the other.  [run_frames] stops at an end message (as one call of
    [feed] does); [run_skip] goes on after it (as successive calls do). *)
Fixpoint run_frames {M} (cf : rconf M) (fs : list frame) (r : reader)
  : list M * option exn * reader * list frame :=
  match fs with
  | [] => ([], None, r, [])
  | f :: t =>
      match read_frame cf (f_flag f) (f_payload f) r with
      | (FErr e, r') => ([], Some e, r', t)
      | (FEnd, r') => ([], None, r', t)
      | (FMsg m, r') => let '(ms, e, r'', lft) := run_frames cf t r' in (m :: ms, e, r'', lft)
      end
  end.

Fixpoint run_skip {M} (cf : rconf M) (fs : list frame) (r : reader) : list M * option exn * reader :=
  match fs with
  | [] => ([], None, r)
  | f :: t =>
      match read_frame cf (f_flag f) (f_payload f) r with
      | (FErr e, r') => ([], Some e, r')
      | (FEnd, r') => run_skip cf t r'
      | (FMsg m, r') => let '(ms, e, r'') := run_skip cf t r' in (m :: ms, e, r'')
      end
  end.

Lemma run_frames_buf {M} (cf : rconf M) fs : forall r b n,
  run_frames cf fs (with_buf r b n) =
  (let '(ms, e, r', lft) := run_frames cf fs r in (ms, e, with_buf r' b n, lft)).
Proof.
  induction fs as [|f fs IH]; intros r b n; simpl; auto.
  rewrite read_frame_buf. destruct (read_frame cf (f_flag f) (f_payload f) r) as [[m| |e] r']; simpl; auto.
  rewrite IH. destruct (run_frames cf fs r') as [[[ms e] r''] lft]. auto.
Qed.

Lemma run_skip_buf {M} (cf : rconf M) fs : forall r b n,
  run_skip cf fs (with_buf r b n) =
  (let '(ms, e, r') := run_skip cf fs r in (ms, e, with_buf r' b n)).
Proof.
  induction fs as [|f fs IH]; intros r b n; simpl; auto.
  rewrite read_frame_buf. destruct (read_frame cf (f_flag f) (f_payload f) r) as [[m| |e] r']; simpl; auto.
  rewrite IH. destruct (run_skip cf fs r') as [[ms e] r'']. auto.
Qed.

Lemma rest_of_with_buf r b n : rest_of (with_buf r b n) = rest_of r.
Proof. reflexivity. Qed.

Lemma with_buf_self r : with_buf r (r_buf r) (r_next r) = r.
Proof. destruct r; reflexivity. Qed.

Lemma with_buf_twice r b n b' n' : with_buf (with_buf r b n) b' n' = with_buf r b' n'.
Proof. reflexivity. Qed.

(** Bytes of the frames lft over by [run_frames]. *)
Inductive left_bytes : list frame -> bytes -> bytes -> Prop :=
| lb : forall fs tl b, frames_of b fs tl -> left_bytes fs tl b.

Lemma peek_none r : peek_len r = None <-> (List.length (r_buf r) < 5)%nat.
Proof. unfold peek_len, lenN. destruct (_ <? 5) eqn:E; split; intro H; try discriminate; auto; lia. Qed.

Lemma peek_some r fl h3 h2 h1 h0 rest : r_buf r = fl :: h3 :: h2 :: h1 :: h0 :: rest ->
  peek_len r = Some (with_buf r (r_buf r) (Some (h3 * 16777216 + h2 * 65536 + h1 * 256 + h0))).
Proof.
  intro H. unfold peek_len, with_buf. rewrite H. unfold lenN.
  assert (E : N.of_nat (List.length (fl :: h3 :: h2 :: h1 :: h0 :: rest)) <? 5 = false) by (simpl List.length; lia).
  rewrite E. do 2 f_equal.
  change (takeN 4 (dropN 1 (fl :: h3 :: h2 :: h1 :: h0 :: rest))) with [h3; h2; h1; h0].
  rewrite be_val_4. reflexivity.
Qed.

Lemma len5_cases (b : bytes) : (5 <= List.length b)%nat -> exists fl h3 h2 h1 h0 r, b = fl :: h3 :: h2 :: h1 :: h0 :: r.
Proof.
  destruct b as [|fl [|h3 [|h2 [|h1 [|h0 r]]]]]; simpl; intro H; try lia. eauto 8.
Qed.

(** One pass of the loop with the length already known. *)
Lemma read_loop_spec {M} (cf : rconf M) : forall fs b tl fuel r,
  r_buf r = b -> r_inv r -> r_next r <> None ->
  frames_of b fs tl ->
  (List.length b < fuel)%nat ->
  exists ms e r' lft,
    run_frames cf fs r = (ms, e, r', lft)
    /\ exists b' n', read_loop fuel cf r = (ms, e, with_buf r' b' n')
       /\ frames_of b' lft tl
       /\ r_inv (with_buf r' b' n').
Proof.
  induction fs as [|f fs IH]; intros b tl fuel r Hb Hinv Hn Hfo Hfuel.
  - destruct fuel as [|fuel]; [lia|]. simpl run_frames.
    exists [], None, r, []. split; auto.
    exists (r_buf r), (r_next r). rewrite with_buf_self.
    inversion Hfo; subst. split; [|split; auto].
    cbn [read_loop]. unfold r_inv in Hinv. destruct (r_next r) as [n|] eqn:En; [|congruence].
    destruct Hinv as (fl&h3&h2&h1&h0&rest&Hbuf&Hnv). rewrite Hbuf.
    assert (E : lenN (fl :: h3 :: h2 :: h1 :: h0 :: rest) <? n + 5 = true).
    { destruct H as [H|(fl'&g3&g2&g1&g0&r'&He&Hlt)].
      - rewrite Hbuf in H. simpl in H. lia.
      - rewrite Hbuf in He. inversion He; subst. unfold lenN. simpl List.length. lia. }
    rewrite E. reflexivity.
  - inversion Hfo as [|f' w rest' fs' tl' Hw Hrest]; subst.
    destruct fuel as [|fuel]; [lia|].
    destruct Hw as (h3&h2&h1&h0&Hw&Hlen).
    unfold r_inv in Hinv. destruct (r_next r) as [n|] eqn:En; [|congruence].
    destruct Hinv as (fl&g3&g2&g1&g0&rest&Hbuf&Hnv).
    assert (Hsame : w ++ rest' = fl :: g3 :: g2 :: g1 :: g0 :: rest) by congruence.
    rewrite Hw in Hsame. simpl in Hsame. inversion Hsame; subst fl g3 g2 g1 g0 rest. clear Hsame.
    rewrite <- Hnv in Hlen. clear Hnv.
    cbn [read_loop]. rewrite Hbuf, En.
    assert (E : lenN (f_flag f :: h3 :: h2 :: h1 :: h0 :: f_payload f ++ rest') <? n + 5 = false).
    { unfold lenN. simpl List.length. rewrite app_length. lia. }
    rewrite E.
    assert (E1 : takeN n (dropN 5 (f_flag f :: h3 :: h2 :: h1 :: h0 :: f_payload f ++ rest')) = f_payload f).
    { change (dropN 5 _) with (f_payload f ++ rest'). rewrite <- Hlen. apply takeN_app. }
    assert (E2 : dropN (5 + n) (f_flag f :: h3 :: h2 :: h1 :: h0 :: f_payload f ++ rest') = rest').
    { change (f_flag f :: h3 :: h2 :: h1 :: h0 :: f_payload f ++ rest')
        with ((f_flag f :: h3 :: h2 :: h1 :: h0 :: f_payload f) ++ rest').
      replace (5 + n) with (lenN (f_flag f :: h3 :: h2 :: h1 :: h0 :: f_payload f)).
      - apply dropN_app.
      - unfold lenN. simpl List.length. lia. }
    rewrite E1, E2.
    change (mk_reader rest' None (r_read r) (r_trl r) (r_md r)) with (with_buf r rest' None).
    rewrite read_frame_buf. simpl run_frames.
    destruct (read_frame cf (f_flag f) (f_payload f) r) as [[m| |e] r1] eqn:Erf; cbv [fst snd].
    + assert (Hrun : forall b n, run_frames cf fs (with_buf r1 b n) =
        (let '(ms, e, r', lft) := run_frames cf fs r1 in (ms, e, with_buf r' b n, lft))).
      { intros. apply run_frames_buf. }
      destruct (Nat.lt_ge_cases (List.length rest') 5) as [Hlt|Hge].
      * assert (Hp : peek_len (with_buf r1 rest' None) = None) by (apply peek_none; simpl; auto).
        rewrite Hp.
        assert (fs = [] /\ tl = rest') as [-> ->].
        { exact (frames_of_short _ _ _ Hrest Hlt). }
        simpl run_frames. exists [m], None, r1, []. split; auto.
        exists rest', None. split; auto. split; auto. simpl. exact I.
      * destruct (len5_cases _ Hge) as (fl&k3&k2&k1&k0&rr&Hr).
        rewrite (peek_some _ fl k3 k2 k1 k0 rr) by (simpl; auto).
        simpl r_buf. rewrite with_buf_twice.
        set (nv := Some (k3 * 16777216 + k2 * 65536 + k1 * 256 + k0)).
        destruct (IH rest' tl fuel (with_buf r1 rest' nv)) as (ms&e&r'&lft&Hrf&b'&n'&Hrl&Hfo'&Hinv').
        -- reflexivity.
        -- unfold nv, r_inv; simpl. rewrite Hr. eauto 10.
        -- unfold nv; simpl; discriminate.
        -- exact Hrest.
        -- rewrite Hbuf in Hfuel. simpl in Hfuel. rewrite app_length in Hfuel. lia.
        -- rewrite Hrun in Hrf. destruct (run_frames cf fs r1) as [[[ms1 e1] r1'] left1] eqn:Er1.
           injection Hrf as <- <- <- <-.
           exists (m :: ms1), e1, r1', left1. split; auto.
           exists b', n'. rewrite Hrl. rewrite with_buf_twice in *. auto.
    + exists [], None, r1, fs. split; auto. exists rest', None. split; auto. split; auto. exact I.
    + exists [], (Some e), r1, fs. split; auto. exists rest', None. split; auto. split; auto. exact I.
Qed.

(** One call of [feed]. *)
Lemma feed_spec {M} (cf : rconf M) r data fs tl :
  r_inv r -> frames_of (r_buf r ++ data) fs tl ->
  exists ms e r' lft b' n',
    run_frames cf fs r = (ms, e, r', lft)
    /\ feed cf r data = (ms, e, with_buf r' b' n')
    /\ frames_of b' lft tl
    /\ r_inv (with_buf r' b' n').
Proof.
  intros Hinv Hfo. unfold feed.
  change (mk_reader (r_buf r ++ data) (r_next r) (r_read r) (r_trl r) (r_md r))
    with (with_buf r (r_buf r ++ data) (r_next r)).
  set (b := r_buf r ++ data) in *. simpl r_buf.
  destruct (r_next r) as [n|] eqn:En.
  - destruct (read_loop_spec cf fs b tl (S (S (List.length b))) (with_buf r b (Some n)))
      as (ms&e&r'&lft&Hrf&b'&n'&Hrl&Hfo'&Hinv').
    + reflexivity.
    + unfold r_inv in *. rewrite En in Hinv. simpl. destruct Hinv as (fl&h3&h2&h1&h0&rest&Hb&Hn).
      unfold b. rewrite Hb. simpl. eauto 10.
    + simpl; discriminate.
    + exact Hfo.
    + lia.
    + rewrite run_frames_buf in Hrf. destruct (run_frames cf fs r) as [[[ms1 e1] r1] left1] eqn:Er.
      injection Hrf as <- <- <- <-. rewrite with_buf_twice in *.
      exists ms1, e1, r1, left1, b', n'. auto.
  - destruct (Nat.lt_ge_cases (List.length b) 5) as [Hlt|Hge].
    + assert (fs = [] /\ tl = b) as [-> ->].
      { exact (frames_of_short _ _ _ Hfo Hlt). }
      exists [], None, r, [], b, None. split; [reflexivity|]. split.
      * cbn [read_loop]. destruct b as [|x b1] eqn:Eb; [reflexivity|].
        assert (Hp : peek_len (with_buf r (x :: b1) None) = None) by (apply peek_none; simpl; simpl in Hlt; lia).
        rewrite Hp. reflexivity.
      * split; auto. exact I.
    + destruct (len5_cases _ Hge) as (fl&k3&k2&k1&k0&rr&Hr).
      remember (S (List.length b)) as fuel eqn:Hfuel.
      cbn [read_loop].
      assert (Hbb : r_buf (with_buf r b None) = fl :: k3 :: k2 :: k1 :: k0 :: rr) by exact Hr.
      rewrite Hbb. change (r_next (with_buf r b None)) with (@None N). cbv iota.
      rewrite (peek_some _ fl k3 k2 k1 k0 rr) by (simpl; auto). simpl r_buf. rewrite with_buf_twice.
      set (nv := Some (k3 * 16777216 + k2 * 65536 + k1 * 256 + k0)).
      destruct (read_loop_spec cf fs b tl fuel (with_buf r b nv)) as (ms&e&r'&lft&Hrf&b'&n'&Hrl&Hfo'&Hinv').
      * reflexivity.
      * unfold nv, r_inv; simpl. rewrite Hr. eauto 10.
      * unfold nv; simpl; discriminate.
      * exact Hfo.
      * lia.
      * rewrite run_frames_buf in Hrf. destruct (run_frames cf fs r) as [[[ms1 e1] r1] left1] eqn:Er.
        injection Hrf as <- <- <- <-. rewrite with_buf_twice in *.
        exists ms1, e1, r1, left1, b', n'. auto.
Qed.

(** [run_frames] is [run_skip] on the frames it consumed. *)
Lemma run_frames_consumed {M} (cf : rconf M) fs : forall r ms e r' lft,
  run_frames cf fs r = (ms, e, r', lft) ->
  exists used, fs = used ++ lft /\ run_skip cf used r = (ms, e, r')
    /\ (lft = [] \/ e <> None \/
        exists u f r0 r1, used = u ++ [f] /\ run_skip cf u r = (ms, None, r0)
                       /\ read_frame cf (f_flag f) (f_payload f) r0 = (FEnd, r1)).
Proof.
  induction fs as [|f fs IH]; intros r ms e r' lft H; simpl in H.
  - injection H as <- <- <- <-. exists []. auto.
  - destruct (read_frame cf (f_flag f) (f_payload f) r) as [[m| |x] r1] eqn:Erf.
    + destruct (run_frames cf fs r1) as [[[ms1 e1] r2] left1] eqn:Er.
      injection H as <- <- <- <-. destruct (IH _ _ _ _ _ Er) as (used&->&Hs&Hc).
      exists (f :: used). split; auto. split.
      * simpl. rewrite Erf, Hs. auto.
      * destruct Hc as [Hc|[Hc|(u&g&r0&r3&->&Hu&Hg)]]; auto. right; right.
        exists (f :: u), g, r0, r3. split; auto. split; auto. simpl. rewrite Erf, Hu. auto.
    + injection H as <- <- <- <-. exists [f]. split; auto. split; [simpl; rewrite Erf; auto|].
      right; right. exists [], f, r, r1. auto.
    + injection H as <- <- <- <-. exists [f]. split; auto. split; [simpl; rewrite Erf; auto|].
      right; left. discriminate.
Qed.

Lemma run_skip_app {M} (cf : rconf M) a : forall b r,
  run_skip cf (a ++ b) r =
  (let '(ms, e, r') := run_skip cf a r in
   match e with
   | Some _ => (ms, e, r')
   | None => let '(ms', e', r'') := run_skip cf b r' in (ms ++ ms', e', r'')
   end).
Proof.
  induction a as [|f a IH]; intros b r; simpl.
  - destruct (run_skip cf b r) as [[ms e] r']. auto.
  - destruct (read_frame cf (f_flag f) (f_payload f) r) as [[m| |x] r1]; auto.
    rewrite IH. destruct (run_skip cf a r1) as [[ms e] r2]. destruct e; auto.
    destruct (run_skip cf b r2) as [[ms' e'] r3]. auto.
Qed.

(** [feed_all] in general: it reads the frames of the body one after the other, possibly leaving some unread. *)
Lemma feed_all_general {M} (cf : rconf M) chunks : forall r fs tl,
  r_inv r -> frames_of (r_buf r ++ List.concat chunks) fs tl ->
  exists used lft ms e r' b' n',
    fs = used ++ lft
    /\ run_skip cf used r = (ms, e, r')
    /\ feed_all cf r chunks = (ms, e, with_buf r' b' n').
Proof.
  induction chunks as [|c cs IH]; intros r fs tl Hinv Hfo.
  - exists [], fs, [], None, r, (r_buf r), (r_next r). rewrite with_buf_self. auto.
  - simpl in Hfo. rewrite app_assoc in Hfo. simpl feed_all.
    destruct (frames_of_exists (r_buf r ++ c)) as (fs1&tl1&Hfo1).
    destruct (feed_spec cf r c fs1 tl1 Hinv Hfo1) as (ms&e&r'&lft&b'&n'&Hrf&Hfeed&Hfo'&Hinv').
    rewrite Hfeed. destruct (run_frames_consumed _ _ _ _ _ _ _ Hrf) as (used&->&Hs&_).
    assert (Hsplit : exists fs2, fs = used ++ fs2 /\ frames_of (b' ++ List.concat cs) fs2 tl).
    { destruct (frames_of_exists (tl1 ++ List.concat cs)) as (fs3&tl3&Hfo3).
      pose proof (frames_of_app _ _ _ Hfo1 _ _ _ Hfo3) as Ha.
      destruct (frames_of_det _ _ _ Hfo _ _ Ha) as [-> ->].
      exists (lft ++ fs3). rewrite app_assoc. split; auto.
      exact (frames_of_app _ _ _ Hfo' _ _ _ Hfo3). }
    destruct Hsplit as (fs2&->&Hfo2).
    destruct e as [x|].
    + exists used, fs2, ms, (Some x), r', b', n'. auto.
    + destruct (IH (with_buf r' b' n') fs2 tl Hinv' Hfo2) as (used2&left2&ms2&e2&r2&b2&n2&->&Hs2&Hf2).
      rewrite run_skip_buf in Hs2. destruct (run_skip cf used2 r') as [[ms3 e3] r3] eqn:E3.
      injection Hs2 as <- <- <-.
      exists (used ++ used2), left2, (ms ++ ms3), e3, r3, b2, n2.
      rewrite <- app_assoc. split; auto. split.
      * rewrite run_skip_app, Hs, E3. reflexivity.
      * rewrite Hf2. rewrite with_buf_twice. reflexivity.
Qed.

Lemma end_flag_ok k p d r r1 : handle_end k p d r = (ETrue, r1) -> end_flag k (mk_frame p d) = true.
Proof.
  unfold handle_end, end_flag. destruct k; simpl; try discriminate.
  - destruct (N.testbit p 1) eqn:E; [|discriminate]. intros _.
    rewrite N.testbit_odd, N.shiftr_div_pow2 in E. exact E.
  - destruct (N.testbit p 7) eqn:E; [|discriminate]. intros _.
    rewrite N.testbit_odd, N.shiftr_div_pow2 in E. exact E.
Qed.

Lemma read_frame_end {M} (cf : rconf M) p d r r1 :
  read_frame cf p d r = (FEnd, r1) -> end_flag (rc_kind cf) (mk_frame p d) = true.
Proof.
  unfold read_frame. destruct (if N.testbit p 0 then _ else _) as [x|e]; [|discriminate].
  destruct (match rc_max cf with Some _ => _ | None => _ end); [discriminate|].
  destruct (handle_end (rc_kind cf) p x r) as [er r'] eqn:E. destruct er; try discriminate.
  - destruct (rc_dec cf x); discriminate.
  - intros _. apply end_flag_ok in E. exact E.
Qed.

Definition ends_clean (k : rkind) (fs : list frame) (tl : bytes) : Prop :=
  forall f before after, fs = before ++ f :: after -> end_flag k f = true -> after = [] /\ tl = [].

Lemma feed_all_empty {M} (cf : rconf M) chunks : forall r,
  r_buf r = [] -> List.concat chunks = [] -> feed_all cf r chunks = ([], None, r).
Proof.
  induction chunks as [|c cs IH]; intros r Hb Hc; simpl; auto.
  simpl in Hc. apply app_eq_nil in Hc. destruct Hc as [-> Hc].
  unfold feed. rewrite Hb. simpl. rewrite IH; auto.
  - destruct r; simpl in *; subst; auto.
Qed.

(** [feed_all] when nothing follows an end message: all frames are read, in order. *)
Lemma feed_all_clean {M} (cf : rconf M) chunks : forall r fs tl,
  r_inv r -> incomplete (r_buf r) ->
  frames_of (r_buf r ++ List.concat chunks) fs tl ->
  ends_clean (rc_kind cf) fs tl ->
  exists ms e r' b' n',
    run_skip cf fs r = (ms, e, r')
    /\ feed_all cf r chunks = (ms, e, with_buf r' b' n')
    /\ (e = None -> b' = tl).
Proof.
  induction chunks as [|c cs IH]; intros r fs tl Hinv Hinc Hfo Hclean.
  - simpl in Hfo. rewrite app_nil_r in Hfo.
    destruct (frames_of_det _ _ _ Hfo _ _ (fo_nil _ Hinc)) as [-> ->].
    exists [], None, r, (r_buf r), (r_next r). rewrite with_buf_self. auto.
  - simpl in Hfo. rewrite app_assoc in Hfo. simpl feed_all.
    destruct (frames_of_exists (r_buf r ++ c)) as (fs1&tl1&Hfo1).
    destruct (feed_spec cf r c fs1 tl1 Hinv Hfo1) as (ms&e&r'&lft&b'&n'&Hrf&Hfeed&Hfo'&Hinv').
    rewrite Hfeed. destruct (run_frames_consumed _ _ _ _ _ _ _ Hrf) as (used&->&Hs&Hwhy).
    destruct (frames_of_exists (tl1 ++ List.concat cs)) as (fs3&tl3&Hfo3).
    pose proof (frames_of_app _ _ _ Hfo1 _ _ _ Hfo3) as Ha.
    destruct (frames_of_det _ _ _ Hfo _ _ Ha) as [-> ->].
    destruct e as [x|].
    + exists ms, (Some x), r', b', n'. split.
      * rewrite <- app_assoc, run_skip_app, Hs. auto.
      * split; auto. discriminate.
    + destruct Hwhy as [->|[Hc|(u&f&r0&r1&->&Hu&Hf)]]; [|congruence|].
      * assert (Hb' : b' = tl1) by (inversion Hfo'; auto). subst b'.
        rewrite app_nil_r in *.
        destruct (IH (with_buf r' tl1 n') fs3 tl3) as (ms2&e2&r2&b2&n2&Hs2&Hf2&Hb2); auto.
        -- simpl. exact (frames_of_incomplete _ _ _ Hfo1).
        -- intros f before after Heq He. apply (Hclean f (used ++ before) after); auto.
           rewrite Heq, app_assoc. auto.
        -- rewrite run_skip_buf in Hs2. destruct (run_skip cf fs3 r') as [[ms3 e3] r3] eqn:E3.
           injection Hs2 as <- <- <-.
           exists (ms ++ ms3), e3, r3, b2, n2. split; [|split; auto].
           ++ rewrite run_skip_app, Hs, E3. auto.
           ++ rewrite Hf2, with_buf_twice. auto.
      * (* stopped at an end message: it is the last frame and nothing follows *)
        apply read_frame_end in Hf.
        replace (mk_frame (f_flag f) (f_payload f)) with f in Hf by (destruct f; auto).
        destruct (Hclean f u (lft ++ fs3)) as [Hnil ->]; auto.
        { rewrite <- !app_assoc. reflexivity. }
        apply app_eq_nil in Hnil. destruct Hnil as [-> ->].
        assert (Htl : tl1 ++ List.concat cs = []) by (inversion Hfo3; auto).
        apply app_eq_nil in Htl. destruct Htl as [-> Hcs].
        assert (b' = []) by (inversion Hfo'; auto). subst b'.
        rewrite feed_all_empty by auto.
        exists ms, None, r', [], n'. rewrite !app_nil_r in *. auto.
Qed.

Lemma reader_new_inv md : r_inv (reader_new md). Proof. exact I. Qed.
Lemma reader_new_incomplete md : incomplete (r_buf (reader_new md)). Proof. left. simpl. lia. Qed.

(** ** Writer *)
Lemma struct_pack_ok p n hd : struct_pack_BI p n = Ok hd -> p < 256 /\ n < 4294967296 /\ hd = p :: be32 n.
Proof.
  unfold struct_pack_BI. destruct ((p <? 256) && (n <? 4294967296)) eqn:E; intro H; [|discriminate].
  injection H as <-. repeat split; lia.
Qed.

Lemma packed_frame p d hd : struct_pack_BI p (lenN d) = Ok hd -> frame_wire (mk_frame p d) (hd ++ d).
Proof.
  intro H. apply struct_pack_ok in H. destruct H as (Hp&Hn&->).
  exists (lenN d / 16777216 mod 256), (lenN d / 65536 mod 256), (lenN d / 256 mod 256), (lenN d mod 256).
  split; [reflexivity|]. simpl f_payload. unfold lenN in *. lia.
Qed.

Lemma be32_bytes n : is_bytes (be32 n).
Proof. unfold be32, is_bytes, is_byte. repeat constructor; lia. Qed.

(** As [feed_all_general], starting from a reader holding no complete frame: frames stay unread only after an
    error or after an end message. *)
Lemma feed_all_why {M} (cf : rconf M) chunks : forall r fs tl,
  r_inv r -> incomplete (r_buf r) -> frames_of (r_buf r ++ List.concat chunks) fs tl ->
  exists used lft ms e r' b' n',
    fs = used ++ lft
    /\ run_skip cf used r = (ms, e, r')
    /\ feed_all cf r chunks = (ms, e, with_buf r' b' n')
    /\ (lft = [] \/ e <> None \/ exists f, In f used /\ end_flag (rc_kind cf) f = true).
Proof.
  induction chunks as [|c cs IH]; intros r fs tl Hinv Hinc Hfo.
  - simpl in Hfo. rewrite app_nil_r in Hfo.
    destruct (frames_of_det _ _ _ Hfo _ _ (fo_nil _ Hinc)) as [-> ->].
    exists [], [], [], None, r, (r_buf r), (r_next r). rewrite with_buf_self. auto 7.
  - simpl in Hfo. rewrite app_assoc in Hfo. simpl feed_all.
    destruct (frames_of_exists (r_buf r ++ c)) as (fs1&tl1&Hfo1).
    destruct (feed_spec cf r c fs1 tl1 Hinv Hfo1) as (ms&e&r'&lft&b'&n'&Hrf&Hfeed&Hfo'&Hinv').
    rewrite Hfeed. destruct (run_frames_consumed _ _ _ _ _ _ _ Hrf) as (used&->&Hs&Hwhy).
    destruct (frames_of_exists (tl1 ++ List.concat cs)) as (fs3&tl3&Hfo3).
    pose proof (frames_of_app _ _ _ Hfo1 _ _ _ Hfo3) as Ha.
    destruct (frames_of_det _ _ _ Hfo _ _ Ha) as [-> ->].
    destruct e as [x|].
    + exists used, (lft ++ fs3), ms, (Some x), r', b', n'. rewrite app_assoc.
      repeat split; auto. right; left; discriminate.
    + destruct Hwhy as [->|[Hc|(u&f&r0&r1&->&Hu&Hf)]]; [|congruence|].
      * assert (Hb' : b' = tl1) by (inversion Hfo'; auto). subst b'. rewrite app_nil_r in *.
        destruct (IH (with_buf r' tl1 n') fs3 tl3) as (used2&lft2&ms2&e2&r2&b2&n2&->&Hs2&Hf2&Hw2); auto.
        { exact (frames_of_incomplete _ _ _ Hfo1). }
        rewrite run_skip_buf in Hs2. destruct (run_skip cf used2 r') as [[ms3 e3] r3] eqn:E3.
        injection Hs2 as <- <- <-.
        exists (used ++ used2), lft2, (ms ++ ms3), e3, r3, b2, n2. rewrite <- app_assoc.
        repeat split; auto.
        -- rewrite run_skip_app, Hs, E3. reflexivity.
        -- rewrite Hf2, with_buf_twice. reflexivity.
        -- destruct Hw2 as [H|[H|(g&Hg&He)]]; auto. right; right. exists g. rewrite in_app_iff. auto.
      * apply read_frame_end in Hf.
        replace (mk_frame (f_flag f) (f_payload f)) with f in Hf by (destruct f; auto).
        destruct (feed_all_general cf cs (with_buf r' b' n') (lft ++ fs3) tl3) as
          (used2&lft2&ms2&e2&r2&b2&n2&Heq&Hs2&Hf2); auto.
        { exact (frames_of_app _ _ _ Hfo' _ _ _ Hfo3). }
        rewrite run_skip_buf in Hs2. destruct (run_skip cf used2 r') as [[ms3 e3] r3] eqn:E3.
        injection Hs2 as <- <- <-.
        exists ((u ++ [f]) ++ used2), lft2, (ms ++ ms3), e3, r3, b2, n2.
        repeat split; auto.
        -- rewrite <- app_assoc. rewrite Heq. rewrite app_assoc. reflexivity.
        -- rewrite run_skip_app, Hs, E3. reflexivity.
        -- rewrite Hf2, with_buf_twice. reflexivity.
        -- right; right. exists f. split; auto. rewrite !in_app_iff. simpl. auto.
Qed.

(** ** Frames that carry messages *)

Definition within (m : option N) (d : bytes) : Prop := match m with Some n => lenN d <= n | None => True end.

(** A frame that delivers message [m]. *)
Definition good_frame {M} (cf : rconf M) (f : frame) (m : M) : Prop :=
  end_flag (rc_kind cf) f = false
  /\ exists d, content_of (rc_comp cf) f d /\ within (rc_max cf) d /\ rc_dec cf d = Ok m.

Lemma testbit0 f : N.testbit (f_flag f) 0 = compressed_flag f.
Proof. unfold compressed_flag. apply N.bit0_odd. Qed.

Lemma handle_end_no k f d r : end_flag k f = false ->
  exists r', handle_end k (f_flag f) d r = (EFalse, r') /\ r_trl r' = r_trl r /\ r_md r' = r_md r
    /\ r_buf r' = r_buf r /\ r_next r' = r_next r.
Proof.
  unfold end_flag, handle_end. destruct k; intro H; eauto 6.
  - assert (E : N.testbit (f_flag f) 1 = false) by (rewrite N.testbit_odd, N.shiftr_div_pow2; exact H).
    rewrite E. eauto 6.
  - assert (E : N.testbit (f_flag f) 7 = false) by (rewrite N.testbit_odd, N.shiftr_div_pow2; exact H).
    rewrite E. eexists. split; [reflexivity|]. auto.
Qed.

Lemma content_data {M} (cf : rconf M) f d :
  content_of (rc_comp cf) f d ->
  (if N.testbit (f_flag f) 0 then
      if z_identity (rc_comp cf)
      then Raise (EConnect Internal (lit "protocol error: sent compressed message without compression support") [])
      else z_decompress (rc_comp cf) (f_payload f)
    else Ok (f_payload f)) = Ok d.
Proof.
  rewrite testbit0. intros [[-> ->]|(->&->&H)]; auto.
Qed.

Lemma data_content {M} (cf : rconf M) f d :
  (if N.testbit (f_flag f) 0 then
      if z_identity (rc_comp cf)
      then Raise (EConnect Internal (lit "protocol error: sent compressed message without compression support") [])
      else z_decompress (rc_comp cf) (f_payload f)
    else Ok (f_payload f)) = Ok d ->
  content_of (rc_comp cf) f d.
Proof.
  rewrite testbit0. unfold content_of. destruct (compressed_flag f); [|intro H; injection H as <-; auto].
  destruct (z_identity (rc_comp cf)); [discriminate|]. auto.
Qed.

Lemma within_false m d : within m d -> match m with Some n => n <? lenN d | None => false end = false.
Proof. destruct m; simpl; auto. intro. lia. Qed.

Lemma read_good {M} (cf : rconf M) f m r : good_frame cf f m ->
  exists r', read_frame cf (f_flag f) (f_payload f) r = (FMsg m, r')
    /\ r_trl r' = r_trl r /\ r_md r' = r_md r /\ r_buf r' = r_buf r /\ r_next r' = r_next r.
Proof.
  intros (He&d&Hc&Hw&Hd). unfold read_frame.
  rewrite (content_data cf f d Hc). rewrite (within_false _ _ Hw).
  destruct (handle_end_no _ _ d r He) as (r'&Hh&Hr). rewrite Hh, Hd. exists r'. auto.
Qed.

Lemma run_skip_good {M} (cf : rconf M) pre ms : Forall2 (good_frame cf) pre ms -> forall r,
  exists r', run_skip cf pre r = (ms, None, r') /\ r_trl r' = r_trl r /\ r_md r' = r_md r.
Proof.
  induction 1 as [|f m pre ms Hf H IH]; intro r; simpl; eauto.
  destruct (read_good cf f m r Hf) as (r1&Hr1&Ht&Hm&_). rewrite Hr1.
  destruct (IH r1) as (r2&->&Ht2&Hm2). exists r2. repeat split; congruence.
Qed.

(** Every delivered message comes from its own frame. *)
Definition frame_gives {M} (cf : rconf M) (f : frame) (m : M) : Prop :=
  exists d, content_of (rc_comp cf) f d /\ within (rc_max cf) d /\ rc_dec cf d = Ok m.

Inductive subseq {A} : list A -> list A -> Prop :=
| sub_nil : forall l, subseq [] l
| sub_take : forall x a l, subseq a l -> subseq (x :: a) (x :: l)
| sub_drop : forall x a l, subseq a l -> subseq a (x :: l).

Lemma read_msg_inv {M} (cf : rconf M) f m r r' :
  read_frame cf (f_flag f) (f_payload f) r = (FMsg m, r') -> frame_gives cf f m.
Proof.
  unfold read_frame.
  destruct (if N.testbit (f_flag f) 0 then _ else _) as [d|e] eqn:Ed; [|discriminate].
  apply data_content in Ed.
  destruct (match rc_max cf with Some _ => _ | None => _ end) eqn:Em; [discriminate|].
  destruct (handle_end (rc_kind cf) (f_flag f) d r) as [er r1]. destruct er; try discriminate.
  destruct (rc_dec cf d) eqn:Edec; [|discriminate]. intro H. injection H as <- <-.
  exists d. repeat split; auto. unfold within. destruct (rc_max cf); auto. lia.
Qed.

Lemma run_skip_sub {M} (cf : rconf M) fs : forall r ms e r',
  run_skip cf fs r = (ms, e, r') -> exists sel, subseq sel fs /\ Forall2 (frame_gives cf) sel ms.
Proof.
  induction fs as [|f fs IH]; intros r ms e r' H; simpl in H.
  - injection H as <- <- <-. exists []. split; constructor.
  - destruct (read_frame cf (f_flag f) (f_payload f) r) as [[m| |x] r1] eqn:Erf.
    + destruct (run_skip cf fs r1) as [[ms1 e1] r2] eqn:E. injection H as <- <- <-.
      destruct (IH _ _ _ _ E) as (sel&Hs&Hf). exists (f :: sel). split; constructor; auto.
      exact (read_msg_inv _ _ _ _ _ Erf).
    + destruct (IH _ _ _ _ H) as (sel&Hs&Hf). exists sel. split; auto. constructor; auto.
    + injection H as <- <- <-. exists []. split; constructor.
Qed.

Lemma subseq_app_l {A} (a l k : list A) : subseq a l -> subseq a (l ++ k).
Proof. induction 1; simpl; constructor; auto. Qed.

Lemma app_prefix_cmp {A} : forall (pre : list A) f post used lft,
  pre ++ f :: post = used ++ lft ->
  (exists u2, used = pre ++ f :: u2) \/ (exists p2, pre = used ++ p2 /\ lft = p2 ++ f :: post).
Proof.
  induction pre as [|a pre IH]; intros f post used lft H; destruct used as [|b used]; simpl in H.
  - right. exists []. auto.
  - injection H as <- H. left. exists used. auto.
  - right. exists (a :: pre). auto.
  - injection H as <- H. destruct (IH _ _ _ _ H) as [(u2&->)|(p2&->&->)].
    + left. exists u2. auto.
    + right. exists p2. auto.
Qed.

Lemma Forall2_app_l {A B} (P : A -> B -> Prop) l1 : forall l2 ms, Forall2 P (l1 ++ l2) ms ->
  exists m1 m2, ms = m1 ++ m2 /\ Forall2 P l1 m1 /\ Forall2 P l2 m2.
Proof.
  induction l1 as [|a l1 IH]; intros l2 ms H; simpl in H.
  - exists [], ms. auto.
  - inversion H as [|x y l ms' Hxy Hl]; subst.
    destruct (IH _ _ Hl) as (m1&m2&->&Ha&Hb). exists (y :: m1), m2. simpl. auto.
Qed.

Lemma Forall2_in_l {A B} (P : A -> B -> Prop) l ms x : Forall2 P l ms -> In x l -> exists y, P x y.
Proof. induction 1; simpl; [tauto|]. intros [->|H1]; eauto. Qed.

(** A good prefix followed by a frame that fails: the error is what ends the stream. *)
Lemma feed_all_fails {M} (cf : rconf M) md chunks pre f post tl ms e :
  frames_of (List.concat chunks) (pre ++ f :: post) tl ->
  Forall2 (good_frame cf) pre ms ->
  (forall r, exists r', read_frame cf (f_flag f) (f_payload f) r = (FErr e, r')) ->
  exists r, feed_all cf (reader_new md) chunks = (ms, Some e, r).
Proof.
  intros Hfo Hg Hf.
  destruct (feed_all_why cf chunks (reader_new md) _ _ (reader_new_inv md) (reader_new_incomplete md) Hfo)
    as (used&lft&ms'&e'&r'&b'&n'&Heq&Hs&Hfeed&Hwhy).
  rewrite Hfeed. destruct (app_prefix_cmp _ _ _ _ _ Heq) as [(u2&->)|(p2&Hp&Hl)].
  - rewrite run_skip_app in Hs. destruct (run_skip_good cf _ _ Hg (reader_new md)) as (r1&Hr1&_).
    rewrite Hr1 in Hs. simpl in Hs. destruct (Hf r1) as (r2&Hr2). rewrite Hr2 in Hs.
    injection Hs as <- <- <-. rewrite app_nil_r. eauto.
  - subst pre. destruct (Forall2_app_l _ _ _ _ Hg) as (m1&m2&->&H1&H2).
    destruct (run_skip_good cf _ _ H1 (reader_new md)) as (r1&Hr1&_).
    rewrite Hr1 in Hs. injection Hs as <- <- <-.
    destruct Hwhy as [Hw|[Hw|(g&Hg1&Hg2)]].
    + subst lft. destruct p2; discriminate.
    + congruence.
    + destruct (Forall2_in_l _ _ _ _ H1 Hg1) as (y&Hy&_). congruence.
Qed.
