(** Lemmas on dialogues through a stream. *)
From Coq Require Import List NArith ZArith Bool Lia ZifyBool ZifyNat ZifyN.
From Verif Require Import MBase MPyStr LBase MHeaders MWire MEnvelope SEnvelope LEnvelope LIter PEnvelope MProtocol MClient MServer MAsgi SServer SLink LLink MDuplex SDuplex
  LDuplex LCausal SDialogue.
Import ListNotations.

(** ** The reader *)

(** Where a reader of requests stands with [buf]: it waits, or it has yielded the message at the front. *)
Definition stands {M} (cf : rconf M) (p : pause M) (buf : bytes) : Prop :=
  (incomplete buf -> exists r, p = YEnd r /\ r_buf r = buf /\ r_inv r)
  /\ forall f w rest m, frame_wire f w -> good_frame cf f m -> buf = w ++ rest -> exists r, p = YMsg m r /\ r_buf r = rest /\ r_next r = None.

Lemma known_stands {M} (cf : rconf M) r f w b m : r_buf r = w ++ b -> frame_wire f w -> good_frame cf f m -> r_next r = Some (lenN (f_payload f)) ->
  exists r', read_known cf r = YMsg m r' /\ r_buf r' = b /\ r_next r' = None.
Proof.
  intros Hb Hf Hg Hn. destruct Hf as (h3&h2&h1&h0&Hw&Hl).
  unfold read_known. rewrite Hb, Hn, Hw. cbn [List.app].
  replace (N.ltb (lenN (f_flag f :: h3 :: h2 :: h1 :: h0 :: f_payload f ++ b)) (lenN (f_payload f) + 5)) with false
    by (unfold lenN; cbn [List.length]; rewrite app_length; lia).
  assert (E2 : dropN (5 + lenN (f_payload f)) (f_flag f :: h3 :: h2 :: h1 :: h0 :: f_payload f ++ b) = b).
  { change (f_flag f :: h3 :: h2 :: h1 :: h0 :: f_payload f ++ b) with ((f_flag f :: h3 :: h2 :: h1 :: h0 :: f_payload f) ++ b).
    replace (5 + lenN (f_payload f))%N with (lenN (f_flag f :: h3 :: h2 :: h1 :: h0 :: f_payload f)) by (unfold lenN; cbn [List.length]; lia).
    apply dropN_app. }
  assert (E3 : takeN (lenN (f_payload f)) (dropN 5 (f_flag f :: h3 :: h2 :: h1 :: h0 :: f_payload f ++ b)) = f_payload f).
  { change (dropN 5 (f_flag f :: h3 :: h2 :: h1 :: h0 :: f_payload f ++ b)) with (f_payload f ++ b). apply takeN_app. }
  rewrite E2, E3. set (r0 := mk_reader _ _ _ _ _). destruct (read_good cf f m r0 Hg) as (r'&->&_&_&B1&B2). exists r'. auto.
Qed.
Lemma front {M} (cf : rconf M) f w rest m f' w' rest' : frame_wire f w -> frame_wire f' w' -> good_frame cf f' m -> w ++ rest = w' ++ rest' ->
  good_frame cf f m /\ rest = rest'.
Proof. intros H H' G E. destruct (frame_wire_det _ _ _ _ _ _ H H' E) as (->&->&->). auto. Qed.
Lemma resume_stands {M} (cf : rconf M) r : r_next r = None -> stands cf (read_resume cf r) (r_buf r).
Proof.
  intros Hn. split.
  - intros Hi. destruct (resume_waits cf r Hn Hi) as (r'&->&Eb&W). exists r'. split; [reflexivity|]. split; [exact Eb|exact (proj1 W)].
  - intros f w rest m Hw Hg E. destruct (header_len f w rest Hw) as (fl&h3&h2&h1&h0&x&E'&Hl). unfold read_resume.
    rewrite (peek_some r fl h3 h2 h1 h0 x) by congruence. apply (known_stands cf _ f w rest m); [exact E|exact Hw|exact Hg|cbn; congruence].
Qed.
Lemma first_stands {M} (cf : rconf M) r ch : r_inv r -> stands cf (feed_first cf r ch) (r_buf r ++ ch).
Proof.
  intros Hi. split.
  - intros Hn. destruct (first_waits cf r ch Hi Hn) as (r'&->&Eb&W). exists r'. split; [reflexivity|]. split; [exact Eb|exact (proj1 W)].
  - intros f w rest m Hw Hg E. unfold feed_first. set (r0 := mk_reader _ _ _ _ _). assert (E0 : r_buf r0 = r_buf r ++ ch) by reflexivity.
    assert (N0 : r_next r0 = r_next r) by reflexivity. clearbody r0. cbv zeta. rewrite <- E0 in *. destruct (r_buf r0) as [|x l] eqn:El.
    { destruct Hw as (h3&h2&h1&h0&->&_). discriminate E. }
    rewrite <- El in *. destruct (r_next r0) as [n|] eqn:En; [|exact (proj2 (resume_stands cf r0 En) f w rest m Hw Hg E)].
    apply (known_stands cf r0 f w rest m E Hw Hg). rewrite En. f_equal.
    unfold r_inv in Hi. rewrite <- N0 in Hi. destruct Hi as (fl&g3&g2&g1&g0&rst&Er&->). rewrite Er in E0. cbn in E0.
    destruct (header_len f w rest Hw) as (fl'&h3&h2&h1&h0&rest'&E'&Hl). rewrite Hl. rewrite E0, E' in E. now injection E as _ <- <- <- <- _.
Qed.

(** ** Lists *)

Lemma app_cmp {X} : forall (a b c d : list X), a ++ b = c ++ d -> (exists m, c = a ++ m /\ b = m ++ d) \/ (exists m, a = c ++ m /\ d = m ++ b).
Proof.
  induction a as [|x a IH]; intros b [|y c] d E; cbn in *; subst; [left; exists []; auto|left; exists (y :: c); auto|right; exists (x :: a); auto|].
  injection E as <- E. destruct (IH _ _ _ E) as [(m&->&->)|(m&->&->)]; [left|right]; exists m; auto.
Qed.
Lemma Forall2_fun {X Y} (R : X -> Y -> Prop) : (forall x y y', R x y -> R x y' -> y = y') -> forall l k k', Forall2 R l k -> Forall2 R l k' -> k = k'.
Proof. intros F l k k' H. revert k'. induction H; intros k' H'; inversion H'; subst; f_equal; eauto. Qed.
Lemma Forall2_len {X Y} (R : X -> Y -> Prop) l k : Forall2 R l k -> List.length l = List.length k.
Proof. induction 1; cbn; congruence. Qed.
Lemma nth_skip {X} : forall n (l : list X) x, nth_error l n = Some x -> skipn n l = x :: skipn (S n) l.
Proof. induction n as [|n IH]; intros [|y l] x H; cbn in *; try discriminate; [injection H as ->; reflexivity|]. apply IH. exact H. Qed.
Lemma nth_first {X} : forall n (l : list X) x, nth_error l n = Some x -> firstn (S n) l = firstn n l ++ [x].
Proof. induction n as [|n IH]; intros [|y l] x H; cbn [firstn nth_error] in *; try discriminate; [injection H as ->; reflexivity|]. cbn. f_equal. now apply IH. Qed.

Lemma dialog_app {A B} (t u : list (devent A B)) : dialog_of (t ++ u) = dialog_of t ++ dialog_of u.
Proof. apply flat_map_app. Qed.
Lemma dialog_recv {A B} o : dialog_of (map (@DRecv A B) o) = [].
Proof. induction o as [|x o IH]; [reflexivity|exact IH]. Qed.
Lemma dialog_sends {A B} o : dialog_of (map (@DSend A B) o) = [].
Proof. induction o as [|x o IH]; [reflexivity|exact IH]. Qed.
Lemma bodies_app l1 l2 : bodies (l1 ++ l2) = bodies l1 ++ bodies l2.
Proof. apply flat_map_app. Qed.

(** ** The loop body *)
Lemma body_writes {B} o seen p name (enc : B -> res bytes) z s rs b :
  let '(s', i) := stream_body o seen p name enc z s rs b in
  exists l, grows (ls_a s) (ls_a s') l /\ match i with None => exists w, write_message enc (Some z) b = Ok w /\ bodies l = [w] | Some _ => bodies l = [] end.
Proof.
  unfold stream_body. destruct (seen (ls_i s)).
  { exists []. split; [unfold grows; cbn; now rewrite app_nil_r|reflexivity]. }
  assert (H : let '(a, r) := (if ls_sent s then (ls_a s, inl tt) else send_stream_headers o p name (z_name z) rs (ls_a s)) in
              exists l, grows (ls_a s) a l /\ bodies l = []).
  { destruct (ls_sent s); [exists []; split; [unfold grows; now rewrite app_nil_r|reflexivity]|].
    unfold send_stream_headers, io_bind, io_res. destruct (encode_pairs _) as [hs|e]; cbn [io_ret io_raise].
    - unfold io_ret. pose proof (send_grows o (EvStart 200 hs (uses_trailers p)) (ls_a s)) as G. destruct (send _ _ _) as [a [u|i]]; eexists; (split; [exact G|reflexivity]).
    - unfold io_raise. exists []. split; [unfold grows; now rewrite app_nil_r|reflexivity]. }
  destruct (if ls_sent s then _ else _) as [a [u|x]].
  - destruct H as (l&G&Hl). unfold io_bind, io_res. destruct (write_message enc (Some z) b) as [body|e]; cbn.
    + unfold io_ret. pose proof (send_grows o (EvBody body true) a) as G'. destruct (send o (EvBody body true) a) as [a' [u'|i']]; cbn [ls_a].
      * exists (l ++ [EvBody body true]). split; [unfold grows in *; now rewrite G', G, app_assoc|]. exists body. split; [reflexivity|]. rewrite bodies_app, Hl. reflexivity.
      * exists l. split; [unfold grows in *; now rewrite G', G, app_nil_r|exact Hl].
    + unfold io_raise. exists l. split; [exact G|exact Hl].
  - destruct H as (l&G&Hl). exists l. split; [exact G|exact Hl].
Qed.

(** ** The stream between the two *)
Section between.
Context {A B : Type} (c : client A B) (zc rz z : compression) (max : option N) (k : codec A B) (says : talker A B).
Hypothesis Steady : steady says.
Hypothesis Req : forall a d, k_enc_req (cl_codec c) a = Ok d -> k_dec_req k d = Ok a.
Hypothesis Res : forall b d, k_enc_res k b = Ok d -> k_dec_res (cl_codec c) d = Ok b.
Hypothesis Zreq : undoes rz (cl_send c).
Hypothesis Zres : undoes zc z.
Let cf : rconf A := mk_rconf RBase rz max (k_dec_req k).
Let wr (a : A) (b : bytes) : Prop := write_message (k_enc_req (cl_codec c)) (Some (cl_send c)) a = Ok b.
Let ww (b : B) (w : bytes) : Prop := write_message (k_enc_res k) (Some z) b = Ok w.
Definition small (a : A) : Prop := forall d, k_enc_req (cl_codec c) a = Ok d -> fits_in max d.
Definition short (b : B) : Prop := forall d, k_enc_res k b = Ok d -> fits_in (cl_max c) d.

Lemma wr_fun a x y : wr a x -> wr a y -> x = y.
Proof. unfold wr. congruence. Qed.
Lemma wr_frame a w : small a -> wr a w -> exists f, frame_wire f w /\ good_frame cf f a.
Proof. intros S W. exact (written_good (k_enc_req (cl_codec c)) (Some (cl_send c)) cf a w Req (undoes_lossless _ _ Zreq) S W). Qed.
Lemma reads_back ys bs : Forall short ys -> Forall2 ww ys bs -> client_reads c zc bs = ys.
Proof.
  intros S W. unfold client_reads. set (cc := mk_rconf _ _ _ _).
  destruct (C02_stream_roundtrip B (k_enc_res k) (Some z) cc None ys bs bs Res (undoes_lossless _ _ Zres)) as (r&->&_); [|exact W|reflexivity|reflexivity].
  intros m d I. exact (proj1 (Forall_forall short ys) S m I d).
Qed.

(** What has arrived of the client's messages when the method was told [n] of them and has said [ys]: [buf] is left. *)
Definition arrived (R : bytes) (more : bool) (n : nat) (buf : bytes) (ys : list B) : Prop :=
  exists ms bs others unread, Forall2 wr ms bs /\ fst (says ys) = ms ++ others
    /\ R = List.concat (firstn n bs) ++ buf /\ (n <= List.length bs)%nat /\ List.concat (skipn n bs) = buf ++ unread
    /\ (more = false -> others = [] /\ snd (says ys) = true /\ unread = []).
Lemma arrived_later R more n buf ys b : arrived R more n buf ys -> arrived R more n buf (ys ++ b).
Proof.
  intros (ms&bs&others&unread&F&E&ER&L&ES&M). destruct (Steady ys b) as (new&E'&M'). exists ms, bs, (others ++ new), unread.
  split; [exact F|]. split; [now rewrite E', E, app_assoc|]. do 3 (split; [assumption|]). intros Hm. destruct (M Hm) as (->&Hs&->). destruct (M' Hs) as (->&Hs'). auto.
Qed.

(** If a whole message is at the front, it is the next one; otherwise less than the next one has arrived. *)
Lemma arrived_front R more n buf ys : (forall a, nth_error (fst (says ys)) n = Some a -> small a) -> arrived R more n buf ys ->
  (exists a f w rest, nth_error (fst (says ys)) n = Some a /\ frame_wire f w /\ good_frame cf f a /\ buf = w ++ rest /\ arrived R more (S n) rest ys)
  \/ (incomplete buf /\ (more = false -> nth_error (fst (says ys)) n = None /\ snd (says ys) = true)).
Proof.
  intros Sm (ms&bs&others&unread&F&E&ER&L&ES&M). destruct (nth_error bs n) as [w|] eqn:Ew.
  - assert (Ea : exists a, nth_error ms n = Some a /\ wr a w).
    { clear -F Ew. revert n Ew. induction F as [|a b ms bs H F IH]; intros [|n] Ew; cbn in *; try discriminate; [injection Ew as <-; eauto|auto]. }
    destruct Ea as (a&Ea&Hw). assert (Es : nth_error (fst (says ys)) n = Some a).
    { rewrite E, nth_error_app1 by (apply nth_error_Some; congruence). exact Ea. }
    destruct (wr_frame a w) as (f&Ff&Gf); [exact (Sm a Es)|exact Hw|].
    rewrite (nth_skip n bs w Ew) in ES. cbn [List.concat] in ES. destruct (app_cmp _ _ _ _ ES) as [(m&E1&E2)|(m&E1&E2)].
    + left. exists a, f, w, m. do 4 (split; [assumption|]). exists ms, bs, others, unread. do 2 (split; [assumption|]).
      split; [rewrite (nth_first n bs w Ew), List.concat_app; cbn [List.concat]; rewrite app_nil_r, <- app_assoc, ER, E1; reflexivity|].
      split; [assert (n < List.length bs)%nat by (apply nth_error_Some; congruence); lia|]. split; assumption.
    + destruct m as [|y m].
      * left. rewrite app_nil_r in E1. exists a, f, w, []. do 3 (split; [assumption|]). split; [now rewrite app_nil_r|]. exists ms, bs, others, unread. do 2 (split; [assumption|]).
        split; [rewrite (nth_first n bs w Ew), List.concat_app; cbn [List.concat]; rewrite !app_nil_r, ER; congruence|].
        split; [assert (n < List.length bs)%nat by (apply nth_error_Some; congruence); lia|]. cbn in E2 |- *. split; [congruence|assumption].
      * right. split.
        { destruct (incomplete_dec buf) as [(f'&b'&w'&Hw'&Eb)|Hi]; [|exact Hi]. exfalso.
          assert (EW : w ++ [] = w' ++ (b' ++ y :: m)) by (rewrite app_nil_r, E1, Eb, <- app_assoc; reflexivity).
          destruct (frame_wire_det _ _ _ _ _ _ Ff Hw' EW) as (_&_&X). destruct b'; discriminate X. }
        { intros Hm. destruct (M Hm) as (_&_&->). discriminate E2. }
  - assert (Lb : List.length bs = n) by (apply nth_error_None in Ew; lia). rewrite skipn_all2 in ES by lia. symmetry in ES. apply app_eq_nil in ES. destruct ES as [-> ->].
    right. split; [left; cbn; lia|]. intros Hm. destruct (M Hm) as (->&Hs&_). split; [|exact Hs]. rewrite E, app_nil_r. apply nth_error_None.
    assert (List.length ms = List.length bs) by (clear -F; induction F; cbn; congruence). lia.
Qed.
(** What is reported next has arrived then. *)
Lemma concat_longer (l : list bytes) ms : Forall2 wr ms l -> (l = [] \/ (0 < List.length (List.concat l))%nat).
Proof.
  intros H. destruct H as [|a w ms l H F]; [left; reflexivity|right]. cbn [List.concat]. rewrite app_length.
  destruct (written_frame _ _ _ _ H) as (d&p&_&_&Hf). pose proof (frame_wire_len _ _ Hf). lia.
Qed.
Lemma Forall2_split {X Y} (P : X -> Y -> Prop) a : forall b l, Forall2 P (a ++ b) l -> exists l1 l2, l = l1 ++ l2 /\ Forall2 P a l1 /\ Forall2 P b l2.
Proof.
  induction a as [|x a IH]; intros b l H; cbn in H; [exists [], l; auto|]. inversion H as [|? y ? l' H1 H2]; subst. destruct (IH _ _ H2) as (l1&l2&->&F1&F2).
  exists (y :: l1), l2. auto.
Qed.
Lemma arrived_step R out n buf ys b more : arrived R true n buf ys ->
  (exists ys0 later bs unread, client_reads c zc out = ys0 ++ later /\ client_writes c (fst (says ys0)) bs /\ List.concat bs = R ++ b ++ unread
     /\ (more = false -> snd (says ys0) = true /\ unread = [])) ->
  client_reads c zc out = ys -> arrived (R ++ b) more n (buf ++ b) ys.
Proof.
  intros (ms&bs&others&unread&F&E&ER&L&ES&_) (ys0&later&bs'&unread'&Ey&F'&Ec&M) Er. rewrite Er in Ey. subst ys.
  destruct (Steady ys0 later) as (new&En&Mn). set (ms' := fst (says ys0)) in *.
  assert (Hn : (n <= List.length bs')%nat /\ firstn n bs' = firstn n bs).
  { rewrite E in En. destruct (app_cmp _ _ _ _ En) as [(m&E1&E2)|(m&E1&E2)].
    - rewrite E1 in F'. destruct (Forall2_split _ _ _ _ F') as (l1&l2&->&F1&F2). assert (l1 = bs) by exact (Forall2_fun wr wr_fun _ _ _ F1 F). subst l1.
      split; [rewrite app_length; lia|]. rewrite firstn_app. replace (n - List.length bs)%nat with O by lia. cbn. apply app_nil_r.
    - rewrite E1 in F. destruct (Forall2_split _ _ _ _ F) as (l1&l2&->&F1&F2). assert (l1 = bs') by exact (Forall2_fun wr wr_fun _ _ _ F1 F'). subst l1.
      assert (Le : (n <= List.length bs')%nat).
      { destruct (Nat.le_gt_cases n (List.length bs')) as [H|H]; [exact H|exfalso].
        assert (Lc := f_equal (@List.length _) Ec). rewrite ER, firstn_app, List.concat_app, !app_length in Lc. rewrite firstn_all2 in Lc by lia.
        assert (F3 : exists m1, Forall2 wr m1 (firstn (n - List.length bs') l2)).
        { clear -F2. exists (firstn (n - List.length bs') m). generalize (n - List.length bs')%nat. induction F2; intros [|j]; cbn; auto. }
        destruct F3 as (m1&F3). destruct (concat_longer _ _ F3) as [Z|Z]; [|lia].
        apply (f_equal (@List.length _)) in Z. rewrite firstn_length, app_length in *. cbn in Z. lia. }
      split; [exact Le|]. rewrite firstn_app. replace (n - List.length bs')%nat with O by lia. cbn. now rewrite app_nil_r. }
  destruct Hn as [Hn Hf]. exists ms', bs', new, unread'. split; [exact F'|]. split; [exact En|]. split; [now rewrite ER, Hf, app_assoc|]. split; [exact Hn|]. split.
  - rewrite ER, <- Hf in Ec. rewrite <- (firstn_skipn n bs') in Ec at 1. rewrite List.concat_app, <- !app_assoc in Ec. apply app_inv_head in Ec. now rewrite Ec, app_assoc.
  - intros Hm. destruct (M Hm) as [Hs ->]. destruct (Mn Hs) as [-> Hs']. auto.
Qed.

Lemma arrived_next w n buf ys b more : arrived (List.concat (received w)) true n buf ys -> reports c zc says w (RReq b more) ->
  client_reads c zc (bodies (sent w)) = ys ->
  arrived (List.concat (received w) ++ b) more n (buf ++ b) ys.
Proof.
  intros H (b'&mo&ys0&later&bs'&unread'&X&P) Er. injection X as <- <-. apply (arrived_step _ (bodies (sent w))); [exact H| |exact Er]. exists ys0, later, bs', unread'. exact P.
Qed.

(** Where the request stream stands. *)
Definition rq_at (q : rqpos) (R : bytes) (over : bool) (n : nat) (ys : list B) : Prop :=
  match q with
  | RqStart _ => over = false /\ n = O /\ R = []
  | RqYield r more _ j => over = false /\ j = n /\ r_next r = None /\ arrived R more n (r_buf r) ys
  | RqEnd => over = true
  end.
Lemma rq_at_later q R over n ys b : rq_at q R over n ys -> rq_at q R over n (ys ++ b).
Proof. destruct q; cbn; try tauto. intros (?&?&?&H). repeat split; auto. now apply arrived_later. Qed.
Definition relays (w t : list (devent A B)) : Prop := forall u x r, t = u ++ DRecv x :: r -> reports c zc says (w ++ u) x.
Lemma relays_app w t u : relays w (t ++ u) -> relays w t /\ relays (w ++ t) u.
Proof.
  intros H. split.
  - intros v x r ->. apply (H v x (r ++ u)). now rewrite <- app_assoc.
  - intros v x r ->. rewrite <- app_assoc. apply (H (t ++ v) x r). now rewrite <- app_assoc.
Qed.

(** The next element of the request stream. *)
Lemma rpump_tells n ys : (forall a, nth_error (fst (says ys)) n = Some a -> small a) -> forall evs p more buf w,
  stands cf p buf -> arrived (List.concat (received w)) more n buf ys -> client_reads c zc (bodies (sent w)) = ys ->
  let '(s, o) := rpump cf p more evs in relays w (map DRecv o) ->
  match s with
  | RsMsg a r more _ => nth_error (fst (says ys)) n = Some a /\ r_next r = None /\ arrived (List.concat (received (w ++ map DRecv o))) more (S n) (r_buf r) ys
  | RsEnd => nth_error (fst (says ys)) n = None /\ snd (says ys) = true
  | RsErr _ => False
  end.
Proof.
  intros Sm. induction evs as [|x evs IH]; intros p more buf w St Ar Rd; cbn [rpump];
    (destruct (arrived_front _ _ _ _ _ Sm Ar) as [(a&f&w'&rest&Ea&Ff&Gf&Eb&Ar')|[Hi He]];
     [destruct (proj2 St f w' rest a Ff Gf Eb) as (r&->&<-&Hr); intros _; cbn [map]; rewrite app_nil_r; auto|
      destruct (proj1 St Hi) as (r&->&Eb&Hr); destruct more; [|intros _; cbn [map]; auto]]).
  - intros H. destruct (H [] RDisconnect [] eq_refl) as (b&mo&?&?&?&?&X&_). discriminate X.
  - destruct x as [b mo| | |e|]; try (intros H; destruct (H [] _ [] eq_refl) as (b&mo&?&?&?&?&X&_); discriminate X).
    specialize (IH (feed_first cf r b) mo (buf ++ b) (w ++ [DRecv (RReq b mo)])). rewrite <- Eb in IH at 1. specialize (IH (first_stands cf r b Hr)).
    destruct (rpump cf (feed_first cf r b) mo evs) as [s o]. intros H. pose proof (H [] _ _ eq_refl) as Rp. rewrite app_nil_r in Rp.
    pose proof (arrived_next w n buf ys b mo Ar Rp Rd) as Ar'.
    rewrite received_app, List.concat_app in IH. cbn [received flat_map part List.app List.concat] in IH. rewrite app_nil_r in IH. specialize (IH Ar').
    rewrite sent_app in IH. cbn [sent flat_map] in IH. rewrite app_nil_r in IH. specialize (IH Rd). cbn [map] in *.
    rewrite <- app_assoc in IH. apply IH. intros u y t E. rewrite <- app_assoc. apply (H (DRecv (RReq b mo) :: u) y t). cbn. now rewrite E.
Qed.
Lemma rq_next_tells q w over n ys : (over = false -> forall a, nth_error (fst (says ys)) n = Some a -> small a) -> rq_at q (List.concat (received w)) over n ys -> client_reads c zc (bodies (sent w)) = ys ->
  let '(x, q', o) := rq_next cf None q in relays w (map DRecv o) ->
  match x with
  | PMsg a => over = false /\ nth_error (fst (says ys)) n = Some a /\ rq_at q' (List.concat (received (w ++ map DRecv o))) false (S n) ys
  | PEnd => (over = true \/ over = false /\ nth_error (fst (says ys)) n = None /\ snd (says ys) = true) /\ q' = RqEnd
  | PExn _ => False
  end.
Proof.
  intros Sm Hq Rd.
  assert (G : forall p more evs buf, over = false -> stands cf p buf -> arrived (List.concat (received w)) more n buf ys ->
    let '(x, q', o) := let (s, o) := rpump cf p more evs in
      match s with RsMsg m r more evs => (PMsg m, RqYield r more evs (S n), o) | RsErr e => (PExn e, RqEnd, o) | RsEnd => (PEnd, RqEnd, o) end in
    relays w (map DRecv o) ->
    match x with
    | PMsg a => over = false /\ nth_error (fst (says ys)) n = Some a /\ rq_at q' (List.concat (received (w ++ map DRecv o))) false (S n) ys
    | PEnd => (over = true \/ over = false /\ nth_error (fst (says ys)) n = None /\ snd (says ys) = true) /\ q' = RqEnd
    | PExn _ => False
    end).
  { intros p more evs buf Ho St Ar. pose proof (rpump_tells n ys (Sm Ho) evs p more buf w St Ar Rd) as R. destruct (rpump cf p more evs) as [s o].
    destruct s as [a r mo evs'|e|]; intros H; specialize (R H).
    - destruct R as (R1&R2&R3). split; [exact Ho|]. split; [exact R1|]. cbn [rq_at]. auto.
    - exact R.
    - split; [right; auto|reflexivity]. }
  destruct q as [evs|r more evs j|]; cbn [rq_next rq_at] in *.
  - destruct Hq as (->&->&HR). apply (G _ _ _ []); [reflexivity| |].
    + split.
      * intros _. eexists. split; [reflexivity|]. split; [reflexivity|exact I].
      * intros f w' rest m Hw _ E. destruct w'; [|discriminate E]. destruct Hw as (?&?&?&?&E'&_). discriminate E'.
    + exists [], [], (fst (says ys)), []. repeat split; auto; discriminate.
  - destruct Hq as (->&->&Hn&Ar). apply (G _ _ _ (r_buf r)); [reflexivity|now apply resume_stands|exact Ar].
  - intros _. split; [left; exact Hq|reflexivity].
Qed.

(** The method and the client application. *)
Lemma drive_dialogue o p name (g : prog A B unit) : forall q rs s w over n ys,
  rq_at q (List.concat (received w)) over n ys -> Forall2 ww ys (bodies (sent w)) -> Forall short ys ->
  (forall a, In (Told (PMsg a)) (dialogue says g over n ys) -> small a) -> (forall b, In (Said b) (dialogue says g over n ys) -> short b) ->
  let '(s', _, _, t) := drive_t (stream_body o (fun _ => false) p name (k_enc_res k) z) cf None g q rs s in relays w t ->
  exists rest, dialogue says g over n ys = dialog_of t ++ rest
    /\ (level t -> rest = [] /\ Forall2 ww (ys ++ yielded t) (bodies (sent (w ++ t)))).
Proof.
  induction g as [r|i|g IH|b cl g IH|op g IH|op g IH]; intros q rs s w over n ys Hq Hb Hs Ht Hd; cbn [drive_t dialogue] in *; try (apply IH; assumption).
  - intros _. exists []. split; [reflexivity|]. intros _. cbn. rewrite !app_nil_r. auto.
  - intros _. exists []. split; [reflexivity|]. intros _. cbn. rewrite !app_nil_r. auto.
  - pose proof (reads_back ys _ Hs Hb) as Rd. assert (Sm : over = false -> forall a, nth_error (fst (says ys)) n = Some a -> small a).
    { intros -> a Ea. apply Ht. rewrite Ea. left. reflexivity. }
    pose proof (rq_next_tells q w over n ys Sm Hq Rd) as T.
    destruct (rq_next cf None q) as [[x q'] o']. pose proof (fun over n => IH x q' rs s (w ++ exchange o' x) over n ys) as IHx.
    destruct (drive_t _ cf None (g x) q' rs s) as [[[s' rs'] e] t]. rewrite exchange_cons. intros H. destruct (relays_app _ _ _ H) as [H1 H2].
    assert (H0 : relays w (map DRecv o')).
    { intros u y v E. assert (X := H1 (DAsk :: u) y (v ++ [DGive x])). unfold exchange in X. rewrite E, <- app_assoc in X. specialize (X eq_refl).
      destruct X as (b0&mo&ys0&later&bs0&un&X1&X2&X3&X4&X5). exists b0, mo, ys0, later, bs0, un. rewrite sent_app, received_app in *. auto. }
    specialize (T H0).
    assert (Eb : bodies (sent (w ++ exchange o' x)) = bodies (sent w)).
    { unfold exchange. rewrite sent_app. rewrite sent_ask, sent_app, sent_recv. cbn [sent flat_map]. now rewrite app_nil_r. }
    assert (Er : received (w ++ exchange o' x) = received (w ++ map DRecv o')).
    { rewrite !received_app, exchange_received, received_recv. reflexivity. }
    assert (Ed : dialog_of (exchange o' x ++ t) = Told x :: dialog_of t).
    { rewrite dialog_app. unfold exchange. change (dialog_of (DAsk :: map DRecv o' ++ [DGive x])) with (dialog_of (map DRecv o' ++ [@DGive A B x])).
      rewrite dialog_app, dialog_recv. reflexivity. }
    assert (Lv : level (exchange o' x ++ t) -> level t).
    { pose proof (exchange_level (A := A) (B := B) o' x) as L. unfold level in *. rewrite sent_app, bodies_app, yielded_app, !app_length. lia. }
    assert (Ey : yielded (exchange o' x ++ t) = yielded t).
    { rewrite yielded_app. unfold exchange. change (yielded (DAsk :: map DRecv o' ++ [DGive x])) with (yielded (map DRecv o' ++ [@DGive A B x])).
      rewrite yielded_app, yielded_recv. reflexivity. }
    rewrite Ed, Ey. rewrite app_assoc. rewrite Eb, Er in IHx.
    assert (G : forall over' n', dialogue says (Pull g) over n ys = Told x :: dialogue says (g x) over' n' ys -> rq_at q' (List.concat (received (w ++ map DRecv o'))) over' n' ys ->
      exists rest, dialogue says (Pull g) over n ys = (Told x :: dialog_of t) ++ rest
        /\ (level (exchange o' x ++ t) -> rest = [] /\ Forall2 ww (ys ++ yielded t) (bodies (sent ((w ++ exchange o' x) ++ t))))).
    { intros over' n' E Hq'. cbn [dialogue] in E. destruct (IHx over' n' Hq' Hb Hs) as (rest&E1&E2).
      - intros a Ia. apply Ht. rewrite E. right. exact Ia.
      - intros b Ib. apply Hd. rewrite E. right. exact Ib.
      - exact H2.
      - exists rest. split; [cbn [dialogue]; rewrite E, E1; reflexivity|]. intros L. exact (E2 (Lv L)). }
    cbn [dialogue] in G. destruct x as [a| |e0]; [| |destruct T].
    + destruct T as (Ho&En&Hq'). subst over. rewrite En in G |- *. exact (G false (S n) eq_refl Hq').
    + destruct T as ([->|(->&En&Es)]& ->); [exact (G true n eq_refl eq_refl)|]. rewrite En, Es in G |- *. exact (G true n eq_refl eq_refl).
  - pose proof (body_writes o (fun _ => false) p name (k_enc_res k) z s rs b) as Hw.
    destruct (stream_body o (fun _ => false) p name (k_enc_res k) z s rs b) as [s' [i|]]; destruct Hw as (l&G&Hl); rewrite (grows_newly _ _ _ G).
    + intros _. exists (dialogue says g over n (ys ++ [b])). split; [change (dialog_of (DYield b :: map DSend l)) with (Said (A := A) b :: dialog_of (map DSend l)); now rewrite dialog_sends|].
      intros L. exfalso. unfold level in L. rewrite sent_yield, sent_map, Hl in L. discriminate L.
    + destruct Hl as (x&Ww&Hl). assert (Wb : ww b x) by exact Ww. pose proof (IH q rs s' (w ++ DYield b :: map DSend l) over n (ys ++ [b])) as IHx.
      destruct (drive_t _ cf None g q rs s') as [[[s'' rs'] e] t]. intros H. change (DYield b :: map DSend l ++ t) with ((DYield b :: map (@DSend A B) l) ++ t) in *.
      destruct (relays_app _ _ _ H) as [_ H2].
      destruct IHx as (rest&E1&E2).
      * rewrite received_app. change (received (DYield b :: map DSend l)) with (received (map (@DSend A B) l)). rewrite received_sends, app_nil_r. now apply rq_at_later.
      * rewrite sent_app, bodies_app, sent_yield, sent_map, Hl. apply Forall2_app; [exact Hb|]. constructor; [exact Wb|constructor].
      * apply Forall_app. split; [exact Hs|]. constructor; [|constructor]. apply Hd. left. reflexivity.
      * intros a Ia. apply Ht. right. exact Ia.
      * intros b' Ib. apply Hd. right. exact Ib.
      * exact H2.
      * exists rest. split.
        { rewrite dialog_app. change (dialog_of (DYield b :: map DSend l)) with (Said (A := A) b :: dialog_of (map DSend l)). rewrite dialog_sends, E1. reflexivity. }
        { intros L. assert (Lt : level t).
          { unfold level in *. rewrite sent_app, bodies_app, yielded_app, !app_length, sent_yield, sent_map, Hl in L.
            change (yielded (DYield b :: map DSend l)) with (b :: yielded (map (@DSend A B) l)) in L. rewrite yielded_sends in L. cbn in L. lia. }
          destruct (E2 Lt) as [E3 E4]. split; [exact E3|]. rewrite app_assoc, yielded_app.
          change (yielded (DYield b :: map DSend l)) with (b :: yielded (map (@DSend A B) l)). rewrite yielded_sends. rewrite <- app_assoc in E4. cbn [List.app] in E4 |- *.
          exact E4. }
Qed.

(** A way for the client's messages to arrive: one by one, when the method asks, and then the end. *)
Definition offered (q : list recv -> rqpos) (over : bool) (n : nat) : Prop :=
  (q = RqStart /\ over = false /\ n = O)
  \/ (exists r, q = (fun evs => RqYield r true evs n) /\ over = false /\ r_next r = None /\ r_buf r = [])
  \/ (q = (fun _ => RqEnd) /\ over = true).
Lemma offered_next q n : offered q false n -> exists r, r_next r = None /\ r_buf r = [] /\ forall evs,
  rq_next cf None (q evs) = (let (s, o) := rpump cf (YEnd r) true evs in
    match s with RsMsg m r more evs => (PMsg m, RqYield r more evs (S n), o) | RsErr e => (PExn e, RqEnd, o) | RsEnd => (PEnd, RqEnd, o) end).
Proof.
  intros [(->&_&->)|[(r&->&_&Hn&Hb)|(_&Ho)]]; [| |discriminate Ho].
  - exists (reader_new None). auto.
  - exists r. split; [exact Hn|]. split; [exact Hb|]. intros evs. cbn [rq_next]. unfold read_resume. rewrite (proj2 (peek_none r)) by (rewrite Hb; cbn; lia). reflexivity.
Qed.
Lemma pump_message r a x : r_next r = None -> r_buf r = [] -> small a -> wr a x ->
  exists r', r_next r' = None /\ r_buf r' = [] /\ forall evs, rpump cf (YEnd r) true (RReq x true :: evs) = (RsMsg a r' true evs, [RReq x true]).
Proof.
  intros Hn Hb S W. destruct (wr_frame a x S W) as (f&Ff&Gf).
  assert (Hi : r_inv r) by (unfold r_inv; now rewrite Hn). pose proof (first_stands cf r x Hi) as St. rewrite Hb in St. cbn [List.app] in St.
  destruct (proj2 St f x [] a Ff Gf) as (r'&Er&Eb&En); [now rewrite app_nil_r|]. exists r'. split; [exact En|]. split; [exact Eb|]. intros evs.
  cbn [rpump]. rewrite Er. destruct evs; reflexivity.
Qed.
Lemma pump_end r : r_next r = None -> r_buf r = [] -> rpump cf (YEnd r) true [RReq [] false] = (RsEnd, [RReq [] false]).
Proof.
  intros Hn Hb. cbn [rpump]. unfold feed_first. rewrite Hb. cbn. reflexivity.
Qed.

Lemma firstn_prefix {X} (l more : list X) n : (n <= List.length l)%nat -> firstn n (l ++ more) = firstn n l.
Proof. intros H. rewrite firstn_app. replace (n - List.length l)%nat with O by lia. apply app_nil_r. Qed.

Lemma some_relay o p name (g : prog A B unit) : (forall ys, exists bs, client_writes c (fst (says ys)) bs) ->
  forall q rs s w over n ys, offered q over n -> Forall2 ww ys (bodies (sent w)) -> Forall short ys ->
  (over = false -> exists bs, client_writes c (firstn n (fst (says ys))) bs /\ List.concat (received w) = List.concat bs /\ (n <= List.length (fst (says ys)))%nat) ->
  (forall a, In (Told (PMsg a)) (dialogue says g over n ys) -> small a) -> (forall b, In (Said b) (dialogue says g over n ys) -> short b) ->
  converses says g over n ys ->
  exists evs, relays w (snd (drive_t (stream_body o (fun _ => false) p name (k_enc_res k) z) cf None g (q evs) rs s)).
Proof.
  intros Wr. induction g as [r|i|g IH|b cl g IH|op g IH|op g IH]; intros q rs s w over n ys Hq Hb Hs HR Ht Hd Hc; cbn [drive_t dialogue converses] in *; try (apply (IH q _ s w over n ys); assumption).
  - exists []. intros [|? ?] ? ? E; discriminate E.
  - exists []. intros [|? ?] ? ? E; discriminate E.
  - pose proof (reads_back ys _ Hs Hb) as Rd.
    assert (Step : forall x (qf : list recv -> rqpos) (pre : list recv) over' n',
      (forall evs, rq_next cf None (q (pre ++ evs)) = (x, qf evs, pre)) -> relays w (map DRecv pre) -> offered qf over' n' ->
      (over' = false -> exists bs, client_writes c (firstn n' (fst (says ys))) bs /\ List.concat (received (w ++ map DRecv pre)) = List.concat bs /\ (n' <= List.length (fst (says ys)))%nat) ->
      (forall a, In (Told (PMsg a)) (dialogue says (g x) over' n' ys) -> small a) -> (forall b, In (Said b) (dialogue says (g x) over' n' ys) -> short b) ->
      converses says (g x) over' n' ys ->
      exists evs, relays w (snd (let '(x, q0, o0) := rq_next cf None (q evs) in
        let '(s0, rs0, e, t) := drive_t (stream_body o (fun _ => false) p name (k_enc_res k) z) cf None (g x) q0 rs s in (s0, rs0, e, DAsk :: map DRecv o0 ++ DGive x :: t)))).
    { intros x qf pre over' n' En Rl Of HR' Ht' Hd' Hc'.
      destruct (IH x qf rs s (w ++ exchange pre x) over' n' ys Of) as (evs&Hr); auto.
      - unfold exchange. rewrite sent_app, sent_ask, sent_app, sent_recv. cbn [sent flat_map]. now rewrite app_nil_r.
      - rewrite received_app, exchange_received, <- (@received_recv A B), <- received_app. exact HR'.
      - exists (pre ++ evs). rewrite En. destruct (drive_t _ cf None (g x) (qf evs) rs s) as [[[s' rs'] e] t]. cbn [snd] in *.
        rewrite exchange_cons. intros u y v E. destruct (app_split _ _ _ _ _ E) as [(d&E1&E2)|(d&E1&E2)].
        + unfold exchange in E1. destruct u as [|u0 u]; [discriminate E1|]. injection E1 as <- E1.
          destruct (app_split _ _ _ _ _ E1) as [(d'&E3&E4)|(d'&E3&E4)].
          * pose proof (Rl u y d' E3) as X. destruct X as (b0&mo&ys0&later&bs0&un&X1&X2&X3&X4&X5). exists b0, mo, ys0, later, bs0, un.
            rewrite sent_app, received_app in *. auto.
          * destruct d' as [|? [|? ?]]; discriminate E4.
        + subst u. rewrite app_assoc. exact (Hr d y v E2). }
    destruct over.
    + destruct Hq as [(_&X&_)|[(?&_&X&_)|(->&_)]]; try discriminate X.
      apply (Step PEnd (fun _ => RqEnd) [] true n); auto.
      * intros [|? ?] ? ? E; discriminate E.
      * right. right. auto.
      * discriminate.
      * intros a Ia. apply Ht. right. exact Ia.
      * intros b Ib. apply Hd. right. exact Ib.
    + destruct (HR eq_refl) as (bs&F&ER&L). destruct (offered_next q n Hq) as (r&Hn&Hbuf&Hnext). destruct (Wr ys) as (all&Fa).
      assert (Ebs : bs = firstn n all).
      { rewrite <- (firstn_skipn n (fst (says ys))) in Fa. destruct (Forall2_split _ _ _ _ Fa) as (l1&l2&->&F1&_). assert (l1 = bs) by exact (Forall2_fun wr wr_fun _ _ _ F1 F). subst l1.
        assert (List.length bs = n) by (rewrite <- (Forall2_len _ _ _ F), firstn_length; lia). rewrite firstn_app, firstn_all2 by lia. replace (n - List.length bs)%nat with O by lia. cbn. now rewrite app_nil_r. }
      destruct (nth_error (fst (says ys)) n) as [a|] eqn:Ea.
      * assert (Ex : exists x, nth_error all n = Some x /\ wr a x).
        { clear -Fa Ea. unfold client_writes in Fa. revert n Ea. induction Fa as [|a' x ms xs H F IH]; intros [|n] Ea; cbn in *; try discriminate; [injection Ea as <-; eauto|eauto]. }
        destruct Ex as (x&Ex&Wx). destruct (pump_message r a x Hn Hbuf) as (r'&Hn'&Hb'&Hp); [apply Ht; left; reflexivity|exact Wx|].
        apply (Step (PMsg a) (fun evs => RqYield r' true evs (S n)) [RReq x true] false (S n)).
        { intros evs. rewrite Hnext. cbn [List.app]. rewrite Hp. reflexivity. }
        { intros [|u0 u] y v E; [|destruct u; discriminate E]. injection E as <- <-. rewrite app_nil_r. exists x, true, ys, [], all, (List.concat (skipn (S n) all)).
          split; [reflexivity|]. split; [now rewrite app_nil_r|]. split; [exact Fa|]. split; [|discriminate].
          rewrite ER, Ebs, <- (firstn_skipn n all) at 1. rewrite List.concat_app, (nth_skip n all x Ex). reflexivity. }
        { right. left. exists r'. auto. }
        { intros _. exists (firstn (S n) all). split.
          - clear -Fa. unfold client_writes in *. generalize (S n). induction Fa; intros [|j]; cbn; auto.
          - split; [|assert (n < List.length (fst (says ys)))%nat by (apply nth_error_Some; congruence); lia].
            rewrite received_app, List.concat_app, ER, Ebs, (nth_first n all x Ex), List.concat_app. reflexivity. }
        { intros a' Ia. apply Ht. right. exact Ia. }
        { intros b Ib. apply Hd. right. exact Ib. }
        { exact Hc. }
      * destruct Hc as [Hc1 Hc2]. rewrite Hc1 in Ht, Hd.
        assert (Hlen : (List.length all <= n)%nat) by (rewrite <- (Forall2_len _ _ _ Fa); apply nth_error_None; exact Ea).
        apply (Step PEnd (fun _ => RqEnd) [RReq [] false] true n).
        { intros evs. rewrite Hnext. cbn [List.app]. pose proof (pump_end r Hn Hbuf) as P. cbn [rpump] in P |- *. destruct (feed_first cf r []) as [m r'|r'|e r']; destruct evs; cbn [rpump] in P |- *; try discriminate P; reflexivity. }
        { intros [|u0 u] y v E; [|destruct u; discriminate E]. injection E as <- <-. rewrite app_nil_r. exists [], false, ys, [], all, [].
          split; [reflexivity|]. split; [now rewrite app_nil_r|]. split; [exact Fa|]. split; [|auto]. rewrite ER, Ebs, firstn_all2 by exact Hlen. now rewrite !app_nil_r. }
        { right. right. auto. }
        { discriminate. }
        { intros a' Ia. apply Ht. right. exact Ia. }
        { intros b Ib. apply Hd. right. exact Ib. }
        { exact Hc2. }
  - pose proof (body_writes o (fun _ => false) p name (k_enc_res k) z s rs b) as Hw.
    destruct (stream_body o (fun _ => false) p name (k_enc_res k) z s rs b) as [s' [i|]]; destruct Hw as (l&G&Hl).
    + exists []. cbn [snd]. rewrite (grows_newly _ _ _ G). intros u y v E. exfalso. apply (f_equal taken) in E. rewrite taken_app in E.
      change (taken (DYield b :: map DSend l)) with (taken (map (@DSend A B) l)) in E. rewrite taken_sends in E. destruct (taken u); discriminate E.
    + destruct Hl as (x&Ww&Hl). assert (Wb : ww b x) by exact Ww.
      destruct (IH q rs s' (w ++ DYield b :: map DSend l) over n (ys ++ [b])) as (evs&Hr); auto.
      * rewrite sent_app, bodies_app, sent_yield, sent_map, Hl. apply Forall2_app; [exact Hb|]. constructor; [exact Wb|constructor].
      * apply Forall_app. split; [exact Hs|]. constructor; [|constructor]. apply Hd. left. reflexivity.
      * intros Ho. destruct (HR Ho) as (bs&F&ER&L). destruct (Steady ys [b]) as (new&En&_). exists bs. rewrite En, firstn_prefix by exact L. split; [exact F|]. split.
        { rewrite received_app. change (received (DYield b :: map DSend l)) with (received (map (@DSend A B) l)). rewrite received_sends, app_nil_r. exact ER. }
        { rewrite app_length. lia. }
      * intros a Ia. apply Ht. right. exact Ia.
      * intros b' Ib. apply Hd. right. exact Ib.
      * exists evs. destruct (drive_t _ cf None g (q evs) rs s') as [[[s'' rs'] e] t]. cbn [snd] in *. rewrite (grows_newly _ _ _ G).
        change (DYield b :: map DSend l ++ t) with ((DYield b :: map (@DSend A B) l) ++ t). intros u y v E. destruct (app_split _ _ _ _ _ E) as [(d&E1&E2)|(d&E1&E2)].
        { exfalso. apply (f_equal taken) in E1. rewrite taken_app in E1. change (taken (DYield b :: map DSend l)) with (taken (map (@DSend A B) l)) in E1.
          rewrite taken_sends in E1. destruct (taken u); discriminate E1. }
        { subst u. rewrite app_assoc. exact (Hr d y v E2). }
Qed.
End between.

(** ** The end of the stream adds nothing to the dialogue *)
Lemma finally_ends o sc p name z s rs i a : exists l, grows a (fst (stream_finally o sc p name z s rs i a)) l /\ bodies l = [].
Proof.
  assert (R : forall a, grows a a [] /\ bodies [] = []) by (intro; unfold grows; now rewrite app_nil_r).
  assert (Sd : forall ev a, (forall b, ev <> EvBody b true) -> exists l, grows a (fst (send o ev a)) l /\ bodies l = []).
  { intros ev a0 N. pose proof (send_grows o ev a0) as G. destruct (send o ev a0) as [a' [u|x]]; eexists; (split; [exact G|]); [|reflexivity].
    destruct ev as [|b [|]|]; try reflexivity. destruct (N b eq_refl). }
  assert (Bi : forall X Y (m : io X) (f : X -> io Y), (forall a, exists l, grows a (fst (m a)) l /\ bodies l = []) -> (forall x a, exists l, grows a (fst (f x a)) l /\ bodies l = []) ->
    forall a, exists l, grows a (fst (io_bind m f a)) l /\ bodies l = []).
  { intros X Y m f Hm Hf a0. unfold io_bind. destruct (Hm a0) as (l1&G1&B1). destruct (m a0) as [a1 [x|x]]; [|exists l1; auto].
    destruct (Hf x a1) as (l2&G2&B2). exists (l1 ++ l2). unfold grows in *. cbn [fst] in G1. rewrite bodies_app, B1, B2. split; [now rewrite G2, G1, app_assoc|reflexivity]. }
  assert (Re : forall X (r : res X) a, exists l, grows a (fst (io_res r a)) l /\ bodies l = []) by (intros X [x|e] a0; exists []; apply R).
  unfold stream_finally. revert a. apply Bi; [apply Re|]. intro em. apply Bi.
  { intro a0. destruct (ls_sent s); [exists []; apply R|]. unfold send_stream_headers. revert a0. apply Bi; [apply Re|]. intros hs a1. apply Sd. discriminate. }
  intros _. apply Bi.
  { destruct em; [intro; apply Sd; discriminate|]. apply Bi; [intro; apply Sd; discriminate|]. intros _. apply Bi; [apply Re|]. intros hs a1. apply Sd. discriminate. }
  intros _ a0. exists []. destruct (match i with Some (IExn e) => Some e | _ => None end) as [e|]; [destruct (is_connect e); apply R|].
  destruct i as [[e|]|]; apply R.
Qed.

Lemma bidi_conversation {A B} (ap : app A B) now sc mi f hs p cx k rz z en : asgi_stream_request ap now sc (EpBidi mi f) hs p cx k ->
  negotiate_stream_compression p hs (ap_comps ap) = (Some rz, z) ->
  exists l, bodies l = [] /\ snd (asgi_conversation ap now sc en) =
    snd (drive_t (stream_body (en_send en) (fun _ => false) p (k_name k) (k_enc_res k) z) (mk_rconf RBase rz (ap_max ap) (k_dec_req k)) (en_cut en) (f cx)
           (RqStart (en_recv en)) rs_new (mk_lst (mk_ast 0 []) false 0)) ++ map DSend l.
Proof.
  intros R N. rewrite (conversation_stream ap now sc (EpBidi mi f) hs p cx k) by exact R. unfold handle_stream_t. rewrite N. cbn [stream_try_t]. unfold stream_loop_t.
  destruct (drive_t _ _ _ _ _ _ _) as [[[s rs] e] t]. destruct e as [|i|i cl]; cbn [snd fst];
  match goal with |- context [stream_finally ?o ?sc ?p ?n ?z ?s ?rs ?i ?a] => pose proof (finally_ends o sc p n z s rs i a) as (l&G&Hl); destruct (stream_finally o sc p n z s rs i a) as [a' r] end;
  exists l; (split; [exact Hl|]); cbn [snd fst] in *; now rewrite (grows_newly _ _ _ G).
Qed.
