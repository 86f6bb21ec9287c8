(** Lemmas on dialogues through the WSGI server. *)
From Coq Require Import List NArith ZArith Bool Lia ZifyBool ZifyNat ZifyN String.
From Verif Require Import MBase MPyStr LBase MHeaders MWire MEnvelope SEnvelope LEnvelope LIter MProtocol MClient MServer MWsgi SServer SLink LLink LRequest LDuplex LCausal SDialogue LDialogue
  MTalk STalk LTalk SDialogueW.
Import ListNotations.

Lemma wdialog_app {A B} (t u : list (tevent A B)) : wdialog_of (t ++ u) = wdialog_of t ++ wdialog_of u.
Proof. apply flat_map_app. Qed.
Lemma wdialog_reads {A B} o : wdialog_of (map (@TRead A B) o) = [].
Proof. induction o as [|x o IH]; [reflexivity|exact IH]. Qed.
Lemma wdialog_outs {A B} o : wdialog_of (map (@TOut A B) o) = [].
Proof. induction o as [|x o IH]; [reflexivity|exact IH]. Qed.
Lemma chunks_app l l' : chunks_of (l ++ l') = chunks_of l ++ chunks_of l'.
Proof. apply flat_map_app. Qed.

(** ** The loop body *)
Lemma step_writes {B} p name (enc : B -> res bytes) z s rs b :
  let '(s', i) := wsgi_body_step p name enc z s rs b in
  exists l, ws_ev s' = ws_ev s ++ l
    /\ match i with None => exists w, write_message enc (Some z) b = Ok w /\ chunks_of l = [w] | Some _ => exists e, write_message enc (Some z) b = Raise e end.
Proof.
  unfold wsgi_body_step. destruct (write_message enc (Some z) b) as [body|e]; destruct (ws_started s); cbn [ws_ev].
  - exists [WBody body]. eauto.
  - eexists. rewrite <- app_assoc. split; [reflexivity|]. exists body. auto.
  - exists []. rewrite app_nil_r. eauto.
  - eexists. split; [reflexivity|eauto].
Qed.

Lemma pieces_drip x : List.concat (pieces (map (fun b : N => Ok [b]) x)) = x.
Proof. induction x as [|h x IH]; [reflexivity|]. change (h :: List.concat (pieces (map (fun b : N => Ok [b]) x)) = h :: x). now rewrite IH. Qed.

Section between.
Context {A B : Type} (c : client A B) (zc rz z : compression) (max : option N) (k : codec A B) (says : talker A B).
Hypothesis Steady : steady says.
Hypothesis Req : forall a d, k_enc_req (cl_codec c) a = Ok d -> k_dec_req k d = Ok a.
Hypothesis Res : forall b d, k_enc_res k b = Ok d -> k_dec_res (cl_codec c) d = Ok b.
Hypothesis Zreq : undoes rz (cl_send c).
Hypothesis Zres : undoes zc z.
Let cf : rconf A := mk_rconf RBase rz max (k_dec_req k).
Let wr (a : A) (b : bytes) : Prop := write_message (k_enc_req (cl_codec c)) (Some (cl_send c)) a = Ok b.
Let ww (b : B) (w : bytes) : Prop := write_message (k_enc_res k) (Some z) b = Ok w.
Let arrived := arrived c says.
Let front := arrived_front c rz z max k says Req Res Zreq.
Let got (w : list (tevent A B)) : bytes := List.concat (pieces (reads w)).

Definition wrelays (w t : list (tevent A B)) : Prop := forall u x r, t = u ++ TRead x :: r -> wreports c zc says (w ++ u) x.
Lemma wrelays_app w t u : wrelays w (t ++ u) -> wrelays w t /\ wrelays (w ++ t) u.
Proof.
  intros H. split.
  - intros v x r ->. apply (H v x (r ++ u)). now rewrite <- app_assoc.
  - intros v x r ->. rewrite <- app_assoc. apply (H (t ++ v) x r). now rewrite <- app_assoc.
Qed.
Lemma got_read w b : got (w ++ [TRead (Ok b)]) = got w ++ b.
Proof. unfold got. rewrite reads_app, pieces_app, List.concat_app. cbn. now rewrite app_nil_r. Qed.

Lemma wreport_step w n buf ys b : arrived (got w) true n buf ys -> wreports c zc says w (Ok b) -> client_reads c zc (chunks_of (handed w)) = ys ->
  arrived (got w ++ b) (negb (lenN b =? 0)%N) n (buf ++ b) ys.
Proof.
  intros H (b'&ys0&later&bs'&unread'&X&P1&P2&P3&P4) Er. injection X as <-.
  apply (arrived_step c zc z k says Steady Req Res _ (chunks_of (handed w))); [exact H| |exact Er]. exists ys0, later, bs', unread'. repeat (split; [assumption|]).
  intros Hm. apply P4. destruct b; [reflexivity|cbn in Hm; discriminate Hm].
Qed.

(** The next element of the request stream. *)
Lemma tpump_tells n ys : (forall a, nth_error (fst (says ys)) n = Some a -> small c max a) -> forall fuel p inp buf w,
  (input_fuel inp <= fuel)%nat -> stands cf p buf -> arrived (got w) true n buf ys -> client_reads c zc (chunks_of (handed w)) = ys ->
  let '(s, _, o) := tpump cf fuel p inp in wrelays w (map TRead o) ->
  match s with
  | TsMsg a r => nth_error (fst (says ys)) n = Some a /\ r_next r = None /\ arrived (got (w ++ map TRead o)) true (S n) (r_buf r) ys
  | TsEnd => nth_error (fst (says ys)) n = None /\ snd (says ys) = true
  | TsErr _ => False
  end.
Proof.
  intros Sm. induction fuel as [|f IH]; intros p inp buf w Hf St Ar Rd; [unfold input_fuel in Hf; lia|].
  destruct (front _ _ _ _ _ Sm Ar) as [(a&fr&w'&rest&Ea&Ff&Gf&Eb&Ar')|[Hi He]].
  { destruct (proj2 St fr w' rest a Ff Gf Eb) as (r&->&<-&Hr). intros _. cbn [map]. rewrite app_nil_r. auto. }
  destruct (proj1 St Hi) as (r&->&Eb&Hr). cbn [tpump].
  destruct (wread 4096 inp) as [[[|x b]|e] inp1] eqn:W.
  - intros H. pose proof (H [] _ [] eq_refl) as Rp. rewrite app_nil_r in Rp. pose proof (wreport_step w n buf ys [] Ar Rp Rd) as Ar'. cbn in Ar'. rewrite !app_nil_r in Ar'.
    destruct (front _ _ _ _ _ Sm Ar') as [(a&fr&w'&rest&Ea&Ff&Gf&Eb'&_)|[_ He']]; [|exact (He' eq_refl)].
    destruct (proj2 St fr w' rest a Ff Gf Eb') as (r'&X&_). discriminate X.
  - apply wread_available in W; [|lia|discriminate]. destruct W as (_&_&_&W).
    specialize (IH (feed_first cf r (x :: b)) inp1 (buf ++ x :: b) (w ++ [TRead (Ok (x :: b))]) ltac:(lia)). rewrite <- Eb in IH at 1. specialize (IH (first_stands cf r (x :: b) Hr)).
    destruct (tpump cf f (feed_first cf r (x :: b)) inp1) as [[s inp2] o]. intros H. pose proof (H [] _ _ eq_refl) as Rp. rewrite app_nil_r in Rp.
    pose proof (wreport_step w n buf ys (x :: b) Ar Rp Rd) as Ar'. rewrite <- got_read in Ar'. specialize (IH Ar').
    rewrite handed_app in IH. cbn [handed flat_map] in IH. rewrite app_nil_r in IH. specialize (IH Rd). cbn [map] in *.
    rewrite <- app_assoc in IH. apply IH. intros u y t E. rewrite <- app_assoc. apply (H (TRead (Ok (x :: b)) :: u) y t). cbn. now rewrite E.
  - intros H. destruct (H [] _ [] eq_refl) as (?&?&?&?&?&X&_). discriminate X.
Qed.
(** Where the request stream stands. *)
Definition tq_at (q : tqpos) (R : bytes) (over : bool) (n : nat) (ys : list B) : Prop :=
  match q with
  | TqStart => over = false /\ n = O /\ R = []
  | TqYield r => over = false /\ r_next r = None /\ arrived R true n (r_buf r) ys
  | TqEnd => over = true
  end.
Lemma tq_at_later q R over n ys b : tq_at q R over n ys -> tq_at q R over n (ys ++ b).
Proof. destruct q; cbn; try tauto. intros (?&?&H). repeat split; auto. now apply arrived_later. Qed.
Lemma tq_next_tells q inp w over n ys : (over = false -> forall a, nth_error (fst (says ys)) n = Some a -> small c max a) -> tq_at q (got w) over n ys ->
  client_reads c zc (chunks_of (handed w)) = ys ->
  let '(x, q', _, o) := tq_next cf q inp in wrelays w (map TRead o) ->
  match x with
  | PMsg a => over = false /\ nth_error (fst (says ys)) n = Some a /\ tq_at q' (got (w ++ map TRead o)) false (S n) ys
  | PEnd => (over = true \/ over = false /\ nth_error (fst (says ys)) n = None /\ snd (says ys) = true) /\ q' = TqEnd
  | PExn _ => False
  end.
Proof.
  intros Sm Hq Rd.
  assert (G : forall p buf, over = false -> stands cf p buf -> arrived (got w) true n buf ys ->
    let '(x, q', _, o) := let '(s, inp, o) := tpump cf (input_fuel inp) p inp in
      match s with TsMsg m r => (PMsg m, TqYield r, inp, o) | TsErr e => (PExn e, TqEnd, inp, o) | TsEnd => (PEnd, TqEnd, inp, o) end in
    wrelays w (map TRead o) ->
    match x with
    | PMsg a => over = false /\ nth_error (fst (says ys)) n = Some a /\ tq_at q' (got (w ++ map TRead o)) false (S n) ys
    | PEnd => (over = true \/ over = false /\ nth_error (fst (says ys)) n = None /\ snd (says ys) = true) /\ q' = TqEnd
    | PExn _ => False
    end).
  { intros p buf Ho St Ar. pose proof (tpump_tells n ys (Sm Ho) (input_fuel inp) p inp buf w (le_n _) St Ar Rd) as R. destruct (tpump cf (input_fuel inp) p inp) as [[s inp'] o].
    destruct s as [a r|e|]; intros H; specialize (R H).
    - destruct R as (R1&R2&R3). split; [exact Ho|]. split; [exact R1|]. cbn [tq_at]. auto.
    - exact R.
    - split; [right; auto|reflexivity]. }
  destruct q as [|r|]; cbn [tq_next tq_at] in *.
  - destruct Hq as (Ho&->&HR). apply (G _ []); [exact Ho| |].
    + split.
      * intros _. eexists. split; [reflexivity|]. split; [reflexivity|exact I].
      * intros f w' rest m Hw _ E. destruct w'; [|discriminate E]. destruct Hw as (?&?&?&?&E'&_). discriminate E'.
    + exists [], [], (fst (says ys)), []. repeat split; auto; discriminate.
  - destruct Hq as (Ho&Hn&Ar). apply (G _ (r_buf r)); [exact Ho|now apply resume_stands|exact Ar].
  - intros _. split; [left; exact Hq|reflexivity].
Qed.

Lemma got_exchange w o (x : pulled A) : got (w ++ wexchange o x) = got (w ++ map TRead o).
Proof. unfold got. rewrite !reads_app, wexchange_reads, reads_reads. reflexivity. Qed.
Lemma exchange_handed w o (x : pulled A) : handed (w ++ wexchange (B := B) o x) = handed w.
Proof. rewrite handed_app, wexchange_split, !handed_app, handed_reads. cbn. apply app_nil_r. Qed.
Lemma exchange_dialog o (x : pulled A) : wdialog_of (wexchange (B := B) o x) = [Told x].
Proof. rewrite wexchange_split, !wdialog_app, wdialog_reads. reflexivity. Qed.
Lemma exchange_yielded o (x : pulled A) : wyielded (wexchange (B := B) o x) = [].
Proof. rewrite wexchange_split, !wyielded_app, wyielded_reads. reflexivity. Qed.

(** The method and the client application. *)
Lemma drive_w_dialogue p name (g : prog A B unit) : forall q inp rs s w over n ys,
  tq_at q (got w) over n ys -> Forall2 ww ys (chunks_of (handed w)) -> Forall (short c k) ys ->
  (forall a, In (Told (PMsg a)) (dialogue says g over n ys) -> small c max a) -> (forall b, In (Said b) (dialogue says g over n ys) -> short c k b) ->
  let '(_, _, _, _, t) := drive_w (wsgi_body_step p name (k_enc_res k) z) cf g q inp rs s in wrelays w t ->
  (dialogue says g over n ys = wdialog_of t /\ Forall2 ww (ys ++ wyielded t) (chunks_of (handed (w ++ t))))
  \/ (exists u b rest e, wdialog_of t = u ++ [Said b] /\ dialogue says g over n ys = u ++ Said b :: rest /\ write_message (k_enc_res k) (Some z) b = Raise e).
Proof.
  induction g as [r|i|g IH|b cl g IH|op g IH|op g IH]; intros q inp rs s w over n ys Hq Hb Hs Ht Hd; cbn [drive_w dialogue] in *; try (apply IH; assumption).
  - intros _. left. split; [reflexivity|]. cbn. rewrite !app_nil_r. exact Hb.
  - intros _. left. split; [reflexivity|]. cbn. rewrite !app_nil_r. exact Hb.
  - pose proof (reads_back c zc z k Res Zres ys _ Hs Hb) as Rd. assert (Sm : over = false -> forall a, nth_error (fst (says ys)) n = Some a -> small c max a).
    { intros -> a Ea. apply Ht. rewrite Ea. left. reflexivity. }
    pose proof (tq_next_tells q inp w over n ys Sm Hq Rd) as T.
    destruct (tq_next cf q inp) as [[[x q'] inp'] o']. pose proof (fun over n => IH x q' inp' rs s (w ++ wexchange o' x) over n ys) as IHx.
    destruct (drive_w _ cf (g x) q' inp' rs s) as [[[[s' rs'] e] inp''] t]. rewrite wexchange_cons. intros H. destruct (wrelays_app _ _ _ H) as [H1 H2].
    assert (H0 : wrelays w (map TRead o')).
    { intros u y v E. assert (X := H1 (TAsk :: u) y (v ++ [TGive x])). rewrite wexchange_split, E, <- app_assoc in X. specialize (X eq_refl).
      destruct X as (b0&ys0&later&bs0&un&X1&X2&X3&X4&X5). exists b0, ys0, later, bs0, un. rewrite handed_app, reads_app in *. auto. }
    specialize (T H0). rewrite wdialog_app, wyielded_app, exchange_dialog, exchange_yielded, (app_assoc w). cbn [List.app]. rewrite exchange_handed, got_exchange in IHx.
    assert (G : forall over' n', dialogue says (Pull g) over n ys = Told x :: dialogue says (g x) over' n' ys -> tq_at q' (got (w ++ map TRead o')) over' n' ys ->
      (dialogue says (Pull g) over n ys = Told x :: wdialog_of t /\ Forall2 ww (ys ++ wyielded t) (chunks_of (handed ((w ++ wexchange o' x) ++ t))))
      \/ (exists u b rest e, Told x :: wdialog_of t = u ++ [Said b] /\ dialogue says (Pull g) over n ys = u ++ Said b :: rest /\ write_message (k_enc_res k) (Some z) b = Raise e)).
    { intros over' n' E Hq'. cbn [dialogue] in E. destruct (IHx over' n' Hq' Hb Hs) as [[E1 E2]|(u&b&rest&e'&E1&E2&E3)].
      - intros a Ia. apply Ht. rewrite E. right. exact Ia.
      - intros b Ib. apply Hd. rewrite E. right. exact Ib.
      - exact H2.
      - left. split; [cbn [dialogue]; now rewrite E, E1|exact E2].
      - right. exists (Told x :: u), b, rest, e'. cbn [dialogue List.app]. rewrite E, E1, E2. auto. }
    cbn [dialogue] in G. destruct x as [a| |e0]; [| |destruct T].
    + destruct T as (Ho&En&Hq'). subst over. rewrite En in G |- *. exact (G false (S n) eq_refl Hq').
    + destruct T as ([->|(->&En&Es)]& ->); [exact (G true n eq_refl eq_refl)|]. rewrite En, Es in G |- *. exact (G true n eq_refl eq_refl).
  - pose proof (step_writes p name (k_enc_res k) z s rs b) as Hw.
    destruct (wsgi_body_step p name (k_enc_res k) z s rs b) as [s' [i|]]; destruct Hw as (l&G&Hl); rewrite G, newly_outs.
    + destruct Hl as (e&He). intros _. right. exists [], b, (dialogue says g over n (ys ++ [b])), e. split; [|auto].
      change (wdialog_of (TYield b :: map TOut l)) with (Said (A := A) b :: wdialog_of (map TOut l)). now rewrite wdialog_outs.
    + destruct Hl as (x&Ww&Hl). assert (Wb : ww b x) by exact Ww. pose proof (IH q inp rs s' (w ++ TYield b :: map TOut l) over n (ys ++ [b])) as IHx.
      destruct (drive_w _ cf g q inp rs s') as [[[[s'' rs'] e] inp'] t]. intros H. change (TYield b :: map TOut l ++ t) with ((TYield b :: map (@TOut A B) l) ++ t) in *.
      destruct (wrelays_app _ _ _ H) as [_ H2].
      assert (Eg : got (w ++ TYield b :: map TOut l) = got w).
      { unfold got. rewrite reads_app. change (reads (TYield b :: map TOut l)) with (reads (map (@TOut A B) l)). now rewrite reads_outs, app_nil_r. }
      assert (Ed : wdialog_of ((TYield b :: map TOut l) ++ t) = Said b :: wdialog_of t).
      { rewrite wdialog_app. change (wdialog_of (TYield b :: map TOut l)) with (Said (A := A) b :: wdialog_of (map TOut l)). now rewrite wdialog_outs. }
      assert (Ey : wyielded ((TYield b :: map TOut l) ++ t) = b :: wyielded t).
      { rewrite wyielded_app. change (wyielded (TYield b :: map TOut l)) with (b :: wyielded (map (@TOut A B) l)). now rewrite wyielded_outs. }
      destruct IHx as [[E1 E2]|(u&b'&rest&e'&E1&E2&E3)].
      * rewrite Eg. now apply tq_at_later.
      * rewrite handed_app, chunks_app, handed_yield, handed_outs, Hl. apply Forall2_app; [exact Hb|]. constructor; [exact Wb|constructor].
      * apply Forall_app. split; [exact Hs|]. constructor; [|constructor]. apply Hd. left. reflexivity.
      * intros a Ia. apply Ht. right. exact Ia.
      * intros b' Ib. apply Hd. right. exact Ib.
      * exact H2.
      * left. rewrite Ed, Ey, E1. split; [reflexivity|]. rewrite app_assoc. rewrite <- app_assoc in E2. exact E2.
      * right. exists (Said b :: u), b', rest, e'. rewrite Ed, E1, E2. auto.
Qed.

(** A way for the client's messages to arrive: byte by byte, when the method asks, and then the end. *)
Definition drip (x : bytes) : list rd := map (fun b => RD [b]) x.
Lemma pump_drip a x : small c max a -> wr a x -> forall post pre p, x = pre ++ post -> stands cf p pre ->
  exists r', r_next r' = None /\ r_buf r' = [] /\ forall fuel inp, (List.length post < fuel)%nat -> tpump cf fuel p (drip post ++ inp) = (TsMsg a r', inp, map (fun b => Ok [b]) post).
Proof.
  intros Sm W. destruct (wr_frame c rz max k Req Zreq a x Sm W) as (f&Ff&Gf).
  induction post as [|b post IH]; intros pre p E St.
  - rewrite app_nil_r in E. subst pre. destruct (proj2 St f x [] a Ff Gf) as (r&->&Eb&En); [now rewrite app_nil_r|]. exists r. split; [exact En|]. split; [exact Eb|].
    intros fuel inp Hf. destruct fuel; [inversion Hf|]. reflexivity.
  - assert (Hi : incomplete pre).
    { destruct (incomplete_dec pre) as [(f'&b'&w'&Hw'&Eb)|Hi]; [|exact Hi]. exfalso.
      assert (EW : x ++ [] = w' ++ (b' ++ b :: post)) by (rewrite app_nil_r, E, Eb, <- app_assoc; reflexivity).
      destruct (frame_wire_det _ _ _ _ _ _ Ff Hw' EW) as (_&_&X). destruct b'; discriminate X. }
    destruct (proj1 St Hi) as (r&->&Eb&Hr). destruct (IH (pre ++ [b]) (feed_first cf r [b])) as (r'&H1&H2&H3).
    { now rewrite <- app_assoc. }
    { rewrite <- Eb. now apply first_stands. }
    exists r'. split; [exact H1|]. split; [exact H2|]. intros fuel inp Hf. destruct fuel as [|fuel]; [inversion Hf|]. cbn [tpump drip map List.app wread].
    cbn [List.length] in Hf. fold (drip post). change (lenN [b] <=? 4096)%N with true. cbv iota. rewrite H3 by lia. reflexivity.
Qed.
Lemma drip_fuel x inp : (List.length x < input_fuel (drip x ++ inp))%nat.
Proof.
  unfold input_fuel. induction x as [|b x IH]; cbn [drip map List.app list_sum fold_right List.length] in *; [lia|]. fold (drip x). unfold list_sum in *. lia.
Qed.
Definition woffered (q : tqpos) (over : bool) (n : nat) : Prop :=
  (q = TqStart /\ over = false /\ n = O) \/ (exists r, q = TqYield r /\ over = false /\ r_next r = None /\ r_buf r = []) \/ (q = TqEnd /\ over = true).
Lemma woffered_next q n : woffered q false n -> exists r, r_next r = None /\ r_buf r = [] /\ forall inp,
  tq_next cf q inp = (let '(s, inp, o) := tpump cf (input_fuel inp) (YEnd r) inp in
    match s with TsMsg m r => (PMsg m, TqYield r, inp, o) | TsErr e => (PExn e, TqEnd, inp, o) | TsEnd => (PEnd, TqEnd, inp, o) end).
Proof.
  intros [(->&_&->)|[(r&->&_&Hn&Hb)|(_&Ho)]]; [| |discriminate Ho].
  - exists (reader_new None). auto.
  - exists r. split; [exact Hn|]. split; [exact Hb|]. intros inp. cbn [tq_next]. unfold read_resume. rewrite (proj2 (peek_none r)) by (rewrite Hb; cbn; lia). reflexivity.
Qed.

Lemma some_wrelay p name (g : prog A B unit) : (forall ys, exists bs, client_writes c (fst (says ys)) bs) ->
  forall q rs s w over n ys, woffered q over n -> Forall2 ww ys (chunks_of (handed w)) -> Forall (short c k) ys ->
  (over = false -> exists bs, client_writes c (firstn n (fst (says ys))) bs /\ got w = List.concat bs /\ (n <= List.length (fst (says ys)))%nat) ->
  (forall a, In (Told (PMsg a)) (dialogue says g over n ys) -> small c max a) -> (forall b, In (Said b) (dialogue says g over n ys) -> short c k b) ->
  converses says g over n ys ->
  exists inp, wrelays w (snd (drive_w (wsgi_body_step p name (k_enc_res k) z) cf g q inp rs s)).
Proof.
  intros Wr. induction g as [r|i|g IH|b cl g IH|op g IH|op g IH]; intros q rs s w over n ys Hq Hb Hs HR Ht Hd Hc; cbn [drive_w dialogue converses] in *; try (apply (IH q _ s w over n ys); assumption).
  - exists []. intros [|? ?] ? ? E; discriminate E.
  - exists []. intros [|? ?] ? ? E; discriminate E.
  - pose proof (reads_back c zc z k Res Zres ys _ Hs Hb) as Rd.
    assert (Step : forall x (q' : tqpos) (pre : list rd) o over' n',
      (forall inp, tq_next cf q (pre ++ inp) = (x, q', inp, o)) -> wrelays w (map TRead o) -> woffered q' over' n' ->
      (over' = false -> exists bs, client_writes c (firstn n' (fst (says ys))) bs /\ got (w ++ map TRead o) = List.concat bs /\ (n' <= List.length (fst (says ys)))%nat) ->
      (forall a, In (Told (PMsg a)) (dialogue says (g x) over' n' ys) -> small c max a) -> (forall b, In (Said b) (dialogue says (g x) over' n' ys) -> short c k b) ->
      converses says (g x) over' n' ys ->
      exists inp, wrelays w (snd (let '(x, q0, inp0, o0) := tq_next cf q inp in
        let '(s0, rs0, e, inp1, t) := drive_w (wsgi_body_step p name (k_enc_res k) z) cf (g x) q0 inp0 rs s in (s0, rs0, e, inp1, TAsk :: map TRead o0 ++ TGive x :: t)))).
    { intros x q' pre o over' n' En Rl Of HR' Ht' Hd' Hc'.
      destruct (IH x q' rs s (w ++ wexchange o x) over' n' ys Of) as (inp&Hr); auto.
      - now rewrite exchange_handed.
      - now rewrite got_exchange.
      - exists (pre ++ inp). rewrite En. destruct (drive_w _ cf (g x) q' inp rs s) as [[[[s' rs'] e] inp'] t]. cbn [snd] in *.
        rewrite wexchange_cons. intros u y v E. destruct (app_split _ _ _ _ _ E) as [(d&E1&E2)|(d&E1&E2)].
        + rewrite wexchange_split in E1. destruct u as [|u0 u]; [discriminate E1|]. injection E1 as <- E1.
          destruct (app_split _ _ _ _ _ E1) as [(d'&E3&E4)|(d'&E3&E4)].
          * pose proof (Rl u y d' E3) as X. destruct X as (b0&ys0&later&bs0&un&X1&X2&X3&X4&X5). exists b0, ys0, later, bs0, un.
            rewrite handed_app, reads_app in *. auto.
          * destruct d' as [|? [|? ?]]; discriminate E4.
        + subst u. rewrite app_assoc. exact (Hr d y v E2). }
    destruct over.
    + destruct Hq as [(_&X&_)|[(?&_&X&_)|(->&_)]]; try discriminate X.
      apply (Step PEnd TqEnd [] [] true n); auto.
      * intros [|? ?] ? ? E; discriminate E.
      * right. right. auto.
      * discriminate.
      * intros a Ia. apply Ht. right. exact Ia.
      * intros b Ib. apply Hd. right. exact Ib.
    + destruct (HR eq_refl) as (bs&F&ER&L). destruct (woffered_next q n Hq) as (r&Hn&Hbuf&Hnext). destruct (Wr ys) as (all&Fa).
      assert (Ebs : bs = firstn n all).
      { rewrite <- (firstn_skipn n (fst (says ys))) in Fa. destruct (Forall2_split _ _ _ _ Fa) as (l1&l2&->&F1&_). assert (l1 = bs) by exact (Forall2_fun wr (wr_fun c) _ _ _ F1 F). subst l1.
        assert (List.length bs = n) by (rewrite <- (Forall2_len _ _ _ F), firstn_length; lia). rewrite firstn_app, firstn_all2 by lia. replace (n - List.length bs)%nat with O by lia. cbn. now rewrite app_nil_r. }
      destruct (nth_error (fst (says ys)) n) as [a|] eqn:Ea.
      * assert (Ex : exists x, nth_error all n = Some x /\ wr a x).
        { clear -Fa Ea. unfold client_writes in Fa. revert n Ea. induction Fa as [|a' x ms xs H F IH]; intros [|n] Ea; cbn in *; try discriminate; [injection Ea as <-; eauto|eauto]. }
        destruct Ex as (x&Ex&Wx). destruct (pump_drip a x ltac:(apply Ht; left; reflexivity) Wx x [] (YEnd r) eq_refl) as (r'&Hn'&Hb'&Hp).
        { split; [intros _; exists r; split; [reflexivity|]; split; [exact Hbuf|unfold r_inv; now rewrite Hn]|].
          intros f w' rest m Hw _ E. destruct w'; [|discriminate E]. destruct Hw as (?&?&?&?&E'&_). discriminate E'. }
        apply (Step (PMsg a) (TqYield r') (drip x) (map (fun b => Ok [b]) x) false (S n)).
        { intros inp. rewrite Hnext, (Hp (input_fuel (drip x ++ inp)) inp (drip_fuel x inp)). reflexivity. }
        { intros u y v E. assert (Ed : exists x1 b x2, x = x1 ++ b :: x2 /\ u = map TRead (map (fun b => Ok [b]) x1) /\ y = Ok [b]).
          { clear -E. revert x E. induction u as [|e u IH]; intros [|b x] E; cbn in E; try discriminate E.
            - injection E as <- _. exists [], b, x. auto.
            - injection E as <- E. destruct (IH x E) as (x1&b1&x2&->&->&->). exists (b :: x1), b1, x2. auto. }
          destruct Ed as (x1&b&x2&Exx&->&->). exists [b], ys, [], all, (x2 ++ List.concat (skipn (S n) all)).
          split; [reflexivity|]. rewrite handed_app, handed_reads, app_nil_r. split; [now rewrite app_nil_r|]. split; [exact Fa|]. split; [|discriminate].
          rewrite reads_app, reads_reads, pieces_app, List.concat_app. fold (got w). rewrite ER, Ebs, <- (firstn_skipn n all) at 1. rewrite List.concat_app, (nth_skip n all x Ex).
          cbn [List.concat]. rewrite pieces_drip, Exx. rewrite <- !app_assoc. reflexivity. }
        { right. left. exists r'. auto. }
        { intros _. exists (firstn (S n) all). split.
          - clear -Fa. unfold client_writes in *. generalize (S n). induction Fa; intros [|j]; cbn; auto.
          - split; [|assert (n < List.length (fst (says ys)))%nat by (apply nth_error_Some; congruence); lia].
            unfold got in *. rewrite reads_app, reads_reads, pieces_app, List.concat_app, ER, Ebs, (nth_first n all x Ex), List.concat_app. f_equal. rewrite pieces_drip. cbn. now rewrite app_nil_r. }
        { intros a' Ia. apply Ht. right. exact Ia. }
        { intros b Ib. apply Hd. right. exact Ib. }
        { exact Hc. }
      * destruct Hc as [Hc1 Hc2]. rewrite Hc1 in Ht, Hd.
        assert (Hlen : (List.length all <= n)%nat) by (rewrite <- (Forall2_len _ _ _ Fa); apply nth_error_None; exact Ea).
        apply (Step PEnd TqEnd [RD []] [Ok []] true n).
        { intros inp. rewrite Hnext. cbn [List.app]. unfold input_fuel. cbn. reflexivity. }
        { intros [|u0 u] y v E; [|destruct u; discriminate E]. injection E as <- <-. rewrite app_nil_r. exists [], ys, [], all, [].
          split; [reflexivity|]. split; [now rewrite app_nil_r|]. split; [exact Fa|]. split; [|auto]. fold (got w). rewrite ER, Ebs, firstn_all2 by exact Hlen. now rewrite !app_nil_r. }
        { right. right. auto. }
        { discriminate. }
        { intros a' Ia. apply Ht. right. exact Ia. }
        { intros b Ib. apply Hd. right. exact Ib. }
        { exact Hc2. }
  - pose proof (step_writes p name (k_enc_res k) z s rs b) as Hw.
    destruct (wsgi_body_step p name (k_enc_res k) z s rs b) as [s' [i|]]; destruct Hw as (l&G&Hl).
    + exists []. cbn [snd]. rewrite G, newly_outs. intros u y v E. exfalso. apply (f_equal reads) in E. rewrite reads_app in E.
      change (reads (TYield b :: map TOut l)) with (reads (map (@TOut A B) l)) in E. rewrite reads_outs in E. destruct (reads u); discriminate E.
    + destruct Hl as (x&Ww&Hl). assert (Wb : ww b x) by exact Ww.
      assert (Eg : got (w ++ TYield b :: map TOut l) = got w).
      { unfold got. rewrite reads_app. change (reads (TYield b :: map TOut l)) with (reads (map (@TOut A B) l)). now rewrite reads_outs, app_nil_r. }
      destruct (IH q rs s' (w ++ TYield b :: map TOut l) over n (ys ++ [b])) as (inp&Hr); auto.
      * rewrite handed_app, chunks_app, handed_yield, handed_outs, Hl. apply Forall2_app; [exact Hb|]. constructor; [exact Wb|constructor].
      * apply Forall_app. split; [exact Hs|]. constructor; [|constructor]. apply Hd. left. reflexivity.
      * intros Ho. destruct (HR Ho) as (bs&F&ER&L). destruct (Steady ys [b]) as (new&En&_). exists bs. rewrite En, firstn_prefix by exact L. split; [exact F|]. split; [now rewrite Eg|].
        rewrite app_length. lia.
      * intros a Ia. apply Ht. right. exact Ia.
      * intros b' Ib. apply Hd. right. exact Ib.
      * exists inp. destruct (drive_w _ cf g q inp rs s') as [[[[s'' rs'] e] inp'] t]. cbn [snd] in *. rewrite G, newly_outs.
        change (TYield b :: map TOut l ++ t) with ((TYield b :: map (@TOut A B) l) ++ t). intros u y v E. destruct (app_split _ _ _ _ _ E) as [(d&E1&E2)|(d&E1&E2)].
        { exfalso. apply (f_equal reads) in E1. rewrite reads_app in E1. change (reads (TYield b :: map TOut l)) with (reads (map (@TOut A B) l)) in E1.
          rewrite reads_outs in E1. destruct (reads u); discriminate E1. }
        { subst u. rewrite app_assoc. exact (Hr d y v E2). }
Qed.
End between.

(** Every read of the loop is for the method. *)
Lemma drive_w_asked {A B} body (cf : rconf A) (g : prog A B unit) : (forall s rs b, let '(s', _) := body s rs b in exists l, ws_ev s' = ws_ev s ++ l) -> forall q inp rs s,
  let '(_, _, _, _, t) := drive_w body cf g q inp rs s in forall w x r, t = w ++ TRead x :: r -> for_method r.
Proof.
  intros Hg. induction g as [r|i|g IH|b cl g IH|op g IH|op g IH]; intros q inp rs s; cbn [drive_w]; try (intros [|? ?] ? ? E; discriminate E); try apply IH.
  - destruct (tq_next cf q inp) as [[[x q'] inp'] o]. specialize (IH x q' inp' rs s). destruct (drive_w body cf (g x) q' inp' rs s) as [[[[s' rs'] e] inp''] t].
    intros [|e0 w] y r E; [discriminate E|]. injection E as <- E. destruct (app_split _ _ _ _ _ E) as [(d&E1&E2)|(d&E1&E2)].
    + clear IH E. revert o E1. induction w as [|e0 w IHw]; intros [|o1 o] E1; cbn in E1; try discriminate E1.
      * injection E1 as _ <-. exists o, x, t. exact E2.
      * injection E1 as _ E1. exact (IHw o E1).
    + destruct d as [|e1 d]; [discriminate E2|]. injection E2 as <- E2. exact (IH d y r E2).
  - specialize (Hg s rs b). destruct (body s rs b) as [s' [i|]]; destruct Hg as (l&G); rewrite G, newly_outs.
    + intros w x r E. exfalso. apply (f_equal reads) in E. rewrite reads_app in E. change (reads (TYield b :: map TOut l)) with (reads (map (@TOut A B) l)) in E.
      rewrite reads_outs in E. destruct (reads w); discriminate E.
    + specialize (IH q inp rs s'). destruct (drive_w body cf g q inp rs s') as [[[[s'' rs'] e] inp'] t]. intros w x r E.
      change (TYield b :: map TOut l ++ t) with ((TYield b :: map (@TOut A B) l) ++ t) in E. destruct (app_split _ _ _ _ _ E) as [(d&E1&E2)|(d&E1&E2)].
      * exfalso. apply (f_equal reads) in E1. rewrite reads_app in E1. change (reads (TYield b :: map TOut l)) with (reads (map (@TOut A B) l)) in E1.
        rewrite reads_outs in E1. destruct (reads w); discriminate E1.
      * exact (IH d x r E2).
Qed.

(** ** The end of the stream adds nothing to the dialogue *)
Lemma bidi_talk {A B} (ap : app A B) now q mi f hs p cx k rz z : wsgi_stream_request ap now q (EpBidi mi f) hs p cx k ->
  negotiate_stream_compression p hs (ap_comps ap) = (Some rz, z) ->
  exists u, snd (wsgi_talk ap now q) =
    snd (drive_w (wsgi_body_step p (k_name k) (k_enc_res k) z) (mk_rconf RBase rz (ap_max ap) (k_dec_req k)) (f cx) TqStart (wq_input q) rs_new (mk_wst [] false)) ++ u
    /\ wdialog_of u = [] /\ wyielded u = [] /\ (startswith (lit "HTTP/1") (env_default q "SERVER_PROTOCOL" []) = false -> reads u = []).
Proof.
  intros (O&D&_) N. unfold wsgi_talk. rewrite O.
  assert (St : exists u, let '(r, inp, t) := wsgi_stream_t ap q p hs (EpBidi mi f) cx in
    t = snd (drive_w (wsgi_body_step p (k_name k) (k_enc_res k) z) (mk_rconf RBase rz (ap_max ap) (k_dec_req k)) (f cx) TqStart (wq_input q) rs_new (mk_wst [] false)) ++ u
    /\ wdialog_of u = [] /\ wyielded u = [] /\ (startswith (lit "HTTP/1") (env_default q "SERVER_PROTOCOL" []) = false -> reads u = [])).
  { assert (T : forall o l l', wdialog_of (map (@TRead A B) o ++ wnewly l l') = [] /\ wyielded (map (@TRead A B) o ++ wnewly l l') = [] /\ reads (map (@TRead A B) o ++ wnewly l l') = o).
    { intros o l l'. unfold wnewly. rewrite wdialog_app, wdialog_reads, wdialog_outs, wyielded_app, wyielded_reads, wyielded_outs, reads_app, reads_reads, reads_outs. split; [reflexivity|]. split; [reflexivity|]. apply app_nil_r. }
    assert (Dr : forall inp, startswith (lit "HTTP/1") (env_default q "SERVER_PROTOCOL" []) = false -> snd (drain_body q inp) = []).
    { intros inp H. unfold drain_body. rewrite H. reflexivity. }
    unfold wsgi_stream_t. rewrite N, D. cbv zeta. cbn [wsgi_run_t]. cbv zeta.
    destruct (drive_w _ _ (f cx) TqStart (wq_input q) rs_new _) as [[[[s rs] e] inp] t]. cbn [snd].
    destruct (ws_started s).
    - destruct (loop_interrupt e) as [[x|]|].
      + pose proof (Dr inp) as Di. destruct (drain_body q inp) as [[d inp'] o]. cbn [snd] in Di. eexists. split; [reflexivity|]. destruct (T o (ws_ev s) (wr_events (response_stream_end ap (draining q (fun _ => d)) p z [InvStream] rs (ws_ev s) (Some (IExn x))))) as (T1&T2&T3).
        split; [exact T1|]. split; [exact T2|]. rewrite T3. exact Di.
      + eexists. split; [reflexivity|]. destruct (T [] (ws_ev s) (wr_events (response_stream_end ap (draining q (fun _ => None)) p z [InvStream] rs (ws_ev s) (Some ICancel)))) as (T1&T2&T3).
        split; [exact T1|]. split; [exact T2|]. intros _. exact T3.
      + eexists. split; [reflexivity|]. destruct (T [] (ws_ev s) (wr_events (response_stream_end ap (draining q (fun _ => None)) p z [InvStream] rs (ws_ev s) None))) as (T1&T2&T3).
        split; [exact T1|]. split; [exact T2|]. intros _. exact T3.
    - assert (Er : forall inv rs ev x inp (t : list (tevent A B)), exists u : list (tevent A B), let '(r, inp, t') :=
         let '(d, inp', o) := drain_body q inp in
         let h := wsgi_stream_error ap (draining q (fun _ => d)) p (k_name k) z inv rs ev x in
         let '(_, _, ev', _) := h in
         ((inl h : whandled A + wsgi_result A), inp', t ++ map TRead o ++ wnewly ev ev') in
         t' = t ++ u /\ wdialog_of u = [] /\ wyielded u = [] /\ (startswith (lit "HTTP/1") (env_default q "SERVER_PROTOCOL" []) = false -> reads u = [])).
      { intros inv0 rs0 ev x inp0 t0. pose proof (Dr inp0) as Di. destruct (drain_body q inp0) as [[d inp'] o]. cbn [snd] in Di. cbv zeta.
        destruct (wsgi_stream_error ap (draining q (fun _ => d)) p (k_name k) z inv0 rs0 ev x) as [[[i0 r0] ev'] x0]. exists (map TRead o ++ wnewly ev ev').
        destruct (T o ev ev') as (T1&T2&T3). split; [reflexivity|]. split; [exact T1|]. split; [exact T2|]. rewrite T3. exact Di. }
      destruct (loop_interrupt e) as [[x|]|].
      + exact (Er [InvStream] rs (ws_ev s) x inp t).
      + exists []. rewrite app_nil_r. auto.
      + destruct (end_response (ap_sc ap) p z (rs_t rs) None) as [fin|x].
        * eexists. split; [reflexivity|]. match goal with |- context [wnewly ?l ?l'] => destruct (T [] l l') as (T1&T2&T3) end. split; [exact T1|]. split; [exact T2|]. intros _. exact T3.
        * set (ev := ws_ev s ++ _). destruct (Er [InvStream] rs ev x inp (t ++ wnewly (ws_ev s) ev)) as (u&Hu). exists (wnewly (ws_ev s) ev ++ u).
          destruct (drain_body q inp) as [[d inp'] o]. cbv zeta in Hu |- *. destruct (wsgi_stream_error ap (draining q (fun _ => d)) p (k_name k) z [InvStream] rs ev x) as [[[i0 r0] ev'] x0].
          destruct Hu as (H1&H2&H3&H4). destruct (T [] (ws_ev s) ev) as (T1&T2&T3). cbn [map List.app] in T1, T2, T3.
          rewrite wdialog_app, T1, H2, wyielded_app, T2, H3, reads_app, T3. split; [rewrite H1; now rewrite app_assoc|]. auto. }
  destruct St as (u&St). destruct (wsgi_stream_t ap q p hs (EpBidi mi f) cx) as [[r inp] t]. destruct St as (-> &H1&H2&H3).
  assert (G : forall inv rs ev o, exists u', snd (let '(r, inp, t) := ((inl (inv, rs, ev, o) : whandled A + wsgi_result A), inp, snd (drive_w (wsgi_body_step p (k_name k) (k_enc_res k) z) (mk_rconf RBase rz (ap_max ap) (k_dec_req k)) (f cx) TqStart (wq_input q) rs_new (mk_wst [] false)) ++ u) in
      match r with
      | inr r => (r, inp, t)
      | inl (inv, rs, ev, None) => (mk_wr inv ev WReturn, inp, t)
      | inl (inv, rs, ev, Some ICancel) => (mk_wr inv ev WBase, inp, t)
      | inl (inv, rs, ev, Some (IExn e)) => 
        let '(d, inp0, o) := drain_body q inp in
        let r := wsgi_call_error (draining q (fun _ => d)) inv ev e (Some rs) in (r, inp0, t ++ map TRead o ++ wnewly ev (wr_events r))
      end) = snd (drive_w (wsgi_body_step p (k_name k) (k_enc_res k) z) (mk_rconf RBase rz (ap_max ap) (k_dec_req k)) (f cx) TqStart (wq_input q) rs_new (mk_wst [] false)) ++ u'
      /\ wdialog_of u' = [] /\ wyielded u' = [] /\ (startswith (lit "HTTP/1") (env_default q "SERVER_PROTOCOL" []) = false -> reads u' = [])).
  { intros inv rs ev [[e|]|]; [|exists u; auto|exists u; auto]. unfold drain_body. destruct (startswith _ _) eqn:Es.
    - destruct (drain_loop (input_fuel inp) inp) as [[d inp'] o]. cbv zeta. cbn [snd]. eexists. rewrite <- app_assoc. split; [reflexivity|]. unfold wnewly.
      rewrite !wdialog_app, H1, wdialog_reads, wdialog_outs, !wyielded_app, H2, wyielded_reads, wyielded_outs. split; [reflexivity|]. split; [reflexivity|discriminate].
    - cbv zeta. cbn [snd map List.app]. eexists. rewrite <- app_assoc. split; [reflexivity|]. unfold wnewly.
      rewrite !wdialog_app, H1, wdialog_outs, !wyielded_app, H2, wyielded_outs, reads_app, reads_outs. split; [reflexivity|]. split; [reflexivity|]. intros _. rewrite (H3 eq_refl). reflexivity. }
  destruct r as [[[[inv rs] ev] o]|r]; [destruct p; exact (G inv rs ev o)|]. exists u. destruct p; auto.
Qed.
