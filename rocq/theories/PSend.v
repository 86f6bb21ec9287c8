(** C80: request messages are taken one at a time, when the HTTP library wants them. *)
From Coq Require Import List NArith ZArith Bool String Lia.
From Verif Require Import MBase MPyStr MHeaders MWire MTimeout MEnvelope SEnvelope LEnvelope MProtocol MClient MServer MSend PEnvelope PProtocol PClient.
Import ListNotations.
Local Open Scope N_scope.

(** ** Specification: reading a conversation *)

(** The messages taken from the application, the parts handed to the HTTP library, how often each was asked. *)
Definition taken {A} (o : list (send_event A)) : list A := flat_map (fun e => match e with STook (GMsg a) => [a] | _ => [] end) o.
Definition handed {A} (o : list (send_event A)) : list bytes := flat_map (fun e => match e with SGive b => [b] | _ => [] end) o.
Definition asks {A} (o : list (send_event A)) : nat := List.length (filter (fun e => match e with SAsk => true | _ => false end) o).
Definition raised {A} (o : list (send_event A)) : list interrupt := flat_map (fun e => match e with SRaise i => [i] | _ => [] end) o.
Definition nexts (ws : list want) : nat := List.length (filter (fun w => match w with WantNext => true | _ => false end) ws).
(** The content is over: it has said so, has raised, or has been closed. *)
Definition over {A} (ws : list want) (o : list (send_event A)) : Prop :=
  In SOver o \/ (exists i, In (SRaise i) o) \/ In WantClose ws.

(** [b] is the frame of message [a]: encoded, compressed, with the flag of its compression. *)
Definition frame_of {A B} (c : client A B) (a : A) (b : bytes) : Prop :=
  exists d p, k_enc_req (cl_codec c) a = Ok d /\ maybe_compress (Some (cl_send c)) d = Ok p
    /\ frame_wire (mk_frame (if z_identity (cl_send c) then 0 else 1) p) b.

(** An iterator over the messages of a list that then ends, or fails. *)
Definition listed {A} (ms : list A) (tail : option exn) : source A := fun i =>
  match nth_error ms i with
  | Some a => GMsg a
  | None => match tail with Some e => GFail (IExn e) | None => GEnd end
  end.

(** ** Lemmas *)
Lemma flat_map_app' {X Y} (f : X -> list Y) l l' : flat_map f (l ++ l') = flat_map f l ++ flat_map f l'.
Proof. apply flat_map_app. Qed.
Lemma asks_app {A} (o o' : list (send_event A)) : asks (o ++ o') = (asks o + asks o')%nat.
Proof. unfold asks. now rewrite filter_app, app_length. Qed.
Lemma send_run_app {A B} (c : client A B) src ws ws' s :
  send_run c src s (ws ++ ws') = let (s1, o1) := send_run c src s ws in let (s2, o2) := send_run c src s1 ws' in (s2, o1 ++ o2).
Proof.
  revert s. induction ws as [|w ws IH]; intro s; cbn [send_run List.app].
  - now destruct (send_run c src s ws').
  - destruct (send_step c src s w) as [s1 o1]. rewrite IH. destruct (send_run c src s1 ws) as [s2 o2].
    destruct (send_run c src s2 ws') as [s3 o3]. now rewrite app_assoc.
Qed.

Lemma write_frame {A B} (c : client A B) a b : write_message (k_enc_req (cl_codec c)) (Some (cl_send c)) a = Ok b -> frame_of c a b.
Proof.
  intro W. unfold write_message in W. destruct (k_enc_req (cl_codec c) a) as [d|] eqn:Ed; [|discriminate].
  cbn [bind] in W. destruct (maybe_compress (Some (cl_send c)) d) as [p|] eqn:Ep; [|discriminate].
  pose proof (C05_write_exact A (k_enc_req (cl_codec c)) (Some (cl_send c)) a d p Ed Ep) as X.
  unfold write_message in X. rewrite Ed in X. cbn [bind] in X. rewrite Ep in X. cbn [bind] in W, X.
  destruct (lenN p <? 4294967296).
  - destruct X as (b'&Wb&F&_). rewrite W in Wb. injection Wb as <-. exists d, p. auto.
  - destruct X as (e&Wb). rewrite W in Wb. discriminate.
Qed.

(** What holds of a conversation at any time, with the state of the generator. *)
Definition sound {A B} (c : client A B) (src : source A) (s : sender) (o : list (send_event A)) : Prop :=
  let write := write_message (k_enc_req (cl_codec c)) (Some (cl_send c)) in
  asks o = sd_asked s
  /\ (forall i a, nth_error (taken o) i = Some a -> src i = GMsg a)
  /\ exists ms bad, taken o = ms ++ bad /\ Forall2 (fun a b => write a = Ok b) ms (handed o)
     /\ (bad = [] \/ exists a e, bad = [a] /\ write a = Raise e /\ In (SRaise (IExn e)) o)
     /\ (sd_live s = true -> bad = [] /\ List.length ms = sd_asked s).
Lemma nth_error_snoc {X} (l : list X) x i y : nth_error (l ++ [x]) i = Some y -> nth_error l i = Some y \/ (i = List.length l /\ y = x).
Proof.
  revert i. induction l as [|z l IH]; intros [|i] H; cbn in *; auto.
  - injection H as <-. auto.
  - destruct i; discriminate.
  - destruct (IH i H) as [E|[-> ->]]; auto.
Qed.
Lemma taken_app {A} (o o' : list (send_event A)) : taken (o ++ o') = taken o ++ taken o'.
Proof. apply flat_map_app. Qed.
Lemma handed_app {A} (o o' : list (send_event A)) : handed (o ++ o') = handed o ++ handed o'.
Proof. apply flat_map_app. Qed.
Lemma raised_app {A} (o o' : list (send_event A)) : raised (o ++ o') = raised o ++ raised o'.
Proof. apply flat_map_app. Qed.

Lemma sound_step {A B} (c : client A B) src s o w : sound c src s o ->
  let (s', o') := send_step c src s w in sound c src s' (o ++ o').
Proof.
  intros (Ha&Hn&ms&bad&Ht&Hf&Hb&Hl). unfold send_step.
  assert (K : forall s' o', taken o' = [] -> handed o' = [] -> asks o' = 0%nat -> sd_asked s' = sd_asked s ->
              (sd_live s' = true -> sd_live s = true) -> sound c src s' (o ++ o')).
  { intros s' o' T' H' A' S' L'. split; [rewrite asks_app, A', S'; lia|]. rewrite taken_app, T', app_nil_r. split; [exact Hn|].
    exists ms, bad. split; [exact Ht|]. split; [rewrite handed_app, H', app_nil_r; exact Hf|]. split.
    - destruct Hb as [Hb|(a&e&E1&E2&E3)]; [auto|right]. exists a, e. repeat split; auto. apply in_or_app. auto.
    - intro L. rewrite S'. auto. }
  destruct (sd_live s) eqn:L.
  - destruct w as [| |i].
    + destruct (Hl eq_refl) as [-> Hlen]. rewrite app_nil_r in Ht.
      destruct (src (sd_asked s)) as [a| |i] eqn:G.
      * assert (Hn' : forall k y, nth_error (taken o ++ [a]) k = Some y -> src k = GMsg y).
        { intros k y N. destruct (nth_error_snoc _ _ _ _ N) as [N'|[-> ->]]; [auto|]. rewrite Ht, Hlen. exact G. }
        destruct (write_message (k_enc_req (cl_codec c)) (Some (cl_send c)) a) as [b|e] eqn:W.
        -- split; [rewrite asks_app, Ha; cbn; lia|]. rewrite taken_app. split; [exact Hn'|].
           exists (ms ++ [a]), []. split; [cbn; rewrite Ht, app_nil_r; reflexivity|].
           split; [rewrite handed_app; apply Forall2_app; [exact Hf|constructor; [exact W|constructor]]|].
           split; [auto|]. intros _. split; [reflexivity|]. cbn. rewrite app_length. cbn. lia.
        -- split; [rewrite asks_app, Ha; cbn; lia|]. rewrite taken_app. split; [exact Hn'|].
           exists ms, [a]. split; [cbn; now rewrite Ht|].
           split; [rewrite handed_app; cbn; rewrite app_nil_r; exact Hf|]. split; [|discriminate].
           right. exists a, e. repeat split; auto. apply in_or_app. right. cbn. auto.
      * split; [rewrite asks_app, Ha; cbn; lia|]. rewrite taken_app. cbn [taken flat_map List.app]. rewrite app_nil_r. split; [exact Hn|].
        exists ms, []. rewrite app_nil_r. split; [exact Ht|]. split; [rewrite handed_app; cbn; rewrite app_nil_r; exact Hf|]. split; [auto|discriminate].
      * split; [rewrite asks_app, Ha; cbn; lia|]. rewrite taken_app. cbn [taken flat_map List.app]. rewrite app_nil_r. split; [exact Hn|].
        exists ms, []. rewrite app_nil_r. split; [exact Ht|]. split; [rewrite handed_app; cbn; rewrite app_nil_r; exact Hf|]. split; [auto|discriminate].
    + apply K; auto.
    + apply K; auto.
  - destruct w; apply K; auto; congruence.
Qed.
Lemma sound_run {A B} (c : client A B) src ws : forall s o, sound c src s o ->
  let (s', o') := send_run c src s ws in sound c src s' (o ++ o').
Proof.
  induction ws as [|w ws IH]; intros s o H; cbn [send_run]; [now rewrite app_nil_r|].
  pose proof (sound_step c src s o w H) as H1. destruct (send_step c src s w) as [s1 o1]. specialize (IH s1 (o ++ o1) H1).
  destruct (send_run c src s1 ws) as [s2 o2]. now rewrite app_assoc.
Qed.
Lemma sound_new {A B} (c : client A B) src : sound c src sd_new [].
Proof.
  split; [reflexivity|]. split; [intros [|i] a H; discriminate|]. exists [], []. split; [reflexivity|]. split; [constructor|]. split; [auto|]. intros _. auto. Qed.

(** [send_run] asks at most once per request of the HTTP library. *)
Lemma asks_nexts {A B} (c : client A B) src ws s : (asks (snd (send_run c src s ws)) <= nexts ws)%nat.
Proof.
  revert s. induction ws as [|w ws IH]; intro s; cbn [send_run]; [auto|].
  destruct (send_step c src s w) as [s1 o1] eqn:E. specialize (IH s1). destruct (send_run c src s1 ws) as [s2 o2]. cbn [snd] in *.
  rewrite asks_app. assert (asks o1 <= nexts [w])%nat; [|unfold nexts in *; cbn [filter] in *; destruct w; cbn [List.length] in *; lia].
  unfold send_step in E. destruct (sd_live s), w; try (injection E as <- <-; cbn; lia).
  destruct (match src (sd_asked s) with GMsg a => _ | _ => _ end) as [s' e] eqn:E'. injection E as <- <-.
  destruct (src (sd_asked s)); [destruct (write_message _ _ a)|..]; injection E' as <- <-; cbn; lia.
Qed.

Lemma not_live {A B} (c : client A B) src ws : forall s, sd_live s = false ->
  let (s', o) := send_run c src s ws in sd_live s' = false /\ asks o = 0%nat /\ handed o = [].
Proof.
  induction ws as [|w ws IH]; intros s H; cbn [send_run]; [auto|].
  unfold send_step. rewrite H. destruct w; specialize (IH s H); destruct (send_run c src s ws) as [s2 o2]; destruct IH as (I1&I2&I3); auto.
Qed.
(** A generator that can be resumed has not ended in any way. *)
Lemma live_not_over {A B} (c : client A B) src ws : forall s, let (s', o) := send_run c src s ws in sd_live s' = true -> ~ over ws o.
Proof.
  induction ws as [|w ws IH]; intros s; cbn [send_run].
  - intros _ [[]|[[i []]|[]]].
  - destruct (send_step c src s w) as [s1 o1] eqn:E. specialize (IH s1). pose proof (not_live c src ws s1) as N.
    destruct (send_run c src s1 ws) as [s2 o2]. intros L O. specialize (IH L).
    destruct (sd_live s1) eqn:L1; [|destruct (N eq_refl) as [N1 _]; congruence].
    assert (W : w <> WantClose /\ ~ In SOver o1 /\ forall i, ~ In (SRaise i) o1).
    { unfold send_step in E. destruct (sd_live s) eqn:L0.
      - destruct w; try (injection E as <- <-; discriminate).
        destruct (match src (sd_asked s) with GMsg a => _ | _ => _ end) as [s' e] eqn:E'. injection E as <- <-.
        destruct (src (sd_asked s)); [destruct (write_message _ _ a)|..]; injection E' as <- <-; try discriminate.
        split; [discriminate|]. split; [|intro i]; cbn; intuition discriminate.
      - destruct w; injection E as <- <-; congruence. }
    destruct W as (W1&W2&W3). apply IH. destruct O as [O|[[i O]|O]].
    + apply in_app_or in O. destruct O; [tauto|]. left. assumption.
    + apply in_app_or in O. destruct O as [O|O]; [destruct (W3 i O)|]. right. left. eauto.
    + destruct O; [congruence|]. right. right. assumption.
Qed.

(** ** C80 *)

(** Whatever the HTTP library does, at any time: the messages taken are the first ones of the application's iterator, each taken once;
    no more have been asked for than parts; the parts handed over are their frames, in order.  Only a message that cannot be
    written has no frame, and then the error was raised. *)
Theorem C80_one_at_a_time : forall (A B : Type) (c : client A B) src ws,
  let o := conversation c src ws in
  (asks o <= nexts ws)%nat
  /\ (List.length (taken o) <= asks o)%nat
  /\ (forall i a, nth_error (taken o) i = Some a -> src i = GMsg a)
  /\ exists ms bad, taken o = ms ++ bad /\ Forall2 (frame_of c) ms (handed o)
     /\ (bad = [] \/ exists a e, bad = [a] /\ write_message (k_enc_req (cl_codec c)) (Some (cl_send c)) a = Raise e /\ In (SRaise (IExn e)) o).
Proof.
  intros A B c src ws. cbv zeta. unfold conversation. pose proof (asks_nexts c src ws sd_new) as N.
  pose proof (sound_run c src ws sd_new [] (sound_new c src)) as S.
  assert (T : forall ws s, (List.length (taken (snd (send_run c src s ws))) <= asks (snd (send_run c src s ws)))%nat).
  { clear. induction ws as [|w ws IH]; intro s; cbn [send_run]; [auto|].
    destruct (send_step c src s w) as [s1 o1] eqn:E. specialize (IH s1). destruct (send_run c src s1 ws) as [s2 o2]. cbn [snd] in *.
    rewrite asks_app, taken_app, app_length. assert (List.length (taken o1) <= asks o1)%nat; [|lia].
    unfold send_step in E. destruct (sd_live s), w; try (injection E as <- <-; cbn; lia).
    destruct (match src (sd_asked s) with GMsg a => _ | _ => _ end) as [s' e] eqn:E'. injection E as <- <-.
    destruct (src (sd_asked s)); [destruct (write_message _ _ a)|..]; injection E' as <- <-; cbn; lia. }
  specialize (T ws sd_new). destruct (send_run c src sd_new ws) as [s o]. cbn [snd] in *. cbn [List.app] in S.
  destruct S as (_&S2&ms&bad&S3&S4&S5&_). split; [exact N|]. split; [exact T|]. split; [exact S2|]. exists ms, bad. split; [exact S3|]. split; [|exact S5].
  clear -S4. induction S4; constructor; auto. now apply write_frame.
Qed.
Print Assumptions C80_one_at_a_time.

(** Nothing is held back: while the content can go on, whatever reads the parts handed over so far, however they are cut, has every
    message taken so far, and nothing else. *)
Theorem C80_nothing_held_back : forall (A B : Type) (c : client A B) src ws (cf : rconf A) md chunks,
  let o := conversation c src ws in
  ~ (exists i, In (SRaise i) o) ->
  (forall m d, k_enc_req (cl_codec c) m = Ok d -> rc_dec cf d = Ok m) -> lossless (Some (cl_send c)) (rc_comp cf) ->
  (forall m d, In m (taken o) -> k_enc_req (cl_codec c) m = Ok d -> within (rc_max cf) d) ->
  List.concat chunks = List.concat (handed o) ->
  exists r, feed_all cf (reader_new md) chunks = (taken o, None, r) /\ r_buf r = [].
Proof.
  intros A B c src ws cf md chunks o Nr He Hz Hm Hc. subst o. unfold conversation in *.
  pose proof (sound_run c src ws sd_new [] (sound_new c src)) as S. destruct (send_run c src sd_new ws) as [s o]. cbn [snd List.app] in *.
  destruct S as (_&_&ms&bad&S3&S4&S5&_). destruct S5 as [->|(a&e&_&_&I)]; [|destruct Nr; eauto]. rewrite app_nil_r in S3. subst ms.
  exact (C02_stream_roundtrip A (k_enc_req (cl_codec c)) (Some (cl_send c)) cf md (taken o) (handed o) chunks He Hz Hm S4 Hc).
Qed.
Print Assumptions C80_nothing_held_back.

(** Once the content is over, the application's iterator is not asked again and nothing more is handed over, whatever the HTTP
    library does. *)
Theorem C80_over : forall (A B : Type) (c : client A B) src ws ws', over ws (conversation c src ws) ->
  asks (conversation c src (ws ++ ws')) = asks (conversation c src ws)
  /\ handed (conversation c src (ws ++ ws')) = handed (conversation c src ws).
Proof.
  intros A B c src ws ws' H. unfold conversation in *. rewrite send_run_app. pose proof (live_not_over c src ws sd_new) as L.
  destruct (send_run c src sd_new ws) as [s o]. cbn [snd] in *. pose proof (not_live c src ws' s) as N.
  destruct (send_run c src s ws') as [s' o']. cbn [snd]. destruct (sd_live s) eqn:E; [destruct (L eq_refl H)|]. destruct (N eq_refl) as (_&N1&N2).
  rewrite asks_app, handed_app, N1, N2, app_nil_r. auto.
Qed.
Print Assumptions C80_over.

(** The HTTP library that asks to the end gets the frames of all messages, then the end; or what the iterator raised; or the error of
    the first message that cannot be written.  This is the body of the request in the model of calls. *)
Lemma dead_run {A B} (c : client A B) src s : sd_live s = false -> forall k,
  let o := snd (send_run c src s (repeat WantNext k)) in handed o = [] /\ raised o = [].
Proof.
  intros L k. cbv zeta. induction k as [|k IH]; [auto|]. cbn [repeat send_run]. unfold send_step. rewrite L.
  destruct (send_run c src s (repeat WantNext k)) as [s' o]. exact IH.
Qed.
Lemma run_listed {A B} (c : client A B) ms tail : forall pre n, (List.length ms < n)%nat ->
  let o := snd (send_run c (listed (pre ++ ms) tail) (mk_sd true (List.length pre)) (repeat WantNext n)) in
  handed o = fst (request_content c ms tail)
  /\ raised o = match snd (request_content c ms tail) with Some e => [IExn e] | None => [] end
  /\ over (repeat WantNext n) o.
Proof.
  induction ms as [|m ms IH]; intros pre [|n] Hn; try (cbn in Hn; lia); cbn [repeat send_run].
  - assert (G : listed (pre ++ []) tail (List.length pre) = match tail with Some e => GFail (IExn e) | None => GEnd end).
    { unfold listed. rewrite app_nil_r. assert (nth_error pre (List.length pre) = None) as -> by now apply nth_error_None. reflexivity. }
    unfold send_step. cbn [sd_live sd_asked]. rewrite G.
    pose proof (dead_run c (listed (pre ++ []) tail) (sd_end (mk_sd true (S (List.length pre)))) eq_refl n) as D.
    cbn [request_content fst snd]. destruct tail as [e|]; cbv zeta in *.
    + destruct (send_run c _ _ (repeat WantNext n)) as [s o]. cbn [snd] in *. destruct D as [D1 D2].
      rewrite handed_app, raised_app, D1, D2. cbn. repeat split. right. left. exists (IExn e). cbn. auto.
    + destruct (send_run c _ _ (repeat WantNext n)) as [s o]. cbn [snd] in *. destruct D as [D1 D2].
      rewrite handed_app, raised_app, D1, D2. cbn. repeat split. left. cbn. auto.
  - unfold send_step. cbn [sd_live sd_asked].
    assert (G : listed (pre ++ m :: ms) tail (List.length pre) = GMsg m).
    { unfold listed. rewrite nth_error_app2, Nat.sub_diag by lia. reflexivity. }
    rewrite G. cbn [request_content].
    destruct (write_message (k_enc_req (cl_codec c)) (Some (cl_send c)) m) as [b|e].
    + specialize (IH (pre ++ [m]) n). rewrite app_length in IH. cbn [List.length] in IH, Hn. rewrite <- app_assoc in IH. cbn [List.app] in IH.
      replace (List.length pre + 1)%nat with (S (List.length pre)) in IH by lia. specialize (IH ltac:(lia)). cbv zeta in IH |- *.
      destruct (send_run c (listed (pre ++ m :: ms) tail) (mk_sd true (S (List.length pre))) (repeat WantNext n)) as [s o]. cbn [snd] in *.
      destruct (request_content c ms tail) as [bs e]. cbn [fst snd] in *. destruct IH as (I1&I2&I3). rewrite handed_app, raised_app, I1, I2.
      cbn. repeat split. destruct I3 as [I3|[[i I3]|I3]].
      * left. cbn. auto.
      * right. left. exists i. cbn. auto.
      * right. right. now right.
    + pose proof (dead_run c (listed (pre ++ m :: ms) tail) (sd_end (mk_sd true (S (List.length pre)))) eq_refl n) as D. cbv zeta in *.
      destruct (send_run c _ _ (repeat WantNext n)) as [s o]. cbn [snd] in *. destruct D as [D1 D2].
      rewrite handed_app, raised_app, D1, D2. cbn. repeat split. right. left. exists (IExn e). cbn. auto.
Qed.
Theorem C80_body : forall (A B : Type) (c : client A B) ms tail n, (List.length ms < n)%nat ->
  let o := conversation c (listed ms tail) (repeat WantNext n) in
  handed o = fst (request_content c ms tail)
  /\ raised o = match snd (request_content c ms tail) with Some e => [IExn e] | None => [] end
  /\ over (repeat WantNext n) o.
Proof. intros A B c ms tail n H. exact (run_listed c ms tail [] n H). Qed.
Print Assumptions C80_body.

(** An iterator that fails, at any point, with anything: the HTTP library gets the frames before it, then what was raised. *)
Theorem C80_failure : forall (A B : Type) (c : client A B) src ms bs i,
  (forall j a, nth_error ms j = Some a -> src j = GMsg a) -> src (List.length ms) = GFail i ->
  Forall2 (fun a b => write_message (k_enc_req (cl_codec c)) (Some (cl_send c)) a = Ok b) ms bs ->
  let o := conversation c src (repeat WantNext (S (List.length ms))) in
  taken o = ms /\ handed o = bs /\ exists o', o = o' ++ [SRaise i] /\ raised o' = [].
Proof.
  intros A B c src ms bs i Hs Hf Hw. cbv zeta. unfold conversation.
  assert (K : forall ms bs k, (forall j a, nth_error ms j = Some a -> src (k + j)%nat = GMsg a) -> src (k + List.length ms)%nat = GFail i ->
    Forall2 (fun a b => write_message (k_enc_req (cl_codec c)) (Some (cl_send c)) a = Ok b) ms bs ->
    let o := snd (send_run c src (mk_sd true k) (repeat WantNext (S (List.length ms)))) in
    taken o = ms /\ handed o = bs /\ exists o', o = o' ++ [SRaise i] /\ raised o' = []).
  { clear. intros ms bs k Hs Hf Hw. revert k Hs Hf. induction Hw as [|a b ms bs W Hw IH]; intros k Hs Hf.
    - cbn [List.length repeat send_run]. unfold send_step. cbn [sd_live sd_asked]. cbn in Hf. rewrite Nat.add_0_r in Hf. rewrite Hf. cbn.
      repeat split. exists [SAsk; STook (GFail i)]. auto.
    - pose proof (Hs 0%nat a eq_refl) as G. rewrite Nat.add_0_r in G.
      assert (St : send_step c src (mk_sd true k) WantNext = (mk_sd true (S k), [SAsk; STook (GMsg a); SGive b])).
      { unfold send_step. cbn [sd_live sd_asked]. now rewrite G, W. }
      specialize (IH (S k)).
      assert (I1 : forall j a0, nth_error ms j = Some a0 -> src (S k + j)%nat = GMsg a0).
      { intros j a0 N. replace (S k + j)%nat with (k + S j)%nat by lia. now apply Hs. }
      assert (I2 : src (S k + List.length ms)%nat = GFail i).
      { replace (S k + List.length ms)%nat with (k + S (List.length ms))%nat by lia. exact Hf. }
      specialize (IH I1 I2). change (List.length (a :: ms)) with (S (List.length ms)).
      change (repeat WantNext (S (S (List.length ms)))) with (WantNext :: repeat WantNext (S (List.length ms))).
      revert IH. generalize (repeat WantNext (S (List.length ms))). intros ws IH. cbn [send_run]. rewrite St.
      destruct (send_run c src (mk_sd true (S k)) ws) as [s o]. cbv zeta in *. cbn [snd] in *. destruct IH as (J1&J2&o'&->&J3).
      split; [exact (f_equal (cons a) J1)|]. split; [exact (f_equal (cons b) J2)|].
      exists (SAsk :: STook (GMsg a) :: SGive b :: o'). split; [reflexivity|exact J3]. }
  exact (K ms bs 0%nat Hs Hf Hw).
Qed.
Print Assumptions C80_failure.

(** Not claimed by the documentation, and not so (finding): the application's iterator is never closed, not even when the HTTP
    library closes the content of a call that ended early; its clean-up is left to the garbage collector. *)
Theorem C80_close_refuted : forall (A B : Type) (c : client A B) src ws, ~ In SDrop (conversation c src ws).
Proof.
  intros A B c src ws. unfold conversation. generalize sd_new. induction ws as [|w ws IH]; intros s; cbn [send_run]; [auto|].
  destruct (send_step c src s w) as [s1 o1] eqn:E. specialize (IH s1). destruct (send_run c src s1 ws) as [s2 o2]. cbn [snd] in *.
  intro H. apply in_app_or in H. destruct H as [H|H]; [|auto].
  unfold send_step in E. destruct (sd_live s), w; try (injection E as <- <-; cbn in H; intuition discriminate).
  destruct (match src (sd_asked s) with GMsg a => _ | _ => _ end) as [s' e] eqn:E'. injection E as <- <-.
  destruct (src (sd_asked s)); [destruct (write_message _ _ a)|..]; injection E' as <- <-; cbn in H; intuition discriminate.
Qed.
Print Assumptions C80_close_refuted.

(** ** Examples *)
Definition ex_asked : source pystr := fun i => GMsg [N.of_nat i].
(** An endless iterator; the HTTP library asks three times and closes the content. *)
Example C80_example : forall p, let o := conversation (ex_client p None) ex_asked [WantNext; WantNext; WantNext; WantClose; WantNext] in
  taken o = [[0]; [1]; [2]] /\ List.length (handed o) = 3%nat /\ asks o = 3%nat /\ over [WantNext; WantNext; WantNext; WantClose; WantNext] o
  /\ ~ exists i, In (SRaise i) o.
Proof.
  intros []; (split; [reflexivity|]; split; [reflexivity|]; split; [reflexivity|]; split; [right; right; cbn; tauto|]; intros [i H]; vm_compute in H; intuition discriminate).
Qed.
(** The other hypotheses: a client that compresses, its server's reader, and an iterator that fails after two messages. *)
Definition ex_packing (p : proto) : client pystr pystr :=
  client_new false (lit "http://h") p ex_codec [PEnvelope.ex_comp] (Some PEnvelope.ex_comp) None None (lit "ua/1") ex_sc.
Example C80_reader_example : forall p,
  (forall m d, k_enc_req (cl_codec (ex_packing p)) m = Ok d -> (fun x : bytes => Ok x) d = Ok m)
  /\ lossless (Some (cl_send (ex_packing p))) PEnvelope.ex_comp
  /\ handed (conversation (ex_packing p) ex_asked [WantNext; WantNext]) = [[1; 0; 0; 0; 2; 170; 0]; [1; 0; 0; 0; 2; 170; 1]].
Proof.
  intro p. split; [intros m d H; injection H as ->; reflexivity|]. split; [exact (proj1 C02_example)|]. destruct p; reflexivity.
Qed.
Example C80_failure_example : forall p,
  let o := conversation (ex_packing p) (fun i => match i with 0%nat => GMsg [7] | 1%nat => GMsg [] | _ => GFail ICancel end) (repeat WantNext 3) in
  taken o = [[7]; []] /\ List.length (handed o) = 2%nat /\ raised o = [ICancel].
Proof. intros []; repeat split. Qed.
