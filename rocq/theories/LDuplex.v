(** Lemmas on conversations. *)
From Coq Require Import List NArith ZArith Bool String Lia ZifyBool ZifyNat.
From Verif Require Import MBase MPyStr MHeaders LBase MWire MTimeout MEnvelope SEnvelope LEnvelope MProtocol MClient MServer MAsgi LIter MDuplex SDuplex.
Import ListNotations.
Local Open Scope N_scope.

(** ** The request stream and the list of what it yields *)

(** What is still to come from a reader in state [p] with [chunks] to be fed. *)
Definition remaining {M} (cf : rconf M) (p : pause M) (chunks : list bytes) : list M * option exn :=
  let '(ms, e, r) := drain cf (S (buffered p)) p in
  match e with
  | Some _ => (ms, e)
  | None => let '(ms', e', _) := feed_all cf r chunks in (ms ++ ms', e')
  end.

Lemma remaining_msg {M} (cf : rconf M) m r chunks :
  remaining cf (YMsg m r) chunks = let (ms, e) := remaining cf (read_resume cf r) chunks in (m :: ms, e).
Proof.
  unfold remaining. set (n := S (buffered (YMsg m r))). assert (Hn : n = S (List.length (r_buf r))) by reflexivity. clearbody n. subst n.
  assert (Hb : (buffered (read_resume cf r) < S (buffered (read_resume cf r)))%nat) by lia. revert Hb. generalize (S (buffered (read_resume cf r))) as n2.
  intros n2 Hb. cbn [drain]. pose proof (resume_weight cf r) as W.
  assert (D : drain cf (List.length (r_buf r)) (read_resume cf r) = drain cf n2 (read_resume cf r)).
  { destruct (read_resume cf r) as [m' r'|r'|e' r'] eqn:E; [|destruct (List.length (r_buf r)), n2; reflexivity..].
    apply drain_fuel; [|exact Hb]. apply read_resume_shorter in E. unfold buffered. cbn. lia. }
  rewrite D. destruct (drain cf n2 (read_resume cf r)) as [[ms e] r']. destruct e; [reflexivity|]. destruct (feed_all cf r' chunks) as [[ms' e'] r'']. reflexivity.
Qed.
Lemma remaining_err {M} (cf : rconf M) e r chunks : remaining cf (YErr e r) chunks = ([], Some e).
Proof. reflexivity. Qed.
Lemma remaining_nil {M} (cf : rconf M) r : remaining cf (YEnd r) [] = ([], None).
Proof. reflexivity. Qed.
Lemma remaining_cons {M} (cf : rconf M) r c cs : remaining cf (YEnd r) (c :: cs) = remaining cf (feed_first cf r c) cs.
Proof.
  unfold remaining at 1. cbn [drain]. cbn [feed_all].
  pose proof (first_weight cf r c) as W.
  rewrite (feed_drain cf r c (S (S (List.length (r_buf r ++ c))))) by lia. unfold remaining.
  assert (D : drain cf (S (S (List.length (r_buf r ++ c)))) (feed_first cf r c) = drain cf (S (buffered (feed_first cf r c))) (feed_first cf r c)).
  { apply drain_fuel; [|lia]. unfold weight in W. rewrite app_length. lia. }
  rewrite D. clear D. destruct (drain cf _ (feed_first cf r c)) as [[ms e] r']. cbn [List.app]. destruct e; [reflexivity|]. destruct (feed_all cf r' cs) as [[ms' e'] r'']. reflexivity.
Qed.

(** What is still to come when the server has [evs] to say. *)
Definition to_come {M} (cf : rconf M) (p : pause M) (more : bool) (evs : list recv) : pulls M :=
  let (chunks, fin) := if more then read_body evs else ([], None) in
  let (ms, e) := remaining cf p chunks in
  (ms, match e with
       | Some x => Some x
       | None => match fin with None => None | Some (IExn x) => Some x | Some ICancel => Some was_cancelled end
       end).

Lemma rpump_next {M} (cf : rconf M) : forall evs p more,
  pull_next (to_come cf p more evs) = match fst (rpump cf p more evs) with
                                      | RsMsg m r more evs => (PMsg m, to_come cf (read_resume cf r) more evs)
                                      | RsErr e => (PExn e, ([], None))
                                      | RsEnd => (PEnd, ([], None))
                                      end.
Proof.
  assert (Y : forall m r more evs, pull_next (to_come cf (YMsg m r) more evs) = (PMsg m, to_come cf (read_resume cf r) more evs)).
  { intros. unfold to_come. destruct (if more then read_body evs else ([], None)) as [ch fin]. rewrite remaining_msg.
    destruct (remaining cf (read_resume cf r) ch) as [ms e]. reflexivity. }
  assert (X : forall e r more evs, pull_next (to_come cf (YErr e r) more evs) = (PExn e, ([], None))).
  { intros. unfold to_come. destruct (if more then read_body evs else ([], None)) as [ch fin]. reflexivity. }
  induction evs as [|x evs IH]; intros [m r|r|e r] more; cbn [rpump fst]; try apply Y; try apply X.
  - destruct more; reflexivity.
  - destruct more; [|reflexivity].
    assert (E : forall b mo, x = RReq b mo -> to_come cf (YEnd r) true (x :: evs) = to_come cf (feed_first cf r b) mo evs).
    { intros b mo ->. unfold to_come. cbn [read_body]. destruct mo.
      - destruct (read_body evs) as [bs e]. now rewrite remaining_cons.
      - now rewrite remaining_cons. }
    destruct x as [b mo| | |e|]; try reflexivity. rewrite (E b mo eq_refl), IH. destruct (rpump cf (feed_first cf r b) mo evs) as [s o]. reflexivity.
Qed.

(** With the cancellation at [sleep(0)]; [n] messages were yielded. *)
Definition with_cut {M} (cut : option nat) (n : nat) (ps : pulls M) : pulls M :=
  match cut with
  | Some k => if Nat.leb 1 k && Nat.leb n k && Nat.leb (k - n) (List.length (fst ps)) then (firstn (k - n) (fst ps), Some was_cancelled) else ps
  | None => ps
  end.
Definition rq_rest {M} (cf : rconf M) (cut : option nat) (q : rqpos) : pulls M :=
  match q with
  | RqStart evs => with_cut cut 0 (to_come cf (YEnd (reader_new None)) true evs)
  | RqYield r more evs n => with_cut cut n (to_come cf (read_resume cf r) more evs)
  | RqEnd => ([], None)
  end.

Lemma with_cut_nil {M} cut n e : (match cut with Some k => k <> n | None => True end) -> with_cut cut n (@nil M, e) = ([], e) \/ n = O.
Proof.
  destruct cut as [k|]; intro H; [|left; reflexivity]. unfold with_cut. cbn [fst List.length]. destruct n; [right; reflexivity|left].
  destruct (Nat.leb 1 k && _ && _) eqn:E; [|reflexivity]. lia.
Qed.
Lemma with_cut_cons {M} cut n (m : M) ms e : (match cut with Some k => k <> n | None => True end) \/ n = O ->
  with_cut cut n (m :: ms, e) = let (ms', e') := with_cut cut (S n) (ms, e) in (m :: ms', e').
Proof.
  destruct cut as [k|]; intro H; [|reflexivity]. unfold with_cut. cbn [fst List.length].
  destruct (Nat.leb 1 k && Nat.leb n k && Nat.leb (k - n) (S (List.length ms))) eqn:E.
  - replace (Nat.leb 1 k && Nat.leb (S n) k && Nat.leb (k - S n) (List.length ms)) with true by lia.
    replace (k - n)%nat with (S (k - S n)) by lia. reflexivity.
  - replace (Nat.leb 1 k && Nat.leb (S n) k && Nat.leb (k - S n) (List.length ms)) with false by lia. reflexivity.
Qed.

Definition rq_wf (q : rqpos) : Prop := match q with RqYield _ _ _ O => False | _ => True end.
Lemma rq_next_rest {M} (cf : rconf M) cut q : rq_wf q ->
  let '(x, q', _) := rq_next cf cut q in pull_next (rq_rest cf cut q) = (x, rq_rest cf cut q') /\ rq_wf q'.
Proof.
  assert (G : forall p more evs n, (match cut with Some k => k <> n | None => True end) \/ n = O ->
    let '(x, q', _) := let (s, o) := rpump cf p more evs in
      match s with RsMsg m r more evs => (PMsg m, RqYield r more evs (S n), o) | RsErr e => (PExn e, RqEnd, o) | RsEnd => (PEnd, RqEnd, o) end in
    pull_next (with_cut cut n (to_come cf p more evs)) = (x, rq_rest cf cut q') /\ rq_wf q').
  { intros p more evs n H. pose proof (rpump_next cf evs p more) as P. destruct (rpump cf p more evs) as [s o]. cbn [fst] in P.
    destruct (to_come cf p more evs) as [ms e].
    assert (N0 : ms = [] -> with_cut cut n (ms, e) = (ms, e)).
    { intros ->. destruct cut as [k|]; [|reflexivity]. unfold with_cut. cbn [fst List.length].
      destruct (Nat.leb 1 k && Nat.leb n k && Nat.leb (k - n) 0) eqn:E; [|reflexivity]. destruct H; [lia|]. lia. }
    destruct s as [m r mo evs'|e'|].
    - destruct ms as [|m' ms]; [destruct e; discriminate P|]. injection P as -> P. rewrite with_cut_cons by assumption. cbn [rq_rest rq_wf]. rewrite <- P.
      destruct (with_cut cut (S n) (ms, e)) as [ms' e'']. split; [reflexivity|exact I].
    - destruct ms as [|m' ms]; [|discriminate P]. rewrite (N0 eq_refl). split; [exact P|exact I].
    - destruct ms as [|m' ms]; [|discriminate P]. rewrite (N0 eq_refl). split; [exact P|exact I]. }
  destruct q as [evs|r more evs n|]; intro W; cbn [rq_next rq_rest].
  - apply G. now right.
  - destruct (match cut with Some k => Nat.eqb k n | None => false end) eqn:E.
    + destruct cut as [k|]; [|discriminate E]. apply Nat.eqb_eq in E. subst k. split; [|exact I]. unfold with_cut.
      destruct n as [|n]; [destruct W|]. replace (Nat.leb 1 (S n) && Nat.leb (S n) (S n) && Nat.leb (S n - S n) (List.length (fst (to_come cf (read_resume cf r) more evs)))) with true by lia.
      rewrite Nat.sub_diag. reflexivity.
    + apply G. left. destruct cut as [k|]; [|exact I]. now apply Nat.eqb_neq.
  - split; [reflexivity|exact I].
Qed.

Lemma rq_start {A B} (ap : app A B) (k : codec A B) rz en :
  rq_rest (mk_rconf RBase rz (ap_max ap) (k_dec_req k)) (en_cut en) (RqStart (en_recv en)) = request_stream ap k rz en.
Proof.
  cbn [rq_rest]. unfold request_stream, to_come. destruct (read_body (en_recv en)) as [chunks fin]. unfold remaining. cbn [drain].
  destruct (feed_all _ _ chunks) as [[ms e] r]. cbn [List.app]. unfold with_cut. destruct (en_cut en) as [[|n]|]; reflexivity.
Qed.

(** ** The conversation and [handle_stream] *)

Lemma run_fn_same {A B R} (cf : rconf A) cut (g : prog A Empty_set R) : forall q rs, rq_wf q ->
  fst (@run_fn_t A B R cf cut g q rs) = run_fn g (rq_rest cf cut q) rs.
Proof.
  induction g as [r|i|k IH|b c g IH|op g IH|op g IH]; intros q rs W; cbn [run_fn_t run_fn]; try reflexivity; try (apply IH; exact W).
  - pose proof (rq_next_rest cf cut q W) as N. destruct (rq_next cf cut q) as [[x q'] o]. destruct N as [-> W'].
    rewrite <- (IH x q' rs W'). destruct (run_fn_t cf cut (k x) q' rs) as [[r rs'] t]. reflexivity.
  - destruct b.
Qed.
Lemma drive_same {A B} body (cf : rconf A) cut (g : prog A B unit) : forall q rs s, rq_wf q ->
  fst (drive_t body cf cut g q rs s) = drive body g (rq_rest cf cut q) rs s.
Proof.
  induction g as [r|i|k IH|b c g IH|op g IH|op g IH]; intros q rs s W; cbn [drive_t drive]; try reflexivity; try (apply IH; exact W).
  - pose proof (rq_next_rest cf cut q W) as N. destruct (rq_next cf cut q) as [[x q'] o]. destruct N as [-> W'].
    rewrite <- (IH x q' rs s W'). destruct (drive_t body cf cut (k x) q' rs s) as [[[s' rs'] e] t]. reflexivity.
  - destruct (body s rs b) as [s' [i|]]; [reflexivity|]. rewrite <- (IH q rs s' W). destruct (drive_t body cf cut g q rs s') as [[[s'' rs'] e] t]. reflexivity.
Qed.
Lemma stream_loop_same {A B} o seen mon p name enc z (cf : rconf A) cut (g : prog A B unit) q rs s : rq_wf q ->
  fst (stream_loop_t o seen mon p name enc z cf cut g q rs s) = stream_loop o seen mon p name enc z g (rq_rest cf cut q) rs s.
Proof.
  intro W. unfold stream_loop_t, stream_loop. rewrite <- (drive_same _ cf cut g q rs s W). destruct (drive_t _ cf cut g q rs s) as [[[s' rs'] e] t].
  cbn [fst]. destruct mon; [reflexivity|]. destruct e; reflexivity.
Qed.
Lemma consume_single_same {A B} (cf : rconf A) cut q : rq_wf q -> fst (@consume_single_t A B cf cut q) = consume_single_request (rq_rest cf cut q).
Proof.
  intro W. unfold consume_single_t. pose proof (rq_next_rest cf cut q W) as N. destruct (rq_next cf cut q) as [[x q'] o]. destruct N as [N W'].
  destruct (rq_rest cf cut q) as [ms e]. destruct x as [a| |e'].
  - destruct ms as [|m ms]; [destruct e; discriminate N|]. injection N as -> N. pose proof (rq_next_rest cf cut q' W') as N'.
    destruct (rq_next cf cut q') as [[y q''] o']. destruct N' as [N' _]. rewrite <- N in N'.
    destruct ms as [|m2 ms]; [|injection N' as <- _; reflexivity]. destruct e as [e|]; injection N' as <- _; reflexivity.
  - destruct ms as [|m ms]; [|discriminate N]. destruct e; [discriminate N|reflexivity].
  - destruct ms as [|m ms]; [|discriminate N]. destruct e; [|discriminate N]. injection N as -> _. reflexivity.
Qed.

Lemma stream_try_same {A B} (ap : app A B) en p ep k req z cx s : fst (stream_try_t ap en p ep k req z cx s) = stream_try ap en p ep k req z cx s.
Proof.
  unfold stream_try_t, stream_try. destruct req as [rz|]; [|reflexivity].
  set (cf := mk_rconf RBase rz (ap_max ap) (k_dec_req k)). pose proof (rq_start ap k rz en) as Q. fold cf in Q.
  assert (W : rq_wf (RqStart (en_recv en))) by exact I.
  destruct ep as [m f|m f|m f|m f]; cbv zeta.
  - pose proof (@consume_single_same A B cf (en_cut en) _ W) as C. rewrite Q in C. rewrite <- C.
    destruct (consume_single_t cf (en_cut en) (RqStart (en_recv en))) as [[a|e] t]; [|reflexivity]. cbn [fst].
    destruct (run_fn (f a cx) ([], None) rs_new) as [[b|i] rs]; [|reflexivity].
    pose proof (@stream_loop_same A B (en_send en) (fun _ => false) None p (k_name k) (k_enc_res k) z cf (en_cut en) (single_response b) RqEnd rs s I) as L.
    destruct (stream_loop_t _ _ _ _ _ _ _ _ _ _ _ _ _) as [[[s' rs'] i'] t']. cbn [fst] in *. f_equal. exact L.
  - pose proof (@run_fn_same A B B cf (en_cut en) (f cx) _ rs_new W) as C. rewrite Q in C. rewrite <- C.
    destruct (run_fn_t cf (en_cut en) (f cx) (RqStart (en_recv en)) rs_new) as [[[b|i] rs] t]; [|reflexivity]. cbn [fst].
    pose proof (@stream_loop_same A B (en_send en) (fun _ => false) None p (k_name k) (k_enc_res k) z cf (en_cut en) (single_response b) RqEnd rs s I) as L.
    destruct (stream_loop_t _ _ _ _ _ _ _ _ _ _ _ _ _) as [[[s' rs'] i'] t']. cbn [fst] in *. f_equal. exact L.
  - pose proof (@consume_single_same A B cf (en_cut en) _ W) as C. rewrite Q in C. rewrite <- C.
    destruct (consume_single_t cf (en_cut en) (RqStart (en_recv en))) as [[a|e] t]; [|reflexivity]. cbn [fst].
    match goal with |- context [stream_loop_t ?o ?se ?mo ?p ?n ?en ?z ?c ?cu ?g ?q ?r ?s] => pose proof (stream_loop_same o se mo p n en z c cu g q r s I) as L;
      destruct (stream_loop_t o se mo p n en z c cu g q r s) as [[[s' rs'] i'] t'] end.
    cbn [fst] in *. f_equal. exact L.
  - pose proof (@stream_loop_same A B (en_send en) (fun _ => false) None p (k_name k) (k_enc_res k) z cf (en_cut en) (f cx) _ rs_new s W) as L.
    rewrite Q in L. destruct (stream_loop_t _ _ _ _ _ _ _ _ _ _ _ _ _) as [x t']. cbn [fst] in *. f_equal. exact L.
Qed.

Lemma conversation_same {A B} (ap : app A B) now sc en : fst (asgi_conversation ap now sc en) = asgi_call ap now sc en.
Proof.
  unfold asgi_conversation, asgi_call. destruct (open_request ap now sc) as [[[[ep hs] p] cx]|e]; [|reflexivity].
  destruct (select_codec ap sc ep hs p) as [[params k]|e]; [|reflexivity].
  assert (H : fst (handle_stream_t ap en p ep k hs cx) = handle_stream ap en p ep k hs cx).
  { unfold handle_stream_t, handle_stream. destruct (negotiate_stream_compression p hs (ap_comps ap)) as [req z].
    rewrite <- stream_try_same. destruct (stream_try_t _ _ _ _ _ _ _ _ _) as [[inv [[s rs] i]] t]. cbn [fst].
    destruct (stream_finally _ _ _ _ _ _ _ _ _) as [a r]. reflexivity. }
  destruct ep; [destruct p|..]; try exact H. reflexivity.
Qed.

(** ** What is sent *)

Lemma skipn_app_len {X} (l r : list X) : skipn (List.length l) (l ++ r) = r.
Proof. induction l; [reflexivity|exact IHl]. Qed.
Lemma sent_app {A B} (t u : list (devent A B)) : sent (t ++ u) = sent t ++ sent u.
Proof. apply flat_map_app. Qed.
Lemma sent_yield {A B} b (t : list (devent A B)) : sent (DYield b :: t) = sent t.
Proof. reflexivity. Qed.
Lemma sent_ask {A B} (t : list (devent A B)) : sent (DAsk :: t) = sent t.
Proof. reflexivity. Qed.
Lemma sent_recv {A B} o : sent (map (@DRecv A B) o) = [].
Proof. now induction o. Qed.
(** Every action only adds events. *)
Definition grows (s s' : ast) (l : list aevent) : Prop := as_ev s' = as_ev s ++ l.
Lemma send_grows o ev s : match send o ev s with
                          | (s', inl _) => grows s s' [ev]
                          | (s', inr _) => grows s s' []
                          end.
Proof. unfold send, grows. destruct (o (as_n s)); cbn; now rewrite ?app_nil_r. Qed.

(** The loop body: once it is through, it has sent one more part of the body, after the start if that was not sent. *)
Lemma body_sends {B} o seen p name (enc : B -> res bytes) z s rs b :
  let '(s', i) := stream_body o seen p name enc z s rs b in
  exists l, grows (ls_a s) (ls_a s') l /\ (i = None -> List.length (bodies l) = 1%nat).
Proof.
  unfold stream_body. destruct (seen (ls_i s)).
  { exists []. split; [unfold grows; cbn; now rewrite app_nil_r|discriminate]. }
  assert (H : let '(a, r) := (if ls_sent s then (ls_a s, inl tt) else send_stream_headers o p name (z_name z) rs (ls_a s)) in
              exists l, grows (ls_a s) a l /\ bodies l = []).
  { destruct (ls_sent s); [exists []; split; [unfold grows; now rewrite app_nil_r|reflexivity]|].
    unfold send_stream_headers, io_bind, io_res. destruct (encode_pairs _) as [hs|e]; cbn [io_ret io_raise].
    - unfold io_ret. pose proof (send_grows o (EvStart 200 hs (uses_trailers p)) (ls_a s)) as G. destruct (send _ _ _) as [a [u|i]]; eexists; (split; [exact G|reflexivity]).
    - unfold io_raise. exists []. split; [unfold grows; now rewrite app_nil_r|reflexivity]. }
  destruct (if ls_sent s then _ else _) as [a [u|x]].
  - destruct H as (l&G&Hl). unfold io_bind, io_res. destruct (write_message enc (Some z) b) as [body|e]; cbn.
    + unfold io_ret. pose proof (send_grows o (EvBody body true) a) as G'. destruct (send o (EvBody body true) a) as [a' [u'|i']]; cbn [ls_a].
      * exists (l ++ [EvBody body true]). split; [unfold grows in *; now rewrite G', G, app_assoc|]. intros _. unfold bodies in *. rewrite flat_map_app, Hl. reflexivity.
      * exists l. split; [unfold grows in *; now rewrite G', G, app_nil_r|discriminate].
    + unfold io_raise. exists l. split; [exact G|discriminate].
  - destruct H as (l&G&Hl). exists l. split; [exact G|discriminate].
Qed.
Lemma grows_newly {A B} s s' l : grows s s' l -> @newly A B s s' = map DSend l.
Proof. unfold grows, newly. intros ->. now rewrite skipn_app_len. Qed.
Lemma sent_map {A B} l : sent (map (@DSend A B) l) = l.
Proof. induction l as [|x l IH]; [reflexivity|]. cbn. f_equal. exact IH. Qed.

(** The events of a conversation are those of [handle_stream]. *)
Lemma drive_sent {A B} o seen p name (enc : B -> res bytes) z (cf : rconf A) cut (g : prog A B unit) : forall q rs s,
  let '(s', _, _, t) := drive_t (stream_body o seen p name enc z) cf cut g q rs s in grows (ls_a s) (ls_a s') (sent t).
Proof.
  induction g as [r|i|k IH|b c g IH|op g IH|op g IH]; intros q rs s; cbn [drive_t]; try (unfold grows; cbn; now rewrite app_nil_r); try apply IH.
  - destruct (rq_next cf cut q) as [[x q'] o0]. specialize (IH x q' rs s). destruct (drive_t _ cf cut (k x) q' rs s) as [[[s' rs'] e] t].
    rewrite sent_ask, sent_app, sent_recv. exact IH.
  - pose proof (body_sends o seen p name enc z s rs b) as Hb. destruct (stream_body o seen p name enc z s rs b) as [s' [i|]]; destruct Hb as (l&G&_).
    + rewrite sent_yield, (grows_newly _ _ _ G), sent_map. exact G.
    + specialize (IH q rs s'). destruct (drive_t _ cf cut g q rs s') as [[[s'' rs'] e] t].
      rewrite sent_yield, sent_app, (grows_newly _ _ _ G), sent_map.
      unfold grows in *. now rewrite IH, G, app_assoc.
Qed.

(** ** The server waits only for what it lacks *)

(** [begun fs w]: [w] is the frames [fs]. *)
Definition begun (fs : list frame) (w : bytes) : Prop := forall rest fs' tl, frames_of rest fs' tl -> frames_of (w ++ rest) (fs ++ fs') tl.
Lemma begun_nil : begun [] [].
Proof. intros rest fs' tl H. exact H. Qed.
Lemma begun_snoc fs w f u : begun fs w -> frame_wire f u -> begun (fs ++ [f]) (w ++ u).
Proof. intros Hb Hf rest fs' tl H. rewrite <- !app_assoc. apply Hb. cbn [List.app]. now constructor. Qed.

(** A reader that has given the frames [k] of [got]. *)
Definition holds_rest (k : nat) (got rest : bytes) : Prop := exists fs w, List.length fs = k /\ got = w ++ rest /\ begun fs w.
Lemma rest_more k got rest ch : holds_rest k got rest -> holds_rest k (got ++ ch) (rest ++ ch).
Proof. intros (fs&w&L&->&Hb). exists fs, w. split; [exact L|]. split; [now rewrite app_assoc|exact Hb]. Qed.
Lemma rest_frame k got f w rest : frame_wire f w -> holds_rest k got (w ++ rest) -> holds_rest (S k) got rest.
Proof.
  intros Hw (fs&w0&L&->&Hb). exists (fs ++ [f]), (w0 ++ w). split; [rewrite app_length; cbn; lia|]. split; [now rewrite app_assoc|]. now apply begun_snoc.
Qed.
Lemma rest_incomplete k got rest fs tl : holds_rest k got rest -> incomplete rest -> frames_of got fs tl -> List.length fs = k.
Proof.
  intros (fs0&w&L&->&Hb) Hi Hf. pose proof (Hb rest [] rest (fo_nil rest Hi)) as H. rewrite app_nil_r in H.
  destruct (frames_of_det _ _ _ Hf _ _ H) as [-> _]. exact L.
Qed.

(** What a reader of requests does with what it has buffered. *)
Definition settled {M} (p : pause M) (buf : bytes) : Prop :=
  match p with
  | YMsg _ r => r_next r = None /\ exists f w, frame_wire f w /\ buf = w ++ r_buf r
  | YEnd r => r_buf r = buf /\ waiting r
  | YErr _ _ => True
  end.
Lemma base_frame {M} (cf : rconf M) fl d r : rc_kind cf = RBase ->
  match read_frame cf fl d r with (FEnd, _) => False | (FMsg _, r') => r_buf r' = r_buf r /\ r_next r' = r_next r | (FErr _, _) => True end.
Proof.
  intro K. unfold read_frame. rewrite K. destruct (if N.testbit fl 0 then _ else _) as [x|]; [|exact I]. destruct (match rc_max cf with Some _ => _ | None => _ end); [exact I|].
  cbn [handle_end]. destruct (rc_dec cf x); [split; reflexivity|exact I].
Qed.
Lemma known_settled {M} (cf : rconf M) r f w b : rc_kind cf = RBase -> r_buf r = w ++ b -> frame_wire f w -> r_next r = Some (lenN (f_payload f)) ->
  settled (read_known cf r) (w ++ b).
Proof.
  intros K Hb Hf Hn. destruct Hf as (h3&h2&h1&h0&Hw&Hl). assert (Hf : frame_wire f w) by (exists h3, h2, h1, h0; auto).
  unfold read_known. rewrite Hb, Hn, Hw. cbn [List.app].
  replace (lenN (f_flag f :: h3 :: h2 :: h1 :: h0 :: f_payload f ++ b) <? lenN (f_payload f) + 5) with false
    by (unfold lenN; cbn [List.length]; rewrite app_length; lia).
  assert (E2 : dropN (5 + lenN (f_payload f)) (f_flag f :: h3 :: h2 :: h1 :: h0 :: f_payload f ++ b) = b).
  { change (f_flag f :: h3 :: h2 :: h1 :: h0 :: f_payload f ++ b) with ((f_flag f :: h3 :: h2 :: h1 :: h0 :: f_payload f) ++ b).
    replace (5 + lenN (f_payload f)) with (lenN (f_flag f :: h3 :: h2 :: h1 :: h0 :: f_payload f)) by (unfold lenN; cbn [List.length]; lia).
    apply dropN_app. }
  rewrite E2.
  match goal with |- context [read_frame cf ?p ?d ?x] => pose proof (base_frame cf p d x K) as Bf; destruct (read_frame cf p d x) as [[m| |e] r'] end; [|destruct Bf|exact I].
  cbn [settled]. destruct Bf as [B1 B2]. cbn in B1, B2. split; [exact B2|]. exists f, w. split; [exact Hf|]. rewrite B1, Hw. reflexivity.
Qed.
Lemma resume_settled {M} (cf : rconf M) r : rc_kind cf = RBase -> r_next r = None -> settled (read_resume cf r) (r_buf r).
Proof.
  intros K Hn. destruct (incomplete_dec (r_buf r)) as [(f&b&w&Hw&E)|Hi].
  - destruct (header_len f w b Hw) as (fl&h3&h2&h1&h0&rest&E'&Hl). unfold read_resume.
    rewrite (peek_some r fl h3 h2 h1 h0 rest) by congruence. rewrite E. apply (known_settled cf _ f); [exact K|reflexivity|exact Hw|cbn; congruence].
  - destruct (resume_waits cf r Hn Hi) as (r'&->&Eb&W). split; [exact Eb|exact W].
Qed.
Lemma first_settled {M} (cf : rconf M) r ch : rc_kind cf = RBase -> r_inv r -> settled (feed_first cf r ch) (r_buf r ++ ch).
Proof.
  intros K Hi. destruct (incomplete_dec (r_buf r ++ ch)) as [(f&b&w&Hw&E)|Hn].
  - unfold feed_first. set (r0 := mk_reader _ _ _ _ _). assert (E0 : r_buf r0 = r_buf r ++ ch) by reflexivity. assert (N0 : r_next r0 = r_next r) by reflexivity.
    clearbody r0. cbv zeta. rewrite <- E0 in *. destruct (r_buf r0) as [|x l] eqn:El.
    { destruct Hw as (h3&h2&h1&h0&->&_). discriminate E. }
    rewrite <- El in *. destruct (r_next r0) as [n|] eqn:En; [|now apply resume_settled].
    rewrite E. apply (known_settled cf r0 f); [exact K|exact E|exact Hw|]. rewrite En. f_equal.
    unfold r_inv in Hi. rewrite <- N0 in Hi. destruct Hi as (fl&g3&g2&g1&g0&rest&Er&->). rewrite Er in E0. cbn in E0.
    destruct (header_len f w b Hw) as (fl'&h3&h2&h1&h0&rest'&E'&Hl). rewrite Hl. rewrite E0, E' in E. now injection E as _ <- <- <- <- _.
  - destruct (first_waits cf r ch Hi Hn) as (r'&->&Eb&W). split; [exact Eb|exact W].
Qed.

(** Every event of [o] is received when what was received before holds only the [k] frames already given. *)
Definition lacking (k : nat) (got : bytes) (o : list recv) : Prop :=
  forall o1 x o2, o = o1 ++ x :: o2 -> forall fs tl, frames_of (got ++ List.concat (parts o1)) fs tl -> (List.length fs <= k)%nat.
Lemma lacking_nil k got : lacking k got [].
Proof. intros [|? ?] x o2 H; discriminate H. Qed.

Lemma rpump_lacking {M} (cf : rconf M) k : rc_kind cf = RBase -> forall evs p more got buf, settled p buf -> holds_rest k got buf ->
  let '(s, o) := rpump cf p more evs in
  lacking k got o /\ match s with RsMsg _ r _ _ => r_next r = None /\ holds_rest (S k) (got ++ List.concat (parts o)) (r_buf r) | _ => True end.
Proof.
  intro K. induction evs as [|x evs IH]; intros p more got buf Hs Hr; cbn [rpump]; destruct p as [m r|r|e r].
  - split; [apply lacking_nil|]. cbn in Hs. destruct Hs as [Hn (f&w&Hw&->)]. split; [exact Hn|]. cbn. rewrite app_nil_r. now apply (rest_frame k got f w).
  - destruct Hs as [Eb [_ Hi]]. rewrite Eb in Hi. destruct more; (split; [|exact I]); [|apply lacking_nil].
    intros o1 y o2 E fs tl Hf. destruct o1 as [|z o1]; [|destruct o1; discriminate E]. cbn in Hf. rewrite app_nil_r in Hf.
    rewrite (rest_incomplete k got buf fs tl Hr Hi Hf). lia.
  - split; [apply lacking_nil|exact I].
  - split; [apply lacking_nil|]. cbn in Hs. destruct Hs as [Hn (f&w&Hw&->)]. split; [exact Hn|]. cbn. rewrite app_nil_r. now apply (rest_frame k got f w).
  - destruct Hs as [Eb [Hv Hi]]. rewrite Eb in Hi. destruct more; [|split; [apply lacking_nil|exact I]].
    assert (Fst : forall o, (exists b mo, x = RReq b mo /\ lacking k (got ++ b) o) \/ o = [] -> lacking k got (x :: o)).
    { intros o Ho o1 y o2 E fs tl Hf. destruct o1 as [|z o1].
      - cbn in Hf. rewrite app_nil_r in Hf. rewrite (rest_incomplete k got buf fs tl Hr Hi Hf). lia.
      - injection E as <- E. destruct Ho as [(b&mo&->&Ho)| ->]; [|destruct o1; discriminate E].
        apply (Ho o1 y o2 E fs tl). cbn [parts flat_map part List.app List.concat] in Hf. now rewrite <- app_assoc. }
    destruct x as [b mo| | |e|]; try (split; [apply Fst; right; reflexivity|exact I]).
    specialize (IH (feed_first cf r b) mo (got ++ b) (buf ++ b)). rewrite <- Eb in IH at 1.
    specialize (IH (first_settled cf r b K Hv) (rest_more _ _ _ _ Hr)). destruct (rpump cf (feed_first cf r b) mo evs) as [s o]. destruct IH as [I1 I2].
    split; [apply Fst; left; exists b, mo; split; [reflexivity|exact I1]|]. destruct s; [|exact I|exact I]. cbn [parts flat_map part List.app List.concat].
    rewrite app_assoc. exact I2.
  - split; [apply lacking_nil|exact I].
Qed.

(** The state of the request stream after [got] was received and [k] messages were given. *)
Definition rq_state (q : rqpos) (got : bytes) (k : nat) : Prop :=
  match q with
  | RqStart _ => got = [] /\ k = O
  | RqYield r _ _ _ => r_next r = None /\ holds_rest k got (r_buf r)
  | RqEnd => True
  end.
Lemma rq_next_lacking {M} (cf : rconf M) cut q got k : rc_kind cf = RBase -> rq_state q got k ->
  let '(x, q', o) := rq_next cf cut q in
  lacking k got o /\ rq_state q' (got ++ List.concat (parts o)) (match x with PMsg _ => S k | _ => k end).
Proof.
  intros K Hq.
  assert (G : forall p more evs n buf, settled p buf -> holds_rest k got buf ->
    let '(x, q', o) := let (s, o) := rpump cf p more evs in
      match s with RsMsg m r more evs => (PMsg m, RqYield r more evs (S n), o) | RsErr e => (PExn e, RqEnd, o) | RsEnd => (PEnd, RqEnd, o) end in
    lacking k got o /\ rq_state q' (got ++ List.concat (parts o)) (match x with PMsg _ => S k | _ => k end)).
  { intros p more evs n buf Hs Hr. pose proof (rpump_lacking cf k K evs p more got buf Hs Hr) as R. destruct (rpump cf p more evs) as [s o].
    destruct R as [R1 R2]. destruct s; (split; [exact R1|]); [exact R2|exact I|exact I]. }
  destruct q as [evs|r more evs n|]; cbn [rq_next rq_state] in *.
  - destruct Hq as [-> ->]. apply (G _ _ _ _ []).
    + split; [reflexivity|]. split; [exact I|]. left. cbn. lia.
    + exists [], []. split; [reflexivity|]. split; [reflexivity|exact begun_nil].
  - destruct Hq as [Hn Hr]. destruct (match cut with Some k => Nat.eqb k n | None => false end).
    + split; [apply lacking_nil|exact I].
    + apply (G _ _ _ _ (r_buf r)); [now apply resume_settled|exact Hr].
  - split; [apply lacking_nil|exact I].
Qed.

(** ** Conversations *)

Definition level {A B} (t : list (devent A B)) : Prop := List.length (bodies (sent t)) = List.length (yielded t).
Definition turn {A B} (e : devent A B) : Prop := match e with DAsk | DYield _ => True | _ => False end.
(** After [got] was received and [k] messages were given: at every turn of [t], what was yielded has been sent, and what the method
    asks for is received only if it is lacking. *)
Definition prompt {A B} (got : bytes) (k : nat) (t : list (devent A B)) : Prop :=
  forall pre e post, t = pre ++ e :: post -> turn e ->
  level pre /\ (e = DAsk -> exists rs x post', post = map DRecv rs ++ DGive x :: post'
                              /\ lacking (k + List.length (given pre)) (got ++ List.concat (received pre)) rs).

Lemma given_app {A B} (t u : list (devent A B)) : given (t ++ u) = given t ++ given u.
Proof. apply flat_map_app. Qed.
Lemma received_app {A B} (t u : list (devent A B)) : received (t ++ u) = received t ++ received u.
Proof. apply flat_map_app. Qed.
Lemma yielded_app {A B} (t u : list (devent A B)) : yielded (t ++ u) = yielded t ++ yielded u.
Proof. apply flat_map_app. Qed.
Lemma level_app {A B} (t u : list (devent A B)) : level t -> level u -> level (t ++ u).
Proof. unfold level, bodies. intros H1 H2. rewrite sent_app, yielded_app, flat_map_app, !app_length. unfold bodies in *. lia. Qed.

Lemma app_split {X} : forall (a b c d : list X) x, a ++ b = c ++ x :: d ->
  (exists d', a = c ++ x :: d' /\ d = d' ++ b) \/ exists c', c = a ++ c' /\ b = c' ++ x :: d.
Proof.
  induction a as [|y a IH]; intros b c d x H; [right; now exists c|]. destruct c as [|z c].
  - injection H as <- <-. left. now exists a.
  - injection H as <- H. destruct (IH _ _ _ _ H) as [(d'&->&->)|(c'&->&->)]; [left; now exists d'|right; now exists c'].
Qed.

Lemma prompt_app {A B} got k (t u : list (devent A B)) : prompt got k t -> level t ->
  prompt (got ++ List.concat (received t)) (k + List.length (given t)) u -> prompt got k (t ++ u).
Proof.
  intros Ht Lt Hu pre e post E He. destruct (app_split _ _ _ _ _ E) as [(d'&->&->)|(c'&->&->)].
  - destruct (Ht pre e d' eq_refl He) as [L H]. split; [exact L|]. intro Ea. destruct (H Ea) as (rs&x&post'&->&Hl).
    exists rs, x, (post' ++ u). split; [now rewrite <- app_assoc|exact Hl].
  - destruct (Hu c' e post eq_refl He) as [L H]. split; [now apply level_app|]. intro Ea. destruct (H Ea) as (rs&x&post'&->&Hl).
    exists rs, x, post'. split; [reflexivity|]. rewrite received_app, concat_app, given_app, app_length, Nat.add_assoc, app_assoc. exact Hl.
Qed.
Lemma prompt_quiet {A B} got k (t : list (devent A B)) : Forall (fun e => ~ turn e) t -> prompt got k t.
Proof. intros H pre e post -> He. apply Forall_app in H. destruct H as [_ H]. inversion H; contradiction. Qed.
Lemma quiet_sends {A B} l : Forall (fun e => ~ @turn A B e) (map DSend l).
Proof. apply Forall_forall. intros e H. apply in_map_iff in H. destruct H as (x&<-&_). intros []. Qed.
Lemma quiet_recvs {A B} l : Forall (fun e => ~ @turn A B e) (map DRecv l).
Proof. apply Forall_forall. intros e H. apply in_map_iff in H. destruct H as (x&<-&_). intros []. Qed.

Lemma received_recv {A B} o : received (map (@DRecv A B) o) = parts o.
Proof. induction o as [|r o IH]; [reflexivity|]. cbn. f_equal. exact IH. Qed.
Lemma given_recv {A B} o : given (map (@DRecv A B) o) = [].
Proof. now induction o. Qed.
Lemma yielded_recv {A B} o : yielded (map (@DRecv A B) o) = [].
Proof. now induction o. Qed.
Lemma yielded_sends {A B} o : yielded (map (@DSend A B) o) = [].
Proof. now induction o. Qed.
Lemma given_sends {A B} o : given (map (@DSend A B) o) = [].
Proof. now induction o. Qed.
Lemma received_sends {A B} o : received (map (@DSend A B) o) = [].
Proof. now induction o. Qed.

(** The method asks. *)
Definition exchange {A B} (o : list recv) (x : pulled A) : list (devent A B) := DAsk :: map DRecv o ++ [DGive x].
Lemma exchange_prompt {A B} got k o (x : pulled A) : lacking k got o -> @prompt A B got k (exchange o x).
Proof.
  intros H pre e post E He. destruct pre as [|y pre].
  - injection E as <- <-. split; [reflexivity|]. intros _. exists o, x, []. split; [reflexivity|]. cbn. now rewrite Nat.add_0_r, app_nil_r.
  - exfalso. injection E as <- E.
    assert (Q : Forall (fun e => ~ @turn A B e) (map DRecv o ++ [DGive x])) by (apply Forall_app; split; [apply quiet_recvs|constructor; [intros []|constructor]]).
    rewrite E in Q. apply Forall_app in Q. destruct Q as [_ Q]. inversion Q; contradiction.
Qed.
Lemma exchange_level {A B} o (x : pulled A) : @level A B (exchange o x).
Proof.
  unfold level, exchange. rewrite sent_ask, sent_app, sent_recv. change (DAsk :: ?u) with ([DAsk] ++ u). rewrite !yielded_app, yielded_recv. reflexivity.
Qed.
Lemma exchange_received {A B} o (x : pulled A) : received (@exchange A B o x) = parts o.
Proof.
  unfold exchange. change (@DAsk A B :: map DRecv o ++ [DGive x]) with ([@DAsk A B] ++ map DRecv o ++ [DGive x]).
  rewrite !received_app, received_recv. cbn. apply app_nil_r.
Qed.
Lemma exchange_given {A B} o (x : pulled A) : List.length (given (@exchange A B o x)) = match x with PMsg _ => 1%nat | _ => O end.
Proof.
  unfold exchange. change (@DAsk A B :: map DRecv o ++ [DGive x]) with ([@DAsk A B] ++ map DRecv o ++ [DGive x]).
  rewrite !given_app, given_recv. destruct x; reflexivity.
Qed.
Lemma exchange_cons {A B} o (x : pulled A) t : @DAsk A B :: map DRecv o ++ DGive x :: t = exchange o x ++ t.
Proof. unfold exchange. cbn. now rewrite <- app_assoc. Qed.

(** The method yields, and the loop body gets through. *)
Lemma yield_prompt {A B} got k b l : @prompt A B got k (DYield b :: map DSend l).
Proof.
  intros pre e post E He. destruct pre as [|y pre]; [injection E as <- <-; split; [reflexivity|discriminate]|].
  exfalso. injection E as <- E. pose proof (@quiet_sends A B l) as Q. rewrite E in Q. apply Forall_app in Q. destruct Q as [_ Q]. inversion Q; contradiction.
Qed.

Lemma drive_prompt {A B} o seen p name (enc : B -> res bytes) z (cf : rconf A) cut : rc_kind cf = RBase -> forall (g : prog A B unit) q rs s got k,
  rq_state q got k -> let '(_, _, _, t) := drive_t (stream_body o seen p name enc z) cf cut g q rs s in prompt got k t.
Proof.
  intro K. induction g as [r|i|f IH|b c g IH|op g IH|op g IH]; intros q rs s got k Hq; cbn [drive_t]; try (apply prompt_quiet; constructor); try (apply IH; exact Hq).
  - pose proof (rq_next_lacking cf cut q got k K Hq) as N. destruct (rq_next cf cut q) as [[x q'] o0]. destruct N as [N1 N2].
    specialize (IH x q' rs s _ _ N2). destruct (drive_t _ cf cut (f x) q' rs s) as [[[s' rs'] e] t]. rewrite exchange_cons.
    apply prompt_app; [now apply exchange_prompt|apply exchange_level|]. rewrite exchange_received, exchange_given. destruct x; rewrite ?Nat.add_0_r, ?Nat.add_1_r; exact IH.
  - pose proof (body_sends o seen p name enc z s rs b) as Hb. destruct (stream_body o seen p name enc z s rs b) as [s' [i|]]; destruct Hb as (l&G&Hl).
    + rewrite (grows_newly _ _ _ G). apply yield_prompt.
    + specialize (IH q rs s' got k Hq). destruct (drive_t _ cf cut g q rs s') as [[[s'' rs'] e] t]. rewrite (grows_newly _ _ _ G).
      change (DYield b :: map DSend l ++ t) with ((DYield b :: map DSend l) ++ t). apply prompt_app; [apply yield_prompt| |].
      * unfold level. rewrite sent_yield, sent_map, (Hl eq_refl). change (DYield b :: map DSend l) with ([@DYield A B b] ++ map DSend l).
        rewrite yielded_app, yielded_sends. reflexivity.
      * change (DYield b :: map DSend l) with ([@DYield A B b] ++ map DSend l). rewrite received_app, received_sends, given_app, given_sends.
        cbn. rewrite app_nil_r, Nat.add_0_r. exact IH.
Qed.
Lemma run_fn_prompt {A B R} (cf : rconf A) cut : rc_kind cf = RBase -> forall (g : prog A Empty_set R) q rs got k,
  rq_state q got k -> let '(_, _, t) := @run_fn_t A B R cf cut g q rs in prompt got k t /\ level t.
Proof.
  intro K. induction g as [r|i|f IH|b c g IH|op g IH|op g IH]; intros q rs got k Hq; cbn [run_fn_t];
    try (split; [apply prompt_quiet; constructor|reflexivity]); try (apply IH; exact Hq).
  - pose proof (rq_next_lacking cf cut q got k K Hq) as N. destruct (rq_next cf cut q) as [[x q'] o0]. destruct N as [N1 N2].
    specialize (IH x q' rs _ _ N2). destruct (run_fn_t cf cut (f x) q' rs) as [[s' rs'] t]. destruct IH as [I1 I2]. rewrite exchange_cons. split.
    + apply prompt_app; [now apply exchange_prompt|apply exchange_level|]. rewrite exchange_received, exchange_given. destruct x; rewrite ?Nat.add_0_r, ?Nat.add_1_r; exact I1.
    + apply level_app; [apply exchange_level|exact I2].
  - destruct b.
Qed.
Lemma consume_quiet {A B} (cf : rconf A) cut q : exists o, snd (@consume_single_t A B cf cut q) = map DRecv o.
Proof.
  unfold consume_single_t. destruct (rq_next cf cut q) as [[x q'] o]. destruct x; [|exists o; reflexivity..].
  destruct (rq_next cf cut q') as [[y q''] o']. now exists (o ++ o').
Qed.

(** A method without request stream. *)
Lemma sent_closed {A B} (t : list (devent Empty_set B)) : sent (flat_map (@of_closed A B) t) = sent t.
Proof. induction t as [|e t IH]; [reflexivity|]. cbn [flat_map]. rewrite sent_app, IH. destruct e; reflexivity. Qed.
Lemma closed_prompt {A B} got k got' k' (t : list (devent Empty_set B)) : prompt got k t -> prompt got' k' (flat_map (@of_closed A B) t).
Proof.
  intros H pre e post E He.
  assert (X : forall t pre, flat_map (@of_closed A B) t = pre ++ e :: post -> exists b pre0 post0, e = DYield b /\ t = pre0 ++ DYield b :: post0
             /\ bodies (sent pre0) = bodies (sent pre) /\ yielded pre0 = yielded pre).
  { clear -He. induction t as [|y t IH]; intros pre E; [destruct pre; discriminate E|]. cbn [flat_map] in E.
    destruct y as [|r|x|b|ev]; cbn [of_closed List.app] in E;
      try (destruct (IH pre E) as (b&pre0&post0&E1&->&E2&E3); eexists b, (_ :: pre0), post0; split; [exact E1|]; split; [reflexivity|]; split; assumption).
    - destruct pre as [|z pre]; injection E as <- E.
      + exists b, [], t. repeat split.
      + destruct (IH pre E) as (b'&pre0&post0&E1&->&E2&E3). exists b', (DYield b :: pre0), post0. split; [exact E1|]. split; [reflexivity|]. split; [exact E2|].
        unfold yielded in *. cbn. f_equal. exact E3.
    - destruct pre as [|z pre]; injection E as <- E; [destruct He|].
      destruct (IH pre E) as (b'&pre0&post0&E1&->&E2&E3). exists b', (DSend ev :: pre0), post0. split; [exact E1|]. split; [reflexivity|]. split; [|exact E3].
      change (DSend ev :: pre0) with ([@DSend Empty_set B ev] ++ pre0). change (DSend ev :: pre) with ([@DSend A B ev] ++ pre). rewrite !sent_app. unfold bodies in *.
      rewrite !flat_map_app. f_equal. exact E2. }
  destruct (X t pre E) as (b&pre0&post0&->&Et&E2&E3). destruct (H pre0 (DYield b) post0 Et I) as [L _]. split; [|discriminate].
  unfold level in *. now rewrite <- E2, <- E3.
Qed.

Lemma loop_prompt {A B} o seen mon p name (enc : B -> res bytes) z (cf : rconf A) cut (g : prog A B unit) q rs s got k : rc_kind cf = RBase -> rq_state q got k ->
  let '(s', _, _, t) := stream_loop_t o seen mon p name enc z cf cut g q rs s in prompt got k t /\ grows (ls_a s) (ls_a s') (sent t).
Proof.
  intros K Hq. unfold stream_loop_t. pose proof (drive_prompt o seen p name enc z cf cut K g q rs s got k Hq) as P.
  pose proof (drive_sent o seen p name enc z cf cut g q rs s) as G. destruct (drive_t _ cf cut g q rs s) as [[[s' rs'] e] t].
  destruct mon; [split; assumption|]. destruct e; split; assumption.
Qed.
Lemma run_fn_silent {A B R} (cf : rconf A) cut (g : prog A Empty_set R) : forall q rs, let '(_, _, t) := @run_fn_t A B R cf cut g q rs in sent t = [].
Proof.
  induction g as [r|i|f IH|b c g IH|op g IH|op g IH]; intros q rs; cbn [run_fn_t]; try reflexivity; try apply IH.
  - destruct (rq_next cf cut q) as [[x q'] o0]. specialize (IH x q' rs). destruct (run_fn_t cf cut (f x) q' rs) as [[s' rs'] t].
    rewrite sent_ask, sent_app, sent_recv. exact IH.
  - destruct b.
Qed.
Lemma stream_try_prompt {A B} (ap : app A B) en p ep k req z cx s :
  let '(_, (s', _, _), t) := stream_try_t ap en p ep k req z cx s in prompt [] 0 t /\ grows (ls_a s) (ls_a s') (sent t).
Proof.
  assert (G0 : forall s, grows (ls_a s) (ls_a s) []) by (intro; unfold grows; now rewrite app_nil_r).
  unfold stream_try_t. destruct req as [rz|]; [|split; [apply prompt_quiet; constructor|apply G0]]. cbv zeta.
  set (cf := mk_rconf RBase rz (ap_max ap) (k_dec_req k)). assert (K : rc_kind cf = RBase) by reflexivity. clearbody cf.
  assert (One : forall b rs t, prompt [] 0 t -> level t -> sent t = [] ->
    let '(x, t') := let '(s', rs', i, t') := stream_loop_t (en_send en) (fun _ => false) None p (k_name k) (k_enc_res k) z cf (en_cut en) (@single_response A B b) RqEnd rs s in (s', rs', i, t ++ t') in
    let '(s', _, _) := x in prompt [] 0 t' /\ grows (ls_a s) (ls_a s') (sent t')).
  { intros b rs t P L S.
    pose proof (loop_prompt (en_send en) (fun _ => false) None p (k_name k) (k_enc_res k) z cf (en_cut en) (@single_response A B b) RqEnd rs s
                  ([] ++ List.concat (received t)) (0 + List.length (given t)) K I) as Q.
    destruct (stream_loop_t _ _ _ _ _ _ _ _ _ _ _ _ _) as [[[s' rs'] i] t']. destruct Q as [Q1 Q2]. split; [now apply prompt_app|]. rewrite sent_app, S. exact Q2. }
  destruct ep as [m f|m f|m f|m f].
  - destruct (@consume_quiet A B cf (en_cut en) (RqStart (en_recv en))) as [o Ho]. destruct (consume_single_t cf (en_cut en) (RqStart (en_recv en))) as [r t].
    cbn [snd] in Ho. subst t. destruct r as [a|e]; [|split; [apply prompt_quiet, quiet_recvs|rewrite sent_recv; apply G0]].
    destruct (run_fn (f a cx) ([], None) rs_new) as [[b|i] rs]; [|split; [apply prompt_quiet, quiet_recvs|rewrite sent_recv; apply G0]].
    specialize (One b rs (map DRecv o) (prompt_quiet _ _ _ (quiet_recvs o))). unfold level in One. rewrite sent_recv, yielded_recv in One. specialize (One eq_refl eq_refl).
    destruct (stream_loop_t _ _ _ _ _ _ _ _ _ _ _ _ _) as [[[s' rs'] i] t']. exact One.
  - pose proof (@run_fn_prompt A B B cf (en_cut en) K (f cx) (RqStart (en_recv en)) rs_new [] 0%nat (conj eq_refl eq_refl)) as P.
    pose proof (@run_fn_silent A B B cf (en_cut en) (f cx) (RqStart (en_recv en)) rs_new) as S.
    destruct (run_fn_t cf (en_cut en) (f cx) (RqStart (en_recv en)) rs_new) as [[[b|i] rs] t]; destruct P as [P L]; [|split; [exact P|rewrite S; apply G0]].
    specialize (One b rs t P L S). destruct (stream_loop_t _ _ _ _ _ _ _ _ _ _ _ _ _) as [[[s' rs'] i] t']. exact One.
  - destruct (@consume_quiet A B cf (en_cut en) (RqStart (en_recv en))) as [o Ho]. destruct (consume_single_t cf (en_cut en) (RqStart (en_recv en))) as [r t].
    cbn [snd] in Ho. subst t. destruct r as [a|e]; [|split; [apply prompt_quiet, quiet_recvs|rewrite sent_recv; apply G0]].
    match goal with |- context [stream_loop_t ?o ?se ?mo ?p ?n ?en ?z ?c ?cu ?g ?q ?r ?s] => pose proof (loop_prompt o se mo p n en z c cu g q r s [] 0 eq_refl I) as L;
      destruct (stream_loop_t o se mo p n en z c cu g q r s) as [[[s' rs'] i'] t'] end.
    destruct L as [L1 L2]. split.
    + apply prompt_app; [apply prompt_quiet, quiet_recvs|unfold level; now rewrite sent_recv, yielded_recv|]. eapply closed_prompt. exact L1.
    + rewrite sent_app, sent_recv, sent_closed. exact L2.
  - pose proof (loop_prompt (en_send en) (fun _ => false) None p (k_name k) (k_enc_res k) z cf (en_cut en) (f cx) (RqStart (en_recv en)) rs_new s [] 0 K (conj eq_refl eq_refl)) as L.
    destruct (stream_loop_t _ _ _ _ _ _ _ _ _ _ _ _ _) as [[[s' rs'] i'] t']. exact L.
Qed.

Lemma finally_grows o sc p name z s rs i a : exists l, grows a (fst (stream_finally o sc p name z s rs i a)) l.
Proof.
  assert (R : forall a, grows a a []) by (intro; unfold grows; now rewrite app_nil_r).
  assert (Sd : forall ev a, exists l, grows a (fst (send o ev a)) l).
  { intros ev a0. pose proof (send_grows o ev a0) as G. destruct (send o ev a0) as [a' [u|x]]; eexists; exact G. }
  assert (Bi : forall X Y (m : io X) (f : X -> io Y), (forall a, exists l, grows a (fst (m a)) l) -> (forall x a, exists l, grows a (fst (f x a)) l) ->
    forall a, exists l, grows a (fst (io_bind m f a)) l).
  { intros X Y m f Hm Hf a0. unfold io_bind. destruct (Hm a0) as [l1 G1]. destruct (m a0) as [a1 [x|x]]; [|exists l1; exact G1].
    destruct (Hf x a1) as [l2 G2]. exists (l1 ++ l2). unfold grows in *. cbn [fst] in G1. now rewrite G2, G1, app_assoc. }
  assert (Re : forall X (r : res X) a, exists l, grows a (fst (io_res r a)) l) by (intros X [x|e] a0; exists []; apply R).
  unfold stream_finally. revert a. apply Bi; [apply Re|]. intro em. apply Bi.
  { intro a0. destruct (ls_sent s); [exists []; apply R|]. unfold send_stream_headers. revert a0. apply Bi; [apply Re|]. intros hs. apply Sd. }
  intros _. apply Bi.
  { destruct em; [apply Sd|]. apply Bi; [apply Sd|]. intros _. apply Bi; [apply Re|]. intros hs. apply Sd. }
  intros _ a0. exists []. destruct (match i with Some (IExn e) => Some e | _ => None end) as [e|]; [destruct (is_connect e); apply R|].
  destruct i as [[e|]|]; apply R.
Qed.
Lemma prompt_sends {A B} (l : list aevent) : @prompt A B [] 0 (map DSend l).
Proof. apply prompt_quiet, quiet_sends. Qed.

(** Sends at the end break nothing: no turn follows. *)
Lemma prompt_last {A B} got k (t u : list (devent A B)) : prompt got k t -> Forall (fun e => ~ turn e) u -> prompt got k (t ++ u).
Proof.
  intros Ht Q pre e post E He. destruct (app_split _ _ _ _ _ E) as [(d'&->&->)|(c'&->&->)].
  - destruct (Ht pre e d' eq_refl He) as [L H]. split; [exact L|]. intro Ea. destruct (H Ea) as (rs&x&post'&->&Hl).
    exists rs, x, (post' ++ u). split; [now rewrite <- app_assoc|exact Hl].
  - exfalso. apply Forall_app in Q. destruct Q as [_ Q]. inversion Q; contradiction.
Qed.

Lemma conversation_prompt {A B} (ap : app A B) now sc en :
  prompt [] 0 (snd (asgi_conversation ap now sc en)) /\ sent (snd (asgi_conversation ap now sc en)) = ar_events (asgi_call ap now sc en).
Proof.
  rewrite <- conversation_same. unfold asgi_conversation.
  assert (Pl : forall o (r : asgi_result A), prompt [] 0 (map (@DRecv A B) o ++ map (@DSend A B) (ar_events r))
                 /\ sent (map (@DRecv A B) o ++ map (@DSend A B) (ar_events r)) = ar_events r).
  { intros o r. split; [apply prompt_last; [apply prompt_quiet, quiet_recvs|apply quiet_sends]|]. rewrite sent_app, sent_recv. apply sent_map. }
  destruct (open_request ap now sc) as [[[[ep hs] p] cx]|e]; [|apply (Pl [])]. destruct (select_codec ap sc ep hs p) as [[params k]|e]; [|apply (Pl [])].
  assert (H : prompt [] 0 (snd (handle_stream_t ap en p ep k hs cx)) /\ sent (snd (handle_stream_t ap en p ep k hs cx)) = ar_events (fst (handle_stream_t ap en p ep k hs cx))).
  { unfold handle_stream_t. destruct (negotiate_stream_compression p hs (ap_comps ap)) as [req z].
    pose proof (stream_try_prompt ap en p ep k req z cx (mk_lst (mk_ast 0 []) false 0)) as T.
    destruct (stream_try_t _ _ _ _ _ _ _ _ _) as [[inv [[s rs] i]] t]. destruct T as [T1 T2]. cbn [ls_a] in T2.
    destruct (finally_grows (en_send en) (ap_sc ap) p (k_name k) z s rs i (ls_a s)) as [l G].
    destruct (stream_finally _ _ _ _ _ _ _ _ _) as [a r]. cbn [fst snd ar_events] in *. rewrite (grows_newly _ _ _ G). split.
    - apply prompt_last; [exact T1|apply quiet_sends].
    - rewrite sent_app, sent_map. unfold grows in *. cbn in T2. now rewrite G, T2. }
  destruct ep; [destruct p|..]; try exact H. apply Pl.
Qed.
