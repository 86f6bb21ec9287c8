(** Lemmas on conversations on the WSGI server. *)
From Coq Require Import List NArith ZArith Bool String Lia ZifyBool ZifyNat.
From Verif Require Import MBase MPyStr MHeaders LBase MWire MTimeout MEnvelope SEnvelope LEnvelope MProtocol MClient MServer MWsgi SServer LRequest LIter LDuplex MTalk STalk.
Import ListNotations.
Local Open Scope N_scope.

(** ** The request stream and the list of what it yields *)

Lemma chunks_fuel : forall f g inp, (input_fuel inp <= f)%nat -> (input_fuel inp <= g)%nat -> read_chunks f inp = read_chunks g inp.
Proof.
  induction f as [|f IH]; intros g inp Hf Hg; [unfold input_fuel in Hf; lia|]. destruct g as [|g]; [unfold input_fuel in Hg; lia|].
  cbn [read_chunks]. destruct (wread 4096 inp) as [[[|x b]|e] r] eqn:W; try reflexivity.
  apply wread_available in W; [|lia|discriminate]. destruct W as (_&_&_&W). rewrite (IH g r) by lia. reflexivity.
Qed.

(** What is still to come when [inp] is left to read. *)
Definition wcome {M} (cf : rconf M) (p : pause M) (inp : list rd) : pulls M :=
  let (chunks, fin) := read_chunks (input_fuel inp) inp in
  let (ms, e) := remaining cf p chunks in
  (ms, match e with Some x => Some x | None => fin end).

Lemma tpump_next {M} (cf : rconf M) : forall fuel inp p, (input_fuel inp <= fuel)%nat ->
  pull_next (wcome cf p inp) = let '(s, inp', _) := tpump cf fuel p inp in
                               match s with
                               | TsMsg m r => (PMsg m, wcome cf (read_resume cf r) inp')
                               | TsErr e => (PExn e, ([], None))
                               | TsEnd => (PEnd, ([], None))
                               end.
Proof.
  induction fuel as [|f IH]; intros inp p Hf; [unfold input_fuel in Hf; lia|].
  destruct p as [m r|r|e r]; cbn [tpump].
  - unfold wcome. destruct (read_chunks (input_fuel inp) inp) as [ch fin]. rewrite remaining_msg.
    destruct (remaining cf (read_resume cf r) ch) as [ms e]. reflexivity.
  - unfold wcome. rewrite (chunks_fuel _ (S f) inp) by lia. cbn [read_chunks].
    destruct (wread 4096 inp) as [[[|x b]|e] inp1] eqn:W; try reflexivity.
    apply wread_available in W; [|lia|discriminate]. destruct W as (_&_&_&W).
    specialize (IH inp1 (feed_first cf r (x :: b)) ltac:(lia)). unfold wcome in IH at 1. rewrite (chunks_fuel _ f inp1) in IH by lia.
    destruct (read_chunks f inp1) as [ch fin]. rewrite remaining_cons.
    etransitivity; [exact IH|]. destruct (tpump cf f (feed_first cf r (x :: b)) inp1) as [[s inp'] o]. reflexivity.
  - unfold wcome. destruct (read_chunks (input_fuel inp) inp) as [ch fin]. reflexivity.
Qed.

Definition tq_rest {M} (cf : rconf M) (q : tqpos) (inp : list rd) : pulls M :=
  match q with
  | TqStart => wcome cf (YEnd (reader_new None)) inp
  | TqYield r => wcome cf (read_resume cf r) inp
  | TqEnd => ([], None)
  end.
Lemma tq_next_rest {M} (cf : rconf M) q inp :
  let '(x, q', inp', _) := tq_next cf q inp in pull_next (tq_rest cf q inp) = (x, tq_rest cf q' inp').
Proof.
  assert (G : forall p, let '(x, q', inp', _) := let '(s, inp', o) := tpump cf (input_fuel inp) p inp in
      match s with TsMsg m r => (PMsg m, TqYield r, inp', o) | TsErr e => (PExn e, TqEnd, inp', o) | TsEnd => (PEnd, TqEnd, inp', o) end in
    pull_next (wcome cf p inp) = (x, tq_rest cf q' inp')).
  { intro p. rewrite (tpump_next cf (input_fuel inp) inp p) by lia. destruct (tpump cf (input_fuel inp) p inp) as [[[m r|e|] inp'] o]; reflexivity. }
  destruct q; [apply G|apply G|reflexivity].
Qed.
Lemma tq_start {A B} (ap : app A B) (k : codec A B) rz q :
  tq_rest (mk_rconf RBase rz (ap_max ap) (k_dec_req k)) TqStart (wq_input q) = wsgi_request_stream ap k rz q.
Proof.
  cbn [tq_rest]. unfold wsgi_request_stream, wcome, wsgi_body. destruct (read_chunks _ _) as [chunks fin]. unfold remaining. cbn [drain].
  destruct (feed_all _ _ chunks) as [[ms e] r]. reflexivity.
Qed.

(** ** The conversation and [wsgi_call] *)

Lemma run_fn_w_same {A B R} (cf : rconf A) (g : prog A Empty_set R) : forall q inp rs,
  let '(r, rs', _, _) := @run_fn_w A B R cf g q inp rs in (r, rs') = run_fn g (tq_rest cf q inp) rs.
Proof.
  induction g as [r|i|k IH|b c g IH|op g IH|op g IH]; intros q inp rs; cbn [run_fn_w run_fn]; try reflexivity; try apply IH.
  - pose proof (tq_next_rest cf q inp) as N. destruct (tq_next cf q inp) as [[[x q'] inp'] o]. rewrite N.
    specialize (IH x q' inp' rs). destruct (run_fn_w cf (k x) q' inp' rs) as [[[r rs'] inp''] t]. exact IH.
  - destruct b.
Qed.
Lemma drive_w_same {A B} body (cf : rconf A) (g : prog A B unit) : forall q inp rs s,
  let '(s', rs', e, _, _) := drive_w body cf g q inp rs s in (s', rs', e) = drive body g (tq_rest cf q inp) rs s.
Proof.
  induction g as [r|i|k IH|b c g IH|op g IH|op g IH]; intros q inp rs s; cbn [drive_w drive]; try reflexivity; try apply IH.
  - pose proof (tq_next_rest cf q inp) as N. destruct (tq_next cf q inp) as [[[x q'] inp'] o]. rewrite N.
    specialize (IH x q' inp' rs s). destruct (drive_w body cf (k x) q' inp' rs s) as [[[[s' rs'] e] inp''] t]. exact IH.
  - destruct (body s rs b) as [s' [i|]]; [reflexivity|]. specialize (IH q inp rs s'). destruct (drive_w body cf g q inp rs s') as [[[[s'' rs'] e] inp'] t]. exact IH.
Qed.
Lemma consume_w_same {A} (cf : rconf A) inp : let '(r, _, _) := consume_single_w cf inp in r = consume_single_request (tq_rest cf TqStart inp).
Proof.
  unfold consume_single_w. pose proof (tq_next_rest cf TqStart inp) as N. destruct (tq_next cf TqStart inp) as [[[x q'] inp'] o].
  destruct (tq_rest cf TqStart inp) as [ms e]. destruct x as [a| |e'].
  - destruct ms as [|m ms]; [destruct e; discriminate N|]. injection N as -> N. pose proof (tq_next_rest cf q' inp') as N'.
    destruct (tq_next cf q' inp') as [[[y q''] inp''] o']. rewrite <- N in N'.
    destruct ms as [|m2 ms]; [|injection N' as <- _; reflexivity]. destruct e as [e|]; injection N' as <- _; reflexivity.
  - destruct ms as [|m ms]; [|discriminate N]. destruct e; [discriminate N|reflexivity].
  - destruct ms as [|m ms]; [|discriminate N]. destruct e; [|discriminate N]. injection N as -> _. reflexivity.
Qed.
Lemma run_w_same {A B} (ap : app A B) p ep (k : codec A B) z rz cx q :
  let '(inv, x, _, _) := wsgi_run_t p ep k z (mk_rconf RBase rz (ap_max ap) (k_dec_req k)) cx (wq_input q) in
  (inv, x) = wsgi_run p ep k z (wsgi_request_stream ap k rz q) cx.
Proof.
  rewrite <- tq_start. set (cf := mk_rconf RBase rz (ap_max ap) (k_dec_req k)). unfold wsgi_run_t, wsgi_run. cbv zeta.
  destruct ep as [m f|m f|m f|m f].
  - pose proof (consume_w_same cf (wq_input q)) as C. destruct (consume_single_w cf (wq_input q)) as [[r inp] o]. rewrite <- C.
    destruct r as [a|e]; [|reflexivity]. destruct (run_fn (f a cx) ([], None) rs_new) as [[b|i] rs]; [|reflexivity].
    match goal with |- context [drive_w ?b ?c ?g ?q ?i ?r ?s] => pose proof (drive_w_same b c g q i r s) as D; destruct (drive_w b c g q i r s) as [[[[s' rs'] e] inp'] t] end.
    now rewrite D.
  - pose proof (@run_fn_w_same A B B cf (f cx) TqStart (wq_input q) rs_new) as C. destruct (run_fn_w cf (f cx) TqStart (wq_input q) rs_new) as [[[r rs] inp] o].
    rewrite <- C. destruct r as [b|i]; [|reflexivity].
    match goal with |- context [drive_w ?b ?c ?g ?q ?i ?r ?s] => pose proof (drive_w_same b c g q i r s) as D; destruct (drive_w b c g q i r s) as [[[[s' rs'] e] inp'] t] end.
    now rewrite D.
  - pose proof (consume_w_same cf (wq_input q)) as C. destruct (consume_single_w cf (wq_input q)) as [[r inp] o]. rewrite <- C.
    destruct r as [a|e]; [|reflexivity].
    match goal with |- context [drive_w ?b ?c ?g ?q ?i ?r ?s] => pose proof (drive_w_same b c g q i r s) as D; destruct (drive_w b c g q i r s) as [[[[s' rs'] e] inp'] t] end.
    now rewrite D.
  - match goal with |- context [drive_w ?b ?c ?g ?q ?i ?r ?s] => pose proof (drive_w_same b c g q i r s) as D; destruct (drive_w b c g q i r s) as [[[[s' rs'] e] inp'] t] end.
    now rewrite D.
Qed.

(** What draining raises is the only thing that [draining] changes. *)
Definition set3 (a b c : option exn) (i : nat) : option exn := match i with O => a | 1%nat => b | _ => c end.
Definition on_http1 (q : wsgi_request) : bool := startswith (lit "HTTP/1") (env_default q "SERVER_PROTOCOL" []).
Lemma stream_error_drain {A B} (ap : app A B) q d d' p name z (inv : list (invoked A)) rs ev e : d O = d' O ->
  wsgi_stream_error ap (draining q d) p name z inv rs ev e = wsgi_stream_error ap (draining q d') p name z inv rs ev e.
Proof. intro H. unfold wsgi_stream_error, MWsgi.drain. cbn [wq_drain draining]. rewrite H. reflexivity. Qed.
Lemma call_error_drain {A} q d d' (inv : list (invoked A)) ev e ctx : d 1%nat = d' 1%nat ->
  wsgi_call_error (draining q d) inv ev e ctx = wsgi_call_error (draining q d') inv ev e ctx.
Proof. intro H. unfold wsgi_call_error, MWsgi.drain. cbn [wq_drain draining]. rewrite H. reflexivity. Qed.
Lemma stream_end_drain {A B} (ap : app A B) q d d' p z (inv : list (invoked A)) rs ev i : d 2%nat = d' 2%nat ->
  response_stream_end ap (draining q d) p z inv rs ev i = response_stream_end ap (draining q d') p z inv rs ev i.
Proof. intro H. unfold response_stream_end, MWsgi.drain. cbn [wq_drain draining]. rewrite H. reflexivity. Qed.

Lemma stream_w_same {A B} (ap : app A B) q p hs ep cx : exists d0 d2, forall d1,
  let '(r, _, _) := wsgi_stream_t ap q p hs ep cx in r = wsgi_stream ap (draining q (set3 d0 d1 d2)) p hs ep cx.
Proof.
  unfold wsgi_stream_t, wsgi_stream. destruct (negotiate_stream_compression p hs (ap_comps ap)) as [req z].
  destruct (dget (ap_codecs ap) _) as [k|]; [|exists None, None; reflexivity]. cbv zeta.
  assert (Er : forall inv rs ev e inp t, exists d0 d2, forall d1, let '(r, _, _) :=
     let '(d, inp, o) := drain_body q inp in
     let '(_, _, ev', _) := wsgi_stream_error ap (draining q (fun _ => d)) p (k_name k) z inv rs ev e in
     (@inl _ (wsgi_result A) (wsgi_stream_error ap (draining q (fun _ => d)) p (k_name k) z inv rs ev e), inp, t ++ map TRead o ++ @wnewly A B ev ev') in
     r = inl (wsgi_stream_error ap (draining q (set3 d0 d1 d2)) p (k_name k) z inv rs ev e)).
  { intros. destruct (drain_body q inp) as [[d inp'] o]. exists d, None. intro d1.
    rewrite (stream_error_drain ap q (set3 d d1 None) (fun _ => d)) by reflexivity.
    destruct (wsgi_stream_error ap (draining q (fun _ => d)) p (k_name k) z inv rs ev e) as [[[? ?] ?] ?]. reflexivity. }
  destruct req as [rz|]; [|apply Er].
  pose proof (run_w_same ap p ep k z rz cx q) as R. destruct (wsgi_run_t p ep k z _ cx (wq_input q)) as [[[inv [[s rs] e]] inp] t].
  assert (R' : forall d, wsgi_run p ep k z (wsgi_request_stream ap k rz (draining q d)) cx = (inv, (s, rs, e))) by (intro d; symmetry; exact R).
  destruct (ws_started s) eqn:Es.
  - destruct (match loop_interrupt e with Some (IExn _) => drain_body q inp | _ => (None, inp, []) end) as [[d inp'] o].
    exists None, d. intro d1. rewrite R', Es. reflexivity.
  - destruct (loop_interrupt e) as [[x|]|] eqn:El.
    + destruct (Er inv rs (ws_ev s) x inp t) as (d0&d2&H). exists d0, d2. intro d1. rewrite R', Es, El. apply H.
    + exists None, None. intro d1. now rewrite R', Es, El.
    + destruct (end_response (ap_sc ap) p z (rs_t rs) None) as [fin|x] eqn:E.
      * exists None, None. intro d1. now rewrite R', Es, El, E.
      * destruct (Er inv rs (ws_ev s ++ [WStart (lit "200 OK") (stream_headers p (k_name k) (z_name z) rs)]) x inp
                    (t ++ wnewly (ws_ev s) (ws_ev s ++ [WStart (lit "200 OK") (stream_headers p (k_name k) (z_name z) rs)]))) as (d0&d2&H).
        exists d0, d2. intro d1. rewrite R', Es, El, E. apply H.
Qed.

Lemma talk_same {A B} (ap : app A B) now q : exists d, fst (fst (wsgi_talk ap now q)) = wsgi_call ap now (draining q d).
Proof.
  unfold wsgi_talk, wsgi_call.
  assert (O : forall d, wsgi_open_request ap now (draining q d) = wsgi_open_request ap now q) by reflexivity.
  cbv zeta. destruct (wsgi_open_request ap now q) as [[[[ep hs] p] cx]|e].
  2:{ destruct (drain_body q (wq_input q)) as [[d inp'] o]. exists (fun _ => d). rewrite O. reflexivity. }
  assert (G : forall (r : whandled A + wsgi_result A) inp (t : list (tevent A B)) d0 d2, exists d1,
    fst (fst match r with
        | inr r => (r, inp, t)
        | inl (inv, rs, ev, None) => (mk_wr inv ev WReturn, inp, t)
        | inl (inv, rs, ev, Some ICancel) => (mk_wr inv ev WBase, inp, t)
        | inl (inv, rs, ev, Some (IExn e)) =>
            let '(d, inp, o) := drain_body q inp in
            (wsgi_call_error (draining q (fun _ => d)) inv ev e (Some rs), inp,
             t ++ map TRead o ++ wnewly ev (wr_events (wsgi_call_error (draining q (fun _ => d)) inv ev e (Some rs))))
        end)
    = match r with
      | inr r => r
      | inl (inv, rs, ev, None) => mk_wr inv ev WReturn
      | inl (inv, rs, ev, Some ICancel) => mk_wr inv ev WBase
      | inl (inv, rs, ev, Some (IExn e)) => wsgi_call_error (draining q (set3 d0 d1 d2)) inv ev e (Some rs)
      end).
  { intros [[[[inv rs] ev] [[e|]|]]|r] inp t d0 d2; try (exists None; reflexivity).
    destruct (drain_body q inp) as [[d inp'] o]. exists d. cbn [fst]. now apply call_error_drain. }
  assert (St : exists d, fst (fst (let '(r, inp, t) := wsgi_stream_t ap q p hs ep cx in
      match r with
        | inr r => (r, inp, t)
        | inl (inv, rs, ev, None) => (mk_wr inv ev WReturn, inp, t)
        | inl (inv, rs, ev, Some ICancel) => (mk_wr inv ev WBase, inp, t)
        | inl (inv, rs, ev, Some (IExn e)) =>
            let '(d, inp, o) := drain_body q inp in
            (wsgi_call_error (draining q (fun _ => d)) inv ev e (Some rs), inp,
             t ++ map TRead o ++ wnewly ev (wr_events (wsgi_call_error (draining q (fun _ => d)) inv ev e (Some rs))))
        end)) = match wsgi_stream ap (draining q d) p hs ep cx with
      | inr r => r
      | inl (inv, rs, ev, None) => mk_wr inv ev WReturn
      | inl (inv, rs, ev, Some ICancel) => mk_wr inv ev WBase
      | inl (inv, rs, ev, Some (IExn e)) => wsgi_call_error (draining q d) inv ev e (Some rs)
      end).
  { destruct (stream_w_same ap q p hs ep cx) as (d0&d2&H). destruct (wsgi_stream_t ap q p hs ep cx) as [[r inp] t].
    destruct (G r inp t d0 d2) as (d1&E). exists (set3 d0 d1 d2). rewrite <- (H d1). exact E. }
  destruct ep as [m f|m f|m f|m f]; [destruct p|..]; try (destruct St as (d&E); exists d; rewrite O; exact E).
  unfold wsgi_unary_t. cbv zeta. destruct (wsgi_unary ap q (cx_http cx) f cx hs) as [[[inv rs] ev] i] eqn:U.
  destruct (if str_eqb (cx_http cx) (lit "GET") then (wq_input q, []) else post_reads ap q hs) as [inp o].
  destruct (G (inl (inv, rs, ev, i)) inp (map TRead o ++ map TOut ev) None None) as (d1&E). exists (set3 None d1 None). rewrite O.
  change (wsgi_unary ap (draining q (set3 None d1 None)) (cx_http cx) f cx hs) with (wsgi_unary ap q (cx_http cx) f cx hs). rewrite U. exact E.
Qed.

(** ** What is read, and what is left *)

(** [reading inp rs inp']: reading [inp] gave [rs] and left [inp']. *)
Inductive reading : list rd -> list (res bytes) -> list rd -> Prop :=
| rg_nil inp : reading inp [] inp
| rg_cons n inp x inp1 rs inp2 : 0 < n -> wread n inp = (x, inp1) -> reading inp1 rs inp2 -> reading inp (x :: rs) inp2.
Lemma reading_app inp rs inp1 rs' inp2 : reading inp rs inp1 -> reading inp1 rs' inp2 -> reading inp (rs ++ rs') inp2.
Proof. intros R R2. induction R; [exact R2|]. cbn. econstructor; eauto. Qed.
Lemma reading_one n inp x inp1 : 0 < n -> wread n inp = (x, inp1) -> reading inp [x] inp1.
Proof. intros. econstructor; eauto. constructor. Qed.
Lemma wread_content n inp x inp1 : wread n inp = (x, inp1) -> content inp = List.concat (pieces [x]) ++ content inp1.
Proof.
  unfold wread. destruct inp as [|[b|e] r]; [intros [= <- <-]; reflexivity| |intros [= <- <-]; reflexivity].
  destruct (lenN b <=? n); intros [= <- <-]; cbn; rewrite app_nil_r; [reflexivity|].
  rewrite app_assoc. f_equal. unfold takeN, dropN. symmetry. apply firstn_skipn.
Qed.
Lemma reading_content inp rs inp' : reading inp rs inp' -> content inp = List.concat (pieces rs) ++ content inp'.
Proof.
  induction 1 as [|n inp x inp1 rs inp2 Hn W R IH]; [reflexivity|]. rewrite (wread_content _ _ _ _ W), IH.
  change (x :: rs) with ([x] ++ rs). unfold pieces. rewrite flat_map_app, concat_app. now rewrite app_assoc.
Qed.
Lemma wread_honest n inp x inp1 : 0 < n -> honest inp -> wread n inp = (x, inp1) -> honest inp1 /\ (x = Ok [] -> inp1 = []).
Proof.
  intros Hn H. unfold wread. destruct inp as [|[b|e] r]; [intros [= <- <-]; auto| |].
  - inversion H as [|? ? Hb Hr]; subst. assert (Hb' : b <> []) by congruence. destruct (lenN b <=? n) eqn:L; intros [= <- <-].
    + split; [exact Hr|]. intros [= E]. now destruct (Hb' E).
    + assert (T : (N.to_nat n < List.length b)%nat) by (unfold lenN in L; lia). split.
      * constructor; [|exact Hr]. intros [= E]. assert (X : List.length (dropN n b) = O) by now rewrite E. unfold dropN in X. rewrite skipn_length in X. lia.
      * intros [= E]. assert (X : List.length (takeN n b) = O) by now rewrite E. unfold takeN in X. rewrite firstn_length in X. lia.
  - inversion H; subst. intros [= <- <-]. split; [assumption|discriminate].
Qed.
Lemma reading_end inp rs inp' l : reading inp rs inp' -> honest inp -> rs = l ++ [Ok []] -> inp' = [].
Proof.
  intro R. revert l. induction R as [|n inp x inp1 rs inp2 Hn W R IH]; intros l H E; [destruct l; discriminate E|].
  destruct (wread_honest _ _ _ _ Hn H W) as [H1 H2]. destruct l as [|y l].
  - injection E as -> ->. inversion R; subst. now apply H2.
  - injection E as -> E. eapply IH; eauto.
Qed.

Lemma reads_app {A B} (t u : list (tevent A B)) : reads (t ++ u) = reads t ++ reads u.
Proof. apply flat_map_app. Qed.
Lemma reads_reads {A B} o : reads (map (@TRead A B) o) = o.
Proof. induction o as [|r o IH]; [reflexivity|]. cbn. f_equal. exact IH. Qed.
Lemma reads_outs {A B} o : reads (map (@TOut A B) o) = [].
Proof. now induction o. Qed.
Lemma reads_newly {A B} l l' : reads (@wnewly A B l l') = [].
Proof. apply reads_outs. Qed.
Lemma reads_exchange {A B} o x (t : list (tevent A B)) : reads (TAsk :: map TRead o ++ TGive x :: t) = o ++ reads t.
Proof. change (reads (TAsk :: map TRead o ++ TGive x :: t)) with (reads (map TRead o ++ TGive x :: t)). rewrite reads_app, reads_reads. reflexivity. Qed.
Lemma reads_yield {A B} b l l' (t : list (tevent A B)) : reads (TYield b :: wnewly l l' ++ t) = reads t.
Proof. change (reads (TYield b :: wnewly l l' ++ t)) with (reads (wnewly l l' ++ t)). rewrite reads_app, reads_newly. reflexivity. Qed.

Lemma tpump_reading {M} (cf : rconf M) : forall fuel p inp, let '(_, inp', o) := tpump cf fuel p inp in reading inp o inp'.
Proof.
  induction fuel as [|f IH]; intros [m r|r|e r] inp; cbn [tpump]; try constructor.
  destruct (wread 4096 inp) as [[[|x b]|e] inp1] eqn:W; try (eapply reading_one; [|exact W]; lia).
  specialize (IH (feed_first cf r (x :: b)) inp1). destruct (tpump cf f (feed_first cf r (x :: b)) inp1) as [[s inp2] o].
  econstructor; [|exact W|exact IH]. lia.
Qed.
Lemma tq_next_reading {M} (cf : rconf M) q inp : let '(_, _, inp', o) := tq_next cf q inp in reading inp o inp'.
Proof.
  destruct q as [|r|]; cbn [tq_next]; [| |constructor].
  - pose proof (tpump_reading cf (input_fuel inp) (YEnd (reader_new None)) inp) as R. destruct (tpump cf _ _ inp) as [[[| |] inp'] o]; exact R.
  - pose proof (tpump_reading cf (input_fuel inp) (read_resume cf r) inp) as R. destruct (tpump cf _ _ inp) as [[[| |] inp'] o]; exact R.
Qed.
Lemma run_fn_w_reading {A B R} (cf : rconf A) (g : prog A Empty_set R) : forall q inp rs,
  let '(_, _, inp', t) := @run_fn_w A B R cf g q inp rs in reading inp (reads t) inp'.
Proof.
  induction g as [r|i|k IH|b c g IH|op g IH|op g IH]; intros q inp rs; cbn [run_fn_w]; try (apply rg_nil); try apply IH.
  - pose proof (tq_next_reading cf q inp) as N. destruct (tq_next cf q inp) as [[[x q'] inp'] o].
    specialize (IH x q' inp' rs). destruct (run_fn_w cf (k x) q' inp' rs) as [[[r rs'] inp''] t]. rewrite reads_exchange. now apply (reading_app _ _ inp').
  - destruct b.
Qed.
Lemma drive_w_reading {A B} body (cf : rconf A) (g : prog A B unit) : forall q inp rs s,
  let '(_, _, _, inp', t) := drive_w body cf g q inp rs s in reading inp (reads t) inp'.
Proof.
  induction g as [r|i|k IH|b c g IH|op g IH|op g IH]; intros q inp rs s; cbn [drive_w]; try (apply rg_nil); try apply IH.
  - pose proof (tq_next_reading cf q inp) as N. destruct (tq_next cf q inp) as [[[x q'] inp'] o].
    specialize (IH x q' inp' rs s). destruct (drive_w body cf (k x) q' inp' rs s) as [[[[s' rs'] e] inp''] t]. rewrite reads_exchange. now apply (reading_app _ _ inp').
  - destruct (body s rs b) as [s' [i|]].
    + pose proof (@reads_yield A B b (ws_ev s) (ws_ev s') []) as E. rewrite app_nil_r in E. rewrite E. constructor.
    + specialize (IH q inp rs s'). destruct (drive_w body cf g q inp rs s') as [[[[s'' rs'] e] inp'] t]. now rewrite reads_yield.
Qed.
Lemma consume_w_reading {A} (cf : rconf A) inp : let '(_, inp', o) := consume_single_w cf inp in reading inp o inp'.
Proof.
  unfold consume_single_w. pose proof (tq_next_reading cf TqStart inp) as N. destruct (tq_next cf TqStart inp) as [[[x q'] inp'] o].
  destruct x; try exact N. pose proof (tq_next_reading cf q' inp') as N'. destruct (tq_next cf q' inp') as [[[y q''] inp''] o']. now apply (reading_app _ _ inp').
Qed.
Lemma reads_closed {A B} (t : list (tevent Empty_set B)) : reads (flat_map (@of_closed_w A B) t) = [].
Proof. induction t as [|e t IH]; [reflexivity|]. cbn [flat_map]. rewrite reads_app, IH, app_nil_r. destruct e; reflexivity. Qed.
Lemma run_w_reading {A B} p (ep : endpoint A B) k z cf cx inp : let '(_, _, inp', t) := wsgi_run_t p ep k z cf cx inp in reading inp (reads t) inp'.
Proof.
  unfold wsgi_run_t. cbv zeta.
  assert (Single : forall b rs inp1 t, reading inp (reads t) inp1 ->
    let '(_, inp', t') := let '(s, rs, e, inp, t') := drive_w (wsgi_body_step p (k_name k) (k_enc_res k) z) cf (@single_response A B b) TqEnd inp1 rs (mk_wst [] false) in ((s, rs, e), inp, t ++ t') in
    reading inp (reads t') inp').
  { intros b rs inp1 t H. match goal with |- context [drive_w ?b ?c ?g ?q ?i ?r ?s] => pose proof (drive_w_reading b c g q i r s) as D; destruct (drive_w b c g q i r s) as [[[[s' rs'] e] inp'] t'] end.
    rewrite reads_app. now apply (reading_app _ _ inp1). }
  destruct ep as [m f|m f|m f|m f].
  - pose proof (consume_w_reading cf inp) as C. destruct (consume_single_w cf inp) as [[r inp1] o].
    assert (C' : reading inp (reads (map (@TRead A B) o)) inp1) by now rewrite reads_reads.
    destruct r as [a|e]; [|exact C']. destruct (run_fn (f a cx) ([], None) rs_new) as [[b|i] rs]; [|exact C'].
    specialize (Single b rs inp1 _ C'). destruct (let '(s, rs, e, inp, t') := _ in _) as [[x inp2] t]. exact Single.
  - pose proof (@run_fn_w_reading A B B cf (f cx) TqStart inp rs_new) as C. destruct (run_fn_w cf (f cx) TqStart inp rs_new) as [[[r rs] inp1] t].
    destruct r as [b|i]; [|exact C]. specialize (Single b rs inp1 _ C). destruct (let '(s, rs, e, inp, t') := _ in _) as [[x inp2] t']. exact Single.
  - pose proof (consume_w_reading cf inp) as C. destruct (consume_single_w cf inp) as [[r inp1] o].
    assert (C' : reading inp (reads (map (@TRead A B) o)) inp1) by now rewrite reads_reads.
    destruct r as [a|e]; [|exact C']. destruct (drive_w _ _ _ _ _ _ _) as [[[[s' rs'] e] inp'] t']. rewrite reads_app, reads_closed, app_nil_r. exact C'.
  - match goal with |- context [drive_w ?b ?c ?g ?q ?i ?r ?s] => pose proof (drive_w_reading b c g q i r s) as D; destruct (drive_w b c g q i r s) as [[[[s' rs'] e] inp'] t'] end.
    exact D.
Qed.
Lemma drain_loop_reading : forall fuel inp, let '(_, inp', o) := drain_loop fuel inp in reading inp o inp'.
Proof.
  induction fuel as [|f IH]; intro inp; cbn [drain_loop]; [constructor|].
  destruct (wread 4096 inp) as [[[|x b]|e] inp1] eqn:W; try (eapply reading_one; [|exact W]; lia).
  specialize (IH inp1). destruct (drain_loop f inp1) as [[e inp2] o]. econstructor; [|exact W|exact IH]. lia.
Qed.
Lemma drain_body_reading q inp : let '(_, inp', o) := drain_body q inp in reading inp o inp'.
Proof. unfold drain_body. destruct (startswith _ _); [apply drain_loop_reading|constructor]. Qed.
Lemma drain_loop_end : forall fuel inp, (input_fuel inp <= fuel)%nat -> let '(e, _, o) := drain_loop fuel inp in
  match e with None => exists l, o = l ++ [Ok []] | Some x => exists l, o = l ++ [Raise x] end.
Proof.
  induction fuel as [|f IH]; intros inp Hf; [unfold input_fuel in Hf; lia|]. cbn [drain_loop].
  destruct (wread 4096 inp) as [[[|x b]|e] inp1] eqn:W; [now exists []| |now exists []].
  apply wread_available in W; [|lia|discriminate]. destruct W as (_&_&_&W). specialize (IH inp1 ltac:(lia)).
  destruct (drain_loop f inp1) as [[[e|] inp2] o]; destruct IH as (l&->); now exists (Ok (x :: b) :: l).
Qed.
Lemma drain_body_end q inp : on_http1 q = true -> let '(e, _, o) := drain_body q inp in
  match e with None => exists l, o = l ++ [Ok []] | Some x => exists l, o = l ++ [Raise x] end.
Proof. unfold drain_body, on_http1. intros ->. apply drain_loop_end. lia. Qed.

Lemma read_exact_reading n : forall fuel acc inp, let '(_, inp', o) := read_exact_t fuel n acc inp in reading inp o inp'.
Proof.
  induction fuel as [|f IH]; intros acc inp; cbn [read_exact_t]; destruct (lenN acc <? n) eqn:L; try constructor.
  destruct (wread (n - lenN acc) inp) as [[[|x b]|e] inp1] eqn:W; try (eapply reading_one; [|exact W]; lia).
  specialize (IH (acc ++ x :: b) inp1). destruct (read_exact_t f n (acc ++ x :: b) inp1) as [[r inp2] o]. econstructor; [|exact W|exact IH]. lia.
Qed.
Lemma read_length_reading n inp : 0 < n -> let '(_, inp', o) := read_body_with_content_length_t n inp in reading inp o inp'.
Proof.
  intro Hn. unfold read_body_with_content_length_t. destruct (wread n inp) as [[b|e] inp1] eqn:W; [|eapply reading_one; eauto].
  destruct (lenN b =? n); [eapply reading_one; eauto|]. pose proof (read_exact_reading n (input_fuel inp) b inp1) as R.
  destruct (read_exact_t _ _ _ _) as [[r inp2] o]. econstructor; eauto.
Qed.
(** It reads what [read_body_with_content_length] of MWsgi.v is made of. *)
Lemma read_exact_same n : forall fuel acc inp, let '(r, _, _) := read_exact_t fuel n acc inp in r = read_exact fuel n acc inp.
Proof.
  induction fuel as [|f IH]; intros acc inp; cbn [read_exact_t read_exact]; destruct (lenN acc <? n) eqn:L; try reflexivity.
  destruct (wread (n - lenN acc) inp) as [[[|x b]|e] inp1] eqn:W; try reflexivity.
  specialize (IH (acc ++ x :: b) inp1). destruct (read_exact_t f n (acc ++ x :: b) inp1) as [[r inp2] o]. exact IH.
Qed.
Lemma read_length_same n inp : let '(r, _, _) := read_body_with_content_length_t n inp in r = read_body_with_content_length n inp.
Proof.
  unfold read_body_with_content_length_t, read_body_with_content_length. destruct (wread n inp) as [[b|e] inp1] eqn:W; [|reflexivity].
  destruct (lenN b =? n); [reflexivity|]. pose proof (read_exact_same n (input_fuel inp) b inp1) as R.
  destruct (read_exact_t _ _ _ _) as [[r inp2] o]. exact R.
Qed.
Lemma drain_loop_same : forall fuel inp, let '(e, _, o) := drain_loop fuel inp in
  read_chunks fuel inp = (filter (fun c => match c with [] => false | _ => true end) (pieces o), e).
Proof.
  induction fuel as [|f IH]; intro inp; cbn [drain_loop read_chunks]; [reflexivity|].
  destruct (wread 4096 inp) as [[[|x b]|e] inp1] eqn:W; try reflexivity.
  specialize (IH inp1). destruct (drain_loop f inp1) as [[e inp2] o]. rewrite IH. reflexivity.
Qed.

Lemma post_reading {A B} (ap : app A B) q hs : let '(inp', o) := post_reads ap q hs in reading (wq_input q) o inp'.
Proof.
  unfold post_reads. destruct (dget (ap_codecs ap) _); [|constructor]. destruct (match env_get q "CONTENT_LENGTH" with None | Some [] => _ | _ => _ end) as [n|]; [|constructor].
  destruct (0 <? n)%Z eqn:Hn.
  - pose proof (read_length_reading (Z.to_N n) (wq_input q) ltac:(lia)) as R. destruct (read_body_with_content_length_t _ _) as [[r inp] o]. exact R.
  - pose proof (drain_loop_reading (input_fuel (wq_input q)) (wq_input q)) as R. destruct (drain_loop _ _) as [[r inp] o]. exact R.
Qed.

Lemma stream_reading {A B} (ap : app A B) q p hs ep cx : let '(_, inp', t) := wsgi_stream_t ap q p hs ep cx in reading (wq_input q) (reads t) inp'.
Proof.
  unfold wsgi_stream_t. destruct (negotiate_stream_compression p hs (ap_comps ap)) as [req z].
  destruct (dget (ap_codecs ap) _) as [k|]; [|constructor]. cbv zeta.
  assert (Er : forall inv rs ev e inp (t : list (tevent A B)), reading (wq_input q) (reads t) inp ->
     let '(_, inp', t') := let '(d, inp, o) := drain_body q inp in
     let '(_, _, ev', _) := wsgi_stream_error ap (draining q (fun _ => d)) p (k_name k) z inv rs ev e in
     (@inl _ (wsgi_result A) (wsgi_stream_error ap (draining q (fun _ => d)) p (k_name k) z inv rs ev e), inp, t ++ map TRead o ++ @wnewly A B ev ev') in
     reading (wq_input q) (reads t') inp').
  { intros. pose proof (drain_body_reading q inp) as D. destruct (drain_body q inp) as [[d inp'] o].
    destruct (wsgi_stream_error ap (draining q (fun _ => d)) p (k_name k) z inv rs ev e) as [[[? ?] ?] ?].
    rewrite !reads_app, reads_reads, reads_newly, app_nil_r. now apply (reading_app _ _ inp). }
  destruct req as [rz|]; [|apply Er; constructor].
  pose proof (run_w_reading p ep k z (mk_rconf RBase rz (ap_max ap) (k_dec_req k)) cx (wq_input q)) as R.
  destruct (wsgi_run_t p ep k z _ cx (wq_input q)) as [[[inv [[s rs] e]] inp] t].
  destruct (ws_started s).
  - assert (D : let '(d, inp', o) := match loop_interrupt e with Some (IExn _) => drain_body q inp | _ => (None, inp, []) end in reading inp o inp').
    { destruct (loop_interrupt e) as [[x|]|]; [apply drain_body_reading|constructor..]. }
    destruct (match loop_interrupt e with Some (IExn _) => drain_body q inp | _ => (None, inp, []) end) as [[d inp'] o].
    rewrite !reads_app, reads_reads, reads_newly, app_nil_r. now apply (reading_app _ _ inp).
  - destruct (loop_interrupt e) as [[x|]|]; [now apply Er|exact R|].
    destruct (end_response (ap_sc ap) p z (rs_t rs) None) as [fin|x].
    + now rewrite reads_app, reads_newly, app_nil_r.
    + apply Er. now rewrite reads_app, reads_newly, app_nil_r.
Qed.
Lemma talk_reading {A B} (ap : app A B) now q : let '(_, inp', t) := wsgi_talk ap now q in reading (wq_input q) (reads t) inp'.
Proof.
  unfold wsgi_talk. cbv zeta.
  assert (Er : forall (inv : list (invoked A)) ev e ctx inp (t : list (tevent A B)), reading (wq_input q) (reads t) inp ->
     let '(_, inp', t') := let '(d, inp, o) := drain_body q inp in
      (wsgi_call_error (draining q (fun _ => d)) inv ev e ctx, inp, t ++ map TRead o ++ wnewly ev (wr_events (wsgi_call_error (draining q (fun _ => d)) inv ev e ctx))) in
     reading (wq_input q) (reads t') inp').
  { intros. pose proof (drain_body_reading q inp) as D. destruct (drain_body q inp) as [[d inp'] o].
    rewrite !reads_app, reads_reads, reads_newly, app_nil_r. now apply (reading_app _ _ inp). }
  destruct (wsgi_open_request ap now q) as [[[[ep hs] p] cx]|e]; [|apply Er; constructor].
  assert (H : let '(r, inp, t) := match ep, p with
                          | EpUnary _ f, PConnect =>
                              let '(h, inp, t) := wsgi_unary_t ap q (cx_http cx) f cx hs in (inl h, inp, t)
                          | _, _ => wsgi_stream_t ap q p hs ep cx
                          end in reading (wq_input q) (reads t) inp).
  { destruct ep as [m f|m f|m f|m f]; [destruct p|..]; try apply stream_reading.
    unfold wsgi_unary_t. destruct (wsgi_unary ap q (cx_http cx) f cx hs) as [[[inv rs] ev] i].
    destruct (str_eqb (cx_http cx) (lit "GET")); [cbn [map List.app]; rewrite reads_outs; constructor|].
    pose proof (post_reading ap q hs) as R. destruct (post_reads ap q hs) as [inp o]. now rewrite reads_app, reads_reads, reads_outs, app_nil_r. }
  destruct (match ep, p with EpUnary _ f, PConnect => _ | _, _ => _ end) as [[r inp] t].
  destruct r as [[[[inv rs] ev] [[e|]|]]|r]; [now apply Er|exact H..].
Qed.

(** ** What is handed to the server *)

Lemma handed_app {A B} (t u : list (tevent A B)) : handed (t ++ u) = handed t ++ handed u.
Proof. apply flat_map_app. Qed.
Lemma handed_reads {A B} o : handed (map (@TRead A B) o) = [].
Proof. now induction o. Qed.
Lemma handed_outs {A B} o : handed (map (@TOut A B) o) = o.
Proof. induction o as [|r o IH]; [reflexivity|]. cbn. f_equal. exact IH. Qed.
Lemma newly_outs {A B} l l' : @wnewly A B l (l ++ l') = map TOut l'.
Proof. unfold wnewly. now rewrite skipn_app_len. Qed.
Lemma handed_exchange {A B} o x (t : list (tevent A B)) : handed (TAsk :: map TRead o ++ TGive x :: t) = handed t.
Proof. change (handed (TAsk :: map TRead o ++ TGive x :: t)) with (handed (map TRead o ++ TGive x :: t)). rewrite handed_app, handed_reads. reflexivity. Qed.
Lemma handed_yield {A B} b (t : list (tevent A B)) : handed (TYield b :: t) = handed t.
Proof. reflexivity. Qed.
Lemma handed_closed {A B} (t : list (tevent Empty_set B)) : handed (flat_map (@of_closed_w A B) t) = handed t.
Proof. induction t as [|e t IH]; [reflexivity|]. cbn [flat_map]. rewrite handed_app, IH. destruct e; reflexivity. Qed.

Lemma body_step_grows {B} p name (enc : B -> res bytes) z s rs b : let '(s', i) := wsgi_body_step p name enc z s rs b in
  exists l, ws_ev s' = ws_ev s ++ l /\ (i = None -> List.length (chunks_of l) = 1%nat).
Proof.
  unfold wsgi_body_step. destruct (write_message enc (Some z) b) as [body|e]; destruct (ws_started s); cbn [ws_ev].
  - exists [WBody body]. auto.
  - eexists. rewrite <- app_assoc. split; [reflexivity|]. reflexivity.
  - exists []. rewrite app_nil_r. split; [reflexivity|discriminate].
  - eexists. split; [reflexivity|discriminate].
Qed.
Lemma drive_w_handed {A B} p name (enc : B -> res bytes) z (cf : rconf A) (g : prog A B unit) : forall q inp rs s,
  let '(s', _, _, _, t) := drive_w (wsgi_body_step p name enc z) cf g q inp rs s in ws_ev s' = ws_ev s ++ handed t.
Proof.
  induction g as [r|i|k IH|b c g IH|op g IH|op g IH]; intros q inp rs s; cbn [drive_w]; try (cbn; now rewrite app_nil_r); try apply IH.
  - destruct (tq_next cf q inp) as [[[x q'] inp'] o]. specialize (IH x q' inp' rs s). destruct (drive_w _ cf (k x) q' inp' rs s) as [[[[s' rs'] e] inp''] t].
    now rewrite handed_exchange.
  - pose proof (body_step_grows p name enc z s rs b) as G. destruct (wsgi_body_step p name enc z s rs b) as [s' [i|]]; destruct G as (l&E&_).
    + now rewrite E, newly_outs, handed_yield, handed_outs.
    + specialize (IH q inp rs s'). destruct (drive_w _ cf g q inp rs s') as [[[[s'' rs'] e] inp'] t].
      now rewrite IH, E, newly_outs, handed_yield, handed_app, handed_outs, app_assoc.
Qed.
Lemma run_fn_w_handed {A B R} (cf : rconf A) (g : prog A Empty_set R) : forall q inp rs,
  let '(_, _, _, t) := @run_fn_w A B R cf g q inp rs in handed t = [].
Proof.
  induction g as [r|i|k IH|b c g IH|op g IH|op g IH]; intros q inp rs; cbn [run_fn_w]; try reflexivity; try apply IH.
  - destruct (tq_next cf q inp) as [[[x q'] inp'] o]. specialize (IH x q' inp' rs). destruct (run_fn_w cf (k x) q' inp' rs) as [[[r rs'] inp''] t].
    now rewrite handed_exchange.
  - destruct b.
Qed.
Lemma run_w_handed {A B} p (ep : endpoint A B) k z cf cx inp : let '(_, (s, _, _), _, t) := wsgi_run_t p ep k z cf cx inp in ws_ev s = handed t.
Proof.
  unfold wsgi_run_t. cbv zeta. destruct ep as [m f|m f|m f|m f].
  - destruct (consume_single_w cf inp) as [[r inp1] o]. destruct r as [a|e]; [|symmetry; apply handed_reads].
    destruct (run_fn (f a cx) ([], None) rs_new) as [[b|i] rs]; [|symmetry; apply handed_reads].
    match goal with |- context [drive_w ?b ?c ?g ?q ?i ?r ?s] => pose proof (drive_w_handed p (k_name k) (k_enc_res k) z c g q i r s) as D; destruct (drive_w b c g q i r s) as [[[[s' rs'] e] inp'] t'] end.
    rewrite handed_app, handed_reads. exact D.
  - pose proof (@run_fn_w_handed A B B cf (f cx) TqStart inp rs_new) as C. destruct (run_fn_w cf (f cx) TqStart inp rs_new) as [[[r rs] inp1] t].
    destruct r as [b|i]; [|now rewrite C].
    match goal with |- context [drive_w ?b ?c ?g ?q ?i ?r ?s] => pose proof (drive_w_handed p (k_name k) (k_enc_res k) z c g q i r s) as D; destruct (drive_w b c g q i r s) as [[[[s' rs'] e] inp'] t'] end.
    rewrite handed_app, C. exact D.
  - destruct (consume_single_w cf inp) as [[r inp1] o]. destruct r as [a|e]; [|symmetry; apply handed_reads].
    match goal with |- context [drive_w ?b ?c ?g ?q ?i ?r ?s] => pose proof (drive_w_handed p (k_name k) (k_enc_res k) z c g q i r s) as D; destruct (drive_w b c g q i r s) as [[[[s' rs'] e] inp'] t'] end.
    rewrite handed_app, handed_reads, handed_closed. exact D.
  - match goal with |- context [drive_w ?b ?c ?g ?q ?i ?r ?s] => pose proof (drive_w_handed p (k_name k) (k_enc_res k) z c g q i r s) as D; destruct (drive_w b c g q i r s) as [[[[s' rs'] e] inp'] t'] end.
    exact D.
Qed.
Lemma stream_error_grows {A B} (ap : app A B) q p name z (inv : list (invoked A)) rs ev e :
  let '(_, _, ev', _) := wsgi_stream_error ap q p name z inv rs ev e in exists l, ev' = ev ++ l.
Proof.
  unfold wsgi_stream_error. destruct (MWsgi.drain q 0); [exists []; now rewrite app_nil_r|]. destruct (end_response _ _ _ _ _); eexists; [rewrite <- app_assoc|]; reflexivity.
Qed.
Lemma call_error_grows {A} q (inv : list (invoked A)) ev e ctx : exists l, wr_events (wsgi_call_error q inv ev e ctx) = ev ++ l.
Proof.
  unfold wsgi_call_error. destruct (MWsgi.drain q 1); [exists []; now rewrite app_nil_r|]. destruct (wsgi_handle_error _ _); eexists; cbn [wr_events]; [rewrite <- app_assoc|]; reflexivity.
Qed.
Lemma stream_end_grows {A B} (ap : app A B) q p z (inv : list (invoked A)) rs ev i : exists l, wr_events (response_stream_end ap q p z inv rs ev i) = ev ++ l.
Proof.
  unfold response_stream_end. assert (N : exists l, ev = ev ++ l) by (exists []; now rewrite app_nil_r).
  destruct i as [[e|]|]; [destruct (MWsgi.drain q 2)| |]; try exact N; destruct (end_response _ _ _ _ _); try exact N; eexists; reflexivity.
Qed.

Lemma stream_handed {A B} (ap : app A B) q p hs ep cx : let '(r, _, t) := wsgi_stream_t ap q p hs ep cx in
  handed t = match r with inl (_, _, ev, _) => ev | inr r => wr_events r end.
Proof.
  unfold wsgi_stream_t. destruct (negotiate_stream_compression p hs (ap_comps ap)) as [req z].
  destruct (dget (ap_codecs ap) _) as [k|]; [|reflexivity]. cbv zeta.
  assert (Er : forall inv rs ev e inp (t : list (tevent A B)), handed t = ev ->
     let '(r, _, t') := let '(d, inp, o) := drain_body q inp in
     let '(_, _, ev', _) := wsgi_stream_error ap (draining q (fun _ => d)) p (k_name k) z inv rs ev e in
     (@inl _ (wsgi_result A) (wsgi_stream_error ap (draining q (fun _ => d)) p (k_name k) z inv rs ev e), inp, t ++ map TRead o ++ @wnewly A B ev ev') in
     handed t' = match r with inl (_, _, ev, _) => ev | inr r => wr_events r end).
  { intros. destruct (drain_body q inp) as [[d inp'] o]. pose proof (stream_error_grows ap (draining q (fun _ => d)) p (k_name k) z inv rs ev e) as G.
    destruct (wsgi_stream_error ap (draining q (fun _ => d)) p (k_name k) z inv rs ev e) as [[[? ?] ev'] ?]. destruct G as (new&->).
    now rewrite !handed_app, handed_reads, newly_outs, handed_outs, H. }
  destruct req as [rz|]; [|now apply Er].
  pose proof (run_w_handed p ep k z (mk_rconf RBase rz (ap_max ap) (k_dec_req k)) cx (wq_input q)) as R.
  destruct (wsgi_run_t p ep k z _ cx (wq_input q)) as [[[inv [[s rs] e]] inp] t]. symmetry in R.
  destruct (ws_started s).
  - destruct (match loop_interrupt e with Some (IExn _) => drain_body q inp | _ => (None, inp, []) end) as [[d inp'] o].
    destruct (stream_end_grows ap (draining q (fun _ => d)) p z inv rs (ws_ev s) (loop_interrupt e)) as (l&->).
    now rewrite !handed_app, handed_reads, newly_outs, handed_outs, R.
  - destruct (loop_interrupt e) as [[x|]|]; [now apply Er|exact R|].
    destruct (end_response (ap_sc ap) p z (rs_t rs) None) as [fin|x].
    + now rewrite <- app_assoc, newly_outs, handed_app, handed_outs, R.
    + apply Er. now rewrite newly_outs, handed_app, handed_outs, R.
Qed.
Lemma talk_handed {A B} (ap : app A B) now q : let '(r, _, t) := wsgi_talk ap now q in handed t = wr_events r.
Proof.
  unfold wsgi_talk. cbv zeta.
  assert (Er : forall (inv : list (invoked A)) ev e ctx inp (t : list (tevent A B)), handed t = ev ->
     let '(r, _, t') := let '(d, inp, o) := drain_body q inp in
      (wsgi_call_error (draining q (fun _ => d)) inv ev e ctx, inp, t ++ map TRead o ++ wnewly ev (wr_events (wsgi_call_error (draining q (fun _ => d)) inv ev e ctx))) in
     handed t' = wr_events r).
  { intros. destruct (drain_body q inp) as [[d inp'] o]. destruct (call_error_grows (draining q (fun _ => d)) inv ev e ctx) as (l&->).
    now rewrite !handed_app, handed_reads, newly_outs, handed_outs, H. }
  destruct (wsgi_open_request ap now q) as [[[[ep hs] p] cx]|e]; [|now apply Er].
  assert (H : let '(r, inp, t) := match ep, p with
                          | EpUnary _ f, PConnect =>
                              let '(h, inp, t) := wsgi_unary_t ap q (cx_http cx) f cx hs in (inl h, inp, t)
                          | _, _ => wsgi_stream_t ap q p hs ep cx
                          end in handed t = match r with inl (_, _, ev, _) => ev | inr r => wr_events r end).
  { destruct ep as [m f|m f|m f|m f]; [destruct p|..]; try apply stream_handed.
    unfold wsgi_unary_t. destruct (wsgi_unary ap q (cx_http cx) f cx hs) as [[[inv rs] ev] i].
    destruct (if str_eqb (cx_http cx) (lit "GET") then (wq_input q, []) else post_reads ap q hs) as [inp o]. now rewrite handed_app, handed_reads, handed_outs. }
  destruct (match ep, p with EpUnary _ f, PConnect => _ | _, _ => _ end) as [[r inp] t].
  destruct r as [[[[inv rs] ev] [[e|]|]]|r]; [now apply Er|exact H..].
Qed.

(** ** The server waits only for what it lacks *)

Definition wlacking (k : nat) (got : bytes) (o : list (res bytes)) : Prop :=
  forall o1 x o2, o = o1 ++ x :: o2 -> forall fs tl, frames_of (got ++ List.concat (pieces o1)) fs tl -> (List.length fs <= k)%nat.
Lemma wlacking_nil k got : wlacking k got [].
Proof. intros [|? ?] x o2 H; discriminate H. Qed.

Lemma tpump_lacking {M} (cf : rconf M) k : rc_kind cf = RBase -> forall fuel p inp got buf, settled p buf -> holds_rest k got buf ->
  let '(s, _, o) := tpump cf fuel p inp in
  wlacking k got o /\ match s with TsMsg _ r => r_next r = None /\ holds_rest (S k) (got ++ List.concat (pieces o)) (r_buf r) | _ => True end.
Proof.
  intro K. induction fuel as [|f IH]; intros p inp got buf Hs Hr; destruct p as [m r|r|e r]; cbn [tpump].
  - split; [apply wlacking_nil|]. cbn in Hs. destruct Hs as [Hn (fr&w&Hw&->)]. split; [exact Hn|]. cbn. rewrite app_nil_r. now apply (rest_frame k got fr w).
  - split; [apply wlacking_nil|exact I].
  - split; [apply wlacking_nil|exact I].
  - split; [apply wlacking_nil|]. cbn in Hs. destruct Hs as [Hn (fr&w&Hw&->)]. split; [exact Hn|]. cbn. rewrite app_nil_r. now apply (rest_frame k got fr w).
  - destruct Hs as [Eb [Hv Hi]]. rewrite Eb in Hi.
    assert (Fst : forall x o, (exists b, x = Ok b /\ wlacking k (got ++ b) o) \/ o = [] -> wlacking k got (x :: o)).
    { intros x o Ho o1 y o2 E fs tl Hf. destruct o1 as [|z o1].
      - cbn in Hf. rewrite app_nil_r in Hf. rewrite (rest_incomplete k got buf fs tl Hr Hi Hf). lia.
      - injection E as <- E. destruct Ho as [(b&->&Ho)| ->]; [|destruct o1; discriminate E].
        apply (Ho o1 y o2 E fs tl). cbn [pieces flat_map List.app List.concat] in Hf. now rewrite <- app_assoc. }
    destruct (wread 4096 inp) as [[[|x b]|e] inp1]; try (split; [apply Fst; right; reflexivity|exact I]).
    specialize (IH (feed_first cf r (x :: b)) inp1 (got ++ x :: b) (buf ++ x :: b)). rewrite <- Eb in IH at 1.
    specialize (IH (first_settled cf r (x :: b) K Hv) (rest_more _ _ _ _ Hr)). destruct (tpump cf f (feed_first cf r (x :: b)) inp1) as [[s inp2] o]. destruct IH as [I1 I2].
    split; [apply Fst; left; exists (x :: b); split; [reflexivity|exact I1]|]. destruct s; [|exact I|exact I].
    change (pieces (Ok (x :: b) :: o)) with ((x :: b) :: pieces o). cbn [List.concat]. rewrite app_assoc. exact I2.
  - split; [apply wlacking_nil|exact I].
Qed.
Definition tq_state (q : tqpos) (got : bytes) (k : nat) : Prop :=
  match q with
  | TqStart => got = [] /\ k = O
  | TqYield r => r_next r = None /\ holds_rest k got (r_buf r)
  | TqEnd => True
  end.
Lemma tq_next_lacking {M} (cf : rconf M) q inp got k : rc_kind cf = RBase -> tq_state q got k ->
  let '(x, q', _, o) := tq_next cf q inp in
  wlacking k got o /\ tq_state q' (got ++ List.concat (pieces o)) (match x with PMsg _ => S k | _ => k end).
Proof.
  intros K Hq.
  assert (G : forall p buf, settled p buf -> holds_rest k got buf ->
    let '(x, q', _, o) := let '(s, inp', o) := tpump cf (input_fuel inp) p inp in
      match s with TsMsg m r => (PMsg m, TqYield r, inp', o) | TsErr e => (PExn e, TqEnd, inp', o) | TsEnd => (PEnd, TqEnd, inp', o) end in
    wlacking k got o /\ tq_state q' (got ++ List.concat (pieces o)) (match x with PMsg _ => S k | _ => k end)).
  { intros p buf Hs Hr. pose proof (tpump_lacking cf k K (input_fuel inp) p inp got buf Hs Hr) as R. destruct (tpump cf _ p inp) as [[s inp'] o].
    destruct R as [R1 R2]. destruct s; (split; [exact R1|]); [exact R2|exact I|exact I]. }
  destruct q as [|r|]; cbn [tq_next tq_state] in *.
  - destruct Hq as [-> ->]. apply (G _ []).
    + split; [reflexivity|]. split; [exact I|]. left. cbn. lia.
    + exists [], []. split; [reflexivity|]. split; [reflexivity|exact begun_nil].
  - destruct Hq as [Hn Hr]. apply (G _ (r_buf r)); [now apply resume_settled|exact Hr].
  - split; [apply wlacking_nil|exact I].
Qed.

Definition wlevel {A B} (t : list (tevent A B)) : Prop := List.length (chunks_of (handed t)) = List.length (wyielded t).
Definition wturn {A B} (e : tevent A B) : Prop := match e with TAsk | TYield _ => True | _ => False end.
Definition wprompt {A B} (got : bytes) (k : nat) (t : list (tevent A B)) : Prop :=
  forall pre e post, t = pre ++ e :: post -> wturn e ->
  wlevel pre /\ (e = TAsk -> exists rs x post', post = map TRead rs ++ TGive x :: post'
                              /\ wlacking (k + List.length (wgiven pre)) (got ++ List.concat (pieces (reads pre))) rs).

Lemma wgiven_app {A B} (t u : list (tevent A B)) : wgiven (t ++ u) = wgiven t ++ wgiven u.
Proof. apply flat_map_app. Qed.
Lemma wyielded_app {A B} (t u : list (tevent A B)) : wyielded (t ++ u) = wyielded t ++ wyielded u.
Proof. apply flat_map_app. Qed.
Lemma pieces_app l l' : pieces (l ++ l') = pieces l ++ pieces l'.
Proof. apply flat_map_app. Qed.
Lemma wlevel_app {A B} (t u : list (tevent A B)) : wlevel t -> wlevel u -> wlevel (t ++ u).
Proof. unfold wlevel, chunks_of. intros H1 H2. rewrite handed_app, wyielded_app, flat_map_app, !app_length. lia. Qed.
Lemma wprompt_app {A B} got k (t u : list (tevent A B)) : wprompt got k t -> wlevel t ->
  wprompt (got ++ List.concat (pieces (reads t))) (k + List.length (wgiven t)) u -> wprompt got k (t ++ u).
Proof.
  intros Ht Lt Hu pre e post E He. destruct (app_split _ _ _ _ _ E) as [(d'&->&->)|(c'&->&->)].
  - destruct (Ht pre e d' eq_refl He) as [L H]. split; [exact L|]. intro Ea. destruct (H Ea) as (rs&x&post'&->&Hl).
    exists rs, x, (post' ++ u). split; [now rewrite <- app_assoc|exact Hl].
  - destruct (Hu c' e post eq_refl He) as [L H]. split; [now apply wlevel_app|]. intro Ea. destruct (H Ea) as (rs&x&post'&->&Hl).
    exists rs, x, post'. split; [reflexivity|]. rewrite reads_app, pieces_app, concat_app, wgiven_app, app_length, Nat.add_assoc, app_assoc. exact Hl.
Qed.
Lemma wprompt_quiet {A B} got k (t : list (tevent A B)) : Forall (fun e => ~ wturn e) t -> wprompt got k t.
Proof. intros H pre e post -> He. apply Forall_app in H. destruct H as [_ H]. inversion H; contradiction. Qed.
(** What follows the last turn. *)
Lemma wprompt_tail {A B} got k (t u : list (tevent A B)) : wprompt got k t -> Forall (fun e => ~ wturn e) u -> wprompt got k (t ++ u).
Proof.
  intros Ht Hu pre e post E He. destruct (app_split _ _ _ _ _ E) as [(d'&->&->)|(c'&->&->)].
  - destruct (Ht pre e d' eq_refl He) as [L H]. split; [exact L|]. intro Ea. destruct (H Ea) as (rs&x&post'&->&Hl).
    exists rs, x, (post' ++ u). split; [now rewrite <- app_assoc|exact Hl].
  - apply Forall_app in Hu. destruct Hu as [_ Hu]. inversion Hu; contradiction.
Qed.
Lemma wquiet_outs {A B} l : Forall (fun e => ~ @wturn A B e) (map TOut l).
Proof. apply Forall_forall. intros e H. apply in_map_iff in H. destruct H as (x&<-&_). intros []. Qed.
Lemma wquiet_newly {A B} l l' : Forall (fun e => ~ @wturn A B e) (wnewly l l').
Proof. apply wquiet_outs. Qed.
Lemma wquiet_reads {A B} l : Forall (fun e => ~ @wturn A B e) (map TRead l).
Proof. apply Forall_forall. intros e H. apply in_map_iff in H. destruct H as (x&<-&_). intros []. Qed.
Lemma wgiven_reads {A B} o : wgiven (map (@TRead A B) o) = [].
Proof. now induction o. Qed.
Lemma wyielded_reads {A B} o : wyielded (map (@TRead A B) o) = [].
Proof. now induction o. Qed.
Lemma wyielded_outs {A B} o : wyielded (map (@TOut A B) o) = [].
Proof. now induction o. Qed.
Lemma wgiven_outs {A B} o : wgiven (map (@TOut A B) o) = [].
Proof. now induction o. Qed.

Definition wexchange {A B} (o : list (res bytes)) (x : pulled A) : list (tevent A B) := TAsk :: map TRead o ++ [TGive x].
Lemma wexchange_cons {A B} o (x : pulled A) t : @TAsk A B :: map TRead o ++ TGive x :: t = wexchange o x ++ t.
Proof. unfold wexchange. cbn. now rewrite <- app_assoc. Qed.
Lemma wexchange_prompt {A B} got k o (x : pulled A) : wlacking k got o -> @wprompt A B got k (wexchange o x).
Proof.
  intros H pre e post E He. destruct pre as [|y pre].
  - injection E as <- <-. split; [reflexivity|]. intros _. exists o, x, []. split; [reflexivity|]. cbn. now rewrite Nat.add_0_r, app_nil_r.
  - exfalso. injection E as <- E.
    assert (Q : Forall (fun e => ~ @wturn A B e) (map TRead o ++ [TGive x])) by (apply Forall_app; split; [apply wquiet_reads|constructor; [intros []|constructor]]).
    rewrite E in Q. apply Forall_app in Q. destruct Q as [_ Q]. inversion Q; contradiction.
Qed.
Lemma wexchange_split {A B} o (x : pulled A) : @wexchange A B o x = [TAsk] ++ map TRead o ++ [TGive x].
Proof. reflexivity. Qed.
Lemma wexchange_level {A B} o (x : pulled A) : @wlevel A B (wexchange o x).
Proof. unfold wlevel. rewrite wexchange_split, !handed_app, !wyielded_app, handed_reads, wyielded_reads. reflexivity. Qed.
Lemma wexchange_reads {A B} o (x : pulled A) : reads (@wexchange A B o x) = o.
Proof. rewrite wexchange_split, !reads_app, reads_reads. cbn. apply app_nil_r. Qed.
Lemma wexchange_given {A B} o (x : pulled A) : List.length (wgiven (@wexchange A B o x)) = match x with PMsg _ => 1%nat | _ => O end.
Proof. rewrite wexchange_split, !wgiven_app, wgiven_reads. destruct x; reflexivity. Qed.
Lemma wyield_prompt {A B} got k b l : @wprompt A B got k (TYield b :: map TOut l).
Proof.
  intros pre e post E He. destruct pre as [|y pre]; [injection E as <- <-; split; [reflexivity|discriminate]|].
  exfalso. injection E as <- E. pose proof (@wquiet_outs A B l) as Q. rewrite E in Q. apply Forall_app in Q. destruct Q as [_ Q]. inversion Q; contradiction.
Qed.

Lemma drive_w_prompt {A B} p name (enc : B -> res bytes) z (cf : rconf A) : rc_kind cf = RBase -> forall (g : prog A B unit) q inp rs s got k,
  tq_state q got k -> let '(_, _, _, _, t) := drive_w (wsgi_body_step p name enc z) cf g q inp rs s in wprompt got k t.
Proof.
  intro K. induction g as [r|i|f IH|b c g IH|op g IH|op g IH]; intros q inp rs s got k Hq; cbn [drive_w]; try (apply wprompt_quiet; constructor); try (apply IH; exact Hq).
  - pose proof (tq_next_lacking cf q inp got k K Hq) as N. destruct (tq_next cf q inp) as [[[x q'] inp'] o0]. destruct N as [N1 N2].
    specialize (IH x q' inp' rs s _ _ N2). destruct (drive_w _ cf (f x) q' inp' rs s) as [[[[s' rs'] e] inp''] t]. rewrite wexchange_cons.
    apply wprompt_app; [now apply wexchange_prompt|apply wexchange_level|]. rewrite wexchange_reads, wexchange_given. destruct x; rewrite ?Nat.add_0_r, ?Nat.add_1_r; exact IH.
  - pose proof (body_step_grows p name enc z s rs b) as Hb. destruct (wsgi_body_step p name enc z s rs b) as [s' [i|]]; destruct Hb as (l&G&Hl).
    + rewrite G, newly_outs. apply wyield_prompt.
    + specialize (IH q inp rs s' got k Hq). destruct (drive_w _ cf g q inp rs s') as [[[[s'' rs'] e] inp'] t]. rewrite G, newly_outs.
      change (TYield b :: map TOut l ++ t) with ((TYield b :: map TOut l) ++ t). apply wprompt_app; [apply wyield_prompt| |].
      * unfold wlevel. rewrite handed_yield, handed_outs, (Hl eq_refl). change (TYield b :: map TOut l) with ([@TYield A B b] ++ map TOut l).
        rewrite wyielded_app, wyielded_outs. reflexivity.
      * change (TYield b :: map TOut l) with ([@TYield A B b] ++ map TOut l). rewrite reads_app, reads_outs, wgiven_app, wgiven_outs.
        cbn. rewrite app_nil_r, Nat.add_0_r. exact IH.
Qed.
Lemma run_fn_w_prompt {A B R} (cf : rconf A) : rc_kind cf = RBase -> forall (g : prog A Empty_set R) q inp rs got k,
  tq_state q got k -> let '(_, _, _, t) := @run_fn_w A B R cf g q inp rs in wprompt got k t /\ wlevel t.
Proof.
  intro K. induction g as [r|i|f IH|b c g IH|op g IH|op g IH]; intros q inp rs got k Hq; cbn [run_fn_w];
    try (split; [apply wprompt_quiet; constructor|reflexivity]); try (apply IH; exact Hq).
  - pose proof (tq_next_lacking cf q inp got k K Hq) as N. destruct (tq_next cf q inp) as [[[x q'] inp'] o0]. destruct N as [N1 N2].
    specialize (IH x q' inp' rs _ _ N2). destruct (run_fn_w cf (f x) q' inp' rs) as [[[s' rs'] inp''] t]. destruct IH as [I1 I2]. rewrite wexchange_cons. split.
    + apply wprompt_app; [now apply wexchange_prompt|apply wexchange_level|]. rewrite wexchange_reads, wexchange_given. destruct x; rewrite ?Nat.add_0_r, ?Nat.add_1_r; exact I1.
    + apply wlevel_app; [apply wexchange_level|exact I2].
  - destruct b.
Qed.
(** A method without request stream does not ask. *)
Lemma closed_prompt {A B} (t : list (tevent Empty_set B)) got k :
  (forall pre e post, t = pre ++ e :: post -> wturn e -> wlevel pre) -> wprompt got k (flat_map (@of_closed_w A B) t).
Proof.
  intros H pre e post E He.
  assert (X : exists pre' e' post', t = pre' ++ e' :: post' /\ flat_map (@of_closed_w A B) pre' = pre /\ of_closed_w e' = [e]).
  { clear H. revert pre E. induction t as [|y t IH]; intros pre E; [destruct pre; discriminate E|]. cbn [flat_map] in E.
    destruct y; cbn [of_closed_w List.app] in E;
      try (destruct (IH _ E) as (pre'&e'&post'&->&Ep&Ee); eexists (_ :: pre'), e', post'; split; [reflexivity|split; [exact Ep|exact Ee]]).
    - destruct pre as [|z pre]; [injection E as <- _; eexists [], _, t; repeat split|]. injection E as <- E.
      destruct (IH _ E) as (pre'&e'&post'&->&Ep&Ee). eexists (_ :: pre'), e', post'. split; [reflexivity|]. split; [cbn; now rewrite Ep|exact Ee].
    - destruct pre as [|z pre]; [injection E as <- _; destruct He|]. injection E as <- E.
      destruct (IH _ E) as (pre'&e'&post'&->&Ep&Ee). eexists (_ :: pre'), e', post'. split; [reflexivity|]. split; [cbn; now rewrite Ep|exact Ee]. }
  destruct X as (pre'&e'&post'&Et&<-&Ee).
  assert (T : wturn e') by (destruct e'; try discriminate Ee; injection Ee as <-; exact He). specialize (H pre' e' post' Et T).
  split; [|intros ->; destruct e'; discriminate Ee]. unfold wlevel in *. rewrite handed_closed. etransitivity; [exact H|].
  clear. induction pre' as [|y pre IH]; [reflexivity|]. cbn [flat_map]. rewrite (wyielded_app (of_closed_w y)), app_length, <- IH. destruct y; reflexivity.
Qed.

Lemma run_w_prompt {A B} p (ep : endpoint A B) k z cf cx inp : rc_kind cf = RBase ->
  let '(_, _, _, t) := wsgi_run_t p ep k z cf cx inp in wprompt [] 0 t.
Proof.
  intro K. unfold wsgi_run_t. cbv zeta.
  assert (Single : forall b rs inp1 (t : list (tevent A B)), wprompt [] 0 t -> wlevel t ->
    let '(_, _, t') := let '(s, rs, e, inp, t') := drive_w (wsgi_body_step p (k_name k) (k_enc_res k) z) cf (@single_response A B b) TqEnd inp1 rs (mk_wst [] false) in ((s, rs, e), inp, t ++ t') in
    wprompt [] 0 t').
  { intros b rs inp1 t Hp Hl. pose proof (fun g => drive_w_prompt p (k_name k) (k_enc_res k) z cf K g TqEnd inp1 rs (mk_wst [] false)
      ([] ++ List.concat (pieces (reads t))) (0 + List.length (wgiven t)) I) as D. specialize (D (single_response b)).
    destruct (drive_w _ _ _ _ _ _ _) as [[[[s' rs'] e] inp'] t']. now apply wprompt_app. }
  assert (Rd : forall o, wprompt [] 0 (map (@TRead A B) o) /\ wlevel (map (@TRead A B) o)).
  { intro o. split; [apply wprompt_quiet, wquiet_reads|]. unfold wlevel. now rewrite handed_reads, wyielded_reads. }
  destruct ep as [m f|m f|m f|m f].
  - destruct (consume_single_w cf inp) as [[r inp1] o]. destruct (Rd o) as [R1 R2]. destruct r as [a|e]; [|exact R1].
    destruct (run_fn (f a cx) ([], None) rs_new) as [[b|i] rs]; [|exact R1].
    specialize (Single b rs inp1 _ R1 R2). destruct (let '(s, rs, e, inp, t') := _ in _) as [[x inp2] t]. exact Single.
  - pose proof (@run_fn_w_prompt A B B cf K (f cx) TqStart inp rs_new [] 0%nat (conj eq_refl eq_refl)) as C.
    destruct (run_fn_w cf (f cx) TqStart inp rs_new) as [[[r rs] inp1] t]. destruct C as [C1 C2].
    destruct r as [b|i]; [|exact C1]. specialize (Single b rs inp1 _ C1 C2). destruct (let '(s, rs, e, inp, t') := _ in _) as [[x inp2] t']. exact Single.
  - destruct (consume_single_w cf inp) as [[r inp1] o]. destruct (Rd o) as [R1 R2]. destruct r as [a|e]; [|exact R1].
    pose proof (drive_w_prompt p (k_name k) (k_enc_res k) z no_reads eq_refl (f a cx) TqEnd [] rs_new (mk_wst [] false) [] O I) as D.
    destruct (drive_w _ _ _ _ _ _ _) as [[[[s' rs'] e] inp'] t']. apply wprompt_app; [exact R1|exact R2|].
    apply closed_prompt. intros pre e0 post E He. exact (proj1 (D pre e0 post E He)).
  - pose proof (drive_w_prompt p (k_name k) (k_enc_res k) z cf K (f cx) TqStart inp rs_new (mk_wst [] false) [] O (conj eq_refl eq_refl)) as D.
    destruct (drive_w _ _ _ _ _ _ _) as [[[[s' rs'] e] inp'] t']. exact D.
Qed.

Lemma stream_w_prompt {A B} (ap : app A B) q p hs ep cx : let '(_, _, t) := wsgi_stream_t ap q p hs ep cx in wprompt [] 0 t.
Proof.
  unfold wsgi_stream_t. destruct (negotiate_stream_compression p hs (ap_comps ap)) as [req z].
  destruct (dget (ap_codecs ap) _) as [k|]; [|apply wprompt_quiet; constructor]. cbv zeta.
  assert (Er : forall inv rs ev e inp (t : list (tevent A B)), wprompt [] 0 t ->
     let '(_, _, t') := let '(d, inp, o) := drain_body q inp in
     let '(_, _, ev', _) := wsgi_stream_error ap (draining q (fun _ => d)) p (k_name k) z inv rs ev e in
     (@inl _ (wsgi_result A) (wsgi_stream_error ap (draining q (fun _ => d)) p (k_name k) z inv rs ev e), inp, t ++ map TRead o ++ @wnewly A B ev ev') in
     wprompt [] 0 t').
  { intros. destruct (drain_body q inp) as [[d inp'] o]. destruct (wsgi_stream_error ap (draining q (fun _ => d)) p (k_name k) z inv rs ev e) as [[[? ?] ev'] ?].
    apply wprompt_tail; [exact H|]. apply Forall_app. split; [apply wquiet_reads|apply wquiet_newly]. }
  destruct req as [rz|]; [|apply Er, wprompt_quiet; constructor].
  pose proof (run_w_prompt p ep k z (mk_rconf RBase rz (ap_max ap) (k_dec_req k)) cx (wq_input q) eq_refl) as R.
  destruct (wsgi_run_t p ep k z _ cx (wq_input q)) as [[[inv [[s rs] e]] inp] t].
  destruct (ws_started s).
  - destruct (match loop_interrupt e with Some (IExn _) => drain_body q inp | _ => (None, inp, []) end) as [[d inp'] o].
    apply wprompt_tail; [exact R|]. apply Forall_app. split; [apply wquiet_reads|apply wquiet_newly].
  - destruct (loop_interrupt e) as [[x|]|]; [now apply Er|exact R|].
    destruct (end_response (ap_sc ap) p z (rs_t rs) None) as [fin|x].
    + apply wprompt_tail; [exact R|apply wquiet_newly].
    + apply Er. apply wprompt_tail; [exact R|apply wquiet_newly].
Qed.
Lemma talk_prompt {A B} (ap : app A B) now q : let '(_, _, t) := wsgi_talk ap now q in wprompt [] 0 t.
Proof.
  unfold wsgi_talk. cbv zeta.
  assert (Er : forall (inv : list (invoked A)) ev e ctx inp (t : list (tevent A B)), wprompt [] 0 t ->
     let '(_, _, t') := let '(d, inp, o) := drain_body q inp in
      (wsgi_call_error (draining q (fun _ => d)) inv ev e ctx, inp, t ++ map TRead o ++ wnewly ev (wr_events (wsgi_call_error (draining q (fun _ => d)) inv ev e ctx))) in
     wprompt [] 0 t').
  { intros. destruct (drain_body q inp) as [[d inp'] o]. apply wprompt_tail; [exact H|]. apply Forall_app. split; [apply wquiet_reads|apply wquiet_newly]. }
  destruct (wsgi_open_request ap now q) as [[[[ep hs] p] cx]|e]; [|apply Er, wprompt_quiet; constructor].
  assert (H : let '(_, _, t) := match ep, p with
                          | EpUnary _ f, PConnect =>
                              let '(h, inp, t) := wsgi_unary_t ap q (cx_http cx) f cx hs in (inl h, inp, t)
                          | _, _ => wsgi_stream_t ap q p hs ep cx
                          end in wprompt [] 0 t).
  { destruct ep as [m f|m f|m f|m f]; [destruct p|..]; try apply stream_w_prompt.
    unfold wsgi_unary_t. destruct (wsgi_unary ap q (cx_http cx) f cx hs) as [[[inv rs] ev] i].
    destruct (if str_eqb (cx_http cx) (lit "GET") then (wq_input q, []) else post_reads ap q hs) as [inp o].
    apply wprompt_quiet, Forall_app. split; [apply wquiet_reads|apply wquiet_outs]. }
  destruct (match ep, p with EpUnary _ f, PConnect => _ | _, _ => _ end) as [[r inp] t].
  destruct r as [[[[inv rs] ev] [[e|]|]]|r]; [now apply Er|exact H..].
Qed.
