(** C77: the request body over HTTP/1.  C78: a stream on the WSGI server is a conversation in both directions. *)
From Coq Require Import List NArith ZArith Bool String Lia ZifyBool ZifyNat.
From Verif Require Import MBase MPyStr MHeaders LBase MWire MTimeout MEnvelope SEnvelope MProtocol MClient MServer MWsgi SServer LWsgi LRequest LIter LDuplex MTalk STalk LTalk SStatus PStatus PProtocol PClient PResponse.
Import ListNotations.
Local Open Scope N_scope.

(** ** C77 *)

(** The conversations are those of the requests that the other theorems are about: for some outcome of draining the body, which those
    theorems leave open, same result and same events. *)
Theorem C77_same : forall (A B : Type) (ap : app A B) now q,
  let '(r, _, t) := wsgi_talk ap now q in
  (exists d, r = wsgi_call ap now (draining q d)) /\ handed t = wr_events r.
Proof.
  intros A B ap now q. destruct (talk_same ap now q) as (d&E). pose proof (talk_handed ap now q) as H.
  destruct (wsgi_talk ap now q) as [[r rest] t]. split; [now exists d|exact H].
Qed.
Print Assumptions C77_same.

(** What was read and what is left are the request body. *)
Theorem C77_account : forall (A B : Type) (ap : app A B) now q,
  let '(_, rest, t) := wsgi_talk ap now q in content (wq_input q) = List.concat (pieces (reads t)) ++ content rest.
Proof.
  intros A B ap now q. pose proof (talk_reading ap now q) as H. destruct (wsgi_talk ap now q) as [[r rest] t]. now apply reading_content.
Qed.
Print Assumptions C77_account.

(** Once the input has said that it is over, nothing of it is left. *)
Theorem C77_end : forall (A B : Type) (ap : app A B) now q,
  let '(_, rest, t) := wsgi_talk ap now q in honest (wq_input q) -> read_to_end t -> rest = [].
Proof.
  intros A B ap now q. pose proof (talk_reading ap now q) as H. destruct (wsgi_talk ap now q) as [[r rest] t]. intros Hh (l&E). now apply (reading_end _ _ _ l H).
Qed.
Print Assumptions C77_end.

Lemma read_to_end_tail {A B} (t u : list (tevent A B)) o : (exists l, o = l ++ [Ok []]) -> reads u = [] -> read_to_end (t ++ map TRead o ++ u).
Proof. intros (l&->) Hu. exists (reads t ++ l). rewrite !reads_app, reads_reads, Hu, app_nil_r, app_assoc. reflexivity. Qed.

(** Methods that take one message: the request stream is read to its end. *)
Lemma tpump_end {M} (cf : rconf M) : forall fuel p inp, (input_fuel inp <= fuel)%nat ->
  let '(s, _, o) := tpump cf fuel p inp in s = TsEnd -> exists l, o = l ++ [Ok []].
Proof.
  induction fuel as [|f IH]; intros p inp Hf; [unfold input_fuel in Hf; lia|]. destruct p as [m r|r|e r]; cbn [tpump]; try discriminate.
  destruct (wread 4096 inp) as [[[|x b]|e] inp1] eqn:W; [intros _; now exists []| |discriminate].
  apply wread_available in W; [|lia|discriminate]. destruct W as (_&_&_&W). specialize (IH (feed_first cf r (x :: b)) inp1 ltac:(lia)).
  destruct (tpump cf f (feed_first cf r (x :: b)) inp1) as [[s inp2] o]. intro E. destruct (IH E) as (l&->). now exists (Ok (x :: b) :: l).
Qed.
Lemma consume_w_end {A} (cf : rconf A) inp a inp' o : consume_single_w cf inp = (Ok a, inp', o) -> exists l, o = l ++ [Ok []].
Proof.
  unfold consume_single_w. destruct (tq_next cf TqStart inp) as [[[x q'] inp1] o1] eqn:N. destruct x as [a1| |e]; try discriminate.
  assert (Q : exists r, q' = TqYield r).
  { cbn [tq_next] in N. destruct (tpump cf _ _ inp) as [[[m r|e|] inp2] o2]; try discriminate N. injection N as _ <- _ _. now exists r. }
  destruct Q as (r&->). cbn [tq_next]. pose proof (tpump_end cf (input_fuel inp1) (read_resume cf r) inp1 (le_n _)) as T.
  destruct (tpump cf _ _ inp1) as [[s inp2] o2]. destruct s; intro H; try discriminate H. injection H as <- <- <-. destruct (T eq_refl) as (l&->).
  exists (o1 ++ l). now rewrite app_assoc.
Qed.
Lemma run_w_end {A B} p (ep : endpoint A B) k z cf cx inp : takes_one ep = true ->
  let '(_, (_, _, e), _, t) := wsgi_run_t p ep k z cf cx inp in loop_interrupt e = None -> read_to_end t.
Proof.
  intro H. unfold wsgi_run_t. cbv zeta. destruct ep as [m f|m f|m f|m f]; try discriminate H.
  - destruct (consume_single_w cf inp) as [[r inp1] o] eqn:C. destruct r as [a|e]; [|discriminate]. apply consume_w_end in C. destruct C as (l&->).
    destruct (run_fn (f a cx) ([], None) rs_new) as [[b|i] rs]; [|discriminate]. unfold single_response. cbn [drive_w].
    destruct (wsgi_body_step p (k_name k) (k_enc_res k) z (mk_wst [] false) rs b) as [s' [i|]]; [discriminate|]. intros _.
    exists l. rewrite reads_app, reads_reads, reads_yield. cbn. now rewrite app_nil_r.
  - destruct (consume_single_w cf inp) as [[r inp1] o] eqn:C. destruct r as [a|e]; [|discriminate]. apply consume_w_end in C. destruct C as (l&->).
    destruct (drive_w _ _ _ _ _ _ _) as [[[[s rs] e] inp2] t]. intros _. exists l. now rewrite reads_app, reads_reads, reads_closed, app_nil_r.
Qed.

Lemma stream_outcome {A B} (ap : app A B) now q ep hs p cx : wsgi_open_request ap now q = Ok (ep, hs, p, cx) -> (p = PConnect -> is_unary ep = false) ->
  let '(r, _, t) := wsgi_stream_t ap q p hs ep cx in
  match r with
  | inr r => wr_out r = WReturn -> (on_http1 q = true -> read_to_end t) \/ call_succeeded ap now q r /\ (takes_one ep = true -> read_to_end t)
  | inl (inv, rs, ev, None) => (on_http1 q = true -> read_to_end t)
                               \/ call_succeeded ap now q (mk_wr inv ev WReturn) /\ (takes_one ep = true -> read_to_end t)
  | inl (inv, rs, ev, Some i) => True
  end.
Proof.
  intros Ho Hu. unfold wsgi_stream_t. destruct (negotiate_stream_compression p hs (ap_comps ap)) as [req z] eqn:En.
  destruct (dget (ap_codecs ap) _) as [k|] eqn:Ek; [|exact I]. cbv zeta.
  assert (Er : forall inv rs ev e inp (t : list (tevent A B)),
     let '(r, _, t') := let '(d, inp, o) := drain_body q inp in
     let '(_, _, ev', _) := wsgi_stream_error ap (draining q (fun _ => d)) p (k_name k) z inv rs ev e in
     (@inl _ (wsgi_result A) (wsgi_stream_error ap (draining q (fun _ => d)) p (k_name k) z inv rs ev e), inp, t ++ map TRead o ++ @wnewly A B ev ev') in
     match r with
     | inr r => wr_out r = WReturn -> (on_http1 q = true -> read_to_end t') \/ call_succeeded ap now q r /\ (takes_one ep = true -> read_to_end t')
     | inl (inv, rs, ev, None) => (on_http1 q = true -> read_to_end t')
                               \/ call_succeeded ap now q (mk_wr inv ev WReturn) /\ (takes_one ep = true -> read_to_end t')
     | inl (inv, rs, ev, Some i) => True
     end).
  { intros. pose proof (drain_body_end q inp) as D. destruct (drain_body q inp) as [[d inp'] o].
    destruct (wsgi_stream_error ap (draining q (fun _ => d)) p (k_name k) z inv rs ev e) as [[[inv' rs'] ev'] [i|]] eqn:E; [exact I|].
    left. intro H. specialize (D H). destruct d as [x|].
    - exfalso. unfold wsgi_stream_error, MWsgi.drain in E. cbn [wq_drain draining] in E. unfold on_http1 in H.
      change (env_default (draining q (fun _ => Some x)) "SERVER_PROTOCOL" []) with (env_default q "SERVER_PROTOCOL" []) in E. rewrite H in E. discriminate E.
    - apply read_to_end_tail; [exact D|apply reads_newly]. }
  destruct req as [rz|]; [|apply Er].
  pose proof (run_w_same ap p ep k z rz cx q) as Rs. pose proof (run_w_end p ep k z (mk_rconf RBase rz (ap_max ap) (k_dec_req k)) cx (wq_input q)) as Re.
  pose proof (wsgi_run_shape p ep k z (wsgi_request_stream ap k rz q) cx) as Sh.
  destruct (wsgi_run_t p ep k z _ cx (wq_input q)) as [[[inv [[s rs] e]] inp] t]. rewrite <- Rs in Sh. symmetry in Rs.
  assert (Rq : wsgi_stream_request ap now q ep hs p cx k) by (split; [exact Ho|]; split; [exact Ek|exact Hu]).
  destruct (ws_started s) eqn:Es.
  - destruct (loop_interrupt e) as [[x|]|] eqn:El.
    + pose proof (drain_body_end q inp) as D. destruct (drain_body q inp) as [[d inp'] o]. intro Hr. left. intro H. specialize (D H). destruct d as [y|].
      * exfalso. unfold response_stream_end, MWsgi.drain in Hr. cbn [wq_drain draining] in Hr. unfold on_http1 in H.
        change (env_default (draining q (fun _ => Some y)) "SERVER_PROTOCOL" []) with (env_default q "SERVER_PROTOCOL" []) in Hr. rewrite H in Hr. discriminate Hr.
      * apply read_to_end_tail; [exact D|apply reads_newly].
    + discriminate.
    + unfold response_stream_end. destruct (end_response (ap_sc ap) p z (rs_t rs) None) as [fin|x] eqn:Ef; [|discriminate]. intros _. right.
      destruct e; try discriminate El. destruct (wsgi_run_done _ _ _ _ _ _ _ _ _ Rs) as (steps&frs&Hm&Hw&[[_ X]|[_ Hev]]).
      { rewrite X in Es. discriminate Es. }
      split; [split; [reflexivity|]; right; exists ep, hs, p, cx, k, rz, z, steps, rs, frs; eexists; exists fin|].
      * repeat (split; [assumption|]). cbn [wr_events]. rewrite Hev. reflexivity.
      * intro Ht. destruct (Re Ht eq_refl) as (l&E). exists l. cbn [map List.app]. rewrite reads_app, reads_newly, app_nil_r. exact E.
  - cbn in Sh. destruct (loop_interrupt e) as [[x|]|] eqn:El; [apply Er|exact I|].
    destruct (end_response (ap_sc ap) p z (rs_t rs) None) as [fin|x] eqn:Ef; [|apply Er]. right.
    destruct e; try discriminate El. destruct (wsgi_run_done _ _ _ _ _ _ _ _ _ Rs) as (steps&frs&Hm&Hw&[[-> X]|[X _]]).
    2:{ rewrite X in Es. discriminate Es. }
    inversion Hw; subst frs. split; [split; [reflexivity|]; right; exists ep, hs, p, cx, k, rz, z, [], rs, []; eexists; exists fin|].
    + repeat (split; [assumption|]). cbn [wr_events]. rewrite Sh. reflexivity.
    + intro Ht. destruct (Re Ht eq_refl) as (l&E). exists l. rewrite reads_app, reads_newly, app_nil_r. exact E.
Qed.

(** A Connect unary request whose body was understood was read. *)
Lemma post_read {A B} (ap : app A B) q hs x : wsgi_post_request ap q hs = Ok x ->
  let '(_, o) := post_reads ap q hs in
  (exists l, o = l ++ [Ok []])
  \/ exists s n, env_get q "CONTENT_LENGTH" = Some s /\ int_of_str s = Some n /\ (0 < n)%Z /\ Z.of_N (lenN (List.concat (pieces o))) = n.
Proof.
  unfold wsgi_post_request, post_reads. destruct (dget (ap_codecs ap) _) as [k|]; [|discriminate].
  set (len := match env_get q "CONTENT_LENGTH" with None | Some [] => Ok 0%Z | Some s => _ end).
  assert (L : match len with
              | Ok n => match env_get q "CONTENT_LENGTH" with None | Some [] => Some 0%Z | Some s => int_of_str s end = Some n
                        /\ ((0 < n)%Z -> exists s, env_get q "CONTENT_LENGTH" = Some s /\ int_of_str s = Some n)
              | Raise _ => True end).
  { unfold len. destruct (env_get q "CONTENT_LENGTH") as [[|c s]|]; try (split; [reflexivity|lia]).
    destruct (int_of_str (c :: s)) as [n|] eqn:E; [|exact I]. split; [reflexivity|]. intros _. exists (c :: s). auto. }
  destruct len as [n|e]; [|cbn [bind to_internal]; destruct (is_connect e); discriminate]. destruct L as [-> L]. cbn [bind].
  destruct (0 <? n)%Z eqn:Hn.
  - pose proof (read_length_same (Z.to_N n) (wq_input q)) as R.
    assert (Rl : let '(r, _, o) := read_body_with_content_length_t (Z.to_N n) (wq_input q) in forall b, r = Ok b -> List.concat (pieces o) = b /\ lenN b = Z.to_N n).
    { clear R. unfold read_body_with_content_length_t. destruct (wread (Z.to_N n) (wq_input q)) as [[b|e] inp1] eqn:W; [|discriminate].
      destruct (lenN b =? Z.to_N n) eqn:E; [intros b' [= <-]; cbn; rewrite app_nil_r; split; [reflexivity|lia]|].
      assert (G : forall fuel acc inp, lenN acc <= Z.to_N n -> let '(r, _, o) := read_exact_t fuel (Z.to_N n) acc inp in
                 forall b, r = Ok b -> acc ++ List.concat (pieces o) = b /\ lenN b = Z.to_N n).
      { induction fuel as [|f IH]; intros acc inp Ha; cbn [read_exact_t]; destruct (lenN acc <? Z.to_N n) eqn:La; try discriminate;
          try (intros b' [= <-]; cbn; rewrite app_nil_r; split; [reflexivity|lia]).
        destruct (wread (Z.to_N n - lenN acc) inp) as [[[|y c]|e] inp2] eqn:W'; try discriminate.
        apply wread_available in W'; [|lia|discriminate]. destruct W' as (_&_&Wl&_).
        specialize (IH (acc ++ y :: c) inp2). destruct (read_exact_t f (Z.to_N n) (acc ++ y :: c) inp2) as [[r inp3] o].
        assert (Hl : lenN (acc ++ y :: c) <= Z.to_N n) by (unfold lenN in *; rewrite app_length; lia).
        intros b' Hb. destruct (IH Hl b' Hb) as [I1 I2]. split; [|exact I2]. rewrite <- I1.
        change (pieces (Ok (y :: c) :: o)) with ((y :: c) :: pieces o). cbn [List.concat]. now rewrite <- app_assoc. }
      assert (Hb : lenN b <= Z.to_N n).
      { unfold wread in W. destruct (wq_input q) as [|[b0|e0] r0]; [injection W as <- _; unfold lenN; cbn; lia| |discriminate].
        destruct (lenN b0 <=? Z.to_N n) eqn:Eb; injection W as <- _; [lia|]. unfold takeN, lenN. rewrite firstn_length. lia. }
      specialize (G (input_fuel (wq_input q)) b inp1 Hb). destruct (read_exact_t _ _ _ _) as [[r inp2] o]. intros b' H'. exact (G b' H'). }
    destruct (read_body_with_content_length_t _ _) as [[r inp] o]. rewrite <- R. destruct r as [b|e]; [|cbn [bind to_internal]; destruct (is_connect e); discriminate].
    intros _. right. destruct (Rl b eq_refl) as [-> ->]. destruct (L ltac:(lia)) as (s&Es&En). exists s, n. repeat (split; [assumption|]). split; lia.
  - pose proof (drain_loop_same (input_fuel (wq_input q)) (wq_input q)) as R. pose proof (drain_loop_end (input_fuel (wq_input q)) (wq_input q) (le_n _)) as D.
    unfold wsgi_body. destruct (drain_loop _ _) as [[e inp] o]. rewrite R. destruct e as [e|]; [cbn [bind to_internal]; destruct (is_connect e); discriminate|].
    intros _. left. exact D.
Qed.

Lemma talk_outcome {A B} (ap : app A B) now q : let '(r, _, t) := wsgi_talk ap now q in wr_out r = WReturn ->
  (on_http1 q = true -> read_to_end t)
  \/ call_succeeded ap now q r
     /\ forall ep hs p cx, wsgi_open_request ap now q = Ok (ep, hs, p, cx) -> takes_one ep = true -> ~ (p = PConnect /\ is_unary ep = true /\ cx_http cx = lit "GET") ->
        read_to_end t \/ read_to_length q t.
Proof.
  unfold wsgi_talk. cbv zeta.
  assert (Er : forall (inv : list (invoked A)) ev e ctx inp (t : list (tevent A B)),
     let '(r, _, t') := let '(d, inp, o) := drain_body q inp in
      (wsgi_call_error (draining q (fun _ => d)) inv ev e ctx, inp, t ++ map TRead o ++ wnewly ev (wr_events (wsgi_call_error (draining q (fun _ => d)) inv ev e ctx))) in
     wr_out r = WReturn -> on_http1 q = true -> read_to_end t').
  { intros. pose proof (drain_body_end q inp) as D. destruct (drain_body q inp) as [[d inp'] o]. intros Hr H. specialize (D H). destruct d as [x|].
    - exfalso. unfold wsgi_call_error, MWsgi.drain in Hr. cbn [wq_drain draining] in Hr. unfold on_http1 in H.
      change (env_default (draining q (fun _ => Some x)) "SERVER_PROTOCOL" []) with (env_default q "SERVER_PROTOCOL" []) in Hr. rewrite H in Hr. discriminate Hr.
    - apply read_to_end_tail; [exact D|apply reads_newly]. }
  destruct (wsgi_open_request ap now q) as [[[[ep hs] p] cx]|e] eqn:Ho.
  2:{ specialize (Er [] [] e None (wq_input q) []). destruct (let '(d, inp, o) := _ in _) as [[r rest] t]. auto. }
  assert (H : let '(r, inp, t) := match ep, p with
                          | EpUnary _ f, PConnect =>
                              let '(h, inp, t) := wsgi_unary_t ap q (cx_http cx) f cx hs in (inl h, inp, t)
                          | _, _ => wsgi_stream_t ap q p hs ep cx
                          end in
    match r with
    | inr r => wr_out r = WReturn -> (on_http1 q = true -> read_to_end t)
               \/ call_succeeded ap now q r /\ (takes_one ep = true -> ~ (p = PConnect /\ is_unary ep = true /\ cx_http cx = lit "GET") -> read_to_end t \/ read_to_length q t)
    | inl (inv, rs, ev, None) => (on_http1 q = true -> read_to_end t)
               \/ call_succeeded ap now q (mk_wr inv ev WReturn) /\ (takes_one ep = true -> ~ (p = PConnect /\ is_unary ep = true /\ cx_http cx = lit "GET") -> read_to_end t \/ read_to_length q t)
    | inl (inv, rs, ev, Some i) => True
    end).
  { assert (St : (p = PConnect -> is_unary ep = false) -> let '(r, inp, t) := wsgi_stream_t ap q p hs ep cx in
      match r with
      | inr r => wr_out r = WReturn -> (on_http1 q = true -> read_to_end t)
               \/ call_succeeded ap now q r /\ (takes_one ep = true -> ~ (p = PConnect /\ is_unary ep = true /\ cx_http cx = lit "GET") -> read_to_end t \/ read_to_length q t)
      | inl (inv, rs, ev, None) => (on_http1 q = true -> read_to_end t)
               \/ call_succeeded ap now q (mk_wr inv ev WReturn) /\ (takes_one ep = true -> ~ (p = PConnect /\ is_unary ep = true /\ cx_http cx = lit "GET") -> read_to_end t \/ read_to_length q t)
      | inl (inv, rs, ev, Some i) => True
      end).
    { intro Hu. pose proof (stream_outcome ap now q ep hs p cx Ho Hu) as O. destruct (wsgi_stream_t ap q p hs ep cx) as [[r inp] t].
      destruct r as [[[[inv rs] ev] [i|]]|r]; [exact I| |].
      - destruct O as [O|[O1 O2]]; [now left|right]. split; [exact O1|]. intros Ht _. left. exact (O2 Ht).
      - intro Hr. destruct (O Hr) as [O'|[O1 O2]]; [now left|right]. split; [exact O1|]. intros Ht _. left. exact (O2 Ht). }
    destruct ep as [m f|m f|m f|m f]; [destruct p|..]; try (apply St; (discriminate || reflexivity)).
    unfold wsgi_unary_t. destruct (wsgi_unary ap q (cx_http cx) f cx hs) as [[[inv rs] ev] i] eqn:U.
    destruct (if str_eqb (cx_http cx) (lit "GET") then (wq_input q, []) else post_reads ap q hs) as [inp o] eqn:Eo.
    destruct i as [i|]; [exact I|]. right. revert U. unfold wsgi_unary.
    destruct (if str_eqb (cx_http cx) (lit "GET") then wsgi_get_request ap q else wsgi_post_request ap q hs) as [[a k]|e] eqn:Eq; [|discriminate].
    destruct (run_fn (f a cx) ([], None) rs_new) as [[b|i] rs'] eqn:Ef; [|discriminate].
    match goal with |- context [match ?x with Ok _ => _ | Raise _ => _ end] => destruct x as [[z body]|] eqn:Ew end; [|discriminate].
    intros [= <- <- <-]. split.
    - split; [reflexivity|]. left. do 8 eexists. split; [exists m; exact Ho|]. split; [exact Ef|]. split; reflexivity.
    - intros _ Hg. destruct (str_eqb (cx_http cx) (lit "GET")) eqn:Eg.
      + exfalso. apply Hg. split; [reflexivity|]. split; [reflexivity|]. now apply str_eqb_eq.
      + pose proof (post_read ap q hs _ Eq) as P. rewrite Eo in P. destruct P as [(l&->)|(s&n&P1&P2&P3&P4)]; [left|right].
        * exists l. now rewrite reads_app, reads_reads, reads_outs, app_nil_r.
        * exists s, n. repeat (split; [assumption|]). now rewrite reads_app, reads_reads, reads_outs, app_nil_r. }
  destruct (match ep, p with EpUnary _ f, PConnect => _ | _, _ => _ end) as [[r inp] t].
  assert (U : forall (P : Prop), (takes_one ep = true -> ~ (p = PConnect /\ is_unary ep = true /\ cx_http cx = lit "GET") -> P) ->
    forall ep' hs' p' cx', Ok (ep, hs, p, cx) = Ok (ep', hs', p', cx') -> takes_one ep' = true -> ~ (p' = PConnect /\ is_unary ep' = true /\ cx_http cx' = lit "GET") -> P).
  { intros P HP ep' hs' p' cx' E. injection E as <- <- <- <-. exact HP. }
  destruct r as [[[[inv rs] ev] [[e|]|]]|r].
  - specialize (Er inv ev e (Some rs) inp t). destruct (let '(d, inp, o) := _ in _) as [[r rest] t']. auto.
  - discriminate.
  - intros _. destruct H as [H|[H1 H2]]; [now left|right; split; [exact H1|now apply U]].
  - intro Hr. destruct (H Hr) as [H'|[H1 H2]]; [now left|right; split; [exact H1|now apply U]].
Qed.

(** Over HTTP/1, when the application ends a response without raising, the request body was read to its end, unless the response is
    that of a successful call.  Missing: successful calls, see [C77_one_partial] and [C77_early_refuted]. *)
Theorem C77_error_partial : forall (A B : Type) (ap : app A B) now q,
  startswith (lit "HTTP/1") (env_default q "SERVER_PROTOCOL" []) = true ->
  let '(r, _, t) := wsgi_talk ap now q in wr_out r = WReturn -> read_to_end t \/ call_succeeded ap now q r.
Proof.
  intros A B ap now q H. pose proof (talk_outcome ap now q) as O. destruct (wsgi_talk ap now q) as [[r rest] t]. intro Hr.
  destruct (O Hr) as [O'|[O' _]]; [left; exact (O' H)|right; exact O'].
Qed.
Print Assumptions C77_error_partial.

(** So with every HTTP status but 200, ... *)
Theorem C77_status : forall (A B : Type) (ap : app A B) now q line h,
  startswith (lit "HTTP/1") (env_default q "SERVER_PROTOCOL" []) = true ->
  let '(r, _, t) := wsgi_talk ap now q in
  wr_out r = WReturn -> In (WStart line h) (wr_events r) -> line <> lit "200 OK" -> read_to_end t.
Proof.
  intros A B ap now q line h H. pose proof (C77_error_partial A B ap now q H) as E. destruct (wsgi_talk ap now q) as [[r rest] t]. intros Hr Hi Hl.
  destruct (E Hr) as [E'|[_ S]]; [exact E'|exfalso]. destruct S as [(f&hs&cx&a&b&rs&h0&body&_&_&_&Ev)|(ep&hs&p&cx&k&rz&z&steps&rs&frs&h0&fin&_&_&_&_&Ef&Ev)]; rewrite Ev in Hi.
  - destruct Hi as [Hi|[Hi|[]]]; [injection Hi as <- _; now apply Hl|discriminate Hi].
  - destruct Hi as [Hi|Hi]; [injection Hi as <- _; now apply Hl|]. apply in_app_or in Hi. destruct Hi as [Hi|Hi].
    + apply in_map_iff in Hi. destruct Hi as (x&Hi&_). discriminate Hi.
    + unfold end_response in Ef. destruct (writer_end _ _ _ _ _) as [[b|hh]|]; cbn [bind] in Ef; [injection Ef as <-|injection Ef as <-|discriminate]; cbn in Hi; intuition discriminate.
Qed.
Print Assumptions C77_status.

(** ... and with every gRPC status but 0. *)
Theorem C77_grpc : forall (A B : Type) (ap : app A B) now q ts,
  startswith (lit "HTTP/1") (env_default q "SERVER_PROTOCOL" []) = true ->
  let '(r, _, t) := wsgi_talk ap now q in
  wr_out r = WReturn -> In (WTrailers ts) (wr_events r) -> statuses ts <> [lit "0"] -> read_to_end t.
Proof.
  intros A B ap now q ts H. pose proof (C77_error_partial A B ap now q H) as E. destruct (wsgi_talk ap now q) as [[r rest] t]. intros Hr Hi Hl.
  destruct (E Hr) as [E'|[_ S]]; [exact E'|exfalso]. destruct S as [(f&hs&cx&a&b&rs&h0&body&_&_&_&Ev)|(ep&hs&p&cx&k&rz&z&steps&rs&frs&h0&fin&_&_&_&_&Ef&Ev)]; rewrite Ev in Hi.
  - destruct Hi as [Hi|[Hi|[]]]; discriminate Hi.
  - destruct Hi as [Hi|Hi]; [discriminate Hi|]. apply in_app_or in Hi. destruct Hi as [Hi|Hi].
    + apply in_map_iff in Hi. destruct Hi as (x&Hi&_). discriminate Hi.
    + destruct (end_response_trl _ _ _ _ _ _ _ Ef Hi) as [(z'&rs'&hh&Ew&->) _]. destruct p; cbn [writer_end option_map] in Ew.
      * destruct (connect_end (Some z') (rs_t rs') None); discriminate Ew.
      * destruct (grpc_trailers (ap_sc ap) (rs_t rs') None) as [g|] eqn:Eg; [|discriminate]. injection Ew as ->.
        destruct (grpc_trailers_statuses _ _ _ _ Eg) as (s&Es&->). contradiction.
      * destruct (grpc_web_end (ap_sc ap) (Some z') (rs_t rs') None); discriminate Ew.
Qed.
Print Assumptions C77_grpc.

(** A successful call of a method that takes one request message, other than by GET, has read the request body: to its end, or as
    many bytes as Content-Length says.  Missing: GET requests with a body, see [C77_get_refuted]. *)
Theorem C77_one_partial : forall (A B : Type) (ap : app A B) now q ep hs p cx,
  wsgi_open_request ap now q = Ok (ep, hs, p, cx) -> takes_one ep = true -> cx_http cx <> lit "GET" ->
  startswith (lit "HTTP/1") (env_default q "SERVER_PROTOCOL" []) = true ->
  let '(r, _, t) := wsgi_talk ap now q in wr_out r = WReturn -> read_to_end t \/ read_to_length q t.
Proof.
  intros A B ap now q ep hs p cx Ho Ht Hg H. pose proof (talk_outcome ap now q) as O. destruct (wsgi_talk ap now q) as [[r rest] t]. intro Hr.
  destruct (O Hr) as [O'|[_ O']]; [left; exact (O' H)|]. apply (O' ep hs p cx Ho Ht). intros (_&_&X). exact (Hg X).
Qed.
Print Assumptions C77_one_partial.

(** A method with a request stream that returns before the stream is at its end: the call succeeds, and the rest of the request body
    stays unread, although the server keeps the connection and takes what follows on it for the next request. *)
Definition early : endpoint pystr pystr := EpClientStream ex_method (fun _ => Pull (fun x => match x with PMsg a => Ret a | _ => Ret [] end)).
Definition ex_early (ct : string) : wsgi_request :=
  mk_wq (wq_env (ex_wq "POST" ct)) [RD (ex_frame 0 [7]); RD (ex_frame 0 [8])] true (fun _ => None).
Theorem C77_early_refuted : forall ct, In ct ["application/grpc+proto"; "application/grpc-web+proto"; "application/connect+proto"]%string ->
  exists (ap : app pystr pystr) q, honest (wq_input q) /\ env_get q "CONTENT_TYPE" = Some (lit ct)
  /\ startswith (lit "HTTP/1") (env_default q "SERVER_PROTOCOL" []) = true
  /\ let '(r, rest, t) := wsgi_talk ap 0%Z q in wr_out r = WReturn /\ call_succeeded ap 0%Z q r /\ ~ read_to_end t /\ content rest = ex_frame 0 [8].
Proof.
  intros ct Hct. exists (ex_app early), (ex_early ct).
  assert (E : startswith (lit "HTTP/1") (env_default (ex_early ct) "SERVER_PROTOCOL" []) = true).
  { destruct Hct as [<-|[<-|[<-|[]]]]; vm_compute; reflexivity. }
  split; [repeat constructor; discriminate|]. split; [destruct Hct as [<-|[<-|[<-|[]]]]; vm_compute; reflexivity|]. split; [exact E|].
  pose proof (C77_error_partial _ _ (ex_app early) 0%Z (ex_early ct) E) as C.
  assert (X : let '(r, rest, t) := wsgi_talk (ex_app early) 0%Z (ex_early ct) in wr_out r = WReturn /\ reads t = [Ok (ex_frame 0 [7])] /\ content rest = ex_frame 0 [8]).
  { destruct Hct as [<-|[<-|[<-|[]]]]; vm_compute; repeat split. }
  destruct (wsgi_talk (ex_app early) 0%Z (ex_early ct)) as [[r rest] t]. destruct X as (X1&X2&X3).
  assert (N : ~ read_to_end t). { intros (l&Hl). rewrite X2 in Hl. destruct l as [|y [|? ?]]; try discriminate Hl. }
  split; [exact X1|]. split; [|split; [exact N|exact X3]]. destruct (C X1) as [C'|C']; [contradiction|exact C'].
Qed.
Print Assumptions C77_early_refuted.
(** So does a GET request with a body. *)
Definition ex_get_body : wsgi_request :=
  mk_wq (wq_env (ex_wq "GET" "application/proto") ++ [(lit "QUERY_STRING", lit "encoding=proto&message=a")]) [RD [7]] true (fun _ => None).
Theorem C77_get_refuted : exists (ap : app pystr pystr) q, honest (wq_input q) /\ startswith (lit "HTTP/1") (env_default q "SERVER_PROTOCOL" []) = true
  /\ let '(r, rest, t) := wsgi_talk ap 0%Z q in call_succeeded ap 0%Z q r /\ reads t = [] /\ rest = [RD [7]].
Proof.
  exists (ex_app ex_echo), ex_get_body. assert (E : startswith (lit "HTTP/1") (env_default ex_get_body "SERVER_PROTOCOL" []) = true) by (vm_compute; reflexivity).
  split; [repeat constructor; discriminate|]. split; [exact E|]. pose proof (C77_error_partial _ _ (ex_app ex_echo) 0%Z ex_get_body E) as C.
  assert (X : let '(r, rest, t) := wsgi_talk (ex_app ex_echo) 0%Z ex_get_body in wr_out r = WReturn /\ reads t = [] /\ rest = [RD [7]]) by (vm_compute; repeat split).
  destruct (wsgi_talk (ex_app ex_echo) 0%Z ex_get_body) as [[r rest] t]. destruct X as (X1&X2&X3).
  split; [|split; assumption]. destruct (C X1) as [(l&Hl)|C']; [|exact C']. rewrite X2 in Hl. destruct l; discriminate Hl.
Qed.
Print Assumptions C77_get_refuted.

(** A method that raises after the first message: the rest of the body is read before the response ends. *)
Definition failing : endpoint pystr pystr := EpClientStream ex_method (fun _ => Pull (fun _ => Fail (IExn (EConnect NotFound (lit "no") [])))).
Example C77_example :
  exists hs ts, wsgi_talk (ex_app failing) 0%Z (ex_early "application/grpc+proto")
    = (mk_wr [InvStream] [WStart (lit "200 OK") hs; WTrailers ts; WBody []] WReturn, [],
       [TAsk; TRead (Ok (ex_frame 0 [7])); TGive (PMsg [7]); TRead (Ok (ex_frame 0 [8])); TRead (Ok []);
        TOut (WStart (lit "200 OK") hs); TOut (WTrailers ts); TOut (WBody [])])
  /\ statuses ts = [lit "5"].
Proof. do 2 eexists. split; vm_compute; reflexivity. Qed.
(** Calls with one request message: one read until the stream says that it is at its end, one read as far as Content-Length says. *)
Definition ex_pieces (ct : string) (more : dict pystr) (l : list bytes) : wsgi_request :=
  mk_wq (wq_env (ex_wq "POST" ct) ++ more) (map RD l) true (fun _ => None).
Example C77_example_one : exists ep hs p cx, wsgi_open_request (ex_app ex_echo) 0%Z (ex_pieces "application/grpc+proto" [] [ex_frame 0 [7]]) = Ok (ep, hs, p, cx)
  /\ takes_one ep = true /\ cx_http cx <> lit "GET"
  /\ exists r t, wsgi_talk (ex_app ex_echo) 0%Z (ex_pieces "application/grpc+proto" [] [ex_frame 0 [7]]) = (r, [], t) /\ wr_out r = WReturn /\ wr_inv r = [InvMsg [7]]
     /\ reads t = [Ok (ex_frame 0 [7]); Ok []].
Proof. do 4 eexists. split; [vm_compute; reflexivity|]. split; [reflexivity|]. split; [discriminate|]. do 2 eexists. vm_compute. repeat split. Qed.
Example C77_example_length :
  let q := ex_pieces "application/proto" [(lit "CONTENT_LENGTH", lit "3")] [[1; 2]; [3]; [4]] in
  exists r t, wsgi_talk (ex_app ex_echo) 0%Z q = (r, [RD [4]], t) /\ wr_out r = WReturn /\ wr_inv r = [InvMsg [1; 2; 3]] /\ reads t = [Ok [1; 2]; Ok [3]].
Proof. do 2 eexists. vm_compute. repeat split. Qed.
(** An unknown path is answered with 404 after the body was read. *)
Example C77_example_status :
  let q := mk_wq (map (fun kv => if str_eqb (fst kv) (lit "PATH_INFO") then (fst kv, lit "/nowhere") else kv) (wq_env (ex_wq "POST" "application/proto")))
             [RD [1]; RD [2]] true (fun _ => None) in
  wsgi_talk (ex_app ex_echo) 0%Z q
    = (mk_wr [] [WStart (lit "404 Not Found") []] WReturn, [], [TRead (Ok [1]); TRead (Ok [2]); TRead (Ok []); TOut (WStart (lit "404 Not Found") [])]).
Proof. vm_compute. reflexivity. Qed.

(** ** C78 *)

(** When a method asks for the next request message, every message it yielded before has been handed to the server.  Then the
    application reads from the request, each time only if what was read before does not hold a message that the method was not yet
    given; and then the method gets its answer. *)
Theorem C78_ask : forall (A B : Type) (ap : app A B) now q before after,
  snd (wsgi_talk ap now q) = before ++ TAsk :: after ->
  List.length (chunks_of (handed before)) = List.length (wyielded before)
  /\ exists rs x rest, after = map TRead rs ++ TGive x :: rest
     /\ forall r1 y r2 fs tl, rs = r1 ++ y :: r2 -> frames_of (List.concat (pieces (reads before ++ r1))) fs tl ->
        (List.length fs <= List.length (wgiven before))%nat.
Proof.
  intros A B ap now q before after E. pose proof (talk_prompt ap now q) as P. destruct (wsgi_talk ap now q) as [[r rest] t]. cbn [snd] in E.
  destruct (P before TAsk after E I) as [L H]. split; [exact L|].
  destruct (H eq_refl) as (rs&x&rest'&->&Hl). exists rs, x, rest'. split; [reflexivity|]. intros r1 y r2 fs tl Er Hf. apply (Hl r1 y r2 Er fs tl).
  rewrite pieces_app, concat_app in Hf. exact Hf.
Qed.
Print Assumptions C78_ask.

(** So a message that has arrived is given without waiting for anything. *)
Theorem C78_arrived : forall (A B : Type) (ap : app A B) now q before after fs tl,
  snd (wsgi_talk ap now q) = before ++ TAsk :: after ->
  frames_of (List.concat (pieces (reads before))) fs tl -> (List.length (wgiven before) < List.length fs)%nat ->
  exists x rest, after = TGive x :: rest.
Proof.
  intros A B ap now q before after fs tl E Hf Hl. destruct (C78_ask A B ap now q before after E) as [_ (rs&x&rest&->&H)].
  destruct rs as [|y rs]; [now exists x, rest|]. exfalso. specialize (H [] y rs fs tl eq_refl). rewrite app_nil_r in H. specialize (H Hf). lia.
Qed.
Print Assumptions C78_arrived.

(** A message is handed to the server before the method goes on to the next one. *)
Theorem C78_yield : forall (A B : Type) (ap : app A B) now q before b after,
  snd (wsgi_talk ap now q) = before ++ TYield b :: after ->
  List.length (chunks_of (handed before)) = List.length (wyielded before).
Proof.
  intros A B ap now q before b after E. pose proof (talk_prompt ap now q) as P. destruct (wsgi_talk ap now q) as [[r rest] t]. exact (proj1 (P before (TYield b) after E I)).
Qed.
Print Assumptions C78_yield.

(** A method that answers each message with an echo; the client sends two messages in three pieces. *)
Definition ex_echo_two : endpoint pystr pystr :=
  EpBidi ex_method (fun _ => Pull (fun x => match x with PMsg a => Yield a quiet (Pull (fun y => match y with PMsg b => Yield b quiet (Ret tt) | _ => Ret tt end)) | _ => Ret tt end)).
Example C78_example :
  exists hs, snd (wsgi_talk (ex_app ex_echo_two) 0%Z (ex_pieces "application/grpc+proto" [] [ex_frame 0 [7] ++ [0; 0]; [0; 0; 1]; [8]]))
    = [TAsk; TRead (Ok (ex_frame 0 [7] ++ [0; 0])); TGive (PMsg [7]); TYield [7]; TOut (WStart (lit "200 OK") hs); TOut (WBody (ex_frame 0 [7]));
       TAsk; TRead (Ok [0; 0; 1]); TRead (Ok [8]); TGive (PMsg [8]); TYield [8]; TOut (WBody (ex_frame 0 [8]));
       TOut (WTrailers [(lit "grpc-status", lit "0")]); TOut (WBody [])].
Proof. eexists. vm_compute. reflexivity. Qed.
Example C78_example_arrived :
  let t := snd (wsgi_talk (ex_app ex_echo_two) 0%Z (ex_pieces "application/grpc+proto" [] [ex_frame 0 [7] ++ ex_frame 0 [8]])) in
  exists before x rest, t = before ++ TAsk :: TGive x :: rest /\ frames_of (List.concat (pieces (reads before))) [mk_frame 0 [7]; mk_frame 0 [8]] []
    /\ wgiven before = [[7]].
Proof.
  cbv zeta. eexists (firstn 6 (snd (wsgi_talk (ex_app ex_echo_two) 0%Z (ex_pieces "application/grpc+proto" [] [ex_frame 0 [7] ++ ex_frame 0 [8]])))), (PMsg [8]), _.
  split; [vm_compute; reflexivity|]. split; [|vm_compute; reflexivity].
  assert (E : List.concat (pieces (reads (firstn 6 (snd (wsgi_talk (ex_app ex_echo_two) 0%Z (ex_pieces "application/grpc+proto" [] [ex_frame 0 [7] ++ ex_frame 0 [8]])))))) = [0;0;0;0;1;7;0;0;0;0;1;8])
    by (vm_compute; reflexivity).
  rewrite E.
  apply (fo_cons (mk_frame 0 [7]) [0;0;0;0;1;7] [0;0;0;0;1;8]); [exists 0, 0, 0, 1; auto|].
  apply (fo_cons (mk_frame 0 [8]) [0;0;0;0;1;8] []); [exists 0, 0, 0, 1; auto|]. constructor. left. cbn. lia.
Qed.
