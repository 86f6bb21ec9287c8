(** C82 on the WSGI server: through a bidirectional stream, a client application and a method talk as if face to face. *)
From Coq Require Import List NArith ZArith Bool String Lia.
From Verif Require Import MBase MPyStr MHeaders SHeaders MWire MTimeout MEnvelope MProtocol SProtocol MClient SClient MServer MWsgi SServer SLink LLink LLink2 LNet
  LDuplex LCausal SDialogue LDialogue MTalk STalk LTalk SDialogueW LDialogueW PProtocol PClient PResponse PLink PDialogue.
Import ListNotations.
Local Open Scope N_scope.

(** As C82_dialogue, for the WSGI server: as long as what is read for the method is what the client has written, what the method is
    told and says is what it would be told and would say face to face, and the client reads what it said, unless the method said a
    message that cannot be written, which is then the last that it said.  There is a way for the client's messages to arrive.  Except
    over HTTP/1, nothing is read but for the method. *)
Theorem C82_wsgi : forall (A B : Type) (c : client A B) (ap : app A B) m mi f k ck net md u hist timeout reqs stop now q rq,
  let ep := EpBidi mi f in
  fits c ap m ep k -> called_with u hist -> wsgi_lines hist -> timeout_fits c timeout hist ->
  In rq (sr_sent (execute_bidi_stream c ck net md m u timeout reqs stop)) -> head_reaches_wsgi (cl_address c) rq q ->
  exists cx zc, let z := negotiate_compression (accept_header_value c) (ap_comps ap) in
    context_of (cl_proto c) true hist (effective_timeout timeout (cl_timeout c)) mi cx
    /\ dget (cl_comps c) (z_name z) = Some zc
    /\ (forall inp w x r, startswith (lit "HTTP/1") (env_default q "SERVER_PROTOCOL" []) = false ->
          snd (wsgi_talk ap now (with_input q inp)) = w ++ TRead x :: r -> for_method r)
    /\ forall (says : talker A B),
         steady says ->
         (forall a d, In (Told (PMsg a)) (dialogue says (f cx) false 0 []) -> k_enc_req (cl_codec c) a = Ok d -> fits_in (ap_max ap) d) ->
         (forall b d, In (Said b) (dialogue says (f cx) false 0 []) -> k_enc_res k b = Ok d -> fits_in (cl_max c) d) ->
         (forall inp t, t = snd (wsgi_talk ap now (with_input q inp)) -> wrelayed c zc says t ->
            (wdialog_of t = dialogue says (f cx) false 0 []
             /\ client_reads c zc (firstn (List.length (wyielded t)) (chunks_of (handed t))) = wyielded t)
            \/ exists told b rest e, wdialog_of t = told ++ [Said b] /\ dialogue says (f cx) false 0 [] = told ++ Said b :: rest
               /\ write_message (k_enc_res k) (Some z) b = Raise e)
         /\ ((forall ys, exists bs, client_writes c (fst (says ys)) bs) -> converses says (f cx) false 0 [] ->
             exists inp, wrelayed c zc says (snd (wsgi_talk ap now (with_input q inp)))).
Proof.
  intros A B c ap m mi f k ck net md u hist timeout reqs stop now q rq ep F C Wl Tf Irq (H1&H2&H3&H4&H5&H6&H7&H8&H9&H10).
  unfold execute_bidi_stream in Irq. rewrite send_stream_sent_rq in Irq. destruct Irq as [Erq|[]].
  set (ccx := call_ctx c (ck_start ck) m u timeout true false) in *.
  set (rq0 := mk_rq (lit "POST") (call_url c m) (h_allitems (cx_headers ccx)) (request_content c [] None) (timeout_s ccx (ck_send ck))).
  destruct (wsgi_opens_undoes c ap m ep k ck u hist timeout true ([], None) now (mk_wq (wq_env q) [] (wq_trailers q) (fun _ => None)) rq0 F C Wl Tf (fun _ => conj eq_refl eq_refl) eq_refl)
    as (hs&cx&rz&Rz&O1&O2&O3&_).
  { rewrite <- Erq in *. cbn [rq_method rq_url rq_headers] in *. unfold arrives_wsgi, rq0. cbn [rq_method rq_headers rq_body wq_env wq_input wq_trailers wq_drain request_content].
    do 8 (split; [assumption|]). split; [left; exact H9|]. split; [reflexivity|]. split; [exists []; repeat split; constructor|]. split; [exact H10|]. reflexivity. }
  { intros a d []. }
  destruct (chosen_compression c ap m ep k F) as (zc&x&Dc&U&_).
  pose proof F as (_&_&_&_&_&_&Req&Res&_).
  set (z := negotiate_compression (accept_header_value c) (ap_comps ap)) in *.
  assert (R : forall inp, wsgi_stream_request ap now (with_input q inp) ep hs (cl_proto c) cx k) by (intros inp; exact O1).
  assert (G : forall s rs b, let '(s', _) := wsgi_body_step (cl_proto c) (k_name k) (k_enc_res k) z s rs b in exists l, ws_ev s' = ws_ev s ++ l).
  { intros s rs b. pose proof (step_writes (cl_proto c) (k_name k) (k_enc_res k) z s rs b) as S. destruct (wsgi_body_step _ _ _ _ s rs b) as [s' i]. destruct S as (l&S&_). eauto. }
  exists cx, zc. cbv zeta. split; [exact O2|]. split; [exact Dc|]. split.
  { intros inp w y r Hh E. destruct (bidi_talk ap now (with_input q inp) mi f hs (cl_proto c) cx k rz z (R inp) O3) as (v&El&_&_&Hr). rewrite El in E. specialize (Hr Hh).
    pose proof (drive_w_asked _ (mk_rconf RBase rz (ap_max ap) (k_dec_req k)) (f cx) G TqStart (wq_input (with_input q inp)) rs_new (mk_wst [] false)) as As.
    destruct (drive_w _ _ _ _ _ _ _) as [[[[s rs] e] inp'] t0]. cbn [snd] in E. destruct (app_split _ _ _ _ _ E) as [(d&E1&E2)|(d&E1&E2)].
    - destruct (As w y d E1) as (more&gx&rest&->). exists more, gx, (rest ++ v). rewrite E2, <- app_assoc. reflexivity.
    - exfalso. rewrite E2, reads_app in Hr. destruct (reads d); discriminate Hr. }
  intros says St Sm Sh. split.
  - intros inp t Et Rl. destruct (bidi_talk ap now (with_input q inp) mi f hs (cl_proto c) cx k rz z (R inp) O3) as (v&El&Hd&Hy&_). rewrite <- Et in El.
    pose proof (drive_w_dialogue c zc rz z (ap_max ap) k says St Req Res Rz U (cl_proto c) (k_name k) (f cx) TqStart (wq_input (with_input q inp)) rs_new (mk_wst [] false) [] false O []
      (conj eq_refl (conj eq_refl eq_refl)) (Forall2_nil _) (Forall_nil _) (fun a I d => Sm a d I) (fun b I d => Sh b d I)) as D.
    pose proof (drive_w_asked _ (mk_rconf RBase rz (ap_max ap) (k_dec_req k)) (f cx) G TqStart (wq_input (with_input q inp)) rs_new (mk_wst [] false)) as As.
    destruct (drive_w _ _ _ _ _ _ _) as [[[[s rs] e] inp'] t0]. cbn [snd] in El. subst t. rewrite El in Rl |- *. clear El.
    rewrite wdialog_app, Hd, app_nil_r, wyielded_app, Hy, app_nil_r, handed_app, chunks_app.
    destruct D as [[D1 D2]|(told&b&rest&e'&D1&D2&D3)].
    { intros w y r E. apply (Rl w y (r ++ v)); [rewrite E, <- app_assoc; reflexivity|]. destruct (As w y r E) as (more&gx&rest&->). exists more, gx, (rest ++ v). now rewrite <- app_assoc. }
    + left. split; [now rewrite D1|]. cbn [List.app] in D2. rewrite (Forall2_len _ _ _ D2), firstn_app, firstn_all2, Nat.sub_diag by lia. cbn [firstn]. rewrite app_nil_r.
      apply (reads_back c zc z k Res U); [|exact D2]. apply Forall_forall. intros b Ib d Hd'. apply (Sh b d); [|exact Hd']. rewrite D1.
      clear -Ib. induction t0 as [|ev t0 IH]; [exact Ib|]. destruct ev; cbn in *; auto. destruct Ib as [->|Ib]; auto.
    + right. exists told, b, rest, e'. auto.
  - intros Wr Cv.
    destruct (some_wrelay c zc rz z (ap_max ap) k says St Req Res Rz U (cl_proto c) (k_name k) (f cx) Wr TqStart rs_new (mk_wst [] false) [] false O []) as (inp&Hr).
    { left. auto. }
    { constructor. }
    { constructor. }
    { intros _. exists []. split; [constructor|]. split; [reflexivity|lia]. }
    { intros a I d. exact (Sm a d I). }
    { intros b I d. exact (Sh b d I). }
    { exact Cv. }
    exists inp. destruct (bidi_talk ap now (with_input q inp) mi f hs (cl_proto c) cx k rz z (R inp) O3) as (v&El&Hd&_). rewrite El. cbn [wq_input with_input].
    intros w y r E (more&gx&rest&Er). destruct (app_split _ _ _ _ _ E) as [(d&E1&E2)|(d&E1&E2)]; [exact (Hr w y d E1)|].
    exfalso. rewrite E2, Er in Hd. rewrite wdialog_app in Hd. apply app_eq_nil in Hd. destruct Hd as [_ Hd].
    change (TRead y :: map TRead more ++ TGive gx :: rest) with (map TRead (y :: more) ++ @TGive A B gx :: rest) in Hd. rewrite wdialog_app, wdialog_reads in Hd. discriminate Hd.
Qed.
Print Assumptions C82_wsgi.

(** Over HTTP/1 a method that fails while the client has not ended its stream: the rest of the request is read before the error is
    handed to the server, so a client that waits for the answer before it ends its stream never gets it. *)
Definition ex_patient : talker pystr pystr := fun ys => ([lit "hi"], match ys with [] => false | _ => true end).
Theorem C82_http1_refuted : exists (c : client pystr pystr) (ap : app pystr pystr) q (g : prog pystr pystr unit) zc,
  startswith (lit "HTTP/1") (env_default q "SERVER_PROTOCOL" []) = true
  /\ steady ex_patient /\ converses ex_patient g false 0 [] /\ dialogue ex_patient g false 0 [] = []
  /\ forall inp, exists w x r, snd (wsgi_talk ap 0%Z (with_input q inp)) = w ++ TRead x :: r /\ handed w = [] /\ ~ wreports c zc ex_patient w x.
Proof.
  set (g := @Fail pystr pystr unit (IExn ex_gone)).
  exists (link_client PGrpc), (ex_app (EpBidi ex_method (fun _ => g))), (ex_wq "POST" "application/grpc+proto"), g, identity_comp.
  split; [vm_compute; reflexivity|]. split.
  { intros [|y ys] more; exists []; (split; [symmetry; apply app_nil_r|]); [discriminate|auto]. }
  split; [exact I|]. split; [reflexivity|]. intros inp.
  assert (E : exists v, snd (wsgi_talk (ex_app (EpBidi ex_method (fun _ => g))) 0%Z (with_input (ex_wq "POST" "application/grpc+proto") inp)) = map TRead (snd (drain_loop (input_fuel inp) inp)) ++ v).
  { set (ap := ex_app (EpBidi ex_method (fun _ => g))). set (q := ex_wq "POST" "application/grpc+proto").
    assert (O : exists hs cx k rz z, wsgi_open_request ap 0%Z q = Ok (EpBidi ex_method (fun _ => g), hs, PGrpc, cx)
      /\ dget (ap_codecs ap) (codec_name_from_content_type PGrpc true (h_get_default hs (lit "content-type") [])) = Some k
      /\ negotiate_stream_compression PGrpc hs (ap_comps ap) = (Some rz, z)).
    { eexists _, _, _, _, _. split; [vm_compute; reflexivity|]. split; vm_compute; reflexivity. }
    destruct O as (hs&cx&k&rz&z&O&D&N). assert (Hh : startswith (lit "HTTP/1") (env_default (with_input q inp) "SERVER_PROTOCOL" []) = true) by (vm_compute; reflexivity).
    unfold wsgi_talk. change (wsgi_open_request ap 0%Z (with_input q inp)) with (wsgi_open_request ap 0%Z q). rewrite O. cbv iota beta. unfold wsgi_stream_t. rewrite N, D.
    cbv zeta. cbn [wsgi_run_t drive_w ws_started loop_interrupt g]. unfold drain_body. rewrite Hh. cbn [wq_input with_input].
    destruct (drain_loop (input_fuel inp) inp) as [[d inp'] o]. cbn [snd].
    destruct (wsgi_stream_error _ _ _ _ _ _ _ _ _) as [[[inv rs] ev] [[e|]|]]; cbn [snd]; [|eexists; reflexivity|eexists; reflexivity].
    destruct (drain_loop (input_fuel inp') inp') as [[d' inp''] o']. cbn [snd List.app]. rewrite <- app_assoc. eexists. reflexivity. }
  destruct E as (v&E). pose proof (drain_loop_end (input_fuel inp) inp (le_n _)) as D. destruct (drain_loop (input_fuel inp) inp) as [[e inp'] o]. cbn [snd] in E.
  assert (D' : exists l x, o = l ++ [x] /\ (x = Ok [] \/ exists e', x = Raise e')) by (destruct e as [e|]; destruct D as (l&->); eauto 6).
  destruct D' as (l&x&->&Hx). exists (map TRead l), x, v. split; [rewrite E, map_app, <- app_assoc; reflexivity|]. split; [apply handed_reads|].
  intros (b&ys&later&bs&un&X1&X2&X3&X4&X5). destruct Hx as [->|(e'&->)]; [|discriminate X1]. injection X1 as <-. rewrite handed_reads in X2.
  change (client_reads (link_client PGrpc) identity_comp (chunks_of [])) with (@nil pystr) in X2. symmetry in X2. apply app_eq_nil in X2. destruct X2 as [-> _].
  destruct (X5 eq_refl) as [X _]. discriminate X.
Qed.
Print Assumptions C82_http1_refuted.

(** The dialogue of C82_example, on the WSGI server: all that the theorem asks for holds. *)
Definition ex_wrq (p : proto) : http_request := hd (mk_rq [] [] [] ([], None) None) (sr_sent (link_call true p ex_answers [])).
Definition ex_wpieces : list rd := [RD (firstn 3 ex_hi); RD (skipn 3 ex_hi); RD (firstn 7 ex_hihi); RD (skipn 7 ex_hihi)].
Definition ex_wtalk (p : proto) : list (tevent pystr pystr) :=
  snd (wsgi_talk (link_app ex_answers) 0%Z (with_input (wq_of (lit "http://h") (ex_wrq p)) ex_wpieces)).
Ltac ex_wpiece ys bs Rd W := match goal with |- wreports _ _ _ ?w (Ok ?b) =>
  exists b, ys, [], bs, (skipn (List.length (List.concat (pieces (reads w)) ++ b)) (List.concat bs)); split; [reflexivity|]; split; [exact Rd|]; split; [exact W|];
  split; [vm_compute; reflexivity|]; solve [discriminate | intros _; split; vm_compute; reflexivity] end.
Lemma ex_wrelayed p : wrelayed (link_client p) PEnvelope.ex_comp ex_asks (ex_wtalk p).
Proof.
  assert (W1 : client_writes (link_client p) [lit "hi"] [ex_hi]) by (repeat constructor).
  assert (W2 : client_writes (link_client p) [lit "hi"; lit "hihi"] [ex_hi; ex_hihi]) by (repeat constructor).
  assert (Rd0 : client_reads (link_client p) PEnvelope.ex_comp [] = []) by reflexivity.
  assert (E : exists a b c d e, ex_wtalk p = [TAsk; TRead (Ok (firstn 3 ex_hi)); TRead (Ok (skipn 3 ex_hi)); TGive (PMsg (lit "hi")); TYield (lit "hi");
     TOut a; TOut b; TAsk; TRead (Ok (firstn 7 ex_hihi)); TRead (Ok (skipn 7 ex_hihi)); TGive (PMsg (lit "hihi")); TYield (lit "hihi"); TOut c; TAsk; TRead (Ok []); TGive PEnd;
     TYield (lit "bye"); TOut d] ++ map TOut e
     /\ client_reads (link_client p) PEnvelope.ex_comp (chunks_of [a; b]) = [lit "hi"]
     /\ client_reads (link_client p) PEnvelope.ex_comp (chunks_of [a; b; c]) = [lit "hi"; lit "hihi"]).
  { destruct p; (eexists _, _, _, _, [_; _]; split; [vm_compute; reflexivity|split; vm_compute; reflexivity])
      || (eexists _, _, _, _, [_]; split; [vm_compute; reflexivity|split; vm_compute; reflexivity]). }
  destruct E as (a&b&c&d&e&E&Rd&Rd2). intros w x r Ew _. rewrite E in Ew. clear E. cbn [List.app] in Ew.
  destruct w as [|? w]; cbn [List.app] in Ew; [discriminate Ew|injection Ew as <- Ew].
  do 2 (destruct w as [|? w]; cbn [List.app] in Ew; [injection Ew as <- <-; ex_wpiece (@nil pystr) [ex_hi] Rd0 W1|injection Ew as <- Ew]).
  do 5 (destruct w as [|? w]; cbn [List.app] in Ew; [discriminate Ew|injection Ew as <- Ew]).
  do 2 (destruct w as [|? w]; cbn [List.app] in Ew; [injection Ew as <- <-; ex_wpiece [lit "hi"] [ex_hi; ex_hihi] Rd W2|injection Ew as <- Ew]).
  do 4 (destruct w as [|? w]; cbn [List.app] in Ew; [discriminate Ew|injection Ew as <- Ew]).
  destruct w as [|? w]; cbn [List.app] in Ew; [injection Ew as <- <-; ex_wpiece [lit "hi"; lit "hihi"] [ex_hi; ex_hihi] Rd2 W2|injection Ew as <- Ew].
  do 3 (destruct w as [|? w]; cbn [List.app] in Ew; [discriminate Ew|injection Ew as <- Ew]).
  exfalso. apply (f_equal reads) in Ew. rewrite reads_app, reads_outs in Ew. destruct (reads w); discriminate Ew.
Qed.
Example C82_wsgi_example : forall p cx,
  let f := match ex_answers with EpBidi _ f => f | _ => fun _ => Ret tt end in
  fits (link_client p) (link_app ex_answers) ex_method ex_answers ex_codec
  /\ called_with link_headers [Add (lit "X-A") (lit "1")] /\ wsgi_lines [Add (lit "X-A") (lit "1")] /\ timeout_fits (link_client p) None [Add (lit "X-A") (lit "1")]
  /\ In (ex_wrq p) (sr_sent (link_call true p ex_answers [])) /\ head_reaches_wsgi (lit "http://h") (ex_wrq p) (wq_of (lit "http://h") (ex_wrq p))
  /\ steady ex_asks /\ wrelayed (link_client p) PEnvelope.ex_comp ex_asks (ex_wtalk p)
  /\ (forall ys, exists bs, client_writes (link_client p) (fst (ex_asks ys)) bs)
  /\ converses ex_asks (f cx) false 0 []
  /\ wdialog_of (ex_wtalk p) = [Told (PMsg (lit "hi")); Said (lit "hi"); Told (PMsg (lit "hihi")); Said (lit "hihi"); Told PEnd; Said (lit "bye")].
Proof.
  intros p cx. cbv zeta. destruct (link_connected true p ex_answers) as (F&C&Wl&T&_). split; [exact F|]. split; [exact C|]. split; [exact (Wl eq_refl)|]. split; [exact T|].
  split; [unfold ex_wrq, link_call, execute_bidi_stream; rewrite send_stream_sent_rq; left; reflexivity|]. split.
  { assert (Ar : arrives_wsgi (lit "http://h") (ex_wrq p) (wq_of (lit "http://h") (ex_wrq p))).
    { unfold ex_wrq, link_call, execute_bidi_stream. rewrite send_stream_sent_rq. eapply wq_arrives; [reflexivity|vm_compute; discriminate| |destruct p; vm_compute; reflexivity].
      split; destruct p; vm_compute; repeat constructor; cbn; intuition discriminate. }
    destruct Ar as (R1&R2&R3&R4&R5&R6&R7&R8&R9&_&_&R10&_). do 8 (split; [assumption|]). split; [|exact R10]. destruct p; vm_compute; reflexivity. }
  split; [exact ex_asks_steady|]. split; [exact (ex_wrelayed p)|]. split; [exact (ex_writes p)|].
  split; [cbn; auto|]. destruct p; vm_compute; reflexivity.
Qed.
