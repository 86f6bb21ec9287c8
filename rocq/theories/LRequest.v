(** Lemmas about how the servers accept and reject requests. *)
From Coq Require Import List NArith ZArith Bool String Lia ZifyBool ZifyNat.
From Verif Require Import MBase MPyStr MHeaders SHeaders LBase LPyStr LHeaders MUtf8 LUtf8 MBase64 MPercent MJson SJson LJson MWire MEnvelope SEnvelope LEnvelope
  MTimeout MProtocol SProtocol MClient MServer MAsgi MWsgi SServer LServer LStream LWsgi.
Import ListNotations.
Local Open Scope N_scope.

(** ** Error responses *)
Lemma ascii_encodes s : Forall (fun c => c < 128) s -> exists b, utf8_encode s = Some b.
Proof. intro H. apply utf8_encode_some. eapply Forall_impl; [|exact H]. intros c Hc. unfold is_scalar, is_surrogate. cbn in *. lia. Qed.

Lemma we_json_always c m : exists b, we_to_json_bytes (mk_we c m []) = Ok b.
Proof.
  unfold we_to_json_bytes, json_bytes, we_to_dict. cbn [we_code we_msg we_details List.app json_dumps map].
  match goal with |- context [utf8_encode ?x] => assert (H : Forall (fun c => c < 128) x) end.
  { cbn [join fst snd json_dumps].
    repeat match goal with
           | |- Forall _ (json_string _) => apply json_string_ascii'
           | |- Forall _ (_ ++ _) => apply Forall_app; split
           | |- Forall _ (_ :: _) => apply Forall_cons; [lia|]
           | |- Forall _ [] => constructor
           end. }
  apply ascii_encodes in H. destruct H as [b ->]. eauto.
Qed.

Lemma status_spec c : fst (error_to_http_status c) = connect_spec_status c.
Proof. now destruct c. Qed.

Lemma sends_ok_send o ev s : sends_ok o -> send o ev s = (mk_ast (S (as_n s)) (as_ev s ++ [ev]), inl tt).
Proof. intro H. unfold send. now rewrite H. Qed.

Definition encodable (ctx : option rstate) : Prop :=
  match ctx with Some rs => exists hs, encode_pairs (context_headers rs) = Ok hs | None => True end.

Lemma call_error_ok {A} en (inv : list (invoked A)) n e ctx :
  sends_ok (en_send en) -> answerable e -> encodable ctx ->
  exists st hs body, ar_events (call_error en inv (mk_ast n []) e ctx) = [EvStart st hs false; EvBody body false]
    /\ ar_inv (call_error en inv (mk_ast n []) e ctx) = inv
    /\ ar_out (call_error en inv (mk_ast n []) e ctx) = (if is_connect e || is_http e then AReturn else ARaise e).
Proof.
  intros So Ha Hc. unfold call_error, handle_error.
  assert (K : exists st hs body, match e with
                    | EHttp status hs => do hs <- encode_pairs hs ; Ok (status, hs, [])
                    | _ => let w := we_from_exception e in
                           do body <- we_to_json_bytes w ;
                           Ok (fst (we_to_http_status w), [(lit "content-type", lit "application/json")], body)
                    end = Ok (st, hs, body)).
  { destruct e as [c m ds|st hs|k m]; cbn [answerable] in Ha.
    - destruct Ha as [b E]. cbv zeta. rewrite E. cbn [bind]. eauto.
    - destruct Ha as [b E]. rewrite E. cbn [bind]. eauto.
    - destruct Ha as [b E]. cbv zeta. rewrite E. cbn [bind]. eauto. }
  destruct K as (st&hs&body&K). rewrite (io_bind_ok _ _ _ _ _ (io_res_ok _ _ _ K)). cbn beta iota.
  assert (X : exists extra, match ctx with Some rs => io_res (encode_pairs (context_headers rs)) | None => io_ret [] end (mk_ast n [])
              = (mk_ast n [], inl extra)).
  { destruct ctx as [rs|]; cbn [encodable] in Hc; [destruct Hc as [h ->]|]; eexists; reflexivity. }
  destruct X as [extra X]. rewrite (io_bind_ok _ _ _ _ _ X). rewrite (io_bind_ok _ _ _ _ _ (sends_ok_send _ _ _ So)).
  rewrite (sends_ok_send _ _ _ So). cbn. eauto 6.
Qed.

Lemma call_error_connect {A} en (inv : list (invoked A)) c m ctx :
  sends_ok (en_send en) -> ctx = None \/ ctx = Some rs_new ->
  exists ev, call_error en inv (mk_ast 0 []) (EConnect c m []) ctx = mk_ar inv ev AReturn /\ asgi_error ev c.
Proof.
  intros So Hc. unfold call_error, handle_error. destruct (we_json_always c m) as [b Eb].
  cbn [we_from_exception]. rewrite Eb. cbn [bind]. rewrite (io_bind_ok _ _ _ _ _ (io_res_ok _ _ _ eq_refl)). cbn beta iota.
  assert (X : match ctx with Some rs => io_res (encode_pairs (context_headers rs)) | None => io_ret [] end (mk_ast 0 [])
              = (mk_ast 0 [], inl [])) by (destruct Hc as [-> | ->]; reflexivity).
  rewrite (io_bind_ok _ _ _ _ _ X). rewrite (io_bind_ok _ _ _ _ _ (sends_ok_send _ _ _ So)).
  rewrite (sends_ok_send _ _ _ So). cbn [as_ev as_n List.app is_connect orb]. eexists. split; [reflexivity|].
  exists m, b. split; [exact Eb|]. unfold we_to_http_status. cbn [we_code]. now rewrite status_spec.
Qed.

Lemma call_error_inv {A} en (inv : list (invoked A)) s e ctx : ar_inv (call_error en inv s e ctx) = inv.
Proof. unfold call_error. now destruct (handle_error _ _ _ _) as [s' r]. Qed.

Lemma call_error_http {A} en (inv : list (invoked A)) st hs hs' ctx :
  sends_ok (en_send en) -> encode_pairs hs = Ok hs' -> ctx = None \/ ctx = Some rs_new ->
  call_error en inv (mk_ast 0 []) (EHttp st hs) ctx = mk_ar inv [EvStart st hs' false; EvBody [] false] AReturn.
Proof.
  intros So He Hc. unfold call_error, handle_error. rewrite He. cbn [bind].
  rewrite (io_bind_ok _ _ _ _ _ (io_res_ok _ _ _ eq_refl)). cbn beta iota.
  assert (X : match ctx with Some rs => io_res (encode_pairs (context_headers rs)) | None => io_ret [] end (mk_ast 0 [])
              = (mk_ast 0 [], inl [])) by (destruct Hc as [-> | ->]; reflexivity).
  rewrite (io_bind_ok _ _ _ _ _ X). rewrite (io_bind_ok _ _ _ _ _ (sends_ok_send _ _ _ So)).
  rewrite (sends_ok_send _ _ _ So). cbn. now rewrite app_nil_r.
Qed.

Lemma wsgi_call_error_inv {A} q (inv : list (invoked A)) ev e ctx : wr_inv (wsgi_call_error q inv ev e ctx) = inv.
Proof. unfold wsgi_call_error. destruct (drain q 1); [reflexivity|]. now destruct (wsgi_handle_error e ctx). Qed.

Lemma wsgi_call_error_connect {A} q (inv : list (invoked A)) c m ctx :
  drain q 1 = None -> ctx = None \/ ctx = Some rs_new ->
  exists ev, wsgi_call_error q inv [] (EConnect c m []) ctx = mk_wr inv ev WReturn /\ wsgi_error ev c.
Proof.
  intros Hd Hc. unfold wsgi_call_error, wsgi_handle_error. rewrite Hd. destruct (we_json_always c m) as [b Eb].
  cbn [we_from_exception]. cbv zeta. rewrite Eb. cbn [bind maybe_log is_connect orb List.app].
  eexists. split; [reflexivity|]. exists m, (snd (error_to_http_status c)), b. split; [exact Eb|].
  unfold status_line, we_to_http_status. cbn [we_code]. rewrite status_spec. destruct Hc as [-> | ->]; reflexivity.
Qed.

(** ** Which requests invoke a method *)
Lemma asgi_unary_rejected {A B} (ap : app A B) now sc en f hs cx params k e :
  asgi_unary_request ap now sc f hs cx params k ->
  (if str_eqb (sc_method sc) (lit "GET")
   then match read_get_request ap k params with Ok a => inl a | Raise e => inr (IExn e) end
   else read_post_request ap k hs (en_recv en)) = inr (IExn e) ->
  asgi_call ap now sc en = call_error en [] (mk_ast 0 []) e (Some rs_new).
Proof.
  intros (m&Ho&Hs) He. unfold asgi_call. rewrite Ho, Hs. unfold handle_unary_connect. cbv zeta. now rewrite He.
Qed.

Lemma wsgi_unary_rejected {A B} (ap : app A B) now q f hs cx e :
  wsgi_unary_request ap now q f hs cx ->
  (if str_eqb (cx_http cx) (lit "GET") then wsgi_get_request ap q else wsgi_post_request ap q hs) = Raise e ->
  wsgi_call ap now q = wsgi_call_error q [] [] e (Some rs_new).
Proof.
  intros (m&Ho) He. unfold wsgi_call. rewrite Ho. unfold wsgi_unary. now rewrite He.
Qed.

Lemma stream_try_inv_runs {A B} (ap : app A B) en p ep k req z cx s :
  fst (stream_try ap en p ep k req z cx s)
  = match req with
    | None => []
    | Some rz => match ep with
                 | EpUnary _ _ | EpServerStream _ _ =>
                     match consume_single_request (request_stream ap k rz en) with Ok a => [InvMsg a] | Raise _ => [] end
                 | _ => [InvStream]
                 end
    end.
Proof.
  unfold stream_try. destruct req as [rz|]; [|reflexivity].
  destruct ep as [m f|m f|m f|m f]; cbv zeta; try (destruct (consume_single_request _); [|reflexivity]);
    try destruct (run_fn _ _ _) as [r rs]; reflexivity.
Qed.

Lemma handle_stream_inv {A B} (ap : app A B) en p ep k hs cx :
  ar_inv (handle_stream ap en p ep k hs cx)
  = match fst (negotiate_stream_compression p hs (ap_comps ap)) with
    | None => []
    | Some rz => match ep with
                 | EpUnary _ _ | EpServerStream _ _ =>
                     match consume_single_request (request_stream ap k rz en) with Ok a => [InvMsg a] | Raise _ => [] end
                 | _ => [InvStream]
                 end
    end.
Proof.
  unfold handle_stream. destruct (negotiate_stream_compression p hs (ap_comps ap)) as [req z]. cbn [fst].
  rewrite <- (stream_try_inv_runs ap en p ep k req z cx (mk_lst (mk_ast 0 []) false 0)).
  destruct (stream_try _ _ _ _ _ _ _ _ _) as [inv [[s rs] i]]. destruct (stream_finally _ _ _ _ _ _ _ _ _) as [a r]. reflexivity.
Qed.

Lemma asgi_unary_inv {A B} (ap : app A B) now sc en f hs cx params k :
  asgi_unary_request ap now sc f hs cx params k ->
  ar_inv (asgi_call ap now sc en)
  = match (if str_eqb (sc_method sc) (lit "GET")
           then match read_get_request ap k params with Ok a => inl a | Raise e => inr (IExn e) end
           else read_post_request ap k hs (en_recv en)) with
    | inl a => [InvMsg a]
    | inr _ => []
    end.
Proof.
  intros (m&Ho&Hs). unfold asgi_call. rewrite Ho, Hs. unfold handle_unary_connect. cbv zeta.
  destruct (if str_eqb _ _ then _ else _) as [a|[e|]].
  - destruct (run_fn (f a cx) ([], None) rs_new) as [[b|[e|]] rs].
    + destruct (send_unary_response _ _ _ _ _ _) as [s [?|[e|]]]; cbn [ar_inv]; auto using call_error_inv.
    + apply call_error_inv.
    + reflexivity.
  - apply call_error_inv.
  - reflexivity.
Qed.

Lemma wsgi_unary_inv {A B} (ap : app A B) now q f hs cx :
  wsgi_unary_request ap now q f hs cx ->
  wr_inv (wsgi_call ap now q)
  = match (if str_eqb (cx_http cx) (lit "GET") then wsgi_get_request ap q else wsgi_post_request ap q hs) with
    | Ok (a, _) => [InvMsg a]
    | Raise _ => []
    end.
Proof.
  intros (m&Ho). unfold wsgi_call. rewrite Ho. unfold wsgi_unary.
  destruct (if str_eqb _ _ then _ else _) as [[a k]|e]; [|apply wsgi_call_error_inv].
  destruct (run_fn (f a cx) ([], None) rs_new) as [[b|[e|]] rs].
  - cbv zeta. destruct (k_enc_res k b) as [body|e]; cbn [bind]; [|apply wsgi_call_error_inv].
    destruct (z_compress _ body) as [body'|e]; cbn [bind]; [reflexivity|apply wsgi_call_error_inv].
  - apply wsgi_call_error_inv.
  - reflexivity.
Qed.

Lemma wsgi_run_inv {A B} p (ep : endpoint A B) k z ps cx :
  fst (wsgi_run p ep k z ps cx)
  = match ep with
    | EpUnary _ _ | EpServerStream _ _ => match consume_single_request ps with Ok a => [InvMsg a] | Raise _ => [] end
    | _ => [InvStream]
    end.
Proof.
  unfold wsgi_run. destruct ep as [m f|m f|m f|m f]; cbv zeta; try (destruct (consume_single_request _); [|reflexivity]);
    try destruct (run_fn _ _ _) as [r rs]; reflexivity.
Qed.

Definition stream_inv {A} (r : whandled A + wsgi_result A) : list (invoked A) :=
  match r with inl (inv, _, _, _) => inv | inr w => wr_inv w end.

Lemma wsgi_stream_inv {A B} (ap : app A B) q p hs (ep : endpoint A B) cx :
  stream_inv (wsgi_stream ap q p hs ep cx)
  = match dget (ap_codecs ap) (codec_name_from_content_type p true (h_get_default hs (lit "content-type") [])),
          fst (negotiate_stream_compression p hs (ap_comps ap)) with
    | Some k, Some rz =>
        match ep with
        | EpUnary _ _ | EpServerStream _ _ =>
            match consume_single_request (wsgi_request_stream ap k rz q) with Ok a => [InvMsg a] | Raise _ => [] end
        | _ => [InvStream]
        end
    | _, _ => []
    end.
Proof.
  assert (Err : forall p name z inv rs ev e, stream_inv (inl (wsgi_stream_error (A := A) (B := B) ap q p name z inv rs ev e)) = inv).
  { intros. unfold wsgi_stream_error. destruct (drain q 0); [reflexivity|]. cbv zeta. now destruct (end_response _ _ _ _ _). }
  unfold wsgi_stream. destruct (negotiate_stream_compression p hs (ap_comps ap)) as [req z]. cbn [fst].
  destruct (dget _ _) as [k|]; [|reflexivity]. cbv zeta. destruct req as [rz|]; [|apply Err].
  rewrite <- (wsgi_run_inv p ep k z (wsgi_request_stream ap k rz q) cx).
  destruct (wsgi_run _ _ _ _ _ _) as [inv [[s rs] e]]. cbn [fst]. destruct (ws_started s).
  - cbn [stream_inv]. unfold response_stream_end. cbv zeta.
    destruct (loop_interrupt e) as [[x|]|]; try reflexivity; [destruct (drain q 2); [reflexivity|]|];
      now destruct (end_response _ _ _ _ _).
  - destruct (loop_interrupt e) as [[x|]|]; try reflexivity; [apply Err|].
    destruct (end_response _ _ _ _ _); [reflexivity|apply Err].
Qed.

Lemma wsgi_call_stream_inv {A B} (ap : app A B) now q ep hs p cx :
  wsgi_open_request ap now q = Ok (ep, hs, p, cx) -> (p = PConnect -> is_unary ep = false) ->
  wr_inv (wsgi_call ap now q) = stream_inv (wsgi_stream ap q p hs ep cx).
Proof.
  intros Ho Hu. unfold wsgi_call. rewrite Ho.
  assert (E : (match ep, p with
             | EpUnary _ f, PConnect => inl (wsgi_unary ap q (cx_http cx) f cx hs)
             | _, _ => wsgi_stream ap q p hs ep cx
             end) = wsgi_stream ap q p hs ep cx).
  { destruct ep, p; try reflexivity. specialize (Hu eq_refl). discriminate. }
  rewrite E. destruct (wsgi_stream ap q p hs ep cx) as [[[[inv rs] ev] [[e|]|]]|r]; cbn [stream_inv]; auto using wsgi_call_error_inv.
Qed.

(** ** Reading a body of declared length *)
Lemma takeN_all {X} n (l : list X) : lenN l <= n -> takeN n l = l.
Proof. unfold takeN, lenN. intro H. apply firstn_all2. lia. Qed.

Lemma input_fuel_cons x r : input_fuel (x :: r) = (input_fuel r + match x with RD b => S (List.length b) | RDErr _ => 1 end)%nat.
Proof. unfold input_fuel, list_sum. cbn [map fold_right]. lia. Qed.

Lemma wread_available n inp chunk r : 0 < n -> wread n inp = (Ok chunk, r) -> chunk <> [] ->
  available inp = chunk ++ available r /\ fault inp = fault r /\ lenN chunk <= n /\ (input_fuel r < input_fuel inp)%nat.
Proof.
  intros Hn H Hne. unfold wread in H. destruct inp as [|[b|e] rest]; [congruence| |congruence].
  destruct (lenN b <=? n) eqn:E.
  - injection H as <- <-. destruct b as [|x b]; [congruence|]. cbn [available fault]. repeat split; [lia|].
    rewrite !input_fuel_cons. cbn [List.length] in *. lia.
  - assert (Hl : n < lenN b) by (apply N.leb_gt; exact E). injection H as <- <-. destruct b as [|x b]; [unfold lenN in Hl; cbn in Hl; lia|].
    assert (D : takeN n (x :: b) ++ dropN n (x :: b) = x :: b) by apply firstn_skipn.
    assert (L : lenN (takeN n (x :: b)) = n). { unfold takeN, lenN in *. rewrite firstn_length. lia. }
    assert (L2 : List.length (dropN n (x :: b)) = (List.length (x :: b) - N.to_nat n)%nat) by (unfold dropN; apply skipn_length).
    destruct (dropN n (x :: b)) as [|y d] eqn:Ed; [unfold lenN in Hl; cbn [List.length] in *; lia|].
    cbn [available fault]. rewrite app_assoc, D. repeat split; [lia|]. rewrite !input_fuel_cons. cbn [List.length] in *. lia.
Qed.

Lemma wread_end n inp r : 0 < n -> wread n inp = (Ok [], r) -> available inp = [] /\ fault inp = None.
Proof.
  intros Hn H. unfold wread in H. destruct inp as [|[b|e] rest]; [auto| |congruence].
  destruct (lenN b <=? n) eqn:E.
  - injection H as -> _. auto.
  - injection H as H _. exfalso. assert (L : lenN (takeN n b) = 0) by now rewrite H.
    unfold takeN, lenN in *. rewrite firstn_length in L. lia.
Qed.

Lemma wread_fault n inp e r : wread n inp = (Raise e, r) -> available inp = [] /\ fault inp = Some e.
Proof.
  intros H. unfold wread in H. destruct inp as [|[b|x] rest]; [congruence| |].
  - destruct (lenN b <=? n); congruence.
  - injection H as <- _. auto.
Qed.

Lemma lenN_app {X} (a b : list X) : lenN (a ++ b) = lenN a + lenN b.
Proof. unfold lenN. rewrite app_length. lia. Qed.
Lemma takeN_app {X} n (a b : list X) : lenN a <= n -> takeN n (a ++ b) = a ++ takeN (n - lenN a) b.
Proof.
  unfold takeN, lenN. intro H. rewrite firstn_app. rewrite firstn_all2 by lia. f_equal. f_equal. lia.
Qed.

(** What a read of [n] bytes gives. *)
Definition read_result (n : N) (acc : bytes) (inp : list rd) : res bytes :=
  if n - lenN acc <=? lenN (available inp) then Ok (acc ++ takeN (n - lenN acc) (available inp))
  else match fault inp with
       | Some e => Raise e
       | None => Raise (truncated (Z.of_N n) (Z.of_N (lenN acc + lenN (available inp))))
       end.

Lemma read_exact_result n : forall fuel acc inp, (input_fuel inp <= fuel)%nat -> lenN acc <= n ->
  read_exact fuel n acc inp = read_result n acc inp.
Proof.
  induction fuel as [|fuel IH]; intros acc inp Hf Ha; [unfold input_fuel in Hf; lia|].
  cbn [read_exact]. destruct (lenN acc <? n) eqn:E.
  2:{ unfold read_result. replace (n - lenN acc) with 0 by lia. replace (0 <=? lenN (available inp)) with true by lia. change (takeN 0 (available inp)) with (@nil N). now rewrite app_nil_r. }
  destruct (wread (n - lenN acc) inp) as [[chunk|e] r] eqn:W.
  - destruct chunk as [|x chunk].
    + apply wread_end in W; [|lia]. destruct W as [Wa Wf]. unfold read_result. rewrite Wa, Wf. change (lenN []) with 0.
      replace (n - lenN acc <=? 0) with false by lia. do 2 f_equal. lia.
    + apply wread_available in W; [|lia|discriminate]. destruct W as (Wa&Wf&Wl&Wu).
      rewrite IH by (try rewrite lenN_app; lia). unfold read_result. rewrite Wa, Wf, !lenN_app.
      replace (n - (lenN acc + lenN (x :: chunk)) <=? lenN (available r))
        with (n - lenN acc <=? lenN (x :: chunk) + lenN (available r)) by lia.
      destruct (n - lenN acc <=? _).
      * rewrite takeN_app by lia. rewrite app_assoc. do 3 f_equal. lia.
      * destruct (fault r); [reflexivity|]. do 2 f_equal. lia.
  - apply wread_fault in W. destruct W as [Wa Wf]. unfold read_result. rewrite Wa, Wf. change (lenN []) with 0.
    now replace (n - lenN acc <=? 0) with false by lia.
Qed.

(** The first read is repeated if it returns nothing. *)
Definition after_empty (inp : list rd) : list rd := match inp with RD [] :: t => t | _ => inp end.

Lemma read_length_result n inp : 0 < n -> read_body_with_content_length n inp = read_result n [] (after_empty inp).
Proof.
  intro Hn. unfold read_body_with_content_length.
  assert (Gen : forall chunk r, wread n inp = (Ok chunk, r) -> chunk <> [] ->
    (if lenN chunk =? n then Ok chunk else read_exact (input_fuel inp) n chunk r) = read_result n [] inp).
  { intros chunk r W Hc. apply wread_available in W; auto. destruct W as (Wa&Wf&Wl&Wu). unfold read_result. change (lenN []) with 0.
    rewrite Wa, Wf, lenN_app. rewrite N.sub_0_r. destruct (lenN chunk =? n) eqn:E.
    - replace (n <=? _) with true by lia. rewrite takeN_app by lia.
      replace (n - lenN chunk) with 0 by lia. unfold takeN. cbn. now rewrite app_nil_r.
    - rewrite read_exact_result by lia. unfold read_result.
      replace (n - lenN chunk <=? lenN (available r)) with (n <=? lenN chunk + lenN (available r)) by lia.
      destruct (n <=? _).
      + rewrite takeN_app by lia. reflexivity.
      + destruct (fault r); [reflexivity|]. do 2 f_equal. }
  destruct inp as [|[[|x b]|e] rest].
  - cbn [wread]. change (lenN []) with 0. replace (0 =? n) with false by lia. rewrite read_exact_result; [reflexivity|lia|].
    change (lenN []) with 0. lia.
  - unfold wread. change (lenN []) with 0. replace (0 <=? n) with true by lia. change (lenN []) with 0. replace (0 =? n) with false by lia.
    cbn [after_empty]. rewrite read_exact_result; [reflexivity|rewrite input_fuel_cons; lia|].
    change (lenN []) with 0. lia.
  - cbn [after_empty]. destruct (wread n (RD (x :: b) :: rest)) as [[chunk|e] r] eqn:W.
    + apply Gen; [reflexivity|]. intros ->. apply wread_end in W; [|lia]. cbn [available] in W. destruct W; discriminate.
    + apply wread_fault in W. cbn [available] in W. destruct W; discriminate.
  - cbn [wread after_empty]. unfold read_result. cbn [available fault]. change (lenN []) with 0. now replace (n - 0 <=? 0) with false by lia.
Qed.

(** ** Refused streams *)
Lemma asgi_refused {A B} (ap : app A B) now sc en ep hs p cx k req z x :
  asgi_stream_request ap now sc ep hs p cx k -> sends_ok (en_send en) ->
  negotiate_stream_compression p hs (ap_comps ap) = (req, z) ->
  stream_runs ep cx req (fun rz => request_stream ap k rz en) [] [] rs_new (Some (IExn x)) ->
  unwatched ep en 0 ->
  asgi_refusal ap p k z x (asgi_call ap now sc en).
Proof.
  intros H Ho Hn Hr Hu. split.
  - rewrite (asgi_call_stream _ _ _ _ _ _ _ _ _ H), handle_stream_inv, Hn. cbn [fst].
    destruct req as [rz|]; [|reflexivity]. cbn [stream_runs] in Hr. destruct Hr as [Hm|(Ht&_&_&_&y&Hy&_)].
    + exfalso. destruct ep as [m f|m f|m f|m f]; cbn [method_does] in Hm.
      * destruct Hm as (a&_&E&_); discriminate.
      * destruct Hm as (E&_); discriminate.
      * destruct Hm as (a&_&E&_); discriminate.
      * destruct Hm as (E&_); discriminate.
    + apply consume_single_raise in Hy. destruct ep as [m f|m f|m f|m f]; try discriminate; now rewrite Hy.
  - intros head em ts Hh He Hts. rewrite (asgi_call_stream _ _ _ _ _ _ _ _ _ H).
    rewrite (asgi_stream_normal ap en p ep k hs cx req z [] [] rs_new (Some (IExn x)) [] head em ts Ho Hn Hr Hu (Forall2_nil _) Hh He Hts).
    reflexivity.
Qed.

Lemma without_logs_app a b : without_logs (a ++ b) = without_logs a ++ without_logs b.
Proof. induction a as [|[] a IH]; cbn; congruence. Qed.
Lemma without_logs_maybe e : without_logs (maybe_log e) = [].
Proof. unfold maybe_log. now destruct (_ || _). Qed.

Lemma wsgi_refused {A B} (ap : app A B) now q ep hs p cx k req z x :
  wsgi_stream_request ap now q ep hs p cx k -> drain q 0 = None -> drain q 2 = None ->
  negotiate_stream_compression p hs (ap_comps ap) = (req, z) ->
  stream_runs ep cx req (fun rz => wsgi_request_stream ap k rz q) [] [] rs_new (Some (IExn x)) ->
  wsgi_refusal ap p k z x (wsgi_call ap now q).
Proof.
  intros H D0 D2 Hn Hr. split.
  - pose proof H as (Hop&Hk&Hu). rewrite (wsgi_call_stream_inv _ _ _ _ _ _ _ Hop Hu), wsgi_stream_inv, Hk, Hn. cbn [fst].
    destruct req as [rz|]; [|reflexivity]. cbn [stream_runs] in Hr. destruct Hr as [Hm|(Ht&_&_&_&y&Hy&_)].
    + exfalso. destruct ep as [m f|m f|m f|m f]; cbn [method_does] in Hm.
      * destruct Hm as (a&_&E&_); discriminate.
      * destruct Hm as (E&_); discriminate.
      * destruct Hm as (a&_&E&_); discriminate.
      * destruct Hm as (E&_); discriminate.
    + apply consume_single_raise in Hy. destruct ep as [m f|m f|m f|m f]; try discriminate; now rewrite Hy.
  - intros em He.
    rewrite (wsgi_call_normal ap now q ep hs p cx k req z [] [] rs_new (Some (IExn x)) [] em H D0 D2 Hn Hr ltac:(discriminate) (Forall2_nil _) He).
    cbn [wr_events wsgi_logged head_state map List.app]. rewrite without_logs_app, without_logs_maybe. cbn [List.app without_logs].
    destruct em; reflexivity.
Qed.

(** ** Opening a request *)
Lemma check_method_permitted p level http : check_http_method p level http = None <-> In http (map lit (permitted p level)).
Proof.
  unfold check_http_method, permitted.
  assert (P : (if str_eqb http (lit "POST") then None else Some (EHttp 405 [(lit "allow", lit "POST")])) = None
              <-> In http [lit "POST"]).
  { destruct (str_eqb_spec http (lit "POST")) as [->|E]; cbn [In]; split; auto; try discriminate.
    intros [E'|[]]; congruence. }
  destruct p, level; try exact P. clear P. cbn [map In].
  destruct (str_eqb_spec http (lit "GET")) as [->|E]; cbn [orb]; [tauto|].
  destruct (str_eqb_spec http (lit "POST")) as [->|E']; [tauto|]. split; [discriminate|]. intros [F|[F|[]]]; congruence.
Qed.

Lemma check_method_refused p level http : ~ In http (map lit (permitted p level)) ->
  check_http_method p level http = Some (EHttp 405 [(lit "allow", allow_header p level)]).
Proof.
  intro H. unfold check_http_method, permitted, allow_header in *.
  destruct p, level; cbn [map In] in H;
    try (destruct (str_eqb_spec http (lit "POST")) as [->|E]; [tauto|reflexivity]).
  destruct (str_eqb_spec http (lit "GET")) as [->|E]; [tauto|].
  destruct (str_eqb_spec http (lit "POST")) as [->|E']; [tauto|reflexivity].
Qed.

(** The conditions [server_create_context] checks. *)
Lemma create_context_ok now p m http scheme hs client cx :
  server_create_context now p m http scheme hs client = Ok cx ->
  In http (map lit (permitted p (mi_idem m)))
  /\ (p = PConnect -> h_get_default hs (lit "connect-protocol-version") (lit "1") = lit "1")
  /\ (exists t, (match p with PConnect => connect_server_timeout (h_get hs (lit "connect-timeout-ms"))
                 | _ => grpc_server_timeout (h_get hs (lit "grpc-timeout")) end) = Ok t)
  /\ cx_http cx = http.
Proof.
  unfold server_create_context. destruct (check_http_method _ _ _) eqn:E; [discriminate|]. apply check_method_permitted in E.
  intro H. split; [exact E|]. destruct p.
  - cbv zeta in H. destruct (str_eqb_spec (h_get_default hs (lit "connect-protocol-version") (lit "1")) (lit "1")) as [Ev|Ev]; [|discriminate].
    destruct (connect_server_timeout _) as [t|e]; [|discriminate]. injection H as <-. repeat split; eauto.
  - destruct (grpc_server_timeout _) as [t|e]; [|discriminate]. injection H as <-. repeat split; eauto. discriminate.
  - destruct (grpc_server_timeout _) as [t|e]; [|discriminate]. injection H as <-. repeat split; eauto. discriminate.
Qed.

Lemma open_request_ok {A B} (ap : app A B) now sc ep hs p cx :
  open_request ap now sc = Ok (ep, hs, p, cx) ->
  find_endpoint ap sc = Ok ep /\ process_headers h_empty (sc_headers sc) = Ok hs
  /\ p = negotiate_server_protocol (h_get_default hs (lit "content-type") [])
  /\ (p = PGrpc -> sc_trailers sc = true)
  /\ exists client, server_create_context now p (ep_method ep) (sc_method sc) (sc_scheme sc) hs client = Ok cx.
Proof.
  unfold open_request. destruct (find_endpoint ap sc) as [ep'|e]; cbn [bind]; [|discriminate].
  destruct (process_headers _ _) as [hs'|e]; cbn [bind]; [|discriminate]. cbv zeta.
  destruct (uses_trailers _ && negb (sc_trailers sc)) eqn:T; [discriminate|].
  destruct (server_create_context _ _ _ _ _ _ _) as [cx'|e] eqn:E; cbn [bind]; [|discriminate].
  intro H. injection H as <- <- <- <-. repeat split; eauto.
  intro Hp. rewrite Hp in T. cbn in T. now destruct (sc_trailers sc).
Qed.

Lemma wsgi_open_request_ok {A B} (ap : app A B) now q ep hs p cx :
  wsgi_open_request ap now q = Ok (ep, hs, p, cx) ->
  exists http, wsgi_find_endpoint ap q = Ok ep /\ env_get q "REQUEST_METHOD" = Some http /\ hs = wsgi_headers q
  /\ p = negotiate_server_protocol (h_get_default hs (lit "content-type") [])
  /\ (p = PGrpc -> wq_trailers q = true)
  /\ exists scheme client, server_create_context now p (ep_method ep) http scheme hs client = Ok cx.
Proof.
  unfold wsgi_open_request. destruct (wsgi_find_endpoint ap q) as [ep'|e]; cbn [bind]; [|discriminate].
  unfold env_item. destruct (env_get q "REQUEST_METHOD") as [http|]; cbn [bind]; [|discriminate]. cbv zeta.
  destruct (uses_trailers _ && negb (wq_trailers q)) eqn:T; [discriminate|].
  destruct (server_create_context _ _ _ _ _ _ _) as [cx'|e] eqn:E; cbn [bind]; [|discriminate].
  intro H. injection H as <- <- <- <-. exists http. repeat split; eauto.
  intro Hp. rewrite Hp in T. cbn in T. now destruct (wq_trailers q).
Qed.

(** ** Every rejection can be answered *)
Lemma answerable_connect c m : answerable (EConnect c m []).
Proof. cbn [answerable we_from_exception]. apply we_json_always. Qed.
Lemma answerable_other k m : answerable (EOther k m).
Proof. cbn [answerable we_from_exception]. apply we_json_always. Qed.
#[global] Hint Resolve answerable_connect answerable_other : core.

Lemma parse_timeout_raise s e : parse_timeout s = Raise e -> answerable e.
Proof.
  unfold parse_timeout, scale_timeout. destruct (lookup_timeout_unit _) as [f|]; [|intro H; injection H as <-; auto].
  destruct (int_of_str _) as [v|]; [|intro H; injection H as <-; auto].
  destruct (_ <? _)%Z; [intro H; injection H as <-; auto|].
  repeat match goal with |- context [match ?x with _ => _ end] => destruct x end; intro H; try discriminate; injection H as <-; auto.
Qed.

Lemma create_context_raise now p m http scheme hs client e :
  server_create_context now p m http scheme hs client = Raise e -> answerable e.
Proof.
  unfold server_create_context. destruct (check_http_method p (mi_idem m) http) as [x|] eqn:C.
  - intro H. injection H as <-. unfold check_http_method in C.
    destruct p, (mi_idem m); repeat match type of C with (if ?b then _ else _) = _ => destruct b; try discriminate end;
      injection C as <-; eexists; reflexivity.
  - clear C. intro H.
    assert (T : (match p with
              | PConnect =>
                  let v := h_get_default hs (lit "connect-protocol-version") (lit "1") in
                  if str_eqb v (lit "1") then connect_server_timeout (h_get hs (lit "connect-timeout-ms"))
                  else Raise (EConnect InvalidArgument
                                (lit "connect-protocol-version must be '1': got '" ++ v ++ lit "'") [])
              | _ => grpc_server_timeout (h_get hs (lit "grpc-timeout"))
              end) = Raise e) by (destruct (match p with PConnect => _ | _ => _ end); [discriminate|injection H as ->; reflexivity]).
    assert (G : grpc_server_timeout (h_get hs (lit "grpc-timeout")) = Raise e -> answerable e).
    { unfold grpc_server_timeout. intro G. destruct (h_get hs (lit "grpc-timeout")) as [[|c s]|]; try discriminate.
      destruct (parse_timeout (c :: s)) eqn:P; [discriminate|]. injection G as <-. eapply parse_timeout_raise; exact P. }
    destruct p; auto. cbv zeta in T. destruct (str_eqb _ _).
    + unfold connect_server_timeout in T. destruct (h_get hs _) as [[|c s]|]; try discriminate.
      destruct (10 <? _); [injection T as <-; auto|]. destruct (int_of_str _); [discriminate|injection T as <-; auto].
    + injection T as <-. auto.
Qed.

Lemma open_request_raise {A B} (ap : app A B) now sc e : open_request ap now sc = Raise e -> answerable e.
Proof.
  unfold open_request. destruct (find_endpoint ap sc) as [ep|x] eqn:F; cbn [bind].
  2:{ intro H. injection H as <-. unfold find_endpoint in F.
      destruct (dget _ _); [discriminate|]. destruct (sc_root sc) as [[|c r]|].
      - injection F as <-. now exists [].
      - destruct (dget _ _); [discriminate|]. injection F as <-. now exists [].
      - injection F as <-. auto. }
  destruct (process_headers h_empty (sc_headers sc)) as [hs|x] eqn:P; cbn [bind].
  2:{ intro H. injection H as <-. revert P. generalize h_empty. induction (sc_headers sc) as [|[k v] l IH]; intro h; cbn [process_headers]; [discriminate|].
      destruct (utf8_decode k), (utf8_decode v); try (intro P; injection P as <-; auto); apply IH. }
  cbv zeta. destruct (_ && _).
  - intro H. injection H as <-. auto.
  - destruct (server_create_context _ _ _ _ _ _ _) eqn:C; [discriminate|]. intro H. injection H as <-.
    eapply create_context_raise; exact C.
Qed.

Lemma select_codec_raise {A B} (ap : app A B) sc ep hs p e : select_codec ap sc ep hs p = Raise e -> answerable e.
Proof.
  unfold select_codec. destruct (if str_eqb _ _ then _ else _) as [[a b]|x] eqn:Q; cbn [bind].
  - destruct (dget _ _); [discriminate|]. intro H. injection H as <-. eexists. reflexivity.
  - intro H. injection H as <-. destruct (str_eqb _ _); [|discriminate]. destruct (utf8_decode _); [discriminate|].
    injection Q as <-. auto.
Qed.

Lemma select_codec_known {A B} (ap : app A B) sc ep hs p params k :
  select_codec ap sc ep hs p = Ok (params, k) -> exists n, dget (ap_codecs ap) n = Some k.
Proof.
  unfold select_codec. destruct (if str_eqb _ _ then _ else _) as [[a b]|x]; cbn [bind]; [|discriminate].
  cbn [snd]. destruct (dget _ b) eqn:D; [|discriminate]. intro H. injection H as _ <-. eauto.
Qed.

Lemma read_get_raise {A B} (ap : app A B) n k params e : tame_app ap -> dget (ap_codecs ap) n = Some k ->
  read_get_request ap k params = Raise e -> answerable e.
Proof.
  intros [Tk Tz] Hk. unfold read_get_request. destruct (param params (lit "message")) as [msg|]; [|intro H; injection H as <-; auto].
  match goal with |- (do _ <- ?x; _) = _ -> _ => destruct x as [d|y] eqn:D end; cbn [bind].
  2:{ intro H. injection H as <-. destruct (match param params _ with Some _ => _ | None => _ end).
      - destruct (urlsafe_b64decode _); [discriminate|]. injection D as <-. auto.
      - unfold encode_str in D. destruct (utf8_encode _); [discriminate|]. injection D as <-. unfold surrogates. auto. }
  cbv zeta. destruct (dget (ap_comps ap) _) as [z|] eqn:Z; [|intro H; injection H as <-; unfold unknown_compression; auto].
  destruct (if nonempty d then z_decompress z d else Ok d) as [d'|y] eqn:C; cbn [bind].
  - intro H. exact (proj1 (Tk _ _ Hk) _ _ H).
  - intro H. injection H as <-. destruct (nonempty d); [|discriminate]. exact (proj1 (Tz _ _ Z) _ _ C).
Qed.

Lemma read_body_int l cs i : tame_recv l -> read_body l = (cs, Some i) -> exists e, i = IExn e /\ answerable e.
Proof.
  revert cs. induction l as [|r l IH]; intros cs T; cbn [read_body].
  - intro H. injection H as _ <-. eexists. split; [reflexivity|]. unfold disconnected. auto.
  - inversion T as [|r' l' Tr Tl Er]; subst. destruct r as [b more| | |e|].
    + destruct more.
      * destruct (read_body l) as [bs x] eqn:E. intro H. injection H as _ ->. exact (IH _ Tl eq_refl).
      * discriminate.
    + intro H. injection H as _ <-. eexists. split; [reflexivity|]. unfold disconnected. auto.
    + intro H. injection H as _ <-. eexists. split; [reflexivity|]. auto.
    + intro H. injection H as _ <-. eauto.
    + destruct Tr.
Qed.

Lemma read_post_raise {A B} (ap : app A B) n k hs l i : tame_app ap -> tame_recv l -> dget (ap_codecs ap) n = Some k ->
  read_post_request ap k hs l = inr i -> exists e, i = IExn e /\ answerable e.
Proof.
  intros [Tk Tz] Tr Hk. unfold read_post_request. destruct (read_body l) as [cs fin] eqn:R. destruct fin as [j|].
  { intro H. injection H as <-. eapply read_body_int; eauto. }
  cbv zeta. destruct (dget (ap_comps ap) _) as [z|] eqn:Z.
  2:{ intro H. injection H as <-. eexists. split; [reflexivity|]. unfold unknown_compression. auto. }
  destruct (if nonempty _ then _ else _) as [d|e] eqn:C.
  2:{ intro H. injection H as <-. eexists. split; [reflexivity|]. destruct (nonempty _); [|discriminate]. exact (proj1 (Tz _ _ Z) _ _ C). }
  assert (D : (match k_dec_req k d with Ok a => inl a | Raise e => inr (IExn e) end) = inr i -> exists e, i = IExn e /\ answerable e).
  { destruct (k_dec_req k d) eqn:E; [discriminate|]. intro H. injection H as <-. eexists. split; [reflexivity|]. exact (proj1 (Tk _ _ Hk) _ _ E). }
  destruct (ap_max ap); [|exact D]. destruct (_ <? _); [|exact D].
  intro H. injection H as <-. eexists. split; [reflexivity|]. unfold request_too_large. auto.
Qed.

Lemma negotiated_known comps l : (exists n, dget comps n = Some (negotiate_first l comps)) \/ negotiate_first l comps = identity_comp.
Proof.
  induction l as [|x l IH]; cbn [negotiate_first]; [auto|]. destruct (dget comps (strip x)) eqn:E; [eauto|exact IH].
Qed.

Lemma negotiated_tame {A B} (ap : app A B) accept b e : tame_app ap ->
  z_compress (negotiate_compression accept (ap_comps ap)) b = Raise e -> answerable e.
Proof.
  intros [_ Tz] H. unfold negotiate_compression in H. destruct (negotiated_known (ap_comps ap) (split_on 44 accept)) as [[n D]|D].
  - exact (proj2 (Tz _ _ D) _ _ H).
  - rewrite D in H. discriminate.
Qed.

Lemma send_unary_tame {A B} (ap : app A B) en n k accept b rs : tame_app ap -> dget (ap_codecs ap) n = Some k -> sends_ok (en_send en) ->
  (exists hs body, send_unary_response (en_send en) k (negotiate_compression accept (ap_comps ap)) b rs (mk_ast 0 [])
     = (mk_ast 2 [EvStart 200 hs false; EvBody body false], inl tt))
  \/ (exists e, answerable e /\ send_unary_response (en_send en) k (negotiate_compression accept (ap_comps ap)) b rs (mk_ast 0 [])
     = (mk_ast 0 [], inr (IExn e)))
  \/ (exists e, encode_pairs (context_headers rs) = Raise e).
Proof.
  intros T Hk So. unfold send_unary_response.
  destruct (k_enc_res k b) as [d|x] eqn:E1.
  2:{ rewrite (io_bind_err _ _ _ _ _ (io_res_raise _ _ _ eq_refl)). right; left. eexists. split; [|reflexivity]. exact (proj2 (proj1 T _ _ Hk) _ _ E1). }
  rewrite (io_bind_ok _ _ _ _ _ (io_res_ok _ _ _ eq_refl)).
  destruct (encode_str (connect_unary_prefix ++ k_name k)) as [ct|x] eqn:E2.
  2:{ rewrite (io_bind_err _ _ _ _ _ (io_res_raise _ _ _ eq_refl)). right; left. eexists. split; [|reflexivity].
      unfold encode_str in E2. destruct (utf8_encode _); [discriminate|]. injection E2 as <-. unfold surrogates. auto. }
  rewrite (io_bind_ok _ _ _ _ _ (io_res_ok _ _ _ eq_refl)).
  destruct (z_compress (negotiate_compression accept (ap_comps ap)) d) as [d'|x] eqn:E3.
  2:{ rewrite (io_bind_err _ _ _ _ _ (io_res_raise _ _ _ eq_refl)). right; left. eexists. split; [|reflexivity]. eapply negotiated_tame; eauto. }
  rewrite (io_bind_ok _ _ _ _ _ (io_res_ok _ _ _ eq_refl)).
  destruct (encode_str (z_name _)) as [zn|x] eqn:E4.
  2:{ rewrite (io_bind_err _ _ _ _ _ (io_res_raise _ _ _ eq_refl)). right; left. eexists. split; [|reflexivity].
      unfold encode_str in E4. destruct (utf8_encode _); [discriminate|]. injection E4 as <-. unfold surrogates. auto. }
  rewrite (io_bind_ok _ _ _ _ _ (io_res_ok _ _ _ eq_refl)).
  destruct (encode_pairs (context_headers rs)) as [extra|x]; [|right; right; eauto].
  rewrite (io_bind_ok _ _ _ _ _ (io_res_ok _ _ _ eq_refl)).
  rewrite (io_bind_ok _ _ _ _ _ (sends_ok_send _ _ _ So)). rewrite (sends_ok_send _ _ _ So). left. eexists _, _. reflexivity.
Qed.

(** Reading the WSGI input raises nothing but what the input raises. *)
Lemma wread_cases n inp : match wread n inp with
  | (Raise e, _) => In (RDErr e) inp
  | (Ok _, r) => forall e, In (RDErr e) r -> In (RDErr e) inp
  end.
Proof.
  unfold wread. destruct inp as [|[b|e] r]; cbn; auto. destruct (lenN b <=? n); cbn; intros e H; auto. destruct H as [H|H]; [discriminate|auto].
Qed.

Lemma read_chunks_raise fuel : forall inp cs e, read_chunks fuel inp = (cs, Some e) -> In (RDErr e) inp.
Proof.
  induction fuel as [|f IH]; intros inp cs e; cbn [read_chunks]; [discriminate|]. pose proof (wread_cases 4096 inp) as W.
  destruct (wread 4096 inp) as [[[|x c]|x] r]; [discriminate| |].
  - destruct (read_chunks f r) as [cs' e'] eqn:E. intro H. pose proof (f_equal snd H) as H1. cbn [snd] in H1. subst e'. eauto.
  - intro H. injection H as _ <-. exact W.
Qed.

Lemma read_exact_raise n fuel : forall acc inp e, read_exact fuel n acc inp = Raise e ->
  In (RDErr e) inp \/ exists m, e = EConnect InvalidArgument m [].
Proof.
  assert (T : forall e a b, Raise (truncated a b) = Raise (A := bytes) e -> exists m, e = EConnect InvalidArgument m []).
  { unfold truncated. intros e a b H. injection H as <-. eauto. }
  induction fuel as [|f IH]; intros acc inp e; cbn [read_exact]; (destruct (lenN acc <? n); [|discriminate]); [eauto|].
  pose proof (wread_cases (n - lenN acc) inp) as W. destruct (wread (n - lenN acc) inp) as [[[|x c]|x] r].
  - eauto.
  - intro H. apply IH in H. destruct H; auto.
  - intro H. injection H as <-. auto.
Qed.

Lemma read_length_raise n inp e : read_body_with_content_length n inp = Raise e ->
  In (RDErr e) inp \/ exists m, e = EConnect InvalidArgument m [].
Proof.
  unfold read_body_with_content_length. pose proof (wread_cases n inp) as W. destruct (wread n inp) as [[c|x] r].
  - destruct (_ =? _); [discriminate|]. intro H. apply read_exact_raise in H. destruct H; auto.
  - intro H. injection H as <-. auto.
Qed.

Lemma to_internal_raise {X} (r : res X) e : to_internal r = Raise e -> (forall x, r = Raise x -> answerable x) -> answerable e.
Proof.
  destruct r as [y|x]; cbn [to_internal]; [discriminate|]. destruct (is_connect x); intro H; injection H as <-; auto.
Qed.

Lemma or_invalid_raise {X} t (r : res X) e : or_invalid t r = Raise e -> answerable e.
Proof. destruct r as [y|x]; cbn [or_invalid]; [discriminate|]. intro H. injection H as <-. auto. Qed.

Lemma bind_raise {X Y} (r : res X) (k : X -> res Y) e : bind r k = Raise e -> r = Raise e \/ exists x, r = Ok x /\ k x = Raise e.
Proof. destruct r; cbn [bind]; intro H; eauto. injection H as ->. auto. Qed.

Lemma wsgi_post_raise {A B} (ap : app A B) q hs e : tame_input (wq_input q) -> wsgi_post_request ap q hs = Raise e -> answerable e.
Proof.
  intros Ti. unfold wsgi_post_request. destruct (dget (ap_codecs ap) _) as [k|]; [|intro H; injection H as <-; eexists; reflexivity].
  assert (Hi : forall x, In (RDErr x) (wq_input q) -> answerable x).
  { intros x Hx. unfold tame_input in Ti. rewrite Forall_forall in Ti. exact (Ti _ Hx). }
  intro H. eapply to_internal_raise; [exact H|]. clear H e. intros e H.
  apply bind_raise in H. destruct H as [H|(n&_&H)].
  { destruct (env_get q _) as [[|c s]|]; try discriminate. destruct (int_of_str _); [discriminate|]. injection H as <-. auto. }
  apply bind_raise in H. destruct H as [H|(b&_&H)].
  { destruct (0 <? n)%Z.
    - apply read_length_raise in H. destruct H as [H|[m ->]]; auto.
    - destruct (wsgi_body q) as [cs [x|]] eqn:Eb; [|discriminate]. injection H as <-. apply read_chunks_raise in Eb. auto. }
  cbv zeta in H. apply bind_raise in H. destruct H as [H|(d&_&H)].
  { destruct (str_eqb _ _); [discriminate|]. destruct (dget (ap_comps ap) _); [eapply or_invalid_raise; exact H|].
    injection H as <-. unfold unknown_compression. auto. }
  match type of H with (if ?x then _ else _) = _ => destruct x end; [injection H as <-; auto|].
  apply bind_raise in H. destruct H as [H|(a&_&H)]; [eapply or_invalid_raise; exact H|discriminate].
Qed.

Lemma wsgi_get_raise {A B} (ap : app A B) q e : tame_app ap -> wsgi_get_request ap q = Raise e -> answerable e.
Proof.
  intros [_ Tz] H. unfold wsgi_get_request in H. eapply to_internal_raise; [exact H|]. clear H e. intros e H. cbv zeta in H.
  destruct (param _ (lit "message")); [|injection H as <-; auto].
  apply bind_raise in H. destruct H as [H|(d&_&H)].
  { match type of H with (if ?x then _ else _) = _ => destruct x end.
    - destruct (urlsafe_b64decode _); [discriminate|]. injection H as <-. auto.
    - destruct (utf8_encode _); [discriminate|]. injection H as <-. auto. }
  apply bind_raise in H. destruct H as [H|(d'&_&H)].
  { destruct (param _ (lit "compression")); [|discriminate]. destruct (dget (ap_comps ap) _) eqn:Z.
    - exact (proj1 (Tz _ _ Z) _ _ H).
    - injection H as <-. unfold unknown_compression. auto. }
  destruct (dget (ap_codecs ap) _); [|injection H as <-; auto].
  apply bind_raise in H. destruct H as [H|(a&_&H)]; [eapply or_invalid_raise; exact H|discriminate].
Qed.

Lemma wsgi_open_raise {A B} (ap : app A B) now q e : wsgi_open_request ap now q = Raise e -> answerable e.
Proof.
  unfold wsgi_open_request. intro O. apply bind_raise in O. destruct O as [F|(ep&_&O)].
  - unfold wsgi_find_endpoint, env_item in F. destruct (env_get q "PATH_INFO"); cbn [bind] in F; [|injection F as <-; auto].
    cbv zeta in F. destruct (dget _ _); [discriminate|]. destruct (env_get q "SCRIPT_NAME"); cbn [bind] in F; [|injection F as <-; auto].
    destruct (str_eqb _ _); [destruct (dget _ _); [discriminate|]|]; injection F as <-; exists []; reflexivity.
  - unfold env_item in O. destruct (env_get q "REQUEST_METHOD"); cbn [bind] in O; [|injection O as <-; auto]. cbv zeta in O.
    destruct (_ && _); [injection O as <-; auto|]. destruct (server_create_context _ _ _ _ _ _ _) eqn:C; [discriminate|].
    injection O as <-. eapply create_context_raise; exact C.
Qed.

Lemma wsgi_error_answered {A} q (inv : list (invoked A)) e ctx : drain q 1 = None -> answerable e ->
  wr_out (wsgi_call_error q inv [] e ctx) = WReturn
  /\ exists status hs body, wsgi_response (wr_events (wsgi_call_error q inv [] e ctx)) status hs body None.
Proof.
  intros Hd Ha. unfold wsgi_call_error. rewrite Hd.
  assert (J : forall st h b, wsgi_response (WStart st h :: [WBody b]) st h b None).
  { intros st h b. exists [b], []. split; [reflexivity|]. cbn. now rewrite !app_nil_r. }
  destruct e as [c m ds|st h|kd m]; cbn [answerable] in Ha; unfold wsgi_handle_error.
  - destruct Ha as [b E]. cbv zeta. rewrite E. cbn [bind]. split; [reflexivity|]. do 2 eexists. exists b. apply J.
  - cbn [bind]. split; [reflexivity|]. do 2 eexists. exists [], [], []. split; reflexivity.
  - destruct Ha as [b E]. cbv zeta. rewrite E. cbn [bind]. split; [reflexivity|]. do 2 eexists. exists b.
    unfold wsgi_response. cbn [wr_events maybe_log is_connect is_http orb List.app without_logs]. apply (J _ _ b).
Qed.
