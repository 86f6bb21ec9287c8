(** Normal form of streaming responses: what the servers send when nothing goes wrong on the way out. *)
From Coq Require Import List NArith ZArith Bool String Lia ZifyBool ZifyNat.
From Verif Require Import MBase MPyStr MHeaders SHeaders LBase LPyStr LHeaders MUtf8 LUtf8 MBase64 MPercent MJson MWire MEnvelope SEnvelope LEnvelope
  MTimeout MProtocol MClient MServer MAsgi MWsgi SServer LServer.
Import ListNotations.
Local Open Scope N_scope.

(** ** Behaviour of methods *)
Lemma behaves_total {A B} (g : prog A B unit) : forall ps rs, exists steps rs' e, behaves g ps rs steps rs' e.
Proof.
  induction g as [u|i|k IH|b c k IH|op k IH|op k IH]; intros ps rs.
  - do 3 eexists. constructor.
  - do 3 eexists. constructor.
  - destruct (IH (fst (pull_next ps)) (snd (pull_next ps)) rs) as (s&r&e&H). do 3 eexists. constructor. exact H.
  - destruct (IH ps rs) as (s&r&e&H). do 3 eexists. constructor. exact H.
  - destruct (IH ps (mk_rs (h_exec (rs_h rs) op) (rs_t rs))) as (s&r&e&H). do 3 eexists. constructor. exact H.
  - destruct (IH ps (mk_rs (rs_h rs) (h_exec (rs_t rs) op))) as (s&r&e&H). do 3 eexists. constructor. exact H.
Qed.

Lemma behaves_det {A B} (g : prog A B unit) ps rs s1 r1 e1 : behaves g ps rs s1 r1 e1 ->
  forall s2 r2 e2, behaves g ps rs s2 r2 e2 -> s1 = s2 /\ r1 = r2 /\ e1 = e2.
Proof.
  induction 1 as [u ps rs|i ps rs|k ps rs st r e H IH|op k ps rs st r e H IH|op k ps rs st r e H IH|b c k ps rs st r e H IH];
    intros s2 r2 e2 H2; inversion H2; subst; auto.
  match goal with X : behaves k ps rs _ _ _ |- _ => destruct (IH _ _ _ X) as (->&->&->); auto end.
Qed.

Lemma returns_total {A B} (g : prog A Empty_set B) ps : exists steps rs' e, returns g ps steps rs' e.
Proof. unfold returns. destruct (run_fn g ps rs_new) as [[b|i] rs]; do 3 eexists; auto. Qed.

Lemma consume_single_ok {A} (ps : pulls A) a : consume_single_request ps = Ok a <-> ps = ([a], None).
Proof.
  unfold consume_single_request. destruct ps as [[|x [|y l]] [e|]]; split; try discriminate; try (intros [= ->]; reflexivity).
Qed.

Lemma consume_single_raise {A} (ps : pulls A) x : consume_single_request ps = Raise x <-> refused ps x.
Proof.
  unfold consume_single_request. split.
  - destruct ps as [[|a [|b l]] [e|]]; intros [= <-]; constructor; cbn; auto.
  - destruct 1 as [a b l e|l e Hl|]; auto. destruct l as [|a [|b l]]; auto. cbn in Hl. lia.
Qed.

Lemma runs_total {A B} (ep : endpoint A B) cx ps : exists inv steps rs' e, runs ep cx ps inv steps rs' e.
Proof.
  unfold runs. destruct ep as [m f|m f|m f|m f]; cbn [method_does takes_one].
  - destruct (consume_single_request ps) as [a|x] eqn:C.
    + apply consume_single_ok in C. destruct (returns_total (f a cx) ([], None)) as (s&r&e&H).
      do 4 eexists. left. exists a. repeat split; eauto.
    + apply consume_single_raise in C. do 4 eexists. right. repeat split; eauto.
  - destruct (returns_total (f cx) ps) as (s&r&e&H). do 4 eexists. left. eauto.
  - destruct (consume_single_request ps) as [a|x] eqn:C.
    + apply consume_single_ok in C. destruct (behaves_total (f a cx) ([], None) rs_new) as (s&r&e&H).
      do 4 eexists. left. exists a. repeat split; eauto.
    + apply consume_single_raise in C. do 4 eexists. right. repeat split; eauto.
  - destruct (behaves_total (f cx) ps rs_new) as (s&r&e&H). do 4 eexists. left. eauto.
Qed.

Lemma stream_runs_total {A B} (ep : endpoint A B) cx req ps : exists inv steps rs' e, stream_runs ep cx req ps inv steps rs' e.
Proof. unfold stream_runs. destruct req as [rz|]; [apply runs_total|]. do 4 eexists. repeat split; reflexivity. Qed.

Lemma stream_runs_once {A B} (ep : endpoint A B) cx req ps inv steps rs' e :
  stream_runs ep cx req ps inv steps rs' e -> (List.length inv <= 1)%nat.
Proof.
  unfold stream_runs, runs. destruct req; [|intros (->&_); cbn; lia].
  intros [H|(_&->&_)]; [|cbn; lia].
  destruct ep; cbn [method_does] in H; [destruct H as (a&_&->&_)|destruct H as (->&_)|destruct H as (a&_&->&_)|destruct H as (->&_)]; cbn; lia.
Qed.

(** The interrupt of a loop that ran to the end of its stream. *)
Definition end_of (e : option interrupt) : loop_end := match e with None => LDone | Some i => LFail i end.

(** ** ASGI *)
Lemma asgi_drive_sent {A B} o seen p name (enc : B -> res bytes) z (g : prog A B unit) ps rs steps rs' e :
  behaves g ps rs steps rs' e -> sends_ok o -> forall frs, written enc z steps frs ->
  forall a i, (forall j, (i <= j < i + List.length steps)%nat -> seen j = false) ->
  drive (stream_body o seen p name enc z) g ps rs (mk_lst a true i)
  = (mk_lst (mk_ast (as_n a + List.length frs) (as_ev a ++ map (fun b => EvBody b true) frs)) true (i + List.length steps), rs', end_of e).
Proof.
  intros H Ho. induction H as [u ps rs|x ps rs|k ps rs st r e H IH|op k ps rs st r e H IH|op k ps rs st r e H IH|b c k ps rs st r e H IH];
    intros frs Hw a i Hs.
  - inversion Hw; subst. cbn. rewrite app_nil_r, !Nat.add_0_r. now destruct a.
  - inversion Hw; subst. cbn. rewrite app_nil_r, !Nat.add_0_r. now destruct a.
  - cbn [drive]. destruct (pull_next ps) as [y ps']. cbn [fst snd] in *. now apply IH.
  - cbn [drive]. now apply IH.
  - cbn [drive]. now apply IH.
  - inversion Hw as [|? fr ? frs' Hfr Hrest]; subst. cbn [snd] in Hfr. cbn [drive]. unfold stream_body.
    cbn [ls_i ls_a ls_sent]. rewrite Hs by (cbn; lia).
    assert (E : (act body <- io_res (write_message enc (Some z) b); send o (EvBody body true)) a
                = (mk_ast (S (as_n a)) (as_ev a ++ [EvBody fr true]), inl tt)).
    { rewrite (io_bind_ok _ _ _ _ _ (io_res_ok _ _ a Hfr)). unfold send. now rewrite Ho. }
    rewrite E. rewrite (IH frs' Hrest). 2:{ intros j Hj. apply Hs. cbn. lia. }
    cbn [as_n as_ev map List.length]. rewrite <- app_assoc, !Nat.add_succ_r. reflexivity.
Qed.

Lemma asgi_drive {A B} o seen p name (enc : B -> res bytes) z (g : prog A B unit) ps rs steps rs' e :
  behaves g ps rs steps rs' e -> sends_ok o -> forall frs, written enc z steps frs ->
  forall hs, (steps <> [] -> encode_pairs (stream_headers p name (z_name z) (head_state steps rs')) = Ok hs) ->
  (forall j, (j < List.length steps)%nat -> seen j = false) ->
  exists n i, drive (stream_body o seen p name enc z) g ps rs (mk_lst (mk_ast 0 []) false 0)
  = (mk_lst (mk_ast n (match steps with [] => [] | _ => EvStart 200 hs (uses_trailers p) :: map (fun b => EvBody b true) frs end))
       (match steps with [] => false | _ => true end) i, rs', end_of e).
Proof.
  intros H Ho. induction H as [u ps rs|x ps rs|k ps rs st r e H IH|op k ps rs st r e H IH|op k ps rs st r e H IH|b c k ps rs st r e H IH];
    intros frs Hw hs Hh Hs.
  - inversion Hw; subst. cbn. eauto.
  - inversion Hw; subst. cbn. eauto.
  - cbn [drive]. destruct (pull_next ps) as [y ps']. cbn [fst snd] in *. now apply IH.
  - cbn [drive]. now apply IH.
  - cbn [drive]. now apply IH.
  - inversion Hw as [|? fr ? frs' Hfr Hrest]; subst. cbn [snd] in Hfr. specialize (Hh ltac:(discriminate)). cbn [head_state fst] in Hh.
    cbn [drive]. unfold stream_body. cbn [ls_i ls_a ls_sent]. rewrite Hs by (cbn; lia).
    assert (E1 : send_stream_headers o p name (z_name z) rs (mk_ast 0 []) = (mk_ast 1 [EvStart 200 hs (uses_trailers p)], inl tt)).
    { unfold send_stream_headers. rewrite (io_bind_ok _ _ _ _ _ (io_res_ok _ _ _ Hh)). unfold send. now rewrite Ho. }
    rewrite E1.
    assert (E2 : (act body <- io_res (write_message enc (Some z) b); send o (EvBody body true)) (mk_ast 1 [EvStart 200 hs (uses_trailers p)])
                = (mk_ast 2 [EvStart 200 hs (uses_trailers p); EvBody fr true], inl tt)).
    { rewrite (io_bind_ok _ _ _ _ _ (io_res_ok _ _ _ Hfr)). unfold send. cbn [as_n as_ev]. now rewrite Ho. }
    rewrite E2. cbv beta iota.
    rewrite (asgi_drive_sent o seen p name enc z _ _ _ _ _ _ H Ho frs' Hrest).
    2:{ intros j Hj. apply Hs. cbn. lia. }
    do 2 eexists. reflexivity.
Qed.

Lemma asgi_loop {A B} o seen p name (enc : B -> res bytes) z (g : prog A B unit) ps rs steps rs' e :
  behaves g ps rs steps rs' e -> sends_ok o -> forall frs, written enc z steps frs ->
  forall hs, (steps <> [] -> encode_pairs (stream_headers p name (z_name z) (head_state steps rs')) = Ok hs) ->
  (forall j, (j < List.length steps)%nat -> seen j = false) ->
  exists n i, stream_loop o seen None p name enc z g ps rs (mk_lst (mk_ast 0 []) false 0)
  = (mk_lst (mk_ast n (match steps with [] => [] | _ => EvStart 200 hs (uses_trailers p) :: map (fun b => EvBody b true) frs end))
       (match steps with [] => false | _ => true end) i, rs', e).
Proof.
  intros H Ho frs Hw hs Hh Hs. destruct (asgi_drive o seen p name enc z g ps rs steps rs' e H Ho frs Hw hs Hh Hs) as (n&i&E).
  exists n, i. unfold stream_loop. rewrite E. destruct e; reflexivity.
Qed.

Lemma behaves_single {A B} (b : B) rs : behaves (@single_response A B b) ([], None) rs [(rs, b)] rs None.
Proof. repeat constructor. Qed.


Lemma asgi_try {A B} (ap : app A B) en p ep k req z cx inv steps rs' e frs hs :
  sends_ok (en_send en) ->
  stream_runs ep cx req (fun rz => request_stream ap k rz en) inv steps rs' e ->
  unwatched ep en (List.length steps) ->
  written (k_enc_res k) z steps frs ->
  (steps <> [] -> encode_pairs (stream_headers p (k_name k) (z_name z) (head_state steps rs')) = Ok hs) ->
  exists n i, stream_try ap en p ep k req z cx (mk_lst (mk_ast 0 []) false 0)
  = (inv, (mk_lst (mk_ast n (match steps with [] => [] | _ => EvStart 200 hs (uses_trailers p) :: map (fun b => EvBody b true) frs end))
       (match steps with [] => false | _ => true end) i, rs', e)).
Proof.
  intros Ho Hr Hu Hw Hh. unfold stream_try. destruct req as [rz|]; cbn [stream_runs] in Hr.
  2:{ destruct Hr as (->&->&->&->). exists 0%nat, 0%nat. reflexivity. }
  set (ps := request_stream ap k rz en) in *.
  destruct Hr as [Hm|(Ht&->&->&->&x&Hx&->)].
  2:{ apply consume_single_raise in Hx. exists 0%nat, 0%nat. destruct ep; try discriminate; rewrite Hx; reflexivity. }
  destruct ep as [m f|m f|m f|m f]; cbn [method_does] in Hm.
  - destruct Hm as (a&Ha&->&Hm). apply consume_single_ok in Ha. rewrite Ha. unfold returns in Hm.
    destruct (run_fn (f a cx) ([], None) rs_new) as [[b|i] rs]; destruct Hm as (->&->&->).
    + destruct (asgi_loop (en_send en) (fun _ => false) p (k_name k) (k_enc_res k) z _ _ _ _ _ _ (@behaves_single A B b rs) Ho frs Hw hs Hh (fun _ _ => eq_refl)) as (n&i&E).
      exists n, i. now rewrite E.
    + exists 0%nat, 0%nat. reflexivity.
  - destruct Hm as (->&Hm). unfold returns in Hm.
    destruct (run_fn (f cx) ps rs_new) as [[b|i] rs]; destruct Hm as (->&->&->).
    + destruct (asgi_loop (en_send en) (fun _ => false) p (k_name k) (k_enc_res k) z _ _ _ _ _ _ (@behaves_single A B b rs) Ho frs Hw hs Hh (fun _ _ => eq_refl)) as (n&i&E).
      exists n, i. now rewrite E.
    + exists 0%nat, 0%nat. reflexivity.
  - destruct Hm as (a&Ha&->&Hm). apply consume_single_ok in Ha. rewrite Ha. cbn [unwatched] in Hu.
    assert (W : exists seen, (forall j, (j < List.length steps)%nat -> seen j = false) /\
      stream_loop (en_send en) (match en_watch en with WSeen n => fun i => Nat.leb n i | _ => fun _ => false end)
                 (match en_watch en with WRaise e => Some e | _ => None end) p (k_name k) (k_enc_res k) z
                 (f a cx) ([], None) rs_new (mk_lst (mk_ast 0 []) false 0)
      = stream_loop (en_send en) seen None p (k_name k) (k_enc_res k) z (f a cx) ([], None) rs_new (mk_lst (mk_ast 0 []) false 0)).
    { destruct (en_watch en) as [|n|x]; [exists (fun _ => false); auto| |contradiction].
      exists (fun i => Nat.leb n i). split; [intros j Hj; apply Nat.leb_gt; lia|reflexivity]. }
    destruct W as (seen&Hseen&->).
    destruct (asgi_loop (en_send en) seen p (k_name k) (k_enc_res k) z _ _ _ _ _ _ Hm Ho frs Hw hs Hh Hseen) as (n&i&E).
    exists n, i. now rewrite E.
  - destruct Hm as (->&Hm).
    destruct (asgi_loop (en_send en) (fun _ => false) p (k_name k) (k_enc_res k) z _ _ _ _ _ _ Hm Ho frs Hw hs Hh (fun _ _ => eq_refl)) as (n&i&E).
    exists n, i. now rewrite E.
Qed.

Lemma asgi_stream_normal {A B} (ap : app A B) en p ep k h cx req z inv steps rs' e frs hs em ts :
  sends_ok (en_send en) ->
  negotiate_stream_compression p h (ap_comps ap) = (req, z) ->
  stream_runs ep cx req (fun rz => request_stream ap k rz en) inv steps rs' e ->
  unwatched ep en (List.length steps) ->
  written (k_enc_res k) z steps frs ->
  encode_pairs (stream_headers p (k_name k) (z_name z) (head_state steps rs')) = Ok hs ->
  writer_end (ap_sc ap) p z (rs_t rs') (option_map we_from_exception (reported e)) = Ok em ->
  (forall t, em = EndTrailers t -> encode_pairs (h_allitems t) = Ok ts) ->
  handle_stream ap en p ep k h cx
  = mk_ar inv (EvStart 200 hs (uses_trailers p) :: map (fun b => EvBody b true) frs ++ asgi_tail em ts) (asgi_out e).
Proof.
  intros Ho Hn Hr Hu Hw Hh He Hts. unfold handle_stream. rewrite Hn.
  destruct (asgi_try ap en p ep k req z cx inv steps rs' e frs hs Ho Hr Hu Hw (fun _ => Hh)) as (n&i&->).
  unfold stream_finally. cbv zeta. cbn [ls_a ls_sent].
  change (match e with Some (IExn e0) => Some e0 | _ => None end) with (reported e).
  rewrite (io_bind_ok _ _ _ _ _ (io_res_ok _ _ _ He)).
  assert (E : exists n', (if match steps with [] => false | _ => true end then io_ret tt
                  else send_stream_headers (en_send en) p (k_name k) (z_name z) rs')
      (mk_ast n (match steps with [] => [] | _ => EvStart 200 hs (uses_trailers p) :: map (fun b => EvBody b true) frs end))
      = (mk_ast n' (EvStart 200 hs (uses_trailers p) :: map (fun b => EvBody b true) frs), inl tt)).
  { destruct steps as [|st steps].
    - inversion Hw; subst. cbn [head_state] in Hh. unfold send_stream_headers.
      rewrite (io_bind_ok _ _ _ _ _ (io_res_ok _ _ _ Hh)). unfold send. rewrite Ho. eexists. reflexivity.
    - eexists. reflexivity. }
  destruct E as (n'&E). rewrite (io_bind_ok _ _ _ _ _ E).
  assert (F : exists a, match em with
           | EndBytes b => send (en_send en) (EvBody b false)
           | EndTrailers h0 => act _ <- send (en_send en) (EvBody [] false);
               act hs0 <- io_res (encode_pairs (h_allitems h0)); send (en_send en) (EvTrailers hs0)
           end (mk_ast n' (EvStart 200 hs (uses_trailers p) :: map (fun b => EvBody b true) frs)) = (a, inl tt)
      /\ as_ev a = EvStart 200 hs (uses_trailers p) :: map (fun b => EvBody b true) frs ++ asgi_tail em ts).
  { destruct em as [b|t].
    - unfold send. rewrite Ho. eexists. split; reflexivity.
    - specialize (Hts t eq_refl).
      assert (X : forall ev s, send (en_send en) ev s = (mk_ast (S (as_n s)) (as_ev s ++ [ev]), inl tt)) by (intros; unfold send; now rewrite Ho).
      rewrite (io_bind_ok _ _ _ _ _ (X _ _)). rewrite (io_bind_ok _ _ _ _ _ (io_res_ok _ _ _ Hts)). rewrite X.
      eexists. split; [reflexivity|]. cbn. now rewrite <- app_assoc. }
  destruct F as (a&F&Fe). rewrite (io_bind_ok _ _ _ _ _ F). destruct e as [[x|]|]; cbn [reported asgi_out].
  - destruct (is_connect x); cbn; now rewrite Fe.
  - cbn. now rewrite Fe.
  - cbn. now rewrite Fe.
Qed.

(** ** WSGI *)
Lemma wsgi_drive_sent {A B} p name (enc : B -> res bytes) z (g : prog A B unit) ps rs steps rs' e :
  behaves g ps rs steps rs' e -> forall frs, written enc z steps frs -> forall ev,
  drive (wsgi_body_step p name enc z) g ps rs (mk_wst ev true) = (mk_wst (ev ++ map WBody frs) true, rs', end_of e).
Proof.
  intro H. induction H as [u ps rs|x ps rs|k ps rs st r e H IH|op k ps rs st r e H IH|op k ps rs st r e H IH|b c k ps rs st r e H IH];
    intros frs Hw ev.
  - inversion Hw; subst. cbn. now rewrite app_nil_r.
  - inversion Hw; subst. cbn. now rewrite app_nil_r.
  - cbn [drive]. destruct (pull_next ps) as [y ps']. cbn [fst snd] in *. now apply IH.
  - cbn [drive]. now apply IH.
  - cbn [drive]. now apply IH.
  - inversion Hw as [|? fr ? frs' Hfr Hrest]; subst. cbn [snd] in Hfr. cbn [drive]. unfold wsgi_body_step. cbn [ws_started ws_ev].
    rewrite Hfr. rewrite (IH frs' Hrest). cbn [map]. now rewrite <- app_assoc.
Qed.

Lemma wsgi_drive {A B} p name (enc : B -> res bytes) z (g : prog A B unit) ps rs steps rs' e :
  behaves g ps rs steps rs' e -> forall frs, written enc z steps frs ->
  drive (wsgi_body_step p name enc z) g ps rs (mk_wst [] false)
  = (mk_wst (match steps with [] => [] | _ => WStart (lit "200 OK") (stream_headers p name (z_name z) (head_state steps rs')) :: map WBody frs end)
            (match steps with [] => false | _ => true end), rs', end_of e).
Proof.
  intro H. induction H as [u ps rs|x ps rs|k ps rs st r e H IH|op k ps rs st r e H IH|op k ps rs st r e H IH|b c k ps rs st r e H IH];
    intros frs Hw.
  - reflexivity.
  - reflexivity.
  - cbn [drive]. destruct (pull_next ps) as [y ps']. cbn [fst snd] in *. now apply IH.
  - cbn [drive]. now apply IH.
  - cbn [drive]. now apply IH.
  - inversion Hw as [|? fr ? frs' Hfr Hrest]; subst. cbn [snd] in Hfr. cbn [drive]. unfold wsgi_body_step. cbn [ws_started ws_ev].
    rewrite Hfr. rewrite (wsgi_drive_sent p name enc z _ _ _ _ _ _ H frs' Hrest). reflexivity.
Qed.

Lemma wsgi_runs {A B} p (ep : endpoint A B) k z ps cx inv steps rs' e frs :
  runs ep cx ps inv steps rs' e -> written (k_enc_res k) z steps frs ->
  wsgi_run p ep k z ps cx
  = (inv, (mk_wst (match steps with [] => [] | _ => WStart (lit "200 OK") (stream_headers p (k_name k) (z_name z) (head_state steps rs')) :: map WBody frs end)
            (match steps with [] => false | _ => true end), rs', end_of e)).
Proof.
  intros Hr Hw. unfold wsgi_run. destruct Hr as [Hm|(Ht&->&->&->&x&Hx&->)].
  2:{ apply consume_single_raise in Hx. destruct ep; try discriminate; rewrite Hx; reflexivity. }
  destruct ep as [m f|m f|m f|m f]; cbn [method_does] in Hm.
  - destruct Hm as (a&Ha&->&Hm). apply consume_single_ok in Ha. rewrite Ha. unfold returns in Hm.
    destruct (run_fn (f a cx) ([], None) rs_new) as [[b|i] rs]; destruct Hm as (->&->&->); [|reflexivity].
    now rewrite (wsgi_drive p (k_name k) (k_enc_res k) z _ _ _ _ _ _ (@behaves_single A B b rs) frs Hw).
  - destruct Hm as (->&Hm). unfold returns in Hm.
    destruct (run_fn (f cx) ps rs_new) as [[b|i] rs]; destruct Hm as (->&->&->); [|reflexivity].
    now rewrite (wsgi_drive p (k_name k) (k_enc_res k) z _ _ _ _ _ _ (@behaves_single A B b rs) frs Hw).
  - destruct Hm as (a&Ha&->&Hm). apply consume_single_ok in Ha. rewrite Ha.
    now rewrite (wsgi_drive p (k_name k) (k_enc_res k) z _ _ _ _ _ _ Hm frs Hw).
  - destruct Hm as (->&Hm). now rewrite (wsgi_drive p (k_name k) (k_enc_res k) z _ _ _ _ _ _ Hm frs Hw).
Qed.

Lemma end_response_ok sc p z t err em :
  writer_end sc p z t (option_map we_from_exception err) = Ok em -> end_response sc p z t err = Ok (wsgi_tail em).
Proof. unfold end_response. intros ->. reflexivity. Qed.

Lemma end_of_interrupt e : loop_interrupt (end_of e) = e.
Proof. destruct e; reflexivity. Qed.

Lemma wsgi_stream_normal {A B} (ap : app A B) q p ep k h cx req z inv steps rs' e frs em :
  drain q 0 = None -> drain q 2 = None ->
  negotiate_stream_compression p h (ap_comps ap) = (req, z) ->
  dget (ap_codecs ap) (codec_name_from_content_type p true (h_get_default h (lit "content-type") [])) = Some k ->
  stream_runs ep cx req (fun rz => wsgi_request_stream ap k rz q) inv steps rs' e -> e <> Some ICancel ->
  written (k_enc_res k) z steps frs ->
  writer_end (ap_sc ap) p z (rs_t rs') (option_map we_from_exception (reported e)) = Ok em ->
  let ev := wsgi_logged steps e ++ WStart (lit "200 OK") (stream_headers p (k_name k) (z_name z) (head_state steps rs'))
              :: map WBody frs ++ wsgi_tail em in
  wsgi_stream ap q p h ep cx = inl (inv, rs', ev, None) \/ wsgi_stream ap q p h ep cx = inr (mk_wr inv ev WReturn).
Proof.
  intros D0 D2 Hn Hk Hr He Hw Hm. unfold wsgi_stream. rewrite Hn, Hk. cbv zeta.
  destruct req as [rz|]; cbn [stream_runs] in Hr.
  2:{ destruct Hr as (->&->&->&->). inversion Hw; subst. unfold wsgi_stream_error. rewrite D0. cbn [reported] in Hm.
      rewrite (end_response_ok _ _ _ _ (Some unknown_stream_compression) _ Hm : end_response _ _ _ _ (Some (EConnect Unimplemented (lit "Unrecognized request compression") [])) = _).
      left. reflexivity. }
  rewrite (wsgi_runs p ep k z _ cx inv steps rs' e frs Hr Hw). cbn [ws_started ws_ev]. rewrite end_of_interrupt.
  destruct steps as [|st steps].
  - inversion Hw; subst. left. destruct e as [[x|]|]; [|congruence|]; cbn [reported] in Hm.
    + unfold wsgi_stream_error. rewrite D0, (end_response_ok _ _ _ _ _ _ Hm). cbn [wsgi_logged head_state map List.app].
      rewrite <- app_assoc. reflexivity.
    + rewrite (end_response_ok _ _ _ _ None _ Hm). reflexivity.
  - right. unfold response_stream_end. destruct e as [[x|]|]; [|congruence|]; cbn [reported] in Hm.
    + rewrite D2, (end_response_ok _ _ _ _ _ _ Hm). reflexivity.
    + rewrite (end_response_ok _ _ _ _ None _ Hm). reflexivity.
Qed.

(** ** Closing on disconnect *)
Lemma asgi_drive_closed_sent {A B} o seen p name (enc : B -> res bytes) z n (g : prog A B unit) ps rs steps rs' c :
  closed_after n g ps rs steps rs' c -> sends_ok o -> forall frs, written enc z steps frs ->
  forall a i, (forall j, (i <= j < i + n)%nat -> seen j = false) -> seen (i + n)%nat = true ->
  exists a' i', drive (stream_body o seen p name enc z) g ps rs (mk_lst a true i)
  = (mk_lst a' true i', rs', LBroken (IExn client_disconnected) c)
    /\ as_ev a' = as_ev a ++ map (fun b => EvBody b true) frs.
Proof.
  intros H Ho. induction H as [b c k ps rs|n b c k ps rs st r c' H IH|n k ps rs st r c H IH|n op k ps rs st r c H IH|n op k ps rs st r c H IH];
    intros frs Hw a i Hs Ht.
  - inversion Hw; subst. cbn [drive]. unfold stream_body. cbn [ls_i ls_a ls_sent]. rewrite Nat.add_0_r in Ht. rewrite Ht.
    do 2 eexists. split; [reflexivity|]. now rewrite app_nil_r.
  - inversion Hw as [|? fr ? frs' Hfr Hrest]; subst. cbn [snd] in Hfr. cbn [drive].
    assert (E : stream_body o seen p name enc z (mk_lst a true i) rs b
                = (mk_lst (mk_ast (S (as_n a)) (as_ev a ++ [EvBody fr true])) true (S i), None)).
    { unfold stream_body. cbn [ls_i ls_a ls_sent]. rewrite Hs by lia.
      rewrite (io_bind_ok _ _ _ _ _ (io_res_ok _ _ a Hfr)). unfold send. now rewrite Ho. }
    rewrite E.
    destruct (IH frs' Hrest (mk_ast (S (as_n a)) (as_ev a ++ [EvBody fr true])) (S i)) as (a'&i'&->&Ha).
    + intros j Hj. apply Hs. lia.
    + now rewrite Nat.add_succ_comm.
    + exists a', i'. split; auto. rewrite Ha. cbn [as_ev map]. now rewrite <- app_assoc.
  - cbn [drive]. destruct (pull_next ps) as [y ps']. cbn [fst snd] in *. now apply IH.
  - cbn [drive]. now apply IH.
  - cbn [drive]. now apply IH.
Qed.

Lemma asgi_drive_closed {A B} o seen p name (enc : B -> res bytes) z n (g : prog A B unit) ps rs steps rs' c :
  closed_after n g ps rs steps rs' c -> sends_ok o -> forall frs, written enc z steps frs ->
  forall hs, (steps <> [] -> encode_pairs (stream_headers p name (z_name z) (head_state steps rs')) = Ok hs) ->
  (forall j, (j < n)%nat -> seen j = false) -> seen n = true ->
  exists m i, drive (stream_body o seen p name enc z) g ps rs (mk_lst (mk_ast 0 []) false 0)
  = (mk_lst (mk_ast m (match steps with [] => [] | _ => EvStart 200 hs (uses_trailers p) :: map (fun b => EvBody b true) frs end))
       (match steps with [] => false | _ => true end) i, rs', LBroken (IExn client_disconnected) c).
Proof.
  intros H Ho. induction H as [b c k ps rs|n b c k ps rs st r c' H IH|n k ps rs st r c H IH|n op k ps rs st r c H IH|n op k ps rs st r c H IH];
    intros frs Hw hs Hh Hs Ht.
  - inversion Hw; subst. cbn [drive]. unfold stream_body. cbn [ls_i ls_a ls_sent]. rewrite Ht. do 2 eexists. reflexivity.
  - inversion Hw as [|? fr ? frs' Hfr Hrest]; subst. cbn [snd] in Hfr. specialize (Hh ltac:(discriminate)). cbn [head_state fst] in Hh.
    cbn [drive].
    assert (E : stream_body o seen p name enc z (mk_lst (mk_ast 0 []) false 0) rs b
                = (mk_lst (mk_ast 2 [EvStart 200 hs (uses_trailers p); EvBody fr true]) true 1, None)).
    { unfold stream_body. cbn [ls_i ls_a ls_sent]. rewrite Hs by lia.
      assert (E1 : send_stream_headers o p name (z_name z) rs (mk_ast 0 []) = (mk_ast 1 [EvStart 200 hs (uses_trailers p)], inl tt)).
      { unfold send_stream_headers. rewrite (io_bind_ok _ _ _ _ _ (io_res_ok _ _ _ Hh)). unfold send. now rewrite Ho. }
      rewrite E1. rewrite (io_bind_ok _ _ _ _ _ (io_res_ok _ _ _ Hfr)). unfold send. cbn [as_n as_ev]. now rewrite Ho. }
    rewrite E.
    destruct (asgi_drive_closed_sent o seen p name enc z _ _ _ _ _ _ _ H Ho frs' Hrest (mk_ast 2 [EvStart 200 hs (uses_trailers p); EvBody fr true]) 1%nat)
      as (a'&i'&->&Ha).
    + intros j Hj. apply Hs. lia.
    + exact Ht.
    + exists (as_n a'), i'. destruct a' as [m ev]. cbn [as_ev as_n] in *. rewrite Ha. reflexivity.
  - cbn [drive]. destruct (pull_next ps) as [y ps']. cbn [fst snd] in *. now apply IH.
  - cbn [drive]. now apply IH.
  - cbn [drive]. now apply IH.
Qed.

(** The end of a stream whose loop left the events [ev] behind. *)
Lemma finally_normal (o : nat -> send_res) sc p name z steps_nil rs e n ev i hs em ts :
  sends_ok o ->
  (steps_nil = true -> encode_pairs (stream_headers p name (z_name z) rs) = Ok hs) ->
  writer_end sc p z (rs_t rs) (option_map we_from_exception (reported e)) = Ok em ->
  (forall t, em = EndTrailers t -> encode_pairs (h_allitems t) = Ok ts) ->
  exists a r, stream_finally o sc p name z (mk_lst (mk_ast n ev) (negb steps_nil) i) rs e (mk_ast n ev) = (a, r)
   /\ aout_of r = asgi_out e
   /\ as_ev a = (ev ++ if steps_nil then [EvStart 200 hs (uses_trailers p)] else []) ++ asgi_tail em ts.
Proof.
  intros Ho Hh He Hts. unfold stream_finally. cbv zeta. cbn [ls_a ls_sent].
  change (match e with Some (IExn e0) => Some e0 | _ => None end) with (reported e).
  rewrite (io_bind_ok _ _ _ _ _ (io_res_ok _ _ _ He)).
  assert (X : forall ev s, send o ev s = (mk_ast (S (as_n s)) (as_ev s ++ [ev]), inl tt)) by (intros; unfold send; now rewrite Ho).
  set (ev' := ev ++ if steps_nil then [EvStart 200 hs (uses_trailers p)] else []).
  assert (E : exists n', (if negb steps_nil then io_ret tt else send_stream_headers o p name (z_name z) rs) (mk_ast n ev) = (mk_ast n' ev', inl tt)).
  { unfold ev'. destruct steps_nil; cbn [negb].
    - unfold send_stream_headers. rewrite (io_bind_ok _ _ _ _ _ (io_res_ok _ _ _ (Hh eq_refl))). rewrite X. eexists. reflexivity.
    - eexists. rewrite app_nil_r. reflexivity. }
  destruct E as (n'&E). rewrite (io_bind_ok _ _ _ _ _ E).
  assert (F : exists a, match em with
           | EndBytes b => send o (EvBody b false)
           | EndTrailers h0 => act _ <- send o (EvBody [] false);
               act hs0 <- io_res (encode_pairs (h_allitems h0)); send o (EvTrailers hs0)
           end (mk_ast n' ev') = (a, inl tt) /\ as_ev a = ev' ++ asgi_tail em ts).
  { destruct em as [b|t].
    - rewrite X. eexists. split; reflexivity.
    - specialize (Hts t eq_refl).
      rewrite (io_bind_ok _ _ _ _ _ (X _ _)). rewrite (io_bind_ok _ _ _ _ _ (io_res_ok _ _ _ Hts)). rewrite X.
      eexists. split; [reflexivity|]. cbn. now rewrite <- app_assoc. }
  destruct F as (a&F&Fe). rewrite (io_bind_ok _ _ _ _ _ F).
  destruct e as [[x|]|]; cbn [reported asgi_out]; [destruct (is_connect x)| |]; cbn; eexists _, _; (split; [reflexivity|]); split; auto.
Qed.

Lemma asgi_closed_normal {A B} (ap : app A B) en p m (f : A -> req_ctx -> prog Empty_set B unit) k h cx rz z a n steps rs' c frs hs em ts :
  sends_ok (en_send en) -> en_watch en = WSeen n ->
  negotiate_stream_compression p h (ap_comps ap) = (Some rz, z) ->
  request_stream ap k rz en = ([a], None) ->
  closed_after n (f a cx) ([], None) rs_new steps rs' c ->
  written (k_enc_res k) z steps frs ->
  encode_pairs (stream_headers p (k_name k) (z_name z) (head_state steps (after_close rs' c))) = Ok hs ->
  let e := match cl_raise c with Some j => j | None => IExn client_disconnected end in
  writer_end (ap_sc ap) p z (rs_t (after_close rs' c)) (option_map we_from_exception (reported (Some e))) = Ok em ->
  (forall t, em = EndTrailers t -> encode_pairs (h_allitems t) = Ok ts) ->
  handle_stream ap en p (EpServerStream m f) k h cx
  = mk_ar [InvMsg a] (EvStart 200 hs (uses_trailers p) :: map (fun b => EvBody b true) frs ++ asgi_tail em ts) (asgi_out (Some e)).
Proof.
  intros Ho Hwt Hn Hps Hc Hw Hh e He Hts. unfold handle_stream. rewrite Hn. unfold stream_try. rewrite Hps. cbn [consume_single_request].
  rewrite Hwt. unfold stream_loop.
  destruct (asgi_drive_closed (en_send en) (fun i => Nat.leb n i) p (k_name k) (k_enc_res k) z n _ _ _ _ _ _ Hc Ho frs Hw hs) as (m'&i&->).
  { intro Hne. destruct steps; [congruence|]. exact Hh. }
  { intros j Hj. apply Nat.leb_gt. lia. }
  { apply Nat.leb_le. lia. }
  change (match cl_raise c with Some j => j | None => IExn client_disconnected end) with e.
  change (run_hops rs' c) with (after_close rs' c). cbn [ls_a].
  destruct (finally_normal (en_send en) (ap_sc ap) p (k_name k) z (match steps with [] => true | _ => false end) (after_close rs' c) (Some e) m'
      (match steps with [] => [] | _ => EvStart 200 hs (uses_trailers p) :: map (fun b => EvBody b true) frs end) i hs em ts Ho) as (b&r&E&Er&Eb); auto.
  { destruct steps; [intros _; exact Hh|discriminate]. }
  replace (negb match steps with [] => true | _ :: _ => false end) with (match steps with [] => false | _ => true end) in E by (now destruct steps).
  rewrite E, Er, Eb. f_equal. destruct steps; cbn [List.app].
  - inversion Hw; subst. reflexivity.
  - now rewrite app_nil_r.
Qed.

(** The monitor bounds the number of messages, whatever else happens. *)
Lemma drive_bound {A B} o n p name (enc : B -> res bytes) z (g : prog A B unit) : forall ps rs s,
  (message_events (as_ev (ls_a s)) <= Nat.min n (ls_i s))%nat ->
  let s' := fst (fst (drive (stream_body o (fun i => Nat.leb n i) p name enc z) g ps rs s)) in
  (message_events (as_ev (ls_a s')) <= n)%nat.
Proof.
  assert (M : forall x y, message_events (x ++ y) = (message_events x + message_events y)%nat).
  { intros. unfold message_events. now rewrite filter_app, app_length. }
  assert (K : forall s rs b, (message_events (as_ev (ls_a s)) <= Nat.min n (ls_i s))%nat ->
      let s' := fst (stream_body o (fun i => Nat.leb n i) p name enc z s rs b) in
      (message_events (as_ev (ls_a s')) <= Nat.min n (ls_i s'))%nat).
  { intros s rs b H. unfold stream_body. destruct (Nat.leb_spec n (ls_i s)) as [L|L]; [cbn; lia|].
    assert (T : forall a, (message_events (as_ev a) <= Nat.min n (ls_i s))%nat ->
      let '(a', r) := (act body <- io_res (write_message enc (Some z) b); send o (EvBody body true)) a in
      (message_events (as_ev a') <= Nat.min n (S (ls_i s)))%nat).
    { intros a Ha. destruct (write_message enc (Some z) b) as [fr|x].
      - rewrite (io_bind_ok _ _ _ _ _ (io_res_ok _ _ a eq_refl)). destruct (send_cases o (EvBody fr true) a) as [[_ ->]|[_ [i ->]]]; cbn [as_ev].
        + rewrite M. cbn. lia.
        + lia.
      - rewrite (io_bind_err _ _ _ _ _ (io_res_raise _ _ a eq_refl)). lia. }
    destruct (ls_sent s).
    - specialize (T (ls_a s) H). destruct ((act body <- _ ; _) (ls_a s)) as [a r]. cbn. exact T.
    - destruct (send_stream_headers_cases o p name (z_name z) rs (ls_a s)) as [(hs&_&_&->)|(s'&i&->&Hs)].
      + match goal with |- context[(act body <- _ ; _) ?a0] => specialize (T a0) end. cbn [as_ev] in T. rewrite M in T. cbn [message_events filter List.length] in T.
        change (message_events [EvStart 200 hs (uses_trailers p)]) with 0%nat in T. rewrite Nat.add_0_r in T. specialize (T H).
        destruct ((act body <- _ ; _) _) as [a r]. cbn. exact T.
      + cbn [fst ls_a ls_i]. rewrite Hs. lia. }
  intros ps rs s H.
  pose proof (drive_inv (stream_body o (fun i => Nat.leb n i) p name enc z)
     (fun s => (message_events (as_ev (ls_a s)) <= Nat.min n (ls_i s))%nat) (fun s rs b Hs => K s rs b Hs) g ps rs s H) as X.
  cbv beta zeta in X |- *. lia.
Qed.

Lemma finally_messages o sc p name z s rs i a r : stream_finally o sc p name z s rs i (ls_a s) = (a, r) ->
  exists tail, as_ev a = as_ev (ls_a s) ++ tail
    /\ Forall (fun e => ending e \/ (ls_sent s = false /\ exists hs, e = EvStart 200 hs (uses_trailers p))) tail.
Proof.
  unfold stream_finally. cbv zeta.
  set (error := match i with Some (IExn e) => Some e | _ => None end).
  destruct (writer_end sc p z (rs_t rs) _) as [em|x].
  2:{ rewrite (io_bind_err _ _ _ _ _ (io_res_raise _ _ _ eq_refl)). intros [= <- <-]. exists []. rewrite app_nil_r. auto. }
  rewrite (io_bind_ok _ _ _ _ _ (io_res_ok _ _ _ eq_refl)).
  assert (K : exists a1 r1 t1, (if ls_sent s then io_ret tt else send_stream_headers o p name (z_name z) rs) (ls_a s) = (a1, r1)
     /\ as_ev a1 = as_ev (ls_a s) ++ t1
     /\ Forall (fun e => ending e \/ (ls_sent s = false /\ exists hs, e = EvStart 200 hs (uses_trailers p))) t1).
  { destruct (ls_sent s) eqn:Es.
    - eexists _, _, []. split; [reflexivity|]. rewrite app_nil_r. auto.
    - destruct (send_stream_headers_cases o p name (z_name z) rs (ls_a s)) as [(hs&_&_&->)|(s'&y&->&Hs)].
      + eexists _, _, [_]. split; [reflexivity|]. split; [reflexivity|]. constructor; eauto.
      + eexists _, _, []. split; [reflexivity|]. rewrite app_nil_r. auto. }
  destruct K as (a1&r1&t1&K1&K2&K3). destruct r1 as [u|y].
  2:{ rewrite (io_bind_err _ _ _ _ _ K1). intros [= <- <-]. eauto. }
  rewrite (io_bind_ok _ _ _ _ _ K1).
  assert (L : exists a2 r2 t2, match em with
           | EndBytes b => send o (EvBody b false)
           | EndTrailers h0 => act _ <- send o (EvBody [] false);
               act hs0 <- io_res (encode_pairs (h_allitems h0)); send o (EvTrailers hs0)
           end a1 = (a2, r2) /\ as_ev a2 = as_ev a1 ++ t2 /\ Forall ending t2).
  { destruct em as [b|t].
    - destruct (send_cases o (EvBody b false) a1) as [[_ ->]|[_ [y ->]]].
      + eexists _, _, [_]. split; [reflexivity|]. split; [reflexivity|]. repeat constructor.
      + eexists _, _, []. split; [reflexivity|]. rewrite app_nil_r. auto.
    - destruct (send_cases o (EvBody [] false) a1) as [[_ E]|[_ [y E]]].
      2:{ rewrite (io_bind_err _ _ _ _ _ E). eexists _, _, []. split; [reflexivity|]. rewrite app_nil_r. auto. }
      rewrite (io_bind_ok _ _ _ _ _ E). destruct (encode_pairs (h_allitems t)) as [ts|y].
      2:{ rewrite (io_bind_err _ _ _ _ _ (io_res_raise _ _ _ eq_refl)). eexists _, _, [_]. split; [reflexivity|]. split; [reflexivity|]. repeat constructor. }
      rewrite (io_bind_ok _ _ _ _ _ (io_res_ok _ _ _ eq_refl)).
      destruct (send_cases o (EvTrailers ts) (mk_ast (S (as_n a1)) (as_ev a1 ++ [EvBody [] false]))) as [[_ ->]|[_ [y ->]]].
      + eexists _, _, [_; _]. split; [reflexivity|]. split; [cbn; rewrite <- app_assoc; reflexivity|]. repeat constructor.
      + eexists _, _, [_]. split; [reflexivity|]. split; [reflexivity|]. repeat constructor. }
  destruct L as (a2&r2&t2&L1&L2&L3).
  assert (Fin : as_ev a2 = as_ev (ls_a s) ++ t1 ++ t2) by (now rewrite L2, K2, <- app_assoc).
  assert (FF : Forall (fun e => ending e \/ (ls_sent s = false /\ exists hs, e = EvStart 200 hs (uses_trailers p))) (t1 ++ t2)).
  { apply Forall_app. split; auto. eapply Forall_impl; [|exact L3]. auto. }
  destruct r2 as [u2|y].
  2:{ rewrite (io_bind_err _ _ _ _ _ L1). intros [= <- <-]. eauto. }
  rewrite (io_bind_ok _ _ _ _ _ L1). intro H.
  assert (a = a2). { destruct error as [e|]; [destruct (is_connect e)|destruct i as [[]|]]; injection H; auto. }
  subst a2. eauto.
Qed.

Lemma message_events_tail x tail : Forall (fun e => match e with EvBody _ true => False | _ => True end) tail ->
  message_events (x ++ tail) = message_events x.
Proof.
  intro H. unfold message_events. rewrite filter_app, app_length.
  replace (filter _ tail) with (@nil aevent); [cbn; lia|]. symmetry. induction H as [|e t He Ht IH]; auto.
  cbn. destruct e as [| b [] |]; auto. contradiction.
Qed.

(** ** Application calls answered by streams *)
Lemma asgi_call_stream {A B} (ap : app A B) now sc en ep hs p cx k :
  asgi_stream_request ap now sc ep hs p cx k -> asgi_call ap now sc en = handle_stream ap en p ep k hs cx.
Proof.
  intros (H1&(params&H2)&H3). unfold asgi_call. rewrite H1, H2. destruct ep, p; try reflexivity. discriminate (H3 eq_refl).
Qed.

Lemma wsgi_call_stream {A B} (ap : app A B) now q ep hs p cx k :
  wsgi_stream_request ap now q ep hs p cx k ->
  wsgi_call ap now q = match wsgi_stream ap q p hs ep cx with
      | inr r => r
      | inl (inv, rs, ev, None) => mk_wr inv ev WReturn
      | inl (inv, rs, ev, Some ICancel) => mk_wr inv ev WBase
      | inl (inv, rs, ev, Some (IExn e)) => wsgi_call_error q inv ev e (Some rs)
      end.
Proof.
  intros (H1&_&H3). unfold wsgi_call. rewrite H1. destruct ep, p; try reflexivity. discriminate (H3 eq_refl).
Qed.

(** ** Application results *)
Lemma wsgi_call_normal {A B} (ap : app A B) now q ep hs p cx k req z inv steps rs' e frs em :
  wsgi_stream_request ap now q ep hs p cx k -> drain q 0 = None -> drain q 2 = None ->
  negotiate_stream_compression p hs (ap_comps ap) = (req, z) ->
  stream_runs ep cx req (fun rz => wsgi_request_stream ap k rz q) inv steps rs' e -> e <> Some ICancel ->
  written (k_enc_res k) z steps frs ->
  writer_end (ap_sc ap) p z (rs_t rs') (option_map we_from_exception (reported e)) = Ok em ->
  wsgi_call ap now q
  = mk_wr inv (wsgi_logged steps e ++ WStart (lit "200 OK") (stream_headers p (k_name k) (z_name z) (head_state steps rs'))
              :: map WBody frs ++ wsgi_tail em) WReturn.
Proof.
  intros Hq D0 D2 Hn Hr He Hw Hm. rewrite (wsgi_call_stream _ _ _ _ _ _ _ _ Hq). destruct Hq as (_&Hk&_).
  destruct (wsgi_stream_normal ap q p ep k hs cx req z inv steps rs' e frs em D0 D2 Hn Hk Hr He Hw Hm) as [->| ->]; reflexivity.
Qed.

Lemma wsgi_call_cancelled {A B} (ap : app A B) now q ep hs p cx k req z inv steps rs' frs :
  wsgi_stream_request ap now q ep hs p cx k ->
  negotiate_stream_compression p hs (ap_comps ap) = (req, z) ->
  stream_runs ep cx req (fun rz => wsgi_request_stream ap k rz q) inv steps rs' (Some ICancel) ->
  written (k_enc_res k) z steps frs ->
  wsgi_call ap now q
  = mk_wr inv (match steps with [] => [] | _ => WStart (lit "200 OK") (stream_headers p (k_name k) (z_name z) (head_state steps rs')) :: map WBody frs end) WBase.
Proof.
  intros Hq Hn Hr Hw. rewrite (wsgi_call_stream _ _ _ _ _ _ _ _ Hq). destruct Hq as (_&Hk&_). unfold wsgi_stream. rewrite Hn, Hk. cbv zeta.
  destruct req as [rz|]; cbn [stream_runs] in Hr; [|destruct Hr as (_&_&_&[=])].
  rewrite (wsgi_runs p ep k z _ cx inv steps rs' _ frs Hr Hw). cbn [ws_started ws_ev end_of loop_interrupt].
  destruct steps as [|st steps]; reflexivity.
Qed.

Lemma asgi_stream_messages {A B} (ap : app A B) en p ep k h cx req z inv steps rs' e frs hs :
  sends_ok (en_send en) ->
  negotiate_stream_compression p h (ap_comps ap) = (req, z) ->
  stream_runs ep cx req (fun rz => request_stream ap k rz en) inv steps rs' e ->
  unwatched ep en (List.length steps) ->
  written (k_enc_res k) z steps frs -> steps <> [] ->
  encode_pairs (stream_headers p (k_name k) (z_name z) (head_state steps rs')) = Ok hs ->
  let r := handle_stream ap en p ep k h cx in
  ar_inv r = inv
  /\ exists tail, ar_events r = EvStart 200 hs (uses_trailers p) :: map (fun b => EvBody b true) frs ++ tail /\ Forall ending tail.
Proof.
  intros Ho Hn Hr Hu Hw Hne Hh. unfold handle_stream. rewrite Hn.
  destruct (asgi_try ap en p ep k req z cx inv steps rs' e frs hs Ho Hr Hu Hw (fun _ => Hh)) as (n&i&->).
  destruct (stream_finally _ _ _ _ _ _ _ _ _) as [a r] eqn:E. cbn [ar_inv ar_events]. split; auto.
  destruct (finally_messages _ _ _ _ _ _ _ _ _ _ E) as (tail&->&Ht). exists tail. cbn [ls_a as_ev ls_sent] in *.
  destruct steps as [|st steps]; [congruence|]. split; [reflexivity|].
  eapply Forall_impl; [|exact Ht]. intros ev [H|[H _]]; [auto|discriminate].
Qed.

Lemma finally_not_return o sc p name z s rs x a : is_connect x = false ->
  exists s' i, stream_finally o sc p name z s rs (Some (IExn x)) a = (s', inr i).
Proof.
  intro Hx. unfold stream_finally. cbv zeta. rewrite Hx.
  assert (Bd : forall X (m : io X) (k : X -> io unit), (forall v s0, exists s' i, k v s0 = (s', inr i)) ->
     forall s0, exists s' i, io_bind m k s0 = (s', inr i)).
  { intros X m k Hk s0. unfold io_bind. destruct (m s0) as [s1 [v|i]]; eauto. }
  apply Bd. intros em s0. apply Bd. intros _ s1. apply Bd. intros _ s2. exists s2, (IExn x). reflexivity.
Qed.

Lemma asgi_stream_raises {A B} (ap : app A B) en p ep k h cx req z inv steps rs' x frs hs :
  sends_ok (en_send en) ->
  negotiate_stream_compression p h (ap_comps ap) = (req, z) ->
  stream_runs ep cx req (fun rz => request_stream ap k rz en) inv steps rs' (Some (IExn x)) -> is_connect x = false ->
  unwatched ep en (List.length steps) ->
  written (k_enc_res k) z steps frs ->
  (steps <> [] -> encode_pairs (stream_headers p (k_name k) (z_name z) (head_state steps rs')) = Ok hs) ->
  ar_out (handle_stream ap en p ep k h cx) <> AReturn.
Proof.
  intros Ho Hn Hr Hx Hu Hw Hh. unfold handle_stream. rewrite Hn.
  destruct (asgi_try ap en p ep k req z cx inv steps rs' _ frs hs Ho Hr Hu Hw Hh) as (n&i&->).
  match goal with |- context[stream_finally ?o ?sc p ?nm z ?s rs' _ ?a] => destruct (finally_not_return o sc p nm z s rs' x a Hx) as (s'&j&->) end.
  destruct j; discriminate.
Qed.

Lemma asgi_watch_bound {A B} (ap : app A B) en p m f k h cx n : en_watch en = WSeen n ->
  (message_events (ar_events (handle_stream ap en p (@EpServerStream A B m f) k h cx)) <= n)%nat.
Proof.
  intro Hw. unfold handle_stream. destruct (negotiate_stream_compression p h (ap_comps ap)) as [req z].
  destruct (stream_try ap en p (EpServerStream m f) k req z cx (mk_lst (mk_ast 0 []) false 0)) as [inv [[s rs] i]] eqn:E.
  destruct (stream_finally _ _ _ _ _ s rs i _) as [a r] eqn:F. cbn [ar_events].
  destruct (finally_messages _ _ _ _ _ _ _ _ _ _ F) as (tail&->&Ht). rewrite message_events_tail.
  2:{ eapply Forall_impl; [|exact Ht]. intros ev [X|[_ (hs0&X)]]; destruct ev as [|b [] |]; cbn in *; auto; discriminate. }
  unfold stream_try in E. destruct req as [rz|]; [|injection E as <- <- <- <-; cbn; lia].
  destruct (consume_single_request _) as [b|x]; [|injection E as <- <- <- <-; cbn; lia].
  rewrite Hw in E. apply (f_equal snd) in E. cbn [snd] in E. unfold stream_loop in E.
  pose proof (drive_bound (en_send en) n p (k_name k) (k_enc_res k) z (f b cx) ([], None) rs_new (mk_lst (mk_ast 0 []) false 0)) as K.
  cbv zeta in K. specialize (K ltac:(cbn; lia)). destruct (drive _ _ _ _ _) as [[s0 rs0] le]. cbn [fst] in K.
  destruct le; injection E as <- <- <-; exact K.
Qed.
