(** C93: what happens to a response stream when a message cannot be written. *)
From Coq Require Import List NArith ZArith Bool String Lia.
From Verif Require Import MBase MPyStr MHeaders MUtf8 MWire MEnvelope MTimeout MProtocol SProtocol MClient MServer MAsgi MWsgi SServer SCut
  LBase LHeaders LServer LStream LWsgi PProtocol PResponse.
Import ListNotations.
Local Open Scope N_scope.

(** ** ASGI *)
Lemma body_cut {B} o seen p name (enc : B -> res bytes) z s rs b x hs : sends_ok o -> seen (ls_i s) = false ->
  write_message enc (Some z) b = Raise x -> (ls_sent s = false -> encode_pairs (stream_headers p name (z_name z) rs) = Ok hs) ->
  exists n, stream_body o seen p name enc z s rs b
  = (mk_lst (mk_ast n (as_ev (ls_a s) ++ if ls_sent s then [] else [EvStart 200 hs (uses_trailers p)])) true (S (ls_i s)), Some (IExn x)).
Proof.
  intros Ho Hs Hx Hh. unfold stream_body. rewrite Hs. destruct s as [[n ev] [|] i]; cbn [ls_sent ls_a ls_i as_ev].
  - exists n. rewrite Hx. cbn. now rewrite app_nil_r.
  - exists (S n). unfold send_stream_headers. cbn [ls_sent] in Hh. rewrite (io_bind_ok _ _ _ _ _ (io_res_ok _ _ _ (Hh eq_refl))).
    unfold send at 1. rewrite Ho. rewrite Hx. reflexivity.
Qed.

Lemma body_written {B} o seen p name (enc : B -> res bytes) z s rs b fr hs : sends_ok o -> seen (ls_i s) = false ->
  write_message enc (Some z) b = Ok fr -> (ls_sent s = false -> encode_pairs (stream_headers p name (z_name z) rs) = Ok hs) ->
  exists n, stream_body o seen p name enc z s rs b
  = (mk_lst (mk_ast n ((as_ev (ls_a s) ++ if ls_sent s then [] else [EvStart 200 hs (uses_trailers p)]) ++ [EvBody fr true])) true (S (ls_i s)), None).
Proof.
  intros Ho Hs Hx Hh. unfold stream_body. rewrite Hs. destruct s as [[n ev] [|] i]; cbn [ls_sent ls_a ls_i as_ev].
  - exists (S n). rewrite (io_bind_ok _ _ _ _ _ (io_res_ok _ _ _ Hx)). unfold send. rewrite Ho. cbn. now rewrite app_nil_r.
  - exists (S (S n)). unfold send_stream_headers. cbn [ls_sent] in Hh. rewrite (io_bind_ok _ _ _ _ _ (io_res_ok _ _ _ (Hh eq_refl))).
    unfold send at 1. rewrite Ho. rewrite (io_bind_ok _ _ _ _ _ (io_res_ok _ _ _ Hx)). unfold send. rewrite Ho. reflexivity.
Qed.

Lemma asgi_drive_cut {A B} o seen p name (enc : B -> res bytes) z (g : prog A B unit) ps rs steps rs' b c :
  cut_at g ps rs steps rs' b c -> sends_ok o -> forall x, write_message enc (Some z) b = Raise x -> forall hs frs, written enc z steps frs ->
  forall s, (ls_sent s = false -> encode_pairs (stream_headers p name (z_name z) (head_state steps rs')) = Ok hs) ->
  (forall j, (ls_i s <= j <= ls_i s + List.length steps)%nat -> seen j = false) ->
  exists n i, drive (stream_body o seen p name enc z) g ps rs s
  = (mk_lst (mk_ast n ((as_ev (ls_a s) ++ if ls_sent s then [] else [EvStart 200 hs (uses_trailers p)]) ++ map (fun b => EvBody b true) frs)) true i,
     rs', LBroken (IExn x) c).
Proof.
  intros H Ho x Hx hs. induction H as [b c k ps rs|b0 c0 k ps rs st r b c H IH|k ps rs st r b c H IH|op k ps rs st r b c H IH|op k ps rs st r b c H IH];
    intros frs Hw s Hh Hs.
  - inversion Hw; subst. cbn [drive head_state] in *.
    destruct (body_cut o seen p name enc z s rs b x hs Ho (Hs (ls_i s) ltac:(cbn; lia)) Hx Hh) as (n&->).
    exists n, (S (ls_i s)). cbn [map]. now rewrite app_nil_r.
  - inversion Hw as [|? fr ? frs' Hfr Hrest]; subst. cbn [snd] in Hfr. cbn [drive head_state fst] in *.
    destruct (body_written o seen p name enc z s rs b0 fr hs Ho (Hs (ls_i s) ltac:(cbn; lia)) Hfr Hh) as (n&->).
    destruct (IH Hx frs' Hrest (mk_lst (mk_ast n ((as_ev (ls_a s) ++ (if ls_sent s then [] else [EvStart 200 hs (uses_trailers p)])) ++ [EvBody fr true])) true (S (ls_i s)))) as (n'&i&->).
    + discriminate.
    + cbn [ls_i]. intros j Hj. apply Hs. cbn [List.length]. lia.
    + exists n', i. cbn [ls_a ls_sent as_ev map]. rewrite app_nil_r, <- app_assoc. reflexivity.
  - cbn [drive]. destruct (pull_next ps) as [y ps']. cbn [fst snd] in *. now apply IH.
  - cbn [drive]. now apply IH.
  - cbn [drive]. now apply IH.
Qed.

Lemma asgi_loop_cut {A B} o seen p name (enc : B -> res bytes) z (g : prog A B unit) ps rs steps rs' b c x hs frs :
  cut_at g ps rs steps rs' b c -> sends_ok o -> write_message enc (Some z) b = Raise x -> written enc z steps frs ->
  encode_pairs (stream_headers p name (z_name z) (head_state steps rs')) = Ok hs ->
  (forall j, (j <= List.length steps)%nat -> seen j = false) ->
  exists n i, stream_loop o seen None p name enc z g ps rs (mk_lst (mk_ast 0 []) false 0)
  = (mk_lst (mk_ast n (EvStart 200 hs (uses_trailers p) :: map (fun b => EvBody b true) frs)) true i, after_close rs' c,
     Some (match cl_raise c with Some j => j | None => IExn x end)).
Proof.
  intros H Ho Hx Hw Hh Hs. unfold stream_loop.
  destruct (asgi_drive_cut o seen p name enc z g ps rs steps rs' b c H Ho x Hx hs frs Hw (mk_lst (mk_ast 0 []) false 0) (fun _ => Hh)) as (n&i&->).
  { intros j Hj. apply Hs. cbn [ls_i] in Hj. lia. }
  exists n, i. reflexivity.
Qed.

Lemma cut_single {A B} (b : B) rs : cut_at (@single_response A B b) ([], None) rs [] rs b nothing_to_close.
Proof. constructor. Qed.

Lemma asgi_try_cut {A B} (ap : app A B) en p ep k rz z cx inv steps rs' b c x frs hs :
  sends_ok (en_send en) -> cut ep cx (request_stream ap k rz en) inv steps rs' b c ->
  unwatched ep en (S (List.length steps)) -> written (k_enc_res k) z steps frs -> write_message (k_enc_res k) (Some z) b = Raise x ->
  encode_pairs (stream_headers p (k_name k) (z_name z) (head_state steps rs')) = Ok hs ->
  exists n i, stream_try ap en p ep k (Some rz) z cx (mk_lst (mk_ast 0 []) false 0)
  = (inv, (mk_lst (mk_ast n (EvStart 200 hs (uses_trailers p) :: map (fun b => EvBody b true) frs)) true i, after_close rs' c,
       Some (match cl_raise c with Some j => j | None => IExn x end))).
Proof.
  intros Ho Hc Hu Hw Hx Hh. unfold stream_try. set (ps := request_stream ap k rz en) in *.
  destruct ep as [m f|m f|m f|m f]; cbn [cut] in Hc.
  - destruct Hc as (a&Ha&->&Hm&->&->). apply consume_single_ok in Ha. rewrite Ha. unfold returns in Hm.
    destruct (run_fn (f a cx) ([], None) rs_new) as [[b'|i] rs]; [|destruct Hm as (E&_); discriminate].
    destruct Hm as (E&_&_). injection E as <- <-.
    destruct (asgi_loop_cut (en_send en) (fun _ => false) p (k_name k) (k_enc_res k) z _ _ _ _ _ _ _ x hs frs (@cut_single A B b rs') Ho Hx Hw Hh (fun _ _ => eq_refl)) as (n&i&E').
    exists n, i. now rewrite E'.
  - destruct Hc as (->&Hm&->&->). unfold returns in Hm.
    destruct (run_fn (f cx) ps rs_new) as [[b'|i] rs]; [|destruct Hm as (E&_); discriminate].
    destruct Hm as (E&_&_). injection E as <- <-.
    destruct (asgi_loop_cut (en_send en) (fun _ => false) p (k_name k) (k_enc_res k) z _ _ _ _ _ _ _ x hs frs (@cut_single A B b rs') Ho Hx Hw Hh (fun _ _ => eq_refl)) as (n&i&E').
    exists n, i. now rewrite E'.
  - destruct Hc as (a&Ha&->&Hm). apply consume_single_ok in Ha. rewrite Ha. cbn [unwatched] in Hu.
    assert (W : exists seen, (forall j, (j <= List.length steps)%nat -> seen j = false) /\
      stream_loop (en_send en) (match en_watch en with WSeen n => fun i => Nat.leb n i | _ => fun _ => false end)
                 (match en_watch en with WRaise e => Some e | _ => None end) p (k_name k) (k_enc_res k) z
                 (f a cx) ([], None) rs_new (mk_lst (mk_ast 0 []) false 0)
      = stream_loop (en_send en) seen None p (k_name k) (k_enc_res k) z (f a cx) ([], None) rs_new (mk_lst (mk_ast 0 []) false 0)).
    { destruct (en_watch en) as [|n|y]; [exists (fun _ => false); auto| |contradiction].
      exists (fun i => Nat.leb n i). split; [intros j Hj; apply Nat.leb_gt; lia|reflexivity]. }
    destruct W as (seen&Hseen&->).
    destruct (asgi_loop_cut (en_send en) seen p (k_name k) (k_enc_res k) z _ _ _ _ _ _ _ x hs frs Hm Ho Hx Hw Hh Hseen) as (n&i&E).
    exists n, i. now rewrite E.
  - destruct Hc as (->&Hm).
    destruct (asgi_loop_cut (en_send en) (fun _ => false) p (k_name k) (k_enc_res k) z _ _ _ _ _ _ _ x hs frs Hm Ho Hx Hw Hh (fun _ _ => eq_refl)) as (n&i&E).
    exists n, i. now rewrite E.
Qed.

(** On ASGI the messages before the one that cannot be written are sent, the method is closed, and the response ends with the error of
    the message (or the one closing raised) and the trailers as the method left them when it was closed. *)
Theorem C93_asgi {A B} (ap : app A B) now sc en ep hs p cx k rz z inv steps rs' b c x frs head em ts :
  asgi_stream_request ap now sc ep hs p cx k -> sends_ok (en_send en) -> negotiate_stream_compression p hs (ap_comps ap) = (Some rz, z) ->
  cut ep cx (request_stream ap k rz en) inv steps rs' b c -> unwatched ep en (S (List.length steps)) ->
  written (k_enc_res k) z steps frs -> write_message (k_enc_res k) (Some z) b = Raise x ->
  encode_pairs (stream_headers p (k_name k) (z_name z) (head_state steps rs')) = Ok head ->
  let e := match cl_raise c with Some j => j | None => IExn x end in
  writer_end (ap_sc ap) p z (rs_t (after_close rs' c)) (option_map we_from_exception (reported (Some e))) = Ok em ->
  (forall t, em = EndTrailers t -> encode_pairs (h_allitems t) = Ok ts) ->
  asgi_call ap now sc en
  = mk_ar inv (EvStart 200 head (uses_trailers p) :: map (fun b => EvBody b true) frs ++ asgi_tail em ts) (asgi_out (Some e)).
Proof.
  intros H Ho Hn Hc Hu Hw Hx Hh e He Hts. rewrite (asgi_call_stream _ _ _ _ _ _ _ _ _ H). unfold handle_stream. rewrite Hn.
  destruct (asgi_try_cut ap en p ep k rz z cx inv steps rs' b c x frs head Ho Hc Hu Hw Hx Hh) as (n&i&->). fold e.
  destruct (finally_normal (en_send en) (ap_sc ap) p (k_name k) z false (after_close rs' c) (Some e) n
      (EvStart 200 head (uses_trailers p) :: map (fun b => EvBody b true) frs) i head em ts Ho) as (a&r&E&Er&Ea); auto; [discriminate|].
  cbn [negb ls_a] in *. rewrite E, Er, Ea. now rewrite app_nil_r.
Qed.
Print Assumptions C93_asgi.

(** ** WSGI *)
Lemma wsgi_drive_cut {A B} p name (enc : B -> res bytes) z (g : prog A B unit) ps rs steps rs' b c :
  cut_at g ps rs steps rs' b c -> forall x, write_message enc (Some z) b = Raise x -> forall frs, written enc z steps frs ->
  forall s, drive (wsgi_body_step p name enc z) g ps rs s
  = (mk_wst ((ws_ev s ++ if ws_started s then [] else [WStart (lit "200 OK") (stream_headers p name (z_name z) (head_state steps rs'))]) ++ map WBody frs) true,
     rs', LBroken (IExn x) c).
Proof.
  intros H x Hx. induction H as [b c k ps rs|b0 c0 k ps rs st r b c H IH|k ps rs st r b c H IH|op k ps rs st r b c H IH|op k ps rs st r b c H IH];
    intros frs Hw s.
  - inversion Hw; subst. cbn [drive head_state map]. unfold wsgi_body_step. rewrite Hx, app_nil_r. destruct (ws_started s); [now rewrite app_nil_r|reflexivity].
  - inversion Hw as [|? fr ? frs' Hfr Hrest]; subst. cbn [snd] in Hfr. cbn [drive head_state fst]. unfold wsgi_body_step at 1. cbv zeta. rewrite Hfr.
    rewrite (IH Hx frs' Hrest). cbn [ws_started ws_ev map]. rewrite app_nil_r.
    destruct (ws_started s); rewrite <- ?app_assoc; reflexivity.
  - cbn [drive]. destruct (pull_next ps) as [y ps']. cbn [fst snd] in *. now apply IH.
  - cbn [drive]. now apply IH.
  - cbn [drive]. now apply IH.
Qed.

Lemma wsgi_run_cut {A B} p (ep : endpoint A B) k z ps cx inv steps rs' b c x frs :
  cut ep cx ps inv steps rs' b c -> write_message (k_enc_res k) (Some z) b = Raise x -> written (k_enc_res k) z steps frs ->
  wsgi_run p ep k z ps cx
  = (inv, (mk_wst (WStart (lit "200 OK") (stream_headers p (k_name k) (z_name z) (head_state steps rs')) :: map WBody frs) true, rs', LBroken (IExn x) c)).
Proof.
  intros Hc Hx Hw. unfold wsgi_run. cbv zeta. destruct ep as [m f|m f|m f|m f]; cbn [cut] in Hc.
  - destruct Hc as (a&Ha&->&Hm&->&->). apply consume_single_ok in Ha. rewrite Ha. unfold returns in Hm.
    destruct (run_fn (f a cx) ([], None) rs_new) as [[b'|i] rs]; [|destruct Hm as (E&_); discriminate].
    destruct Hm as (E&_&_). injection E as <- <-.
    now rewrite (wsgi_drive_cut p (k_name k) (k_enc_res k) z _ _ _ _ _ _ _ (@cut_single A B b rs') x Hx frs Hw).
  - destruct Hc as (->&Hm&->&->). unfold returns in Hm.
    destruct (run_fn (f cx) ps rs_new) as [[b'|i] rs]; [|destruct Hm as (E&_); discriminate].
    destruct Hm as (E&_&_). injection E as <- <-.
    now rewrite (wsgi_drive_cut p (k_name k) (k_enc_res k) z _ _ _ _ _ _ _ (@cut_single A B b rs') x Hx frs Hw).
  - destruct Hc as (a&Ha&->&Hm). apply consume_single_ok in Ha. rewrite Ha.
    now rewrite (wsgi_drive_cut p (k_name k) (k_enc_res k) z _ _ _ _ _ _ _ Hm x Hx frs Hw).
  - destruct Hc as (->&Hm). now rewrite (wsgi_drive_cut p (k_name k) (k_enc_res k) z _ _ _ _ _ _ _ Hm x Hx frs Hw).
Qed.

(** On WSGI the messages before it are sent as well, and the response ends with the error of the message.  Missing: the method is not
    closed before the response ends ([C93_wsgi_close_refuted]), so that the trailers are those at the time the message was produced. *)
Theorem C93_wsgi_partial {A B} (ap : app A B) now q ep hs p cx k rz z inv steps rs' b c x frs em :
  wsgi_stream_request ap now q ep hs p cx k -> drain q 2 = None -> negotiate_stream_compression p hs (ap_comps ap) = (Some rz, z) ->
  cut ep cx (wsgi_request_stream ap k rz q) inv steps rs' b c ->
  written (k_enc_res k) z steps frs -> write_message (k_enc_res k) (Some z) b = Raise x ->
  writer_end (ap_sc ap) p z (rs_t rs') (Some (we_from_exception x)) = Ok em ->
  wsgi_call ap now q
  = mk_wr inv (WStart (lit "200 OK") (stream_headers p (k_name k) (z_name z) (head_state steps rs')) :: map WBody frs ++ wsgi_tail em) WReturn.
Proof.
  intros H Hd Hn Hc Hw Hx He. rewrite (wsgi_call_stream _ _ _ _ _ _ _ _ H). destruct H as (_&Hk&_).
  unfold wsgi_stream. rewrite Hn, Hk. cbv zeta. rewrite (wsgi_run_cut p ep k z _ cx inv steps rs' b c x frs Hc Hx Hw).
  cbn [ws_started loop_interrupt ws_ev]. unfold response_stream_end. cbv zeta. rewrite Hd. rewrite (end_response_ok _ _ _ _ (Some x) _ He). reflexivity.
Qed.
Print Assumptions C93_wsgi_partial.

(** ** Examples *)

(** A codec that cannot write the message "b", and methods that yield "a" and "b" and set a trailer when they are closed. *)
Definition ex_unwritable : exn := EOther KValue (lit "not serializable").
Definition ex_half : codec pystr pystr :=
  mk_codec (lit "proto") (@Ok _) (@Ok _) (fun b => if str_eqb b (lit "b") then Raise ex_unwritable else Ok b) (@Ok _).
Definition ex_clean : on_close := mk_close [] [Add (lit "x-clean") (lit "1")] None.
Definition ex_cleaning : prog pystr pystr unit :=
  Yield (lit "a") ex_clean (Trl (Add (lit "x-t") (lit "2")) (Yield (lit "b") ex_clean (Yield (lit "c") ex_clean (Ret tt)))).
Definition ex_cut : endpoint pystr pystr := EpBidi ex_method (fun _ => ex_cleaning).
Definition ex_half_app (ep : endpoint pystr pystr) : app pystr pystr :=
  app_new (lit "/pkg.Svc") [(lit "/pkg.Svc/Get", ep)] (Some 1000) [] [ex_half] ex_sc.

Example C93_example :
  let rs := mk_rs h_empty (h_add h_empty (lit "x-t") (lit "2")) in
  (exists hs cx em ts, asgi_stream_request (ex_half_app ex_cut) 0%Z (ex_scope "POST" "application/grpc") ex_cut hs PGrpc cx ex_half
   /\ negotiate_stream_compression PGrpc hs (ap_comps (ex_half_app ex_cut)) = (Some identity_comp, identity_comp)
   /\ cut ex_cut cx (request_stream (ex_half_app ex_cut) ex_half identity_comp ex_env) [InvStream] [(rs_new, lit "a")] rs (lit "b") ex_clean
   /\ written (k_enc_res ex_half) identity_comp [(rs_new, lit "a")] [[0; 0; 0; 0; 1; 97]]
   /\ write_message (k_enc_res ex_half) (Some identity_comp) (lit "b") = Raise ex_unwritable
   /\ unwatched ex_cut ex_env 2 /\ sends_ok (en_send ex_env)
   /\ writer_end ex_sc PGrpc identity_comp (rs_t (after_close rs ex_clean)) (Some (we_from_exception ex_unwritable)) = Ok (EndTrailers em)
   /\ encode_pairs (h_allitems em) = Ok ts /\ In (lit "x-t", lit "2") ts /\ In (lit "x-clean", lit "1") ts
   /\ In (EvTrailers ts) (ar_events (asgi_call (ex_half_app ex_cut) 0%Z (ex_scope "POST" "application/grpc") ex_env)))
  /\ exists hs cx em, wsgi_stream_request (ex_half_app ex_cut) 0%Z (ex_wq "POST" "application/grpc") ex_cut hs PGrpc cx ex_half
   /\ drain (ex_wq "POST" "application/grpc") 2 = None
   /\ cut ex_cut cx (wsgi_request_stream (ex_half_app ex_cut) ex_half identity_comp (ex_wq "POST" "application/grpc")) [InvStream] [(rs_new, lit "a")] rs (lit "b") ex_clean
   /\ writer_end ex_sc PGrpc identity_comp (rs_t rs) (Some (we_from_exception ex_unwritable)) = Ok em.
Proof.
  cbv zeta. split.
  - do 4 eexists. split; [split; [reflexivity|]; split; [eexists; reflexivity|discriminate]|]. split; [reflexivity|].
    split; [split; [reflexivity|]; repeat constructor|]. split; [repeat constructor|]. split; [reflexivity|]. split; [exact Logic.I|].
    split; [intro; reflexivity|]. split; [reflexivity|]. split; [reflexivity|]. cbn. repeat split; auto 10.
  - do 3 eexists. split; [split; [reflexivity|]; split; [reflexivity|discriminate]|]. split; [reflexivity|].
    split; [split; [reflexivity|]; repeat constructor|]. reflexivity.
Qed.

(** ** Where a method is not closed in time *)

(** On WSGI the response ends before the method is closed: what its cleanup adds to the trailers is lost, for a request whose ASGI answer
    has it. *)
Theorem C93_wsgi_close_refuted : exists (ap : app pystr pystr) sc en q,
  (exists ts, In (EvTrailers ts) (ar_events (asgi_call ap 0%Z sc en)) /\ In (lit "x-clean", lit "1") ts)
  /\ wr_inv (wsgi_call ap 0%Z q) = ar_inv (asgi_call ap 0%Z sc en)
  /\ (exists t, In (WTrailers t) (wr_events (wsgi_call ap 0%Z q)))
  /\ (forall t, In (WTrailers t) (wr_events (wsgi_call ap 0%Z q)) -> ~ In (lit "x-clean", lit "1") t).
Proof.
  exists (ex_half_app ex_cut), (ex_scope "POST" "application/grpc"), ex_env, (ex_wq "POST" "application/grpc").
  split; [|split; [reflexivity|split]].
  - eexists. split; [vm_compute; do 10 (try (left; reflexivity); right)|vm_compute; auto 10].
  - eexists. vm_compute. do 10 (try (left; reflexivity); right).
  - intros t H. vm_compute in H. intuition; try discriminate.
    match goal with H : WTrailers _ = _ |- _ => injection H as <- end.
    match goal with H : In _ _ |- _ => vm_compute in H; intuition discriminate end.
Qed.
Print Assumptions C93_wsgi_close_refuted.

(** On ASGI a method that streams to one request message is not closed either when receiving fails while it runs (the server raises from
    [receive()], as servers may on a broken connection): the error is that of [receive()], and the cleanup's trailers are missing. *)
Definition ex_cut_one : endpoint pystr pystr :=
  EpServerStream ex_method (fun _ _ => Yield (lit "a") ex_clean (Yield (lit "b") ex_clean (Ret tt))).
Definition ex_one_message (w : watch) : env := mk_env [RReq [0; 0; 0; 0; 1; 97] false] None w (fun _ => SOk).

Theorem C93_monitor_refuted : exists (ap : app pystr pystr) sc en en',
  en_watch en = WIdle /\ en' = mk_env (en_recv en) (en_cut en) (WRaise (EOther KOSError (lit "gone"))) (en_send en)
  /\ (exists ts, In (EvTrailers ts) (ar_events (asgi_call ap 0%Z sc en)) /\ In (lit "x-clean", lit "1") ts)
  /\ (exists ts, In (EvTrailers ts) (ar_events (asgi_call ap 0%Z sc en')))
  /\ (forall ts, In (EvTrailers ts) (ar_events (asgi_call ap 0%Z sc en')) -> ~ In (lit "x-clean", lit "1") ts).
Proof.
  exists (ex_half_app ex_cut_one), (ex_scope "POST" "application/grpc"), (ex_one_message WIdle), (ex_one_message (WRaise (EOther KOSError (lit "gone")))).
  split; [reflexivity|]. split; [reflexivity|]. split; [|split].
  - eexists. split; [vm_compute; do 10 (try (left; reflexivity); right)|vm_compute; auto 10].
  - eexists. vm_compute. do 10 (try (left; reflexivity); right).
  - intros t H. vm_compute in H. intuition; try discriminate.
    match goal with H : EvTrailers _ = _ |- _ => injection H as <- end.
    match goal with H : In _ _ |- _ => vm_compute in H; intuition discriminate end.
Qed.
Print Assumptions C93_monitor_refuted.
