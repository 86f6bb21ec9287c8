(** C84: methods that never end. *)
From Coq Require Import List NArith ZArith Bool String Lia.
From Verif Require Import MBase MPyStr MHeaders MUtf8 MWire MEnvelope MTimeout MProtocol SProtocol MClient MServer MAsgi MWsgi MStop MEndless SServer SContext SEndless
  LServer LStream LEndless PProtocol PResponse PRequest PStop.
Import ListNotations.

(** ** What has happened after a number of steps *)

(** What has been sent stays sent, and a finished request stays finished. *)
Theorem C84_asgi_grows {A B} n m (ea : eapp A B) now sc en : (n <= m)%nat ->
  match asgi_after n ea now sc en with
  | Finished r => asgi_after m ea now sc en = Finished r
  | Running inv ev => asgi_invoked (asgi_after m ea now sc en) = inv /\ exists rest, asgi_events (asgi_after m ea now sc en) = ev ++ rest
  end.
Proof. apply more_call. Qed.
Print Assumptions C84_asgi_grows.
Theorem C84_wsgi_grows {A B} n m c (ea : eapp A B) now q : (n <= m)%nat ->
  match wsgi_after n c ea now q with
  | Finished r => wsgi_after m c ea now q = Finished r
  | Running inv ev => wsgi_invoked (wsgi_after m c ea now q) = inv /\ exists rest, wsgi_events (wsgi_after m c ea now q) = ev ++ rest
  end.
Proof. apply more_wsgi_call. Qed.
Print Assumptions C84_wsgi_grows.

(** After [n] steps a request is where it is with any application whose methods do the same in their first [n] steps and end
    some time: if it has finished, it has that result; if not, the method invoked and the events so far are those.  So everything
    proved of methods that end holds of the others as far as they have got. *)
Theorem C84_asgi_as_ending {A B} n (ea : eapp A B) ap now sc en : alike_app n ea ap ->
  match asgi_after n ea now sc en with
  | Finished r => asgi_call ap now sc en = r
  | Running inv ev => ar_inv (asgi_call ap now sc en) = inv /\ exists rest, ar_events (asgi_call ap now sc en) = ev ++ rest
  end.
Proof. apply alike_call. Qed.
Print Assumptions C84_asgi_as_ending.
Theorem C84_wsgi_as_ending {A B} n c (ea : eapp A B) ap now q : alike_app n ea ap ->
  match wsgi_after n c ea now q with
  | Finished r => wsgi_stop c ap now q = r
  | Running inv ev => wr_inv (wsgi_stop c ap now q) = inv /\ exists rest, wr_events (wsgi_stop c ap now q) = ev ++ rest
  end.
Proof. apply alike_wsgi_call. Qed.
Print Assumptions C84_wsgi_as_ending.
(** There is always such an application. *)
Theorem C84_ending_exists {A B} n (ea : eapp A B) : exists ap, alike_app n ea ap.
Proof. eexists. apply alike_cut_app. Qed.
Print Assumptions C84_ending_exists.

(** A request for a method that ends finishes, with the result of MAsgi and MStop. *)
Theorem C84_asgi_ending {A B} (ap : app A B) now sc en :
  exists n, forall m, (n <= m)%nat -> asgi_after m (ending_app ap) now sc en = Finished (asgi_call ap now sc en).
Proof.
  destruct (ending_call ap now sc en) as (n&r&E). exists n. intros m L. pose proof (more_call n m (ending_app ap) now sc en L) as M. rewrite E in M.
  pose proof (alike_call n _ _ now sc en (alike_ending_app n ap)) as H. rewrite E in H. now rewrite M, H.
Qed.
Print Assumptions C84_asgi_ending.
Theorem C84_wsgi_ending {A B} c (ap : app A B) now q :
  exists n, forall m, (n <= m)%nat -> wsgi_after m c (ending_app ap) now q = Finished (wsgi_stop c ap now q).
Proof.
  destruct (ending_wsgi_call c ap now q) as (n&r&E). exists n. intros m L. pose proof (more_wsgi_call n m c (ending_app ap) now q L) as M. rewrite E in M.
  pose proof (alike_wsgi_call n c _ _ now q (alike_ending_app n ap)) as H. rewrite E in H. now rewrite M, H.
Qed.
Print Assumptions C84_wsgi_ending.

(** ** Messages are sent as they are produced *)

(** Whatever the method does afterwards, its first messages [steps] have been sent after some number of steps, if the
    disconnect of the client of a server stream is not noticed before the last of them. *)
Theorem C84_asgi_served {A B} (ea : eapp A B) now sc en e hs p cx k rz z st steps frs head :
  asgi_reaches ea now sc e hs p cx k -> negotiate_stream_compression p hs (ap_comps (ea_app ea)) = (Some rz, z) ->
  streams e cx (request_stream (ea_app ea) k rz en) (st :: steps) -> sends_ok (en_send en) ->
  (forall m f j, e = EeServerStream m f -> en_watch en = WSeen j -> (List.length (st :: steps) <= j)%nat) ->
  written (k_enc_res k) z (st :: steps) frs -> encode_pairs (stream_headers p (k_name k) (z_name z) (fst st)) = Ok head ->
  exists n, forall m, (n <= m)%nat -> exists rest,
    asgi_events (asgi_after m ea now sc en) = EvStart 200 head (uses_trailers p) :: map (fun b => EvBody b true) frs ++ rest.
Proof.
  intros [O [params K]] N St Ho Wa Wr Hh.
  assert (T : exists n inv s', estream_try n (ea_app ea) en p e k (Some rz) z cx (mk_lst (mk_ast 0 []) false 0) = (inv, inr s')
                /\ as_ev (ls_a s') = EvStart 200 head (uses_trailers p) :: map (fun b => EvBody b true) frs).
  { unfold estream_try. cbv zeta. destruct e as [i f|i f|i f|i f]; cbn [streams] in St; try contradiction.
    - destruct St as (a&Ps&St). rewrite (proj2 (consume_single_ok _ _) Ps).
      match goal with |- context[stream_body _ ?sn _ _ _ _] => set (seen := sn) end.
      destruct (served (en_send en) seen p (k_name k) (k_enc_res k) z _ _ _ _ _ St Ho frs Wr head Hh) as (n&s'&rs'&E&H).
      { intros j L. unfold seen. destruct (en_watch en) as [|w|x] eqn:Ew; auto. specialize (Wa _ _ w eq_refl eq_refl). destruct (Nat.leb_spec w j); [lia|reflexivity]. }
      exists n. rewrite E. eauto.
    - destruct (served (en_send en) (fun _ => false) p (k_name k) (k_enc_res k) z _ _ _ _ _ St Ho frs Wr head Hh) as (n&s'&rs'&E&H); [auto|].
      exists n. rewrite E. eauto. }
  destruct T as (n&inv&s'&E&H). exists n. intros m L. pose proof (more_call n m ea now sc en L) as M.
  assert (R : asgi_after n ea now sc en = Running inv (as_ev (ls_a s'))).
  { unfold asgi_after. cbv zeta. rewrite O, K. unfold ehandle_stream. rewrite N, E. destruct e; try reflexivity. contradiction. }
  rewrite R in M. destruct M as (_&rest&->). exists rest. now rewrite H.
Qed.
Print Assumptions C84_asgi_served.

(** On WSGI a server that takes as many chunks as there are messages in [steps] gets these, and the method is then closed. *)
Theorem C84_wsgi_served {A B} (ea : eapp A B) now q e hs p cx k rz z st steps frs :
  wsgi_reaches ea now q e hs p cx k -> negotiate_stream_compression p hs (ap_comps (ea_app ea)) = (Some rz, z) ->
  streams e cx (wsgi_request_stream (ea_app ea) k rz q) (st :: steps) -> written (k_enc_res k) z (st :: steps) frs ->
  exists n inv, forall m, (n <= m)%nat ->
    wsgi_after m (List.length frs) ea now q
    = Finished (mk_wr inv (WStart (lit "200 OK") (stream_headers p (k_name k) (z_name z) (fst st)) :: map WBody frs) WReturn).
Proof.
  intros [O K] N St Wr. 
  assert (Len : List.length (st :: steps) = List.length frs) by (clear - Wr; unfold written in Wr; induction Wr; cbn; congruence).
  assert (T : exists n inv i rs cl, estop_run n (List.length frs) p e k z (wsgi_request_stream (ea_app ea) k rz q) cx
     = (inv, inl (mk_wst (WStart (lit "200 OK") (stream_headers p (k_name k) (z_name z) (fst st)) :: map WBody frs) true, i, rs, LBroken ICancel cl))).
  { rewrite <- Len. unfold estop_run. cbv zeta. destruct e as [i f|i f|i f|i f]; cbn [streams] in St; try contradiction.
    - destruct St as (a&Ps&St). rewrite (proj2 (consume_single_ok _ _) Ps).
      destruct (stop_served p (k_name k) (k_enc_res k) z _ _ _ _ St ltac:(discriminate) frs Wr 0 (mk_wst [] false)) as (n&rs'&cl&E).
      exists n. cbn [Nat.add] in E. rewrite E. eauto.
    - destruct (stop_served p (k_name k) (k_enc_res k) z _ _ _ _ St ltac:(discriminate) frs Wr 0 (mk_wst [] false)) as (n&rs'&cl&E).
      exists n. cbn [Nat.add] in E. rewrite E. eauto. }
  destruct T as (n&inv&i&rs&cl&E). exists n, inv. intros m L. pose proof (more_wsgi_call n m (List.length frs) ea now q L) as M.
  match goal with |- _ = ?r => assert (R : wsgi_after n (List.length frs) ea now q = r) end.
  { unfold wsgi_after. cbv zeta. rewrite O. unfold estop_stream. rewrite N, K, E. cbn [ws_started ws_ev]. destruct e; try reflexivity. contradiction. }
  rewrite R in M. exact M.
Qed.
Print Assumptions C84_wsgi_served.

(** ** Stopping *)

(** If the disconnect is noticed before message number [j] (from 0) and the method of a server stream comes to that message,
    or ends, the request finishes, with at most [j] messages sent.  Missing: other kinds of methods, and methods that
    produce no further message; see below. *)
Theorem C84_disconnect_partial {A B} (ea : eapp A B) now sc en m f hs p cx k j :
  asgi_reaches ea now sc (EeServerStream m f) hs p cx k -> en_watch en = WSeen j -> goes_on (S j) (EeServerStream m f) cx ->
  exists n r, (forall n', (n <= n')%nat -> asgi_after n' ea now sc en = Finished r) /\ (message_events (ar_events r) <= j)%nat.
Proof.
  intros [O [params K]] Wa Go.
  destruct (end_call ea now sc en _ hs p cx params k O K eq_refl) as (n&r&E).
  { intros req z. unfold tries_end, estream_try. destruct req as [rz|]; [|exists 0%nat; eauto]. cbv zeta.
    destruct (consume_single_request _) as [a|x]; [|exists 0%nat; eauto]. rewrite Wa.
    destruct (seen_ends (en_send en) j p (k_name k) (k_enc_res k) z (S j) (f a cx) ([], None) (Go a) rs_new (mk_lst (mk_ast 0 []) false 0)) as (n&s'&rs'&e&E);
      [cbn; lia|cbn; lia|]. exists n. rewrite E. eauto. }
  exists n, r. split.
  - intros n' L. pose proof (more_call n n' ea now sc en L) as M. rewrite E in M. exact M.
  - pose proof (alike_cut_app n ea) as Al. pose proof (alike_call n ea _ now sc en Al) as H. rewrite E in H. subst r.
    pose proof (alike_open n ea _ now sc Al) as Op. rewrite O in Op. destruct Op as (ep&Op&Ae).
    destruct ep as [m' f'|m' f'|m' f'|m' f']; cbn in Ae; try contradiction.
    apply (C42_no_more_messages (cut_app n ea) now sc en m' f' hs p cx k j); [|exact Wa].
    split; [exact Op|]. split; [|reflexivity]. exists params. rewrite <- K. symmetry. now apply (alike_codec n).
Qed.
Print Assumptions C84_disconnect_partial.

(** If a [send] fails, the [j]-th (from 0), any streaming method that comes to its message number [j + 1], or ends, is
    stopped: the request finishes. *)
Theorem C84_send_fails {A B} (ea : eapp A B) now sc en e hs p cx k j :
  asgi_reaches ea now sc e hs p cx k -> en_send en j <> SOk -> goes_on (S j) e cx ->
  exists n r, forall n', (n <= n')%nat -> asgi_after n' ea now sc en = Finished r.
Proof.
  intros [O [params K]] Fj Go.
  destruct (end_call ea now sc en e hs p cx params k O K) as (n&r&E).
  { destruct e; cbn in Go; tauto. }
  { intros req z. unfold tries_end, estream_try. destruct req as [rz|]; [|exists 0%nat; eauto]. cbv zeta.
    destruct e as [i f|i f|i f|i f]; cbn [goes_on] in Go; try contradiction.
    - destruct (consume_single_request _) as [a|x]; [|exists 0%nat; eauto].
      match goal with |- context[stream_body _ ?sn _ _ _ _] => set (seen := sn) end.
      destruct (unsent_ends (en_send en) seen j p (k_name k) (k_enc_res k) z (S j) (f a cx) ([], None) Fj (Go a) rs_new (mk_lst (mk_ast 0 []) false 0)) as (n&s'&rs'&e&E);
        [cbn; lia|cbn; lia|]. exists n. rewrite E. eauto.
    - destruct (unsent_ends (en_send en) (fun _ => false) j p (k_name k) (k_enc_res k) z (S j) (f cx) _ Fj (Go (request_stream (ea_app ea) k rz en)) rs_new (mk_lst (mk_ast 0 []) false 0)) as (n&s'&rs'&e&E);
        [cbn; lia|cbn; lia|]. exists n. rewrite E. eauto. }
  exists n, r. intros n' L. pose proof (more_call n n' ea now sc en L) as M. rewrite E in M. exact M.
Qed.
Print Assumptions C84_send_fails.

(** If a WSGI server closes the body after [c] chunks, a streaming method that comes to its [c]-th message (its first one if
    [c] is 0), or ends, is stopped, with at most [c] chunks taken. *)
Theorem C84_wsgi_close {A B} c (ea : eapp A B) now q e hs p cx :
  ewsgi_open_request ea now q = Ok (e, hs, p, cx) -> goes_on (Nat.max 1 c) e cx ->
  exists n r, (forall n', (n <= n')%nat -> wsgi_after n' c ea now q = Finished r) /\ (chunks (wr_events r) <= c)%nat.
Proof.
  intros O Go.
  destruct (end_wsgi_call c ea now q e hs p cx O) as (n&r&E).
  { destruct e; cbn in Go; tauto. }
  { intros k z ps. unfold estop_run. cbv zeta. destruct e as [i f|i f|i f|i f]; cbn [goes_on] in Go; try contradiction.
    - destruct (consume_single_request _) as [a|x]; [|exists 0%nat; eauto].
      destruct (closed_ends c p (k_name k) (k_enc_res k) z (Nat.max 1 c) (f a cx) ([], None) (Go a) rs_new (mk_wst [] false) 0) as (n&[s' j]&rs'&e&E);
        [now right|lia|lia|]. exists n. rewrite E. eauto.
    - destruct (closed_ends c p (k_name k) (k_enc_res k) z (Nat.max 1 c) (f cx) ps (Go ps) rs_new (mk_wst [] false) 0) as (n&[s' j]&rs'&e&E);
        [now right|lia|lia|]. exists n. rewrite E. eauto. }
  exists n, r. split.
  - intros n' L. pose proof (more_wsgi_call n n' c ea now q L) as M. rewrite E in M. exact M.
  - pose proof (alike_wsgi_call n c ea _ now q (alike_cut_app n ea)) as H. rewrite E in H. subst r.
    destruct (C69_cut c (cut_app n ea) now q) as (_&(_&Ck&_)&_). rewrite Ck. lia.
Qed.
Print Assumptions C84_wsgi_close.

(** ** Cases *)

(** A method that sends "a" for ever; one that waits for ever. *)
CoFixpoint for_ever {A} : emeth A pystr unit := MYield (lit "a") quiet for_ever.
CoFixpoint waiting {A B R} : emeth A B R := MTau waiting.
Definition ex_eapp (e : eendpoint pystr pystr) : eapp pystr pystr := mk_eapp (ex_app ex_echo) [(lit "/pkg.Svc/Get", e)].
Definition ex_all : eendpoint pystr pystr := EeServerStream ex_method (fun _ _ => for_ever).
Definition ex_talk : eendpoint pystr pystr := EeBidi ex_method (fun _ => for_ever).

Lemma for_ever_eq {A} : @for_ever A = MYield (lit "a") quiet for_ever.
Proof. change (for_ever = match @for_ever A with MYield b c k => MYield b c k | MRet r => MRet r | MFail i => MFail i | MPull k => MPull k | MHdr op k => MHdr op k | MTrl op k => MTrl op k | MTau k => MTau k end). now destruct for_ever. Qed.
Lemma waiting_eq {A B R} : @waiting A B R = MTau waiting.
Proof. change (waiting = match @waiting A B R with MYield b c k => MYield b c k | MRet r => MRet r | MFail i => MFail i | MPull k => MPull k | MHdr op k => MHdr op k | MTrl op k => MTrl op k | MTau k => MTau k end). now destruct waiting. Qed.
Lemma for_ever_comes {A} n : forall ps : pulls A, comes_to n for_ever ps.
Proof. induction n as [|n IH]; intro ps; rewrite for_ever_eq; constructor. apply IH. Qed.
Lemma for_ever_begins {A} n (ps : pulls A) rs : begins_with for_ever ps rs (repeat (rs, lit "a") n).
Proof. induction n as [|n IH]; [constructor|]. rewrite for_ever_eq. cbn [repeat]. constructor. exact IH. Qed.
Lemma waiting_runs {S A B} n (body : S -> rstate -> B -> S * option interrupt) ps rs s : edrive n body (@waiting A B unit) ps rs s = (s, rs, None).
Proof. induction n as [|n IH]; [reflexivity|]. rewrite waiting_eq. exact IH. Qed.
Lemma waiting_fn {A R} n ps rs : erun_fn n (@waiting A Empty_set R) ps rs = (None, rs).
Proof. induction n as [|n IH]; [reflexivity|]. rewrite waiting_eq. exact IH. Qed.
Lemma for_ever_runs {S A} n (body : S -> rstate -> pystr -> S * option interrupt) rs : (forall s, snd (body s rs (lit "a")) = None) ->
  forall ps s, exists s', edrive n body (@for_ever A) ps rs s = (s', rs, None).
Proof.
  intro Hb. induction n as [|n IH]; intros ps s; [eexists; reflexivity|]. rewrite for_ever_eq. cbn [edrive]. specialize (Hb s).
  destruct (body s rs (lit "a")) as [s1 [i|]]; [discriminate|]. apply IH.
Qed.
Lemma message_bodies (frs : list bytes) : message_events (map (fun b => EvBody b true) frs) = List.length frs.
Proof. induction frs as [|b l IH]; [reflexivity|]. cbn. now f_equal. Qed.
Lemma message_events_app a b : message_events (a ++ b) = (message_events a + message_events b)%nat.
Proof. unfold message_events. now rewrite filter_app, app_length. Qed.
Lemma ex_written n : written (k_enc_res ex_codec) identity_comp (repeat (rs_new, lit "a") n) (repeat [0; 0; 0; 0; 1; 97]%N n).
Proof. unfold written. induction n as [|n IH]; constructor; [reflexivity|exact IH]. Qed.

Definition ex_went (w : watch) : env := mk_env [RReq [0; 0; 0; 0; 0]%N false] None w (fun _ => SOk).
(** It goes on for ever if nothing stops it, and every one of its messages is sent; it finishes once the disconnect is noticed,
    once a send fails, and on WSGI once the body is closed. *)
Example C84_example :
  exists hs cx, asgi_reaches (ex_eapp ex_all) 0%Z (ex_scope "POST" "application/grpc+proto") ex_all hs PGrpc cx ex_codec
  /\ negotiate_stream_compression PGrpc hs (ap_comps (ea_app (ex_eapp ex_all))) = (Some identity_comp, identity_comp)
  /\ (forall n, goes_on n ex_all cx)
  /\ streams ex_all cx (request_stream (ea_app (ex_eapp ex_all)) ex_codec identity_comp (ex_went WIdle)) [(rs_new, lit "a"); (rs_new, lit "a")]
  /\ asgi_after 2 (ex_eapp ex_all) 0%Z (ex_scope "POST" "application/grpc+proto") (ex_went WIdle)
     = Running [InvMsg []] [EvStart 200 [(lit "content-type", lit "application/grpc+proto"); (lit "grpc-encoding", lit "identity")] true;
                            EvBody [0; 0; 0; 0; 1; 97]%N true; EvBody [0; 0; 0; 0; 1; 97]%N true]
  /\ asgi_after 2 (ex_eapp ex_all) 0%Z (ex_scope "POST" "application/grpc+proto") (ex_went (WSeen 1))
     = Finished (mk_ar [InvMsg []] [EvStart 200 [(lit "content-type", lit "application/grpc+proto"); (lit "grpc-encoding", lit "identity")] true;
                                    EvBody [0; 0; 0; 0; 1; 97]%N true; EvBody [] false;
                                    EvTrailers [(lit "grpc-status", lit "1"); (lit "grpc-message", lit "Client%20disconnected")]] AReturn).
Proof.
  do 2 eexists. split; [split; [reflexivity|eexists; reflexivity]|]. split; [reflexivity|]. split; [intros n a; apply for_ever_comes|].
  split; [exists []; split; [reflexivity|]; exact (for_ever_begins 2 _ _)|]. split; vm_compute; reflexivity.
Qed.
Example C84_wsgi_example :
  exists hs cx, ewsgi_open_request (ex_eapp ex_talk) 0%Z ex_stop_wq = Ok (ex_talk, hs, PGrpc, cx) /\ (forall n, goes_on n ex_talk cx)
  /\ wsgi_after 2 2 (ex_eapp ex_talk) 0%Z ex_stop_wq
     = Finished (mk_wr [InvStream] [WStart (lit "200 OK") [(lit "content-type", lit "application/grpc+proto"); (lit "grpc-encoding", lit "identity")];
                                    WBody [0; 0; 0; 0; 1; 97]%N; WBody [0; 0; 0; 0; 1; 97]%N] WReturn).
Proof. do 2 eexists. split; [reflexivity|]. split; [intros n a; apply for_ever_comes|]. vm_compute. reflexivity. Qed.

(** ** What is missing: requests that go on for ever although the client is gone *)

Lemma ex_reaches e : ee_method e = ex_method -> ee_is_unary e = false ->
  exists hs cx, asgi_reaches (ex_eapp e) 0%Z (ex_scope "POST" "application/grpc+proto") e hs PGrpc cx ex_codec
  /\ negotiate_stream_compression PGrpc hs (ap_comps (ex_app ex_echo)) = (Some identity_comp, identity_comp).
Proof.
  intros M U. destruct e as [m f|m f|m f|m f]; cbn in M, U; try discriminate; subst m;
    do 2 eexists; (split; [split; [reflexivity|eexists; reflexivity]|reflexivity]).
Qed.

(** Nothing watches for the disconnect of the client of a bidirectional stream: [receive] would report it, but a method that
    does not read is never stopped, and message after message is sent. *)
Theorem C84_bidi_refuted : exists (ea : eapp pystr pystr) sc m f hs cx k, let en := mk_env [RDisconnect] None (WSeen 0) (fun _ => SOk) in
  asgi_reaches ea 0%Z sc (EeBidi m f) hs PGrpc cx k /\ (forall n, goes_on n (EeBidi m f) cx)
  /\ (forall n, exists inv ev, asgi_after n ea 0%Z sc en = Running inv ev)
  /\ forall j, exists n, (j <= message_events (asgi_events (asgi_after n ea 0%Z sc en)))%nat.
Proof.
  destruct (ex_reaches ex_talk eq_refl eq_refl) as (hs&cx&R&N).
  exists (ex_eapp ex_talk), (ex_scope "POST" "application/grpc+proto"), ex_method, (fun _ => for_ever), hs, cx, ex_codec. cbv zeta.
  assert (Run : forall n, exists s', edrive n (stream_body (fun _ => SOk) (fun _ => false) PGrpc (k_name ex_codec) (k_enc_res ex_codec) identity_comp)
                  (@for_ever pystr) (request_stream (ea_app (ex_eapp ex_talk)) ex_codec identity_comp (mk_env [RDisconnect] None (WSeen 0) (fun _ => SOk))) rs_new
                  (mk_lst (mk_ast 0 []) false 0) = (s', rs_new, None)).
  { intro n. apply for_ever_runs. intros [a [] i]; reflexivity. }
  split; [exact R|]. split; [intros n ps; apply for_ever_comes|]. destruct R as (O&params&K). split.
  - intro n. unfold asgi_after. cbv zeta. rewrite O, K. unfold ex_talk at 1. unfold ehandle_stream. cbn [ea_app ex_eapp] in *. rewrite N. unfold estream_try. unfold ex_talk. cbv zeta.
    destruct (Run n) as (s'&E). cbn [en_send]. rewrite E. eauto.
  - intros [|j]; [exists 0%nat; lia|].
    destruct (served (fun _ => SOk) (fun _ => false) PGrpc (k_name ex_codec) (k_enc_res ex_codec) identity_comp for_ever
      (request_stream (ea_app (ex_eapp ex_talk)) ex_codec identity_comp (mk_env [RDisconnect] None (WSeen 0) (fun _ => SOk))) rs_new (rs_new, lit "a") (repeat (rs_new, lit "a") j)
      (for_ever_begins (S j) _ rs_new) (fun _ => eq_refl) _ (ex_written (S j)) _ eq_refl (fun _ _ => eq_refl)) as (n&s'&rs'&E&H).
    exists n. unfold asgi_after. cbv zeta. rewrite O, K. unfold ex_talk at 1. unfold ehandle_stream. cbn [ea_app ex_eapp] in *. rewrite N. unfold estream_try. unfold ex_talk. cbv zeta.
    cbn [en_send]. rewrite E. cbn [asgi_events]. rewrite H. change (EvStart ?a ?b ?c :: ?l) with ([EvStart a b c] ++ l). rewrite message_events_app, message_bodies, repeat_length. lia.
Qed.
Print Assumptions C84_bidi_refuted.

(** Of a server stream the disconnect is noticed, but a method that is waiting is not stopped: the flag is looked at only when
    it produces its next message. *)
Theorem C84_waiting_refuted : exists (ea : eapp pystr pystr) sc en m f hs cx k j,
  asgi_reaches ea 0%Z sc (EeServerStream m f) hs PGrpc cx k /\ en_watch en = WSeen j /\ (forall a, comes_to j (f a cx) ([], None))
  /\ forall n, exists inv ev, asgi_after n ea 0%Z sc en = Running inv ev.
Proof.
  pose (e := EeServerStream ex_method (fun (_ : pystr) _ => MYield (lit "a") quiet waiting) : eendpoint pystr pystr).
  destruct (ex_reaches e eq_refl eq_refl) as (hs&cx&R&Ng).
  exists (ex_eapp e), (ex_scope "POST" "application/grpc+proto"), (ex_went (WSeen 1)), ex_method, (fun _ _ => MYield (lit "a") quiet waiting), hs, cx, ex_codec, 1%nat.
  split; [exact R|]. split; [reflexivity|]. split; [intro a; constructor; constructor|]. destruct R as (O&params&K).
  intro n. unfold asgi_after. cbv zeta. rewrite O, K. unfold ehandle_stream. cbn [ea_app ex_eapp] in *. rewrite Ng. unfold estream_try. cbv zeta. unfold e.
  change (consume_single_request _) with (Ok (@nil N)). destruct n as [|n]; [eexists _, _; reflexivity|]. cbn [edrive].
  match goal with |- context[stream_body ?o ?s ?p ?nm ?en ?z ?st ?rs ?b] => destruct (stream_body o s p nm en z st rs b) as [s1 [i|]] eqn:E end; [vm_compute in E; discriminate|].
  rewrite waiting_runs. eauto.
Qed.
Print Assumptions C84_waiting_refuted.

(** No other method is stopped either: of a unary request the disconnect is not even looked for. *)
Theorem C84_unary_refuted : exists (ea : eapp pystr pystr) sc m f hs cx k, let en := mk_env [RReq [] false; RDisconnect] None (WSeen 0) (fun _ => SOk) in
  asgi_reaches ea 0%Z sc (EeUnary m f) hs PConnect cx k /\ forall n, asgi_after n ea 0%Z sc en = Running [InvMsg []] [].
Proof.
  pose (e := EeUnary ex_method (fun (_ : pystr) _ => waiting) : eendpoint pystr pystr).
  assert (X : exists hs cx, asgi_reaches (ex_eapp e) 0%Z (ex_scope "POST" "application/proto") e hs PConnect cx ex_codec) by (do 2 eexists; split; [reflexivity|eexists; reflexivity]).
  destruct X as (hs&cx&R). exists (ex_eapp e), (ex_scope "POST" "application/proto"), ex_method, (fun _ _ => waiting), hs, cx, ex_codec. cbv zeta.
  split; [exact R|]. destruct R as (O&params&K). intro n. unfold asgi_after. cbv zeta. rewrite O, K. unfold e, ehandle_unary. cbv zeta.
  assert (H : hs = h_add h_empty (lit "content-type") (lit "application/proto")) by (vm_compute in O; injection O as <- <-; vm_compute; reflexivity). subst hs.
  match goal with |- context[if ?b then _ else _] => change b with false end. cbv iota.
  match goal with |- context[read_post_request ?a ?b ?c ?d] => change (read_post_request a b c d) with (@inl pystr interrupt []) end. cbv iota.
  now rewrite waiting_fn.
Qed.
Print Assumptions C84_unary_refuted.
