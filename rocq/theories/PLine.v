(** C40: the status lines a WSGI application passes to [start_response]. *)
From Coq Require Import List NArith ZArith Bool String Lia.
From Verif Require Import MBase MPyStr MHeaders MWire MEnvelope MTimeout MProtocol MClient MServer MAsgi MWsgi SServer SParity SLine PProtocol PResponse PAnswer.
Import ListNotations.
Local Open Scope N_scope.

(** The model's table is the registry's. *)
Lemma phrases_registered st : match assoc_N http_phrases st with Some p => p | None => [] end = registered_phrase st.
Proof.
  destruct (in_dec N.eq_dec st (map fst http_phrases)) as [H|H].
  - unfold http_phrases in H. cbn [map fst In] in H.
    repeat (destruct H as [<-|H]; [vm_compute; reflexivity|]). destruct H.
  - replace (assoc_N http_phrases st) with (@None pystr).
    2:{ unfold assoc_N. destruct (find _ _) as [[n x]|] eqn:F; [|reflexivity]. exfalso. apply find_some in F as [F E].
        cbn in E. apply N.eqb_eq in E. subst n. apply H. apply in_map_iff. exists (st, x). now split. }
    unfold registered_phrase. 
    repeat match goal with |- context [match ?x with _ => _ end] => destruct x; try reflexivity end.
    all: exfalso; apply H; vm_compute; tauto.
Qed.

Definition good_lines (ev : list wevent) : Prop := forall line h, In (WStart line h) ev -> good_line line.
Lemma lines_nil : good_lines [].
Proof. intros ? ? []. Qed.
Lemma lines_app x y : good_lines x -> good_lines y -> good_lines (x ++ y).
Proof. intros H K l h X. apply in_app_or in X as [X|X]; [exact (H _ _ X)|exact (K _ _ X)]. Qed.
Lemma line_ok : good_line (lit "200 OK").
Proof. left. exists 200. reflexivity. Qed.
Lemma lines_rpc p name ev : wrpc_starts p name ev -> good_lines ev.
Proof. intros H l h X. destruct (H _ _ X) as [-> _]. exact line_ok. Qed.

Lemma lines_start line h ev : good_line line -> good_lines ev -> good_lines (WStart line h :: ev).
Proof. intros H K l h' [X|X]; [injection X as <- _; exact H|exact (K _ _ X)]. Qed.

Lemma code_line c : good_line (status_line (fst (error_to_http_status c)) (snd (error_to_http_status c))).
Proof. destruct c; [right; reflexivity|..]; left; match goal with |- context [error_to_http_status ?c] => exists (fst (error_to_http_status c)) end; reflexivity. Qed.

Lemma lines_handle e ctx ev : wsgi_handle_error e ctx = Ok ev -> good_lines ev.
Proof.
  unfold wsgi_handle_error. intro H.
  assert (Body : forall b, good_lines [WBody b]) by (intros b l h [X|[]]; discriminate).
  destruct e as [c m ds|st hs|k m]; cbv zeta in H.
  - destruct (we_to_json_bytes _) as [b|]; cbn [bind] in H; [|discriminate]. injection H as <-. apply lines_start; [apply code_line|apply Body].
  - cbn [bind] in H. injection H as <-. apply lines_start; [|apply lines_nil]. left. exists st. unfold status_line. now rewrite phrases_registered.
  - destruct (we_to_json_bytes _) as [b|]; cbn [bind] in H; [|discriminate]. injection H as <-. apply lines_start; [exact (code_line Unknown)|apply Body].
Qed.

Lemma lines_call_error {A} q (inv : list (invoked A)) ev e ctx : good_lines ev -> good_lines (wr_events (wsgi_call_error q inv ev e ctx)).
Proof.
  intro H. unfold wsgi_call_error. destruct (drain q 1); [exact H|]. cbv zeta.
  assert (K : good_lines (ev ++ maybe_log e)) by (apply lines_app; [exact H|exact (lines_rpc PConnect [] _ (wrpc_log _ _ _))]).
  destruct (wsgi_handle_error e ctx) as [out|x] eqn:E; [|exact K]. apply lines_app; [exact K|exact (lines_handle _ _ _ E)].
Qed.

Lemma lines_stream {A B} (ap : app A B) q p hs (ep : endpoint A B) cx :
  match wsgi_stream ap q p hs ep cx with inl (_, _, ev, _) => good_lines ev | inr r => good_lines (wr_events r) end.
Proof.
  unfold wsgi_stream. destruct (negotiate_stream_compression p hs (ap_comps ap)) as [req z].
  destruct (dget _ _) as [k|]; [|apply lines_nil]. cbv zeta.
  assert (En : forall t err fin, end_response (ap_sc ap) p z t err = Ok fin -> good_lines fin).
  { intros t err fin H. exact (lines_rpc p [] _ (wrpc_end _ _ _ _ _ _ _ H)). }
  assert (St : forall rs, good_lines [WStart (lit "200 OK") (stream_headers p (k_name k) (z_name z) rs)]).
  { intro rs. exact (lines_rpc _ _ _ (wrpc_start _ _ _ _)). }
  assert (Err : forall inv rs ev x, good_lines ev ->
     let '(_, _, ev', _) := wsgi_stream_error ap q p (k_name k) z inv rs ev x in good_lines ev').
  { intros inv rs ev x H. unfold wsgi_stream_error. destruct (drain q 0); [exact H|]. cbv zeta.
    assert (K : good_lines (ev ++ maybe_log x ++ [WStart (lit "200 OK") (stream_headers p (k_name k) (z_name z) rs)])).
    { apply lines_app; [exact H|]. apply lines_app; [exact (lines_rpc PConnect [] _ (wrpc_log _ _ _))|apply St]. }
    destruct (end_response _ _ _ _ _) as [fin|y] eqn:E; [|exact K]. apply lines_app; [exact K|exact (En _ _ _ E)]. }
  destruct req as [rz|]; [|exact (Err [] rs_new [] _ lines_nil)].
  pose proof (wrpc_run p ep k z (wsgi_request_stream ap k rz q) cx) as R0.
  destruct (wsgi_run p ep k z _ cx) as [inv [[s rs] le]]. apply lines_rpc in R0. destruct (ws_started s).
  - unfold response_stream_end.
    assert (F : forall err, good_lines (wr_events match end_response (ap_sc ap) p z (rs_t rs) err with
                  Ok fin => mk_wr inv (ws_ev s ++ fin) WReturn | Raise x => mk_wr inv (ws_ev s) (WExn x) end)).
    { intro err. destruct (end_response _ _ _ _ _) as [fin|y] eqn:E; [|exact R0]. apply lines_app; [exact R0|exact (En _ _ _ E)]. }
    destruct (loop_interrupt le) as [[x|]|]; [destruct (drain q 2)|..]; try exact R0; apply F.
  - destruct (loop_interrupt le) as [[x|]|]; [apply Err, R0|exact R0|].
    destruct (end_response _ _ _ _ _) as [fin|y] eqn:E; [|apply Err, lines_app; [exact R0|apply St]].
    apply lines_app; [apply lines_app; [exact R0|apply St]|exact (En _ _ _ E)].
Qed.

(** Whatever the request, the application and its methods do, every status line passed to [start_response] is a number, a space and
    the phrase HTTP gives this number, or the one of the Connect protocol's 499.  (An [HTTPException] carries an
    [http.HTTPStatus], so its number has a phrase.) *)
Theorem C40_status_line {A B} (ap : app A B) now q line h :
  In (WStart line h) (wr_events (wsgi_call ap now q)) -> good_line line.
Proof.
  revert line h. change (good_lines (wr_events (wsgi_call ap now q))). unfold wsgi_call.
  destruct (wsgi_open_request ap now q) as [[[[ep hs] p] cx]|e]; [|apply lines_call_error, lines_nil].
  assert (U : forall f, let '(_, _, ev, _) := wsgi_unary ap q (cx_http cx) f cx hs in good_lines ev).
  { intro f. unfold wsgi_unary. destruct (if str_eqb _ _ then _ else _) as [[a k]|x]; [|apply lines_nil].
    destruct (run_fn _ _ _) as [[b|i] rs]; [|apply lines_nil].
    destruct (bind _ _) as [[z body]|x]; [|apply lines_nil]. apply lines_start; [apply line_ok|].
    intros l h' [X|[]]; discriminate. }
  assert (C : forall X : whandled A + wsgi_result A,
     match X with inl (_, _, ev, _) => good_lines ev | inr r => good_lines (wr_events r) end ->
     good_lines (wr_events match X with
       | inr r => r | inl (inv, rs, ev, None) => mk_wr inv ev WReturn | inl (inv, rs, ev, Some ICancel) => mk_wr inv ev WBase
       | inl (inv, rs, ev, Some (IExn e)) => wsgi_call_error q inv ev e (Some rs) end)).
  { intros [[[[inv rs] ev] [[e|]|]]|r] H; try exact H. now apply lines_call_error. }
  apply C. destruct ep as [m f|m f|m f|m f]; [destruct p|..]; try apply lines_stream. apply U.
Qed.
Print Assumptions C40_status_line.

(** Successful, refused and failed requests. *)
Example C40_status_line_example :
  wsgi_status (wr_events (wsgi_call (ex_app ex_echo) 0%Z (ex_wq "POST" "application/proto"))) = Some (lit "200 OK")
  /\ wsgi_status (wr_events (wsgi_call (ex_app ex_echo) 0%Z (ex_wq "DELETE" "application/proto"))) = Some (lit "405 Method Not Allowed")
  /\ wsgi_status (wr_events (wsgi_call (ex_app (EpUnary ex_method (fun _ _ => Fail (IExn (EConnect Aborted [] [])))))
        0%Z (ex_wq "POST" "application/proto"))) = Some (lit "409 Conflict").
Proof. vm_compute. auto. Qed.
