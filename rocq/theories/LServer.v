(** Lemmas about the server applications. *)
From Coq Require Import List NArith ZArith Bool String Lia ZifyBool ZifyNat.
From Verif Require Import MBase MPyStr MHeaders SHeaders LBase LPyStr LHeaders MUtf8 LUtf8 MBase64 MPercent MJson MWire MEnvelope SEnvelope LEnvelope
  MTimeout MProtocol MClient MServer MAsgi MWsgi SServer.
Import ListNotations.
Local Open Scope N_scope.

Lemma drive_inv {S A B} (body : S -> rstate -> B -> S * option interrupt) (P : S -> Prop) :
  (forall s rs b, P s -> P (fst (body s rs b))) ->
  forall (g : prog A B unit) ps rs s, P s -> P (fst (fst (drive body g ps rs s))).
Proof.
  intro H. induction g as [r|i|k IH|b c k IH|op k IH|op k IH]; intros ps rs s Hs; cbn [drive]; auto.
  - destruct (pull_next ps) as [x ps']. auto.
  - pose proof (H s rs b Hs) as Hb. destruct (body s rs b) as [s' [i|]]; cbn in *; auto.
Qed.

(** ** Actions *)
Lemma io_bind_ok {X Y} (m : io X) (k : X -> io Y) s s' x : m s = (s', inl x) -> io_bind m k s = k x s'.
Proof. unfold io_bind. now intros ->. Qed.
Lemma io_bind_err {X Y} (m : io X) (k : X -> io Y) s s' i : m s = (s', inr i) -> io_bind m k s = (s', inr i).
Proof. unfold io_bind. now intros ->. Qed.
Lemma io_res_ok {X} (r : res X) x s : r = Ok x -> io_res r s = (s, inl x).
Proof. now intros ->. Qed.
Lemma io_res_raise {X} (r : res X) e s : r = Raise e -> io_res r s = (s, inr (IExn e)).
Proof. now intros ->. Qed.

(** ** ASGI: shape of the event sequence *)

(** Events of a stream while messages are being sent. *)
Definition streaming (p : proto) (sent : bool) (ev : list aevent) : Prop :=
  if sent then exists hs chunks, ev = EvStart 200 hs (uses_trailers p) :: map (fun b => EvBody b true) chunks
  else ev = [].

Lemma send_cases o ev s :
  (o (as_n s) = SOk /\ send o ev s = (mk_ast (S (as_n s)) (as_ev s ++ [ev]), inl tt))
  \/ (o (as_n s) <> SOk /\ exists i, send o ev s = (mk_ast (S (as_n s)) (as_ev s), inr i)).
Proof. unfold send. destruct (o (as_n s)); [left; auto|right; split; [discriminate|eauto]..]. Qed.

Lemma send_stream_headers_cases o p name comp rs s :
  (exists hs, encode_pairs (stream_headers p name comp rs) = Ok hs /\ o (as_n s) = SOk
     /\ send_stream_headers o p name comp rs s = (mk_ast (S (as_n s)) (as_ev s ++ [EvStart 200 hs (uses_trailers p)]), inl tt))
  \/ exists s' i, send_stream_headers o p name comp rs s = (s', inr i) /\ as_ev s' = as_ev s.
Proof.
  unfold send_stream_headers, io_bind, io_res. destruct (encode_pairs _) as [hs|e]; cbn.
  - destruct (send_cases o (EvStart 200 hs (uses_trailers p)) s) as [[Ho ->]|[_ [i ->]]]; [left; eauto|right; cbn; eauto].
  - right. cbn. eauto.
Qed.

Lemma stream_body_inv {B} o seen p name (enc : B -> res bytes) z s rs b :
  streaming p (ls_sent s) (as_ev (ls_a s)) ->
  let s' := fst (stream_body o seen p name enc z s rs b) in streaming p (ls_sent s') (as_ev (ls_a s')).
Proof.
  intro H. unfold stream_body. destruct (seen (ls_i s)); [exact H|].
  assert (K : forall a, streaming p true (as_ev a) ->
              streaming p true (as_ev (fst ((act body <- io_res (write_message enc (Some z) b); send o (EvBody body true)) a)))).
  { intros a Ha. unfold io_bind, io_res. destruct (write_message enc (Some z) b) as [fr|e]; cbn; [|exact Ha].
    destruct (send_cases o (EvBody fr true) a) as [[_ ->]|[_ [i ->]]]; cbn; [|exact Ha].
    destruct Ha as (hs&chunks&->). exists hs, (chunks ++ [fr]). now rewrite map_app. }
  destruct (ls_sent s) eqn:Es.
  - specialize (K _ H). destruct ((act body <- _ ; _) (ls_a s)) as [a r] eqn:E. cbn in K |- *. exact K.
  - destruct (send_stream_headers_cases o p name (z_name z) rs (ls_a s)) as [(hs&_&_&->)|(s'&i&->&Hs)].
    + assert (Ka : streaming p true (as_ev (mk_ast (S (as_n (ls_a s))) (as_ev (ls_a s) ++ [EvStart 200 hs (uses_trailers p)])))).
      { cbn. rewrite H. exists hs, []. reflexivity. }
      specialize (K _ Ka). destruct ((act body <- _ ; _) _) as [a r] eqn:E. cbn in K |- *. exact K.
    + cbn. now rewrite Hs.
Qed.

Lemma stream_loop_inv {A B} o seen mon p name (enc : B -> res bytes) z (g : prog A B unit) ps rs s :
  streaming p (ls_sent s) (as_ev (ls_a s)) ->
  let '(s', _, _) := stream_loop o seen mon p name enc z g ps rs s in streaming p (ls_sent s') (as_ev (ls_a s')).
Proof.
  intro H. unfold stream_loop.
  pose proof (drive_inv (stream_body o seen p name enc z) (fun s => streaming p (ls_sent s) (as_ev (ls_a s)))
                (fun s rs b Hs => stream_body_inv o seen p name enc z s rs b Hs) g ps rs s H) as K.
  destruct (drive _ g ps rs s) as [[s' rs'] e]. cbn in K. destruct mon; [exact K|]. destruct e; exact K.
Qed.

Lemma stream_try_inv {A B} (ap : app A B) en p ep k req z cx :
  let '(_, (s', _, _)) := stream_try ap en p ep k req z cx (mk_lst (mk_ast 0 []) false 0) in streaming p (ls_sent s') (as_ev (ls_a s')).
Proof.
  unfold stream_try. destruct req as [rz|]; [|reflexivity].
  set (s0 := mk_lst (mk_ast 0 []) false 0). assert (H0 : streaming p (ls_sent s0) (as_ev (ls_a s0))) by reflexivity.
  destruct ep as [m f|m f|m f|m f].
  - destruct (consume_single_request _) as [a|e]; [|exact H0].
    destruct (run_fn _ _ _) as [[b|i] rs]; [|exact H0]. now apply stream_loop_inv.
  - destruct (run_fn _ _ _) as [[b|i] rs]; [|exact H0]. now apply stream_loop_inv.
  - destruct (consume_single_request _) as [a|e]; [|exact H0]. now apply stream_loop_inv.
  - now apply stream_loop_inv.
Qed.

Lemma streaming_prefix p sent ev : streaming p sent ev -> asgi_prefix ev.
Proof.
  destruct sent; cbn.
  - intros (hs&chunks&->). exists (EvBody [] false :: if uses_trailers p then [EvTrailers []] else []).
    exists 200, hs, (List.concat chunks ++ []), (if uses_trailers p then Some [] else None), chunks, [].
    destruct (uses_trailers p); auto.
  - intros ->. exists [EvStart 200 [] false; EvBody [] false]. exists 200, [], [], None, [], []. auto.
Qed.

Lemma writer_end_kind sc p z t err em : writer_end sc p z t err = Ok em ->
  match em with EndBytes _ => uses_trailers p = false | EndTrailers _ => uses_trailers p = true end.
Proof.
  unfold writer_end. destruct p.
  - destruct (connect_end _ _ _); cbn; [intros [= <-]|]; easy.
  - destruct (grpc_trailers _ _ _); cbn; [intros [= <-]|]; easy.
  - destruct (grpc_web_end _ _ _ _); cbn; [intros [= <-]|]; easy.
Qed.

Lemma stream_finally_shape o sc p name z s rs i :
  streaming p (ls_sent s) (as_ev (ls_a s)) ->
  let (a, r) := stream_finally o sc p name z s rs i (ls_a s) in
  asgi_prefix (as_ev a) /\ (r = inl tt -> asgi_complete (as_ev a)).
Proof.
  intro H. unfold stream_finally. cbv zeta.
  set (error := match i with Some (IExn e) => Some e | _ => None end).
  unfold io_bind at 1, io_res at 1. destruct (writer_end sc p z (rs_t rs) _) as [em|e] eqn:Em; cbn [io_ret io_raise].
  2:{ split; [eapply streaming_prefix; eauto|discriminate]. }
  pose proof (writer_end_kind _ _ _ _ _ _ Em) as Hk.
  unfold io_bind at 1.
  assert (K : (exists a, (if ls_sent s then io_ret tt else send_stream_headers o p name (z_name z) rs) (ls_a s) = (a, inl tt)
                 /\ streaming p true (as_ev a))
              \/ exists a i, (if ls_sent s then io_ret tt else send_stream_headers o p name (z_name z) rs) (ls_a s) = (a, inr i)
                 /\ asgi_prefix (as_ev a)).
  { destruct (ls_sent s).
    - left. exists (ls_a s). split; [reflexivity|exact H].
    - destruct (send_stream_headers_cases o p name (z_name z) rs (ls_a s)) as [(hs&_&_&->)|(s'&x&->&Hs)].
      + left. eexists. split; [reflexivity|]. cbn. rewrite H. exists hs, []. reflexivity.
      + right. exists s', x. split; [reflexivity|]. rewrite Hs. eapply streaming_prefix; eauto. }
  destruct K as [(a&->&Ka)|(a&x&->&Ka)]; [|split; [exact Ka|discriminate]].
  unfold io_bind at 1. pose proof (streaming_prefix _ _ _ Ka) as Kp. destruct Ka as (hs&chunks&Ka).
  assert (T : forall a', asgi_complete (as_ev a') ->
              let (a, r) := (match error with
               | Some e => if is_connect e then io_ret tt else io_raise (IExn e)
               | None => match i with Some ICancel => io_raise (IExn was_cancelled) | _ => io_ret tt end
               end) a' in asgi_prefix (as_ev a) /\ (r = inl tt -> asgi_complete (as_ev a))).
  { intros a' Hc. assert (asgi_prefix (as_ev a')) by (exists []; now rewrite app_nil_r).
    destruct error as [e|]; [destruct (is_connect e)|destruct i as [[]|]]; cbn; auto. }
  destruct em as [b|h].
  - destruct (send_cases o (EvBody b false) a) as [[_ ->]|[_ [x ->]]]; [|split; [exact Kp|discriminate]].
    apply T.
    exists 200, hs, (List.concat chunks ++ b), None, chunks, b. cbn. rewrite Ka, Hk. auto.
  - unfold io_bind at 1.
    destruct (send_cases o (EvBody [] false) a) as [[_ ->]|[_ [x ->]]]; [|split; [exact Kp|discriminate]].
    unfold io_bind at 1, io_res at 1.
    assert (Kp' : asgi_prefix (as_ev a ++ [EvBody [] false])).
    { exists [EvTrailers []]. exists 200, hs, (List.concat chunks ++ []), (Some []), chunks, []. rewrite Ka, Hk.
      split; [|reflexivity]. cbn. now rewrite <- app_assoc. }
    destruct (encode_pairs (h_allitems h)) as [ts|x]; cbn [io_ret io_raise]; [|split; [exact Kp'|discriminate]].
    destruct (send_cases o (EvTrailers ts) (mk_ast (S (as_n a)) (as_ev a ++ [EvBody [] false]))) as [[_ ->]|[_ [x ->]]];
      [|split; [exact Kp'|discriminate]].
    apply T.
    exists 200, hs, (List.concat chunks ++ []), (Some ts), chunks, []. cbn. rewrite Ka, Hk. split; [|reflexivity].
    cbn. now rewrite <- !app_assoc.
Qed.

Lemma handle_stream_shape {A B} (ap : app A B) en p ep k hs cx :
  asgi_prefix (ar_events (handle_stream ap en p ep k hs cx))
  /\ (ar_out (handle_stream ap en p ep k hs cx) = AReturn -> asgi_complete (ar_events (handle_stream ap en p ep k hs cx))).
Proof.
  unfold handle_stream. destruct (negotiate_stream_compression _ _ _) as [req z].
  pose proof (stream_try_inv ap en p ep k req z cx) as H.
  destruct (stream_try ap en p ep k req z cx _) as [inv [[s rs] i]].
  pose proof (stream_finally_shape (en_send en) (ap_sc ap) p (k_name k) z s rs i H) as K.
  destruct (stream_finally _ _ _ _ _ _ _ _ _) as [a r]. cbn. destruct K as [K1 K2]. split; auto.
  destruct r as [[]|[e|]]; cbn; [auto|discriminate..].
Qed.

(** [handle_error] and the unary response send one start and one last body event. *)
Lemma handle_error_cases o e ctx s :
  (exists status hs body, o (as_n s) = SOk /\ o (S (as_n s)) = SOk
     /\ handle_error o e ctx s = (mk_ast (S (S (as_n s))) (as_ev s ++ [EvStart status hs false; EvBody body false]), inl tt))
  \/ (exists status hs s' i, o (as_n s) = SOk /\ handle_error o e ctx s = (s', inr i) /\ as_ev s' = as_ev s ++ [EvStart status hs false])
  \/ (exists s' i, handle_error o e ctx s = (s', inr i) /\ as_ev s' = as_ev s).
Proof.
  unfold handle_error.
  destruct (match e with EHttp _ _ => _ | _ => _ end) as [[[st hs] body]|x].
  2:{ rewrite (io_bind_err _ _ _ _ _ (io_res_raise _ _ s eq_refl)). right; right. eexists _, _. split; reflexivity. }
  rewrite (io_bind_ok _ _ _ _ _ (io_res_ok _ _ s eq_refl)). cbn beta iota.
  assert (K : exists r, match ctx with Some rs => io_res (encode_pairs (context_headers rs)) | None => io_ret [] end s = (s, r)).
  { destruct ctx as [rs|]; [|eexists; reflexivity]. unfold io_res. destruct (encode_pairs _); eexists; reflexivity. }
  destruct K as [[extra|i] K].
  2:{ rewrite (io_bind_err _ _ _ _ _ K). right; right. eexists _, _. split; reflexivity. }
  rewrite (io_bind_ok _ _ _ _ _ K).
  destruct (send_cases o (EvStart st (hs ++ extra) false) s) as [[Ho E]|[_ [x E]]].
  2:{ rewrite (io_bind_err _ _ _ _ _ E). right; right. eexists _, _. split; reflexivity. }
  rewrite (io_bind_ok _ _ _ _ _ E).
  destruct (send_cases o (EvBody body false) (mk_ast (S (as_n s)) (as_ev s ++ [EvStart st (hs ++ extra) false]))) as [[Ho' ->]|[_ [x ->]]].
  - left. exists st, (hs ++ extra), body. cbn in *. rewrite <- app_assoc. auto.
  - right; left. exists st, (hs ++ extra). eexists _, _. split; [exact Ho|split; reflexivity].
Qed.

Lemma call_error_shape {A} en (inv : list (invoked A)) s e ctx :
  as_ev s = [] ->
  let r := call_error en inv s e ctx in
  asgi_prefix (ar_events r) /\ (ar_out r = AReturn -> asgi_complete (ar_events r)).
Proof.
  intro H. unfold call_error.
  destruct (handle_error_cases (en_send en) e ctx s) as [(st&hs&body&_&_&->)|[(st&hs&s'&i&_&->&Hs)|(s'&i&->&Hs)]]; cbn.
  - rewrite H. cbn. assert (C : asgi_complete [EvStart st hs false; EvBody body false]) by (exists st, hs, body, None, [], body; auto).
    split; [exists []; exact C|auto].
  - rewrite Hs, H. cbn. split; [|destruct i; discriminate].
    exists [EvBody [] false]. exists st, hs, [], None, [], []. auto.
  - rewrite Hs, H. split; [|destruct i; discriminate]. exists [EvStart 200 [] false; EvBody [] false]. exists 200, [], [], None, [], []. auto.
Qed.

Lemma send_unary_response_cases {A B} o (k : codec A B) z b rs s :
  (exists hs body, o (as_n s) = SOk /\ o (S (as_n s)) = SOk
     /\ send_unary_response o k z b rs s = (mk_ast (S (S (as_n s))) (as_ev s ++ [EvStart 200 hs false; EvBody body false]), inl tt))
  \/ (exists hs s' i, o (S (as_n s)) <> SOk /\ as_n s' = S (S (as_n s)) /\ as_ev s' = as_ev s ++ [EvStart 200 hs false]
      /\ send_unary_response o k z b rs s = (s', inr i))
  \/ (exists s' i, as_ev s' = as_ev s /\ send_unary_response o k z b rs s = (s', inr i)).
Proof.
  unfold send_unary_response.
  destruct (k_enc_res k b) as [d|x]. 2:{ rewrite (io_bind_err _ _ _ _ _ (io_res_raise _ _ s eq_refl)). right; right. eexists _, _. split; reflexivity. }
  rewrite (io_bind_ok _ _ _ _ _ (io_res_ok _ _ s eq_refl)).
  destruct (encode_str (connect_unary_prefix ++ k_name k)) as [ct|x]. 2:{ rewrite (io_bind_err _ _ _ _ _ (io_res_raise _ _ s eq_refl)). right; right. eexists _, _. split; reflexivity. }
  rewrite (io_bind_ok _ _ _ _ _ (io_res_ok _ _ s eq_refl)).
  destruct (z_compress z d) as [d'|x]. 2:{ rewrite (io_bind_err _ _ _ _ _ (io_res_raise _ _ s eq_refl)). right; right. eexists _, _. split; reflexivity. }
  rewrite (io_bind_ok _ _ _ _ _ (io_res_ok _ _ s eq_refl)).
  destruct (encode_str (z_name z)) as [en|x]. 2:{ rewrite (io_bind_err _ _ _ _ _ (io_res_raise _ _ s eq_refl)). right; right. eexists _, _. split; reflexivity. }
  rewrite (io_bind_ok _ _ _ _ _ (io_res_ok _ _ s eq_refl)).
  destruct (encode_pairs (context_headers rs)) as [extra|x]. 2:{ rewrite (io_bind_err _ _ _ _ _ (io_res_raise _ _ s eq_refl)). right; right. eexists _, _. split; reflexivity. }
  rewrite (io_bind_ok _ _ _ _ _ (io_res_ok _ _ s eq_refl)).
  match goal with |- context[EvStart 200 ?h false] => set (hs := h) end.
  destruct (send_cases o (EvStart 200 hs false) s) as [[Ho E]|[_ [x E]]].
  2:{ rewrite (io_bind_err _ _ _ _ _ E). right; right. eexists _, _. split; [|reflexivity]. reflexivity. }
  rewrite (io_bind_ok _ _ _ _ _ E).
  destruct (send_cases o (EvBody d' false) (mk_ast (S (as_n s)) (as_ev s ++ [EvStart 200 hs false]))) as [[Ho' ->]|[Ho' [x ->]]].
  - left. exists hs, d'. cbn in *. rewrite <- app_assoc. auto.
  - right; left. exists hs. eexists _, _. split; [exact Ho'|]. split; [|split; [|reflexivity]]; reflexivity.
Qed.

(** Every path through the unary handler. *)
Lemma handle_unary_connect_cases {A B} (ap : app A B) en http hs k params f cx s :
  (exists i, handle_unary_connect ap en http hs k params f cx s = ([], rs_new, (s, inr i)))
  \/ (exists a i rs, run_fn (f a cx) ([], None) rs_new = (FInt i, rs)
        /\ handle_unary_connect ap en http hs k params f cx s = ([InvMsg a], rs, (s, inr i)))
  \/ (exists a b rs z, run_fn (f a cx) ([], None) rs_new = (FRet b, rs)
        /\ handle_unary_connect ap en http hs k params f cx s = ([InvMsg a], rs, send_unary_response (en_send en) k z b rs s)).
Proof.
  unfold handle_unary_connect.
  destruct (if str_eqb http (lit "GET") then _ else _) as [a|i]; [|left; eauto].
  destruct (run_fn (f a cx) ([], None) rs_new) as [[b|i] rs] eqn:E.
  - right; right. eexists _, _, _, _. split; [exact E|reflexivity].
  - right; left. eexists _, _, _. split; [exact E|reflexivity].
Qed.

Lemma unary_not_complete hs : asgi_prefix [EvStart 200 hs false].
Proof. exists [EvBody [] false]. exists 200, hs, [], None, [], []. auto. Qed.

Lemma prefix_nil : asgi_prefix [].
Proof. exists [EvStart 200 [] false; EvBody [] false]. exists 200, [], [], None, [], []. auto. Qed.

Lemma asgi_call_shape {A B} (ap : app A B) now sc en : sticky (en_send en) ->
  let r := asgi_call ap now sc en in
  asgi_prefix (ar_events r) /\ (ar_out r = AReturn -> asgi_complete (ar_events r)).
Proof.
  intro St. unfold asgi_call. destruct (open_request ap now sc) as [[[[ep hs] p] cx]|e]; [|now apply call_error_shape].
  destruct (select_codec ap sc ep hs p) as [[params k]|e]; [|now apply call_error_shape].
  assert (U : forall f, let r := match handle_unary_connect ap en (sc_method sc) hs k params f cx (mk_ast 0 []) with
              | (inv, rs, (s, inl _)) => mk_ar inv (as_ev s) AReturn
              | (inv, rs, (s, inr ICancel)) => mk_ar inv (as_ev s) ACancelled
              | (inv, rs, (s, inr (IExn e))) => call_error en inv s e (Some rs)
              end in asgi_prefix (ar_events r) /\ (ar_out r = AReturn -> asgi_complete (ar_events r))).
  { intro f. destruct (handle_unary_connect_cases ap en (sc_method sc) hs k params f cx (mk_ast 0 []))
      as [[i ->]|[(a&i&rs&_&->)|(a&b&rs&z&_&->)]].
    - destruct i; [now apply call_error_shape|]. cbn. split; [exact prefix_nil|discriminate].
    - destruct i; [now apply call_error_shape|]. cbn. split; [exact prefix_nil|discriminate].
    - destruct (send_unary_response_cases (en_send en) k z b rs (mk_ast 0 []))
        as [(h&body&_&_&->)|[(h&s'&i&Ho&Hn&He&->)|(s'&i&He&->)]].
      + cbn. assert (C : asgi_complete [EvStart 200 h false; EvBody body false]) by (exists 200, h, body, None, [], body; auto).
        split; [exists []; exact C|auto].
      + cbn in He, Hn, Ho. destruct i as [e|].
        * unfold call_error.
          assert (F : forall n, (1 <= n)%nat -> en_send en n <> SOk) by (intros n L X; apply Ho; eapply St; eauto).
          destruct (handle_error_cases (en_send en) e (Some rs) s') as [(st&hs'&body&X&_&_)|[(st&hs'&s2&i&X&_&_)|(s2&i&->&He2)]];
            [exfalso; rewrite Hn in X; exact (F 2%nat ltac:(lia) X)..|].
          cbn. rewrite He2, He. split; [apply unary_not_complete|destruct i; discriminate].
        * cbn. rewrite He. split; [apply unary_not_complete|discriminate].
      + cbn in He. destruct i as [e|]; [now apply call_error_shape|]. cbn. rewrite He. split; [exact prefix_nil|discriminate]. }
  destruct ep as [m f|m f|m f|m f]; destruct p; try apply handle_stream_shape. apply U.
Qed.
