(** Lemmas on requests that arrive at a server in pieces. *)
From Coq Require Import List NArith ZArith Bool String Lia.
From Verif Require Import MBase MPyStr MHeaders MWire MTimeout MEnvelope SEnvelope LEnvelope MProtocol MClient MServer MAsgi MWsgi SMixed LNewer LMixed SPieces.
Import ListNotations.
Local Open Scope N_scope.

Definition ended_by (x : option recv) : option interrupt :=
  match x with
  | None | Some (RReq _ _) => None
  | Some RDisconnect => Some (IExn disconnected)
  | Some ROther => Some (IExn (EConnect Unknown (lit "Unexpected message type") []))
  | Some (RRaise e) => Some (IExn e)
  | Some RCancel => Some ICancel
  end.

Lemma delivers_read l body x : delivers l body x -> exists chunks, read_body l = (chunks, ended_by x) /\ List.concat chunks = body.
Proof.
  induction 1 as [b r|b r body x H (cs&E&C)|x r H|].
  - exists [b]. split; [reflexivity|]. apply app_nil_r.
  - exists (b :: cs). cbn [read_body]. rewrite E. split; [reflexivity|]. cbn. now rewrite C.
  - exists []. destruct x; try (split; reflexivity). now contradiction (H body more).
  - exists []. split; reflexivity.
Qed.

Lemma no_ends body : nothing_after_end RBase body.
Proof. intros fs tl _ f before after _ E. discriminate E. Qed.

(** The request stream depends on the contents of the frames only. *)
Lemma requests_same {A B} (ap : app A B) k z en en' body body' x :
  en_cut en = en_cut en' -> delivers (en_recv en) body x -> delivers (en_recv en') body' x -> same_contents RBase z body body' ->
  request_stream ap k z en = request_stream ap k z en'.
Proof.
  intros Ec D D' S. destruct (delivers_read _ _ _ D) as (cs&E&<-), (delivers_read _ _ _ D') as (cs'&E'&<-).
  unfold request_stream. rewrite E, E', <- Ec.
  pose proof (contents_same (mk_rconf RBase z (ap_max ap) (k_dec_req k)) None cs cs' S) as F.
  destruct (feed_all _ _ cs) as [[ms e] r], (feed_all _ _ cs') as [[ms' e'] r']. destruct F as (<-&<-&_). reflexivity.
Qed.

Lemma post_same {A B} (ap : app A B) k hs l l' body x : delivers l body x -> delivers l' body x ->
  read_post_request ap k hs l = read_post_request ap k hs l'.
Proof.
  intros D D'. destruct (delivers_read _ _ _ D) as (cs&E&C), (delivers_read _ _ _ D') as (cs'&E'&C').
  unfold read_post_request. rewrite E, E', C, C'. reflexivity.
Qed.

(** ** WSGI *)

Definition left_over (inp : list rd) : nat := list_sum (map (fun x => match x with RD b => S (List.length b) | RDErr _ => 1%nat end) inp).

Lemma wread_in inp body x n : winput inp body x -> 0 < n ->
  match body with
  | [] => fst (wread n inp) = match x with Some e => Raise e | None => Ok [] end
  | _ => exists c r body', wread n inp = (Ok c, r) /\ c <> [] /\ lenN c <= n /\ body = c ++ body' /\ winput r body' x /\ (left_over r < left_over inp)%nat
  end.
Proof.
  intros H P. destruct H as [|e r|b r body x Hb H]; [reflexivity|reflexivity|].
  destruct (b ++ body) as [|y l] eqn:E; [destruct b; [congruence|discriminate]|]. rewrite <- E. clear E y l. cbn [wread].
  destruct (lenN b <=? n) eqn:L.
  - exists b, r, body. apply N.leb_le in L. do 5 (split; [assumption || reflexivity|]). unfold left_over. cbn [map list_sum fold_right]. unfold list_sum. cbn [fold_right]. lia.
  - assert (Lb : (N.to_nat n < List.length b)%nat) by (unfold lenN in L; lia).
    exists (takeN n b), (RD (dropN n b) :: r), (dropN n b ++ body). split; [reflexivity|]. unfold takeN, dropN, lenN.
    split; [intro X; apply (f_equal (@List.length N)) in X; rewrite firstn_length in X; cbn in X; lia|].
    split; [rewrite firstn_length; lia|]. split; [now rewrite app_assoc, firstn_skipn|].
    split; [apply wi_more; [intro X; apply (f_equal (@List.length N)) in X; rewrite skipn_length in X; cbn in X; lia|exact H]|].
    unfold left_over, list_sum. cbn [map fold_right]. rewrite skipn_length. lia.
Qed.

Lemma chunks_in : forall fuel inp body x, winput inp body x -> (left_over inp < fuel)%nat ->
  List.concat (fst (read_chunks fuel inp)) = body /\ snd (read_chunks fuel inp) = x.
Proof.
  induction fuel as [|fuel IH]; intros inp body x H L; [lia|]. cbn [read_chunks].
  pose proof (wread_in inp body x 4096 H eq_refl) as W. destruct body as [|y l].
  - destruct (wread 4096 inp) as [w r]. cbn [fst] in W. rewrite W. destruct x; split; reflexivity.
  - destruct W as (c&r&body'&E&Hc&_&->&Hr&Lr). rewrite E. destruct c as [|z c]; [congruence|].
    destruct (IH r body' x Hr) as [I1 I2]; [lia|]. destruct (read_chunks fuel r) as [cs e]. cbn [fst snd List.concat] in *. now rewrite I1, I2.
Qed.

Lemma body_in q body x : winput (wq_input q) body x -> List.concat (fst (wsgi_body q)) = body /\ snd (wsgi_body q) = x.
Proof. intro H. unfold wsgi_body. apply chunks_in; [exact H|]. unfold input_fuel, left_over. lia. Qed.

(** What reading [n] bytes gives. *)
Definition exactly (n : N) (body : bytes) (x : option exn) : res bytes :=
  if n <=? lenN body then Ok (takeN n body)
  else match x with Some e => Raise e | None => Raise (truncated (Z.of_N n) (Z.of_N (lenN body))) end.

Lemma exact_in : forall fuel n acc inp body x, winput inp body x -> (left_over inp < fuel)%nat -> lenN acc <= n ->
  read_exact fuel n acc inp = exactly n (acc ++ body) x.
Proof.
  induction fuel as [|fuel IH]; intros n acc inp body x H L La; [lia|]. cbn [read_exact]. destruct (lenN acc <? n) eqn:E.
  - pose proof (wread_in inp body x (n - lenN acc) H) as W. specialize (W ltac:(lia)). destruct body as [|y l].
    + destruct (wread _ inp) as [w r]. cbn [fst] in W. rewrite W, app_nil_r. unfold exactly. replace (n <=? lenN acc) with false by (symmetry; lia). destruct x; reflexivity.
    + destruct W as (c&r&body'&Ew&Hc&Lc&->&Hr&Lr). rewrite Ew. destruct c as [|z c]; [congruence|].
      rewrite (IH n (acc ++ z :: c) r body' x Hr) by (rewrite ?lenN_app; lia). now rewrite app_assoc.
  - unfold exactly. rewrite lenN_app. replace (n <=? lenN acc + lenN body) with true by (symmetry; lia).
    replace n with (lenN acc) by lia. now rewrite takeN_app.
Qed.

Lemma length_in n inp body x : winput inp body x -> 0 < n -> read_body_with_content_length n inp = exactly n body x.
Proof.
  intros H P. unfold read_body_with_content_length. pose proof (wread_in inp body x n H P) as W. destruct body as [|y l].
  - destruct (wread n inp) as [w r] eqn:E. cbn [fst] in W. subst w. unfold exactly. replace (n <=? lenN []) with false by (symmetry; cbn; lia).
    destruct x as [e|]; [reflexivity|]. replace (lenN [] =? n) with false by (symmetry; apply N.eqb_neq; unfold lenN; cbn [List.length]; lia).
    assert (X : inp = []) by (clear - H; remember (@nil N) as bb eqn:Eb; remember (@None exn) as xx eqn:Ex; destruct H as [|e0 r0|b0 r0 body0 x0 Hb0 H0]; [reflexivity|discriminate Ex|exfalso; apply Hb0; now apply app_eq_nil in Eb]). subst inp. cbn in E. injection E as <-.
    rewrite (exact_in _ n [] [] [] None); [|exact H|unfold input_fuel, left_over, list_sum; cbn [map fold_right]; lia|unfold lenN; cbn [List.length]; lia]. unfold exactly. cbn [List.app]. replace (n <=? lenN []) with false by (symmetry; cbn; lia). reflexivity.
  - destruct W as (c&r&body'&Ew&Hc&Lc&->&Hr&Lr). rewrite Ew. destruct (lenN c =? n) eqn:E.
    + unfold exactly. rewrite lenN_app. replace (n <=? lenN c + lenN body') with true by (symmetry; lia). replace n with (lenN c) by lia. now rewrite takeN_app.
    + rewrite (exact_in _ n c r body' x Hr); [reflexivity|unfold input_fuel; unfold left_over in *; lia|exact Lc].
Qed.

Lemma wrequests_same {A B} (ap : app A B) k z q q' body body' x :
  winput (wq_input q) body x -> winput (wq_input q') body' x -> same_contents RBase z body body' ->
  wsgi_request_stream ap k z q = wsgi_request_stream ap k z q'.
Proof.
  intros D D' S. destruct (body_in q body x D) as [E1 E2], (body_in q' body' x D') as [E1' E2']. unfold wsgi_request_stream.
  destruct (wsgi_body q) as [cs f], (wsgi_body q') as [cs' f']. cbn [fst snd] in *. subst.
  pose proof (contents_same (mk_rconf RBase z (ap_max ap) (k_dec_req k)) None cs cs' S) as F.
  destruct (feed_all _ _ cs) as [[ms e] r], (feed_all _ _ cs') as [[ms' e'] r']. destruct F as (<-&<-&_). reflexivity.
Qed.

(** ** Whole requests *)

Definition env_with (en : env) (l : list recv) : env := mk_env l (en_cut en) (en_watch en) (en_send en).
Definition input_with (q : wsgi_request) (l : list rd) : wsgi_request := mk_wq (wq_env q) l (wq_trailers q) (wq_drain q).

Lemma asgi_same {A B} (ap : app A B) now sc en l body body' x :
  delivers (en_recv en) body x -> delivers l body' x ->
  (forall ep hs p cx, open_request ap now sc = Ok (ep, hs, p, cx) ->
     if match ep, p with EpUnary _ _, PConnect => true | _, _ => false end then body = body'
     else forall z, fst (negotiate_stream_compression p hs (ap_comps ap)) = Some z -> same_contents RBase z body body') ->
  asgi_call ap now sc en = asgi_call ap now sc (env_with en l).
Proof.
  intros D D' S. unfold asgi_call. destruct (open_request ap now sc) as [[[[ep hs] p] cx]|e]; [|reflexivity]. specialize (S _ _ _ _ eq_refl).
  destruct (select_codec ap sc ep hs p) as [[params k]|e]; [|reflexivity].
  assert (St : (forall z, fst (negotiate_stream_compression p hs (ap_comps ap)) = Some z -> same_contents RBase z body body') ->
    handle_stream ap en p ep k hs cx = handle_stream ap (env_with en l) p ep k hs cx).
  { intro X. unfold handle_stream. destruct (negotiate_stream_compression p hs (ap_comps ap)) as [req z]. cbn [fst] in X.
    assert (T : stream_try ap en p ep k req z cx (mk_lst (mk_ast 0 []) false 0) = stream_try ap (env_with en l) p ep k req z cx (mk_lst (mk_ast 0 []) false 0)).
    { unfold stream_try. destruct req as [rz|]; [|reflexivity].
      rewrite (requests_same ap k rz en (env_with en l) body body' x eq_refl D D' (X rz eq_refl)). reflexivity. }
    rewrite T. reflexivity. }
  destruct ep as [mi f|mi f|mi f|mi f]; try (now apply St). destruct p; try (now apply St). subst body'.
  unfold handle_unary_connect. cbn [env_with en_recv en_send].
  rewrite (post_same ap k hs (en_recv en) l body x D D'). reflexivity.
Qed.

Lemma wsgi_same {A B} (ap : app A B) now q l body body' x :
  winput (wq_input q) body x -> winput l body' x ->
  (forall ep hs p cx, wsgi_open_request ap now q = Ok (ep, hs, p, cx) ->
     if match ep, p with EpUnary _ _, PConnect => true | _, _ => false end then body = body'
     else forall z, fst (negotiate_stream_compression p hs (ap_comps ap)) = Some z -> same_contents RBase z body body') ->
  wsgi_call ap now q = wsgi_call ap now (input_with q l).
Proof.
  intros D D' S. unfold wsgi_call. change (wsgi_open_request ap now (input_with q l)) with (wsgi_open_request ap now q).
  destruct (wsgi_open_request ap now q) as [[[[ep hs] p] cx]|e]; [|reflexivity]. specialize (S _ _ _ _ eq_refl).
  assert (St : (forall z, fst (negotiate_stream_compression p hs (ap_comps ap)) = Some z -> same_contents RBase z body body') ->
    wsgi_stream ap q p hs ep cx = wsgi_stream ap (input_with q l) p hs ep cx).
  { intro X. unfold wsgi_stream. destruct (negotiate_stream_compression p hs (ap_comps ap)) as [req z]. cbn [fst] in X.
    destruct (dget (ap_codecs ap) _) as [k|]; [|reflexivity]. destruct req as [rz|]; [|reflexivity].
    rewrite (wrequests_same ap k rz q (input_with q l) body body' x D D' (X rz eq_refl)). reflexivity. }
  assert (Un : forall f, body = body' -> wsgi_unary ap q (cx_http cx) f cx hs = wsgi_unary ap (input_with q l) (cx_http cx) f cx hs).
  { intros f <-. unfold wsgi_unary.
    assert (P : wsgi_post_request ap q hs = wsgi_post_request ap (input_with q l) hs).
    { unfold wsgi_post_request. destruct (dget (ap_codecs ap) _) as [k|]; [|reflexivity]. f_equal.
      change (env_get (input_with q l)) with (env_get q). change (env_default (input_with q l)) with (env_default q).
      destruct (match env_get q "CONTENT_LENGTH" with None | Some [] => Ok 0%Z | Some _ => _ end) as [n|e]; [|reflexivity]. cbn [bind].
      assert (R : (if (0 <? n)%Z then read_body_with_content_length (Z.to_N n) (wq_input q)
                   else match wsgi_body q with (_, Some e) => Raise e | (cs, None) => Ok (List.concat cs) end)
        = (if (0 <? n)%Z then read_body_with_content_length (Z.to_N n) (wq_input (input_with q l))
           else match wsgi_body (input_with q l) with (_, Some e) => Raise e | (cs, None) => Ok (List.concat cs) end)).
      { destruct (0 <? n)%Z eqn:Hn.
        - cbn [input_with wq_input]. rewrite (length_in _ _ body x D), (length_in _ _ body x D') by lia. reflexivity.
        - destruct (body_in q body x D) as [E1 E2], (body_in (input_with q l) body x D') as [E1' E2'].
          destruct (wsgi_body q) as [cs e], (wsgi_body (input_with q l)) as [cs' e']. cbn [fst snd] in *. subst e e'. rewrite E1, E1'. reflexivity. }
      rewrite R. reflexivity. }
    rewrite P. reflexivity. }
  destruct ep as [mi f|mi f|mi f|mi f]; try (now rewrite (St S)). destruct p; try (now rewrite (St S)). now rewrite (Un f S).
Qed.
