(** C61: a request counts as complete only when the client has finished it. *)
From Coq Require Import List NArith ZArith Bool String Lia ZifyBool ZifyNat.
From Verif Require Import MBase MPyStr MHeaders LBase MWire MEnvelope SEnvelope MTimeout MProtocol SProtocol MClient MServer MAsgi MWsgi SServer
  SClient LClient LServer LStream LWsgi LRequest LEnvelope SLink PProtocol PResponse PRequest.
Import ListNotations.
Local Open Scope N_scope.

Lemma read_body_receives l : forall chunks, read_body l = (chunks, None) -> receives l (List.concat chunks).
Proof.
  induction l as [|[b more| | |e|] l IH]; intros chunks H; try discriminate. cbn [read_body] in H. destruct more.
  - destruct (read_body l) as [bs e] eqn:R. injection H as <- ->. destruct (IH bs eq_refl) as (bs'&fin&rest&->&E). exists (b :: bs'), fin, rest.
    split; [reflexivity|]. cbn [List.concat]. rewrite E. now rewrite app_assoc.
  - injection H as <-. exists [], b, l. split; [reflexivity|]. cbn. now rewrite app_nil_r.
Qed.

(** The stream of requests an ASGI application hands to a method ends without an exception only if the server received the
    whole body, up to the event that says it is the last, and the task was not cancelled while the stream was read: a disconnect,
    an exception of [receive] and a cancellation all reach the method as exceptions. *)
Theorem C61_asgi_stream {A B} (ap : app A B) k z en : snd (request_stream ap k z en) = None ->
  (exists body, receives (en_recv en) body)
  /\ forall n, en_cut en = Some (S n) -> (List.length (fst (request_stream ap k z en)) <= n)%nat.
Proof.
  unfold request_stream. destruct (read_body (en_recv en)) as [chunks fin] eqn:R. destruct (feed_all _ _ _) as [[ms e] r] eqn:F.
  intro H. assert (G : e = None /\ fin = None /\ (forall n, en_cut en = Some (S n) -> (List.length ms <= n)%nat)).
  { destruct (en_cut en) as [[|n]|].
    - cbn [snd] in H. destruct e; [discriminate|]. destruct fin as [[x|]|]; try discriminate. repeat split; discriminate.
    - destruct (Nat.ltb n (List.length ms)) eqn:L; cbn [snd] in H; [discriminate|]. destruct e; [discriminate|]. destruct fin as [[x|]|]; try discriminate.
      repeat split. intros n' E. injection E as <-. apply Nat.ltb_ge in L. exact L.
    - cbn [snd] in H. destruct e; [discriminate|]. destruct fin as [[x|]|]; try discriminate. repeat split; discriminate. }
  destruct G as (->&->&G). split; [exists (List.concat chunks); now apply read_body_receives|].
  intros n E. rewrite E. specialize (G n E). replace (Nat.ltb n (List.length ms)) with false by (symmetry; now apply Nat.ltb_ge). exact G.
Qed.
Print Assumptions C61_asgi_stream.

(** The pieces of the body that arrive before it is complete, the client disconnects or [receive] fails. *)
Fixpoint arrived (l : list recv) : list bytes :=
  match l with
  | RReq b true :: r => b :: arrived r
  | RReq b false :: _ => [b]
  | _ => []
  end.
Lemma arrived_read l : fst (read_body l) = arrived l.
Proof.
  induction l as [|[b [|]| | |e|] l IH]; try reflexivity. cbn [read_body arrived]. destruct (read_body l). cbn [fst] in *. now rewrite IH.
Qed.

(** How the body is lost, and the exception that says so. *)
Inductive lost : list recv -> exn -> Prop :=
| lost_gone : lost [] (EConnect Canceled (lit "Client disconnected before request completion") [])
| lost_disconnect r : lost (RDisconnect :: r) (EConnect Canceled (lit "Client disconnected before request completion") [])
| lost_other r : lost (ROther :: r) (EConnect Unknown (lit "Unexpected message type") [])
| lost_raise e r : lost (RRaise e :: r) e
| lost_cancel r : lost (RCancel :: r) (EConnect Canceled (lit "Request was cancelled") [])
| lost_more b r x : lost r x -> lost (RReq b true :: r) x.
Lemma read_body_lost l : match snd (read_body l) with
  | None => True
  | Some (IExn x) => lost l x
  | Some ICancel => lost l was_cancelled
  end.
Proof.
  induction l as [|[b [|]| | |e|] l IH]; cbn [read_body snd]; try constructor. destruct (read_body l) as [bs [[x|]|]]; cbn [snd] in *; try constructor; exact IH.
Qed.

Lemma run_skip_base {M} (cf : rconf M) fs : rc_kind cf = RBase -> forall r ms e r', run_skip cf fs r = (ms, e, r') ->
  exists used rest, fs = used ++ rest /\ Forall2 (good_frame cf) used ms /\ (e = None -> rest = [])
    /\ (e <> None -> exists f rest', rest = f :: rest' /\ forall m, ~ good_frame cf f m).
Proof.
  intro K. induction fs as [|f fs IH]; intros r ms e r' H; cbn [run_skip] in H.
  - injection H as <- <- <-. exists [], []. repeat split; try constructor. congruence.
  - destruct (read_frame cf (f_flag f) (f_payload f) r) as [o r1] eqn:R0. pose proof (read_frame_ok _ _ _ _ _ R0) as R. destruct o as [m| |x].
    + destruct (run_skip cf fs r1) as [[ms1 e1] r2] eqn:S. injection H as <- <- <-. destruct (IH _ _ _ _ S) as (used&rest&->&F&N).
      exists (f :: used), rest. split; [reflexivity|]. split; [constructor; auto; exact R|exact N].
    + rewrite K in R. discriminate.
    + injection H as <- <- <-. exists [], (f :: fs). split; [reflexivity|]. split; [constructor|]. split; [discriminate|].
      intros _. exists f, fs. split; [reflexivity|]. intros m G. destruct (read_good cf f m r G) as (r2&E&_). rewrite E in R0. discriminate R0.
Qed.

(** The messages a method gets from its request stream are those of the first frames of the body that arrived, in order, each
    within the limit.  If it raises, either the next frame is not a readable message, or all were read and the rest of the body
    is lost, which the exception says, or the task was cancelled after that many messages. *)
Theorem C61_asgi_messages {A B} (ap : app A B) k z en :
  let (ms, e) := request_stream ap k z en in
  exists used rest tl, frames_of (List.concat (arrived (en_recv en))) (used ++ rest) tl
    /\ Forall2 (message_frame RBase z (ap_max ap) (k_dec_req k)) used ms
    /\ (e = None -> rest = [])
    /\ (forall x, e = Some x ->
          (exists f rest', rest = f :: rest' /\ forall m, ~ message_frame RBase z (ap_max ap) (k_dec_req k) f m)
          \/ rest = [] /\ lost (en_recv en) x
          \/ x = was_cancelled /\ en_cut en = Some (List.length ms))
    /\ forall n, en_cut en = Some (S n) -> (List.length ms <= S n)%nat /\ (List.length ms = S n -> e = Some was_cancelled).
Proof.
  unfold request_stream. destruct (read_body (en_recv en)) as [chunks fin] eqn:R. assert (Ea : arrived (en_recv en) = chunks) by (rewrite <- arrived_read, R; reflexivity).
  pose proof (read_body_lost (en_recv en)) as Hl. rewrite R in Hl. cbn [snd] in Hl.
  rewrite Ea. set (cf := mk_rconf RBase z (ap_max ap) (k_dec_req k)).
  destruct (frames_of_exists (List.concat chunks)) as (fs&tl&Hf).
  destruct (feed_all_why cf chunks (reader_new None) fs tl (reader_new_inv _) (reader_new_incomplete _) Hf) as (used&lft&ms&e&r'&b'&n'&E&S&F&W).
  rewrite F. destruct (run_skip_base cf used eq_refl _ _ _ _ S) as (u&rest&Eu&G&N&Bad).
  assert (G' : Forall2 (message_frame RBase z (ap_max ap) (k_dec_req k)) u ms).
  { eapply Forall2_impl; [|exact G]. intros f m (H1&d&H2&H3&H4). split; [exact H1|]. exists d. auto. }
  assert (Hall : e = None -> rest ++ lft = []).
  { intros ->. rewrite (N eq_refl). destruct W as [->|[W|(f&_&W)]]; [reflexivity|congruence|discriminate]. }
  set (e' := match e with Some x => Some x | None => match fin with None => None | Some (IExn x) => Some x | Some ICancel => Some was_cancelled end end).
  assert (Done : (forall n, en_cut en = Some (Datatypes.S n) -> (List.length ms <= n)%nat) ->
    exists used rest tl, frames_of (List.concat chunks) (used ++ rest) tl
    /\ Forall2 (message_frame RBase z (ap_max ap) (k_dec_req k)) used ms
    /\ (e' = None -> rest = [])
    /\ (forall x, e' = Some x ->
          (exists f rest', rest = f :: rest' /\ forall m, ~ message_frame RBase z (ap_max ap) (k_dec_req k) f m)
          \/ rest = [] /\ lost (en_recv en) x
          \/ x = was_cancelled /\ en_cut en = Some (List.length ms))
    /\ forall n, en_cut en = Some (Datatypes.S n) -> (List.length ms <= Datatypes.S n)%nat /\ (List.length ms = Datatypes.S n -> e' = Some was_cancelled)).
  { intros Hc. exists u, (rest ++ lft), tl. split; [rewrite app_assoc, <- Eu, <- E; exact Hf|]. split; [exact G'|]. split; [|split].
    - intro He. apply Hall. unfold e' in He. destruct e; [discriminate He|reflexivity].
    - intros x He. unfold e' in He. destruct e as [y|].
      + left. destruct (Bad ltac:(discriminate)) as (f&rest'&->&B1). exists f, (rest' ++ lft). split; [reflexivity|].
        intros m (H1&d&H2&H3&H4). apply (B1 m). split; [exact H1|]. exists d. auto.
      + right. left. split; [now apply Hall|]. destruct fin as [[y|]|]; [injection He as <-; exact Hl|injection He as <-; exact Hl|discriminate He].
    - intros n Hn. specialize (Hc n Hn). split; lia. }
  destruct (en_cut en) as [[|n]|]; [apply Done; discriminate| |apply Done; discriminate].
  destruct (Nat.ltb n (List.length ms)) eqn:L; [|apply Done; intros n0 H0; injection H0 as <-; now apply Nat.ltb_ge].
  apply Nat.ltb_lt in L. rewrite <- (firstn_skipn (Datatypes.S n) ms) in G'.
  apply Forall2_app_inv_r in G'. destruct G' as (u1&u2&F1&_&->).
  exists u1, (u2 ++ rest ++ lft), tl. split; [rewrite E, Eu in Hf; now rewrite <- !app_assoc in Hf|]. split; [exact F1|]. split; [discriminate|].
  assert (Ln : List.length (firstn (Datatypes.S n) ms) = Datatypes.S n) by (rewrite firstn_length; lia). split.
  - intros x Hx. injection Hx as <-. right. right. split; [reflexivity|]. now rewrite Ln.
  - intros n0 H0. injection H0 as <-. rewrite Ln. split; [lia|reflexivity].
Qed.
Print Assumptions C61_asgi_messages.

(** A method that takes one message is run by an ASGI application only after the whole body was received, unless the message came
    in the URL. *)
Theorem C61_asgi_message {A B} (ap : app A B) now sc en a : ar_inv (asgi_call ap now sc en) = [InvMsg a] -> sc_method sc <> lit "GET" ->
  exists body, receives (en_recv en) body.
Proof.
  intros H Hm. destruct (C37_asgi ap now sc en) as [_ X]. rewrite H in X. destruct (X ltac:(discriminate)) as (ep&hs&p&cx&params&k&_&_&_&_&_&M). clear X.
  assert (S : (exists z, fst (negotiate_stream_compression p hs (ap_comps ap)) = Some z
               /\ if takes_one ep then exists a0, [InvMsg a] = [InvMsg a0] /\ request_stream ap k z en = ([a0], None) else [InvMsg a] = [InvStream]) ->
              exists body, receives (en_recv en) body).
  { intros (z&_&Y). destruct (takes_one ep); [|discriminate]. destruct Y as (a0&_&Y). apply (C61_asgi_stream ap k z en). now rewrite Y. }
  destruct ep as [m f|m f|m f|m f]; try (now apply S). destruct p; try (now apply S).
  destruct M as (a0&_&M). unfold asgi_message in M. destruct (str_eqb_spec (sc_method sc) (lit "GET")); [contradiction|].
  destruct M as (chunks&_&_&M&_). exists (List.concat chunks). now apply read_body_receives.
Qed.
Print Assumptions C61_asgi_message.

Lemma wread_fault n inp : 0 < n ->
  match wread n inp with
  | (Raise e, _) => fault inp = Some e
  | (Ok [], _) => fault inp = None
  | (Ok _, r) => fault inp = fault r
  end.
Proof.
  intro Hn. destruct inp as [|[b|e] r]; cbn [wread]; auto. destruct (lenN b <=? n) eqn:L.
  - destruct b; reflexivity.
  - destruct b as [|x b]; [unfold lenN in L; cbn in L; lia|]. unfold takeN, dropN. destruct (N.to_nat n) as [|m] eqn:E; [lia|]. cbn [firstn skipn].
    cbn [fault]. destruct (skipn m b) as [|y t] eqn:K; [|reflexivity].
    exfalso. assert (Y : (List.length (skipn m b) = 0)%nat) by now rewrite K. rewrite skipn_length in Y. unfold lenN in L. cbn [List.length] in L. lia.
Qed.

(** WSGI: only if no read failed before the end of the input. *)
Theorem C61_wsgi_stream {A B} (ap : app A B) k z q : snd (wsgi_request_stream ap k z q) = None -> fault (wq_input q) = None.
Proof.
  unfold wsgi_request_stream. destruct (wsgi_body q) as [cs fin] eqn:R. destruct (feed_all _ _ _) as [[ms e] r]. cbn [snd]. intro H.
  assert (fin = None) as -> by (destruct e; congruence). clear H. unfold wsgi_body in R. revert R.
  assert (G : forall fuel inp cs, (input_fuel inp <= fuel)%nat -> read_chunks fuel inp = (cs, None) -> fault inp = None).
  { clear. induction fuel as [|f IH]; intros inp cs Hf R; [unfold input_fuel in Hf; lia|]. cbn [read_chunks] in R.
    pose proof (wread_fault 4096 inp eq_refl) as W. destruct (wread 4096 inp) as [[b|e] r] eqn:E; [|discriminate]. destruct b as [|x b]; [exact W|].
    destruct (read_chunks f r) as [cs' e'] eqn:R'. injection R as <- ->. rewrite W. apply (IH r cs'); [|exact R'].
    destruct inp as [|[c|e] inp]; cbn [wread] in E; [discriminate| |discriminate].
    unfold input_fuel in *. cbn [map list_sum fold_right] in *. destruct (lenN c <=? 4096) eqn:L.
    - injection E as -> <-. cbn [List.length] in Hf. change (fold_right Init.Nat.add 0%nat) with list_sum in *. lia.
    - injection E as E <-. cbn [map list_sum fold_right]. change (fold_right Init.Nat.add 0%nat) with list_sum in *. unfold dropN. rewrite skipn_length. unfold lenN in L. lia. }
  apply G. lia.
Qed.
Print Assumptions C61_wsgi_stream.

Lemma wsgi_body_pieces q : List.concat (fst (wsgi_body q)) = available (wq_input q) /\ snd (wsgi_body q) = fault (wq_input q).
Proof.
  unfold wsgi_body. assert (G : forall fuel inp, (input_fuel inp <= fuel)%nat ->
     List.concat (fst (read_chunks fuel inp)) = available inp /\ snd (read_chunks fuel inp) = fault inp); [|apply G; lia].
  induction fuel as [|f IH]; intros inp Hf; [unfold input_fuel in Hf; lia|]. cbn [read_chunks].
  destruct (wread 4096 inp) as [[b|e] r] eqn:W.
  - destruct b as [|x b].
    + apply wread_end in W; [|reflexivity]. destruct W as [-> ->]. split; reflexivity.
    + apply wread_available in W; [|reflexivity|discriminate]. destruct W as (Wa&Wf&_&Wu). destruct (IH r ltac:(lia)) as [I1 I2].
      destruct (read_chunks f r) as [cs e]. cbn [fst snd List.concat] in *. rewrite I1, I2, Wa, Wf. split; reflexivity.
  - apply LRequest.wread_fault in W. destruct W as [-> ->]. split; reflexivity.
Qed.

(** WSGI: the messages are those of the first frames of the input, in order; if the stream raises, the next frame is not a readable
    message, or all were read and the exception is the one a read raised. *)
Theorem C61_wsgi_messages {A B} (ap : app A B) k z q :
  let (ms, e) := wsgi_request_stream ap k z q in
  exists used rest tl, frames_of (available (wq_input q)) (used ++ rest) tl
    /\ Forall2 (message_frame RBase z (ap_max ap) (k_dec_req k)) used ms
    /\ (e = None -> rest = [])
    /\ (forall x, e = Some x ->
          (exists f rest', rest = f :: rest' /\ forall m, ~ message_frame RBase z (ap_max ap) (k_dec_req k) f m)
          \/ rest = [] /\ fault (wq_input q) = Some x).
Proof.
  unfold wsgi_request_stream. destruct (wsgi_body_pieces q) as [P1 P2]. destruct (wsgi_body q) as [chunks fin]. cbn [fst snd] in *.
  rewrite <- P1, <- P2. set (cf := mk_rconf RBase z (ap_max ap) (k_dec_req k)).
  destruct (frames_of_exists (List.concat chunks)) as (fs&tl&Hf).
  destruct (feed_all_why cf chunks (reader_new None) fs tl (reader_new_inv _) (reader_new_incomplete _) Hf) as (used&lft&ms&e&r'&b'&n'&E&S&F&W).
  rewrite F. destruct (run_skip_base cf used eq_refl _ _ _ _ S) as (u&rest&Eu&G&N&Bad).
  assert (Hall : e = None -> rest ++ lft = []).
  { intros ->. rewrite (N eq_refl). destruct W as [->|[W|(f&_&W)]]; [reflexivity|congruence|discriminate]. }
  exists u, (rest ++ lft), tl. split; [rewrite app_assoc, <- Eu, <- E; exact Hf|]. split; [|split].
  - eapply Forall2_impl; [|exact G]. intros f m (H1&d&H2&H3&H4). split; [exact H1|]. exists d. auto.
  - intro He. apply Hall. destruct e; [discriminate He|reflexivity].
  - intros x He. destruct e as [y|].
    + left. destruct (Bad ltac:(discriminate)) as (f&rest'&->&B1). exists f, (rest' ++ lft). split; [reflexivity|].
      intros m (H1&d&H2&H3&H4). apply (B1 m). split; [exact H1|]. exists d. auto.
    + right. split; [now apply Hall|exact He].
Qed.
Print Assumptions C61_wsgi_messages.

(** A method that counts the messages of its request stream. *)
Definition ex_count : endpoint pystr pystr :=
  EpClientStream ex_method (fun _ => Pull (fun a => match a with
                                                   | PMsg _ => Pull (fun b => match b with PMsg _ => Ret (lit "more") | PEnd => Ret (lit "one") | PExn e => Fail (IExn e) end)
                                                   | PEnd => Ret (lit "none")
                                                   | PExn e => Fail (IExn e)
                                                   end)).

(** Finding: the length a client declared is not compared with what arrives on a stream.  A WSGI server that reports the end of
    the input when the connection is lost makes a request cut between two messages look finished: here 6 of 12 declared bytes
    arrive, and the method answers as if the client had sent one message. *)
Theorem C61_wsgi_length_refuted :
  exists (ap : app pystr pystr) q, env_get q "CONTENT_LENGTH" = Some (lit "12") /\ lenN (available (wq_input q)) = 6
  /\ wr_inv (wsgi_call ap 0%Z q) = [InvStream] /\ wr_out (wsgi_call ap 0%Z q) = WReturn
  /\ exists hs ts, wr_events (wsgi_call ap 0%Z q) = [WStart (lit "200 OK") hs; WBody [0; 0; 0; 0; 3; 111; 110; 101]; WTrailers ts; WBody []]
     /\ In (lit "grpc-status", lit "0") ts.
Proof.
  exists (ex_app ex_count), (ex_wq_with "POST" "application/grpc" [("CONTENT_LENGTH", "12")]%string [RD [0; 0; 0; 0; 1; 97]; RD []]).
  split; [reflexivity|]. split; [reflexivity|]. split; [reflexivity|]. split; [reflexivity|]. do 2 eexists. split; [reflexivity|]. cbn. auto.
Qed.
Print Assumptions C61_wsgi_length_refuted.

Example C61_example :
  let en l cut := mk_env l cut WIdle (fun _ => SOk) in
  request_stream (ex_app ex_count) ex_codec identity_comp (en [RReq [0; 0; 0] true; RReq [0; 1; 97] false] None) = ([lit "a"], None)
  /\ request_stream (ex_app ex_count) ex_codec identity_comp (en [RReq [0; 0; 0] true; RReq [0; 1; 97] true; RDisconnect] None) = ([lit "a"], Some disconnected)
  /\ request_stream (ex_app ex_count) ex_codec identity_comp (en [RReq [0; 0; 0] true; RReq [0; 1; 97] true; RCancel] None) = ([lit "a"], Some was_cancelled)
  /\ (let r := asgi_call (ex_app ex_echo) 0%Z (ex_scope "POST" "application/grpc") (en [RReq [0; 0; 0; 0; 1; 97] true; RReq [] false] None) in ar_inv r = [InvMsg (lit "a")])
  /\ (let r := asgi_call (ex_app ex_echo) 0%Z (ex_scope "POST" "application/grpc") (en [RReq [0; 0; 0; 0; 1; 97] true; RDisconnect] None) in ar_inv r = []).
Proof. cbv zeta. repeat (split; [reflexivity|]). reflexivity. Qed.
