(** C66: gRPC and gRPC-Web requests are answered in their own protocol. *)
From Coq Require Import List NArith ZArith Bool String Lia ZifyBool ZifyNat.
From Verif Require Import MBase LBase MPyStr MHeaders MUtf8 MWire MEnvelope MTimeout STimeout LTimeout PTimeout MProtocol PProtocol MClient MServer MAsgi MWsgi SServer
  LServer LStream LWsgi PResponse PRequest.
Import ListNotations.
Local Open Scope N_scope.

(** Specification: the content type of an answer in protocol [p] with codec [name]. *)
Definition rpc_type (p : proto) (name : pystr) : pystr :=
  match p with
  | PConnect => lit "application/connect+" ++ name
  | PGrpc => lit "application/grpc+" ++ name
  | PGrpcWeb => lit "application/grpc-web+" ++ name
  end.
(** No timeout, or a well-formed one. *)
Definition timeout_readable (hs : headers) : Prop :=
  match h_get hs (lit "grpc-timeout") with
  | None => True
  | Some s => s = [] \/ exists v k, grpc_timeout_text s v k
  end.

Definition stream_head (p : proto) (name : pystr) (hs : list (bytes * bytes)) : Prop :=
  exists rest ct, hs = (lit "content-type", ct) :: rest /\ utf8_encode (rpc_type p name) = Some ct.

Lemma encode_pairs_first v l hs : encode_pairs ((lit "content-type", v) :: l) = Ok hs ->
  exists c rest, utf8_encode v = Some c /\ hs = (lit "content-type", c) :: rest.
Proof.
  cbn [encode_pairs]. change (encode_str (lit "content-type")) with (Ok (lit "content-type")). cbn [bind]. unfold encode_str.
  destruct (utf8_encode v) as [c|]; [|discriminate]. cbn [bind]. destruct (encode_pairs l) as [r|]; [|discriminate]. cbn [bind].
  intros [= <-]. eauto.
Qed.
Lemma stream_headers_head p name comp rs hs : encode_pairs (stream_headers p name comp rs) = Ok hs -> stream_head p name hs.
Proof.
  unfold stream_headers. intro H. apply encode_pairs_first in H as (c&rest&Hc&->). exists rest, c. split; [reflexivity|].
  destruct p; exact Hc.
Qed.

(** Every response start sent is a 200 of the protocol. *)
Definition rpc_starts (p : proto) (name : pystr) (ev : list aevent) : Prop :=
  forall st hs t, In (EvStart st hs t) ev -> st = 200 /\ t = uses_trailers p /\ stream_head p name hs.
Lemma rpc_starts_body p name ev b m : rpc_starts p name ev -> rpc_starts p name (ev ++ [EvBody b m]).
Proof. intros H st hs t X. apply in_app_or in X as [X|[X|[]]]; [exact (H _ _ _ X)|discriminate]. Qed.
Lemma rpc_starts_trl p name ev ts : rpc_starts p name ev -> rpc_starts p name (ev ++ [EvTrailers ts]).
Proof. intros H st hs t X. apply in_app_or in X as [X|[X|[]]]; [exact (H _ _ _ X)|discriminate]. Qed.
Lemma rpc_starts_send o p name comp rs s : rpc_starts p name (as_ev s) ->
  rpc_starts p name (as_ev (fst (send_stream_headers o p name comp rs s))).
Proof.
  intro H. destruct (send_stream_headers_cases o p name comp rs s) as [(hs&Hh&_&->)|(s'&i&->&Hs)]; cbn [fst as_ev]; [|now rewrite Hs].
  intros st hs' t X. apply in_app_or in X as [X|[X|[]]]; [exact (H _ _ _ X)|]. injection X as <- <- <-.
  split; [reflexivity|]. split; [reflexivity|]. exact (stream_headers_head _ _ _ _ _ Hh).
Qed.

Lemma rpc_starts_loop {A B} o seen mon p name (enc : B -> res bytes) z (g : prog A B unit) ps rs s :
  rpc_starts p name (as_ev (ls_a s)) ->
  let '(s', _, _) := stream_loop o seen mon p name enc z g ps rs s in rpc_starts p name (as_ev (ls_a s')).
Proof.
  intro H. unfold stream_loop.
  assert (K : rpc_starts p name (as_ev (ls_a (fst (fst (drive (stream_body o seen p name enc z) g ps rs s)))))).
  { apply (drive_inv (stream_body o seen p name enc z) (fun s => rpc_starts p name (as_ev (ls_a s)))); [|exact H].
    clear. intros s rs b H. unfold stream_body. destruct (seen (ls_i s)); [exact H|].
    assert (K : forall a, rpc_starts p name (as_ev a) ->
                rpc_starts p name (as_ev (fst ((act body <- io_res (write_message enc (Some z) b); send o (EvBody body true)) a)))).
    { intros a Ha. unfold io_bind, io_res. destruct (write_message enc (Some z) b) as [fr|e]; cbn; [|exact Ha].
      destruct (send_cases o (EvBody fr true) a) as [[_ ->]|[_ [i ->]]]; cbn; [|exact Ha]. now apply rpc_starts_body. }
    destruct (ls_sent s).
    - specialize (K _ H). destruct ((act body <- _ ; _) (ls_a s)) as [a r]. exact K.
    - pose proof (rpc_starts_send o p name (z_name z) rs (ls_a s) H) as S.
      destruct (send_stream_headers o p name (z_name z) rs (ls_a s)) as [a1 [u|i]]; [|exact S].
      specialize (K _ S). cbn [fst] in K. destruct ((act body <- _ ; _) a1) as [a r]. exact K. }
  destruct (drive _ g ps rs s) as [[s' rs'] e]. cbn in K. destruct mon; [exact K|]. destruct e; exact K.
Qed.

Lemma rpc_starts_try {A B} (ap : app A B) en p ep k req z cx :
  let '(_, (s', _, _)) := stream_try ap en p ep k req z cx (mk_lst (mk_ast 0 []) false 0) in rpc_starts p (k_name k) (as_ev (ls_a s')).
Proof.
  unfold stream_try. destruct req as [rz|]; [|intros ? ? ? []].
  set (s0 := mk_lst (mk_ast 0 []) false 0). assert (H0 : rpc_starts p (k_name k) (as_ev (ls_a s0))) by (intros ? ? ? []).
  destruct ep as [m f|m f|m f|m f].
  - destruct (consume_single_request _) as [a|e]; [|exact H0].
    destruct (run_fn _ _ _) as [[b|i] rs]; [|exact H0]. now apply rpc_starts_loop.
  - destruct (run_fn _ _ _) as [[b|i] rs]; [|exact H0]. now apply rpc_starts_loop.
  - destruct (consume_single_request _) as [a|e]; [|exact H0]. now apply rpc_starts_loop.
  - now apply rpc_starts_loop.
Qed.

Lemma rpc_starts_stream {A B} (ap : app A B) en p ep k hs cx : rpc_starts p (k_name k) (ar_events (handle_stream ap en p ep k hs cx)).
Proof.
  unfold handle_stream. destruct (negotiate_stream_compression _ _ _) as [req z].
  pose proof (rpc_starts_try ap en p ep k req z cx) as H.
  destruct (stream_try ap en p ep k req z cx _) as [inv [[s rs] i]].
  assert (K : rpc_starts p (k_name k) (as_ev (fst (stream_finally (en_send en) (ap_sc ap) p (k_name k) z s rs i (ls_a s))))).
  { unfold stream_finally. cbv zeta. unfold io_bind at 1, io_res at 1. destruct (writer_end _ _ _ _ _) as [em|e]; [|exact H]. cbn [io_ret].
    unfold io_bind at 1.
    assert (K1 : rpc_starts p (k_name k) (as_ev (fst ((if ls_sent s then io_ret tt else send_stream_headers (en_send en) p (k_name k) (z_name z) rs) (ls_a s))))).
    { destruct (ls_sent s); [exact H|]. now apply rpc_starts_send. }
    destruct ((if ls_sent s then io_ret tt else send_stream_headers (en_send en) p (k_name k) (z_name z) rs) (ls_a s)) as [a1 [u|x]]; [|exact K1]. cbn [fst] in K1. unfold io_bind at 1.
    assert (K2 : rpc_starts p (k_name k) (as_ev (fst (match em with
              | EndBytes b => send (en_send en) (EvBody b false)
              | EndTrailers h => act _ <- send (en_send en) (EvBody [] false); act hs0 <- io_res (encode_pairs (h_allitems h)); send (en_send en) (EvTrailers hs0)
              end a1)))).
    { destruct em as [b|h].
      - destruct (send_cases (en_send en) (EvBody b false) a1) as [[_ ->]|[_ [y ->]]]; cbn; [|exact K1]. now apply rpc_starts_body.
      - unfold io_bind at 1. destruct (send_cases (en_send en) (EvBody [] false) a1) as [[_ ->]|[_ [y ->]]]; cbn [fst as_ev]; [|exact K1].
        pose proof (rpc_starts_body _ _ _ [] false K1) as K3. unfold io_bind, io_res. destruct (encode_pairs _) as [ts|y]; [|exact K3]. cbn [io_ret].
        match goal with |- context [send _ _ ?a] => destruct (send_cases (en_send en) (EvTrailers ts) a) as [[_ ->]|[_ [y ->]]] end; cbn; [|exact K3].
        now apply rpc_starts_trl. }
    match type of K2 with context [fst ?m] => destruct m as [a2 [v|x]] end; [|exact K2]. cbn [fst] in K2.
    destruct i as [[x|]|]; cbn iota; try destruct (is_connect x); exact K2. }
  destruct (stream_finally _ _ _ _ _ _ _ _ _) as [a r]. exact K.
Qed.

(** ** The property *)

Lemma grpc_context now p m scheme hs client : p <> PConnect -> timeout_readable hs ->
  exists cx, server_create_context now p m (lit "POST") scheme hs client = Ok cx.
Proof.
  intros Hp Ht. unfold server_create_context.
  replace (check_http_method p (mi_idem m) (lit "POST")) with (@None exn) by (destruct p; [congruence| |]; reflexivity).
  assert (T : exists t, grpc_server_timeout (h_get hs (lit "grpc-timeout")) = Ok t).
  { unfold timeout_readable in Ht. destruct (h_get hs (lit "grpc-timeout")) as [s|]; [|eexists; reflexivity].
    destruct Ht as [->|(v&k&Ht)]; [eexists; reflexivity|]. eexists. exact (C28_exact_milliseconds _ _ _ Ht). }
  destruct T as [t T]. destruct p; [congruence| |]; rewrite T; eexists; reflexivity.
Qed.

(** A POST to a known method, with a gRPC or gRPC-Web content type naming a known codec and a readable timeout, on a
    server that supports what the protocol needs, reaches the method's protocol: the only response ever started for it
    is HTTP 200 with the content type of that protocol, whatever the body, the method and the connection do. *)
Theorem C66_asgi_partial {A B} (ap : app A B) now sc en ep hs p k :
  find_endpoint ap sc = Ok ep -> sc_method sc = lit "POST" -> process_headers h_empty (sc_headers sc) = Ok hs ->
  let ct := h_get_default hs (lit "content-type") [] in
  negotiate_server_protocol ct = p -> p <> PConnect -> (p = PGrpc -> sc_trailers sc = true) ->
  dget (ap_codecs ap) (codec_name_from_content_type p (negb (is_unary ep)) ct) = Some k -> timeout_readable hs ->
  (exists cx, asgi_stream_request ap now sc ep hs p cx k)
  /\ forall st head t, In (EvStart st head t) (ar_events (asgi_call ap now sc en)) ->
       st = 200 /\ t = uses_trailers p
       /\ exists rest c, head = (lit "content-type", c) :: rest /\ utf8_encode (rpc_type p (k_name k)) = Some c.
Proof.
  intros He Hm Hh ct Hp Hne Ht Hk Hr.
  assert (Q : exists cx, asgi_stream_request ap now sc ep hs p cx k).
  { unfold asgi_stream_request, open_request. rewrite He, Hh. cbn [bind]. cbv zeta. fold ct. rewrite Hp.
    replace (uses_trailers p && negb (sc_trailers sc)) with false.
    2:{ destruct p; try reflexivity. now rewrite (Ht eq_refl). }
    match goal with |- context [server_create_context now p ?m ?h ?s ?hh ?c] => destruct (grpc_context now p m s hh c Hne Hr) as [cx Hc] end.
    rewrite Hm, Hc. cbn [bind]. exists cx. split; [reflexivity|]. split; [|intro X; congruence].
    exists []. unfold select_codec. rewrite Hm. change (str_eqb (lit "POST") (lit "GET")) with false. cbn iota. cbn [bind fst snd]. fold ct. now rewrite Hk. }
  split; [exact Q|]. destruct Q as [cx Q]. rewrite (asgi_call_stream _ _ _ _ _ _ _ _ _ Q). intros st head t H.
  exact (rpc_starts_stream ap en p ep k hs cx st head t H).
Qed.
Print Assumptions C66_asgi_partial.

(** ** WSGI *)

Definition wrpc_starts (p : proto) (name : pystr) (ev : list wevent) : Prop :=
  forall line h, In (WStart line h) ev -> line = lit "200 OK" /\ exists rest, h = (lit "content-type", rpc_type p name) :: rest.
Lemma wrpc_nil p name : wrpc_starts p name [].
Proof. intros ? ? []. Qed.
Lemma wrpc_app p name x y : wrpc_starts p name x -> wrpc_starts p name y -> wrpc_starts p name (x ++ y).
Proof. intros H K l h X. apply in_app_or in X as [X|X]; [exact (H _ _ X)|exact (K _ _ X)]. Qed.
Lemma wrpc_start p name comp rs : wrpc_starts p name [WStart (lit "200 OK") (stream_headers p name comp rs)].
Proof. intros l h [X|[]]. injection X as <- <-. split; [reflexivity|]. unfold stream_headers. destruct p; eexists; reflexivity. Qed.
Lemma wrpc_log p name e : wrpc_starts p name (maybe_log e).
Proof. unfold maybe_log. destruct (_ || _); intros l h X; [destruct X|]. destruct X as [X|[]]. discriminate. Qed.
Lemma wrpc_body p name b : wrpc_starts p name [WBody b].
Proof. intros l h [X|[]]. discriminate. Qed.
Lemma wrpc_end p name sc z t err fin : end_response sc p z t err = Ok fin -> wrpc_starts p name fin.
Proof.
  unfold end_response. destruct (writer_end _ _ _ _ _) as [[b|h]|x]; cbn [bind]; intros [= <-] l h' X; cbn in X; intuition discriminate.
Qed.

Lemma wrpc_run {A B} p (ep : endpoint A B) k z ps cx :
  let '(_, (s, _, _)) := wsgi_run p ep k z ps cx in wrpc_starts p (k_name k) (ws_ev s).
Proof.
  assert (D : forall X (g : prog X B unit) ps rs,
      let '(s, _, _) := drive (wsgi_body_step p (k_name k) (k_enc_res k) z) g ps rs (mk_wst [] false) in wrpc_starts p (k_name k) (ws_ev s)).
  { intros X g ps0 rs.
    assert (K : wrpc_starts p (k_name k) (ws_ev (fst (fst (drive (wsgi_body_step p (k_name k) (k_enc_res k) z) g ps0 rs (mk_wst [] false)))))).
    { apply (drive_inv (wsgi_body_step p (k_name k) (k_enc_res k) z) (fun s => wrpc_starts p (k_name k) (ws_ev s))); [|apply wrpc_nil].
      intros s rs' b H. unfold wsgi_body_step.
      assert (K : wrpc_starts p (k_name k) (if ws_started s then ws_ev s else ws_ev s ++ [WStart (lit "200 OK") (stream_headers p (k_name k) (z_name z) rs')])).
      { destruct (ws_started s); [exact H|]. apply wrpc_app; [exact H|apply wrpc_start]. }
      destruct (write_message _ _ _); cbn; [|exact K]. apply wrpc_app; [exact K|apply wrpc_body]. }
    destruct (drive _ _ _ _ _) as [[s r] e]. exact K. }
  unfold wsgi_run. destruct ep as [m f|m f|m f|m f].
  - destruct (consume_single_request ps) as [a|e]; [|apply wrpc_nil].
    destruct (run_fn _ _ _) as [[b|i] rs]; [|apply wrpc_nil]. apply (D A).
  - destruct (run_fn _ _ _) as [[b|i] rs]; [|apply wrpc_nil]. apply (D A).
  - destruct (consume_single_request ps) as [a|e]; [|apply wrpc_nil]. apply D.
  - apply D.
Qed.

Lemma wrpc_stream {A B} (ap : app A B) q p hs (ep : endpoint A B) cx k :
  dget (ap_codecs ap) (codec_name_from_content_type p true (h_get_default hs (lit "content-type") [])) = Some k ->
  ends_writable ap q p ep k hs cx -> drain q 0 = None ->
  match wsgi_stream ap q p hs ep cx with
  | inl (_, _, ev, i) => wrpc_starts p (k_name k) ev /\ (forall e, i <> Some (IExn e))
  | inr r => wrpc_starts p (k_name k) (wr_events r)
  end.
Proof.
  intros Hk W Hd. unfold wsgi_stream.
  destruct (negotiate_stream_compression p hs (ap_comps ap)) as [req z] eqn:N. rewrite Hk. cbv zeta.
  assert (Err : forall inv rs x em, writer_end (ap_sc ap) p z (rs_t rs) (option_map we_from_exception (Some x)) = Ok em ->
     let '(_, _, ev, i) := wsgi_stream_error ap q p (k_name k) z inv rs [] x in wrpc_starts p (k_name k) ev /\ (forall e, i <> Some (IExn e))).
  { intros inv rs x em Hem. unfold wsgi_stream_error. rewrite Hd. destruct (end_response _ _ _ _ _) as [fin|y] eqn:E.
    - split; [|discriminate]. cbn [List.app]. apply wrpc_app; [apply wrpc_app; [apply wrpc_log|apply wrpc_start]|]. exact (wrpc_end _ _ _ _ _ _ _ E).
    - exfalso. rewrite (end_response_ok _ _ _ _ (Some x) _ Hem) in E. discriminate. }
  destruct req as [rz|].
  2:{ destruct (W None z [] rs_new (Some (IExn unknown_stream_compression)) N) as [em Hem]; [cbn; auto|].
      exact (Err [] rs_new _ _ Hem). }
  pose proof (wrpc_run p ep k z (wsgi_request_stream ap k rz q) cx) as R0.
  destruct (wsgi_run p ep k z _ cx) as [inv [[s rs] le]] eqn:R. destruct (ws_started s) eqn:Es.
  - unfold response_stream_end.
    assert (F : forall err, wrpc_starts p (k_name k) (wr_events match end_response (ap_sc ap) p z (rs_t rs) err with
                  Ok fin => mk_wr inv (ws_ev s ++ fin) WReturn | Raise x => mk_wr inv (ws_ev s) (WExn x) end)).
    { intro err. destruct (end_response _ _ _ _ _) as [fin|y] eqn:E; [|exact R0]. apply wrpc_app; [exact R0|]. exact (wrpc_end _ _ _ _ _ _ _ E). }
    destruct (loop_interrupt le) as [[x|]|]; [destruct (drain q 2)|..]; try exact R0; apply F.
  - pose proof (wsgi_run_shape p ep k z (wsgi_request_stream ap k rz q) cx) as Sh. rewrite R, Es in Sh. cbn in Sh.
    destruct (wsgi_run_unstarted _ _ _ _ _ _ _ _ _ _ R Es) as (e&->&Hr). rewrite end_of_interrupt, Sh.
    destruct (W (Some rz) z inv rs e N Hr) as [em Hem]. destruct e as [[x|]|].
    + exact (Err inv rs x em Hem).
    + split; [apply wrpc_nil|discriminate].
    + rewrite (end_response_ok _ _ _ _ None _ Hem). split; [|discriminate]. refine (wrpc_app p (k_name k) [_] _ _ _); [apply wrpc_start|].
      exact (wrpc_end p (k_name k) (ap_sc ap) z (rs_t rs) None _ (end_response_ok _ _ _ _ None _ Hem)).
Qed.

(** The same over WSGI, when the rest of the request body can be read and the end of a response without messages can be
    encoded (otherwise the exception is answered as an HTTP error). *)
Theorem C66_wsgi_partial {A B} (ap : app A B) now q ep p k :
  wsgi_find_endpoint ap q = Ok ep -> env_get q "REQUEST_METHOD" = Some (lit "POST") ->
  let hs := wsgi_headers q in let ct := h_get_default hs (lit "content-type") [] in
  negotiate_server_protocol ct = p -> p <> PConnect -> (p = PGrpc -> wq_trailers q = true) ->
  dget (ap_codecs ap) (codec_name_from_content_type p true ct) = Some k -> timeout_readable hs -> drain q 0 = None ->
  (forall cx, wsgi_stream_request ap now q ep hs p cx k -> ends_writable ap q p ep k hs cx) ->
  (exists cx, wsgi_stream_request ap now q ep hs p cx k)
  /\ forall line head, In (WStart line head) (wr_events (wsgi_call ap now q)) ->
       line = lit "200 OK" /\ exists rest, head = (lit "content-type", rpc_type p (k_name k)) :: rest.
Proof.
  intros He Hm hs ct Hp Hne Ht Hk Hr Hd W.
  assert (Q : exists cx, wsgi_stream_request ap now q ep hs p cx k).
  { unfold wsgi_stream_request, wsgi_open_request, env_item. rewrite He, Hm. cbn [bind]. cbv zeta. fold hs. fold ct. rewrite Hp.
    replace (uses_trailers p && negb (wq_trailers q)) with false.
    2:{ destruct p; try reflexivity. now rewrite (Ht eq_refl). }
    match goal with |- context [server_create_context now p ?m ?h ?s ?hh ?c] => destruct (grpc_context now p m s hh c Hne Hr) as [cx Hc] end.
    rewrite Hc. cbn [bind]. exists cx. split; [reflexivity|]. split; [exact Hk|intro X; congruence]. }
  split; [exact Q|]. destruct Q as [cx Q]. pose proof (wrpc_stream ap q p hs ep cx k Hk (W cx Q) Hd) as S.
  rewrite (wsgi_call_stream _ _ _ _ _ _ _ _ Q). destruct (wsgi_stream ap q p hs ep cx) as [[[[inv rs] ev] i]|r]; [|exact S].
  destruct S as [S N]. destruct i as [[x|]|]; [now destruct (N x)|exact S..].
Qed.
Print Assumptions C66_wsgi_partial.

(** The hypotheses hold for ordinary requests, and the response starts as stated. *)
Example C66_example :
  (exists hs, let sc := ex_scope_with "POST" "application/grpc" [("grpc-timeout", "5S")]%string "" in
     find_endpoint (ex_app ex_echo) sc = Ok ex_echo /\ process_headers h_empty (sc_headers sc) = Ok hs /\ timeout_readable hs
     /\ negotiate_server_protocol (h_get_default hs (lit "content-type") []) = PGrpc
     /\ dget (ap_codecs (ex_app ex_echo)) (codec_name_from_content_type PGrpc false (h_get_default hs (lit "content-type") [])) = Some ex_codec
     /\ exists head t, In (EvStart 200 head t) (ar_events (asgi_call (ex_app ex_echo) 0%Z sc ex_env))
          /\ In (lit "content-type", lit "application/grpc+proto") head)
  /\ (let q := ex_wq_with "POST" "application/grpc-web+proto" [] [] in
      wsgi_find_endpoint (ex_app ex_echo) q = Ok ex_echo /\ timeout_readable (wsgi_headers q) /\ drain q 0 = None
      /\ negotiate_server_protocol (h_get_default (wsgi_headers q) (lit "content-type") []) = PGrpcWeb
      /\ exists head, In (WStart (lit "200 OK") head) (wr_events (wsgi_call (ex_app ex_echo) 0%Z q))
           /\ In (lit "content-type", lit "application/grpc-web+proto") head).
Proof.
  split.
  - eexists. cbv zeta. split; [reflexivity|]. split; [reflexivity|]. split.
    { right. exists 5%Z, 1000000000%Z. exists (lit "5"), 83%N. repeat split; try (cbn; lia); try reflexivity; apply plain_digits_b; reflexivity. }
    split; [reflexivity|]. split; [reflexivity|]. eexists _, _. split; [vm_compute; left; reflexivity|]. left. reflexivity.
  - cbv zeta. split; [reflexivity|]. split; [exact I|]. split; [reflexivity|]. split; [reflexivity|].
    eexists. split; [vm_compute; left; reflexivity|]. left. reflexivity.
Qed.

(** ** Finding: an unreadable timeout *)

(** A gRPC or gRPC-Web request to a known method whose grpc-timeout header is malformed is not answered with a gRPC status:
    the answer is HTTP 500 with a Connect error in JSON, and the exception is reported to the operator. *)
Definition timeout_error : pystr := lit "protocol error: timeout has invalid unit".
Theorem C66_timeout_refuted : forall ct, In ct ["application/grpc"; "application/grpc-web+proto"]%string ->
  exists (ap : app pystr pystr) sc q ep body,
    find_endpoint ap sc = Ok ep /\ sc_method sc = lit "POST" /\ sc_headers sc = [(lit "content-type", lit ct); (lit "grpc-timeout", lit "5x")]
    /\ wsgi_find_endpoint ap q = Ok ep /\ env_get q "REQUEST_METHOD" = Some (lit "POST") /\ env_get q "CONTENT_TYPE" = Some (lit ct)
    /\ env_get q "HTTP_GRPC_TIMEOUT" = Some (lit "5x")
    /\ json_bytes (JObj [(lit "code", JStr (lit "unknown")); (lit "message", JStr timeout_error)]) = Ok body
    /\ asgi_call ap 0%Z sc ex_env
       = mk_ar [] [EvStart 500 [(lit "content-type", lit "application/json")] false; EvBody body false] (ARaise (EOther KValue timeout_error))
    /\ wsgi_call ap 0%Z q
       = mk_wr [] [WLog (EOther KValue timeout_error); WStart (lit "500 Internal Server Error") [(lit "Content-Type", lit "application/json")]; WBody body] WReturn.
Proof.
  intros ct H. exists (ex_app ex_echo), (ex_scope_with "POST" ct [("grpc-timeout", "5x")]%string ""),
    (ex_wq_with "POST" ct [("HTTP_GRPC_TIMEOUT", "5x")]%string []), ex_echo.
  eexists. do 3 (split; [reflexivity|]). destruct H as [<-|[<-|[]]]; (do 4 (split; [reflexivity|])); (split; [vm_compute; reflexivity|]);
    split; vm_compute; reflexivity.
Qed.
Print Assumptions C66_timeout_refuted.
