(** C94: the outcome of a call does not depend on protocol, codec, compression, client or server. *)
From Coq Require Import List NArith ZArith Bool String Lia.
From Verif Require Import MBase MPyStr MHeaders SHeaders LHeaders LBase MUtf8 MWire MEnvelope MStatusPb MTimeout MProtocol SProtocol MClient SClient MServer MAsgi MWsgi
  SServer PProtocol PResponse LRequest PRequest SLink LLink LLink2 LNet PLink LLink3 PUnary SSame.
Import ListNotations.
Local Open Scope N_scope.

Lemma same_detail_trans ds : forall ds1 ds2, Forall2 same_detail ds ds1 -> Forall2 same_detail ds ds2 -> Forall2 same_detail ds1 ds2.
Proof.
  induction ds as [|d ds IH]; intros ds1 ds2 H1 H2; inversion H1; inversion H2; subst; constructor; auto.
  unfold same_detail in *. intuition congruence.
Qed.
Lemma same_error_outcome {B} x x1 x2 : same_error x x1 -> same_error x x2 -> same_outcome (@CErr B x1) (CErr x2).
Proof.
  destruct x as [c m ds| |]; cbn [same_error].
  - intros (d1&->&F1) (d2&->&F2). cbn. split; [reflexivity|]. split; [reflexivity|]. exact (same_detail_trans _ _ _ F1 F2).
  - intros -> ->. cbn. auto.
  - intros -> ->. cbn. auto.
Qed.

(** What a caller reads under plain names. *)
Definition reads (hs ts : headers) (o : option metadata) : Prop :=
  exists m, o = Some m /\ (forall k, plain_header k -> h_getall (rm_headers m) k = h_getall hs k)
  /\ (forall k, plain_trailer k -> h_getall hs (trailer_mark ++ k) = [] -> h_getall (rm_trailers m) k = h_getall ts k).
Lemma reads_same hs ts o o' : reads hs ts o -> reads hs ts o' -> same_metadata hs o o'.
Proof.
  intros (m&->&H1&H2) (m'&->&H1'&H2'). exists m, m'. split; [reflexivity|]. split; [reflexivity|]. split.
  - intros k P. now rewrite H1, H1'.
  - intros k P E. now rewrite H2, H2'.
Qed.
Lemma stream_reads p hs ts md o : o = Some md -> headers_seen p hs md -> trailers_seen p hs ts md -> reads hs ts o.
Proof.
  intros -> H T. exists md. split; [reflexivity|]. split.
  - intros k (P1&P2&_&P3). apply H; auto.
  - intros k P E. apply T; [|exact E]. destruct p; [reflexivity|exact P|exact P].
Qed.
Lemma unary_reads hs ts md o : o = Some md -> unary_metadata hs ts md -> reads hs ts o.
Proof.
  intros -> (H1&_&H3). exists md. split; [reflexivity|]. split.
  - intros k (P1&P2&P3&_). apply H1; auto.
  - intros k _ E. now rewrite H3, E.
Qed.

(** Server and bidirectional streams. *)
Theorem C94_stream : forall (A B : Type) w w' (c c' : client A B) (ap ap' : app A B) m ep k k' ck ck' net net' u u' hist timeout timeout'
    reqs now now' inv steps rs e call call',
  streams w c ap m ep k ck net u hist timeout reqs now inv steps rs e call ->
  streams w' c' ap' m ep k' ck' net' u' hist timeout' reqs now' inv steps rs e call' ->
  sr_msgs call = sr_msgs call' /\ same_outcome (sr_end call) (sr_end call')
  /\ same_metadata (rs_h (head_state steps rs)) (sr_md call) (sr_md call').
Proof.
  assert (X : forall (A B : Type) w (c : client A B) (ap : app A B) m ep k ck net u hist timeout reqs now inv steps rs e call,
    streams w c ap m ep k ck net u hist timeout reqs now inv steps rs e call ->
    sr_msgs call = map snd steps /\ same_end e (sr_end call) /\ e <> Some ICancel /\ reads (rs_h (head_state steps rs)) (rs_t rs) (sr_md call)).
  { intros A B w c ap m ep k ck net u hist timeout reqs now inv steps rs e call (H1&H2&->&H3&H4&H5&H6).
    destruct (C33_stream_call w c ap m ep k ck net u hist timeout reqs now H1 H2 H3 H4) as (rq&cx&_&Hc&Hx).
    destruct (Hx _ _ _ _ (H5 cx Hc) H6) as [_ (S1&S2&md&S3&S4&S5)]. split; [exact S1|]. split; [exact S2|].
    split; [exact (not_cancelled _ _ _ _ _ _ _ H6)|]. exact (stream_reads _ _ _ _ _ S3 S4 S5). }
  intros A B w w' c c' ap ap' m ep k k' ck ck' net net' u u' hist timeout timeout' reqs now now' inv steps rs e call call' H H'.
  destruct (X _ _ _ _ _ _ _ _ _ _ _ _ _ _ _ _ _ _ _ _ H) as (M&E&Nc&R), (X _ _ _ _ _ _ _ _ _ _ _ _ _ _ _ _ _ _ _ _ H') as (M'&E'&_&R').
  split; [congruence|]. split; [|exact (reads_same _ _ _ _ R R')].
  destruct e as [[x|]|]; [|congruence|]; cbn [same_end] in E, E'.
  - destruct E as (x1&->&E), E' as (x2&->&E'). exact (same_error_outcome x x1 x2 E E').
  - rewrite E, E'. reflexivity.
Qed.
Print Assumptions C94_stream.

(** Calls with one answer. *)
Definition one_answer {B} (steps : list (rstate * B)) (rs : rstate) (e : option interrupt) (r : call_result B) : Prop :=
  match e, steps with
  | None, [(_, b)] => cr_out r = COk b
  | Some (IExn x), [] => exists x', cr_out r = CErr x' /\ same_error x x'
  | _, _ => False
  end /\ reads (rs_h (head_state steps rs)) (rs_t rs) (cr_md r).
Lemma one_answer_same {B} (steps : list (rstate * B)) rs e r r' : one_answer steps rs e r -> one_answer steps rs e r' ->
  same_outcome (cr_out r) (cr_out r') /\ same_metadata (rs_h (head_state steps rs)) (cr_md r) (cr_md r').
Proof.
  intros [E R] [E' R']. split; [|exact (reads_same _ _ _ _ R R')].
  destruct e as [[x|]|], steps as [|[s b] [|]]; try contradiction.
  - destruct E as (x1&->&E), E' as (x2&->&E'). exact (same_error_outcome x x1 x2 E E').
  - rewrite E, E'. reflexivity.
Qed.
Lemma single_one {B} p (steps : list (rstate * B)) rs e r : seen_single p steps rs e r -> one_answer steps rs e r.
Proof. intros [S (md&M1&M2&M3)]. split; [exact S|]. exact (stream_reads _ _ _ _ _ M1 M2 M3). Qed.
Lemma unary_one {B} (steps : list (rstate * B)) rs e r (g : prog Empty_set Empty_set B) : returns g ([], None) steps rs e -> @seen_unary B steps rs e r -> one_answer steps rs e r.
Proof.
  intros H [S (md&M1&M2)]. split; [exact S|]. replace (head_state steps rs) with rs; [exact (unary_reads _ _ _ _ M1 M2)|].
  unfold returns in H. destruct (run_fn g ([], None) rs_new) as [[b|i] r0]; destruct H as (->&->&_); reflexivity.
Qed.

(** Client streams. *)
Theorem C94_client_stream : forall (A B : Type) w w' (c c' : client A B) (ap ap' : app A B) m mi f k k' ck ck' net net' u u' hist timeout timeout'
    reqs now now' inv steps rs e call call',
  uploads w c ap m mi f k ck net u hist timeout reqs now inv steps rs e call ->
  uploads w' c' ap' m mi f k' ck' net' u' hist timeout' reqs now' inv steps rs e call' ->
  same_outcome (cr_out call) (cr_out call') /\ same_metadata (rs_h (head_state steps rs)) (cr_md call) (cr_md call').
Proof.
  assert (X : forall (A B : Type) w (c : client A B) (ap : app A B) m mi f k ck net u hist timeout reqs now inv steps rs e call,
    uploads w c ap m mi f k ck net u hist timeout reqs now inv steps rs e call -> one_answer steps rs e call).
  { intros A B w c ap m mi f k ck net u hist timeout reqs now inv steps rs e call (H1&->&H3&H4&H5&H6).
    destruct (C33_client_stream_call w c ap m mi f k ck net u hist timeout reqs now H1 H3 H4) as (rq&cx&_&Hc&Hx).
    destruct (Hx _ _ _ _ (H5 cx Hc) H6) as [_ S]. exact (single_one _ _ _ _ _ S). }
  intros A B w w' c c' ap ap' m mi f k k' ck ck' net net' u u' hist timeout timeout' reqs now now' inv steps rs e call call' H H'.
  exact (one_answer_same _ _ _ _ _ (X _ _ _ _ _ _ _ _ _ _ _ _ _ _ _ _ _ _ _ _ _ H) (X _ _ _ _ _ _ _ _ _ _ _ _ _ _ _ _ _ _ _ _ _ H')).
Qed.
Print Assumptions C94_client_stream.

(** Unary calls, also by GET on one side and POST on the other. *)
Theorem C94_unary : forall (A B : Type) w w' inflate inflate' (c c' : client A B) (ap ap' : app A B) m mi f k k' ck ck' net net' u u' hist
    timeout timeout' get get' a now now' steps rs e call call',
  answers w inflate c ap m mi f k ck net u hist timeout get a now steps rs e call ->
  answers w' inflate' c' ap' m mi f k' ck' net' u' hist timeout' get' a now' steps rs e call' ->
  same_outcome (cr_out call) (cr_out call') /\ same_metadata (rs_h (head_state steps rs)) (cr_md call) (cr_md call').
Proof.
  assert (X : forall (A B : Type) w inflate (c : client A B) (ap : app A B) m mi f k ck net u hist timeout get a now steps rs e call,
    answers w inflate c ap m mi f k ck net u hist timeout get a now steps rs e call -> one_answer steps rs e call).
  { intros A B w inflate c ap m mi f k ck net u hist timeout get a now steps rs e call (->&H5&H).
    assert (G : cl_proto c <> PConnect -> connected w c ap m (EpUnary mi f) k ck u hist timeout -> request_fits c ap [a] ->
      stream_link w ap now (cl_address c) net (cr_sent (execute_unary c ck net (Some md_new) m u timeout get a None)) ->
      sendable ap k (cl_proto c) (cl_max c) steps rs e -> one_answer steps rs e (execute_unary c ck net (Some md_new) m u timeout get a None)).
    { intros P H1 H2 H3 H4. destruct (C33_unary_grpc_call w c ap m mi f k ck net u hist timeout get a now P H1 H3 H2) as (rq&cx&_&Hc&Hx).
      destruct (Hx _ _ _ (H5 cx Hc) H4) as [_ S]. exact (single_one _ _ _ _ _ S). }
    destruct (cl_proto c) eqn:P.
    - destruct H as (H1&H2&H3&H4). destruct (C33_unary_call w inflate c ap m mi f k ck net u hist timeout get a now H1 H2 H3) as (rq&cx&_&_&Hc&Hx).
      destruct (Hx _ _ _ (H5 cx Hc) H4) as [_ S]. exact (unary_one _ _ _ _ _ (H5 cx Hc) S).
    - destruct H as (H1&H2&H3&H4). apply G; auto; discriminate.
    - destruct H as (H1&H2&H3&H4). apply G; auto; discriminate. }
  intros A B w w' inflate inflate' c c' ap ap' m mi f k k' ck ck' net net' u u' hist timeout timeout' get get' a now now' steps rs e call call' H H'.
  exact (one_answer_same _ _ _ _ _ (X _ _ _ _ _ _ _ _ _ _ _ _ _ _ _ _ _ _ _ _ _ _ H) (X _ _ _ _ _ _ _ _ _ _ _ _ _ _ _ _ _ _ _ _ _ _ H')).
Qed.
Print Assumptions C94_unary.

(** ** Examples *)

(** The same call over each protocol, to both servers, also when the method fails. *)
Example C94_example_stream : forall w p e, link_cause e ->
  let ep := link_echo (option_map IExn e) in
  streams w (link_client p) (link_app ep) ex_method ep ex_codec ex_clocks (link_net w (link_app ep)) link_headers [Add (lit "X-A") (lit "1")] None
    ([lit "a"], None) 0%Z [InvStream] [(link_state false, lit "a")] (link_state true) (option_map IExn e) (link_call w p ep [lit "a"]).
Proof.
  intros w p e H ep. destruct (C33_stream_call_example w p e H) as (H1&H2&H3&H4&H5). split; [exact H1|]. split; [intros _; reflexivity|].
  split; [reflexivity|]. split; [exact H2|]. split; [exact H3|]. split; [intros cx _; apply H4|exact H5].
Qed.
Definition link_any_call (w : bool) (p : proto) (e : option exn) (get : bool) : call_result pystr :=
  execute_unary (link_client p) ex_clocks (link_net w (link_app (link_unary e))) (Some md_new) ex_method link_headers None get (lit "a") None.
Definition link_unary_fn (e : option exn) : pystr -> req_ctx -> prog Empty_set Empty_set pystr :=
  match link_unary e with EpUnary _ f => f | _ => fun a _ => Ret a end.
Example C94_example_unary : forall w p e get, link_cause e ->
  answers w link_inflate (link_client p) (link_app (link_unary e)) ex_method ex_method (link_unary_fn e) ex_codec ex_clocks
    (link_net w (link_app (link_unary e))) link_headers [Add (lit "X-A") (lit "1")] None get (lit "a") 0%Z
    (match e with None => [(link_unary_state, lit "a")] | Some _ => [] end) link_unary_state (option_map IExn e) (link_any_call w p e get).
Proof.
  intros w p e get H. split; [reflexivity|]. split; [intros cx _; destruct e; cbn; auto|].
  assert (S : forall p, sendable (link_app (link_unary e)) ex_codec p (Some 1000) (match e with None => [(link_unary_state, lit "a")] | Some _ => [] end) link_unary_state (option_map IExn e)).
  { intro p'. destruct (link_sendable p' e (link_unary e) H) as (S1&_&S3&S4&S5). split; [destruct e; [constructor|exact S1]|].
    split; [destruct e; repeat constructor|]. split; [exact S3|]. split; [exact S4|exact S5]. }
  assert (L : p <> PConnect -> stream_link w (link_app (link_unary e)) 0%Z (lit "http://h") (link_net w (link_app (link_unary e))) (cr_sent (link_any_call w p e get))).
  { intro P. unfold link_any_call. change (cl_proto (link_client p) <> PConnect) in P. rewrite (unary_stream_get _ _ _ _ _ _ _ _ _ _ P). cbn [single_result cr_sent]. rewrite send_stream_sent_rq.
    destruct w; cbn [stream_link link_net].
    - apply wsgi_net_stream. intros rq [<-|[]]. split; [eexists; reflexivity|]. split; [vm_compute; discriminate|]. split; [|destruct p; reflexivity].
      split; destruct p; vm_compute; repeat constructor; cbn; intuition discriminate.
    - apply asgi_net_stream. intros rq [<-|[]]. split; [eexists; reflexivity|]. split; [|destruct p; reflexivity]. destruct p; vm_compute; repeat constructor. }
  assert (F : request_fits (link_client p) (link_app (link_unary e)) [lit "a"]).
  { intros a d [<-|[]] E. apply ok_inj in E. subst d. cbn. lia. }
  destruct p; cbn [cl_proto link_client].
  - destruct (C33_unary_call_example w e get H) as (H1&H2&H3&f&Hf&_&H5). split; [exact H1|]. split; [exact H2|]. split; [exact H3|exact H5].
  - split; [apply (link_connected w PGrpc (link_unary e))|]. split; [exact F|]. split; [apply L; discriminate|apply S].
  - split; [apply (link_connected w PGrpcWeb (link_unary e))|]. split; [exact F|]. split; [apply L; discriminate|apply S].
Qed.
(** So the caller sees the same over each. *)
Example C94_example_same : forall w w' p p' e get get', link_cause e ->
  same_outcome (cr_out (link_any_call w p e get)) (cr_out (link_any_call w' p' e get'))
  /\ same_metadata (rs_h (head_state (match e with None => [(link_unary_state, lit "a")] | Some _ => [] end) link_unary_state))
       (cr_md (link_any_call w p e get)) (cr_md (link_any_call w' p' e get')).
Proof. intros w w' p p' e get get' H. exact (C94_unary _ _ _ _ _ _ _ _ _ _ _ _ _ _ _ _ _ _ _ _ _ _ _ _ _ _ _ _ _ _ _ _ _ _ (C94_example_unary w p e get H) (C94_example_unary w' p' e get' H)). Qed.
(** That both protocols can carry what the method does is needed: the client's limit applies to the trailers of Connect streams only. *)
Example C94_example_limit : forall w, ~ same_outcome (sr_end (narrow_call w PConnect)) (sr_end (narrow_call w PGrpc)).
Proof. intros []; vm_compute; auto. Qed.
