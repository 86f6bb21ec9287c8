(** C95: calls that are made again. *)
From Coq Require Import List NArith ZArith Bool String Lia.
From Verif Require Import MBase MPyStr MHeaders MUtf8 MPercent MWire MEnvelope MTimeout MProtocol MClient MIntercept MWrap MRetry SProtocol STimeout SRetry LProtocol PTimeout PProtocol PClient.
Import ListNotations.

Lemma unary_request_same {A B} (c : client A B) cx now now' a q q' :
  unary_request c cx now a = Ok q -> unary_request c cx now' a = Ok q' -> same_request q q' /\ rq_timeout q = timeout_s cx now.
Proof.
  unfold unary_request. destruct (k_enc_req _ _) as [d|]; [|discriminate]. cbn [bind]. destruct (z_compress _ _) as [d'|]; [|discriminate]. cbn [bind].
  destruct (str_eqb _ _).
  - destruct (prepare_get_params _ _ _) as [ps hs]. destruct (urlencode ps); [|discriminate]. intros [= <-] [= <-]. repeat split.
  - intros [= <-] [= <-]. repeat split.
Qed.

(** What the client's own functions send for [l]. *)
Definition sends {A B} (c : client A B) (cx : req_ctx) (l : ceff A) (now : fl) (q : http_request) : Prop :=
  match l with
  | CHdr _ => False
  | CUnary a =>
      match cl_proto c with
      | PConnect => unary_request c cx now a = Ok q
      | _ => q = mk_rq (lit "POST") (call_url c (cx_method cx)) (h_allitems (cx_headers cx)) (request_content c [a] None) (timeout_s cx now)
      end
  | CSingle reqs | CStream reqs =>
      q = mk_rq (lit "POST") (call_url c (cx_method cx)) (h_allitems (cx_headers cx)) (request_content c (fst reqs) (snd reqs)) (timeout_s cx now)
  end.
Lemma stream_sends {A B} (c : client A B) cx ck net md reqs stop q : In q (sr_sent (send_stream c cx ck net md reqs stop)) ->
  q = mk_rq (lit "POST") (call_url c (cx_method cx)) (h_allitems (cx_headers cx)) (request_content c (fst reqs) (snd reqs)) (timeout_s cx (ck_send ck)).
Proof. intro H. apply send_stream_sent in H. destruct q. cbn in H. destruct H as (-> & -> & -> & -> & ->). reflexivity. Qed.
Lemma sends_same {A B} (c : client A B) cx l now now' q q' : sends c cx l now q -> sends c cx l now' q' ->
  same_request q q' /\ rq_timeout q = timeout_s cx now.
Proof.
  destruct l as [op|a|reqs|reqs]; cbn; [intros []| | |]; try (intros -> ->; repeat split).
  destruct (cl_proto c); [apply unary_request_same| |]; intros -> ->; repeat split.
Qed.

Lemma world_sends {A B} (c : client A B) ats cx l s x s' : retry_world c ats s l = (x, s') -> rw_ctx s = cx -> (forall op, l <> CHdr op) ->
  rw_ctx s' = cx /\ forall q, In q (rw_sent s') -> In q (rw_sent s) \/ exists i, sends c cx l (ck_send (fst (ats i))) q.
Proof.
  intros E C N. unfold retry_world in E. destruct (ats (rw_made s)) as [ck net] eqn:K. assert (Eck : ck = fst (ats (rw_made s))) by now rewrite K. clear K.
  destruct l as [op|a|reqs|reqs]; [now elim (N op)| | |]; injection E as <- <-; cbn [rw_ctx rw_sent]; rewrite C; (split; [reflexivity|]);
    intros q Hq; apply in_app_or in Hq; destruct Hq as [Hq|Hq]; auto; right; exists (rw_made s); rewrite <- Eck.
  - cbn. unfold send_unary in Hq. destruct (cl_proto c) eqn:P; [eapply send_unary_connect_sent; exact Hq| |]; now apply stream_sends in Hq.
  - now apply stream_sends in Hq.
  - now apply stream_sends in Hq.
Qed.

Lemma shut_sends {A T B Y R} (c : client A B) ats cx l (g : gen (ceff A) (cval B) T Y R) : (forall op, l <> CHdr op) -> forall s s' t o,
  shut (retry_world c ats) s g = (s', t, o) -> rw_ctx s = cx -> only_calls l t ->
  rw_ctx s' = cx /\ forall q, In q (rw_sent s') -> In q (rw_sent s) \/ exists i, sends c cx l (ck_send (fst (ats i))) q.
Proof.
  intro N. induction g as [r|f|l' k IH|m k IH|b k IHk h IHh]; intros s s' t o E C O; cbn [shut] in E; try (injection E as <- <- <-; auto; fail).
  - destruct (retry_world c ats s l') as [x s1] eqn:W. destruct (shut _ s1 (k x)) as [[s2 t2] o2] eqn:R2. injection E as <- <- <-.
    assert (l' = l) by (apply O; now left). subst l'. destruct (world_sends _ _ _ _ _ _ _ W C N) as [C1 S1].
    destruct (IH x _ _ _ _ R2 C1) as [C2 S2]; [intros l' H; apply O; now right|]. split; [exact C2|]. intros q Hq. destruct (S2 q Hq) as [H|H]; auto.
  - destruct (shut _ s k) as [[s2 t2] o2] eqn:R2. injection E as <- <- <-. apply (IH _ _ _ _ R2 C). intros l' H. apply O. now right.
Qed.
Lemma run_sends {A T B Y R} (c : client A B) ats cx l (g : gen (ceff A) (cval B) T Y R) : (forall op, l <> CHdr op) -> forall rs s s' t o,
  run (retry_world c ats) s rs g = (s', t, o) -> rw_ctx s = cx -> only_calls l t ->
  rw_ctx s' = cx /\ forall q, In q (rw_sent s') -> In q (rw_sent s) \/ exists i, sends c cx l (ck_send (fst (ats i))) q.
Proof.
  intro N. induction g as [r|f|l' k IH|m k IH|b k IHk h IHh]; intros rs s s' t o E C O; cbn [run] in E; try (injection E as <- <- <-; auto; fail).
  - destruct (retry_world c ats s l') as [x s1] eqn:W. destruct (run _ s1 rs (k x)) as [[s2 t2] o2] eqn:R2. injection E as <- <- <-.
    assert (l' = l) by (apply O; now left). subst l'. destruct (world_sends _ _ _ _ _ _ _ W C N) as [C1 S1].
    destruct (IH x _ _ _ _ _ R2 C1) as [C2 S2]; [intros l' H; apply O; now right|]. split; [exact C2|]. intros q Hq. destruct (S2 q Hq) as [H|H]; auto.
  - destruct (run _ s rs k) as [[s2 t2] o2] eqn:R2. injection E as <- <- <-. apply (IH _ _ _ _ _ R2 C). intros l' H. apply O. now right.
  - destruct rs as [|[|f] rs].
    + injection E as <- <- <-. auto.
    + destruct (run _ s rs k) as [[s2 t2] o2] eqn:R2. injection E as <- <- <-. apply (IHk _ _ _ _ _ R2 C). intros l' H. apply O. now right.
    + assert (D : (exists t2, shut (retry_world c ats) s (h FClose) = (s', t2, o) /\ t = Yielded b :: t2 /\ f = FClose)
                  \/ exists t2, run (retry_world c ats) s rs (h f) = (s', t2, o) /\ t = Yielded b :: t2).
      { destruct f; [right|right|left]; [destruct (run _ s rs (h (FExn e))) as [[s2 t2] o2]|destruct (run _ s rs (h FCancel)) as [[s2 t2] o2]|destruct (shut _ s (h FClose)) as [[s2 t2] o2]];
          injection E as <- <- <-; eauto. }
      destruct D as [(t2&R2&->&->)|(t2&R2&->)]; [eapply shut_sends; eauto|eapply IHh; eauto]; intros l' H; apply O; now right.
Qed.

Lemma left_timeout {A B} (c : client A B) start m u timeout stream get now x : timeout_s (call_ctx c start m u timeout stream get) now = x ->
  (forall t, timeout = Some t \/ timeout = None /\ cl_timeout c = Some t -> (0 < t <= 2 ^ 53)%Z -> exists y, x = Some y /\ left_s start t now y)
  /\ (timeout = None -> cl_timeout c = None -> x = None).
Proof.
  intros <-. unfold timeout_s, cx_remaining, call_ctx, client_create_context, make_ctx. cbn [cx_end]. split; [|intros -> ->; reflexivity].
  intros t Ht R. assert (effective_timeout timeout (cl_timeout c) = Some t) as ->.
  { destruct Ht as [->|[-> ->]]; unfold effective_timeout; [|reflexivity]. replace (t =? 0)%Z with false by lia. reflexivity. }
  eexists. split; [reflexivity|]. now apply C32_near_partial.
Qed.

(** Whatever its interceptors do, all requests of one call say the same, as long as the interceptors change neither message nor
    headers, and each may take what is left of the one timeout of the call (or the client's default) when it is made. *)
Theorem C95_requests {A T B} (c : client A B) (is : iterable (cinterceptor A T B)) start ats md m u timeout :
  let alike (sent : list http_request) :=
    (forall q q', In q sent -> In q' sent -> same_request q q')
    /\ forall q, In q sent -> exists i,
         (forall t, timeout = Some t \/ timeout = None /\ cl_timeout c = Some t -> (0 < t <= 2 ^ 53)%Z ->
            exists x, rq_timeout q = Some x /\ left_s start t (ck_send (fst (ats i))) x)
         /\ (timeout = None -> cl_timeout c = None -> rq_timeout q = None) in
  (forall get a s t o, unary_again c is start ats md m u timeout get a = (s, t, o) -> only_calls (CUnary a) t -> alike (rw_sent s))
  /\ (forall reqs s t o, client_stream_again c is start ats md m u timeout reqs = (s, t, o) -> only_calls (CSingle reqs) t -> alike (rw_sent s))
  /\ (forall a n s t o, server_stream_again c is start ats md m u timeout a n = (s, t, o) -> only_calls (CStream ([a], None)) t -> alike (rw_sent s))
  /\ (forall reqs n s t o, bidi_stream_again c is start ats md m u timeout reqs n = (s, t, o) -> only_calls (CStream reqs) t -> alike (rw_sent s)).
Proof.
  intro alike.
  assert (G : forall Y R l stream get n (g : gen (ceff A) (cval B) T Y R) s t o, (forall op, l <> CHdr op) ->
    retry_call c ats md (call_ctx c start m u timeout stream get) n g = (s, t, o) -> only_calls l t -> alike (rw_sent s)).
  { intros Y R l stream get n g s t o N E O. unfold retry_call in E. destruct (run_sends c ats _ l g N _ _ _ _ _ E eq_refl O) as [_ S]. cbn [rw_sent] in S. split.
    - intros q q' H H'. destruct (S _ H) as [[]|[i Hi]]. destruct (S _ H') as [[]|[i' Hi']]. exact (proj1 (sends_same _ _ _ _ _ _ _ Hi Hi')).
    - intros q H. destruct (S _ H) as [[]|[i Hi]]. exists i. apply (left_timeout c start m u timeout stream get). symmetry. exact (proj2 (sends_same _ _ _ _ _ _ _ Hi Hi)). }
  split; [|split; [|split]]; intros; eapply G; eauto; discriminate.
Qed.
Print Assumptions C95_requests.

Lemma run_tried {A T B} (c : client A B) ats cx (l : ceff A) (one : nat -> option metadata -> call_result B) again :
  (forall s, rw_ctx s = cx -> retry_world c ats s l
     = (match cr_out (one (rw_made s) (rw_md s)) with COk b => inl (VMsg b) | CErr e => inr (FExn e) | CRaw f => inr f end,
        mk_rw cx (rw_sent s ++ cr_sent (one (rw_made s) (rw_md s))) (cr_md (one (rw_made s) (rw_md s))) (S (rw_made s)))) ->
  forall n s, rw_ctx s = cx -> exists rs, tried again one n (rw_made s) (rw_md s) rs
    /\ exists s' t before z, run (retry_world c ats) s [] (retrying n again (answer (T:=T) (B:=B) l)) = (s', t, end_of (cr_out z))
       /\ rs = before ++ [z] /\ rw_sent s' = rw_sent s ++ flat_map cr_sent rs /\ rw_md s' = cr_md z.
Proof.
  intro W. induction n as [|n IH]; intros s C.
  - cbn [retrying]. set (r := one (rw_made s) (rw_md s)). exists [r]. split; [constructor; now left|].
    exists (mk_rw cx (rw_sent s ++ cr_sent r) (cr_md r) (S (rw_made s))), [Effect l], [], r. unfold answer. cbn [run]. rewrite (W s C). fold r.
    cbn [flat_map rw_sent rw_md]. rewrite List.app_nil_r. repeat split. destruct (cr_out r) as [b|e|f]; reflexivity.
  - cbn [retrying]. set (r := one (rw_made s) (rw_md s)). unfold answer at 2. cbn [catching run]. rewrite (W s C). fold r.
    assert (Last : (forall e, end_of (cr_out r) = Raised (FExn e) -> again e = false) -> exists rs, tried again one (S n) (rw_made s) (rw_md s) rs
      /\ exists before z, rs = before ++ [z] /\ z = r /\ flat_map cr_sent rs = cr_sent r).
    { intro H. exists [r]. split; [constructor; now right|]. exists [], r. cbn. now rewrite List.app_nil_r. }
    assert (Failed : forall e, end_of (cr_out r) = Raised (FExn e) -> exists rs, tried again one (S n) (rw_made s) (rw_md s) rs
      /\ exists s' t before z,
           (let '(s2, t, o) := run (retry_world c ats) (mk_rw cx (rw_sent s ++ cr_sent r) (cr_md r) (S (rw_made s))) []
              (if again e then retrying n again (answer (T:=T) (B:=B) l) else GRaise (FExn e)) in (s2, Effect l :: t, o)) = (s', t, end_of (cr_out z))
           /\ rs = before ++ [z] /\ rw_sent s' = rw_sent s ++ flat_map cr_sent rs /\ rw_md s' = cr_md z).
    { intros e E. destruct (again e) eqn:Ag.
      - destruct (IH (mk_rw cx (rw_sent s ++ cr_sent r) (cr_md r) (S (rw_made s))) eq_refl) as (rs&Tr&s'&t&before&z&Rn&Er&Es&Em). cbn [rw_made rw_md rw_sent] in *.
        exists (r :: rs). split; [econstructor; eauto|]. exists s', (Effect l :: t), (r :: before), z.
        rewrite Rn. split; [reflexivity|]. split; [now rewrite Er|]. split; [|exact Em]. rewrite Es. cbn. now rewrite List.app_assoc.
      - destruct Last as (rs&Tr&before&z&Er&->&Es); [intros e' E'; congruence|]. exists rs. split; [exact Tr|].
        exists (mk_rw cx (rw_sent s ++ cr_sent r) (cr_md r) (S (rw_made s))), [Effect l], before, r. rewrite E, Es. now repeat split. }
    destruct (cr_out r) as [b|e|f] eqn:E.
    + destruct Last as (rs&Tr&before&z&Er&->&Es); [discriminate|]. exists rs. split; [exact Tr|].
      exists (mk_rw cx (rw_sent s ++ cr_sent r) (cr_md r) (S (rw_made s))), [Effect l], before, r. rewrite E, Es. now repeat split.
    + exact (Failed e eq_refl).
    + destruct f as [e| |]; [exact (Failed e eq_refl)| |];
        (destruct Last as (rs&Tr&before&z&Er&->&Es); [discriminate|]; exists rs; split; [exact Tr|];
         exists (mk_rw cx (rw_sent s ++ cr_sent r) (cr_md r) (S (rw_made s))), [Effect l], before, r; rewrite E, Es; now repeat split).
Qed.

(** With an interceptor that retries, the call is attempted until an attempt does not fail with an error to be retried, or the
    retries are used up.  Every attempt is a call of a client without interceptors that was started when this one was; the caller
    gets the outcome of the last. *)
Theorem C95_retry {A T B} (c : client A B) n again (is : iterable (cinterceptor A T B)) start ats md m u timeout :
  is = Sequence [retrier n again] \/ is = Iterator [retrier n again] ->
  (forall get a,
     let one i md := execute_unary c (mk_clk start (ck_send (fst (ats i))) (ck_late (fst (ats i)))) (snd (ats i)) md m u timeout get a None in
     exists rs, tried again one n 0 md rs /\ as_tried rs (unary_again c is start ats md m u timeout get a))
  /\ (forall reqs,
     let one i md := execute_client_stream c (mk_clk start (ck_send (fst (ats i))) (ck_late (fst (ats i)))) (snd (ats i)) md m u timeout reqs None in
     exists rs, tried again one n 0 md rs /\ as_tried rs (client_stream_again c is start ats md m u timeout reqs)).
Proof.
  intro E.
  assert (Ck : forall i, mk_clk (ck_start (fst (ats i))) (ck_send (fst (ats i))) (ck_late (fst (ats i))) = fst (ats i)) by (intro i; now destruct (fst (ats i))).
  assert (U : forall cx k1 k2 net md a, ck_send k1 = ck_send k2 -> ck_late k1 = ck_late k2 ->
    send_unary c cx k1 net md a None = send_unary c cx k2 net md a None /\ forall reqs st, send_stream c cx k1 net md reqs st = send_stream c cx k2 net md reqs st).
  { intros cx k1 k2 net md' a E1 E2. assert (St : forall reqs st, send_stream c cx k1 net md' reqs st = send_stream c cx k2 net md' reqs st)
      by (intros; unfold send_stream; now rewrite E1, E2).
    split; [|exact St]. unfold send_unary, send_unary_connect. rewrite E1. destruct (cl_proto c); [reflexivity| |]; now rewrite St. }
  split.
  - intros get a one. unfold unary_again. set (cx := call_ctx c start m u timeout false get).
    assert (Eg : cf_unary (client_apply (cl_sync c) is own_fns) a cx = retrying n again (answer (T:=T) (B:=B) (CUnary a))).
    { destruct E as [-> | ->]; reflexivity. }
    rewrite Eg. destruct (run_tried (T:=T) c ats cx (CUnary a) one again) with (n := n) (s := mk_rw cx [] md 0%nat) as (rs&Tr&s'&t&before&z&Rn&Er&Es&Em); [|reflexivity|].
    { intros s C. unfold retry_world. destruct (ats (rw_made s)) as [ck net] eqn:K. rewrite C. unfold one, execute_unary. rewrite K. cbn [fst snd].
      rewrite (proj1 (U cx ck (mk_clk start (ck_send ck) (ck_late ck)) net (rw_md s) a eq_refl eq_refl)). reflexivity. }
    exists rs. split; [exact Tr|]. unfold as_tried, retry_call. cbn [repeat]. rewrite Rn. split; [exact Es|]. exists before, z. auto.
  - intros reqs one. unfold client_stream_again. set (cx := call_ctx c start m u timeout true false).
    assert (Eg : cf_client_stream (client_apply (cl_sync c) is own_fns) reqs cx = retrying n again (answer (T:=T) (B:=B) (CSingle reqs))).
    { destruct E as [-> | ->]; reflexivity. }
    rewrite Eg. destruct (run_tried (T:=T) c ats cx (CSingle reqs) one again) with (n := n) (s := mk_rw cx [] md 0%nat) as (rs&Tr&s'&t&before&z&Rn&Er&Es&Em); [|reflexivity|].
    { intros s C. unfold retry_world. destruct (ats (rw_made s)) as [ck net] eqn:K. rewrite C. unfold one, execute_client_stream. rewrite K. cbn [fst snd].
      replace (send_stream c cx ck net (rw_md s) reqs (single_stop None))
        with (send_stream c cx (mk_clk start (ck_send ck) (ck_late ck)) net (rw_md s) reqs (single_stop None)); [reflexivity|]. unfold send_stream. reflexivity. }
    exists rs. split; [exact Tr|]. unfold as_tried, retry_call. cbn [repeat]. rewrite Rn. split; [exact Es|]. exists before, z. auto.
Qed.
Print Assumptions C95_retry.

(** Example: a first attempt that fails, a second that succeeds, 600 milliseconds later. *)
Definition ex_unavailable (e : exn) : bool := match e with EConnect Unavailable _ _ => true | _ => false end.
Definition ex_retry : cinterceptor pystr unit pystr := retrier 3 ex_unavailable.
Definition ex_later : clocks := mk_clk 0%Z (fl_div (fl_of_Z 600) (fl_of_Z 1000)) (fl_div (fl_of_Z 600) (fl_of_Z 1000)).
Definition ex_attempts : attempts := fun i =>
  match i with
  | O => (ex_clocks, ex_net)
  | _ => (ex_later, mk_net (fun _ => UResp (mk_fr 200 [(lit "content-type", lit "application/proto")] (lit "yes"))) (nw_stream ex_net))
  end.
Example C95_example :
  let '(s, t, o) := unary_again (ex_client PConnect (Some 1000%Z)) (Sequence [ex_retry]) 0%Z ex_attempts None ex_method UNone None true (lit "hi") in
  map rq_method (rw_sent s) = [lit "GET"; lit "GET"] /\ map rq_url (rw_sent s) = repeat (lit "http://h/pkg.Svc/Get?connect=v1&base64=1&compression=identity&encoding=proto&message=aGk%3D") 2
  /\ only_calls (CUnary (lit "hi")) t /\ o = Returned (lit "yes").
Proof. vm_compute. split; [reflexivity|]. split; [reflexivity|]. split; [|reflexivity]. intros l' [H|[H|[]]]; now injection H as <-. Qed.

(** Finding: the header that tells the server about the timeout is that of the first attempt, however much of it is gone: the second
    request has less than half a second left and says that it has a second. *)
Theorem C95_deadline_refuted : exists (c : client pystr pystr) is ats m q1 q2 left,
  rw_sent (fst (fst (unary_again (T:=unit) c is 0%Z ats None m UNone None false (lit "hi")))) = [q1; q2]
  /\ rq_timeout q2 = Some left /\ (2 * left < fl_of_Z 1)%Z
  /\ values_in (rq_headers q2) (lit "connect-timeout-ms") = [lit "1000"].
Proof.
  exists (ex_client PConnect (Some 1000%Z)), (Sequence [ex_retry]), ex_attempts, ex_method. eexists _, _, _.
  split; [vm_compute; reflexivity|]. split; [reflexivity|]. split; vm_compute; reflexivity.
Qed.
Print Assumptions C95_deadline_refuted.

(** Finding: the trailers of failed attempts stay in the ResponseMetadata: after a call that succeeded at the second attempt it holds the
    trailers of both, with the status of the failure first. *)
Definition ex_both : attempts := fun i =>
  (ex_clocks, ex_answer (match i with
                         | O => ex_stream PGrpc [] None [(lit "grpc-status", lit "14"); (lit "x-t", lit "failed")]
                         | _ => ex_stream PGrpc [ex_frame 0 [7%N]] None [(lit "grpc-status", lit "0"); (lit "x-t", lit "good")]
                         end)).
Theorem C95_metadata_refuted : exists (c : client pystr pystr) is ats m b,
  let call := unary_again (T:=unit) c is 0%Z ats (Some md_new) m UNone None false (lit "hi") in
  let trailers md k := option_map (fun md => h_getall (rm_trailers md) k) md in
  snd call = Returned b
  /\ trailers (rw_md (fst (fst call))) (lit "x-t") = Some [lit "failed"; lit "good"]
  /\ trailers (rw_md (fst (fst call))) (lit "grpc-status") = Some [lit "14"; lit "0"]
  /\ let alone := cr_md (execute_unary c (fst (ats 1%nat)) (snd (ats 1%nat)) (Some md_new) m UNone None false (lit "hi") None) in
     trailers alone (lit "x-t") = Some [lit "good"] /\ trailers alone (lit "grpc-status") = Some [lit "0"].
Proof.
  exists (ex_client PGrpc None), (Sequence [ex_retry]), ex_both, ex_method. eexists. repeat split; vm_compute; reflexivity.
Qed.
Print Assumptions C95_metadata_refuted.
