(** Networks as [SLink] assumes them exist: a perfect transport in front of an application. *)
From Coq Require Import List NArith ZArith Bool String Lia ZifyBool ZifyNat ZifyN.
From Verif Require Import MBase MPyStr MHeaders SHeaders LHeaders LBase LPyStr MWire MEnvelope MTimeout MProtocol SProtocol MClient LProtocol
  MServer MAsgi MWsgi SServer SLink LLink LLink2.
Import ListNotations.
Local Open Scope N_scope.

(** The response in a sequence of ASGI events. *)
Definition event_body (e : aevent) : bytes := match e with EvBody b _ => b | _ => [] end.
Definition event_trailers (e : aevent) : list (pystr * pystr) := match e with EvTrailers l => l | _ => [] end.
Definition asgi_parse (ev : list aevent) : response :=
  match ev with
  | EvStart st hs _ :: r => mk_resp st hs (flat_map event_body r) (flat_map event_trailers r)
  | _ => mk_resp 0 [] [] []
  end.
Lemma asgi_parse_answers {A} (r : asgi_result A) R : asgi_answers r R -> asgi_parse (ar_events r) = R.
Proof.
  intros (ts&(chunks&last&E&Eb)&Et&_&_). rewrite E. unfold asgi_parse. destruct R as [st hs b t]. cbn [re_status re_headers re_body re_trailers] in *.
  assert (X : flat_map event_body (map (fun b => EvBody b true) chunks) = List.concat chunks).
  { clear. induction chunks as [|c l IH]; [reflexivity|]. cbn. now rewrite IH. }
  assert (Y : flat_map event_trailers (map (fun b => EvBody b true) chunks) = []).
  { clear. induction chunks as [|c l IH]; [reflexivity|]. exact IH. }
  rewrite !flat_map_app, X, Y. subst. destruct ts; cbn; rewrite ?app_nil_r; reflexivity.
Qed.

(** The response in a sequence of WSGI events. *)
Definition wevent_body (e : wevent) : bytes := match e with WBody b => b | _ => [] end.
Definition wevent_trailers (e : wevent) : list (pystr * pystr) := match e with WTrailers l => l | _ => [] end.
(** The text before the first space of a status line. *)
Fixpoint before_space (s : pystr) : pystr :=
  match s with
  | [] => []
  | c :: r => if c =? 32 then [] else c :: before_space r
  end.
Definition wsgi_parse (ev : list wevent) : response :=
  match without_logs ev with
  | WStart st hs :: r => mk_resp (digits_val (before_space st)) hs (flat_map wevent_body r) (flat_map wevent_trailers r)
  | _ => mk_resp 0 [] [] []
  end.

Lemma before_space_app d s : Forall (fun c => is_digit c = true) d -> before_space (d ++ 32 :: s) = d.
Proof.
  induction 1 as [|c d Hc F IH]; cbn [List.app before_space]; [reflexivity|].
  unfold is_digit in Hc. replace (c =? 32) with false by lia. now f_equal.
Qed.
Lemma wsgi_parse_answers {A} (r : wsgi_result A) R : wsgi_answers r R -> wsgi_parse (wr_events r) = R.
Proof.
  intros (_&phrase&ts&(chunks&last&E&Eb)&Et&_&_). unfold wsgi_parse. rewrite E. destruct R as [st hs b t]. cbn [re_status re_headers re_body re_trailers] in *.
  change (lit " " ++ phrase) with (32 :: phrase). rewrite before_space_app by apply dec_of_N_digits. rewrite dec_of_N_val.
  assert (X : forall l, flat_map wevent_body (map WBody l) = List.concat l).
  { clear. induction l as [|c l IH]; [reflexivity|]. cbn. now rewrite IH. }
  assert (Y : forall l, flat_map wevent_trailers (map WBody l) = []).
  { clear. induction l as [|c l IH]; [reflexivity|]. exact IH. }
  rewrite !flat_map_app, !X, !Y. subst. destruct ts; cbn; rewrite ?app_nil_r; reflexivity.
Qed.

(** The library's view of a response: names in lower case, the whole body in one chunk. *)
Definition lowered (hs : list (pystr * pystr)) : list (pystr * pystr) := map (fun kv => (lower (fst kv), snd kv)) hs.
Lemma lowered_values hs k : values_in (lowered hs) k = values_in hs k.
Proof.
  induction hs as [|[a v] hs IH]; [reflexivity|]. cbn [lowered map fst snd]. fold (lowered hs). rewrite !values_in_cons, IH.
  replace (same_name k (lower a)) with (same_name k a); [reflexivity|]. unfold same_name. now rewrite lower_idem.
Qed.
Lemma lowered_lower hs : lower_names (lowered hs).
Proof. apply Forall_forall. intros [a v] H. apply in_map_iff in H. destruct H as ([b w]&E&_). injection E as <- <-. cbn. apply lower_idem. Qed.

Definition deliver (R : response) : stream_response :=
  mk_sp (re_status R) (lowered (re_headers R)) [re_body R] None (re_trailers R) (fun _ => None).
Lemma deliver_delivered R : delivered R (deliver R).
Proof.
  unfold deliver. split; [reflexivity|]. split; [intro k; left; apply lowered_values|]. split; [apply lowered_lower|].
  split; [cbn; now rewrite app_nil_r|]. split; [reflexivity|]. split; [reflexivity|]. reflexivity.
Qed.
(** [inflate] of an encoding the library does not know leaves the body alone. *)
Definition deliver_unary (inflate : pystr -> bytes -> option bytes) (R : response) : full_response :=
  mk_fr (re_status R) (lowered (re_headers R))
    (match values_in (re_headers R) (lit "content-encoding") with
     | [n] => if str_eqb n (lit "identity") then re_body R else match inflate n (re_body R) with Some d => d | None => [] end
     | _ => re_body R
     end).
Definition inflates (inflate : pystr -> bytes -> option bytes) (R : response) : Prop :=
  forall n, values_in (re_headers R) (lit "content-encoding") = [n] -> n <> lit "identity" -> inflate n (re_body R) <> None.
Lemma deliver_unary_delivered inflate R : inflates inflate R -> delivered_unary inflate R (deliver_unary inflate R).
Proof.
  intro H. unfold deliver_unary. split; [reflexivity|]. split; [intros k _; left; apply lowered_values|].
  split; [right; apply lowered_values|]. split; [apply lowered_lower|]. cbn [fr_content].
  unfold inflates in H. destruct (values_in (re_headers R) (lit "content-encoding")) as [|n [|n' l]] eqn:E; auto.
  destruct (str_eqb_spec n (lit "identity")); [reflexivity|]. specialize (H n eq_refl n0). now destruct (inflate n (re_body R)).
Qed.

(** Requests as an ASGI server presents them. *)
Fixpoint split_query (s : pystr) : pystr * pystr :=
  match s with
  | [] => ([], [])
  | c :: r => if c =? 63 then ([], r) else let (p, q) := split_query r in (c :: p, q)
  end.
Definition target_of (address : pystr) (rq : http_request) : pystr * pystr := split_query (skipn (List.length address) (rq_url rq)).
Lemma split_query_spec s : let (p, q) := split_query s in ~ In 63 p /\ ((s = p /\ q = []) \/ s = p ++ 63 :: q).
Proof.
  induction s as [|c r IH]; cbn [split_query]; [split; auto|]. destruct (c =? 63) eqn:E.
  - apply N.eqb_eq in E. subst. split; [intros []|]. right. reflexivity.
  - destruct (split_query r) as [p q]. destruct IH as [I1 I2]. split.
    + intros [H|H]; [|auto]. apply N.eqb_neq in E. congruence.
    + destruct I2 as [[-> ->]| ->]; [left|right]; auto.
Qed.
Lemma target_of_spec address rq t : rq_url rq = address ++ t ->
  request_target address rq (fst (target_of address rq)) (snd (target_of address rq)).
Proof.
  intro E. unfold target_of, request_target. rewrite E, skipn_app, skipn_all, Nat.sub_diag. cbn [skipn List.app].
  pose proof (split_query_spec t) as H. destruct (split_query t) as [p q]. cbn [fst snd]. destruct H as [H1 H2]. split; [exact H1|].
  destruct H2 as [[-> ->]| ->]; [left|right]; auto.
Qed.

Definition scope_of (address : pystr) (rq : http_request) : scope :=
  mk_scope (fst (target_of address rq)) (Some []) (rq_method rq) (lit "http") (rq_headers rq) None (snd (target_of address rq)) true.
Definition env_of (rq : http_request) : env :=
  mk_env [RReq (List.concat (fst (rq_body rq))) false] None WIdle (fun _ => SOk).
Definition asgi_net {A B} (inflate : pystr -> bytes -> option bytes) (ap : app A B) (now : fl) (address : pystr) : network :=
  let R rq := asgi_parse (ar_events (asgi_call ap now (scope_of address rq) (env_of rq))) in
  mk_net (fun rq => UResp (deliver_unary inflate (R rq))) (fun rq => SResp (deliver (R rq))).

Lemma scope_arrives address rq t : rq_url rq = address ++ t -> ascii_pairs (rq_headers rq) -> snd (rq_body rq) = None ->
  arrives_asgi address rq (scope_of address rq) (env_of rq).
Proof.
  intros E F Hb. split; [reflexivity|]. split; [eapply target_of_spec; eauto|]. split; [intro; left; reflexivity|].
  split; [exact F|]. split; [reflexivity|]. split; [exact Hb|]. split.
  - exists [], (List.concat (fst (rq_body rq))), []. split; reflexivity.
  - split; [reflexivity|]. split; [reflexivity|]. intro; reflexivity.
Qed.

Definition good_request (address : pystr) (rq : http_request) : Prop :=
  (exists t, rq_url rq = address ++ t) /\ ascii_pairs (rq_headers rq) /\ snd (rq_body rq) = None.

Lemma asgi_net_stream {A B} inflate (ap : app A B) now address sent : (forall rq, In rq sent -> good_request address rq) ->
  asgi_stream_link ap now address (asgi_net inflate ap now address) sent.
Proof.
  intros G rq H. destruct (G rq H) as ((t&E)&F&Hb). exists (scope_of address rq), (env_of rq).
  split; [eapply scope_arrives; eauto|]. intros R HR. apply asgi_parse_answers in HR. subst R. eexists. split; [reflexivity|apply deliver_delivered].
Qed.
Lemma asgi_net_unary {A B} inflate (ap : app A B) now address sent : (forall rq, In rq sent -> good_request address rq) ->
  (forall rq, In rq sent -> inflates inflate (asgi_parse (ar_events (asgi_call ap now (scope_of address rq) (env_of rq))))) ->
  asgi_unary_link inflate ap now address (asgi_net inflate ap now address) sent.
Proof.
  intros G In rq H. destruct (G rq H) as ((t&E)&F&Hb). exists (scope_of address rq), (env_of rq).
  split; [eapply scope_arrives; eauto|]. intros R HR. apply asgi_parse_answers in HR. specialize (In rq H). subst R.
  eexists. split; [reflexivity|now apply deliver_unary_delivered].
Qed.

(** Requests as a WSGI server presents them. *)
Definition plain_line (kv : pystr * pystr) : bool :=
  negb (same_name (fst kv) (lit "content-type")) && negb (same_name (fst kv) (lit "content-length")).
Definition http_var (k : pystr) : pystr := lit "HTTP_" ++ mangle k.
Definition environ_of (address : pystr) (rq : http_request) : dict pystr :=
  [(lit "REQUEST_METHOD", rq_method rq); (lit "PATH_INFO", fst (target_of address rq)); (lit "QUERY_STRING", snd (target_of address rq));
   (lit "SERVER_PROTOCOL", lit "HTTP/1.1")]
  ++ match values_in (rq_headers rq) (lit "content-type") with v :: _ => [(lit "CONTENT_TYPE", v)] | [] => [] end
  ++ map (fun kv => (http_var (fst kv), snd kv)) (filter plain_line (rq_headers rq)).
Definition wq_of (address : pystr) (rq : http_request) : wsgi_request :=
  mk_wq (environ_of address rq) (match List.concat (fst (rq_body rq)) with [] => [] | b => [RD b] end) true (fun _ => None).

Lemma mangle_lower k : mangle (lower k) = mangle k.
Proof.
  induction k as [|c k IH]; [reflexivity|]. unfold mangle, lower in *. cbn [map]. rewrite IH. f_equal. unfold lower_c.
  destruct ((65 <=? c) && (c <=? 90)) eqn:E; [|reflexivity].
  replace (c + 32 =? 45) with false by lia. replace (c =? 45) with false by lia.
  replace ((97 <=? c + 32) && (c + 32 <=? 122)) with true by lia. replace ((97 <=? c) && (c <=? 122)) with false by lia. lia.
Qed.
Lemma mangle_same k a : same_name k a = true -> mangle k = mangle a.
Proof. unfold same_name. intro H. destruct (str_eqb_spec (lower k) (lower a)); [|discriminate]. now rewrite <- (mangle_lower k), <- (mangle_lower a), e. Qed.
Lemma values_in_member hs k v : In v (values_in hs k) -> exists a, In (a, v) hs /\ same_name k a = true.
Proof.
  induction hs as [|[a w] hs IH]; [intros []|]. rewrite values_in_cons. destruct (same_name k a) eqn:E.
  - intros [<-|H]; [exists a; split; [left; reflexivity|exact E]|]. destruct (IH H) as (b&Hb&Eb). exists b. split; [right; exact Hb|exact Eb].
  - intro H. destruct (IH H) as (b&Hb&Eb). exists b. split; [right; exact Hb|exact Eb].
Qed.
Lemma member_values_in hs a v : In (a, v) hs -> values_in hs a <> [].
Proof.
  induction hs as [|[b w] hs IH]; [intros []|]. rewrite values_in_cons. intros [H|H].
  - injection H as -> ->. rewrite same_name_refl. discriminate.
  - destruct (same_name a b); [discriminate|auto].
Qed.

(** Names that do not become the same variable, and none that becomes HTTP_CONTENT_TYPE. *)
Definition distinct_vars (hs : list (pystr * pystr)) : Prop :=
  NoDup (map (fun kv => http_var (fst kv)) (filter plain_line hs))
  /\ ~ In (lit "HTTP_CONTENT_TYPE") (map (fun kv => http_var (fst kv)) (filter plain_line hs)).

Lemma NoDup_app {X} (l l' : list X) : NoDup l -> NoDup l' -> (forall x, In x l -> In x l' -> False) -> NoDup (l ++ l').
Proof.
  intros N N' D. induction N as [|x l Hx N IH]; [exact N'|]. cbn. constructor.
  - intro H. apply in_app_or in H. destruct H as [H|H]; [auto|]. apply (D x); [left; reflexivity|exact H].
  - apply IH. intros y Hy Hy'. apply (D y); [right; exact Hy|exact Hy'].
Qed.

Lemma wq_arrives address rq t : rq_url rq = address ++ t -> fst (target_of address rq) <> [] -> distinct_vars (rq_headers rq) ->
  snd (rq_body rq) = None -> arrives_wsgi address rq (wq_of address rq).
Proof.
  intros E Np [Nd Nc] Hb. pose proof (target_of_spec address rq t E) as Tg.
  set (vars := map (fun kv => (http_var (fst kv), snd kv)) (filter plain_line (rq_headers rq))).
  set (fixd := [(lit "REQUEST_METHOD", rq_method rq); (lit "PATH_INFO", fst (target_of address rq)); (lit "QUERY_STRING", snd (target_of address rq));
   (lit "SERVER_PROTOCOL", lit "HTTP/1.1")]
  ++ match values_in (rq_headers rq) (lit "content-type") with v :: _ => [(lit "CONTENT_TYPE", v)] | [] => [] end).
  assert (En : wq_env (wq_of address rq) = fixd ++ vars).
  { unfold wq_of, environ_of, fixd, vars. cbn [wq_env]. now rewrite <- app_assoc. }
  assert (Kv : dkeys vars = map (fun kv => http_var (fst kv)) (filter plain_line (rq_headers rq))).
  { unfold vars, dkeys. rewrite map_map. reflexivity. }
  assert (Fx : forall x, In x (dkeys fixd) -> startswith (lit "HTTP_") x = false).
  { intros x H. unfold fixd in H. destruct (values_in _ _); cbn [List.app dkeys map fst In] in H;
    repeat (destruct H as [<-|H]; [reflexivity|]); destruct H. }
  assert (Vx : forall x, In x (dkeys vars) -> exists k, x = http_var k).
  { intros x H. rewrite Kv in H. apply in_map_iff in H. destruct H as (kv&<-&_). eauto. }
  assert (Sv : forall k, startswith (lit "HTTP_") (http_var k) = true) by reflexivity.
  assert (Nn : NoDup (dkeys (wq_env (wq_of address rq)))).
  { rewrite En. unfold dkeys. rewrite map_app. apply NoDup_app.
    - unfold fixd. destruct (values_in _ _); cbn [List.app map fst]; repeat constructor; cbn; intuition discriminate.
    - change (NoDup (dkeys vars)). rewrite Kv. exact Nd.
    - intros x H1 H2. apply Fx in H1. destruct (Vx x H2) as (k&->). congruence. }
  assert (G : forall k v, In (k, v) fixd -> dget (wq_env (wq_of address rq)) k = Some v).
  { intros k v H. apply dget_NoDup_in; [exact Nn|]. rewrite En. apply in_or_app. left. exact H. }
  assert (Gn : forall k, ~ In k (dkeys fixd) -> ~ In k (dkeys vars) -> dget (wq_env (wq_of address rq)) k = None).
  { intros k H1 H2. apply dget_None_notin. rewrite En. unfold dkeys. rewrite map_app. intro H. apply in_app_or in H. tauto. }
  split; [apply G; left; reflexivity|]. split; [exact Nn|]. split.
  { intros key H S. rewrite En in H. unfold dkeys in H. rewrite map_app in H. apply in_app_or in H. destruct H as [H|H].
    - apply Fx in H. congruence.
    - destruct (Vx key H) as (k&->). exists k. reflexivity. }
  split.
  { exists (fst (target_of address rq)). split; [apply G; right; left; reflexivity|]. split; [exact Np|].
    unfold env_default, env_get. rewrite (G (lit "QUERY_STRING") (snd (target_of address rq))); [exact Tg|]. right; right; left; reflexivity. }
  split.
  { intros k v H. destruct (same_name k (lit "content-type")) eqn:Ct.
    - apply G. unfold fixd. rewrite <- (values_in_same _ _ _ Ct), H. apply in_or_app. right. left. reflexivity.
    - destruct (same_name k (lit "content-length")) eqn:Cl; [exact I|].
      destruct (values_in_member (rq_headers rq) k v) as (a&Ha&Sa); [rewrite H; left; reflexivity|].
      apply dget_NoDup_in; [exact Nn|]. rewrite En. apply in_or_app. right. unfold vars. apply in_map_iff. exists (a, v).
      split; [unfold http_var; cbn [fst snd]; now rewrite (mangle_same k a Sa)|]. apply filter_In. split; [exact Ha|].
      unfold plain_line. cbn [fst]. rewrite <- !(same_name_trans _ _ _ Sa), Ct, Cl. reflexivity. }
  split.
  { intro H. apply Gn.
    - unfold fixd. rewrite H. cbn. intuition discriminate.
    - intro Hv. destruct (Vx _ Hv) as (k&Hk). unfold http_var in Hk. discriminate. }
  split.
  { apply Gn.
    - intro Hf. apply Fx in Hf. discriminate.
    - rewrite Kv. exact Nc. }
  split.
  { intros k H T. apply Gn.
    - intro Hf. apply Fx in Hf. discriminate.
    - intro Hv. rewrite Kv in Hv. apply in_map_iff in Hv. destruct Hv as ([a v]&Ea&Hv). cbn [fst] in Ea.
      apply filter_In in Hv. destruct Hv as [Hv _]. unfold http_var in Ea. apply app_inv_head in Ea.
      apply (member_values_in _ _ _ Hv). now apply H. }
  split.
  { left. apply Gn.
    - unfold fixd. destruct (values_in _ _); cbn; intuition discriminate.
    - intro Hv. destruct (Vx _ Hv) as (k&Hk). discriminate. }
  split; [exact Hb|]. split; [|split; [reflexivity|reflexivity]].
  unfold wq_of. cbn [wq_input]. destruct (List.concat (fst (rq_body rq))) as [|b l] eqn:Eb.
  - exists []. split; [reflexivity|]. split; [constructor|reflexivity].
  - exists [b :: l]. split; [reflexivity|]. split; [constructor; [discriminate|constructor]|]. cbn. now rewrite app_nil_r.
Qed.

Definition wsgi_net {A B} (inflate : pystr -> bytes -> option bytes) (ap : app A B) (now : fl) (address : pystr) : network :=
  let R rq := wsgi_parse (wr_events (wsgi_call ap now (wq_of address rq))) in
  mk_net (fun rq => UResp (deliver_unary inflate (R rq))) (fun rq => SResp (deliver (R rq))).
Definition good_wsgi_request (address : pystr) (rq : http_request) : Prop :=
  (exists t, rq_url rq = address ++ t) /\ fst (target_of address rq) <> [] /\ distinct_vars (rq_headers rq) /\ snd (rq_body rq) = None.

Lemma wsgi_net_stream {A B} inflate (ap : app A B) now address sent : (forall rq, In rq sent -> good_wsgi_request address rq) ->
  wsgi_stream_link ap now address (wsgi_net inflate ap now address) sent.
Proof.
  intros G rq H. destruct (G rq H) as ((t&E)&Np&D&Hb). exists (wq_of address rq).
  split; [eapply wq_arrives; eauto|]. intros R HR. apply wsgi_parse_answers in HR. subst R. eexists. split; [reflexivity|apply deliver_delivered].
Qed.
Lemma wsgi_net_unary {A B} inflate (ap : app A B) now address sent : (forall rq, In rq sent -> good_wsgi_request address rq) ->
  (forall rq, In rq sent -> inflates inflate (wsgi_parse (wr_events (wsgi_call ap now (wq_of address rq))))) ->
  wsgi_unary_link inflate ap now address (wsgi_net inflate ap now address) sent.
Proof.
  intros G In rq H. destruct (G rq H) as ((t&E)&Np&D&Hb). exists (wq_of address rq).
  split; [eapply wq_arrives; eauto|]. intros R HR. apply wsgi_parse_answers in HR. specialize (In rq H). subst R.
  eexists. split; [reflexivity|now apply deliver_unary_delivered].
Qed.
