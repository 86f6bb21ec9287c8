(** C85: interceptors decorate and guard calls. *)
From Coq Require Import List NArith ZArith Bool String Lia.
From Verif Require Import MBase MPyStr MHeaders MUtf8 MWire MEnvelope MTimeout MProtocol MClient MServer MAsgi MWsgi MStop MIntercept MWrap SHeaders SProtocol SContext SIntercept SWrap LHeaders LProtocol LIntercept LWrap PIntercept PProtocol PRequest PResponse.
Import ListNotations.

(** ** Servers *)

Lemma asgi_apply {A T B} (w : wapp A T B) l : wa_interceptors w = Sequence l ->
  asgi_app w = with_methods (wa_app w) (wa_info w) (of_methods (fun f => apply_interceptors f (resolve_interceptors false l)) (wa_methods w)).
Proof. intro E. unfold asgi_app. rewrite E, C47_asgi_partial. reflexivity. Qed.
Lemma wsgi_apply {A T B} (w : wapp A T B) l : wa_interceptors w = Sequence l \/ wa_interceptors w = Iterator l ->
  wsgi_app w = with_methods (wa_app w) (wa_info w) (of_methods (fun f => apply_interceptors f (resolve_interceptors true l)) (wa_methods w)).
Proof. intro E. unfold wsgi_app. rewrite (C47_wsgi l) by exact E. reflexivity. Qed.
Lemma asgi_plain {A T B} (w : wapp A T B) ms : asgi_app (plain w ms) = with_methods (wa_app w) (wa_info w) ms.
Proof. reflexivity. Qed.
Lemma wsgi_plain {A T B} (w : wapp A T B) ms : wsgi_app (plain w ms) = with_methods (wa_app w) (wa_info w) ms.
Proof. reflexivity. Qed.
Lemma of_methods_same {A T B} (w : wapp A T B) P (g g' : smethod A T B -> smethod A T B) :
  (forall k f, In (k, f) (wa_methods w) -> same_ep true P (endpoint_of (wa_info w k) (g f)) (endpoint_of (wa_info w k) (g' f))) ->
  same_apps true P (with_methods (wa_app w) (wa_info w) (of_methods g (wa_methods w))) (with_methods (wa_app w) (wa_info w) (of_methods g' (wa_methods w))).
Proof.
  intro H. apply apps_same. induction (wa_methods w) as [|[k f] ms IH]; [constructor|]. constructor; [|apply IH; intros; apply H; now right].
  cbn. split; [reflexivity|]. apply H. now left.
Qed.
Lemma apps_weaken {A B} P (ap ap' : app A B) : same_apps true P ap ap' -> same_apps false P ap ap'.
Proof.
  intros (S&E&F). split; [exact S|]. split; [exact E|]. induction F as [|x y d d' [Ek Se] _ IH]; [constructor|]. constructor; [|exact IH].
  split; [exact Ek|]. destruct (snd x), (snd y); cbn in *; try contradiction; destruct Se as [-> Se]; (split; [reflexivity|]); intros; apply same_weaken; auto.
Qed.
Lemma wsgi_both {A B} (ap ap' : app A B) now q : same_apps true (wsgi_context ap now q) ap ap' ->
  wsgi_call ap now q = wsgi_call ap' now q /\ forall n, wsgi_stop n ap now q = wsgi_stop n ap' now q.
Proof.
  intro S. apply apps_weaken in S. split; [|intro n]; symmetry; [eapply same_wsgi_call|eapply same_wsgi_stop]; try exact S; intros e hs p cx O; now exists e, hs, p.
Qed.
Lemma asgi_same {A B} (ap ap' : app A B) now sc en : same_apps true (asgi_context ap now sc) ap ap' -> asgi_call ap now sc en = asgi_call ap' now sc en.
Proof. intro S. symmetry. eapply same_call; [exact S|]. intros e hs p cx O. now exists e, hs, p. Qed.
Lemma quiet_fail {A T B} ls e (f : smethod A T B) : closes_quietly (failing ls e f).
Proof. destruct f as [f|f|f|f]; cbn; auto; intros; apply quiet_doing; exact I. Qed.
Lemma failing_after {A T B} ls ls' e (f : smethod A T B) : after_ops ls (failing ls' e f) = failing (ls ++ ls') e f.
Proof. destruct f as [f|f|f|f]; cbn; now rewrite doing_app. Qed.

(** Without interceptors, applications are those of [MAsgi] and [MWsgi]: their methods are the code of some method here. *)
Theorem C85_server_plain {A B} (T : Type) (ap : app A B) info is now sc en q : is = Sequence [] \/ is = Iterator [] ->
  (forall k e, In (k, e) (ap_endpoints ap) -> info k = ep_method e) ->
  let w := mk_wapp ap info (map (fun ke => (fst ke, method_of (T:=T) (snd ke))) (ap_endpoints ap)) is in
  asgi_call (asgi_app w) now sc en = asgi_call ap now sc en
  /\ wsgi_call (wsgi_app w) now q = wsgi_call ap now q /\ forall n, wsgi_stop n (wsgi_app w) now q = wsgi_stop n ap now q.
Proof.
  intros E Hi w.
  assert (S : forall P, same_apps true P ap (with_methods ap info (map (fun ke => (fst ke, method_of (T:=T) (snd ke))) (ap_endpoints ap)))).
  { intro P. split; [repeat split|]. split; [reflexivity|]. cbn. induction (ap_endpoints ap) as [|[k e] d IH]; [constructor|]. cbn.
    constructor; [|apply IH; intros; apply Hi; now right]. cbn. split; [reflexivity|]. rewrite (Hi k e) by now left. apply method_same. }
  assert (Ea : asgi_app w = with_methods ap info (map (fun ke => (fst ke, method_of (T:=T) (snd ke))) (ap_endpoints ap))).
  { unfold w. destruct E as [-> | ->]; [reflexivity|]. unfold asgi_app, asgi_endpoints. cbn [iterable_truthy wa_interceptors wa_methods wa_app wa_info]. f_equal.
    clear S Hi. induction (ap_endpoints ap) as [|[k e] d IH]; [reflexivity|]. cbn [map asgi_comprehension iterate].
    destruct (asgi_comprehension (Iterator []) _) as [r x]. cbn [fst] in *. rewrite IH. cbn. now rewrite apply_nil. }
  assert (Ew : wsgi_app w = with_methods ap info (map (fun ke => (fst ke, method_of (T:=T) (snd ke))) (ap_endpoints ap))).
  { rewrite (wsgi_apply w []) by exact E. unfold w, of_methods. cbn [wa_app wa_info wa_methods resolve_interceptors map]. f_equal. rewrite map_map. apply map_ext. intros [k e]. cbn. now rewrite apply_nil. }
  rewrite Ea, Ew. split; [|split; [|intro n]].
  - eapply same_call; [apply (S (fun _ => True))|]. intros. exact I.
  - eapply same_wsgi_call; [apply apps_weaken, (S (fun _ => True))|]. intros. exact I.
  - eapply same_wsgi_stop; [apply apps_weaken, (S (fun _ => True))|]. intros. exact I.
Qed.
Print Assumptions C85_server_plain.
Example C85_server_plain_example : let ap := ex_app (ex_two (IExn ex_gone)) in
  (forall k e, In (k, e) (ap_endpoints ap) -> ex_method = ep_method e) /\ ap_endpoints ap <> [].
Proof. split; [|discriminate]. intros k e [H|[]]. injection H as _ <-. reflexivity. Qed.

(** Examples: an interceptor that sets a response header, a guard that wants an Authorization header. *)
Definition ex_stamp (v : string) : sinterceptor pystr unit pystr :=
  mk_ic None None None None (Some (mk_meta 1 (fun _ => GDo (EOp (OHdr (Add (lit "x-i") (lit v)))) (fun _ => GRet tt)) (fun _ _ _ => GRet tt))).
Definition ex_denied : exn := EConnect Unauthenticated (lit "who?") [].
Definition ex_guard : sinterceptor pystr unit pystr :=
  mk_ic None None None None (Some (mk_meta 2 (fun cx => match h_get (cx_headers cx) (lit "authorization") with
                                                         | Some _ => GRet tt
                                                         | None => GDo (EOp (OHdr (Add (lit "www-authenticate") (lit "Basic")))) (fun _ => GRaise (FExn ex_denied))
                                                         end) (fun _ _ _ => GRet tt))).
Definition ex_wapp (is : list (sinterceptor pystr unit pystr)) : wapp pystr unit pystr :=
  mk_wapp (ex_app ex_echo) (fun _ => ex_method) [(lit "/pkg.Svc/Get", FUnary (fun a _ => GRet a))] (Sequence is).
Lemma ex_decorated v cx : decorated cx [ex_stamp v] [[EOp (OHdr (Add (lit "x-i") (lit v)))]].
Proof. repeat constructor. eexists. split; [reflexivity|]. split; [exists tt; repeat constructor|reflexivity]. Qed.
Lemma ex_refused cx : h_get (cx_headers cx) (lit "authorization") = None -> refuses ex_guard cx [EOp (OHdr (Add (lit "www-authenticate") (lit "Basic")))] ex_denied.
Proof. intro H. unfold refuses. cbn [ic_meta ex_guard me_start]. rewrite H. repeat constructor. Qed.
Lemma ex_blocked cx : h_get (cx_headers cx) (lit "authorization") = None -> blocks ex_guard cx.
Proof. intro H. unfold blocks. cbn [ic_meta ex_guard me_start]. rewrite H. cbn. auto. Qed.

(** Metadata interceptors of a WSGI application that operate on response headers and trailers in [on_start]: whatever the
    request, it is served as if the methods did it themselves, first thing, in the order of the interceptors.  Also when the
    server stops after [n] messages. *)
Theorem C85_decorated_wsgi {A T B} (w : wapp A T B) l lss now q :
  wa_interceptors w = Sequence l \/ wa_interceptors w = Iterator l ->
  (forall cx, wsgi_context (wsgi_app w) now q cx -> decorated cx l lss) ->
  let bare := wsgi_app (plain w (of_methods (after_ops (List.concat lss)) (wa_methods w))) in
  wsgi_call (wsgi_app w) now q = wsgi_call bare now q
  /\ forall n, wsgi_stop n (wsgi_app w) now q = wsgi_stop n bare now q.
Proof.
  intros E D bare. apply wsgi_both. unfold bare. rewrite wsgi_plain. rewrite (wsgi_apply w l E) at 2. apply of_methods_same. intros k f _.
  rewrite <- (app_nil_r l). apply (around_same true (wa_info w k) l [] lss f f); auto. cbn [resolve_interceptors map]. rewrite apply_nil. 
  destruct f; cbn; (split; [reflexivity|]); intros; apply same_refl.
Qed.
Print Assumptions C85_decorated_wsgi.
Example C85_decorated_wsgi_example :
  let w := ex_wapp [ex_stamp "1"] in let q := ex_wq "POST" "application/proto" in
  (exists cx, wsgi_context (wsgi_app w) 0%Z q cx) /\ (forall cx, decorated cx [ex_stamp "1"] [[EOp (OHdr (Add (lit "x-i") (lit "1")))]])
  /\ exists hs rest, wr_events (wsgi_call (wsgi_app w) 0%Z q) = WStart (lit "200 OK") hs :: rest /\ In (lit "x-i", lit "1") hs.
Proof.
  split; [eexists; eexists; eexists; eexists; vm_compute; reflexivity|]. split; [intro; apply ex_decorated|].
  eexists; eexists; split; [vm_compute; reflexivity|]. cbn. tauto.
Qed.

(** Of an ASGI application likewise.  Missing: interceptors given as an iterator ([C47_asgi_iterator_refuted]), and streaming
    methods that do something to the response when they are closed: an interceptor keeps that from happening
    ([C85_decorated_asgi_refuted]). *)
Theorem C85_decorated_asgi_partial {A T B} (w : wapp A T B) l lss now sc en :
  wa_interceptors w = Sequence l ->
  (forall k f, In (k, f) (wa_methods w) -> closes_quietly f) ->
  (forall cx, asgi_context (asgi_app w) now sc cx -> decorated cx l lss) ->
  asgi_call (asgi_app w) now sc en = asgi_call (asgi_app (plain w (of_methods (after_ops (List.concat lss)) (wa_methods w)))) now sc en.
Proof.
  intros E Q D. apply asgi_same. rewrite asgi_plain. rewrite (asgi_apply w l E) at 2. apply of_methods_same. intros k f Hin.
  rewrite <- (app_nil_r l). apply (around_same false (wa_info w k) l [] lss f f); [exact D|right; eauto|]. cbn [resolve_interceptors map]. rewrite apply_nil.
  destruct f; cbn; (split; [reflexivity|]); intros; apply same_refl.
Qed.
Print Assumptions C85_decorated_asgi_partial.
Example C85_decorated_asgi_example :
  let w := ex_wapp [ex_stamp "1"; ex_stamp "2"] in let sc := ex_scope "POST" "application/proto" in
  (exists cx, asgi_context (asgi_app w) 0%Z sc cx)
  /\ (forall cx, decorated cx [ex_stamp "1"; ex_stamp "2"] [[EOp (OHdr (Add (lit "x-i") (lit "1")))]; [EOp (OHdr (Add (lit "x-i") (lit "2")))]])
  /\ ar_events (asgi_call (asgi_app w) 0%Z sc ex_env)
     = [EvStart 200 [(lit "content-type", lit "application/proto"); (lit "content-encoding", lit "identity");
                     (lit "vary", lit "Accept-Encoding"); (lit "x-i", lit "1"); (lit "x-i", lit "2")] false; EvBody [] false].
Proof.
  split; [eexists; eexists; eexists; eexists; vm_compute; reflexivity|]. split; [|vm_compute; reflexivity].
  intro cx. exact (Forall2_app (ex_decorated "1" cx) (ex_decorated "2" cx)).
Qed.

(** Finding: on an ASGI server even a metadata interceptor that does nothing at all changes what a client gets: a streaming
    method whose messages cannot be sent is no longer closed, and the trailers it sets while it cleans up are lost. *)
Definition ex_nothing : sinterceptor pystr unit pystr :=
  mk_ic None None None None (Some (mk_meta 1 (fun _ => GRet tt) (fun _ _ _ => GRet tt))).
Definition ex_cleaner (is : list (sinterceptor pystr unit pystr)) : wapp pystr unit pystr :=
  mk_wapp (app_new (lit "/pkg.Svc") [] None [] [mk_codec (lit "proto") Ok Ok (fun _ => Raise ex_bug) (fun _ => Raise ex_bug)] ex_sc) (fun _ => ex_method)
    [(lit "/pkg.Svc/Get", FServerStream (fun a _ => GYield a (GRet tt) (fun f => GDo (EOp (OTrl (Add (lit "x-t") (lit "closed")))) (fun _ => GRaise f))))]
    (Sequence is).
Theorem C85_decorated_asgi_refuted :
  exists (w : wapp pystr unit pystr) i now sc en, wa_interceptors w = Sequence [i] /\ (forall cx, decorated cx [i] [[]])
    /\ let lost := asgi_call (asgi_app w) now sc en in
       let kept := asgi_call (asgi_app (plain w (of_methods (after_ops []) (wa_methods w)))) now sc en in
       lost <> kept /\ ~ In (lit "x-t", lit "closed") (flat_map (fun e => match e with EvTrailers t => t | _ => [] end) (ar_events lost))
       /\ In (lit "x-t", lit "closed") (flat_map (fun e => match e with EvTrailers t => t | _ => [] end) (ar_events kept)).
Proof.
  exists (ex_cleaner [ex_nothing]), ex_nothing, 0%Z, (ex_scope "POST" "application/grpc+proto"), (mk_env [RReq [0;0;0;0;0]%N false] None WIdle (fun _ => SOk)).
  split; [reflexivity|]. split; [intro cx; repeat constructor; eexists; split; [reflexivity|]; split; [exists tt; constructor|reflexivity]|].
  cbv zeta. match goal with |- ?l <> ?k /\ ~ In ?x ?L /\ In ?x ?K => assert (H : ~ In x L /\ In x K); [|split; [|exact H]] end.
  - split; [|vm_compute; tauto]. vm_compute. intros [H|[H|[]]]; discriminate.
  - intro E. rewrite E in H. destruct H as [H H']. exact (H H').
Qed.
Print Assumptions C85_decorated_asgi_refuted.

(** A guard: an interceptor that raises in [on_start], or instead of calling [call_next].  The request is answered with its
    error, and with the headers and trailers it and the interceptors before it have set, as by a method that does nothing
    else; whatever the methods are, and whatever interceptors come after it. *)
Theorem C85_refused_wsgi {A T B} (w : wapp A T B) l1 i l2 lss ls e now q :
  wa_interceptors w = Sequence (l1 ++ i :: l2) \/ wa_interceptors w = Iterator (l1 ++ i :: l2) ->
  (forall cx, wsgi_context (wsgi_app w) now q cx -> decorated cx l1 lss /\ refuses i cx ls e) ->
  let bare := wsgi_app (plain w (of_methods (failing (List.concat lss ++ ls) e) (wa_methods w))) in
  wsgi_call (wsgi_app w) now q = wsgi_call bare now q
  /\ forall n, wsgi_stop n (wsgi_app w) now q = wsgi_stop n bare now q.
Proof.
  intros E D bare. apply wsgi_both. unfold bare. rewrite wsgi_plain. rewrite (wsgi_apply w _ E) at 2. apply of_methods_same. intros k f _.
  rewrite <- failing_after. apply around_same; [intros cx H; apply (D cx H)|now left|]. apply refused_same. intros cx H. apply (D cx H).
Qed.
Print Assumptions C85_refused_wsgi.
Example C85_refused_wsgi_example :
  let w := ex_wapp [ex_stamp "1"; ex_guard; ex_stamp "2"] in let q := ex_wq "POST" "application/proto" in
  (exists cx, wsgi_context (wsgi_app w) 0%Z q cx /\ h_get (cx_headers cx) (lit "authorization") = None)
  /\ (forall cx, h_get (cx_headers cx) (lit "authorization") = None -> refuses ex_guard cx [EOp (OHdr (Add (lit "www-authenticate") (lit "Basic")))] ex_denied)
  /\ exists hs rest, wr_events (wsgi_call (wsgi_app w) 0%Z q) = WStart (lit "401 Unauthorized") hs :: rest
     /\ In (lit "x-i", lit "1") hs /\ In (lit "www-authenticate", lit "Basic") hs.
Proof.
  split; [eexists; split; [eexists; eexists; eexists; vm_compute; reflexivity|reflexivity]|]. split; [exact ex_refused|].
  eexists; eexists; split; [vm_compute; reflexivity|]. cbn. tauto.
Qed.
Theorem C85_refused_asgi {A T B} (w : wapp A T B) l1 i l2 lss ls e now sc en :
  wa_interceptors w = Sequence (l1 ++ i :: l2) ->
  (forall cx, asgi_context (asgi_app w) now sc cx -> decorated cx l1 lss /\ refuses i cx ls e) ->
  asgi_call (asgi_app w) now sc en = asgi_call (asgi_app (plain w (of_methods (failing (List.concat lss ++ ls) e) (wa_methods w)))) now sc en.
Proof.
  intros E D. apply asgi_same. rewrite asgi_plain. rewrite (asgi_apply w _ E) at 2. apply of_methods_same. intros k f _.
  rewrite <- failing_after. apply around_same; [intros cx H; apply (D cx H)|right; apply quiet_fail|]. apply refused_same. intros cx H. apply (D cx H).
Qed.
Print Assumptions C85_refused_asgi.
Example C85_refused_asgi_example :
  let w := ex_wapp [ex_stamp "1"; ex_guard; ex_stamp "2"] in let sc := ex_scope "POST" "application/proto" in
  (exists cx, asgi_context (asgi_app w) 0%Z sc cx /\ h_get (cx_headers cx) (lit "authorization") = None)
  /\ exists body, ar_events (asgi_call (asgi_app w) 0%Z sc ex_env)
     = [EvStart 401 [(lit "content-type", lit "application/json"); (lit "x-i", lit "1"); (lit "www-authenticate", lit "Basic")] false; EvBody body false].
Proof.
  split; [eexists; split; [eexists; eexists; eexists; vm_compute; reflexivity|reflexivity]|].
  eexists. vm_compute. reflexivity.
Qed.

(** Whatever else a guard and the metadata interceptors before it do, a request it does not let through says nothing about the
    methods or the interceptors behind it: the answer is the same with any others. *)
Theorem C85_guarded_wsgi {A T B} (w w' : wapp A T B) l1 i l2 l2' now q :
  wa_interceptors w = Sequence (l1 ++ i :: l2) \/ wa_interceptors w = Iterator (l1 ++ i :: l2) ->
  wa_interceptors w' = Sequence (l1 ++ i :: l2') \/ wa_interceptors w' = Iterator (l1 ++ i :: l2') ->
  wa_app w' = wa_app w -> wa_info w' = wa_info w -> same_paths (wa_methods w) (wa_methods w') ->
  Forall is_meta l1 -> (forall cx, wsgi_context (wsgi_app w) now q cx -> blocks i cx) ->
  wsgi_call (wsgi_app w) now q = wsgi_call (wsgi_app w') now q
  /\ forall n, wsgi_stop n (wsgi_app w) now q = wsgi_stop n (wsgi_app w') now q.
Proof.
  intros E E' Ea Ei S M D. apply wsgi_both. rewrite (wsgi_apply w' _ E'), Ea, Ei. rewrite (wsgi_apply w _ E) at 2. apply apps_same.
  induction S as [|x y ms ms' [Ek K] _ IH]; [constructor|]. constructor; [|exact IH]. cbn. split; [exact Ek|]. now apply guarded_same.
Qed.
Print Assumptions C85_guarded_wsgi.
Example C85_guarded_wsgi_example :
  (forall cx, h_get (cx_headers cx) (lit "authorization") = None -> blocks ex_guard cx) /\ Forall is_meta [ex_stamp "1"]
  /\ same_paths (wa_methods (ex_wapp [])) [(lit "/pkg.Svc/Get", FUnary (fun _ _ => GRet (lit "secret")))].
Proof. split; [exact ex_blocked|]. split; [repeat constructor; discriminate|repeat constructor]. Qed.
Theorem C85_guarded_asgi {A T B} (w w' : wapp A T B) l1 i l2 l2' now sc en :
  wa_interceptors w = Sequence (l1 ++ i :: l2) -> wa_interceptors w' = Sequence (l1 ++ i :: l2') ->
  wa_app w' = wa_app w -> wa_info w' = wa_info w -> same_paths (wa_methods w) (wa_methods w') ->
  Forall is_meta l1 -> (forall cx, asgi_context (asgi_app w) now sc cx -> blocks i cx) ->
  asgi_call (asgi_app w) now sc en = asgi_call (asgi_app w') now sc en.
Proof.
  intros E E' Ea Ei S M D. apply asgi_same. rewrite (asgi_apply w' _ E'), Ea, Ei. rewrite (asgi_apply w _ E) at 2. apply apps_same.
  induction S as [|x y ms ms' [Ek K] _ IH]; [constructor|]. constructor; [|exact IH]. cbn. split; [exact Ek|]. now apply guarded_same.
Qed.
Print Assumptions C85_guarded_asgi.
(** Not for a request that it lets through. *)
Example C85_guarded_asgi_example :
  let w ms := mk_wapp (ex_app ex_echo) (fun _ => ex_method) ms (Sequence [ex_guard]) in
  let m b : dict (smethod pystr unit pystr) := [(lit "/pkg.Svc/Get", FUnary (fun _ _ => GRet (lit b)))] in
  let sc := ex_scope_with "POST" "application/proto" [("authorization", "me")]%string "" in
  let body ms := nth 1 (ar_events (asgi_call (asgi_app (w ms)) 0%Z sc ex_env)) (EvBody [] true) in
  body (m "a"%string) = EvBody (lit "a") false /\ body (m "b"%string) = EvBody (lit "b") false.
Proof. split; vm_compute; reflexivity. Qed.

(** ** Clients *)

Lemma client_metas {A T B} sync (l l' : list (cinterceptor A T B)) ms n (w : world cworld (ceff A) (cval B)) cx lss (fs : client_fns (ceff A) (cval B) T A (list A * option exn) B req_ctx) :
  Forall2 (fun i m => ic_meta i = Some m) l ms -> Forall2 (fun m ls => decorates m cx ls) ms lss -> forall s,
  let is := resolve_interceptors sync (l ++ l') in let is' := resolve_interceptors sync l' in let s' := after w s (List.concat lss) in
  (forall a, observed (run w s (repeat Next n) (apply_loop ic_unary is (cf_unary fs) a cx)) = observed (run w s' (repeat Next n) (apply_loop ic_unary is' (cf_unary fs) a cx)))
  /\ (forall q, observed (run w s (repeat Next n) (apply_loop ic_client_stream is (cf_client_stream fs) q cx)) = observed (run w s' (repeat Next n) (apply_loop ic_client_stream is' (cf_client_stream fs) q cx)))
  /\ (forall a, observed (run w s (repeat Next n) (apply_loop ic_server_stream is (cf_server_stream fs) a cx)) = observed (run w s' (repeat Next n) (apply_loop ic_server_stream is' (cf_server_stream fs) a cx)))
  /\ (forall q, observed (run w s (repeat Next n) (apply_loop ic_bidi_stream is (cf_bidi_stream fs) q cx)) = observed (run w s' (repeat Next n) (apply_loop ic_bidi_stream is' (cf_bidi_stream fs) q cx))).
Proof.
  intros M D s is is' s'. unfold is, is', s'. repeat split; intro y.
  - rewrite (loop_unary sync l l' ms _ M). apply settled_onion; [reflexivity|exact D].
  - rewrite (loop_client_stream sync l l' ms _ M). apply settled_onion; [reflexivity|exact D].
  - rewrite (loop_server_stream sync l l' ms _ M). apply settled_onion; auto. intros. apply settled_run_by.
  - rewrite (loop_bidi_stream sync l l' ms _ M). apply settled_onion; auto. intros. apply settled_run_by.
Qed.
Lemma observed_sent {A T B Y R} (c : client A B) ck net md cx n (g : gen (ceff A) (cval B) T Y R) :
  observed (call_with c ck net md cx n g) = let '(s, ys, o) := observed (run (client_world c ck net md) (mk_cw cx []) (repeat Next n) g) in (cw_sent s, ys, o).
Proof. unfold call_with. now destruct (run _ _ _ g) as [[s t] o]. Qed.
Lemma concat_headers {A} (opss : list (list hop)) : List.concat (map (map (@CHdr A)) opss) = map CHdr (List.concat opss).
Proof. now rewrite concat_map. Qed.

Lemma client_own {A T B} (c : client A B) is (l : list (cinterceptor A T B)) opss ck net md : is = Sequence l \/ is = Iterator l ->
  forall cx n, decorated cx l (map (map CHdr) opss) -> let w := client_world c ck net md in
    let s' := mk_cw (with_headers cx (h_run (cx_headers cx) (List.concat opss))) [] in
    let fs := client_apply (cl_sync c) is own_fns in
    (forall a, observed (run w (mk_cw cx []) (repeat Next n) (cf_unary fs a cx)) = observed (run w s' (repeat Next n) (cf_unary (own_fns (T:=T)) a cx)))
    /\ (forall a, observed (run w (mk_cw cx []) (repeat Next n) (cf_client_stream fs a cx)) = observed (run w s' (repeat Next n) (cf_client_stream (own_fns (T:=T)) a cx)))
    /\ (forall a, observed (run w (mk_cw cx []) (repeat Next n) (cf_server_stream fs a cx)) = observed (run w s' (repeat Next n) (cf_server_stream (own_fns (T:=T)) a cx)))
    /\ (forall a, observed (run w (mk_cw cx []) (repeat Next n) (cf_bidi_stream fs a cx)) = observed (run w s' (repeat Next n) (cf_bidi_stream (own_fns (T:=T)) a cx))).
Proof.
  intros E cx n D w s' fs. assert (Fl : fst (iterate is) = l) by (destruct E as [-> | ->]; reflexivity).
  destruct (decorated_metas _ _ _ D) as (ms&M&Dm).
  pose proof (client_metas (cl_sync c) l [] ms n w cx _ own_fns M Dm (mk_cw cx [])) as P. cbv zeta in P.
  rewrite app_nil_r, concat_headers in P. unfold w in P. rewrite after_headers in P. cbn [cw_ctx cw_sent] in P.
  unfold fs, client_apply. rewrite Fl. exact P.
Qed.
Lemma replay_state {S L X T B} (w : world S L X) s (ms : list B) e : forall n, fst (fst (observed (run w s (repeat Next n) (replay ms e : gen L X T B unit)))) = s.
Proof.
  induction ms as [|b ms IH]; intro n; [destruct e; reflexivity|]. destruct n as [|n]; [reflexivity|]. cbn [repeat replay]. rewrite settled_yield.
  specialize (IH n). destruct (observed _) as [[s1 ys] o]. exact IH.
Qed.
Lemma sent_of {A T B Y R} (c : client A B) ck net md cx n (g : gen (ceff A) (cval B) T Y R) :
  fst (fst (call_with c ck net md cx n g)) = cw_sent (fst (fst (observed (run (client_world c ck net md) (mk_cw cx []) (repeat Next n) g)))).
Proof. unfold call_with. now destruct (run _ _ _ g) as [[s t] o]. Qed.

(** Metadata interceptors of a client that operate on the request headers in [on_start]: the call is the one that is made with
    headers to which this was done, in the order of the interceptors.  [n] is more than the number of messages. *)
Theorem C85_client_decorated {A T B} (c : client A B) is (l : list (cinterceptor A T B)) opss ck net md m u timeout :
  is = Sequence l \/ is = Iterator l ->
  let ops := List.concat opss in
  let changed cx := with_headers cx (h_run (cx_headers cx) ops) in
  (forall get a, let cx := call_ctx c (ck_start ck) m u timeout false get in
     decorated cx l (map (map CHdr) opss) ->
     observed (unary_with c is ck net md m u timeout get a) = seen_call (send_unary c (changed cx) ck net md a None))
  /\ let cx := call_ctx c (ck_start ck) m u timeout true false in
     decorated cx l (map (map CHdr) opss) ->
     (forall reqs, observed (client_stream_with c is ck net md m u timeout reqs)
                   = seen_call (single_result (send_stream c (changed cx) ck net md reqs (single_stop None))))
     /\ (forall a n, let r := send_stream c (changed cx) ck net md ([a], None) None in (List.length (sr_msgs r) <= n)%nat ->
           observed (server_stream_with c is ck net md m u timeout a n) = seen_stream r)
     /\ (forall reqs n, let r := send_stream c (changed cx) ck net md reqs None in (List.length (sr_msgs r) <= n)%nat ->
           observed (bidi_stream_with c is ck net md m u timeout reqs n) = seen_stream r).
Proof.
  intros E ops changed. pose proof (client_own c is l opss ck net md E) as X.
  split; [|intros cx D; split; [|split]].
  - intros get a cx D. unfold unary_with. rewrite observed_sent. fold cx. destruct (X cx 0%nat D) as (H&_). cbv zeta in H. rewrite H.
    cbn. unfold seen_call, changed, ops. now destruct (cr_out (send_unary _ _ _ _ _ _ _)).
  - intro reqs. unfold client_stream_with. rewrite observed_sent. fold cx. destruct (X cx 0%nat D) as (_&H&_). cbv zeta in H. rewrite H.
    cbn. unfold seen_call. cbn. now destruct (consume_single _ _).
  - intros a n r Hn. unfold server_stream_with. rewrite observed_sent. fold cx. destruct (X cx n D) as (_&_&H&_). cbv zeta in H. rewrite H.
    cbn [own_fns cf_server_stream]. unfold answers. rewrite settled_do. cbn [client_world fst snd cw_ctx cw_sent List.app]. rewrite settled_replay by exact Hn. reflexivity.
  - intros reqs n r Hn. unfold bidi_stream_with. rewrite observed_sent. fold cx. destruct (X cx n D) as (_&_&_&H). cbv zeta in H. rewrite H.
    cbn [own_fns cf_bidi_stream]. unfold answers. rewrite settled_do. cbn [client_world fst snd cw_ctx cw_sent List.app]. rewrite settled_replay by exact Hn. reflexivity.
Qed.
Print Assumptions C85_client_decorated.
(** Examples: an interceptor of clients that signs requests, a guard. *)
Definition ex_sign (v : string) : cinterceptor pystr unit pystr :=
  mk_ic None None None None (Some (mk_meta 1 (fun _ => GDo (CHdr (Add (lit "authorization") (lit v))) (fun _ => GRet tt)) (fun _ _ _ => GRet tt))).
Definition ex_stop (e : exn) : cinterceptor pystr unit pystr :=
  mk_ic None None None None (Some (mk_meta 2 (fun _ => GRaise (FExn e)) (fun _ _ _ => GRet tt))).
Lemma ex_signed v cx : decorated cx [ex_sign v] (map (map CHdr) [[Add (lit "authorization") (lit v)]]).
Proof. repeat constructor. eexists. split; [reflexivity|]. split; [exists tt; repeat constructor|reflexivity]. Qed.
Example C85_client_decorated_example :
  map (fun rq => values_in (rq_headers rq) (lit "Authorization"))
    (fst (fst (unary_with (ex_client PConnect None) (Sequence [ex_sign "me"]) ex_clocks ex_net None ex_method UNone None true (lit "hi")))) = [[lit "me"]]
  /\ forall cx, decorated cx [ex_sign "me"] (map (map CHdr) [[Add (lit "authorization") (lit "me")]]).
Proof. split; [vm_compute; reflexivity|]. intro cx. apply ex_signed. Qed.

(** A client without interceptors makes the calls of [MClient]. *)
Theorem C85_client_plain {A B} (T : Type) (c : client A B) ck net md m u timeout :
  (forall get a, observed (unary_with (T:=T) c (Sequence []) ck net md m u timeout get a) = seen_call (execute_unary c ck net md m u timeout get a None))
  /\ (forall reqs, observed (client_stream_with (T:=T) c (Sequence []) ck net md m u timeout reqs) = seen_call (execute_client_stream c ck net md m u timeout reqs None))
  /\ (forall a n, let r := execute_server_stream c ck net md m u timeout a None in (List.length (sr_msgs r) <= n)%nat ->
        observed (server_stream_with (T:=T) c (Sequence []) ck net md m u timeout a n) = seen_stream r)
  /\ (forall reqs n, let r := execute_bidi_stream c ck net md m u timeout reqs None in (List.length (sr_msgs r) <= n)%nat ->
        observed (bidi_stream_with (T:=T) c (Sequence []) ck net md m u timeout reqs n) = seen_stream r).
Proof.
  destruct (C85_client_decorated (T:=T) c (Sequence []) [] [] ck net md m u timeout (or_introl eq_refl)) as [H1 H2]. cbv zeta in H1, H2.
  assert (W : forall cx, with_headers cx (h_run (cx_headers cx) (List.concat [])) = cx) by (intros []; reflexivity).
  rewrite W in H2. destruct (H2 (Forall2_nil _)) as (H3&H4&H5). repeat split; auto.
  intros get a. specialize (H1 get a). cbv zeta in H1. rewrite W in H1. apply H1. constructor.
Qed.
Print Assumptions C85_client_plain.

(** So every value the interceptors leave under a name is in every request, after and as the caller's own, unless the protocol
    owns the name. *)
Theorem C85_client_headers {A T B} (c : client A B) is (l : list (cinterceptor A T B)) opss ck net md m u hist timeout :
  is = Sequence l \/ is = Iterator l -> called_with u hist ->
  let expected k := fold_left (values_step k) (List.concat opss) (expected_user_values (cl_ua c) hist k) in
  (forall get a rq k, decorated (call_ctx c (ck_start ck) m u timeout false get) l (map (map CHdr) opss) ->
     owned (cl_proto c) false (timed timeout (cl_timeout c)) k = false ->
     In rq (fst (fst (unary_with c is ck net md m u timeout get a))) -> values_in (rq_headers rq) k = expected k)
  /\ (forall reqs n rq k, decorated (call_ctx c (ck_start ck) m u timeout true false) l (map (map CHdr) opss) ->
     owned (cl_proto c) true (timed timeout (cl_timeout c)) k = false ->
     In rq (fst (fst (client_stream_with c is ck net md m u timeout reqs)))
     \/ In rq (fst (fst (bidi_stream_with c is ck net md m u timeout reqs n)))
     \/ (exists a, In rq (fst (fst (server_stream_with c is ck net md m u timeout a n)))) ->
     values_in (rq_headers rq) k = expected k).
Proof.
  intros E C expected.
  assert (V : forall stream get k, owned (cl_proto c) stream (timed timeout (cl_timeout c)) k = false ->
    let cx := call_ctx c (ck_start ck) m u timeout stream get in let h := h_run (cx_headers cx) (List.concat opss) in h_inv h /\ h_getall h k = expected k).
  { intros stream get k O cx h. assert (I : h_inv (cx_headers cx)) by (eapply client_headers_inv; eauto). split; [now apply h_inv_run|].
    unfold h. rewrite getall_run by exact I. unfold cx. rewrite (ctx_values c _ m u hist) by auto. reflexivity. }
  split.
  - intros get a rq k D O H. destruct (V false get k O) as [I Vk]. clear V. cbv zeta in I, Vk. unfold unary_with in H. rewrite sent_of in H.
    set (cx := call_ctx c (ck_start ck) m u timeout false get) in *. destruct (client_own c is l opss ck net md E cx 0%nat D) as (X&_). cbv zeta in X. rewrite X in H. clear X.
    set (h := h_run (cx_headers cx) (List.concat opss)) in *.
    assert (G : In rq (cr_sent (send_unary c (with_headers cx h) ck net md a None))).
    { revert H. cbn. now destruct (cr_out (send_unary c (with_headers cx h) ck net md a None)). }
    clear H. unfold send_unary in G. destruct (cl_proto c) eqn:P.
    + apply send_unary_connect_sent in G. rewrite (unary_request_headers _ _ _ _ _ G I). cbn [cx_http with_headers cx_headers].
      destruct (str_eqb (cx_http cx) (lit "GET")); [|exact Vk]. cbn [andb].
      unfold owned, owned_names in O. cbn [List.app existsb] in O. rewrite !orb_false_iff in O. decompose [and] O.
      change (same_name k (lit "content-type")) with (same_name k (lit "Content-Type")).
      change (same_name k (lit "content-encoding")) with (same_name k (lit "Content-Encoding")).
      repeat match goal with H : same_name k _ = false |- _ => rewrite H; clear H end. exact Vk.
    + apply send_stream_sent in G. destruct G as [-> _]. rewrite values_in_allitems by exact I. exact Vk.
    + apply send_stream_sent in G. destruct G as [-> _]. rewrite values_in_allitems by exact I. exact Vk.
  - intros reqs n rq k D O H. destruct (V true false k O) as [I Vk]. clear V. cbv zeta in I, Vk.
    set (cx := call_ctx c (ck_start ck) m u timeout true false) in *. set (h := h_run (cx_headers cx) (List.concat opss)) in *.
    assert (G : exists reqs stop, In rq (sr_sent (send_stream c (with_headers cx h) ck net md reqs stop))).
    { destruct H as [H|[H|[a H]]].
      - unfold client_stream_with in H. fold cx in H. rewrite sent_of in H. destruct (client_own c is l opss ck net md E cx 0%nat D) as (_&X&_). cbv zeta in X. rewrite X in H. clear X.
        fold h in H. exists reqs, (single_stop None). revert H. cbn. now destruct (consume_single _ _).
      - unfold bidi_stream_with in H. fold cx in H. rewrite sent_of in H. destruct (client_own c is l opss ck net md E cx n D) as (_&_&_&X). cbv zeta in X. rewrite X in H. clear X.
        fold h in H. exists reqs, None. cbn [own_fns cf_bidi_stream] in H. unfold answers in H. rewrite settled_do in H.
        cbn [client_world fst snd cw_ctx cw_sent List.app] in H. rewrite replay_state in H. exact H.
      - unfold server_stream_with in H. fold cx in H. rewrite sent_of in H. destruct (client_own c is l opss ck net md E cx n D) as (_&_&X&_). cbv zeta in X. rewrite X in H. clear X.
        fold h in H. exists ([a], None), None. cbn [own_fns cf_server_stream] in H. unfold answers in H. rewrite settled_do in H.
        cbn [client_world fst snd cw_ctx cw_sent List.app] in H. rewrite replay_state in H. exact H. }
    destruct G as (reqs'&stop&G). apply send_stream_sent in G. destruct G as [-> _]. rewrite values_in_allitems by exact I. exact Vk.
Qed.
Print Assumptions C85_client_headers.
Example C85_client_headers_example :
  let u := UHeaders (h_run h_empty [Add (lit "Authorization") (lit "you")]) in
  owned PGrpc true false (lit "authorization") = false /\
  map (fun rq => values_in (rq_headers rq) (lit "authorization"))
    (fst (fst (bidi_stream_with (ex_client PGrpc None) (Sequence [ex_sign "me"]) ex_clocks ex_net None ex_method u None ([], None) 1))) = [[lit "you"; lit "me"]].
Proof. split; [reflexivity|vm_compute; reflexivity]. Qed.

(** A guard of a client: no request is made, and the caller gets its error. *)
Theorem C85_client_refused {A T B} (c : client A B) is (l1 l2 : list (cinterceptor A T B)) i opss ops e ck net md m u timeout :
  is = Sequence (l1 ++ i :: l2) \/ is = Iterator (l1 ++ i :: l2) ->
  (forall get a, let cx := call_ctx c (ck_start ck) m u timeout false get in
     decorated cx l1 (map (map CHdr) opss) -> refuses i cx (map CHdr ops) e ->
     observed (unary_with c is ck net md m u timeout get a) = ([], [], Raised (FExn e)))
  /\ let cx := call_ctx c (ck_start ck) m u timeout true false in
     decorated cx l1 (map (map CHdr) opss) -> refuses i cx (map CHdr ops) e ->
     (forall reqs, observed (client_stream_with c is ck net md m u timeout reqs) = ([], [], Raised (FExn e)))
     /\ (forall a n, observed (server_stream_with c is ck net md m u timeout a n) = ([], [], Raised (FExn e)))
     /\ (forall reqs n, observed (bidi_stream_with c is ck net md m u timeout reqs n) = ([], [], Raised (FExn e))).
Proof.
  intros E. assert (Fl : fst (iterate is) = l1 ++ i :: l2) by (destruct E as [-> | ->]; reflexivity).
  assert (X : forall cx n s, decorated cx l1 (map (map CHdr) opss) -> refuses i cx (map CHdr ops) e -> let w := client_world c ck net md in
    let s' := after w (after w s (List.concat (map (map CHdr) opss))) (map CHdr ops) in
    let fs := client_apply (cl_sync c) is own_fns in
    (forall a, observed (run w s (repeat Next n) (cf_unary fs a cx)) = (s', [], Raised (FExn e)))
    /\ (forall a, observed (run w s (repeat Next n) (cf_client_stream fs a cx)) = (s', [], Raised (FExn e)))
    /\ (forall a, observed (run w s (repeat Next n) (cf_server_stream fs a cx)) = (s', [], Raised (FExn e)))
    /\ (forall a, observed (run w s (repeat Next n) (cf_bidi_stream fs a cx)) = (s', [], Raised (FExn e)))).
  { intros cx n s D R w s' fs. destruct (decorated_metas _ _ _ D) as (ms&M&Dm).
    destruct (client_metas (cl_sync c) l1 (i :: l2) ms n w cx _ own_fns M Dm s) as (P1&P2&P3&P4).
    destruct (settled_guard w (cl_sync c) i l2 cx _ e R n (after w s (List.concat (map (map CHdr) opss)))) as (G1&G2&G3&G4).
    unfold fs, client_apply. rewrite Fl. repeat split; intro a; [exact (eq_trans (P1 a) (G1 _ a))|exact (eq_trans (P2 a) (G2 _ a))|exact (eq_trans (P3 a) (G3 _ a))|exact (eq_trans (P4 a) (G4 _ a))]. }
  assert (Z : forall cx, cw_sent (after (client_world c ck net md) (after (client_world c ck net md) (mk_cw cx []) (List.concat (map (map CHdr) opss))) (map CHdr ops)) = []).
  { intro cx. rewrite concat_headers, !after_headers. reflexivity. }
  split; [|intros cx D R; split; [|split]].
  - intros get a cx D R. unfold unary_with. rewrite observed_sent. fold cx. destruct (X cx 0%nat (mk_cw cx []) D R) as (H&_). cbv zeta in H. now rewrite H, Z.
  - intro reqs. unfold client_stream_with. rewrite observed_sent. fold cx. destruct (X cx 0%nat (mk_cw cx []) D R) as (_&H&_). cbv zeta in H. now rewrite H, Z.
  - intros a n. unfold server_stream_with. rewrite observed_sent. fold cx. destruct (X cx n (mk_cw cx []) D R) as (_&_&H&_). cbv zeta in H. now rewrite H, Z.
  - intros reqs n. unfold bidi_stream_with. rewrite observed_sent. fold cx. destruct (X cx n (mk_cw cx []) D R) as (_&_&_&H). cbv zeta in H. now rewrite H, Z.
Qed.
Print Assumptions C85_client_refused.
Example C85_client_refused_example :
  (forall cx, refuses (ex_stop ex_denied) cx (map CHdr []) ex_denied)
  /\ observed (unary_with (ex_client PConnect None) (Sequence [ex_sign "me"; ex_stop ex_denied]) ex_clocks ex_net None ex_method UNone None true (lit "hi"))
     = ([], [], Raised (FExn ex_denied)).
Proof. split; [intro cx; constructor|vm_compute; reflexivity]. Qed.
