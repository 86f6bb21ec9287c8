(** Interceptors: C47, C48, C49. *)
From Coq Require Import List Bool String Lia.
From Verif Require Import MBase MPyStr MClient MIntercept SIntercept LIntercept.
Import ListNotations.

(** ** C47: order *)

(** For each kind of method: the function that is called is the method wrapped by the interceptors that implement the interface
    for this kind, once each, the first outermost; the others are not in it. *)
Theorem C47_order {L X T A Q B C} (f : method_fn L X T A Q B C) is :
  apply_interceptors f is =
  match f with
  | FUnary f => FUnary (onion (offered ic_unary is) f)
  | FClientStream f => FClientStream (onion (offered ic_client_stream is) f)
  | FServerStream f => FServerStream (onion (offered ic_server_stream is) f)
  | FBidiStream f => FBidiStream (onion (offered ic_bidi_stream is) f)
  end.
Proof. destruct f; cbn [apply_interceptors]; now rewrite apply_loop_onion. Qed.
Print Assumptions C47_order.

(** The same for clients. *)
Theorem C47_client {L X T A Q B C} sync (l : list (interceptor L X T A Q B C)) is (fs : client_fns L X T A Q B C) :
  is = Sequence l \/ is = Iterator l ->
  let rs := resolve_interceptors sync l in
  client_apply sync is fs =
  mk_cf (onion (offered ic_unary rs) (cf_unary fs)) (onion (offered ic_client_stream rs) (cf_client_stream fs))
        (onion (offered ic_server_stream rs) (cf_server_stream fs)) (onion (offered ic_bidi_stream rs) (cf_bidi_stream fs)).
Proof. intros H rs. unfold client_apply. destruct H as [-> | ->]; cbn [iterate fst]; fold rs; now rewrite !apply_loop_onion. Qed.
Print Assumptions C47_client.

Lemma apply_nil {L X T A Q B C} (f : method_fn L X T A Q B C) : apply_interceptors f [] = f.
Proof. now destruct f. Qed.

(** A WSGI application applies all interceptors to every method, also when it is given an iterator. *)
Theorem C47_wsgi {L X T A Q B C} (l : list (interceptor L X T A Q B C)) is eps :
  is = Sequence l \/ is = Iterator l ->
  wsgi_endpoints is eps = map (fun kv => (fst kv, apply_interceptors (snd kv) (resolve_interceptors true l))) eps.
Proof.
  intros [-> | ->]; [|reflexivity]. unfold wsgi_endpoints. destruct l as [|i l]; [|reflexivity]. cbn. symmetry.
  rewrite <- (map_id eps) at 2. apply map_ext. intros [k f]. cbn. now rewrite apply_nil.
Qed.
Print Assumptions C47_wsgi.

(** An ASGI application does for a sequence, and each time the service starts.  Missing: other iterables
    ([C47_asgi_iterator_refuted]). *)
Theorem C47_asgi_partial {L X T A Q B C} (l : list (interceptor L X T A Q B C)) eps :
  asgi_endpoints (Sequence l) eps =
  (map (fun kv => (fst kv, apply_interceptors (snd kv) (resolve_interceptors false l))) eps, Sequence l).
Proof.
  assert (H : asgi_comprehension (Sequence l) eps =
    (map (fun kv => (fst kv, apply_interceptors (snd kv) (resolve_interceptors false l))) eps, Sequence l)).
  { induction eps as [|[k f] eps IH]; [reflexivity|]. cbn [asgi_comprehension iterate]. rewrite IH. reflexivity. }
  unfold asgi_endpoints. destruct l as [|i l]; [|exact H]. cbn. f_equal.
  rewrite <- (map_id eps) at 1. apply map_ext. intros [k f]. cbn. now rewrite apply_nil.
Qed.
Print Assumptions C47_asgi_partial.

(** Finding: an ASGI application that is given an iterator (the parameter's type is Iterable) applies its interceptors to the
    first method only; the other methods run without them. *)
Theorem C47_asgi_iterator_refuted :
  exists (i : interceptor nat unit unit unit unit unit unit) (f : method_fn nat unit unit unit unit unit unit),
    fst (asgi_endpoints (Iterator [i]) [(lit "/a", f); (lit "/b", f)])
      = [(lit "/a", apply_interceptors f [i]); (lit "/b", f)]
    /\ fst (asgi_endpoints (Sequence [i]) [(lit "/a", f); (lit "/b", f)])
      = [(lit "/a", apply_interceptors f [i]); (lit "/b", apply_interceptors f [i])]
    /\ apply_interceptors f [i] <> f.
Proof.
  exists (mk_ic (Some (fun next request ctx => GDo 7 (fun _ => next request ctx))) None None None None), (FUnary (fun _ _ => GRet tt)).
  split; [reflexivity|]. split; [reflexivity|]. intro E. injection E as E. assert (E' := f_equal (fun g => g tt tt) E). discriminate E'.
Qed.
Print Assumptions C47_asgi_iterator_refuted.

(** What this means for interceptors that record being entered and left, and others that are for client streams only, around any
    method: the ones for unary calls are entered in list order, once each, then the method runs, then they are left in the
    opposite order. *)
Theorem C47_trace {S X T A Q B C} (w : world S (bool * nat) X) (l : list (bool * nat)) (f : unary_fn (bool * nat) X T A B C) g
    request ctx s sm tm b :
  apply_interceptors (FUnary f : method_fn (bool * nat) X T A Q B C) (map (fun p : bool * nat => if fst p then recorder (snd p) else bystander (snd p)) l) = FUnary g ->
  let ids := map snd (filter (fun p : bool * nat => fst p) l) in
  let entered := fold_left (fun s i => snd (w s (true, i))) ids s in
  run w entered [] (f request ctx) = (sm, tm, Returned b) ->
  run w s [] (g request ctx)
  = (fold_left (fun s i => snd (w s (false, i))) (rev ids) sm,
     map (fun i => Effect (true, i)) ids ++ tm ++ map (fun i => Effect (false, i)) (rev ids), Returned b).
Proof.
  rewrite C47_order. intro E. injection E as <-. cbv zeta. revert s.
  induction l as [|[[|] i] l IH]; intros s H.
  - cbn in *. rewrite app_nil_r. exact H.
  - cbn [map offered filter fst snd recorder ic_unary onion] in *. cbn [run].
    destruct (w s (true, i)) as [x s1] eqn:E1. rewrite run_gcall. cbn [fold_left] in H. rewrite E1 in H. cbn [snd] in H.
    rewrite (IH s1 H). cbn [run]. cbn [map rev].
    rewrite fold_left_app. cbn [fold_left].
    set (s2 := fold_left _ _ _). destruct (w s2 (false, i)) as [y s3] eqn:E2. cbn [snd]. f_equal. f_equal.
    assert (Rc : forall t : list (event (bool * nat) T Empty_set), map recast t = t).
    { intro t. rewrite <- (map_id t) at 2. apply map_ext. intros [l0|m0|[]]; reflexivity. }
    rewrite Rc. cbn [List.app]. f_equal. rewrite map_app, <- !app_assoc. reflexivity.
  - cbn [map offered filter fst snd bystander ic_unary onion] in *. exact (IH s H).
Qed.
Print Assumptions C47_trace.
Example C47_example :
  let w : world unit (bool * nat) unit := fun s _ => (inl tt, s) in
  let f : unary_fn (bool * nat) unit unit unit nat unit := fun _ _ => GDo (true, 100) (fun _ => GRet 5) in
  match apply_interceptors (FUnary f : method_fn (bool * nat) unit unit unit unit nat unit) [recorder 1; bystander 2; recorder 3; recorder 4] with
  | FUnary g => snd (fst (run w tt [] (g tt tt)))
                = map Effect [(true, 1); (true, 3); (true, 4); (true, 100); (false, 4); (false, 3); (false, 1)]
  | _ => False
  end.
Proof. reflexivity. Qed.

(** ** C48: hooks of metadata interceptors *)

(** One metadata interceptor around anything, of each kind of call: as if the rest were run alone, with one call of [on_start]
    before and one of [on_end] after it.  Missing: asynchronous streams whose consumer throws ([C48_async_one_partial],
    [C48_async_close_refuted]). *)
Theorem C48_bracket_partial {S L X T A Q B C} (sync : bool) (w : world S L X) (m : meta L X T C) ctx s c :
  (forall wrap (next : unary_fn L X T A B C) request, ic_unary (invoker (Q := Q) sync m) = Some wrap ->
     bracketed w m ctx s (fun s => run w s c (next request ctx)) (run w s c (wrap next request ctx)))
  /\ (forall wrap (next : client_stream_fn L X T Q B C) request, ic_client_stream (invoker (A := A) sync m) = Some wrap ->
     bracketed w m ctx s (fun s => run w s c (next request ctx)) (run w s c (wrap next request ctx)))
  /\ (sync = true \/ patient c ->
     (forall wrap (next : server_stream_fn L X T A B C) request, ic_server_stream (invoker (Q := Q) sync m) = Some wrap ->
        bracketed w m ctx s (fun s => run w s c (next request ctx)) (run w s c (wrap next request ctx)))
     /\ (forall wrap (next : bidi_stream_fn L X T Q B C) request, ic_bidi_stream (invoker (A := A) sync m) = Some wrap ->
        bracketed w m ctx s (fun s => run w s c (next request ctx)) (run w s c (wrap next request ctx)))).
Proof.
  assert (Br : forall R B' (inner : S -> S * list (event L T B') * outcome R), bracketed w m ctx s inner (bracket w m ctx s inner)).
  { intros R B' inner. unfold bracketed, bracket. pose proof (silent_ends w (me_start m ctx) s []) as N.
    destruct (run w s [] (me_start m ctx)) as [[s1 t1] [token|f|]]; [|reflexivity|now elim N].
    unfold finish. destruct (inner s1) as [[s2 t2] [r|f|]]; cbn [run]; try reflexivity;
      destruct (run w s2 [] (me_end m token ctx _)) as [[s3 t3] o3]; cbn [List.app map recast]; rewrite <- app_assoc; reflexivity. }
  assert (St : sync = true \/ patient c -> forall (g : gen L X T B unit),
     bracketed w m ctx s (fun s => run w s c g) (run w s c (invoke m ctx (if sync then yield_from g else async_for g)))).
  { intros Hc g. rewrite (run_invoke w m ctx s c _ (fun s => run w s c g)); [apply Br|].
    intros e s1. destruct sync; [apply run_ending_sync|]. apply run_ending_async. destruct Hc as [Hc|Hc]; [discriminate|exact Hc]. }
  split; [|split].
  - intros wrap next request E. injection E as <-. rewrite (run_invoke w m ctx s c _ (fun s => run w s c (next request ctx))); [apply Br|].
    intros e s1. apply run_ending_silent.
  - intros wrap next request E. injection E as <-. rewrite (run_invoke w m ctx s c _ (fun s => run w s c (next request ctx))); [apply Br|].
    intros e s1. apply run_ending_silent.
  - intro Hc. split; intros wrap next request E; injection E as <-; now apply St.
Qed.
Print Assumptions C48_bracket_partial.

(** Any list of metadata interceptors around a unary or client stream method (or call), which may fail or be cancelled anywhere. *)
Theorem C48_unary {S L X T A Q B C} (sync : bool) (w : world S L X) (ms : list (meta L X T C)) (f : unary_fn L X T A B C) g request ctx s c :
  apply_interceptors (FUnary f : method_fn L X T A Q B C) (resolve_interceptors sync (map only_meta ms)) = FUnary g ->
  Forall unmarked_meta ms -> unmarked (f request ctx) -> hooked w ms (run w s c (g request ctx)).
Proof.
  rewrite C47_order, offered_unary. intros E Um Uf. injection E as <-. apply well_hooked. now apply onion_single.
Qed.
Print Assumptions C48_unary.
Theorem C48_client_stream {S L X T A Q B C} (sync : bool) (w : world S L X) (ms : list (meta L X T C)) (f : client_stream_fn L X T Q B C) g request ctx s c :
  apply_interceptors (FClientStream f : method_fn L X T A Q B C) (resolve_interceptors sync (map only_meta ms)) = FClientStream g ->
  Forall unmarked_meta ms -> unmarked (f request ctx) -> hooked w ms (run w s c (g request ctx)).
Proof.
  rewrite C47_order, offered_client_stream. intros E Um Uf. injection E as <-. apply well_hooked. now apply onion_single.
Qed.
Print Assumptions C48_client_stream.

(** Around streams: for synchronous code whatever the consumer does (reads some messages, closes early, throws), for asynchronous
    code for consumers that read on.  Missing: asynchronous streams that are closed early. *)
Theorem C48_server_stream_partial {S L X T A Q B C} (sync : bool) (w : world S L X) (ms : list (meta L X T C)) (f : server_stream_fn L X T A B C) g request ctx s c :
  apply_interceptors (FServerStream f : method_fn L X T A Q B C) (resolve_interceptors sync (map only_meta ms)) = FServerStream g ->
  Forall unmarked_meta ms -> unmarked (f request ctx) -> sync = true \/ patient c -> hooked w ms (run w s c (g request ctx)).
Proof.
  rewrite C47_order, offered_server_stream. intros E Um Uf Hc. injection E as <-. apply well_hooked. now apply onion_stream.
Qed.
Print Assumptions C48_server_stream_partial.
Theorem C48_bidi_stream_partial {S L X T A Q B C} (sync : bool) (w : world S L X) (ms : list (meta L X T C)) (f : bidi_stream_fn L X T Q B C) g request ctx s c :
  apply_interceptors (FBidiStream f : method_fn L X T A Q B C) (resolve_interceptors sync (map only_meta ms)) = FBidiStream g ->
  Forall unmarked_meta ms -> unmarked (f request ctx) -> sync = true \/ patient c -> hooked w ms (run w s c (g request ctx)).
Proof.
  rewrite C47_order, offered_bidi_stream. intros E Um Uf Hc. injection E as <-. apply well_hooked. now apply onion_stream.
Qed.
Print Assumptions C48_bidi_stream_partial.

(** With a single metadata interceptor, asynchronous streams are fine too. *)
Theorem C48_async_one_partial {S L X T A Q B C} (w : world S L X) (m : meta L X T C) (f : server_stream_fn L X T A B C) g
    (f' : bidi_stream_fn L X T Q B C) g' ctx s c :
  apply_interceptors (FServerStream f : method_fn L X T A Q B C) (resolve_interceptors false [only_meta m]) = FServerStream g ->
  apply_interceptors (FBidiStream f' : method_fn L X T A Q B C) (resolve_interceptors false [only_meta m]) = FBidiStream g' ->
  unmarked_meta m ->
  (forall request, unmarked (f request ctx) -> hooked w [m] (run w s c (g request ctx)))
  /\ (forall request, unmarked (f' request ctx) -> hooked w [m] (run w s c (g' request ctx))).
Proof.
  rewrite !C47_order. intros E E' Um. injection E as <-. injection E' as <-. split; intros request Uf; apply well_hooked; now apply async_one.
Qed.
Print Assumptions C48_async_one_partial.

(** Examples: two interceptors with tokens 10 and 20. *)
Definition ex_meta (i : nat) : meta nat unit nat unit :=
  mk_meta i (fun _ => GDo i (fun _ => GRet (10 * i))) (fun _ _ _ => GDo (100 + i) (fun _ => GRet tt)).
Definition ex_world : world unit nat unit := fun s _ => (inl tt, s).
Definition ex_stream : server_stream_fn nat unit nat unit nat unit :=
  fun _ _ => GYield 1 (GYield 2 (GRaise (FExn (EOther KValue (lit "x")))) GRaise) GRaise.
Lemma ex_meta_ok i : unmarked_meta (ex_meta i) /\ quiet_end ex_world (ex_meta i).
Proof. split; [split; intros; exact (fun _ => I)|]. intros s t c e. exists s, [Effect (100 + i)]. reflexivity. Qed.
Example C48_example : exists g : server_stream_fn nat unit nat unit nat unit,
  apply_interceptors (FServerStream ex_stream : method_fn nat unit nat unit unit nat unit) (resolve_interceptors true (map only_meta [ex_meta 1; ex_meta 2])) = FServerStream g
  /\ Forall unmarked_meta [ex_meta 1; ex_meta 2] /\ Forall (quiet_end ex_world) [ex_meta 1; ex_meta 2] /\ unmarked (ex_stream tt tt)
  /\ (let '(_, t, o) := run ex_world tt [Next; Next] (g tt tt) in
      o = Raised (FExn (EOther KValue (lit "x")))
      /\ marks t = [OnStart 1; Started 1 10; OnStart 2; Started 2 20;
                    OnEnd 2 20 (Some (EOther KValue (lit "x"))); OnEnd 1 10 (Some (EOther KValue (lit "x")))])
  /\ (let '(_, t, o) := run ex_world tt [Next; Throw FClose] (g tt tt) in
      o = Raised FClose
      /\ marks t = [OnStart 1; Started 1 10; OnStart 2; Started 2 20; OnEnd 2 20 None; OnEnd 1 10 None]).
Proof.
  eexists. split; [reflexivity|]. split; [repeat constructor; apply ex_meta_ok|]. split; [repeat constructor; apply ex_meta_ok|].
  split; [cbn; tauto|]. split; split; reflexivity.
Qed.

(** Finding: when the consumer closes an asynchronous stream early, the generator inside [async for] is not closed: only the
    first interceptor's [on_end] has been called when the stream is closed, the others' are left to the garbage collector, out
    of order. *)
Theorem C48_async_close_refuted : exists (ms : list (meta nat unit nat unit)) (f : server_stream_fn nat unit nat unit nat unit) g,
  apply_interceptors (FServerStream f : method_fn nat unit nat unit unit nat unit) (resolve_interceptors false (map only_meta ms)) = FServerStream g
  /\ Forall unmarked_meta ms /\ Forall (quiet_end ex_world) ms /\ unmarked (f tt tt)
  /\ (let '(_, t, o) := run ex_world tt [Throw FClose] (g tt tt) in
      o = Raised FClose /\ marks t = [OnStart 1; Started 1 10; OnStart 2; Started 2 20; OnEnd 1 10 None])
  /\ ~ hooked ex_world ms (run ex_world tt [Throw FClose] (g tt tt)).
Proof.
  exists [ex_meta 1; ex_meta 2], ex_stream. eexists. split; [reflexivity|].
  split; [repeat constructor; apply ex_meta_ok|]. split; [repeat constructor; apply ex_meta_ok|]. split; [cbn; tauto|].
  split; [split; reflexivity|]. intros (_&(lo&N&_)&_). cbn in N.
  inversion N as [|? ? ? ? N1| |]; subst. inversion N1 as [| |? ? ? ? ? N2|]; subst. inversion N2 as [|? ? ? ? N3| |]; subst.
  inversion N3 as [| |? ? ? ? ? N4|]; subst. inversion N4.
Qed.
Print Assumptions C48_async_close_refuted.

(** ** C49: several interfaces *)

(** An interceptor that is not a metadata interceptor has each interface it implements applied, for each kind of method.
    Missing: interceptors that are ([C49_metadata_refuted]). *)
Theorem C49_interfaces_partial {L X T A Q B C} sync (i : interceptor L X T A Q B C) : ic_meta i = None ->
  (forall f wrap, ic_unary i = Some wrap -> apply_interceptors (FUnary f) (resolve_interceptors sync [i]) = FUnary (wrap f))
  /\ (forall f wrap, ic_client_stream i = Some wrap -> apply_interceptors (FClientStream f) (resolve_interceptors sync [i]) = FClientStream (wrap f))
  /\ (forall f wrap, ic_server_stream i = Some wrap -> apply_interceptors (FServerStream f) (resolve_interceptors sync [i]) = FServerStream (wrap f))
  /\ (forall f wrap, ic_bidi_stream i = Some wrap -> apply_interceptors (FBidiStream f) (resolve_interceptors sync [i]) = FBidiStream (wrap f)).
Proof.
  intro M. unfold resolve_interceptors. cbn [map]. rewrite M.
  split; [|split; [|split]]; intros f wrap E; unfold apply_interceptors, apply_loop; cbn [rev List.app fold_left]; now rewrite E.
Qed.
Print Assumptions C49_interfaces_partial.
Example C49_example : exists (i : interceptor nat unit unit unit unit unit unit) w1 w2,
  ic_meta i = None /\ ic_unary i = Some w1 /\ ic_bidi_stream i = Some w2.
Proof. exists (mk_ic (Some (fun f => f)) None None (Some (fun f => f)) None). repeat eexists. Qed.

(** Finding: an object that is both a metadata interceptor and an interceptor of unary calls only has its metadata hooks called. *)
Theorem C49_metadata_refuted : forall sync, exists (i : interceptor nat unit nat unit unit nat unit) wrap f g,
  ic_unary i = Some wrap /\ apply_interceptors (FUnary f) (resolve_interceptors sync [i]) = FUnary g
  /\ In (Effect 7) (snd (fst (run ex_world tt [] (wrap f tt tt))))
  /\ ~ In (Effect 7) (snd (fst (run ex_world tt [] (g tt tt)))).
Proof.
  intro sync. exists (mk_ic (Some (fun next request ctx => GDo 7 (fun _ => next request ctx))) None None None (Some (ex_meta 1))).
  eexists _, (fun _ _ => GRet 0), _. split; [reflexivity|]. split; [reflexivity|]. split; [cbn; tauto|].
  cbn. intuition discriminate.
Qed.
Print Assumptions C49_metadata_refuted.
