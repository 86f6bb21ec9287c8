(** C81: what happens in answer to a request up to a point depends on what was received up to that point. *)
From Coq Require Import List NArith ZArith Bool String Lia.
From Verif Require Import MBase MPyStr MHeaders MWire MTimeout MEnvelope MProtocol MClient MServer MAsgi MDuplex SDuplex SServer LCausal MWsgi MTalk STalk LCausalW PProtocol PClient PResponse PDuplex PTalk.
Import ListNotations.
Local Open Scope N_scope.

(** Two requests that differ only in what the server will report of the client after [pre] are served alike until the application
    has received all of [pre] and receives one event more; if it never does, they are served alike to the end. *)
Theorem C81_causal : forall (A B : Type) (ap : app A B) now sc pre l1 l2 cut watch send,
  let c1 := asgi_conversation ap now sc (mk_env (pre ++ l1) cut watch send) in
  let c2 := asgi_conversation ap now sc (mk_env (pre ++ l2) cut watch send) in
  c1 = c2
  \/ exists w r1 r2, snd c1 = w ++ DRecv (hd RDisconnect l1) :: r1 /\ snd c2 = w ++ DRecv (hd RDisconnect l2) :: r2
     /\ List.length (taken w) = List.length pre.
Proof.
  intros A B ap now sc pre l1 l2 cut watch send. exact (conversation_two l1 l2 ap now sc pre cut watch send).
Qed.
Print Assumptions C81_causal.

(** What is received is what the server reports, in that order and without a gap; after all of it, that the client is gone. *)
Theorem C81_in_order : forall (A B : Type) (ap : app A B) now sc en,
  exists rest, en_recv en ++ [RDisconnect] = taken (snd (asgi_conversation ap now sc en)) ++ rest.
Proof.
  intros A B ap now sc en. exact (conversation_offer ap now sc en).
Qed.
Print Assumptions C81_in_order.

(** A client that decides what the application receives next from all that has happened before; a conversation follows it for
    [n] receptions. *)
Definition follows {A B} (client : list (devent A B) -> recv) (n : nat) (t : list (devent A B)) : Prop :=
  forall w x r, t = w ++ DRecv x :: r -> (List.length (taken w) < n)%nat -> x = client w.

Lemma received_nth {A B} (ap : app A B) now sc en w x r :
  snd (asgi_conversation ap now sc en) = w ++ DRecv x :: r -> nth_error (en_recv en ++ [RDisconnect]) (List.length (taken w)) = Some x.
Proof.
  intros E. destruct (C81_in_order A B ap now sc en) as (rest & I). rewrite I, E, taken_app, <- app_assoc, nth_error_app2, Nat.sub_diag by lia.
  reflexivity.
Qed.

(** Every such client is served: what it will have sent is some sequence of events, which can be found one after the other. *)
Theorem C81_interactive : forall (A B : Type) (ap : app A B) now sc cut watch send (client : list (devent A B) -> recv),
  exists event : nat -> recv, forall n,
    follows client n (snd (asgi_conversation ap now sc (mk_env (map event (seq 0 n)) cut watch send))).
Proof.
  intros A B ap now sc cut watch send client.
  set (T := fun l => snd (asgi_conversation ap now sc (mk_env l cut watch send))).
  set (nxt := fun l => match before (List.length l) (T l) with Some w => client w | None => RDisconnect end).
  set (script := fix script n := match n with O => [] | S n => script n ++ [nxt (script n)] end).
  assert (SL : forall n, List.length (script n) = n) by (induction n as [|n IH]; cbn; [reflexivity|rewrite app_length, IH; cbn; lia]).
  assert (SF : forall n, follows client n (T (script n))).
  { induction n as [|n IH]; [intros w x r _ L; lia|]. cbn [script]. intros w x r E L.
    pose proof (received_nth ap now sc _ w x r E) as N. cbn [en_recv] in N.
    assert (Last : List.length (taken w) = n -> x = nxt (script n)).
    { intros Lw. rewrite Lw, <- app_assoc, nth_error_app2, SL, Nat.sub_diag in N by (rewrite SL; lia). cbn in N. congruence. }
    unfold nxt in E, Last. rewrite SL in E, Last.
    destruct (C81_causal A B ap now sc (script n) [] [match before n (T (script n)) with Some w => client w | None => RDisconnect end] cut watch send)
      as [C|(v & r1 & r2 & C1 & C2 & Lv)].
    - rewrite app_nil_r in C. assert (E' : T (script n) = w ++ DRecv x :: r) by (unfold T at 1; rewrite C; exact E).
      destruct (Nat.eq_dec (List.length (taken w)) n) as [Lw|Lw]; [|apply (IH w x r E'); lia].
      specialize (Last Lw). rewrite E' in Last. pose proof (before_recv x r w) as F. rewrite Lw in F. rewrite F in Last. exact Last.
    - rewrite app_nil_r in C1. fold (T (script n)) in C1. rewrite SL in Lv. cbn [hd] in C1.
      destruct (Nat.eq_dec (List.length (taken w)) n) as [Lw|Lw].
      + assert (w = v).
        { pose proof (before_recv (hd RDisconnect [match before n (T (script n)) with Some w => client w | None => RDisconnect end]) r2 v) as G1.
          pose proof (before_recv x r w) as G2. rewrite <- E, Lw in G2. rewrite <- C2, Lv in G1. change (before n (snd (asgi_conversation ap now sc
            (mk_env (script n ++ [match before n (T (script n)) with Some w => client w | None => RDisconnect end]) cut watch send))) = Some w) in G2. congruence. }
        subst v. specialize (Last Lw). rewrite C1 in Last. pose proof (before_recv RDisconnect r1 w) as F. rewrite Lw in F. rewrite F in Last. exact Last.
      + assert (E2 := eq_trans (eq_sym C2) E). destruct (recv_inside _ _ _ _ _ _ E2) as (r'' & ->); [lia|].
        rewrite <- app_assoc in C1. apply (IH w x _ C1). lia. }
  exists (fun n => nxt (script n)). intros n. replace (map (fun n => nxt (script n)) (seq 0 n)) with (script n); [exact (SF n)|].
  clear. induction n as [|n IH]; [reflexivity|]. rewrite seq_S, map_app, <- IH. reflexivity.
Qed.
Print Assumptions C81_interactive.

(** And nothing of the conversation is left open: whatever sequence of [n] events is what the client sends, the conversation is
    the same. *)
Theorem C81_determined : forall (A B : Type) (ap : app A B) now sc cut watch send (client : list (devent A B) -> recv) n l1 l2,
  List.length l1 = n -> List.length l2 = n ->
  let c1 := asgi_conversation ap now sc (mk_env l1 cut watch send) in
  let c2 := asgi_conversation ap now sc (mk_env l2 cut watch send) in
  follows client n (snd c1) -> follows client n (snd c2) -> c1 = c2.
Proof.
  intros A B ap now sc cut watch send client n l1 l2 L1 L2. cbv zeta. intros F1 F2.
  assert (H : forall j, (j <= n)%nat -> asgi_conversation ap now sc (mk_env l1 cut watch send) = asgi_conversation ap now sc (mk_env l2 cut watch send)
                \/ exists pre t1 t2, List.length pre = j /\ l1 = pre ++ t1 /\ l2 = pre ++ t2).
  { induction j as [|j IH]; intros Lj; [right; exists [], l1, l2; auto|]. destruct IH as [E|(pre & t1 & t2 & Lp & -> & ->)]; [lia|left; exact E|].
    destruct t1 as [|x1 t1]; [rewrite app_nil_r in L1; lia|]. destruct t2 as [|x2 t2]; [rewrite app_nil_r in L2; lia|].
    destruct (C81_causal A B ap now sc pre (x1 :: t1) (x2 :: t2) cut watch send) as [E|(w & r1 & r2 & C1 & C2 & Lw)]; [left; exact E|right].
    cbn [hd] in C1, C2. assert (X1 := F1 _ _ _ C1). assert (X2 := F2 _ _ _ C2). rewrite Lw in X1, X2. assert (Lpn : (List.length pre < n)%nat) by lia. specialize (X1 Lpn). specialize (X2 Lpn).
    assert (x1 = x2) by congruence. subst x1 x2. exists (pre ++ [client w]), t1, t2. split; [rewrite app_length; cbn; lia|]. rewrite <- !app_assoc. auto. }
  destruct (H n) as [E|(pre & t1 & t2 & Lp & -> & ->)]; [lia|exact E|].
  rewrite app_length in L1, L2. destruct t1; [|cbn in L1; lia]. destruct t2; [|cbn in L2; lia]. reflexivity.
Qed.
Print Assumptions C81_determined.

(** A client that sends its second message only after it has got the answer to the first one, and what it then sends is that
    answer; the request is one for a stream, the client follows from what was sent, and both messages are served. *)
Definition ex_waits (w : list (devent pystr pystr)) : recv :=
  match bodies (sent w) with [] => RReq (ex_frame 0 [7]) true | [b] => RReq (b ++ b) true | _ => RReq [] false end.
Example C81_example :
  let sc := ex_scope "POST" "application/grpc+proto" in
  let l := [RReq (ex_frame 0 [7]) true; RReq (ex_frame 0 [7] ++ ex_frame 0 [7]) true] in
  let c := asgi_conversation (ex_app ex_duplex) 0%Z sc (mk_env l None WIdle (fun _ => SOk)) in
  (exists hs p cx k, asgi_stream_request (ex_app ex_duplex) 0%Z sc ex_duplex hs p cx k)
  /\ exists hs, snd c = [DAsk; DRecv (RReq (ex_frame 0 [7]) true); DGive (PMsg [7]); DYield [7]; DSend (EvStart 200 hs true); DSend (EvBody (ex_frame 0 [7]) true);
       DAsk; DRecv (RReq (ex_frame 0 [7] ++ ex_frame 0 [7]) true); DGive (PMsg [7]); DYield [7]; DSend (EvBody (ex_frame 0 [7]) true);
       DSend (EvBody [] false); DSend (EvTrailers [(lit "grpc-status", lit "0")])]
     /\ map ex_waits [firstn 1 (snd c); firstn 7 (snd c)] = l.
Proof.
  cbv zeta. split.
  - eexists _, PGrpc, _, _. split; [vm_compute; reflexivity|]. split; [eexists; vm_compute; reflexivity|discriminate].
  - eexists. split; vm_compute; reflexivity.
Qed.

(** A unary request in two parts: nothing is sent before the second one. *)
Example C81_example_unary : exists hs b,
  snd (asgi_conversation (ex_app ex_echo) 0%Z (ex_scope "POST" "application/proto") (mk_env [RReq [1] true; RReq [2] false] None WIdle (fun _ => SOk)))
  = [DRecv (RReq [1] true); DRecv (RReq [2] false); DSend (EvStart 200 hs false); DSend (EvBody b false)].
Proof. do 2 eexists. vm_compute. reflexivity. Qed.

(** On the WSGI server, where the request body is read when it is needed, two requests that differ only in their bodies go on in the same way
    as long as they have gone the same way: either both are over, or the same happens next, or both read from the body.  If all
    that they read is the same, so is the result. *)
Theorem C81_wsgi : forall (A B : Type) (ap : app A B) now q body1 body2,
  let '(r1, _, t1) := wsgi_talk ap now (with_input q body1) in
  let '(r2, _, t2) := wsgi_talk ap now (with_input q body2) in
  (forall w u1 u2, t1 = w ++ u1 -> t2 = w ++ u2 ->
     match u1, u2 with
     | [], [] => True
     | e1 :: _, e2 :: _ => e1 = e2 \/ exists x y, e1 = TRead x /\ e2 = TRead y
     | _, _ => False
     end)
  /\ (t1 = t2 -> r1 = r2).
Proof.
  intros A B ap now q body1 body2. pose proof (talk_rel ap now q body1 body2) as H.
  destruct (wsgi_talk ap now (with_input q body1)) as [[r1 i1] t1], (wsgi_talk ap now (with_input q body2)) as [[r2 i2] t2].
  split; [exact (trel_next _ _ _ H)|exact (trel_eq _ _ _ H)].
Qed.
Print Assumptions C81_wsgi.
(** Two streams whose second messages differ: the first message has been answered when they part. *)
Example C81_wsgi_example :
  let q := ex_wq "POST" "application/grpc+proto" in
  let t body := snd (wsgi_talk (ex_app ex_duplex) 0%Z (with_input q body)) in
  let t1 := t [RD (ex_frame 0 [7]); RD (ex_frame 0 [8])] in let t2 := t [RD (ex_frame 0 [7]); RD (ex_frame 0 [9])] in
  exists w x u1 y u2, t1 = w ++ TRead x :: u1 /\ t2 = w ++ TRead y :: u2 /\ x <> y /\ chunks_of (handed w) = [ex_frame 0 [7]].
Proof.
  cbv zeta. eexists (firstn 7 (snd (wsgi_talk (ex_app ex_duplex) 0%Z (with_input (ex_wq "POST" "application/grpc+proto") [RD (ex_frame 0 [7]); RD (ex_frame 0 [8])])))), _, _, _, _.
  split; [vm_compute; reflexivity|]. split; [vm_compute; reflexivity|]. split; [discriminate|vm_compute; reflexivity].
Qed.
