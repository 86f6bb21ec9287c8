(** The iterator of a streaming call: C74 (its HTTP response is released), C75 (messages are delivered as they arrive). *)
From Coq Require Import List NArith ZArith Bool String Lia.
From Verif Require Import MBase MPyStr MHeaders MWire MTimeout MEnvelope SEnvelope LEnvelope MProtocol MClient SClient LClient PEnvelope PProtocol PClient
  MIter SIter LIter.
Import ListNotations.
Local Open Scope N_scope.

(** ** C74 *)

(** A call with one request and a stream of responses is the call with that one request in its request stream: all that follows
    holds for it. *)
Theorem C74_server_stream : forall (A B : Type) (c : client A B) ck net md m u timeout a asks,
  use_server_stream c ck net md m u timeout a asks = use_bidi_stream c ck net md m u timeout ([a], None) asks.
Proof. reflexivity. Qed.
Print Assumptions C74_server_stream.

(** However the iterator of a streaming call is used, and whatever the library does: until its consumer asks, nothing is sent;
    while the last thing the consumer was given is a message, there is one response, and it is open; once the consumer was told
    that the iteration is over, by its end, by an exception, or because it closed the iterator or was cancelled, nothing is
    open, and nothing happens any more. *)
Theorem C74_release : forall (A B : Type) (c : client A B) ck net md m u timeout reqs asks,
  let '(_, xs, o) := use_bidi_stream c ck net md m u timeout reqs asks in
  exists s, lifecycle o s
    /\ (s = Unasked <-> asks = [])
    /\ (s = Held <-> exists b, last_answer xs (AMsg b))
    /\ (s = Over <-> exists e, last_answer xs (AEnd e)).
Proof.
  intros A B c ck net md m u timeout reqs asks. unfold use_bidi_stream. set (cx := call_ctx _ _ _ _ _ _ _).
  pose proof (run_life c cx ck net reqs asks (iterator_new md) [] lc_unasked) as R.
  assert (L : List.length (snd (fst (it_run c cx ck net reqs (iterator_new md) asks))) = List.length asks).
  { clear R. generalize (@iterator_new B md). induction asks as [|a asks IH]; intro it; cbn [it_run]; [reflexivity|].
    destruct (it_step c cx ck net reqs it a) as [[it1 x] o1]. specialize (IH it1). destruct (it_run c cx ck net reqs it1 asks) as [[it2 xs] o2]. cbn in *. lia. }
  destruct (it_run c cx ck net reqs (iterator_new md) asks) as [[it xs] o]. cbn [fst snd] in L. destruct R as [R1 R2]. cbn [List.app] in R1.
  exists (hold it). split; [exact R1|]. rewrite R2.
  assert (La : forall a, last_answer xs a <-> exists l, List.rev xs = a :: l).
  { intro a. split.
    - intros [b ->]. exists (List.rev b). now rewrite rev_app_distr.
    - intros [l E]. exists (List.rev l). rewrite <- (rev_involutive xs), E. reflexivity. }
  assert (Lr : List.length (List.rev xs) = List.length asks) by (rewrite rev_length; exact L).
  destruct (List.rev xs) as [|[b|e] l] eqn:E.
  - assert (asks = []) as -> by (destruct asks; [reflexivity|discriminate Lr]).
    split; [now split|]. split; (split; [discriminate|]); intros [b H]; apply La in H; destruct H as [l H]; discriminate H.
  - split; [split; [discriminate|intros ->; discriminate Lr]|]. split; (split; [|intro H]).
    + intros _. exists b. apply La. now exists l.
    + reflexivity.
    + discriminate.
    + destruct H as [e H]. apply La in H. destruct H as [l' H]. discriminate H.
  - split; [split; [discriminate|intros ->; discriminate Lr]|]. split; (split; [|intro H]).
    + discriminate.
    + destruct H as [b H]. apply La in H. destruct H as [l' H]. discriminate H.
    + intros _. exists e. apply La. now exists l.
    + reflexivity.
Qed.
Print Assumptions C74_release.

(** The calls the other theorems are about are uses of the iterator: a consumer that takes the messages one by one, to the end or
    until a fault reaches it after the [n+1]-th, gets the messages, the end and the metadata of [execute_bidi_stream]; then
    nothing is left open. *)
Theorem C74_calls : forall (A B : Type) (c : client A B) ck net md m u timeout reqs stop,
  let r := execute_bidi_stream c ck net md m u timeout reqs stop in
  exists asks it o, use_bidi_stream c ck net md m u timeout reqs asks = (it, map AMsg (sr_msgs r) ++ [AEnd (sr_end r)], o)
    /\ (asks = repeat AskNext (S (List.length (sr_msgs r)))
        \/ exists n f, stop = Some (n, f) /\ List.length (sr_msgs r) = S n /\ asks = repeat AskNext (S n) ++ [AskThrow f])
    /\ it_md it = sr_md r /\ requests o = sr_sent r /\ lifecycle o Over.
Proof.
  intros A B c ck net md m u timeout reqs stop. cbv zeta. unfold execute_bidi_stream, use_bidi_stream. set (cx := call_ctx _ _ _ _ _ _ _).
  destruct (drive_send c cx ck net md reqs stop) as [n D]. cbv zeta in D. specialize (D (S n) ltac:(lia)). destruct D as [o D].
  assert (X : forall fuel it stop bs e md' o, it_drive fuel c cx ck net reqs it stop = (bs, Some e, md', o) ->
    exists asks it', it_run c cx ck net reqs it asks = (it', map AMsg bs ++ [AEnd e], o) /\ it_md it' = md'
    /\ (asks = repeat AskNext (S (List.length bs))
        \/ exists n f, stop = Some (n, f) /\ List.length bs = S n /\ asks = repeat AskNext (S n) ++ [AskThrow f])).
  { clear. induction fuel as [|fuel IH]; intros it stop bs e md' o D; [discriminate D|]. cbn [it_drive] in D.
    destruct (it_step c cx ck net reqs it AskNext) as [[it1 [b|e1]] o1] eqn:E1.
    2:{ injection D as <- <- <- <-. exists [AskNext], it1. cbn [it_run]. rewrite E1, app_nil_r. split; [reflexivity|]. split; [reflexivity|now left]. }
    assert (Y : forall st, (let '(bs0, e0, md0, o') := it_drive fuel c cx ck net reqs it1 st in (b :: bs0, e0, md0, o1 ++ o')) = (bs, Some e, md', o) ->
      exists asks it', it_run c cx ck net reqs it asks = (it', map AMsg bs ++ [AEnd e], o) /\ it_md it' = md' /\
       (asks = repeat AskNext (S (List.length bs)) \/ exists n f, st = Some (n, f) /\ List.length bs = S (S n) /\ asks = repeat AskNext (S (S n)) ++ [AskThrow f])).
    { intros st H. destruct (it_drive fuel c cx ck net reqs it1 st) as [[[bs0 e0] md0] o'] eqn:D1. injection H as <- -> <- <-.
      destruct (IH it1 st bs0 e md0 o' D1) as (asks&it'&R&M&Hs). exists (AskNext :: asks), it'. cbn [it_run]. rewrite E1, R. split; [reflexivity|].
      split; [exact M|]. destruct Hs as [->|(n&f&->&L&->)]; [left; reflexivity|]. right. exists n, f. split; [reflexivity|]. split; [cbn; lia|reflexivity]. }
    destruct stop as [[[|k] f]|].
    - destruct (it_step c cx ck net reqs it1 (AskThrow f)) as [[it2 [b2|e2]] o2] eqn:E2; [discriminate D|]. injection D as <- <- <- <-.
      exists [AskNext; AskThrow f], it2. cbn [it_run]. rewrite E1, E2, app_nil_r. split; [reflexivity|]. split; [reflexivity|].
      right. exists 0%nat, f. split; [reflexivity|]. split; reflexivity.
    - destruct (Y _ D) as (asks&it'&R&M&Hs). exists asks, it'. split; [exact R|]. split; [exact M|]. destruct Hs as [S|(n&f'&E&L&Hs)]; [now left|].
      right. injection E as <- <-. exists (S k), f. auto.
    - destruct (Y _ D) as (asks&it'&R&M&Hs). exists asks, it'. split; [exact R|]. split; [exact M|]. destruct Hs as [S|(n&f'&E&L&Hs)]; [now left|discriminate E]. }
  destruct (X _ _ _ _ _ _ _ D) as (asks&it&R&M&Hs). exists asks, it, o. split; [exact R|]. split; [exact Hs|]. split; [exact M|].
  pose proof (run_life c cx ck net reqs asks (iterator_new md) [] lc_unasked) as Li. rewrite R in Li. destruct Li as [L1 L2]. cbn [List.app] in L1.
  rewrite rev_app_distr in L2. cbn in L2. rewrite L2 in L1. split; [|exact L1].
  assert (Sent : sr_sent (send_stream c cx ck net md reqs stop) = [call_request c cx ck reqs]).
  { rewrite send_stream_end. cbv zeta. repeat (first [reflexivity | match goal with |- context [match ?x with _ => _ end] => destruct x end]). }
  rewrite Sent.
  assert (Hd : exists o', o = HRequest (call_request c cx ck reqs) :: o').
  { assert (exists asks', asks = AskNext :: asks') as [asks' ->].
    { destruct Hs as [->|(n'&f&_&_&->)]; eexists; reflexivity. }
    cbn [it_run it_step iterator_new it_pos it_md] in R. rewrite start_end in R. cbv zeta in R.
    assert (Z : forall s : iterator B * answer B * list http_event, (exists o', snd s = HRequest (call_request c cx ck reqs) :: o') ->
       (let '(it0, x, o0) := s in let '(it1, xs, o') := it_run c cx ck net reqs it0 asks' in (it1, x :: xs, o0 ++ o'))
        = (it, map AMsg (sr_msgs (send_stream c cx ck net md reqs stop)) ++ [AEnd (sr_end (send_stream c cx ck net md reqs stop))], o) ->
       exists o', o = HRequest (call_request c cx ck reqs) :: o').
    { intros [[it0 x] o0] [o' E] H. cbn [snd] in E. subst o0. destruct (it_run c cx ck net reqs it0 asks') as [[it1 xs] o2].
      apply (f_equal snd) in H. cbn [snd] in H. rewrite <- H. eexists. reflexivity. }
    eapply Z; [|exact R]. clear. repeat (first [eexists; reflexivity | match goal with |- context [match ?x with _ => _ end] => destruct x end]). }
  destruct Hd as [o' ->].
  assert (Q : forall l, Forall is_read l -> requests l = []).
  { induction 1 as [|x l Hx Hl IH]; [reflexivity|]. destruct x; try contradiction. exact IH. }
  inversion L1; subst; try reflexivity. unfold requests. cbn [flat_map List.app]. f_equal. rewrite flat_map_app.
  match goal with K : Forall is_read ?l |- _ => specialize (Q l K); unfold requests in Q; rewrite Q end. reflexivity.
Qed.
Print Assumptions C74_calls.

(** A call with a single response (a client-streaming call, or a unary call of gRPC) is answered as [execute_client_stream] and
    [execute_unary] say.  Partial: when it is over, nothing is left open, unless the server sent more than one message. *)
Lemma single_life {A B} (c : client A B) cx ck net md reqs :
  let '(_, out, o) := it_single c cx ck net reqs (iterator_new md) in
  let all := send_stream c cx ck net md reqs None in
  out = cr_out (single_result all)
  /\ ((List.length (sr_msgs all) <= 1)%nat -> lifecycle o Over) /\ ((1 < List.length (sr_msgs all))%nat -> lifecycle o Held).
Proof.
  destruct (drive_send c cx ck net md reqs None) as [n D]. cbv zeta in D. specialize (D (S (S n)) ltac:(lia)). destruct D as [o D].
  cbn [it_drive] in D. unfold it_single.
  pose proof (step_life c cx ck net reqs (iterator_new md) AskNext [] lc_unasked) as S1.
  destruct (it_step c cx ck net reqs (iterator_new md) AskNext) as [[it1 [b|e1]] o1].
  - destruct S1 as [S1 _]. cbn [List.app] in S1. pose proof (step_life c cx ck net reqs it1 AskNext o1 S1) as S2.
    destruct (it_step c cx ck net reqs it1 AskNext) as [[it2 [b2|e2]] o2].
    + destruct (it_drive n c cx ck net reqs it2 None) as [[[bs e] md'] o']. injection D as D1 D2 _ _. unfold single_result. cbn [cr_out]. rewrite <- D1. split; [reflexivity|].
      split; [cbn; lia|]. intros _. destruct S2 as [S2 H2]. rewrite H2 in S2. exact S2.
    + injection D as D1 D2 _ _. unfold single_result. cbn [cr_out]. rewrite <- D1, <- D2. split; [reflexivity|]. split; [|cbn; lia]. intros _.
      destruct S2 as [S2 H2]. rewrite H2 in S2. exact S2.
  - injection D as D1 D2 _ _. unfold single_result. cbn [cr_out]. rewrite <- D1, <- D2. split; [reflexivity|]. split; [|cbn; lia]. intros _.
    destruct S1 as [S1 H1]. rewrite H1 in S1. exact S1.
Qed.

Theorem C74_single_partial : forall (A B : Type) (c : client A B) ck net md m u timeout reqs,
  let '(out, o) := use_client_stream c ck net md m u timeout reqs in
  out = cr_out (execute_client_stream c ck net md m u timeout reqs None)
  /\ ((List.length (sr_msgs (execute_bidi_stream c ck net md m u timeout reqs None)) <= 1)%nat -> lifecycle o Over).
Proof.
  intros. unfold use_client_stream, execute_client_stream, execute_bidi_stream. set (cx := call_ctx _ _ _ _ _ _ _).
  pose proof (single_life c cx ck net md reqs) as S. destruct (it_single c cx ck net reqs (iterator_new md)) as [[it out] o]. destruct S as (S1&S2&_).
  split; [|exact S2]. rewrite single_out. exact S1.
Qed.
Print Assumptions C74_single_partial.
Theorem C74_unary_partial : forall (A B : Type) (c : client A B) ck net md m u timeout get a,
  cl_proto c <> PConnect ->
  let '(out, o) := use_grpc_unary c ck net md m u timeout get a in
  out = cr_out (execute_unary c ck net md m u timeout get a None)
  /\ ((forall msg, out <> CErr (EConnect Unimplemented msg [])) -> lifecycle o Over).
Proof.
  intros A B c ck net md m u timeout get a Hp. unfold use_grpc_unary, execute_unary, send_unary. set (cx := call_ctx _ _ _ _ _ _ _).
  pose proof (single_life c cx ck net md ([a], None)) as S. destruct (it_single c cx ck net ([a], None) (iterator_new md)) as [[it out] o].
  destruct S as (S1&S2&_). split.
  - destruct (cl_proto c); [congruence|rewrite single_out; exact S1..].
  - intro N. apply S2. destruct (Compare_dec.le_gt_dec (List.length (sr_msgs (send_stream c cx ck net md ([a], None) None))) 1) as [L|L]; [exact L|].
    exfalso. unfold single_result, consume_single in S1. cbn [cr_out] in S1.
    destruct (sr_msgs (send_stream c cx ck net md ([a], None) None)) as [|x [|y l]]; cbn in L; try lia. exact (N _ S1).
Qed.
Print Assumptions C74_unary_partial.

(** Finding: a server that answers such a call with two messages leaves the client with an open response after the call has
    raised: the second message makes it raise, without closing the iterator.  It is closed when it is garbage collected, which
    the traceback of the exception puts off. *)
Definition ex_two_messages : stream_response := ex_stream PGrpc [ex_frame 0 [7]; ex_frame 0 [8]; ex_frame 0 [9]] None [(lit "grpc-status", lit "0")].
Theorem C74_single_refuted : exists (c : client pystr pystr) net out o,
  use_grpc_unary c ex_clocks net None ex_method UNone None false [1] = (CErr out, o) /\ lifecycle o Held.
Proof.
  exists (ex_client PGrpc None), (ex_answer ex_two_messages). eexists _, _. split; [vm_compute; reflexivity|]. apply lc_held. repeat constructor.
Qed.
Print Assumptions C74_single_refuted.

(** A use of an iterator that meets each case: never asked; two messages; closed after one; taken to its end. *)
Definition ex_use (asks : list ask) := use_bidi_stream (ex_client PGrpc None) ex_clocks (ex_answer ex_two_messages) None ex_method UNone None ([[1]], None) asks.
Example C74_example :
  snd (ex_use []) = []
  /\ map (fun e => match e with HRequest _ => 0 | HResponse => 1 | HRead (Some _) => 2 | HRead None => 3 | HRelease => 4 end) (snd (ex_use [AskNext; AskNext])) = [0; 1; 2; 2]
  /\ map (fun e => match e with HRequest _ => 0 | HResponse => 1 | HRead (Some _) => 2 | HRead None => 3 | HRelease => 4 end) (snd (ex_use [AskNext; AskThrow FClose; AskNext])) = [0; 1; 2; 4]
  /\ snd (fst (ex_use (repeat AskNext 5))) = [AMsg [7]; AMsg [8]; AMsg [9]; AEnd (COk tt); AEnd (COk tt)]
  /\ map (fun e => match e with HRequest _ => 0 | HResponse => 1 | HRead (Some _) => 2 | HRead None => 3 | HRelease => 4 end) (snd (ex_use (repeat AskNext 5))) = [0; 1; 2; 2; 2; 3; 4].
Proof. repeat split; vm_compute; reflexivity. Qed.

(** ** C75 *)

(** If the first [n] parts of the body of a response the client can read contain the frames of [ms], then asking for that many
    messages gives them, and no part is read that was not needed: any fewer of them do not contain that many frames. *)
Theorem C75_timely : forall (A B : Type) (c : client A B) ck net md m u timeout reqs rq resp z,
  sr_sent (execute_bidi_stream c ck net md m u timeout reqs None) = [rq] -> nw_stream net rq = SResp resp -> acceptable c resp z ->
  forall n fs more tl ms, frames_of (List.concat (firstn n (sp_chunks resp))) (fs ++ more) tl ->
  Forall2 (message_frame (reader_kind (cl_proto c)) z (cl_max c) (k_dec_res (cl_codec c))) fs ms -> ms <> [] ->
  exists j it, (j <= n)%nat
    /\ use_bidi_stream c ck net md m u timeout reqs (repeat AskNext (List.length ms))
       = (it, map AMsg ms, HRequest rq :: HResponse :: reads (firstn j (sp_chunks resp)))
    /\ forall i fs' tl', (i < j)%nat -> frames_of (List.concat (firstn i (sp_chunks resp))) fs' tl' -> (List.length fs' < List.length ms)%nat.
Proof.
  intros A B c ck net md m u timeout reqs rq resp z Hs Hr (H1&H2&H3) n fs more tl ms Hf Hm Hne. unfold execute_bidi_stream, use_bidi_stream in *.
  set (cx := call_ctx _ _ _ _ _ _ _) in *.
  assert (rq = call_request c cx ck reqs) as ->.
  { rewrite send_stream_end in Hs. cbv zeta in Hs. revert Hs.
    repeat (first [(intro Hs; injection Hs as <-; reflexivity) | match goal with |- context [match ?x with _ => _ end] => destruct x end]). }
  set (cf := mk_rconf (reader_kind (cl_proto c)) z (cl_max c) (k_dec_res (cl_codec c))).
  set (md' := handle_response_headers md (sp_headers resp)).
  destruct (run_timely c cx ck net reqs (call_request c cx ck reqs) resp cf fs ms Hm (reader_new md') (sp_chunks resp) n tl more eq_refl Hf)
    as (j&it&L&R&Mn).
  exists j, it. split; [exact L|]. split; [|exact Mn].
  destruct ms as [|x ms]; [congruence|]. cbn [List.length repeat it_run it_step it_pos iterator_new it_md] in *.
  change (read_resume cf (reader_new md')) with (@YEnd B (reader_new md')) in R.
  rewrite start_end. cbv zeta. rewrite Hr, H1, H2, H3. change (200 =? 200) with true. cbv iota. fold md'. fold cf.
  destruct (it_go _ _ _ _ _ _ _) as [[it1 a] o1]. destruct (it_run c cx ck net reqs it1 (repeat AskNext (List.length ms))) as [[it2 xs] o2].
  injection R as E1 E2 E3 E4. rewrite E1, E2, E3. cbn [map List.app]. now rewrite E4.
Qed.
Print Assumptions C75_timely.

(** The second of two messages is complete with the third of four parts: it is delivered without waiting for the fourth. *)
Definition ex_parts : list bytes := [ex_frame 0 [7] ++ [0; 0]; [0; 0]; [1; 8; 0]; [0; 0; 0; 1; 9]].
Definition ex_parts_net : network := ex_answer (ex_stream PGrpc ex_parts None [(lit "grpc-status", lit "0")]).
Example C75_example :
  acceptable (ex_client PGrpc None) (ex_stream PGrpc ex_parts None [(lit "grpc-status", lit "0")]) identity_comp
  /\ frames_of (List.concat (firstn 3 ex_parts)) [mk_frame 0 [7]; mk_frame 0 [8]] [0]
  /\ Forall2 (message_frame RGrpc identity_comp None (@Ok pystr)) [mk_frame 0 [7]; mk_frame 0 [8]] [[7]; [8]]
  /\ exists rq it, use_bidi_stream (ex_client PGrpc None) ex_clocks ex_parts_net None ex_method UNone None ([[1]], None) [AskNext; AskNext]
     = (it, [AMsg [7]; AMsg [8]], HRequest rq :: HResponse :: reads (firstn 3 ex_parts)).
Proof.
  split; [repeat split|]. split; [|split].
  - apply (fo_cons (mk_frame 0 [7]) [0;0;0;0;1;7] [0;0;0;0;1;8;0]); [exists 0, 0, 0, 1; auto|].
    apply (fo_cons (mk_frame 0 [8]) [0;0;0;0;1;8] [0]); [exists 0, 0, 0, 1; auto|]. constructor. left. cbn. lia.
  - repeat constructor; eexists; (split; [left; split; reflexivity|]); (split; [exact I|reflexivity]).
  - eexists _, _. vm_compute. reflexivity.
Qed.
