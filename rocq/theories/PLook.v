(** C96: reading the response metadata of a call does not change the call. *)
From Coq Require Import List NArith ZArith Bool String Lia Arith.
From Verif Require Import MBase MPyStr MHeaders MJson MWire MEnvelope SEnvelope LEnvelope MTimeout MProtocol MClient MIter MScope MServe
  MLook SLook LLook PProtocol PClient.
Import ListNotations.
Local Open Scope N_scope.

(** A unary call sends the same request and has the same outcome whatever ResponseMetadata is in scope. *)
Theorem C96_unary {A B} (c : client A B) ck net m u timeout get a stop md md' :
  let x := execute_unary c ck net md m u timeout get a stop in
  let y := execute_unary c ck net md' m u timeout get a stop in
  cr_sent x = cr_sent y /\ cr_out x = cr_out y.
Proof.
  cbv zeta. unfold execute_unary, send_unary. destruct (cl_proto c) eqn:P; [apply connect_like| |];
    (destruct (send_like c (call_ctx c (ck_start ck) m u timeout false get) ck net md md' ([a], None) (single_stop stop)) as (E1&E2&E3);
     [intro X; congruence|]; unfold single_result; cbn [cr_sent cr_out]; rewrite E1, E2, E3; auto).
Qed.
Print Assumptions C96_unary.

(** So does a streaming call, if the end-of-stream messages that it gets have metadata that can be read. *)
Theorem C96_streams {A B} (c : client A B) ck net m u timeout stop md md' : readable_net c net ->
  (forall a, let x := execute_server_stream c ck net md m u timeout a stop in
             let y := execute_server_stream c ck net md' m u timeout a stop in
             sr_sent x = sr_sent y /\ sr_msgs x = sr_msgs y /\ sr_end x = sr_end y)
  /\ (forall reqs, let x := execute_bidi_stream c ck net md m u timeout reqs stop in
                   let y := execute_bidi_stream c ck net md' m u timeout reqs stop in
                   sr_sent x = sr_sent y /\ sr_msgs x = sr_msgs y /\ sr_end x = sr_end y)
  /\ (forall reqs, let x := execute_client_stream c ck net md m u timeout reqs stop in
                   let y := execute_client_stream c ck net md' m u timeout reqs stop in
                   cr_sent x = cr_sent y /\ cr_out x = cr_out y).
Proof.
  intro R. repeat split; try (apply send_like; exact R).
    unfold execute_client_stream, single_result. cbn [cr_out].
    destruct (send_like c (call_ctx c (ck_start ck) m u timeout true false) ck net md md' reqs (single_stop stop) R) as (_&E2&E3).
    rewrite E2, E3. reflexivity.
Qed.
Print Assumptions C96_streams.

(** Any program: blocks entered, left and copied into tasks in any order, any number of streams, asked in any order and in any
    context.  Every stream answers, and uses the HTTP library, as it does by itself with no block at all. *)
Theorem C96_history {A B} (h : list (look_op A B)) j k :
  nth_error (made h) j = Some k -> readable_net (lc_client k) (lc_net k) ->
  let s := snd (look_run look_new h) in
  let y := alone k None (asked_of j s) in
  answers_of j s = snd (fst y) /\ events_of j s = snd y.
Proof.
  intros E R. apply history_make; auto; [|cbn; lia]. cbn [look_new lw_streams List.length]. rewrite Nat.sub_0_r. apply made_nth. exact E.
Qed.
Print Assumptions C96_history.

(** An object that was in scope exactly when the stream [j] was asked ends up with what that stream reports by itself. *)
Theorem C96_reported {A B} (h : list (look_op A B)) i j k :
  nth_error (made h) j = Some k -> quiet h -> matched i j (snd (look_run look_new h)) ->
  it_md (fst (fst (alone k (Some md_new) (asked_of j (snd (look_run look_new h))))))
  = Some (ro_md (sc_object (lw_scopes (fst (look_run look_new h))) i)).
Proof.
  intros E Q Mt. refine (history_make_report h look_new i j k Q _ _ Mt); [|cbn; lia].
  cbn [look_new lw_streams List.length]. rewrite Nat.sub_0_r. apply made_nth. exact E.
Qed.
Print Assumptions C96_reported.

(** ** Cases *)

Definition look_end (text : string) : bytes := ex_frame 2 (lit text).
Definition look_net (text : string) : network := ex_answer (ex_stream PConnect [ex_frame 0 [7]; look_end text] None []).
Definition look_stream (text : string) : look_call pystr pystr :=
  mk_lc (ex_client PConnect None) (call_ctx (ex_client PConnect None) 0%Z ex_method UNone None true false) ex_clocks (look_net text) ([[1]], None).
Definition look_good : look_call pystr pystr := look_stream "{""metadata"":{""x"":[""5""]}}".

Lemma look_good_readable : readable_net (lc_client look_good) (lc_net look_good).
Proof.
  intros _ rq resp z E Z fs tl f d F Hf Ef C. cbn [lc_net look_good look_stream look_net ex_answer nw_stream] in E. injection E as <-. vm_compute in Z. injection Z as <-.
  cbn [sp_chunks ex_stream List.concat] in F. rewrite app_nil_r in F.
  assert (F' : frames_of (ex_frame 0 [7] ++ look_end "{""metadata"":{""x"":[""5""]}}") [mk_frame 0 [7]; mk_frame 2 (lit "{""metadata"":{""x"":[""5""]}}")] []).
  { apply fo_cons; [exists 0, 0, 0, 1; split; reflexivity|]. rewrite <- (app_nil_r (look_end _)).
    apply fo_cons; [exists 0, 0, 0, 24; split; reflexivity|]. apply frames_of_nil. }
  destruct (frames_of_det _ _ _ F _ _ F') as (->&->). destruct Hf as [<-|[<-|[]]]; [discriminate|].
  destruct C as [(_&->)|(X&_)]; [|discriminate]. intros o v J D T. vm_compute in J. injection J as <-. vm_compute in D. injection D as <-.
  eexists. split; [reflexivity|]. intros k x [X|[]]. injection X as <- <-. exact I.
Qed.

(** Two streams used by turns, one in a block of its own, and a task that looks at the other: both answer as usual, and the block
    has the trailers of its stream. *)
Definition look_program : list (look_op pystr pystr) :=
  [LMake look_good; LScope (Enter 0 0); LMake look_good; LScope (Copy 0 1); LAsk 0 1 AskNext; LScope (Exit 0 0);
   LScope (Enter 2 1); LAsk 2 0 AskNext; LAsk 1 1 AskNext; LAsk 2 0 (AskThrow FClose)].
Example C96_example :
  readable_net (lc_client look_good) (lc_net look_good)
  /\ nth_error (made look_program) 1 = Some look_good /\ quiet look_program
  /\ matched 0 1 (snd (look_run look_new look_program))
  /\ answers_of 1 (snd (look_run look_new look_program)) = [AMsg [7]; AEnd (COk tt)]
  /\ answers_of 0 (snd (look_run look_new look_program)) = [AMsg [7]; AEnd (CRaw FClose)]
  /\ h_allitems (rm_trailers (ro_md (sc_object (lw_scopes (fst (look_run look_new look_program))) 0))) = [(lit "x", lit "5")].
Proof.
  split; [exact look_good_readable|]. split; [reflexivity|]. split.
  { intros c r. cbn. intuition discriminate. }
  split; [|repeat split; vm_compute; reflexivity].
  match goal with |- matched _ _ ?s => let v := eval vm_compute in (map (fun x => (se_stream x, se_scope x)) s) in
    assert (E : map (fun x => (se_stream x, se_scope x)) s = v) by (vm_compute; reflexivity) end.
  unfold matched. apply Forall_forall. intros x Hx. apply (in_map (fun x => (se_stream x, se_scope x))) in Hx. rewrite E in Hx. cbn in Hx.
  destruct Hx as [X|[X|[X|[X|[]]]]]; injection X as <- <-; split; congruence.
Qed.

(** The code does not keep the property when the metadata of an end-of-stream message cannot be read: without a block the call
    succeeds, or fails with the error that the server sent; in a block it fails, with another error. *)
Theorem C96_unreadable_refuted : exists (c : client pystr pystr) net net',
  (let call md n := execute_server_stream c ex_clocks n md ex_method UNone None [1] None in
   sr_end (call None net) = COk tt
   /\ sr_end (call (Some md_new) net) = CErr (EConnect Unavailable (lit "object is not iterable") [])
   /\ sr_end (call None net') = CErr (EConnect NotFound (lit "gone") [])
   /\ sr_end (call (Some md_new) net') = CErr (EConnect Unavailable (lit "object has no attribute 'items'") [])).
Proof.
  exists (ex_client PConnect None), (look_net "{""metadata"":{""x"":5}}"),
    (look_net "{""metadata"":[1],""error"":{""code"":""not_found"",""message"":""gone""}}").
  repeat split; vm_compute; reflexivity.
Qed.
Print Assumptions C96_unreadable_refuted.

(** A stream called in a block but used after it: the block learns nothing, although the response had trailers. *)
Theorem C96_made_inside_refuted : exists (k : look_call pystr pystr) h,
  h = [LScope (Enter 0 0); LMake k; LScope (Exit 0 0); LAsk 0 0 AskNext; LAsk 0 0 AskNext]
  /\ ro_md (sc_object (lw_scopes (fst (look_run look_new h))) 0) = md_new
  /\ exists m, it_md (fst (fst (alone k (Some md_new) [AskNext; AskNext]))) = Some m /\ h_allitems (rm_trailers m) = [(lit "x", lit "5")].
Proof. exists look_good. eexists. split; [reflexivity|]. split; [vm_compute; reflexivity|]. eexists. split; vm_compute; reflexivity. Qed.
Print Assumptions C96_made_inside_refuted.

(** A stream used in a block, whose end is met in another block inside it: its trailers go to the inner one. *)
Theorem C96_inner_refuted : exists (k : look_call pystr pystr) h,
  h = [LScope (Enter 0 0); LMake k; LAsk 0 0 AskNext; LScope (Enter 0 1); LAsk 0 0 AskNext; LScope (Exit 0 1); LScope (Exit 0 0)]
  /\ (let obj i := ro_md (sc_object (lw_scopes (fst (look_run look_new h))) i) in
      h_allitems (rm_trailers (obj 0%nat)) = [] /\ h_allitems (rm_trailers (obj 1%nat)) = [(lit "x", lit "5")]).
Proof. exists look_good. eexists. split; [reflexivity|]. cbv zeta. split; vm_compute; reflexivity. Qed.
Print Assumptions C96_inner_refuted.
