(** C82: through a bidirectional stream, a client application and a method talk as if face to face. *)
From Coq Require Import List NArith ZArith Bool String Lia.
From Verif Require Import MBase MPyStr MHeaders SHeaders MWire MTimeout MEnvelope MProtocol SProtocol MClient SClient MServer MAsgi SServer SLink LLink LLink2 LNet MDuplex SDuplex
  LDuplex LCausal SDialogue LDialogue PProtocol PClient PResponse PLink PDuplex.
Import ListNotations.
Local Open Scope N_scope.

(** The client and the server fit, and the client's request for the stream has reached the application.  Then for every client
    application: as long as the server reports of the client what the client has written, in pieces of any size and with any
    delay in both directions, what the method is told and says is what it would be told and would say if the two were face to
    face, up to where the response breaks off; if all that the method said was handed to the server, it is all of it, and the
    client reads what the method said. *)
Theorem C82_dialogue : forall (A B : Type) (c : client A B) (ap : app A B) m mi f k ck net md u hist timeout reqs stop now sc rq,
  let ep := EpBidi mi f in
  fits c ap m ep k -> called_with u hist -> timeout_fits c timeout hist ->
  In rq (sr_sent (execute_bidi_stream c ck net md m u timeout reqs stop)) -> head_reaches (cl_address c) rq sc ->
  exists cx zc, context_of (cl_proto c) true hist (effective_timeout timeout (cl_timeout c)) mi cx
    /\ dget (cl_comps c) (z_name (negotiate_compression (accept_header_value c) (ap_comps ap))) = Some zc
    /\ forall (says : talker A B) watch send,
         steady says ->
         (forall a d, In (Told (PMsg a)) (dialogue says (f cx) false 0 []) -> k_enc_req (cl_codec c) a = Ok d -> fits_in (ap_max ap) d) ->
         (forall b d, In (Said b) (dialogue says (f cx) false 0 []) -> k_enc_res k b = Ok d -> fits_in (cl_max c) d) ->
         (forall evs t, t = snd (asgi_conversation ap now sc (mk_env evs None watch send)) -> relayed c zc says t ->
            (exists rest, dialogue says (f cx) false 0 [] = dialog_of t ++ rest)
            /\ (List.length (bodies (sent t)) = List.length (yielded t) ->
                dialog_of t = dialogue says (f cx) false 0 [] /\ client_reads c zc (bodies (sent t)) = yielded t))
         /\ ((forall ys, exists bs, client_writes c (fst (says ys)) bs) -> converses says (f cx) false 0 [] ->
             exists evs, relayed c zc says (snd (asgi_conversation ap now sc (mk_env evs None watch send)))).
Proof.
  intros A B c ap m mi f k ck net md u hist timeout reqs stop now sc rq ep F C Tf Irq (H1&H2&H3&H4&H5).
  unfold execute_bidi_stream in Irq. rewrite send_stream_sent_rq in Irq. destruct Irq as [Erq|[]].
  set (ccx := call_ctx c (ck_start ck) m u timeout true false) in *.
  set (rq0 := mk_rq (lit "POST") (call_url c m) (h_allitems (cx_headers ccx)) (request_content c [] None) (timeout_s ccx (ck_send ck))).
  destruct (asgi_opens_undoes c ap m ep k ck u hist timeout true ([], None) now sc (mk_env [RReq [] false] None WIdle (fun _ => SOk)) rq0 F C Tf (fun _ => conj eq_refl eq_refl) eq_refl)
    as (hs&cx&rz&Rz&O1&O2&O3&_).
  { rewrite <- Erq in *. cbn [rq_method rq_url rq_headers] in *. unfold arrives_asgi, rq0. cbn [rq_method rq_headers rq_body en_recv en_cut en_watch en_send request_content].
    split; [exact H1|]. split; [exact H2|]. split; [exact H3|]. split; [exact H4|]. split; [exact H5|]. split; [reflexivity|].
    split; [exists [], [], []; split; reflexivity|]. split; [reflexivity|]. split; [reflexivity|]. intro; reflexivity. }
  { intros a d []. }
  destruct (chosen_compression c ap m ep k F) as (zc&x&Dc&U&_).
  pose proof F as (_&_&_&_&_&_&Req&Res&_).
  exists cx, zc. split; [exact O2|]. split; [exact Dc|]. intros says watch send St Sm Sh. split.
  - intros evs t Et Rl. destruct (bidi_conversation ap now sc mi f hs (cl_proto c) cx k rz _ (mk_env evs None watch send) O1 O3) as (l&Hl&El). rewrite <- Et in El. cbn [en_send en_cut en_recv] in El.
    pose proof (drive_dialogue c zc rz _ (ap_max ap) k says St Req Res Rz U send (cl_proto c) (k_name k) (f cx) (RqStart evs) rs_new (mk_lst (mk_ast 0 []) false 0) [] false O []
      (conj eq_refl (conj eq_refl eq_refl)) (Forall2_nil _) (Forall_nil _) (fun a I d => Sm a d I) (fun b I d => Sh b d I)) as D.
    destruct (drive_t _ _ _ _ _ _ _) as [[[s rs] e] t0]. cbn [snd] in El. subst t.
    rewrite El in Rl |- *. clear El. rewrite dialog_app, dialog_sends, app_nil_r, sent_app, sent_map, bodies_app, Hl, app_nil_r, yielded_app, yielded_sends, app_nil_r.
    destruct D as (rest&D1&D2).
    { intros v0 y v E. apply (Rl v0 y (v ++ map DSend l)). rewrite E, <- app_assoc. reflexivity. }
    split; [exists rest; exact D1|]. intros Lv. destruct (D2 Lv) as [-> W]. rewrite app_nil_r in D1. split; [now rewrite D1|].
    apply (reads_back c zc _ k Res U); [|exact W]. apply Forall_forall. intros b Ib d Hd. apply (Sh b d); [|exact Hd]. rewrite D1. cbn [List.app] in Ib.
    clear -Ib. induction t0 as [|ev t0 IH]; [exact Ib|]. destruct ev; cbn in *; auto. destruct Ib as [->|Ib]; auto.
  - intros Wr Cv.
    destruct (some_relay c zc rz (negotiate_compression (accept_header_value c) (ap_comps ap)) (ap_max ap) k says St Req Res Rz U send (cl_proto c) (k_name k) (f cx) Wr RqStart rs_new (mk_lst (mk_ast 0 []) false 0) [] false O [])
      as (evs&R).
    { left. auto. }
    { constructor. }
    { constructor. }
    { intros _. exists []. split; [constructor|]. split; [reflexivity|lia]. }
    { intros a I d. exact (Sm a d I). }
    { intros b I d. exact (Sh b d I). }
    { exact Cv. }
    exists evs. destruct (bidi_conversation ap now sc mi f hs (cl_proto c) cx k rz _ (mk_env evs None watch send) O1 O3) as (l&Hl&El). rewrite El. cbn [en_send en_cut en_recv].
    intros w y v E. destruct (app_split _ _ _ _ _ E) as [(d&E1&E2)|(d&E1&E2)]; [exact (R w y d E1)|].
    exfalso. apply (f_equal taken) in E2. rewrite taken_app, taken_sends in E2. destruct (taken d); discriminate E2.
Qed.
Print Assumptions C82_dialogue.

(** A client application that sends a first message, waits for the answer, sends the answer doubled (if it is short) and ends its stream;
    a method that answers each of two messages with itself and the end with a last message.  The messages, compressed, arrive
    in pieces, one of them empty. *)
Definition ex_asks : talker pystr pystr := fun ys => match ys with [] => ([lit "hi"], false) | y :: _ => ([lit "hi"; firstn 4 (y ++ y)], true) end.
Definition ex_answers : endpoint pystr pystr :=
  EpBidi ex_method (fun _ => Pull (fun x => Yield (match x with PMsg a => a | _ => [] end) quiet
    (Pull (fun x => Yield (match x with PMsg a => a | _ => [] end) quiet (Pull (fun x => match x with PEnd => Yield (lit "bye") quiet (Ret tt) | _ => Ret tt end)))))).
Definition ex_hi : bytes := match write_message (k_enc_req ex_codec) (Some PEnvelope.ex_comp) (lit "hi") with Ok b => b | Raise _ => [] end.
Definition ex_hihi : bytes := match write_message (k_enc_req ex_codec) (Some PEnvelope.ex_comp) (lit "hihi") with Ok b => b | Raise _ => [] end.
Definition ex_pieces : list recv :=
  [RReq (firstn 3 ex_hi) true; RReq [] true; RReq (skipn 3 ex_hi) true; RReq (firstn 7 ex_hihi) true; RReq (skipn 7 ex_hihi) false].
Definition ex_rq (p : proto) : http_request := hd (mk_rq [] [] [] ([], None) None) (sr_sent (link_call false p ex_answers [])).
Definition ex_talk (p : proto) : list (devent pystr pystr) :=
  snd (asgi_conversation (link_app ex_answers) 0%Z (scope_of (lit "http://h") (ex_rq p)) (mk_env ex_pieces None WIdle (fun _ => SOk))).

Lemma ex_asks_steady : steady ex_asks.
Proof. intros [|y ys] more; [destruct more as [|z more]; eexists; (split; [|discriminate])|exists []; split; [reflexivity|auto]]; [symmetry; apply app_nil_r|cbn; reflexivity]. Qed.
Ltac ex_piece ys bs Rd W := match goal with |- reports _ _ _ ?w (RReq ?b ?mo) =>
  exists b, mo, ys, [], bs, (skipn (List.length (List.concat (received w) ++ b)) (List.concat bs)); split; [reflexivity|]; split; [exact Rd|]; split; [exact W|];
  split; [vm_compute; reflexivity|]; solve [discriminate | intros _; split; vm_compute; reflexivity] end.
Lemma ex_relayed p : relayed (link_client p) PEnvelope.ex_comp ex_asks (ex_talk p).
Proof.
  assert (W1 : client_writes (link_client p) [lit "hi"] [ex_hi]) by (repeat constructor).
  assert (W2 : client_writes (link_client p) [lit "hi"; lit "hihi"] [ex_hi; ex_hihi]) by (repeat constructor).
  assert (Rd0 : client_reads (link_client p) PEnvelope.ex_comp [] = []) by reflexivity.
  assert (E : exists a b c d e, ex_talk p = [DAsk; DRecv (RReq (firstn 3 ex_hi) true); DRecv (RReq [] true); DRecv (RReq (skipn 3 ex_hi) true); DGive (PMsg (lit "hi")); DYield (lit "hi");
     DSend a; DSend b; DAsk; DRecv (RReq (firstn 7 ex_hihi) true); DRecv (RReq (skipn 7 ex_hihi) false); DGive (PMsg (lit "hihi")); DYield (lit "hihi"); DSend c; DAsk; DGive PEnd;
     DYield (lit "bye"); DSend d] ++ map DSend e
     /\ client_reads (link_client p) PEnvelope.ex_comp (bodies [a; b]) = [lit "hi"]).
  { destruct p; (eexists _, _, _, _, [_; _]; split; [vm_compute; reflexivity|vm_compute; reflexivity])
      || (eexists _, _, _, _, [_]; split; [vm_compute; reflexivity|vm_compute; reflexivity]). }
  destruct E as (a&b&c&d&e&E&Rd). intros w x r Ew. rewrite E in Ew. clear E. cbn [List.app] in Ew.
  destruct w as [|? w]; cbn [List.app] in Ew; [discriminate Ew|injection Ew as <- Ew].
  do 3 (destruct w as [|? w]; cbn [List.app] in Ew; [injection Ew as <- <-; ex_piece (@nil pystr) [ex_hi] Rd0 W1|injection Ew as <- Ew]).
  do 5 (destruct w as [|? w]; cbn [List.app] in Ew; [discriminate Ew|injection Ew as <- Ew]).
  do 2 (destruct w as [|? w]; cbn [List.app] in Ew; [injection Ew as <- <-; ex_piece [lit "hi"] [ex_hi; ex_hihi] Rd W2|injection Ew as <- Ew]).
  do 7 (destruct w as [|? w]; cbn [List.app] in Ew; [discriminate Ew|injection Ew as <- Ew]).
  exfalso. apply (f_equal taken) in Ew. rewrite taken_app, taken_sends in Ew. destruct (taken w); discriminate Ew.
Qed.

(** All that the theorem asks for holds here, for each protocol, and the dialogue is what one expects. *)
Lemma ex_writes p ys : exists bs, client_writes (link_client p) (fst (ex_asks ys)) bs.
Proof.
  assert (W : forall d, (List.length d <= 4)%nat -> exists b, write_message (k_enc_req ex_codec) (Some PEnvelope.ex_comp) d = Ok b).
  { intros d L. destruct d as [|a [|b [|c [|e [|g d]]]]]; [| | | | |exfalso; cbn in L; lia]; (eexists; reflexivity). }
  destruct ys as [|y ys]; [exists [ex_hi]; repeat constructor|].
  destruct (W (firstn 4 (y ++ y))) as (b&Hb); [apply firstn_le_length|]. exists [ex_hi; b]. constructor; [reflexivity|]. constructor; [exact Hb|constructor].
Qed.
Example C82_example : forall p cx,
  let f := match ex_answers with EpBidi _ f => f | _ => fun _ => Ret tt end in
  fits (link_client p) (link_app ex_answers) ex_method ex_answers ex_codec
  /\ called_with link_headers [Add (lit "X-A") (lit "1")] /\ timeout_fits (link_client p) None [Add (lit "X-A") (lit "1")]
  /\ In (ex_rq p) (sr_sent (link_call false p ex_answers [])) /\ head_reaches (lit "http://h") (ex_rq p) (scope_of (lit "http://h") (ex_rq p))
  /\ steady ex_asks /\ relayed (link_client p) PEnvelope.ex_comp ex_asks (ex_talk p)
  /\ List.length (bodies (sent (ex_talk p))) = List.length (yielded (ex_talk p))
  /\ (forall ys, exists bs, client_writes (link_client p) (fst (ex_asks ys)) bs)
  /\ converses ex_asks (f cx) false 0 []
  /\ dialogue ex_asks (f cx) false 0 [] = [Told (PMsg (lit "hi")); Said (lit "hi"); Told (PMsg (lit "hihi")); Said (lit "hihi"); Told PEnd; Said (lit "bye")]
  /\ (forall a d, In (Told (PMsg a)) (dialogue ex_asks (f cx) false 0 []) -> k_enc_req ex_codec a = Ok d -> fits_in (Some 10) d)
  /\ (forall b d, In (Said b) (dialogue ex_asks (f cx) false 0 []) -> k_enc_res ex_codec b = Ok d -> fits_in (Some 1000) d).
Proof.
  intros p cx. cbv zeta. destruct (link_connected false p ex_answers) as (F&C&_&T&_). split; [exact F|]. split; [exact C|]. split; [exact T|].
  split; [unfold ex_rq, link_call, execute_bidi_stream; rewrite send_stream_sent_rq; left; reflexivity|]. split.
  { assert (G : good_request (lit "http://h") (ex_rq p)).
    { unfold ex_rq, link_call, execute_bidi_stream. rewrite send_stream_sent_rq. split; [eexists; reflexivity|]. split; [destruct p; vm_compute; repeat constructor|destruct p; vm_compute; reflexivity]. }
    destruct G as ((t&E)&A&Hb). destruct (scope_arrives _ _ _ E A Hb) as (S1&S2&S3&S4&S5&_). split; [exact S1|]. split; [exact S2|]. split; [exact S3|]. split; [exact S4|exact S5]. }
  split; [exact ex_asks_steady|]. split; [exact (ex_relayed p)|]. split; [destruct p; vm_compute; reflexivity|]. split; [exact (ex_writes p)|].
  split; [cbn; auto|]. assert (D : dialogue ex_asks (match ex_answers with EpBidi _ f => f | _ => fun _ => Ret tt end cx) false 0 []
    = [Told (PMsg (lit "hi")); Said (lit "hi"); Told (PMsg (lit "hihi")); Said (lit "hihi"); Told PEnd; Said (lit "bye")]) by (vm_compute; reflexivity).
  split; [exact D|]. rewrite D. split.
  - intros a d I. cbn [In] in I. repeat (destruct I as [I|I]; [try discriminate I; injection I as <-; intros X; injection X as <-; vm_compute; discriminate|]). destruct I.
  - intros a d I. cbn [In] in I. repeat (destruct I as [I|I]; [try discriminate I; injection I as <-; intros X; injection X as <-; vm_compute; discriminate|]). destruct I.
Qed.
