(** Lemmas on the iterator of a streaming call. *)
From Coq Require Import List NArith ZArith Bool String Lia ZifyBool ZifyNat.
From Verif Require Import MBase MPyStr MHeaders LBase MWire MTimeout MEnvelope SEnvelope LEnvelope MProtocol MClient SClient LClient MIter SIter.
Import ListNotations.
Local Open Scope N_scope.

(** ** The generator [_read_messages] and the list of what it yields *)

Lemma read_loop_next {M} (cf : rconf M) : forall f r n, r_next r = Some n -> (List.length (r_buf r) < f)%nat ->
  read_loop f cf r = match read_known cf r with
                     | YMsg m r' => let '(ms, e, r'') := match peek_len r' with
                                                         | None => ([], None, r')
                                                         | Some r1 => read_loop (pred f) cf r1
                                                         end in (m :: ms, e, r'')
                     | YEnd r' => ([], None, r')
                     | YErr e r' => ([], Some e, r')
                     end.
Proof.
  intros [|f] r n En L; [lia|]. cbn [read_loop pred]. unfold read_known. rewrite En.
  destruct (r_buf r) as [|p b]; [reflexivity|]. destruct (_ <? _); [reflexivity|].
  destruct (read_frame _ _ _ _) as [[m| |e] r1]; try reflexivity. destruct (peek_len r1); reflexivity.
Qed.

Lemma peek_inv r r1 : peek_len r = Some r1 -> r_buf r1 = r_buf r /\ exists n, r_next r1 = Some n.
Proof. unfold peek_len. destruct (_ <? _); [discriminate|]. intro H. injection H as <-. split; [reflexivity|]. eexists. reflexivity. Qed.

Lemma read_known_shorter {M} (cf : rconf M) r m r' : read_known cf r = YMsg m r' -> (List.length (r_buf r') + 5 <= List.length (r_buf r))%nat.
Proof.
  unfold read_known. destruct (r_buf r) as [|p b] eqn:Eb; [discriminate|]. destruct (r_next r) as [n|]; [|discriminate].
  destruct (_ <? _) eqn:El; [discriminate|]. rewrite <- Eb in *.
  assert (Ld : (List.length (dropN (5 + n) (r_buf r)) + 5 <= List.length (r_buf r))%nat).
  { unfold dropN. rewrite skipn_length. unfold lenN in El. lia. }
  revert Ld. generalize (dropN (5 + n) (r_buf r)). intros d Ld.
  change (mk_reader d None (r_read r) (r_trl r) (r_md r)) with (with_buf r d None). rewrite read_frame_buf.
  destruct (read_frame cf p _ r) as [[x| |e] r2]; cbn [fst snd]; intro H; try discriminate H. injection H as <- <-. exact Ld.
Qed.

Lemma read_resume_shorter {M} (cf : rconf M) r m r' : read_resume cf r = YMsg m r' -> (List.length (r_buf r') + 5 <= List.length (r_buf r))%nat.
Proof.
  unfold read_resume. destruct (peek_len r) as [r1|] eqn:E; [|discriminate]. destruct (peek_inv _ _ E) as [Eb _]. intro H.
  apply read_known_shorter in H. now rewrite Eb in H.
Qed.

Lemma read_fuel {M} (cf : rconf M) : forall f1 f2 r n, r_next r = Some n -> (List.length (r_buf r) < f1)%nat -> (List.length (r_buf r) < f2)%nat ->
  read_loop f1 cf r = read_loop f2 cf r.
Proof.
  induction f1 as [|f1 IH]; intros f2 r n En L1 L2; [lia|]. rewrite !(read_loop_next cf _ r n En) by assumption.
  destruct (read_known cf r) as [m r'| |] eqn:Ek; try reflexivity. apply read_known_shorter in Ek.
  destruct (peek_len r') as [r1|] eqn:Ep; [|reflexivity]. destruct (peek_inv _ _ Ep) as [Eb [n' En']].
  cbn [pred]. rewrite (IH (pred f2) r1 n' En') by (rewrite Eb; lia). reflexivity.
Qed.

(** What a generator still yields. *)
Fixpoint drain {M} (cf : rconf M) (n : nat) (p : pause M) : list M * option exn * reader :=
  match p with
  | YEnd r => ([], None, r)
  | YErr e r => ([], Some e, r)
  | YMsg m r => match n with
                | O => ([m], None, r)
                | S n => let '(ms, e, r) := drain cf n (read_resume cf r) in (m :: ms, e, r)
                end
  end.
Definition pause_reader {M} (p : pause M) : reader := match p with YMsg _ r | YEnd r | YErr _ r => r end.
Definition buffered {M} (p : pause M) : nat := List.length (r_buf (pause_reader p)).

Lemma drain_fuel {M} (cf : rconf M) : forall n1 n2 p, (buffered p < n1)%nat -> (buffered p < n2)%nat -> drain cf n1 p = drain cf n2 p.
Proof.
  induction n1 as [|n1 IH]; intros n2 p L1 L2; [lia|]. destruct n2 as [|n2]; [lia|]. cbn [drain]. destruct p as [m r| |]; try reflexivity.
  destruct (read_resume cf r) as [m' r'|r'|e r'] eqn:E; [|destruct n1, n2; reflexivity..].
  apply read_resume_shorter in E. unfold buffered in *. cbn [pause_reader] in *. rewrite (IH n2) by (cbn [pause_reader]; lia). reflexivity.
Qed.

Lemma known_drain {M} (cf : rconf M) : forall f r n, r_next r = Some n -> (List.length (r_buf r) < f)%nat ->
  read_loop f cf r = drain cf f (read_known cf r).
Proof.
  induction f as [|f IH]; intros r n En L; [lia|]. rewrite (read_loop_next cf _ r n En L). cbn [drain pred].
  destruct (read_known cf r) as [m r'| |] eqn:Ek; try reflexivity. apply read_known_shorter in Ek. unfold read_resume.
  destruct (peek_len r') as [r1|] eqn:Ep; [|destruct f; reflexivity]. destruct (peek_inv _ _ Ep) as [Eb [n' En']].
  rewrite (IH r1 n' En') by (rewrite Eb; lia). reflexivity.
Qed.

Lemma known_short {M} (cf : rconf M) r : (buffered (read_known cf r) <= List.length (r_buf r))%nat.
Proof.
  unfold read_known, buffered. destruct (r_buf r) as [|q l] eqn:Eb; cbn [pause_reader]; [now rewrite Eb|]. rewrite <- Eb.
  destruct (r_next r) as [k|]; [|cbn [pause_reader]; lia]. destruct (_ <? _); [cbn [pause_reader]; lia|].
  assert (Ld : (List.length (dropN (5 + k) (r_buf r)) <= List.length (r_buf r))%nat) by (unfold dropN; rewrite skipn_length; lia).
  revert Ld. generalize (dropN (5 + k) (r_buf r)). intros d Ld.
  change (mk_reader d None (r_read r) (r_trl r) (r_md r)) with (with_buf r d None). rewrite read_frame_buf.
  destruct (read_frame cf q _ r) as [[y| |y] r2]; exact Ld.
Qed.

(** [list(reader.feed(data))] is what asking its generator again and again gives. *)
Lemma feed_drain {M} (cf : rconf M) r data n : (List.length (r_buf r ++ data) < n)%nat -> feed cf r data = drain cf n (feed_first cf r data).
Proof.
  intro L. unfold feed, feed_first. set (r0 := mk_reader _ _ _ _ _). change (r_buf r ++ data) with (r_buf r0) in L.
  change (r_next r) with (r_next r0). clearbody r0. cbv zeta.
  destruct (r_next r0) as [k|] eqn:En.
  - rewrite (known_drain cf _ r0 k En) by lia. destruct (r_buf r0) as [|p b] eqn:Eb.
    + unfold read_known. rewrite Eb. destruct n; [cbn in L; lia|]. reflexivity.
    + rewrite <- Eb in *. pose proof (known_short cf r0). apply drain_fuel; lia.
  - assert (Lf : (List.length (r_buf r0) < S (List.length (r_buf r0)))%nat) by lia. revert Lf. generalize (S (List.length (r_buf r0))). intros f Lf.
    cbn [read_loop]. rewrite En. unfold read_resume. destruct (r_buf r0) as [|p b] eqn:Eb; [destruct n; reflexivity|].
    destruct (peek_len r0) as [r1|] eqn:Ep; [|destruct n; reflexivity]. destruct (peek_inv _ _ Ep) as [Eb1 [k En1]]. rewrite <- Eb in *.
    rewrite (known_drain cf _ r1 k En1) by (rewrite Eb1; lia).
    pose proof (known_short cf r1).
    rewrite Eb1 in *. apply drain_fuel; lia.
Qed.

(** ** The iterator and [send_stream] *)

Definition weight {M} (p : pause M) : nat := (buffered p + match p with YMsg _ _ => 1 | _ => 0 end)%nat.
Definition size (chunks : list bytes) : nat := List.length (List.concat chunks).

Lemma resume_weight {M} (cf : rconf M) r : (weight (read_resume cf r) <= List.length (r_buf r))%nat.
Proof.
  destruct (read_resume cf r) as [m r'|r'|e r'] eqn:E; unfold weight, buffered; cbn [pause_reader].
  - apply read_resume_shorter in E. lia.
  - unfold read_resume in E. destruct (peek_len r) as [r1|] eqn:Ep; [|injection E as <-; lia].
    pose proof (known_short cf r1) as K. rewrite E in K. cbn in K. destruct (peek_inv _ _ Ep) as [Eb _]. rewrite Eb in K. unfold buffered in K. cbn in K. lia.
  - unfold read_resume in E. destruct (peek_len r) as [r1|] eqn:Ep; [|discriminate].
    pose proof (known_short cf r1) as K. rewrite E in K. destruct (peek_inv _ _ Ep) as [Eb _]. rewrite Eb in K. unfold buffered in K. cbn in K. lia.
Qed.

Lemma first_weight {M} (cf : rconf M) r ch : (weight (feed_first cf r ch) <= List.length (r_buf r) + List.length ch)%nat.
Proof.
  unfold feed_first. set (r0 := mk_reader _ _ _ _ _). rewrite <- app_length. change (r_buf r ++ ch) with (r_buf r0). clearbody r0. cbv zeta.
  destruct (r_buf r0) as [|p b] eqn:Eb; [unfold weight, buffered; cbn [pause_reader]; rewrite Eb; cbn; lia|]. rewrite <- Eb.
  destruct (r_next r0); [|apply resume_weight]. pose proof (known_short cf r0) as K.
  destruct (read_known cf r0) as [m r'| |] eqn:E; unfold weight; [apply read_known_shorter in E; unfold buffered; cbn; lia|lia..].
Qed.

Lemma pump_weight {M} (cf : rconf M) : forall chunks p m r rest o, pump cf p chunks = (StMsg m r rest, o) ->
  (weight (read_resume cf r) + size rest < weight p + size chunks)%nat.
Proof.
  induction chunks as [|ch cs IH]; intros p m r rest o H; cbn [pump] in H; destruct p as [m0 r0|r0|e r0]; try discriminate.
  - injection H as <- <- <- <-. pose proof (resume_weight cf r0). unfold weight at 2, buffered. cbn [pause_reader]. lia.
  - injection H as <- <- <- <-. pose proof (resume_weight cf r0). unfold weight at 2, buffered. cbn [pause_reader]. lia.
  - destruct (pump cf (feed_first cf r0 ch) cs) as [s o'] eqn:E. injection H as -> <-. apply IH in E. pose proof (first_weight cf r0 ch) as W.
    unfold size in *. cbn [List.concat]. rewrite app_length. unfold weight at 2, buffered. cbn [pause_reader]. lia.
Qed.

(** Asking for messages until the end, or until the fault of [stop]. *)
Definition fewer (stop : option (nat * fault)) : option (nat * fault) := match stop with Some (S n, f) => Some (n, f) | _ => None end.
Fixpoint gather {M} (cf : rconf M) (fuel : nat) (p : pause M) (chunks : list bytes) (stop : option (nat * fault))
  : list M * option fault * reader :=
  match fst (pump cf p chunks) with
  | StErr e r => ([], Some (FExn e), r)
  | StEnd r => ([], None, r)
  | StMsg m r rest =>
      match stop, fuel with
      | Some (O, f), _ => ([m], Some f, r)
      | _, O => ([m], None, r)
      | _, S fuel => let '(ms, f, r) := gather cf fuel (read_resume cf r) rest (fewer stop) in (m :: ms, f, r)
      end
  end.

Lemma gather_drain {M} (cf : rconf M) : forall fuel chunks p stop k, (weight p + size chunks <= fuel)%nat -> (buffered p < k)%nat ->
  gather cf fuel p chunks stop =
  (let '(ms, e, r1) := drain cf k p in
   let continue stop := match e with
                        | Some x => (ms, Some (FExn x), r1)
                        | None => let '(ms', f, r2) := consume cf r1 chunks stop in (ms ++ ms', f, r2)
                        end in
   match stop with
   | None => continue None
   | Some (n, f) => if Nat.ltb n (List.length ms) then (firstn (S n) ms, Some f, reader_at cf p n)
                    else continue (Some ((n - List.length ms)%nat, f))
   end).
Proof.
  induction fuel as [fuel IHf] using lt_wf_ind.
  assert (Msg : forall chunks m r0 stop k, (weight (YMsg m r0) + size chunks <= fuel)%nat -> (buffered (YMsg m r0) < k)%nat ->
    gather cf fuel (YMsg m r0) chunks stop =
    (let '(ms, e, r1) := drain cf k (YMsg m r0) in
     let continue stop := match e with
                          | Some x => (ms, Some (FExn x), r1)
                          | None => let '(ms', f, r2) := consume cf r1 chunks stop in (ms ++ ms', f, r2)
                          end in
     match stop with
     | None => continue None
     | Some (n, f) => if Nat.ltb n (List.length ms) then (firstn (S n) ms, Some f, reader_at cf (YMsg m r0) n)
                      else continue (Some ((n - List.length ms)%nat, f))
     end)).
  { intros chunks m r0 stop [|k] W K; [lia|]. cbn [drain]. destruct fuel as [|fuel]; [unfold weight in W; lia|].
    pose proof (resume_weight cf r0) as Wr.
    assert (P : fst (pump cf (YMsg m r0) chunks) = StMsg m r0 chunks) by (destruct chunks; reflexivity).
    cbn [gather]. rewrite P. clear P.
    assert (D : drain cf k (read_resume cf r0) = drain cf (S k) (read_resume cf r0)).
    { unfold weight, buffered in *. cbn [pause_reader] in *. destruct (read_resume cf r0) as [m' r'|r'|e r'] eqn:Er; [|destruct k; reflexivity..].
      apply drain_fuel; unfold buffered; cbn [pause_reader] in *; lia. }
    rewrite D. clear D.
    assert (IH := fun stop => IHf fuel ltac:(lia) chunks (read_resume cf r0) stop (S k)).
    change (weight (YMsg m r0)) with (List.length (r_buf r0) + 1)%nat in W. change (buffered (YMsg m r0)) with (List.length (r_buf r0)) in K.
    assert (IH' := fun stop => IH stop ltac:(lia) ltac:(unfold weight in Wr; lia)). clear IH.
    destruct stop as [[[|n] f]|]; cbn [fewer reader_at].
    - destruct (drain cf (S k) (read_resume cf r0)) as [[ms e] r1]. reflexivity.
    - rewrite IH'. clear IH'. destruct (drain cf (S k) (read_resume cf r0)) as [[ms e] r1]. cbv zeta.
      change (Nat.ltb (S n) (List.length (m :: ms))) with (Nat.ltb n (List.length ms)).
      destruct (Nat.ltb n (List.length ms)); [reflexivity|]. change (S n - List.length (m :: ms))%nat with (n - List.length ms)%nat. destruct e; [reflexivity|]. destruct (consume cf r1 chunks _) as [[ms' f'] r2]. reflexivity.
    - rewrite IH'. clear IH'. destruct (drain cf (S k) (read_resume cf r0)) as [[ms e] r1]. cbv zeta.
      destruct e; [reflexivity|]. destruct (consume cf r1 chunks _) as [[ms' f'] r2]. reflexivity. }
  induction chunks as [|ch cs IHc]; intros [m r|r|e r] stop k W K; try (now apply Msg).
  - destruct k; [lia|]. destruct fuel; cbn; destruct stop as [[n f]|]; reflexivity.
  - destruct k; [lia|]. destruct fuel; cbn; destruct stop as [[n f]|]; reflexivity.
  - destruct k; [lia|]. cbn [drain]. cbv zeta. cbn [List.length List.app].
    pose proof (first_weight cf r ch) as Wf.
    assert (G : gather cf fuel (YEnd r) (ch :: cs) stop = gather cf fuel (feed_first cf r ch) cs stop).
    { destruct fuel; cbn [gather pump]; destruct (pump cf (feed_first cf r ch) cs); reflexivity. }
    rewrite G. clear G. unfold weight at 1 in W. unfold buffered in W. cbn [pause_reader] in W. unfold size in *. cbn [List.concat] in W. rewrite app_length in W.
    rewrite (IHc _ stop (S (List.length (r_buf r ++ ch)))).
    + rewrite <- feed_drain by lia.
      assert (C : forall stop, (let '(ms', f, r2) := consume cf r (ch :: cs) stop in (ms', f, r2)) = consume cf r (ch :: cs) stop)
        by (intro st; destruct (consume cf r (ch :: cs) st) as [[? ?] ?]; reflexivity).
      destruct stop as [[n f]|]; rewrite C; cbn [consume]; [|reflexivity]. rewrite Nat.sub_0_r. reflexivity.
    + lia.
    + rewrite app_length. unfold weight in Wf. lia.
  - destruct k; [lia|]. destruct fuel; cbn; destruct stop as [[n f]|]; reflexivity.
Qed.

Lemma gather_consume {M} (cf : rconf M) r chunks stop fuel : (List.length (r_buf r) + size chunks <= fuel)%nat ->
  gather cf fuel (YEnd r) chunks stop = consume cf r chunks stop.
Proof.
  intro W. rewrite (gather_drain cf fuel chunks (YEnd r) stop (S (List.length (r_buf r)))).
  - cbn [drain]. cbv zeta. cbn [List.length List.app].
    destruct stop as [[n f]|]; cbn [Nat.ltb Nat.leb]; rewrite ?Nat.sub_0_r; destruct (consume cf r chunks _) as [[? ?] ?]; reflexivity.
  - unfold weight, buffered. cbn [pause_reader]. lia.
  - unfold buffered. cbn [pause_reader]. lia.
Qed.

(** How the iteration ends, given how the loop over the body ended. *)
Definition leave_end {A B} (c : client A B) (expired : bool) (resp : stream_response) (rd : option (reader * stream_response))
    (serr : option exn) (md : option metadata) (f : option fault) : stream_end * option metadata :=
  match leave resp f with None => (COk tt, md) | Some f => stream_except c expired rd serr md f end.
Definition loop_end {A B} (c : client A B) (expired : bool) (resp : stream_response) (f : option fault) (r : reader)
  : stream_end * option metadata :=
  match (match f with Some f => Some f | None => sp_fault resp end) with
  | Some f => leave_end c expired resp (Some (r, resp)) (stream_error c (Some f)) (r_md r) (Some f)
  | None =>
      if cl_sync c && expired
      then leave_end c expired resp (Some (r, resp)) None (r_md r) (Some (FExn (EOther KTimeout [])))
      else
        let (x, md) := response_complete (cl_sc c) (reader_kind (cl_proto c)) r (sp_headers resp) (sp_trailers resp) None in
        leave_end c expired resp (Some (r, resp)) None md (match x with Some e => Some (FExn e) | None => None end)
  end.

Lemma it_leave_end {A B} (c : client A B) expired resp rd serr md f :
  it_leave c expired resp rd serr md f
  = (mk_it AtEnd (snd (leave_end c expired resp rd serr md f)), AEnd (fst (leave_end c expired resp rd serr md f)), [HRelease]).
Proof. unfold it_leave, leave_end. destruct (leave resp f); [|reflexivity]. destruct (stream_except _ _ _ _ _ _). reflexivity. Qed.

Lemma it_go_end {A B} (c : client A B) expired rq resp cf p chunks :
  it_go c expired rq resp cf p chunks =
  (let (s, o) := pump cf p chunks in
   match s with
   | StMsg m r rest => (mk_it (AtYield rq resp cf r rest) (r_md r), AMsg m, o)
   | StErr e r => (mk_it AtEnd (snd (loop_end c expired resp (Some (FExn e)) r)), AEnd (fst (loop_end c expired resp (Some (FExn e)) r)), o ++ [HRelease])
   | StEnd r => (mk_it AtEnd (snd (loop_end c expired resp None r)), AEnd (fst (loop_end c expired resp None r)), o ++ [HRelease])
   end).
Proof.
  unfold it_go. destruct (pump cf p chunks) as [[m r rest|e r|r] o]; [reflexivity| |].
  - unfold loop_end. rewrite it_leave_end. reflexivity.
  - unfold loop_end. destruct (sp_fault resp); [rewrite it_leave_end; reflexivity|]. destruct (_ && _); [rewrite it_leave_end; reflexivity|].
    destruct (response_complete _ _ _ _ _ _). rewrite it_leave_end. reflexivity.
Qed.

Definition drive_rest {A B} (fuel : nat) (c : client A B) cx ck net reqs (s : iterator B * answer B * list http_event) (stop : option (nat * fault))
  : list B * option stream_end * option metadata * list http_event :=
  let '(it, x, o) := s in
  match x with
  | AEnd e => ([], Some e, it_md it, o)
  | AMsg b =>
      match stop with
      | Some (O, f) =>
          let '(it, x, o') := it_step c cx ck net reqs it (AskThrow f) in
          ([b], match x with AEnd e => Some e | AMsg _ => None end, it_md it, o ++ o')
      | _ =>
          let '(bs, e, md, o') := it_drive fuel c cx ck net reqs it (match stop with Some (S n, f) => Some (n, f) | _ => None end) in
          (b :: bs, e, md, o ++ o')
      end
  end.
Lemma drive_step {A B} fuel (c : client A B) cx ck net reqs it stop :
  it_drive (S fuel) c cx ck net reqs it stop = drive_rest fuel c cx ck net reqs (it_step c cx ck net reqs it AskNext) stop.
Proof. reflexivity. Qed.

Lemma drive_go {A B} (c : client A B) cx ck net reqs rq resp cf : forall fuel p chunks stop, (weight p + size chunks <= fuel)%nat ->
  exists o, drive_rest fuel c cx ck net reqs (it_go c (deadline_passed cx (ck_late ck)) rq resp cf p chunks) stop
  = (let '(ms, f, r) := gather cf fuel p chunks stop in
     (ms, Some (fst (loop_end c (deadline_passed cx (ck_late ck)) resp f r)), snd (loop_end c (deadline_passed cx (ck_late ck)) resp f r), o)).
Proof.
  set (ex := deadline_passed cx (ck_late ck)).
  induction fuel as [|fuel IH]; intros p chunks stop W; rewrite it_go_end; cbn [gather];
    destruct (pump cf p chunks) as [[m r rest|e r|r] o] eqn:P; cbn [fst];
    try (exists (o ++ [HRelease]); destruct stop as [[[|n] f]|]; reflexivity).
  - exfalso. apply pump_weight in P. lia.
  - apply pump_weight in P. destruct stop as [[[|n] f]|]; cbn [drive_rest fewer].
    + cbn [it_step it_pos]. fold ex. rewrite it_leave_end. unfold loop_end. cbn [it_md]. eexists. reflexivity.
    + destruct (IH (read_resume cf r) rest (Some (n, f)) ltac:(lia)) as [o' E].
      rewrite drive_step. cbn [it_step it_pos]. fold ex. rewrite E. destruct (gather cf fuel (read_resume cf r) rest (Some (n, f))) as [[ms g] r']. eexists. reflexivity.
    + destruct (IH (read_resume cf r) rest None ltac:(lia)) as [o' E].
      rewrite drive_step. cbn [it_step it_pos]. fold ex. rewrite E. destruct (gather cf fuel (read_resume cf r) rest None) as [[ms g] r']. eexists. reflexivity.
Qed.

Definition call_request {A B} (c : client A B) (cx : req_ctx) (ck : clocks) (reqs : list A * option exn) : http_request :=
  mk_rq (lit "POST") (call_url c (cx_method cx)) (h_allitems (cx_headers cx))
    (request_content c (fst reqs) (snd reqs)) (timeout_s cx (ck_send ck)).

Lemma send_stream_end {A B} (c : client A B) cx ck net md reqs stop :
  let rq := call_request c cx ck reqs in
  let ex := deadline_passed cx (ck_late ck) in
  let of_end ms (x : stream_end * option metadata) := mk_sr [rq] ms (fst x) (snd x) in
  send_stream c cx ck net md reqs stop =
  match nw_stream net rq with
  | SFault f => of_end [] (stream_except c ex None None md f)
  | SResp resp =>
      let md := handle_response_headers md (sp_headers resp) in
      let early f := of_end [] (leave_end c ex resp None None md f) in
      if sp_status resp =? 200 then
        match validate_stream_response (cl_proto c) (k_name (cl_codec c))
                (match hh_get (sp_headers resp) (lit "content-type") with Some v => v | None => [] end) with
        | Some e => early (Some (FExn e))
        | None =>
            match handle_response_compression (cl_proto c) true (sp_headers resp) (cl_comps c) with
            | Raise e => early (Some (FExn e))
            | Ok z =>
                let cf := mk_rconf (reader_kind (cl_proto c)) z (cl_max c) (k_dec_res (cl_codec c)) in
                let '(ms, f, r) := consume cf (reader_new md) (sp_chunks resp) stop in
                of_end ms (loop_end c ex resp f r)
            end
        end
      else
        match sp_fault resp with
        | Some f => early (Some f)
        | None =>
            match we_from_response (sp_status resp) (List.concat (sp_chunks resp)) with
            | Raise e => early (Some (FExn e))
            | Ok w => early (Some (FExn (we_to_exception w)))
            end
        end
  end.
Proof.
  cbv zeta. unfold send_stream, call_request. set (rq := mk_rq _ _ _ _ _). set (ex := deadline_passed _ _). cbv zeta.
  assert (G : forall (ms : list B) rd se m resp f, (match leave resp f with
      | Some f => let (e, md) := @stream_except A B c ex rd se m f in mk_sr [rq] ms e md
      | None => mk_sr [rq] ms (COk tt) m end)
      = mk_sr [rq] ms (fst (leave_end c ex resp rd se m f)) (snd (leave_end c ex resp rd se m f))).
  { intros. unfold leave_end. destruct (leave resp f); [|reflexivity]. destruct (stream_except _ _ _ _ _ _); reflexivity. }
  destruct (nw_stream net rq) as [resp|f]; [|destruct (stream_except _ _ _ _ _ _); reflexivity].
  destruct (sp_status resp =? 200).
  2:{ destruct (sp_fault resp); [apply G|]. destruct (we_from_response _ _); apply G. }
  destruct (validate_stream_response _ _ _); [apply G|]. destruct (handle_response_compression _ _ _ _) as [z|]; [|apply G].
  destruct (consume _ _ (sp_chunks resp) stop) as [[ms f] r]. unfold loop_end.
  destruct (match f with Some f => Some f | None => sp_fault resp end) as [g|]; [apply G|].
  destruct (_ && _); [apply G|]. destruct (response_complete _ _ _ _ _ _) as [o md']. apply G.
Qed.

Lemma start_end {A B} (c : client A B) cx ck net md reqs :
  let rq := call_request c cx ck reqs in
  let ex := deadline_passed cx (ck_late ck) in
  it_start c cx ck net md reqs =
  match nw_stream net rq with
  | SFault f => (mk_it AtEnd (snd (stream_except c ex None None md f)), AEnd (fst (stream_except c ex None None md f)), [HRequest rq])
  | SResp resp =>
      let md := handle_response_headers md (sp_headers resp) in
      let early o f := (mk_it AtEnd (snd (leave_end c ex resp None None md f)), AEnd (fst (leave_end c ex resp None None md f)), HRequest rq :: HResponse :: o ++ [HRelease]) in
      let reads := map (fun ch => HRead (Some ch)) (sp_chunks resp) ++ [HRead None] in
      if sp_status resp =? 200 then
        match validate_stream_response (cl_proto c) (k_name (cl_codec c))
                (match hh_get (sp_headers resp) (lit "content-type") with Some v => v | None => [] end) with
        | Some e => early [] (Some (FExn e))
        | None =>
            match handle_response_compression (cl_proto c) true (sp_headers resp) (cl_comps c) with
            | Raise e => early [] (Some (FExn e))
            | Ok z =>
                let cf := mk_rconf (reader_kind (cl_proto c)) z (cl_max c) (k_dec_res (cl_codec c)) in
                let '(it, a, o) := it_go c ex rq resp cf (YEnd (reader_new md)) (sp_chunks resp) in
                (it, a, HRequest rq :: HResponse :: o)
            end
        end
      else
        match sp_fault resp with
        | Some f => early reads (Some f)
        | None =>
            match we_from_response (sp_status resp) (List.concat (sp_chunks resp)) with
            | Raise e => early reads (Some (FExn e))
            | Ok w => early reads (Some (FExn (we_to_exception w)))
            end
        end
  end.
Proof.
  cbv zeta. unfold it_start, call_request. set (rq := mk_rq _ _ _ _ _). set (ex := deadline_passed _ _). cbv zeta.
  destruct (nw_stream net rq) as [resp|f]; [|destruct (stream_except _ _ _ _ _ _); reflexivity].
  destruct (sp_status resp =? 200).
  2:{ destruct (sp_fault resp); [rewrite it_leave_end; reflexivity|]. destruct (we_from_response _ _); rewrite it_leave_end; reflexivity. }
  destruct (validate_stream_response _ _ _); [rewrite it_leave_end; reflexivity|].
  destruct (handle_response_compression _ _ _ _) as [z|]; [reflexivity|rewrite it_leave_end; reflexivity].
Qed.

Lemma drive_send {A B} (c : client A B) cx ck net md reqs stop :
  let r := send_stream c cx ck net md reqs stop in
  exists n, forall fuel, (n <= fuel)%nat -> exists o,
  it_drive fuel c cx ck net reqs (iterator_new md) stop = (sr_msgs r, Some (sr_end r), sr_md r, o).
Proof.
  cbv zeta. rewrite send_stream_end. cbv zeta.
  exists (S (match nw_stream net (call_request c cx ck reqs) with SResp resp => size (sp_chunks resp) | SFault _ => 0 end)).
  intros [|fuel] L; [lia|]. rewrite drive_step. cbn [it_step iterator_new it_pos it_md]. rewrite start_end. cbv zeta.
  destruct (nw_stream net (call_request c cx ck reqs)) as [resp|f]; [|eexists; reflexivity].
  destruct (sp_status resp =? 200).
  2:{ destruct (sp_fault resp); [eexists; reflexivity|]. destruct (we_from_response _ _); eexists; reflexivity. }
  destruct (validate_stream_response _ _ _); [eexists; reflexivity|].
  destruct (handle_response_compression _ _ _ _) as [z|]; [|eexists; reflexivity].
  set (cf := mk_rconf _ _ _ _). set (md' := handle_response_headers _ _).
  destruct (drive_go c cx ck net reqs (call_request c cx ck reqs) resp cf fuel (YEnd (reader_new md')) (sp_chunks resp) stop) as [o E].
  { unfold weight, buffered. cbn. lia. }
  rewrite gather_consume in E by (cbn; lia).
  destruct (it_go _ _ _ _ _ _ _) as [[it x] o1]. destruct (consume cf (reader_new md') (sp_chunks resp) stop) as [[ms f] r].
  cbn [sr_msgs sr_end sr_md]. unfold drive_rest in *. destruct x as [b|e].
  - destruct stop as [[[|n] g]|].
    + destruct (it_step c cx ck net reqs it (AskThrow g)) as [[it' y] o']. injection E as E1 E2 E3 _. rewrite E1, E2, E3. eexists. reflexivity.
    + destruct (it_drive fuel c cx ck net reqs it (Some (n, g))) as [[[bs e] m] o']. injection E as E1 E2 E3 _. rewrite E1, E2, E3. eexists. reflexivity.
    + destruct (it_drive fuel c cx ck net reqs it None) as [[[bs e] m] o']. injection E as E1 E2 E3 _. rewrite E1, E2, E3. eexists. reflexivity.
  - injection E as E1 E2 E3 _. rewrite <- E1, <- E3. eexists. rewrite E2. reflexivity.
Qed.

(** ** The response is held exactly while the last answer was a message *)

Definition hold {B} (it : iterator B) : holding := match it_pos it with AtStart => Unasked | AtYield _ _ _ _ _ => Held | AtEnd => Over end.

Lemma pump_reads {M} (cf : rconf M) : forall chunks p, Forall is_read (snd (pump cf p chunks)).
Proof.
  induction chunks as [|ch cs IH]; intros [m r|r|e r]; cbn [pump]; try constructor; try exact I; try constructor.
  specialize (IH (feed_first cf r ch)). destruct (pump cf (feed_first cf r ch) cs) as [s o]. cbn [snd] in *. constructor; [exact I|exact IH].
Qed.

Lemma go_life {A B} (c : client A B) ex rq resp cf p chunks rq0 reads : Forall is_read reads ->
  let '(it, x, o) := it_go c ex rq resp cf p chunks in
  lifecycle (HRequest rq0 :: HResponse :: reads ++ o) (hold it) /\ hold it = match x with AMsg _ => Held | AEnd _ => Over end.
Proof.
  intro H. rewrite it_go_end. pose proof (pump_reads cf chunks p) as P. destruct (pump cf p chunks) as [[m r rest|e r|r] o]; cbn [snd] in P.
  - split; [|reflexivity]. apply lc_held. apply Forall_app. split; assumption.
  - split; [|reflexivity]. rewrite app_assoc. apply lc_released. apply Forall_app. split; assumption.
  - split; [|reflexivity]. rewrite app_assoc. apply lc_released. apply Forall_app. split; assumption.
Qed.

Lemma step_life {A B} (c : client A B) cx ck net reqs it a o : lifecycle o (hold it) ->
  let '(it', x, o') := it_step c cx ck net reqs it a in
  lifecycle (o ++ o') (hold it') /\ hold it' = match x with AMsg _ => Held | AEnd _ => Over end.
Proof.
  intro H. destruct it as [[|rq resp cf r rest|] md]; cbn [hold it_pos] in H; destruct a as [|f]; cbn [it_step it_pos it_md].
  - inversion H; subst. cbn [List.app]. rewrite start_end. cbv zeta. destruct (nw_stream _ _) as [resp|f]; [|split; [constructor|reflexivity]].
    assert (R : Forall is_read (map (fun ch => HRead (Some ch)) (sp_chunks resp) ++ [HRead None])).
    { apply Forall_app. split; [|repeat constructor]. apply Forall_forall. intros e He. apply in_map_iff in He. destruct He as (ch&<-&_). exact I. }
    assert (E : forall rq0 o, Forall is_read o -> lifecycle (HRequest rq0 :: HResponse :: o ++ [HRelease]) Over) by (intros; now constructor).
    destruct (sp_status resp =? 200).
    2:{ destruct (sp_fault resp); [split; [apply E, R|reflexivity]|]. destruct (we_from_response _ _); (split; [apply E, R|reflexivity]). }
    destruct (validate_stream_response _ _ _); [split; [apply E; constructor|reflexivity]|].
    destruct (handle_response_compression _ _ _ _) as [z|]; [|split; [apply E; constructor|reflexivity]].
    set (cf := mk_rconf _ _ _ _). set (md' := handle_response_headers _ _).
    pose proof (go_life c (deadline_passed cx (ck_late ck)) (call_request c cx ck reqs) resp cf (YEnd (reader_new md')) (sp_chunks resp) (call_request c cx ck reqs) [] ltac:(constructor)) as G.
    destruct (it_go _ _ _ _ _ _ _) as [[it x] o1]. exact G.
  - inversion H; subst. split; [constructor|reflexivity].
  - inversion H; subst. match goal with K : Forall is_read ?reads |- _ =>
      pose proof (go_life c (deadline_passed cx (ck_late ck)) rq resp cf (read_resume cf r) rest rq0 reads K) as G end.
    destruct (it_go _ _ _ _ _ _ _) as [[it x] o1]. exact G.
  - inversion H; subst. rewrite it_leave_end. split; [now constructor|reflexivity].
  - rewrite app_nil_r. split; [exact H|reflexivity].
  - rewrite app_nil_r. split; [exact H|reflexivity].
Qed.

Lemma run_life {A B} (c : client A B) cx ck net reqs asks : forall it o, lifecycle o (hold it) ->
  let '(it', xs, o') := it_run c cx ck net reqs it asks in
  lifecycle (o ++ o') (hold it') /\ hold it' = match List.rev xs with [] => hold it | AMsg _ :: _ => Held | AEnd _ :: _ => Over end.
Proof.
  induction asks as [|a asks IH]; intros it o H; cbn [it_run].
  - rewrite app_nil_r. split; [exact H|reflexivity].
  - pose proof (step_life c cx ck net reqs it a o H) as S. destruct (it_step c cx ck net reqs it a) as [[it1 x] o1]. destruct S as [S1 S2].
    specialize (IH it1 _ S1). destruct (it_run c cx ck net reqs it1 asks) as [[it2 xs] o2]. destruct IH as [I1 I2]. rewrite app_assoc. split; [exact I1|].
    rewrite I2. cbn [List.rev]. destruct (List.rev xs) as [|y ys]; [exact S2|reflexivity].
Qed.

(** ** A message is delivered as soon as its frame is there *)

(** A reader with [b] buffered, whose generator is asked for the next message. *)
Lemma known_frame {M} (cf : rconf M) r f w b m : r_buf r = w ++ b -> frame_wire f w -> r_next r = Some (lenN (f_payload f)) -> good_frame cf f m ->
  exists r', read_known cf r = YMsg m r' /\ r_buf r' = b /\ r_next r' = None.
Proof.
  intros Hb (h3&h2&h1&h0&Hw&Hl) Hn Hg. unfold read_known. rewrite Hb, Hn, Hw. cbn [List.app].
  replace (lenN (f_flag f :: h3 :: h2 :: h1 :: h0 :: f_payload f ++ b) <? lenN (f_payload f) + 5) with false
    by (unfold lenN; cbn [List.length]; rewrite app_length; lia).
  assert (E1 : takeN (lenN (f_payload f)) (dropN 5 (f_flag f :: h3 :: h2 :: h1 :: h0 :: f_payload f ++ b)) = f_payload f).
  { change (dropN 5 _) with (f_payload f ++ b). apply takeN_app. }
  assert (E2 : dropN (5 + lenN (f_payload f)) (f_flag f :: h3 :: h2 :: h1 :: h0 :: f_payload f ++ b) = b).
  { change (f_flag f :: h3 :: h2 :: h1 :: h0 :: f_payload f ++ b) with ((f_flag f :: h3 :: h2 :: h1 :: h0 :: f_payload f) ++ b).
    replace (5 + lenN (f_payload f)) with (lenN (f_flag f :: h3 :: h2 :: h1 :: h0 :: f_payload f)) by (unfold lenN; cbn [List.length]; lia).
    apply dropN_app. }
  rewrite E1, E2. destruct (read_good cf f m (mk_reader b None (r_read r) (r_trl r) (r_md r)) Hg) as (r'&->&_&_&Eb&En).
  exists r'. split; [reflexivity|]. split; assumption.
Qed.

Lemma header_len f w b : frame_wire f w -> exists fl h3 h2 h1 h0 rest, w ++ b = fl :: h3 :: h2 :: h1 :: h0 :: rest
  /\ lenN (f_payload f) = h3 * 16777216 + h2 * 65536 + h1 * 256 + h0.
Proof. intros (h3&h2&h1&h0&->&Hl). exists (f_flag f), h3, h2, h1, h0, (f_payload f ++ b). split; [reflexivity|exact Hl]. Qed.

Lemma resume_frame {M} (cf : rconf M) r f w b m : r_buf r = w ++ b -> frame_wire f w -> good_frame cf f m ->
  exists r', read_resume cf r = YMsg m r' /\ r_buf r' = b /\ r_next r' = None.
Proof.
  intros Hb Hw Hg. destruct (header_len f w b Hw) as (fl&h3&h2&h1&h0&rest&E&Hl). unfold read_resume.
  rewrite (peek_some r fl h3 h2 h1 h0 rest) by congruence. apply (known_frame cf _ f w b m); [exact Hb|exact Hw|cbn; congruence|exact Hg].
Qed.

(** The reader waits: an incomplete frame is buffered. *)
Definition waiting (r : reader) : Prop := r_inv r /\ incomplete (r_buf r).

Lemma known_waits {M} (cf : rconf M) r : waiting r -> read_known cf r = YEnd r.
Proof.
  intros [Hi Hn]. unfold read_known. destruct (r_buf r) as [|p b] eqn:Eb; [reflexivity|]. destruct (r_next r) as [n|] eqn:En; [|reflexivity].
  unfold r_inv in Hi. rewrite En in Hi. destruct Hi as (fl&h3&h2&h1&h0&rest&E&->). rewrite <- Eb in *.
  replace (lenN (r_buf r) <? _) with true; [reflexivity|]. symmetry. rewrite E. destruct Hn as [Hn|(fl'&g3&g2&g1&g0&r'&E'&L)].
  - rewrite E in Hn. cbn in Hn. lia.
  - rewrite E in E'. injection E' as <- <- <- <- <- <-. unfold lenN. cbn [List.length]. lia.
Qed.

Lemma resume_waits {M} (cf : rconf M) r : r_next r = None -> incomplete (r_buf r) ->
  exists r', read_resume cf r = YEnd r' /\ r_buf r' = r_buf r /\ waiting r'.
Proof.
  intros En Hn. unfold read_resume. destruct (Nat.lt_ge_cases (List.length (r_buf r)) 5) as [L|L].
  - rewrite (proj2 (peek_none r) L). exists r. split; [reflexivity|]. split; [reflexivity|]. split; [unfold r_inv; now rewrite En|exact Hn].
  - destruct (len5_cases _ L) as (fl&h3&h2&h1&h0&rest&E). rewrite (peek_some r _ _ _ _ _ _ E).
    match goal with |- context [with_buf r ?b ?n] => assert (W : waiting (with_buf r b n)) end.
    { split; [|exact Hn]. unfold r_inv. cbn. rewrite E. eauto 10. }
    rewrite (known_waits cf _ W). eexists. split; [reflexivity|]. split; [reflexivity|exact W].
Qed.

Lemma first_frame {M} (cf : rconf M) r ch f w b m : r_inv r -> r_buf r ++ ch = w ++ b -> frame_wire f w -> good_frame cf f m ->
  exists r', feed_first cf r ch = YMsg m r' /\ r_buf r' = b /\ r_next r' = None.
Proof.
  intros Hi Hb Hw Hg. unfold feed_first. rewrite Hb. set (r0 := mk_reader _ _ _ _ _). cbv zeta.
  change (r_buf r0) with (w ++ b). destruct (header_len f w b Hw) as (fl&h3&h2&h1&h0&rest&E&Hl). rewrite E. change (r_next r0) with (r_next r).
  destruct (r_next r) as [n|] eqn:En.
  - apply (known_frame cf r0 f w b m); [reflexivity|exact Hw| |exact Hg]. cbn. f_equal. rewrite Hl.
    unfold r_inv in Hi. rewrite En in Hi. destruct Hi as (fl'&g3&g2&g1&g0&rest'&E'&->). rewrite E' in Hb. cbn in Hb. rewrite E in Hb.
    injection Hb as _ <- <- <- <- _. reflexivity.
  - apply (resume_frame cf r0 f w b m); [reflexivity|exact Hw|exact Hg].
Qed.

Lemma first_waits {M} (cf : rconf M) r ch : r_inv r -> incomplete (r_buf r ++ ch) ->
  exists r', feed_first cf r ch = YEnd r' /\ r_buf r' = r_buf r ++ ch /\ waiting r'.
Proof.
  intros Hi Hn. unfold feed_first. set (r0 := mk_reader _ _ _ _ _).
  assert (N0 : r_next r0 = r_next r) by reflexivity. assert (B0 : r_buf r0 = r_buf r ++ ch) by reflexivity. clearbody r0. cbv zeta.
  rewrite <- B0 in *.
  assert (I0 : r_inv r0).
  { unfold r_inv in *. rewrite N0. destruct (r_next r); [|exact I]. destruct Hi as (fl&h3&h2&h1&h0&rest&E&->). rewrite B0, E. cbn. eauto 10. }
  destruct (r_buf r0) as [|p b] eqn:Eb.
  { exists r0. split; [reflexivity|]. split; [exact Eb|]. split; [exact I0|rewrite Eb; exact Hn]. }
  rewrite <- Eb in *. destruct (r_next r0) as [n|] eqn:En.
  - rewrite (known_waits cf r0 (conj I0 Hn)). exists r0. split; [reflexivity|]. split; [reflexivity|split; assumption].
  - exact (resume_waits cf r0 En Hn).
Qed.

Lemma pump_waits {M} (cf : rconf M) f m : good_frame cf f m -> forall chunks r n w b, waiting r ->
  frame_wire f w -> r_buf r ++ List.concat (firstn n chunks) = w ++ b ->
  exists j r', (j <= n)%nat /\ pump cf (YEnd r) chunks = (StMsg m r' (skipn j chunks), reads (firstn j chunks))
    /\ r_next r' = None
    /\ r_buf r ++ List.concat (firstn j chunks) = w ++ r_buf r'
    /\ forall i, (i < j)%nat -> incomplete (r_buf r ++ List.concat (firstn i chunks)).
Proof.
  intro Hg. induction chunks as [|ch cs IH]; intros r n w b [Hi Hn] Hw E.
  - exfalso. rewrite firstn_nil in E. cbn in E. rewrite app_nil_r in E. rewrite E in Hn. exact (frame_wire_not_incomplete _ _ _ Hw Hn).
  - destruct n as [|n]; [exfalso; cbn in E; rewrite app_nil_r in E; rewrite E in Hn; exact (frame_wire_not_incomplete _ _ _ Hw Hn)|].
    cbn [firstn List.concat] in E. rewrite app_assoc in E.
    destruct (incomplete_dec (r_buf r ++ ch)) as [(f'&b'&w'&Hw'&E')|Hc].
    + rewrite E', <- app_assoc in E. destruct (frame_wire_det _ _ _ _ _ _ Hw' Hw E) as (->&->&Eb).
      destruct (first_frame cf r ch f w b' m Hi E' Hw Hg) as (r'&F&Fb&Fn). exists 1%nat, r'. split; [lia|]. cbn [pump]. rewrite F.
      assert (P : pump cf (YMsg m r') cs = (StMsg m r' cs, [])) by (destruct cs; reflexivity). rewrite P. split; [reflexivity|]. split; [exact Fn|].
      split; [cbn; rewrite app_nil_r, E', Fb; reflexivity|]. intros i L. assert (i = 0%nat) as -> by lia. cbn. rewrite app_nil_r. exact Hn.
    + destruct (first_waits cf r ch Hi Hc) as (r1&F&Fb&Fw). rewrite <- Fb in E. destruct (IH r1 n w b Fw Hw E) as (j&r'&L&P&En&Eb&Mn).
      exists (S j), r'. split; [lia|]. cbn [pump]. rewrite F, P. split; [reflexivity|]. split; [exact En|]. split.
      * cbn [firstn List.concat]. rewrite app_assoc, <- Fb. exact Eb.
      * intros [|i] L'; cbn [firstn List.concat]; [rewrite app_nil_r; exact Hn|]. rewrite app_assoc, <- Fb. apply Mn. lia.
Qed.

Lemma pump_resume {M} (cf : rconf M) f m : good_frame cf f m -> forall chunks r n w b, r_next r = None ->
  frame_wire f w -> r_buf r ++ List.concat (firstn n chunks) = w ++ b ->
  exists j r', (j <= n)%nat /\ pump cf (read_resume cf r) chunks = (StMsg m r' (skipn j chunks), reads (firstn j chunks))
    /\ r_next r' = None
    /\ r_buf r ++ List.concat (firstn j chunks) = w ++ r_buf r'
    /\ forall i, (i < j)%nat -> incomplete (r_buf r ++ List.concat (firstn i chunks)).
Proof.
  intros Hg chunks r n w b En Hw E. destruct (incomplete_dec (r_buf r)) as [(f'&b'&w'&Hw'&E')|Hc].
  - rewrite E', <- app_assoc in E. destruct (frame_wire_det _ _ _ _ _ _ Hw' Hw E) as (->&->&Eb).
    destruct (resume_frame cf r f w b' m E' Hw Hg) as (r'&F&Fb&Fn). exists 0%nat, r'. split; [lia|]. rewrite F.
    split; [destruct chunks; reflexivity|]. split; [exact Fn|]. split; [cbn; now rewrite app_nil_r, Fb|]. intros i L. lia.
  - destruct (resume_waits cf r En Hc) as (r1&F&Fb&Fw). rewrite F, <- Fb. rewrite <- Fb in E. exact (pump_waits cf f m Hg chunks r1 n w b Fw Hw E).
Qed.

(** A number of messages, asked for one after the other. *)
Lemma run_timely {A B} (c : client A B) cx ck net reqs rq resp cf : forall fs ms, Forall2 (good_frame cf) fs ms -> forall r rest n tl more,
  r_next r = None -> frames_of (r_buf r ++ List.concat (firstn n rest)) (fs ++ more) tl ->
  exists j it, (j <= n)%nat
    /\ it_run c cx ck net reqs (mk_it (AtYield rq resp cf r rest) (r_md r)) (repeat AskNext (List.length ms)) = (it, map AMsg ms, reads (firstn j rest))
    /\ forall i fs' tl', (i < j)%nat -> frames_of (r_buf r ++ List.concat (firstn i rest)) fs' tl' -> (List.length fs' < List.length ms)%nat.
Proof.
  induction 1 as [|f m fs ms Hg H IH]; intros r rest n tl more En Hf.
  - exists 0%nat, (mk_it (AtYield rq resp cf r rest) (r_md r)). split; [lia|]. split; [reflexivity|]. intros; lia.
  - cbn [List.app] in Hf. inversion Hf as [|f' w b fs0 tl0 Hw Hb]; subst.
    match goal with K : w ++ b = _ |- _ => symmetry in K; rename K into E end.
    destruct (pump_resume cf f m Hg rest r n w b En Hw E) as (j&r'&L&P&En'&Eb&Mn).
    assert (Sp2 : forall k, firstn (j + k) rest = firstn j rest ++ firstn k (skipn j rest)).
    { clear. revert rest. induction j as [|j IHj]; intros [|x rest] k; cbn; rewrite ?firstn_nil; try reflexivity. now rewrite <- IHj. }
    assert (Sp : firstn n rest = firstn j rest ++ firstn (n - j) (skipn j rest)) by (rewrite <- Sp2; f_equal; lia).
    assert (Hb' : frames_of (r_buf r' ++ List.concat (firstn (n - j) (skipn j rest))) (fs ++ more) tl).
    { rewrite Sp, concat_app, app_assoc, Eb, <- app_assoc in E. apply app_inv_head in E. rewrite E. exact Hb. }
    destruct (IH r' (skipn j rest) (n - j)%nat tl more En' Hb') as (j2&it&L2&R&Mn2).
    exists (j + j2)%nat, it. split; [lia|].
    split.
    + cbn [List.length repeat it_run it_step it_pos]. rewrite it_go_end, P, R. cbn [map]. f_equal. rewrite Sp2. unfold reads. now rewrite map_app.
    + intros i fs' tl' Li F'. destruct (Nat.lt_ge_cases i j) as [Lt|Ge].
      * assert (fs' = []) as ->; [|cbn; lia]. destruct (frames_of_det _ _ _ F' [] _ (fo_nil _ (Mn i Lt))) as [-> _]. reflexivity.
      * replace i with (j + (i - j))%nat in F' by lia. rewrite Sp2, concat_app, app_assoc, Eb, <- app_assoc in F'.
        destruct (frames_of_exists (r_buf r' ++ List.concat (firstn (i - j) (skipn j rest)))) as (fs2&tl2&F2).
        destruct (frames_of_det _ _ _ F' _ _ (fo_cons f w _ _ _ Hw F2)) as [-> _]. cbn [List.length].
        specialize (Mn2 (i - j)%nat fs2 tl2 ltac:(lia) F2). lia.
Qed.
