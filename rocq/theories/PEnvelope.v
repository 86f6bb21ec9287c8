(** Properties of streams of enveloped messages: C01-C06. *)
From Coq Require Import List NArith ZArith Bool Lia String ZifyBool ZifyNat.
From Verif Require Import MBase MPyStr LBase MHeaders MJson MWire MEnvelope SEnvelope LEnvelope.
Import ListNotations.
Local Open Scope N_scope.

(** Every byte string is frames plus an incomplete rest, in exactly one way: the specification relation used
    below is total and functional. *)
Theorem C01_spec_total : forall b, exists fs tl, frames_of b fs tl
  /\ forall fs' tl', frames_of b fs' tl' -> fs' = fs /\ tl' = tl.
Proof.
  intro b. destruct (frames_of_exists b) as (fs&tl&H). exists fs, tl. split; auto.
  intros fs' tl' H'. destruct (frames_of_det _ _ _ H _ _ H'). auto.
Qed.

(** C01: the messages delivered, the error, the trailers and the metadata do not depend on the chunking. *)
Theorem C01_chunking_invariant : forall (M : Type) (cf : rconf M) md chunks1 chunks2,
  List.concat chunks1 = List.concat chunks2 ->
  nothing_after_end (rc_kind cf) (List.concat chunks1) ->
  observed (feed_all cf (reader_new md) chunks1) = observed (feed_all cf (reader_new md) chunks2).
Proof.
  intros M cf md c1 c2 Heq Hn.
  destruct (frames_of_exists (List.concat c1)) as (fs&tl&Hfo).
  assert (Hclean : ends_clean (rc_kind cf) fs tl) by (intros f a b H1 H2; exact (Hn fs tl Hfo f a b H1 H2)).
  destruct (feed_all_clean cf c1 (reader_new md) fs tl (reader_new_inv md) (reader_new_incomplete md) Hfo Hclean)
    as (ms&e&r&b&n&Hs&Hf&_).
  rewrite Heq in Hfo.
  destruct (feed_all_clean cf c2 (reader_new md) fs tl (reader_new_inv md) (reader_new_incomplete md) Hfo Hclean)
    as (ms'&e'&r'&b'&n'&Hs'&Hf'&_).
  rewrite Hs in Hs'. injection Hs' as <- <- <-. rewrite Hf, Hf'. reflexivity.
Qed.

(** The hypothesis holds for every request stream (no end frames) ... *)
Theorem C01_server_request_streams : forall (M : Type) (cf : rconf M) md chunks1 chunks2,
  rc_kind cf = RBase -> List.concat chunks1 = List.concat chunks2 ->
  observed (feed_all cf (reader_new md) chunks1) = observed (feed_all cf (reader_new md) chunks2).
Proof.
  intros M cf md c1 c2 Hk Heq. apply C01_chunking_invariant; auto.
  rewrite Hk. intros fs tl _ f a b _ H. discriminate.
Qed.

(** ... and, concretely, for a Connect response of one message and an end message cut at every place. *)
Definition ex_cf (k : rkind) : rconf bytes := mk_rconf k identity_comp (Some 4) (fun b => Ok b).
Definition ex_body : bytes := [0; 0;0;0;2; 7;8] ++ [2; 0;0;0;2; 123;125].
Example C01_example :
  nothing_after_end RConnect ex_body
  /\ forallb (fun k => match feed_all (ex_cf RConnect) (reader_new None) [firstn k ex_body; []; skipn k ex_body] with
                       | (ms, None, _) => list_eqb (fun a b => str_eqb a b) ms [[7;8]]
                       | _ => false
                       end) (seq 0 15) = true.
Proof.
  split; [|vm_compute; reflexivity].
  intros fs tl H f a b -> He.
  assert (Hfo : frames_of ex_body [mk_frame 0 [7;8]; mk_frame 2 [123;125]] []).
  { unfold ex_body. apply (fo_cons (mk_frame 0 [7;8]) [0;0;0;0;2;7;8]).
    - exists 0, 0, 0, 2. auto.
    - apply (fo_cons (mk_frame 2 [123;125]) [2;0;0;0;2;123;125] []).
      + exists 0, 0, 0, 2. auto.
      + apply frames_of_nil. }
  destruct (frames_of_det _ _ _ H _ _ Hfo) as [Hl ->]. split; auto.
  destruct a as [|a0 [|a1 a]]; simpl in Hl.
  - injection Hl as -> _. discriminate He.
  - injection Hl as _ _ ->. auto.
  - injection Hl as _ _ Hl. destruct a; discriminate.
Qed.

(** ** C02: what is written is read *)

(** The reader's compression [cr] undoes the writer's [cw]. *)
Definition lossless (cw : option compression) (cr : compression) : Prop :=
  match cw with
  | None => True
  | Some z => forall d y, z_compress z d = Ok y ->
                if z_identity z then y = d else z_identity cr = false /\ z_decompress cr y = Ok d
  end.

Lemma writer_prefix_flags cw k : end_flag k (mk_frame (writer_prefix cw) []) = false.
Proof. unfold writer_prefix. destruct cw as [z|]; [destruct (z_identity z)|]; destruct k; reflexivity. Qed.

Lemma written_frame {M} (enc : M -> res bytes) cw m b : write_message enc cw m = Ok b ->
  exists d p, enc m = Ok d /\ maybe_compress cw d = Ok p /\ frame_wire (mk_frame (writer_prefix cw) p) b.
Proof.
  unfold write_message. destruct (enc m) as [d|] eqn:Ed; simpl; [|discriminate].
  destruct (maybe_compress cw d) as [p|] eqn:Ep; simpl; [|discriminate].
  destruct (struct_pack_BI (writer_prefix cw) (lenN p)) as [hd|] eqn:Eh; simpl; [|discriminate].
  intro H. injection H as <-. exists d, p. repeat split; auto. apply packed_frame; auto.
Qed.

Lemma written_good {M} (enc : M -> res bytes) cw (cf : rconf M) m b :
  (forall m d, enc m = Ok d -> rc_dec cf d = Ok m) ->
  lossless cw (rc_comp cf) ->
  (forall d, enc m = Ok d -> within (rc_max cf) d) ->
  write_message enc cw m = Ok b ->
  exists f, frame_wire f b /\ good_frame cf f m.
Proof.
  intros Hcodec Hloss Hmax Hw. destruct (written_frame _ _ _ _ Hw) as (d&p&Hd&Hp&Hf).
  exists (mk_frame (writer_prefix cw) p). split; auto. split.
  - pose proof (writer_prefix_flags cw (rc_kind cf)) as H. destruct (rc_kind cf); auto.
  - exists d. split; [|split; auto]. unfold content_of, compressed_flag, writer_prefix. simpl f_flag. simpl f_payload.
    unfold maybe_compress, lossless in *. destruct cw as [z|].
    + specialize (Hloss _ _ Hp). destruct (z_identity z).
      * left. subst. auto.
      * right. destruct Hloss. auto.
    + left. injection Hp as ->. auto.
Qed.

Lemma written_frames {M} (enc : M -> res bytes) cw (cf : rconf M) ms bs :
  (forall m d, enc m = Ok d -> rc_dec cf d = Ok m) ->
  lossless cw (rc_comp cf) ->
  (forall m d, In m ms -> enc m = Ok d -> within (rc_max cf) d) ->
  Forall2 (fun m b => write_message enc cw m = Ok b) ms bs ->
  exists fs, Forall2 (good_frame cf) fs ms
    /\ forall rest fs' tl, frames_of rest fs' tl -> frames_of (List.concat bs ++ rest) (fs ++ fs') tl.
Proof.
  intros Hcodec Hloss Hmax H. induction H as [|m b ms bs Hw H IH].
  - exists []. split; auto.
  - destruct IH as (fs&Hg&Hfo); [intros; eapply Hmax; simpl; eauto|].
    destruct (written_good enc cw cf m b Hcodec Hloss) as (f&Hf&Hgf); auto.
    { intros d Hd. apply (Hmax m d); simpl; auto. }
    exists (f :: fs). split; auto. intros rest fs' tl Hr. simpl. rewrite <- app_assoc. constructor; auto.
Qed.

Theorem C02_stream_roundtrip : forall (M : Type) (enc : M -> res bytes) cw (cf : rconf M) md ms bs chunks,
  (forall m d, enc m = Ok d -> rc_dec cf d = Ok m) ->
  lossless cw (rc_comp cf) ->
  (forall m d, In m ms -> enc m = Ok d -> within (rc_max cf) d) ->
  Forall2 (fun m b => write_message enc cw m = Ok b) ms bs ->
  List.concat chunks = List.concat bs ->
  exists r, feed_all cf (reader_new md) chunks = (ms, None, r) /\ r_buf r = [].
Proof.
  intros M enc cw cf md ms bs chunks Hcodec Hloss Hmax Hw Hc.
  destruct (written_frames enc cw cf ms bs Hcodec Hloss Hmax Hw) as (fs&Hg&Hfo).
  specialize (Hfo [] [] [] frames_of_nil). rewrite !app_nil_r in Hfo. rewrite <- Hc in Hfo.
  assert (Hclean : ends_clean (rc_kind cf) fs []).
  { intros f a b -> He. destruct (Forall2_app_l _ _ _ _ Hg) as (m1&m2&_&_&H2).
    inversion H2 as [|? ? ? ? Hgf]; subst. destruct Hgf as [Hf _]. congruence. }
  destruct (feed_all_clean cf chunks (reader_new md) fs [] (reader_new_inv md) (reader_new_incomplete md) Hfo Hclean)
    as (ms'&e&r&b&n&Hs&Hf&Hb).
  destruct (run_skip_good cf fs ms Hg (reader_new md)) as (r1&Hr1&_).
  rewrite Hr1 in Hs. injection Hs as <- <- <-. rewrite Hf. eexists. split; [reflexivity|].
  simpl. auto.
Qed.

(** A reversible, really compressing instance: the hypotheses are met by non-trivial codecs. *)
Definition ex_comp : compression :=
  mk_comp (lit "rev") false (fun d => Ok (170 :: rev d))
    (fun d => match d with 170 :: t => Ok (rev t) | _ => Raise (EOther KValue []) end).
Example C02_example :
  lossless (Some ex_comp) ex_comp
  /\ exists bs, Forall2 (fun m b => write_message (fun x : bytes => Ok x) (Some ex_comp) m = Ok b) [[1;2;3]; []; [255]] bs
  /\ List.length (List.concat bs) = 22%nat.
Proof.
  split.
  - intros d y H. simpl in H. injection H as <-. simpl. split; auto. rewrite rev_involutive. auto.
  - eexists. split; [repeat constructor|]. reflexivity.
Qed.

(** ** C03: size limit *)

(** Whatever the bytes and chunks, the delivered messages come from frames of the body, in order, each at most
    once, and each of them has content within the limit. *)
Theorem C03_delivered_within_limit : forall (M : Type) (cf : rconf M) md n chunks ms e r,
  rc_max cf = Some n ->
  feed_all cf (reader_new md) chunks = (ms, e, r) ->
  exists fs tl sel, frames_of (List.concat chunks) fs tl /\ subseq sel fs
    /\ Forall2 (fun f m => exists d, content_of (rc_comp cf) f d /\ lenN d <= n /\ rc_dec cf d = Ok m) sel ms.
Proof.
  intros M cf md n chunks ms e r Hn Hf.
  destruct (frames_of_exists (List.concat chunks)) as (fs&tl&Hfo).
  destruct (feed_all_general cf chunks (reader_new md) fs tl (reader_new_inv md) Hfo)
    as (used&lft&ms'&e'&r'&b'&n'&->&Hs&Hf').
  rewrite Hf in Hf'. injection Hf' as <- <- ->.
  destruct (run_skip_sub _ _ _ _ _ _ Hs) as (sel&Hsub&Hall).
  exists (used ++ lft), tl, sel. split; auto. split; [apply subseq_app_l; auto|].
  unfold frame_gives, within in Hall. rewrite Hn in Hall. exact Hall.
Qed.

(** The first message over the limit ends the stream with RESOURCE_EXHAUSTED; what precedes it (content of at most,
    and possibly exactly, n bytes) is delivered; nothing that follows is. *)
Theorem C03_first_too_large : forall (M : Type) (cf : rconf M) md n chunks pre f post tl ms d,
  rc_max cf = Some n ->
  frames_of (List.concat chunks) (pre ++ f :: post) tl ->
  Forall2 (fun g m => end_flag (rc_kind cf) g = false
                      /\ exists d, content_of (rc_comp cf) g d /\ lenN d <= n /\ rc_dec cf d = Ok m) pre ms ->
  content_of (rc_comp cf) f d -> n < lenN d ->
  exists msg r, feed_all cf (reader_new md) chunks = (ms, Some (EConnect ResourceExhausted msg []), r).
Proof.
  intros M cf md n chunks pre f post tl ms d Hn Hfo Hg Hc Hlt.
  eexists. eapply feed_all_fails; eauto.
  - unfold good_frame, within. rewrite Hn. exact Hg.
  - intro r. unfold read_frame. rewrite (content_data cf f d Hc), Hn.
    assert (E : n <? lenN d = true) by lia. rewrite E. eauto.
Qed.

Example C03_example : exists r,
  feed_all (ex_cf RBase) (reader_new None) [[0;0;0;0;4;1;2;3;4; 0;0;0;0]; [5;1;2;3;4;5]; [0;0;0;0;0]]
  = ([[1;2;3;4]], Some (EConnect ResourceExhausted (lit "message is larger than configured max 4") []), r).
Proof. eexists. vm_compute. reflexivity. Qed.

(** ** C04: compressed bit without compression *)
Theorem C04_never_delivered : forall (M : Type) (cf : rconf M) md chunks ms e r,
  z_identity (rc_comp cf) = true ->
  feed_all cf (reader_new md) chunks = (ms, e, r) ->
  exists fs tl sel, frames_of (List.concat chunks) fs tl /\ subseq sel fs
    /\ Forall2 (fun f m => compressed_flag f = false /\ rc_dec cf (f_payload f) = Ok m) sel ms.
Proof.
  intros M cf md chunks ms e r Hz Hf.
  destruct (frames_of_exists (List.concat chunks)) as (fs&tl&Hfo).
  destruct (feed_all_general cf chunks (reader_new md) fs tl (reader_new_inv md) Hfo)
    as (used&lft&ms'&e'&r'&b'&n'&->&Hs&Hf').
  rewrite Hf in Hf'. injection Hf' as <- <- ->.
  destruct (run_skip_sub _ _ _ _ _ _ Hs) as (sel&Hsub&Hall).
  exists (used ++ lft), tl, sel. split; auto. split; [apply subseq_app_l; auto|].
  eapply Forall2_impl; [|exact Hall]. intros f m (d&[[H1 ->]|(_&H2&_)]&_&Hd); [auto|congruence].
Qed.

Theorem C04_compressed_is_error : forall (M : Type) (cf : rconf M) md chunks pre f post tl ms,
  z_identity (rc_comp cf) = true ->
  frames_of (List.concat chunks) (pre ++ f :: post) tl ->
  Forall2 (fun g m => end_flag (rc_kind cf) g = false
                      /\ exists d, content_of (rc_comp cf) g d
                         /\ (forall n, rc_max cf = Some n -> lenN d <= n) /\ rc_dec cf d = Ok m) pre ms ->
  compressed_flag f = true ->
  exists msg r, feed_all cf (reader_new md) chunks = (ms, Some (EConnect Internal msg []), r).
Proof.
  intros M cf md chunks pre f post tl ms Hz Hfo Hg Hc.
  eexists. eapply feed_all_fails; eauto.
  - eapply Forall2_impl; [|exact Hg]. intros g m (He&d&H1&H2&H3). split; auto. exists d. repeat split; auto.
    unfold within. destruct (rc_max cf); auto.
  - intro r. unfold read_frame. rewrite testbit0, Hc, Hz. eauto.
Qed.

Example C04_example : exists msg r,
  feed_all (ex_cf RGrpc) (reader_new None) [[0;0;0;0;1;9; 1;0;0;0;1;9; 0;0;0;0;1;9]]
  = ([[9]], Some (EConnect Internal msg []), r).
Proof. do 2 eexists. vm_compute. reflexivity. Qed.

(** ** C05: frame headers *)
Theorem C05_write_exact : forall (M : Type) (enc : M -> res bytes) cw m d p,
  enc m = Ok d -> maybe_compress cw d = Ok p ->
  if lenN p <? 4294967296
  then exists b, write_message enc cw m = Ok b
         /\ frame_wire (mk_frame (match cw with Some z => if z_identity z then 0 else 1 | None => 0 end) p) b
         /\ List.length b = (5 + List.length p)%nat
         /\ (is_bytes p -> is_bytes b)
  else exists e, write_message enc cw m = Raise e.
Proof.
  intros M enc cw m d p Hd Hp. unfold write_message. rewrite Hd. simpl. rewrite Hp. simpl.
  change (match cw with Some z => if z_identity z then 0 else 1 | None => 0 end) with (writer_prefix cw).
  assert (Hpre : writer_prefix cw < 256) by (unfold writer_prefix; destruct cw as [z|]; [destruct (z_identity z)|]; lia).
  destruct (lenN p <? 4294967296) eqn:E; unfold struct_pack_BI; rewrite E.
  - assert (Hlt : writer_prefix cw <? 256 = true) by lia. rewrite Hlt. simpl.
    exists ((writer_prefix cw :: be32 (lenN p)) ++ p). split; auto. split; [|split].
    + apply packed_frame. unfold struct_pack_BI. rewrite Hlt, E. reflexivity.
    + reflexivity.
    + intro H. unfold is_bytes. rewrite Forall_app. split; auto. constructor; auto. apply be32_bytes.
  - rewrite andb_false_r. simpl. eauto.
Qed.

Theorem C05_end_exact : forall cw trailers err b,
  connect_end cw trailers err = Ok b ->
  exists d p, json_bytes (connect_end_json trailers err) = Ok d /\ maybe_compress cw d = Ok p
    /\ frame_wire (mk_frame (match cw with Some z => if z_identity z then 2 else 3 | None => 2 end) p) b.
Proof.
  intros cw tr err b. unfold connect_end. destruct (json_bytes _) as [d|]; simpl; [|discriminate].
  destruct (maybe_compress cw d) as [p|] eqn:Ep; simpl; [|discriminate].
  destruct (struct_pack_BI _ _) as [hd|] eqn:Eh; simpl; [|discriminate]. intro H. injection H as <-.
  exists d, p. repeat split; auto. apply packed_frame in Eh.
  assert (E : N.lor (writer_prefix cw) 2 = match cw with Some z => if z_identity z then 2 else 3 | None => 2 end).
  { unfold writer_prefix. destruct cw as [z|]; [destruct (z_identity z)|]; reflexivity. }
  rewrite <- E. exact Eh.
Qed.

Theorem C05_web_end_exact : forall sc cw trailers err b,
  grpc_web_end sc cw trailers err = Ok b ->
  exists p, frame_wire (mk_frame (match cw with Some z => if z_identity z then 128 else 129 | None => 128 end) p) b.
Proof.
  intros sc cw tr err b. unfold grpc_web_end. destruct (grpc_trailers _ _ _) as [t|]; simpl; [|discriminate].
  destruct (match MUtf8.utf8_encode _ with Some _ => _ | None => _ end) as [d|]; simpl; [|discriminate].
  destruct (maybe_compress cw d) as [p|] eqn:Ep; simpl; [|discriminate].
  destruct (struct_pack_BI _ _) as [hd|] eqn:Eh; simpl; [|discriminate]. intro H. injection H as <-.
  exists p. apply packed_frame in Eh.
  assert (E : N.lor (writer_prefix cw) 128 = match cw with Some z => if z_identity z then 128 else 129 | None => 128 end).
  { unfold writer_prefix. destruct cw as [z|]; [destruct (z_identity z)|]; reflexivity. }
  rewrite <- E. exact Eh.
Qed.

Example C05_example :
  write_message (fun x : bytes => Ok x) None [1;2;3] = Ok [0; 0;0;0;3; 1;2;3].
Proof. vm_compute. reflexivity. Qed.

(** ** C06: after the end-of-stream message *)

(** Partial: bytes that arrive in the same chunk as the end message are never delivered. Missing: bytes that arrive
    in later chunks, see [C06_later_chunk_refuted]. *)
Theorem C06_same_chunk_partial : forall (M : Type) (cf : rconf M) md body pre f post tl ms d,
  frames_of body (pre ++ f :: post) tl ->
  Forall2 (fun g m => end_flag (rc_kind cf) g = false
                      /\ exists d, content_of (rc_comp cf) g d
                         /\ (forall n, rc_max cf = Some n -> lenN d <= n) /\ rc_dec cf d = Ok m) pre ms ->
  end_flag (rc_kind cf) f = true ->
  content_of (rc_comp cf) f d ->
  exists e r, feed_all cf (reader_new md) [body] = (ms, e, r).
Proof.
  intros M cf md body pre f post tl ms d Hfo Hg He Hc.
  assert (Hg' : Forall2 (good_frame cf) pre ms).
  { eapply Forall2_impl; [|exact Hg]. intros g m (H0&x&H1&H2&H3). split; auto. exists x. repeat split; auto.
    unfold within. destruct (rc_max cf); auto. }
  simpl.
  destruct (feed_spec cf (reader_new md) body _ _ (reader_new_inv md) Hfo) as (ms'&e&r'&lft&b'&n'&Hrf&Hf&_).
  rewrite Hf.
  assert (Hms : ms' = ms).
  { clear Hf Hg Hfo. revert ms Hg' Hrf. generalize (reader_new md). revert ms' e r' lft.
    induction pre as [|g pre IH]; intros ms' e r' lft r ms Hg Hrf; simpl in Hrf.
    - inversion Hg; subst.
      destruct (read_frame cf (f_flag f) (f_payload f) r) as [[m| |x] r1] eqn:Er; try (injection Hrf; auto).
      exfalso. unfold read_frame in Er. rewrite (content_data cf f d Hc) in Er.
      destruct (match rc_max cf with Some _ => _ | None => _ end); [discriminate|].
      destruct (handle_end (rc_kind cf) (f_flag f) d r) as [er r2] eqn:Eh. destruct er; try discriminate.
      unfold handle_end, end_flag in *. destruct (rc_kind cf); try discriminate.
      + rewrite N.testbit_odd, N.shiftr_div_pow2 in Eh. change (2 ^ 1) with 2 in Eh. rewrite He in Eh.
        unfold connect_handle_end in Eh.
        destruct (json_loads_bytes d) as [[]|]; try discriminate.
        destruct (match dget d0 (lit "metadata") with Some _ => _ | None => _ end) as [md1 [e1|]]; try discriminate.
        destruct (dget d0 (lit "error")) as [v|]; try discriminate.
        destruct (json_truthy v); try discriminate. destruct v; try discriminate.
        destruct (we_from_dict _ _ _); discriminate.
      + rewrite N.testbit_odd, N.shiftr_div_pow2 in Eh. change (2 ^ 7) with 128 in Eh. rewrite He in Eh.
        destruct (web_lines _ _) as [t [x|]]; discriminate.
    - inversion Hg as [|? m ? ms0 Hgf Hg0]; subst.
      destruct (read_good cf g m r Hgf) as (r1&Hr1&_). rewrite Hr1 in Hrf.
      destruct (run_frames cf (pre ++ f :: post) r1) as [[[ms1 e1] r2] l2] eqn:E.
      injection Hrf as <- <- <- <-. f_equal. eapply IH; eauto. }
  subst. destruct e; eauto. rewrite app_nil_r. eauto.
Qed.

Example C06_example : exists r,
  feed_all (ex_cf RConnect) (reader_new None) [ex_body ++ [0;0;0;0;1;66]] = ([[7;8]], None, r).
Proof. eexists. vm_compute. reflexivity. Qed.

(** The full property fails: a message frame in a chunk after the end message is delivered. *)
Theorem C06_later_chunk_refuted : exists (cf : rconf bytes) chunk1 chunk2 r,
  frames_of chunk1 [mk_frame 2 [123;125]] [] /\ end_flag (rc_kind cf) (mk_frame 2 [123;125]) = true
  /\ feed_all cf (reader_new None) [chunk1; chunk2] = ([[66]], None, r).
Proof.
  exists (ex_cf RConnect), [2;0;0;0;2;123;125], [0;0;0;0;1;66]. eexists. split; [|split].
  - apply (fo_cons (mk_frame 2 [123;125]) [2;0;0;0;2;123;125] []).
    + exists 0, 0, 0, 2. auto.
    + apply frames_of_nil.
  - reflexivity.
  - vm_compute. reflexivity.
Qed.
