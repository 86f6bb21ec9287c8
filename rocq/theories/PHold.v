(** C79: what a peer can make the library hold of a message. *)
From Coq Require Import List NArith ZArith Bool String Lia.
From Verif Require Import MBase MPyStr MHeaders MWire MTimeout MEnvelope SEnvelope LEnvelope MProtocol MClient MServer MAsgi MWsgi MDuplex SDuplex LDuplex MTalk STalk
  LTalk SServer PEnvelope PProtocol PClient PResponse PRequest PDuplex PTalk.
Import ListNotations.
Local Open Scope N_scope.

(** [announces b n]: the frame that [b] begins says that its payload has [n] bytes. *)
Definition announces (b : bytes) (n : N) : Prop :=
  exists fl h3 h2 h1 h0 rest, b = fl :: h3 :: h2 :: h1 :: h0 :: rest /\ n = h3 * 16777216 + h2 * 65536 + h1 * 256 + h0.
(** Less than a whole frame: at most four bytes of its header, or the header and less than it announces. *)
Definition part_of_frame (b : bytes) : Prop := lenN b < 5 \/ exists n, announces b n /\ lenN b < 5 + n.

Lemma incomplete_part b : incomplete b -> part_of_frame b.
Proof.
  intros [H|(fl&h3&h2&h1&h0&rest&->&H)]; [left; unfold lenN; lia|right].
  exists (h3 * 16777216 + h2 * 65536 + h1 * 256 + h0). split; [now exists fl, h3, h2, h1, h0, rest|]. unfold lenN. cbn [List.length]. lia.
Qed.

(** Readers of clients and servers: between two parts of a body, what is held is less than one frame: what came after the last whole
    frame.  So if no frame announces more than [n] bytes, less than [5 + n].  Missing: a bound by read_max_bytes, see
    [C79_reader_refuted]. *)
Theorem C79_reader_partial : forall (M : Type) (cf : rconf M) md chunks ms r fs tl,
  feed_all cf (reader_new md) chunks = (ms, None, r) -> nothing_after_end (rc_kind cf) (List.concat chunks) ->
  frames_of (List.concat chunks) fs tl ->
  r_buf r = tl /\ part_of_frame tl /\ forall n, (forall k, announces tl k -> k <= n) -> lenN (r_buf r) < 5 + n.
Proof.
  intros M cf md chunks ms r fs tl H Hn Hf.
  destruct (feed_all_clean cf chunks (reader_new md) fs tl (reader_new_inv md) (reader_new_incomplete md) Hf (Hn fs tl Hf)) as (ms'&e&r'&b'&n'&_&Hr&Hb).
  rewrite H in Hr. injection Hr as -> <- ->. cbn [with_buf r_buf]. rewrite (Hb eq_refl).
  assert (P : part_of_frame tl) by (apply incomplete_part; exact (frames_of_incomplete _ _ _ Hf)).
  split; [reflexivity|]. split; [exact P|]. intros n Hk. destruct P as [P|(k&Ha&P)]; [lia|]. specialize (Hk k Ha). lia.
Qed.
Print Assumptions C79_reader_partial.

(** Full statement, refuted (finding): whatever read_max_bytes is, a frame that announces [n] bytes is not refused before all of them
    are there; all but the last byte are held. *)
Theorem C79_reader_refuted : forall (M : Type) (cf : rconf M) md (fl : N) n, 0 < n < 4294967296 ->
  exists chunks r, feed_all cf (reader_new md) chunks = ([], None, r) /\ announces (List.concat chunks) n /\ r_buf r = List.concat chunks /\ lenN (r_buf r) = n + 4.
Proof.
  intros M cf md fl n Hn. pose (tl := (fl :: be32 n) ++ repeat 0 (N.to_nat (n - 1))). exists [fl :: be32 n; repeat 0 (N.to_nat (n - 1))].
  assert (C : List.concat [fl :: be32 n; repeat 0 (N.to_nat (n - 1))] = tl) by (unfold tl; cbn [List.concat]; now rewrite app_nil_r).
  assert (V : n / 16777216 mod 256 * 16777216 + n / 65536 mod 256 * 65536 + n / 256 mod 256 * 256 + n mod 256 = n).
  { rewrite <- be_val_4. exact (be_val_be32 n (proj2 Hn)). }
  assert (I : incomplete tl).
  { right. exists fl, (n / 16777216 mod 256), (n / 65536 mod 256), (n / 256 mod 256), (n mod 256), (repeat 0 (N.to_nat (n - 1))).
    split; [reflexivity|]. rewrite V, repeat_length. lia. }
  destruct (feed_all_clean cf [fl :: be32 n; repeat 0 (N.to_nat (n - 1))] (reader_new md) [] tl (reader_new_inv md) (reader_new_incomplete md)) as (ms'&e&r'&b'&n'&Hs&Hr&Hb).
  - cbn [reader_new r_buf List.app]. rewrite C. now constructor.
  - intros f before after E. destruct before; discriminate E.
  - cbn [run_skip] in Hs. injection Hs as <- <- <-. exists (with_buf (reader_new md) b' n'). split; [exact Hr|]. rewrite C. split.
    + exists fl, (n / 16777216 mod 256), (n / 65536 mod 256), (n / 256 mod 256), (n mod 256), (repeat 0 (N.to_nat (n - 1))). split; [reflexivity|now symmetry].
    + cbn [with_buf r_buf]. rewrite (Hb eq_refl). split; [reflexivity|]. unfold tl, lenN. rewrite app_length, repeat_length. cbn [List.length be32]. lia.
Qed.
Print Assumptions C79_reader_refuted.

(** Nor is what the peer announces looked at before a compressed message is decompressed (finding): whatever read_max_bytes is, and however
    long the frame, its whole content is given to the decompressor.  If that fails, its error is what is seen; if what comes out is short
    enough, the message is accepted. *)
Theorem C79_decompress_refuted : forall (M : Type) (cf : rconf M) md chunks f tl,
  frames_of (List.concat chunks) [f] tl -> compressed_flag f = true -> z_identity (rc_comp cf) = false -> end_flag (rc_kind cf) f = false ->
  (forall x, z_decompress (rc_comp cf) (f_payload f) = Raise x -> exists r, feed_all cf (reader_new md) chunks = ([], Some x, r))
  /\ (forall d m, z_decompress (rc_comp cf) (f_payload f) = Ok d -> within (rc_max cf) d -> rc_dec cf d = Ok m ->
        exists r, feed_all cf (reader_new md) chunks = ([m], None, r)).
Proof.
  intros M cf md chunks f tl Hf Hc Hz He. split.
  - intros x Hx. apply (feed_all_fails cf md chunks [] f [] tl [] x Hf (Forall2_nil _)). intro r. exists r. unfold read_frame.
    now rewrite testbit0, Hc, Hz, Hx.
  - intros d m Hd Hw Hm.
    destruct (feed_all_clean cf chunks (reader_new md) [f] tl (reader_new_inv md) (reader_new_incomplete md) Hf) as (ms'&e&r'&b'&n'&Hs&Hr&_).
    { intros g before after E G. destruct before as [|? [|]]; [|discriminate E|discriminate E]. injection E as <- <-. congruence. }
    cbn [run_skip] in Hs. unfold read_frame in Hs. rewrite testbit0, Hc, Hz, Hd, (within_false _ _ Hw) in Hs.
    destruct (handle_end_no _ _ d (reader_new md) He) as (r1&Hh&_). rewrite Hh, Hm in Hs. injection Hs as <- <- _. eauto.
Qed.
Print Assumptions C79_decompress_refuted.

(** Three bytes announced and two allowed, with a compression for which it matters. *)
Example C79_example_decompress :
  let z := mk_comp (lit "x") false Ok (fun b => match b with [9; 9; 9] => Ok [1] | _ => Raise (EOther KValue (lit "bad")) end) in
  let cf := mk_rconf RBase z (Some 2) (fun b => Ok b) in
  (exists r, feed_all cf (reader_new None) [ex_frame 1 [9; 9; 9]] = ([[1]], None, r))
  /\ exists r, feed_all cf (reader_new None) [ex_frame 1 [8; 8; 8]] = ([], Some (EOther KValue (lit "bad")), r).
Proof. split; eexists; vm_compute; reflexivity. Qed.

(** Servers: whenever a part of a request stream is received, all whole messages among those received before have been given to the
    method, and the rest is less than one frame. *)
Theorem C79_asgi_partial : forall (A B : Type) (ap : app A B) now sc en before r1 y r2 x rest fs tl,
  snd (asgi_conversation ap now sc en) = before ++ DAsk :: map DRecv (r1 ++ y :: r2) ++ DGive x :: rest ->
  frames_of (List.concat (received before ++ parts r1)) fs tl ->
  (List.length fs <= List.length (given before))%nat /\ part_of_frame tl.
Proof.
  intros A B ap now sc en before r1 y r2 x rest fs tl E Hf. split; [|apply incomplete_part; exact (frames_of_incomplete _ _ _ Hf)].
  destruct (C76_ask A B ap now sc en before _ E) as [_ (rs&x'&rest'&E'&H)]. apply (H r1 y r2 fs tl); [|exact Hf].
  revert E'. generalize (r1 ++ y :: r2) as l. clear. induction rs as [|z rs IH]; intros [|w l] E; cbn [map List.app] in E; try discriminate E; [reflexivity|].
  injection E as -> E. f_equal. now apply IH.
Qed.
Print Assumptions C79_asgi_partial.
Theorem C79_wsgi_partial : forall (A B : Type) (ap : app A B) now q before r1 y r2 x rest fs tl,
  snd (wsgi_talk ap now q) = before ++ TAsk :: map TRead (r1 ++ y :: r2) ++ TGive x :: rest ->
  frames_of (List.concat (pieces (reads before ++ r1))) fs tl ->
  (List.length fs <= List.length (wgiven before))%nat /\ part_of_frame tl.
Proof.
  intros A B ap now q before r1 y r2 x rest fs tl E Hf. split; [|apply incomplete_part; exact (frames_of_incomplete _ _ _ Hf)].
  destruct (C78_ask A B ap now q before _ E) as [_ (rs&x'&rest'&E'&H)]. apply (H r1 y r2 fs tl); [|exact Hf].
  revert E'. generalize (r1 ++ y :: r2) as l. clear. induction rs as [|z rs IH]; intros [|w l] E; cbn [map List.app] in E; try discriminate E; [reflexivity|].
  injection E as -> E. f_equal. now apply IH.
Qed.
Print Assumptions C79_wsgi_partial.

(** Both servers with a limit of two bytes: a message of 1000 bytes is received to its end before it is refused. *)
Definition ex_small : app pystr pystr := app_new (lit "/pkg.Svc") [(lit "/pkg.Svc/Get", ex_duplex)] (Some 2) [] [ex_codec] ex_sc.
Definition ex_large : list bytes := [[0; 0; 0; 3; 232]; repeat 7 600; repeat 7 399; [7]].
Theorem C79_servers_refuted :
  (exists m rest, snd (asgi_conversation ex_small 0%Z (ex_scope "POST" "application/grpc+proto") (mk_env (map (fun b => RReq b true) ex_large) None WIdle (fun _ => SOk)))
     = DAsk :: map (fun b => DRecv (RReq b true)) ex_large ++ DGive (PExn (EConnect ResourceExhausted m [])) :: rest)
  /\ exists m rest, snd (wsgi_talk ex_small 0%Z (ex_pieces "application/grpc+proto" [] ex_large))
     = TAsk :: map (fun b => TRead (Ok b)) ex_large ++ TGive (PExn (EConnect ResourceExhausted m [])) :: rest.
Proof. split; do 2 eexists; vm_compute; reflexivity. Qed.
Print Assumptions C79_servers_refuted.

(** Unary requests of the Connect protocol: whatever read_max_bytes is, all parts of the body are received before anything is done
    with it, and before anything is sent (finding). *)
Lemma body_events_all cs c : body_events (map (fun b => RReq b true) cs ++ [RReq c false]) = map (fun b => RReq b true) cs ++ [RReq c false].
Proof. induction cs as [|b cs IH]; [reflexivity|]. cbn [map List.app body_events]. now rewrite IH. Qed.
Theorem C79_unary_asgi_refuted : forall (A B : Type) (ap : app A B) now sc f hs cx params k cs c cut watch send,
  asgi_unary_request ap now sc f hs cx params k -> sc_method sc = lit "POST" ->
  let l := map (fun b => RReq b true) cs ++ [RReq c false] in
  exists out, snd (asgi_conversation ap now sc (mk_env l cut watch send)) = map DRecv l ++ map DSend out.
Proof.
  intros A B ap now sc f hs cx params k cs c cut watch send (m & O & K) G. cbv zeta. unfold asgi_conversation. rewrite O, K, G.
  cbn [en_recv]. change (str_eqb (lit "POST") (lit "GET")) with false. cbv iota. rewrite body_events_all. cbn [snd]. eexists. reflexivity.
Qed.
Print Assumptions C79_unary_asgi_refuted.

Lemma read_exact_pieces n : forall fuel acc inp, let '(r, _, o) := read_exact_t fuel n acc inp in forall body, r = Ok body -> body = acc ++ List.concat (pieces o).
Proof.
  induction fuel as [|f IH]; intros acc inp; cbn [read_exact_t]; destruct (lenN acc <? n) eqn:L;
    try (intros body E; injection E as <-; cbn; now rewrite app_nil_r); try (intros body E; discriminate E).
  destruct (wread (n - lenN acc) inp) as [[[|x b]|e] inp1] eqn:W; try (intros body E; discriminate E).
  specialize (IH (acc ++ x :: b) inp1). destruct (read_exact_t f n (acc ++ x :: b) inp1) as [[r inp2] o]. intros body E.
  rewrite (IH body E), <- app_assoc. reflexivity.
Qed.
Lemma read_length_pieces n inp : let '(r, _, o) := read_body_with_content_length_t n inp in forall body, r = Ok body -> body = List.concat (pieces o).
Proof.
  unfold read_body_with_content_length_t. destruct (wread n inp) as [[b|e] inp1] eqn:W; [|intros body E; discriminate E].
  destruct (lenN b =? n); [intros body E; injection E as <-; cbn; now rewrite app_nil_r|].
  pose proof (read_exact_pieces n (input_fuel inp) b inp1) as R. destruct (read_exact_t _ _ _ _) as [[r inp2] o]. intros body E. exact (R body E).
Qed.
Lemma concat_filter (l : list bytes) : List.concat (filter (fun c => match c with [] => false | _ => true end) l) = List.concat l.
Proof. induction l as [|[|x b] l IH]; cbn; [reflexivity|exact IH|now rewrite IH]. Qed.

Theorem C79_unary_wsgi_refuted : forall (A B : Type) (ap : app A B) now q f hs cx k body,
  wsgi_unary_request ap now q f hs cx -> cx_http cx = lit "POST" ->
  dget (ap_codecs ap) (codec_name_from_content_type PConnect false (h_get_default hs (lit "content-type") [])) = Some k ->
  wsgi_read q body ->
  exists o rest, snd (wsgi_talk ap now q) = map TRead o ++ rest /\ List.concat (pieces o) = body.
Proof.
  intros A B ap now q f hs cx k body (m & O) G K (n & Hn & Hr). unfold wsgi_talk. rewrite O. unfold wsgi_unary_t. rewrite G.
  change (str_eqb (lit "POST") (lit "GET")) with false. cbv iota.
  assert (P : exists inp o, post_reads ap q hs = (inp, o) /\ List.concat (pieces o) = body).
  { unfold post_reads. rewrite K. unfold option_map in *. rewrite Hn. destruct (0 <? n)%Z.
    - pose proof (read_length_pieces (Z.to_N n) (wq_input q)) as P. pose proof (read_length_same (Z.to_N n) (wq_input q)) as S.
      destruct (read_body_with_content_length_t _ _) as [[r inp] o]. exists inp, o. split; [reflexivity|]. symmetry. apply P. congruence.
    - destruct Hr as (cs & Hc & ->). pose proof (drain_loop_same (input_fuel (wq_input q)) (wq_input q)) as S. unfold wsgi_body in Hc.
      destruct (drain_loop _ _) as [[e inp] o]. exists inp, o. split; [reflexivity|]. rewrite Hc in S. injection S as -> _. now rewrite concat_filter. }
  destruct P as (inp & o & -> & <-). destruct (wsgi_unary ap q (lit "POST") f cx hs) as [[[inv rs] ev] i].
  destruct i as [[e|]|]; try (exists o; eexists; split; reflexivity).
  destruct (drain_body q inp) as [[d inp'] o']. cbn [snd]. rewrite <- app_assoc. exists o. eexists. split; reflexivity.
Qed.
Print Assumptions C79_unary_wsgi_refuted.

(** A unary request of three parts for a server that takes messages of up to two bytes. *)
Definition ex_tiny : app pystr pystr := app_new (lit "/pkg.Svc") [(lit "/pkg.Svc/Get", ex_echo)] (Some 2) [] [ex_codec] ex_sc.
Example C79_example_unary :
  (exists f hs cx params k, asgi_unary_request ex_tiny 0%Z (ex_scope "POST" "application/proto") f hs cx params k)
  /\ (exists m rest, snd (asgi_conversation ex_tiny 0%Z (ex_scope "POST" "application/proto") (mk_env [RReq [1; 2; 3] true; RReq [4; 5; 6] true; RReq [7] false] None WIdle (fun _ => SOk)))
        = [DRecv (RReq [1; 2; 3] true); DRecv (RReq [4; 5; 6] true); DRecv (RReq [7] false); DSend (EvStart 429 m false)] ++ rest)
  /\ exists rest, snd (wsgi_talk ex_tiny 0%Z (ex_wq_with "POST" "application/proto" [("CONTENT_LENGTH", "7")] [RD [1; 2; 3]; RD [4; 5; 6]; RD [7]])%string)
        = [TRead (Ok [1; 2; 3]); TRead (Ok [4; 5; 6]); TRead (Ok [7])] ++ rest.
Proof.
  split; [|split; repeat eexists; vm_compute; reflexivity].
  do 5 eexists. eexists. split; vm_compute; reflexivity.
Qed.

(** A reader that holds four bytes of the second frame, and a server that does when it receives the rest. *)
Example C79_example_reader : exists r, feed_all (mk_rconf RBase identity_comp (Some 10) (fun b => Ok b)) (reader_new None) [ex_frame 0 [7] ++ [0; 0]; [0; 0]] = ([[7]], None, r)
  /\ r_buf r = [0; 0; 0; 0].
Proof. eexists. vm_compute. split; reflexivity. Qed.
Example C79_example_asgi :
  exists before rest, snd (asgi_conversation (ex_app ex_duplex) 0%Z (ex_scope "POST" "application/grpc+proto") ex_duplex_env)
    = before ++ DAsk :: map DRecv ([RReq [0; 0; 1] true] ++ RReq [8] true :: []) ++ DGive (PMsg [8]) :: rest
  /\ List.concat (received before ++ parts [RReq [0; 0; 1] true]) = ex_frame 0 [7] ++ [0; 0; 0; 0; 1] /\ given before = [[7]].
Proof.
  exists (firstn 6 (snd (asgi_conversation (ex_app ex_duplex) 0%Z (ex_scope "POST" "application/grpc+proto") ex_duplex_env))). eexists.
  split; [vm_compute; reflexivity|]. split; vm_compute; reflexivity.
Qed.
