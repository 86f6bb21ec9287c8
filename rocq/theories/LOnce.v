(** Lemmas on responses that report their status at the end or at once. *)
From Coq Require Import List NArith ZArith Bool String Lia.
From Verif Require Import MBase MPyStr MHeaders SHeaders MBase64 MPercent MUtf8 MJson MWire LWire MTimeout MEnvelope SEnvelope LEnvelope MProtocol MClient LClient
  LLink MIter LIter SLook LLook SProxy LProxy SOnce.
Import ListNotations.
Local Open Scope N_scope.

(** What a set of status lines means. *)
Definition status_end (sc : status_codec) (a : http_headers) (e : option exn) : option exn :=
  match hh_get a (lit "grpc-status") with
  | None => Some (match e with Some x => x | None => EConnect Internal (lit "missing grpc-status trailer") [] end)
  | Some status =>
      if str_eqb status (lit "0") then None
      else
        match (match hh_get a (lit "grpc-status-details-bin") with Some d => if nonempty d then Some d else None | None => None end) with
        | Some d =>
            match b64decode (d ++ lit "===") with
            | None => Some (EOther KValue (lit "base64"))
            | Some bin =>
                match st_from sc bin with
                | Raise x => Some x
                | Ok st => Some (EConnect (match (match e with Some (EConnect c _ _) => Some c | _ => None end) with
                                           | Some c => c | None => grpc_status_to_connect (dec_of_Z (s_code st)) end)
                                   (s_message st) (map (fun a => mk_detail a None) (s_details st)))
                end
            end
        | None => Some (EConnect (match (match e with Some (EConnect c _ _) => Some c | _ => None end) with
                                  | Some c => c | None => grpc_status_to_connect status end)
                          (unquote (match hh_get a (lit "grpc-message") with Some m => m | None => [] end)) [])
        end
  end.

Lemma complete_reads sc (web : bool) (r : reader) (hs trs : http_headers) e (a : http_headers) :
  (match hh_get (if web then r_trl r else trs) (lit "grpc-status") with
   | Some _ => Some (if web then r_trl r else trs) | None => if r_read r then None else Some hs end) = Some a ->
  fst (grpc_complete sc web r hs trs e) = status_end sc a e.
Proof.
  intro U. unfold grpc_complete. cbv zeta. rewrite U. unfold status_end.
  destruct (hh_get a (lit "grpc-status")) as [st|]; [|reflexivity]. destruct (str_eqb st (lit "0")); [reflexivity|].
  destruct (match hh_get a (lit "grpc-status-details-bin") with Some d => if nonempty d then Some d else None | None => None end) as [d|]; [|reflexivity].
  destruct (b64decode _) as [bin|]; [|reflexivity]. destruct (st_from sc bin); reflexivity.
Qed.

Lemma status_same sc a b e : same_lines grpc_status_lines a b -> status_end sc a e = status_end sc b e.
Proof.
  intro S. unfold status_end. rewrite !(lines_get _ _ _ _ S) by (cbn; tauto). reflexivity.
Qed.

Lemma consume_none {M} (cf : rconf M) chunks r stop r' : consume cf r chunks None = ([], None, r') -> consume cf r chunks stop = ([], None, r').
Proof. intro H. destruct stop as [[n g]|]; [|exact H]. apply (consume_stop cf chunks r n g _ _ _ H). cbn. lia. Qed.

Lemma consume_nothing {M} (cf : rconf M) md : forall chunks stop, List.concat chunks = [] -> consume cf (reader_new md) chunks stop = ([], None, reader_new md).
Proof.
  intros chunks stop H. apply consume_none. induction chunks as [|ch cs IH]; [reflexivity|].
  cbn [List.concat] in H. apply app_eq_nil in H as [-> H]. cbn [consume]. change (feed cf (reader_new md) []) with (@nil M, @None exn, reader_new md).
  cbn iota. rewrite (IH H). reflexivity.
Qed.

Lemma text_block ts : lines_text ts = trailer_block ts.
Proof. unfold lines_text, trailer_block. rewrite flat_map_concat_map. reflexivity. Qed.

Lemma consume_web {B} (cf : rconf B) chunks ts d stop : rc_kind cf = RGrpcWeb -> utf8_encode (lines_text ts) = Some d ->
  frames_of (List.concat chunks) [mk_frame 128 d] [] -> (forall n, rc_max cf = Some n -> lenN d <= n) ->
  Forall (fun kv => legal_name (fst kv) /\ legal_value (snd kv)) ts ->
  exists r, consume cf (reader_new None) chunks stop = ([], None, r) /\ r_trl r = ts.
Proof.
  intros K E F W L. rewrite text_block in E. destruct (web_block_roundtrip ts L) as (d'&E'&R). assert (d' = d) by congruence. subst d'.
  destruct (feed_with_end cf None chunks [] [] (mk_frame 128 d) None (fun r => r_trl r = ts)) as (r&Hr&P); auto.
  - now rewrite K.
  - intros r _ Tr. cbn [f_flag f_payload]. unfold read_frame. change (N.testbit 128 0) with false. cbv iota.
    assert (X : (match rc_max cf with Some n => n <? lenN d | None => false end) = false).
    { destruct (rc_max cf) as [n|]; [|reflexivity]. specialize (W n eq_refl). apply N.ltb_ge. lia. }
    rewrite X, K. unfold handle_end. change (N.testbit 128 7) with true. cbv iota. rewrite R, Tr. eexists. split; [|reflexivity]. reflexivity.
  - exists r. split; [|exact P]. apply consume_none. rewrite consume_all, Hr. reflexivity.
Qed.

Lemma except_ends {A B} (c : client A B) ex r r' resp resp' serr md md' f :
  (forall e, fst (response_complete (cl_sc c) (reader_kind (cl_proto c)) r (sp_headers resp) (sp_trailers resp) e)
           = fst (response_complete (cl_sc c) (reader_kind (cl_proto c)) r' (sp_headers resp') (sp_trailers resp') e)) ->
  fst (stream_except c ex (Some (r, resp)) serr md f) = fst (stream_except c ex (Some (r', resp')) serr md' f).
Proof.
  intro X. unfold stream_except. destruct f as [e| |]; try reflexivity. destruct e as [k m ds|st hs|k m]; try reflexivity.
  - destruct serr; [reflexivity|]. destruct (map_stream_reset _ ex) as [rst|]; [|reflexivity]. specialize (X (Some rst)).
    destruct (response_complete _ _ r _ _ _), (response_complete _ _ r' _ _ _). cbn in X. now subst.
  - destruct k; try reflexivity; (destruct serr; [reflexivity|]); destruct (map_stream_reset _ ex) as [rst|]; try reflexivity; specialize (X (Some rst));
      destruct (response_complete _ _ r _ _ _), (response_complete _ _ r' _ _ _); cbn in X; now subst.
Qed.

Lemma loop_ends {A B} (c : client A B) ex f r r' resp resp' : sp_fault resp = sp_fault resp' -> sp_exit resp = sp_exit resp' ->
  (forall e, fst (response_complete (cl_sc c) (reader_kind (cl_proto c)) r (sp_headers resp) (sp_trailers resp) e)
           = fst (response_complete (cl_sc c) (reader_kind (cl_proto c)) r' (sp_headers resp') (sp_trailers resp') e)) ->
  fst (loop_end c ex resp f r) = fst (loop_end c ex resp' f r').
Proof.
  intros F X H. unfold loop_end. rewrite F.
  assert (Y : forall serr md md' g, fst (stream_except c ex (Some (r, resp)) serr md g) = fst (stream_except c ex (Some (r', resp')) serr md' g))
    by (intros; now apply except_ends).
  destruct (match f with Some f => Some f | None => sp_fault resp' end) as [g|]; [apply leave_lines; auto|].
  destruct (_ && _); [apply leave_lines; auto|]. specialize (H None).
  destruct (response_complete _ _ r _ _ _) as [x md], (response_complete _ _ r' _ _ _) as [x' md']. cbn in H. subst x'. apply leave_lines; auto.
Qed.

Lemma send_once {A B} (c : client A B) cx ck net net' reqs stop : late_or_once_net (cl_proto c) (cl_max c) net net' ->
  let x := send_stream c cx ck net None reqs stop in let y := send_stream c cx ck net' None reqs stop in
  sr_msgs x = sr_msgs y /\ sr_end x = sr_end y.
Proof.
  intro S. cbv zeta. rewrite !send_stream_end. cbv zeta. destruct (S (call_request c cx ck reqs)) as [E|(late&once&E&E'&R)].
  { rewrite E. split; reflexivity. }
  rewrite E, E'. destruct R as (S1&S2&Fa&Ex&H&(Oc&Oh&Ot)&ts&Rl&St). cbn [handle_response_headers]. rewrite S1, S2. change (200 =? 200) with true. cbv iota.
  assert (Ee : forall f, fst (leave_end c (deadline_passed cx (ck_late ck)) late None None None f) = fst (leave_end c (deadline_passed cx (ck_late ck)) once None None None f))
    by (intro f; apply leave_lines; [exact Ex|intro; apply except_none]).
  assert (Np : cl_proto c <> PConnect) by (intro P; rewrite P in Rl; exact Rl).
  assert (Z : handle_response_compression (cl_proto c) true (sp_headers late) (cl_comps c) = handle_response_compression (cl_proto c) true (sp_headers once) (cl_comps c)).
  { unfold handle_response_compression. destruct (cl_proto c); [congruence| |]; cbn [client_compression_header]; rewrite (lines_get _ _ _ (lit "grpc-encoding") H) by (cbn; tauto); reflexivity. }
  rewrite (lines_get _ _ _ (lit "content-type") H) by (cbn; tauto). rewrite Z. clear Z.
  destruct (validate_stream_response _ _ _); [split; [reflexivity|apply Ee]|].
  destruct (handle_response_compression _ _ _ _) as [z|]; [|split; [reflexivity|apply Ee]].
  rewrite (consume_nothing _ None (sp_chunks once) stop Oc).
  pose proof (lines_get _ _ _ (lit "grpc-status") St ltac:(cbn; tauto)) as Gs. rewrite <- first_hh in Oh.
  destruct (cl_proto c) eqn:P; [congruence| |]; cbn [reports_late reader_kind] in *.
  - destruct Rl as [Cl Tl]. rewrite (consume_nothing _ None (sp_chunks late) stop Cl). split; [reflexivity|]. cbn [sr_end].
    apply loop_ends; auto. intro e. rewrite P. cbn [reader_kind response_complete].
    rewrite (complete_reads _ _ _ _ _ _ ts), (complete_reads _ _ _ _ _ _ (sp_headers once)); [now apply status_same| |].
    + rewrite first_hh, (Ot eq_refl). reflexivity.
    + rewrite Tl, Gs. destruct (hh_get (sp_headers once) (lit "grpc-status")); [reflexivity|congruence].
  - destruct Rl as (d&Ed&Fr&W&L). destruct (consume_web (mk_rconf RGrpcWeb z (cl_max c) (k_dec_res (cl_codec c))) (sp_chunks late) ts d stop eq_refl Ed Fr W L) as (r&Hr&Tr).
    rewrite Hr. split; [reflexivity|]. cbn [sr_end]. apply loop_ends; auto. intro e. rewrite P. cbn [reader_kind response_complete].
    rewrite (complete_reads _ _ _ _ _ _ ts), (complete_reads _ _ _ _ _ _ (sp_headers once)); [now apply status_same|reflexivity|].
    rewrite Tr, Gs. destruct (hh_get (sp_headers once) (lit "grpc-status")); [reflexivity|congruence].
Qed.
