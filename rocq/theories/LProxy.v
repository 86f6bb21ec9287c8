(** Lemmas on header lines that a client does not look at. *)
From Coq Require Import List NArith ZArith Bool String Lia.
From Verif Require Import MBase MPyStr MHeaders MBase64 MPercent MJson MWire MTimeout MEnvelope SEnvelope LEnvelope MProtocol MClient LClient MIter LIter
  SLook LLook SProxy.
Import ListNotations.
Local Open Scope N_scope.

Lemma first_hh hs n : hh_get hs n = first_line hs n.
Proof. unfold hh_get. induction hs as [|[k v] hs IH]; [reflexivity|]. cbn [find first_line fst]. destruct (str_eqb (lower k) (lower n)); [reflexivity|exact IH]. Qed.

Lemma lines_get names hs hs' n : same_lines names hs hs' -> In n names -> hh_get hs n = hh_get hs' n.
Proof. intros S I. rewrite !first_hh. now apply S. Qed.

Lemma grpc_lines sc web r hs hs' trs trs' e : (forall n, In n grpc_status_lines -> hh_get hs n = hh_get hs' n) ->
  (web = false -> forall n, In n grpc_status_lines -> hh_get trs n = hh_get trs' n) ->
  fst (grpc_complete sc web r hs trs e) = fst (grpc_complete sc web r hs' trs' e).
Proof.
  intros H T. unfold grpc_complete.
  set (m := match e with Some x => x | None => EConnect Internal (lit "missing grpc-status trailer") [] end). cbv zeta.
  assert (X : forall a a' : http_headers, (forall n, In n grpc_status_lines -> hh_get a n = hh_get a' n) ->
    forall md md' : option metadata,
    fst (match hh_get a (lit "grpc-status") with
      | None => (Some m, md)
      | Some status =>
          if str_eqb status (lit "0") then (None, md)
          else
            match (match hh_get a (lit "grpc-status-details-bin") with Some d => if nonempty d then Some d else None | None => None end) with
            | Some d =>
                match b64decode (d ++ lit "===") with
                | None => (Some (EOther KValue (lit "base64")), md)
                | Some bin =>
                    match st_from sc bin with
                    | Raise x => (Some x, md)
                    | Ok st => (Some (EConnect (match (match e with Some (EConnect c _ _) => Some c | _ => None end) with
                                                | Some c => c | None => grpc_status_to_connect (dec_of_Z (s_code st)) end)
                                        (s_message st) (map (fun a => mk_detail a None) (s_details st))), md)
                    end
                end
            | None => (Some (EConnect (match (match e with Some (EConnect c _ _) => Some c | _ => None end) with
                                       | Some c => c | None => grpc_status_to_connect status end)
                               (unquote (match hh_get a (lit "grpc-message") with Some m => m | None => [] end)) []), md)
            end
      end)
    = fst (match hh_get a' (lit "grpc-status") with
      | None => (Some m, md')
      | Some status =>
          if str_eqb status (lit "0") then (None, md')
          else
            match (match hh_get a' (lit "grpc-status-details-bin") with Some d => if nonempty d then Some d else None | None => None end) with
            | Some d =>
                match b64decode (d ++ lit "===") with
                | None => (Some (EOther KValue (lit "base64")), md')
                | Some bin =>
                    match st_from sc bin with
                    | Raise x => (Some x, md')
                    | Ok st => (Some (EConnect (match (match e with Some (EConnect c _ _) => Some c | _ => None end) with
                                                | Some c => c | None => grpc_status_to_connect (dec_of_Z (s_code st)) end)
                                        (s_message st) (map (fun a => mk_detail a None) (s_details st))), md')
                    end
                end
            | None => (Some (EConnect (match (match e with Some (EConnect c _ _) => Some c | _ => None end) with
                                       | Some c => c | None => grpc_status_to_connect status end)
                               (unquote (match hh_get a' (lit "grpc-message") with Some m => m | None => [] end)) []), md')
            end
      end)).
  { intros a a' G md md'. rewrite (G (lit "grpc-status")), (G (lit "grpc-message")), (G (lit "grpc-status-details-bin")) by (cbn; tauto).
    destruct (hh_get a' (lit "grpc-status")) as [st|]; [|reflexivity]. destruct (str_eqb st (lit "0")); [reflexivity|].
    destruct (match hh_get a' (lit "grpc-status-details-bin") with Some d => if nonempty d then Some d else None | None => None end) as [d|]; [|reflexivity].
    destruct (b64decode _) as [bin|]; [|reflexivity]. destruct (st_from sc bin); reflexivity. }
  destruct web.
  - destruct (hh_get (r_trl r) (lit "grpc-status")) eqn:E; [reflexivity|]. destruct (r_read r); [reflexivity|]. now apply X.
  - rewrite (T eq_refl (lit "grpc-status")) by (cbn; tauto). destruct (hh_get trs' (lit "grpc-status")) eqn:E.
    + apply X. now apply T.
    + destruct (r_read r); [reflexivity|]. now apply X.
Qed.

Lemma complete_lines p sc r hs hs' trs trs' e : same_lines (header_lines p true) hs hs' -> same_lines (trailer_lines p) trs trs' ->
  fst (response_complete sc (reader_kind p) r hs trs e) = fst (response_complete sc (reader_kind p) r hs' trs' e).
Proof.
  intros H T. destruct p; cbn [reader_kind response_complete]; [reflexivity| |];
    (apply grpc_lines; [intros n I; apply (lines_get _ _ _ _ H); right; right; exact I|intros W n I; try discriminate; exact (lines_get _ _ _ _ T I)]).
Qed.

Lemma except_lines {A B} (c : client A B) ex r resp resp' serr md md' f :
  same_lines (header_lines (cl_proto c) true) (sp_headers resp) (sp_headers resp') -> same_lines (trailer_lines (cl_proto c)) (sp_trailers resp) (sp_trailers resp') ->
  fst (stream_except c ex (Some (r, resp)) serr md f) = fst (stream_except c ex (Some (r, resp')) serr md' f).
Proof.
  intros H T. unfold stream_except. destruct f as [e| |]; try reflexivity.
  pose proof (fun rst => complete_lines (cl_proto c) (cl_sc c) r _ _ _ _ (Some rst) H T) as X.
  destruct e as [k m ds|st hs|k m]; try reflexivity.
  - destruct serr; [reflexivity|]. destruct (map_stream_reset _ ex) as [rst|]; [|reflexivity]. specialize (X rst).
    destruct (response_complete _ _ r (sp_headers resp) _ _), (response_complete _ _ r (sp_headers resp') _ _). cbn in X. now subst.
  - destruct k; try reflexivity; (destruct serr; [reflexivity|]); destruct (map_stream_reset _ ex) as [rst|]; try reflexivity; specialize (X rst);
      destruct (response_complete _ _ r (sp_headers resp) _ _), (response_complete _ _ r (sp_headers resp') _ _); cbn in X; now subst.
Qed.

Lemma except_none {A B} (c : client A B) ex serr md md' f :
  fst (stream_except c ex None serr md f) = fst (stream_except c ex None serr md' f).
Proof.
  unfold stream_except. destruct f as [e| |]; try reflexivity. destruct e as [k m ds|st hs|k m]; try reflexivity.
  - destruct serr; [reflexivity|]. destruct (map_stream_reset _ ex); reflexivity.
  - destruct k; try reflexivity; (destruct serr; [reflexivity|]); destruct (map_stream_reset _ ex); reflexivity.
Qed.

Lemma leave_lines {A B} (c : client A B) ex rd rd' resp resp' serr md md' f : sp_exit resp = sp_exit resp' ->
  (forall g, fst (stream_except c ex rd serr md g) = fst (stream_except c ex rd' serr md' g)) ->
  fst (leave_end c ex resp rd serr md f) = fst (leave_end c ex resp' rd' serr md' f).
Proof.
  intros X H. unfold leave_end. assert (L : leave resp f = leave resp' f) by (unfold leave; now rewrite X). rewrite L.
  destruct (leave resp' f); [apply H|reflexivity].
Qed.

Lemma loop_lines {A B} (c : client A B) ex f r resp resp' :
  sp_fault resp = sp_fault resp' -> sp_exit resp = sp_exit resp' ->
  same_lines (header_lines (cl_proto c) true) (sp_headers resp) (sp_headers resp') -> same_lines (trailer_lines (cl_proto c)) (sp_trailers resp) (sp_trailers resp') ->
  fst (loop_end c ex resp f r) = fst (loop_end c ex resp' f r).
Proof.
  intros F X H T. unfold loop_end. rewrite F.
  assert (Y : forall serr md md' g, fst (stream_except c ex (Some (r, resp)) serr md g) = fst (stream_except c ex (Some (r, resp')) serr md' g))
    by (intros; now apply except_lines).
  destruct (match f with Some f => Some f | None => sp_fault resp' end) as [g|]; [apply leave_lines; auto|].
  destruct (_ && _); [apply leave_lines; auto|].
  pose proof (complete_lines (cl_proto c) (cl_sc c) r _ _ _ _ None H T) as Z.
  destruct (response_complete _ _ r (sp_headers resp) _ _) as [x md], (response_complete _ _ r (sp_headers resp') _ _) as [x' md']. cbn in Z. subst x'.
  apply leave_lines; auto.
Qed.

Lemma compression_lines p s hs hs' comps : same_lines (header_lines p s) hs hs' ->
  handle_response_compression p s hs comps = handle_response_compression p s hs' comps.
Proof.
  intro H. unfold handle_response_compression. rewrite (lines_get _ _ _ _ H); [reflexivity|]. destruct p, s; cbn; tauto.
Qed.

(** Without ResponseMetadata in scope, the same messages and end. *)
Lemma send_lines {A B} (c : client A B) cx ck net net' reqs stop : alike_net (cl_proto c) net net' ->
  let x := send_stream c cx ck net None reqs stop in let y := send_stream c cx ck net' None reqs stop in
  sr_msgs x = sr_msgs y /\ sr_end x = sr_end y.
Proof.
  intros [_ S]. cbv zeta. rewrite !send_stream_end. cbv zeta. specialize (S (call_request c cx ck reqs)).
  destruct (nw_stream net _) as [resp|f]; destruct (nw_stream net' _) as [resp'|f']; try discriminate; cbn [alike_stream] in S.
  2:{ injection S as ->. split; reflexivity. }
  destruct S as (St&Ch&Fa&Ex&H&T). cbn [handle_response_headers]. rewrite St, Ch, Fa.
  assert (E : forall f, fst (leave_end c (deadline_passed cx (ck_late ck)) resp None None None f) = fst (leave_end c (deadline_passed cx (ck_late ck)) resp' None None None f))
    by (intro f; apply leave_lines; [exact Ex|intro; apply except_none]).
  destruct (sp_status resp' =? 200).
  - rewrite (lines_get _ _ _ (lit "content-type") H) by (destruct (cl_proto c); cbn; tauto). rewrite (compression_lines _ _ _ _ (cl_comps c) H).
    destruct (validate_stream_response _ _ _); [split; [reflexivity|apply E]|].
    destruct (handle_response_compression _ _ _ _) as [z|]; [|split; [reflexivity|apply E]].
    destruct (consume _ _ _ _) as [[ms f] r]. split; [reflexivity|]. cbn [sr_end]. now apply loop_lines.
  - destruct (sp_fault resp'); [split; [reflexivity|apply E]|]. destruct (we_from_response _ _); split; try reflexivity; apply E.
Qed.

Lemma unary_lines {A B} (c : client A B) cx ck net net' a : alike_net (cl_proto c) net net' -> cl_proto c = PConnect ->
  let x := send_unary_connect c cx ck net None a in let y := send_unary_connect c cx ck net' None a in
  cr_sent x = cr_sent y /\ cr_out x = cr_out y.
Proof.
  intros [S _] P. cbv zeta. unfold send_unary_connect. destruct (unary_request _ _ _ _) as [rq|]; [|split; reflexivity]. specialize (S rq).
  destruct (nw_unary net rq) as [r|f]; destruct (nw_unary net' rq) as [r'|f']; try discriminate; cbn [alike_unary] in S.
  2:{ injection S as ->. split; reflexivity. }
  destruct S as (St&Co&H). unfold unary_response. rewrite P, St, Co.
  rewrite (lines_get _ _ _ (lit "content-type") H) by (cbn; tauto). rewrite (compression_lines PConnect false _ _ (cl_comps c) H).
  destruct (validate_response _ _ _ _); [split; reflexivity|]. destruct (handle_response_compression _ _ _ _); split; reflexivity.
Qed.

(** ** Watched or not, but in both cases alike *)
Definition both (md md' : option metadata) : Prop := md = None <-> md' = None.
Definition rboth (r r' : reader) : Prop := like r r' /\ both (r_md r) (r_md r').

Lemma add_error d : forall h h', snd (add_json_trailers h d) = snd (add_json_trailers h' d).
Proof. induction d as [|[k v] d IH]; intros h h'; [reflexivity|]. cbn [add_json_trailers]. destruct (trailer_values v); [apply IH|reflexivity]. Qed.

Lemma trailers_both md md' v : both md md' ->
  snd (handle_trailers_json md v) = snd (handle_trailers_json md' v) /\ both (fst (handle_trailers_json md v)) (fst (handle_trailers_json md' v)).
Proof.
  intro H. destruct md as [m|], md' as [m'|]; try (exfalso; destruct H as [H1 H2]; (discriminate H1 || discriminate H2); reflexivity).
  - unfold handle_trailers_json. destruct v; try (split; [reflexivity|split; discriminate]).
    pose proof (add_error d (rm_trailers m) (rm_trailers m')) as E.
    destruct (add_json_trailers (rm_trailers m) d) as [t e], (add_json_trailers (rm_trailers m') d) as [t' e']. cbn in E. subst e'.
    destruct e; (split; [reflexivity|split; discriminate]).
  - split; [reflexivity|exact H].
Qed.

Lemma end_both md md' d : both md md' ->
  fst (connect_handle_end md d) = fst (connect_handle_end md' d) /\ both (snd (connect_handle_end md d)) (snd (connect_handle_end md' d)).
Proof.
  intro H. unfold connect_handle_end. destruct (json_loads_bytes d) as [[| | | | | |o]|]; try (split; [reflexivity|exact H]).
  assert (X : snd (match dget o (lit "metadata") with Some v => if json_truthy v then handle_trailers_json md v else (md, None) | None => (md, None) end)
      = snd (match dget o (lit "metadata") with Some v => if json_truthy v then handle_trailers_json md' v else (md', None) | None => (md', None) end)
      /\ both (fst (match dget o (lit "metadata") with Some v => if json_truthy v then handle_trailers_json md v else (md, None) | None => (md, None) end))
              (fst (match dget o (lit "metadata") with Some v => if json_truthy v then handle_trailers_json md' v else (md', None) | None => (md', None) end))).
  { destruct (dget o (lit "metadata")) as [v|]; [|split; auto]. destruct (json_truthy v); [now apply trailers_both|split; auto]. }
  destruct (match dget o (lit "metadata") with Some v => if json_truthy v then handle_trailers_json md v else (md, None) | None => (md, None) end) as [m e].
  destruct (match dget o (lit "metadata") with Some v => if json_truthy v then handle_trailers_json md' v else (md', None) | None => (md', None) end) as [m' e'].
  cbn in X. destruct X as [<- X]. destruct e; [split; [reflexivity|exact X]|].
  destruct (dget o (lit "error")) as [w|]; [|split; auto]. destruct (json_truthy w); [|split; auto]. destruct w; try (split; [reflexivity|exact X]).
  destruct (we_from_dict _ _ _); split; auto.
Qed.

Lemma frame_both {M} (cf : rconf M) p d r r' : rc_kind cf = RConnect -> rboth r r' ->
  fst (read_frame cf p d r) = fst (read_frame cf p d r') /\ rboth (snd (read_frame cf p d r)) (snd (read_frame cf p d r')).
Proof.
  intros K L. unfold read_frame. destruct (if N.testbit p 0 then _ else Ok d) as [x|e]; [|split; auto].
  destruct (match rc_max cf with Some _ => _ | None => false end); [split; auto|].
  assert (H : fst (handle_end (rc_kind cf) p x r) = fst (handle_end (rc_kind cf) p x r')
    /\ rboth (snd (handle_end (rc_kind cf) p x r)) (snd (handle_end (rc_kind cf) p x r'))).
  { rewrite K. cbn [handle_end]. destruct (N.testbit p 1); [|split; auto]. destruct L as [L B].
    destruct (end_both _ _ x B) as [E1 E2]. destruct (connect_handle_end (r_md r) x) as [a m], (connect_handle_end (r_md r') x) as [a' m']. cbn in E1, E2.
    subst a'. split; [reflexivity|]. split; [|exact E2]. apply like_eq in L. apply like_eq. exact L. }
  destruct (handle_end (rc_kind cf) p x r) as [a r1], (handle_end (rc_kind cf) p x r') as [a' r1']. cbn [fst snd] in H. destruct H as (<-&H).
  destruct a; auto. destruct (rc_dec cf x); auto.
Qed.

Definition fboth {M} (x y : list M * option exn * reader) : Prop := fst x = fst y /\ rboth (snd x) (snd y).

Lemma peek_both r r' : rboth r r' ->
  match peek_len r, peek_len r' with Some x, Some y => rboth x y | None, None => True | _, _ => False end.
Proof.
  intros [L B]. destruct r as [b n rd tr md], r' as [b' n' rd' tr' md']. apply like_eq in L. cbn in L, B. destruct L as (<-&<-&<-&<-).
  unfold peek_len. cbn [r_buf r_read r_trl r_md]. destruct (lenN b <? 5); [exact Logic.I|]. split; [reflexivity|exact B].
Qed.

Lemma loop_both {M} (cf : rconf M) : rc_kind cf = RConnect -> forall fuel r r', rboth r r' -> fboth (read_loop fuel cf r) (read_loop fuel cf r').
Proof.
  intro K. induction fuel as [|fuel IH]; intros r r' R; [split; [reflexivity|exact R]|]. cbn [read_loop].
  pose proof (peek_both r r' R) as P. pose proof R as [L B]. apply like_eq in L. destruct L as (L1&L2&L3&L4). rewrite <- L1, <- L2, <- L3, <- L4.
  destruct (r_buf r) as [|p b]; [split; [reflexivity|exact R]|]. destruct (r_next r) as [n|].
  - destruct (_ <? _); [split; [reflexivity|exact R]|].
    match goal with |- context [read_frame cf p ?d (mk_reader ?a ?n' ?c ?t (r_md r))] =>
      destruct (frame_both cf p d (mk_reader a n' c t (r_md r)) (mk_reader a n' c t (r_md r')) K) as [F1 F2]; [split; [reflexivity|exact B]|];
      destruct (read_frame cf p d (mk_reader a n' c t (r_md r))) as [o r1], (read_frame cf p d (mk_reader a n' c t (r_md r'))) as [o' r1'] end.
    cbn [fst snd] in F1, F2. subst o'. destruct o as [m| |e]; try (split; [reflexivity|exact F2]).
    pose proof (peek_both r1 r1' F2) as Q. destruct (peek_len r1) as [x|], (peek_len r1') as [y|]; try contradiction; [|split; [reflexivity|exact F2]].
    specialize (IH x y Q). destruct (read_loop fuel cf x) as [[ms e] r2], (read_loop fuel cf y) as [[ms' e'] r2']. destruct IH as [E1 E2]. cbn in E1, E2.
    injection E1 as <- <-. split; [reflexivity|exact E2].
  - destruct (peek_len r) as [x|], (peek_len r') as [y|]; try contradiction; [now apply IH|split; [reflexivity|exact R]].
Qed.

Lemma feed_both {M} (cf : rconf M) r r' ch : rc_kind cf = RConnect -> rboth r r' -> fboth (feed cf r ch) (feed cf r' ch).
Proof.
  intros K [L B]. apply like_eq in L. destruct L as (L1&L2&L3&L4). unfold feed. cbn [r_buf]. rewrite <- L1, <- L2, <- L3, <- L4.
  apply loop_both; [exact K|]. split; [reflexivity|exact B].
Qed.

Lemma consume_both {M} (cf : rconf M) : rc_kind cf = RConnect -> forall chunks stop r r', rboth r r' ->
  fst (consume cf r chunks stop) = fst (consume cf r' chunks stop).
Proof.
  intro K. induction chunks as [|ch cs IH]; intros stop r r' R; [reflexivity|]. cbn [consume]. pose proof (feed_both cf r r' ch K R) as F.
  destruct (feed cf r ch) as [[ms e] r1], (feed cf r' ch) as [[ms' e'] r1']. destruct F as [F1 F2]. cbn in F1, F2. injection F1 as <- <-.
  assert (X : forall st, fst (match e with Some x => (ms, Some (FExn x), r1) | None => let '(ms', f, r2) := consume cf r1 cs st in (ms ++ ms', f, r2) end)
    = fst (match e with Some x => (ms, Some (FExn x), r1') | None => let '(ms', f, r2) := consume cf r1' cs st in (ms ++ ms', f, r2) end)).
  { intro st. destruct e; [reflexivity|]. specialize (IH st r1 r1' F2). destruct (consume cf r1 cs st) as [[a b] d], (consume cf r1' cs st) as [[a' b'] d'].
    cbn in IH. injection IH as <- <-. reflexivity. }
  destruct stop as [[n f]|]; [|apply X]. destruct (Nat.ltb n _); [reflexivity|apply X].
Qed.

Lemma except_connect {A B} (c : client A B) ex r r' resp resp' serr md md' f : cl_proto c = PConnect ->
  fst (stream_except c ex (Some (r, resp)) serr md f) = fst (stream_except c ex (Some (r', resp')) serr md' f).
Proof.
  intro P. unfold stream_except. rewrite P. cbn [reader_kind response_complete]. destruct f as [e| |]; try reflexivity.
  destruct e as [k m ds|st hs|k m]; try reflexivity.
  - destruct serr; [reflexivity|]. destruct (map_stream_reset _ ex); reflexivity.
  - destruct k; try reflexivity; (destruct serr; [reflexivity|]); destruct (map_stream_reset _ ex); reflexivity.
Qed.

Lemma headers_both md hs hs' : both (handle_response_headers md hs) (handle_response_headers md hs').
Proof.
  destruct md as [m|]; [|split; auto]. unfold handle_response_headers. destruct (split_trailers hs), (split_trailers hs'). split; discriminate.
Qed.

(** A Connect stream, watched or not. *)
Lemma send_connect {A B} (c : client A B) cx ck net net' md reqs stop : cl_proto c = PConnect -> alike_net (cl_proto c) net net' ->
  let x := send_stream c cx ck net md reqs stop in let y := send_stream c cx ck net' md reqs stop in
  sr_msgs x = sr_msgs y /\ sr_end x = sr_end y.
Proof.
  intros P [_ S]. cbv zeta. rewrite !send_stream_end. cbv zeta. specialize (S (call_request c cx ck reqs)).
  destruct (nw_stream net _) as [resp|f]; destruct (nw_stream net' _) as [resp'|f']; try discriminate; cbn [alike_stream] in S.
  2:{ injection S as ->. split; reflexivity. }
  destruct S as (St&Ch&Fa&Ex&H&T). rewrite St, Ch, Fa.
  pose proof (headers_both md (sp_headers resp) (sp_headers resp')) as HB.
  set (m := handle_response_headers md (sp_headers resp)) in *. set (m' := handle_response_headers md (sp_headers resp')) in *.
  assert (E : forall f, fst (leave_end c (deadline_passed cx (ck_late ck)) resp None None m f) = fst (leave_end c (deadline_passed cx (ck_late ck)) resp' None None m' f))
    by (intro f; apply leave_lines; [exact Ex|intro; apply except_none]).
  destruct (sp_status resp' =? 200).
  - rewrite (lines_get _ _ _ (lit "content-type") H) by (destruct (cl_proto c); cbn; tauto). rewrite (compression_lines _ _ _ _ (cl_comps c) H).
    destruct (validate_stream_response _ _ _); [split; [reflexivity|apply E]|].
    destruct (handle_response_compression _ _ _ _) as [z|]; [|split; [reflexivity|apply E]].
    pose proof (consume_both (mk_rconf (reader_kind (cl_proto c)) z (cl_max c) (k_dec_res (cl_codec c)))
      ltac:(cbn [rc_kind]; now rewrite P) (sp_chunks resp') stop (reader_new m) (reader_new m') (conj eq_refl HB)) as C.
    destruct (consume _ (reader_new m) _ _) as [[ms f] r], (consume _ (reader_new m') _ _) as [[ms' f'] r']. cbn [fst] in C. injection C as <- <-.
    split; [reflexivity|]. cbn [sr_end]. unfold loop_end. rewrite Fa.
    assert (Y : forall serr md md' g, fst (stream_except c (deadline_passed cx (ck_late ck)) (Some (r, resp)) serr md g)
      = fst (stream_except c (deadline_passed cx (ck_late ck)) (Some (r', resp')) serr md' g)) by (intros; now apply except_connect).
    destruct (match f with Some f => Some f | None => sp_fault resp' end) as [g|]; [apply leave_lines; auto|].
    destruct (_ && _); [apply leave_lines; auto|]. rewrite P. cbn [reader_kind response_complete]. apply leave_lines; auto.
  - destruct (sp_fault resp'); [split; [reflexivity|apply E]|]. destruct (we_from_response _ _); split; try reflexivity; apply E.
Qed.
