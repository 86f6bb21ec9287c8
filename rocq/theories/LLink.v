(** Lemmas for calls between a client and a server. *)
From Coq Require Import List NArith ZArith Bool String Lia ZifyBool ZifyNat ZifyN.
From Verif Require Import MBase MPyStr MHeaders SHeaders LHeaders LBase MUtf8 MJson SJson MBase64 MPercent LUtf8 LBase64 LPyStr LPercent
  LJson MWire MEnvelope SEnvelope LEnvelope PEnvelope MStatusPb LStatusPb LWire MTimeout STimeout LTimeout MProtocol SProtocol MClient LProtocol
  PProtocol SClient LClient MServer MAsgi MWsgi SServer LServer LStream PResponse LRequest SLink.
Import ListNotations.
Local Open Scope N_scope.

(** ** Response metadata *)

Lemma startswith_split p s : startswith p s = true -> exists t, s = p ++ t.
Proof.
  revert s. induction p as [|c p IH]; intros s H; [exists s; auto|].
  destruct s as [|d s]; cbn [startswith] in H; [discriminate|].
  apply andb_true_iff in H. destruct H as [H1 H2]. apply N.eqb_eq in H1. subst d.
  destruct (IH s H2) as [t ->]. exists t. reflexivity.
Qed.

Lemma same_name_pre k a : same_name (trailer_prefix ++ k) (trailer_prefix ++ a) = same_name k a.
Proof. unfold same_name. rewrite !lower_app. apply str_eqb_common. Qed.

Lemma values_in_cons a v hs k : values_in ((a, v) :: hs) k = if same_name k a then v :: values_in hs k else values_in hs k.
Proof. unfold values_in. cbn [filter fst]. destruct (same_name k a); reflexivity. Qed.

Lemma values_in_app a b k : values_in (a ++ b) k = values_in a k ++ values_in b k.
Proof. unfold values_in. now rewrite filter_app, map_app. Qed.

Lemma getall_add h a v k : h_inv h -> h_getall (h_add h a v) k = if same_name k a then h_getall h k ++ [v] else h_getall h k.
Proof. intro I. exact (getall_step h (Add a v) k I). Qed.

Lemma split_values_gen hs : lower_names hs -> forall rh rt, h_inv rh -> h_inv rt ->
  let o := fold_left (fun (acc : headers * headers) kv =>
               let '(rh, rt) := acc in
               if startswith trailer_prefix (fst kv)
               then (rh, h_add rt (skipn (List.length trailer_prefix) (fst kv)) (snd kv))
               else (h_add rh (fst kv) (snd kv), rt)) hs (rh, rt) in
  h_inv (fst o) /\ h_inv (snd o)
  /\ (forall k, h_getall (fst o) k = h_getall rh k ++ (if startswith trailer_prefix (lower k) then [] else values_in hs k))
  /\ (forall k, h_getall (snd o) k = h_getall rt k ++ values_in hs (trailer_prefix ++ k)).
Proof.
  induction 1 as [|[a v] hs Ha H IH]; intros rh rt I1 I2.
  - cbn [fold_left fst snd]. split; [auto|split; [auto|split]]; intro k; change (values_in [] _) with (@nil pystr).
    + destruct (startswith _ _); now rewrite app_nil_r.
    + now rewrite app_nil_r.
  - cbn [fold_left fst snd] in *. destruct (startswith trailer_prefix a) eqn:S.
    + destruct (startswith_split _ _ S) as [a' ->]. rewrite skipn_app_exact.
      specialize (IH rh (h_add rt a' v) I1 (h_inv_add _ _ _ I2)). cbv zeta in IH. destruct IH as (J1&J2&G1&G2).
      cbv zeta. split; [auto|split; [auto|split]].
      * intro k. rewrite G1, values_in_cons. f_equal. destruct (startswith trailer_prefix (lower k)) eqn:E; auto.
        destruct (same_name k (trailer_prefix ++ a')) eqn:N; auto. exfalso. unfold same_name in N. apply str_eqb_eq in N.
        rewrite N, Ha, S in E. discriminate.
      * intro k. rewrite G2, getall_add, values_in_cons, same_name_pre by auto.
        destruct (same_name k a'); auto. now rewrite <- app_assoc.
    + specialize (IH (h_add rh a v) rt (h_inv_add _ _ _ I1) I2). cbv zeta in IH. destruct IH as (J1&J2&G1&G2).
      cbv zeta. split; [auto|split; [auto|split]].
      * intro k. rewrite G1, getall_add, values_in_cons by auto. destruct (same_name k a) eqn:N; auto.
        unfold same_name in N. apply str_eqb_eq in N. rewrite N, Ha, S. now rewrite <- app_assoc.
      * intro k. rewrite G2, values_in_cons. destruct (same_name (trailer_prefix ++ k) a) eqn:N; auto.
        exfalso. unfold same_name in N. apply str_eqb_eq in N. rewrite Ha, lower_app in N.
        change (lower trailer_prefix) with trailer_prefix in N. rewrite <- N, startswith_app in S. discriminate.
Qed.

Lemma split_values hs : lower_names hs ->
  let o := split_trailers hs in
  h_inv (fst o) /\ h_inv (snd o)
  /\ (forall k, h_getall (fst o) k = if startswith trailer_prefix (lower k) then [] else values_in hs k)
  /\ (forall k, h_getall (snd o) k = values_in hs (trailer_prefix ++ k)).
Proof. intro H. exact (split_values_gen hs H h_empty h_empty h_inv_empty h_inv_empty). Qed.

Lemma not_truthy_getall h k : h_inv h -> h_truthy h = false -> h_getall h k = [].
Proof.
  intros I H. rewrite h_truthy_allitems in H by auto. rewrite <- filter_allitems by auto.
  destruct (h_allitems h); [reflexivity|discriminate].
Qed.

Lemma opt_truthy h k : h_inv h -> h_getall (opt_headers (if h_truthy h then Some h else None)) k = h_getall h k.
Proof. intro I. destruct (h_truthy h) eqn:E; auto. symmetry. now apply not_truthy_getall. Qed.

Lemma metadata_headers hs : lower_names hs ->
  exists m, handle_response_headers (Some md_new) hs = Some m /\ h_inv (rm_trailers m)
    /\ (forall k, h_getall (rm_headers m) k = if startswith trailer_prefix (lower k) then [] else values_in hs k)
    /\ (forall k, h_getall (rm_trailers m) k = values_in hs (trailer_prefix ++ k)).
Proof.
  intro H. pose proof (split_values hs H) as S. cbv zeta in S. unfold handle_response_headers.
  destruct (split_trailers hs) as [rh rt]. cbn [fst snd] in S. destruct S as (I1&I2&G1&G2).
  eexists. split; [reflexivity|]. unfold rm_headers, rm_trailers. cbn [md_headers md_trailers md_new].
  split; [|split].
  - destruct (h_truthy rt); [exact I2|apply h_inv_empty].
  - intro k. rewrite opt_truthy by auto. apply G1.
  - intro k. rewrite opt_truthy by auto. apply G2.
Qed.

Lemma opt_kept t (o : option headers) k : h_inv t -> (h_truthy t = false -> h_getall (opt_headers o) k = []) ->
  h_getall (opt_headers (if h_truthy t then Some t else o)) k = h_getall t k.
Proof. intros I H. destruct (h_truthy t) eqn:E; auto. rewrite H by auto. symmetry. now apply not_truthy_getall. Qed.

Lemma trailers_http m ts : h_inv (rm_trailers m) ->
  exists m', handle_trailers_http (Some m) ts = Some m' /\ md_headers m' = md_headers m
    /\ forall k, h_getall (rm_trailers m') k = h_getall (rm_trailers m) k ++ values_in ts k.
Proof.
  intro I. unfold handle_trailers_http. eexists. split; [reflexivity|]. split; [reflexivity|]. intro k.
  unfold rm_trailers at 1. cbn [md_trailers].
  set (t := fold_left (fun h kv => h_add h (fst kv) (snd kv)) ts (rm_trailers m)).
  assert (It : h_inv t) by (apply inv_fold_add; auto).
  assert (Gt : forall k, h_getall t k = h_getall (rm_trailers m) k ++ values_in ts k) by (intro; apply getall_fold_add; auto).
  rewrite opt_kept; auto. intro E. pose proof (not_truthy_getall t k It E) as N. rewrite Gt in N. apply app_eq_nil in N. apply N.
Qed.

Lemma md_add_getall m ts : h_inv (rm_trailers m) -> h_inv ts ->
  exists m', md_add (Some m) ts = Some m' /\ md_headers m' = md_headers m
    /\ forall k, h_getall (rm_trailers m') k = h_getall (rm_trailers m) k ++ h_getall ts k.
Proof.
  intros I It. destruct (trailers_http m (h_allitems ts) I) as (m'&E&Eh&G). unfold md_add.
  destruct (h_truthy ts) eqn:T.
  - exists m'. split; [rewrite <- E; reflexivity|]. split; auto. intro k. now rewrite G, values_in_allitems.
  - eexists. split; [reflexivity|]. split; [reflexivity|]. intro k. unfold rm_trailers at 1. cbn [md_trailers].
    rewrite (not_truthy_getall ts) by auto. now rewrite app_nil_r.
Qed.

(** ** Frames *)

Lemma pack_frame p d hd : struct_pack_BI p (lenN d) = Ok hd ->
  frame_wire (mk_frame p d) (hd ++ d).
Proof. apply packed_frame. Qed.

Lemma frames_one f b : frame_wire f b -> frames_of b [f] [].
Proof. intro H. rewrite <- (app_nil_r b). constructor; auto. apply frames_of_nil. Qed.

(** The content of an end frame. *)
Lemma end_content zs zc bit d y : undoes zc zs -> z_compress zs d = Ok y -> bit = 2 \/ bit = 128 ->
  content_of zc (mk_frame (N.lor (writer_prefix (Some zs)) bit) y) d.
Proof.
  intros U C B. specialize (U d y C). unfold content_of, writer_prefix, compressed_flag. cbn [f_flag f_payload].
  destruct (z_identity zs).
  - left. split; auto. destruct B as [->| ->]; reflexivity.
  - right. split; [destruct B as [->| ->]; reflexivity|exact U].
Qed.

Lemma prefix_cases z : writer_prefix (Some z) = 0 \/ writer_prefix (Some z) = 1.
Proof. unfold writer_prefix. destruct (z_identity z); auto. Qed.
(** Reading messages and then an end frame. *)
Lemma feed_with_end {M} (cf : rconf M) md chunks fs ms fe o (P : reader -> Prop) :
  Forall2 (good_frame cf) fs ms -> end_flag (rc_kind cf) fe = true ->
  frames_of (List.concat chunks) (fs ++ [fe]) [] ->
  (forall r, r_md r = md -> r_trl r = [] -> exists r', P r' /\ read_frame cf (f_flag fe) (f_payload fe) r =
       (match o with None => FEnd | Some e => FErr e end, r')) ->
  (forall r b n, P r -> P (with_buf r b n)) ->
  exists r, feed_all cf (reader_new md) chunks = (ms, o, r) /\ P r.
Proof.
  intros G E F R PB.
  assert (Cl : ends_clean (rc_kind cf) (fs ++ [fe]) []).
  { intros f a b Eq He. split; auto. destruct b as [|x b]; auto. exfalso.
    assert (In f fs).
    { rewrite app_comm_cons, app_assoc in Eq || idtac.
      assert (X : fs = a ++ f :: removelast (x :: b)).
      { rewrite (app_removelast_last x (l := x :: b)) in Eq by discriminate.
        rewrite app_comm_cons, app_assoc in Eq. apply app_inj_tail in Eq. apply Eq. }
      rewrite X. apply in_or_app. right. left. reflexivity. }
    destruct (Forall2_in_l _ _ _ _ G H) as [y [Hy _]]. congruence. }
  destruct (feed_all_clean cf chunks (reader_new md) (fs ++ [fe]) [] (reader_new_inv md) (reader_new_incomplete md) F Cl)
    as (ms'&e&r&b&n&Hs&Hf&_).
  destruct (run_skip_good cf fs ms G (reader_new md)) as (r1&Hr1&T1&M1).
  rewrite run_skip_app, Hr1 in Hs. cbn [run_skip] in Hs.
  destruct (R r1 M1 T1) as (r2&P2&Hr2). rewrite Hr2 in Hs.
  exists (with_buf r b n). destruct o as [x|].
  - injection Hs as <- <- <-. rewrite app_nil_r in Hf. split; auto.
  - injection Hs as <- <- <-. rewrite app_nil_r in Hf. split; auto.
Qed.

Lemma end_flag_connect z y : end_flag RConnect (mk_frame (N.lor (writer_prefix (Some z)) 2) y) = true.
Proof. unfold end_flag. cbn [f_flag]. destruct (prefix_cases z) as [->| ->]; reflexivity. Qed.
Lemma end_flag_web z y : end_flag RGrpcWeb (mk_frame (N.lor (writer_prefix (Some z)) 128) y) = true.
Proof. unfold end_flag. cbn [f_flag]. destruct (prefix_cases z) as [->| ->]; reflexivity. Qed.
Lemma testbit_connect z : N.testbit (N.lor (writer_prefix (Some z)) 2) 1 = true.
Proof. destruct (prefix_cases z) as [->| ->]; reflexivity. Qed.
Lemma testbit_web z : N.testbit (N.lor (writer_prefix (Some z)) 128) 7 = true.
Proof. destruct (prefix_cases z) as [->| ->]; reflexivity. Qed.

Lemma undoes_lossless zc zs : undoes zc zs -> lossless (Some zs) zc.
Proof. intros H d y C. exact (H d y C). Qed.

Lemma ok_inj {A} (a b : A) : Ok a = Ok b -> a = b. Proof. congruence. Qed.

(** What [written_frames] says for the messages of a method. *)
Lemma written_steps {B} (enc : B -> res bytes) zs (cf : rconf B) (steps : list (rstate * B)) frs :
  (forall b d, enc b = Ok d -> rc_dec cf d = Ok b) -> undoes (rc_comp cf) zs ->
  (forall b d, In b (map snd steps) -> enc b = Ok d -> within (rc_max cf) d) ->
  written enc zs steps frs ->
  exists fs, Forall2 (good_frame cf) fs (map snd steps)
    /\ forall rest fs' tl, frames_of rest fs' tl -> frames_of (List.concat frs ++ rest) (fs ++ fs') tl.
Proof.
  intros D U W H. refine (written_frames enc (Some zs) cf (map snd steps) frs D (undoes_lossless _ _ U) W _).
  unfold written in H. clear -H. induction H; cbn [map]; constructor; auto.
Qed.

Lemma connect_body {B} (enc : B -> res bytes) zs (cf : rconf B) md steps frs ts w b chunks :
  rc_kind cf = RConnect ->
  (forall b d, enc b = Ok d -> rc_dec cf d = Ok b) -> undoes (rc_comp cf) zs ->
  (forall b d, In b (map snd steps) -> enc b = Ok d -> within (rc_max cf) d) ->
  written enc zs steps frs -> h_inv ts -> json_headers_ok ts -> match w with Some w => wire_ok w | None => True end ->
  connect_end (Some zs) ts w = Ok b ->
  (forall d, json_bytes (connect_end_json ts w) = Ok d -> within (rc_max cf) d) ->
  List.concat chunks = List.concat frs ++ b ->
  exists r, feed_all cf (reader_new md) chunks =
    (map snd steps, match w with Some w => Some (EConnect (we_code w) (we_msg w) (map recv_detail (we_details w))) | None => None end, r)
    /\ r_md r = md_add md ts.
Proof.
  intros K D U W Wr I J Ww E Ew Ch. unfold connect_end in E.
  destruct (dumps_end_roundtrip md ts w I J Ww) as (Jok&Hend).
  rewrite (json_bytes_ok _ Jok) in E, Ew. specialize (Ew _ eq_refl). cbn [bind maybe_compress] in E.
  set (d := json_dumps (connect_end_json ts w)) in *.
  destruct (z_compress zs d) as [y|x] eqn:Cy; [|discriminate]. cbn [bind] in E.
  destruct (struct_pack_BI _ _) as [hd|x] eqn:Pk; [|discriminate]. cbn [bind] in E. apply ok_inj in E. subst b.
  destruct (written_steps enc zs cf steps frs D U W Wr) as (fs&G&Fo).
  pose proof (Fo _ _ _ (frames_one _ _ (pack_frame _ _ _ Pk))) as F. rewrite <- Ch in F.
  apply (feed_with_end cf md chunks fs (map snd steps) (mk_frame (N.lor (writer_prefix (Some zs)) 2) y) _
    (fun r => r_md r = md_add md ts) G); auto.
  - rewrite K. apply end_flag_connect.
  - intros r Mr Tr. cbn [f_flag f_payload]. unfold read_frame.
    pose proof (content_data cf _ _ (end_content zs (rc_comp cf) 2 d y U Cy (or_introl eq_refl))) as Cd.
    cbn [f_flag f_payload] in Cd. rewrite Cd, (within_false _ _ Ew), K. unfold handle_end. rewrite testbit_connect, Mr, Hend.
    destruct w as [w|]; (eexists; split; [|reflexivity]; reflexivity).
Qed.

(** ** gRPC trailers *)

Lemma in_allitems h k v : h_inv h -> In (k, v) (h_allitems h) <-> lower k = k /\ In v (h_getall h k).
Proof.
  intro I. rewrite allitems_getall by auto. rewrite in_flat_map. split.
  - intros (x&Hx&Hin). apply in_map_iff in Hin. destruct Hin as (y&E&Hy). injection E as -> ->.
    split; auto. now apply (lower_keys h).
  - intros [L Hv]. exists k. split; [|apply in_map_iff; eauto].
    destruct (in_dec (list_eq_dec N.eq_dec) k (h_keys h)) as [Hi|Hi]; auto. exfalso.
    assert (X : h_getall h k = []); [|rewrite X in Hv; destruct Hv].
    rewrite <- filter_allitems by auto. rewrite allitems_getall by auto.
    assert (G : forall ks, (forall x, In x ks -> lower x = x /\ x <> k) ->
      map snd (filter (fun p : pystr * pystr => same_name k (fst p)) (flat_map (fun k0 => map (fun v0 => (k0, v0)) (h_getall h k0)) ks)) = []).
    { induction ks as [|x ks IH]; intro Hk; [reflexivity|]. cbn [flat_map]. rewrite filter_app, map_app, IH by (intros; apply Hk; simpl; auto).
      rewrite app_nil_r. destruct (Hk x (or_introl eq_refl)) as [Lx Nx].
      assert (S : same_name k x = false) by (unfold same_name; rewrite L, Lx; destruct (str_eqb_spec k x) as [e|e]; [exfalso; apply Nx; symmetry; exact e|reflexivity]).
      clear -S. induction (h_getall h x) as [|y l IH]; auto. cbn [map filter fst]. rewrite S. exact IH. }
    apply G. intros x Hx. split; [now apply (lower_keys h)|intros ->; contradiction].
Qed.

Lemma allitems_set (P : pystr * pystr -> Prop) h k v : h_inv h -> Forall P (h_allitems h) -> P (lower k, v) ->
  Forall P (h_allitems (h_setitem h k v)).
Proof.
  intros I F Pk. apply Forall_forall. intros [a b] Hin. apply in_allitems in Hin; [|now apply h_inv_set].
  destruct Hin as [La Hb]. rewrite getall_set in Hb by auto. destruct (same_name a k) eqn:S.
  - unfold same_name in S. apply str_eqb_eq in S. rewrite La in S. subst a. destruct Hb as [<-|[]]. exact Pk.
  - rewrite Forall_forall in F. apply F. apply in_allitems; auto.
Qed.

Lemma allitems_copy (P : pystr * pystr -> Prop) h : h_inv h -> Forall P (h_allitems h) ->
  Forall P (h_allitems (h_of_pairs (h_allitems h))).
Proof.
  intros I F. apply Forall_forall. intros [a b] Hin. apply in_allitems in Hin; [|apply h_inv_of_pairs].
  destruct Hin as [La Hb]. rewrite getall_copy in Hb by auto. rewrite Forall_forall in F. apply F. apply in_allitems; auto.
Qed.

(** Values the protocol writes itself. *)
Definition plain (v : pystr) : Prop := Forall (fun c => 33 <= c <= 126) v.
Lemma plain_legal v : plain v -> legal_value v.
Proof.
  intro H. split.
  - eapply Forall_impl; [|exact H]. cbv beta. intros. lia.
  - apply strip_id. eapply Forall_impl; [|exact H]. cbv beta. intros c Hc. unfold is_space. lia.
Qed.
Lemma plain_ascii v : plain v -> ascii v.
Proof. intro H. eapply Forall_impl; [|exact H]. cbv beta. intros. lia. Qed.

(** A property of pairs that holds for user trailers and for the protocol's own lines. *)
Lemma grpc_trailers_all (P : pystr * pystr -> Prop) sc user w t : status_codec_ok sc -> h_inv user ->
  match w with Some w => grpc_err_ok w | None => True end ->
  Forall P (h_allitems user) ->
  (forall k v, In k [lit "grpc-status"; lit "grpc-message"; lit "grpc-status-details-bin"] -> plain v -> P (k, v)) ->
  grpc_trailers sc user w = Ok t -> Forall P (h_allitems t).
Proof.
  intros Sc I Ww F H E. unfold grpc_trailers in E.
  assert (I0 : h_inv (h_of_pairs (h_allitems user))) by apply h_inv_of_pairs.
  pose proof (allitems_copy P user I F) as F0.
  destruct w as [w|].
  - set (t1 := h_setitem (h_of_pairs (h_allitems user)) (lit "grpc-status") (connect_status_to_grpc (we_code w))) in *.
    assert (I1 : h_inv t1) by now apply h_inv_set.
    assert (F1 : Forall P (h_allitems t1)).
    { apply allitems_set; auto. apply H; [simpl; auto|]. destruct (we_code w); repeat constructor; vm_compute; congruence. }
    match type of E with bind ?x _ = _ => set (m2 := x) in E end.
    assert (X : forall t2, m2 = Ok t2 -> h_inv t2 /\ Forall P (h_allitems t2)).
    { intros t2 E2. unfold m2 in E2. destruct (nonempty (we_msg w)); [|apply ok_inj in E2; subst; auto].
      destruct (quote (we_msg w)) as [q|] eqn:Q; [|discriminate]. apply ok_inj in E2. subst t2. split; [now apply h_inv_set|].
      apply allitems_set; auto. apply H; [simpl; auto|]. eapply Forall_impl; [|exact (quote_chars _ _ Q)].
      exact quoted_char_ascii. }
    destruct m2 as [t2|x]; [|discriminate]. cbn [bind] in E. destruct (X t2 eq_refl) as [I2 F2].
    destruct (nonempty (we_details w)); [|apply ok_inj in E; subst; auto].
    destruct (st_to sc _) as [bin|x] eqn:S; [|discriminate]. cbn [bind] in E. apply ok_inj in E. subst t.
    apply allitems_set; auto. apply H; [simpl; auto|].
    destruct Ww as [W1 W2].
    assert (Hok : status_ok (mk_status (Z.of_N (code_to_grpc (we_code w))) (we_msg w) (map d_any (we_details w)))).
    { split; [|split].
      - unfold int32_ok. cbn [s_code]. destruct (we_code w); simpl; lia.
      - unfold text_ok. cbn [s_message]. apply utf8_encode_some; auto.
      - cbn [s_details]. apply Forall_map. eapply Forall_impl; [|exact W2]. intros x [Hx1 Hx2]. split; auto.
        unfold text_ok. apply utf8_encode_some; auto. }
    destruct (Sc _ Hok) as (bin'&Hto&Hbb&_&_). rewrite Hto in S. apply ok_inj in S. subst bin'.
    unfold b64encode. rewrite rstrip_eq_b64 by auto. eapply Forall_impl; [|exact (b64_raw_chars false bin Hbb)].
    intros c Hc. unfold is_b64_char in Hc. cbn beta iota in Hc. lia.
  - apply ok_inj in E. subst t. apply allitems_set; auto. apply H; [simpl; auto|]. repeat constructor; vm_compute; congruence.
Qed.

Lemma legal_reserved k : In k [lit "grpc-status"; lit "grpc-message"; lit "grpc-status-details-bin"] -> legal_name k.
Proof.
  intros [<-|[<-|[<-|[]]]]; (split; [repeat constructor; vm_compute; congruence|reflexivity]).
Qed.
Lemma ascii_reserved k : In k [lit "grpc-status"; lit "grpc-message"; lit "grpc-status-details-bin"] -> ascii k.
Proof. intros [<-|[<-|[<-|[]]]]; repeat constructor. Qed.

Lemma grpc_trailers_legal sc user w t : status_codec_ok sc -> h_inv user ->
  match w with Some w => grpc_err_ok w | None => True end ->
  Forall (fun kv => legal_name (fst kv) /\ legal_value (snd kv)) (h_allitems user) ->
  grpc_trailers sc user w = Ok t -> Forall (fun kv => legal_name (fst kv) /\ legal_value (snd kv)) (h_allitems t).
Proof.
  intros Sc I W F E. eapply grpc_trailers_all; eauto. intros k v Hk Hv. cbn [fst snd]. split; [now apply legal_reserved|now apply plain_legal].
Qed.
Lemma grpc_trailers_ascii sc user w t : status_codec_ok sc -> h_inv user ->
  match w with Some w => grpc_err_ok w | None => True end -> ascii_pairs (h_allitems user) ->
  grpc_trailers sc user w = Ok t -> ascii_pairs (h_allitems t).
Proof.
  intros Sc I W F E. eapply grpc_trailers_all; eauto. intros k v Hk Hv. cbn [fst snd]. split; [now apply ascii_reserved|now apply plain_ascii].
Qed.

Definition grpc_received (w : wire_error) : exn :=
  EConnect (we_code w) (we_msg w) (map (fun d => mk_detail (d_any d) None) (we_details w)).

(** The client's reading of the trailers a server wrote. *)
Lemma grpc_end sc user w t : status_codec_ok sc -> h_inv user ->
  match w with Some w => grpc_err_ok w | None => True end ->
  (w <> None -> forall k, grpc_error_name k = true -> h_getall user k = []) ->
  grpc_trailers sc user w = Ok t ->
  h_inv t /\ (forall k, grpc_status_name k = false -> h_getall t k = h_getall user k)
  /\ forall (web : bool) r rh rt, (forall k, values_in (if web then r_trl r else rt) k = h_getall t k) ->
      grpc_complete sc web r rh rt None = (option_map grpc_received w, handle_trailers_http (r_md r) (if web then r_trl r else rt)).
Proof.
  intros Sc I W N E.
  assert (R : forall k, grpc_status_name k = grpc_reserved k).
  { intro k. unfold grpc_status_name, grpc_error_name, grpc_reserved. now rewrite orb_assoc. }
  destruct w as [w|].
  - destruct (grpc_trailers_ok sc user w Sc I W) as (t'&E'&It&G&Gs&Gm&Gm'&Gd'&Gd). rewrite E in E'. apply ok_inj in E'. subst t'.
    split; auto. split; [intros k Hk; apply G; now rewrite <- R|].
    intros web r rh rt V. set (ts := if web then r_trl r else rt) in *.
    assert (HG : forall k, hh_get ts k = h_getitem t k) by (intro k; rewrite hh_get_values, V, getitem_getall; reflexivity).
    apply grpc_complete_error; auto; fold ts; rewrite ?HG; auto.
    + destruct (we_msg w) as [|x l] eqn:Em; cbn [nonempty].
      * rewrite Gm' by auto. rewrite getitem_getall. rewrite N by (congruence || reflexivity). reflexivity.
      * apply Gm. discriminate.
    + destruct (we_details w) as [|x l] eqn:Ed; cbn [nonempty].
      * rewrite Gd' by auto. rewrite getitem_getall. rewrite N by (congruence || reflexivity). reflexivity.
      * destruct Gd as (bin&B1&B2&B3&B4); [discriminate|]. exists bin. auto.
  - unfold grpc_trailers in E. apply ok_inj in E. subst t.
    assert (I0 : h_inv (h_of_pairs (h_allitems user))) by apply h_inv_of_pairs.
    split; [now apply h_inv_set|]. split.
    + intros k Hk. rewrite getall_set, getall_copy by auto. rewrite R in Hk. unfold grpc_reserved in Hk.
      destruct (same_name k (lit "grpc-status")); [discriminate|auto].
    + intros web r rh rt V. unfold grpc_complete. set (ts := if web then r_trl r else rt) in *.
      assert (S : hh_get ts (lit "grpc-status") = Some (lit "0")).
      { rewrite hh_get_values, V, getall_set by auto. reflexivity. }
      rewrite S. cbv zeta iota beta. rewrite S. reflexivity.
Qed.

Lemma grpc_body {B} (enc : B -> res bytes) zs (cf : rconf B) md steps frs chunks :
  rc_kind cf = RGrpc ->
  (forall b d, enc b = Ok d -> rc_dec cf d = Ok b) -> undoes (rc_comp cf) zs ->
  (forall b d, In b (map snd steps) -> enc b = Ok d -> within (rc_max cf) d) ->
  written enc zs steps frs -> List.concat chunks = List.concat frs ->
  exists r, feed_all cf (reader_new md) chunks = (map snd steps, None, r) /\ r_md r = md.
Proof.
  intros K D U W Wr Ch. destruct (written_steps enc zs cf steps frs D U W Wr) as (fs&G&Fo).
  pose proof (Fo _ _ _ frames_of_nil) as F. rewrite !app_nil_r, <- Ch in F.
  assert (Cl : ends_clean (rc_kind cf) fs []) by (intros f a b _ He; rewrite K in He; discriminate).
  destruct (feed_all_clean cf chunks (reader_new md) fs [] (reader_new_inv md) (reader_new_incomplete md) F Cl)
    as (ms'&e&r&b&n&Hs&Hf&_).
  destruct (run_skip_good cf fs (map snd steps) G (reader_new md)) as (r1&Hr1&T1&M1).
  rewrite Hr1 in Hs. injection Hs as <- <- <-. exists (with_buf r1 b n). split; auto.
Qed.

Lemma web_body {B} (enc : B -> res bytes) zs (cf : rconf B) md steps frs sc user w b chunks :
  rc_kind cf = RGrpcWeb -> status_codec_ok sc -> h_inv user ->
  match w with Some w => grpc_err_ok w | None => True end ->
  Forall (fun kv => legal_name (fst kv) /\ legal_value (snd kv)) (h_allitems user) ->
  (forall b d, enc b = Ok d -> rc_dec cf d = Ok b) -> undoes (rc_comp cf) zs ->
  (forall b d, In b (map snd steps) -> enc b = Ok d -> within (rc_max cf) d) ->
  written enc zs steps frs -> grpc_web_end sc (Some zs) user w = Ok b ->
  (forall t d, grpc_trailers sc user w = Ok t -> utf8_encode (trailer_block (h_allitems t)) = Some d -> within (rc_max cf) d) ->
  List.concat chunks = List.concat frs ++ b ->
  exists t r, grpc_trailers sc user w = Ok t /\ feed_all cf (reader_new md) chunks = (map snd steps, None, r)
    /\ r_trl r = h_allitems t /\ r_md r = md.
Proof.
  intros K Sc I Ww L D U W Wr E Ew Ch. unfold grpc_web_end in E.
  destruct (grpc_trailers sc user w) as [t|x] eqn:Et; [|discriminate]. cbn [bind] in E.
  pose proof (grpc_trailers_legal _ _ _ _ Sc I Ww L Et) as Lt.
  destruct (web_block_roundtrip _ Lt) as (d&Ed&Rd). rewrite Ed in E. cbn [bind maybe_compress] in E.
  specialize (Ew t d eq_refl Ed).
  destruct (z_compress zs d) as [y|x] eqn:Cy; [|discriminate]. cbn [bind] in E.
  destruct (struct_pack_BI _ _) as [hd|x] eqn:Pk; [|discriminate]. cbn [bind] in E. apply ok_inj in E. subst b.
  destruct (written_steps enc zs cf steps frs D U W Wr) as (fs&G&Fo).
  pose proof (Fo _ _ _ (frames_one _ _ (pack_frame _ _ _ Pk))) as F. rewrite <- Ch in F.
  destruct (feed_with_end cf md chunks fs (map snd steps) (mk_frame (N.lor (writer_prefix (Some zs)) 128) y) None (fun r => r_trl r = h_allitems t /\ r_md r = md) G
     ltac:(rewrite K; apply end_flag_web) F) as (r&Hr&P1&P2); [|auto|].
  - intros r Mr Tr. cbn [f_flag f_payload]. unfold read_frame.
    pose proof (content_data cf _ _ (end_content zs (rc_comp cf) 128 d y U Cy (or_intror eq_refl))) as Cd.
    cbn [f_flag f_payload] in Cd. rewrite Cd, (within_false _ _ Ew), K. unfold handle_end. rewrite testbit_web, Rd, Tr.
    eexists. split; [|reflexivity]. cbn [r_trl r_md]. auto.
  - exists t, r. auto.
Qed.
(** ** A client reads the response of a server *)

(** The response to a streaming request, as both servers write it. *)
Definition answer {B} (sc : status_codec) (p : proto) (enc : B -> res bytes) (n : pystr) (z : compression) (steps : list (rstate * B))
    (rs : rstate) (w : option wire_error) (R : response) : Prop :=
  exists frs em, written enc z steps frs /\ writer_end sc p z (rs_t rs) w = Ok em
    /\ re_status R = 200 /\ re_headers R = stream_headers p n (z_name z) (head_state steps rs)
    /\ re_body R = List.concat frs ++ match em with EndBytes b => b | EndTrailers _ => [] end
    /\ re_trailers R = match em with EndBytes _ => [] | EndTrailers h => h_allitems h end.

Definition received (p : proto) (w : wire_error) : exn :=
  match p with
  | PConnect => EConnect (we_code w) (we_msg w) (map recv_detail (we_details w))
  | _ => grpc_received w
  end.

Lemma carried_name sent got k : carried sent got -> transport_name k = false -> values_in got k = values_in sent k.
Proof. intros C T. destruct (C k) as [E|[E _]]; [auto|congruence]. Qed.

Lemma trailer_not_transport k : transport_name (trailer_prefix ++ k) = false.
Proof. reflexivity. Qed.
Lemma trailer_not_line p k : stream_line p (trailer_prefix ++ k) = false.
Proof. destruct p; reflexivity. Qed.

Lemma stream_headers_values p n zn rs k : h_inv (rs_h rs) -> stream_line p k = false ->
  values_in (stream_headers p n zn rs) k = h_getall (rs_h rs) k.
Proof.
  intros I L. unfold stream_line in L. apply orb_false_iff in L. destruct L as [L1 L2].
  unfold stream_headers. rewrite !values_in_cons, L1, L2. now apply values_in_allitems.
Qed.

Lemma client_reads {A B} (c : client A B) cx ck net reqs resp R (enc : B -> res bytes) zs zc steps rs w :
  nw_stream net (mk_rq (lit "POST") (call_url c (cx_method cx)) (h_allitems (cx_headers cx))
              (request_content c (fst reqs) (snd reqs)) (timeout_s cx (ck_send ck))) = SResp resp ->
  delivered R resp ->
  answer (cl_sc c) (cl_proto c) enc (k_name (cl_codec c)) zs steps rs w R ->
  status_codec_ok (cl_sc c) ->
  h_inv (rs_h (head_state steps rs)) -> h_inv (rs_t rs) ->
  z_name zs <> [] -> dget (cl_comps c) (z_name zs) = Some zc -> undoes zc zs ->
  (forall b d, enc b = Ok d -> k_dec_res (cl_codec c) d = Ok b) ->
  (forall b d, In b (map snd steps) -> enc b = Ok d -> within (cl_max c) d) ->
  match w with
  | None => True
  | Some w => match cl_proto c with PConnect => wire_ok w | _ => grpc_err_ok w end
  end ->
  match cl_proto c with
  | PConnect => json_headers_ok (rs_t rs)
  | PGrpc => True
  | PGrpcWeb => Forall (fun kv => legal_name (fst kv) /\ legal_value (snd kv)) (h_allitems (rs_t rs))
  end ->
  (cl_proto c <> PConnect -> w <> None -> forall k, grpc_error_name k = true -> h_getall (rs_t rs) k = []) ->
  match cl_proto c with
  | PConnect => forall d, json_bytes (connect_end_json (rs_t rs) w) = Ok d -> within (cl_max c) d
  | PGrpc => True
  | PGrpcWeb => forall t d, grpc_trailers (cl_sc c) (rs_t rs) w = Ok t -> utf8_encode (trailer_block (h_allitems t)) = Some d ->
                  within (cl_max c) d
  end ->
  (cl_sync c = true -> deadline_passed cx (ck_late ck) = false) ->
  exists rq m, send_stream c cx ck net (Some md_new) reqs None =
    mk_sr [rq] (map snd steps) (match w with None => COk tt | Some w => CErr (received (cl_proto c) w) end) (Some m)
    /\ headers_seen (cl_proto c) (rs_h (head_state steps rs)) m
    /\ trailers_seen (cl_proto c) (rs_h (head_state steps rs)) (rs_t rs) m.
Proof.
  intros Hn (D1&D2&D3&D4&D5&D6&D7) (frs&em&Wr&We&R1&R2&R3&R4) Sc Ih It Zn Zc U Dec Wn Ww Tk Nr Ew Dl.
  unfold send_stream. cbv zeta. set (rq := mk_rq _ _ _ _ _) in *. rewrite Hn. exists rq.
  destruct (metadata_headers (sp_headers resp) D3) as (m0&M0&I0&H0&T0). rewrite M0.
  rewrite D1, R1. change (200 =? 200) with true. cbv iota.
  assert (Ct : hh_get (sp_headers resp) (lit "content-type") = Some (server_content_type (cl_proto c) (k_name (cl_codec c)))).
  { rewrite hh_get_values, (carried_name _ _ _ D2), R2 by reflexivity. reflexivity. }
  rewrite Ct, validate_stream_ok.
  assert (Cc : handle_response_compression (cl_proto c) true (sp_headers resp) (cl_comps c) = Ok zc).
  { unfold handle_response_compression.
    assert (X : hh_get (sp_headers resp) (client_compression_header (cl_proto c) true) = Some (z_name zs)).
    { rewrite hh_get_values, (carried_name _ _ _ D2), R2 by (destruct (cl_proto c); reflexivity).
      unfold stream_headers. rewrite !values_in_cons. destruct (cl_proto c); reflexivity. }
    rewrite X. rewrite Zc. destruct (z_name zs); congruence. }
  rewrite Cc.
  set (cf := mk_rconf (reader_kind (cl_proto c)) zc (cl_max c) (k_dec_res (cl_codec c))).
  assert (Hh : forall m, md_headers m = md_headers m0 -> headers_seen (cl_proto c) (rs_h (head_state steps rs)) m).
  { intros m Em k L1 L2 L3. unfold rm_headers. rewrite Em. change (h_getall (rm_headers m0) k = h_getall (rs_h (head_state steps rs)) k).
    rewrite H0. change trailer_prefix with trailer_mark. rewrite L2.
    destruct (D2 k) as [E|[E1 E2]]; rewrite R2 in *.
    - rewrite E. now apply stream_headers_values.
    - rewrite stream_headers_values in E2 by auto. destruct L3; congruence. }
  assert (Th : forall m k, h_getall (rs_h (head_state steps rs)) (trailer_mark ++ k) = [] -> forall l,
     h_getall (rm_trailers m) k = h_getall (rm_trailers m0) k ++ l -> h_getall (rm_trailers m) k = l).
  { intros m k Hk l E. rewrite E, T0, (carried_name _ _ _ D2 (trailer_not_transport k)), R2.
    rewrite stream_headers_values by (auto; apply trailer_not_line). change trailer_prefix with trailer_mark. rewrite Hk. reflexivity. }
  rewrite consume_all.
  assert (Lv : forall f, leave resp f = f) by (intro f; unfold leave; rewrite D7; reflexivity).
  assert (Dl' : cl_sync c && deadline_passed cx (ck_late ck) = false) by (destruct (cl_sync c); auto; rewrite Dl; auto).
  destruct (cl_proto c) eqn:P; cbn [reader_kind] in *.
  - (* Connect *)
    unfold writer_end in We. destruct (connect_end (Some zs) (rs_t rs) w) as [b|x] eqn:Ce; [|discriminate]. cbn [bind] in We.
    apply ok_inj in We. subst em.
    destruct (connect_body enc zs cf (Some m0) steps frs (rs_t rs) w b (sp_chunks resp) eq_refl Dec U Wn Wr It Tk
       Ww Ce Ew ltac:(congruence)) as (r&Hr&Mr).
    rewrite Hr. destruct (md_add_getall m0 (rs_t rs) I0 It) as (m1&M1&Hm1&Tm1). rewrite M1 in Mr.
    exists m1. split; [|split; [now apply Hh|]].
    + destruct w as [w|].
      * cbv beta iota. rewrite Lv, Mr. reflexivity.
      * rewrite D5, Dl'. cbn [response_complete]. cbv beta iota. rewrite Lv, Mr. reflexivity.
    + intros k _ Hk. eapply Th; eauto.
  - (* gRPC *)
    unfold writer_end in We. destruct (grpc_trailers _ _ _) as [t|x] eqn:Gt; [|discriminate]. cbn [bind] in We.
    apply ok_inj in We. subst em. rewrite app_nil_r in R3.
    destruct (grpc_body enc zs cf (Some m0) steps frs (sp_chunks resp) eq_refl Dec U Wn Wr ltac:(congruence)) as (r&Hr&Mr).
    rewrite Hr, D5, Dl'. cbn [response_complete].
    destruct (grpc_end _ _ _ _ Sc It Ww (Nr ltac:(discriminate)) Gt) as (I1&G1&G2).
    rewrite (G2 false r (sp_headers resp) (sp_trailers resp)) by (intro k; rewrite D6, R4; now apply values_in_allitems).
    rewrite Mr. destruct (trailers_http m0 (sp_trailers resp) I0) as (m1&M1&Hm1&Tm1). rewrite M1.
    exists m1. split; [|split; [now apply Hh|]].
    + destruct w as [w|]; cbn [option_map]; cbv beta iota; rewrite Lv; reflexivity.
    + intros k Hk1 Hk2. eapply Th; eauto. rewrite Tm1, D6, R4, values_in_allitems, G1 by auto. reflexivity.
  - (* gRPC-Web *)
    unfold writer_end in We. destruct (grpc_web_end _ _ _ _) as [b|x] eqn:Ge; [|discriminate]. cbn [bind] in We.
    apply ok_inj in We. subst em.
    destruct (web_body enc zs cf (Some m0) steps frs _ _ w b (sp_chunks resp) eq_refl Sc It Ww Tk Dec U Wn Wr Ge Ew
      ltac:(congruence)) as (t&r&Gt&Hr&Tr&Mr).
    rewrite Hr, D5, Dl'. cbn [response_complete].
    destruct (grpc_end _ _ _ _ Sc It Ww (Nr ltac:(discriminate)) Gt) as (I1&G1&G2).
    rewrite (G2 true r (sp_headers resp) (sp_trailers resp)) by (intro k; rewrite Tr; now apply values_in_allitems).
    rewrite Mr, Tr. destruct (trailers_http m0 (h_allitems t) I0) as (m1&M1&Hm1&Tm1). rewrite M1.
    exists m1. split; [|split; [now apply Hh|]].
    + destruct w as [w|]; cbn [option_map]; cbv beta iota; rewrite Lv; reflexivity.
    + intros k Hk1 Hk2. eapply Th; eauto. rewrite Tm1, values_in_allitems, G1 by auto. reflexivity.
Qed.
