(** Lemmas on wire errors, trailers and metadata. *)
From Coq Require Import List NArith ZArith Bool Lia String ZifyBool ZifyNat.
From Verif Require Import MBase MPyStr MHeaders MUtf8 MBase64 MPercent MJson MWire MEnvelope MStatusPb.
From Verif Require Import SHeaders SJson SEnvelope LBase LPyStr LHeaders LUtf8 LBase64 LPercent LJson LEnvelope.
Import ListNotations.
Local Open Scope N_scope.

(** ** JSON form of errors *)

(** What a receiver of the JSON form gets for a detail. *)
Definition recv_detail (d : detail) : detail :=
  mk_detail (mk_any (google_prefix ++ type_name d) (message_bytes d)) None.

Definition detail_ok (d : detail) : Prop :=
  json_str_ok (type_name d) /\ is_bytes (message_bytes d)
  /\ match d_debug d with Some v => json_ok v | None => True end.

Definition wire_ok (w : wire_error) : Prop := json_str_ok (we_msg w) /\ Forall detail_ok (we_details w).

Lemma b64_ascii_list l : is_bytes l -> Forall (fun c => c < 128) (rstrip_eq (b64encode l)).
Proof.
  intro H. unfold b64encode. rewrite rstrip_eq_b64 by auto.
  eapply Forall_impl; [|exact (b64_raw_chars false l H)]. intros c Hc. exact (is_b64_ascii false c Hc).
Qed.

Lemma lit_json_ok s : Forall (fun c => c < 128) (lit s) -> json_str_ok (lit s).
Proof. apply ascii_json_ok. Qed.

Lemma json_arr_ok l : Forall json_ok l -> json_ok (JArr l).
Proof. induction 1; cbn [json_ok] in *; auto. Qed.

Lemma json_obj_ok d : NoDup (map fst d) -> Forall (fun kv => json_str_ok (fst kv) /\ json_ok (snd kv)) d ->
  json_ok (JObj d).
Proof.
  intros Hn H. cbn [json_ok]. split; auto. clear Hn. induction H as [|[k v] d [H1 H2] H IH]; auto.
Qed.

Lemma detail_json_ok d : detail_ok d -> json_ok (detail_to_json d).
Proof.
  intros (Ht&Hb&Hd). unfold detail_to_json. apply json_obj_ok.
  - destruct (d_debug d); simpl; repeat constructor; simpl; intuition discriminate.
  - apply Forall_app. split.
    + constructor; [|constructor; [|constructor]]; split; try (apply ascii_json_ok; repeat constructor; fail); auto.
      apply ascii_json_ok, b64_ascii_list; auto.
    + destruct (d_debug d); constructor; [|constructor]. split; auto. apply ascii_json_ok. repeat constructor.
Qed.

Lemma code_value_ascii c : Forall (fun x => x < 128) (code_value c).
Proof. destruct c; repeat constructor. Qed.

Lemma we_json_ok w : wire_ok w -> json_ok (we_to_dict w).
Proof.
  intros [Hm Hd]. unfold we_to_dict. apply json_obj_ok.
  - destruct (we_details w); simpl; repeat constructor; simpl; intuition discriminate.
  - apply Forall_app. split.
    + constructor; [|constructor; [|constructor]]; split; try (apply ascii_json_ok; repeat constructor; fail); auto.
      apply ascii_json_ok, code_value_ascii.
    + destruct (we_details w) as [|d ds] eqn:E; [constructor|].
      constructor; [|constructor]. split; [apply ascii_json_ok; repeat constructor|].
      apply json_arr_ok. apply Forall_map. eapply Forall_impl; [|exact Hd]. apply detail_json_ok.
Qed.

Lemma json_bytes_ok v : json_ok v -> json_bytes v = Ok (json_dumps v).
Proof. intro H. unfold json_bytes. rewrite json_dumps_encode by auto. reflexivity. Qed.

Lemma json_loads_dumps v : json_ok v -> json_loads_bytes (json_dumps v) = Some v.
Proof. intro H. eapply json_roundtrip_bytes; eauto. apply json_dumps_encode; auto. Qed.

Lemma detail_recv d : detail_ok d -> detail_of_json (detail_to_json d) = Ok (Some (recv_detail d)).
Proof.
  intros (Ht&Hb&Hd). unfold detail_to_json, detail_of_json.
  change (lit "type") with (lit "type" : pystr).
  assert (E1 : forall rest, dget ((lit "type", JStr (type_name d)) ::
            (lit "value", JStr (rstrip_eq (b64encode (message_bytes d)))) :: rest) (lit "type") =
            Some (JStr (type_name d))) by reflexivity.
  assert (E2 : forall rest, dget ((lit "type", JStr (type_name d)) ::
            (lit "value", JStr (rstrip_eq (b64encode (message_bytes d)))) :: rest) (lit "value") =
            Some (JStr (rstrip_eq (b64encode (message_bytes d))))) by reflexivity.
  cbn [app]. rewrite E1, E2. rewrite b64decode_stripped by auto. reflexivity.
Qed.

Lemma details_recv ds : Forall detail_ok ds ->
  details_of_list (map detail_to_json ds) = Ok (map recv_detail ds).
Proof.
  induction 1 as [|d ds H Hd IH]; auto. cbn [map details_of_list].
  rewrite detail_recv by auto. cbn [bind]. rewrite IH. reflexivity.
Qed.

(** The dictionary form and back. *)
Lemma we_dict_roundtrip w st unexpected : wire_ok w ->
  exists d, we_to_dict w = JObj d
    /\ we_from_dict d st unexpected = Ok (mk_we (we_code w) (we_msg w) (map recv_detail (we_details w))).
Proof.
  intros [Hm Hd]. unfold we_to_dict. eexists. split; [reflexivity|].
  unfold we_from_dict.
  set (tl := match we_details w with [] => [] | ds => [(lit "details", JArr (map detail_to_json ds))] end).
  set (d := [(lit "code", JStr (code_value (we_code w))); (lit "message", JStr (we_msg w))] ++ tl).
  assert (E1 : dget d (lit "code") = Some (JStr (code_value (we_code w)))) by reflexivity.
  assert (E2 : dget d (lit "message") = Some (JStr (we_msg w))) by reflexivity.
  assert (E3 : details_of_json (dget d (lit "details")) = Ok (map recv_detail (we_details w))).
  { unfold d, tl. destruct (we_details w) as [|x ds] eqn:E; [reflexivity|].
    transitivity (details_of_list (map detail_to_json (x :: ds))); [reflexivity|].
    apply details_recv. rewrite <- E in *. exact Hd. }
  rewrite E1, E2, E3. cbn [json_truthy bind message_of_json].
  assert (E4 : nonempty (code_value (we_code w)) = true) by (destruct (we_code w); reflexivity).
  rewrite E4, code_of_value_value. reflexivity.
Qed.

Lemma we_json_roundtrip w st unexpected : wire_ok w ->
  exists b d, we_to_json_bytes w = Ok b /\ json_loads_bytes b = Some (JObj d)
    /\ we_from_dict d st unexpected = Ok (mk_we (we_code w) (we_msg w) (map recv_detail (we_details w))).
Proof.
  intro H. destruct (we_dict_roundtrip w st unexpected H) as (d&Hd&Hf).
  pose proof (we_json_ok w H) as Hj.
  exists (json_dumps (we_to_dict w)), d. split; [|split; auto].
  - apply json_bytes_ok; auto.
  - rewrite json_loads_dumps by auto. congruence.
Qed.

Lemma recv_same d : type_name (recv_detail d) = type_name d /\ message_bytes (recv_detail d) = message_bytes d.
Proof.
  split; [|reflexivity]. unfold type_name at 1, recv_detail. cbn [d_any type_url]. apply removeprefix_app.
Qed.

(** ** Headers as lists of pairs *)

Lemma hh_get_find hs k : hh_get hs k = hd_error (map snd (filter (fun p => same_name k (fst p)) hs)).
Proof.
  induction hs as [|[a b] hs IH]; auto. unfold hh_get in *. simpl. unfold same_name in *. simpl.
  rewrite (str_eqb_sym (lower k) (lower a)).
  destruct (str_eqb (lower a) (lower k)); auto.
Qed.

Lemma lower_keys h k : h_inv h -> In k (h_keys h) -> lower k = k.
Proof. intros I Hin. pose proof (inv_low _ I) as H. rewrite Forall_forall in H. apply H. exact Hin. Qed.

Lemma filter_allitems h k : h_inv h ->
  map snd (filter (fun p => same_name k (fst p)) (h_allitems h)) = h_getall h k.
Proof.
  intro I. rewrite allitems_getall by auto.
  assert (Hnd : NoDup (h_keys h)) by (apply inv_nd; auto).
  assert (Hlow : forall x, In x (h_keys h) -> lower x = x) by (intros; eapply lower_keys; eauto).
  assert (Habs : ~ In (lower k) (h_keys h) -> h_getall h k = []).
  { intro Hn. unfold h_getall. destruct (dget (h_store h) (lower k)) eqn:E; auto.
    exfalso. apply Hn. unfold h_keys. apply dmem_true. unfold dmem. rewrite E. reflexivity. }
  assert (Hgen : forall ks, NoDup ks -> (forall x, In x ks -> lower x = x) ->
     let l := map snd (filter (fun p => same_name k (fst p))
                         (flat_map (fun k => map (fun v => (k, v)) (h_getall h k)) ks)) in
     (In (lower k) ks -> l = h_getall h k) /\ (~ In (lower k) ks -> l = [])).
  { induction ks as [|x ks IH]; intros Hn Hl l; [simpl; tauto|].
    inversion Hn; subst. destruct IH as [IH1 IH2]; auto; [intros; apply Hl; simpl; auto|].
    assert (Hx : lower x = x) by (apply Hl; simpl; auto).
    assert (Hf : forall vs, map snd (filter (fun p => same_name k (fst p)) (map (fun v : pystr => (x, v)) vs)) =
                 if str_eqb (lower k) x then vs else []).
    { unfold same_name. induction vs as [|v vs IHv]; simpl; [destruct (str_eqb (lower k) x); auto|].
      rewrite Hx. destruct (str_eqb (lower k) x); simpl; auto. f_equal; auto. }
    unfold l. cbn [flat_map]. rewrite filter_app, map_app, Hf. destruct (str_eqb_spec (lower k) x) as [E|E].
    - split; intro Hi; [|exfalso; apply Hi; simpl; auto].
      rewrite IH2 by congruence. rewrite app_nil_r. subst x. unfold h_getall. rewrite lower_idem. reflexivity.
    - split; intro Hi; simpl.
      + apply IH1. destruct Hi; congruence.
      + apply IH2. intro. apply Hi. simpl. auto. }
  destruct (Hgen (h_keys h) Hnd Hlow) as [H1 H2].
  destruct (in_dec (list_eq_dec N.eq_dec) (lower k) (h_keys h)) as [Hi|Hi]; auto.
  rewrite H2, Habs by auto. reflexivity.
Qed.

Lemma hh_get_allitems h k : h_inv h -> hh_get (h_allitems h) k = h_getitem h k.
Proof. intro I. rewrite hh_get_find, filter_allitems, getitem_getall by auto. reflexivity. Qed.

Lemma getall_fold_add ps : forall h k, h_inv h ->
  h_getall (fold_left (fun h kv => h_add h (fst kv) (snd kv)) ps h) k =
  h_getall h k ++ map snd (filter (fun p => same_name k (fst p)) ps).
Proof.
  induction ps as [|[a b] ps IH]; intros h k I; simpl; [now rewrite app_nil_r|].
  rewrite IH by (apply h_inv_add; auto).
  pose proof (getall_step h (Add a b) k I) as E. simpl in E. rewrite E.
  destruct (same_name k a); simpl; auto. now rewrite <- app_assoc.
Qed.

Lemma inv_fold_add ps : forall h, h_inv h -> h_inv (fold_left (fun h kv => h_add h (fst kv) (snd kv)) ps h).
Proof. induction ps as [|[a b] ps IH]; intros h I; simpl; auto. apply IH, h_inv_add; auto. Qed.

Lemma getall_of_pairs ps k : h_getall (h_of_pairs ps) k = map snd (filter (fun p => same_name k (fst p)) ps).
Proof. unfold h_of_pairs. rewrite getall_fold_add by apply h_inv_empty. reflexivity. Qed.

(** Copying headers through their pairs. *)
Lemma getall_copy h k : h_inv h -> h_getall (h_of_pairs (h_allitems h)) k = h_getall h k.
Proof. intro I. rewrite getall_of_pairs. now apply filter_allitems. Qed.

Lemma getall_set h k v k' : h_inv h -> h_getall (h_setitem h k v) k' = if same_name k' k then [v] else h_getall h k'.
Proof. intro I. exact (getall_step h (Set_ k v) k' I). Qed.

Lemma getitem_set h k v k' : h_inv h ->
  h_getitem (h_setitem h k v) k' = if same_name k' k then Some v else h_getitem h k'.
Proof. intro I. rewrite !getitem_getall, getall_set by auto. destruct (same_name k' k); auto. Qed.

(** ** gRPC trailers *)

(** Names the gRPC protocol reserves for the status. *)
Definition grpc_reserved (k : pystr) : bool :=
  same_name k (lit "grpc-status") || same_name k (lit "grpc-message") || same_name k (lit "grpc-status-details-bin").

Definition grpc_err_ok (w : wire_error) : Prop :=
  Forall is_scalar (we_msg w)
  /\ Forall (fun d => Forall is_scalar (type_url (d_any d)) /\ is_bytes (message_bytes d)) (we_details w).

Lemma grpc_status_inv c : grpc_status_to_connect (connect_status_to_grpc c) = c.
Proof. destruct c; vm_compute; reflexivity. Qed.

Lemma grpc_status_nonzero c : str_eqb (connect_status_to_grpc c) (lit "0") = false.
Proof. destruct c; vm_compute; reflexivity. Qed.

Lemma dec_of_Z_N n : dec_of_Z (Z.of_N n) = dec_of_N n.
Proof. destruct n; reflexivity. Qed.

Lemma grpc_trailers_ok sc user w : status_codec_ok sc -> h_inv user -> grpc_err_ok w ->
  exists t, grpc_trailers sc user (Some w) = Ok t /\ h_inv t
    /\ (forall k, grpc_reserved k = false -> h_getall t k = h_getall user k)
    /\ h_getitem t (lit "grpc-status") = Some (connect_status_to_grpc (we_code w))
    /\ (we_msg w <> [] -> exists q, quote (we_msg w) = Some q /\ h_getitem t (lit "grpc-message") = Some q)
    /\ (we_msg w = [] -> h_getitem t (lit "grpc-message") = h_getitem user (lit "grpc-message"))
    /\ (we_details w = [] -> h_getitem t (lit "grpc-status-details-bin") = h_getitem user (lit "grpc-status-details-bin"))
    /\ (we_details w <> [] -> exists bin,
          h_getitem t (lit "grpc-status-details-bin") = Some (rstrip_eq (b64encode bin))
          /\ is_bytes bin /\ bin <> []
          /\ st_from sc bin = Ok (mk_status (Z.of_N (code_to_grpc (we_code w))) (we_msg w) (map d_any (we_details w)))).
Proof.
  intros Hsc Iu (Hm&Hd). unfold grpc_trailers.
  set (t0 := h_of_pairs (h_allitems user)).
  assert (I0 : h_inv t0) by apply h_inv_of_pairs.
  assert (G0 : forall k, h_getall t0 k = h_getall user k) by (intro; apply getall_copy; auto).
  set (t1 := h_setitem t0 (lit "grpc-status") (connect_status_to_grpc (we_code w))).
  assert (I1 : h_inv t1) by (apply h_inv_set; auto).
  assert (S1 : exists t2, (if nonempty (we_msg w) then
                 match quote (we_msg w) with
                 | Some q => Ok (h_setitem t1 (lit "grpc-message") q)
                 | None => Raise (EOther KValue (lit "surrogates not allowed"))
                 end
               else Ok t1) = Ok t2 /\ h_inv t2
      /\ (forall k, grpc_reserved k = false -> h_getall t2 k = h_getall user k)
      /\ h_getitem t2 (lit "grpc-status") = Some (connect_status_to_grpc (we_code w))
      /\ (we_msg w <> [] -> exists q, quote (we_msg w) = Some q /\ h_getitem t2 (lit "grpc-message") = Some q)
      /\ (we_msg w = [] -> h_getitem t2 (lit "grpc-message") = h_getitem user (lit "grpc-message"))
      /\ h_getitem t2 (lit "grpc-status-details-bin") = h_getitem user (lit "grpc-status-details-bin")).
  { destruct (we_msg w) as [|c m] eqn:Em; cbn [nonempty].
    - exists t1. split; auto. split; auto. split; [|split; [|split; [|split]]]; try congruence.
      + intros k Hk. unfold t1. rewrite getall_set, G0 by auto. unfold grpc_reserved in Hk.
        destruct (same_name k (lit "grpc-status")); [discriminate|auto].
      + unfold t1. rewrite getitem_set by auto. reflexivity.
      + intros _. unfold t1. rewrite getitem_set by auto. rewrite !getitem_getall, G0. reflexivity.
      + unfold t1. rewrite getitem_set by auto. rewrite !getitem_getall, G0. reflexivity.
    - destruct (quote_some (c :: m) Hm) as (q&Hq). rewrite Hq.
      exists (h_setitem t1 (lit "grpc-message") q). split; auto. split; [apply h_inv_set; auto|].
      split; [|split; [|split; [|split]]]; try congruence.
      + intros k Hk. unfold t1. rewrite !getall_set, G0 by (auto; apply h_inv_set; auto). unfold grpc_reserved in Hk.
        destruct (same_name k (lit "grpc-status")), (same_name k (lit "grpc-message")); try discriminate; auto.
      + unfold t1. rewrite !getitem_set by (auto; apply h_inv_set; auto). reflexivity.
      + intros _. exists q. split; auto. rewrite getitem_set by auto. reflexivity.
      + unfold t1. rewrite !getitem_set by (auto; apply h_inv_set; auto). rewrite !getitem_getall, G0. reflexivity. }
  destruct S1 as (t2&E2&I2&K2&Hs2&Hm2&Hm2'&Hd2). rewrite E2. cbn [bind].
  destruct (we_details w) as [|d ds] eqn:Ed; cbn [nonempty].
  - exists t2. do 7 (split; auto). intro; congruence.
  - assert (Hok : status_ok (mk_status (Z.of_N (code_to_grpc (we_code w))) (we_msg w) (map d_any (d :: ds)))).
    { split; [|split].
      - unfold int32_ok. cbn [s_code]. destruct (we_code w); simpl; lia.
      - unfold text_ok. cbn [s_message]. apply utf8_encode_some; auto.
      - cbn [s_details]. apply Forall_map. eapply Forall_impl; [|exact Hd]. intros x [Hx1 Hx2]. split; auto.
        unfold text_ok. apply utf8_encode_some; auto. }
    destruct (Hsc _ Hok) as (bin&Hto&Hbb&Hfrom&Hne). rewrite Hto. cbn [bind].
    assert (Hnz : bin <> []) by (apply Hne; cbn [s_code]; destruct (we_code w); discriminate).
    eexists. split; [reflexivity|]. split; [apply h_inv_set; auto|]. split; [|split; [|split; [|split; [|split]]]].
    + intros k Hk. rewrite getall_set by auto. pose proof (K2 k Hk) as E. unfold grpc_reserved in Hk.
      destruct (same_name k (lit "grpc-status-details-bin")); [rewrite !orb_true_r in Hk; discriminate|auto].
    + rewrite getitem_set by auto. exact Hs2.
    + intro H. destruct (Hm2 H) as (q&Hq&Hg). exists q. split; auto. rewrite getitem_set by auto. exact Hg.
    + intro H. rewrite getitem_set by auto. exact (Hm2' H).
    + discriminate.
    + intros _. exists bin. split; [rewrite getitem_set by auto; reflexivity|]. auto.
Qed.

Lemma b64_nonempty l : l <> [] -> is_bytes l -> nonempty (rstrip_eq (b64encode l)) = true.
Proof.
  intros Hn Hb. unfold b64encode. rewrite rstrip_eq_b64 by auto.
  destruct l as [|a [|b [|c t]]]; [congruence| | |]; reflexivity.
Qed.

(** Reading those trailers back. [ts] is any list of pairs in which the three reserved names have these values. *)
Lemma grpc_complete_error sc (web : bool) r rh rt w :
  status_codec_ok sc ->
  let ts := if web then r_trl r else rt in
  grpc_err_ok w ->
  hh_get ts (lit "grpc-status") = Some (connect_status_to_grpc (we_code w)) ->
  (if nonempty (we_msg w) then exists q, quote (we_msg w) = Some q /\ hh_get ts (lit "grpc-message") = Some q
   else hh_get ts (lit "grpc-message") = None) ->
  (if nonempty (we_details w) then exists bin,
          hh_get ts (lit "grpc-status-details-bin") = Some (rstrip_eq (b64encode bin))
          /\ is_bytes bin /\ bin <> []
          /\ st_from sc bin = Ok (mk_status (Z.of_N (code_to_grpc (we_code w))) (we_msg w) (map d_any (we_details w)))
   else hh_get ts (lit "grpc-status-details-bin") = None) ->
  grpc_complete sc web r rh rt None =
  (Some (EConnect (we_code w) (we_msg w) (map (fun d => mk_detail (d_any d) None) (we_details w))),
   handle_trailers_http (r_md r) ts).
Proof.
  intros Hsc ts Hw Hs Hm Hd. unfold grpc_complete. fold ts.
  rewrite Hs. cbv zeta iota beta. rewrite Hs. cbv iota. rewrite grpc_status_nonzero.
  destruct (we_details w) as [|d ds] eqn:Ed; cbn [nonempty] in Hd.
  - rewrite Hd. cbv iota. rewrite grpc_status_inv. cbn [map]. do 3 f_equal.
    destruct (we_msg w) as [|c m]; cbn [nonempty] in Hm.
    + rewrite Hm. reflexivity.
    + destruct Hm as (q&Hq&->). apply unquote_quote; auto.
  - destruct Hd as (bin&->&Hbb&Hne&Hf). rewrite b64_nonempty by auto.
    change (lit "===") with [61; 61; 61]. rewrite b64decode_stripped by auto. rewrite Hf.
    cbn [s_code s_message s_details]. rewrite dec_of_Z_N.
    change (dec_of_N (code_to_grpc (we_code w))) with (connect_status_to_grpc (we_code w)).
    rewrite grpc_status_inv. rewrite map_map. reflexivity.
Qed.

(** ** gRPC-Web trailer block *)

Lemma utf8_char_high c x : 128 <= c -> In x (utf8_char c) -> 128 <= x.
Proof.
  intros Hc. unfold utf8_char. assert (E : c <? 128 = false) by lia. rewrite E.
  destruct (c <? 2048); [|destruct (c <? 65536)]; cbn [In]; intuition (subst; lia).
Qed.

Lemma utf8_no_ascii s b x : utf8_encode s = Some b -> x < 128 -> ~ In x s -> ~ In x b.
Proof.
  intros H Hx Hn Hin. apply utf8_encode_flat in H. subst b. apply in_flat_map in Hin.
  destruct Hin as (c&Hc&Hxc). destruct (N.lt_ge_cases c 128) as [Hl|Hl].
  - unfold utf8_char in Hxc. assert (E : c <? 128 = true) by lia. rewrite E in Hxc.
    destruct Hxc as [->|[]]. contradiction.
  - apply utf8_char_high in Hxc; auto. lia.
Qed.

Lemma split_crlf_nil : split_crlf [] = [[]]. Proof. reflexivity. Qed.
Lemma split_crlf_cons c d t :
  split_crlf (c :: d :: t) =
  if (c =? 13) && (d =? 10) then [] :: split_crlf t
  else match split_crlf (d :: t) with [] => [[c]] | h :: r => (c :: h) :: r end.
Proof. reflexivity. Qed.

Lemma split_crlf_line l : forall rest, ~ In 13 l -> split_crlf (l ++ 13 :: 10 :: rest) = l :: split_crlf rest.
Proof.
  induction l as [|c l IH]; intros rest H.
  - reflexivity.
  - assert (Hc : c =? 13 = false) by (apply N.eqb_neq; intros ->; apply H; simpl; auto).
    destruct (l ++ 13 :: 10 :: rest) as [|d t] eqn:E; [destruct l; discriminate|].
    cbn [app]. rewrite E, split_crlf_cons, Hc. cbn [andb]. rewrite <- E, IH; auto.
    intro Hin; apply H; simpl; auto.
Qed.

Lemma strip_space s : strip (32 :: s) = strip s.
Proof. reflexivity. Qed.

Lemma legal_scalar_name k : legal_name k -> Forall is_scalar k.
Proof.
  intros [H _]. eapply Forall_impl; [|exact H]. intros c (H1&H2&_). unfold is_scalar, is_surrogate. split; auto. lia.
Qed.
Lemma legal_scalar_value k : legal_value k -> Forall is_scalar k.
Proof.
  intros [H _]. eapply Forall_impl; [|exact H]. intros c (H1&H2&_). unfold is_scalar, is_surrogate. split; auto. lia.
Qed.

Lemma web_block_roundtrip ts : Forall (fun kv => legal_name (fst kv) /\ legal_value (snd kv)) ts ->
  exists b, utf8_encode (trailer_block ts) = Some b
    /\ forall acc, web_lines (split_crlf b) acc = (acc ++ ts, None).
Proof.
  induction 1 as [|[k v] ts [Hk Hv] H (b&Hb&IH)].
  - exists []. split; auto. intro. simpl. rewrite app_nil_r. reflexivity.
  - cbn [fst snd] in *.
    destruct (utf8_encode_some k (legal_scalar_name k Hk)) as (kb&Hkb).
    destruct (utf8_encode_some v (legal_scalar_value v Hv)) as (vb&Hvb).
    unfold trailer_block in *. cbn [flat_map fst snd].
    assert (Hline : utf8_encode (k ++ lit ": " ++ v ++ [13; 10]) = Some (kb ++ [58; 32] ++ vb ++ [13; 10])).
    { apply utf8_encode_app; auto. apply (utf8_encode_app [58; 32]); [reflexivity|].
      apply utf8_encode_app; auto. }
    exists ((kb ++ [58; 32] ++ vb ++ [13; 10]) ++ b). split; [apply utf8_encode_app; auto|].
    intro acc.
    assert (Hno : forall x, (x = 13 \/ x = 58) -> ~ In x kb).
    { intros x Hx. apply (utf8_no_ascii k); auto; [destruct Hx; lia|]. intro Hin.
      destruct Hk as [Hk _]. rewrite Forall_forall in Hk. apply Hk in Hin. intuition congruence. }
    assert (Hnv : ~ In 13 vb).
    { apply (utf8_no_ascii v); auto; [lia|]. intro Hin.
      destruct Hv as [Hv _]. rewrite Forall_forall in Hv. apply Hv in Hin. intuition congruence. }
    assert (Hnl : ~ In 13 (kb ++ 58 :: 32 :: vb)).
    { rewrite in_app_iff. simpl. intros [Hi|[Hi|[Hi|Hi]]]; try discriminate; [|contradiction].
      apply (Hno 13); auto. }
    replace ((kb ++ [58; 32] ++ vb ++ [13; 10]) ++ b) with ((kb ++ 58 :: 32 :: vb) ++ 13 :: 10 :: b)
      by (rewrite <- !app_assoc; cbn [app]; reflexivity).
    rewrite split_crlf_line by auto.
    assert (Hsf : split_first 58 (kb ++ 58 :: 32 :: vb) = Some (kb, 32 :: vb)) by (apply split_first_app; auto).
    assert (Hdv : utf8_decode (32 :: vb) = Some (32 :: v)).
    { apply utf8_roundtrip. apply (utf8_encode_app [32] v [32] vb); auto. }
    assert (Hdk : utf8_decode kb = Some k) by (apply utf8_roundtrip; auto).
    transitivity (web_lines (split_crlf b) (acc ++ [(strip k, strip (32 :: v))])).
    + remember (kb ++ 58 :: 32 :: vb) as line. destruct line as [|x line]; [destruct kb; discriminate|].
      cbn [web_lines]. rewrite Hsf, Hdk, Hdv. reflexivity.
    + rewrite strip_space. rewrite (proj2 Hk), (proj2 Hv), IH, <- app_assoc. reflexivity.
Qed.

(** ** Connect end-stream message *)

Lemma group_metadata_snoc ts k v :
  group_metadata (ts ++ [(k, v)]) =
  dset (group_metadata ts) k ((match dget (group_metadata ts) k with Some l => l | None => [] end) ++ [v]).
Proof. unfold group_metadata. rewrite fold_left_app. reflexivity. Qed.

(** Grouping the pairs of a headers object gives its names with all their values. *)
Lemma group_same d k vs : forall x, dget d k = Some x ->
  fold_left (fun d (kv : pystr * pystr) =>
               dset d (fst kv) ((match dget d (fst kv) with Some l => l | None => [] end) ++ [snd kv]))
            (map (fun v => (k, v)) vs) d = dset d k (x ++ vs).
Proof.
  revert d. induction vs as [|v vs IH]; intros d x Hx.
  - simpl. rewrite app_nil_r. symmetry.
    induction d as [|[a b] d IHd]; simpl in *; [discriminate|].
    destruct (str_eqb a k); [congruence|]. rewrite IHd by auto. reflexivity.
  - cbn [map fold_left fst snd]. rewrite Hx. rewrite (IH _ (x ++ [v])).
    + rewrite <- app_assoc. clear. induction d as [|[a b] d IHd]; simpl.
      * rewrite str_eqb_refl. reflexivity.
      * destruct (str_eqb a k) eqn:E; simpl; rewrite E; [reflexivity|]. f_equal. auto.
    + clear. induction d as [|[a b] d IHd]; simpl.
      * rewrite str_eqb_refl. reflexivity.
      * destruct (str_eqb a k) eqn:E; simpl; rewrite E; auto.
Qed.

Lemma group_allitems (f : pystr -> list pystr) ks : forall d,
  NoDup (dkeys d ++ ks) -> Forall (fun k => f k <> []) ks ->
  fold_left (fun d (kv : pystr * pystr) =>
               dset d (fst kv) ((match dget d (fst kv) with Some l => l | None => [] end) ++ [snd kv]))
            (flat_map (fun k => map (fun v => (k, v)) (f k)) ks) d = d ++ map (fun k => (k, f k)) ks.
Proof.
  induction ks as [|k ks IH]; intros d Hn Hne; simpl; [now rewrite app_nil_r|].
  rewrite fold_left_app. inversion Hne; subst. destruct (f k) as [|v vs] eqn:Ef; [congruence|].
  assert (Hni : dget d k = None).
  { apply dget_None_notin. intro Hi. apply NoDup_remove_2 in Hn. apply Hn. rewrite in_app_iff. auto. }
  assert (Hd1 : dset d k [v] = d ++ [(k, [v])]) by (apply dset_notin; auto).
  cbn [map fold_left fst snd]. rewrite Hni. rewrite app_nil_l, Hd1.
  rewrite (group_same _ k vs [v]).
  - assert (Hd2 : dset (d ++ [(k, [v])]) k ([v] ++ vs) = d ++ [(k, v :: vs)]).
    { clear -Hni. induction d as [|[a b] d IHd]; simpl.
      - rewrite str_eqb_refl. reflexivity.
      - simpl in Hni. destruct (str_eqb a k); [discriminate|]. f_equal. apply IHd; auto. }
    rewrite Hd2. rewrite IH; auto.
    + rewrite <- app_assoc. reflexivity.
    + unfold dkeys in *. rewrite map_app, <- app_assoc. exact Hn.
  - clear -Hni. induction d as [|[a b] d IHd]; simpl.
    + rewrite str_eqb_refl. reflexivity.
    + simpl in Hni. destruct (str_eqb a k); [discriminate|]. auto.
Qed.

Lemma getall_keys_nonempty h k : h_inv h -> In k (h_keys h) -> h_getall h k <> [].
Proof.
  intros I Hin. unfold h_getall. rewrite (lower_keys h k I Hin).
  destruct (dget (h_store h) k) eqn:E; [discriminate|].
  apply dget_None_notin in E. contradiction.
Qed.

Lemma group_metadata_headers h : h_inv h ->
  group_metadata (h_allitems h) = map (fun k => (k, h_getall h k)) (h_keys h).
Proof.
  intro I. rewrite allitems_getall by auto. unfold group_metadata. rewrite group_allitems.
  - reflexivity.
  - simpl. apply inv_nd; auto.
  - rewrite Forall_forall. intros k Hk. eapply getall_keys_nonempty; eauto.
Qed.

Definition json_headers_ok (h : headers) : Prop :=
  Forall (fun kv => json_str_ok (fst kv) /\ json_str_ok (snd kv)) (h_allitems h).

Lemma add_json_run d : forall h, Forall (fun kv => exists vs, snd kv = JArr (map JStr vs)) d ->
  exists ps, add_json_trailers h d = (fold_left (fun h kv => h_add h (fst kv) (snd kv)) ps h, None)
   /\ ps = flat_map (fun kv => match snd kv with JArr l => map (fun v => (fst kv, json_text v)) l | _ => [] end) d.
Proof.
  induction d as [|[k v] d IH]; intros h H; simpl.
  - exists []. auto.
  - inversion H as [|? ? (vs&Hv) Hd]; subst. simpl in Hv. subst v. cbn [trailer_values].
    destruct (IH (fold_left (fun h x => h_add h k x) (map json_text (map JStr vs)) h) Hd) as (ps&Hps&Hpe).
    eexists. split; [|reflexivity]. rewrite Hps, Hpe.
    rewrite fold_left_app. f_equal. f_equal.
    cbn [snd fst]. clear. revert h. generalize (map JStr vs) as js. induction js; intro h; simpl; auto.
Qed.

Lemma end_metadata_json h : h_inv h -> json_headers_ok h ->
  json_ok (JObj (map (fun kv : pystr * list pystr => (fst kv, JArr (map JStr (snd kv)))) (group_metadata (h_allitems h)))).
Proof.
  intros I Hok. rewrite group_metadata_headers, map_map by auto. apply json_obj_ok.
  - rewrite map_map. cbn [fst]. rewrite map_id. apply inv_nd; auto.
  - apply Forall_map. cbn [fst snd]. rewrite Forall_forall. intros k Hk.
    unfold json_headers_ok in Hok. rewrite allitems_getall in Hok by auto.
    rewrite Forall_forall in Hok.
    assert (Hv : forall v, In v (h_getall h k) -> json_str_ok k /\ json_str_ok v).
    { intros v Hv. apply (Hok (k, v)). apply in_flat_map. exists k. split; auto. apply in_map_iff. eauto. }
    split.
    + destruct (h_getall h k) as [|v vs] eqn:E; [exfalso; eapply getall_keys_nonempty; eauto|].
      apply (Hv v). simpl; auto.
    + apply json_arr_ok. apply Forall_map. rewrite Forall_forall. intros v Hv'. apply Hv; auto.
Qed.

(** The end message read back: trailers are added, then the error (if any) is raised. *)
Definition md_add (cur : option metadata) (h : headers) : option metadata :=
  match cur with
  | None => None
  | Some m =>
      let t := fold_left (fun h kv => h_add h (fst kv) (snd kv)) (h_allitems h) (rm_trailers m) in
      Some (mk_md (md_headers m) (if h_truthy h then (if h_truthy t then Some t else md_trailers m) else md_trailers m))
  end.

Lemma flat_map_metadata h : h_inv h ->
  flat_map (fun kv : pystr * json => match snd kv with JArr l => map (fun v => (fst kv, json_text v)) l | _ => [] end)
    (map (fun kv : pystr * list pystr => (fst kv, JArr (map JStr (snd kv)))) (group_metadata (h_allitems h)))
  = h_allitems h.
Proof.
  intro I. rewrite group_metadata_headers, map_map, flat_map_map by auto. rewrite (allitems_getall h) by auto.
  apply flat_map_ext_in. intros k _. cbn [fst snd]. rewrite map_map. reflexivity.
Qed.

Lemma h_truthy_allitems h : h_inv h -> h_truthy h = nonempty (h_allitems h).
Proof.
  intro I. unfold h_truthy, h_allitems. destruct (h_extra h) as [e|]; auto.
  destruct (h_store h) as [|[k v] s]; reflexivity.
Qed.

Lemma dumps_end_roundtrip cur trailers err : h_inv trailers -> json_headers_ok trailers ->
  match err with Some w => wire_ok w | None => True end ->
  json_ok (connect_end_json trailers err)
  /\ connect_handle_end cur (json_dumps (connect_end_json trailers err)) =
     (match err with
      | Some w => ERaise (EConnect (we_code w) (we_msg w) (map recv_detail (we_details w)))
      | None => ETrue
      end, md_add cur trailers).
Proof.
  intros I Hok Hw.
  set (mdj := JObj (map (fun kv : pystr * list pystr => (fst kv, JArr (map JStr (snd kv))))
                        (group_metadata (h_allitems trailers)))).
  assert (Hmd : json_ok mdj) by (apply end_metadata_json; auto).
  set (d := (if h_truthy trailers then [(lit "metadata", mdj)] else []) ++
            match err with Some w => [(lit "error", we_to_dict w)] | None => [] end).
  assert (Hend : connect_end_json trailers err = JObj d) by reflexivity.
  assert (Hjok : json_ok (JObj d)).
  { apply json_obj_ok.
    - unfold d. destruct (h_truthy trailers), err; simpl; repeat constructor; simpl; intuition discriminate.
    - unfold d. apply Forall_app. split.
      + destruct (h_truthy trailers); constructor; [|constructor]. split; auto. apply ascii_json_ok; repeat constructor.
      + destruct err as [w|]; constructor; [|constructor]. split; [apply ascii_json_ok; repeat constructor|].
        apply we_json_ok; auto. }
  rewrite Hend. split; auto. unfold connect_handle_end. rewrite json_loads_dumps by auto.
  assert (E1 : dget d (lit "metadata") = if h_truthy trailers then Some mdj else None).
  { unfold d. destruct (h_truthy trailers); [reflexivity|]. destruct err; reflexivity. }
  assert (E2 : dget d (lit "error") = match err with Some w => Some (we_to_dict w) | None => None end).
  { unfold d. destruct (h_truthy trailers), err; reflexivity. }
  rewrite E1, E2.
  assert (Hstep : (match (if h_truthy trailers then Some mdj else None) with
                   | Some v => if json_truthy v then handle_trailers_json cur v else (cur, None)
                   | None => (cur, None)
                   end) = (md_add cur trailers, None)).
  { unfold md_add. destruct (h_truthy trailers) eqn:Ht.
    - assert (Htr : json_truthy mdj = true).
      { unfold mdj, json_truthy. rewrite group_metadata_headers by auto. unfold h_truthy in Ht.
        unfold h_keys, dkeys. destruct (h_store trailers); [discriminate|reflexivity]. }
      rewrite Htr. unfold handle_trailers_json. destruct cur as [m|]; auto. unfold mdj.
      edestruct add_json_run as (ps&Hps&Hpe).
      2: { rewrite Hps, Hpe. rewrite flat_map_metadata by auto. reflexivity. }
      apply Forall_map. apply Forall_forall. intros kv _. cbn [snd]. eauto.
    - destruct cur as [[mh mt]|]; reflexivity. }
  rewrite Hstep. destruct err as [w|]; [|reflexivity].
  assert (Hjt : json_truthy (we_to_dict w) = true) by reflexivity. rewrite Hjt.
  destruct (we_dict_roundtrip w 500 Unknown Hw) as (ed&Hed&Hf). rewrite Hed, Hf. reflexivity.
Qed.
