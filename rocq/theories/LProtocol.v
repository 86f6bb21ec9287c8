(** Lemmas on the protocol layer. *)
From Coq Require Import List NArith ZArith Bool String Lia ZifyBool ZifyNat.
From Verif Require Import MBase MPyStr MHeaders SHeaders LBase LPyStr LHeaders MPercent MWire MTimeout MEnvelope LWire MProtocol SProtocol MClient.
Import ListNotations.
Local Open Scope N_scope.

Lemma same_name_refl k : same_name k k = true.
Proof. apply str_eqb_refl. Qed.

Lemma same_name_sym a b : same_name a b = same_name b a.
Proof. apply str_eqb_sym. Qed.

Lemma same_name_trans a b c : same_name a b = true -> same_name a c = same_name b c.
Proof. unfold same_name. rewrite str_eqb_eq. now intros ->. Qed.

Lemma copy_inv u hist : called_with u hist -> h_inv (copy_uheaders u).
Proof. destruct 1; simpl; [apply h_inv_empty|apply h_inv_of_pairs|apply h_inv_of_mapping]. Qed.

Lemma copy_values u hist k : called_with u hist -> h_getall (copy_uheaders u) k = values_of hist k.
Proof.
  destruct 1; cbn [copy_uheaders].
  - reflexivity.
  - rewrite getall_copy by (apply h_inv_run, h_inv_empty). apply getall_spec.
  - rewrite h_of_mapping_run. apply getall_spec.
Qed.

Lemma h_inv_default h k v : h_inv h -> h_inv (set_default_header h k v).
Proof. intro I. unfold set_default_header. destruct (h_contains h k); auto. now apply h_inv_set. Qed.

Lemma h_inv_pop h k v : h_inv h -> h_inv (set_or_pop h k v).
Proof. intro I. destruct v; cbn [set_or_pop]; [now apply h_inv_set|]. rewrite pop_exec. now apply (h_inv_exec _ (Del k)). Qed.

Lemma getall_lower h a b : same_name a b = true -> h_getall h a = h_getall h b.
Proof. unfold same_name, h_getall. rewrite str_eqb_eq. now intros ->. Qed.

Lemma getall_default h k v k' : h_inv h ->
  h_getall (set_default_header h k v) k' =
  if same_name k' k then (match h_getall h k with [] => [v] | vs => vs end) else h_getall h k'.
Proof.
  intro I. unfold set_default_header. rewrite contains_getall. destruct (h_getall h k) eqn:E; cbn [nonempty].
  - rewrite getall_set by auto. destruct (same_name k' k); auto.
  - destruct (same_name k' k) eqn:S; auto. rewrite (getall_lower _ _ _ S). auto.
Qed.

Lemma getall_set_or_pop h k v k' : h_inv h ->
  h_getall (set_or_pop h k v) k' =
  if same_name k' k then (match v with Some x => [x] | None => [] end) else h_getall h k'.
Proof.
  intro I. destruct v; cbn [set_or_pop].
  - now apply getall_set.
  - rewrite pop_exec. cbn [snd]. rewrite (getall_step h (Del k) k' I). reflexivity.
Qed.

Lemma client_headers_inv ua p stream u hist timeout cn accept send : called_with u hist ->
  h_inv (client_headers ua p stream u timeout cn accept send).
Proof.
  intro C. pose proof (copy_inv _ _ C). unfold client_headers.
  destruct timeout; destruct p; repeat first [apply h_inv_set | apply h_inv_pop | apply h_inv_default]; auto.
Qed.

(** Every value of every header of a request. *)
Lemma client_headers_values ua p stream u hist timeout cn accept send k : called_with u hist ->
  h_getall (client_headers ua p stream u timeout cn accept send) k =
  match timeout, same_name k (timeout_header p) with
  | Some t, true => [timeout_text p t]
  | _, _ =>
  if same_name k (lit "content-type") then [client_content_type p stream cn]
  else if same_name k (client_compression_header p stream)
       then match send with Some c => [z_name c] | None => [] end
  else if same_name k (client_accept_header p stream) then [accept]
  else if match p with PConnect => same_name k (lit "connect-protocol-version") | _ => false end then [lit "1"]
  else if same_name k (lit "user-agent")
       then match values_of hist (lit "user-agent") with [] => [ua] | vs => vs end
  else if match p with PConnect => false | _ => same_name k (lit "te") end then [lit "trailers"]
  else values_of hist k
  end.
Proof.
  intro C. pose proof (copy_inv _ _ C) as I0. unfold client_headers.
  assert (E : forall h0, h_inv h0 -> 
     h_getall (match timeout with Some t => h_setitem h0 (timeout_header p) (timeout_text p t) | None => h0 end) k =
     match timeout, same_name k (timeout_header p) with Some t, true => [timeout_text p t] | _, _ => h_getall h0 k end).
  { intros h0 I. destruct timeout; auto. rewrite getall_set by auto. destruct (same_name k (timeout_header p)); auto. }
  destruct p; rewrite E by (repeat first [apply h_inv_set | apply h_inv_pop | apply h_inv_default]; auto); clear E;
  (destruct timeout; [match goal with |- context [same_name k (timeout_header ?p)] => destruct (same_name k (timeout_header p)); [reflexivity|] end|]);
  rewrite getall_set by (repeat first [apply h_inv_set | apply h_inv_pop | apply h_inv_default]; auto);
  (destruct (same_name k (lit "content-type")); [reflexivity|]);
  rewrite getall_set_or_pop by (repeat first [apply h_inv_set | apply h_inv_pop | apply h_inv_default]; auto);
  (match goal with |- context [same_name k (client_compression_header ?p stream)] => destruct (same_name k (client_compression_header p stream)); [destruct send; reflexivity|] end);
  rewrite getall_set by (repeat first [apply h_inv_set | apply h_inv_pop | apply h_inv_default]; auto);
  (match goal with |- context [same_name k (client_accept_header ?p stream)] => destruct (same_name k (client_accept_header p stream)); [reflexivity|] end).
  1,2: (rewrite getall_set by (repeat first [apply h_inv_set | apply h_inv_pop | apply h_inv_default]; auto);
    (destruct (same_name k (lit "connect-protocol-version")); [reflexivity|]);
    rewrite getall_default by auto; rewrite !(copy_values _ _ _ C); reflexivity).
  all: (rewrite getall_default by (apply h_inv_set; auto); rewrite !getall_set by auto;
    change (same_name (lit "user-agent") (lit "te")) with false; cbv iota; rewrite !(copy_values _ _ _ C); reflexivity).
Qed.

Lemma values_in_allitems h k : h_inv h -> values_in (h_allitems h) k = h_getall h k.
Proof. apply filter_allitems. Qed.

Lemma hh_get_values hs k : hh_get hs k = hd_error (values_in hs k).
Proof. apply hh_get_find. Qed.

Lemma values_in_pop hs k k' : values_in (hh_pop hs k) k' = if same_name k' k then [] else values_in hs k'.
Proof.
  unfold values_in, hh_pop. induction hs as [|[a v] hs IH]; [destruct (same_name k' k); auto|]. cbn [filter fst].
  change (str_eqb (lower a) (lower k)) with (same_name a k).
  destruct (same_name a k) eqn:E; cbn [negb filter fst].
  - rewrite IH. destruct (same_name k' k) eqn:F; auto. destruct (same_name k' a) eqn:G; auto.
    rewrite (same_name_trans _ _ k G) in F. congruence.
  - destruct (same_name k' a) eqn:G; cbn [map snd]; rewrite IH; [|auto].
    rewrite (same_name_trans _ _ k G). now rewrite E.
Qed.

(** Requests handed to the library by each kind of call. *)
Lemma send_stream_sent {A B} (c : client A B) cx ck net md reqs stop rq :
  In rq (sr_sent (send_stream c cx ck net md reqs stop)) ->
  rq_headers rq = h_allitems (cx_headers cx) /\ rq_method rq = lit "POST"
  /\ rq_url rq = call_url c (cx_method cx) /\ rq_body rq = request_content c (fst reqs) (snd reqs)
  /\ rq_timeout rq = timeout_s cx (ck_send ck).
Proof.
  unfold send_stream. set (q := mk_rq _ _ _ _ _).
  assert (G : forall l : list http_request, l = [q] -> In rq l -> rq = q) by (intros l -> [->|[]]; auto).
  intro H. assert (rq = q) as ->; [|repeat split].
  revert H. apply G. clear G. destruct (nw_stream net q) as [resp|f].
  - cbv zeta. destruct (sp_status resp =? 200).
    + destruct (validate_stream_response _ _ _).
      * destruct (leave resp _); auto. destruct (stream_except _ _ _ _ _ _); auto.
      * destruct (handle_response_compression _ _ _ _).
        2: { destruct (leave resp _); auto. destruct (stream_except _ _ _ _ _ _); auto. }
        destruct (consume _ _ _ _) as [[ms f] r]. destruct f as [f|]; [|destruct (sp_fault resp) as [f|]].
        1,2: destruct (leave resp _); auto; destruct (stream_except _ _ _ _ _ _); auto.
        destruct (cl_sync c && deadline_passed cx (ck_late ck)).
        { destruct (leave resp _); auto. destruct (stream_except _ _ _ _ _ _); auto. }
        destruct (response_complete _ _ _ _ _ _) as [o md']. destruct (leave resp _); auto.
        destruct (stream_except _ _ _ _ _ _); auto.
    + destruct (sp_fault resp); [destruct (leave resp _); auto; destruct (stream_except _ _ _ _ _ _); auto|].
      destruct (we_from_response _ _); destruct (leave resp _); auto; destruct (stream_except _ _ _ _ _ _); auto.
  - destruct (stream_except _ _ _ _ _ _); auto.
Qed.

Lemma send_stream_sent_one {A B} (c : client A B) cx ck net md reqs stop :
  exists rq, sr_sent (send_stream c cx ck net md reqs stop) = [rq].
Proof.
  unfold send_stream. set (q := mk_rq _ _ _ _ _). exists q. destruct (nw_stream net q) as [resp|f].
  - cbv zeta. destruct (sp_status resp =? 200).
    + destruct (validate_stream_response _ _ _).
      * destruct (leave resp _); auto. destruct (stream_except _ _ _ _ _ _); auto.
      * destruct (handle_response_compression _ _ _ _).
        2: { destruct (leave resp _); auto. destruct (stream_except _ _ _ _ _ _); auto. }
        destruct (consume _ _ _ _) as [[ms f] r]. destruct f as [f|]; [|destruct (sp_fault resp) as [f|]].
        1,2: destruct (leave resp _); auto; destruct (stream_except _ _ _ _ _ _); auto.
        destruct (cl_sync c && deadline_passed cx (ck_late ck)).
        { destruct (leave resp _); auto. destruct (stream_except _ _ _ _ _ _); auto. }
        destruct (response_complete _ _ _ _ _ _) as [o md']. destruct (leave resp _); auto.
        destruct (stream_except _ _ _ _ _ _); auto.
    + destruct (sp_fault resp); [destruct (leave resp _); auto; destruct (stream_except _ _ _ _ _ _); auto|].
      destruct (we_from_response _ _); destruct (leave resp _); auto; destruct (stream_except _ _ _ _ _ _); auto.
  - destruct (stream_except _ _ _ _ _ _); auto.
Qed.

Lemma send_unary_connect_sent {A B} (c : client A B) cx ck net md a rq :
  In rq (cr_sent (send_unary_connect c cx ck net md a)) -> unary_request c cx (ck_send ck) a = Ok rq.
Proof.
  unfold send_unary_connect. destruct (unary_request _ _ _ _) as [q|e]; [|intros []].
  destruct (nw_unary net q) as [r|f].
  - destruct (unary_response c r md). intros [->|[]]; auto.
  - intros [->|[]]; auto.
Qed.

(** The headers of a Connect unary request: those of the context, without the two names a GET carries in its URL. *)
Lemma unary_request_headers {A B} (c : client A B) cx now a rq : unary_request c cx now a = Ok rq -> h_inv (cx_headers cx) ->
  forall k, values_in (rq_headers rq) k =
    if str_eqb (cx_http cx) (lit "GET") && (same_name k (lit "content-type") || same_name k (lit "content-encoding"))
    then [] else h_getall (cx_headers cx) k.
Proof.
  unfold unary_request. intros H I k. destruct (k_enc_req _ _) as [d|]; [|discriminate]. cbn [bind] in H.
  destruct (z_compress _ _) as [d2|]; [|discriminate]. cbn [bind] in H.
  destruct (str_eqb (cx_http cx) (lit "GET")).
  - destruct (prepare_get_params _ _ _) as [ps hs] eqn:E. destruct (urlencode ps); [|discriminate]. injection H as <-.
    cbn [rq_headers]. rewrite values_in_pop. cbn [andb]. destruct (same_name k (lit "content-type")); [reflexivity|]. cbn [orb].
    unfold prepare_get_params in E. rewrite hh_get_values in E. destruct (hd_error _) eqn:F.
    + injection E as _ <-. rewrite values_in_pop. destruct (same_name k (lit "content-encoding")); auto. now apply values_in_allitems.
    + injection E as _ <-. rewrite values_in_allitems by auto. destruct (same_name k (lit "content-encoding")) eqn:S; auto.
      rewrite values_in_allitems in F by auto. rewrite (getall_lower _ _ _ S).
      match type of F with hd_error ?l = None => assert (N : l = []) by (destruct l; [reflexivity|discriminate F]) end. exact N.
  - injection H as <-. cbn [rq_headers andb]. now apply values_in_allitems.
Qed.

(** ** Content types *)

Lemma media_forall n : codec_name_ok n -> Forall (fun c => media_char c = true) n.
Proof. intro H. apply Forall_forall. now apply forallb_forall. Qed.

(** Characters of a media type made of a lower-case prefix and a codec name. *)
Definition type_char (c : N) : bool := media_char c || (c =? 47).

Lemma normalize_type s : forallb type_char s = true -> normalize_content_type s = s.
Proof.
  intro H. assert (F : Forall (fun c => type_char c = true) s) by (apply Forall_forall; now apply forallb_forall).
  unfold normalize_content_type. rewrite before_none.
  2: { intro Hin. rewrite Forall_forall in F. specialize (F _ Hin). discriminate. }
  rewrite strip_id, lower_id; auto.
  - eapply Forall_impl; [|exact F]. cbv beta. unfold type_char, media_char. lia.
  - eapply Forall_impl; [|exact F]. cbv beta. unfold type_char, media_char, is_space. lia.
Qed.

Lemma type_chars pre n : forallb type_char pre = true -> codec_name_ok n -> forallb type_char (pre ++ n) = true.
Proof.
  intros H1 H2. rewrite forallb_app, H1. apply forallb_forall. intros c Hc.
  unfold type_char. rewrite (proj1 (forallb_forall _ _) H2 c Hc). reflexivity.
Qed.

Lemma startswith_common pre p n : startswith (pre ++ p) (pre ++ n) = startswith p n.
Proof. induction pre; simpl; auto. now rewrite N.eqb_refl. Qed.

Lemma str_eqb_common pre a b : str_eqb (pre ++ a) (pre ++ b) = str_eqb a b.
Proof. unfold str_eqb. induction pre; simpl; auto. now rewrite N.eqb_refl. Qed.

Lemma negotiate_connect_unary n : grpc_like n = false -> negotiate_server_protocol (lit "application/" ++ n) = PConnect.
Proof.
  unfold grpc_like, negotiate_server_protocol. intro H.
  change grpc_default with (lit "application/" ++ lit "grpc").
  change grpc_prefix with (lit "application/" ++ lit "grpc+").
  change grpc_web_default with (lit "application/" ++ lit "grpc-web").
  change grpc_web_prefix with (lit "application/" ++ lit "grpc-web+").
  rewrite !startswith_common, !str_eqb_common.
  destruct (str_eqb n (lit "grpc")); [discriminate|]. destruct (startswith (lit "grpc+") n); [discriminate|].
  destruct (str_eqb n (lit "grpc-web")); [discriminate|]. cbn [orb] in *. now rewrite H.
Qed.

Lemma negotiate_client p n : negotiate_server_protocol (client_content_type p true n) = p.
Proof. destruct p; reflexivity. Qed.

Lemma codec_name_client p stream n : codec_name_ok n ->
  codec_name_from_content_type p stream (client_content_type p stream n) = n.
Proof.
  intro H. destruct p; cbn [codec_name_from_content_type client_content_type].
  - rewrite normalize_type.
    + rewrite startswith_app. apply skipn_app_exact.
    + apply type_chars; auto. destruct stream; reflexivity.
  - rewrite startswith_app. apply skipn_app_exact.
  - rewrite startswith_app. apply skipn_app_exact.
Qed.

Lemma validate_stream_ok p n : validate_stream_response p n (server_content_type p n) = None.
Proof.
  unfold validate_stream_response.
  assert (E : server_content_type p n = server_content_type p [] ++ n) by (destruct p; reflexivity).
  rewrite E, startswith_app, skipn_app_exact, str_eqb_refl, orb_true_r. reflexivity.
Qed.

Lemma validate_unary_ok n : codec_name_ok n -> validate_response PConnect n 200 (lit "application/" ++ n) = None.
Proof.
  intro H. unfold validate_response. rewrite normalize_type by (apply type_chars; auto). cbn [negb N.eqb Pos.eqb].
  change connect_unary_prefix with (lit "application/"). rewrite startswith_app. cbn [negb].
  cbn [codec_name_from_content_type]. rewrite normalize_type by (apply type_chars; auto).
  change connect_unary_prefix with (lit "application/"). rewrite startswith_app, skipn_app_exact, str_eqb_refl. reflexivity.
Qed.

(** ** Compression tables *)

Lemma fold_dset_get (cs : list compression) : forall d n c,
  dget (fold_left (fun d c => dset d (z_name c) c) cs d) n = Some c ->
  (In c cs /\ z_name c = n) \/ dget d n = Some c.
Proof.
  induction cs as [|x cs IH]; intros d n c H; cbn [fold_left] in H; auto.
  apply IH in H. destruct H as [[H1 H2]|H]; [left; simpl; auto|].
  rewrite dget_dset in H. destruct (str_eqb_spec (z_name x) n) as [E|E]; auto.
  injection H as <-. left. simpl. auto.
Qed.

(** A compression found under a name has that name. *)
Lemma resolve_get cs n c : dget (resolve_compressions cs) n = Some c ->
  (In c cs /\ z_name c = n /\ n <> lit "identity") \/ (c = identity_comp /\ n = lit "identity").
Proof.
  unfold resolve_compressions. rewrite dget_dset. destruct (str_eqb_spec (lit "identity") n) as [E|E].
  - intro H. injection H as <-. right. split; auto.
  - intro H. apply fold_dset_get in H. destruct H as [[H1 H2]|H]; [left; repeat split; auto|discriminate].
Qed.

Lemma resolve_name cs n c : dget (resolve_compressions cs) n = Some c -> z_name c = n.
Proof. intro H. apply resolve_get in H. destruct H as [[_ [H _]]|[-> ->]]; auto. Qed.

Lemma fold_dset_mem (cs : list compression) : forall d n,
  In n (dkeys (fold_left (fun d c => dset d (z_name c) c) cs d)) <-> In n (dkeys d) \/ In n (map z_name cs).
Proof.
  induction cs as [|x cs IH]; intros d n; cbn [fold_left]; [simpl; tauto|].
  rewrite IH, <- !dmem_true. unfold dmem at 1. rewrite dget_dset.
  destruct (str_eqb_spec (z_name x) n) as [E|E]; simpl.
  - split; auto.
  - unfold dmem. destruct (dget d n); simpl; intuition congruence.
Qed.

Lemma resolve_keys cs n : In n (dkeys (resolve_compressions cs)) <-> n = lit "identity" \/ In n (map z_name cs).
Proof.
  unfold resolve_compressions. rewrite <- dmem_true. unfold dmem. rewrite dget_dset.
  destruct (str_eqb_spec (lit "identity") n) as [E|E].
  - split; auto.
  - change (dmem (fold_left (fun d c => dset d (z_name c) c) cs []) n = true <-> n = lit "identity" \/ In n (map z_name cs)).
    rewrite dmem_true, fold_dset_mem. simpl. intuition congruence.
Qed.

Lemma negotiate_first_spec accepts comps :
  (exists pre n c post, accepts = pre ++ n :: post /\ dget comps (strip n) = Some c
      /\ Forall (fun x => dget comps (strip x) = None) pre /\ negotiate_first accepts comps = c)
  \/ (Forall (fun x => dget comps (strip x) = None) accepts /\ negotiate_first accepts comps = identity_comp).
Proof.
  induction accepts as [|a r IH]; [right; auto|]. cbn [negotiate_first]. destruct (dget comps (strip a)) as [c|] eqn:E.
  - left. exists [], a, c, r. repeat split; auto.
  - destruct IH as [[pre [n [c [post [-> [H2 [H3 H4]]]]]]]|[H1 H2]].
    + left. exists (a :: pre), n, c, post. repeat split; auto.
    + right. auto.
Qed.
