(** C64: typed error details. *)
From Coq Require Import List NArith ZArith Bool String Lia ZifyBool ZifyNat ZifyN.
From Verif Require Import MBase MBase64 MPyStr LPyStr MHeaders SHeaders LHeaders LBase MUtf8 MJson SJson MWire MEnvelope MStatusPb MTimeout MProtocol SProtocol
  MClient LProtocol PProtocol SClient MServer MAsgi MWsgi SServer PResponse SLink LLink LLink2 LNet PLink LLink3 PUnary MDetail.
Import ListNotations.
Local Open Scope N_scope.

(** ** The protobuf runtime *)

(** [url] is a type URL for [name]: the name is what follows its last slash. *)
Definition url_names (url name : pystr) : Prop := ~ In 47 name /\ (url = name \/ exists pre, url = pre ++ 47 :: name).
(** What is expected of the runtime, for a descriptor for each message ([desc_of]): [unpack] gives the message back from its bytes
    under a URL that names its type, and nothing for another type. *)
Definition lawful {M D} (rt : pb_runtime M D) (desc_of : M -> D) (desc_name : D -> pystr) : Prop :=
  (forall m, ~ In 47 (rt_name rt m))
  /\ (forall m, desc_name (desc_of m) = rt_name rt m)
  /\ (forall a m, url_names (type_url a) (rt_name rt m) -> any_value a = rt_bin rt m -> rt_unpack rt a (desc_of m) = Ok (Some m))
  /\ (forall a d name, url_names (type_url a) name -> desc_name d <> name -> rt_unpack rt a d = Ok None).

(** What a caller can do with a received detail that was made from [m]: get [m] with its type, or with a registry that knows the
    type; get nothing with another type, a registry that does not know it, or without either. *)
Definition recovers {M D} (rt : pb_runtime M D) (desc_of : M -> D) (desc_name : D -> pystr) (m : M) (d : edetail M) : Prop :=
  ed_type_name d = rt_name rt m /\ ed_bytes d = rt_bin rt m
  /\ ed_value rt d (VType (desc_of m)) = Ok (Some m)
  /\ (forall find, find (rt_name rt m) = Some (desc_of m) -> ed_value rt d (VRegistry true find) = Ok (Some m))
  /\ (forall t, desc_name t <> rt_name rt m -> ed_value rt d (VType t) = Ok None)
  /\ (forall b find, find (rt_name rt m) = None -> ed_value rt d (VRegistry b find) = Ok None)
  /\ ed_value rt d VNone = Ok None.

(** ** C64 *)

Lemma named_url url name : ~ In 47 name -> removeprefix google_prefix url = name -> url_names url name.
Proof.
  intros H E. split; [exact H|]. unfold removeprefix in E. destruct (startswith google_prefix url) eqn:S; [|now left].
  right. exists (lit "type.googleapis.com"). apply startswith_spec in S. destruct S as [r ->]. rewrite skipn_app, skipn_all, Nat.sub_diag in E. cbn [List.app skipn] in E.
  subst r. reflexivity.
Qed.

(** A detail with the type name and bytes of one made from a message. *)
Theorem C64_received {M D} (rt : pb_runtime M D) desc_of desc_name m d' : lawful rt desc_of desc_name ->
  same_detail (to_detail rt (ed_new rt (PMsg m))) d' -> recovers rt desc_of desc_name m (received rt d').
Proof.
  intros (L1&L2&L3&L4) [T V]. unfold type_name, message_bytes, to_detail, any_pack in T, V. cbn [ed_new ed_any any_pack d_any type_url any_value] in T, V.
  rewrite removeprefix_app in T. pose proof (named_url _ _ (L1 m) T) as U.
  unfold recovers, received, ed_value, ed_bytes, ed_type_name. cbn [ed_new ed_message ed_any]. rewrite T.
  split; [reflexivity|]. split; [exact V|]. split; [now apply L3|]. split; [|split; [|split]].
  - intros find ->. now apply L3.
  - intros t Ht. eapply L4; eauto.
  - intros b find ->. now destruct b.
  - reflexivity.
Qed.
Print Assumptions C64_received.

Lemma recovered {M D} (rt : pb_runtime M D) desc_of desc_name ms ds' : lawful rt desc_of desc_name ->
  Forall2 same_detail (map (to_detail rt) (ce_details rt (map (fun m => CMessage (PMsg m)) ms))) ds' ->
  Forall2 (fun m d' => recovers rt desc_of desc_name m (received rt d')) ms ds'.
Proof.
  intro L. revert ds'. induction ms as [|m ms IH]; cbn [map ce_details]; intros ds' H; inversion H; subst; constructor.
  - eapply C64_received; eauto.
  - apply IH. assumption.
Qed.

(** ** From the method to the caller *)

(** A method that raises [ConnectError(code, msg, messages)] after any messages of a stream of any protocol, behind either server:
    the caller gets an error with that code and text, and the messages back from its details, in order. *)
Theorem C64_stream {A B M D} (rt : pb_runtime M D) desc_of desc_name (w : bool) (c : client A B) (ap : app A B) m ep k ck net u hist timeout reqs now :
  lawful rt desc_of desc_name ->
  connected w c ap m ep k ck u hist timeout -> (cl_proto c = PConnect -> is_unary ep = false) ->
  let call := execute_bidi_stream c ck net (Some md_new) m u timeout reqs None in
  stream_link w ap now (cl_address c) net (sr_sent call) -> request_fits c ap (fst reqs) ->
  exists cx, forall inv steps rs code msg ms,
    let x := connect_error rt code msg (map (fun m => CMessage (PMsg m)) ms) in
    method_does ep cx (fst reqs, None) inv steps rs (Some (IExn x)) -> sendable ap k (cl_proto c) (cl_max c) steps rs (Some (IExn x)) ->
    exists ds', sr_end call = CErr (EConnect code msg ds')
      /\ Forall2 (fun m d' => recovers rt desc_of desc_name m (received rt d')) ms ds'.
Proof.
  intros Hl H U call L R. destruct (C33_stream_call w c ap m ep k ck net u hist timeout reqs now H U L R) as (rq&cx&_&_&H3).
  exists cx. intros inv steps rs code msg ms x Md S. destruct (H3 _ _ _ _ Md S) as [_ (_&(x'&S2&ds'&->&F)&_)].
  exists ds'. split; [exact S2|]. now apply recovered.
Qed.
Print Assumptions C64_stream.

(** Calls with one response message: client streaming and gRPC unary. *)
Theorem C64_single {A B M D} (rt : pb_runtime M D) desc_of desc_name (w : bool) (c : client A B) (ap : app A B) m mi f g k ck net u hist timeout get a reqs now :
  lawful rt desc_of desc_name ->
  (let call := execute_client_stream c ck net (Some md_new) m u timeout reqs None in
   connected w c ap m (EpClientStream mi f) k ck u hist timeout ->
   stream_link w ap now (cl_address c) net (cr_sent call) -> request_fits c ap (fst reqs) ->
   exists cx, forall rs code msg ms,
     let x := connect_error rt code msg (map (fun m => CMessage (PMsg m)) ms) in
     run_fn (f cx) (fst reqs, None) rs_new = (FInt (IExn x), rs) -> sendable ap k (cl_proto c) (cl_max c) [] rs (Some (IExn x)) ->
     exists ds', cr_out call = CErr (EConnect code msg ds')
       /\ Forall2 (fun m d' => recovers rt desc_of desc_name m (received rt d')) ms ds')
  /\ (let call := execute_unary c ck net (Some md_new) m u timeout get a None in
   cl_proto c <> PConnect -> connected w c ap m (EpUnary mi g) k ck u hist timeout ->
   stream_link w ap now (cl_address c) net (cr_sent call) -> request_fits c ap [a] ->
   exists cx, forall rs code msg ms,
     let x := connect_error rt code msg (map (fun m => CMessage (PMsg m)) ms) in
     run_fn (g a cx) ([], None) rs_new = (FInt (IExn x), rs) -> sendable ap k (cl_proto c) (cl_max c) [] rs (Some (IExn x)) ->
     exists ds', cr_out call = CErr (EConnect code msg ds')
       /\ Forall2 (fun m d' => recovers rt desc_of desc_name m (received rt d')) ms ds').
Proof.
  intro Hl. split.
  - intros call H L R. destruct (C33_client_stream_call w c ap m mi f k ck net u hist timeout reqs now H L R) as (rq&cx&_&_&H3).
    exists cx. intros rs code msg ms x Md S.
    destruct (H3 [InvStream] [] rs (Some (IExn x))) as [_ ((x'&S2&ds'&->&F)&_)]; auto; [split; [reflexivity|]; unfold returns; now rewrite Md|].
    exists ds'. split; [exact S2|]. now apply recovered.
  - intros call P H L R. destruct (C33_unary_grpc_call w c ap m mi g k ck net u hist timeout get a now P H L R) as (rq&cx&_&_&H3).
    exists cx. intros rs code msg ms x Md S.
    destruct (H3 [] rs (Some (IExn x))) as [_ ((x'&S2&ds'&->&F)&_)]; auto; [unfold returns; now rewrite Md|].
    exists ds'. split; [exact S2|]. now apply recovered.
Qed.
Print Assumptions C64_single.

(** Unary calls of the Connect protocol, by POST or GET. *)
Theorem C64_unary {A B M D} (rt : pb_runtime M D) desc_of desc_name (w : bool) inflate (c : client A B) (ap : app A B) m mi f k ck net u hist timeout get a now :
  lawful rt desc_of desc_name ->
  unary_connected w inflate c ap m (EpUnary mi f) k u hist timeout get -> sendable_request c ap a ->
  let call := execute_unary c ck net (Some md_new) m u timeout get a None in
  unary_link w inflate ap now (cl_address c) net (cr_sent call) ->
  exists cx, forall rs code msg ms,
    let x := connect_error rt code msg (map (fun m => CMessage (PMsg m)) ms) in
    run_fn (f a cx) ([], None) rs_new = (FInt (IExn x), rs) -> sendable_answer ap k (cl_max c) [] rs (Some (IExn x)) ->
    exists ds', cr_out call = CErr (EConnect code msg ds')
      /\ Forall2 (fun m d' => recovers rt desc_of desc_name m (received rt d')) ms ds'.
Proof.
  intros Hl H R call L. destruct (C10_unary_error_partial w inflate c ap m mi f k ck net u hist timeout get a now H R L) as (cx&_&H3).
  exists cx. intros rs code msg ms x Md S. destruct (H3 _ _ _ _ Md S) as (ds'&E&F). exists ds'. split; [exact E|]. now apply recovered.
Qed.
Print Assumptions C64_unary.

(** Where it was made, a detail gives its message whatever it is asked for. *)
Theorem C64_made {M D} (rt : pb_runtime M D) m t : rt_truthy rt m = true -> ed_value rt (ed_new rt (PMsg m)) t = Ok (Some m).
Proof. intro H. unfold ed_value. cbn [ed_new ed_message]. now rewrite H. Qed.
Print Assumptions C64_made.

(** What a server says in JSON about a detail: the type and the bytes; if the detail was made from a message that JSON can express,
    its value as JSON as well; of a received detail nothing more. *)
Theorem C64_debug {M D} (rt : pb_runtime M D) m d : rt_truthy rt m = true ->
  detail_to_json (to_detail rt (ed_new rt (PMsg m)))
    = JObj ([(lit "type", JStr (rt_name rt m)); (lit "value", JStr (rstrip_eq (b64encode (rt_bin rt m))))]
            ++ match rt_json rt m with Some v => [(lit "debug", v)] | None => [] end)
  /\ detail_to_json (to_detail rt (received rt d)) = JObj [(lit "type", JStr (type_name d)); (lit "value", JStr (rstrip_eq (b64encode (message_bytes d))))].
Proof.
  intro H. split; [|reflexivity].
  unfold detail_to_json, type_name, to_detail, ed_debug, ed_value. cbn [ed_new ed_message ed_any d_any d_debug any_pack type_url]. rewrite !H, removeprefix_app. reflexivity.
Qed.
Print Assumptions C64_debug.
Example C64_debug_example : let rt := mk_rt (fun m : bytes => lit "acme.Retry") (fun m => m) (fun _ => true) (fun m => Some (JStr m)) (fun (_ : any) (_ : unit) => Ok None) in
  rt_truthy rt (lit "a") = true
  /\ detail_to_json (to_detail rt (ed_new rt (PMsg (lit "a")))) = JObj [(lit "type", JStr (lit "acme.Retry")); (lit "value", JStr (lit "YQ")); (lit "debug", JStr (lit "a"))].
Proof. split; vm_compute; reflexivity. Qed.

(** ** Concrete runtime, and findings *)

(** Two types of messages with some bytes. *)
Fixpoint after_slash (s : pystr) : pystr :=
  match s with [] => [] | c :: t => if existsb (N.eqb 47) s then after_slash t else s end.
Definition ex_type (b : bool) : pystr := if b then lit "acme.Retry" else lit "acme.Quota".
Definition ex_rt : pb_runtime (bool * bytes) bool :=
  mk_rt (fun m => ex_type (fst m)) snd (fun _ => true) (fun _ => None)
    (fun a d => Ok (if str_eqb (after_slash (type_url a)) (ex_type d) then Some (d, any_value a) else None)).
Lemma after_slash_named url name : url_names url name -> after_slash url = name.
Proof.
  intros [H E]. assert (P : forall s, ~ In 47 s -> existsb (N.eqb 47) s = false).
  { intros s Hs. destruct (existsb _ s) eqn:X; [|reflexivity]. apply existsb_exists in X. destruct X as (x&I&Ex). apply N.eqb_eq in Ex. now subst. }
  destruct E as [->|[pre ->]].
  - destruct name as [|c t]; [reflexivity|]. unfold after_slash. now rewrite (P _ H).
  - induction pre as [|c pre IH].
    + cbn. destruct name as [|c t]; [reflexivity|]. cbn [after_slash]. now rewrite (P _ H).
    + cbn [List.app after_slash]. replace (existsb (N.eqb 47) (c :: pre ++ 47 :: name)) with true; [exact IH|].
      symmetry. apply existsb_exists. exists 47. split; [|reflexivity]. right. apply in_app_iff. right. now left.
Qed.
Lemma ex_lawful : lawful ex_rt fst ex_type.
Proof.
  assert (T : forall b, ~ In 47 (ex_type b)) by (intros [] H; cbn in H; intuition discriminate).
  split; [intro; apply T|]. split; [reflexivity|]. split.
  - intros a [b v] U V. cbn [ex_rt rt_unpack rt_name rt_bin fst snd] in *. rewrite (after_slash_named _ _ U), str_eqb_refl, V. reflexivity.
  - intros a d name U H. cbn [ex_rt rt_unpack]. rewrite (after_slash_named _ _ U). destruct (str_eqb_spec name (ex_type d)) as [E|_]; [now subst|reflexivity].
Qed.

(** Finding: [value(typ)] of a detail that was not received but made here gives its message even if [typ] is another type, where a
    received one gives nothing. *)
Theorem C64_made_type_refuted : exists (M D : Type) (rt : pb_runtime M D) desc_of desc_name m t,
  lawful rt desc_of desc_name /\ desc_name t <> rt_name rt m
  /\ ed_value rt (ed_new rt (PMsg m)) (VType t) = Ok (Some m)
  /\ ed_value rt (received rt (to_detail rt (ed_new rt (PMsg m)))) (VType t) = Ok None.
Proof.
  exists (bool * bytes)%type, bool, ex_rt, fst, ex_type, (true, [1; 2]), false. split; [exact ex_lawful|].
  split; [discriminate|]. split; vm_compute; reflexivity.
Qed.
Print Assumptions C64_made_type_refuted.

(** Finding: for an Any with a type URL of another host, [type_name] is not the name of its type, and a registry that knows the
    type does not find it, although the type itself can be unpacked. *)
Theorem C64_host_refuted : exists (M D : Type) (rt : pb_runtime M D) desc_of desc_name m a find,
  lawful rt desc_of desc_name /\ url_names (type_url a) (rt_name rt m) /\ any_value a = rt_bin rt m
  /\ (forall d, find (desc_name d) = Some d)
  /\ let d := ed_new rt (PAny a) in
     ed_type_name d <> rt_name rt m /\ ed_value rt d (VRegistry true find) = Ok None /\ ed_value rt d (VType (desc_of m)) = Ok (Some m).
Proof.
  exists (bool * bytes)%type, bool, ex_rt, fst, ex_type, (true, [1; 2]), (mk_any (lit "example.com/acme.Retry") [1; 2]).
  exists (fun n => if str_eqb n (ex_type true) then Some true else if str_eqb n (ex_type false) then Some false else None).
  split; [exact ex_lawful|]. split; [|split; [reflexivity|split; [now intros []|]]].
  - split; [cbn; intuition discriminate|]. right. exists (lit "example.com"). reflexivity.
  - split; [discriminate|]. split; reflexivity.
Qed.
Print Assumptions C64_host_refuted.

(** An error with two details, through each protocol and server: both are recovered. *)
Definition ex_detailed : exn := connect_error ex_rt NotFound (lit "gone") (map (fun m => CMessage (PMsg m)) [(true, [1; 255]); (false, [])]).
Lemma ex_detailed_sendable p ep : sendable (link_app ep) ex_codec p (Some 1000) [(link_state false, lit "a")] (link_state true) (Some (IExn ex_detailed)).
Proof.
  destruct (link_sendable p (Some link_error) ep (or_intror (or_introl eq_refl))) as (S1&S2&S3&_&_).
  split; [exact S1|]. split; [exact S2|]. split; [exact (conj (proj1 S3) (fun P _ => proj2 S3 P ltac:(discriminate)))|]. split.
  - destruct p; [eexists; split; [vm_compute; reflexivity|apply link_bytes; vm_compute; discriminate]
      |exists []; split; [reflexivity|apply link_bytes; vm_compute; discriminate]
      |eexists; split; [eexists; split; [vm_compute; reflexivity|vm_compute; reflexivity]|apply link_bytes; vm_compute; discriminate]].
  - assert (J : forall s, Forall (fun c => c < 1000) s -> no_pair s = true -> json_str_ok s).
    { intros t F E. split; [|exact E]. eapply Forall_impl; [|exact F]. cbv beta. lia. }
    assert (K : forall s, Forall (fun c => c < 1000) s -> scalar_text s).
    { intros t F. eapply Forall_impl; [|exact F]. cbv beta. unfold is_scalar. intros. split; [lia|unfold is_surrogate; lia]. }
    destruct p; (split; [first [apply J; [repeat constructor|reflexivity]|apply K; repeat constructor]|]); (constructor; [|constructor; [|constructor]]);
      first [split; [apply J; [repeat constructor|reflexivity]|]; split; [repeat constructor|exact I]|split; [apply K; repeat constructor|repeat constructor]].
Qed.
Example C64_example : forallb (fun p => forallb (fun w =>
  match link_ends w p ex_detailed with
  | CErr (EConnect NotFound msg [d1; d2]) =>
      match ed_value ex_rt (received ex_rt d1) (VType true), ed_value ex_rt (received ex_rt d2) (VType false), ed_value ex_rt (received ex_rt d1) (VType false) with
      | Ok (Some (true, [1; 255])), Ok (Some (false, [])), Ok None => true
      | _, _, _ => false
      end
  | _ => false
  end) [false; true]) [PConnect; PGrpc; PGrpcWeb] = true.
Proof. vm_compute. reflexivity. Qed.
