(** C63: RPCs a service does not implement. *)
From Coq Require Import List NArith ZArith Bool String Lia ZifyBool ZifyNat ZifyN.
From Verif Require Import MBase MPyStr MHeaders SHeaders LHeaders LBase MUtf8 MJson SJson MWire MEnvelope MStatusPb MTimeout MProtocol SProtocol
  MClient LProtocol PProtocol SClient MServer MAsgi MWsgi SServer PResponse SLink LLink LLink2 LNet PLink LLink3 PUnary MGen SGen PGen.
Import ListNotations.
Local Open Scope N_scope.

(** ** Calling an RPC through a generated client *)

Definition single_end {B} (r : call_result B) : list http_request * list B * stream_end :=
  match cr_out r with
  | COk b => (cr_sent r, [b], COk tt)
  | CErr e => (cr_sent r, [], CErr e)
  | CRaw f => (cr_sent r, [], CRaw f)
  end.
(** The call made by the method of the generated client for an RPC of the given kind: the requests sent, the messages received
    and how it ended.  [a] is the request message of kinds with one, [reqs] the request messages of the others. *)
Definition rpc_call {A B} (k : mkind) (c : client A B) ck net (m : method_info) u timeout get (a : A) (reqs : list A * option exn)
  : list http_request * list B * stream_end :=
  match k with
  | MUnary => single_end (execute_unary c ck net (Some md_new) m u timeout get a None)
  | MClientStream => single_end (execute_client_stream c ck net (Some md_new) m u timeout reqs None)
  | MServerStream => let s := execute_server_stream c ck net (Some md_new) m u timeout a None in (sr_sent s, sr_msgs s, sr_end s)
  | MBidi => let s := execute_bidi_stream c ck net (Some md_new) m u timeout reqs None in (sr_sent s, sr_msgs s, sr_end s)
  end.
(** Client and application fit together, for each kind of call, and the requests can be sent. *)
Definition buffered (k : mkind) (p : proto) : bool := match k, p with MUnary, PConnect => true | _, _ => false end.
Definition rpc_works {A B} (w : bool) inflate (kind : mkind) (c : client A B) (ap : app A B) (m : method_info) (ep : endpoint A B) (k : codec A B)
    ck u hist timeout get (a : A) (reqs : list A * option exn) : Prop :=
  if buffered kind (cl_proto c) then unary_connected w inflate c ap m ep k u hist timeout get /\ sendable_request c ap a
  else connected w c ap m ep k ck u hist timeout
       /\ request_fits c ap (match kind with MUnary | MServerStream => [a] | _ => fst reqs end).
Definition rpc_link {A B} (w : bool) inflate (kind : mkind) (p : proto) (ap : app A B) now address net (sent : list http_request) : Prop :=
  if buffered kind p then unary_link w inflate ap now address net sent else stream_link w ap now address net sent.

(** ** C63 *)

(** The description of the error fits the reader's limit and can be compressed. *)
Definition short_texts_pass {A B} (ap : app A B) (max : option N) : Prop := forall d, lenN d <= 100 -> sendable_bytes ap max d.

Lemma stub_end_text p : exists d, end_text pb_codec p (rs_t rs_new) (Some (EConnect Unimplemented (lit "Not implemented") [])) d /\ lenN d <= 100.
Proof.
  destruct p; cbn [end_text option_map].
  - eexists. split; [vm_compute; reflexivity|]. vm_compute. discriminate.
  - exists []. split; [reflexivity|]. vm_compute. discriminate.
  - eexists. split; [eexists; split; [vm_compute; reflexivity|vm_compute; reflexivity]|]. vm_compute. discriminate.
Qed.

Lemma stub_text : json_str_ok (lit "Not implemented") /\ scalar_text (lit "Not implemented").
Proof.
  assert (F : forallb (fun c => c <? 128) (lit "Not implemented") = true) by reflexivity.
  rewrite forallb_forall in F. split; [split; [|reflexivity]|]; apply Forall_forall; intros x Hx; apply F, N.ltb_lt in Hx.
  - lia.
  - split; [lia|]. unfold is_surrogate. lia.
Qed.

Lemma stub_sendable {A B} (ap : app A B) (k : codec A B) p max : ap_sc ap = pb_codec -> short_texts_pass ap max ->
  sendable ap k p max [] rs_new (Some not_implemented).
Proof.
  intros Hsc Hs. destruct (stub_end_text p) as (d&E&L). split; [constructor|]. split; [constructor|]. split; [|split].
  - split; [|intros _ _ n _; reflexivity]. destruct p; repeat constructor.
  - exists d. rewrite Hsc. split; [exact E|]. now apply Hs.
  - destruct stub_text. destruct p; (split; [assumption|constructor]).
Qed.

(** A generated service that does not define an RPC, behind either server, and a generated client of any protocol: the call
    gives no message and ends with UNIMPLEMENTED and the text of the generated method; whatever the client sends, reads or
    waits for. *)
Theorem C63_unimplemented {A B} (w : bool) inflate esc s (svc : pystr -> callable A B) m (c : client A B) (ap : app A B) k ck net u hist timeout get a reqs now :
  well_named esc s -> In m (sd_methods s) -> ap_endpoints ap = gen_endpoints esc s svc -> svc (local_name esc m) = gen_stub ->
  let (kind, mi) := (md_kind m, rpc_info s m) in
  client_calls (gen_client esc s) (local_name esc m) = Some (kind, mi, supports_get m)
  /\ (rpc_works w inflate kind c ap mi (rpc_endpoint s m gen_stub) k ck u hist timeout get a reqs -> short_texts_pass ap (cl_max c) ->
      let '(sent, msgs, e) := rpc_call kind c ck net mi u timeout get a reqs in
      rpc_link w inflate kind (cl_proto c) ap now (cl_address c) net sent ->
      List.length sent = 1%nat /\ msgs = [] /\ e = CErr (EConnect Unimplemented (lit "Not implemented") [])).
Proof.
  intros Hw Hi Ha Hv. split; [now destruct (C52_generated esc s svc m Hw Hi)|].
  intros Hk Hs. assert (Hsc : ap_sc ap = pb_codec).
  { unfold rpc_works in Hk. destruct (buffered _ _).
    - destruct Hk as [(_&(_&_&_&_&_&_&_&_&_&_&_&_&X)&_) _]. exact X.
    - destruct Hk as [((_&_&_&_&_&_&_&_&_&_&_&_&X)&_) _]. exact X. }
  assert (S : forall p, sendable ap k p (cl_max c) [] rs_new (Some not_implemented)) by (intro p; now apply stub_sendable).
  assert (E : forall x', same_error (EConnect Unimplemented (lit "Not implemented") []) x' -> x' = EConnect Unimplemented (lit "Not implemented") []).
  { intros x' (ds&->&F). inversion F. reflexivity. }
  assert (G : forall (o : call_result B) (L : list http_request -> Prop), (L (cr_sent o) -> List.length (cr_sent o) = 1%nat /\ exists x', cr_out o = CErr x' /\ same_error (EConnect Unimplemented (lit "Not implemented") []) x') ->
     let '(sent, msgs, e) := single_end o in L sent -> List.length sent = 1%nat /\ msgs = [] /\ e = CErr (EConnect Unimplemented (lit "Not implemented") [])).
  { intros o L H. unfold single_end. destruct (cr_out o) as [b|x|f]; intro HL; destruct (H HL) as [G1 (x'&G2&G3)]; try discriminate G2.
    injection G2 as ->. rewrite (E _ G3). auto. }
  unfold rpc_call, rpc_link, rpc_works in *. unfold rpc_endpoint in Hk.
  destruct (md_kind m) eqn:Ek; [|cbn [buffered] in *..].
  - destruct (buffered MUnary (cl_proto c)) eqn:Eb; destruct Hk as [Hc Hr].
    + apply (G _ (unary_link w inflate ap now (cl_address c) net)). intro L. destruct (C33_unary_call w inflate c ap _ _ _ k ck net u hist timeout get a now Hc Hr L) as (rq&cx&H1&_&_&H3).
      rewrite H1. split; [reflexivity|].
      destruct (H3 [] rs_new (Some not_implemented)) as [_ [X _]]; [repeat split| |exact X].
      split; [split; [|reflexivity]|]; [exact (proj2 (proj2 (proj2 (proj2 (S PConnect)))))|repeat constructor].
    + assert (P : cl_proto c <> PConnect) by (destruct (cl_proto c); [discriminate Eb| |]; discriminate).
      apply (G _ (stream_link w ap now (cl_address c) net)). intro L.
      destruct (C33_unary_grpc_call w c ap _ _ _ k ck net u hist timeout get a now P Hc L Hr) as (rq&cx&H1&_&H3).
      rewrite H1. split; [reflexivity|]. destruct (H3 [] rs_new (Some not_implemented)) as [_ [X _]]; [repeat split|apply S|exact X].
  - destruct Hk as [Hc Hr]. apply (G _ (stream_link w ap now (cl_address c) net)). intro L.
    destruct (C33_client_stream_call w c ap _ _ _ k ck net u hist timeout reqs now Hc L Hr) as (rq&cx&H1&_&H3).
    rewrite H1. split; [reflexivity|]. destruct (H3 [InvStream] [] rs_new (Some not_implemented)) as [_ [X _]]; [repeat split|apply S|exact X].
  - destruct Hk as [Hc Hr]. cbv zeta. intro L.
    destruct (C33_stream_call w c ap _ _ k ck net u hist timeout ([a], None) now Hc (fun _ => eq_refl) L Hr) as (rq&cx&H1&_&H3).
    split; [exact (f_equal (@List.length _) H1)|].
    destruct (H3 [InvMsg a] [] rs_new (Some not_implemented)) as [_ (X1&(x'&X2&X3)&_)]; [exists a; repeat split; constructor|apply S|].
    rewrite (E _ X3) in X2. split; [exact X1|exact X2].
  - destruct Hk as [Hc Hr]. cbv zeta. intro L.
    destruct (C33_stream_call w c ap _ _ k ck net u hist timeout reqs now Hc (fun _ => eq_refl) L Hr) as (rq&cx&H1&_&H3).
    split; [exact (f_equal (@List.length _) H1)|].
    destruct (H3 [InvStream] [] rs_new (Some not_implemented)) as [_ (X1&(x'&X2&X3)&_)]; [repeat split; constructor|apply S|].
    rewrite (E _ X3) in X2. split; [exact X1|exact X2].
Qed.
Print Assumptions C63_unimplemented.

(** A service with one RPC of each kind in turn, behind both servers, called over each protocol. *)
Definition stub_service (k : mkind) : sdesc := mk_sdesc (lit "pkg.Svc") [mk_mdesc (lit "Get") k NoSideEffects].
Definition stub_app (k : mkind) : app pystr pystr :=
  link_app (rpc_endpoint (stub_service k) (mk_mdesc (lit "Get") k NoSideEffects) gen_stub).
Example C63_example_hypotheses w p :
  let s := stub_service MBidi in let m := mk_mdesc (lit "Get") MBidi NoSideEffects in
  well_named (fun x => x) s /\ In m (sd_methods s) /\ ap_endpoints (stub_app MBidi) = gen_endpoints (fun x => x) s (fun _ => gen_stub)
  /\ rpc_works w (fun _ _ => None) MBidi (link_client p) (stub_app MBidi) (rpc_info s m) (rpc_endpoint s m gen_stub) ex_codec ex_clocks link_headers
       [Add (lit "X-A") (lit "1")] None false (lit "a") ([lit "a"], None)
  /\ short_texts_pass (stub_app MBidi) (cl_max (link_client p))
  /\ rpc_link w (fun _ _ => None) MBidi p (stub_app MBidi) 0%Z (lit "http://h") (link_net w (stub_app MBidi))
       (fst (fst (rpc_call MBidi (link_client p) ex_clocks (link_net w (stub_app MBidi)) (rpc_info s m) link_headers None false (lit "a") ([lit "a"], None)))).
Proof.
  cbv zeta. split; [|split; [now left|split; [reflexivity|split; [|split]]]].
  - split; [|split]; cbn; try (constructor; [intros []|constructor]). intros m [<-|[]]. vm_compute. intuition discriminate.
  - split; [apply link_connected|]. intros a d [<-|[]] E. injection E as <-. vm_compute. discriminate.
  - intros d L. apply link_bytes. lia.
  - apply (link_stream w p (rpc_endpoint (stub_service MBidi) (mk_mdesc (lit "Get") MBidi NoSideEffects) gen_stub) [lit "a"]). reflexivity.
Qed.
Example C63_example : forallb (fun k => forallb (fun p => forallb (fun w =>
  match rpc_call k (link_client p) ex_clocks (link_net w (stub_app k)) ex_method link_headers None false (lit "a") ([lit "a"], None) with
  | ([_], [], CErr (EConnect Unimplemented msg [])) => str_eqb msg (lit "Not implemented")
  | _ => false
  end) [false; true]) [PConnect; PGrpc; PGrpcWeb]) [MUnary; MClientStream; MServerStream; MBidi] = true.
Proof. vm_compute. reflexivity. Qed.
