(** Calls from a client through HTTP to an ASGI or WSGI application and back: C11, C12, C13, C17, C24, C33. *)
From Coq Require Import List NArith ZArith Bool String Lia ZifyBool ZifyNat ZifyN.
From Verif Require Import MBase MPyStr MHeaders SHeaders LHeaders LBase MUtf8 MJson SJson MWire MEnvelope MStatusPb MTimeout MProtocol SProtocol
  MClient LProtocol PProtocol SClient MServer MAsgi MWsgi SServer PResponse SLink LLink LLink2 LNet.
Import ListNotations.
Local Open Scope N_scope.

(** ** All of a call *)

(** Streaming calls ([execute_server_stream] is [execute_bidi_stream] with one message) of each protocol, for methods of each
    kind of stream behind an ASGI ([w = false]) or WSGI application.  The request arrives, the method runs with the caller's
    messages, header lines and deadline, and whatever it does and however it ends, the caller gets the same messages and the
    same end, and finds the header lines and trailers in the response metadata. *)
Theorem C33_stream_call {A B} (w : bool) (c : client A B) (ap : app A B) m ep k ck net u hist timeout reqs now :
  connected w c ap m ep k ck u hist timeout -> (cl_proto c = PConnect -> is_unary ep = false) ->
  let call := execute_bidi_stream c ck net (Some md_new) m u timeout reqs None in
  stream_link w ap now (cl_address c) net (sr_sent call) -> request_fits c ap (fst reqs) ->
  exists rq cx, sr_sent call = [rq]
    /\ context_of (cl_proto c) true hist (effective_timeout timeout (cl_timeout c)) (ep_method ep) cx
    /\ forall inv steps rs e, method_does ep cx (fst reqs, None) inv steps rs e ->
         sendable ap k (cl_proto c) (cl_max c) steps rs e ->
         ran w ap now (cl_address c) rq inv /\ seen_stream (cl_proto c) steps rs e call.
Proof. intros H S call L R. apply (stream_through w c ap m ep k ck net u hist timeout true reqs now); auto. Qed.
Print Assumptions C33_stream_call.

(** Client streaming calls: one answer. *)
Theorem C33_client_stream_call {A B} (w : bool) (c : client A B) (ap : app A B) m mi f k ck net u hist timeout reqs now :
  let ep := EpClientStream mi f in
  connected w c ap m ep k ck u hist timeout ->
  let call := execute_client_stream c ck net (Some md_new) m u timeout reqs None in
  stream_link w ap now (cl_address c) net (cr_sent call) -> request_fits c ap (fst reqs) ->
  exists rq cx, cr_sent call = [rq]
    /\ context_of (cl_proto c) true hist (effective_timeout timeout (cl_timeout c)) mi cx
    /\ forall inv steps rs e, method_does ep cx (fst reqs, None) inv steps rs e ->
         sendable ap k (cl_proto c) (cl_max c) steps rs e ->
         ran w ap now (cl_address c) rq inv /\ seen_single (cl_proto c) steps rs e call.
Proof.
  intros ep H call L R. unfold call, execute_client_stream in L |- *. cbn [single_result cr_sent] in L |- *. rewrite send_stream_sent_rq in L |- *.
  rewrite <- (send_stream_sent_rq c (call_ctx c (ck_start ck) m u timeout true false) ck net (Some md_new) reqs None) in L |- *.
  destruct (stream_through w c ap m ep k ck net u hist timeout true reqs now H ltac:(auto) L R) as (rq&cx&H1&H2&H3).
  exists rq, cx. split; [exact H1|]. split; [exact H2|]. intros inv steps rs e Md S. destruct (H3 _ _ _ _ Md S) as [G1 G2].
  split; [exact G1|]. apply through_single; auto.
  - exact (method_single ep _ _ _ _ _ _ I Md).
  - exact (not_cancelled _ _ _ _ _ _ _ S).
Qed.
Print Assumptions C33_client_stream_call.

(** Unary calls over gRPC and gRPC-Web. *)
Theorem C33_unary_grpc_call {A B} (w : bool) (c : client A B) (ap : app A B) m mi f k ck net u hist timeout get a now :
  let ep := EpUnary mi f in
  cl_proto c <> PConnect -> connected w c ap m ep k ck u hist timeout ->
  let call := execute_unary c ck net (Some md_new) m u timeout get a None in
  stream_link w ap now (cl_address c) net (cr_sent call) -> request_fits c ap [a] ->
  exists rq cx, cr_sent call = [rq]
    /\ context_of (cl_proto c) false hist (effective_timeout timeout (cl_timeout c)) mi cx
    /\ forall steps rs e, returns (f a cx) ([], None) steps rs e ->
         sendable ap k (cl_proto c) (cl_max c) steps rs e ->
         ran w ap now (cl_address c) rq [InvMsg a] /\ seen_single (cl_proto c) steps rs e call.
Proof.
  intros ep P H call L R. unfold call in *. rewrite (unary_stream_get _ _ _ _ _ _ _ _ _ _ P) in *.
  cbn [single_result cr_sent] in L |- *. rewrite send_stream_sent_rq in L |- *.
  rewrite <- (send_stream_sent_rq c (call_ctx c (ck_start ck) m u timeout false false) ck net (Some md_new) ([a], None) None) in L |- *.
  destruct (stream_through w c ap m ep k ck net u hist timeout false ([a], None) now H ltac:(congruence) L R) as (rq&cx&H1&H2&H3).
  exists rq, cx. split; [exact H1|]. split; [exact H2|]. intros steps rs e Md S.
  assert (Md' : method_does ep cx (fst ([a], @None exn), None) [InvMsg a] steps rs e) by (exists a; auto).
  destruct (H3 _ _ _ _ Md' S) as [G1 G2].
  split; [exact G1|]. apply through_single; auto.
  - exact (method_single ep _ _ _ _ _ _ I Md').
  - exact (not_cancelled _ _ _ _ _ _ _ S).
Qed.
Print Assumptions C33_unary_grpc_call.

(** ** Examples: a perfect network in front of an application *)

(** A client with codec "proto" and the fake compression "rev". *)
Definition link_client (p : proto) : client pystr pystr :=
  client_new true (lit "http://h") p ex_codec [PEnvelope.ex_comp] (Some PEnvelope.ex_comp) None (Some 1000) (lit "ua/1") pb_codec.
Definition link_app (ep : endpoint pystr pystr) : app pystr pystr :=
  app_new (lit "/pkg.Svc") [(lit "/pkg.Svc/Get", ep)] (Some 10) [PEnvelope.ex_comp] [ex_codec] pb_codec.
Definition link_headers : uheaders := UHeaders (h_run h_empty [Add (lit "X-A") (lit "1")]).
Definition link_net (w : bool) (ap : app pystr pystr) : network :=
  let inflate n b := if str_eqb n (lit "rev") then match z_decompress PEnvelope.ex_comp b with Ok d => Some d | Raise _ => None end else None in
  if w then wsgi_net inflate ap 0%Z (lit "http://h") else asgi_net inflate ap 0%Z (lit "http://h").
(** The method answers each message with itself, sets a header line and a trailer, and ends with [i]. *)
Definition link_echo (i : option interrupt) : endpoint pystr pystr :=
  EpBidi ex_method (fun _ => Hdr (Add (lit "x-h") (lit "1")) (Pull (fun r =>
    Yield (match r with PMsg a => a | _ => lit "none" end) quiet
      (Trl (Add (lit "x-t") (lit "2")) (Trl (Add (lit "X-T") (lit "3")) (match i with None => Ret tt | Some i => Fail i end)))))).

Lemma link_comps x z : dget (resolve_compressions [PEnvelope.ex_comp]) x = Some z -> z = PEnvelope.ex_comp \/ z = identity_comp.
Proof.
  unfold resolve_compressions. cbn [fold_left]. rewrite !dget_dset. destruct (str_eqb _ x); [intro H; injection H; auto|].
  destruct (str_eqb _ x); [intro H; injection H; auto|]. discriminate.
Qed.
Lemma link_undoes x zs zc : dget (resolve_compressions [PEnvelope.ex_comp]) x = Some zs ->
  dget (resolve_compressions [PEnvelope.ex_comp]) x = Some zc -> undoes zc zs.
Proof.
  intros H1 H2. assert (zc = zs) by congruence. subst. destruct (link_comps _ _ H1) as [-> | ->]; intros d y H.
  - cbn in *. split; [reflexivity|]. injection H as <-. now rewrite rev_involutive.
  - cbn in *. congruence.
Qed.
Lemma link_fits p ep : fits (link_client p) (link_app ep) ex_method ep ex_codec.
Proof.
  split; [reflexivity|]. split; [vm_compute; intuition discriminate|]. split; [vm_compute; intuition discriminate|].
  split; [reflexivity|]. split; [reflexivity|]. split; [reflexivity|].
  split; [intros a d H; exact (f_equal Ok (eq_sym (ok_inj _ _ H)))|]. split; [intros a d H; exact (f_equal Ok (eq_sym (ok_inj _ _ H)))|].
  split.
  { exists [PEnvelope.ex_comp], [PEnvelope.ex_comp]. split; [reflexivity|]. split; [reflexivity|]. constructor; [|constructor].
    split; [|repeat constructor]. repeat split; try discriminate. vm_compute. intuition discriminate. }
  split; [exists PEnvelope.ex_comp; split; [reflexivity|]; apply (link_undoes (lit "rev")); reflexivity|].
  split; [apply link_undoes|]. split; reflexivity.
Qed.
Lemma link_connected w p ep : connected w (link_client p) (link_app ep) ex_method ep ex_codec ex_clocks link_headers
  [Add (lit "X-A") (lit "1")] None.
Proof.
  split; [apply link_fits|]. split; [constructor|]. split.
  { intros _. split; [|split].
    - intro k. unfold values_of. cbn [fold_left values_step]. destruct (same_name _ _); cbn; lia.
    - intros k H. unfold values_of. cbn [fold_left values_step]. destruct (same_name _ _) eqn:E; [|reflexivity]. exfalso.
      first [apply (in95_same _ _ E) in H | rewrite same_name_sym in E; apply (in95_same _ _ E) in H]. vm_compute in H. intuition discriminate.
    - reflexivity. }
  split; [destruct p; vm_compute; intuition discriminate|]. intros _. reflexivity.
Qed.
Definition link_call (w : bool) (p : proto) (ep : endpoint pystr pystr) (reqs : list pystr) : stream_result pystr :=
  execute_bidi_stream (link_client p) ex_clocks (link_net w (link_app ep)) (Some md_new) ex_method link_headers None (reqs, None) None.
Lemma link_stream w p ep reqs : snd (request_content (link_client p) reqs None) = None ->
  stream_link w (link_app ep) 0%Z (lit "http://h") (link_net w (link_app ep)) (sr_sent (link_call w p ep reqs)).
Proof.
  intro H. unfold link_call, execute_bidi_stream. rewrite send_stream_sent_rq. destruct w; cbn [stream_link link_net].
  - apply wsgi_net_stream. intros rq [<-|[]]. split; [eexists; reflexivity|]. split; [vm_compute; discriminate|]. split; [|exact H].
    split; destruct p; vm_compute; repeat constructor; cbn; intuition discriminate.
  - apply asgi_net_stream. intros rq [<-|[]]. split; [eexists; reflexivity|]. split; [|exact H]. destruct p; vm_compute; repeat constructor.
Qed.

Definition link_state (t : bool) : rstate :=
  mk_rs (h_add h_empty (lit "x-h") (lit "1"))
    (if t then h_add (h_add h_empty (lit "x-t") (lit "2")) (lit "x-t") (lit "3") else h_empty).
Lemma link_echo_does i cx : method_does (link_echo i) cx ([lit "a"], None) [InvStream] [(link_state false, lit "a")] (link_state true) i.
Proof. split; [reflexivity|]. repeat constructor. destruct i; constructor. Qed.
Definition link_error : exn := EConnect NotFound (lit "gone " ++ [233; 10; 34]) [mk_detail (mk_any (lit "type.googleapis.com/a.B") [1; 2; 255]) None].
Lemma link_bytes ep d : lenN d <= 1000 -> sendable_bytes (link_app ep) (Some 1000) d.
Proof.
  intro L. split; [cbn; lia|]. intros x z H. destruct (link_comps x z H) as [-> | ->].
  - exists (170 :: rev d). split; [reflexivity|]. unfold lenN in *. cbn [List.length]. rewrite rev_length. lia.
  - exists d. split; [reflexivity|]. lia.
Qed.

Definition link_cause (e : option exn) : Prop := In e [None; Some link_error; Some ex_bug].
Lemma link_sendable p e ep : link_cause e ->
  sendable (link_app ep) ex_codec p (Some 1000) [(link_state false, lit "a")] (link_state true) (option_map IExn e).
Proof.
  intro H. split; [|split; [|split; [|split]]].
  - constructor; [|constructor]. exists (lit "a"). split; [reflexivity|]. apply link_bytes. cbn. lia.
  - repeat constructor.
  - split.
    + change (h_allitems (rs_t (link_state true))) with [(lit "x-t", lit "2"); (lit "x-t", lit "3")].
      assert (L : legal_name (lit "x-t")) by (split; [repeat (constructor; [cbn; lia|]); constructor|reflexivity]).
      assert (L2 : legal_value (lit "2")) by (split; [repeat (constructor; [cbn; lia|]); constructor|reflexivity]).
      assert (L3 : legal_value (lit "3")) by (split; [repeat (constructor; [cbn; lia|]); constructor|reflexivity]).
      assert (J : forall s, Forall (fun c => c < 128) s -> no_pair s = true -> json_str_ok s).
      { intros t F E. split; [|exact E]. eapply Forall_impl; [|exact F]. cbv beta. lia. }
      destruct p.
      * constructor; [|constructor; [|constructor]]; split; apply J; try reflexivity; repeat constructor.
      * split; [|repeat constructor]. constructor; [|constructor; [|constructor]]; split; assumption.
      * constructor; [|constructor; [|constructor]]; split; assumption.
    + intros _ _ k K. unfold grpc_error_name in K. apply orb_true_iff in K.
      destruct K as [K|K]; rewrite (getall_lower _ _ _ K); reflexivity.
  - destruct H as [<-|[<-|[<-|[]]]]; destruct p.
    all: match goal with
         | |- sendable_end _ PConnect _ _ _ => eexists; split; [vm_compute; reflexivity|apply link_bytes; vm_compute; discriminate]
         | |- sendable_end _ PGrpc _ _ _ => exists []; split; [reflexivity|apply link_bytes; vm_compute; discriminate]
         | |- sendable_end _ PGrpcWeb _ _ _ => eexists; split; [eexists; split; [vm_compute; reflexivity|vm_compute; reflexivity]|apply link_bytes; vm_compute; discriminate]
         end.
  - assert (J : forall s, Forall (fun c => c < 1000) s -> no_pair s = true -> json_str_ok s).
    { intros t F E. split; [|exact E]. eapply Forall_impl; [|exact F]. cbv beta. lia. }
    assert (K : forall s, Forall (fun c => c < 1000) s -> scalar_text s).
    { intros t F. eapply Forall_impl; [|exact F]. cbv beta. unfold is_scalar. intros. split; [lia|unfold is_surrogate; lia]. }
    destruct H as [<-|[<-|[<-|[]]]]; destruct p; try exact I; (split; [first [apply J; [repeat constructor|reflexivity]|apply K; repeat constructor]|]).
    + constructor; [|constructor]. split; [apply J; [repeat constructor|reflexivity]|]. split; [repeat constructor|exact I].
    + constructor; [|constructor]. split; [apply K; repeat constructor|repeat constructor].
    + constructor; [|constructor]. split; [apply K; repeat constructor|repeat constructor].
    + constructor.
    + constructor.
    + constructor.
Qed.

(** The hypotheses of [C33_stream_call] hold for this call, over each protocol and both servers, also when the method fails. *)
Example C33_stream_call_example : forall w p e, link_cause e ->
  let ep := link_echo (option_map IExn e) in
  connected w (link_client p) (link_app ep) ex_method ep ex_codec ex_clocks link_headers [Add (lit "X-A") (lit "1")] None
  /\ stream_link w (link_app ep) 0%Z (lit "http://h") (link_net w (link_app ep)) (sr_sent (link_call w p ep [lit "a"]))
  /\ request_fits (link_client p) (link_app ep) [lit "a"]
  /\ (forall cx, method_does ep cx ([lit "a"], None) [InvStream] [(link_state false, lit "a")] (link_state true) (option_map IExn e))
  /\ sendable (link_app ep) ex_codec p (Some 1000) [(link_state false, lit "a")] (link_state true) (option_map IExn e).
Proof.
  intros w p e H ep. split; [apply link_connected|]. split; [apply link_stream; destruct p; reflexivity|]. split.
  - intros a d [<-|[]] E. apply ok_inj in E. subst d. cbn. lia.
  - split; [intro cx; apply link_echo_does|]. now apply link_sendable.
Qed.
(** What the caller gets. *)
Example C33_stream_call_result : 
  map (fun wp => sr_msgs (link_call (fst wp) (snd wp) (link_echo (Some (IExn link_error))) [lit "a"]))
    [(false, PConnect); (false, PGrpc); (true, PGrpcWeb)] = [[lit "a"]; [lit "a"]; [lit "a"]].
Proof. vm_compute. reflexivity. Qed.

(** ** C11, C12, C13: errors *)

(** A ConnectError that ends a Connect stream after any messages: the caller gets the messages, then the same error, and the
    trailers.  Missing: errors whose end-of-stream message exceeds read_max_bytes of the client, see [C11_limit_refuted]. *)
Theorem C11_stream_error_partial {A B} (w : bool) (c : client A B) (ap : app A B) m ep k ck net u hist timeout reqs now :
  cl_proto c = PConnect -> connected w c ap m ep k ck u hist timeout -> is_unary ep = false ->
  let call := execute_bidi_stream c ck net (Some md_new) m u timeout reqs None in
  stream_link w ap now (cl_address c) net (sr_sent call) -> request_fits c ap (fst reqs) ->
  exists cx, context_of PConnect true hist (effective_timeout timeout (cl_timeout c)) (ep_method ep) cx
    /\ forall inv steps rs code msg ds,
         method_does ep cx (fst reqs, None) inv steps rs (Some (IExn (EConnect code msg ds))) ->
         sendable ap k PConnect (cl_max c) steps rs (Some (IExn (EConnect code msg ds))) ->
         sr_msgs call = map snd steps
         /\ (exists ds', sr_end call = CErr (EConnect code msg ds') /\ Forall2 same_detail ds ds')
         /\ exists md, sr_md call = Some md /\ trailers_seen PConnect (rs_h (head_state steps rs)) (rs_t rs) md.
Proof.
  intros P H U call L R. destruct (C33_stream_call w c ap m ep k ck net u hist timeout reqs now H (fun _ => U) L R) as (rq&cx&_&H2&H3).
  rewrite P in *. exists cx. split; [exact H2|]. intros inv steps rs code msg ds Md S.
  destruct (H3 _ _ _ _ Md S) as [_ (S1&(x'&S2&ds'&->&F)&md&M1&_&M2)]. split; [exact S1|]. split; [eauto|]. exists md. auto.
Qed.
Print Assumptions C11_stream_error_partial.

(** The same for gRPC (C12) and gRPC-Web (C13): streaming calls.  Missing for gRPC-Web: [C13_limit_refuted]. *)
Theorem C12_stream_error {A B} (w : bool) (c : client A B) (ap : app A B) m ep k ck net u hist timeout reqs now :
  cl_proto c = PGrpc -> connected w c ap m ep k ck u hist timeout ->
  let call := execute_bidi_stream c ck net (Some md_new) m u timeout reqs None in
  stream_link w ap now (cl_address c) net (sr_sent call) -> request_fits c ap (fst reqs) ->
  exists cx, context_of PGrpc true hist (effective_timeout timeout (cl_timeout c)) (ep_method ep) cx
    /\ forall inv steps rs code msg ds,
         method_does ep cx (fst reqs, None) inv steps rs (Some (IExn (EConnect code msg ds))) ->
         sendable ap k PGrpc (cl_max c) steps rs (Some (IExn (EConnect code msg ds))) ->
         sr_msgs call = map snd steps
         /\ exists ds', sr_end call = CErr (EConnect code msg ds') /\ Forall2 same_detail ds ds'.
Proof.
  intros P H call L R. destruct (C33_stream_call w c ap m ep k ck net u hist timeout reqs now H ltac:(congruence) L R) as (rq&cx&_&H2&H3).
  rewrite P in *. exists cx. split; [exact H2|]. intros inv steps rs code msg ds Md S.
  destruct (H3 _ _ _ _ Md S) as [_ (S1&(x'&S2&ds'&->&F)&_)]. split; [exact S1|]. eauto.
Qed.
Print Assumptions C12_stream_error.
Theorem C13_stream_error_partial {A B} (w : bool) (c : client A B) (ap : app A B) m ep k ck net u hist timeout reqs now :
  cl_proto c = PGrpcWeb -> connected w c ap m ep k ck u hist timeout ->
  let call := execute_bidi_stream c ck net (Some md_new) m u timeout reqs None in
  stream_link w ap now (cl_address c) net (sr_sent call) -> request_fits c ap (fst reqs) ->
  exists cx, context_of PGrpcWeb true hist (effective_timeout timeout (cl_timeout c)) (ep_method ep) cx
    /\ forall inv steps rs code msg ds,
         method_does ep cx (fst reqs, None) inv steps rs (Some (IExn (EConnect code msg ds))) ->
         sendable ap k PGrpcWeb (cl_max c) steps rs (Some (IExn (EConnect code msg ds))) ->
         sr_msgs call = map snd steps
         /\ (exists ds', sr_end call = CErr (EConnect code msg ds') /\ Forall2 same_detail ds ds')
         /\ exists md, sr_md call = Some md /\ trailers_seen PGrpcWeb (rs_h (head_state steps rs)) (rs_t rs) md.
Proof.
  intros P H call L R. destruct (C33_stream_call w c ap m ep k ck net u hist timeout reqs now H ltac:(congruence) L R) as (rq&cx&_&H2&H3).
  rewrite P in *. exists cx. split; [exact H2|]. intros inv steps rs code msg ds Md S.
  destruct (H3 _ _ _ _ Md S) as [_ (S1&(x'&S2&ds'&->&F)&md&M1&_&M2)]. split; [exact S1|]. split; [eauto|]. exists md. auto.
Qed.
Print Assumptions C13_stream_error_partial.

(** Unary calls over both. *)
Theorem C12_unary_error {A B} (w : bool) (c : client A B) (ap : app A B) m mi f k ck net u hist timeout get a now :
  cl_proto c = PGrpc \/ cl_proto c = PGrpcWeb -> connected w c ap m (EpUnary mi f) k ck u hist timeout ->
  let call := execute_unary c ck net (Some md_new) m u timeout get a None in
  stream_link w ap now (cl_address c) net (cr_sent call) -> request_fits c ap [a] ->
  exists cx, context_of (cl_proto c) false hist (effective_timeout timeout (cl_timeout c)) mi cx
    /\ forall rs code msg ds,
         run_fn (f a cx) ([], None) rs_new = (FInt (IExn (EConnect code msg ds)), rs) ->
         sendable ap k (cl_proto c) (cl_max c) [] rs (Some (IExn (EConnect code msg ds))) ->
         exists ds', cr_out call = CErr (EConnect code msg ds') /\ Forall2 same_detail ds ds'.
Proof.
  intros P H call L R.
  destruct (C33_unary_grpc_call w c ap m mi f k ck net u hist timeout get a now ltac:(destruct P; congruence) H L R) as (rq&cx&_&H2&H3).
  exists cx. split; [exact H2|]. intros rs code msg ds Md S.
  destruct (H3 [] rs (Some (IExn (EConnect code msg ds)))) as [_ ((x'&S2&ds'&->&F)&_)]; auto; [|eauto].
  unfold returns. rewrite Md. auto.
Qed.
Print Assumptions C12_unary_error.

(** Concrete calls: the error of the method, with a detail and a message with a quote, a line feed and a non-ASCII letter. *)
Definition link_ends (w : bool) (p : proto) (e : exn) : stream_end := sr_end (link_call w p (link_echo (Some (IExn e))) [lit "a"]).
Example C11_example : forallb (fun w =>
  match link_ends w PConnect link_error with
  | CErr (EConnect NotFound msg [d]) => str_eqb msg (lit "gone " ++ [233; 10; 34]) && str_eqb (message_bytes d) [1; 2; 255]
  | _ => false
  end) [false; true] = true.
Proof. vm_compute. reflexivity. Qed.
Example C12_example : forallb (fun p => forallb (fun w =>
  match link_ends w p link_error with
  | CErr (EConnect NotFound msg [d]) => str_eqb msg (lit "gone " ++ [233; 10; 34]) && str_eqb (message_bytes d) [1; 2; 255]
  | _ => false
  end) [false; true]) [PGrpc; PGrpcWeb] = true.
Proof. vm_compute. reflexivity. Qed.

(** Trailers under the names of the gRPC error description are not excluded by the library: one set by the method replaces
    the description of its error (here the caller sees other details' code and message). *)
Definition link_fake : pystr := match grpc_trailers pb_codec h_empty (Some (we_from_exception link_error)) with
                                | Ok t => h_get_default t (lit "grpc-status-details-bin") []
                                | Raise _ => []
                                end.
Definition link_shadow : endpoint pystr pystr :=
  EpUnary ex_method (fun _ _ => Trl (Add (lit "grpc-status-details-bin") link_fake) (Fail (IExn (EConnect Aborted (lit "x") [])))).
Theorem C12_reserved_trailers_refuted : exists (c : client pystr pystr) ap ep net a,
  cl_proto c = PGrpc /\ connected false c ap ex_method ep ex_codec ex_clocks UNone [] None
  /\ (exists f, ep = EpUnary ex_method f /\ forall cx, exists rs, run_fn (f a cx) ([], None) rs_new = (FInt (IExn (EConnect Aborted (lit "x") [])), rs))
  /\ let call := execute_unary c ex_clocks net (Some md_new) ex_method UNone None false a None in
     stream_link false ap 0%Z (cl_address c) net (cr_sent call)
     /\ exists msg ds, cr_out call = CErr (EConnect NotFound msg ds).
Proof.
  exists (link_client PGrpc), (link_app link_shadow), link_shadow, (link_net false (link_app link_shadow)), (lit "a").
  split; [reflexivity|]. split.
  { split; [apply link_fits|]. split; [constructor|]. split; [discriminate|]. split; [reflexivity|]. intro; reflexivity. }
  split; [eexists; split; [reflexivity|]; intro cx; eexists; reflexivity|]. cbv zeta. split.
  - rewrite unary_stream_get by discriminate. unfold single_result. cbn [cr_sent]. rewrite send_stream_sent_rq. cbn [stream_link link_net].
    apply asgi_net_stream. intros rq [<-|[]]. split; [eexists; reflexivity|]. split; [vm_compute; repeat constructor|reflexivity].
  - eexists _, _. vm_compute. reflexivity.
Qed.
Print Assumptions C12_reserved_trailers_refuted.

(** ** C17: other exceptions.  Missing: those whose end-of-stream message exceeds read_max_bytes, see [C17_limit_refuted]. *)
Theorem C17_stream_exception_partial {A B} (w : bool) (c : client A B) (ap : app A B) m ep k ck net u hist timeout reqs now :
  connected w c ap m ep k ck u hist timeout -> (cl_proto c = PConnect -> is_unary ep = false) ->
  let call := execute_bidi_stream c ck net (Some md_new) m u timeout reqs None in
  stream_link w ap now (cl_address c) net (sr_sent call) -> request_fits c ap (fst reqs) ->
  exists cx, context_of (cl_proto c) true hist (effective_timeout timeout (cl_timeout c)) (ep_method ep) cx
    /\ forall inv steps rs x, is_connect x = false ->
         method_does ep cx (fst reqs, None) inv steps rs (Some (IExn x)) ->
         sendable ap k (cl_proto c) (cl_max c) steps rs (Some (IExn x)) ->
         sr_msgs call = map snd steps /\ sr_end call = CErr (EConnect Unknown (str_of_exn x) []).
Proof.
  intros H U call L R. destruct (C33_stream_call w c ap m ep k ck net u hist timeout reqs now H U L R) as (rq&cx&_&H2&H3).
  exists cx. split; [exact H2|]. intros inv steps rs x X Md S.
  destruct (H3 _ _ _ _ Md S) as [_ (S1&(x'&S2&Sx)&_)]. split; [exact S1|]. refine (eq_trans S2 _). destruct x; [discriminate|now rewrite Sx|now rewrite Sx].
Qed.
Print Assumptions C17_stream_exception_partial.
Theorem C17_unary_grpc_exception_partial {A B} (w : bool) (c : client A B) (ap : app A B) m mi f k ck net u hist timeout get a now :
  cl_proto c <> PConnect -> connected w c ap m (EpUnary mi f) k ck u hist timeout ->
  let call := execute_unary c ck net (Some md_new) m u timeout get a None in
  stream_link w ap now (cl_address c) net (cr_sent call) -> request_fits c ap [a] ->
  exists cx, context_of (cl_proto c) false hist (effective_timeout timeout (cl_timeout c)) mi cx
    /\ forall rs x, is_connect x = false ->
         run_fn (f a cx) ([], None) rs_new = (FInt (IExn x), rs) ->
         sendable ap k (cl_proto c) (cl_max c) [] rs (Some (IExn x)) ->
         cr_out call = CErr (EConnect Unknown (str_of_exn x) []).
Proof.
  intros P H call L R. destruct (C33_unary_grpc_call w c ap m mi f k ck net u hist timeout get a now P H L R) as (rq&cx&_&H2&H3).
  exists cx. split; [exact H2|]. intros rs x X Md S.
  destruct (H3 [] rs (Some (IExn x))) as [_ ((x'&S2&Sx)&_)]; auto.
  - unfold returns. rewrite Md. auto.
  - refine (eq_trans S2 _). destruct x; [discriminate|now rewrite Sx|now rewrite Sx].
Qed.
Print Assumptions C17_unary_grpc_exception_partial.
Example C17_example : map (fun wp => link_ends (fst wp) (snd wp) ex_bug) [(false, PConnect); (true, PConnect); (false, PGrpc); (true, PGrpcWeb)]
  = repeat (CErr (EConnect Unknown (lit "bug") [])) 4.
Proof. vm_compute. reflexivity. Qed.

(** ** C24: trailers of streaming calls *)

(** Every trailer name (except the status lines of gRPC themselves), with every value, in order; whether the method
    succeeded or failed.  Missing: end-of-stream messages larger than read_max_bytes of the client, see [C24_limit_refuted]. *)
Theorem C24_stream_trailers_partial {A B} (w : bool) (c : client A B) (ap : app A B) m ep k ck net u hist timeout reqs now :
  connected w c ap m ep k ck u hist timeout -> (cl_proto c = PConnect -> is_unary ep = false) ->
  let call := execute_bidi_stream c ck net (Some md_new) m u timeout reqs None in
  stream_link w ap now (cl_address c) net (sr_sent call) -> request_fits c ap (fst reqs) ->
  exists cx, context_of (cl_proto c) true hist (effective_timeout timeout (cl_timeout c)) (ep_method ep) cx
    /\ forall inv steps rs e, method_does ep cx (fst reqs, None) inv steps rs e ->
         sendable ap k (cl_proto c) (cl_max c) steps rs e ->
         exists md, sr_md call = Some md
           /\ forall name, reserved_trailer (cl_proto c) name = false -> h_getall (rs_h (head_state steps rs)) (trailer_mark ++ name) = [] ->
                h_getall (rm_trailers md) name = h_getall (rs_t rs) name.
Proof.
  intros H U call L R. destruct (C33_stream_call w c ap m ep k ck net u hist timeout reqs now H U L R) as (rq&cx&_&H2&H3).
  exists cx. split; [exact H2|]. intros inv steps rs e Md S.
  destruct (H3 _ _ _ _ Md S) as [_ (_&_&md&M1&_&M2)]. exists md. auto.
Qed.
Print Assumptions C24_stream_trailers_partial.
Example C24_example : forallb (fun p => forallb (fun w =>
  match sr_md (link_call w p (link_echo None) [lit "a"]) with
  | Some md => list_eqb str_eqb (h_getall (rm_trailers md) (lit "x-T")) [lit "2"; lit "3"]
               && list_eqb str_eqb (h_getall (rm_headers md) (lit "x-h")) [lit "1"]
               && list_eqb str_eqb (h_getall (rm_headers md) (lit "x-t")) []
  | None => false
  end) [false; true]) [PConnect; PGrpc; PGrpcWeb] = true.
Proof. vm_compute. reflexivity. Qed.

(** Full statement, refuted (finding): read_max_bytes of the client also limits the end-of-stream message.  Every message of the
    response fits, but the call of a method that succeeds fails, and its trailers are lost; over gRPC, where trailers are not part of
    the body, neither happens. *)
Definition narrow_client (p : proto) : client pystr pystr :=
  client_new true (lit "http://h") p ex_codec [PEnvelope.ex_comp] (Some PEnvelope.ex_comp) None (Some 20) (lit "ua/1") pb_codec.
Definition narrow_ends (w : bool) (p : proto) (i : option interrupt) : stream_result pystr :=
  execute_bidi_stream (narrow_client p) ex_clocks (link_net w (link_app (link_echo i))) (Some md_new) ex_method link_headers None ([lit "a"], None) None.
Definition narrow_call (w : bool) (p : proto) : stream_result pystr := narrow_ends w p None.
Theorem C24_limit_refuted : forall w p, In p [PConnect; PGrpcWeb] ->
  (exists m, sr_end (narrow_call w p) = CErr (EConnect ResourceExhausted m [])) /\ sr_msgs (narrow_call w p) = [lit "a"]
  /\ (exists md, sr_md (narrow_call w p) = Some md /\ h_getall (rm_trailers md) (lit "x-t") = [])
  /\ h_getall (rs_t (link_state true)) (lit "x-t") = [lit "2"; lit "3"]
  /\ sr_end (narrow_call w PGrpc) = COk tt.
Proof.
  intros w p Hp. destruct Hp as [<-|[<-|[]]], w; (split; [eexists; vm_compute; reflexivity|]; split; [vm_compute; reflexivity|];
    split; [eexists; split; vm_compute; reflexivity|]; split; [reflexivity|]; vm_compute; reflexivity).
Qed.
Print Assumptions C24_limit_refuted.

(** The same limit hides how a method failed (C11, C13, C17): the caller gets RESOURCE_EXHAUSTED without details instead of NOT_FOUND
    with its detail, or of UNKNOWN.  Over gRPC the error arrives. *)
Theorem C11_limit_refuted : forall w, exists m,
  sr_end (narrow_ends w PConnect (Some (IExn link_error))) = CErr (EConnect ResourceExhausted m [])
  /\ sr_msgs (narrow_ends w PConnect (Some (IExn link_error))) = [lit "a"]
  /\ (forall cx, method_does (link_echo (Some (IExn link_error))) cx ([lit "a"], None) [InvStream] [(link_state false, lit "a")] (link_state true)
                   (Some (IExn link_error)))
  /\ exists msg ds, link_error = EConnect NotFound msg ds.
Proof.
  intros []; eexists; (split; [vm_compute; reflexivity|]; split; [vm_compute; reflexivity|];
    split; [intro; apply link_echo_does|]; eexists _, _; reflexivity).
Qed.
Print Assumptions C11_limit_refuted.
Theorem C13_limit_refuted : forall w, exists m,
  sr_end (narrow_ends w PGrpcWeb (Some (IExn link_error))) = CErr (EConnect ResourceExhausted m [])
  /\ (forall cx, method_does (link_echo (Some (IExn link_error))) cx ([lit "a"], None) [InvStream] [(link_state false, lit "a")] (link_state true)
                   (Some (IExn link_error)))
  /\ exists msg ds, link_error = EConnect NotFound msg ds /\ sr_end (narrow_ends w PGrpc (Some (IExn link_error))) <> sr_end (narrow_ends w PGrpcWeb (Some (IExn link_error)))
     /\ exists ds', sr_end (narrow_ends w PGrpc (Some (IExn link_error))) = CErr (EConnect NotFound msg ds').
Proof.
  intros []; eexists; (split; [vm_compute; reflexivity|]; split; [intro; apply link_echo_does|];
    eexists _, _; split; [reflexivity|]; split; [vm_compute; discriminate|]; eexists; vm_compute; reflexivity).
Qed.
Print Assumptions C13_limit_refuted.
Theorem C17_limit_refuted : forall w p, In p [PConnect; PGrpcWeb] ->
  is_connect ex_bug = false
  /\ (forall cx, method_does (link_echo (Some (IExn ex_bug))) cx ([lit "a"], None) [InvStream] [(link_state false, lit "a")] (link_state true) (Some (IExn ex_bug)))
  /\ exists m, sr_end (narrow_ends w p (Some (IExn ex_bug))) = CErr (EConnect ResourceExhausted m []).
Proof.
  intros w p H. split; [reflexivity|]. split; [intro; apply link_echo_does|].
  destruct H as [<-|[<-|[]]], w; eexists; vm_compute; reflexivity.
Qed.
Print Assumptions C17_limit_refuted.
