(** Unary calls of the Connect protocol, by POST or GET, from a client through HTTP to an ASGI or WSGI application and back:
    C10, C17, C23, C33, C45. *)
From Coq Require Import List NArith ZArith Bool String Lia ZifyBool ZifyNat ZifyN.
From Verif Require Import MBase MPyStr MHeaders SHeaders LHeaders LBase MUtf8 MBase64 LBase64 MPercent MJson SJson MWire MEnvelope MStatusPb MTimeout MProtocol
  SProtocol MClient LProtocol PProtocol SClient MServer MAsgi MWsgi SServer PResponse LRequest PRequest SLink LLink LLink2 LNet PLink LLink3.
Import ListNotations.
Local Open Scope N_scope.

(** ** C33: all of a call *)

(** The client sends one request, by GET exactly if asked to; the application runs the method with the caller's message, header
    lines and deadline; whatever the method does and however it ends, the caller gets its message or its error, and finds the
    header lines and trailers in the response metadata. *)
Theorem C33_unary_call {A B} (w : bool) inflate (c : client A B) (ap : app A B) m mi f k ck net u hist timeout get a now :
  unary_connected w inflate c ap m (EpUnary mi f) k u hist timeout get -> sendable_request c ap a ->
  let call := execute_unary c ck net (Some md_new) m u timeout get a None in
  unary_link w inflate ap now (cl_address c) net (cr_sent call) ->
  exists rq cx, cr_sent call = [rq] /\ rq_method rq = (if get then lit "GET" else lit "POST")
    /\ context_of PConnect false hist (effective_timeout timeout (cl_timeout c)) mi cx
    /\ forall steps rs e, returns (f a cx) ([], None) steps rs e -> sendable_answer ap k (cl_max c) steps rs e ->
         ran w ap now (cl_address c) rq [InvMsg a] /\ seen_unary steps rs e call.
Proof. exact (unary_through w inflate c ap m mi f k ck net u hist timeout get a now). Qed.
Print Assumptions C33_unary_call.

(** ** C10: errors *)

(** A ConnectError raised by the method: the caller gets one with the same code, message and details.
    Missing: methods that set a content-encoding line themselves, see [C10_encoding_refuted]; header lines that are not ASCII. *)
Theorem C10_unary_error_partial {A B} (w : bool) inflate (c : client A B) (ap : app A B) m mi f k ck net u hist timeout get a now :
  unary_connected w inflate c ap m (EpUnary mi f) k u hist timeout get -> sendable_request c ap a ->
  let call := execute_unary c ck net (Some md_new) m u timeout get a None in
  unary_link w inflate ap now (cl_address c) net (cr_sent call) ->
  exists cx, context_of PConnect false hist (effective_timeout timeout (cl_timeout c)) mi cx
    /\ forall rs code msg ds,
         run_fn (f a cx) ([], None) rs_new = (FInt (IExn (EConnect code msg ds)), rs) ->
         sendable_answer ap k (cl_max c) [] rs (Some (IExn (EConnect code msg ds))) ->
         exists ds', cr_out call = CErr (EConnect code msg ds') /\ Forall2 same_detail ds ds'.
Proof.
  intros H R call L. destruct (unary_through w inflate c ap m mi f k ck net u hist timeout get a now H R L) as (rq&cx&_&_&H2&H3).
  exists cx. split; [exact H2|]. intros rs code msg ds Md S.
  destruct (H3 [] rs (Some (IExn (EConnect code msg ds)))) as [_ ((x'&S2&ds'&->&F)&_)]; auto; [|eauto].
  unfold returns. rewrite Md. auto.
Qed.
Print Assumptions C10_unary_error_partial.

(** ** C17: other exceptions *)

(** Any other exception: the caller gets code UNKNOWN with its text and no details.
    Missing: as for C10. *)
Theorem C17_unary_exception_partial {A B} (w : bool) inflate (c : client A B) (ap : app A B) m mi f k ck net u hist timeout get a now :
  unary_connected w inflate c ap m (EpUnary mi f) k u hist timeout get -> sendable_request c ap a ->
  let call := execute_unary c ck net (Some md_new) m u timeout get a None in
  unary_link w inflate ap now (cl_address c) net (cr_sent call) ->
  exists cx, context_of PConnect false hist (effective_timeout timeout (cl_timeout c)) mi cx
    /\ forall rs x, is_connect x = false ->
         run_fn (f a cx) ([], None) rs_new = (FInt (IExn x), rs) ->
         sendable_answer ap k (cl_max c) [] rs (Some (IExn x)) ->
         cr_out call = CErr (EConnect Unknown (str_of_exn x) []).
Proof.
  intros H R call L. destruct (unary_through w inflate c ap m mi f k ck net u hist timeout get a now H R L) as (rq&cx&_&_&H2&H3).
  exists cx. split; [exact H2|]. intros rs x X Md S.
  destruct (H3 [] rs (Some (IExn x))) as [_ ((x'&S2&Sx)&_)]; auto.
  - unfold returns. rewrite Md. auto.
  - refine (eq_trans S2 _). destruct x; [discriminate|now rewrite Sx|now rewrite Sx].
Qed.
Print Assumptions C17_unary_exception_partial.

(** ** C23: headers and trailers *)

(** Whether the method returns or raises, the values of every header name (but those the server or transport sets) and of every
    trailer name reach the caller's metadata, in order; a trailer is never seen as a header, and a header is seen as a trailer
    only if its name starts with "trailer-".
    Missing: methods that set a content-encoding line themselves, see [C23_encoding_refuted]; header lines that are not ASCII. *)
Theorem C23_unary_metadata_partial {A B} (w : bool) inflate (c : client A B) (ap : app A B) m mi f k ck net u hist timeout get a now :
  unary_connected w inflate c ap m (EpUnary mi f) k u hist timeout get -> sendable_request c ap a ->
  let call := execute_unary c ck net (Some md_new) m u timeout get a None in
  unary_link w inflate ap now (cl_address c) net (cr_sent call) ->
  exists cx, context_of PConnect false hist (effective_timeout timeout (cl_timeout c)) mi cx
    /\ forall steps rs e, returns (f a cx) ([], None) steps rs e -> sendable_answer ap k (cl_max c) steps rs e ->
         exists md, cr_md call = Some md
           /\ (forall n, unary_line n = false -> startswith trailer_mark (lower n) = false ->
                 (transport_name n = false \/ h_getall (rs_h rs) n <> []) -> h_getall (rm_headers md) n = h_getall (rs_h rs) n)
           /\ (forall n, startswith trailer_mark (lower n) = true -> h_getall (rm_headers md) n = [])
           /\ (forall n, h_getall (rm_trailers md) n = h_getall (rs_h rs) (trailer_mark ++ n) ++ h_getall (rs_t rs) n).
Proof.
  intros H R call L. destruct (unary_through w inflate c ap m mi f k ck net u hist timeout get a now H R L) as (rq&cx&_&_&H2&H3).
  exists cx. split; [exact H2|]. intros steps rs e Md S. destruct (H3 steps rs e Md S) as [_ [_ Hm]]. exact Hm.
Qed.
Print Assumptions C23_unary_metadata_partial.

(** ** C45: GET *)

(** A call by GET and a call by POST make the server run the method with the same message. *)
Theorem C45_get_as_post {A B} (w : bool) inflate (c : client A B) (ap : app A B) m mi f k ck net u hist timeout a now :
  (forall get, unary_connected w inflate c ap m (EpUnary mi f) k u hist timeout get) -> sendable_request c ap a ->
  let call get := execute_unary c ck net (Some md_new) m u timeout get a None in
  (forall get, unary_link w inflate ap now (cl_address c) net (cr_sent (call get))) ->
  (forall cx, exists steps rs e, returns (f a cx) ([], None) steps rs e /\ sendable_answer ap k (cl_max c) steps rs e) ->
  forall get, exists rq, cr_sent (call get) = [rq] /\ rq_method rq = (if get then lit "GET" else lit "POST")
    /\ ran w ap now (cl_address c) rq [InvMsg a].
Proof.
  intros H R call L Hf get.
  destruct (unary_through w inflate c ap m mi f k ck net u hist timeout get a now (H get) R (L get)) as (rq&cx&H1&H2&_&H3).
  exists rq. destruct (Hf cx) as (steps&rs&e&Rt&S). destruct (H3 steps rs e Rt S) as [Hr _]. auto.
Qed.
Print Assumptions C45_get_as_post.

(** The parameters [params] of a GET request carry [data]: as URL-safe base64, with its padding or any part of it, or as text. *)
Definition carries_data (params : dict (list pystr)) (data : bytes) : Prop :=
  exists text, param params (lit "message") = Some text
    /\ ((param params (lit "base64") = Some (lit "1")
           /\ exists pad, urlsafe_b64encode data = text ++ pad /\ Forall (fun c => c = 61) pad)
        \/ (param params (lit "base64") <> Some (lit "1") /\ utf8_encode text = Some data)).
(** Its data, decompressed with the compression it names, is [d]. *)
Definition carries {A B} (ap : app A B) (params : dict (list pystr)) (d : bytes) : Prop :=
  exists data, is_bytes data /\ carries_data params data
    /\ match param params (lit "compression") with
       | None => data = d
       | Some n => exists z, dget (ap_comps ap) n = Some z /\ z_decompress z data = Ok d /\ (data = [] -> d = [])
       end.

Lemma b64_prefix (y : bytes) text pad : is_bytes y -> urlsafe_b64encode y = text ++ pad -> Forall (fun c => c = 61) pad ->
  exists p, text = b64_raw true y ++ p /\ Forall (fun c => c = 61) p.
Proof.
  intros By E Fp. unfold urlsafe_b64encode in E. destruct (b64_pad true y) as [p [E' Hp]]. rewrite E' in E.
  assert (Fp' : Forall (fun c => c = 61) p) by (destruct Hp as [-> | [-> | ->]]; repeat constructor).
  assert (Fr : Forall (fun c => c <> 61) (b64_raw true y)).
  { eapply Forall_impl; [|apply (b64_raw_chars true y By)]. intros c Hc ->. discriminate Hc. }
  clear E' Hp. revert text E. induction (b64_raw true y) as [|c r IH]; intros text E.
  - cbn [List.app] in *. exists text. split; [reflexivity|]. rewrite E in Fp'. apply Forall_app in Fp'. tauto.
  - inversion Fr as [|? ? Nc Fr']; subst. destruct text as [|t text].
    + cbn [List.app] in E. rewrite <- E in Fp. inversion Fp. congruence.
    + cbn [List.app] in E. injection E as -> E. destruct (IH Fr' text E) as (p'&->&F'). exists p'. auto.
Qed.
Lemma decodes_data params data : is_bytes data -> carries_data params data ->
  exists text, param params (lit "message") = Some text
    /\ (if match param params (lit "base64") with Some v => str_eqb v (lit "1") | None => false end
        then urlsafe_b64decode (text ++ lit "===") = Some data else utf8_encode text = Some data).
Proof.
  intros By (text&Em&H). exists text. split; [exact Em|]. destruct H as [(Eb&pad&E&F)|(Eb&E)].
  - rewrite Eb, str_eqb_refl. destruct (b64_prefix data text pad By E F) as (p&->&Fp). rewrite <- app_assoc.
    apply urlsafe_roundtrip_raw; [exact By|rewrite app_length; cbn; lia|].
    apply Forall_app. split; [exact Fp|]. repeat constructor.
  - destruct (param params (lit "base64")) as [v|]; [|exact E]. destruct (str_eqb_spec v (lit "1")) as [->|_]; [exfalso; now apply Eb|exact E].
Qed.

(** Whatever client wrote the GET request, padded or not: the method is run with the message it carries. *)
Theorem C45_asgi_get {A B} (ap : app A B) now sc en f hs cx params k d a z0 :
  asgi_unary_request ap now sc f hs cx params k -> sc_method sc = lit "GET" ->
  dget (ap_comps ap) (lit "identity") = Some z0 -> (forall x, z_decompress z0 x = Ok x) ->
  carries ap params d -> k_dec_req k d = Ok a ->
  ar_inv (asgi_call ap now sc en) = [InvMsg a].
Proof.
  intros (m&Ho&Hk) Hm Di Zi (data&By&Cd&Hc) Ka. destruct (decodes_data params data By Cd) as (text&Em&Et).
  assert (R : read_get_request ap k params = Ok a).
  { unfold read_get_request. rewrite Em.
    assert (Ed : (if match param params (lit "base64") with Some v => str_eqb v (lit "1") | None => false end
                  then match urlsafe_b64decode (text ++ lit "===") with
                       | Some d => Ok d
                       | None => Raise (EConnect InvalidArgument (lit "Invalid base64 encoding") [])
                       end
                  else encode_str text) = Ok data).
    { destruct (match param params (lit "base64") with Some v => str_eqb v (lit "1") | None => false end).
      - now rewrite Et.
      - unfold encode_str. now rewrite Et. }
    rewrite Ed. cbn [bind]. clear Ed. destruct (param params (lit "compression")) as [n|].
    - destruct Hc as (z&Dz&Zd&Ze). rewrite Dz. destruct data as [|b data]; cbn [nonempty].
      + rewrite (Ze eq_refl) in Ka. exact Ka.
      + rewrite Zd. exact Ka.
    - subst d. rewrite Di. destruct data as [|b data]; cbn [nonempty]; [exact Ka|]. rewrite Zi. exact Ka. }
  unfold asgi_call. rewrite Ho, Hk. unfold handle_unary_connect. rewrite Hm, str_eqb_refl, R.
  destruct (run_fn (f a cx) ([], None) rs_new) as [[b|[e|]] rs].
  - destruct (send_unary_response (en_send en) k _ b rs (mk_ast 0 [])) as [s [?|[e|]]]; cbn; try reflexivity. apply call_error_inv.
  - apply call_error_inv.
  - reflexivity.
Qed.
Print Assumptions C45_asgi_get.

Theorem C45_wsgi_get {A B} (ap : app A B) now q f hs cx k d a n :
  wsgi_unary_request ap now q f hs cx -> cx_http cx = lit "GET" ->
  let params := parse_qs (env_default q "QUERY_STRING" []) in
  param params (lit "encoding") = Some n -> dget (ap_codecs ap) n = Some k ->
  carries ap params d -> k_dec_req k d = Ok a ->
  wr_inv (wsgi_call ap now q) = [InvMsg a].
Proof.
  intros (m&Ho) Hm params En Kn (data&By&Cd&Hc) Ka. destruct (decodes_data params data By Cd) as (text&Em&Et).
  assert (R : wsgi_get_request ap q = Ok (a, k)).
  { unfold wsgi_get_request. fold params. cbv zeta. rewrite Em.
    assert (Ed : (if match param params (lit "base64") with Some v => str_eqb v (lit "1") | None => false end
                  then match urlsafe_b64decode (text ++ lit "===") with
                       | Some d => Ok d
                       | None => Raise (EConnect InvalidArgument (lit "Invalid base64 encoding: ...") [])
                       end
                  else match utf8_encode text with
                       | Some d => Ok d
                       | None => Raise (EOther KValue (lit "surrogates not allowed"))
                       end) = Ok data).
    { destruct (match param params (lit "base64") with Some v => str_eqb v (lit "1") | None => false end); now rewrite Et. }
    rewrite Ed. cbn [bind]. clear Ed. rewrite En, Kn.
    assert (Ez : match param params (lit "compression") with
                 | None => Ok data
                 | Some name => match dget (ap_comps ap) name with
                                | None => Raise (unknown_compression ap name)
                                | Some z => z_decompress z data
                                end
                 end = Ok d).
    { destruct (param params (lit "compression")) as [x|]; [|now rewrite Hc]. destruct Hc as (z&Dz&Zd&_). now rewrite Dz. }
    rewrite Ez. cbn [bind]. rewrite Ka. reflexivity. }
  unfold wsgi_call. rewrite Ho. unfold wsgi_unary. rewrite Hm, str_eqb_refl, R.
  destruct (run_fn (f a cx) ([], None) rs_new) as [[b|[e|]] rs].
  - match goal with |- context [match (do body <- _ ; _) with _ => _ end] => destruct (do body <- k_enc_res k b ; _) as [[z body]|e] end.
    + reflexivity.
    + apply wsgi_call_error_inv.
  - apply wsgi_call_error_inv.
  - reflexivity.
Qed.
Print Assumptions C45_wsgi_get.

(** ** Examples: the calls of PLink.v, as unary calls *)
Definition link_inflate (n : pystr) (b : bytes) : option bytes :=
  if str_eqb n (lit "rev") then match z_decompress PEnvelope.ex_comp b with Ok d => Some d | Raise _ => None end else None.
(** The method answers with its message, sets a header line, one that starts with "trailer-", and a trailer with two values, and
    ends with [e]. *)
Definition link_unary (e : option exn) : endpoint pystr pystr :=
  EpUnary ex_method (fun a _ => Hdr (Add (lit "x-h") (lit "1")) (Hdr (Add (lit "Trailer-X-T") (lit "0"))
    (Trl (Add (lit "x-t") (lit "2")) (Trl (Add (lit "X-T") (lit "3")) (match e with None => Ret a | Some e => Fail (IExn e) end))))).
Definition link_unary_state : rstate :=
  mk_rs (h_add (h_add h_empty (lit "x-h") (lit "1")) (lit "trailer-x-t") (lit "0"))
    (h_add (h_add h_empty (lit "x-t") (lit "2")) (lit "x-t") (lit "3")).
Definition link_unary_call (w : bool) (e : option exn) (get : bool) (a : pystr) : call_result pystr :=
  execute_unary (link_client PConnect) ex_clocks (link_net w (link_app (link_unary e))) (Some md_new) ex_method link_headers None get a None.

Lemma link_unary_connected w e get : unary_connected w link_inflate (link_client PConnect) (link_app (link_unary e)) ex_method (link_unary e)
  ex_codec link_headers [Add (lit "X-A") (lit "1")] None get.
Proof.
  destruct (link_connected w PConnect (link_unary e)) as (F&C&W&T&_).
  split; [reflexivity|]. split; [exact F|]. split; [exact C|]. split; [exact W|]. split; [exact T|]. split; [reflexivity|].
  split; [reflexivity|]. split; [repeat constructor|].
  split.
  { exists PEnvelope.ex_comp. split; [reflexivity|]. intros d y H. apply ok_inj in H. subst y.
    split; [|split; discriminate]. cbn. now rewrite rev_involutive. }
  split; [|reflexivity]. intros x z d y Hz Hy. destruct (link_comps x z Hz) as [-> | ->]; apply ok_inj in Hy; subst y.
  - change (link_inflate (lit "rev") (170 :: rev d) = Some d). unfold link_inflate. cbn. now rewrite rev_involutive.
  - reflexivity.
Qed.
Lemma link_unary_link w e get : link_cause e ->
  unary_link w link_inflate (link_app (link_unary e)) 0%Z (lit "http://h") (link_net w (link_app (link_unary e)))
  (cr_sent (link_unary_call w e get (lit "a"))).
Proof.
  intro H.
  assert (E : exists rq, cr_sent (link_unary_call w e get (lit "a")) = [rq]
            /\ unary_request (link_client PConnect) (call_ctx (link_client PConnect) 0%Z ex_method link_headers None false get) 0%Z (lit "a") = Ok rq).
  { destruct H as [<-|[<-|[<-|[]]]]; destruct w, get; eexists; (split; vm_compute; reflexivity). }
  destruct E as (rq&->&E).
  destruct w; cbn [unary_link link_net].
  - apply wsgi_net_unary; intros r [<-|[]].
    + destruct get; vm_compute in E; apply ok_inj in E; subst rq; (split; [eexists; reflexivity|]; split; [vm_compute; discriminate|]; split; [|reflexivity];
        split; vm_compute; repeat constructor; cbn; intuition discriminate).
    + destruct H as [<-|[<-|[<-|[]]]]; destruct get; vm_compute in E; apply ok_inj in E; subst rq; intros n Hn Nn;
        vm_compute in Hn; try discriminate Hn; injection Hn as <-; vm_compute; discriminate.
  - apply asgi_net_unary; intros r [<-|[]].
    + destruct get; vm_compute in E; apply ok_inj in E; subst rq; (split; [eexists; reflexivity|]; split; [vm_compute; repeat constructor|reflexivity]).
    + destruct H as [<-|[<-|[<-|[]]]]; destruct get; vm_compute in E; apply ok_inj in E; subst rq; intros n Hn Nn;
        vm_compute in Hn; try discriminate Hn; injection Hn as <-; vm_compute; discriminate.
Qed.

Lemma link_unary_answer e : link_cause e ->
  sendable_answer (link_app (link_unary e)) ex_codec (Some 1000) (match e with None => [(link_unary_state, lit "a")] | Some _ => [] end)
    link_unary_state (option_map IExn e).
Proof.
  intro H. split.
  - destruct (link_sendable PConnect e (link_unary e) H) as (_&_&_&_&S).
    destruct H as [<-|[<-|[<-|[]]]]; cbn [option_map] in *.
    + constructor; [|constructor]. exists (lit "a"). split; [reflexivity|]. split; [cbn; lia|]. intros x z Hz.
      destruct (link_comps x z Hz) as [-> | ->]; eexists; reflexivity.
    + split; [exact S|reflexivity].
    + split; [exact S|reflexivity].
  - split; [repeat constructor|]. split; [repeat constructor|reflexivity].
Qed.

(** The hypotheses of the theorems above hold for these calls, by GET and POST, of both servers, also when the method fails. *)
Example C33_unary_call_example : forall w e get, link_cause e ->
  unary_connected w link_inflate (link_client PConnect) (link_app (link_unary e)) ex_method (link_unary e) ex_codec link_headers
    [Add (lit "X-A") (lit "1")] None get
  /\ sendable_request (link_client PConnect) (link_app (link_unary e)) (lit "a")
  /\ unary_link w link_inflate (link_app (link_unary e)) 0%Z (lit "http://h") (link_net w (link_app (link_unary e)))
       (cr_sent (link_unary_call w e get (lit "a")))
  /\ exists f, link_unary e = EpUnary ex_method f
     /\ (let steps := match e with None => [(link_unary_state, lit "a")] | Some _ => [] end in
         (forall cx, returns (f (lit "a") cx) ([], None) steps link_unary_state (option_map IExn e))
         /\ sendable_answer (link_app (link_unary e)) ex_codec (Some 1000) steps link_unary_state (option_map IExn e)).
Proof.
  intros w e get H. split; [apply link_unary_connected|]. split.
  { eexists _, _. split; [reflexivity|]. split; [reflexivity|]. split; [cbn; lia|]. split; [repeat constructor|]. cbn. lia. }
  split; [now apply link_unary_link|]. eexists. split; [reflexivity|]. split; [|now apply link_unary_answer].
  intro cx. destruct e; cbn; auto.
Qed.
(** What the caller gets. *)
Example C10_example : forallb (fun w => forallb (fun get =>
  match cr_out (link_unary_call w (Some link_error) get (lit "a")) with
  | CErr (EConnect NotFound m [d]) => str_eqb m (lit "gone " ++ [233; 10; 34])
      && str_eqb (type_url (d_any d)) (lit "type.googleapis.com/a.B") && str_eqb (any_value (d_any d)) [1; 2; 255]
  | _ => false
  end) [false; true]) [false; true] = true.
Proof. vm_compute. reflexivity. Qed.
Example C17_unary_example : map (fun wg => cr_out (link_unary_call (fst wg) (Some ex_bug) (snd wg) (lit "a")))
  [(false, false); (false, true); (true, false); (true, true)] = repeat (CErr (EConnect Unknown (lit "bug") [])) 4.
Proof. vm_compute. reflexivity. Qed.
Example C23_example : map (fun wg => match cr_md (link_unary_call (fst wg) None (snd wg) (lit "a")) with
    | Some md => (h_getall (rm_headers md) (lit "X-H"), h_getall (rm_headers md) (lit "trailer-x-t"), h_getall (rm_trailers md) (lit "x-t"))
    | None => ([], [], [])
    end) [(false, false); (false, true); (true, false); (true, true)]
  = repeat ([lit "1"], [], [lit "0"; lit "2"; lit "3"]) 4.
Proof. vm_compute. reflexivity. Qed.
(** Requests by GET, from other clients: base64 without padding and compressed, and plain text. *)
Example C45_example :
  let ap := link_app (link_unary None) in
  (forall s, In s ["encoding=proto&base64=1&message=qmE&compression=rev"; "encoding=proto&base64=1&message=qmE%3D&compression=rev"; "encoding=proto&message=a"]%string ->
     (exists f hs cx params, asgi_unary_request ap 0%Z (ex_scope_with "GET" "" [] s) f hs cx params ex_codec /\ carries ap params (lit "a"))
     /\ (exists f hs cx, wsgi_unary_request ap 0%Z (ex_wq_with "GET" "" [("QUERY_STRING"%string, s)] []) f hs cx /\ cx_http cx = lit "GET"
           /\ carries ap (parse_qs (env_default (ex_wq_with "GET" "" [("QUERY_STRING"%string, s)] []) "QUERY_STRING" [])) (lit "a")))
  /\ exists z, dget (ap_comps ap) (lit "identity") = Some z /\ forall x, z_decompress z x = Ok x.
Proof.
  split; [|eexists; split; reflexivity].
  intros s [<-|[<-|[<-|[]]]]; (split; [eexists _, _, _, _; split; [eexists; split; vm_compute; reflexivity|]
                                      |eexists _, _, _; split; [eexists; vm_compute; reflexivity|split; [reflexivity|]]]).
  1, 2: exists [170; 97]. 3, 4: exists [170; 97]. 5, 6: exists [97].
  all: split; [repeat constructor|]; split; [|first [reflexivity|exists PEnvelope.ex_comp; split; [reflexivity|split; [reflexivity|discriminate]]]].
  all: eexists; split; [vm_compute; reflexivity|].
  1, 2: left; split; [vm_compute; reflexivity|]; exists [61]; split; [vm_compute; reflexivity|repeat constructor].
  1, 2: left; split; [vm_compute; reflexivity|]; exists []; split; [vm_compute; reflexivity|repeat constructor].
  all: right; split; [vm_compute; discriminate|reflexivity].
Qed.

(** Full statements of C10 and C23, refuted (finding): a content-encoding line set by the method is sent beside the server's own.
    On an error response it is the only one, and the client refuses the response before it reads the error, the headers or the
    trailers; on success it is the second one. *)
Definition own_encoding (e : option exn) : endpoint pystr pystr :=
  EpUnary ex_method (fun a _ => Hdr (Add (lit "content-encoding") (lit "br")) (Trl (Add (lit "x-t") (lit "2"))
    (match e with None => Ret a | Some e => Fail (IExn e) end))).
(** An HTTP library that leaves a body in an encoding it does not know alone. *)
Definition own_inflate (n : pystr) (b : bytes) : option bytes := if str_eqb n (lit "rev") then link_inflate n b else Some b.
Definition own_net (w : bool) (e : option exn) : network :=
  if w then wsgi_net own_inflate (link_app (own_encoding e)) 0%Z (lit "http://h") else asgi_net own_inflate (link_app (own_encoding e)) 0%Z (lit "http://h").
Definition own_call (w : bool) (e : option exn) (get : bool) : call_result pystr :=
  execute_unary (link_client PConnect) ex_clocks (own_net w e) (Some md_new) ex_method link_headers None get (lit "a") None.
Lemma own_connected w e get : unary_connected w own_inflate (link_client PConnect) (link_app (own_encoding e)) ex_method (own_encoding e)
  ex_codec link_headers [Add (lit "X-A") (lit "1")] None get.
Proof.
  destruct (link_connected w PConnect (own_encoding e)) as (F&C&W&T&_).
  split; [reflexivity|]. split; [exact F|]. split; [exact C|]. split; [exact W|]. split; [exact T|]. split; [reflexivity|].
  split; [reflexivity|]. split; [repeat constructor|].
  split.
  { exists PEnvelope.ex_comp. split; [reflexivity|]. intros d y H. apply ok_inj in H. subst y.
    split; [|split; discriminate]. cbn. now rewrite rev_involutive. }
  split; [|reflexivity]. intros x z d y Hz Hy. destruct (link_comps x z Hz) as [-> | ->]; apply ok_inj in Hy; subst y.
  - change (own_inflate (lit "rev") (170 :: rev d) = Some d). unfold own_inflate, link_inflate. cbn. now rewrite rev_involutive.
  - reflexivity.
Qed.
Lemma own_link w get : unary_link w own_inflate (link_app (own_encoding (Some link_error))) 0%Z (lit "http://h") (own_net w (Some link_error))
  (cr_sent (own_call w (Some link_error) get)).
Proof.
  assert (E : exists rq, cr_sent (own_call w (Some link_error) get) = [rq]
            /\ unary_request (link_client PConnect) (call_ctx (link_client PConnect) 0%Z ex_method link_headers None false get) 0%Z (lit "a") = Ok rq).
  { destruct w, get; eexists; (split; vm_compute; reflexivity). }
  destruct E as (rq&->&E).
  destruct w; cbn [unary_link own_net].
  - apply wsgi_net_unary; intros r [<-|[]].
    + destruct get; vm_compute in E; apply ok_inj in E; subst rq; (split; [eexists; reflexivity|]; split; [vm_compute; discriminate|]; split; [|reflexivity];
        split; vm_compute; repeat constructor; cbn; intuition discriminate).
    + destruct get; vm_compute in E; apply ok_inj in E; subst rq; intros n Hn Nn;
        vm_compute in Hn; try discriminate Hn; injection Hn as <-; vm_compute; discriminate.
  - apply asgi_net_unary; intros r [<-|[]].
    + destruct get; vm_compute in E; apply ok_inj in E; subst rq; (split; [eexists; reflexivity|]; split; [vm_compute; repeat constructor|reflexivity]).
    + destruct get; vm_compute in E; apply ok_inj in E; subst rq; intros n Hn Nn;
        vm_compute in Hn; try discriminate Hn; injection Hn as <-; vm_compute; discriminate.
Qed.
Theorem C10_encoding_refuted : forall w get, exists f msg ds,
  own_encoding (Some link_error) = EpUnary ex_method f /\ link_error = EConnect NotFound msg ds
  /\ (forall cx, exists rs, run_fn (f (lit "a") cx) ([], None) rs_new = (FInt (IExn link_error), rs))
  /\ unary_connected w own_inflate (link_client PConnect) (link_app (own_encoding (Some link_error))) ex_method (own_encoding (Some link_error))
       ex_codec link_headers [Add (lit "X-A") (lit "1")] None get
  /\ unary_link w own_inflate (link_app (own_encoding (Some link_error))) 0%Z (lit "http://h") (own_net w (Some link_error))
       (cr_sent (own_call w (Some link_error) get))
  /\ exists m, cr_out (own_call w (Some link_error) get) = CErr (EConnect Internal m []).
Proof.
  intros w get. eexists _, _, _. split; [reflexivity|]. split; [reflexivity|]. split; [intro; eexists; reflexivity|].
  split; [apply own_connected|]. split; [apply own_link|]. destruct w, get; eexists; vm_compute; reflexivity.
Qed.
Print Assumptions C10_encoding_refuted.
Theorem C23_encoding_refuted : forall w get,
  (exists f rs, own_encoding (Some link_error) = EpUnary ex_method f /\ h_getall (rs_t rs) (lit "x-t") = [lit "2"]
     /\ forall cx, run_fn (f (lit "a") cx) ([], None) rs_new = (FInt (IExn link_error), rs))
  /\ unary_link w own_inflate (link_app (own_encoding (Some link_error))) 0%Z (lit "http://h") (own_net w (Some link_error))
       (cr_sent (own_call w (Some link_error) get))
  /\ exists md, cr_md (own_call w (Some link_error) get) = Some md /\ h_getall (rm_trailers md) (lit "x-t") = [].
Proof.
  intros w get. split; [eexists _, _; split; [reflexivity|]; split; [|intro; reflexivity]; reflexivity|]. split; [apply own_link|].
  destruct w, get; eexists; (split; vm_compute; reflexivity).
Qed.
Print Assumptions C23_encoding_refuted.
