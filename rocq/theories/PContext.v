(** C68: a method is told the truth about the request it serves. *)
From Coq Require Import List NArith ZArith Bool String Lia.
From Verif Require Import MBase MPyStr LBase LPyStr MHeaders SHeaders LHeaders MUtf8 LUtf8 SJson MTimeout STimeout LTimeout PTimeout MProtocol SProtocol LProtocol
  MServer MAsgi MWsgi SServer LServer LRequest SLink LLink LLink2 LWire SContext PProtocol PResponse PRequest.
Import ListNotations.
Local Open Scope N_scope.

Lemma contains_in c s : contains_char c s = true <-> In c s.
Proof.
  unfold contains_char. rewrite existsb_exists. split.
  - intros (x&H&E). apply N.eqb_eq in E. now subst.
  - intro H. exists c. split; [exact H|]. apply N.eqb_refl.
Qed.

Lemma address_told scheme host : server_told scheme host (host_to_server_address host scheme).
Proof.
  destruct host as [h|]; [|reflexivity]. unfold server_told, host_to_server_address.
  destruct (contains_char 58 h) eqn:C.
  - apply contains_in in C. repeat split; intros; auto; contradiction.
  - assert (N0 : ~ In 58 h) by (intro H; apply contains_in in H; congruence).
    split; [intro; contradiction|]. split; intros _ ->; reflexivity.
Qed.

Lemma starts_split p s : startswith p s = true -> exists r, s = p ++ r.
Proof.
  revert s. induction p as [|a p IH]; intros s H; [now exists s|]. destruct s as [|b s]; [discriminate|]. cbn in H.
  apply andb_prop in H. destruct H as [E H]. apply N.eqb_eq in E. subst. destruct (IH _ H) as [r ->]. now exists r.
Qed.

Lemma negotiated_type ct : grpc_type ct <-> negotiate_server_protocol ct <> PConnect.
Proof.
  unfold negotiate_server_protocol. split.
  - intros (b&Hb&[->|[c ->]]); cbn [In] in Hb; destruct Hb as [<-|[<-|[]]]; try discriminate;
    change (lit "application/grpc" ++ lit "+" ++ c) with (grpc_prefix ++ c) || change (lit "application/grpc-web" ++ lit "+" ++ c) with (grpc_web_prefix ++ c);
    rewrite startswith_app, orb_true_r; try discriminate.
  - intro H. destruct (str_eqb_spec ct grpc_default) as [E|_]; [rewrite E; exists grpc_default; split; [now left|now left]|].
    cbn [orb] in H. destruct (startswith grpc_prefix ct) eqn:S.
    { apply starts_split in S. destruct S as [r ->]. exists grpc_default. split; [now left|]. right. now exists r. }
    destruct (str_eqb_spec ct grpc_web_default) as [E|_]; [rewrite E; exists grpc_web_default; split; [right; now left|now left]|].
    cbn [orb] in H. destruct (startswith grpc_web_prefix ct) eqn:S'; [|congruence].
    apply starts_split in S'. destruct S' as [r ->]. exists grpc_web_default. split; [right; now left|]. right. now exists r.
Qed.

Lemma connect_digits s : plain_digits s -> (1 <= List.length s <= 10)%nat -> connect_server_timeout (Some s) = Ok (Some (decimal s)).
Proof.
  intros P L. destruct s as [|c s]; [cbn in L; lia|]. unfold connect_server_timeout.
  replace (10 <? N.of_nat (List.length (c :: s))) with false by (symmetry; apply N.ltb_ge; lia).
  rewrite int_of_str_digits; [|now apply plain_is_digit|discriminate|lia]. now rewrite digits_val_decimal by auto.
Qed.

(** What [server_create_context] says about a request with the headers [hs]. *)
Lemma context_told now m http scheme hs client cx (first : pystr -> option pystr) :
  server_create_context now (negotiate_server_protocol (h_get_default hs (lit "content-type") [])) m http scheme hs client = Ok cx ->
  (forall k, h_get hs k = first k) ->
  cx_method cx = m /\ cx_http cx = http /\ cx_headers cx = hs /\ cx_client cx = client
  /\ time_told now first cx /\ server_told scheme (first (lit "host")) (cx_server cx).
Proof.
  intros H F. unfold server_create_context in H. destruct (check_http_method _ _ _); [discriminate|].
  assert (Ct : h_get_default hs (lit "content-type") [] = match first (lit "content-type") with Some v => v | None => [] end).
  { rewrite <- F. unfold h_get_default, h_get. now destruct (h_getitem _ _). }
  rewrite Ct in H. set (ct := match first (lit "content-type") with Some v => v | None => [] end) in *.
  rewrite !F in H.
  assert (T : exists t,
    (negotiate_server_protocol ct = PConnect -> connect_server_timeout (first (lit "connect-timeout-ms")) = Ok t)
    /\ (negotiate_server_protocol ct <> PConnect -> grpc_server_timeout (first (lit "grpc-timeout")) = Ok t)
    /\ cx = make_ctx now m http hs t (host_to_server_address (first (lit "host")) scheme) client).
  { destruct (negotiate_server_protocol ct).
    - destruct (str_eqb _ _); [|discriminate]. destruct (connect_server_timeout _) as [t|]; [|discriminate]. injection H as <-. exists t. repeat split; congruence.
    - destruct (grpc_server_timeout _) as [t|]; [|discriminate]. injection H as <-. exists t. repeat split; congruence.
    - destruct (grpc_server_timeout _) as [t|]; [|discriminate]. injection H as <-. exists t. repeat split; congruence. }
  clear H. destruct T as (t&Tc&Tg&->). unfold make_ctx. cbn [cx_method cx_http cx_headers cx_client cx_timeout cx_end cx_server].
  repeat (split; [reflexivity|]). split; [|apply address_told]. unfold time_told. cbv zeta. fold ct. cbn [cx_timeout cx_end]. split; [|split].
  - intro G. apply negotiated_type in G. specialize (Tg G). destruct (first (lit "grpc-timeout")) as [s|].
    + split; [intros ->; cbn in Tg; congruence|]. intros v k Hs. pose proof (eq_trans (eq_sym Tg) (C28_exact_milliseconds _ _ _ Hs)) as X. congruence.
    + cbn in Tg. congruence.
  - intro G. assert (E : negotiate_server_protocol ct = PConnect).
    { destruct (negotiate_server_protocol ct) eqn:E; auto; exfalso; apply G, negotiated_type; congruence. }
    specialize (Tc E). destruct (first (lit "connect-timeout-ms")) as [s|].
    + split; [intros ->; cbn in Tc; congruence|]. intros P L. pose proof (eq_trans (eq_sym Tc) (connect_digits s P L)) as X. congruence.
    + cbn in Tc. congruence.
  - reflexivity.
Qed.

Lemma lines_told l : forall h hs, h_inv h -> process_headers h l = Ok hs ->
  exists lines, Forall2 line_text l lines /\ forall k, h_getall hs k = h_getall h k ++ values_in lines k.
Proof.
  induction l as [|[a v] l IH]; intros h hs I H; cbn [process_headers] in H.
  - injection H as <-. exists []. split; [constructor|]. intro k. change (values_in [] k) with (@nil pystr). now rewrite app_nil_r.
  - destruct (utf8_decode a) as [a'|] eqn:Ea; [|discriminate]. destruct (utf8_decode v) as [v'|] eqn:Ev; [|discriminate].
    destruct (IH _ _ (h_inv_add _ _ _ I) H) as (lines&F&V). exists ((a', v') :: lines). split; [constructor; [split; assumption|exact F]|].
    intro k. rewrite V, getall_add, values_in_cons by auto. destruct (same_name k a'); [|reflexivity]. now rewrite <- app_assoc.
Qed.

Lemma get_hd h k : h_get h k = hd_error (h_getall h k).
Proof. unfold h_get. now rewrite getitem_getall. Qed.

(** ** ASGI *)

(** The contexts [open_request] makes. *)
Lemma asgi_told {A B} (ap : app A B) now sc ep hs p cx :
  open_request ap now sc = Ok (ep, hs, p, cx) -> find_endpoint ap sc = Ok ep /\ told_asgi now (ep_method ep) sc cx.
Proof.
  unfold open_request. destruct (find_endpoint ap sc) as [ep'|e]; cbn [bind]; [|discriminate].
  destruct (process_headers _ _) as [hs'|e] eqn:Eh; cbn [bind]; [|discriminate]. cbv zeta.
  destruct (_ && _); [discriminate|].
  match goal with |- context [server_create_context ?a ?b ?c ?d ?e ?f ?g] => destruct (server_create_context a b c d e f g) as [cx'|e'] eqn:E; cbn [bind]; [|discriminate] end.
  intro H. injection H as <- <- <- <-. split; [reflexivity|].
  destruct (lines_told _ _ _ h_inv_empty Eh) as (lines&F&V). change (forall k, h_getall hs' k = values_in lines k) in V.
  destruct (context_told _ _ _ _ _ _ _ (fun k => hd_error (values_in lines k)) E) as (E1&E2&E3&E4&E5&E6).
  { intro k. now rewrite get_hd, V. }
  split; [exact E1|]. split; [exact E2|]. split.
  - exists lines. split; [exact F|]. split; [intro k; now rewrite E3|]. split; [exact E5|exact E6].
  - rewrite E4. now destruct (sc_client sc) as [[ip port]|].
Qed.

(** A method is told the truth: two applications whose methods do the same thing in every context that describes the
    request - its method, HTTP method, header lines, time limit, the address of the server and of the peer - answer it alike,
    whatever the methods would do in other contexts. *)
Theorem C68_asgi_partial {A B} (ap ap' : app A B) now sc en ep ep' :
  same_settings ap ap' -> find_endpoint ap sc = Ok ep -> find_endpoint ap' sc = Ok ep' ->
  agree_on (told_asgi now (ep_method ep) sc) ep ep' ->
  asgi_call ap' now sc en = asgi_call ap now sc en.
Proof.
  intros (Sm&Sc&Sk&Ss) F F' Ag.
  assert (Em : ep_method ep' = ep_method ep) by (destruct ep, ep'; cbn in Ag |- *; tauto).
  assert (Eu : is_unary ep' = is_unary ep) by (destruct ep, ep'; cbn in Ag |- *; tauto).
  destruct (open_request ap now sc) as [[[[ep0 hs] p] cx]|e] eqn:O.
  - destruct (asgi_told _ _ _ _ _ _ _ O) as [F0 Told]. rewrite F in F0. injection F0 as <-.
    assert (O' : open_request ap' now sc = Ok (ep', hs, p, cx)).
    { unfold open_request in O |- *. rewrite F in O. rewrite F'. cbn [bind] in O |- *. rewrite Em.
      destruct (process_headers _ _) as [hs'|e]; cbn [bind] in O |- *; [|discriminate]. cbv zeta in O |- *.
      destruct (_ && _); [discriminate|]. destruct (server_create_context _ _ _ _ _ _ _); cbn [bind] in O |- *; [|discriminate]. congruence. }
    unfold asgi_call. rewrite O, O'.
    assert (Q : select_codec ap' sc ep' hs p = select_codec ap sc ep hs p) by (unfold select_codec; now rewrite Sk, Eu).
    rewrite Q. destruct (select_codec ap sc ep hs p) as [[params k]|e]; [|reflexivity].
    assert (R : forall rz, request_stream ap' k rz en = request_stream ap k rz en) by (intro; unfold request_stream; now rewrite Sm).
    assert (Hs : handle_stream ap' en p ep' k hs cx = handle_stream ap en p ep k hs cx).
    { unfold handle_stream. rewrite Sc, Ss. destruct (negotiate_stream_compression p hs (ap_comps ap)) as [req z].
      assert (T : stream_try ap' en p ep' k req z cx (mk_lst (mk_ast 0 []) false 0) = stream_try ap en p ep k req z cx (mk_lst (mk_ast 0 []) false 0)).
      { unfold stream_try. destruct req as [rz|]; [|reflexivity]. cbv zeta. rewrite R.
        destruct ep, ep'; cbn in Ag; try contradiction; destruct Ag as [-> Ag]; try (now rewrite (Ag _ Told)).
        all: destruct (consume_single_request _); [|reflexivity]; now rewrite (Ag _ _ Told). }
      now rewrite T. }
    rewrite Hs. destruct ep as [m f|m f|m f|m f], ep' as [m' f'|m' f'|m' f'|m' f']; cbn in Ag; try contradiction; try reflexivity.
    destruct p; try reflexivity. destruct Ag as [_ Ag].
    assert (H : handle_unary_connect ap' en (sc_method sc) hs k params f' cx (mk_ast 0 []) = handle_unary_connect ap en (sc_method sc) hs k params f cx (mk_ast 0 [])).
    { unfold handle_unary_connect. rewrite Sc. cbv zeta.
      assert (G : read_get_request ap' k params = read_get_request ap k params) by (unfold read_get_request, unknown_compression; now rewrite Sc, ?Sm).
      assert (P : read_post_request ap' k hs (en_recv en) = read_post_request ap k hs (en_recv en)) by (unfold read_post_request, unknown_compression; now rewrite Sc, ?Sm).
      rewrite G, P. match goal with |- match ?x with _ => _ end = _ => destruct x as [a|i] end; [|reflexivity]. now rewrite (Ag _ _ Told). }
    now rewrite H.
  - assert (O' : open_request ap' now sc = Raise e).
    { unfold open_request in O |- *. rewrite F in O. rewrite F'. cbn [bind] in O |- *. rewrite Em.
      destruct (process_headers _ _) as [hs'|e']; cbn [bind] in O |- *; [|exact O]. cbv zeta in O |- *.
      destruct (_ && _); [exact O|]. destruct (server_create_context _ _ _ _ _ _ _); cbn [bind] in O |- *; [discriminate|exact O]. }
    unfold asgi_call. now rewrite O, O'.
Qed.
Print Assumptions C68_asgi_partial.

(** ** WSGI *)

Lemma existsb_in95 k : existsb (N.eqb 95) k = true <-> In 95 k.
Proof.
  rewrite existsb_exists. split.
  - intros (x&H&E). apply N.eqb_eq in E. now subst.
  - intro H. exists 95. split; [exact H|]. apply N.eqb_refl.
Qed.

Lemma wsgi_values q k : cgi_environ q -> h_getall (wsgi_headers q) k = match cgi_value q k with Some v => [v] | None => [] end.
Proof.
  intros [Nd Km]. unfold cgi_value. destruct (existsb (N.eqb 95) k) eqn:U.
  { apply existsb_in95 in U. now apply wsgi_underscore. }
  assert (Hk : ~ In 95 k) by (intro H; apply existsb_in95 in H; congruence). clear U.
  unfold wsgi_headers. cbv zeta.
  set (h1 := match env_get q "CONTENT_TYPE" with Some v => h_setitem h_empty (lit "content-type") v | None => h_empty end).
  set (h2 := match env_get q "CONTENT_LENGTH" with Some v => h_setitem h1 (lit "content-length") v | None => h1 end).
  assert (I1 : h_inv h1) by (unfold h1; destruct (env_get q "CONTENT_TYPE"); [apply h_inv_set|]; apply h_inv_empty).
  assert (I2 : h_inv h2) by (unfold h2; destruct (env_get q "CONTENT_LENGTH"); [apply h_inv_set|]; exact I1).
  destruct (wsgi_fold k (wq_env q) Hk Nd Km h2 I2) as [_ V]. etransitivity; [exact V|]. clear V.
  destruct (dget (wq_env q) (lit "HTTP_" ++ mangle k)); [reflexivity|].
  assert (E1 : h_getall h1 k = if same_name k (lit "content-type") then match env_get q "CONTENT_TYPE" with Some v => [v] | None => [] end else []).
  { unfold h1. destruct (env_get q "CONTENT_TYPE"); [rewrite getall_set by apply h_inv_empty|]; now destruct (same_name k (lit "content-type")). }
  assert (X : same_name k (lit "content-type") = true -> same_name k (lit "content-length") = false).
  { unfold same_name. intro T. destruct (str_eqb_spec (lower k) (lower (lit "content-type"))) as [->|]; [reflexivity|discriminate]. }
  unfold h2. destruct (env_get q "CONTENT_LENGTH").
  - rewrite getall_set, E1 by auto. destruct (same_name k (lit "content-type")); [now rewrite X|]. now destruct (same_name k (lit "content-length")).
  - rewrite E1. destruct (same_name k (lit "content-type")); [reflexivity|]. now destruct (same_name k (lit "content-length")).
Qed.

Lemma wsgi_told {A B} (ap : app A B) now q ep hs p cx : cgi_environ q ->
  wsgi_open_request ap now q = Ok (ep, hs, p, cx) -> wsgi_find_endpoint ap q = Ok ep /\ told_wsgi now (ep_method ep) q cx.
Proof.
  intro Cg. unfold wsgi_open_request. destruct (wsgi_find_endpoint ap q) as [ep'|e]; cbn [bind]; [|discriminate].
  unfold env_item. destruct (env_get q "REQUEST_METHOD") as [http|] eqn:Eh; cbn [bind]; [|discriminate]. cbv zeta.
  destruct (_ && _); [discriminate|].
  match goal with |- context [server_create_context ?a ?b ?c ?d ?e ?f ?g] => destruct (server_create_context a b c d e f g) as [cx'|e'] eqn:E; cbn [bind]; [|discriminate] end.
  intro H. injection H as <- <- <- <-. split; [reflexivity|].
  destruct (context_told _ _ _ _ _ _ _ (cgi_value q) E) as (E1&E2&E3&E4&E5&E6).
  { intro k. rewrite get_hd, wsgi_values by exact Cg. now destruct (cgi_value q k). }
  split; [exact E1|]. split; [now rewrite E2|]. split; [intro k; rewrite E3; now apply wsgi_values|]. split; [exact E5|]. split; [exact E6|].
  rewrite E4. destruct (env_get q "REMOTE_ADDR") as [[|c ip]|]; reflexivity.
Qed.

Theorem C68_wsgi_partial {A B} (ap ap' : app A B) now q ep ep' :
  cgi_environ q -> same_settings ap ap' -> wsgi_find_endpoint ap q = Ok ep -> wsgi_find_endpoint ap' q = Ok ep' ->
  agree_on (told_wsgi now (ep_method ep) q) ep ep' ->
  wsgi_call ap' now q = wsgi_call ap now q.
Proof.
  intros Cg (Sm&Sc&Sk&Ss) F F' Ag.
  assert (Em : ep_method ep' = ep_method ep) by (destruct ep, ep'; cbn in Ag |- *; tauto).
  destruct (wsgi_open_request ap now q) as [[[[ep0 hs] p] cx]|e] eqn:O.
  - destruct (wsgi_told _ _ _ _ _ _ _ Cg O) as [F0 Told]. rewrite F in F0. injection F0 as <-.
    assert (O' : wsgi_open_request ap' now q = Ok (ep', hs, p, cx)).
    { unfold wsgi_open_request in O |- *. rewrite F in O. rewrite F'. cbn [bind] in O |- *. rewrite Em.
      destruct (env_item q "REQUEST_METHOD"); cbn [bind] in O |- *; [|discriminate]. cbv zeta in O |- *.
      destruct (_ && _); [discriminate|]. destruct (server_create_context _ _ _ _ _ _ _); cbn [bind] in O |- *; [|discriminate]. congruence. }
    unfold wsgi_call. rewrite O, O'.
    assert (R : forall k rz, wsgi_request_stream ap' k rz q = wsgi_request_stream ap k rz q) by (intros; unfold wsgi_request_stream; now rewrite Sm).
    assert (Hs : wsgi_stream ap' q p hs ep' cx = wsgi_stream ap q p hs ep cx).
    { unfold wsgi_stream. rewrite Sc, Ss, Sk. destruct (negotiate_stream_compression p hs (ap_comps ap)) as [req z].
      destruct (dget (ap_codecs ap) _) as [k|]; [|reflexivity]. cbv zeta. unfold wsgi_stream_error, response_stream_end. rewrite Ss.
      destruct req as [rz|]; [|reflexivity]. rewrite R.
      assert (T : wsgi_run p ep' k z (wsgi_request_stream ap k rz q) cx = wsgi_run p ep k z (wsgi_request_stream ap k rz q) cx).
      { unfold wsgi_run. cbv zeta.
        destruct ep, ep'; cbn in Ag; try contradiction; destruct Ag as [-> Ag]; try (now rewrite (Ag _ Told)).
        all: destruct (consume_single_request _); [|reflexivity]; now rewrite (Ag _ _ Told). }
      now rewrite T. }
    rewrite Hs. destruct ep as [m f|m f|m f|m f], ep' as [m' f'|m' f'|m' f'|m' f']; cbn in Ag; try contradiction; try reflexivity.
    destruct p; try reflexivity. destruct Ag as [_ Ag].
    assert (H : wsgi_unary ap' q (cx_http cx) f' cx hs = wsgi_unary ap q (cx_http cx) f cx hs).
    { unfold wsgi_unary. rewrite Sc.
      assert (G : wsgi_get_request ap' q = wsgi_get_request ap q) by (unfold wsgi_get_request, unknown_compression; now rewrite ?Sc, ?Sm, ?Sk).
      assert (P : wsgi_post_request ap' q hs = wsgi_post_request ap q hs) by (unfold wsgi_post_request, unknown_compression; now rewrite ?Sc, ?Sm, ?Sk).
      rewrite G, P. match goal with |- match ?x with _ => _ end = _ => destruct x as [[a k]|i] end; [|reflexivity]. now rewrite (Ag _ _ Told). }
    now rewrite H.
  - assert (O' : wsgi_open_request ap' now q = Raise e).
    { unfold wsgi_open_request in O |- *. rewrite F in O. rewrite F'. cbn [bind] in O |- *. rewrite Em.
      destruct (env_item q "REQUEST_METHOD"); cbn [bind] in O |- *; [|exact O]. cbv zeta in O |- *.
      destruct (_ && _); [exact O|]. destruct (server_create_context _ _ _ _ _ _ _); cbn [bind] in O |- *; [discriminate|exact O]. }
    unfold wsgi_call. now rewrite O, O'.
Qed.
Print Assumptions C68_wsgi_partial.

(** ** A case *)

Definition ex_told_scope : scope :=
  mk_scope (lit "/pkg.Svc/Get") (Some []) (lit "POST") (lit "http")
    [(lit "content-type", lit "application/proto"); (lit "Host", lit "h.example"); (lit "x-a", lit "1"); (lit "X-A", lit "2")]
    (Some (lit "10.0.0.1", lit "5")) [] true.
Definition ex_told_wq : wsgi_request :=
  mk_wq (wq_env (ex_wq "POST" "application/proto") ++ [(lit "HTTP_HOST", lit "h.example"); (lit "HTTP_X_A", lit "1"); (lit "REMOTE_ADDR", lit "10.0.0.1"); (lit "REMOTE_PORT", lit "5")])
    [] true (fun _ => None).
(** A method that fails unless it is told these things. *)
Definition ex_suspicious (values : list pystr) : endpoint pystr pystr :=
  EpUnary ex_method (fun a cx =>
    if match cx_server cx, cx_client cx with
       | Some s, Some c => str_eqb s (lit "h.example:80") && str_eqb c (lit "10.0.0.1:5")
       | _, _ => false
       end
       && str_eqb (cx_http cx) (lit "POST") && match cx_timeout cx with None => true | _ => false end
       && str_eqb (List.concat (h_getall (cx_headers cx) (lit "X-a"))) (List.concat values)
    then Hdr (Add (lit "x-h") (lit "1")) (Ret a) else Fail (IExn ex_bug)).

Lemma ex_type : ~ grpc_type (lit "application/proto").
Proof. rewrite negotiated_type. vm_compute. congruence. Qed.

Lemma ex_agree (told : req_ctx -> Prop) values :
  (forall cx, told cx -> cx_server cx = Some (lit "h.example:80") /\ cx_client cx = Some (lit "10.0.0.1:5") /\ cx_http cx = lit "POST"
     /\ cx_timeout cx = None /\ h_getall (cx_headers cx) (lit "X-a") = values) ->
  agree_on told ex_echo (ex_suspicious values).
Proof.
  intros H. split; [reflexivity|]. intros a cx T. cbv beta. destruct (H cx T) as (->&->&->&->&->). rewrite !str_eqb_refl. reflexivity.
Qed.

Example C68_example :
  agree_on (told_asgi 0%Z ex_method ex_told_scope) ex_echo (ex_suspicious [lit "1"; lit "2"])
  /\ agree_on (told_wsgi 0%Z ex_method ex_told_wq) ex_echo (ex_suspicious [lit "1"]) /\ cgi_environ ex_told_wq
  /\ (exists hs tl, ar_events (asgi_call (ex_app (ex_suspicious [lit "1"; lit "2"])) 0%Z ex_told_scope ex_env) = EvStart 200 hs false :: tl)
  /\ (exists hs tl, wr_events (wsgi_call (ex_app (ex_suspicious [lit "1"])) 0%Z ex_told_wq) = WStart (lit "200 OK") hs :: tl).
Proof.
  split; [|split; [|split; [|split]]].
  - apply ex_agree. intros cx (_&E2&(lines&F&V&T&S)&E4).
    assert (L : lines = sc_headers ex_told_scope).
    { unfold ex_told_scope in F. cbn [sc_headers] in F.
      repeat match goal with H : Forall2 _ (_ :: _) _ |- _ => inversion H as [|? [? ?] ? ? [? ?]]; subst; clear H end.
      match goal with H : Forall2 _ [] _ |- _ => inversion H; subst end. cbn [fst snd] in *.
      repeat match goal with H : utf8_decode (lit _) = Some _ |- _ => vm_compute in H; injection H as <- end. reflexivity. }
    subst lines. split; [apply S; [vm_compute; intuition discriminate|reflexivity]|]. split; [exact E4|]. split; [exact E2|]. split.
    + destruct T as (_&T&_). exact (T ex_type).
    + rewrite V. reflexivity.
  - apply ex_agree. intros cx (_&E2&V&T&S&E4). split; [apply S; [vm_compute; intuition discriminate|reflexivity]|]. split; [exact E4|].
    split; [now injection E2|]. split; [destruct T as (_&T&_); exact (T ex_type)|]. rewrite V. reflexivity.
  - split.
    + unfold dkeys. cbn. repeat constructor; cbn; intuition discriminate.
    + intros key H S. cbn in H. repeat destruct H as [<-|H]; try discriminate; try contradiction; [now exists (lit "host")|now exists (lit "x-a")].
  - eexists _, _. vm_compute. reflexivity.
  - eexists _, _. vm_compute. reflexivity.
Qed.

(** Finding: with an IPv6 address and no port in the Host header the method is told an address without a port. *)
Theorem C68_ipv6_refuted {A B} (ap : app A B) now sc ep hs p cx ip :
  In 58 ip -> open_request ap now sc = Ok (ep, hs, p, cx) -> h_get hs (lit "host") = Some (91 :: ip ++ [93]) ->
  cx_server cx = Some (91 :: ip ++ [93]).
Proof.
  intros C O H. unfold open_request in O. destruct (find_endpoint ap sc) as [ep'|]; cbn [bind] in O; [|discriminate].
  destruct (process_headers _ _) as [hs'|]; cbn [bind] in O; [|discriminate]. cbv zeta in O. destruct (_ && _); [discriminate|].
  match type of O with context [server_create_context ?a ?b ?c ?d ?e ?f ?g] => destruct (server_create_context a b c d e f g) as [cx'|] eqn:E; cbn [bind] in O; [|discriminate] end.
  injection O as <- <- <- <-. destruct (context_told _ _ _ _ _ _ _ (h_get hs') E ltac:(reflexivity)) as (_&_&_&_&_&S). rewrite H in S.
  apply S. right. apply in_or_app. now left.
Qed.
Print Assumptions C68_ipv6_refuted.

Example C68_ipv6_example : exists ep hs p cx,
  open_request (ex_app ex_echo) 0%Z (ex_scope_with "POST" "application/proto" [("host", "[::1]")%string] "") = Ok (ep, hs, p, cx)
  /\ h_get hs (lit "host") = Some (91 :: lit "::1" ++ [93]) /\ In 58 (lit "::1").
Proof. eexists _, _, _, _. split; [vm_compute; reflexivity|]. split; [vm_compute; reflexivity|]. now left. Qed.
