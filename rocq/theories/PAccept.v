(** C87: the compression of unary responses is as Accept-Encoding asks. *)
From Coq Require Import List NArith ZArith Bool String Lia.
From Verif Require Import MBase MPyStr MHeaders MUtf8 MWire MEnvelope MTimeout MProtocol MClient MServer MAsgi MWsgi
  SServer SProtocol SMedia SAccept LBase LPyStr LHeaders LWire LMedia LUtf8 LLink LProtocol LServer LRequest PProtocol PResponse PRequest PCache PMedia.
Import ListNotations.
Local Open Scope N_scope.

Lemma first_line hs n d : h_get_default hs n d = match h_getall hs n with v :: _ => v | [] => d end.
Proof. unfold h_get_default. rewrite getitem_getall. now destruct (h_getall hs n). Qed.

Lemma names_exactly piece n : strip piece = n -> names_type piece n.
Proof.
  intros <-. destruct (strip_split piece) as (w&w'&F&F'&E). exists w, (strip piece), w', [].
  split; [now rewrite app_nil_r|]. split; [exact F|]. split; [|split; [exact F'|now left]].
  clear. induction (strip piece) as [|x l IH]; [constructor|constructor; [now left|exact IH]].
Qed.
Lemma simple_names piece c : simple_list piece -> plain_type c -> names_type piece c -> strip piece = c.
Proof.
  intros S P (w&core&w'&rest&E&Fw&Fc&Fw'&R). assert (rest = []).
  { destruct R as [R|(ps&R)]; [exact R|]. subst. unfold simple_list in S. rewrite !Forall_app in S.
    destruct S as (_&_&_&S). inversion S as [|? ? (S1&_) _]. now elim S1. }
  subst rest. rewrite app_nil_r in E. subst piece. pose proof (plain_solid _ _ P Fc) as So. rewrite strip_blanks by assumption.
  unfold simple_list in S. rewrite !Forall_app in S. destruct S as (_&S&_). clear So P Fw Fw' R.
  induction Fc as [|a b core c H Fc IH]; [reflexivity|]. inversion S as [|? ? (_&S1) S2]; subst. rewrite (IH S2). f_equal.
  destruct H as [H|(H&_)]; [exact H|now elim S1].
Qed.
Lemma split_simple v : simple_list v -> Forall simple_list (split_on 44 v).
Proof.
  unfold simple_list. induction v as [|x v IH]; intro S; cbn [split_on]; [repeat constructor|].
  inversion S as [|? ? S1 S2]; subst. specialize (IH S2). destruct (x =? 44); [constructor; [constructor|exact IH]|].
  destruct (split_on 44 v) as [|p ps]; [repeat constructor; tauto|]. inversion IH; subst. constructor; [constructor; assumption|assumption].
Qed.

Lemma split_field line lines : split_on 44 (field (line :: lines)) = split_on 44 line ++ match lines with [] => [] | _ => split_on 44 (field lines) end.
Proof.
  assert (X : forall a b, split_on 44 (a ++ 44 :: b) = split_on 44 a ++ split_on 44 b).
  { induction a as [|x a IH]; intro b; cbn [List.app split_on].
    - reflexivity.
    - rewrite IH. destruct (x =? 44); [reflexivity|]. destruct (split_on 44 a) as [|p ps] eqn:E; [|reflexivity].
      exfalso. clear -E. destruct a as [|y a]; cbn in E; [discriminate|]. destruct (y =? 44); [discriminate|]. destruct (split_on 44 a); discriminate. }
  unfold field. destruct lines as [|l lines]; [cbn; now rewrite app_nil_r|]. cbn [join]. apply X.
Qed.

(** What is negotiated, in terms of the lines. *)
Lemma negotiated comps line : usual_codings comps ->
  let z := negotiate_compression line comps in
  (exists piece, In piece (split_on 44 line) /\ strip piece = z_name z) \/ z = identity_comp.
Proof.
  intros U z. destruct (C34_first_supported line comps) as [(pre&n&c&post&E&D&_&Ec)|(_&E)]; [|now right]. left. fold z in Ec.
  destruct (U _ _ D) as (Nz&_). rewrite <- Ec in Nz. assert (I : In n (map strip (split_on 44 line))) by (rewrite E; apply in_or_app; right; now left).
  apply in_map_iff in I. destruct I as (piece&Hp&I). exists piece. split; [exact I|]. congruence.
Qed.
Lemma name_accepted comps lines d : usual_codings comps -> (forall c, ~ refused (field lines) c) ->
  (exists line rest, lines = line :: rest /\ d = line) \/ lines = [] ->
  accepts lines (z_name (negotiate_compression d comps)).
Proof.
  intros U R [(line&rest&E&E')| ->]; [|now left]. subst lines d. right.
  destruct (negotiated comps line U) as [(piece&I&Np)| ->].
  - left. exists piece. rewrite split_field. split; [apply in_or_app; now left|]. assert (N : names_type piece (z_name (negotiate_compression line comps))) by now apply names_exactly.
    split; [exact N|]. intro W. apply (R (z_name (negotiate_compression line comps))). exists piece.
    rewrite split_field. split; [apply in_or_app; now left|]. now split.
  - right. right. split; [reflexivity|]. split; [apply R|]. intro H. exfalso. exact (R _ H).
Qed.
Lemma named_first comps line z : usual_codings comps -> simple_list line -> first_named comps line z -> negotiate_compression line comps = z.
Proof.
  intros U S (pre&piece&post&c&E&N&D&Np). unfold negotiate_compression. pose proof (split_simple _ S) as Fs. rewrite E in *.
  apply Forall_app in Fs. destruct Fs as (Fp&Fs). inversion Fs as [|? ? S1 _]; subst. destruct (U _ _ D) as (_&_&P).
  clear E Fs S. induction Fp as [|p pre Sp Fp IH]; cbn [List.app negotiate_first].
  - rewrite (simple_names _ _ S1 P N), D. reflexivity.
  - rewrite (Np p (strip p)); [|now left|now apply names_exactly]. apply IH. intros. eapply Np; [right|]; eassumption.
Qed.

Lemma to_internal_ok {X} (r : res X) x : to_internal r = Ok x -> r = Ok x.
Proof. destruct r as [y|[]]; cbn; congruence. Qed.
Lemma bind_inv {X Y} (r : res X) (g : X -> res Y) y : bind r g = Ok y -> exists x, r = Ok x /\ g x = Ok y.
Proof. destruct r as [x|e]; cbn; [eauto|discriminate]. Qed.

(** ASGI: a method that takes one message was run, and returned.  The response is in a coding that the client accepts, and of
    the codings a simple list names, in the first one the server has.  Missing: weights and upper case
    ([C87_weights_refuted], [C87_identity_refuted], [C87_case_refuted]) and codings named on further lines
    ([C87_lines_refuted]). *)
Theorem C87_asgi_partial {A B} (ap : app A B) now sc en f hs cx params k a b rs body extra :
  asgi_unary_request ap now sc f hs cx params k -> sends_ok (en_send en) -> usual_codings (ap_comps ap) ->
  ar_inv (asgi_call ap now sc en) = [InvMsg a] -> run_fn (f a cx) ([], None) rs_new = (FRet b, rs) ->
  k_enc_res k b = Ok body -> encode_pairs (context_headers rs) = Ok extra ->
  (forall n z, dget (ap_comps ap) n = Some z -> exists out, z_compress z body = Ok out) ->
  (exists ct, utf8_encode (lit "application/" ++ k_name k) = Some ct) ->
  let lines := h_getall hs (lit "accept-encoding") in
  exists z out ct, z_compress z body = Ok out
  /\ ar_events (asgi_call ap now sc en)
     = [EvStart 200 ([(lit "content-type", ct); (lit "content-encoding", z_name z); (lit "vary", lit "Accept-Encoding")] ++ extra) false; EvBody out false]
  /\ ((forall c, ~ refused (field lines) c) -> accepts lines (z_name z))
  /\ (forall line z', lines = [line] -> simple_list line -> first_named (ap_comps ap) line z' -> z = z').
Proof.
  intros (m&Ho&Hk) So U Inv Run Eb Ex Zs (ct&Ect) lines.
  assert (Enc : forall d, utf8_encode (z_name (negotiate_compression d (ap_comps ap))) = Some (z_name (negotiate_compression d (ap_comps ap)))).
  { intro d. assert (Pl : plain_type (z_name (negotiate_compression d (ap_comps ap)))).
    { destruct (negotiated_known d (ap_comps ap)) as [->|(n&D)]; [apply plain_lit; reflexivity|]. destruct (U _ _ D) as (->&_&P). exact P. }
    apply utf8_encode_ascii. eapply Forall_impl; [|exact Pl]. intros c H. cbv beta in H |- *. unfold media_char in H. lia. }
  set (d := h_get_default hs (lit "accept-encoding") []).
  set (z := negotiate_compression d (ap_comps ap)). pose proof (Enc d) as Een. fold z in Een.
  assert (Zo : exists out, z_compress z body = Ok out).
  { unfold z. destruct (negotiated_known d (ap_comps ap)) as [->|(n&D)]; [now exists body|]. exact (Zs _ _ D). }
  destruct Zo as (out&Zo). exists z, out, ct. split; [exact Zo|]. split; [|split].
  - revert Inv. unfold asgi_call. rewrite Ho, Hk. unfold handle_unary_connect. fold d. fold z.
    destruct (if str_eqb _ _ then _ else _) as [a'|i].
    2:{ destruct i as [e|]; cbn; [rewrite call_error_inv|]; discriminate. }
    destruct (run_fn (f a' cx) ([], None) rs_new) as [[b'|[e|]] rs'] eqn:Run'.
    + assert (Snd : send_unary_response (en_send en) k z b rs (mk_ast 0 []) =
        (mk_ast 2 [EvStart 200 ([(lit "content-type", ct); (lit "content-encoding", z_name z); (lit "vary", lit "Accept-Encoding")] ++ extra) false; EvBody out false], inl tt)).
      { unfold send_unary_response, io_bind. rewrite Eb. cbn [io_res]. unfold io_ret. unfold encode_str.
        change (connect_unary_prefix ++ k_name k) with (lit "application/" ++ k_name k). rewrite Ect. cbn [io_res]. unfold io_ret.
        rewrite Zo. cbn [io_res]. unfold io_ret. rewrite Een. cbn [io_res]. unfold io_ret. rewrite Ex. cbn [io_res]. unfold io_ret.
        rewrite send_sent by auto. rewrite send_sent by auto. reflexivity. }
      intro Inv. assert (a' = a).
      { destruct (send_unary_response (en_send en) k z b' rs' (mk_ast 0 [])) as [s [?|[e|]]]; cbn in Inv; try rewrite call_error_inv in Inv; congruence. }
      subst a'. rewrite Run in Run'. injection Run' as <- <-. rewrite Snd. reflexivity.
    + rewrite call_error_inv. intro Inv. injection Inv as ->. congruence.
    + cbn. intro Inv. injection Inv as ->. congruence.
  - intro R. apply name_accepted; try assumption. unfold d. rewrite first_line. fold lines. destruct lines as [|l ls]; [now right|left; now exists l, ls].
  - intros line z' El Sl Fn. unfold z, d. rewrite first_line. fold lines. rewrite El. now apply named_first.
Qed.
Print Assumptions C87_asgi_partial.

(** WSGI: likewise; servers join the lines of a header. *)
Theorem C87_wsgi_partial {A B} (ap : app A B) now q f hs cx a b rs :
  wsgi_unary_request ap now q f hs cx -> usual_codings (ap_comps ap) ->
  wr_inv (wsgi_call ap now q) = [InvMsg a] -> run_fn (f a cx) ([], None) rs_new = (FRet b, rs) ->
  (forall n k, dget (ap_codecs ap) n = Some k -> exists body, k_enc_res k b = Ok body
     /\ forall n z, dget (ap_comps ap) n = Some z -> exists out, z_compress z body = Ok out) ->
  let lines := h_getall hs (lit "accept-encoding") in
  exists n k body z out, dget (ap_codecs ap) n = Some k /\ k_enc_res k b = Ok body /\ z_compress z body = Ok out
  /\ wr_events (wsgi_call ap now q)
     = [WStart (lit "200 OK") ([(lit "content-type", lit "application/" ++ k_name k); (lit "content-encoding", z_name z); (lit "vary", lit "Accept-Encoding")]
          ++ context_headers rs); WBody out]
  /\ ((forall c, ~ refused (field lines) c) -> accepts lines (z_name z))
  /\ (forall line z', lines = [line] -> simple_list line -> first_named (ap_comps ap) line z' -> z = z').
Proof.
  intros (m&Ho) U Inv Run Zs lines.
  set (d := h_get_default hs (lit "accept-encoding") (lit "identity")).
  set (z := negotiate_compression d (ap_comps ap)).
  revert Inv. unfold wsgi_call. rewrite Ho. unfold wsgi_unary. fold d. fold z.
  assert (Kn : forall a k, (if str_eqb (cx_http cx) (lit "GET") then wsgi_get_request ap q else wsgi_post_request ap q hs) = Ok (a, k) -> exists n, dget (ap_codecs ap) n = Some k).
  { intros a0 k0. destruct (str_eqb _ _).
    - unfold wsgi_get_request. intro H. apply to_internal_ok in H. cbv zeta in H. destruct (param _ (lit "message")); [|discriminate].
      apply bind_inv in H. destruct H as (? & _ & H). apply bind_inv in H. destruct H as (? & _ & H).
      destruct (dget (ap_codecs ap) _) eqn:D in H; [|discriminate]. apply bind_inv in H. destruct H as (? & _ & H). injection H as _ <-. eauto.
    - unfold wsgi_post_request. destruct (dget (ap_codecs ap) _) eqn:D; [|discriminate]. intro H. apply to_internal_ok in H.
      apply bind_inv in H. destruct H as (? & _ & H). apply bind_inv in H. destruct H as (? & _ & H). cbv zeta in H. apply bind_inv in H. destruct H as (? & _ & H).
      destruct (match ap_max ap with Some mx => mx <? _ | None => false end) in H; [discriminate|]. apply bind_inv in H. destruct H as (? & _ & H). injection H as _ <-. eauto. }
  destruct (if str_eqb _ _ then _ else _) as [[a' k]|e].
  2:{ rewrite wsgi_call_error_inv. discriminate. }
  destruct (Kn a' k eq_refl) as (n&Hk). destruct (Zs _ _ Hk) as (body&Eb&Zc).
  assert (Zo : exists out, z_compress z body = Ok out).
  { unfold z. destruct (negotiated_known d (ap_comps ap)) as [->|(n'&D)]; [now exists body|]. exact (Zc _ _ D). }
  destruct Zo as (out&Zo). intro Inv.
  assert (a' = a).
  { destruct (run_fn (f a' cx) ([], None) rs_new) as [[b'|[e|]] rs']; [|rewrite wsgi_call_error_inv in Inv; congruence|cbn in Inv; congruence].
    destruct (do body <- k_enc_res k b' ; _) as [[z0 body0]|e] in Inv; cbn in Inv; [congruence|]. rewrite wsgi_call_error_inv in Inv; congruence. }
  subst a'. rewrite Run. rewrite Eb. cbn [bind]. rewrite Zo. cbn [bind].
  exists n, k, body, z, out. split; [exact Hk|]. split; [exact Eb|]. split; [exact Zo|]. split; [reflexivity|]. split.
  - intro R. apply name_accepted; try assumption. unfold d. rewrite first_line. fold lines. destruct lines as [|l ls]; [now right|left; now exists l, ls].
  - intros line z' El Sl Fn. unfold z, d. rewrite first_line. fold lines. rewrite El. now apply named_first.
Qed.
Print Assumptions C87_wsgi_partial.

(** ** Examples *)

(** gzip, standing for itself: a mark before the bytes. *)
Definition ex_gzip : compression := mk_comp (lit "gzip") false (fun b => Ok (31 :: b)) (fun b => match b with 31 :: b => Ok b | _ => Raise (EOther KValue []) end).
Definition ex_zapp : app pystr pystr := app_new (lit "/pkg.Svc") [(lit "/pkg.Svc/Get", ex_echo)] (Some 1000) [ex_gzip] [ex_codec] ex_sc.
Definition ex_asks (lines : list string) : scope :=
  ex_scope_with "POST" "application/proto" (map (fun l => ("accept-encoding", l)%string) lines) "".
Definition ex_asks_wsgi (line : string) : wsgi_request := ex_wq_with "POST" "application/proto" [("HTTP_ACCEPT_ENCODING", line)]%string [].
(** Body and content-encoding of the response. *)
Definition coded (t : list aevent) : option (bytes * bytes) :=
  match t with [EvStart 200 hs false; EvBody b false] => option_map (fun e => (e, b)) (dget hs (lit "content-encoding")) | _ => None end.
Definition coded_wsgi (t : list wevent) : option (bytes * bytes) :=
  match t with [WStart _ hs; WBody b] => option_map (fun e => (e, b)) (dget hs (lit "content-encoding")) | _ => None end.

Lemma ex_codings : usual_codings (ap_comps ex_zapp).
Proof.
  intros n z H. pose proof (dget_in_keys _ _ _ H) as I.
  change (In n [lit "gzip"; lit "identity"]) in I. destruct I as [<-|[<-|[]]].
  - change (Some ex_gzip = Some z) in H. injection H as <-. split; [reflexivity|]. split; [discriminate|]. apply plain_lit; reflexivity.
  - change (Some identity_comp = Some z) in H. injection H as <-. split; [reflexivity|]. split; [discriminate|]. apply plain_lit; reflexivity.
Qed.

(** The hypotheses hold of usual requests. *)
Example C87_example : exists hs cx f,
  asgi_unary_request ex_zapp 0%Z (ex_asks ["br, gzip"]%string) f hs cx [] ex_codec
  /\ ar_inv (asgi_call ex_zapp 0%Z (ex_asks ["br, gzip"]%string) ex_env) = [InvMsg []]
  /\ h_getall hs (lit "accept-encoding") = [lit "br, gzip"] /\ simple_list (lit "br, gzip") /\ first_named (ap_comps ex_zapp) (lit "br, gzip") ex_gzip
  /\ coded (ar_events (asgi_call ex_zapp 0%Z (ex_asks ["br, gzip"]%string) ex_env)) = Some (lit "gzip", [31])
  /\ coded_wsgi (wr_events (wsgi_call ex_zapp 0%Z (ex_asks_wsgi "br, gzip"))) = Some (lit "gzip", [31]).
Proof.
  eexists _, _, _. split; [eexists; split; reflexivity|]. split; [reflexivity|]. split; [reflexivity|]. split; [|split; [|split; vm_compute; reflexivity]].
  - vm_compute. repeat constructor; try discriminate; intros [H1 H2]; cbn in *; try (now apply H1); try (now apply H2).
  - exists [lit "br"], (lit " gzip"), [], (lit "gzip"). split; [reflexivity|]. split; [now apply names_exactly|]. split; [reflexivity|].
    intros p c [<-|[]] N. destruct (dget (ap_comps ex_zapp) c) as [z|] eqn:D; [|reflexivity]. exfalso. destruct (ex_codings _ _ D) as (_&_&P).
    apply simple_names in N; [|repeat constructor; cbn; lia|exact P]. subst c. discriminate.
Qed.


(** Finding: a coding with a weight is not recognised, whatever the weight: the response is not compressed although the client
    asks for gzip and the server has it. *)
Theorem C87_weights_refuted :
  listed (lit "gzip;q=1.0") (lit "gzip") /\ first_named (ap_comps ex_zapp) (lit "gzip;q=1.0") ex_gzip
  /\ coded (ar_events (asgi_call ex_zapp 0%Z (ex_asks ["gzip;q=1.0"]%string) ex_env)) = Some (lit "identity", [])
  /\ coded_wsgi (wr_events (wsgi_call ex_zapp 0%Z (ex_asks_wsgi "gzip;q=1.0"))) = Some (lit "identity", []).
Proof.
  assert (N : names_type (lit "gzip;q=1.0") (lit "gzip")).
  { exists [], (lit "gzip"), [], (lit ";q=1.0"). split; [reflexivity|]. split; [constructor|]. split; [repeat constructor|]. split; [constructor|]. right. now exists (lit "q=1.0"). }
  split; [|split; [|split; vm_compute; reflexivity]].
  - exists (lit "gzip;q=1.0"). split; [now left|]. split; [exact N|]. intros (b&w&q&zs&w'&E&Hw&_&_&_).
    assert (I : In 61 (lit "gzip;q=1.0")) by (vm_compute; tauto).
    change (lit "gzip;q=1.0") with [103; 122; 105; 112; 59; 113; 61; 49; 46; 48] in E.
    repeat (destruct b as [|? b]; [cbn [List.app] in E; first [discriminate E | injection E as E;
        destruct w as [|? w]; cbn [List.app] in E; [discriminate E|];
        injection E as <- _; inversion Hw as [|? ? B _]; subst; unfold blank in B; cbn [In] in B; lia]
      |cbn [List.app] in E; injection E as <- E]).
    destruct b; cbn in E; discriminate E.
  - exists [], (lit "gzip;q=1.0"), [], (lit "gzip"). split; [reflexivity|]. split; [exact N|]. split; [reflexivity|]. intros p c [].
Qed.
Print Assumptions C87_weights_refuted.

(** Finding: nor are letters in upper case. *)
Theorem C87_case_refuted :
  listed (lit "GZIP") (lit "gzip")
  /\ coded (ar_events (asgi_call ex_zapp 0%Z (ex_asks ["GZIP"]%string) ex_env)) = Some (lit "identity", [])
  /\ coded_wsgi (wr_events (wsgi_call ex_zapp 0%Z (ex_asks_wsgi "GZIP"))) = Some (lit "identity", []).
Proof.
  split; [|split; vm_compute; reflexivity]. exists (lit "GZIP"). split; [now left|]. split.
  - exists [], (lit "GZIP"), [], []. split; [reflexivity|]. split; [constructor|]. split; [|split; [constructor|now left]].
    repeat (apply Forall2_nil || apply Forall2_cons); right; split; try reflexivity; cbn; lia.
  - intros (b&w&q&zs&w'&E&_). assert (In 59 (lit "GZIP")) as I by (rewrite E; apply in_or_app; right; now left). vm_compute in I. intuition discriminate.
Qed.
Print Assumptions C87_case_refuted.

(** Finding: a client that refuses uncompressed responses gets one, because weights are not read. *)
Theorem C87_identity_refuted :
  ~ accepts [lit "gzip;q=1, identity;q=0"] (lit "identity")
  /\ coded (ar_events (asgi_call ex_zapp 0%Z (ex_asks ["gzip;q=1, identity;q=0"]%string) ex_env)) = Some (lit "identity", [])
  /\ coded_wsgi (wr_events (wsgi_call ex_zapp 0%Z (ex_asks_wsgi "gzip;q=1, identity;q=0"))) = Some (lit "identity", []).
Proof.
  split; [|split; vm_compute; reflexivity].
  assert (Cases : forall piece, In piece (split_on 44 (field [lit "gzip;q=1, identity;q=0"])) -> piece = lit "gzip;q=1" \/ piece = lit " identity;q=0").
  { intros piece H. change (In piece [lit "gzip;q=1"; lit " identity;q=0"]) in H. destruct H as [<-|[<-|[]]]; tauto. }
  assert (Ng : forall c x rest, ~ blank x -> c <> [] -> names_type (x :: rest) c -> exists d l, c = d :: l /\ cased x d).
  { intros c x rest Nb Nc (w&core&w'&r&E&Hw&Hc&Hw'&Hr). destruct w as [|y w].
    - destruct Hc as [|a d core l Ha Hc]; [now elim Nc|]. cbn in E. injection E as <- _. now exists d, l.
    - cbn in E. injection E as <- _. inversion Hw; subst. contradiction. }
  assert (Zi : weight_zero (lit " identity;q=0")).
  { exists (lit " identity"), [], 113, [], []. split; [reflexivity|]. split; [constructor|]. split; [now left|]. split; [constructor|now left]. }
  assert (Ni : names_type (lit " identity;q=0") (lit "identity")).
  { exists [32], (lit "identity"), [], (lit ";q=0"). split; [reflexivity|]. split; [repeat constructor; unfold blank; cbn; lia|]. split; [repeat constructor|].
    split; [constructor|]. right. now exists (lit "q=0"). }
  assert (Rf : refused (field [lit "gzip;q=1, identity;q=0"]) (lit "identity")).
  { exists (lit " identity;q=0"). split; [right; now left|]. now split. }
  assert (First : forall c, c <> [] -> names_type (lit "gzip;q=1") c -> exists d l, c = d :: l /\ cased 103 d).
  { intros c Nc N. apply (Ng c 103 (lit "zip;q=1")); auto. unfold blank. cbn. lia. }
  intros [H|[H|[H|H]]].
  - discriminate.
  - destruct H as (piece&I&N&W). destruct (Cases _ I) as [->| ->]; [|contradiction].
    destruct (First (lit "identity") ltac:(discriminate) N) as (d&l&E&[C|(C&_)]); [|lia]. subst d. discriminate.
  - destruct H as (H&Nr). contradiction.
  - destruct H as (_&Nr&_). contradiction.
Qed.
Print Assumptions C87_identity_refuted.

(** Finding: on ASGI only the first line of the header counts; the same list on one line is read whole. *)
Theorem C87_lines_refuted :
  listed (field [lit "br"; lit "gzip"]) (lit "gzip") /\ field [lit "br"; lit "gzip"] = lit "br,gzip"
  /\ coded (ar_events (asgi_call ex_zapp 0%Z (ex_asks ["br"; "gzip"]%string) ex_env)) = Some (lit "identity", [])
  /\ coded (ar_events (asgi_call ex_zapp 0%Z (ex_asks ["br,gzip"]%string) ex_env)) = Some (lit "gzip", [31]).
Proof.
  split; [|split; [reflexivity|split; vm_compute; reflexivity]]. exists (lit "gzip"). split; [right; now left|]. split; [now apply names_exactly|].
  intros (b&w&q&zs&w'&E&_). assert (In 59 (lit "gzip")) as I by (rewrite E; apply in_or_app; right; now left). vm_compute in I. intuition discriminate.
Qed.
Print Assumptions C87_lines_refuted.
