(** C65: a response that reports success comes from a method that succeeded. *)
From Coq Require Import List NArith ZArith Bool String Lia ZifyBool ZifyNat.
From Verif Require Import MBase LBase MPyStr MJson MHeaders SHeaders LHeaders MUtf8 LUtf8 MWire LWire MEnvelope SEnvelope LEnvelope MTimeout MProtocol MClient MServer
  MAsgi MWsgi SServer SStatus LServer LStream LWsgi SProtocol PProtocol PResponse SLink PLink.
Import ListNotations.
Local Open Scope N_scope.

(** ** A loop that finished *)

Definition frames (frs : list bytes) : list aevent := map (fun b => EvBody b true) frs.

Lemma stream_body_none {B} o seen p name (enc : B -> res bytes) z s rs b s' :
  stream_body o seen p name enc z s rs b = (s', None) ->
  exists fr, write_message enc (Some z) b = Ok fr /\ ls_sent s' = true
    /\ ((ls_sent s = true /\ as_ev (ls_a s') = as_ev (ls_a s) ++ [EvBody fr true])
        \/ (ls_sent s = false /\ exists head, encode_pairs (stream_headers p name (z_name z) rs) = Ok head
              /\ as_ev (ls_a s') = as_ev (ls_a s) ++ [EvStart 200 head (uses_trailers p); EvBody fr true])).
Proof.
  unfold stream_body. destruct (seen (ls_i s)); [discriminate|].
  assert (K : forall a a' r, (act body <- io_res (write_message enc (Some z) b); send o (EvBody body true)) a = (a', inl r) ->
              exists fr, write_message enc (Some z) b = Ok fr /\ as_ev a' = as_ev a ++ [EvBody fr true]).
  { intros a a' r. unfold io_bind, io_res. destruct (write_message enc (Some z) b) as [fr|e]; cbn; [|discriminate].
    destruct (send_cases o (EvBody fr true) a) as [[_ ->]|[_ [i ->]]]; [intros [= <- _]|discriminate]. exists fr. split; reflexivity. }
  destruct (ls_sent s).
  - destruct ((act body <- _ ; _) (ls_a s)) as [a [r|i]] eqn:E; [intros [= <-]|discriminate].
    destruct (K _ _ _ E) as (fr&Hw&He). exists fr. cbn. auto.
  - destruct (send_stream_headers_cases o p name (z_name z) rs (ls_a s)) as [(hs&Hh&_&->)|(s2&i&->&_)]; [|discriminate].
    destruct ((act body <- _ ; _) _) as [a [r|i]] eqn:E; [intros [= <-]|discriminate].
    destruct (K _ _ _ E) as (fr&Hw&He). exists fr. cbn. split; [exact Hw|]. split; [reflexivity|]. right. split; [reflexivity|].
    exists hs. split; [exact Hh|]. cbn in He. now rewrite He, <- app_assoc.
Qed.

Lemma asgi_drive_done {A B} o seen p name (enc : B -> res bytes) z (g : prog A B unit) : forall ps rs s s' rs',
  drive (stream_body o seen p name enc z) g ps rs s = (s', rs', LDone) ->
  exists steps frs, behaves g ps rs steps rs' None /\ written enc z steps frs
    /\ if ls_sent s then ls_sent s' = true /\ as_ev (ls_a s') = as_ev (ls_a s) ++ frames frs
       else (steps = [] /\ s' = s)
            \/ (ls_sent s' = true /\ steps <> []
                /\ exists head, encode_pairs (stream_headers p name (z_name z) (head_state steps rs')) = Ok head
                   /\ as_ev (ls_a s') = as_ev (ls_a s) ++ EvStart 200 head (uses_trailers p) :: frames frs).
Proof.
  induction g as [u|i|k IH|b c k IH|op k IH|op k IH]; intros ps rs s s' rs' H; cbn [drive] in H.
  - injection H as <- <-. exists [], []. split; [constructor|]. split; [constructor|].
    destruct (ls_sent s); [|auto]. split; [reflexivity|]. cbn. now rewrite app_nil_r.
  - discriminate.
  - destruct (pull_next ps) as [y ps'] eqn:E. destruct (IH y ps' rs s s' rs' H) as (steps&frs&Hb&X). exists steps, frs. split; [|exact X].
    constructor. now rewrite E.
  - destruct (stream_body o seen p name enc z s rs b) as [s1 [i|]] eqn:Eb; [discriminate|].
    destruct (stream_body_none _ _ _ _ _ _ _ _ _ _ Eb) as (fr&Hw&Hs1&Hev).
    destruct (IH _ _ _ _ _ H) as (steps&frs&Hb&Hwr&X). exists ((rs, b) :: steps), (fr :: frs).
    split; [now constructor|]. split; [now constructor|]. rewrite Hs1 in X. destruct X as [Hs' He'].
    destruct Hev as [[-> Hev]|[-> (head&Hh&Hev)]].
    + split; [exact Hs'|]. rewrite He', Hev, <- app_assoc. reflexivity.
    + right. split; [exact Hs'|]. split; [discriminate|]. exists head. split; [exact Hh|]. rewrite He', Hev, <- app_assoc. reflexivity.
  - destruct (IH _ _ _ _ _ H) as (steps&frs&Hb&X). exists steps, frs. split; [now constructor|exact X].
  - destruct (IH _ _ _ _ _ H) as (steps&frs&Hb&X). exists steps, frs. split; [now constructor|exact X].
Qed.

Lemma asgi_loop_done {A B} o seen mon p name (enc : B -> res bytes) z (g : prog A B unit) ps rs s s' rs' :
  stream_loop o seen mon p name enc z g ps rs s = (s', rs', None) ->
  drive (stream_body o seen p name enc z) g ps rs s = (s', rs', LDone).
Proof.
  unfold stream_loop. destruct (drive _ g ps rs s) as [[s1 rs1] e]. destruct mon; [discriminate|].
  destruct e; intros H; try discriminate. now injection H as <- <-.
Qed.

(** The [try] block of a stream that ends without an exception. *)
Lemma asgi_try_done {A B} (ap : app A B) en p ep k req z cx inv s' rs' :
  stream_try ap en p ep k req z cx (mk_lst (mk_ast 0 []) false 0) = (inv, (s', rs', None)) ->
  exists steps frs, stream_runs ep cx req (fun rz => request_stream ap k rz en) inv steps rs' None
    /\ written (k_enc_res k) z steps frs
    /\ ((steps = [] /\ s' = mk_lst (mk_ast 0 []) false 0)
        \/ (ls_sent s' = true /\ steps <> []
            /\ exists head, encode_pairs (stream_headers p (k_name k) (z_name z) (head_state steps rs')) = Ok head
               /\ as_ev (ls_a s') = EvStart 200 head (uses_trailers p) :: frames frs)).
Proof.
  unfold stream_try. destruct req as [rz|]; [|discriminate]. set (ps := request_stream ap k rz en).
  assert (One : forall b rs, stream_loop (en_send en) (fun _ => false) None p (k_name k) (k_enc_res k) z (@single_response A B b) ([], None) rs
                  (mk_lst (mk_ast 0 []) false 0) = (s', rs', None) ->
                exists frs, rs' = rs /\ written (k_enc_res k) z [(rs, b)] frs /\ ls_sent s' = true
                 /\ exists head, encode_pairs (stream_headers p (k_name k) (z_name z) rs) = Ok head
                    /\ as_ev (ls_a s') = EvStart 200 head (uses_trailers p) :: frames frs).
  { intros b rs H. apply asgi_loop_done in H. apply asgi_drive_done in H. destruct H as (steps&frs&Hb&Hw&Hx).
    inversion Hb as [| | | | |? ? ? ? ? st r e Hb' E1 E2]; subst. inversion Hb'; subst.
    cbn [ls_sent] in Hx. destruct Hx as [[X _]|(Hs&_&head&Hh&He)]; [discriminate|]. exists frs.
    split; [reflexivity|]. split; [exact Hw|]. split; [exact Hs|]. exists head. auto. }
  destruct ep as [m f|m f|m f|m f].
  - destruct (consume_single_request ps) as [a|x] eqn:Ec; [|discriminate]. apply consume_single_ok in Ec.
    destruct (run_fn (f a cx) ([], None) rs_new) as [[b|i] rs] eqn:Ef; intro H; [|discriminate].
    injection H as <- H. destruct (One b rs H) as (frs&->&Hw&Hs&X). exists [(rs, b)], frs. split; [|split; [exact Hw|]].
    + left. exists a. split; [exact Ec|]. split; [reflexivity|]. unfold returns. rewrite Ef. auto.
    + right. split; [exact Hs|]. split; [discriminate|exact X].
  - destruct (run_fn (f cx) ps rs_new) as [[b|i] rs] eqn:Ef; intro H; [|discriminate].
    injection H as <- H. destruct (One b rs H) as (frs&->&Hw&Hs&X). exists [(rs, b)], frs. split; [|split; [exact Hw|]].
    + left. split; [reflexivity|]. unfold returns. fold ps. rewrite Ef. auto.
    + right. split; [exact Hs|]. split; [discriminate|exact X].
  - destruct (consume_single_request ps) as [a|x] eqn:Ec; [|discriminate]. apply consume_single_ok in Ec.
    intro H. injection H as <- H. apply asgi_loop_done, asgi_drive_done in H. destruct H as (steps&frs&Hb&Hw&Hx).
    exists steps, frs. split; [|split; [exact Hw|exact Hx]]. left. exists a. auto.
  - intro H. injection H as <- H. apply asgi_loop_done, asgi_drive_done in H. destruct H as (steps&frs&Hb&Hw&Hx).
    exists steps, frs. split; [|split; [exact Hw|exact Hx]]. left. split; [reflexivity|exact Hb].
Qed.

(** ** The end of a response *)

(** No event of [ev] ends a response. *)
Lemma streaming_no_end p sent ev : streaming p sent ev -> Forall (fun e => ~ ending e) ev.
Proof.
  destruct sent; cbn; [|intros ->; constructor]. intros (hs&chunks&->). constructor; [intros []|].
  induction chunks; cbn; [constructor|]. constructor; [intros []|exact IHchunks].
Qed.

(** What [stream_finally] does once it has sent the first ending event: [full] when it got to the end. *)
Lemma stream_finally_ends o sc p name z s rs i :
  streaming p (ls_sent s) (as_ev (ls_a s)) ->
  let (a, r) := stream_finally o sc p name z s rs i (ls_a s) in
  Forall (fun e => ~ ending e) (as_ev a)
  \/ exists em head pre,
       writer_end sc p z (rs_t rs) (option_map we_from_exception (match i with Some (IExn e) => Some e | _ => None end)) = Ok em
       /\ pre = as_ev (ls_a s) ++ (if ls_sent s then [] else [EvStart 200 head (uses_trailers p)])
       /\ (ls_sent s = false -> encode_pairs (stream_headers p name (z_name z) rs) = Ok head)
       /\ Forall (fun e => ~ ending e) pre
       /\ ((em = EndTrailers match em with EndTrailers h => h | _ => h_empty end /\ as_ev a = pre ++ [EvBody [] false])
           \/ exists ts, (forall h, em = EndTrailers h -> encode_pairs (h_allitems h) = Ok ts) /\ as_ev a = pre ++ asgi_tail em ts
              /\ (i = None -> r = inl tt) /\ (i = Some ICancel -> r = inr (IExn was_cancelled))).
Proof.
  intro H. unfold stream_finally. cbv zeta. pose proof (streaming_no_end _ _ _ H) as N0.
  set (error := match i with Some (IExn e) => Some e | _ => None end).
  unfold io_bind at 1, io_res at 1. destruct (writer_end sc p z (rs_t rs) _) as [em|e] eqn:Em; cbn [io_ret io_raise]; [|left; exact N0].
  unfold io_bind at 1.
  assert (K : (exists a head, (if ls_sent s then io_ret tt else send_stream_headers o p name (z_name z) rs) (ls_a s) = (a, inl tt)
                 /\ as_ev a = as_ev (ls_a s) ++ (if ls_sent s then [] else [EvStart 200 head (uses_trailers p)])
                 /\ (ls_sent s = false -> encode_pairs (stream_headers p name (z_name z) rs) = Ok head)
                 /\ Forall (fun e => ~ ending e) (as_ev a))
              \/ exists a i, (if ls_sent s then io_ret tt else send_stream_headers o p name (z_name z) rs) (ls_a s) = (a, inr i)
                 /\ as_ev a = as_ev (ls_a s)).
  { destruct (ls_sent s).
    - left. exists (ls_a s), []. rewrite app_nil_r. repeat split; [discriminate|exact N0].
    - destruct (send_stream_headers_cases o p name (z_name z) rs (ls_a s)) as [(hs&Hh&_&->)|(s'&x&->&Hs)].
      + left. eexists _, hs. split; [reflexivity|]. split; [reflexivity|]. split; [auto|]. cbn. apply Forall_app. split; [exact N0|].
        repeat constructor. intros [].
      + right. exists s', x. split; [reflexivity|exact Hs]. }
  destruct K as [(a&head&->&Ka&Kh&Kn)|(a&x&->&Ka)]; [|left; now rewrite Ka].
  unfold io_bind at 1.
  assert (T : forall a', let (a2, r) := (match error with
               | Some e => if is_connect e then io_ret tt else io_raise (IExn e)
               | None => match i with Some ICancel => io_raise (IExn was_cancelled) | _ => io_ret tt end
               end) a' in a2 = a' /\ (i = None -> r = inl tt) /\ (i = Some ICancel -> r = inr (IExn was_cancelled))).
  { intro a'. subst error. destruct i as [[e|]|]; cbn; [destruct (is_connect e); cbn|..]; repeat split; discriminate. }
  destruct em as [b|h].
  - destruct (send_cases o (EvBody b false) a) as [[_ ->]|[_ [x ->]]]; [|left; exact Kn].
    specialize (T (mk_ast (S (as_n a)) (as_ev a ++ [EvBody b false]))).
    destruct (_ (mk_ast _ _)) as [a2 r]. destruct T as (->&T1&T2). right. exists (EndBytes b), head, (as_ev a).
    split; [reflexivity|]. split; [exact Ka|]. split; [exact Kh|]. split; [exact Kn|]. right. exists []. split; [discriminate|]. auto.
  - unfold io_bind at 1.
    destruct (send_cases o (EvBody [] false) a) as [[_ ->]|[_ [x ->]]]; [|left; exact Kn].
    unfold io_bind at 1, io_res at 1.
    destruct (encode_pairs (h_allitems h)) as [ts|x] eqn:Et; cbn [io_ret io_raise].
    2:{ right. exists (EndTrailers h), head, (as_ev a). split; [reflexivity|]. split; [exact Ka|]. split; [exact Kh|]. split; [exact Kn|]. left. auto. }
    destruct (send_cases o (EvTrailers ts) (mk_ast (S (as_n a)) (as_ev a ++ [EvBody [] false]))) as [[_ ->]|[_ [x ->]]].
    2:{ right. exists (EndTrailers h), head, (as_ev a). split; [reflexivity|]. split; [exact Ka|]. split; [exact Kh|]. split; [exact Kn|]. left. auto. }
    specialize (T (mk_ast (S (as_n (mk_ast (S (as_n a)) (as_ev a ++ [EvBody [] false])))) (as_ev (mk_ast (S (as_n a)) (as_ev a ++ [EvBody [] false])) ++ [EvTrailers ts]))).
    destruct (_ (mk_ast _ _)) as [a2 r]. destruct T as (->&T1&T2). right. exists (EndTrailers h), head, (as_ev a).
    split; [reflexivity|]. split; [exact Ka|]. split; [exact Kh|]. split; [exact Kn|]. right. exists ts.
    split; [intros ? [= <-]; exact Et|]. split; [cbn; now rewrite <- app_assoc|]. auto.
Qed.

Lemma asgi_stream_ends {A B} (ap : app A B) now sc en ep hs p cx k :
  asgi_stream_request ap now sc ep hs p cx k ->
  let r := asgi_call ap now sc en in
  Forall (fun e => ~ ending e) (ar_events r)
  \/ exists req z rs err em pre,
       negotiate_stream_compression p hs (ap_comps ap) = (req, z)
       /\ writer_end (ap_sc ap) p z (rs_t rs) err = Ok em
       /\ Forall (fun e => ~ ending e) pre
       /\ ((uses_trailers p = true /\ ar_events r = pre ++ [EvBody [] false])
           \/ exists ts, (forall h, em = EndTrailers h -> encode_pairs (h_allitems h) = Ok ts) /\ ar_events r = pre ++ asgi_tail em ts
              /\ (err = None -> ar_out r = ARaise was_cancelled \/ asgi_succeeded ap now sc en ep hs p cx k (asgi_tail em ts))).
Proof.
  intros Hq r. subst r. unfold asgi_succeeded. rewrite (asgi_call_stream _ _ _ _ _ _ _ _ _ Hq). clear Hq.
  unfold handle_stream. destruct (negotiate_stream_compression p hs (ap_comps ap)) as [req z] eqn:En.
  pose proof (stream_try_inv ap en p ep k req z cx) as H.
  destruct (stream_try ap en p ep k req z cx _) as [inv [[s rs] i]] eqn:Et.
  pose proof (stream_finally_ends (en_send en) (ap_sc ap) p (k_name k) z s rs i H) as K.
  destruct (stream_finally _ _ _ _ _ _ _ _ _) as [a r]. cbn [ar_events ar_out]. destruct K as [K|(em&head&pre&Hem&Hpre&Hh&Hn&K)]; [left; exact K|].
  right. exists req, z, rs, (option_map we_from_exception (match i with Some (IExn e) => Some e | _ => None end)), em, pre.
  split; [reflexivity|]. split; [exact Hem|]. split; [exact Hn|]. destruct K as [[Ke K]|(ts&Hts&Hev&Hr&Hc)].
  - left. split; [|exact K]. pose proof (writer_end_kind _ _ _ _ _ _ Hem) as X. rewrite Ke in X. exact X.
  - right. exists ts. split; [exact Hts|]. split; [exact Hev|]. intro He. destruct i as [[e|]|]; [discriminate|left|right].
    + now rewrite (Hc eq_refl).
    + destruct (asgi_try_done _ _ _ _ _ _ _ _ _ _ _ Et) as (steps&frs&Hs&Hw&[[-> ->]|(Hs1&Hne&head'&Hh'&He')]).
      * cbn in Hpre, Hh. inversion Hw; subst frs. exists req, z, inv, [], rs, [], head. cbn [head_state].
        split; [reflexivity|]. split; [exact Hs|]. split; [exact Hw|]. split; [now apply Hh|]. rewrite (Hr eq_refl), Hev, Hpre. reflexivity.
      * exists req, z, inv, steps, rs, frs, head'. split; [reflexivity|]. split; [exact Hs|]. split; [exact Hw|]. split; [exact Hh'|].
        rewrite (Hr eq_refl), Hev, Hpre, Hs1, He', app_nil_r. reflexivity.
Qed.

Lemma ending_split (pre tail : list aevent) e : Forall (fun e => ~ ending e) pre -> ending e -> In e (pre ++ tail) -> In e tail.
Proof.
  intros F He H. apply in_app_or in H as [H|H]; [|exact H]. rewrite Forall_forall in F. destruct (F e H He).
Qed.

(** ** gRPC trailers *)

Lemma lower_utf8 s b : utf8_encode s = Some b -> utf8_encode (lower s) = Some (lower b).
Proof.
  revert b. induction s as [|c s IH]; intros b H; cbn [utf8_encode] in H; [injection H as <-; reflexivity|].
  destruct (is_scalarb c) eqn:Ec; [|discriminate]. destruct (utf8_encode s) as [r|]; [|discriminate]. injection H as <-.
  specialize (IH r eq_refl). change (lower (c :: s)) with (lower_c c :: lower s). cbn [utf8_encode].
  assert (X : is_scalarb (lower_c c) = true /\ utf8_char (lower_c c) = lower (utf8_char c)).
  { destruct (c <? 128) eqn:E.
    - assert (Hl : lower_c c < 128) by (unfold lower_c; destruct ((65 <=? c) && (c <=? 90)) eqn:E2; lia).
      split.
      + apply is_scalarb_spec. unfold is_scalar, is_surrogate. lia.
      + unfold utf8_char. rewrite E. replace (lower_c c <? 128) with true by lia. reflexivity.
    - assert (Hl : lower_c c = c) by (unfold lower_c; destruct ((65 <=? c) && (c <=? 90)) eqn:E2; lia). rewrite Hl. split; [exact Ec|].
      assert (G : Forall (fun x => 128 <= x) (utf8_char c)).
      { unfold utf8_char. rewrite E. destruct (c <? 2048); [|destruct (c <? 65536)]; repeat constructor; lia. }
      unfold lower. clear -G. induction G as [|x l Hx G IH]; [reflexivity|]. cbn [map]. rewrite <- IH. f_equal.
      unfold lower_c. destruct ((65 <=? x) && (x <=? 90)) eqn:E2; lia. }
  destruct X as [-> ->]. rewrite IH. unfold lower. now rewrite map_app.
Qed.

Lemma same_name_utf8 k b : utf8_encode k = Some b -> same_name (lit "grpc-status") b = same_name (lit "grpc-status") k.
Proof.
  intro H. unfold same_name. change (lower (lit "grpc-status")) with (lit "grpc-status"). apply lower_utf8 in H.
  destruct (str_eqb (lit "grpc-status") (lower k)) eqn:E.
  - apply str_eqb_eq in E. rewrite <- E in H. change (utf8_encode (lit "grpc-status")) with (Some (lit "grpc-status")) in H. injection H as H.
    rewrite <- H. reflexivity.
  - destruct (str_eqb (lit "grpc-status") (lower b)) eqn:E2; [|reflexivity]. apply str_eqb_eq in E2. rewrite <- E2 in H.
    apply utf8_roundtrip in H. change (utf8_decode (lit "grpc-status")) with (Some (lit "grpc-status")) in H. injection H as H.
    rewrite <- H in E. discriminate E.
Qed.

Lemma statuses_encoded l ts : encode_pairs l = Ok ts ->
  Forall2 (fun v b => utf8_encode v = Some b) (map snd (filter (fun kv => same_name (lit "grpc-status") (fst kv)) l)) (statuses ts).
Proof.
  revert ts. induction l as [|[k v] l IH]; intros ts H; cbn [encode_pairs] in H; [injection H as <-; constructor|].
  unfold encode_str in H. destruct (utf8_encode k) as [bk|] eqn:Ek; [|discriminate]. cbn [bind] in H.
  destruct (utf8_encode v) as [bv|] eqn:Ev; [|discriminate]. cbn [bind] in H.
  destruct (encode_pairs l) as [r|]; [|discriminate]. cbn [bind] in H. injection H as <-.
  unfold statuses. cbn [filter fst]. rewrite (same_name_utf8 _ _ Ek). specialize (IH r eq_refl).
  destruct (same_name (lit "grpc-status") k); [|exact IH]. cbn [map snd]. constructor; [exact Ev|exact IH].
Qed.

Lemma grpc_trailers_inv sc u err t : grpc_trailers sc u err = Ok t -> h_inv t.
Proof.
  unfold grpc_trailers. assert (I0 : h_inv (h_of_pairs (h_allitems u))) by apply h_inv_of_pairs.
  destruct err as [w|]; [|intros [= <-]; now apply h_inv_set].
  destruct (nonempty (we_msg w)); [destruct (MPercent.quote (we_msg w)) as [q|]; [|discriminate]|]; cbn [bind];
    (destruct (nonempty (we_details w)); [destruct (st_to _ _); [|discriminate]; cbn [bind]|]); intros [= <-]; repeat apply h_inv_set; auto.
Qed.

(** The status lines of the trailers before they are encoded. *)
Lemma grpc_trailers_statuses sc u err t : grpc_trailers sc u err = Ok t ->
  exists s, statuses (h_allitems t) = [s]
    /\ match err with None => s = lit "0" | Some w => exists n, In (n, we_code w) grpc_spec_codes /\ s = lit n end.
Proof.
  intro H. destruct (grpc_trailers_status _ _ _ _ H) as (s&Hs&X). exists s. split; [|exact X].
  exact (eq_trans (filter_allitems t (lit "grpc-status") (grpc_trailers_inv _ _ _ _ H)) Hs).
Qed.
Lemma spec_status_ascii n c : In (n, c) grpc_spec_codes -> utf8_encode (lit n) = Some (lit n) /\ lit n <> lit "0".
Proof. intro H. unfold grpc_spec_codes in H. cbn in H. repeat (destruct H as [[= <- <-]|H]; [split; [reflexivity|discriminate]|]). destruct H. Qed.

(** Whatever the environment does, trailers sent over ASGI hold exactly one grpc-status line; it is 0 only if the method
    returned without raising and all its messages were sent before (or the call was cancelled from outside: C41), and
    otherwise it is the number of one of the published error codes. *)
Theorem C65_asgi_grpc_partial {A B} (ap : app A B) now sc en ts :
  In (EvTrailers ts) (ar_events (asgi_call ap now sc en)) ->
  exists ep hs cx k s, asgi_stream_request ap now sc ep hs PGrpc cx k /\ statuses ts = [s]
    /\ (s = lit "0" -> ar_out (asgi_call ap now sc en) = ARaise was_cancelled
                       \/ asgi_succeeded ap now sc en ep hs PGrpc cx k [EvBody [] false; EvTrailers ts])
    /\ (s <> lit "0" -> exists n c, In (n, c) grpc_spec_codes /\ s = lit n).
Proof.
  intro H.
  assert (X : exists ep hs p cx k, asgi_stream_request ap now sc ep hs p cx k).
  { revert H. unfold asgi_call, asgi_stream_request. destruct (open_request ap now sc) as [[[[ep hs] p] cx]|e] eqn:Eo.
    2:{ unfold call_error. intro H. exfalso. destruct (handle_error_cases (en_send en) e None (mk_ast 0 []))
          as [(?&?&?&_&_&E)|[(?&?&?&?&_&E&Ev)|(?&?&E&Ev)]]; rewrite E in H; cbn in H; try rewrite Ev in H; cbn in H; intuition discriminate. }
    destruct (select_codec ap sc ep hs p) as [[params k]|e] eqn:Es.
    2:{ unfold call_error. intro H. exfalso. destruct (handle_error_cases (en_send en) e (Some rs_new) (mk_ast 0 []))
          as [(?&?&?&_&_&E)|[(?&?&?&?&_&E&Ev)|(?&?&E&Ev)]]; rewrite E in H; cbn in H; try rewrite Ev in H; cbn in H; intuition discriminate. }
    intro H. exists ep, hs, p, cx, k. split; [reflexivity|]. split; [eauto|].
    intros ->. destruct ep as [m f|m f|m f|m f]; try reflexivity. exfalso.
    assert (Err : forall inv s e ctx, ~ In (EvTrailers ts) (as_ev s) -> ~ In (EvTrailers ts) (ar_events (@call_error A en inv s e ctx))).
    { intros inv s e ctx N. unfold call_error. destruct (handle_error_cases (en_send en) e ctx s)
          as [(?&?&?&_&_&E)|[(?&?&?&?&_&E&Ev)|(?&?&E&Ev)]]; rewrite E; cbn; try rewrite Ev; try exact N;
        rewrite in_app_iff; cbn; intuition discriminate. }
    destruct (handle_unary_connect_cases ap en (sc_method sc) hs k params f cx (mk_ast 0 []))
      as [[i E]|[(a&i&rs&_&E)|(a&b&rs&z&_&E)]]; rewrite E in H.
    - destruct i; [|exact H]. revert H. apply Err. intros [].
    - destruct i; [|exact H]. revert H. apply Err. intros [].
    - destruct (send_unary_response_cases (en_send en) k z b rs (mk_ast 0 []))
        as [(h&body&_&_&E')|[(h&s'&i&_&_&He&E')|(s'&i&He&E')]]; rewrite E' in H.
      + cbn in H. intuition discriminate.
      + destruct i; [revert H; apply Err|cbn in H]; rewrite He in *; cbn in *; intuition discriminate.
      + destruct i; [revert H; apply Err|cbn in H]; rewrite He in *; cbn in *; intuition discriminate. }
  destruct X as (ep&hs&p&cx&k&Hq).
  destruct (asgi_stream_ends ap now sc en ep hs p cx k Hq) as [N|(req&z&rs&err&em&pre&_&Hem&N&[[_ E]|(ts'&Ht&E&Hs)])].
  - exfalso. rewrite Forall_forall in N. exact (N _ H I).
  - exfalso. rewrite E in H. apply ending_split in H; [|exact N|exact I]. cbn in H. intuition discriminate.
  - rewrite E in H. apply ending_split in H; [|exact N|exact I]. destruct em as [b|h]; cbn in H; [intuition discriminate|].
    destruct H as [H|[H|[]]]; [discriminate|]. injection H as ->. specialize (Ht h eq_refl).
    pose proof (writer_end_kind _ _ _ _ _ _ Hem) as Kp. cbn in Kp.
    destruct p; try discriminate Kp. cbn [writer_end] in Hem.
    destruct (grpc_trailers (ap_sc ap) (rs_t rs) err) as [h'|] eqn:Eg; [|discriminate]. cbn [bind] in Hem. injection Hem as ->.
    destruct (grpc_trailers_statuses _ _ _ _ Eg) as (s&Es&Hst). pose proof (statuses_encoded _ _ Ht) as F.
    change (Forall2 (fun v b => utf8_encode v = Some b) (statuses (h_allitems h)) (statuses ts)) in F. rewrite Es in F. inversion F as [|? b ? l Hb F' E1 E2]; subst. inversion F'; subst.
    assert (Eb : utf8_encode s = Some s).
    { destruct err as [w|]; [destruct Hst as (n&Hn&->); now apply (spec_status_ascii n (we_code w))|subst s; reflexivity]. }
    rewrite Eb in Hb. injection Hb as <-.
    exists ep, hs, cx, k, s. split; [exact Hq|]. split; [reflexivity|]. destruct err as [w|].
    + destruct Hst as (n&Hn&->). split; [intro X; now destruct (proj2 (spec_status_ascii _ _ Hn))|]. eauto.
    + subst s. split; [intros _; exact (Hs eq_refl)|]. intro X. now destruct X.
Qed.
Print Assumptions C65_asgi_grpc_partial.

Lemma end_frame_ok bit z d data hd : (bit = 2 \/ bit = 128) -> maybe_compress (Some z) d = Ok data ->
  struct_pack_BI (N.lor (writer_prefix (Some z)) bit) (lenN data) = Ok hd -> end_frame bit z d (hd ++ data).
Proof.
  intros Hb Hc Hp. exists data. split; [exact Hc|]. apply packed_frame in Hp. unfold writer_prefix in Hp.
  destruct (z_identity z), Hb as [-> | ->]; exact Hp.
Qed.

(** A Connect stream response whose last message has no "error" comes from a method that succeeded. *)
Theorem C65_asgi_connect_partial {A B} (ap : app A B) now sc en ep hs cx k b :
  asgi_stream_request ap now sc ep hs PConnect cx k -> In (EvBody b false) (ar_events (asgi_call ap now sc en)) ->
  exists req z obj d, negotiate_stream_compression PConnect hs (ap_comps ap) = (req, z)
    /\ json_bytes (JObj obj) = Ok d /\ end_frame 2 z d b
    /\ (~ In (lit "error") (map fst obj) ->
        ar_out (asgi_call ap now sc en) = ARaise was_cancelled
        \/ asgi_succeeded ap now sc en ep hs PConnect cx k [EvBody b false]).
Proof.
  intros Hq H. destruct (asgi_stream_ends ap now sc en ep hs PConnect cx k Hq) as [N|(req&z&rs&err&em&pre&Hn&Hem&N&[[X _]|(ts'&Ht&E&Hs)])].
  - exfalso. rewrite Forall_forall in N. exact (N _ H I).
  - discriminate X.
  - rewrite E in H. apply ending_split in H; [|exact N|exact I]. cbn [writer_end] in Hem.
    destruct (connect_end (Some z) (rs_t rs) err) as [b'|] eqn:Ec; [|discriminate]. cbn [bind] in Hem. injection Hem as <-.
    destruct H as [H|[]]. injection H as ->. unfold connect_end in Ec.
    destruct (json_bytes (connect_end_json (rs_t rs) err)) as [d|] eqn:Ej; [|discriminate]. cbn [bind] in Ec.
    destruct (maybe_compress (Some z) d) as [data|] eqn:Em; [|discriminate]. cbn [bind] in Ec.
    destruct (struct_pack_BI _ _) as [hd|] eqn:Ep; [|discriminate]. cbn [bind] in Ec. injection Ec as <-.
    unfold connect_end_json in Ej. eexists req, z, _, d. split; [exact Hn|]. split; [exact Ej|]. split; [now apply end_frame_ok; auto|].
    intro Nin. destruct err as [w|]; [|exact (Hs eq_refl)]. exfalso. apply Nin. rewrite map_app. apply in_or_app. right. left. reflexivity.
Qed.
Print Assumptions C65_asgi_connect_partial.

(** A gRPC-Web response is ended by one trailer frame whose lines hold exactly one grpc-status, 0 only for success.  (A value
    with a line break in it adds a line of its own: see [C65_web_injection_refuted].) *)
Theorem C65_asgi_web_partial {A B} (ap : app A B) now sc en ep hs cx k b :
  asgi_stream_request ap now sc ep hs PGrpcWeb cx k -> In (EvBody b false) (ar_events (asgi_call ap now sc en)) ->
  exists req z ts d s, negotiate_stream_compression PGrpcWeb hs (ap_comps ap) = (req, z)
    /\ utf8_encode (web_lines ts) = Some d /\ end_frame 128 z d b /\ statuses ts = [s]
    /\ (s = lit "0" -> ar_out (asgi_call ap now sc en) = ARaise was_cancelled
                       \/ asgi_succeeded ap now sc en ep hs PGrpcWeb cx k [EvBody b false])
    /\ (s <> lit "0" -> exists n c, In (n, c) grpc_spec_codes /\ s = lit n).
Proof.
  intros Hq H. destruct (asgi_stream_ends ap now sc en ep hs PGrpcWeb cx k Hq) as [N|(req&z&rs&err&em&pre&Hn&Hem&N&[[X _]|(ts'&Ht&E&Hs)])].
  - exfalso. rewrite Forall_forall in N. exact (N _ H I).
  - discriminate X.
  - rewrite E in H. apply ending_split in H; [|exact N|exact I]. cbn [writer_end] in Hem.
    destruct (grpc_web_end _ (Some z) (rs_t rs) err) as [b'|] eqn:Ec; [|discriminate]. cbn [bind] in Hem. injection Hem as <-.
    destruct H as [H|[]]. injection H as ->. unfold grpc_web_end in Ec.
    destruct (grpc_trailers (ap_sc ap) (rs_t rs) err) as [t|] eqn:Eg; [|discriminate]. cbn [bind] in Ec.
    destruct (utf8_encode (trailer_block (h_allitems t))) as [d|] eqn:Ej; [|discriminate]. cbn [bind] in Ec.
    destruct (maybe_compress (Some z) d) as [data|] eqn:Em; [|discriminate]. cbn [bind] in Ec.
    destruct (struct_pack_BI _ _) as [hd|] eqn:Ep; [|discriminate]. cbn [bind] in Ec. injection Ec as <-.
    destruct (grpc_trailers_statuses _ _ _ _ Eg) as (s&Es&Hst).
    exists req, z, (h_allitems t), d, s. split; [exact Hn|]. unfold web_lines. rewrite <- flat_map_concat_map. split; [exact Ej|].
    split; [now apply end_frame_ok; auto|]. split; [exact Es|]. destruct err as [w|].
    + destruct Hst as (n&Hn'&->). split; [intro X; now destruct (proj2 (spec_status_ascii _ _ Hn'))|]. eauto.
    + subst s. split; [intros _; exact (Hs eq_refl)|]. intro X. now destruct X.
Qed.
Print Assumptions C65_asgi_web_partial.

(** ** WSGI *)

Lemma wsgi_drive_done {A B} p name (enc : B -> res bytes) z (g : prog A B unit) : forall ps rs s s' rs',
  drive (wsgi_body_step p name enc z) g ps rs s = (s', rs', LDone) ->
  exists steps frs, behaves g ps rs steps rs' None /\ written enc z steps frs
    /\ if ws_started s then ws_started s' = true /\ ws_ev s' = ws_ev s ++ map WBody frs
       else (steps = [] /\ s' = s)
            \/ (ws_started s' = true /\ steps <> []
                /\ ws_ev s' = ws_ev s ++ WStart (lit "200 OK") (stream_headers p name (z_name z) (head_state steps rs')) :: map WBody frs).
Proof.
  induction g as [u|i|k IH|b c k IH|op k IH|op k IH]; intros ps rs s s' rs' H; cbn [drive] in H.
  - injection H as <- <-. exists [], []. split; [constructor|]. split; [constructor|].
    destruct (ws_started s); [|auto]. split; [reflexivity|]. cbn. now rewrite app_nil_r.
  - discriminate.
  - destruct (pull_next ps) as [y ps'] eqn:E. destruct (IH y ps' rs s s' rs' H) as (steps&frs&Hb&X). exists steps, frs. split; [|exact X].
    constructor. now rewrite E.
  - unfold wsgi_body_step in H at 1. destruct (write_message enc (Some z) b) as [fr|x] eqn:Ew; [|discriminate].
    destruct (IH _ _ _ _ _ H) as (steps&frs&Hb&Hwr&X). exists ((rs, b) :: steps), (fr :: frs).
    split; [now constructor|]. split; [now constructor|]. cbn [ws_started ws_ev] in X. destruct X as [Hs' He'].
    destruct (ws_started s).
    + split; [exact Hs'|]. rewrite He', <- app_assoc. reflexivity.
    + right. split; [exact Hs'|]. split; [discriminate|]. rewrite He', <- !app_assoc. reflexivity.
  - destruct (IH _ _ _ _ _ H) as (steps&frs&Hb&X). exists steps, frs. split; [now constructor|exact X].
  - destruct (IH _ _ _ _ _ H) as (steps&frs&Hb&X). exists steps, frs. split; [now constructor|exact X].
Qed.

Lemma wsgi_run_done {A B} p (ep : endpoint A B) k z ps cx inv s rs :
  wsgi_run p ep k z ps cx = (inv, (s, rs, LDone)) ->
  exists steps frs, method_does ep cx ps inv steps rs None /\ written (k_enc_res k) z steps frs
    /\ ((steps = [] /\ s = mk_wst [] false)
        \/ (ws_started s = true
            /\ ws_ev s = WStart (lit "200 OK") (stream_headers p (k_name k) (z_name z) (head_state steps rs)) :: map WBody frs)).
Proof.
  assert (One : forall b rs0, drive (wsgi_body_step p (k_name k) (k_enc_res k) z) (@single_response A B b) ([], None) rs0 (mk_wst [] false)
                  = (s, rs, LDone) ->
                exists frs, rs = rs0 /\ written (k_enc_res k) z [(rs0, b)] frs /\ ws_started s = true
                 /\ ws_ev s = WStart (lit "200 OK") (stream_headers p (k_name k) (z_name z) rs0) :: map WBody frs).
  { intros b rs0 H. apply wsgi_drive_done in H. destruct H as (steps&frs&Hb&Hw&Hx).
    inversion Hb as [| | | | |? ? ? ? ? st r e Hb' E1 E2]; subst. inversion Hb'; subst.
    cbn [ws_started] in Hx. destruct Hx as [[X _]|(Hs&_&He)]; [discriminate|]. exists frs. auto. }
  unfold wsgi_run. destruct ep as [m f|m f|m f|m f]; cbn [method_does].
  - destruct (consume_single_request ps) as [a|x] eqn:Ec; [|discriminate]. apply consume_single_ok in Ec.
    destruct (run_fn (f a cx) ([], None) rs_new) as [[b|i] rs0] eqn:Ef; intro H; [|discriminate].
    injection H as <- H. destruct (One b rs0 H) as (frs&->&Hw&Hs&X). exists [(rs0, b)], frs. split; [|split; [exact Hw|right; auto]].
    exists a. split; [exact Ec|]. split; [reflexivity|]. unfold returns. rewrite Ef. auto.
  - destruct (run_fn (f cx) ps rs_new) as [[b|i] rs0] eqn:Ef; intro H; [|discriminate].
    injection H as <- H. destruct (One b rs0 H) as (frs&->&Hw&Hs&X). exists [(rs0, b)], frs. split; [|split; [exact Hw|right; auto]].
    split; [reflexivity|]. unfold returns. rewrite Ef. auto.
  - destruct (consume_single_request ps) as [a|x] eqn:Ec; [|discriminate]. apply consume_single_ok in Ec.
    intro H. injection H as <- H. apply wsgi_drive_done in H. destruct H as (steps&frs&Hb&Hw&Hx).
    exists steps, frs. split; [exists a; auto|]. split; [exact Hw|]. destruct Hx as [X|(H1&_&H2)]; auto.
  - intro H. injection H as <- H. apply wsgi_drive_done in H. destruct H as (steps&frs&Hb&Hw&Hx).
    exists steps, frs. split; [auto|]. split; [exact Hw|]. destruct Hx as [X|(H1&_&H2)]; auto.
Qed.

Definition no_trl (ev : list wevent) : Prop := forall ts, ~ In (WTrailers ts) ev.
Lemma no_trl_app x y : no_trl x -> no_trl y -> no_trl (x ++ y).
Proof. intros H1 H2 ts H. apply in_app_or in H as [H|H]; [exact (H1 _ H)|exact (H2 _ H)]. Qed.
Lemma no_trl_log e : no_trl (maybe_log e).
Proof. unfold maybe_log. destruct (_ || _); intros ts H; cbn in H; intuition discriminate. Qed.
Lemma no_trl_shape b ev : wshape b ev -> no_trl ev.
Proof.
  destruct b; cbn; [intros (hs&frs&->)|intros ->]; intros ts H; cbn in H; [|exact H]. destruct H as [H|H]; [discriminate|].
  apply in_map_iff in H as (x&H&_). discriminate.
Qed.
Lemma call_error_trl {A} q (inv : list (invoked A)) ev e ctx ts :
  In (WTrailers ts) (wr_events (wsgi_call_error q inv ev e ctx)) -> In (WTrailers ts) ev.
Proof.
  unfold wsgi_call_error. destruct (drain q 1) as [x|]; [auto|].
  assert (L : In (WTrailers ts) (ev ++ maybe_log e) -> In (WTrailers ts) ev).
  { intro H. apply in_app_or in H as [H|H]; [exact H|]. now apply no_trl_log in H. }
  destruct (wsgi_handle_error e ctx) as [out|x] eqn:E; cbn [wr_events]; [|exact L]. intro H. apply in_app_or in H as [H|H]; [auto|exfalso].
  unfold wsgi_handle_error in E. destruct (match e with EHttp _ _ => _ | _ => _ end) as [[[st hs] body]|x] eqn:E'; cbn in E; [|discriminate].
  injection E as <-. destruct H as [H|H]; [discriminate|]. destruct e as [c m ds|st' hs'|k m].
  - destruct (we_to_json_bytes _); cbn in E'; [injection E' as <- <- <-|discriminate]. cbn in H. intuition discriminate.
  - injection E' as <- <- <-. exact H.
  - destruct (we_to_json_bytes _); cbn in E'; [injection E' as <- <- <-|discriminate]. cbn in H. intuition discriminate.
Qed.

(** Trailers in the result of [_handle_stream]. *)
Definition ended_by (sc : status_codec) (p : proto) (ts : list (pystr * pystr)) (err : option exn) : Prop :=
  exists z rs h, writer_end sc p z (rs_t rs) (option_map we_from_exception err) = Ok (EndTrailers h) /\ ts = h_allitems h.
Lemma end_response_trl sc p z rs err fin ts : end_response sc p z (rs_t rs) err = Ok fin -> In (WTrailers ts) fin ->
  ended_by sc p ts err /\ fin = [WTrailers ts; WBody []].
Proof.
  unfold end_response. destruct (writer_end _ _ _ _ _) as [[b|h]|x] eqn:E; cbn [bind]; [intros [= <-]|intros [= <-]|discriminate]; intro H.
  - cbn in H. intuition discriminate.
  - destruct H as [H|[H|[]]]; [|discriminate]. injection H as <-. split; [|reflexivity]. exists z, rs, h. auto.
Qed.
Lemma stream_error_trl {A B} (ap : app A B) q p name z inv rs ev e ts : no_trl ev ->
  let '(_, _, ev', _) := wsgi_stream_error ap q p name z inv rs ev e in
  In (WTrailers ts) ev' -> ended_by (ap_sc ap) p ts (Some e).
Proof.
  intro N. unfold wsgi_stream_error. destruct (drain q 0); [intro H; now apply N in H|].
  assert (N' : no_trl (ev ++ maybe_log e ++ [WStart (lit "200 OK") (stream_headers p name (z_name z) rs)])).
  { apply no_trl_app; [exact N|]. apply no_trl_app; [apply no_trl_log|]. intros ? [X|[]]. discriminate. }
  destruct (end_response _ _ _ _ _) as [fin|x] eqn:E; intro H; [|now apply N' in H].
  apply in_app_or in H as [H|H]; [now apply N' in H|]. exact (proj1 (end_response_trl _ _ _ _ _ _ _ E H)).
Qed.

Lemma wsgi_stream_trl {A B} (ap : app A B) now q ep hs p cx k ts :
  wsgi_stream_request ap now q ep hs p cx k -> In (WTrailers ts) (wr_events (wsgi_call ap now q)) ->
  exists err, ended_by (ap_sc ap) p ts err
    /\ (err = None -> wsgi_succeeded ap now q ep hs p cx k [WTrailers ts; WBody []]).
Proof.
  intros Hq. unfold wsgi_succeeded. rewrite (wsgi_call_stream _ _ _ _ _ _ _ _ Hq). destruct Hq as (_&Hk&_).
  unfold wsgi_stream. destruct (negotiate_stream_compression p hs (ap_comps ap)) as [req z] eqn:En. rewrite Hk. cbv zeta.
  assert (Err : forall inv rs ev e, no_trl ev ->
     In (WTrailers ts) (wr_events (let '(inv, rs, ev, i) := wsgi_stream_error ap q p (k_name k) z inv rs ev e in
        match i with None => mk_wr inv ev WReturn | Some ICancel => mk_wr inv ev WBase | Some (IExn e) => wsgi_call_error q inv ev e (Some rs) end)) ->
     ended_by (ap_sc ap) p ts (Some e)).
  { intros inv rs ev e N. pose proof (stream_error_trl ap q p (k_name k) z inv rs ev e ts N) as K.
    destruct (wsgi_stream_error ap q p (k_name k) z inv rs ev e) as [[[inv' rs'] ev'] i]. intro H. apply K.
    destruct i as [[x|]|]; [now apply call_error_trl in H|exact H..]. }
  destruct req as [rz|].
  2:{ intro H. eexists. split; [apply (Err [] rs_new [] (EConnect Unimplemented (lit "Unrecognized request compression") []) ltac:(intros ? []))|discriminate].
      destruct (wsgi_stream_error _ _ _ _ _ _ _ _ _) as [[[inv' rs'] ev'] i]. destruct i as [[x|]|]; exact H. }
  pose proof (wsgi_run_shape p ep k z (wsgi_request_stream ap k rz q) cx) as Sh.
  destruct (wsgi_run p ep k z _ cx) as [inv [[s rs] le]] eqn:Er. destruct (ws_started s) eqn:Es.
  - pose proof (no_trl_shape _ _ Sh) as N. unfold response_stream_end. intro H.
    assert (Fin : forall err, In (WTrailers ts) (wr_events (match end_response (ap_sc ap) p z (rs_t rs) err with
                    Ok fin => mk_wr inv (ws_ev s ++ fin) WReturn | Raise x => mk_wr inv (ws_ev s) (WExn x) end)) ->
                  ended_by (ap_sc ap) p ts err /\ end_response (ap_sc ap) p z (rs_t rs) err = Ok [WTrailers ts; WBody []]).
    { intros err X. destruct (end_response (ap_sc ap) p z (rs_t rs) err) as [fin|x] eqn:E in X |- *; cbn [wr_events] in X; [|now apply N in X].
      apply in_app_or in X as [X|X]; [now apply N in X|]. destruct (end_response_trl _ _ _ _ _ _ _ E X) as [Y ->]. auto. }
    destruct (loop_interrupt le) as [[x|]|] eqn:El.
    + destruct (drain q 2); [now apply N in H|]. exists (Some x). split; [exact (proj1 (Fin _ H))|discriminate].
    + now apply N in H.
    + exists None. destruct (Fin _ H) as [F1 F2]. split; [exact F1|]. intros _. rewrite F2.
      destruct le; try discriminate El. destruct (wsgi_run_done _ _ _ _ _ _ _ _ _ Er) as (steps&frs&Hm&Hw&[[_ X]|[_ Hev]]).
      { rewrite X in Es. discriminate Es. }
      exists (Some rz), z, inv, steps, rs, frs. split; [reflexivity|]. split; [left; exact Hm|]. split; [exact Hw|]. now rewrite Hev.
  - cbn in Sh. rewrite Sh. destruct (loop_interrupt le) as [[x|]|] eqn:El.
    + intro H. exists (Some x). split; [|discriminate]. apply (Err inv rs [] x ltac:(intros ? [])).
      destruct (wsgi_stream_error _ _ _ _ _ _ _ _ _) as [[[inv' rs'] ev'] i]. destruct i as [[y|]|]; exact H.
    + intros [].
    + cbn [List.app]. destruct (end_response (ap_sc ap) p z (rs_t rs) None) as [fin|x] eqn:E.
      * intro H. cbn [wr_events] in H. destruct H as [H|H]; [discriminate|]. destruct (end_response_trl _ _ _ _ _ _ _ E H) as [Y ->].
        exists None. split; [exact Y|]. intros _.
        destruct le; try discriminate El. destruct (wsgi_run_done _ _ _ _ _ _ _ _ _ Er) as (steps&frs&Hm&Hw&[[-> X]|[X _]]).
        2:{ rewrite X in Es. discriminate Es. }
        inversion Hw; subst frs. exists (Some rz), z, inv, [], rs, []. split; [reflexivity|]. split; [left; exact Hm|]. split; [exact Hw|reflexivity].
      * intro H. exists (Some x). split; [|discriminate].
        apply (Err inv rs [WStart (lit "200 OK") (stream_headers p (k_name k) (z_name z) rs)] x ltac:(intros ? [X|[]]; discriminate)).
        destruct (wsgi_stream_error _ _ _ _ _ _ _ _ _) as [[[inv' rs'] ev'] i]. destruct i as [[y|]|]; exact H.
Qed.

(** The same over WSGI, where no cancellation is turned into trailers. *)
Theorem C65_wsgi_grpc {A B} (ap : app A B) now q ts :
  In (WTrailers ts) (wr_events (wsgi_call ap now q)) ->
  exists ep hs cx k s, wsgi_stream_request ap now q ep hs PGrpc cx k /\ statuses ts = [s]
    /\ (s = lit "0" -> wsgi_succeeded ap now q ep hs PGrpc cx k [WTrailers ts; WBody []])
    /\ (s <> lit "0" -> exists n c, In (n, c) grpc_spec_codes /\ s = lit n).
Proof.
  intro H.
  assert (X : exists ep hs p cx k, wsgi_stream_request ap now q ep hs p cx k).
  { revert H. unfold wsgi_call, wsgi_stream_request. destruct (wsgi_open_request ap now q) as [[[[ep hs] p] cx]|e] eqn:Eo.
    2:{ intro H. apply call_error_trl in H. destruct H. }
    assert (S : In (WTrailers ts) (wr_events match wsgi_stream ap q p hs ep cx with
      | inr r => r
      | inl (inv, rs, ev, None) => mk_wr inv ev WReturn
      | inl (inv, rs, ev, Some ICancel) => mk_wr inv ev WBase
      | inl (inv, rs, ev, Some (IExn e)) => wsgi_call_error q inv ev e (Some rs)
      end) -> (p = PConnect -> is_unary ep = false) -> exists ep0 hs0 p0 cx0 k, Ok (ep, hs, p, cx) = Ok (ep0, hs0, p0, cx0)
         /\ dget (ap_codecs ap) (codec_name_from_content_type p0 true (h_get_default hs0 (lit "content-type") [])) = Some k
         /\ (p0 = PConnect -> is_unary ep0 = false)).
    { intros H U. unfold wsgi_stream in H. destruct (negotiate_stream_compression _ _ _) as [req z].
      destruct (dget (ap_codecs ap) _) as [k|] eqn:Ek; [exists ep, hs, p, cx, k; auto|]. apply call_error_trl in H. destruct H. }
    intro H. destruct ep as [m f|m f|m f|m f]; [destruct p|..]; try (apply (S H); reflexivity); try (apply (S H); discriminate).
    exfalso. unfold wsgi_unary in H. destruct (if str_eqb _ _ then _ else _) as [[a k]|e]; [|apply call_error_trl in H; destruct H].
    destruct (run_fn _ _ _) as [[b|i] rs].
    - destruct (do body <- k_enc_res k b; _) as [[z body]|e]; [|apply call_error_trl in H; destruct H]. cbn in H. intuition discriminate.
    - destruct i; [apply call_error_trl in H|]; destruct H. }
  destruct X as (ep&hs&p&cx&k&Hq). destruct (wsgi_stream_trl ap now q ep hs p cx k ts Hq H) as (err&(z&rs&h&Hem&->)&Hs).
  pose proof (writer_end_kind _ _ _ _ _ _ Hem) as Kp. destruct p; try discriminate Kp. cbn [writer_end] in Hem.
  destruct (grpc_trailers (ap_sc ap) (rs_t rs) (option_map we_from_exception err)) as [h'|] eqn:Eg; [|discriminate]. cbn [bind] in Hem. injection Hem as ->.
  destruct (grpc_trailers_statuses _ _ _ _ Eg) as (s&Es&Hst). exists ep, hs, cx, k, s. split; [exact Hq|]. split; [exact Es|].
  destruct err as [w|]; cbn [option_map] in Hst.
  - destruct Hst as (n&Hn&->). split; [intro X; now destruct (proj2 (spec_status_ascii _ _ Hn))|]. eauto.
  - subst s. split; [intros _; exact (Hs eq_refl)|]. intro X. now destruct X.
Qed.
Print Assumptions C65_wsgi_grpc.

(** ** WSGI responses without trailers *)

Lemma connect_end_frame z t err b : connect_end (Some z) t err = Ok b ->
  exists obj d, json_bytes (JObj obj) = Ok d /\ end_frame 2 z d b /\ (~ In (lit "error") (map fst obj) -> err = None).
Proof.
  unfold connect_end. intro Ec.
  destruct (json_bytes (connect_end_json t err)) as [d|] eqn:Ej; [|discriminate]. cbn [bind] in Ec.
  destruct (maybe_compress (Some z) d) as [data|] eqn:Em; [|discriminate]. cbn [bind] in Ec.
  destruct (struct_pack_BI _ _) as [hd|] eqn:Ep; [|discriminate]. cbn [bind] in Ec. injection Ec as <-.
  unfold connect_end_json in Ej. eexists _, d. split; [exact Ej|]. split; [now apply end_frame_ok; auto|].
  intro Nin. destruct err as [w|]; [|reflexivity]. exfalso. apply Nin. rewrite map_app. apply in_or_app. right. left. reflexivity.
Qed.
Lemma web_end_frame sc z t err b : grpc_web_end sc (Some z) t err = Ok b ->
  exists ts d s, utf8_encode (web_lines ts) = Some d /\ end_frame 128 z d b /\ statuses ts = [s]
    /\ (s = lit "0" -> err = None) /\ (s <> lit "0" -> exists n c, In (n, c) grpc_spec_codes /\ s = lit n).
Proof.
  unfold grpc_web_end. intro Ec. destruct (grpc_trailers sc t err) as [h|] eqn:Eg; [|discriminate]. cbn [bind] in Ec.
  destruct (utf8_encode (trailer_block (h_allitems h))) as [d|] eqn:Ej; [|discriminate]. cbn [bind] in Ec.
  destruct (maybe_compress (Some z) d) as [data|] eqn:Em; [|discriminate]. cbn [bind] in Ec.
  destruct (struct_pack_BI _ _) as [hd|] eqn:Ep; [|discriminate]. cbn [bind] in Ec. injection Ec as <-.
  destruct (grpc_trailers_statuses _ _ _ _ Eg) as (s&Es&Hst).
  exists (h_allitems h), d, s. unfold web_lines. rewrite <- flat_map_concat_map. split; [exact Ej|].
  split; [now apply end_frame_ok; auto|]. split; [exact Es|]. destruct err as [w|].
  - destruct Hst as (n&Hn'&->). split; [intro X; now destruct (proj2 (spec_status_ascii _ _ Hn'))|]. eauto.
  - subst s. split; [auto|]. intro X. now destruct X.
Qed.

(** An HTTP error response with a body does not have status 200. *)
Lemma call_error_last {A} q (inv : list (invoked A)) ev e ctx pre b :
  wr_out (wsgi_call_error q inv ev e ctx) = WReturn -> wr_events (wsgi_call_error q inv ev e ctx) = pre ++ [WBody b] ->
  exists line h, In (WStart line h) (wr_events (wsgi_call_error q inv ev e ctx)) /\ line <> lit "200 OK".
Proof.
  unfold wsgi_call_error. destruct (drain q 1) as [x|]; [discriminate|].
  destruct (wsgi_handle_error e ctx) as [out|x] eqn:E; cbn [wr_out wr_events]; [|discriminate]. intros _ H.
  unfold wsgi_handle_error in E.
  assert (K : forall w hs bs, out = WStart (status_line (fst (we_to_http_status w)) (snd (we_to_http_status w))) hs :: bs ->
            exists line h, In (WStart line h) ((ev ++ maybe_log e) ++ out) /\ line <> lit "200 OK").
  { intros w hs bs ->. do 2 eexists. split; [apply in_or_app; right; left; reflexivity|].
    unfold we_to_http_status. destruct (we_code w); discriminate. }
  destruct e as [c m ds|st hs|kk m].
  - destruct (we_to_json_bytes _); cbn [bind] in E; [|discriminate]. injection E as <-. apply (K (we_from_exception (EConnect c m ds)) _ _ eq_refl).
  - cbn [bind] in E. injection E as <-. exfalso. rewrite <- app_assoc in H.
    match type of H with ?x ++ ?l ++ [?w] = _ => rewrite app_assoc in H; apply app_inj_tail in H as [_ H]; discriminate end.
  - destruct (we_to_json_bytes _); cbn [bind] in E; [|discriminate]. injection E as <-. apply (K (we_from_exception (EOther kk m)) _ _ eq_refl).
Qed.

Definition all_200 (ev : list wevent) : Prop := forall line h, In (WStart line h) ev -> line = lit "200 OK".

Lemma wsgi_stream_last {A B} (ap : app A B) now q ep hs p cx k pre b :
  wsgi_stream_request ap now q ep hs p cx k -> uses_trailers p = false ->
  wr_out (wsgi_call ap now q) = WReturn -> all_200 (wr_events (wsgi_call ap now q)) ->
  wr_events (wsgi_call ap now q) = pre ++ [WBody b] ->
  exists req z rs err, negotiate_stream_compression p hs (ap_comps ap) = (req, z)
    /\ writer_end (ap_sc ap) p z (rs_t rs) (option_map we_from_exception err) = Ok (EndBytes b)
    /\ (err = None -> wsgi_succeeded ap now q ep hs p cx k [WBody b]).
Proof.
  intros Hq Hp. unfold wsgi_succeeded. rewrite (wsgi_call_stream _ _ _ _ _ _ _ _ Hq). destruct Hq as (_&Hk&_).
  unfold wsgi_stream. destruct (negotiate_stream_compression p hs (ap_comps ap)) as [req z] eqn:En. rewrite Hk. cbv zeta.
  assert (Fin : forall rs err fin ev, end_response (ap_sc ap) p z (rs_t rs) err = Ok fin -> ev ++ fin = pre ++ [WBody b] ->
            writer_end (ap_sc ap) p z (rs_t rs) (option_map we_from_exception err) = Ok (EndBytes b) /\ fin = [WBody b]).
  { intros rs err fin ev. unfold end_response. destruct (writer_end _ _ _ _ _) as [[b'|h]|x] eqn:Ew; cbn [bind]; [intros [= <-]|intros [= <-]|discriminate]; intro H.
    - apply app_inj_tail in H as [_ H]. injection H as ->. auto.
    - apply writer_end_kind in Ew. congruence. }
  assert (Err : forall inv rs ev e,
     let r := (let '(inv, rs, ev, i) := wsgi_stream_error ap q p (k_name k) z inv rs ev e in
        match i with None => mk_wr inv ev WReturn | Some ICancel => mk_wr inv ev WBase | Some (IExn e) => wsgi_call_error q inv ev e (Some rs) end) in
     wr_out r = WReturn -> all_200 (wr_events r) -> wr_events r = pre ++ [WBody b] ->
     writer_end (ap_sc ap) p z (rs_t rs) (option_map we_from_exception (Some e)) = Ok (EndBytes b)).
  { intros inv rs ev e. unfold wsgi_stream_error. cbv zeta.
    assert (C : forall ev' x, wr_out (wsgi_call_error q inv ev' x (Some rs)) = WReturn -> all_200 (wr_events (wsgi_call_error q inv ev' x (Some rs))) ->
               wr_events (wsgi_call_error q inv ev' x (Some rs)) = pre ++ [WBody b] -> False).
    { intros ev' x H1 H2 H3. destruct (call_error_last _ _ _ _ _ _ _ H1 H3) as (line&h&Hi&Hl). exact (Hl (H2 _ _ Hi)). }
    destruct (drain q 0); [intros H1 H2 H3; now destruct (C _ _ H1 H2 H3)|].
    destruct (end_response _ _ _ _ _) as [fin|x] eqn:E; [|intros H1 H2 H3; now destruct (C _ _ H1 H2 H3)].
    cbn [wr_events]. intros _ _ H3. exact (proj1 (Fin _ _ _ _ E H3)). }
  destruct req as [rz|].
  2:{ intros H1 H2 H3. eexists _, z, rs_new, (Some _). split; [reflexivity|]. split; [|discriminate].
      apply (Err [] rs_new [] (EConnect Unimplemented (lit "Unrecognized request compression") []));
        cbv zeta; destruct (wsgi_stream_error _ _ _ _ _ _ _ _ _) as [[[inv' rs'] ev'] [[x|]|]]; assumption. }
  pose proof (wsgi_run_shape p ep k z (wsgi_request_stream ap k rz q) cx) as Sh.
  destruct (wsgi_run p ep k z _ cx) as [inv [[s rs] le]] eqn:Er. destruct (ws_started s) eqn:Es.
  - unfold response_stream_end.
    assert (F : forall err, let r := match end_response (ap_sc ap) p z (rs_t rs) err with
                    Ok fin => mk_wr inv (ws_ev s ++ fin) WReturn | Raise x => mk_wr inv (ws_ev s) (WExn x) end in
               wr_out r = WReturn -> wr_events r = pre ++ [WBody b] ->
               writer_end (ap_sc ap) p z (rs_t rs) (option_map we_from_exception err) = Ok (EndBytes b)
               /\ end_response (ap_sc ap) p z (rs_t rs) err = Ok [WBody b]).
    { intros err. cbv zeta. destruct (end_response (ap_sc ap) p z (rs_t rs) err) as [fin|x] eqn:E; cbn [wr_events wr_out]; [|discriminate].
      intros _ X. destruct (Fin _ _ _ _ E X) as [Y ->]. auto. }
    destruct (loop_interrupt le) as [[x|]|] eqn:El.
    + destruct (drain q 2); [discriminate|]. intros H1 _ H3. exists (Some rz), z, rs, (Some x). split; [reflexivity|].
      split; [exact (proj1 (F _ H1 H3))|discriminate].
    + discriminate.
    + intros H1 _ H3. exists (Some rz), z, rs, None. destruct (F _ H1 H3) as [F1 F2]. split; [reflexivity|]. split; [exact F1|]. intros _. rewrite F2.
      destruct le; try discriminate El. destruct (wsgi_run_done _ _ _ _ _ _ _ _ _ Er) as (steps&frs&Hm&Hw&[[_ X]|[_ Hev]]).
      { rewrite X in Es. discriminate Es. }
      exists (Some rz), z, inv, steps, rs, frs. split; [reflexivity|]. split; [left; exact Hm|]. split; [exact Hw|]. now rewrite Hev.
  - cbn in Sh. rewrite Sh. destruct (loop_interrupt le) as [[x|]|] eqn:El.
    + intros H1 H2 H3. exists (Some rz), z, rs, (Some x). split; [reflexivity|]. split; [|discriminate].
      apply (Err inv rs [] x); cbv zeta; destruct (wsgi_stream_error _ _ _ _ _ _ _ _ _) as [[[inv' rs'] ev'] [[y|]|]]; assumption.
    + discriminate.
    + cbn [List.app]. destruct (end_response (ap_sc ap) p z (rs_t rs) None) as [fin|x] eqn:E.
      * intros _ _ H3. cbn [wr_events] in H3. exists (Some rz), z, rs, None. split; [reflexivity|].
        destruct (Fin rs None fin [WStart (lit "200 OK") (stream_headers p (k_name k) (z_name z) rs)] E H3) as [Y ->]. split; [exact Y|]. intros _.
        destruct le; try discriminate El. destruct (wsgi_run_done _ _ _ _ _ _ _ _ _ Er) as (steps&frs&Hm&Hw&[[-> X]|[X _]]).
        2:{ rewrite X in Es. discriminate Es. }
        inversion Hw; subst frs. exists (Some rz), z, inv, [], rs, []. split; [reflexivity|]. split; [left; exact Hm|]. split; [exact Hw|reflexivity].
      * intros H1 H2 H3. exists (Some rz), z, rs, (Some x). split; [reflexivity|]. split; [|discriminate].
        apply (Err inv rs [WStart (lit "200 OK") (stream_headers p (k_name k) (z_name z) rs)] x);
          cbv zeta; destruct (wsgi_stream_error _ _ _ _ _ _ _ _ _) as [[[inv' rs'] ev'] [[y|]|]]; assumption.
Qed.

(** A complete response with status 200 to a Connect streaming request ends with one end-of-stream frame; if that has no
    "error", the method succeeded. *)
Theorem C65_wsgi_connect {A B} (ap : app A B) now q ep hs cx k pre b :
  wsgi_stream_request ap now q ep hs PConnect cx k -> wr_out (wsgi_call ap now q) = WReturn ->
  (forall line h, In (WStart line h) (wr_events (wsgi_call ap now q)) -> line = lit "200 OK") ->
  wr_events (wsgi_call ap now q) = pre ++ [WBody b] ->
  exists req z obj d, negotiate_stream_compression PConnect hs (ap_comps ap) = (req, z)
    /\ json_bytes (JObj obj) = Ok d /\ end_frame 2 z d b
    /\ (~ In (lit "error") (map fst obj) -> wsgi_succeeded ap now q ep hs PConnect cx k [WBody b]).
Proof.
  intros Hq H1 H2 H3. destruct (wsgi_stream_last _ _ _ _ _ _ _ _ _ _ Hq eq_refl H1 H2 H3) as (req&z&rs&err&Hn&Hem&Hs).
  cbn [writer_end] in Hem. destruct (connect_end (Some z) (rs_t rs) _) as [b'|] eqn:Ec; [|discriminate]. cbn [bind] in Hem. injection Hem as ->.
  destruct (connect_end_frame z (rs_t rs) _ b Ec) as (obj&d&Hj&Hf&He). exists req, z, obj, d. split; [exact Hn|]. split; [exact Hj|]. split; [exact Hf|].
  intro N. apply Hs. specialize (He N). now destruct err.
Qed.
Print Assumptions C65_wsgi_connect.

(** The same for gRPC-Web: one trailer frame with exactly one grpc-status, 0 only for success. *)
Theorem C65_wsgi_web {A B} (ap : app A B) now q ep hs cx k pre b :
  wsgi_stream_request ap now q ep hs PGrpcWeb cx k -> wr_out (wsgi_call ap now q) = WReturn ->
  (forall line h, In (WStart line h) (wr_events (wsgi_call ap now q)) -> line = lit "200 OK") ->
  wr_events (wsgi_call ap now q) = pre ++ [WBody b] ->
  exists req z ts d s, negotiate_stream_compression PGrpcWeb hs (ap_comps ap) = (req, z)
    /\ utf8_encode (web_lines ts) = Some d /\ end_frame 128 z d b /\ statuses ts = [s]
    /\ (s = lit "0" -> wsgi_succeeded ap now q ep hs PGrpcWeb cx k [WBody b])
    /\ (s <> lit "0" -> exists n c, In (n, c) grpc_spec_codes /\ s = lit n).
Proof.
  intros Hq H1 H2 H3. destruct (wsgi_stream_last _ _ _ _ _ _ _ _ _ _ Hq eq_refl H1 H2 H3) as (req&z&rs&err&Hn&Hem&Hs).
  cbn [writer_end] in Hem. destruct (grpc_web_end _ (Some z) (rs_t rs) _) as [b'|] eqn:Ec; [|discriminate]. cbn [bind] in Hem. injection Hem as ->.
  destruct (web_end_frame _ z (rs_t rs) _ b Ec) as (ts&d&s&Hj&Hf&Hst&H0&Hx). exists req, z, ts, d, s.
  split; [exact Hn|]. split; [exact Hj|]. split; [exact Hf|]. split; [exact Hst|]. split; [|exact Hx].
  intro X. apply Hs. specialize (H0 X). now destruct err.
Qed.
Print Assumptions C65_wsgi_web.

(** The status lines that end a response, and how the call ends. *)
Definition ex_once : endpoint pystr pystr :=
  EpBidi ex_method (fun _ => Yield (lit "a") quiet (Trl (Add (lit "Grpc-Status") (lit "7")) (Ret tt))).
Definition asgi_status (ep : endpoint pystr pystr) (en : env) : list (list bytes) * bool :=
  let r := asgi_call (ex_app ep) 0%Z (ex_scope "POST" "application/grpc+proto") en in
  (flat_map (fun e => match e with EvTrailers ts => [statuses ts] | _ => [] end) (ar_events r),
   match ar_out r with AReturn => true | _ => false end).
Definition wsgi_status (ep : endpoint pystr pystr) : list (list bytes) :=
  flat_map (fun e => match e with WTrailers ts => [statuses ts] | _ => [] end)
    (wr_events (wsgi_call (ex_app ep) 0%Z (ex_wq "POST" "application/grpc+proto"))).
(** A method's own grpc-status trailer does not survive; errors and failing sends are never status 0. *)
Example C65_example :
  asgi_status ex_once ex_env = ([[lit "0"]], true) /\ wsgi_status ex_once = [[lit "0"]]
  /\ asgi_status (ex_two (IExn ex_gone)) ex_env = ([[lit "5"]], true) /\ wsgi_status (ex_two (IExn ex_bug)) = [[lit "2"]]
  /\ asgi_status ex_once (mk_env [RReq [] false] None WIdle (fun n => if Nat.eqb n 1 then SRaise ex_bug else SOk)) = ([[lit "2"]], false)
  /\ (exists hs cx b, asgi_stream_request (ex_app ex_once) 0%Z (ex_scope "POST" "application/connect+proto") ex_once hs PConnect cx ex_codec
        /\ In (EvBody b false) (ar_events (asgi_call (ex_app ex_once) 0%Z (ex_scope "POST" "application/connect+proto") ex_env)))
  /\ exists hs cx b, asgi_stream_request (ex_app ex_once) 0%Z (ex_scope "POST" "application/grpc-web+proto") ex_once hs PGrpcWeb cx ex_codec
        /\ In (EvBody b false) (ar_events (asgi_call (ex_app ex_once) 0%Z (ex_scope "POST" "application/grpc-web+proto") ex_env)).
Proof.
  split; [vm_compute; reflexivity|]. split; [vm_compute; reflexivity|]. split; [vm_compute; reflexivity|]. split; [vm_compute; reflexivity|].
  split; [vm_compute; reflexivity|]. split.
  - do 3 eexists. split; [split; [reflexivity|]; split; [eexists; reflexivity|reflexivity]|]. vm_compute. right; right; left. reflexivity.
  - do 3 eexists. split; [split; [reflexivity|]; split; [eexists; reflexivity|discriminate]|]. vm_compute. right; right; left. reflexivity.
Qed.

(** ** Finding: a line break in a gRPC-Web trailer value *)

(** The trailer frame is text, and values are not checked for line breaks.  A method that copies text containing CR LF into
    a trailer and then fails is reported to the caller as a success. *)
Definition web_forged : endpoint pystr pystr :=
  EpBidi ex_method (fun _ => Yield (lit "a") quiet
    (Trl (Add (lit "x-note") (lit "n" ++ [13; 10] ++ lit "grpc-status: 0")) (Fail (IExn ex_gone)))).
Theorem C65_web_injection_refuted : forall w : bool,
  exists (c : client pystr pystr) ap ep net reqs, cl_proto c = PGrpcWeb
  /\ connected w c ap ex_method ep ex_codec ex_clocks link_headers [Add (lit "X-A") (lit "1")] None
  /\ (forall cx ps, exists steps rs, method_does ep cx ps [InvStream] steps rs (Some (IExn ex_gone)))
  /\ let call := execute_bidi_stream c ex_clocks net (Some md_new) ex_method link_headers None (reqs, None) None in
     stream_link w ap 0%Z (cl_address c) net (sr_sent call) /\ sr_end call = COk tt.
Proof.
  intro w. exists (link_client PGrpcWeb), (link_app web_forged), web_forged, (link_net w (link_app web_forged)), [lit "a"].
  split; [reflexivity|]. split; [apply link_connected|]. split.
  { intros cx ps. do 2 eexists. split; [reflexivity|]. repeat constructor. }
  cbv zeta. split; [apply (link_stream w PGrpcWeb web_forged [lit "a"]); reflexivity|]. destruct w; vm_compute; reflexivity.
Qed.
Print Assumptions C65_web_injection_refuted.

(** WSGI: complete responses of both kinds that meet the hypotheses of [C65_wsgi_connect] and [C65_wsgi_web]. *)
Example C65_wsgi_example : forall ct p, In (ct, p) [("application/connect+proto"%string, PConnect); ("application/grpc-web+proto"%string, PGrpcWeb)] ->
  exists hs cx b, let r := wsgi_call (ex_app ex_once) 0%Z (ex_wq "POST" ct) in
    wsgi_stream_request (ex_app ex_once) 0%Z (ex_wq "POST" ct) ex_once hs p cx ex_codec
    /\ wr_out r = WReturn /\ List.length (wr_events r) = 3%nat
    /\ (forall line h, In (WStart line h) (wr_events r) -> line = lit "200 OK")
    /\ exists pre, wr_events r = pre ++ [WBody b].
Proof.
  intros ct p H. destruct H as [[= <- <-]|[[= <- <-]|[]]]; do 3 eexists; (split; [split; [reflexivity|]; split; [reflexivity|intro; try discriminate; reflexivity]|]);
    (split; [vm_compute; reflexivity|]); (split; [vm_compute; reflexivity|]); (split; [|eexists [_; _]; vm_compute; reflexivity]);
    intros line h X; vm_compute in X; destruct X as [X|X]; try (injection X as <- _; reflexivity); intuition discriminate.
Qed.
