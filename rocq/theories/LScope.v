(** Lemmas about ResponseMetadata scopes. *)
From Coq Require Import List NArith Bool Arith Lia.
From Verif Require Import MBase MPyStr MHeaders SHeaders LHeaders LBase LPyStr MJson MWire MScope SProtocol SLink SScope LWire LLink.
Import ListNotations.

Definition own (c : nat) (e : nat * nat) : bool := Nat.eqb (snd e) c.
Lemma own_self c i : own c (i, c) = true.
Proof. apply Nat.eqb_refl. Qed.
Record scope_inv (st : scopes) (b : blocks) : Prop := mk_si {
  si_cur : forall c, sc_current st c = innermost b c;
  si_tok : forall c l i r, b c = l ++ (i, c) :: r -> ro_token (sc_object st i) = Some (c, hd_error (map fst r));
  si_once : forall c, NoDup (filter (own c) (b c))
}.

Lemma si_new : scope_inv scopes_new none_open.
Proof. split; [reflexivity| |constructor]. intros c [|? l] i r E; discriminate E. Qed.

Lemma in_own c i l : In (i, c) l <-> In (i, c) (filter (own c) l).
Proof. rewrite filter_In. unfold own. cbn [snd]. rewrite Nat.eqb_refl. tauto. Qed.

Lemma si_step st b o : scope_inv st b -> proper b o -> scope_inv (scope_step st o) (after b o).
Proof.
  intros [Ic It Io] P. destruct o as [c i|c i|c r|c c']; cbn [proper] in P; cbn [scope_step after].
  - split.
    + intro d. unfold rm_enter, upd, innermost, put. cbn [sc_current]. destruct (Nat.eqb c d) eqn:E; [reflexivity|apply Ic].
    + intros d l j r E. unfold rm_enter, upd. cbn [sc_object]. destruct (Nat.eqb i j) eqn:Ej.
      * apply Nat.eqb_eq in Ej. subst j. cbn [ro_token]. unfold put in E. destruct (Nat.eqb c d) eqn:Ed.
        -- apply Nat.eqb_eq in Ed. subst d. destruct l as [|e l].
           ++ injection E as <-. rewrite Ic. reflexivity.
           ++ exfalso. injection E as _ E. apply (P c). rewrite E, in_app_iff. right. now left.
        -- exfalso. apply (P d). rewrite E, in_app_iff. right. now left.
      * unfold put in E. destruct (Nat.eqb c d) eqn:Ed.
        -- apply Nat.eqb_eq in Ed. subst d. destruct l as [|e l].
           ++ injection E as <- _. now rewrite Nat.eqb_refl in Ej.
           ++ injection E as _ E. now apply (It c l).
        -- now apply (It d l).
    + intro d. unfold put. destruct (Nat.eqb c d) eqn:Ed; [|apply Io]. apply Nat.eqb_eq in Ed. subst d.
      cbn [filter]. rewrite own_self. constructor; [|apply Io]. rewrite <- in_own. apply P.
  - assert (exists r, b c = (i, c) :: r) as [r Eb].
    { destruct (b c) as [|e r]; [discriminate|]. exists r. cbn [hd_error] in P. congruence. }
    pose proof (It c [] i r Eb) as Tk. split.
    + intro d. unfold rm_exit, innermost, put, upd. cbn [sc_current]. rewrite Tk, Nat.eqb_refl, Eb. cbn [tl].
      destruct (Nat.eqb c d); [reflexivity|apply Ic].
    + intros d l j r' E. unfold rm_exit, upd. cbn [sc_object].
      assert (Tj : ro_token (sc_object st j) = Some (d, hd_error (map fst r'))).
      { unfold put in E. destruct (Nat.eqb c d) eqn:Ed; [|now apply (It d l)]. apply Nat.eqb_eq in Ed. subst d.
        apply (It c ((i, c) :: l)). rewrite Eb in E |- *. cbn [tl] in E. rewrite E. reflexivity. }
      destruct (Nat.eqb i j) eqn:Ej; [|exact Tj]. exfalso. apply Nat.eqb_eq in Ej. subst j.
      rewrite Tk in Tj. injection Tj as <- _. unfold put in E. rewrite Nat.eqb_refl, Eb in E. cbn [tl] in E.
      pose proof (Io c) as N. rewrite Eb in N. cbn [filter] in N. rewrite own_self in N. inversion N as [|x y N1 N2]; subst x y.
      apply N1. rewrite <- in_own, E, in_app_iff. right. now left.
    + intro d. unfold put. destruct (Nat.eqb c d) eqn:Ed; [|apply Io]. apply Nat.eqb_eq in Ed. subst d.
      rewrite Eb. cbn [tl]. pose proof (Io c) as N. rewrite Eb in N. cbn [filter] in N. rewrite own_self in N. now inversion N.
  - unfold rm_handle. destruct (sc_current st c) as [i|]; [|split; assumption].
    destruct (rm_report (Some (ro_md (sc_object st i))) r) as [m|]; [|split; assumption]. split; [exact Ic| |exact Io].
    intros d l j r' E. cbn [sc_object]. unfold upd. destruct (Nat.eqb i j) eqn:Ej; [|now apply (It d l)].
    apply Nat.eqb_eq in Ej. subst j. now apply (It d l).
  - destruct P as [Pc P]. split.
    + intro d. unfold upd, innermost, put. cbn [sc_current]. destruct (Nat.eqb c' d); [rewrite Ic; reflexivity|apply Ic].
    + intros d l j r E. cbn [sc_object]. unfold put in E. destruct (Nat.eqb c' d) eqn:Ed; [|now apply (It d l)].
      apply Nat.eqb_eq in Ed. subst d. exfalso. apply (P c j). rewrite E, in_app_iff. right. now left.
    + intro d. unfold put. destruct (Nat.eqb c' d) eqn:Ed; [|apply Io]. apply Nat.eqb_eq in Ed. subst d.
      destruct (filter (own c') (b c)) as [|[j x] r] eqn:Ef; [constructor|]. exfalso.
      assert (In (j, x) (filter (own c') (b c))) as H by (rewrite Ef; now left). apply filter_In in H. destruct H as [H1 H2].
      unfold own in H2. cbn [snd] in H2. apply Nat.eqb_eq in H2. subst x. now apply (P c j).
Qed.

Definition reported (m : metadata) (rs : list report) : metadata :=
  fold_left (fun m r => match rm_report (Some m) r with Some m' => m' | None => m end) rs m.

Lemma step_md st b o i : scope_inv st b ->
  ro_md (sc_object (scope_step st o) i)
  = reported (ro_md (sc_object st i)) (match o with
                                       | Report c r => match innermost b c with Some j => if Nat.eqb i j then [r] else [] | None => [] end
                                       | _ => []
                                       end).
Proof.
  intros [Ic _ _]. destruct o as [c j|c j|c r|c c']; cbn [scope_step reported fold_left].
  - unfold rm_enter, upd. cbn [sc_object]. destruct (Nat.eqb j i) eqn:E; [|reflexivity]. apply Nat.eqb_eq in E. now subst.
  - unfold rm_exit, upd. cbn [sc_object]. destruct (Nat.eqb j i) eqn:E; [|reflexivity]. apply Nat.eqb_eq in E. now subst.
  - unfold rm_handle. rewrite Ic. destruct (innermost b c) as [j|]; [|reflexivity]. rewrite Nat.eqb_sym. destruct (Nat.eqb j i) eqn:E.
    + apply Nat.eqb_eq in E. subst j. unfold reported; cbn [fold_left]. destruct (rm_report (Some (ro_md (sc_object st i))) r) as [m|]; [|reflexivity].
      cbn [sc_object]. unfold upd. now rewrite Nat.eqb_refl.
    + unfold reported; cbn [fold_left]. destruct (rm_report (Some (ro_md (sc_object st j))) r) as [m|]; [|reflexivity].
      cbn [sc_object]. unfold upd. now rewrite E.
  - reflexivity.
Qed.

Lemma run_inv h : forall st b, scope_inv st b -> history b h -> scope_inv (scope_run st h) (all_blocks b h).
Proof.
  induction h as [|o h IH]; intros st b I H; [exact I|]. destruct H as [P H]. apply IH; [|exact H]. now apply si_step.
Qed.
Lemma run_md i h : forall st b, scope_inv st b -> history b h ->
  ro_md (sc_object (scope_run st h) i) = reported (ro_md (sc_object st i)) (heard i b h).
Proof.
  induction h as [|o h IH]; intros st b I H; [reflexivity|]. destruct H as [P H]. cbn [heard].
  change (scope_run st (o :: h)) with (scope_run (scope_step st o) h). rewrite (IH _ _ (si_step _ _ _ I P) H).
  rewrite (step_md st b o i I). unfold reported. now rewrite fold_left_app.
Qed.

(** ** Values *)

Definition md_inv (m : metadata) : Prop := h_inv (rm_headers m) /\ h_inv (rm_trailers m).

Lemma json_add d : forall h, h_inv h -> Forall (fun kv => trailer_values (snd kv) <> None) d ->
  exists h', add_json_trailers h d = (h', None) /\ h_inv h' /\ forall k, h_getall h' k = h_getall h k ++ json_values (JObj d) k.
Proof.
  induction d as [|[a v] d IH]; intros h I F; cbn [add_json_trailers].
  - exists h. split; [reflexivity|]. split; [exact I|]. intro k. now rewrite app_nil_r.
  - inversion F as [|x y Fv Fd]; subst. cbn [snd] in Fv. destruct (trailer_values v) as [vs|] eqn:Ev; [|now elim Fv].
    assert (A : forall vs h, h_inv h -> h_inv (fold_left (fun h x => h_add h a x) vs h)
      /\ forall k, h_getall (fold_left (fun h x => h_add h a x) vs h) k = h_getall h k ++ if same_name k a then vs else []).
    { clear. induction vs as [|x vs IH]; intros h I; cbn [fold_left].
      - split; [exact I|]. intro k. destruct (same_name k a); now rewrite app_nil_r.
      - destruct (IH _ (h_inv_add h a x I)) as [I' G]. split; [exact I'|]. intro k. rewrite G, getall_add by auto.
        destruct (same_name k a); [now rewrite <- app_assoc|reflexivity]. }
    destruct (A vs h I) as [I1 G1]. destruct (IH _ I1 Fd) as (h'&E&I'&G). exists h'. split; [exact E|]. split; [exact I'|].
    intro k. rewrite G, G1. cbn [json_values flat_map fst snd]. rewrite Ev, <- app_assoc. reflexivity.
Qed.

Lemma truthy_add h k v : h_inv h -> h_truthy (h_add h k v) = true.
Proof.
  intro I. destruct (h_truthy (h_add h k v)) eqn:E; [reflexivity|]. pose proof (not_truthy_getall _ k (h_inv_add h k v I) E) as N.
  rewrite getall_add in N by auto. unfold same_name in N. rewrite str_eqb_refl in N. destruct (h_getall h k); discriminate N.
Qed.

Lemma split_truthy hs : let o := split_trailers hs in
  h_truthy (fst o) = negb (forallb is_trailer hs) /\ h_truthy (snd o) = existsb is_trailer hs.
Proof.
  unfold split_trailers.
  assert (G : forall rh rt, h_inv rh -> h_inv rt ->
    let o := fold_left (fun (acc : headers * headers) kv =>
               let '(rh, rt) := acc in
               if startswith trailer_prefix (fst kv)
               then (rh, h_add rt (skipn (List.length trailer_prefix) (fst kv)) (snd kv))
               else (h_add rh (fst kv) (snd kv), rt)) hs (rh, rt) in
    h_truthy (fst o) = h_truthy rh || negb (forallb is_trailer hs) /\ h_truthy (snd o) = h_truthy rt || existsb is_trailer hs).
  { induction hs as [|[a v] hs IH]; intros rh rt I1 I2; cbn [fold_left fst snd forallb existsb negb is_trailer].
    - now rewrite !orb_false_r.
    - change (is_trailer (a, v)) with (startswith trailer_prefix a). destruct (startswith trailer_prefix a) eqn:E.
      + destruct (IH rh _ I1 (h_inv_add rt (skipn (List.length trailer_prefix) a) v I2)) as [H1 H2]. split.
        * rewrite H1. reflexivity.
        * rewrite H2, truthy_add by auto. cbn [orb]. now rewrite orb_true_r.
      + destruct (IH _ rt (h_inv_add rh a v I1) I2) as [H1 H2]. split.
        * rewrite H1, truthy_add by auto. cbn [andb negb orb]. now rewrite orb_true_r.
        * rewrite H2. reflexivity. }
  exact (G h_empty h_empty h_inv_empty h_inv_empty).
Qed.

Lemma report_values m r : md_inv m -> report_ok r ->
  exists m', rm_report (Some m) r = Some m' /\ md_inv m'
    /\ (forall k, h_getall (rm_headers m') k = headers_after k (h_getall (rm_headers m) k) r)
    /\ (forall k, h_getall (rm_trailers m') k = trailers_after k (h_getall (rm_trailers m) k) r).
Proof.
  intros [Ih It] Ok. destruct r as [hs|ts|v]; cbn [rm_report report_ok headers_after trailers_after] in *.
  - pose proof (split_values hs Ok) as S. pose proof (split_truthy hs) as T. cbv zeta in S, T. unfold handle_response_headers.
    destruct (split_trailers hs) as [rh rt]. cbn [fst snd] in S, T. destruct S as (I1&I2&G1&G2). destruct T as [T1 T2].
    eexists. split; [reflexivity|]. unfold md_inv, rm_headers, rm_trailers in *. cbn [md_headers md_trailers]. rewrite T1, T2. split; [|split].
    + split; [destruct (negb _)|destruct (existsb _ _)]; assumption.
    + intro k. destruct (forallb is_trailer hs); cbn [negb]; [reflexivity|apply G1].
    + intro k. destruct (existsb is_trailer hs); [apply G2|reflexivity].
  - destruct (trailers_http m ts It) as (m'&E&Eh&G). exists m'. split; [exact E|]. split; [|split].
    + split; [unfold rm_headers; rewrite Eh; exact Ih|]. unfold handle_trailers_http in E. injection E as <-. unfold rm_trailers at 1. cbn [md_trailers].
      destruct (h_truthy _); [|exact It]. apply inv_fold_add. exact It.
    + intro k. unfold rm_headers. now rewrite Eh.
    + exact G.
  - destruct Ok as (d&->&F). unfold handle_trailers_json. destruct (json_add d _ It F) as (t&E&I'&G). rewrite E. cbn [fst].
    eexists. split; [reflexivity|]. unfold md_inv, rm_headers, rm_trailers. cbn [md_headers md_trailers]. split; [|split].
    + split; [exact Ih|]. destruct (h_truthy t); [exact I'|exact It].
    + reflexivity.
    + intro k. rewrite opt_kept; [apply G|exact I'|]. intro T. pose proof (not_truthy_getall t k I' T) as N. rewrite G in N.
      apply app_eq_nil in N. apply N.
Qed.

Lemma reported_values rs : forall m, md_inv m -> Forall report_ok rs ->
  md_inv (reported m rs)
  /\ (forall k, h_getall (rm_headers (reported m rs)) k = fold_left (headers_after k) rs (h_getall (rm_headers m) k))
  /\ (forall k, h_getall (rm_trailers (reported m rs)) k = fold_left (trailers_after k) rs (h_getall (rm_trailers m) k)).
Proof.
  induction rs as [|r rs IH]; intros m I F; [split; [exact I|split; reflexivity]|]. inversion F as [|x y Fr Frs]; subst.
  destruct (report_values m r I Fr) as (m'&E&I'&H1&H2).
  change (reported m (r :: rs)) with (reported (match rm_report (Some m) r with Some m' => m' | None => m end) rs). rewrite E.
  destruct (IH m' I' Frs) as (J&K1&K2). split; [exact J|]. cbn [fold_left]. split; intro k; [rewrite K1, H1|rewrite K2, H2]; reflexivity.
Qed.
