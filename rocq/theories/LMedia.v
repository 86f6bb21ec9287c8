(** Lemmas on content types. *)
From Coq Require Import List NArith ZArith Bool String Lia ssreflect.
From Verif Require Import MBase MPyStr MHeaders MUtf8 MProtocol MServer MAsgi MWsgi MClient SProtocol SMedia LBase LPyStr LUtf8 LHeaders LProtocol.
Import ListNotations.
Local Open Scope N_scope.

Lemma blank_space c : is_space c = true <-> blank c.
Proof. unfold is_space, blank. cbn [In]. split; intro H; lia. Qed.

Lemma drop_blanks w s : Forall blank w -> match s with c :: _ => ~ blank c | [] => True end -> drop_while is_space (w ++ s) = s.
Proof.
  induction 1 as [|c w Hc Hw IH]; intro H; cbn [List.app drop_while].
  - destruct s as [|c s]; [reflexivity|]. cbn. destruct (is_space c) eqn:E; [|reflexivity]. now apply blank_space in E.
  - apply blank_space in Hc. rewrite Hc. auto.
Qed.

Lemma plain_solid t core : plain_type t -> Forall2 cased core t -> Forall (fun c => ~ blank c /\ c <> 59) core.
Proof.
  intros P F. revert P. induction F as [|c d core t H F IH]; intro P; [constructor|]. inversion P as [|? ? P1 P2]; subst.
  constructor; [|auto]. unfold blank, cased, media_char in *. cbn [In]. lia.
Qed.

Lemma strip_blanks w core w' : Forall blank w -> Forall (fun c => ~ blank c /\ c <> 59) core -> Forall blank w' ->
  strip (w ++ core ++ w') = core.
Proof.
  intros Hw Hc Hw'. unfold strip, rstrip_by. destruct core as [|c core].
  - cbn [List.app]. assert (X : forall u, Forall blank u -> drop_while is_space u = []).
    { induction 1 as [|x u Hx _ IHx]; cbn; [reflexivity|]. apply blank_space in Hx. now rewrite Hx. }
    rewrite (X (w ++ w')); [|reflexivity]. apply Forall_app; auto.
  - rewrite drop_blanks; [exact Hw|inversion Hc; subst; cbn; tauto|].
    rewrite rev_app_distr drop_blanks; [now apply Forall_rev| |now rewrite rev_involutive].
    pose proof (Forall_rev Hc) as R. destruct (rev (c :: core)); [exact I|]. inversion R; tauto.
Qed.

Lemma lower_cased core t : plain_type t -> Forall2 cased core t -> lower core = t.
Proof.
  intros P F. revert P. induction F as [|c d core t H F IH]; intro P; [reflexivity|]. inversion P as [|? ? P1 P2]; subst.
  cbn [lower map]. f_equal; [|now apply IH]. unfold lower_c, cased, media_char in *. destruct ((65 <=? c) && (c <=? 90)) eqn:E; lia.
Qed.

Lemma drop_split (s : pystr) : exists w, Forall blank w /\ s = w ++ drop_while is_space s.
Proof.
  induction s as [|c s (w&F&E)]; [exists []; auto|]. cbn. destruct (is_space c) eqn:H.
  - apply blank_space in H. exists (c :: w). split; [constructor; auto|]. cbn. congruence.
  - exists []. auto.
Qed.

Lemma strip_split s : exists w w', Forall blank w /\ Forall blank w' /\ s = w ++ strip s ++ w'.
Proof.
  destruct (drop_split s) as (w&F&E). destruct (drop_split (rev (drop_while is_space s))) as (w'&F'&E').
  exists w, (rev w'). split; [exact F|]. split; [now apply Forall_rev|]. unfold strip, rstrip_by.
  rewrite {1}E. f_equal. rewrite -{1}(rev_involutive (drop_while is_space s)) {1}E' rev_app_distr. reflexivity.
Qed.

Lemma before_split sep s : exists rest, s = before sep s ++ rest /\ (rest = [] \/ exists p, rest = sep :: p).
Proof.
  induction s as [|c s (rest&E&H)]; [exists []; auto|]. cbn. destruct (N.eqb_spec c sep) as [->|N].
  - exists (sep :: s). split; [reflexivity|]. right. eauto.
  - exists rest. split; [cbn; congruence|exact H].
Qed.

Lemma cased_lower s : Forall2 cased s (lower s).
Proof. induction s as [|c s IH]; constructor; [|exact IH]. unfold cased, lower_c. destruct ((65 <=? c) && (c <=? 90)) eqn:E; lia. Qed.

(** What the code computes from a header value is the media type it names. *)
Lemma names_normal ct t : plain_type t -> (names_type ct t <-> normalize_content_type ct = t).
Proof.
  intro P. unfold normalize_content_type. split.
  - intros (w&core&w'&rest&->&Hw&Hc&Hw'&Hr). pose proof (plain_solid _ _ P Hc) as S.
    assert (B : before 59 (w ++ core ++ w' ++ rest) = w ++ core ++ w').
    { assert (N : ~ In 59 (w ++ core ++ w')).
      { rewrite !in_app_iff. intros [H|[H|H]].
        - rewrite ->Forall_forall in Hw. apply Hw in H. unfold blank in H. cbn in H. lia.
        - rewrite ->Forall_forall in S. apply S in H. tauto.
        - rewrite ->Forall_forall in Hw'. apply Hw' in H. unfold blank in H. cbn in H. lia. }
      destruct Hr as [->|(p&->)].
      - rewrite app_nil_r. now apply before_none.
      - rewrite !app_assoc. rewrite before_app; [now rewrite -!app_assoc|reflexivity]. }
    rewrite B strip_blanks; auto. now apply lower_cased.
  - intros <-. destruct (before_split 59 ct) as (rest&E&Hr). destruct (strip_split (before 59 ct)) as (w&w'&Hw&Hw'&E').
    exists w, (strip (before 59 ct)), w', rest. split; [rewrite {1}E {1}E' -!app_assoc; reflexivity|].
    split; [exact Hw|]. split; [apply cased_lower|]. split; assumption.
Qed.

Lemma plain_app a n : plain_type a -> codec_name_ok n -> plain_type (a ++ n).
Proof.
  intros Pa Hn. apply Forall_app. split; [exact Pa|]. apply Forall_forall. intros c H. left.
  unfold codec_name_ok in Hn. rewrite ->forallb_forall in Hn. auto.
Qed.

Lemma plain_lit s : forallb (fun c => media_char c || (c =? 47)) s = true -> plain_type s.
Proof.
  intro H. apply Forall_forall. intros c I. rewrite ->forallb_forall in H. apply H in I. apply orb_true_iff in I.
  destruct I as [I|I]; [now left|right; lia].
Qed.
