(** Generated code: C52, C53. *)
From Coq Require Import List NArith Bool String Lia ZifyBool ZifyN.
From Verif Require Import MBase MPyStr MHeaders SHeaders LBase LPyStr LHeaders MProtocol MClient MServer MAsgi MWsgi MGen SGen SProtocol SLink LLink.
Import ListNotations.
Local Open Scope N_scope.

(** ** C53: names *)

Definition without_underscores (s : pystr) : pystr := filter (fun c => negb (c =? underscore)) s.

Lemma sub1_adds s : forall run, without_underscores (sub_upper_to_lower run s) = without_underscores s.
Proof.
  assert (G : forall n s, (List.length s <= n)%nat -> forall run, without_underscores (sub_upper_to_lower run s) = without_underscores s).
  { induction n as [|n IH]; intros s0 L run; (destruct s0 as [|c r]; [reflexivity|]); cbn [List.length] in L; [lia|].
    cbn [sub_upper_to_lower]. destruct (run && is_lower c).
    - cbn [without_underscores filter]. destruct (negb (c =? underscore)); [f_equal|]; apply (IH r); lia.
    - destruct r as [|u t]; [reflexivity|]. cbn [List.length] in L. destruct (_ && _ && _).
      + cbn [without_underscores filter]. change (underscore =? underscore) with true. cbn [negb].
        assert (H : filter (fun c => negb (c =? underscore)) (sub_upper_to_lower true t) = filter (fun c => negb (c =? underscore)) t) by (apply (IH t); lia).
        rewrite H. reflexivity.
      + cbn [without_underscores filter]. destruct (negb (c =? underscore)); [f_equal|]; apply (IH (u :: t)); cbn [List.length]; lia. }
  intro run. apply (G (List.length s)). lia.
Qed.
Lemma sub2_adds s : without_underscores (sub_lower_to_upper s) = without_underscores s.
Proof.
  assert (G : forall n s, (List.length s <= n)%nat -> without_underscores (sub_lower_to_upper s) = without_underscores s).
  { induction n as [|n IH]; intros s0 L; (destruct s0 as [|c r]; [reflexivity|]); cbn [List.length] in L; [lia|].
    cbn [sub_lower_to_upper]. destruct r as [|u t]; [reflexivity|]. cbn [List.length] in L. destruct (is_lower c && is_upper u).
    - cbn [without_underscores filter]. change (underscore =? underscore) with true. cbn [negb].
      assert (H : filter (fun c => negb (c =? underscore)) (sub_lower_to_upper t) = filter (fun c => negb (c =? underscore)) t) by (apply (IH t); lia).
      rewrite H. reflexivity.
    - cbn [without_underscores filter]. destruct (negb (c =? underscore)); [f_equal|]; apply (IH (u :: t)); cbn [List.length]; lia. }
  apply (G (List.length s)). lia.
Qed.
Lemma without_lower s : without_underscores (lower s) = lower (without_underscores s).
Proof.
  induction s as [|c s IH]; [reflexivity|]. cbn [lower map without_underscores filter].
  assert (E : (lower_c c =? underscore) = (c =? underscore)) by (unfold lower_c, underscore; destruct ((65 <=? c) && (c <=? 90)) eqn:X; lia).
  change (map lower_c s) with (lower s). rewrite E. destruct (negb (c =? underscore)).
  - cbn [map]. f_equal. exact IH.
  - exact IH.
Qed.

(** The Python name of every RPC is its name in lower case with underscores added or removed only. *)
Theorem C53_only_case_and_underscores name :
  without_underscores (snake_case name) = lower (without_underscores name) /\ lower (snake_case name) = snake_case name.
Proof.
  unfold snake_case. split; [|apply lower_idem]. now rewrite without_lower, sub2_adds, sub1_adds.
Qed.
Print Assumptions C53_only_case_and_underscores.

(** RPCs whose names differ otherwise get different Python names, whatever the escaping of keywords, as long as that only adds
    underscores.  Missing: names that differ in case or underscores only ([C53_distinct_refuted]). *)
Theorem C53_distinct_partial esc m m' : (forall s, without_underscores (esc s) = without_underscores s) ->
  lower (without_underscores (md_name m)) <> lower (without_underscores (md_name m')) -> local_name esc m <> local_name esc m'.
Proof.
  intros He D E. apply D. unfold local_name in E.
  rewrite <- (proj1 (C53_only_case_and_underscores (md_name m))), <- (proj1 (C53_only_case_and_underscores (md_name m'))).
  rewrite <- (He (snake_case (md_name m))), <- (He (snake_case (md_name m'))). now rewrite E.
Qed.
Print Assumptions C53_distinct_partial.

(** Words of a name in usual spelling: an upper case letter, lower case letters, digits. *)
Definition word (w : pystr) : Prop :=
  exists u ls ds, w = u :: ls ++ ds /\ is_upper u = true /\ ls <> [] /\ forallb is_lower ls = true /\ forallb (fun c => (48 <=? c) && (c <=? 57)) ds = true.
Definition digit (c : N) : bool := (48 <=? c) && (c <=? 57).

Lemma sub1_lowers ls r : forallb is_lower ls = true -> sub_upper_to_lower true (ls ++ r) = ls ++ sub_upper_to_lower true r.
Proof. induction ls as [|c ls IH]; [reflexivity|]. cbn [forallb]. intro H. apply andb_prop in H. destruct H as [H1 H2]. cbn [List.app sub_upper_to_lower]. rewrite H1. cbn [andb]. now rewrite IH. Qed.

(** A boundary between words: [sub_upper_to_lower] marks it unless the letter before is inside a match. *)
Definition starts_word (r : pystr) : Prop := exists u l t, r = u :: l :: t /\ is_upper u = true /\ is_lower l = true.

Lemma sub1_digits ds : forall run r, ds <> [] -> forallb digit ds = true -> starts_word r ->
  sub_upper_to_lower run (ds ++ r) = ds ++ underscore :: hd 0 r :: sub_upper_to_lower true (tl r).
Proof.
  induction ds as [|d ds IH]; intros run r N H (u&l&t&->&Hu&Hl); [now elim N|]. cbn [forallb] in H. apply andb_prop in H. destruct H as [H1 H2].
  assert (Nl : is_lower d = false) by (unfold digit, is_lower in *; lia). assert (Nu : is_upper d = false) by (unfold digit, is_upper in *; lia).
  assert (Ns : (d =? underscore) = false) by (unfold digit, underscore in *; lia).
  destruct ds as [|d' ds].
  - cbn [List.app sub_upper_to_lower hd tl]. rewrite Nl, andb_false_r, Ns, Hu, Hl. reflexivity.
  - assert (Nu' : is_upper d' = false) by (cbn [forallb] in H2; apply andb_prop in H2; unfold digit, is_upper in *; lia).
    change ((d :: d' :: ds) ++ u :: l :: t) with (d :: d' :: (ds ++ u :: l :: t)). cbn [sub_upper_to_lower]. rewrite Nl, andb_false_r.
    rewrite Nu', andb_false_r. cbn [andb]. cbn [List.app]. f_equal.
    assert (SW : starts_word (u :: l :: t)) by (exists u, l, t; auto).
    exact (IH false (u :: l :: t) ltac:(discriminate) H2 SW).
Qed.
Lemma sub1_digits_end ds : forall run, forallb digit ds = true -> sub_upper_to_lower run ds = ds.
Proof.
  induction ds as [|d ds IH]; intros run H; [reflexivity|]. cbn [forallb] in H. apply andb_prop in H. destruct H as [H1 H2].
  assert (Nl : is_lower d = false) by (unfold digit, is_lower in *; lia). cbn [sub_upper_to_lower]. rewrite Nl, andb_false_r.
  destruct ds as [|d' ds]; [reflexivity|].
  assert (Nu' : is_upper d' = false) by (cbn [forallb] in H2; apply andb_prop in H2; unfold digit, is_upper in *; lia).
  rewrite Nu', andb_false_r. cbn [andb]. f_equal. exact (IH false H2).
Qed.

Lemma sub2_nonlower c r : is_lower c = false -> sub_lower_to_upper (c :: r) = c :: sub_lower_to_upper r.
Proof. intro H. cbn [sub_lower_to_upper]. rewrite H. destruct r; reflexivity. Qed.
Lemma sub2_next c u r : is_upper u = false -> sub_lower_to_upper (c :: u :: r) = c :: sub_lower_to_upper (u :: r).
Proof. intro H. cbn [sub_lower_to_upper]. rewrite H, andb_false_r. reflexivity. Qed.
Lemma sub2_mark c u r : is_lower c = true -> is_upper u = true -> sub_lower_to_upper (c :: u :: r) = c :: underscore :: u :: sub_lower_to_upper r.
Proof. intros H1 H2. cbn [sub_lower_to_upper]. now rewrite H1, H2. Qed.
Lemma lower_not_upper c : is_lower c = true -> is_upper c = false.
Proof. unfold is_lower, is_upper. lia. Qed.
Lemma upper_not_lower c : is_upper c = true -> is_lower c = false.
Proof. unfold is_lower, is_upper. lia. Qed.
Lemma digit_neither c : digit c = true -> is_lower c = false /\ is_upper c = false.
Proof. unfold digit, is_lower, is_upper. lia. Qed.
Lemma underscore_neither : is_lower underscore = false /\ is_upper underscore = false.
Proof. split; reflexivity. Qed.

(** Lower case letters followed by something that is not upper case. *)
Lemma sub2_lowers ls x r : forallb is_lower ls = true -> is_upper x = false -> sub_lower_to_upper (ls ++ x :: r) = ls ++ sub_lower_to_upper (x :: r).
Proof.
  induction ls as [|c ls IH]; intros H X; [reflexivity|]. cbn [forallb] in H. apply andb_prop in H. destruct H as [H1 H2]. cbn [List.app].
  destruct ls as [|c' ls]; [cbn [List.app]; now apply sub2_next|].
  cbn [List.app]. rewrite sub2_next; [|cbn [forallb] in H2; apply andb_prop in H2; apply lower_not_upper, H2]. f_equal. exact (IH H2 X).
Qed.
Lemma sub2_lowers_end ls : forallb is_lower ls = true -> sub_lower_to_upper ls = ls.
Proof.
  induction ls as [|c ls IH]; intro H; [reflexivity|]. cbn [forallb] in H. apply andb_prop in H. destruct H as [H1 H2].
  destruct ls as [|c' ls]; [reflexivity|].
  rewrite sub2_next; [|cbn [forallb] in H2; apply andb_prop in H2; apply lower_not_upper, H2]. f_equal. exact (IH H2).
Qed.
(** Lower case letters followed by upper case. *)
Lemma sub2_boundary ls u r : ls <> [] -> forallb is_lower ls = true -> is_upper u = true ->
  sub_lower_to_upper (ls ++ u :: r) = ls ++ underscore :: u :: sub_lower_to_upper r.
Proof.
  induction ls as [|c ls IH]; intros N H U; [now elim N|]. cbn [forallb] in H. apply andb_prop in H. destruct H as [H1 H2]. cbn [List.app].
  destruct ls as [|c' ls]; [cbn [List.app]; now apply sub2_mark|].
  cbn [List.app]. rewrite sub2_next; [|cbn [forallb] in H2; apply andb_prop in H2; apply lower_not_upper, H2]. f_equal. exact (IH ltac:(discriminate) H2 U).
Qed.
Lemma sub2_digits ds : forall r, forallb digit ds = true -> sub_lower_to_upper (ds ++ r) = ds ++ sub_lower_to_upper r.
Proof.
  induction ds as [|d ds IH]; intros r H; [reflexivity|]. cbn [forallb] in H. apply andb_prop in H. destruct H as [H1 H2]. cbn [List.app].
  rewrite sub2_nonlower by (apply digit_neither, H1). f_equal. now apply IH.
Qed.

Lemma sub1_skip run u l t : is_upper u = true -> is_lower l = true -> sub_upper_to_lower run (u :: l :: t) = u :: sub_upper_to_lower false (l :: t).
Proof. intros Hu Hl. cbn [sub_upper_to_lower]. rewrite (upper_not_lower u Hu), andb_false_r, (lower_not_upper l Hl), andb_false_r. reflexivity. Qed.

(** One word, after its first letter, and what follows it: nothing or the next word.  [run] tells whether the letters are inside a
    match already. *)
Lemma words_rest : forall ws ls ds, ls <> [] -> forallb is_lower ls = true -> forallb digit ds = true -> Forall word ws -> forall run,
  sub_lower_to_upper (sub_upper_to_lower run (ls ++ ds ++ List.concat ws)) = ls ++ ds ++ flat_map (fun w => underscore :: w) ws.
Proof.
  assert (Enter : forall c ls r, is_lower c = true -> forallb is_lower ls = true ->
    sub_upper_to_lower false (c :: ls ++ r) = match r with
                                               | u :: l :: t => if is_upper u && is_lower l then c :: ls ++ underscore :: u :: sub_upper_to_lower true (l :: t)
                                                                else c :: ls ++ sub_upper_to_lower false r
                                               | _ => c :: ls ++ sub_upper_to_lower false r
                                               end).
  { intros c ls r. revert c. induction ls as [|c' ls IH]; intros c Hc Hls.
    - cbn [List.app sub_upper_to_lower andb]. assert (Ns : (c =? underscore) = false) by (unfold is_lower, underscore in *; lia). rewrite Ns. cbn [negb andb].
      destruct r as [|u r]; [reflexivity|]. destruct r as [|l t]; [rewrite andb_false_r; reflexivity|]. destruct (is_upper u && is_lower l); reflexivity.
    - cbn [forallb] in Hls. apply andb_prop in Hls. destruct Hls as [H1 H2]. cbn [List.app]. cbn [sub_upper_to_lower andb].
      rewrite (lower_not_upper c' H1), andb_false_r. cbn [andb]. 
      change (c :: sub_upper_to_lower false (c' :: ls ++ r) = match r with
         | u :: l :: t => if is_upper u && is_lower l then c :: (c' :: ls) ++ underscore :: u :: sub_upper_to_lower true (l :: t) else c :: (c' :: ls) ++ sub_upper_to_lower false r
         | _ => c :: (c' :: ls) ++ sub_upper_to_lower false r end).
      rewrite (IH c' H1 H2). destruct r as [|u [|l t]]; [reflexivity|reflexivity|]. destruct (is_upper u && is_lower l); reflexivity. }
  induction ws as [|w ws IH]; intros ls ds N Hls Hds W run.
  - cbn [List.concat flat_map]. rewrite !app_nil_r.
    assert (E : sub_upper_to_lower run (ls ++ ds) = ls ++ ds).
    { destruct run.
      - rewrite (sub1_lowers ls ds Hls). f_equal. now apply sub1_digits_end.
      - destruct ls as [|c ls]; [now elim N|]. cbn [forallb] in Hls. apply andb_prop in Hls. destruct Hls as [H1 H2]. cbn [List.app]. rewrite (Enter c ls ds H1 H2).
        destruct ds as [|d ds]; [reflexivity|]. pose proof Hds as Hd. cbn [forallb] in Hd. apply andb_prop in Hd. destruct Hd as [Hd _].
        destruct ds as [|d' ds]; [rewrite (sub1_digits_end [d] false Hds); reflexivity|]. rewrite (proj2 (digit_neither d Hd)). cbn [andb].
        rewrite (sub1_digits_end (d :: d' :: ds) false Hds). reflexivity. }
    rewrite E. destruct ds as [|d ds]; [rewrite app_nil_r; now apply sub2_lowers_end|].
    pose proof Hds as Hd. cbn [forallb] in Hd. apply andb_prop in Hd. destruct Hd as [Hd _].
    rewrite sub2_lowers by (auto; apply digit_neither, Hd). f_equal. rewrite <- (app_nil_r (d :: ds)) at 1. rewrite sub2_digits by exact Hds. now rewrite app_nil_r.
  - pose proof (Forall_inv_tail W) as W'. pose proof (Forall_inv W) as (u&ms&es&->&Hu&Nm&Hm&He).
    destruct ms as [|l ms]; [now elim Nm|]. pose proof Hm as Hl. cbn [forallb] in Hl. apply andb_prop in Hl. destruct Hl as [Hl Hms].
    cbn [List.concat flat_map].
    set (rest := List.concat ws) in *.
    assert (Er : ((u :: (l :: ms) ++ es) ++ rest) = u :: l :: ms ++ es ++ rest) by (cbn [List.app]; rewrite !app_assoc_reverse; reflexivity).
    rewrite Er. assert (SW : starts_word (u :: l :: ms ++ es ++ rest)) by (exists u, l, (ms ++ es ++ rest); auto).
    assert (Tail : forall b, sub_lower_to_upper (sub_upper_to_lower b (l :: ms ++ es ++ rest)) = (l :: ms) ++ es ++ flat_map (fun w => underscore :: w) ws).
    { intro b. exact (IH (l :: ms) es ltac:(discriminate) Hm He W' b). }
    assert (Fin : ls ++ ds ++ underscore :: u :: sub_lower_to_upper (sub_upper_to_lower true (l :: ms ++ es ++ rest))
                  = ls ++ ds ++ (underscore :: u :: (l :: ms) ++ es) ++ flat_map (fun w => underscore :: w) ws).
    { rewrite Tail. cbn [List.app]. rewrite !app_assoc_reverse. reflexivity. }
    change (underscore :: u :: (l :: ms) ++ es) with ((fun w => underscore :: w) (u :: (l :: ms) ++ es)) in Fin.
    destruct ds as [|d ds].
    + (* the boundary follows a letter *)
      cbn [List.app] in *. destruct run.
      * rewrite (sub1_lowers ls _ Hls), (sub1_skip true u l _ Hu Hl). rewrite (sub2_boundary ls u _ N Hls Hu). rewrite Tail.
        cbn [List.app]. rewrite !app_assoc_reverse. reflexivity.
      * destruct ls as [|c ls]; [now elim N|]. pose proof Hls as Hc. cbn [forallb] in Hc. apply andb_prop in Hc. destruct Hc as [H1 H2].
        cbn [List.app]. rewrite (Enter c ls _ H1 H2), Hu, Hl. cbn [andb].
        change (c :: ls ++ underscore :: u :: sub_upper_to_lower true (l :: ms ++ es ++ rest)) with ((c :: ls) ++ underscore :: u :: sub_upper_to_lower true (l :: ms ++ es ++ rest)).
        rewrite (sub2_lowers (c :: ls) underscore _ Hls eq_refl), (sub2_nonlower underscore) by reflexivity.
        rewrite (sub2_nonlower u) by (now apply upper_not_lower). exact Fin.
    + (* it follows a digit *)
      pose proof Hds as Hd. cbn [forallb] in Hd. apply andb_prop in Hd. destruct Hd as [Hd _].
      assert (E : sub_upper_to_lower run (ls ++ (d :: ds) ++ u :: l :: ms ++ es ++ rest)
                  = ls ++ (d :: ds) ++ underscore :: u :: sub_upper_to_lower true (l :: ms ++ es ++ rest)).
      { destruct run.
        - rewrite (sub1_lowers ls _ Hls). f_equal. exact (sub1_digits (d :: ds) true _ ltac:(discriminate) Hds SW).
        - destruct ls as [|c ls]; [now elim N|]. pose proof Hls as Hc. cbn [forallb] in Hc. apply andb_prop in Hc. destruct Hc as [H1 H2].
          pose proof (sub1_digits (d :: ds) false _ ltac:(discriminate) Hds SW) as D. cbn [hd tl] in D.
          cbn [List.app] in *. rewrite (Enter c ls _ H1 H2). rewrite (proj2 (digit_neither d Hd)). cbn [andb]. rewrite D.
          destruct ds; reflexivity. }
      rewrite E. change (ls ++ (d :: ds) ++ underscore :: u :: sub_upper_to_lower true (l :: ms ++ es ++ rest))
        with (ls ++ d :: (ds ++ underscore :: u :: sub_upper_to_lower true (l :: ms ++ es ++ rest))).
      rewrite (sub2_lowers ls d _ Hls) by apply (digit_neither d Hd).
      change (d :: ds ++ underscore :: u :: sub_upper_to_lower true (l :: ms ++ es ++ rest)) with ((d :: ds) ++ underscore :: u :: sub_upper_to_lower true (l :: ms ++ es ++ rest)).
      rewrite (sub2_digits (d :: ds) _ Hds), (sub2_nonlower underscore) by reflexivity.
      rewrite (sub2_nonlower u) by (now apply upper_not_lower). exact Fin.
Qed.

(** Names in usual spelling become the words in lower case, with underscores between them: "GetHat2Size" is get_hat2_size.  So
    different names get different Python names. *)
Theorem C53_words ws : ws <> [] -> Forall word ws -> snake_case (List.concat ws) = join [underscore] (map lower ws).
Proof.
  intros N W. destruct ws as [|w ws]; [now elim N|]. pose proof (Forall_inv_tail W) as W'. pose proof (Forall_inv W) as (u&ls&ds&->&Hu&Nl&Hl&Hd).
  destruct ls as [|l ls]; [now elim Nl|]. pose proof Hl as Hl1. cbn [forallb] in Hl1. apply andb_prop in Hl1. destruct Hl1 as [Hl1 Hl2].
  unfold snake_case. cbn [List.concat].
  assert (E : (u :: (l :: ls) ++ ds) ++ List.concat ws = u :: l :: ls ++ ds ++ List.concat ws) by (cbn [List.app]; rewrite app_assoc_reverse; reflexivity).
  rewrite E. clear E. rewrite (sub1_skip false u l _ Hu Hl1).
  rewrite sub2_nonlower by (now apply upper_not_lower).
  pose proof (words_rest ws (l :: ls) ds ltac:(discriminate) Hl Hd W' false) as R.
  change (sub_upper_to_lower false (l :: ls ++ ds ++ List.concat ws)) with (sub_upper_to_lower false ((l :: ls) ++ ds ++ List.concat ws)). rewrite R.
  assert (J : forall x ws, lower (x ++ flat_map (fun w => underscore :: w) ws) = join [underscore] (map lower (x :: ws))).
  { clear. intros x ws. revert x. induction ws as [|w ws IH]; intro x.
    - cbn [flat_map map join]. now rewrite app_nil_r.
    - specialize (IH w). rewrite lower_app. cbn [flat_map]. change ((underscore :: w) ++ flat_map (fun w => underscore :: w) ws) with (underscore :: (w ++ flat_map (fun w => underscore :: w) ws)).
      change (lower (underscore :: (w ++ flat_map (fun w => underscore :: w) ws))) with (underscore :: lower (w ++ flat_map (fun w => underscore :: w) ws)).
      rewrite IH. reflexivity. }
  rewrite <- J. f_equal. cbn [List.app]. rewrite !app_assoc_reverse. reflexivity.
Qed.
Print Assumptions C53_words.

Lemma join_injective (l l' : list pystr) : Forall (fun w => ~ In underscore w) l -> Forall (fun w => ~ In underscore w) l' ->
  l <> [] -> l' <> [] -> join [underscore] l = join [underscore] l' -> l = l'.
Proof.
  assert (S : forall (a b x y : pystr), ~ In underscore a -> ~ In underscore b -> a ++ underscore :: x = b ++ underscore :: y -> a = b /\ x = y).
  { induction a as [|c a IH]; intros b x y Na Nb E; destruct b as [|d b]; cbn [List.app] in E.
    - injection E as <-. auto.
    - injection E as <- _. elim Nb. now left.
    - injection E as -> _. elim Na. now left.
    - injection E as <- E. destruct (IH b x y) as [<- <-]; auto; intro I; [apply Na|apply Nb]; now right. }
  assert (U : forall (a b x : pystr), ~ In underscore a -> a <> b ++ underscore :: x).
  { intros a b x Na ->. apply Na, in_or_app. right. now left. }
  revert l'. induction l as [|w l IH]; intros l' F F' N N' E; [now elim N|]. destruct l' as [|w' l']; [now elim N'|].
  pose proof (Forall_inv F) as Fw. pose proof (Forall_inv F') as Fw'. apply Forall_inv_tail in F, F'.
  destruct l as [|x l], l' as [|x' l'].
  - cbn [join] in E. now f_equal.
  - exfalso. change (w = w' ++ underscore :: join [underscore] (x' :: l')) in E. exact (U _ _ _ Fw E).
  - exfalso. change (w ++ underscore :: join [underscore] (x :: l) = w') in E. symmetry in E. exact (U _ _ _ Fw' E).
  - change (w ++ underscore :: join [underscore] (x :: l) = w' ++ underscore :: join [underscore] (x' :: l')) in E.
    destruct (S _ _ _ _ Fw Fw' E) as [<- E']. f_equal. apply IH; auto; discriminate.
Qed.
Lemma lower_c_lower c : is_lower c = true -> lower_c c = c.
Proof. unfold is_lower, lower_c. intro H. destruct ((65 <=? c) && (c <=? 90)) eqn:X; [lia|reflexivity]. Qed.
Lemma lower_c_digit c : digit c = true -> lower_c c = c.
Proof. unfold digit, lower_c. intro H. destruct ((65 <=? c) && (c <=? 90)) eqn:X; [lia|reflexivity]. Qed.
Lemma lower_rest ls ds : forallb is_lower ls = true -> forallb digit ds = true -> lower (ls ++ ds) = ls ++ ds.
Proof.
  intros H1 H2. rewrite lower_app. f_equal; unfold lower.
  - rewrite <- (map_id ls) at 2. apply map_ext_in. intros c I. apply lower_c_lower. exact (proj1 (forallb_forall _ _) H1 c I).
  - rewrite <- (map_id ds) at 2. apply map_ext_in. intros c I. apply lower_c_digit. exact (proj1 (forallb_forall _ _) H2 c I).
Qed.
Lemma word_no_underscore w : word w -> ~ In underscore (lower w).
Proof.
  intros (u&ls&ds&->&Hu&_&Hl&Hd) I. change (lower (u :: ls ++ ds)) with (lower_c u :: lower (ls ++ ds)) in I. rewrite (lower_rest ls ds Hl Hd) in I.
  destruct I as [E|I].
  - unfold lower_c, is_upper, underscore in *. rewrite Hu in E. lia.
  - apply in_app_or in I. destruct I as [I|I].
    + pose proof (proj1 (forallb_forall _ _) Hl _ I) as X. discriminate X.
    + pose proof (proj1 (forallb_forall _ _) Hd _ I) as X. discriminate X.
Qed.
Lemma word_lower_injective w w' : word w -> word w' -> lower w = lower w' -> w = w'.
Proof.
  intros (u&ls&ds&->&Hu&_&Hl&Hd) (u'&ls'&ds'&->&Hu'&_&Hl'&Hd') E.
  change (lower_c u :: lower (ls ++ ds) = lower_c u' :: lower (ls' ++ ds')) in E. rewrite (lower_rest ls ds Hl Hd), (lower_rest ls' ds' Hl' Hd') in E.
  injection E as E1 E2. rewrite E2. f_equal. unfold lower_c, is_upper in *. rewrite Hu, Hu' in E1. lia.
Qed.

(** Two names in usual spelling with one Python name are the same name. *)
Theorem C53_usual_names_distinct ws ws' : ws <> [] -> ws' <> [] -> Forall word ws -> Forall word ws' ->
  snake_case (List.concat ws) = snake_case (List.concat ws') -> ws = ws'.
Proof.
  intros N N' W W' E. rewrite (C53_words ws N W), (C53_words ws' N' W') in E.
  assert (J : map lower ws = map lower ws').
  { apply join_injective; auto.
    - apply Forall_forall. intros x I. apply in_map_iff in I. destruct I as (w&<-&I). apply word_no_underscore. exact (proj1 (Forall_forall _ _) W w I).
    - apply Forall_forall. intros x I. apply in_map_iff in I. destruct I as (w&<-&I). apply word_no_underscore. exact (proj1 (Forall_forall _ _) W' w I).
    - destruct ws; [now elim N|discriminate].
    - destruct ws'; [now elim N'|discriminate]. }
  clear E N N'. revert ws' W' J. induction ws as [|w ws IH]; intros ws' W' J; destruct ws' as [|w' ws']; try discriminate; [reflexivity|].
  cbn [map] in J. injection J as J1 J2. pose proof (word_lower_injective w w' (Forall_inv W) (Forall_inv W') J1) as <-. f_equal.
  apply IH; [exact (Forall_inv_tail W)|exact (Forall_inv_tail W')|exact J2].
Qed.
Print Assumptions C53_usual_names_distinct.

Ltac is_word a b c := exists a, b, c; repeat split; (reflexivity || discriminate).
Example C53_example :
  Forall word [lit "Get"; lit "Hat2"; lit "Size"] /\ snake_case (lit "GetHat2Size") = lit "get_hat2_size"
  /\ snake_case (lit "GetHTTPURLFor3Hats") = lit "get_httpurl_for3_hats" /\ snake_case (lit "alreadyCamel") = lit "already_camel".
Proof.
  split; [|repeat split; reflexivity].
  repeat constructor; [is_word 71 (lit "et") (@nil N)|is_word 72 (lit "at") (lit "2")|is_word 83 (lit "ize") (@nil N)].
Qed.

(** ** The generated classes *)

Lemma fold_dset_last {V M} (key : M -> pystr) (val : M -> V) : forall l d k,
  dget (fold_left (fun d m => dset d (key m) (val m)) l d) k
  = match find (fun m => str_eqb (key m) k) (rev l) with Some m => Some (val m) | None => dget d k end.
Proof.
  induction l as [|m l IH]; intros d k; [reflexivity|]. cbn [fold_left rev]. rewrite IH.
  assert (F : forall (a b : list M) f, find f (a ++ b) = match find f a with Some x => Some x | None => find f b end).
  { clear. induction a as [|x a IH]; intros b f; [reflexivity|]. cbn [List.app find]. destruct (f x); [reflexivity|apply IH]. }
  rewrite F. destruct (find _ (rev l)); [reflexivity|]. cbn [find]. rewrite dget_dset. destruct (str_eqb (key m) k); reflexivity.
Qed.
Lemma find_unique {M} (key : M -> pystr) (l : list M) m : NoDup (map key l) -> In m l -> find (fun x => str_eqb (key x) (key m)) (rev l) = Some m.
Proof.
  intros ND I. destruct (find _ (rev l)) as [x|] eqn:F.
  - apply find_some in F. destruct F as [Ix E]. apply in_rev in Ix. apply str_eqb_eq in E. f_equal.
    clear - ND I Ix E. induction l as [|y l IH]; [contradiction|]. cbn [map] in ND. apply NoDup_cons_iff in ND. destruct ND as [N ND].
    destruct I as [->|I], Ix as [->|Ix]; auto.
    + elim N. rewrite <- E. now apply in_map.
    + elim N. rewrite E. now apply in_map.
  - exfalso. apply in_rev in I. pose proof (find_none _ _ F m I) as X. cbv beta in X. now rewrite str_eqb_refl in X.
Qed.
Lemma find_absent {M} (key : M -> pystr) (l : list M) k : (forall m, In m l -> key m <> k) -> find (fun x => str_eqb (key x) k) (rev l) = None.
Proof.
  intro H. destruct (find _ (rev l)) as [x|] eqn:F; [|reflexivity]. apply find_some in F. destruct F as [I E]. apply in_rev in I. apply str_eqb_eq in E. now elim (H x I).
Qed.

(** A service whose RPCs have Python names different from each other and from what the client class has already. *)
Definition well_named (esc : pystr -> pystr) (s : sdesc) : Prop :=
  NoDup (map md_name (sd_methods s)) /\ NoDup (map (local_name esc) (sd_methods s))
  /\ forall m, In m (sd_methods s) -> ~ In (local_name esc m) (dkeys base_attributes).

Lemma gen_is_rpc {A B} s m (f : callable A B) : gen_endpoint (md_kind m) (gen_method_info s m) f = rpc_endpoint s m f.
Proof. unfold rpc_endpoint. now destruct (md_kind m). Qed.
Lemma url_injective s : NoDup (map md_name (sd_methods s)) -> NoDup (map (method_url s) (sd_methods s)).
Proof.
  intro ND. induction (sd_methods s) as [|m l IH]; [constructor|]. cbn [map] in *. apply NoDup_cons_iff in ND. destruct ND as [N ND]. constructor; auto.
  intro I. apply N. apply in_map_iff in I. destruct I as (m'&E&I). unfold method_url in E. apply app_inv_head in E. apply app_inv_head in E. apply app_inv_head in E.
  rewrite <- E. now apply in_map.
Qed.

(** The method of a generated client named after an RPC calls, with the RPC's kind, the URL the generated application serves, and
    behind that URL is an endpoint of the same kind that calls the attribute of the service with the same name.  [use_get] is
    offered for unary RPCs without side effects only. *)
Theorem C52_generated {A B} esc s (svc : pystr -> callable A B) m : well_named esc s -> In m (sd_methods s) ->
  client_calls (gen_client esc s) (local_name esc m) = Some (md_kind m, rpc_info s m, supports_get m)
  /\ (supports_get m = true <-> md_kind m = MUnary /\ md_idem m = NoSideEffects)
  /\ dget (gen_endpoints esc s svc) (lit "/" ++ sd_type s ++ lit "/" ++ md_name m) = Some (rpc_endpoint s m (svc (local_name esc m)))
  /\ forall c : client A B, call_url c (rpc_info s m) = cl_address c ++ lit "/" ++ sd_type s ++ lit "/" ++ md_name m.
Proof.
  intros (N1&N2&N3) I. split; [|split; [|split]].
  - unfold client_calls, gen_client. rewrite fold_dset_last, (find_unique (local_name esc) _ m N2 I).
    rewrite fold_dset_last, find_absent.
    + destruct (md_kind m); reflexivity.
    + intros x Ix E. apply (N3 x Ix). rewrite E. destruct (md_kind m); cbn; tauto.
  - unfold supports_get. destruct (md_kind m), (md_idem m); split; intro H; try discriminate; try (destruct H; discriminate); auto.
  - change (lit "/" ++ sd_type s ++ lit "/" ++ md_name m) with (method_url s m). unfold gen_endpoints.
    rewrite fold_dset_last, (find_unique (method_url s) _ m (url_injective s N1) I). now rewrite gen_is_rpc.
  - reflexivity.
Qed.
Print Assumptions C52_generated.

(** Everything the application serves is an RPC of the service. *)
Theorem C52_only_rpcs {A B} esc s (svc : pystr -> callable A B) key e : dget (gen_endpoints esc s svc) key = Some e ->
  exists m, In m (sd_methods s) /\ key = lit "/" ++ sd_type s ++ lit "/" ++ md_name m /\ e = rpc_endpoint s m (svc (local_name esc m)).
Proof.
  unfold gen_endpoints. rewrite fold_dset_last. destruct (find _ _) as [m|] eqn:F; [|discriminate]. intro E. injection E as <-.
  apply find_some in F. destruct F as [I E]. apply in_rev in I. apply str_eqb_eq in E. exists m. rewrite gen_is_rpc. repeat split; auto.
Qed.
Print Assumptions C52_only_rpcs.

Lemma split_at_slash (a b x y : pystr) : ~ In 47 x -> ~ In 47 y -> a ++ 47 :: x = b ++ 47 :: y -> a = b /\ x = y.
Proof.
  intros Nx Ny E. assert (R : rev x ++ 47 :: rev a = rev y ++ 47 :: rev b).
  { apply (f_equal (@rev N)) in E. rewrite !rev_app_distr in E. cbn [rev] in E. rewrite !app_assoc_reverse in E. exact E. }
  assert (S : forall (p q u v : pystr), ~ In 47 p -> ~ In 47 q -> p ++ 47 :: u = q ++ 47 :: v -> p = q /\ u = v).
  { clear. induction p as [|c p IH]; intros q u v Np Nq E; destruct q as [|d q]; cbn [List.app] in E.
    - injection E as <-. auto.
    - injection E as <- _. elim Nq. now left.
    - injection E as -> _. elim Np. now left.
    - injection E as <- E. destruct (IH q u v) as [<- <-]; auto; intro I; [apply Np|apply Nq]; now right. }
  destruct (S (rev x) (rev y) (rev a) (rev b)) as [E1 E2]; auto; try (now rewrite <- in_rev).
  split; apply (f_equal (@rev N)) in E1, E2; rewrite !rev_involutive in *; auto.
Qed.

(** Different methods, of any services, have different URLs. *)
Theorem C52_paths_differ {A B} (c : client A B) m m' : ~ In 47 (mi_name m) -> ~ In 47 (mi_name m') ->
  call_url c m = call_url c m' -> mi_service m = mi_service m' /\ mi_name m = mi_name m'.
Proof.
  intros N N' E. unfold call_url in E. apply app_inv_head in E. apply app_inv_head in E. now apply split_at_slash.
Qed.
Print Assumptions C52_paths_differ.

(** ** Routing *)

Lemma removeprefix_app p s : removeprefix p (p ++ s) = s.
Proof. unfold removeprefix. rewrite startswith_app, skipn_app_exact. reflexivity. Qed.

(** An ASGI application serves only its registered paths, and these behind the root path it is mounted at. *)
Theorem C52_asgi {A B} (ap : app A B) sc e : find_endpoint ap sc = Ok e ->
  dget (ap_endpoints ap) (sc_path sc) = Some e
  \/ exists root key, sc_root sc = Some root /\ sc_path sc = root ++ key /\ dget (ap_endpoints ap) key = Some e.
Proof.
  unfold find_endpoint. destruct (dget _ (sc_path sc)) as [e0|] eqn:D; [intro E; injection E as <-; now left|].
  destruct (sc_root sc) as [[|c root]|]; try discriminate. destruct (dget _ (removeprefix _ _)) as [e0|] eqn:D2; [|discriminate]. intro E. injection E as <-. right.
  unfold removeprefix in D2. destruct (startswith (c :: root) (sc_path sc)) eqn:S; [|rewrite D in D2; discriminate].
  destruct (startswith_split _ _ S) as [t Et]. exists (c :: root), t. rewrite Et in D2 |- *. rewrite skipn_app_exact in D2. repeat split; auto.
Qed.
Print Assumptions C52_asgi.

(** A WSGI application serves only its registered paths whatever it is mounted at, and, mounted at its own path, the rest of
    these; an empty path counts as "/". *)
Theorem C52_wsgi {A B} (ap : app A B) q e : wsgi_find_endpoint ap q = Ok e ->
  exists path, env_get q "PATH_INFO" = Some path /\
    let path := match path with [] => lit "/" | _ => path end in
    dget (ap_endpoints ap) path = Some e
    \/ env_get q "SCRIPT_NAME" = Some (ap_path ap) /\ dget (ap_endpoints ap) (ap_path ap ++ path) = Some e.
Proof.
  unfold wsgi_find_endpoint, env_item. destruct (env_get q "PATH_INFO") as [path|]; [|discriminate]. cbn [bind]. intro H. exists path. split; [reflexivity|].
  cbv zeta. set (p := match path with [] => _ | _ => _ end) in *. destruct (dget _ p) as [e0|]; [left; injection H as <-; reflexivity|]. right.
  destruct (env_get q "SCRIPT_NAME") as [sn|]; [|discriminate]. cbn [bind] in H. destruct (str_eqb_spec sn (ap_path ap)) as [Es|]; [|discriminate].
  split; [now rewrite Es|]. destruct (dget _ (ap_path ap ++ p)); [now injection H as <-|discriminate].
Qed.
Print Assumptions C52_wsgi.

(** The path of a generated application served at any root path, or mounted at its own path: the RPC of that name. *)
Theorem C52_served_asgi {A B} (ap : app A B) esc s svc m root sc : ap_endpoints ap = gen_endpoints esc s svc -> NoDup (map md_name (sd_methods s)) ->
  In m (sd_methods s) -> (forall x, In x (sd_methods s) -> ~ In 47 (md_name x)) ->
  sc_root sc = Some root -> (sc_path sc = lit "/" ++ sd_type s ++ lit "/" ++ md_name m \/ sc_path sc = root ++ lit "/" ++ sd_type s ++ lit "/" ++ md_name m) ->
  find_endpoint ap sc = Ok (rpc_endpoint s m (svc (local_name esc m))).
Proof.
  intros Ea ND I Ns Er Ep. set (e := rpc_endpoint _ _ _).
  assert (D : dget (gen_endpoints esc s svc) (method_url s m) = Some e).
  { unfold gen_endpoints. rewrite fold_dset_last, (find_unique (method_url s) _ m (url_injective s ND) I). now rewrite gen_is_rpc. }
  change (lit "/" ++ sd_type s ++ lit "/" ++ md_name m) with (method_url s m) in Ep. unfold find_endpoint. rewrite Ea, Er.
  destruct Ep as [->|Ep]; [now rewrite D|]. destruct (dget _ (sc_path sc)) as [e0|] eqn:D2.
  - destruct (C52_only_rpcs esc s svc _ _ D2) as (x&Ix&Ex&->). rewrite Ep in Ex. unfold method_url in Ex.
    assert (R : (root ++ lit "/" ++ sd_type s) ++ 47 :: md_name m = (lit "/" ++ sd_type s) ++ 47 :: md_name x) by (rewrite !app_assoc_reverse; exact Ex).
    apply split_at_slash in R; auto. destruct R as [R _]. assert (root = []) as ->.
    { destruct root as [|c root]; [reflexivity|]. exfalso. apply (f_equal (@List.length N)) in R. rewrite !app_length in R. cbn in R. lia. }
    cbn [List.app] in Ep. rewrite Ep, D in D2. injection D2 as <-. reflexivity.
  - destruct root as [|c root]; [cbn [List.app] in Ep; rewrite Ep, D in D2; discriminate|]. rewrite Ep, removeprefix_app, D. reflexivity.
Qed.
Print Assumptions C52_served_asgi.

Theorem C52_served_wsgi {A B} (ap : app A B) esc s svc m script path q : ap_endpoints ap = gen_endpoints esc s svc -> ap_path ap = service_path s ->
  NoDup (map md_name (sd_methods s)) -> In m (sd_methods s) -> (forall x, In x (sd_methods s) -> ~ In 47 (md_name x)) -> 
  env_get q "SCRIPT_NAME" = Some script -> env_get q "PATH_INFO" = Some path ->
  path = lit "/" ++ sd_type s ++ lit "/" ++ md_name m \/ (script = lit "/" ++ sd_type s /\ sd_type s <> [] /\ path = lit "/" ++ md_name m) ->
  wsgi_find_endpoint ap q = Ok (rpc_endpoint s m (svc (local_name esc m))).
Proof.
  intros Ea Epa ND I Ns Es Ep Ec. set (e := rpc_endpoint _ _ _).
  assert (D : dget (gen_endpoints esc s svc) (method_url s m) = Some e).
  { unfold gen_endpoints. rewrite fold_dset_last, (find_unique (method_url s) _ m (url_injective s ND) I). now rewrite gen_is_rpc. }
  unfold wsgi_find_endpoint, env_item. rewrite Ep, Ea, Es, Epa. cbn [bind].
  destruct Ec as [->|(->&Nt&->)].
  - change (lit "/" ++ sd_type s ++ lit "/" ++ md_name m) with (method_url s m). rewrite (eq_refl : method_url s m = 47 :: sd_type s ++ lit "/" ++ md_name m) in D |- *.
    now rewrite D.
  - change (lit "/" ++ md_name m) with (47 :: md_name m). destruct (dget _ (47 :: md_name m)) as [e0|] eqn:D2.
    + exfalso. destruct (C52_only_rpcs esc s svc _ _ D2) as (x&Ix&Ex&_).
      assert (R : [] ++ 47 :: md_name m = (lit "/" ++ sd_type s) ++ 47 :: md_name x) by (rewrite app_assoc_reverse; exact Ex).
      apply split_at_slash in R; auto. destruct R as [R _]. discriminate.
    + change (lit "/" ++ sd_type s) with (service_path s). rewrite str_eqb_refl.
      assert (U : service_path s ++ 47 :: md_name m = method_url s m) by (unfold service_path, method_url; now rewrite app_assoc_reverse).
      rewrite U, D. reflexivity.
Qed.
Print Assumptions C52_served_wsgi.

(** ** Findings *)

Definition hats : sdesc := mk_sdesc (lit "shop.Hats") [mk_mdesc (lit "GetUrl") MUnary NoSideEffects; mk_mdesc (lit "GetURL") MServerStream IdemUnknown].

Lemma base_no_methods n k m g : dget base_attributes n <> Some (AMethod k m g).
Proof.
  assert (F : Forall (fun kv => match snd kv with AMethod _ _ _ => False | _ => True end) base_attributes) by (repeat constructor).
  revert F. generalize base_attributes. induction d as [|[x v] d IH]; intro F; [discriminate|]. cbn [dget]. destruct (str_eqb x n).
  - intro E. injection E as ->. exact (Forall_inv F).
  - exact (IH (Forall_inv_tail F)).
Qed.

(** Two RPCs protobuf allows in one service can get one Python name: the client cannot call the first, and the application calls
    the implementation of the second for both. *)
Theorem C53_distinct_refuted : exists s, NoDup (map md_name (sd_methods s)) /\ exists m m', In m (sd_methods s) /\ In m' (sd_methods s) /\ md_name m <> md_name m'
  /\ (forall esc, local_name esc m = local_name esc m')
  /\ (forall esc n k mi g, esc (lit "get_url") = lit "get_url" -> client_calls (gen_client esc s) n = Some (k, mi, g) -> mi_name mi <> md_name m).
Proof.
  exists hats. split; [|exists (mk_mdesc (lit "GetUrl") MUnary NoSideEffects), (mk_mdesc (lit "GetURL") MServerStream IdemUnknown); split; [|split; [|split; [|split]]]].
  - repeat constructor; cbn; intro H; [destruct H as [H|H]; [discriminate|contradiction]|contradiction].
  - now left.
  - right. now left.
  - discriminate.
  - intro esc. reflexivity.
  - intros esc n k mi g He H. unfold client_calls, gen_client, hats in H. cbn [sd_methods fold_left] in H.
    assert (L1 : local_name esc (mk_mdesc (lit "GetUrl") MUnary NoSideEffects) = lit "get_url") by exact He.
    assert (L2 : local_name esc (mk_mdesc (lit "GetURL") MServerStream IdemUnknown) = lit "get_url") by exact He. rewrite L1, L2 in H.
    rewrite !dget_dset in H. destruct (str_eqb (lit "get_url") n) eqn:E.
    + match type of H with match ?x with _ => _ end = _ => destruct x as [[| |]|]; try discriminate end. injection H as _ <- _. discriminate.
    + destruct (dget base_attributes n) as [[| |k0 m0 g0]|] eqn:Db; try discriminate. exfalso. exact (base_no_methods _ _ _ _ Db).
Qed.
Print Assumptions C53_distinct_refuted.

(** An RPC can take the place of a method of the client itself: for one named Close, leaving [with client:] makes a call without
    a request instead of closing the client, and with one named ExecuteUnary no unary RPC of the service can be called. *)
Theorem C53_inherited_refuted :
  (exists s m, sd_methods s = [m] /\ forall esc, esc (lit "close") = lit "close" -> dget base_attributes (lit "close") = Some ABase /\ dget (gen_client esc s) (lit "close") <> Some ABase)
  /\ exists s m, In m (sd_methods s) /\ md_kind m = MUnary /\ forall esc, (forall x, esc x = x) -> client_calls (gen_client esc s) (local_name esc m) = None.
Proof.
  split.
  - exists (mk_sdesc (lit "shop.Door") [mk_mdesc (lit "Close") MUnary IdemUnknown]), (mk_mdesc (lit "Close") MUnary IdemUnknown). split; [reflexivity|].
    intros esc He. split; [reflexivity|]. unfold gen_client. cbn [sd_methods fold_left]. unfold local_name. change (snake_case (md_name _)) with (lit "close"). rewrite He, dget_dset_same. discriminate.
  - exists (mk_sdesc (lit "shop.Jobs") [mk_mdesc (lit "ExecuteUnary") MUnary IdemUnknown; mk_mdesc (lit "List") MUnary IdemUnknown]), (mk_mdesc (lit "List") MUnary IdemUnknown).
    split; [right; now left|]. split; [reflexivity|]. intros esc He. unfold gen_client. cbn [sd_methods fold_left]. unfold local_name.
    rewrite !He. reflexivity.
Qed.
Print Assumptions C53_inherited_refuted.

(** A service that meets the hypotheses. *)
Definition shop : sdesc :=
  mk_sdesc (lit "shop.Hats") [mk_mdesc (lit "MakeHat") MUnary NoSideEffects; mk_mdesc (lit "MakeHats") MServerStream IdemUnknown; mk_mdesc (lit "SellHats") MBidi IdemUnknown].
Example C52_example : well_named (fun x => x) shop /\ (forall m, In m (sd_methods shop) -> ~ In 47 (md_name m)).
Proof.
  split; [split; [|split]|].
  - repeat constructor; cbn; intro H; repeat (destruct H as [H|H]; [discriminate|]); contradiction.
  - repeat constructor; cbn; intro H; repeat (destruct H as [H|H]; [discriminate|]); contradiction.
  - intros m I. cbn in I. repeat (destruct I as [<-|I]; [cbn; intro H; repeat (destruct H as [H|H]; [discriminate|]); contradiction|]). contradiction.
  - intros m I. cbn in I. repeat (destruct I as [<-|I]; [cbn; intro H; repeat (destruct H as [H|H]; [discriminate|]); contradiction|]). contradiction.
Qed.

(** Mounted at its own path below another mount point, an application is not found: with ASGI the root path then ends with its
    path, with WSGI the script name does. *)
Theorem C52_nested_mount_refuted {A B} (ap : app A B) svc : ap_endpoints ap = gen_endpoints (fun x => x) shop svc -> ap_path ap = service_path shop ->
  (forall sc, sc_root sc = Some (lit "/api" ++ ap_path ap) -> sc_path sc = lit "/api" ++ ap_path ap ++ lit "/MakeHat" -> find_endpoint ap sc = Raise not_found)
  /\ forall q, env_get q "SCRIPT_NAME" = Some (lit "/api" ++ ap_path ap) -> env_get q "PATH_INFO" = Some (lit "/MakeHat") -> wsgi_find_endpoint ap q = Raise not_found.
Proof.
  intros Ea Ep. split.
  - intros sc Er Epa. unfold find_endpoint. rewrite Ea, Er, Epa, Ep. reflexivity.
  - intros q Es Epa. unfold wsgi_find_endpoint, env_item. rewrite Ea, Es, Epa, Ep. reflexivity.
Qed.
Print Assumptions C52_nested_mount_refuted.

(** With a slash at the end of the address the client requests another path. *)
Theorem C52_address_slash_refuted {A B} (c : client A B) (ap : app A B) svc sc address m : ap_endpoints ap = gen_endpoints (fun x => x) shop svc ->
  cl_address c = address ++ lit "/" -> sc_root sc = Some [] -> In m (sd_methods shop) ->
  call_url c (rpc_info shop m) = address ++ sc_path sc -> find_endpoint ap sc = Raise not_found.
Proof.
  intros Ea Ec Er I Eu. unfold call_url in Eu. rewrite Ec, !app_assoc_reverse in Eu. apply app_inv_head in Eu. unfold find_endpoint. rewrite Ea, Er, <- Eu.
  cbn in I. repeat (destruct I as [<-|I]; [reflexivity|]). contradiction.
Qed.
Print Assumptions C52_address_slash_refuted.
