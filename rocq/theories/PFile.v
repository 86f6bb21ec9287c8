(** The modules the code generator writes: C71, C72. *)
From Coq Require Import List NArith Bool String Lia.
From Verif Require Import MBase MPyStr LBase LPyStr MHeaders LHeaders MProtocol MServer MGen PGen MFile.
Import ListNotations.
Local Open Scope N_scope.

(** ** C71: the classes of a service *)

(** The documented names: for each service X the classes X, XASGIApplication and XClient, and XSync, XWSGIApplication and
    XClientSync. *)
Definition documented_suffix (sync : bool) (r : crole) : pystr :=
  lit (match sync, r with
       | false, CService => "" | false, CApplication => "ASGIApplication" | false, CClient => "Client"
       | true, CService => "Sync" | true, CApplication => "WSGIApplication" | true, CClient => "ClientSync"
       end)%string.
Definition wanted (io : option io_option) (sync : bool) : Prop :=
  match io with None => True | Some IoSync => sync = true | Some IoAsync => sync = false end.
(** Names of services that are not names of a class of another service: different from each other, none ending like a class. *)
Definition ends_with (suffix s : pystr) : Prop := exists p, s = p ++ suffix.
Definition unconfusable (esc : pystr -> pystr) (services : list fservice) : Prop :=
  NoDup (map (fun s => esc (fs_name s)) services)
  /\ forall s suffix, In s services -> In suffix ["ASGIApplication"; "WSGIApplication"; "Client"; "Sync"]%string -> ~ ends_with (lit suffix) (esc (fs_name s)).

Definition all_roles : list (bool * crole) :=
  [(false, CService); (false, CApplication); (false, CClient); (true, CService); (true, CApplication); (true, CClient)].
Lemma app_split {X} (a b c d : list X) : a ++ b = c ++ d -> (List.length b <= List.length d)%nat -> exists m, d = m ++ b /\ a = c ++ m.
Proof.
  revert c. induction a as [|x a IH]; intros c E L.
  - cbn [List.app] in E. destruct c as [|y c].
    + exists []. cbn [List.app] in *. auto.
    + exfalso. apply (f_equal (@List.length X)) in E. cbn in E. rewrite app_length in E. lia.
  - destruct c as [|y c].
    + cbn [List.app] in E. exists (x :: a). auto.
    + cbn [List.app] in E. injection E as <- E. destruct (IH c E L) as (m&->&->). exists m. auto.
Qed.

(** A class name determines service name and role. *)
Lemma names_differ esc services s s' sync sync' r r' : unconfusable esc services -> In s services -> In s' services ->
  esc (fs_name s) ++ documented_suffix sync r = esc (fs_name s') ++ documented_suffix sync' r' ->
  esc (fs_name s) = esc (fs_name s') /\ sync = sync' /\ r = r'.
Proof.
  intros [_ U] I I' E.
  assert (G : forall s s' sync sync' r r', In s services -> In s' services -> esc (fs_name s) ++ documented_suffix sync r = esc (fs_name s') ++ documented_suffix sync' r' ->
     (List.length (documented_suffix sync r) <= List.length (documented_suffix sync' r'))%nat -> esc (fs_name s) = esc (fs_name s') /\ sync = sync' /\ r = r').
  { clear s s' sync sync' r r' I I' E. intros s s' sync sync' r r' I I' E L. destruct (app_split _ _ _ _ E L) as (m&E1&E2).
    assert (K : forall x, In x ["ASGIApplication"; "WSGIApplication"; "Client"; "Sync"]%string -> m <> lit x).
    { intros x Hx ->. apply (U s x I Hx). now exists (esc (fs_name s')). }
    assert (K' : forall p x, In x ["ASGIApplication"; "WSGIApplication"; "Client"; "Sync"]%string -> m <> p ++ lit x).
    { intros p x Hx ->. apply (U s x I Hx). exists (esc (fs_name s') ++ p). now rewrite app_assoc_reverse. }
    destruct sync, sync', r, r'; cbn [documented_suffix] in E1; cbn in L; try lia;
      try (destruct m; [rewrite app_nil_r in E2; auto|]; exfalso; apply (f_equal (@List.length N)) in E1; cbn in E1; rewrite app_length in E1; cbn in E1; lia).
    all: exfalso.
    all: try (apply (f_equal (@rev N)) in E1; rewrite rev_app_distr in E1; discriminate E1).
    all: try (apply (K "Client"%string); [cbn; tauto|]; apply (app_inv_tail (lit "Sync")); symmetry; exact E1).
    all: try (rewrite app_nil_r in E1; subst m).
    all: try (now apply (K "ASGIApplication"%string); [cbn; tauto|]).
    all: try (now apply (K "WSGIApplication"%string); [cbn; tauto|]).
    all: try (now apply (K "Client"%string); [cbn; tauto|]).
    all: try (now apply (K "Sync"%string); [cbn; tauto|]).
    all: try (now apply (K' (lit "Client") "Sync"%string); [cbn; tauto|]). }
  destruct (Compare_dec.le_ge_dec (List.length (documented_suffix sync r)) (List.length (documented_suffix sync' r'))) as [L|L].
  - now apply (G s s' sync sync' r r').
  - destruct (G s' s sync' sync r' r I' I (eq_sym E) L) as (?&?&?). auto.
Qed.

Lemma file_classes_in esc io services n c : In (n, c) (file_classes esc io services) <->
  exists s, In s services /\ n = esc (fs_name s) ++ documented_suffix (gc_sync c) (gc_role c) /\ gc_service c = fs_desc s /\ wanted io (gc_sync c).
Proof.
  unfold file_classes. rewrite in_flat_map. split.
  - intros (s&I&H). exists s. split; [exact I|]. apply in_app_or in H.
    destruct io as [[]|]; cbn [wanted]; destruct H as [H|H]; cbn [In async_classes sync_classes] in H; repeat (destruct H as [H|H]); try contradiction;
      injection H as <- <-; cbn [gc_sync gc_role gc_service documented_suffix]; rewrite ?app_nil_r; auto.
  - intros (s&I&->&D&W). exists s. split; [exact I|]. apply in_or_app. destruct c as [sy r d]. cbn [gc_sync gc_role gc_service] in *. subst d.
    destruct io as [[]|]; cbn [wanted] in W; subst; try destruct sy; destruct r; cbn [documented_suffix async_classes sync_classes In]; rewrite ?app_nil_r; auto 10.
Qed.
Lemma nodup_flat {X Y} (f : X -> list Y) l : (forall x, In x l -> NoDup (f x)) -> NoDup l ->
  (forall x x' y, In x l -> In x' l -> In y (f x) -> In y (f x') -> x = x') -> NoDup (flat_map f l).
Proof.
  induction l as [|x l IH]; intros H1 H2 H3; [constructor|]. cbn [flat_map]. apply NoDup_cons_iff in H2. destruct H2 as [N ND].
  assert (A : forall (a b : list Y), NoDup a -> NoDup b -> (forall y, In y a -> ~ In y b) -> NoDup (a ++ b)).
  { clear. induction a as [|y a IH]; intros b Na Nb D; [exact Nb|]. apply NoDup_cons_iff in Na. destruct Na as [N Na]. cbn [List.app]. constructor.
    - intro I. apply in_app_or in I. destruct I as [I|I]; [tauto|]. apply (D y); [now left|exact I].
    - apply IH; auto. intros z Iz. apply D. now right. }
  apply A.
  - apply H1. now left.
  - apply IH; auto. + intros; apply H1; now right. + intros x1 x2 y I1 I2. apply H3; now right.
  - intros y Iy I. apply in_flat_map in I. destruct I as (x'&Ix&I). apply N. rewrite (H3 x x' y); auto; [now left|now right].
Qed.

Lemma nodup_parts {X} (a b : list X) : NoDup (a ++ b) -> NoDup a /\ NoDup b.
Proof.
  induction a as [|x a IH]; intro H; [split; [constructor|exact H]|]. cbn [List.app] in H. apply NoDup_cons_iff in H. destruct H as [N H].
  destruct (IH H). split; auto. constructor; auto. intro I. apply N, in_or_app. auto.
Qed.
Lemma nodup_classes esc io services : unconfusable esc services -> NoDup (map fst (file_classes esc io services)).
Proof.
  intro U. unfold file_classes. rewrite flat_map_concat_map, concat_map, map_map, <- flat_map_concat_map.
  assert (Sub : forall s n, In s services -> In n (map fst ((match io with None | Some IoAsync => async_classes esc s | Some IoSync => [] end)
                     ++ (match io with None | Some IoSync => sync_classes esc s | Some IoAsync => [] end))) ->
     exists sy r, n = esc (fs_name s) ++ documented_suffix sy r).
  { intros s n _ I. rewrite map_app in I. apply in_app_or in I. destruct io as [[]|]; destruct I as [I|I]; cbn [map fst async_classes sync_classes In] in I;
    repeat (destruct I as [<-|I]); try contradiction; eauto; try (exists false, CService; cbn; now rewrite app_nil_r);
    first [now exists false, CApplication|now exists false, CClient|now exists true, CService|now exists true, CApplication|now exists true, CClient]. }
  apply nodup_flat.
  - intros s I.
    assert (A : NoDup (map fst (async_classes esc s ++ sync_classes esc s))).
    { assert (E : map fst (async_classes esc s ++ sync_classes esc s) = map (fun q => esc (fs_name s) ++ documented_suffix (fst q) (snd q)) all_roles).
      { cbn [async_classes sync_classes map List.app fst snd all_roles documented_suffix]. now rewrite app_nil_r. }
      rewrite E. unfold all_roles. repeat (cbn [map]; constructor; [cbn [map fst snd In]; intro H; repeat (destruct H as [H|H]); try contradiction;
        destruct (names_differ esc services s s _ _ _ _ U I I H) as (_&?&?); discriminate|]). constructor. }
    rewrite map_app in A. destruct (nodup_parts _ _ A).
    destruct io as [[]|]; rewrite ?app_nil_r; cbn [List.app]; rewrite ?map_app; auto.
  - destruct U as [ND _]. now apply NoDup_map_inv in ND.
  - intros s s' n I I' H H'. destruct (Sub s n I H) as (sy&r&->). destruct (Sub s' _ I' H') as (sy'&r'&E).
    destruct (names_differ esc services s s' _ _ _ _ U I I' E) as (E1&_&_). destruct U as [ND _].
    clear - ND I I' E1. induction services as [|x l IH]; [contradiction|]. cbn [map] in ND. apply NoDup_cons_iff in ND. destruct ND as [N ND].
    destruct I as [->|I], I' as [->|I']; auto; exfalso; apply N; [rewrite E1|rewrite <- E1]; apply in_map_iff; eauto.
Qed.

(** If no service of a file is named like a class of another, the generated module has, for each service and each of the variants
    asked for, the classes with the documented names, and no others. *)
Theorem C71_partial esc io services name c : unconfusable esc services ->
  dget (gen_module esc io services) name = Some c
  <-> exists s, In s services /\ name = esc (fs_name s) ++ documented_suffix (gc_sync c) (gc_role c) /\ gc_service c = fs_desc s /\ wanted io (gc_sync c).
Proof.
  intro U. rewrite <- file_classes_in. unfold gen_module. rewrite fold_dset_last. split.
  - destruct (find _ _) as [[n x]|] eqn:F; [|discriminate]. intro E. injection E as <-. apply find_some in F. destruct F as [I E].
    apply in_rev in I. apply str_eqb_eq in E. cbn [fst snd] in *. now subst.
  - intro I. pose proof (find_unique fst _ (name, c) (nodup_classes esc io services U) I) as F. cbn [fst] in F. now rewrite F.
Qed.
Print Assumptions C71_partial.

(** A module is written for exactly the files that have services. *)
Theorem C71_files esc io files name d : In (name, d) (generate esc io files)
  <-> exists services, In (mk_fdesc name services) files /\ services <> [] /\ d = gen_module esc io services.
Proof.
  unfold generate. rewrite in_map_iff. split.
  - intros (f&E&I). injection E as <- <-. apply filter_In in I. destruct I as [I H]. exists (fd_services f). destruct f as [n [|]]; [discriminate|]. cbn in *. repeat split; auto. discriminate.
  - intros (sv&I&N&->). exists (mk_fdesc name sv). split; [reflexivity|]. apply filter_In. split; [exact I|]. cbn. now destruct sv.
Qed.
Print Assumptions C71_files.

(** Full statement, refuted (finding): of the services Hat and HatClient, which protobuf allows in one file, Hat has no client. *)
Theorem C71_refuted (a b : sdesc) : a <> b ->
  let module := gen_module (fun n => n) None [mk_fservice (lit "Hat") a; mk_fservice (lit "HatClient") b] in
  dget module (lit "Hat") = Some (mk_gclass false CService a) /\ dget module (lit "HatASGIApplication") = Some (mk_gclass false CApplication a)
  /\ dget module (lit "HatClient") = Some (mk_gclass false CService b)
  /\ forall n, dget module n <> Some (mk_gclass false CClient a).
Proof.
  intros N module. repeat split; try reflexivity. intros n D.
  assert (I : In (n, mk_gclass false CClient a) module).
  { clear - D. induction module as [|[k v] d IH]; [discriminate|]. cbn [dget] in D. destruct (str_eqb_spec k n) as [->|_].
    - injection D as ->. now left.
    - right. now apply IH. }
  cbv in I. repeat (destruct I as [I|I]; [injection I; intros; congruence|]). contradiction.
Qed.
Print Assumptions C71_refuted.

(** Two services in one file that do meet the conditions. *)
Example C71_example : let services := [mk_fservice (lit "Hat") shop; mk_fservice (lit "Shoes") hats] in
  unconfusable (fun n => n) services
  /\ map fst (gen_module (fun n => n) (Some IoAsync) services)
     = [lit "Hat"; lit "HatASGIApplication"; lit "HatClient"; lit "Shoes"; lit "ShoesASGIApplication"; lit "ShoesClient"].
Proof.
  split; [|reflexivity]. split.
  - repeat constructor; cbn; intuition discriminate.
  - intros s x I Ix [p E]. apply (f_equal (@rev N)) in E. rewrite rev_app_distr in E.
    cbn [In] in I, Ix. repeat (destruct I as [<-|I]); try contradiction; repeat (destruct Ix as [<-|Ix]); try contradiction; cbn in E; discriminate E.
Qed.

(** ** C72: the message classes of a generated module (protobuf=google) *)

(** A file of a tree of .proto files, and the module protoc writes for it: dashes become underscores. *)
Definition proto_file (dirs : list pystr) (base : pystr) : pystr := join (lit "/") (dirs ++ [base ++ lit ".proto"]).
Definition dashes (s : pystr) : pystr := map (fun c => if c =? 45 then 95 else c) s.
Definition package_of (dirs : list pystr) : pystr := join (lit ".") (map dashes dirs).
Definition protoc_module (dirs : list pystr) (base : pystr) : pystr := join (lit ".") (map dashes dirs ++ [dashes base ++ lit "_pb2"]).
(** Python's import of a module from a module of a package: a leading dot means the package; there must be one. *)
Definition imports (package target : pystr) : option pystr :=
  match target with
  | 46 :: rest => match package with [] => None | _ => Some (package ++ lit "." ++ rest) end
  | _ => Some target
  end.
Definition component (s : pystr) : Prop := s <> [] /\ ~ In 47 s /\ hd 0 s <> 46.

Lemma join_snoc sep l x : join sep (l ++ [x]) = match l with [] => x | _ => join sep l ++ sep ++ x end.
Proof.
  induction l as [|a l IH]; [reflexivity|]. cbn [List.app]. destruct l as [|b l].
  - reflexivity.
  - cbn [List.app] in IH |- *. change (join sep (a :: b :: l ++ [x])) with (a ++ sep ++ join sep (b :: l ++ [x])). rewrite IH.
    change (join sep (a :: b :: l)) with (a ++ sep ++ join sep (b :: l)). now rewrite !app_assoc_reverse.
Qed.
Lemma strip_app s : strip_proto (s ++ lit ".proto") = s.
Proof. unfold strip_proto. rewrite rev_app_distr, removeprefix_app. apply rev_involutive. Qed.
Lemma replace1_app a b s t : replace1 a b (s ++ t) = replace1 a b s ++ replace1 a b t.
Proof. apply map_app. Qed.
Lemma module_join dirs base : Forall (fun s => ~ In 47 s) (dirs ++ [base]) -> module_name (proto_file dirs base) = protoc_module dirs base.
Proof.
  intro F. unfold module_name, protoc_module.
  assert (E : strip_proto (proto_file dirs base) = join (lit "/") (dirs ++ [base])).
  { unfold proto_file. rewrite !join_snoc. destruct dirs; [apply strip_app|]. rewrite <- (strip_app (join _ _ ++ _ ++ base)). now rewrite !app_assoc_reverse. }
  rewrite E. clear E.
  assert (R : forall x, ~ In 47 x -> replace1 47 46 (replace1 45 95 x) = dashes x).
  { intros x N. unfold replace1, dashes. rewrite map_map. apply map_ext_in. intros c I. destruct (N.eqb_spec c 45) as [->|]; [reflexivity|].
    destruct (N.eqb_spec c 47) as [->|]; [contradiction|reflexivity]. }
  assert (J : forall l, Forall (fun s => ~ In 47 s) l -> replace1 47 46 (replace1 45 95 (join (lit "/") l)) = join (lit ".") (map dashes l)).
  { clear F. induction l as [|x l IH]; intro F; [reflexivity|]. apply Forall_cons_iff in F. destruct F as [N F]. destruct l as [|y l].
    - cbn. now apply R.
    - change (join (lit "/") (x :: y :: l)) with (x ++ lit "/" ++ join (lit "/") (y :: l)). rewrite !replace1_app, (R x N).
      change (join (lit ".") (map dashes (x :: y :: l))) with (dashes x ++ lit "." ++ join (lit ".") (map dashes (y :: l))). now rewrite <- IH. }
  rewrite J by exact F. rewrite map_app. cbn [map]. rewrite !join_snoc. destruct dirs; cbn [map]; [reflexivity|]. now rewrite !app_assoc_reverse.
Qed.

(** A module generated for a file inside a package refers, for each message of an RPC, to the module protoc writes for the
    message's file, and to the class by the names of the messages it is nested in, outermost first. *)
Theorem C72_partial dirs base mdirs mbase outer name : dirs <> [] ->
  Forall component (dirs ++ [base]) -> Forall component (mdirs ++ [mbase]) ->
  let '(m, c) := message_ident (proto_file dirs base) (mk_msg_desc (proto_file mdirs mbase) name (rev outer)) in
  imports (package_of dirs) m = Some (protoc_module mdirs mbase) /\ c = join (lit ".") (outer ++ [name]).
Proof.
  intros ND F F'. unfold message_ident. cbn [ms_file ms_name ms_parents rev]. rewrite rev_involutive.
  assert (W : forall l, Forall component l -> Forall (fun s : pystr => ~ In 47 s) l) by (intros l H; eapply Forall_impl; [|exact H]; intros x (_&?&_); exact H0).
  destruct (str_eqb_spec (proto_file mdirs mbase) (proto_file dirs base)) as [E|_].
  - split; [|reflexivity]. rewrite E.
    assert (P : forall b, Forall component (dirs ++ [b]) -> split_on 47 (proto_file dirs b) = dirs ++ [b ++ lit ".proto"]).
    { intros b Fb. unfold proto_file. apply (split_join 47 (dirs ++ [b ++ lit ".proto"])); [now destruct dirs|].
      apply Forall_app in Fb. destruct Fb as [F1 F2]. apply Forall_app. split; [now apply W|]. constructor; [|constructor].
      apply Forall_cons_iff in F2. destruct F2 as [(_&N&_) _]. intro I. apply in_app_or in I. destruct I as [I|I]; [tauto|].
      cbn in I. intuition discriminate. }
    unfold base_name. rewrite P by exact F. rewrite last_last.
    assert (M : module_name (base ++ lit ".proto") = dashes base ++ lit "_pb2").
    { apply (module_join [] base). apply Forall_app in F. destruct F as [_ F]. now apply W. }
    rewrite M. change (lit "." ++ dashes base ++ lit "_pb2") with (46 :: (dashes base ++ lit "_pb2")). cbn [imports].
    assert (EQ : mdirs = dirs /\ mbase = base).
    { assert (P' : split_on 47 (proto_file mdirs mbase) = mdirs ++ [mbase ++ lit ".proto"]).
      { unfold proto_file. apply (split_join 47 (mdirs ++ [mbase ++ lit ".proto"])); [now destruct mdirs|].
        apply Forall_app in F'. destruct F' as [F1 F2]. apply Forall_app. split; [now apply W|]. constructor; [|constructor].
        apply Forall_cons_iff in F2. destruct F2 as [(_&N&_) _]. intro I. apply in_app_or in I. destruct I as [I|I]; [tauto|].
        cbn in I. intuition discriminate. }
      rewrite E, (P base F) in P'. apply app_inj_tail in P'. destruct P' as [-> P']. apply app_inv_tail in P'. now subst. }
    destruct EQ as [-> ->]. unfold package_of, protoc_module. rewrite join_snoc. destruct dirs as [|d ds]; [contradiction|]. cbn [map].
    assert (NE : join (lit ".") (dashes d :: map dashes ds) <> []).
    { apply Forall_cons_iff in F. destruct F as [(N&_&_) _]. destruct d as [|c d]; [now elim N|]. destruct ds; discriminate. }
    destruct (join (lit ".") (dashes d :: map dashes ds)); [contradiction|]. reflexivity.
  - split; [|reflexivity]. rewrite (module_join mdirs mbase) by (now apply W).
    assert (H : hd 0 (protoc_module mdirs mbase) <> 46).
    { unfold protoc_module. destruct mdirs as [|d ds]; cbn [List.app map] in *.
      - apply Forall_cons_iff in F'. destruct F' as [(N&_&H) _]. destruct mbase as [|c r]; [now elim N|]. cbn in *. destruct (c =? 45); [discriminate|exact H].
      - apply Forall_cons_iff in F'. destruct F' as [(N&_&H) _]. destruct d as [|c r]; [now elim N|].
        assert (X : exists z, join (lit ".") (dashes (c :: r) :: map dashes ds ++ [dashes mbase ++ lit "_pb2"]) = (if c =? 45 then 95 else c) :: z).
        { destruct ds; eexists; reflexivity. }
        destruct X as [z ->]. cbn in *. destruct (c =? 45); [discriminate|exact H]. }
    destruct (protoc_module mdirs mbase) as [|c r]; [reflexivity|]. cbn [hd] in H. cbn [imports].
    destruct (N.eq_dec c 46) as [->|NE]; [now elim H|]. clear - NE. destruct c as [|p]; [reflexivity|].
    do 6 (destruct p as [p|p|]; try reflexivity). now elim NE.
Qed.
Print Assumptions C72_partial.

(** References to different messages of one file differ. *)
Theorem C72_distinct file m m' : Forall (fun s => ~ In 46 s) (ms_name m :: ms_parents m) -> Forall (fun s => ~ In 46 s) (ms_name m' :: ms_parents m') ->
  ms_file m = ms_file m' -> message_ident file m = message_ident file m' -> m = m'.
Proof.
  intros F F' Ef E. unfold message_ident in E. rewrite Ef in E.
  assert (J : join (lit ".") (rev (ms_name m :: ms_parents m)) = join (lit ".") (rev (ms_name m' :: ms_parents m'))) by (destruct (str_eqb (ms_file m') file); injection E; auto).
  apply (f_equal (split_on 46)) in J.
  rewrite !(split_join 46) in J; try (now apply Forall_rev); try (cbn [rev]; intro X; now apply app_eq_nil in X as [_ X]).
  apply (f_equal (@rev pystr)) in J. rewrite !rev_involutive in J. injection J as E1 E2. destruct m, m'; cbn in *; congruence.
Qed.
Print Assumptions C72_distinct.

(** Full statement, refuted (finding): a module generated for a file at the top of the tree imports its own messages from "its
    package", and a top-level module has none. *)
Theorem C72_top_level_refuted base name outer :
  exists c, message_ident (proto_file [] base) (mk_msg_desc (proto_file [] base) name outer) = (c, join (lit ".") (rev (name :: outer))) /\ imports (package_of []) c = None.
Proof. unfold message_ident. cbn [ms_file ms_name ms_parents]. rewrite str_eqb_refl. eexists. split; reflexivity. Qed.
Print Assumptions C72_top_level_refuted.

Example C72_example :
  Forall component [lit "shop"; lit "hat-sizes"] /\ Forall component [lit "common"; lit "types"]
  /\ message_ident (lit "shop/hat-sizes.proto") (mk_msg_desc (lit "shop/hat-sizes.proto") (lit "Unit") [lit "Size"; lit "Hat"])
     = (lit ".hat_sizes_pb2", lit "Hat.Size.Unit")
  /\ message_ident (lit "shop/hat-sizes.proto") (mk_msg_desc (lit "common/types.proto") (lit "Money") []) = (lit "common.types_pb2", lit "Money").
Proof. split; [|split; [|split; reflexivity]]; repeat constructor; cbn; intuition discriminate. Qed.
