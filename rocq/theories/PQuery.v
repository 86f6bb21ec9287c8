(** C98: a GET request means the same however its query string is written. *)
From Coq Require Import List NArith ZArith Bool String Lia.
From Verif Require Import MBase MPyStr LBase MUtf8 MBase64 MPercent MHeaders MWire MEnvelope MProtocol MServer MAsgi MWsgi SQuery LQuery
  PProtocol PResponse PRequest.
Import ListNotations.
Local Open Scope N_scope.

(** Two query strings whose parameters have the same first values: order, escapes, empty parts, repetitions and other parameters
    do not matter. *)
Theorem C98_asgi {A B} (ap : app A B) now sc en ps ps' s s' :
  query_written ps s -> query_written ps' s' -> same_parameters ps ps' ->
  asgi_call ap now (asgi_query sc s) en = asgi_call ap now (asgi_query sc s') en.
Proof.
  intros W W' P. apply (asgi_same ap now sc en s s' _ _ (query_decodes _ _ W) (query_decodes _ _ W') eq_refl eq_refl).
  - rewrite (query_param _ _ _ W), (query_param _ _ _ W'). apply P. cbn. tauto.
  - intro k. apply get_same. intros n I. rewrite (query_param _ _ _ W), (query_param _ _ _ W'). now apply P.
Qed.
Print Assumptions C98_asgi.

Theorem C98_wsgi {A B} (ap : app A B) now q ps ps' s s' :
  query_written ps s -> query_written ps' s' -> same_parameters ps ps' ->
  wsgi_call ap now (wsgi_query q s) = wsgi_call ap now (wsgi_query q s').
Proof.
  intros W W' P. apply wsgi_same. apply (wget_same ap q s s' _ _ eq_refl eq_refl).
  intros n I. rewrite (query_param _ _ _ W), (query_param _ _ _ W'). now apply P.
Qed.
Print Assumptions C98_wsgi.

(** A message given as text or in base64, with or without padding. *)
Theorem C98_base64 {A B} (ap : app A B) now sc en q ps ps' s s' :
  query_written ps s -> query_written ps' s' -> same_but_base64 ps ps' ->
  asgi_call ap now (asgi_query sc s) en = asgi_call ap now (asgi_query sc s') en
  /\ wsgi_call ap now (wsgi_query q s) = wsgi_call ap now (wsgi_query q s').
Proof.
  intros W W' (B1&B2&(t&m&M1&M2&T)&C&E).
  rewrite <- !(query_param ps s _ W) in *. rewrite <- !(query_param ps' s' _ W') in *. split.
  - apply (asgi_same ap now sc en s s' _ _ (query_decodes _ _ W) (query_decodes _ _ W') eq_refl eq_refl E). intro k.
    exact (get_base64 ap k _ _ t m B1 B2 M1 M2 T C).
  - apply wsgi_same. exact (wget_base64 ap q s s' _ _ t m eq_refl eq_refl B1 B2 M1 M2 T C E).
Qed.
Print Assumptions C98_base64.

(** One request, written in three ways. *)
Definition ex_q1 : pystr := lit "encoding=proto&message=a%20b".
Definition ex_q2 : pystr := lit "&utm=1=2&m%65ssage=%61+b&&x&encoding=pr%6Fto&message=other".
Definition ex_q3 : pystr := lit "base64=1&message=YSBi&encoding=proto".
Definition ex_p1 : list (pystr * pystr) := [(lit "encoding", lit "proto"); (lit "message", lit "a b")].
Definition ex_p2 : list (pystr * pystr) :=
  [(lit "utm", lit "1=2"); (lit "message", lit "a b"); (lit "x", []); (lit "encoding", lit "proto"); (lit "message", lit "other")].
Definition ex_p3 : list (pystr * pystr) := [(lit "base64", lit "1"); (lit "message", lit "YSBi"); (lit "encoding", lit "proto")].

Ltac byte_by_byte := first [ apply bsw_nil
  | match goal with |- bytes_written ?pl (?b :: ?bs) (37 :: ?h :: ?l :: ?r) =>
      apply (bsw_cons pl b [37; h; l] bs r); [apply (bw_hex pl (b / 16) (b mod 16) h l); vm_compute; intuition congruence|byte_by_byte] end
  | match goal with |- bytes_written ?pl (32 :: ?bs) (43 :: ?r) => apply (bsw_cons pl 32 [43] bs r); [apply bw_plus|byte_by_byte] end
  | match goal with |- bytes_written ?pl (?b :: ?bs) (?b :: ?r) => apply (bsw_cons pl b [b] bs r); [apply bw_plain; reflexivity|byte_by_byte] end ].
Ltac written := eexists; split; [vm_compute; reflexivity|];
  match goal with |- bytes_written _ _ ?s => let v := eval vm_compute in s in change s with v end; byte_by_byte.

Lemma ex_written : query_written ex_p1 ex_q1 /\ query_written ex_p2 ex_q2 /\ query_written ex_p3 ex_q3.
Proof.
  split; [|split].
  - exists [lit "encoding" ++ [61] ++ lit "proto"; lit "message" ++ [61] ++ lit "a%20b"]. split; [|reflexivity].
    apply pw_both; [written|written|]. apply pw_both; [written|written|]. apply pw_nil.
  - exists [[]; lit "utm" ++ [61] ++ lit "1=2"; lit "m%65ssage" ++ [61] ++ lit "%61+b"; []; lit "x"; lit "encoding" ++ [61] ++ lit "pr%6Fto";
      lit "message" ++ [61] ++ lit "other"]. split; [|reflexivity].
    apply pw_empty. apply pw_both; [written|written|]. apply pw_both; [written|written|]. apply pw_empty. apply pw_name; [written|discriminate|].
    apply pw_both; [written|written|]. apply pw_both; [written|written|]. apply pw_nil.
  - exists [lit "base64" ++ [61] ++ lit "1"; lit "message" ++ [61] ++ lit "YSBi"; lit "encoding" ++ [61] ++ lit "proto"]. split; [|reflexivity].
    apply pw_both; [written|written|]. apply pw_both; [written|written|]. apply pw_both; [written|written|]. apply pw_nil.
Qed.

Example C98_example :
  query_written ex_p1 ex_q1 /\ query_written ex_p2 ex_q2 /\ query_written ex_p3 ex_q3
  /\ same_parameters ex_p1 ex_p2 /\ same_but_base64 ex_p1 ex_p3
  /\ Forall (fun s => ar_inv (asgi_call (ex_app ex_echo) 0%Z (asgi_query (ex_scope "GET" "") s) ex_env) = [InvMsg (lit "a b")]
                      /\ wr_inv (wsgi_call (ex_app ex_echo) 0%Z (wsgi_query (ex_wq "GET" "") s)) = [InvMsg (lit "a b")]) [ex_q1; ex_q2; ex_q3].
Proof.
  pose proof ex_written as (W1&W2&W3). split; [exact W1|]. split; [exact W2|]. split; [exact W3|]. split; [|split].
  - intros n [<-|[<-|[<-|[<-|[]]]]]; reflexivity.
  - split; [discriminate|]. split; [reflexivity|]. split; [|split; reflexivity]. exists (lit "a b"), (lit "YSBi"). split; [reflexivity|]. split; [reflexivity|].
    exists (lit "a b"). split; [reflexivity|]. left. vm_compute. reflexivity.
  - repeat constructor; vm_compute; reflexivity.
Qed.

(** What is not base64 in a message said to be is not refused: it is left out, and the method called with what remains.  A "+" of
    the usual base64 alphabet, not escaped, is such a character. *)
Theorem C98_garbage_refuted : exists s s' a,
  s <> s' /\ query_written [(lit "base64", lit "1"); (lit "message", lit "YW Jj!"); (lit "encoding", lit "proto")] s
  /\ query_written [(lit "base64", lit "1"); (lit "message", lit "YWJj"); (lit "encoding", lit "proto")] s'
  /\ Forall (fun s => ar_inv (asgi_call (ex_app ex_echo) 0%Z (asgi_query (ex_scope "GET" "") s) ex_env) = [InvMsg a]
                      /\ wr_inv (wsgi_call (ex_app ex_echo) 0%Z (wsgi_query (ex_wq "GET" "") s)) = [InvMsg a]) [s; s'].
Proof.
  exists (lit "base64=1&message=YW+Jj!&encoding=proto"), (lit "base64=1&message=YWJj&encoding=proto"), (lit "abc"). split; [discriminate|].
  split; [|split].
  - exists [lit "base64" ++ [61] ++ lit "1"; lit "message" ++ [61] ++ lit "YW+Jj!"; lit "encoding" ++ [61] ++ lit "proto"]. split; [|reflexivity].
    apply pw_both; [written|written|]. apply pw_both; [written|written|]. apply pw_both; [written|written|]. apply pw_nil.
  - exists [lit "base64" ++ [61] ++ lit "1"; lit "message" ++ [61] ++ lit "YWJj"; lit "encoding" ++ [61] ++ lit "proto"]. split; [|reflexivity].
    apply pw_both; [written|written|]. apply pw_both; [written|written|]. apply pw_both; [written|written|]. apply pw_nil.
  - repeat constructor; vm_compute; reflexivity.
Qed.
Print Assumptions C98_garbage_refuted.
