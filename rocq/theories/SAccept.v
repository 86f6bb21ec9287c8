(** Accept-Encoding (RFC 9110, 12.5.3): a comma-separated list of codings, each possibly with a weight. *)
From Coq Require Import List NArith Bool String.
From Verif Require Import MBase MPyStr MHeaders MUtf8 MWire MProtocol MServer SProtocol SMedia.
Import ListNotations.
Local Open Scope N_scope.

(** The field value of header lines: several lines are one list. *)
Definition field (lines : list pystr) : pystr := join (lit ",") lines.
(** An element of the list ends with the weight 0: [;q=0], [;q=0.0] ... *)
Definition weight_zero (piece : pystr) : Prop :=
  exists before w q zeros w', piece = before ++ [59] ++ w ++ [q; 61; 48] ++ zeros ++ w'
  /\ Forall blank w /\ cased q 113 /\ Forall blank w' /\ (zeros = [] \/ exists n, zeros = 46 :: repeat 48 n).
(** The list names the coding [c] ([names_type]: letters of either case, white space, parameters), and with which weight. *)
Definition listed (v c : pystr) : Prop := exists piece, In piece (split_on 44 v) /\ names_type piece c /\ ~ weight_zero piece.
Definition refused (v c : pystr) : Prop := exists piece, In piece (split_on 44 v) /\ names_type piece c /\ weight_zero piece.
(** What the client accepts: codings it lists; others if it lists [*]; identity unless it refuses it. *)
Definition accepts (lines : list pystr) (c : pystr) : Prop :=
  let v := field lines in
  lines = [] \/ listed v c \/ (listed v (lit "*") /\ ~ refused v c)
  \/ (c = lit "identity" /\ ~ refused v c /\ (refused v (lit "*") -> listed v c)).
(** [z] is the first of the server's codings that the list names. *)
Definition first_named (comps : dict compression) (v : pystr) (z : compression) : Prop :=
  exists pre piece post c, split_on 44 v = pre ++ piece :: post /\ names_type piece c /\ dget comps c = Some z
  /\ forall p c', In p pre -> names_type p c' -> dget comps c' = None.

(** Compressions under their names, which are as codings are usually written. *)
Definition usual_codings (comps : dict compression) : Prop :=
  forall n z, dget comps n = Some z -> z_name z = n /\ n <> [] /\ plain_type n.
(** Lists as this library's clients write them: no weights, lower case. *)
Definition simple_list (v : pystr) : Prop := Forall (fun c => c <> 59 /\ ~ (65 <= c <= 90)) v.
