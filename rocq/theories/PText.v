(** C58, C59 and the text encodings the wire formats rely on. *)
From Coq Require Import List NArith ZArith Bool String Lia.
From Verif Require Import MBase MPyStr MUtf8 MBase64 MPercent MJson SJson LBase LPyStr LUtf8 LBase64 LPercent LJson.
Import ListNotations.
Local Open Scope N_scope.

(** C58: error detail values and grpc-status-details-bin are sent as standard base64, with or without padding,
    and read by decoding the text with "===" appended (_protocol.py:165-168, _protocol_grpc.py:336-345). *)
Theorem C58_standard_unpadded : forall l, is_bytes l ->
    b64decode (rstrip_eq (b64encode l) ++ lit "===") = Some l.
Proof. exact b64decode_stripped. Qed.

Theorem C58_standard_padded : forall l, is_bytes l -> b64decode (b64encode l ++ lit "===") = Some l.
Proof. exact b64decode_padded. Qed.

(** GET messages use the URL-safe alphabet, padded by this client and unpadded by others. *)
Theorem C58_urlsafe_padded : forall l, is_bytes l ->
    urlsafe_b64decode (urlsafe_b64encode l ++ lit "===") = Some l.
Proof. exact urlsafe_roundtrip. Qed.

Theorem C58_urlsafe_unpadded : forall l, is_bytes l ->
    urlsafe_b64decode (rstrip_eq (urlsafe_b64encode l) ++ lit "===") = Some l.
Proof.
  intros l H. unfold urlsafe_b64encode. rewrite rstrip_eq_b64 by auto.
  apply urlsafe_roundtrip_raw; auto; repeat constructor.
Qed.

Example C58_example : is_bytes [0; 255; 16; 131] /\
  rstrip_eq (b64encode [0; 255; 16; 131]) = lit "AP8Qgw" /\ urlsafe_b64encode [255; 255] = lit "__8=".
Proof. repeat split; repeat constructor. Qed.
Print Assumptions C58_standard_unpadded.
Print Assumptions C58_urlsafe_unpadded.

(** C59: every text that has a UTF-8 encoding is sent as printable ASCII without spaces and read back unchanged. *)
Theorem C59_percent_roundtrip : forall s, Forall is_scalar s ->
    exists q, quote s = Some q /\ unquote q = s /\ Forall (fun c => 33 <= c <= 126) q.
Proof.
  intros s H. destruct (quote_some s H) as [q Hq]. exists q. split; auto. split.
  - now apply unquote_quote.
  - eapply Forall_impl; [|apply (quote_chars _ _ Hq)]. intros c Hc. now apply quoted_char_ascii.
Qed.
Print Assumptions C59_percent_roundtrip.

(** Only a text with a lone surrogate cannot be sent. *)
Theorem C59_fails_only_on_surrogates : forall s, quote s = None <-> ~ Forall is_scalar s.
Proof.
  intro s. unfold quote. destruct (utf8_encode s) eqn:E.
  - split; [discriminate|]. intro H. exfalso. apply H. eapply utf8_encode_scalar; eauto.
  - split; auto. intros _ H. destruct (utf8_encode_some s H) as [b Hb]. congruence.
Qed.

(** No two texts are sent as the same header value. *)
Theorem C59_injective : forall a b q, quote a = Some q -> quote b = Some q -> a = b.
Proof. intros a b q Ha Hb. rewrite <- (unquote_quote _ _ Ha). now apply unquote_quote. Qed.

Example C59_example : Forall is_scalar [233; 10; 128512; 37] /\
  quote [233; 10; 128512; 37] = Some (lit "%C3%A9%0A%F0%9F%98%80%25").
Proof.
  split; [repeat constructor|vm_compute; reflexivity].
Qed.

(** JSON: any value whose strings hold no lone surrogate pair and whose objects have distinct keys survives. *)
Theorem C10_json_roundtrip : forall v b, json_ok v -> utf8_encode (json_dumps v) = Some b ->
    json_loads_bytes b = Some v.
Proof. exact json_roundtrip_bytes. Qed.
Print Assumptions C10_json_roundtrip.
