(** Content types (RFC 9110, 8.3): a media type, in letters of either case, possibly followed by parameters. *)
From Coq Require Import List NArith ZArith Bool String.
From Verif Require Import MBase MPyStr MHeaders MUtf8 MProtocol MServer MAsgi MWsgi MClient SProtocol.
Import ListNotations.
Local Open Scope N_scope.

(** White space (Unicode). *)
Definition blank (c : N) : Prop :=
  9 <= c <= 13 \/ 28 <= c <= 32 \/ 8192 <= c <= 8202 \/ In c [133; 160; 5760; 8232; 8233; 8239; 8287; 12288].

(** [c] is the letter [d], in lower or in upper case. *)
Definition cased (c d : N) : Prop := c = d \/ (65 <= c <= 90 /\ d = c + 32).

(** The header value [ct] names the media type [t]: white space around it and the parameters after it do not matter. *)
Definition names_type (ct t : pystr) : Prop :=
  exists w core w' rest, ct = w ++ core ++ w' ++ rest
  /\ Forall blank w /\ Forall2 cased core t /\ Forall blank w' /\ (rest = [] \/ exists params, rest = 59 :: params).

(** Media types in their usual form: lower case letters, digits, and [/ + - . _]. *)
Definition plain_type (t : pystr) : Prop := Forall (fun c => media_char c = true \/ c = 47) t.

(** The content type of a request, empty if it has none. *)
Definition named (hs : headers) : pystr := match h_getall hs (lit "content-type") with v :: _ => v | [] => [] end.

(** The content type names no codec of the application: neither by a type of the Connect protocol nor by the bare name of a codec
    (which is taken for one, see [C83_bare_name_refuted]). *)
Definition names_no_codec {A B} (ap : app A B) (stream : bool) (ct : pystr) : Prop :=
  forall n, In n (dkeys (ap_codecs ap)) ->
    codec_name_ok n /\ ~ names_type ct n
    /\ ~ names_type ct ((if stream then lit "application/connect+" else lit "application/") ++ n).

(** ** The same request with another content type *)
Definition other_type (n : pystr) : Prop := lower n <> lit "content-type".
Definition same_but_type (h h' : headers) : Prop := forall n, other_type n -> h_getall h n = h_getall h' n.
Definition same_ctx_but_type (cx cx' : req_ctx) : Prop :=
  cx_method cx = cx_method cx' /\ cx_http cx = cx_http cx' /\ same_but_type (cx_headers cx) (cx_headers cx')
  /\ cx_timeout cx = cx_timeout cx' /\ cx_end cx = cx_end cx' /\ cx_server cx = cx_server cx' /\ cx_client cx = cx_client cx'.

(** Methods that do not look at the content type. *)
Definition type_blind {A B} (ap : app A B) : Prop :=
  forall key ep, dget (ap_endpoints ap) key = Some ep -> forall cx cx', same_ctx_but_type cx cx' ->
  match ep with
  | EpUnary _ f => forall a, f a cx = f a cx'
  | EpClientStream _ f => f cx = f cx'
  | EpServerStream _ f => forall a, f a cx = f a cx'
  | EpBidi _ f => f cx = f cx'
  end.

(** ASGI: one line has the text [b'] instead of [b]; there is no other content-type line. *)
Definition retyped_scope (b b' : bytes) (sc sc' : scope) : Prop :=
  exists pre post, sc_headers sc = pre ++ (lit "content-type", b) :: post
  /\ sc' = mk_scope (sc_path sc) (sc_root sc) (sc_method sc) (sc_scheme sc) (pre ++ (lit "content-type", b') :: post)
             (sc_client sc) (sc_query sc) (sc_trailers sc)
  /\ forall n v name, In (n, v) (pre ++ post) -> utf8_decode n = Some name -> lower name <> lit "content-type".

(** WSGI: the variable CONTENT_TYPE has another value. *)
Definition retyped_environ (ct ct' : pystr) (q q' : wsgi_request) : Prop :=
  exists pre post, wq_env q = pre ++ (lit "CONTENT_TYPE", ct) :: post
  /\ q' = mk_wq (pre ++ (lit "CONTENT_TYPE", ct') :: post) (wq_input q) (wq_trailers q) (wq_drain q)
  /\ forall v, ~ In (lit "CONTENT_TYPE", v) (pre ++ post).

(** Responses: the line that counts, the first one, has another text. *)
Definition retyped_response (ct ct' : pystr) (r r' : full_response) : Prop :=
  exists pre name post, fr_headers r = pre ++ (name, ct) :: post /\ lower name = lit "content-type"
  /\ fr_headers r' = pre ++ (name, ct') :: post /\ fr_status r' = fr_status r /\ fr_content r' = fr_content r
  /\ forall n v, In (n, v) pre -> lower n <> lit "content-type".
