(** What a method is told about the request it serves, stated from the request alone. *)
From Coq Require Import List NArith ZArith Bool String.
From Verif Require Import MBase MPyStr MHeaders SHeaders SJson STimeout MTimeout MUtf8 MProtocol SProtocol MServer MAsgi MWsgi SLink.
Import ListNotations.
Local Open Scope N_scope.

(** The address named by a Host header: as it is if it has a port, otherwise with the default port of the scheme.
    A ":" is taken for the start of a port; an IPv6 address without one is the finding C68_ipv6_refuted. *)
Definition server_told (scheme : pystr) (host : option pystr) (sa : option pystr) : Prop :=
  match host with
  | None => sa = None
  | Some h =>
      (In 58 h -> sa = Some h)
      /\ (~ In 58 h -> scheme = lit "http" -> sa = Some (h ++ lit ":80"))
      /\ (~ In 58 h -> scheme = lit "https" -> sa = Some (h ++ lit ":443"))
  end.

(** The content types of gRPC and gRPC-Web. *)
Definition grpc_type (ct : pystr) : Prop :=
  exists base, In base [lit "application/grpc"; lit "application/grpc-web"] /\ (ct = base \/ exists codec, ct = base ++ lit "+" ++ codec).

(** The time a request allows, in milliseconds, from its header: the text is taken as C28 says; a text that is not well-formed but
    accepted all the same (C29) is not described here. *)
Definition grpc_time (s : pystr) (t : option Z) : Prop :=
  (s = [] -> t = None) /\ forall v k, grpc_timeout_text s v k -> t = Some (v * k / 1000000)%Z.
Definition connect_time (s : pystr) (t : option Z) : Prop :=
  (s = [] -> t = None) /\ (plain_digits s -> (1 <= List.length s <= 10)%nat -> t = Some (decimal s)).
Definition time_told (now : fl) (first : pystr -> option pystr) (cx : req_ctx) : Prop :=
  let ct := match first (lit "content-type") with Some v => v | None => [] end in
  (grpc_type ct -> match first (lit "grpc-timeout") with None => cx_timeout cx = None | Some s => grpc_time s (cx_timeout cx) end)
  /\ (~ grpc_type ct -> match first (lit "connect-timeout-ms") with None => cx_timeout cx = None | Some s => connect_time s (cx_timeout cx) end)
  /\ cx_end cx = match cx_timeout cx with Some t => Some (end_time now t) | None => None end.

(** A header line, as bytes and as text. *)
Definition line_text (b t : pystr * pystr) : Prop := utf8_decode (fst b) = Some (fst t) /\ utf8_decode (snd b) = Some (snd t).

(** [cx] describes the request of an ASGI scope for the method [mi]. *)
Definition told_asgi (now : fl) (mi : method_info) (sc : scope) (cx : req_ctx) : Prop :=
  cx_method cx = mi /\ cx_http cx = sc_method sc
  /\ (exists lines, Forall2 line_text (sc_headers sc) lines
      /\ (forall k, h_getall (cx_headers cx) k = values_in lines k)
      /\ time_told now (fun k => hd_error (values_in lines k)) cx
      /\ server_told (sc_scheme sc) (hd_error (values_in lines (lit "host"))) (cx_server cx))
  /\ match sc_client sc with
     | Some (ip, port) => cx_client cx = Some (ip ++ 58 :: port)
     | None => cx_client cx = None
     end.

(** The value of the header [k] in a WSGI environment; names with "_" cannot be expressed there. *)
Definition cgi_value (q : wsgi_request) (k : pystr) : option pystr :=
  if existsb (N.eqb 95) k then None
  else match dget (wq_env q) (lit "HTTP_" ++ mangle k) with
       | Some v => Some v
       | None => if same_name k (lit "content-type") then env_get q "CONTENT_TYPE"
                 else if same_name k (lit "content-length") then env_get q "CONTENT_LENGTH" else None
       end.
(** Every variable occurs once, and the HTTP_ ones are spelled as CGI spells them. *)
Definition cgi_environ (q : wsgi_request) : Prop :=
  NoDup (dkeys (wq_env q))
  /\ forall key, In key (dkeys (wq_env q)) -> startswith (lit "HTTP_") key = true -> exists k, key = lit "HTTP_" ++ mangle k.

Definition told_wsgi (now : fl) (mi : method_info) (q : wsgi_request) (cx : req_ctx) : Prop :=
  cx_method cx = mi /\ env_get q "REQUEST_METHOD" = Some (cx_http cx)
  /\ (forall k, h_getall (cx_headers cx) k = match cgi_value q k with Some v => [v] | None => [] end)
  /\ time_told now (cgi_value q) cx
  /\ server_told (match env_get q "wsgi.url_scheme" with Some s => s | None => lit "http" end) (cgi_value q (lit "host")) (cx_server cx)
  /\ match env_get q "REMOTE_ADDR" with
     | Some ((_ :: _) as ip) =>
         cx_client cx = Some (ip ++ 58 :: match env_get q "REMOTE_PORT" with Some port => port | None => lit "0" end)
     | _ => cx_client cx = None
     end.

(** Two methods of the same kind that do the same thing in every context that satisfies [P], whatever they do in others. *)
Definition agree_on {A B} (P : req_ctx -> Prop) (e e' : endpoint A B) : Prop :=
  match e, e' with
  | EpUnary m f, EpUnary m' f' => m' = m /\ forall a cx, P cx -> f' a cx = f a cx
  | EpClientStream m f, EpClientStream m' f' => m' = m /\ forall cx, P cx -> f' cx = f cx
  | EpServerStream m f, EpServerStream m' f' => m' = m /\ forall a cx, P cx -> f' a cx = f a cx
  | EpBidi m f, EpBidi m' f' => m' = m /\ forall cx, P cx -> f' cx = f cx
  | _, _ => False
  end.
(** Two applications configured alike. *)
Definition same_settings {A B} (ap ap' : app A B) : Prop :=
  ap_max ap' = ap_max ap /\ ap_comps ap' = ap_comps ap /\ ap_codecs ap' = ap_codecs ap /\ ap_sc ap' = ap_sc ap.
