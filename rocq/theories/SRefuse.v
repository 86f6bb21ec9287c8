(** Specification: requests that are refused before a method is looked at, and what they are told. *)
From Coq Require Import List NArith ZArith Bool String.
From Verif Require Import MBase MPyStr MHeaders MJson MWire MTimeout MProtocol MServer MAsgi MWsgi SProtocol SServer SLine.
Import ListNotations.
Local Open Scope N_scope.

Inductive refusal :=
| NoSuchPath
| NotAllowed (allow : pystr)
| Invalid (message : pystr).

(** What is wrong with a request to a method with this idempotency level: the HTTP method, the version of the Connect protocol or,
    with a version the server knows, the timeout. *)
Inductive refused (level : idem) (http : pystr) (hs : headers) (p : proto) : refusal -> Prop :=
| RefMethod : ~ In http (map lit (permitted p level)) -> refused level http hs p (NotAllowed (allow_header p level))
| RefVersion v : In http (map lit (permitted p level)) -> p = PConnect ->
    h_get hs (lit "connect-protocol-version") = Some v -> v <> lit "1" ->
    refused level http hs p (Invalid (lit "connect-protocol-version must be '1': got '" ++ v ++ lit "'"))
| RefLong t : In http (map lit (permitted p level)) -> p = PConnect ->
    (forall v, h_get hs (lit "connect-protocol-version") = Some v -> v = lit "1") ->
    h_get hs (lit "connect-timeout-ms") = Some t -> (10 < List.length t)%nat ->
    refused level http hs p (Invalid (lit "Invalid timeout header: '" ++ t ++ lit " has >10 digits"))
| RefNumber t : In http (map lit (permitted p level)) -> p = PConnect ->
    (forall v, h_get hs (lit "connect-protocol-version") = Some v -> v = lit "1") ->
    h_get hs (lit "connect-timeout-ms") = Some t -> t <> [] -> (List.length t <= 10)%nat -> int_of_str t = None ->
    refused level http hs p (Invalid (lit "Invalid timeout header: '" ++ t ++ lit "'")).

(** The JSON of an error without details. *)
Definition error_json (code message : pystr) : res bytes :=
  json_bytes (JObj [(lit "code", JStr code); (lit "message", JStr message)]).

Definition refused_asgi {A} (r : refusal) (res : asgi_result A) : Prop :=
  match r with
  | NoSuchPath => res = mk_ar [] [EvStart 404 [] false; EvBody [] false] AReturn
  | NotAllowed a => res = mk_ar [] [EvStart 405 [(lit "allow", a)] false; EvBody [] false] AReturn
  | Invalid m => exists body, error_json (lit "invalid_argument") m = Ok body
      /\ res = mk_ar [] [EvStart 400 [(lit "content-type", lit "application/json")] false; EvBody body false] AReturn
  end.
Definition refused_wsgi {A} (r : refusal) (res : wsgi_result A) : Prop :=
  match r with
  | NoSuchPath => res = mk_wr [] [WStart (lit "404 Not Found") []] WReturn
  | NotAllowed a => res = mk_wr [] [WStart (lit "405 Method Not Allowed") [(lit "allow", a)]] WReturn
  | Invalid m => exists body, error_json (lit "invalid_argument") m = Ok body
      /\ res = mk_wr [] [WStart (lit "400 Bad Request") [(lit "Content-Type", lit "application/json")]; WBody body] WReturn
  end.
