(** A client application and a method that talk to each other through the WSGI server (see SDialogue). *)
From Coq Require Import List NArith Bool String.
From Verif Require Import MBase MPyStr MHeaders SHeaders MWire MEnvelope MProtocol SProtocol MClient SClient MServer MWsgi SLink SDialogue MTalk STalk.
Import ListNotations.

(** What a conversation was between the two. *)
Definition wdialog_of {A B} (t : list (tevent A B)) : list (said A B) :=
  flat_map (fun e => match e with TGive x => [Told x] | TYield b => [Said b] | _ => [] end) t.

(** After [w] a read of the request body returns [x]: a further part, cut anywhere, of what the client has written; the client has
    read the response as far as it had been handed to the server, or less far.  An empty part is the end, after all that the client
    has written. *)
Definition wreports {A B} (c : client A B) (zc : compression) (says : talker A B) (w : list (tevent A B)) (x : res bytes) : Prop :=
  exists b ys later bs unread,
    x = Ok b
    /\ client_reads c zc (chunks_of (handed w)) = ys ++ later
    /\ client_writes c (fst (says ys)) bs
    /\ List.concat bs = List.concat (pieces (reads w)) ++ b ++ unread
    /\ (b = [] -> snd (says ys) = true /\ unread = []).
(** So it is at every read that is made because the method asked. *)
Definition for_method {A B} (r : list (tevent A B)) : Prop := exists more x rest, r = map TRead more ++ TGive x :: rest.
Definition wrelayed {A B} (c : client A B) (zc : compression) (says : talker A B) (t : list (tevent A B)) : Prop :=
  forall w x r, t = w ++ TRead x :: r -> for_method r -> wreports c zc says w x.

(** The head of a request without Content-Length reaches a WSGI application: as [arrives_wsgi] of SLink, but for the body. *)
Definition head_reaches_wsgi (address : pystr) (rq : http_request) (q : wsgi_request) : Prop :=
  env_get q "REQUEST_METHOD" = Some (rq_method rq) /\ NoDup (dkeys (wq_env q))
  /\ (forall key, In key (dkeys (wq_env q)) -> startswith (lit "HTTP_") key = true -> exists k, key = lit "HTTP_" ++ mangle k)
  /\ (exists path, env_get q "PATH_INFO" = Some path /\ path <> [] /\ request_target address rq path (env_default q "QUERY_STRING" []))
  /\ (forall k v, values_in (rq_headers rq) k = [v] ->
        if same_name k (lit "content-type") then env_get q "CONTENT_TYPE" = Some v
        else if same_name k (lit "content-length") then True
        else dget (wq_env q) (lit "HTTP_" ++ mangle k) = Some v)
  /\ (values_in (rq_headers rq) (lit "content-type") = [] -> env_get q "CONTENT_TYPE" = None)
  /\ dget (wq_env q) (lit "HTTP_CONTENT_TYPE") = None
  /\ (forall k, (forall k', mangle k' = mangle k -> values_in (rq_headers rq) k' = []) -> transport_name k = false ->
        dget (wq_env q) (lit "HTTP_" ++ mangle k) = None)
  /\ env_get q "CONTENT_LENGTH" = None
  /\ wq_trailers q = true.
