(** Model of the scopes of ResponseMetadata: src/connectrpc/_response_metadata.py. *)
From Coq Require Import List Bool Arith.
From Verif Require Import MBase MPyStr MHeaders MJson MWire.
Import ListNotations.

(** A ResponseMetadata object (lines 75-77): what it reports, and [_token].  A [contextvars.Token] (standard library) holds the
    context it was made in and the value of the variable before.  Whether the token was used already is left out: [__exit__]
    drops the token. *)
Record rm_object := mk_ro { ro_md : metadata; ro_token : option (nat * option nat) }.
Definition ro_new : rm_object := mk_ro md_new None.

(** All contexts (one per thread; asyncio tasks run in a copy of their creator's) and objects, by number.
    [sc_current c] is the value of [_current_response] (line 16) in the context [c]. *)
Record scopes := mk_scopes { sc_current : nat -> option nat; sc_object : nat -> rm_object }.
Definition scopes_new : scopes := mk_scopes (fun _ => None) (fun _ => ro_new).

Definition upd {V} (f : nat -> V) (i : nat) (v : V) : nat -> V := fun j => if Nat.eqb i j then v else f j.

(** [__enter__] in the context [c] (lines 79-81). *)
Definition rm_enter (st : scopes) (c i : nat) : scopes :=
  mk_scopes (upd (sc_current st) c (Some i))
            (upd (sc_object st) i (mk_ro (ro_md (sc_object st i)) (Some (c, sc_current st c)))).

(** [__exit__] (lines 83-95).  [reset] in another context than the token's raises, and that is ignored. *)
Definition rm_exit (st : scopes) (c i : nat) : scopes :=
  mk_scopes (match ro_token (sc_object st i) with
             | Some (c', old) => if Nat.eqb c c' then upd (sc_current st) c old else sc_current st
             | None => sc_current st
             end)
            (upd (sc_object st) i (mk_ro (ro_md (sc_object st i)) None)).

(** The calls that client code makes of this module: [handle_response_headers] (lines 19-37; _client_async.py:324, 382) and
    [handle_response_trailers] (lines 40-54; _protocol_connect.py:326, _protocol_grpc.py:350). *)
Inductive report := RHeaders (hs : http_headers) | RTrailers (ts : http_headers) | RJson (v : json).
Definition rm_report (cur : option metadata) (r : report) : option metadata :=
  match r with
  | RHeaders hs => handle_response_headers cur hs
  | RTrailers ts => handle_trailers_http cur ts
  | RJson v => fst (handle_trailers_json cur v)
  end.
(** Both look up the object in the current context. *)
Definition rm_handle (st : scopes) (c : nat) (r : report) : scopes :=
  match sc_current st c with
  | None => st
  | Some i =>
      match rm_report (Some (ro_md (sc_object st i))) r with
      | Some m => mk_scopes (sc_current st) (upd (sc_object st) i (mk_ro m (ro_token (sc_object st i))))
      | None => st
      end
  end.

(** What can happen, in any context: a block is entered or left, a call reports, a context is copied for a new task. *)
Inductive scope_op := Enter (c i : nat) | Exit (c i : nat) | Report (c : nat) (r : report) | Copy (c c' : nat).
Definition scope_step (st : scopes) (o : scope_op) : scopes :=
  match o with
  | Enter c i => rm_enter st c i
  | Exit c i => rm_exit st c i
  | Report c r => rm_handle st c r
  | Copy c c' => mk_scopes (upd (sc_current st) c' (sc_current st c)) (sc_object st)
  end.
Definition scope_run (st : scopes) (h : list scope_op) : scopes := fold_left scope_step h st.
