(** Streams and the ResponseMetadata blocks around their use.  Models how src/connectrpc/_response_metadata.py and the generators of
    _client_async.py:359-427 / _client_sync.py:352-436 meet: a generator runs in the context of whoever asks it for a message, so
    each step looks up the ResponseMetadata that is in scope there and then.  Makes MIter.v's "the same one at every step"
    unnecessary. *)
From Coq Require Import List NArith ZArith Bool Arith.
From Verif Require Import MBase MPyStr MHeaders MJson MWire MEnvelope MTimeout MProtocol MClient MIter MScope MServe.
Import ListNotations.

(** [_current_response.get()] is evaluated when a report is made (_response_metadata.py:20, 43), not when the generator was
    made: the next step of the iterator [it] runs with [md] in scope. *)
Definition scoped {B} (md : option metadata) (it : iterator B) : iterator B :=
  mk_it (match it_pos it with
         | AtYield rq resp cf r rest => AtYield rq resp cf (mk_reader (r_buf r) (r_next r) (r_read r) (r_trl r) md) rest
         | p => p
         end) md.

(** One streaming call (_client_async.py:215-276): the client, the request context made when the method was called, clock and
    network of the call, the request stream; and its iterator. *)
Record look_call (A B : Type) := mk_lc {
  lc_client : client A B; lc_ctx : req_ctx; lc_clocks : clocks; lc_net : network; lc_reqs : list A * option exn
}.
Arguments mk_lc {A B}. Arguments lc_client {A B}. Arguments lc_ctx {A B}. Arguments lc_clocks {A B}. Arguments lc_net {A B}.
Arguments lc_reqs {A B}.
Definition lc_step {A B} (k : look_call A B) (it : iterator B) (a : ask) : iterator B * answer B * list http_event :=
  it_step (lc_client k) (lc_ctx k) (lc_clocks k) (lc_net k) (lc_reqs k) it a.

(** All scopes (MScope.v), and the streams made so far, by number. *)
Record look_world (A B : Type) := mk_lw { lw_scopes : scopes; lw_streams : list (look_call A B * iterator B) }.
Arguments mk_lw {A B}. Arguments lw_scopes {A B}. Arguments lw_streams {A B}.
Definition look_new {A B} : look_world A B := mk_lw scopes_new [].

(** What a program does: enters or leaves a block or starts a task; makes a streaming call; asks, in the context [c], the stream
    [j] for a message, or throws into it. *)
Inductive look_op (A B : Type) := LScope (o : scope_op) | LMake (k : look_call A B) | LAsk (c j : nat) (a : ask).
Arguments LScope {A B}. Arguments LMake {A B}. Arguments LAsk {A B}.

(** What came of asking: the stream, the object in scope, what was asked, what was answered, what the library saw. *)
Record seen (B : Type) := mk_seen {
  se_stream : nat; se_scope : option nat; se_ask : ask; se_answer : answer B; se_events : list http_event
}.
Arguments mk_seen {B}. Arguments se_stream {B}. Arguments se_scope {B}. Arguments se_ask {B}. Arguments se_answer {B}.
Arguments se_events {B}.

(** The object in scope, and the same with what a step reported to it (_response_metadata.py:19-54). *)
Definition in_scope (st : scopes) (c : nat) : option metadata :=
  match sc_current st c with Some i => Some (ro_md (sc_object st i)) | None => None end.
Definition report_to (st : scopes) (c : nat) (md : option metadata) : scopes :=
  match sc_current st c, md with
  | Some i, Some m => mk_scopes (sc_current st) (upd (sc_object st) i (mk_ro m (ro_token (sc_object st i))))
  | _, _ => st
  end.

(** Making a stream runs nothing of it (_client_async.py:215-276 up to the generator's first step). *)
Definition look_step {A B} (w : look_world A B) (o : look_op A B) : look_world A B * list (seen B) :=
  match o with
  | LScope o => (mk_lw (scope_step (lw_scopes w) o) (lw_streams w), [])
  | LMake k => (mk_lw (lw_scopes w) (lw_streams w ++ [(k, iterator_new None)]), [])
  | LAsk c j a =>
      match nth_error (lw_streams w) j with
      | None => (w, [])
      | Some (k, it) =>
          let '(it', x, o) := lc_step k (scoped (in_scope (lw_scopes w) c) it) a in
          (mk_lw (report_to (lw_scopes w) c (it_md it')) (set_nth j (k, it') (lw_streams w)),
           [mk_seen j (sc_current (lw_scopes w) c) a x o])
      end
  end.
Fixpoint look_run {A B} (w : look_world A B) (h : list (look_op A B)) : look_world A B * list (seen B) :=
  match h with
  | [] => (w, [])
  | o :: h => let '(w1, s1) := look_step w o in let '(w2, s2) := look_run w1 h in (w2, s1 ++ s2)
  end.
