(** The request side of a streaming call as a conversation between the HTTP library, the library and the application's iterator of
    request messages.  Models [_streaming_request_content] (_client_async.py:430-435, _client_sync.py:439-444), the generator that is
    handed to the HTTP library as the content of the request.  [request_content] of MClient.v is what it gives when it is asked to
    the end. *)
From Coq Require Import List NArith ZArith Bool String.
From Verif Require Import MBase MPyStr MHeaders MWire MEnvelope MTimeout MProtocol MClient MServer.
Import ListNotations.
Local Open Scope N_scope.

(** The application's iterator: what it answers when it is asked for the [i]-th time.  It may go on for ever. *)
Inductive given (A : Type) := GMsg (a : A) | GEnd | GFail (i : interrupt).
Arguments GMsg {A}. Arguments GEnd {A}. Arguments GFail {A}.
Definition source (A : Type) : Type := nat -> given A.

(** What the HTTP library does with the content: ask for the next part; close it; raise something where it is suspended.  (A task
    that is cancelled while the application's iterator is waited for is cancelled inside that iterator: [GFail ICancel].) *)
Inductive want := WantNext | WantClose | WantThrow (i : interrupt).

(** What can be seen: the application's iterator is asked, and answers; a part is handed to the HTTP library; it is told that there is
    no more; an exception is raised to it; the application's iterator is closed. *)
Inductive send_event (A : Type) := SAsk | STook (g : given A) | SGive (b : bytes) | SOver | SRaise (i : interrupt) | SDrop.
Arguments SAsk {A}. Arguments STook {A}. Arguments SGive {A}. Arguments SOver {A}. Arguments SRaise {A}. Arguments SDrop {A}.

(** The generator: whether it can still be resumed, and how often it has asked the iterator. *)
Record sender := mk_sd { sd_live : bool; sd_asked : nat }.
Definition sd_new : sender := mk_sd true 0.
Definition sd_end (s : sender) : sender := mk_sd false (sd_asked s).

(** One use of the generator.  [async for msg in msgs: yield writer.write(msg)]: neither leaving the loop nor closing the generator
    closes [msgs]; a generator that has ended only says so. *)
Definition send_step {A B} (c : client A B) (src : source A) (s : sender) (w : want) : sender * list (send_event A) :=
  if sd_live s then
    match w with
    | WantClose => (sd_end s, [])
    | WantThrow i => (sd_end s, [SRaise i])
    | WantNext =>
        let g := src (sd_asked s) in
        let s := mk_sd true (S (sd_asked s)) in
        let (s, o) := match g with
                      | GEnd => (sd_end s, SOver)
                      | GFail i => (sd_end s, SRaise i)
                      | GMsg a => match write_message (k_enc_req (cl_codec c)) (Some (cl_send c)) a with
                                  | Ok b => (s, SGive b)
                                  | Raise e => (sd_end s, SRaise (IExn e))
                                  end
                      end in
        (s, [SAsk; STook g; o])
    end
  else match w with
       | WantNext => (s, [SOver])
       | WantClose => (s, [])
       | WantThrow i => (s, [SRaise i])
       end.

Fixpoint send_run {A B} (c : client A B) (src : source A) (s : sender) (ws : list want) : sender * list (send_event A) :=
  match ws with
  | [] => (s, [])
  | w :: ws => let (s, o) := send_step c src s w in let (s, o') := send_run c src s ws in (s, o ++ o')
  end.
(** Everything that happens when the HTTP library uses the content of a request in this way. *)
Definition conversation {A B} (c : client A B) (src : source A) (ws : list want) : list (send_event A) := snd (send_run c src sd_new ws).
