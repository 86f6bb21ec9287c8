(** Model of connectrpc-otel/connectrpc_otel/_instrumentor.py: switching the instrumentation on and off. *)
From Coq Require Import List NArith Bool String.
From Verif Require Import MBase MPyStr MIntercept MOtel.
Import ListNotations.

(** One of the modules connectrpc.client and connectrpc.server: whether it is in [sys.modules], the post-import hooks waiting for
    it, and the wrappers around the constructors of its classes, one inside the other.  Both classes of a module always get and
    lose a wrapper together (_instrumentor.py:40-70), so they are counted once. *)
Record modst := mk_mod { m_imported : bool; m_hooks : nat; m_layers : nat }.
Definition mod_new : modst := mk_mod false 0 0.

(** [register_post_import_hook(hook, name)] of wrapt: runs the hook at once if the module is there, else when it is imported. *)
Definition register (m : modst) : modst :=
  if m_imported m then mk_mod true (m_hooks m) (S (m_layers m)) else mk_mod false (S (m_hooks m)) (m_layers m).
(** The first [import] of the module runs the hooks ([_patch_client], [_patch_server], _instrumentor.py:52-70). *)
Definition import_module (m : modst) : modst :=
  if m_imported m then m else mk_mod true 0 (m_layers m + m_hooks m).
(** [if name in sys.modules: unwrap(...)] (_instrumentor.py:40-50); [unwrap] takes off the outermost wrapper, if there is one. *)
Definition unwrap (m : modst) : modst :=
  if m_imported m then mk_mod true (m_hooks m) (pred (m_layers m)) else m.

(** The instrumentor, a singleton: its flag [_is_instrumented_by_opentelemetry] and the providers it holds ([P]). *)
Record instrumentor (P : Type) := mk_ins { in_on : bool; in_prov : option P; in_client : modst; in_server : modst }.
Arguments mk_ins {P}. Arguments in_on {P}. Arguments in_prov {P}. Arguments in_client {P}. Arguments in_server {P}.
Definition ins_new {P} : instrumentor P := mk_ins false None mod_new mod_new.

Inductive ins_op (P : Type) := Instrument (p : P) | Uninstrument | ImportClient | ImportServer.
Arguments Instrument {P}. Arguments Uninstrument {P}. Arguments ImportClient {P}. Arguments ImportServer {P}.

(** [BaseInstrumentor.instrument]/[uninstrument] (library: nothing but a warning if there is nothing to do) around [_instrument] and
    [_uninstrument] (_instrumentor.py:29-50).  Simplification: the dependency check of the library succeeds. *)
Definition ins_exec {P} (s : instrumentor P) (op : ins_op P) : instrumentor P :=
  match op with
  | Instrument p => if in_on s then s else mk_ins true (Some p) (register (in_client s)) (register (in_server s))
  | Uninstrument => if in_on s then mk_ins false (in_prov s) (unwrap (in_client s)) (unwrap (in_server s)) else s
  | ImportClient => mk_ins (in_on s) (in_prov s) (import_module (in_client s)) (in_server s)
  | ImportServer => mk_ins (in_on s) (in_prov s) (in_client s) (import_module (in_server s))
  end.
Definition ins_run {P} (s : instrumentor P) (ops : list (ins_op P)) : instrumentor P := fold_left ins_exec ops s.

(** The [interceptors] argument that the constructor of a client ([client = true]) or an application gets: it passes through the
    wrappers, each of which reads the providers of the instrumentor at that time (_instrumentor.py:72-103).  [mk p client] is
    [OpenTelemetryInterceptor(...)]. *)
Definition constructed {P I} (is_otel : I -> bool) (mk : P -> bool -> I) (s : instrumentor P) (client : bool) (given : option (iterable I))
  : option (iterable I) :=
  match in_prov s with
  | None => given
  | Some p => Nat.iter (m_layers (if client then in_client s else in_server s)) (init_wrapper is_otel (mk p client)) given
  end.
