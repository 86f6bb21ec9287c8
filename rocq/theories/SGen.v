(** Specification of generated code: which endpoint an RPC has. *)
From Coq Require Import List NArith.
From Verif Require Import MBase MPyStr MProtocol MClient MServer MGen.

(** What clients and servers are told about an RPC. *)
Definition rpc_info (s : sdesc) (m : mdesc) : method_info := mk_method (sd_type s) (md_name m) (md_idem m).
(** Its endpoint: of its kind, calling the function given. *)
Definition rpc_endpoint {A B} (s : sdesc) (m : mdesc) (f : callable A B) : endpoint A B :=
  match md_kind m with
  | MUnary => EpUnary (rpc_info s m) (ca_unary f)
  | MServerStream => EpServerStream (rpc_info s m) (ca_server_stream f)
  | MClientStream => EpClientStream (rpc_info s m) (ca_client_stream f)
  | MBidi => EpBidi (rpc_info s m) (ca_bidi f)
  end.
