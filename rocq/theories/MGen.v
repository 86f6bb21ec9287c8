(** Model of the code generator: protoc-gen-connectrpc/protoc_gen_connectrpc/__init__.py, as what the generated classes do. *)
From Coq Require Import List NArith Bool String.
From Verif Require Import MBase MPyStr MHeaders MProtocol MServer.
Import ListNotations.
Local Open Scope N_scope.

(** ** Names *)

Definition underscore : N := 95.
Definition is_upper (c : N) : bool := (65 <=? c) && (c <=? 90).
Definition is_lower (c : N) : bool := (97 <=? c) && (c <=? 122).

(** [re.sub("([^_])([A-Z][a-z]+)", r"\1_\2", s)] (lines 589, 595): leftmost matches that do not overlap, [a-z]+ as long as
    possible.  [run]: inside the [a-z]+ of a match. *)
Fixpoint sub_upper_to_lower (run : bool) (s : pystr) : pystr :=
  match s with
  | [] => []
  | c :: r =>
      if run && is_lower c then c :: sub_upper_to_lower true r
      else match r with
           | u :: t =>
               if negb (c =? underscore) && is_upper u && match t with l :: _ => is_lower l | [] => false end
               then c :: underscore :: u :: sub_upper_to_lower true t
               else c :: sub_upper_to_lower false r
           | [] => [c]
           end
  end.
(** [re.sub("([a-z])([A-Z])", r"\1_\2", s)] (lines 590, 596). *)
Fixpoint sub_lower_to_upper (s : pystr) : pystr :=
  match s with
  | [] => []
  | c :: r =>
      match r with
      | u :: t => if is_lower c && is_upper u then c :: underscore :: u :: sub_lower_to_upper t else c :: sub_lower_to_upper r
      | [] => [c]
      end
  end.
(** [_pascal_to_snake_case] (lines 593-596). *)
Definition snake_case (s : pystr) : pystr := lower (sub_lower_to_upper (sub_upper_to_lower false s)).

(** ** Descriptors *)

Inductive mkind := MUnary | MClientStream | MServerStream | MBidi.
Record mdesc := mk_mdesc { md_name : pystr; md_kind : mkind; md_idem : idem }.
(** [type_name] is the full name with the package. *)
Record sdesc := mk_sdesc { sd_type : pystr; sd_methods : list mdesc }.

(** [_method_local_name] (lines 562-563); [esc] is [escape_identifier] of the protobuf runtime. *)
Definition local_name (esc : pystr -> pystr) (m : mdesc) : pystr := esc (snake_case (md_name m)).
(** [_method_url] (lines 566-567). *)
Definition method_url (s : sdesc) (m : mdesc) : pystr := lit "/" ++ sd_type s ++ lit "/" ++ md_name m.
(** The generated [path] property (lines 222-228, 385-391). *)
Definition service_path (s : sdesc) : pystr := lit "/" ++ sd_type s.
(** The generated [MethodInfo(...)] (lines 192-212, 267-285, 353-373, 419-437). *)
Definition gen_method_info (s : sdesc) (m : mdesc) : method_info := mk_method (sd_type s) (md_name m) (md_idem m).
(** [_supports_get] (lines 582-586). *)
Definition supports_get (m : mdesc) : bool :=
  match md_kind m, md_idem m with MUnary, NoSideEffects => true | _, _ => false end.

(** ** The generated application *)

(** A Python callable, as each kind of endpoint calls it. *)
Record callable (A B : Type) := mk_callable {
  ca_unary : A -> req_ctx -> prog Empty_set Empty_set B;
  ca_client_stream : req_ctx -> prog A Empty_set B;
  ca_server_stream : A -> req_ctx -> prog Empty_set B unit;
  ca_bidi : req_ctx -> prog A B unit
}.
Arguments mk_callable {A B}. Arguments ca_unary {A B}. Arguments ca_client_stream {A B}. Arguments ca_server_stream {A B}. Arguments ca_bidi {A B}.

(** [Endpoint.<_endpoint_type>(method=..., function=...)] (lines 538-547). *)
Definition gen_endpoint {A B} (k : mkind) (m : method_info) (f : callable A B) : endpoint A B :=
  match k with
  | MUnary => EpUnary m (ca_unary f)
  | MClientStream => EpClientStream m (ca_client_stream f)
  | MServerStream => EpServerStream m (ca_server_stream f)
  | MBidi => EpBidi m (ca_bidi f)
  end.
(** The dict of endpoints (lines 183-215, 344-378); [svc] gives the attributes of the service object.  In a dict display the
    last of equal keys counts. *)
Definition gen_endpoints {A B} (esc : pystr -> pystr) (s : sdesc) (svc : pystr -> callable A B) : dict (endpoint A B) :=
  fold_left (fun d m => dset d (method_url s m) (gen_endpoint (md_kind m) (gen_method_info s m) (svc (local_name esc m)))) (sd_methods s) [].

(** The body of every method of the generated service class, which a service inherits for the RPCs it does not define (lines
    119-145, 299-324).  For streaming RPCs it raises when called, not when iterated; both servers call it where they handle the
    exceptions of the iteration too. *)
Definition not_implemented : interrupt := IExn (EConnect Unimplemented (lit "Not implemented") []).
Definition gen_stub {A B} : callable A B :=
  mk_callable (fun _ _ => Fail not_implemented) (fun _ => Fail not_implemented) (fun _ _ => Fail not_implemented) (fun _ => Fail not_implemented).

(** ** The generated client *)

(** An attribute of the client class: one of the base class, or a generated method (lines 231-291, 394-442). *)
Inductive attribute := ABase | AExecute (k : mkind) | AMethod (k : mkind) (m : method_info) (get : bool).
(** [_client_execute_method] (lines 550-559). *)
Definition execute_name (k : mkind) : pystr :=
  match k with
  | MUnary => lit "execute_unary"
  | MClientStream => lit "execute_client_stream"
  | MServerStream => lit "execute_server_stream"
  | MBidi => lit "execute_bidi_stream"
  end.
(** Public attributes of ConnectClient and ConnectClientSync (_client_async.py:177-276, _client_sync.py:180-276). *)
Definition base_attributes : dict attribute :=
  [(lit "close", ABase); (lit "execute_unary", AExecute MUnary); (lit "execute_client_stream", AExecute MClientStream);
   (lit "execute_server_stream", AExecute MServerStream); (lit "execute_bidi_stream", AExecute MBidi)].
(** The class: a later definition of a name replaces an earlier or inherited one. *)
Definition gen_client (esc : pystr -> pystr) (s : sdesc) : dict attribute :=
  fold_left (fun d m => dset d (local_name esc m) (AMethod (md_kind m) (gen_method_info s m) (supports_get m))) (sd_methods s) base_attributes.
(** [client.<name>(request)]: the kind of call and the method it is made for; [None] for an attribute that is no method of the
    service, or whose [self.execute_...] is not the base class's. *)
Definition client_calls (d : dict attribute) (name : pystr) : option (mkind * method_info * bool) :=
  match dget d name with
  | Some (AMethod k m get) =>
      match dget d (execute_name k) with Some (AExecute k') => Some (k', m, get) | _ => None end
  | _ => None
  end.
