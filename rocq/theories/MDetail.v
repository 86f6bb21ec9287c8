(** Model of src/connectrpc/errors.py: typed error details.  Elsewhere in the model a detail is only its Any and the debug value
    it is sent with ([detail]); [to_detail] and [received] connect the two. *)
From Coq Require Import List NArith Bool String.
From Verif Require Import MBase MPyStr MWire.
Import ListNotations.
Local Open Scope N_scope.

(** The protobuf runtime, for message type [M] and message descriptors [D]: [m.desc().type_name], [m.to_binary()], [bool(m)],
    [message_to_json_value(m)] ([None] if it raises) and [any.unpack(desc)]. *)
Record pb_runtime (M D : Type) := mk_rt {
  rt_name : M -> pystr;
  rt_bin : M -> bytes;
  rt_truthy : M -> bool;
  rt_json : M -> option json;
  rt_unpack : any -> D -> res (option M)
}.
Arguments mk_rt {M D}. Arguments rt_name {M D}. Arguments rt_bin {M D}. Arguments rt_truthy {M D}. Arguments rt_json {M D}. Arguments rt_unpack {M D}.
(** [Any.pack(message)] (library). *)
Definition any_pack {M D} (rt : pb_runtime M D) (m : M) : any := mk_any (google_prefix ++ rt_name rt m) (rt_bin rt m).

(** [ErrorDetail] (errors.py:21-38). *)
Record edetail (M : Type) := mk_ed { ed_message : option M; ed_any : any }.
Arguments mk_ed {M}. Arguments ed_message {M}. Arguments ed_any {M}.
(** A message given to a constructor: an Any, or any other message. *)
Inductive pb_message (M : Type) := PAny (a : any) | PMsg (m : M).
Arguments PAny {M}. Arguments PMsg {M}.
(** [ErrorDetail.__init__] (errors.py:30-36). *)
Definition ed_new {M D} (rt : pb_runtime M D) (m : pb_message M) : edetail M :=
  match m with
  | PAny a => mk_ed None a
  | PMsg m => mk_ed (Some m) (any_pack rt m)
  end.
(** [type_name], [message_bytes] (errors.py:38-46). *)
Definition ed_type_name {M} (d : edetail M) : pystr := removeprefix google_prefix (type_url (ed_any d)).
Definition ed_bytes {M} (d : edetail M) : bytes := any_value (ed_any d).

(** The argument of [value]: none, a Registry (which may be falsy, and finds descriptors by name), or a descriptor or message
    class. *)
Inductive vtarget (D : Type) := VNone | VRegistry (truthy : bool) (find : pystr -> option D) | VType (d : D).
Arguments VNone {D}. Arguments VRegistry {D}. Arguments VType {D}.
(** [ErrorDetail.value] (errors.py:60-75). *)
Definition ed_value {M D} (rt : pb_runtime M D) (d : edetail M) (t : vtarget D) : res (option M) :=
  let unpack :=
    match t with
    | VNone => Ok None
    | VRegistry truthy find =>
        if truthy then match find (ed_type_name d) with Some desc => rt_unpack rt (ed_any d) desc | None => Ok None end
        else Ok None
    | VType desc => rt_unpack rt (ed_any d) desc
    end in
  match ed_message d with
  | Some m => if rt_truthy rt m then Ok (Some m) else unpack
  | None => unpack
  end.

(** The debug value a detail is sent with (_protocol.py:174-181): [detail.value()], if truthy and expressible in JSON. *)
Definition ed_debug {M D} (rt : pb_runtime M D) (d : edetail M) : option json :=
  match ed_value rt d VNone with
  | Ok (Some m) => if rt_truthy rt m then rt_json rt m else None
  | _ => None
  end.
Definition to_detail {M D} (rt : pb_runtime M D) (d : edetail M) : detail := mk_detail (ed_any d) (ed_debug rt d).
(** The ErrorDetail made from an Any of a response (_protocol.py:130-137, _protocol_grpc.py:361-366 through ConnectError). *)
Definition received {M D} (rt : pb_runtime M D) (d : detail) : edetail M := ed_new rt (PAny (d_any d)).

(** [ConnectError.__init__] (errors.py:87-107): each detail is a message or an ErrorDetail. *)
Inductive ce_detail (M : Type) := CMessage (m : pb_message M) | CDetail (d : edetail M).
Arguments CMessage {M}. Arguments CDetail {M}.
Definition ce_details {M D} (rt : pb_runtime M D) (l : list (ce_detail M)) : list (edetail M) :=
  map (fun x => match x with CDetail d => d | CMessage m => ed_new rt m end) l.
Definition connect_error {M D} (rt : pb_runtime M D) (c : code) (msg : pystr) (l : list (ce_detail M)) : exn :=
  EConnect c msg (map (to_detail rt) (ce_details rt l)).
