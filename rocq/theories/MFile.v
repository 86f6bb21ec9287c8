(** Model of the code generator, protoc-gen-connectrpc/protoc_gen_connectrpc/__init__.py, as the modules it generates: which classes
    are in them, and which message classes they refer to. *)
From Coq Require Import List NArith Bool String.
From Verif Require Import MBase MPyStr MHeaders MProtocol MServer MGen.
Import ListNotations.
Local Open Scope N_scope.

(** ** Descriptors *)

(** A service of a file: [DescService.name], and what [MGen] says of it. *)
Record fservice := mk_fservice { fs_name : pystr; fs_desc : sdesc }.
(** [DescFile]: its name, "dir/file.proto", and its services. *)
Record fdesc := mk_fdesc { fd_name : pystr; fd_services : list fservice }.
(** [DescMessage]: its file, its name and the names of the messages it is declared in, innermost first. *)
Record msg_desc := mk_msg_desc { ms_file : pystr; ms_name : pystr; ms_parents : list pystr }.

(** [_IOOption] (lines 73-80); [None] is the default. *)
Inductive io_option := IoSync | IoAsync.
(** [_ProtobufOption] (lines 63-70). *)
Inductive pb_option := PbGoogle | PbPy.

(** ** The classes of a generated module *)

Inductive crole := CService | CApplication | CClient.
Record gclass := mk_gclass { gc_sync : bool; gc_role : crole; gc_service : sdesc }.

(** The [class] statements of [_generate_async_stubs] (lines 114-291) and [_generate_sync_stubs] (lines 294-442), in order;
    [esc] is [escape_identifier] of the protobuf runtime. *)
Definition async_classes (esc : pystr -> pystr) (s : fservice) : list (pystr * gclass) :=
  [(esc (fs_name s), mk_gclass false CService (fs_desc s));
   (esc (fs_name s) ++ lit "ASGIApplication", mk_gclass false CApplication (fs_desc s));
   (esc (fs_name s) ++ lit "Client", mk_gclass false CClient (fs_desc s))].
Definition sync_classes (esc : pystr -> pystr) (s : fservice) : list (pystr * gclass) :=
  [(esc (fs_name s) ++ lit "Sync", mk_gclass true CService (fs_desc s));
   (esc (fs_name s) ++ lit "WSGIApplication", mk_gclass true CApplication (fs_desc s));
   (esc (fs_name s) ++ lit "ClientSync", mk_gclass true CClient (fs_desc s))].
(** The loop of [_generate_file] (lines 107-111). *)
Definition file_classes (esc : pystr -> pystr) (io : option io_option) (services : list fservice) : list (pystr * gclass) :=
  flat_map (fun s => (match io with None | Some IoAsync => async_classes esc s | Some IoSync => [] end)
                     ++ (match io with None | Some IoSync => sync_classes esc s | Some IoAsync => [] end)) services.
(** The namespace of the module once it is imported: a later statement replaces an earlier one.  Simplification: its other names
    (imported modules, codecs) are left out; the protobuf runtime's plugin library chooses names for imports. *)
Definition gen_module (esc : pystr -> pystr) (io : option io_option) (services : list fservice) : dict gclass :=
  fold_left (fun d c => dset d (fst c) (snd c)) (file_classes esc io services) [].
(** [_generate] (lines 92-96): files without services are skipped.  [schema.generate_file] (library) names the module after the
    file. *)
Definition generate (esc : pystr -> pystr) (io : option io_option) (files : list fdesc) : list (pystr * dict gclass) :=
  map (fun f => (fd_name f, gen_module esc io (fd_services f)))
      (filter (fun f => match fd_services f with [] => false | _ => true end) files).

(** ** References to message classes *)

(** [s.removesuffix(".proto")] *)
Definition strip_proto (s : pystr) : pystr := rev (removeprefix (rev (lit ".proto")) (rev s)).
(** [s.replace(a, b)] for single characters. *)
Definition replace1 (a b : N) (s : pystr) : pystr := map (fun c => if c =? a then b else c) s.
(** [_module_name] (lines 513-517). *)
Definition module_name (filename : pystr) : pystr :=
  replace1 47 46 (replace1 45 95 (strip_proto filename)) ++ lit "_pb2".
(** [filename.split('/')[-1]] *)
Definition base_name (filename : pystr) : pystr := last (split_on 47 filename) [].
(** [".".join(l)] is [join]. *)
(** [_message_ident] with protobuf=google (lines 496-509), as the module and the name that the generated code refers to;
    [file] is the file of the service. *)
Definition message_ident (file : pystr) (m : msg_desc) : pystr * pystr :=
  let name := join (lit ".") (rev (ms_name m :: ms_parents m)) in
  if str_eqb (ms_file m) file then (lit "." ++ module_name (base_name (ms_file m)), name)
  else (module_name (ms_file m), name).
