(** What of a request concerns the library, and what only the method: specification for C89 and C90. *)
From Coq Require Import List NArith ZArith Bool String.
From Verif Require Import MBase MPyStr MHeaders SHeaders SJson STimeout MTimeout MProtocol SProtocol MServer.
Import ListNotations.
Local Open Scope N_scope.

(** The header names that have a meaning for the library itself, but for the timeouts. *)
Definition protocol_names : list pystr :=
  [lit "content-type"; lit "content-encoding"; lit "accept-encoding"; lit "connect-content-encoding"; lit "connect-accept-encoding";
   lit "grpc-encoding"; lit "grpc-accept-encoding"; lit "connect-protocol-version"; lit "host"].

(** Timeouts that are absent, empty or well formed; [first] gives the first value of a header. *)
Definition good_timeouts (first : pystr -> option pystr) : Prop :=
  match first (lit "connect-timeout-ms") with None | Some [] => True | Some s => plain_digits s /\ (List.length s <= 10)%nat end
  /\ match first (lit "grpc-timeout") with None | Some [] => True | Some s => exists v k, grpc_timeout_text s v k end.
Definition same_timeouts (first first' : pystr -> option pystr) : Prop :=
  first (lit "connect-timeout-ms") = first' (lit "connect-timeout-ms") /\ first (lit "grpc-timeout") = first' (lit "grpc-timeout").

(** Two contexts that a method cannot tell apart if, of the request's headers, it looks at those with names in [seen] only, and at
    the time it has if [time]. *)
Definition looks_like (seen : pystr -> Prop) (time : bool) (cx cx' : req_ctx) : Prop :=
  cx_method cx = cx_method cx' /\ cx_http cx = cx_http cx' /\ cx_server cx = cx_server cx' /\ cx_client cx = cx_client cx'
  /\ (forall k, seen k -> h_getall (cx_headers cx) k = h_getall (cx_headers cx') k)
  /\ (time = true -> cx_timeout cx = cx_timeout cx' /\ cx_end cx = cx_end cx').
(** Such a method. *)
Definition looks_at {A B} (seen : pystr -> Prop) (time : bool) (ep : endpoint A B) : Prop :=
  match ep with
  | EpUnary _ f => forall a cx cx', looks_like seen time cx cx' -> f a cx = f a cx'
  | EpClientStream _ f => forall cx cx', looks_like seen time cx cx' -> f cx = f cx'
  | EpServerStream _ f => forall a cx cx', looks_like seen time cx cx' -> f a cx = f a cx'
  | EpBidi _ f => forall cx cx', looks_like seen time cx cx' -> f cx = f cx'
  end.
