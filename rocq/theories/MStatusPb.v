(** google.rpc.Status in the protobuf wire format (src/connectrpc/_gen/status_pb.py:13-40: code = 1 int32,
    message = 2 string, details = 3 repeated google.protobuf.Any).

    The protobuf runtime is a third-party library and not part of /repo.  The theorems about gRPC errors take any
    [status_codec] satisfying [status_codec_ok]; this file gives one instance (canonical encoding of the fields in
    order, zero values omitted) so that the assumption is known to be satisfiable. *)
From Coq Require Import List NArith ZArith Bool String.
From Verif Require Import MBase MPyStr MUtf8 MEnvelope.
Import ListNotations.
Local Open Scope N_scope.

Definition int32_ok (z : Z) : Prop := (-2147483648 <= z < 2147483648)%Z.
Definition text_ok (s : pystr) : Prop := exists b, utf8_encode s = Some b.

(** A Status that can be serialised. *)
Definition status_ok (s : status_pb) : Prop :=
  int32_ok (s_code s) /\ text_ok (s_message s)
  /\ Forall (fun a => text_ok (type_url a) /\ is_bytes (any_value a)) (s_details s).

(** What the theorems assume of the protobuf runtime: it serialises every serialisable Status to bytes it parses back
    to the same Status, and a Status with a non-zero code is not serialised to the empty string. *)
Definition status_codec_ok (sc : status_codec) : Prop :=
  forall s, status_ok s -> exists b, st_to sc s = Ok b /\ is_bytes b /\ st_from sc b = Ok s
                                     /\ (s_code s <> 0%Z -> b <> []).

(** Base-128 varints. *)
Fixpoint varint_enc (fuel : nat) (n : N) : bytes :=
  match fuel with
  | O => [n]
  | S f => if n <? 128 then [n] else (n mod 128 + 128) :: varint_enc f (n / 128)
  end.
Definition varint (n : N) : bytes := varint_enc (N.to_nat (N.log2 n)) n.

Fixpoint varint_dec (b : bytes) : option (N * bytes) :=
  match b with
  | [] => None
  | c :: r => if c <? 128 then Some (c, r)
              else match varint_dec r with
                   | Some (v, r') => Some (c - 128 + 128 * v, r')
                   | None => None
                   end
  end.

Definition len_field (tag : N) (d : bytes) : bytes := tag :: varint (lenN d) ++ d.

Definition take_len (b : bytes) : option (bytes * bytes) :=
  match varint_dec b with
  | Some (n, r) => if lenN r <? n then None else Some (takeN n r, dropN n r)
  | None => None
  end.

Definition int32_to_N (z : Z) : N := Z.to_N (z mod 18446744073709551616)%Z.
Definition N_to_int32 (n : N) : Z :=
  let w := (Z.of_N n mod 4294967296)%Z in
  if (w <? 2147483648)%Z then w else (w - 4294967296)%Z.

Definition enc_any (a : any) : option bytes :=
  match utf8_encode (type_url a) with
  | None => None
  | Some u => Some ((match u with [] => [] | _ => len_field 10 u end)
                    ++ (match any_value a with [] => [] | v => len_field 18 v end))
  end.

Fixpoint enc_anys (l : list any) : option bytes :=
  match l with
  | [] => Some []
  | a :: r => match enc_any a, enc_anys r with
              | Some x, Some y => Some (len_field 26 x ++ y)
              | _, _ => None
              end
  end.

Definition enc_status (s : status_pb) : res bytes :=
  match utf8_encode (s_message s), enc_anys (s_details s) with
  | Some m, Some ds =>
      Ok ((if Z.eqb (s_code s) 0 then [] else 8 :: varint (int32_to_N (s_code s)))
          ++ (match m with [] => [] | _ => len_field 18 m end) ++ ds)
  | _, _ => Raise (EOther KValue (lit "surrogates not allowed"))
  end.

(** Field-by-field parsers; later fields win. *)
Fixpoint dec_any (fuel : nat) (b : bytes) (a : any) : option any :=
  match fuel with
  | O => None
  | S f =>
      match b with
      | [] => Some a
      | 10 :: r => match take_len r with
                   | Some (d, r) => match utf8_decode d with
                                    | Some u => dec_any f r (mk_any u (any_value a))
                                    | None => None
                                    end
                   | None => None
                   end
      | 18 :: r => match take_len r with
                   | Some (d, r) => dec_any f r (mk_any (type_url a) d)
                   | None => None
                   end
      | _ => None
      end
  end.

Fixpoint dec_status (fuel : nat) (b : bytes) (s : status_pb) : option status_pb :=
  match fuel with
  | O => None
  | S f =>
      match b with
      | [] => Some s
      | 8 :: r => match varint_dec r with
                  | Some (n, r) => dec_status f r (mk_status (N_to_int32 n) (s_message s) (s_details s))
                  | None => None
                  end
      | 18 :: r => match take_len r with
                   | Some (d, r) => match utf8_decode d with
                                    | Some u => dec_status f r (mk_status (s_code s) u (s_details s))
                                    | None => None
                                    end
                   | None => None
                   end
      | 26 :: r => match take_len r with
                   | Some (d, r) =>
                       match dec_any (S (List.length d)) d (mk_any [] []) with
                       | Some a => dec_status f r (mk_status (s_code s) (s_message s) (s_details s ++ [a]))
                       | None => None
                       end
                   | None => None
                   end
      | _ => None
      end
  end.

Definition pb_codec : status_codec :=
  mk_sc enc_status
        (fun b => match dec_status (S (List.length b)) b (mk_status 0 [] []) with
                  | Some s => Ok s
                  | None => Raise (EOther KValue (lit "protobuf"))
                  end).
