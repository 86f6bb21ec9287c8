(** UTF-8 as done by CPython's [str.encode("utf-8")] and [bytes.decode("utf-8", errors)]. *)
From Coq Require Import List NArith ZArith Bool.
From Verif Require Import MBase.
Import ListNotations.
Local Open Scope N_scope.

Definition is_surrogate (c : N) : bool := (55296 <=? c) && (c <=? 57343).

(** Unicode scalar value: what UTF-8 can encode. *)
Definition is_scalar (c : N) : Prop := c < 1114112 /\ is_surrogate c = false.
Definition is_scalarb (c : N) : bool := (c <? 1114112) && negb (is_surrogate c).

(** One code point, surrogates included (3 bytes, as with errors="surrogatepass"). *)
Definition utf8_char (c : N) : bytes :=
  if c <? 128 then [c]
  else if c <? 2048 then [192 + c / 64; 128 + c mod 64]
  else if c <? 65536 then [224 + c / 4096; 128 + (c / 64) mod 64; 128 + c mod 64]
  else [240 + c / 262144; 128 + (c / 4096) mod 64; 128 + (c / 64) mod 64; 128 + c mod 64].

(** [s.encode()] : [None] is UnicodeEncodeError. *)
Fixpoint utf8_encode (s : pystr) : option bytes :=
  match s with
  | [] => Some []
  | c :: t =>
      if is_scalarb c then
        match utf8_encode t with Some r => Some (utf8_char c ++ r) | None => None end
      else None
  end.

Definition cont (b : N) : bool := (128 <=? b) && (b <? 192).
Definition in_range (lo hi b : N) : bool := (lo <=? b) && (b <=? hi).

(** Admissible range of the second byte, given the first (Unicode table 3-7); [surr] allows the
    encoding of surrogates (errors="surrogatepass"). *)
Definition second3 (surr : bool) (b0 b1 : N) : bool :=
  if b0 =? 224 then in_range 160 191 b1
  else if (b0 =? 237) && negb surr then in_range 128 159 b1
  else cont b1.
Definition second4 (b0 b1 : N) : bool :=
  if b0 =? 240 then in_range 144 191 b1
  else if b0 =? 244 then in_range 128 143 b1
  else cont b1.

(** [b.decode()] (errors="strict", or "surrogatepass" when [surr]): [None] is UnicodeDecodeError. *)
Fixpoint utf8_decode_gen (surr : bool) (l : bytes) : option pystr :=
  match l with
  | [] => Some []
  | b0 :: t =>
      if b0 <? 128 then
        match utf8_decode_gen surr t with Some r => Some (b0 :: r) | None => None end
      else if in_range 194 223 b0 then
        match t with
        | b1 :: t1 =>
            if cont b1 then
              match utf8_decode_gen surr t1 with
              | Some r => Some ((b0 - 192) * 64 + (b1 - 128) :: r)
              | None => None end
            else None
        | _ => None
        end
      else if in_range 224 239 b0 then
        match t with
        | b1 :: b2 :: t2 =>
            if second3 surr b0 b1 && cont b2 then
              match utf8_decode_gen surr t2 with
              | Some r => Some ((b0 - 224) * 4096 + (b1 - 128) * 64 + (b2 - 128) :: r)
              | None => None end
            else None
        | _ => None
        end
      else if in_range 240 244 b0 then
        match t with
        | b1 :: b2 :: b3 :: t3 =>
            if second4 b0 b1 && cont b2 && cont b3 then
              match utf8_decode_gen surr t3 with
              | Some r =>
                  Some ((b0 - 240) * 262144 + (b1 - 128) * 4096 + (b2 - 128) * 64 + (b3 - 128) :: r)
              | None => None end
            else None
        | _ => None
        end
      else None
  end.

Definition utf8_decode : bytes -> option pystr := utf8_decode_gen false.

(** [b.decode("utf-8", "replace")]: each maximal ill-formed part becomes U+FFFD. *)
Fixpoint utf8_decode_replace (l : bytes) : pystr :=
  match l with
  | [] => []
  | b0 :: t =>
      if b0 <? 128 then b0 :: utf8_decode_replace t
      else if in_range 194 223 b0 then
        match t with
        | b1 :: t1 =>
            if cont b1 then (b0 - 192) * 64 + (b1 - 128) :: utf8_decode_replace t1
            else 65533 :: utf8_decode_replace t
        | [] => [65533]
        end
      else if in_range 224 239 b0 then
        match t with
        | b1 :: t1 =>
            if second3 false b0 b1 then
              match t1 with
              | b2 :: t2 =>
                  if cont b2 then
                    (b0 - 224) * 4096 + (b1 - 128) * 64 + (b2 - 128) :: utf8_decode_replace t2
                  else 65533 :: utf8_decode_replace t1
              | [] => [65533]
              end
            else 65533 :: utf8_decode_replace t
        | [] => [65533]
        end
      else if in_range 240 244 b0 then
        match t with
        | b1 :: t1 =>
            if second4 b0 b1 then
              match t1 with
              | b2 :: t2 =>
                  if cont b2 then
                    match t2 with
                    | b3 :: t3 =>
                        if cont b3 then
                          (b0 - 240) * 262144 + (b1 - 128) * 4096 + (b2 - 128) * 64 + (b3 - 128)
                            :: utf8_decode_replace t3
                        else 65533 :: utf8_decode_replace t2
                    | [] => [65533]
                    end
                  else 65533 :: utf8_decode_replace t1
              | [] => [65533]
              end
            else 65533 :: utf8_decode_replace t
        | [] => [65533]
        end
      else 65533 :: utf8_decode_replace t
  end.
