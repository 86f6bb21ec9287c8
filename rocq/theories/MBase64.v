(** base64 as done by CPython's base64 / binascii modules (non-strict decoding). *)
From Coq Require Import List NArith ZArith Bool String.
From Verif Require Import MBase MPyStr.
Import ListNotations.
Local Open Scope N_scope.

(** Character of a 6-bit value; [url] selects the URL-safe alphabet. *)
Definition b64_char (url : bool) (v : N) : N :=
  if v <? 26 then 65 + v
  else if v <? 52 then 97 + (v - 26)
  else if v <? 62 then 48 + (v - 52)
  else if v =? 62 then (if url then 45 else 43)
  else (if url then 95 else 47).

(** [binascii.b2a_base64(data, newline=False)], with padding. *)
Fixpoint b64encode_gen (url : bool) (l : bytes) : bytes :=
  match l with
  | [] => []
  | [a] => [b64_char url (a / 4); b64_char url ((a mod 4) * 16); 61; 61]
  | [a; b] =>
      [b64_char url (a / 4); b64_char url ((a mod 4) * 16 + b / 16);
       b64_char url ((b mod 16) * 4); 61]
  | a :: b :: c :: t =>
      b64_char url (a / 4) :: b64_char url ((a mod 4) * 16 + b / 16)
        :: b64_char url ((b mod 16) * 4 + c / 64) :: b64_char url (c mod 64)
        :: b64encode_gen url t
  end.

Definition b64encode := b64encode_gen false.          (* base64.b64encode *)
Definition urlsafe_b64encode := b64encode_gen true.   (* base64.urlsafe_b64encode *)

(** binascii table_a2b_base64: 6-bit value of a character, [None] when it is not in the alphabet. *)
Definition b64_val (c : N) : option N :=
  if (65 <=? c) && (c <=? 90) then Some (c - 65)
  else if (97 <=? c) && (c <=? 122) then Some (c - 97 + 26)
  else if (48 <=? c) && (c <=? 57) then Some (c - 48 + 52)
  else if c =? 43 then Some 62
  else if c =? 47 then Some 63
  else None.

(** State of the decoding loop of binascii.a2b_base64 (strict_mode=False): [quad_pos], [leftchar], [pads]. *)
Fixpoint a2b_loop (l : bytes) (quad left pads : N) : option bytes :=
  match l with
  | [] => if quad =? 0 then Some [] else None
  | c :: t =>
      if c =? 61 then
        if 2 <=? quad then
          if 4 <=? quad + (pads + 1) then Some []      (* goto done *)
          else a2b_loop t quad left (pads + 1)
        else a2b_loop t quad left pads
      else
        match b64_val c with
        | None => a2b_loop t quad left pads            (* non-alphabet characters are skipped *)
        | Some v =>
            if quad =? 0 then a2b_loop t 1 v 0
            else if quad =? 1 then
              option_map (cons (left * 4 + v / 16)) (a2b_loop t 2 (v mod 16) 0)
            else if quad =? 2 then
              option_map (cons (left * 16 + v / 4)) (a2b_loop t 3 (v mod 4) 0)
            else option_map (cons (left * 64 + v)) (a2b_loop t 0 0 0)
        end
  end.

Definition is_ascii (s : list N) : bool := forallb (fun c => c <? 128) s.

(** [base64.b64decode(s)] for a [str]: non-ASCII input and bad padding are ValueErrors ([None]). *)
Definition b64decode (s : pystr) : option bytes :=
  if is_ascii s then a2b_loop s 0 0 0 else None.

(** [base64.urlsafe_b64decode(s)] for a [str]. *)
Definition url_translate (c : N) : N := if c =? 45 then 43 else if c =? 95 then 47 else c.
Definition urlsafe_b64decode (s : pystr) : option bytes :=
  if is_ascii s then a2b_loop (map url_translate s) 0 0 0 else None.
