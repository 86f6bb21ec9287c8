(** json.dumps (default arguments) and json.loads as done by CPython's json module. *)
From Coq Require Import List NArith ZArith Bool String.
From Verif Require Import MBase MPyStr MUtf8.
Import ListNotations.
Local Open Scope N_scope.

Definition hex_lo (v : N) : N := if v <? 10 then 48 + v else 87 + v.

(** Backslash, "u" and four hex digits. *)
Definition u_escape (v : N) : pystr :=
  [92; 117; hex_lo ((v / 4096) mod 16); hex_lo ((v / 256) mod 16); hex_lo ((v / 16) mod 16); hex_lo (v mod 16)].

(** One character of a string under ensure_ascii=True (json.encoder.py_encode_basestring_ascii). *)
Definition json_char (c : N) : pystr :=
  if c =? 34 then [92; 34]
  else if c =? 92 then [92; 92]
  else if c =? 10 then [92; 110]
  else if c =? 13 then [92; 114]
  else if c =? 9 then [92; 116]
  else if c =? 12 then [92; 102]
  else if c =? 8 then [92; 98]
  else if (32 <=? c) && (c <=? 126) then [c]
  else if c <? 65536 then u_escape c
  else let v := c - 65536 in
       u_escape (55296 + v / 1024) ++ u_escape (56320 + v mod 1024).

Definition json_string (s : pystr) : pystr := 34 :: flat_map json_char s ++ [34].

(** [json.dumps(v)] with the default separators. *)
Fixpoint json_dumps (v : json) : pystr :=
  match v with
  | JNull => lit "null"
  | JBool true => lit "true"
  | JBool false => lit "false"
  | JInt z => dec_of_Z z
  | JFloat t => t
  | JStr s => json_string s
  | JArr l => 91 :: join [44; 32] (map json_dumps l) ++ [93]
  | JObj d => 123 :: join [44; 32]
                 (map (fun kv => json_string (fst kv) ++ [58; 32] ++ json_dumps (snd kv)) d) ++ [125]
  end.

(** ** Parsing *)
Definition is_ws (c : N) : bool := (c =? 32) || (c =? 9) || (c =? 10) || (c =? 13).
Definition skip_ws : pystr -> pystr := drop_while is_ws.

Definition hexv (c : N) : option N :=
  if (48 <=? c) && (c <=? 57) then Some (c - 48)
  else if (65 <=? c) && (c <=? 70) then Some (c - 55)
  else if (97 <=? c) && (c <=? 102) then Some (c - 87)
  else None.

Definition hex4v (a b c d : N) : option N :=
  match hexv a, hexv b, hexv c, hexv d with
  | Some a, Some b, Some c, Some d => Some (a * 4096 + b * 256 + c * 16 + d)
  | _, _, _, _ => None
  end.

Definition is_high (c : N) : bool := (55296 <=? c) && (c <=? 56319).
Definition is_low (c : N) : bool := (56320 <=? c) && (c <=? 57343).

(** Simple escapes after a backslash. *)
Definition esc_char (c : N) : option N :=
  if c =? 34 then Some 34 else if c =? 92 then Some 92 else if c =? 47 then Some 47
  else if c =? 98 then Some 8 else if c =? 102 then Some 12 else if c =? 110 then Some 10
  else if c =? 114 then Some 13 else if c =? 116 then Some 9 else None.

Definition cons_fst {A B} (x : A) (p : option (list A * B)) : option (list A * B) :=
  match p with Some (l, r) => Some (x :: l, r) | None => None end.

(** Body of a string after the opening quote (json.decoder.scanstring, strict=True): the decoded
    characters and what follows the closing quote.  A high surrogate escape directly followed by a
    low surrogate escape is combined. *)
Fixpoint scan_string (s : pystr) : option (pystr * pystr) :=
  match s with
  | [] => None
  | c :: t =>
      if c =? 34 then Some ([], t)
      else if c =? 92 then
        match t with
        | e :: t1 =>
            if e =? 117 then
              match t1 with
              | a :: b :: x :: d :: t2 =>
                  match hex4v a b x d with
                  | None => None
                  | Some u =>
                      if is_high u then
                        match t2 with
                        | b0 :: b1 :: a' :: b' :: x' :: d' :: t3 =>
                            if (b0 =? 92) && (b1 =? 117) then
                              match hex4v a' b' x' d' with
                              | None => None
                              | Some u2 =>
                                  if is_low u2
                                  then cons_fst (65536 + (u - 55296) * 1024 + (u2 - 56320)) (scan_string t3)
                                  else cons_fst u (scan_string t2)
                              end
                            else cons_fst u (scan_string t2)
                        | _ => cons_fst u (scan_string t2)
                        end
                      else cons_fst u (scan_string t2)
                  end
              | _ => None
              end
            else match esc_char e with
                 | Some v => cons_fst v (scan_string t1)
                 | None => None
                 end
        | [] => None
        end
      else if c <=? 31 then None
      else cons_fst c (scan_string t)
  end.

(** Maximal run of ASCII digits. *)
Fixpoint take_digits (s : pystr) : pystr * pystr :=
  match s with
  | c :: t => if is_digit c then let (d, r) := take_digits t in (c :: d, r) else ([], s)
  | [] => ([], [])
  end.

(** Number after the optional minus sign (scanner.c _match_number_unicode): integer part without
    superfluous leading zero, optional fraction, optional exponent. *)
Definition scan_number (neg : bool) (s : pystr) : option (json * pystr) :=
  let int_part := match s with
                  | 48 :: t => Some ([48], t)
                  | c :: _ => if is_digit c then Some (take_digits s) else None
                  | [] => None
                  end in
  match int_part with
  | None => None
  | Some (ds, r) =>
      let '(frac, r1) := match r with
                         | 46 :: t => let (f, r') := take_digits t in
                                      match f with [] => ([], r) | _ => (46 :: f, r') end
                         | _ => ([], r)
                         end in
      let '(ex, r2) := match r1 with
                       | e :: t =>
                           if (e =? 101) || (e =? 69) then
                             let '(sg, t') := match t with
                                              | 43 :: t' => ([43], t')
                                              | 45 :: t' => ([45], t')
                                              | _ => ([], t)
                                              end in
                             let (x, r') := take_digits t' in
                             match x with [] => ([], r1) | _ => (e :: sg ++ x, r') end
                           else ([], r1)
                       | [] => ([], r1)
                       end in
      let sign := if neg then [45] else [] in
      match frac, ex with
      | [], [] => Some (JInt (if neg then - Z.of_N (digits_val ds) else Z.of_N (digits_val ds))%Z, r2)
      | _, _ => Some (JFloat (sign ++ ds ++ frac ++ ex), r2)
      end
  end.

(** scanner.scan_once.  [fuel] bounds the number of nested calls; [json_loads] gives enough for any input
    (Python's recursion limit is not modelled). *)
Fixpoint scan_value (fuel : nat) (s : pystr) : option (json * pystr) :=
  match fuel with
  | O => None
  | S f =>
      match s with
      | [] => None
      | c :: t =>
          if c =? 34 then
            match scan_string t with Some (x, r) => Some (JStr x, r) | None => None end
          else if c =? 123 then
            match skip_ws t with
            | 125 :: r => Some (JObj [], r)
            | 34 :: r => match scan_members f r [] with Some (d, r') => Some (JObj d, r') | None => None end
            | _ => None
            end
          else if c =? 91 then
            match skip_ws t with
            | 93 :: r => Some (JArr [], r)
            | r => match scan_elems f r with Some (l, r') => Some (JArr l, r') | None => None end
            end
          else if startswith (lit "null") s then Some (JNull, skipn 4 s)
          else if startswith (lit "true") s then Some (JBool true, skipn 4 s)
          else if startswith (lit "false") s then Some (JBool false, skipn 5 s)
          else if startswith (lit "NaN") s then Some (JFloat (lit "NaN"), skipn 3 s)
          else if startswith (lit "Infinity") s then Some (JFloat (lit "Infinity"), skipn 8 s)
          else if startswith (lit "-Infinity") s then Some (JFloat (lit "-Infinity"), skipn 9 s)
          else if c =? 45 then scan_number true t
          else scan_number false s
      end
  end
(** Members of an object, positioned after the opening quote of a key.  A repeated key keeps its first
    position and takes the last value (dict semantics). *)
with scan_members (fuel : nat) (s : pystr) (acc : dict json) : option (dict json * pystr) :=
  match fuel with
  | O => None
  | S f =>
      match scan_string s with
      | None => None
      | Some (k, r) =>
          match skip_ws r with
          | 58 :: r1 =>
              match scan_value f (skip_ws r1) with
              | None => None
              | Some (v, r2) =>
                  let acc' := dset acc k v in
                  match skip_ws r2 with
                  | 125 :: r3 => Some (acc', r3)
                  | 44 :: r3 =>
                      match skip_ws r3 with
                      | 34 :: r4 => scan_members f r4 acc'
                      | _ => None
                      end
                  | _ => None
                  end
              end
          | _ => None
          end
      end
  end
(** Elements of an array, positioned at an element. *)
with scan_elems (fuel : nat) (s : pystr) : option (list json * pystr) :=
  match fuel with
  | O => None
  | S f =>
      match scan_value f s with
      | None => None
      | Some (v, r) =>
          match skip_ws r with
          | 93 :: r1 => Some ([v], r1)
          | 44 :: r1 => cons_fst v (scan_elems f (skip_ws r1))
          | _ => None
          end
      end
  end.

(** [json.loads(s)] for a [str]: [None] is JSONDecodeError (a ValueError). *)
Definition json_loads (s : pystr) : option json :=
  match s with
  | 65279 :: _ => None
  | _ =>
      match scan_value (S (List.length s)) (skip_ws s) with
      | Some (v, r) => match skip_ws r with [] => Some v | _ => None end
      | None => None
      end
  end.

(** [json.loads(b)] for bytes: a UTF-8 byte order mark is dropped, then the text is decoded with
    errors="surrogatepass".  Simplification: UTF-8 input only (Python also sniffs UTF-16/32). *)
Definition json_loads_bytes (b : bytes) : option json :=
  let b' := match b with 239 :: 187 :: 191 :: t => t | _ => b end in
  match utf8_decode_gen true b' with Some s => json_loads s | None => None end.
