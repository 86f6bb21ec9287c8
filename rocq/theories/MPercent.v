(** urllib.parse.quote / unquote / quote_plus / urlencode / parse_qs (CPython 3.11). *)
From Coq Require Import List NArith ZArith Bool String.
From Verif Require Import MBase MPyStr MUtf8.
Import ListNotations.
Local Open Scope N_scope.

(** Characters never quoted: letters, digits and "_.-~". *)
Definition always_safe (b : N) : bool :=
  ((65 <=? b) && (b <=? 90)) || ((97 <=? b) && (b <=? 122)) || ((48 <=? b) && (b <=? 57))
  || (b =? 95) || (b =? 46) || (b =? 45) || (b =? 126).

Definition hex_up (v : N) : N := if v <? 10 then 48 + v else 55 + v.

Definition quote_byte (b : N) : pystr :=
  if always_safe b then [b] else [37; hex_up (b / 16); hex_up (b mod 16)].

(** [quote_from_bytes(bs, safe="")] *)
Definition quote_from_bytes (bs : bytes) : pystr := flat_map quote_byte bs.

(** [quote(s, safe="")]: [None] is UnicodeEncodeError. *)
Definition quote (s : pystr) : option pystr :=
  match utf8_encode s with Some bs => Some (quote_from_bytes bs) | None => None end.

(** [quote_plus(s)]: spaces become "+". *)
Definition quote_plus (s : pystr) : option pystr :=
  match utf8_encode s with
  | Some bs => Some (flat_map (fun b => if b =? 32 then [43] else quote_byte b) bs)
  | None => None
  end.

Definition hex_val (c : N) : option N :=
  if (48 <=? c) && (c <=? 57) then Some (c - 48)
  else if (65 <=? c) && (c <=? 70) then Some (c - 55)
  else if (97 <=? c) && (c <=? 102) then Some (c - 87)
  else None.

(** [unquote_to_bytes(s)] for an ASCII string. *)
Fixpoint unquote_to_bytes (s : pystr) : bytes :=
  match s with
  | [] => []
  | c :: t =>
      if c =? 37 then
        match t with
        | h :: l :: t' =>
            match hex_val h, hex_val l with
            | Some a, Some b => a * 16 + b :: unquote_to_bytes t'
            | _, _ => c :: unquote_to_bytes t
            end
        | _ => c :: unquote_to_bytes t
        end
      else c :: unquote_to_bytes t
  end.

(** Splitting into maximal runs of ASCII ([true]) and non-ASCII ([false]) characters
    ([_asciire.split]). *)
Fixpoint ascii_runs (s : pystr) : list (bool * pystr) :=
  match s with
  | [] => []
  | c :: t =>
      let a := c <? 128 in
      match ascii_runs t with
      | (a', r) :: rest => if Bool.eqb a a' then (a, c :: r) :: rest else (a, [c]) :: (a', r) :: rest
      | [] => [(a, [c])]
      end
  end.

(** [unquote(s)] (encoding utf-8, errors="replace"). *)
Definition unquote (s : pystr) : pystr :=
  flat_map (fun ar : bool * pystr =>
              if fst ar then utf8_decode_replace (unquote_to_bytes (snd ar)) else snd ar)
           (ascii_runs s).

(** [urlencode(params)] for a dict of strings. *)
Fixpoint urlencode_pairs (ps : list (pystr * pystr)) : option (list pystr) :=
  match ps with
  | [] => Some []
  | (k, v) :: t =>
      match quote_plus k, quote_plus v, urlencode_pairs t with
      | Some k', Some v', Some r => Some ((k' ++ [61] ++ v') :: r)
      | _, _, _ => None
      end
  end.
Definition urlencode (ps : list (pystr * pystr)) : option pystr :=
  match urlencode_pairs ps with Some l => Some (join [38] l) | None => None end.

Definition plus_to_space (s : pystr) : pystr := map (fun c => if c =? 43 then 32 else c) s.

(** [parse_qsl(qs, keep_blank_values=True)] *)
Definition parse_qsl (qs : pystr) : list (pystr * pystr) :=
  flat_map (fun nv : pystr =>
              match nv with
              | [] => []
              | _ => let '(n, v) := match split_first 61 nv with
                                    | Some p => p
                                    | None => (nv, [])
                                    end in
                     [(unquote (plus_to_space n), unquote (plus_to_space v))]
              end) (split_on 38 qs).

(** [parse_qs(qs, keep_blank_values=True)]: groups values by name. *)
Definition parse_qs (qs : pystr) : dict (list pystr) :=
  fold_left (fun d (nv : pystr * pystr) =>
               let (n, v) := nv in
               dset d n ((match dget d n with Some l => l | None => [] end) ++ [v]))
            (parse_qsl qs) [].
