(** Identifier and length octets: bsn1/src/{identifier_ref,identifier,length,
    length_buffer,id_tags,misc}.rs *)
From Verif Require Import Base ModelIo.

(** bsn1/src/id_tags.rs:20-29 *)
Inductive class_tag := Universal | Application | ContextSpecific | Private.
Definition class_u8 (c : class_tag) : N :=
  match c with Universal => 0x00 | Application => 0x40 | ContextSpecific => 0x80 | Private => 0xc0 end.
(** bsn1/src/id_tags.rs:34-39 *)
Inductive pc_tag := Primitive | Constructed.
Definition pc_u8 (p : pc_tag) : N := match p with Primitive => 0x00 | Constructed => 0x20 end.

(** bsn1/src/identifier_ref.rs:23-27 *)
Definition ID_LONG_FLAG : N := 0x1f.
Definition ID_MAX_SHORT : N := ID_LONG_FLAG - 1.
Definition MORE_FLAG : N := 0x80.
Definition CLASS_MASK : N := 0xc0.
Definition PC_MASK : N := 0x20.
(** [!m] on a u8. *)
Definition not_u8 (m : N) : N := N.lxor m 0xff.
(** [x as u8]. *)
Definition as_u8 (x : N) : N := x mod 256.

(** bsn1/src/length.rs:39-42 *)
Inductive Length := Indefinite | Definite (n : N).
(** bsn1/src/length.rs:46-48 *)
Definition LEN_LONG_FLAG : N := 0x80.
Definition LEN_MAX_SHORT : N := LEN_LONG_FLAG - 1.
Definition LEN_INDEFINITE : N := 0x80.

(** The [for i in 2..] loop of parse_id, bsn1/src/identifier_ref.rs:716-724. *)
Fixpoint parse_id_loop {S} (R : reader S) (fuel : nat) (i octet : N) : parser S N :=
  match fuel with
  | O => fun st => (NoFuel, st)
  | Datatypes.S fuel' =>
      write_u8 octet ;;;
      if negb (N.land octet MORE_FLAG =? MORE_FLAG) then pret i
      else o <- read_u8 R ;; parse_id_loop R fuel' (i + 1) o
  end.

(** bsn1/src/identifier_ref.rs:690-727, parse_id.  The counter is not wrapped at
    2^64 (it counts octets that were actually read). *)
Definition parse_id {S} (R : reader S) (fuel : nat) : parser S N :=
  first <- read_u8 R ;;
  write_u8 first ;;;
  if negb (N.land first ID_LONG_FLAG =? ID_LONG_FLAG) then pret 1
  else
    octet <- read_u8 R ;;
    if octet <=? ID_MAX_SHORT then pfail RedundantBytes
    else if octet =? MORE_FLAG then pfail RedundantBytes
    else parse_id_loop R fuel 2 octet.

(** The [for _ in 1..followings_count] loop, bsn1/src/length.rs:287-291.
    [<<] drops bits above 64. *)
Fixpoint parse_length_loop {S} (R : reader S) (k : nat) (len : N) : parser S Length :=
  match k with
  | O => pret (Definite len)
  | Datatypes.S k' =>
      byte <- read_u8 R ;;
      write_u8 byte ;;;
      parse_length_loop R k' (N.shiftl len 8 mod usize_limit + byte)
  end.

(** bsn1/src/length.rs:252-295, parse_length.  size_of::<usize>() = 8. *)
Definition parse_length {S} (R : reader S) : parser S Length :=
  first <- read_u8 R ;;
  write_u8 first ;;;
  if first =? LEN_INDEFINITE then pret Indefinite
  else if negb (N.land first LEN_LONG_FLAG =? LEN_LONG_FLAG) then pret (Definite first)
  else
    second <- read_u8 R ;;
    if second =? 0 then pfail RedundantBytes
    else
      write_u8 second ;;;
      let followings_count := N.lxor first LEN_LONG_FLAG in
      if (followings_count =? 1) && (second <=? LEN_MAX_SHORT) then pfail RedundantBytes
      else if 8 <? followings_count then pfail OverFlow
      else parse_length_loop R (N.to_nat (followings_count - 1)) second.

(** bsn1/src/misc.rs:59-66, parse_id_length *)
Definition parse_id_length {S} (R : reader S) (fuel : nat) : parser S Length :=
  parse_id R fuel ;;; parse_length R.

(** Enough fuel for a slice. *)
Definition slice_fuel (bs : list N) : nat := Datatypes.S (length bs).

(** Length::parse (bsn1/src/length.rs:73-79) on a slice: outcome, and the
    caller's slice afterwards (the slice itself is the reader). *)
Definition Length_parse_slice (bs : list N) : res Length * list N :=
  let (r, st) := parse_length slice_reader (bs, []) in (r, fst st).

(** Length::parse on any reader. *)
Definition Length_parse {S} (R : reader S) (s : S) : res Length * S :=
  let (r, st) := parse_length R (s, []) in (r, fst st).

(** Number of octets needed: (bit_len + 7) / 8 with
    bit_len = 64 - leading_zeros; bsn1/src/length.rs:106-109, 155-157. *)
Definition byte_len (n : N) : N := (N.size n + 7) / 8.

(** The [k] least significant octets of [n], big endian: the tail of
    [n.to_be()]'s memory; bsn1/src/length.rs:115-121. *)
Fixpoint be_tail (k : nat) (n : N) : list N :=
  match k with
  | O => []
  | Datatypes.S k' => be_tail k' (n / 256) ++ [n mod 256]
  end.

(** bsn1/src/length.rs:94-128, Length::to_bytes.  [flag] is computed in u8. *)
Definition Length_to_bytes (l : Length) : list N :=
  match l with
  | Indefinite => [LEN_INDEFINITE]
  | Definite val =>
      if val <=? LEN_MAX_SHORT then [as_u8 val]
      else as_u8 (LEN_LONG_FLAG + byte_len val) :: be_tail (N.to_nat (byte_len val)) val
  end.

(** bsn1/src/length.rs:147-164, Length::len *)
Definition Length_len (l : Length) : N :=
  match l with
  | Indefinite => 1
  | Definite val => if val <=? LEN_MAX_SHORT then 1 else byte_len val + 1
  end.

(** bsn1/src/length.rs:182-227 *)
Definition Length_definite (l : Length) : option N :=
  match l with Indefinite => None | Definite n => Some n end.
Definition Length_is_indefinite (l : Length) : bool :=
  match l with Indefinite => true | _ => false end.
Definition Length_is_definite (l : Length) : bool :=
  match l with Indefinite => false | _ => true end.

Definition option_N_eqb (a b : option N) : bool :=
  match a, b with
  | None, None => true
  | Some x, Some y => x =? y
  | _, _ => false
  end.
(** bsn1/src/length.rs:230-234, PartialEq for Length *)
Definition Length_eqb (a b : Length) : bool :=
  Length_is_definite a && option_N_eqb (Length_definite a) (Length_definite b).
(** bsn1/src/length.rs:236-243, PartialOrd for Length *)
Definition Length_partial_cmp (a b : Length) : option comparison :=
  match Length_definite a with
  | None => None
  | Some x => match Length_definite b with None => None | Some y => Some (x ?= y) end
  end.

(** bsn1/src/length.rs:305-326, parse_length_unchecked: value and the rest of the
    slice; out-of-range indexing panics. *)
Definition parse_length_unchecked (bs : list N) : res (Length * list N) :=
  match bs with
  | [] => Panic
  | first :: bs1 =>
      if first =? LEN_INDEFINITE then Ok (Indefinite, bs1)
      else if negb (N.land first LEN_LONG_FLAG =? LEN_LONG_FLAG) then Ok (Definite first, bs1)
      else
        let k := N.land first (not_u8 LEN_LONG_FLAG) in
        if nlen bs1 <? k then Panic
        else
          Ok (Definite (fold_left (fun acc b => N.shiftl acc 8 mod usize_limit + b) (take k bs1) 0),
              drop k bs1)
  end.

(** ** Identifiers *)

(** bsn1/src/identifier_ref.rs:79-89, IdRef::parse: outcome and the caller's
    slice afterwards.  [len] octets of the original slice are returned. *)
Definition IdRef_parse (bs : list N) : res (list N) * list N :=
  match parse_id slice_reader (slice_fuel bs) (bs, []) with
  | (Ok len, (readable, _)) =>
      if nlen bs <? len then (Panic, bs) else (Ok (take len bs), readable)
  | (Err e, _) => (Err e, bs)
  | (Panic, _) => (Panic, bs)
  | (NoFuel, _) => (NoFuel, bs)
  end.

(** bsn1/src/identifier_ref.rs:132-146, IdRef::parse_mut: same result, the
    remainder is computed by pointer arithmetic. *)
Definition IdRef_parse_mut (bs : list N) : res (list N) * list N :=
  match parse_id slice_reader (slice_fuel bs) (bs, []) with
  | (Ok read_bytes, _) =>
      if nlen bs <? read_bytes then (Panic, bs)
      else (Ok (take read_bytes bs), drop read_bytes bs)
  | (Err e, _) => (Err e, bs)
  | (Panic, _) => (Panic, bs)
  | (NoFuel, _) => (NoFuel, bs)
  end.

(** bsn1/src/identifier.rs:134-141, Id::parse on any reader: the buffer written
    by parse_id, and the reader's state. *)
Definition Id_parse {S} (R : reader S) (fuel : nat) (s : S) : res (list N) * S :=
  match parse_id R fuel (s, []) with
  | (Ok _, (s', w)) => (Ok w, s')
  | (Err e, (s', _)) => (Err e, s')
  | (Panic, (s', _)) => (Panic, s')
  | (NoFuel, (s', _)) => (NoFuel, s')
  end.

(** The search loop of parse_id_unchecked, bsn1/src/identifier_ref.rs:742-748:
    number of octets up to and including the first one without MORE_FLAG. *)
Fixpoint id_scan (bs : list N) (i : N) : res N :=
  match bs with
  | [] => Panic
  | b :: bs' => if negb (N.land b MORE_FLAG =? MORE_FLAG) then Ok i else id_scan bs' (i + 1)
  end.
(** bsn1/src/identifier_ref.rs:736-752, parse_id_unchecked: identifier octets and
    the rest. *)
Definition parse_id_unchecked (bs : list N) : res (list N * list N) :=
  match bs with
  | [] => Panic
  | b0 :: bs1 =>
      if negb (N.land b0 ID_LONG_FLAG =? ID_LONG_FLAG) then Ok ([b0], bs1)
      else
        let! i := id_scan bs1 1 in
        Ok (take (i + 1) bs, drop (i + 1) bs)
  end.

(** bsn1/src/identifier_ref.rs:460-511 *)
Definition id_class_is (c : class_tag) (id : list N) : res bool :=
  match id with
  | [] => Panic
  | first :: _ => Ok (N.land first CLASS_MASK =? class_u8 c)
  end.
(** bsn1/src/identifier_ref.rs:437-447, IdRef::class *)
Definition IdRef_class (id : list N) : res class_tag :=
  let! u := id_class_is Universal id in
  if (u : bool) then Ok Universal else
  let! a := id_class_is Application id in
  if (a : bool) then Ok Application else
  let! c := id_class_is ContextSpecific id in
  if (c : bool) then Ok ContextSpecific else Ok Private.
(** bsn1/src/identifier_ref.rs:527-565, IdRef::pc, is_primitive, is_constructed *)
Definition IdRef_is_pc (p : pc_tag) (id : list N) : res bool :=
  match id with
  | [] => Panic
  | first :: _ => Ok (N.land first PC_MASK =? pc_u8 p)
  end.
Definition IdRef_pc (id : list N) : res pc_tag :=
  let! p := IdRef_is_pc Primitive id in
  if (p : bool) then Ok Primitive else Ok Constructed.

(** The loop of IdRef::number, bsn1/src/identifier_ref.rs:590-595.  The addition
    panics on overflow (debug) — represented. *)
Fixpoint number_loop (octets : list N) (ret : N) : res N :=
  match octets with
  | [] => Ok ret
  | o :: octets' =>
      if u128_limit <=? ret * 128 then Err OverFlow
      else
        let ret' := ret * 128 + N.land o (not_u8 MORE_FLAG) in
        if u128_limit <=? ret' then Panic else number_loop octets' ret'
  end.
(** bsn1/src/identifier_ref.rs:579-599, IdRef::number, with the debug assertion. *)
Definition IdRef_number (id : list N) : res N :=
  match id with
  | [] => Panic
  | [b0] => Ok (N.land b0 ID_LONG_FLAG)
  | b0 :: rest =>
      if negb (N.land b0 ID_LONG_FLAG =? ID_LONG_FLAG) then Panic
      else number_loop rest 0
  end.

(** bsn1/src/identifier_ref.rs:617-622, set_class *)
Definition IdRef_set_class (c : class_tag) (id : list N) : res (list N) :=
  match id with
  | [] => Panic
  | b0 :: rest => Ok (N.lor (N.land b0 (not_u8 CLASS_MASK)) (class_u8 c) :: rest)
  end.
(** bsn1/src/identifier_ref.rs:642-648, set_pc *)
Definition IdRef_set_pc (p : pc_tag) (id : list N) : res (list N) :=
  match id with
  | [] => Panic
  | b0 :: rest => Ok (N.lor (N.land b0 (not_u8 PC_MASK)) (pc_u8 p) :: rest)
  end.

(** [for i in (1..len).rev() { buffer[i] = num as u8 | MORE_FLAG; num >>= 7 }]:
    bsn1/src/identifier.rs:79-84 and 206-211.  Returns the octets at 1.. and
    what is left of [num]. *)
Fixpoint id_fill (k : nat) (num : N) (acc : list N) : list N * N :=
  match k with
  | O => (acc, num)
  | Datatypes.S k' => id_fill k' (N.shiftr num 7) (N.lor (as_u8 num) MORE_FLAG :: acc)
  end.
(** Applying [f] to the last octet, [buffer[len - 1] op= ..]; [None] if empty. *)
Fixpoint map_last (f : N -> N) (l : list N) : option (list N) :=
  match l with
  | [] => None
  | [x] => Some [f x]
  | x :: l' => match map_last f l' with Some r => Some (x :: r) | None => None end
  end.
(** (number_bits_len + 6) / 7, bsn1/src/identifier.rs:66-71; bits = 128 - leading_zeros. *)
Definition number_bytes_len (n : N) : N := (N.size n + 6) / 7.

(** [class as u8 + pc as u8 + number as u8] in u8: panics on overflow. *)
Definition u8_add3 (a b c : N) : res N :=
  if a + b + c <? 256 then Ok (a + b + c) else Panic.

(** bsn1/src/identifier.rs:56-89, Id::new *)
Definition Id_new (c : class_tag) (p : pc_tag) (number : N) : res (list N) :=
  if number <=? ID_MAX_SHORT then
    let! o := u8_add3 (class_u8 c) (pc_u8 p) (as_u8 number) in Ok [o]
  else
    let! long_flag := u8_add3 (class_u8 c) (pc_u8 p) ID_LONG_FLAG in
    let octets := fst (id_fill (N.to_nat (number_bytes_len number)) number []) in
    match map_last (fun o => N.lxor o MORE_FLAG) (long_flag :: octets) with
    | Some bs => Ok bs
    | None => Panic
    end.

(** bsn1/src/identifier.rs:183-217, Id::set_number, with its debug assertion. *)
Definition Id_set_number (num : N) (id : list N) : res (list N) :=
  let! c := IdRef_class id in
  let! p := IdRef_pc id in
  if num <=? ID_MAX_SHORT then
    let! o := u8_add3 (class_u8 c) (pc_u8 p) (as_u8 num) in Ok [o]
  else
    let! long_flag := u8_add3 (class_u8 c) (pc_u8 p) ID_LONG_FLAG in
    let (octets, n) := id_fill (N.to_nat (number_bytes_len num)) num [] in
    if negb (n =? 0) then Panic else
    match map_last (fun o => N.land o (not_u8 MORE_FLAG)) (long_flag :: octets) with
    | Some bs => Ok bs
    | None => Panic
    end.

(** Identifier constants, bsn1/src/identifier_ref.rs:225-406 *)
Definition ID_EOC : list N := [0x00].
Definition ID_BOOLEAN : list N := [0x01].
Definition ID_INTEGER : list N := [0x02].
Definition ID_OCTET_STRING : list N := [0x04].
Definition ID_OCTET_STRING_CONSTRUCTED : list N := [0x24].
Definition ID_NULL : list N := [0x05].
Definition ID_REAL : list N := [0x09].
Definition ID_UTF8_STRING : list N := [0x0c].
Definition ID_UTF8_STRING_CONSTRUCTED : list N := [0x2c].
Definition ID_SEQUENCE : list N := [0x30].
Definition ID_SET : list N := [0x31].
