(** TLVs: bsn1/src/{der_ref,ber_ref,der,ber}.rs *)
From Verif Require Import Base ModelIo ModelTag ModelContents ModelBuf.

(** ** References to octets *)
(** bsn1/src/der_ref.rs:167-181, DerRef::do_parse: outcome and the slice variable
    afterwards. *)
Definition DerRef_do_parse (bs : list N) : res unit * list N :=
  match parse_id_length slice_reader (slice_fuel bs) (bs, []) with
  | (Ok Indefinite, (readable, _)) => (Err IndefiniteLength, readable)
  | (Ok (Definite length), (readable, _)) =>
      if nlen readable <? length then (Err UnterminatedBytes, readable)
      else (Ok tt, drop length readable)
  | (Err e, (readable, _)) => (Err e, readable)
  | (Panic, (readable, _)) => (Panic, readable)
  | (NoFuel, (readable, _)) => (NoFuel, readable)
  end.
(** bsn1/src/der_ref.rs:93-100, DerRef::parse: outcome (the octets of the
    reference) and the caller's slice afterwards; do_parse advances the caller's
    variable itself. *)
Definition DerRef_parse (bs : list N) : res (list N) * list N :=
  match DerRef_do_parse bs with
  | (Ok _, rest) => (Ok (take (nlen bs - nlen rest) bs), rest)
  | (Err e, rest) => (Err e, rest)
  | (Panic, rest) => (Panic, rest)
  | (NoFuel, rest) => (NoFuel, rest)
  end.
(** bsn1/src/der_ref.rs:149-165, DerRef::parse_mut: do_parse works on a copy of the
    variable. *)
Definition DerRef_parse_mut (bs : list N) : res (list N) * list N :=
  match DerRef_do_parse bs with
  | (Ok _, readable) =>
      let read_bytes := nlen bs - nlen readable in (Ok (take read_bytes bs), drop read_bytes bs)
  | (Err e, _) => (Err e, bs)
  | (Panic, _) => (Panic, bs)
  | (NoFuel, _) => (NoFuel, bs)
  end.

(** bsn1/src/ber_ref.rs:42-45 *)
Definition EOC : list N := [0x00; 0x00].

(** bsn1/src/ber_ref.rs:162-182, BerRef::do_parse: change of the nesting depth. *)
Definition BerRef_do_parse (bs : list N) : res Z * list N :=
  if starts_with bs EOC then (Ok (-1)%Z, drop (nlen EOC) bs)
  else
    match parse_id_length slice_reader (slice_fuel bs) (bs, []) with
    | (Ok (Definite contents_len), (readable, _)) =>
        if nlen readable <? contents_len then (Err UnterminatedBytes, readable)
        else (Ok 0%Z, drop contents_len readable)
    | (Ok Indefinite, (readable, _)) => (Ok 1%Z, readable)
    | (Err e, (readable, _)) => (Err e, readable)
    | (Panic, (readable, _)) => (Panic, readable)
    | (NoFuel, (readable, _)) => (NoFuel, readable)
    end.
(** The loop, bsn1/src/ber_ref.rs:92-95 and 144-147.  [stack_depth] is an isize that
    grows by at most 1 per octet pair consumed, so it cannot overflow. *)
Fixpoint BerRef_loop (fuel : nat) (stack_depth : Z) (bs : list N) : res unit * list N :=
  match fuel with
  | O => (NoFuel, bs)
  | S fuel' =>
      match BerRef_do_parse bs with
      | (Ok d, rest) =>
          let stack_depth' := (stack_depth + d)%Z in
          if (0 <? stack_depth')%Z then BerRef_loop fuel' stack_depth' rest else (Ok tt, rest)
      | (Err e, rest) => (Err e, rest)
      | (Panic, rest) => (Panic, rest)
      | (NoFuel, rest) => (NoFuel, rest)
      end
  end.
(** bsn1/src/ber_ref.rs:88-99, BerRef::parse *)
Definition BerRef_parse (bs : list N) : res (list N) * list N :=
  match BerRef_loop (slice_fuel bs) 0 bs with
  | (Ok _, rest) => (Ok (take (nlen bs - nlen rest) bs), rest)
  | (Err e, rest) => (Err e, rest)
  | (Panic, rest) => (Panic, rest)
  | (NoFuel, rest) => (NoFuel, rest)
  end.
(** bsn1/src/ber_ref.rs:139-160, BerRef::parse_mut *)
Definition BerRef_parse_mut (bs : list N) : res (list N) * list N :=
  match BerRef_loop (slice_fuel bs) 0 bs with
  | (Ok _, readable) =>
      let read_bytes := nlen bs - nlen readable in (Ok (take read_bytes bs), drop read_bytes bs)
  | (Err e, _) => (Err e, bs)
  | (Panic, _) => (Panic, bs)
  | (NoFuel, _) => (NoFuel, bs)
  end.

(** bsn1/src/der_ref.rs:353-361 and ber_ref.rs:354-362, disassemble (the same code
    for both types): identifier octets, length, contents octets. *)
Definition disassemble (bs : list N) : res (list N * Length * list N) :=
  let! (id, bs1) := parse_id_unchecked bs in
  let! (length, contents) := parse_length_unchecked bs1 in
  Ok (id, length, contents).
(** der_ref.rs:252-254, ber_ref.rs:252-254 *)
Definition tlv_id (bs : list N) : res (list N) := let! (id, _) := parse_id_unchecked bs in Ok id.
(** der_ref.rs:298-300, ber_ref.rs:298-300 *)
Definition tlv_length (bs : list N) : res Length := let! (p, _) := disassemble bs in Ok (snd p).
(** der_ref.rs:314-316, ber_ref.rs:314-316 *)
Definition tlv_contents (bs : list N) : res (list N) := let! (_, c) := disassemble bs in Ok c.

(** disassemble_mut / mut_contents, der_ref.rs:333-335, 382-391 and ber_ref.rs:334-336,
    383-392: the contents are a window on the octets; here: overwrite the window with
    [f] of it.  A window has a fixed size, so a result of another size cannot be
    written (Panic). *)
Definition edit_contents (f : list N -> list N) (bs : list N) : res (list N) :=
  let! c := tlv_contents bs in
  let c' := f c in
  if nlen c' =? nlen c then mem_write (nlen bs - nlen c) c' bs else Panic.
(** mut_id, der_ref.rs:274-276, ber_ref.rs:276-278 *)
Definition edit_id (f : list N -> res (list N)) (bs : list N) : res (list N) :=
  let! id := tlv_id bs in
  let! id' := f id in
  if nlen id' =? nlen id then mem_write 0 id' bs else Panic.

(** ** Owned values *)
(** [x + y] on usize: overflow panics (dev profile). *)
Definition add_usize (x y : N) : res N := if x + y <? usize_limit then Ok (x + y) else Panic.

(** bsn1/src/der.rs:102-119 and ber.rs:234-249, (with_id_length and
    with_id_length_indefinite are the same code with another [length_]). *)
Definition with_header (cfg : bufcfg) (id : list N) (length_ : list N) (length : N) : res buf :=
  let! t := add_usize (nlen id) (nlen length_) in
  let! total_len := add_usize t length in
  let! b0 := bf_with_capacity cfg total_len in
  let! b1 := bf_write 0 id b0 in
  let! b2 := bf_write (nlen id) length_ b1 in
  bf_set_len total_len b2.
Definition Der_with_id_length (cfg : bufcfg) (id : list N) (length : N) : res buf :=
  with_header cfg id (Length_to_bytes (Definite length)) length.
(** [mut_contents().as_mut().copy_from_slice(contents)]: panics if the sizes differ. *)
Definition buf_set_contents (contents : list N) (b : buf) : res buf :=
  let bs := bf_slice b in
  let! c := tlv_contents bs in
  if nlen c =? nlen contents then bf_write (nlen bs - nlen c) contents b else Panic.
(** bsn1/src/der.rs:59-67 *)
Definition Der_new (cfg : bufcfg) (id contents : list N) : res buf :=
  let! b := Der_with_id_length cfg id (nlen contents) in buf_set_contents contents b.

(** [fold(0, |acc, item| acc + item.as_ref().len())], der.rs:296-298 *)
Fixpoint total_length (acc : N) (items : list (list N)) : res N :=
  match items with
  | [] => Ok acc
  | i :: items' => let! acc' := add_usize acc (nlen i) in total_length acc' items'
  end.
(** [contents.for_each(|c| buffer.extend_from_slice(c.as_ref()))] *)
Fixpoint extend_all (items : list (list N)) (b : buf) : res buf :=
  match items with
  | [] => Ok b
  | i :: items' => let! b' := bf_extend i b in extend_all items' b'
  end.
(** bsn1/src/der.rs:291-310 and ber.rs:470-489.  The iterator is the list of its
    items; ModelTlvRaw.v has the [Clone] that yields other items than the original. *)
Definition from_iterator (cfg : bufcfg) (id : list N) (length_bytes : N -> list N) (items : list (list N)) : res buf :=
  let! length := total_length 0 items in
  let! t := add_usize (nlen id) (nlen (length_bytes length)) in
  let! total_len := add_usize t length in
  let! b := bf_with_capacity cfg total_len in
  let! b := bf_extend id b in
  let! b := bf_extend (length_bytes length) b in
  extend_all items b.
Definition Der_from_id_iterator (cfg : bufcfg) (id : list N) (items : list (list N)) : res buf :=
  from_iterator cfg id (fun n => Length_to_bytes (Definite n)) items.

(** [Option::unwrap] *)
Definition unwrap {A} (o : option A) : res A := match o with Some a => Ok a | None => Panic end.
(** [x - y] on usize: underflow panics. *)
Definition sub_usize (x y : N) : res N := if x <? y then Panic else Ok (x - y).

(** bsn1/src/der.rs:375-429, with the debug assertion. *)
Definition Der_extend (cfg : bufcfg) (bytes : list N) (b : buf) : res buf :=
  let! id := tlv_id (bf_slice b) in
  let id_len := nlen id in
  let! old_length := tlv_length (bf_slice b) in
  let! old_n := unwrap (Length_definite old_length) in
  let! new_n := add_usize old_n (nlen bytes) in
  let new_length := Definite new_n in
  let! off0 := add_usize (nlen bytes) (Length_len new_length) in
  let! offset := sub_usize off0 (Length_len old_length) in
  let! b := bf_reserve cfg offset b in
  let! b := bf_set_len (b_len b + offset) b in
  let dest := id_len + Length_len new_length in
  let src := id_len + Length_len old_length in
  let! b := (if src =? dest then Ok b else bf_move src dest old_n b) in
  let dest := dest + old_n in
  let! b := bf_write dest bytes b in
  let dest := dest + nlen bytes in
  if negb (dest =? b_len b) then Panic
  else bf_write id_len (Length_to_bytes new_length) b.
(** bsn1/src/der.rs:349-351 *)
Definition Der_push (cfg : bufcfg) (byte : N) (b : buf) : res buf := Der_extend cfg [byte] b.

(** bsn1/src/der.rs:463-492 *)
Definition Der_truncate (new_length : N) (b : buf) : res buf :=
  let! id := tlv_id (bf_slice b) in
  let id_len := nlen id in
  let! l := tlv_length (bf_slice b) in
  let! old_length := unwrap (Length_definite l) in
  if old_length <=? new_length then Ok b
  else
    let old_length_ := Length_to_bytes (Definite old_length) in
    let new_length_ := Length_to_bytes (Definite new_length) in
    let! b := bf_write id_len new_length_ b in
    let! b := (if nlen new_length_ <? nlen old_length_
               then bf_move (id_len + nlen old_length_) (id_len + nlen new_length_) new_length b
               else Ok b) in
    bf_set_len (id_len + nlen new_length_ + new_length) b.

(** bsn1/src/ber.rs:76-78, 182-184, 430-437: through Der. *)
Definition Ber_new := Der_new.
Definition Ber_with_id_length := Der_with_id_length.
Definition Ber_from_id_iterator := Der_from_id_iterator.
(** bsn1/src/ber.rs:234-249 *)
Definition Ber_with_id_length_indefinite (cfg : bufcfg) (id : list N) (length : N) : res buf :=
  with_header cfg id (Length_to_bytes Indefinite) length.
(** bsn1/src/ber.rs:141-148 *)
Definition Ber_new_indefinite (cfg : bufcfg) (id contents : list N) : res buf :=
  let! b := Ber_with_id_length_indefinite cfg id (nlen contents) in buf_set_contents contents b.
(** bsn1/src/ber.rs:470-489 *)
Definition Ber_from_id_iterator_indefinite (cfg : bufcfg) (id : list N) (items : list (list N)) : res buf :=
  from_iterator cfg id (fun _ => Length_to_bytes Indefinite) items.
(** bsn1/src/ber.rs:601-623 *)
Definition Ber_extend (cfg : bufcfg) (bytes : list N) (b : buf) : res buf :=
  let! l := tlv_length (bf_slice b) in
  match l with
  | Definite _ => Der_extend cfg bytes b
  | Indefinite =>
      let! b := bf_reserve cfg (nlen bytes) b in
      let! b := bf_write (b_len b) bytes b in
      bf_set_len (b_len b + nlen bytes) b
  end.
(** bsn1/src/ber.rs:561-563 *)
Definition Ber_push (cfg : bufcfg) (byte : N) (b : buf) : res buf := Ber_extend cfg [byte] b.
(** bsn1/src/ber.rs:668-684 *)
Definition Ber_truncate (new_length : N) (b : buf) : res buf :=
  let! l := tlv_length (bf_slice b) in
  match l with
  | Definite _ => Der_truncate new_length b
  | Indefinite =>
      let! c := tlv_contents (bf_slice b) in
      let old_length := nlen c in
      if old_length <=? new_length then Ok b
      else
        let! t := add_usize (b_len b) new_length in
        let! new_total_len := sub_usize t old_length in
        bf_set_len new_total_len b
  end.

(** bsn1/src/der.rs:508-513 *)
Definition Der_from_bool (cfg : bufcfg) (v : bool) : res buf := Der_new cfg ID_BOOLEAN (Contents_from_bool v).
(** bsn1/src/der.rs:515-597 *)
Definition Der_from_int (cfg : bufcfg) (t : int_ty) (v : Z) : res buf :=
  let! c := Contents_from_int t v in Der_new cfg ID_INTEGER c.
(** bsn1/src/der.rs:599-607, [utf8] are the octets of the string. *)
Definition Der_from_str (cfg : bufcfg) (utf8 : list N) : res buf := Der_new cfg ID_UTF8_STRING utf8.
(** bsn1/src/der.rs:609-613 *)
Definition Der_from_bytes (cfg : bufcfg) (bs : list N) : res buf := Der_new cfg ID_OCTET_STRING bs.
(** bsn1/src/der_ref.rs:44-49 *)
Definition DerRef_boolean (v : bool) : list N := if v then [0x01; 0x01; 0xff] else [0x01; 0x01; 0x00].

(** ** Streaming parsers *)
(** bsn1/src/der.rs:169-198, Der::parse.  The octets collected in [writeable] are the
    second component of the parser state.  Reserving above isize::MAX and the overflow
    of the sum panic.  One [read] call for the contents. *)
Definition Der_parse {S} (R : reader S) (fuel : nat) (s : S) : res (list N) * S :=
  match parse_id_length R fuel (s, []) with
  | (Ok Indefinite, (s', _)) => (Err IndefiniteLength, s')
  | (Ok (Definite contents_length), (s', w)) =>
      if isize_max <? nlen w + contents_length then (Panic, s')
      else
        match rd_read R s' contents_length with
        | (IoErr k, s'') => (Err (Io k), s'')
        | (IoOk bs, s'') =>
            if contents_length <? nlen bs then (Panic, s'')
            else if nlen bs <? contents_length then (Err UnterminatedBytes, s'')
            else (Ok (w ++ bs), s'')
        end
  | (Err e, (s', _)) => (Err e, s')
  | (Panic, (s', _)) => (Panic, s')
  | (NoFuel, (s', _)) => (NoFuel, s')
  end.

(** bsn1/src/ber.rs:318-342, Ber::do_parse *)
Definition Ber_do_parse {S} (R : reader S) (fuel : nat) : parser S Z := fun st =>
  let init_len := nlen (snd st) in
  (l <- parse_id_length R fuel ;;
   match l with
   | Definite length =>
       fun st1 =>
         if isize_max <? nlen (snd st1) + length then (Panic, st1)
         else
           (read_exact R fuel length ;;;
            fun st2 =>
              let read := drop init_len (snd st2) in
              (Ok (if bytes_eqb read EOC then (-1)%Z else 0%Z), st2)) st1
   | Indefinite => pret 1%Z
   end) st.
(** bsn1/src/ber.rs:303-316, Ber::parse *)
Fixpoint Ber_loop {S} (R : reader S) (ifuel fuel : nat) (stack_depth : Z) : parser S unit := fun st =>
  match fuel with
  | O => (NoFuel, st)
  | Datatypes.S fuel' =>
      (d <- Ber_do_parse R ifuel ;;
       let stack_depth' := (stack_depth + d)%Z in
       if (0 <? stack_depth')%Z then Ber_loop R ifuel fuel' stack_depth' else pret tt) st
  end.
Definition Ber_parse {S} (R : reader S) (fuel : nat) (s : S) : res (list N) * S :=
  match Ber_loop R fuel fuel 0 (s, []) with
  | (Ok _, (s', w)) => (Ok w, s')
  | (Err e, (s', _)) => (Err e, s')
  | (Panic, (s', _)) => (Panic, s')
  | (NoFuel, (s', _)) => (NoFuel, s')
  end.
