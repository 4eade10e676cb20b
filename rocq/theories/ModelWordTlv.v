(** Der, Ber and the references on a machine whose usize has [w] octets: the definitions of ModelTlv.v, same
    lines, with the functions of ModelWord.v and sums that overflow at 2^(8w).  With [w = 8] these are the
    definitions of ModelTlv.v (WordTlvProofs.v: [eight_*]). *)
From Verif Require Import Base ModelIo ModelTag ModelContents ModelBuf ModelTlv ModelWord.

Section WORD.
Context (w : N).

(** misc.rs:59-66 *)
Definition w_parse_id_length {S} (R : reader S) (fuel : nat) : parser S Length :=
  parse_id R fuel ;;; w_parse_length w R.
(** der_ref.rs:167-181 *)
Definition w_DerRef_do_parse (bs : list N) : res unit * list N :=
  match w_parse_id_length slice_reader (slice_fuel bs) (bs, []) with
  | (Ok Indefinite, (readable, _)) => (Err IndefiniteLength, readable)
  | (Ok (Definite length), (readable, _)) =>
      if nlen readable <? length then (Err UnterminatedBytes, readable)
      else (Ok tt, drop length readable)
  | (Err e, (readable, _)) => (Err e, readable)
  | (Panic, (readable, _)) => (Panic, readable)
  | (NoFuel, (readable, _)) => (NoFuel, readable)
  end.
(** der_ref.rs:93-100 *)
Definition w_DerRef_parse (bs : list N) : res (list N) * list N :=
  match w_DerRef_do_parse bs with
  | (Ok _, rest) => (Ok (take (nlen bs - nlen rest) bs), rest)
  | (Err e, rest) => (Err e, rest)
  | (Panic, rest) => (Panic, rest)
  | (NoFuel, rest) => (NoFuel, rest)
  end.
(** der_ref.rs:149-165 *)
Definition w_DerRef_parse_mut (bs : list N) : res (list N) * list N :=
  match w_DerRef_do_parse bs with
  | (Ok _, readable) =>
      let read_bytes := nlen bs - nlen readable in (Ok (take read_bytes bs), drop read_bytes bs)
  | (Err e, _) => (Err e, bs)
  | (Panic, _) => (Panic, bs)
  | (NoFuel, _) => (NoFuel, bs)
  end.
(** ber_ref.rs:162-182 *)
Definition w_BerRef_do_parse (bs : list N) : res Z * list N :=
  if starts_with bs EOC then (Ok (-1)%Z, drop (nlen EOC) bs)
  else
    match w_parse_id_length slice_reader (slice_fuel bs) (bs, []) with
    | (Ok (Definite contents_len), (readable, _)) =>
        if nlen readable <? contents_len then (Err UnterminatedBytes, readable)
        else (Ok 0%Z, drop contents_len readable)
    | (Ok Indefinite, (readable, _)) => (Ok 1%Z, readable)
    | (Err e, (readable, _)) => (Err e, readable)
    | (Panic, (readable, _)) => (Panic, readable)
    | (NoFuel, (readable, _)) => (NoFuel, readable)
    end.
(** ber_ref.rs:92-95, 144-147 *)
Fixpoint w_BerRef_loop (fuel : nat) (stack_depth : Z) (bs : list N) : res unit * list N :=
  match fuel with
  | O => (NoFuel, bs)
  | S fuel' =>
      match w_BerRef_do_parse bs with
      | (Ok d, rest) =>
          let stack_depth' := (stack_depth + d)%Z in
          if (0 <? stack_depth')%Z then w_BerRef_loop fuel' stack_depth' rest else (Ok tt, rest)
      | (Err e, rest) => (Err e, rest)
      | (Panic, rest) => (Panic, rest)
      | (NoFuel, rest) => (NoFuel, rest)
      end
  end.
(** ber_ref.rs:88-99 *)
Definition w_BerRef_parse (bs : list N) : res (list N) * list N :=
  match w_BerRef_loop (slice_fuel bs) 0 bs with
  | (Ok _, rest) => (Ok (take (nlen bs - nlen rest) bs), rest)
  | (Err e, rest) => (Err e, rest)
  | (Panic, rest) => (Panic, rest)
  | (NoFuel, rest) => (NoFuel, rest)
  end.
(** ber_ref.rs:139-160 *)
Definition w_BerRef_parse_mut (bs : list N) : res (list N) * list N :=
  match w_BerRef_loop (slice_fuel bs) 0 bs with
  | (Ok _, readable) =>
      let read_bytes := nlen bs - nlen readable in (Ok (take read_bytes bs), drop read_bytes bs)
  | (Err e, _) => (Err e, bs)
  | (Panic, _) => (Panic, bs)
  | (NoFuel, _) => (NoFuel, bs)
  end.
(** der_ref.rs:353-361, ber_ref.rs:354-362 *)
Definition w_disassemble (bs : list N) : res (list N * Length * list N) :=
  let! (id, bs1) := parse_id_unchecked bs in
  let! (length, contents) := w_parse_length_unchecked w bs1 in
  Ok (id, length, contents).
(** der_ref.rs:298-300, ber_ref.rs:298-300 *)
Definition w_tlv_length (bs : list N) : res Length := let! (p, _) := w_disassemble bs in Ok (snd p).
(** der_ref.rs:314-316, ber_ref.rs:314-316 *)
Definition w_tlv_contents (bs : list N) : res (list N) := let! (_, c) := w_disassemble bs in Ok c.

(** [x + y] on usize *)
Definition w_add_usize (x y : N) : res N := if x + y <? word_limit w then Ok (x + y) else Panic.
(** buffer/mod.rs:98-100: as [bf_reserve], with isize::MAX of this machine. *)
Definition w_bf_reserve (cfg : bufcfg) (additional : N) (b : buf) : res buf :=
  let new_cap := b_len b + additional in
  if new_cap <=? bf_cap b then Ok b
  else if word_max w <? new_cap then Panic
  else
    let kept := if b_heap b then b_mem b else take (b_len b) (b_mem b) in
    Ok {| b_mem := kept ++ fresh cfg (new_cap - nlen kept); b_len := b_len b; b_heap := true |}.
(** buffer/mod.rs:68-70 *)
Definition w_bf_with_capacity (cfg : bufcfg) (cap : N) : res buf := w_bf_reserve cfg cap (bf_new cfg).
(** buffer/mod.rs:43-49; little_endian/mod.rs:50-56, universal_endian/mod.rs:150-156 *)
Definition w_bf_clone (cfg : bufcfg) (b : buf) : res buf :=
  let! b' := w_bf_with_capacity cfg (b_len b) in bf_extend (bf_slice b) b'.
(** der.rs:102-119, ber.rs:234-249 *)
Definition w_with_header (cfg : bufcfg) (id : list N) (length_ : list N) (length : N) : res buf :=
  let! t := w_add_usize (nlen id) (nlen length_) in
  let! total_len := w_add_usize t length in
  let! b0 := w_bf_with_capacity cfg total_len in
  let! b1 := bf_write 0 id b0 in
  let! b2 := bf_write (nlen id) length_ b1 in
  bf_set_len total_len b2.
Definition w_Der_with_id_length (cfg : bufcfg) (id : list N) (length : N) : res buf :=
  let! length_ := w_Length_to_bytes w (Definite length) in
  w_with_header cfg id length_ length.
Definition w_buf_set_contents (contents : list N) (b : buf) : res buf :=
  let bs := bf_slice b in
  let! c := w_tlv_contents bs in
  if nlen c =? nlen contents then bf_write (nlen bs - nlen c) contents b else Panic.
(** der.rs:59-67 *)
Definition w_Der_new (cfg : bufcfg) (id contents : list N) : res buf :=
  let! b := w_Der_with_id_length cfg id (nlen contents) in w_buf_set_contents contents b.
(** der.rs:296-298 *)
Fixpoint w_total_length (acc : N) (items : list (list N)) : res N :=
  match items with
  | [] => Ok acc
  | i :: items' => let! acc' := w_add_usize acc (nlen i) in w_total_length acc' items'
  end.
(** der.rs:291-310, ber.rs:470-489 *)
Definition w_from_iterator (cfg : bufcfg) (id : list N) (length_bytes : N -> res (list N)) (items : list (list N)) : res buf :=
  let! length := w_total_length 0 items in
  let! length_ := length_bytes length in
  let! t := w_add_usize (nlen id) (nlen length_) in
  let! total_len := w_add_usize t length in
  let! b := w_bf_with_capacity cfg total_len in
  let! b := bf_extend id b in
  let! b := bf_extend length_ b in
  extend_all items b.
Definition w_Der_from_id_iterator (cfg : bufcfg) (id : list N) (items : list (list N)) : res buf :=
  w_from_iterator cfg id (fun n => w_Length_to_bytes w (Definite n)) items.
(** der.rs:375-429 *)
Definition w_Der_extend (cfg : bufcfg) (bytes : list N) (b : buf) : res buf :=
  let! id := tlv_id (bf_slice b) in
  let id_len := nlen id in
  let! old_length := w_tlv_length (bf_slice b) in
  let! old_n := unwrap (Length_definite old_length) in
  let! new_n := w_add_usize old_n (nlen bytes) in
  let new_length := Definite new_n in
  let! off0 := w_add_usize (nlen bytes) (w_Length_len w new_length) in
  let! offset := sub_usize off0 (w_Length_len w old_length) in
  let! b := w_bf_reserve cfg offset b in
  let! b := bf_set_len (b_len b + offset) b in
  let dest := id_len + w_Length_len w new_length in
  let src := id_len + w_Length_len w old_length in
  let! b := (if src =? dest then Ok b else bf_move src dest old_n b) in
  let dest := dest + old_n in
  let! b := bf_write dest bytes b in
  let dest := dest + nlen bytes in
  if negb (dest =? b_len b) then Panic
  else let! new_length_ := w_Length_to_bytes w new_length in bf_write id_len new_length_ b.
(** der.rs:463-492 *)
Definition w_Der_truncate (new_length : N) (b : buf) : res buf :=
  let! id := tlv_id (bf_slice b) in
  let id_len := nlen id in
  let! l := w_tlv_length (bf_slice b) in
  let! old_length := unwrap (Length_definite l) in
  if old_length <=? new_length then Ok b
  else
    let! old_length_ := w_Length_to_bytes w (Definite old_length) in
    let! new_length_ := w_Length_to_bytes w (Definite new_length) in
    let! b := bf_write id_len new_length_ b in
    let! b := (if nlen new_length_ <? nlen old_length_
               then bf_move (id_len + nlen old_length_) (id_len + nlen new_length_) new_length b
               else Ok b) in
    bf_set_len (id_len + nlen new_length_ + new_length) b.
(** ber.rs:234-249 *)
Definition w_Ber_with_id_length_indefinite (cfg : bufcfg) (id : list N) (length : N) : res buf :=
  let! length_ := w_Length_to_bytes w Indefinite in
  w_with_header cfg id length_ length.
(** ber.rs:141-148 *)
Definition w_Ber_new_indefinite (cfg : bufcfg) (id contents : list N) : res buf :=
  let! b := w_Ber_with_id_length_indefinite cfg id (nlen contents) in w_buf_set_contents contents b.
(** ber.rs:470-489 *)
Definition w_Ber_from_id_iterator_indefinite (cfg : bufcfg) (id : list N) (items : list (list N)) : res buf :=
  w_from_iterator cfg id (fun _ => w_Length_to_bytes w Indefinite) items.
(** ber.rs:601-623 *)
Definition w_Ber_extend (cfg : bufcfg) (bytes : list N) (b : buf) : res buf :=
  let! l := w_tlv_length (bf_slice b) in
  match l with
  | Definite _ => w_Der_extend cfg bytes b
  | Indefinite =>
      let! b := w_bf_reserve cfg (nlen bytes) b in
      let! b := bf_write (b_len b) bytes b in
      bf_set_len (b_len b + nlen bytes) b
  end.
(** ber.rs:668-684 *)
Definition w_Ber_truncate (new_length : N) (b : buf) : res buf :=
  let! l := w_tlv_length (bf_slice b) in
  match l with
  | Definite _ => w_Der_truncate new_length b
  | Indefinite =>
      let! c := w_tlv_contents (bf_slice b) in
      let old_length := nlen c in
      if old_length <=? new_length then Ok b
      else
        let! t := w_add_usize (b_len b) new_length in
        let! new_total_len := sub_usize t old_length in
        bf_set_len new_total_len b
  end.
(** der.rs:169-198 *)
Definition w_Der_parse {S} (R : reader S) (fuel : nat) (s : S) : res (list N) * S :=
  match w_parse_id_length R fuel (s, []) with
  | (Ok Indefinite, (s', _)) => (Err IndefiniteLength, s')
  | (Ok (Definite contents_length), (s', o)) =>
      if word_max w <? nlen o + contents_length then (Panic, s')
      else
        match rd_read R s' contents_length with
        | (IoErr k, s'') => (Err (Io k), s'')
        | (IoOk bs, s'') =>
            if contents_length <? nlen bs then (Panic, s'')
            else if nlen bs <? contents_length then (Err UnterminatedBytes, s'')
            else (Ok (o ++ bs), s'')
        end
  | (Err e, (s', _)) => (Err e, s')
  | (Panic, (s', _)) => (Panic, s')
  | (NoFuel, (s', _)) => (NoFuel, s')
  end.
(** ber.rs:318-342 *)
Definition w_Ber_do_parse {S} (R : reader S) (fuel : nat) : parser S Z := fun st =>
  let init_len := nlen (snd st) in
  (l <- w_parse_id_length R fuel ;;
   match l with
   | Definite length =>
       fun st1 =>
         if word_max w <? nlen (snd st1) + length then (Panic, st1)
         else
           (read_exact R fuel length ;;;
            fun st2 =>
              let read := drop init_len (snd st2) in
              (Ok (if bytes_eqb read EOC then (-1)%Z else 0%Z), st2)) st1
   | Indefinite => pret 1%Z
   end) st.
(** ber.rs:303-316 *)
Fixpoint w_Ber_loop {S} (R : reader S) (ifuel fuel : nat) (stack_depth : Z) : parser S unit := fun st =>
  match fuel with
  | O => (NoFuel, st)
  | Datatypes.S fuel' =>
      (d <- w_Ber_do_parse R ifuel ;;
       let stack_depth' := (stack_depth + d)%Z in
       if (0 <? stack_depth')%Z then w_Ber_loop R ifuel fuel' stack_depth' else pret tt) st
  end.
Definition w_Ber_parse {S} (R : reader S) (fuel : nat) (s : S) : res (list N) * S :=
  match w_Ber_loop R fuel fuel 0 (s, []) with
  | (Ok _, (s', o)) => (Ok o, s')
  | (Err e, (s', _)) => (Err e, s')
  | (Panic, (s', _)) => (Panic, s')
  | (NoFuel, (s', _)) => (NoFuel, s')
  end.
End WORD.
