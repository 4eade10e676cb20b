(** Der and Ber on raw memory: the functions of ModelTlv.v that touch the buffer, over
    any layout of ModelHeap.v.  What they read from their octets is computed by
    the functions of ModelTlv.v; everything they allocate, read, write and free goes
    through the layout. *)
From Verif Require Import Base ModelIo ModelTag ModelContents ModelBuf ModelTlv ModelHeap.

(** A pure computation on octets.  Indices are checked and [unwrap] is, so where it fails
    the code panics.  It returns no errors. *)
Definition mlift {A} (x : res A) : M A := match x with Ok a => mret a | Panic => mcrash | _ => mub end.
(** [x + y] and [x - y] on usize panic on overflow. *)
Definition madd (x y : N) : M N := if x + y <? usize_limit then mret (x + y) else mcrash.
Definition msub (x y : N) : M N := if x <? y then mcrash else mret (x - y).

Section RAW.
Context (L : layout) (al : allocator).
Notation raw := (L_raw L).

(** [as_ptr().add(src).copy_to(as_mut_ptr().add(dst), n)] *)
Definition L_move (src dst n : N) (b : raw) : M raw := bs <-- L_load L src n b ; L_store L dst bs b.

(** bsn1/src/der.rs:102-119, ber.rs:234-249 *)
Definition raw_with_header (id length_ : list N) (length : N) : M raw :=
  t <-- madd (nlen id) (nlen length_) ;
  total_len <-- madd t length ;
  b <-- L_with_capacity L al total_len ;
  b <-- L_store L 0 id b ;
  b <-- L_store L (nlen id) length_ b ;
  L_set_len_checked L total_len b.
(** [mut_contents().as_mut().copy_from_slice(contents)] *)
Definition raw_set_contents (contents : list N) (b : raw) : M raw :=
  bs <-- L_slice L b ;
  c <-- mlift (tlv_contents bs) ;
  if nlen c =? nlen contents then L_store L (nlen bs - nlen c) contents b else mcrash.
(** Overwriting the contents with [f] of them through mut_contents. *)
Definition raw_edit (f : list N -> list N) (b : raw) : M raw :=
  bs <-- L_slice L b ;
  c <-- mlift (tlv_contents bs) ;
  raw_set_contents (f c) b.
(** bsn1/src/der.rs:59-67, ber.rs:76-78 *)
Definition raw_new (id contents : list N) : M raw :=
  b <-- raw_with_header id (Length_to_bytes (Definite (nlen contents))) (nlen contents) ;
  raw_set_contents contents b.
(** bsn1/src/ber.rs:141-148 *)
Definition raw_new_indefinite (id contents : list N) : M raw :=
  b <-- raw_with_header id (Length_to_bytes Indefinite) (nlen contents) ;
  raw_set_contents contents b.

(** [fold(0, |acc, item| acc + item.as_ref().len())] *)
Fixpoint raw_total (acc : N) (items : list (list N)) : M N :=
  match items with [] => mret acc | i :: items' => (acc' <-- madd acc (nlen i) ; raw_total acc' items') end.
Fixpoint raw_extend_all (items : list (list N)) (b : raw) : M raw :=
  match items with [] => mret b | i :: items' => (b' <-- L_extend L i b ; raw_extend_all items' b') end.
(** bsn1/src/der.rs:291-310 and ber.rs:470-489.  [counted] are the items the clone of the
    iterator yields, [items] those of the iterator itself: nothing in [I: Clone] makes
    them agree. *)
Definition raw_from_iterator (id : list N) (length_bytes : N -> list N) (counted items : list (list N)) : M raw :=
  length <-- raw_total 0 counted ;
  t <-- madd (nlen id) (nlen (length_bytes length)) ;
  total_len <-- madd t length ;
  b <-- L_with_capacity L al total_len ;
  b <-- L_extend L id b ;
  b <-- L_extend L (length_bytes length) b ;
  raw_extend_all items b.
Definition raw_Der_from_id_iterator (id : list N) (counted items : list (list N)) : M raw :=
  raw_from_iterator id (fun n => Length_to_bytes (Definite n)) counted items.
Definition raw_Ber_from_id_iterator_indefinite (id : list N) (counted items : list (list N)) : M raw :=
  raw_from_iterator id (fun _ => Length_to_bytes Indefinite) counted items.

(** bsn1/src/der.rs:375-429 *)
Definition raw_Der_extend (bytes : list N) (b : raw) : M raw :=
  bs <-- L_slice L b ;
  id <-- mlift (tlv_id bs) ;
  old_length <-- mlift (tlv_length bs) ;
  old_n <-- mlift (unwrap (Length_definite old_length)) ;
  new_n <-- madd old_n (nlen bytes) ;
  off0 <-- madd (nlen bytes) (Length_len (Definite new_n)) ;
  offset <-- msub off0 (Length_len old_length) ;
  b <-- L_reserve L al offset b ;
  n <-- madd (L_len L b) offset ;
  b <-- L_set_len_checked L n b ;
  b <-- (if nlen id + Length_len old_length =? nlen id + Length_len (Definite new_n) then mret b
         else L_move (nlen id + Length_len old_length) (nlen id + Length_len (Definite new_n)) old_n b) ;
  b <-- L_store L (nlen id + Length_len (Definite new_n) + old_n) bytes b ;
  if negb (nlen id + Length_len (Definite new_n) + old_n + nlen bytes =? L_len L b) then mcrash
  else L_store L (nlen id) (Length_to_bytes (Definite new_n)) b.
(** bsn1/src/der.rs:463-492 *)
Definition raw_Der_truncate (new_length : N) (b : raw) : M raw :=
  bs <-- L_slice L b ;
  id <-- mlift (tlv_id bs) ;
  l <-- mlift (tlv_length bs) ;
  old_length <-- mlift (unwrap (Length_definite l)) ;
  if old_length <=? new_length then mret b
  else
    let old_length_ := Length_to_bytes (Definite old_length) in
    let new_length_ := Length_to_bytes (Definite new_length) in
    b <-- L_store L (nlen id) new_length_ b ;
    b <-- (if nlen new_length_ <? nlen old_length_
           then L_move (nlen id + nlen old_length_) (nlen id + nlen new_length_) new_length b
           else mret b) ;
    t <-- madd (nlen id) (nlen new_length_) ;
    new_total_len <-- madd t new_length ;
    L_set_len_checked L new_total_len b.
(** bsn1/src/ber.rs:601-623 *)
Definition raw_Ber_extend (bytes : list N) (b : raw) : M raw :=
  bs <-- L_slice L b ;
  l <-- mlift (tlv_length bs) ;
  match l with
  | Definite _ => raw_Der_extend bytes b
  | Indefinite =>
      b <-- L_reserve L al (nlen bytes) b ;
      b <-- L_store L (L_len L b) bytes b ;
      n <-- madd (L_len L b) (nlen bytes) ;
      L_set_len_checked L n b
  end.
(** bsn1/src/ber.rs:668-684 *)
Definition raw_Ber_truncate (new_length : N) (b : raw) : M raw :=
  bs <-- L_slice L b ;
  l <-- mlift (tlv_length bs) ;
  match l with
  | Definite _ => raw_Der_truncate new_length b
  | Indefinite =>
      c <-- mlift (tlv_contents bs) ;
      if nlen c <=? new_length then mret b
      else
        t <-- madd (L_len L b) new_length ;
        new_total_len <-- msub t (nlen c) ;
        L_set_len_checked L new_total_len b
  end.

(** ** Streaming parsers *)
(** The octets of a header reach the buffer one by one (misc.rs:40-50).  Here the
    header is read first and its octets are written afterwards. *)
Fixpoint raw_feed (w : list N) (b : raw) : M raw :=
  match w with [] => mret b | x :: w' => (b' <-- L_io_write L al [x] b ; raw_feed w' b') end.
(** What a call of [Read::read] may do with the memory it is handed: report a number of
    octets and write some.  An honest reader reports what it wrote. *)
Inductive io_claim := ClaimOk (claimed : N) (written : list N) | ClaimErr (k : io_kind).
Definition claim_of (r : io_res) : io_claim :=
  match r with IoOk bs => ClaimOk (nlen bs) bs | IoErr k => ClaimErr k end.

(** bsn1/src/der.rs:169-198, Der::parse.  [C] is the call that reads the contents.  The
    buffer is dropped on errors.  (A panic unwinds and drops it too; a panic ends the
    model.) *)
Definition raw_Der_parse {S} (R : reader S) (C : S -> N -> io_claim * S) (fuel : nat) (s : S) : M (res raw * S) :=
  let (r, st) := parse_id_length R fuel (s, []) in
  let (s', w) := st in
  b <-- raw_feed w (L_new L) ;
  let fail (e : res raw) (s : S) : M (res raw * S) := (_ <-- L_drop L b ; mret (e, s)) in
  match r with
  | Ok Indefinite => fail (Err IndefiniteLength) s'
  | Ok (Definite n) =>
      total_len <-- madd (L_len L b) n ;
      let start := L_len L b in
      b <-- L_reserve L al n b ;
      b <-- L_set_len_checked L total_len b ;
      match C s' n with
      | (ClaimErr k, s'') => (_ <-- L_drop L b ; mret (Err (Io k), s''))
      | (ClaimOk claimed written, s'') =>
          if n <? nlen written then mcrash
          else
            b <-- L_store L start written b ;
            if claimed <? n then (_ <-- L_drop L b ; mret (Err UnterminatedBytes, s''))
            else mret (Ok b, s'')
      end
  | Err e => fail (Err e) s'
  | Panic => mcrash
  | NoFuel => fail NoFuel s'
  end.

(** bsn1/src/ber.rs:318-342, Ber::do_parse.  read_exact fills the memory in several
    steps; here the octets it got are stored at once. *)
Definition raw_Ber_do_parse {S} (R : reader S) (fuel : nat) (s : S) (b : raw) : M (res Z * S * raw) :=
  let init_len := L_len L b in
  let (r, st) := parse_id_length R fuel (s, []) in
  let (s', w) := st in
  b <-- raw_feed w b ;
  match r with
  | Ok (Definite length) =>
      b <-- L_reserve L al length b ;
      let current_len := L_len L b in
      total <-- madd current_len length ;
      b <-- L_set_len_checked L total b ;
      let (r2, st2) := read_exact R fuel length (s', []) in
      let (s'', got) := st2 in
      b <-- L_store L current_len got b ;
      match r2 with
      | Ok _ => (bs <-- L_slice L b ;
                 mret (Ok (if bytes_eqb (drop init_len bs) EOC then (-1)%Z else 0%Z), s'', b))
      | Err e => mret (Err e, s'', b)
      | Panic => mcrash
      | NoFuel => mret (NoFuel, s'', b)
      end
  | Ok Indefinite => mret (Ok 1%Z, s', b)
  | Err e => mret (Err e, s', b)
  | Panic => mcrash
  | NoFuel => mret (NoFuel, s', b)
  end.
(** bsn1/src/ber.rs:303-316, Ber::parse *)
Fixpoint raw_Ber_loop {S} (R : reader S) (ifuel fuel : nat) (stack_depth : Z) (s : S) (b : raw) : M (res raw * S) :=
  match fuel with
  | O => (_ <-- L_drop L b ; mret (NoFuel, s))
  | Datatypes.S fuel' =>
      x <-- raw_Ber_do_parse R ifuel s b ;
      match x with
      | (Ok d, s', b') =>
          let stack_depth' := (stack_depth + d)%Z in
          if (0 <? stack_depth')%Z then raw_Ber_loop R ifuel fuel' stack_depth' s' b' else mret (Ok b', s')
      | (Err e, s', b') => (_ <-- L_drop L b' ; mret (Err e, s'))
      | (Panic, s', b') => mcrash
      | (NoFuel, s', b') => (_ <-- L_drop L b' ; mret (NoFuel, s'))
      end
  end.
Definition raw_Ber_parse {S} (R : reader S) (fuel : nat) (s : S) : M (res raw * S) :=
  raw_Ber_loop R fuel fuel 0 s (L_new L).
End RAW.
