(** Length, identifier and integer octets on raw memory: the functions of ModelTag.v and
    ModelContents.v that use raw pointers or a buffer. *)
From Verif Require Import Base ModelIo ModelTag ModelContents ModelBuf ModelHeap ModelTlvRaw.

(** A safe computation: where it fails the code panics. *)
Definition mcall {A} (x : res A) : M A := match x with Ok a => mret a | _ => mcrash end.
(** Reading and writing octets of a variable on the stack through a raw pointer: outside
    the variable it is undefined. *)
Definition peek (mem : list N) (off n : N) : M (list N) :=
  if nlen mem <? off + n then mub else mret (take n (drop off mem)).
Definition peek1 (mem : list N) (off : N) : M N := match nth_byte mem off with Some b => mret b | None => mub end.
Definition poke (mem : list N) (off : N) (src : list N) : M (list N) :=
  if nlen mem <? off + nlen src then mub else mret (take off mem ++ src ++ drop (off + nlen src) mem).

(** ** LengthBuffer *)
(** bsn1/src/length_buffer.rs:21-25.  [lb_buffer] are the CAPACITY octets. *)
Record lbuf := { lb_buffer : list N; lb_len : N }.
(** bsn1/src/length_buffer.rs:28, Length::Definite(usize::MAX).len() *)
Definition LB_CAPACITY : N := Length_len (Definite (usize_limit - 1)).
(** bsn1/src/length_buffer.rs:30-35 *)
Definition lb_new : lbuf := {| lb_buffer := repeat 0 (N.to_nat LB_CAPACITY); lb_len := 0 |}.
(** bsn1/src/length_buffer.rs:40-45: the debug assertion, the checked index (both panic)
    and the addition in u8. *)
Definition lb_push (val : N) (b : lbuf) : M lbuf :=
  if negb (lb_len b <? LB_CAPACITY) then mcrash
  else if negb (lb_len b <? nlen (lb_buffer b)) then mcrash
  else if negb (lb_len b + 1 <? 256) then mcrash
  else mret {| lb_buffer := take (lb_len b) (lb_buffer b) ++ [val] ++ drop (lb_len b + 1) (lb_buffer b); lb_len := lb_len b + 1 |}.
(** bsn1/src/length_buffer.rs:59-63 *)
Definition lb_set_len (n : N) (b : lbuf) : M lbuf :=
  if LB_CAPACITY <? n then mcrash else mret {| lb_buffer := lb_buffer b; lb_len := as_u8 n |}.
(** bsn1/src/length_buffer.rs:75-81, deref: [from_raw_parts(ptr, len)] *)
Definition lb_deref (b : lbuf) : M (list N) := peek (lb_buffer b) 0 (lb_len b).
(** bsn1/src/length_buffer.rs:83-87 and 97-101: [buffer[i] = val] *)
Definition lb_index_set (i val : N) (b : lbuf) : M lbuf :=
  s <-- lb_deref b ;
  if negb (i <? nlen s) then mcrash
  else mem <-- poke (lb_buffer b) i [val] ; mret {| lb_buffer := mem; lb_len := lb_len b |}.
(** Writing through as_mut_ptr, bsn1/src/length_buffer.rs:51-53 *)
Definition lb_store (off : N) (src : list N) (b : lbuf) : M lbuf :=
  mem <-- poke (lb_buffer b) off src ; mret {| lb_buffer := mem; lb_len := lb_len b |}.
(** bsn1/src/length.rs:94-128, to_bytes.  size_of::<usize>() = 8. *)
Definition raw_Length_to_bytes (l : Length) : M lbuf :=
  match l with
  | Indefinite => lb_push LEN_INDEFINITE lb_new
  | Definite val =>
      if val <=? LEN_MAX_SHORT then lb_push (as_u8 val) lb_new
      else
        flag <-- (if LEN_LONG_FLAG + as_u8 (byte_len val) <? 256 then mret (LEN_LONG_FLAG + as_u8 (byte_len val)) else mcrash) ;
        b <-- lb_set_len (byte_len val + 1) lb_new ;
        b <-- lb_index_set 0 flag b ;
        off <-- msub 8 (byte_len val) ;
        src <-- peek (be_tail 8 val) off (byte_len val) ;
        lb_store 1 src b
  end.

(** ** Reading integers *)
(** bsn1/src/contents_ref.rs:144-166, to_integer_unchecked: [be] is the memory of a T. *)
Definition raw_to_integer_unchecked (t : int_ty) (bs : list N) : M Z :=
  match bs with
  | [] => mcrash
  | b0 :: _ =>
      let bytes := drop_leading_zero bs in
      let size := N.of_nat (int_size t) in
      let filler := if N.land b0 0x80 =? 0 then 0x00 else 0xff in
      let be := repeat filler (int_size t) in
      off <-- msub size (nlen bytes) ;
      be <-- poke be off bytes ;
      mret (from_be_mem t be)
  end.
(** bsn1/src/contents_ref.rs:91-132, to_integer *)
Definition raw_to_integer (t : int_ty) (bs : list N) : M (res Z) :=
  match bs with
  | [] => mret (Err UnterminatedBytes)
  | b0 :: rest =>
      let redundant :=
        match rest with
        | [] => false
        | b1 :: _ => ((b0 =? 0) && (N.land b1 0x80 =? 0)) || ((b0 =? 0xff) && (N.land b1 0x80 =? 0x80))
        end in
      if redundant then mret (Err RedundantBytes)
      else if N.of_nat (int_size t) <? nlen (drop_leading_zero bs) then mret (Err OverFlow)
      else
        v <-- raw_to_integer_unchecked t bs ;
        mret (if N.land b0 0x80 =? 0 then (if (v <? 0)%Z then Err OverFlow else Ok v)
              else if (0 <=? v)%Z then Err OverFlow else Ok v)
  end.

Section RAW.
Context (L : layout) (al : allocator).
Notation raw := (L_raw L).

(** [buffer[i]] and [buffer[i] = v] through the slice of the contents: checked index,
    bsn1/src/buffer/mod.rs:161-173. *)
Definition L_index (i : N) (b : raw) : M N := if L_len L b <=? i then mcrash else (x <-- L_load L i 1 b ; peek1 x 0).
Definition L_index_set (i v : N) (b : raw) : M raw := if L_len L b <=? i then mcrash else L_store L i [v] b.
Definition L_index_map (i : N) (f : N -> N) (b : raw) : M raw := v <-- L_index i b ; L_index_set i (f v) b.

(** ** Identifiers *)
(** [for i in (1..len).rev() { buffer[i] = n as u8 | MORE_FLAG; n >>= 7 }] from the index
    [k] down, and what is left of [n]. *)
Fixpoint raw_fill (k : nat) (n : N) (b : raw) : M (raw * N) :=
  match k with
  | O => mret (b, n)
  | S k' => (b <-- L_index_set (N.of_nat k) (N.lor (as_u8 n) MORE_FLAG) b ; raw_fill k' (N.shiftr n 7) b)
  end.
(** bsn1/src/identifier.rs:56-89 *)
Definition raw_Id_new (c : class_tag) (p : pc_tag) (number : N) : M raw :=
  let b := L_new L in
  if number <=? ID_MAX_SHORT then
    o <-- mcall (u8_add3 (class_u8 c) (pc_u8 p) (as_u8 number)) ; L_push L o b
  else
    long_flag <-- mcall (u8_add3 (class_u8 c) (pc_u8 p) ID_LONG_FLAG) ;
    let len := number_bytes_len number + 1 in
    b <-- L_reserve L al len b ;
    b <-- L_set_len_checked L len b ;
    b <-- L_index_set 0 long_flag b ;
    bn <-- raw_fill (N.to_nat (len - 1)) number b ;
    L_index_map (len - 1) (fun o => N.lxor o MORE_FLAG) (fst bn).
(** bsn1/src/identifier.rs:183-217, with its debug assertion *)
Definition raw_Id_set_number (num : N) (b : raw) : M raw :=
  id <-- L_slice L b ;
  c <-- mcall (IdRef_class id) ;
  p <-- mcall (IdRef_pc id) ;
  if num <=? ID_MAX_SHORT then
    o <-- mcall (u8_add3 (class_u8 c) (pc_u8 p) (as_u8 num)) ;
    b <-- L_index_set 0 o b ;
    L_set_len_checked L 1 b
  else
    long_flag <-- mcall (u8_add3 (class_u8 c) (pc_u8 p) ID_LONG_FLAG) ;
    let len := number_bytes_len num + 1 in
    b <-- (if L_len L b <? len then L_reserve L al (len - L_len L b) b else mret b) ;
    b <-- L_set_len_checked L len b ;
    b <-- L_index_set 0 long_flag b ;
    bn <-- raw_fill (N.to_nat (len - 1)) num b ;
    b <-- L_index_map (len - 1) (fun o => N.land o (not_u8 MORE_FLAG)) (fst bn) ;
    if negb (snd bn =? 0) then mcrash else mret b.
(** bsn1/src/identifier_ref.rs:617-622 and 642-648 through [DerefMut for Id] *)
Definition raw_Id_set_class (c : class_tag) (b : raw) : M raw :=
  b <-- L_index_map 0 (fun x => N.land x (not_u8 CLASS_MASK)) b ;
  L_index_map 0 (fun x => N.lor x (class_u8 c)) b.
Definition raw_Id_set_pc (p : pc_tag) (b : raw) : M raw :=
  b <-- L_index_map 0 (fun x => N.land x (not_u8 PC_MASK)) b ;
  L_index_map 0 (fun x => N.lor x (pc_u8 p)) b.
(** bsn1/src/identifier.rs:134-141.  The octets reach the buffer one by one; here they
    are read first and written afterwards.  On an error the buffer is dropped. *)
Definition raw_Id_parse {S} (R : reader S) (fuel : nat) (s : S) : M (res raw * S) :=
  match parse_id R fuel (s, []) with
  | (Ok _, (s', w)) => (b <-- raw_feed L al w (L_new L) ; mret (Ok b, s'))
  | (Err e, (s', w)) => (b <-- raw_feed L al w (L_new L) ; _ <-- L_drop L b ; mret (Err e, s'))
  | (Panic, _) => mcrash
  | (NoFuel, (s', w)) => (b <-- raw_feed L al w (L_new L) ; _ <-- L_drop L b ; mret (NoFuel, s'))
  end.

(** ** Contents *)
(** bsn1/src/contents.rs:48-52 *)
Definition raw_from_zero : M raw := L_push L 0 (L_new L).
(** Copying [len] octets of the variable [mem] from [src] into a new buffer;
    bsn1/src/contents.rs:79-84 and 112-118. *)
Definition raw_from_stack (mem : list N) (src len : N) : M raw :=
  b <-- L_with_capacity L al len ;
  b <-- L_set_len_checked L len b ;
  x <-- peek mem src len ;
  L_store L 0 x b.
(** [while *src == 0 { src = src.add(1); len -= 1 }], bsn1/src/contents.rs:66-70.  A walk
    of more steps than the variable has octets has left it. *)
Fixpoint walk_zeros (fuel : nat) (mem : list N) (src len : N) : M (N * N) :=
  match fuel with
  | O => mub
  | S fuel' =>
      b <-- peek1 mem src ;
      if b =? 0 then (len' <-- msub len 1 ; walk_zeros fuel' mem (src + 1) len') else mret (src, len)
  end.
(** bsn1/src/contents.rs:54-86.  [vals] is the array of two. *)
Definition raw_from_positive (t : int_ty) (v : Z) : M raw :=
  if negb (0 <? v)%Z then mcrash
  else
    let size := N.of_nat (int_size t) in
    let vals := to_be_mem t 0 ++ to_be_mem t v in
    w <-- walk_zeros (S (length vals)) vals size size ;
    b <-- peek1 vals (fst w) ;
    if N.land b 0x80 =? 0x80
    then (if fst w =? 0 then mub else raw_from_stack vals (fst w - 1) (snd w + 1))
    else raw_from_stack vals (fst w) (snd w).
(** [while 1 < len && *src == 0xff { src = src.add(1); len -= 1 }],
    bsn1/src/contents.rs:100-103 *)
Fixpoint walk_ffs (fuel : nat) (mem : list N) (src len : N) : M (N * N) :=
  match fuel with
  | O => mub
  | S fuel' =>
      if 1 <? len then
        b <-- peek1 mem src ;
        if b =? 0xff then (len' <-- msub len 1 ; walk_ffs fuel' mem (src + 1) len') else mret (src, len)
      else mret (src, len)
  end.
(** bsn1/src/contents.rs:88-122 *)
Definition raw_from_negative (t : int_ty) (v : Z) : M raw :=
  if negb (v <? 0)%Z then mcrash
  else
    let size := N.of_nat (int_size t) in
    let val := to_be_mem t v in
    w <-- walk_ffs (S (length val)) val 0 size ;
    b <-- peek1 val (fst w) ;
    if N.land b 0x80 =? 0
    then (if fst w =? 0 then mub else raw_from_stack val (fst w - 1) (snd w + 1))
    else raw_from_stack val (fst w) (snd w).
(** bsn1/src/contents.rs:35-46 and the From impls 176-271 *)
Definition raw_Contents_from_int (t : int_ty) (v : Z) : M raw :=
  if int_signed t then
    if (v <? 0)%Z then raw_from_negative t v
    else if (v =? 0)%Z then raw_from_zero
    else raw_from_positive t v
  else
    if (v =? 0)%Z then raw_from_zero else raw_from_positive t v.
(** bsn1/src/contents.rs:272-283 *)
Definition raw_Contents_from_bool (b : bool) : M raw := L_from_slice L al [if b then 0xff else 0x00].
(** Writing every octet of the contents through [as_mut], bsn1/src/contents.rs:297-301. *)
Definition raw_Contents_edit (f : list N -> list N) (b : raw) : M raw :=
  bs <-- L_slice L b ;
  if nlen (f bs) =? nlen bs then L_store L 0 (f bs) b else mcrash.
End RAW.
