(** Contents octets of integers and booleans:
    bsn1/src/{contents,contents_ref}.rs *)
From Verif Require Import Base ModelTag.

(** The primitive integer types with a [From<_> for Contents] impl
    (bsn1/src/contents.rs:176-271).  isize/usize are 8 octets wide. *)
Inductive int_ty := I8 | U8 | I16 | U16 | I32 | U32 | I64 | U64 | I128 | U128 | ISize | USize.
(** mem::size_of::<T>() *)
Definition int_size (t : int_ty) : nat :=
  match t with
  | I8 | U8 => 1 | I16 | U16 => 2 | I32 | U32 => 4 | I64 | U64 | ISize | USize => 8 | I128 | U128 => 16
  end%nat.
Definition int_signed (t : int_ty) : bool :=
  match t with I8 | I16 | I32 | I64 | I128 | ISize => true | _ => false end.
(** Number of distinct values, 2^(8*size). *)
Definition int_mod (t : int_ty) : Z := (256 ^ Z.of_nat (int_size t))%Z.
(** The values of the type. *)
Definition int_min (t : int_ty) : Z := if int_signed t then (- (int_mod t / 2))%Z else 0%Z.
Definition int_max (t : int_ty) : Z := (if int_signed t then int_mod t / 2 - 1 else int_mod t - 1)%Z.
Definition in_range (t : int_ty) (v : Z) : Prop := (int_min t <= v <= int_max t)%Z.

(** The octets of [val.to_be()] in memory. *)
Definition to_be_mem (t : int_ty) (v : Z) : list N := be_tail (int_size t) (Z.to_N (v mod int_mod t)).
(** The value of [T] whose big-endian memory is [mem] ([T::from_be]). *)
Definition from_be_mem (t : int_ty) (mem : list N) : Z :=
  let u := Z.of_N (fold_left (fun a b => a * 256 + b) mem 0) in
  if int_signed t && (int_mod t / 2 <=? u)%Z then (u - int_mod t)%Z else u.

(** bsn1/src/contents.rs:48-52 *)
Definition Contents_from_zero : list N := [0x00].

(** bsn1/src/contents.rs:54-86, from_positive.  [mem] is the memory of the two
    element array, the pointer starts at its second element.  Running off the
    array is undefined behaviour (Panic). *)
Fixpoint count_leading (b : N) (l : list N) : option N :=
  match l with
  | [] => None
  | x :: l' => if x =? b then option_map (fun k => k + 1) (count_leading b l') else Some 0
  end.
Definition Contents_from_positive (t : int_ty) (v : Z) : res (list N) :=
  let size := N.of_nat (int_size t) in
  let mem := to_be_mem t 0 ++ to_be_mem t v in
  match count_leading 0 (drop size mem) with
  | None => Panic
  | Some k =>
      let src := size + k in
      let len := size - k in
      match nth_byte mem src with
      | None => Panic
      | Some b =>
          if N.land b 0x80 =? 0x80 then Ok (take (len + 1) (drop (src - 1) mem))
          else Ok (take len (drop src mem))
      end
  end.

(** bsn1/src/contents.rs:88-122, from_negative.
    The loop [while 1 < len && *src == 0xff]. *)
Fixpoint skip_ff (l : list N) : N :=
  match l with
  | x :: ((_ :: _) as l') => if x =? 0xff then skip_ff l' + 1 else 0
  | _ => 0
  end.
Definition Contents_from_negative (t : int_ty) (v : Z) : res (list N) :=
  let size := N.of_nat (int_size t) in
  let mem := to_be_mem t v in
  let src := skip_ff mem in
  let len := size - src in
  match nth_byte mem src with
  | None => Panic
  | Some b =>
      if N.land b 0x80 =? 0 then
        if src =? 0 then Panic else Ok (take (len + 1) (drop (src - 1) mem))
      else Ok (take len (drop src mem))
  end.

(** bsn1/src/contents.rs:35-46 and the From impls 176-271: unsigned types test for
    zero only. *)
Definition Contents_from_int (t : int_ty) (v : Z) : res (list N) :=
  if int_signed t then
    if (v <? 0)%Z then Contents_from_negative t v
    else if (v =? 0)%Z then Ok Contents_from_zero
    else Contents_from_positive t v
  else
    if (v =? 0)%Z then Ok Contents_from_zero else Contents_from_positive t v.

(** bsn1/src/contents.rs:272-283 and contents_ref.rs (From<bool>) *)
Definition Contents_from_bool (b : bool) : list N := if b then [0xff] else [0x00].

(** [bytes] in to_integer(_unchecked): drop one leading 00;
    bsn1/src/contents_ref.rs:110-114, 150-154. *)
Definition drop_leading_zero (bs : list N) : list N :=
  match bs with
  | b0 :: rest => if b0 =? 0 then rest else bs
  | [] => []
  end.
(** bsn1/src/contents_ref.rs:144-166, to_integer_unchecked.  Empty contents panic;
    contents longer than the type would be written out of range (Panic). *)
Definition to_integer_unchecked (t : int_ty) (bs : list N) : res Z :=
  match bs with
  | [] => Panic
  | b0 :: _ =>
      let bytes := drop_leading_zero bs in
      let size := N.of_nat (int_size t) in
      let filler := if N.land b0 0x80 =? 0 then 0x00 else 0xff in
      if size <? nlen bytes then Panic
      else Ok (from_be_mem t (repeat filler (N.to_nat (size - nlen bytes)) ++ bytes))
  end.
(** bsn1/src/contents_ref.rs:91-132, to_integer *)
Definition to_integer (t : int_ty) (bs : list N) : res Z :=
  match bs with
  | [] => Err UnterminatedBytes
  | b0 :: rest =>
      let redundant :=
        match rest with
        | [] => false
        | b1 :: _ =>
            ((b0 =? 0) && (N.land b1 0x80 =? 0)) || ((b0 =? 0xff) && (N.land b1 0x80 =? 0x80))
        end in
      if redundant then Err RedundantBytes
      else
        let bytes := drop_leading_zero bs in
        if N.of_nat (int_size t) <? nlen bytes then Err OverFlow
        else
          let! v := to_integer_unchecked t bs in
          if N.land b0 0x80 =? 0 then
            if (v <? 0)%Z then Err OverFlow else Ok v
          else
            if (0 <=? v)%Z then Err OverFlow else Ok v
  end.

(** bsn1/src/contents_ref.rs:190-200 *)
Definition to_bool_ber (bs : list N) : res bool :=
  match bs with
  | [] => Err UnterminatedBytes
  | [b] => if b =? 0 then Ok false else Ok true
  | _ => Err ExtraContentsOctet
  end.
(** bsn1/src/contents_ref.rs:224-236 *)
Definition to_bool_der (bs : list N) : res bool :=
  match bs with
  | [] => Err UnterminatedBytes
  | [b] => if b =? 0 then Ok false else if b =? 0xff then Ok true else Err InvalidDerBooleanContents
  | _ => Err ExtraContentsOctet
  end.
