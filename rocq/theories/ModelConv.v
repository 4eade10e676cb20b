(** Conversions between slices, vectors, borrowed and owned values, access through [AsRef], [AsMut], [Deref] and [Index],
    and the numbers of identifiers.  A borrowed value is its octets ([mem::transmute] of the slice), an owned one its buffer. *)
From Verif Require Import Base ModelError ModelTag ModelContents ModelBuf ModelTlv.

(** ** Borrowed values *)

(** bsn1/src/der_ref.rs:206-208, 237-239; ber_ref.rs:207-209, 237-239; identifier_ref.rs:169-171, 208-210;
    contents_ref.rs:239-243, 251-255: [mem::transmute] *)
Definition DerRef_from_bytes_unchecked (bytes : list N) : list N := bytes.
Definition DerRef_from_mut_bytes_unchecked (bytes : list N) : list N := bytes.
Definition BerRef_from_bytes_unchecked (bytes : list N) : list N := bytes.
Definition BerRef_from_mut_bytes_unchecked (bytes : list N) : list N := bytes.
Definition IdRef_from_bytes_unchecked (bytes : list N) : list N := bytes.
Definition IdRef_from_mut_bytes_unchecked (bytes : list N) : list N := bytes.
Definition ContentsRef_from_slice (bytes : list N) : list N := bytes.
Definition ContentsRef_from_mut_slice (bytes : list N) : list N := bytes.
(** contents_ref.rs:245-249, 257-261: an array, as a slice *)
Definition ContentsRef_from_array (bytes : list N) : list N := ContentsRef_from_slice bytes.
Definition ContentsRef_from_mut_array (bytes : list N) : list N := ContentsRef_from_mut_slice bytes.
(** contents_ref.rs:263-267; a string is its octets *)
Definition ContentsRef_from_str (s : list N) : list N := ContentsRef_from_slice s.
(** contents_ref.rs:269-279 *)
Definition ContentsRef_from_bool (val : bool) : list N :=
  if val then ContentsRef_from_array [0xff] else ContentsRef_from_array [0x00].
(** ber_ref.rs:395-399 *)
Definition BerRef_from_DerRef (der : list N) : list N := BerRef_from_bytes_unchecked der.
(** AsRef<[u8]>: der_ref.rs:394-398, ber_ref.rs:401-405, contents_ref.rs:281-285, identifier_ref.rs:651-655 *)
Definition DerRef_as_ref (self : list N) : list N := self.
Definition BerRef_as_ref (self : list N) : list N := self.
Definition ContentsRef_as_ref (self : list N) : list N := self.
Definition IdRef_as_ref (self : list N) : list N := self.
(** contents_ref.rs:48-50, 67-69; identifier_ref.rs:422-424 *)
Definition ContentsRef_len (self : list N) : N := nlen self.
Definition ContentsRef_is_empty (self : list N) : bool := ContentsRef_len self =? 0.
Definition IdRef_len (self : list N) : N := nlen self.

(** ** Owned values *)

(** From<Buffer>: der.rs:496-500, ber.rs:688-692, contents.rs:126-130, identifier.rs:229-233 *)
Definition Der_from_Buffer (buffer : buf) : buf := buffer.
Definition Ber_from_Buffer (buffer : buf) : buf := buffer.
Definition Contents_from_Buffer (buffer : buf) : buf := buffer.
Definition Id_from_Buffer (buffer : buf) : buf := buffer.
(** der.rs:222-226, ber.rs:366-370, identifier.rs:164-168 *)
Definition Der_from_bytes_unchecked (cfg : bufcfg) (bytes : list N) : res buf := bf_from_slice cfg bytes.
Definition Ber_from_bytes_unchecked (cfg : bufcfg) (bytes : list N) : res buf := bf_from_slice cfg bytes.
Definition Id_from_bytes_unchecked (cfg : bufcfg) (bytes : list N) : res buf := bf_from_slice cfg bytes.
(** der.rs:251-255, ber.rs:395-399: a vector with [spare] octets more *)
Definition Der_from_vec_unchecked (cfg : bufcfg) (bytes spare : list N) : buf := bf_from_vec cfg bytes spare.
Definition Ber_from_vec_unchecked (cfg : bufcfg) (bytes spare : list N) : buf := bf_from_vec cfg bytes spare.
(** der.rs:323-325, ber.rs:506-508 *)
Definition Der_into_vec (self : buf) : list N := bf_into_vec self.
Definition Ber_into_vec (self : buf) : list N := bf_into_vec self.
(** identifier.rs:220-226 *)
Definition Id_from_IdRef (cfg : bufcfg) (idref : list N) : res buf := bf_from_slice cfg (IdRef_as_ref idref).
(** contents.rs:132-138, 140-146, 148-152, 154-158, 160-166, 168-174 *)
Definition Contents_from_ContentsRef (cfg : bufcfg) (value : list N) : res buf := bf_from_slice cfg (ContentsRef_as_ref value).
Definition Contents_from_slice (cfg : bufcfg) (bytes : list N) : res buf := bf_from_slice cfg bytes.
Definition Contents_from_array (cfg : bufcfg) (bytes : list N) : res buf := Contents_from_slice cfg bytes.
Definition Contents_from_str (cfg : bufcfg) (value : list N) : res buf := Contents_from_slice cfg value.
Definition Contents_from_vec (cfg : bufcfg) (value spare : list N) : buf := bf_from_vec cfg value spare.
Definition Contents_from_string (cfg : bufcfg) (value spare : list N) : buf := bf_from_vec cfg value spare.
(** contents.rs:272-283, into a buffer *)
Definition Contents_from_bool_buf (cfg : bufcfg) (val : bool) : res buf :=
  if val then bf_from_slice cfg [0xff] else bf_from_slice cfg [0x00].
(** ToOwned: der_ref.rs:400-406, ber_ref.rs:407-413, contents_ref.rs:322-328, identifier_ref.rs:657-663 *)
Definition DerRef_to_owned (cfg : bufcfg) (self : list N) : res buf := Der_from_bytes_unchecked cfg (DerRef_as_ref self).
Definition BerRef_to_owned (cfg : bufcfg) (self : list N) : res buf := Ber_from_bytes_unchecked cfg (BerRef_as_ref self).
Definition ContentsRef_to_owned (cfg : bufcfg) (self : list N) : res buf := Contents_from_ContentsRef cfg self.
Definition IdRef_to_owned (cfg : bufcfg) (self : list N) : res buf := Id_from_bytes_unchecked cfg (IdRef_as_ref self).
(** der.rs:502-506 *)
Definition Der_from_DerRef (cfg : bufcfg) (der_ref : list N) : res buf := DerRef_to_owned cfg der_ref.
(** der.rs:662-664, ber.rs:694-698, 700-706, 708-712 *)
Definition disassemble_der (der : buf) : buf := der.
Definition Ber_from_DerRef (cfg : bufcfg) (der : list N) : res buf := BerRef_to_owned cfg (BerRef_from_DerRef der).
Definition Ber_from_Der (der : buf) : buf := disassemble_der der.
Definition Ber_from_BerRef (cfg : bufcfg) (ber_ref : list N) : res buf := BerRef_to_owned cfg ber_ref.
(** ber.rs:714-719, 721-803, 805-810, 812-817: the DER, converted *)
Definition Ber_from_bool (cfg : bufcfg) (contents : bool) : res buf := let! d := Der_from_bool cfg contents in Ok (Ber_from_Der d).
Definition Ber_from_int (cfg : bufcfg) (t : int_ty) (contents : Z) : res buf := let! d := Der_from_int cfg t contents in Ok (Ber_from_Der d).
Definition Ber_from_str (cfg : bufcfg) (contents : list N) : res buf := let! d := Der_from_str cfg contents in Ok (Ber_from_Der d).
Definition Ber_from_bytes (cfg : bufcfg) (contents : list N) : res buf := let! d := Der_from_bytes cfg contents in Ok (Ber_from_Der d).

(** Deref: der.rs:639-645, ber.rs:843-849, contents.rs:315-321, identifier.rs:259-265 *)
Definition Der_deref (self : buf) : list N := DerRef_from_bytes_unchecked (bf_slice self).
Definition Ber_deref (self : buf) : list N := BerRef_from_bytes_unchecked (bf_slice self).
Definition Contents_deref (self : buf) : list N := ContentsRef_from_slice (bf_slice self).
Definition Id_deref (self : buf) : list N := IdRef_from_bytes_unchecked (bf_slice self).
(** AsRef<[u8]>: der.rs:615-619, ber.rs:819-823, contents.rs:285-289, identifier.rs:235-239 *)
Definition Der_as_ref (self : buf) : list N := bf_slice self.
Definition Ber_as_ref (self : buf) : list N := bf_slice self.
Definition Contents_as_ref (self : buf) : list N := ContentsRef_as_ref (Contents_deref self).
Definition Id_as_ref (self : buf) : list N := bf_slice self.
(** AsRef of the borrowed type: der.rs:621-625, ber.rs:825-829, contents.rs:291-295, identifier.rs:241-245; Borrow: der.rs:633-637,
    ber.rs:837-841, contents.rs:309-313, identifier.rs:253-257 *)
Definition Der_as_DerRef (self : buf) : list N := Der_deref self.
Definition Ber_as_BerRef (self : buf) : list N := Ber_deref self.
Definition Contents_as_ContentsRef (self : buf) : list N := Contents_deref self.
Definition Id_as_IdRef (self : buf) : list N := Id_deref self.
(** DerefMut: der.rs:647-651, ber.rs:851-855, contents.rs:323-327, identifier.rs:267-271; AsMut: der.rs:627-631, ber.rs:831-835,
    contents.rs:297-307, identifier.rs:247-251, contents_ref.rs:287-291.  A mutable reference to the octets, with what is
    written through it: all of them, from [f] of the old ones. *)
Definition through_mut (f : list N -> list N) (self : buf) : res buf :=
  if nlen (f (bf_slice self)) =? nlen (bf_slice self) then bf_write 0 (f (bf_slice self)) self else Panic.
Definition Der_as_mut := through_mut.
Definition Ber_as_mut := through_mut.
Definition Contents_as_mut := through_mut.
Definition Id_as_mut := through_mut.

(** ** Index *)

(** The types that index slices (std): a number, [a..b], [a..], [..b], [..], [a..=b], [..=b]. *)
Inductive slice_index := At (n : N) | Range (a b : N) | RangeFrom (a : N) | RangeTo (b : N) | RangeFull | RangeInclusive (a b : N) | RangeToInclusive (b : N).
(** [SliceIndex::index] (std): where the selected octets begin and how many there are; a bad index panics. *)
Definition select_range (len a b : N) : res (N * N) := if (a <=? b) && (b <=? len) then Ok (a, b - a) else Panic.
Definition select (len : N) (i : slice_index) : res (N * N) :=
  match i with
  | At n => if n <? len then Ok (n, 1) else Panic
  | Range a b => select_range len a b
  | RangeFrom a => if a <=? len then Ok (a, len - a) else Panic
  | RangeTo b => select_range len 0 b
  | RangeFull => Ok (0, len)
  | RangeInclusive a b => if b =? usize_limit - 1 then Panic else select_range len a (b + 1)
  | RangeToInclusive b => if b =? usize_limit - 1 then Panic else select_range len 0 (b + 1)
  end.
(** contents_ref.rs:293-302 *)
Definition ContentsRef_index (self : list N) (i : slice_index) : res (list N) :=
  let! (off, n) := select (nlen (ContentsRef_as_ref self)) i in Ok (take n (drop off (ContentsRef_as_ref self))).
(** contents_ref.rs:304-311, and [f] of the octets written through it *)
Definition ContentsRef_index_mut (self : list N) (i : slice_index) (f : list N -> list N) : res (list N) :=
  let! (off, n) := select (nlen self) i in
  let old := take n (drop off self) in
  if nlen (f old) =? nlen old then Ok (take off self ++ f old ++ drop (off + n) self) else Panic.

(** ** Tag numbers *)

(** id_tags.rs:45-79: [as u128] of u8, u16, u32, u64, u128, usize *)
Definition TagNumber_from (n : N) : N := n mod 2 ^ 128.
(** id_tags.rs:81-86 *)
Definition TagNumber_get (self : N) : N := self.
