(** Comparison, hashing and conversion of owned and borrowed values. *)
From Verif Require Import Base ModelTag ModelBuf ModelTlv ModelSerde.

(** [<[u8] as Ord>::cmp] (std): memcmp over the common length, then the lengths. *)
Fixpoint memcmp (n : nat) (a b : list N) : comparison :=
  match n, a, b with
  | S n', x :: a', y :: b' => match x ?= y with Eq => memcmp n' a' b' | c => c end
  | _, _, _ => Eq
  end.
Definition slice_cmp (a b : list N) : comparison :=
  match memcmp (Nat.min (length a) (length b)) a b with Eq => nlen a ?= nlen b | c => c end.
(** The calls a hasher receives.  [<[u8] as Hash>::hash] (std): the length, then the octets. *)
Inductive hcall := HUsize (n : N) | HBytes (bs : list N).
Definition slice_hash (bs : list N) : list hcall := [HUsize (nlen bs); HBytes bs].

(** bsn1/src/buffer/mod.rs:155-159, 175-200: Hash, PartialEq<T>, PartialOrd<T>, Ord of
    Buffer; [T: Borrow<[u8]>] is given by its octets. *)
Definition Buffer_hash (b : buf) : list hcall := slice_hash (bf_slice b).
Definition Buffer_eq (b : buf) (other : list N) : bool := bytes_eqb (bf_slice b) other.
Definition Buffer_partial_cmp (b : buf) (other : list N) : option comparison := Some (slice_cmp (bf_slice b) other).
Definition Buffer_cmp (a b : buf) : comparison := slice_cmp (bf_slice a) (bf_slice b).

(** A right hand side [T: Borrow<DerRef>] (or BerRef, ContentsRef, IdRef): the borrowed type
    itself or the owned one. *)
Inductive operand := Ref (bs : list N) | Own (b : buf).
(** Borrow::borrow: bsn1/src/der.rs:633-637, ber.rs:837-841, contents.rs:309-313,
    identifier.rs:253-257; Deref::deref: der.rs:639-645, ber.rs:843-849, contents.rs:315-321,
    identifier.rs:259-265; the reflexive Borrow of std. *)
Definition borrow (x : operand) : list N := match x with Ref bs => bs | Own b => bf_slice b end.

(** #[derive(PartialEq, Eq, Hash)] of DerRef (der_ref.rs:23), BerRef (ber_ref.rs:35),
    ContentsRef (contents_ref.rs:30) and IdRef (identifier_ref.rs:34, with PartialOrd and
    Ord): of the only field, the octets. *)
Definition ref_eq (a b : list N) : bool := bytes_eqb a b.
Definition ref_hash (a : list N) : list hcall := slice_hash a.
Definition IdRef_partial_cmp (a b : list N) : option comparison := Some (slice_cmp a b).
Definition IdRef_cmp (a b : list N) : comparison := slice_cmp a b.
(** PartialEq<T> of the borrowed types: der_ref.rs:408-415, ber_ref.rs:415-422,
    contents_ref.rs:313-320, identifier_ref.rs:665-672; PartialOrd<T> of IdRef:
    identifier_ref.rs:674-681. *)
Definition ref_eq_any (a : list N) (other : operand) : bool := ref_eq a (borrow other).
Definition IdRef_partial_cmp_any (a : list N) (other : operand) : option comparison := IdRef_partial_cmp a (borrow other).
(** PartialEq<T> of the owned types: der.rs:653-660, ber.rs:857-864, contents.rs:329-336,
    identifier.rs:273-280; PartialOrd<T> of Id: identifier.rs:282-289. *)
Definition owned_eq_any (b : buf) (other : operand) : bool := ref_eq (bf_slice b) (borrow other).
Definition Id_partial_cmp_any (b : buf) (other : operand) : option comparison := IdRef_partial_cmp (bf_slice b) (borrow other).
(** #[derive(Eq, Hash)] of Der (der.rs:27), Ber (ber.rs:38), Contents (contents.rs:28) and
    Id (identifier.rs:32, with Ord): of the only field, the buffer. *)
Definition owned_hash (b : buf) : list hcall := Buffer_hash b.
Definition Id_cmp (a b : buf) : comparison := Buffer_cmp a b.

(** ** OctetString: bsn1_serde/src/octet_string.rs *)
(** Cow<[u8]>, octet_string.rs:36-38; its derived comparisons and hash look through Cow. *)
Inductive cow := Borrowed (bs : list N) | Owned (bs : list N).
Definition cow_octets (c : cow) : list N := match c with Borrowed bs | Owned bs => bs end.
Definition OctetString_eq (a b : cow) : bool := bytes_eqb (cow_octets a) (cow_octets b).
Definition OctetString_cmp (a b : cow) : comparison := slice_cmp (cow_octets a) (cow_octets b).
Definition OctetString_hash (a : cow) : list hcall := slice_hash (cow_octets a).
(** octet_string.rs:42-49, new; 57-61, as_ref; 52-54, into_vec *)
Definition OctetString_new (val : list N) : cow := Borrowed val.
Definition OctetString_as_ref (a : cow) : list N := cow_octets a.
Definition OctetString_into_vec (a : cow) : list N := match a with Borrowed bs => bs | Owned bs => bs end.
(** octet_string.rs:107-150: From<OctetString> for Vec<u8>, From<Vec<u8>>, From<&[u8]>,
    TryFrom<OctetString> for String, From<String>, From<&str>.  A string is its octets. *)
Definition Vec_from_OctetString (a : cow) : list N := OctetString_into_vec a.
Definition OctetString_from_vec (v : list N) : cow := Owned v.
Definition OctetString_from_slice (v : list N) : cow := Borrowed v.
Definition String_try_from_OctetString (a : cow) : option (list N) :=
  if utf8_valid (OctetString_into_vec a) then Some (OctetString_into_vec a) else None.
Definition OctetString_from_string (s : list N) : cow := Owned s.
Definition OctetString_from_str (s : list N) : cow := Borrowed s.
