(** When values have the same encoding; the order of SET OF in DER. *)
From Verif Require Import Base ModelIo ModelTag ModelContents ModelTlv ModelSerde Spec SpecCmp SpecSerde.
From Verif Require Import ModelAttr ModelDerive SpecAttr SpecDerive.
From Coq Require Import Sorting.Sorted Sorting.Permutation.

(** ** Types whose encoding is fixed by the value *)
(** Equal values have the same octets. *)
Definition uniform (C : codec) : Prop :=
  forall v w, wf C v -> wf C w -> same C v w -> id_of C v = id_of C w /\ contents_of C v = contents_of C w.
(** Types without hash tables: equal values have the same representation, but for fields that
    are not encoded.  Conversions respect equality. *)
Inductive unhashed_codec : codec -> Prop :=
| uc_bool : unhashed_codec bool_codec
| uc_int t : unhashed_codec (int_codec t)
| uc_string : unhashed_codec string_codec
| uc_octets : unhashed_codec octets_codec
| uc_custom C : uniform C -> unhashed_codec C
| uc_seq C : unhashed_codec C -> unhashed_codec (seq_codec C)
| uc_btree_set C cmp : unhashed_codec C -> unhashed_codec (btree_set_codec C cmp)
| uc_btree_map CK CV cmp : unhashed_codec CK -> unhashed_codec CV -> unhashed_codec (btree_map_codec CK CV cmp)
| uc_struct ID Ts cs : unhashed_fields Ts cs -> unhashed_codec (struct_codec ID Ts cs)
| uc_transparent Ts cs : unhashed_fields Ts cs -> unhashed_codec (transparent_codec Ts cs)
| uc_enum Tss ws : unhashed_variants Tss ws -> unhashed_codec (enum_codec Tss ws)
| uc_via C T (f : T -> car C) (P : T -> Prop) (eqv : T -> T -> Prop) : unhashed_codec C -> (forall v w, P v -> P w -> eqv v w -> same C (f v) (f w)) ->
    unhashed_codec (to_codec (via C f P eqv))
with unhashed_fields : forall Ts : list Type, hlist field_spec Ts -> Prop :=
| uf_nil : unhashed_fields [] tt
| uf_skipped (T : Type) Ts (d : T) cs : unhashed_fields Ts cs -> unhashed_fields (T :: Ts) (Skipped d, cs)
| uf_coded (T : Type) Ts (c : codec_on T) cs : unhashed_codec (to_codec c) -> unhashed_fields Ts cs -> unhashed_fields (T :: Ts) (Coded c, cs)
with unhashed_variants : forall Tss : list (list Type), vlist variant_spec Tss -> Prop :=
| uv_nil : unhashed_variants [] tt
| uv_cons Ts Tss ID (cs : hlist field_spec Ts) ws : unhashed_fields Ts cs -> unhashed_variants Tss ws ->
    unhashed_variants (Ts :: Tss) ((ID, cs), ws).

(** ** X.690 11.6 *)
(** "The encodings of the component values of a set-of value shall appear in ascending order,
    the encodings being compared as octet strings with the shorter components being padded at
    their trailing end with 0-octets." *)
Definition padded (n : nat) (a : list N) : list N := a ++ repeat 0 (n - length a).
Definition not_after (a b : list N) : Prop :=
  let n := Nat.max (length a) (length b) in padded n a = padded n b \/ before (padded n a) (padded n b).
(** The contents of a SET OF in DER. *)
Definition der_set_of (c : list N) : Prop :=
  exists items, c = concat items /\ Forall (fun b => exists id d, der_tlv id d b) items /\ StronglySorted not_after items.
