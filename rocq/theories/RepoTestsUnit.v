(** The unit tests of bsn1/src, run on the model: each example is what the test of that name
    (in the file given) asserts.  Long loops (over all of u16 or i16, or pairs of octets) are
    thinned by a step.  These are tests, not proofs. *)
From Verif Require Import Base ModelError ModelIo ModelTag ModelContents ModelBuf ModelTlv ModelHeap ModelBufLE ModelBufUE ModelTlvRaw ModelPartsRaw.

(** [lo..=hi] by [step], and loops *)
Definition steps (lo step hi : N) : list N := map (fun i => lo + step * N.of_nat i) (seq 0 (N.to_nat ((hi - lo) / step + 1))).
Definition upto (lo hi : N) : list N := steps lo 1 hi.
Definition zsteps (lo step hi : Z) : list Z := map (fun i => (lo + step * Z.of_nat i)%Z) (seq 0 (Z.to_nat ((hi - lo) / step + 1))).
Definition each {A} (l : list A) (f : A -> bool) : bool := forallb f l.
Definition CLASSES := [Universal; Application; ContextSpecific; Private].
Definition PCS := [Primitive; Constructed].
Definition tags (f : class_tag -> pc_tag -> bool) : bool := each CLASSES (fun c => each PCS (f c)).
(** assertions *)
Definition class_eqb (a b : class_tag) : bool := class_u8 a =? class_u8 b.
Definition pc_eqb (a b : pc_tag) : bool := pc_u8 a =? pc_u8 b.
Definition is_ok {A} (r : res A) (f : A -> bool) : bool := match r with Ok a => f a | _ => false end.
Definition is_err {A} (r : res A) (e : error) : bool := match r with Err e' => Error_eqb e e' | _ => false end.
Definition fails {A} (r : res A) : bool := match r with Err _ => true | _ => false end.
Definition length_is (l : Length) (n : N) : bool := Length_eqb l (Definite n).
Definition bytes : list N := upto 0 255.
Definition some_bytes : list N := upto 0 24 ++ steps 25 5 120 ++ upto 121 131 ++ steps 132 9 252 ++ [253; 254; 255].

(** ** bsn1/src/identifier_ref.rs *)
Definition id_first (c : class_tag) (p : pc_tag) : N := class_u8 c + pc_u8 p + ID_LONG_FLAG.
Definition id_ok (bs : list N) : bool :=
  let (r, rest) := IdRef_parse bs in is_ok r (fun id => bytes_eqb id bs) && bytes_eqb rest [].
Definition id_bad (e : error) (bs : list N) : bool :=
  let (r, rest) := IdRef_parse bs in is_err r e && bytes_eqb rest bs.
Example parse_1byte_ok : tags (fun c p => each (upto 0 0x1e) (fun i => id_ok [class_u8 c + pc_u8 p + i])) = true.
Proof. vm_compute. reflexivity. Qed.
Example parse_2byte_ok : tags (fun c p => each (upto 0x1f 0x7f) (fun i => id_ok [id_first c p; i])) = true.
Proof. vm_compute. reflexivity. Qed.
Example parse_3byte_ok : tags (fun c p => each (steps 0x80 41 0x3fff) (fun i =>
  id_ok [id_first c p; N.lor (as_u8 (N.shiftr i 7)) MORE_FLAG; N.land (as_u8 i) (not_u8 MORE_FLAG)])) = true.
Proof. vm_compute. reflexivity. Qed.
Example parse_4byte_ok : tags (fun c p => let i := 0x4000 in
  id_ok [id_first c p; N.lor (as_u8 (N.shiftr i 14)) MORE_FLAG; N.lor (as_u8 (N.shiftr i 7)) MORE_FLAG; N.land (as_u8 i) (not_u8 MORE_FLAG)]) = true.
Proof. vm_compute. reflexivity. Qed.
Example parse_2byte_redundant : tags (fun c p => each (upto 0 0x1e) (fun i => id_bad RedundantBytes [id_first c p; i])) = true.
Proof. vm_compute. reflexivity. Qed.
Example parse_3byte_redundant : tags (fun c p => each (upto 0 255) (fun i => id_bad RedundantBytes [id_first c p; 0; i])) = true.
Proof. vm_compute. reflexivity. Qed.
Example parse_empty_unterminated : id_bad UnterminatedBytes [] = true.
Proof. vm_compute. reflexivity. Qed.
Example parse_1byte_unterminated : tags (fun c p => id_bad UnterminatedBytes [id_first c p]) = true.
Proof. vm_compute. reflexivity. Qed.
Example parse_2byte_unterminated : tags (fun c p => each (upto 0x81 255) (fun i => id_bad UnterminatedBytes [id_first c p; i])) = true.
Proof. vm_compute. reflexivity. Qed.
Example parse_3byte_unterminated : tags (fun c p => each (steps 0x81 11 255) (fun i => each (steps 0x80 3 255) (fun j =>
  id_bad UnterminatedBytes [id_first c p; i; j]))) = true.
Proof. vm_compute. reflexivity. Qed.
Definition id_is (id : list N) (c : class_tag) (p : pc_tag) (n : N) : bool :=
  is_ok (IdRef_class id) (class_eqb c) && is_ok (IdRef_pc id) (pc_eqb p) && is_ok (IdRef_number id) (N.eqb n).
Example set_class : tags (fun c0 p => each CLASSES (fun c1 => each (steps 0 1285 65535) (fun i =>
  is_ok (let! id := Id_new c0 p i in IdRef_set_class c1 id) (fun id => id_is id c1 p i)))) = true.
Proof. vm_compute. reflexivity. Qed.
Example set_pc : tags (fun c p0 => each PCS (fun p1 => each (steps 0 1285 65535) (fun i =>
  is_ok (let! id := Id_new c p0 i in IdRef_set_pc p1 id) (fun id => id_is id c p1 i)))) = true.
Proof. vm_compute. reflexivity. Qed.

(** ** bsn1/src/identifier.rs *)
Definition U128_MAX : N := 2 ^ 128 - 1.
Definition some_u16 : list N := steps 0 3 300 ++ steps 300 401 65535 ++ [16383; 16384; 65535].
Example number_ok : tags (fun c p => each (some_u16 ++ [U128_MAX]) (fun i =>
  is_ok (Id_new c p i) (fun id => is_ok (IdRef_number id) (N.eqb i)))) = true.
Proof. vm_compute. reflexivity. Qed.
Example number_overflow : tags (fun c p =>
  let bs := N.lor (N.lor (class_u8 c) (pc_u8 p)) ID_LONG_FLAG :: 0x84 :: repeat 0x80 17 ++ [0] in
  is_ok (fst (Id_parse slice_reader 30 bs)) (fun id => fails (IdRef_number id))) = true.
Proof. vm_compute. reflexivity. Qed.
Example id_new : tags (fun c p => each (some_u16 ++ [U128_MAX]) (fun i =>
  is_ok (Id_new c p i) (fun id => id_is id c p i && is_ok (fst (IdRef_parse id)) (bytes_eqb id)))) = true.
Proof. vm_compute. reflexivity. Qed.
Definition makes (c : class_tag) (p : pc_tag) (n : N) (expected : list N) : bool := is_ok (Id_new c p n) (bytes_eqb expected).
Example new_1_byte : tags (fun c p => each (upto 0 0x1e) (fun i => makes c p i [class_u8 c + pc_u8 p + i])) = true.
Proof. vm_compute. reflexivity. Qed.
Example new_2_byte : tags (fun c p => each (upto 0x1f 0x7f) (fun i => makes c p i [id_first c p; i])) = true.
Proof. vm_compute. reflexivity. Qed.
Example new_3_byte : tags (fun c p => each (steps 0x80 41 0x3fff) (fun i =>
  makes c p i [id_first c p; N.lor (as_u8 (N.shiftr i 7)) MORE_FLAG; N.land (as_u8 i) (not_u8 MORE_FLAG)])) = true.
Proof. vm_compute. reflexivity. Qed.
Example new_4_bytes : tags (fun c p => each [0x4000; 0x1fffff] (fun i =>
  makes c p i [id_first c p; N.lor (as_u8 (N.shiftr i 14)) MORE_FLAG; N.lor (as_u8 (N.shiftr i 7)) MORE_FLAG; N.land (as_u8 i) (not_u8 MORE_FLAG)])) = true.
Proof. vm_compute. reflexivity. Qed.
(** The octets are popped one by one. *)
Fixpoint pops (rev_octets : list N) (num : N) (first : N) : bool :=
  match rev_octets with
  | [] => false
  | [b] => (num =? 0) && (b =? first)
  | b :: l => (b =? N.lor (as_u8 num) MORE_FLAG) && pops l (N.shiftr num 7) first
  end.
Example new_max_bytes : tags (fun c p => is_ok (Id_new c p U128_MAX) (fun id =>
  match rev id with
  | [] => false
  | b :: l => (b =? N.land (as_u8 U128_MAX) (not_u8 MORE_FLAG)) && pops l (N.shiftr U128_MAX 7) (id_first c p)
  end)) = true.
Proof. vm_compute. reflexivity. Qed.
Fixpoint renumber (c : class_tag) (p : pc_tag) (ns : list N) (id : list N) : bool :=
  match ns with
  | [] => true
  | n :: ns' => is_ok (Id_set_number n id) (fun id' => id_is id' c p n && renumber c p ns' id')
  end.
Example set_number : tags (fun c p => is_ok (Id_new c p 0) (renumber c p (some_u16 ++ rev some_u16))) = true.
Proof. vm_compute. reflexivity. Qed.

(** ** bsn1/src/length.rs *)
(** The value, the octets put aside and the octets left. *)
Definition len_reads (bs : list N) (l : Length -> bool) (written left : list N) : bool :=
  match parse_length slice_reader (bs, []) with
  | (Ok v, (rest, w)) => l v && bytes_eqb w written && bytes_eqb rest left
  | _ => false
  end.
Definition len_fails (bs : list N) (e : error) : bool := is_err (fst (parse_length slice_reader (bs, []))) e.
Definition def (n : N) (l : Length) : bool := length_is l n.
Definition USIZE_MAX : N := 2 ^ 64 - 1.
Example indefinite_without_extra_octet : len_reads [0x80] Length_is_indefinite [0x80] [] = true.
Proof. vm_compute. reflexivity. Qed.
Example indefinite_and_extra_octet : each bytes (fun i => len_reads [0x80; i] Length_is_indefinite [0x80] [i]) = true.
Proof. vm_compute. reflexivity. Qed.
Example short_form_without_extra_octet : each (upto 0 0x7f) (fun i => len_reads [i] (def i) [i] []) = true.
Proof. vm_compute. reflexivity. Qed.
Example short_form_and_extra_octet : each (upto 0 0x7f) (fun i => each (steps 0 5 255) (fun j => len_reads [i; j] (def i) [i] [j])) = true.
Proof. vm_compute. reflexivity. Qed.
Example two_bytes_without_extra_octet : each (upto 0x80 255) (fun i => len_reads [0x81; i] (def i) [0x81; i] []) = true.
Proof. vm_compute. reflexivity. Qed.
Example two_bytes_and_extra_octet : each (upto 0x80 255) (fun i => each (steps 0 5 255) (fun j => len_reads [0x81; i; j] (def i) [0x81; i] [j])) = true.
Proof. vm_compute. reflexivity. Qed.
Example three_bytes_without_extra_octet : each [0x100; 0xffff] (fun i => let i0 := as_u8 (N.shiftr i 8) in let i1 := as_u8 i in
  len_reads [0x82; i0; i1] (def i) [0x82; i0; i1] []) = true.
Proof. vm_compute. reflexivity. Qed.
Example three_bytes_and_extra_octet : each [0x100; 0xffff] (fun i => each bytes (fun j => let i0 := as_u8 (N.shiftr i 8) in let i1 := as_u8 i in
  len_reads [0x82; i0; i1; j] (def i) [0x82; i0; i1] [j])) = true.
Proof. vm_compute. reflexivity. Qed.
Example max_without_extra_octet : let bs := 0x88 :: repeat 0xff 8 in len_reads bs (def USIZE_MAX) bs [] = true.
Proof. vm_compute. reflexivity. Qed.
Example max_and_extra_octet : let bs := 0x88 :: repeat 0xff 8 in each bytes (fun j => len_reads (bs ++ [j]) (def USIZE_MAX) bs [j]) = true.
Proof. vm_compute. reflexivity. Qed.
Example overflow : each (upto 1 255) (fun i => each (steps 0 51 255) (fun j => len_fails (0x89 :: i :: repeat j 8) OverFlow)) = true.
Proof. vm_compute. reflexivity. Qed.
Example long_form_for_small_length : each (upto 0 0x7f) (fun i => len_fails [0x81; i] RedundantBytes) = true.
Proof. vm_compute. reflexivity. Qed.
Example long_form_starting_with_0x00 : each bytes (fun i => each (upto 3 9) (fun j =>
  len_fails (0x80 + j - 1 :: 0 :: repeat i (N.to_nat (j - 2))) RedundantBytes)) = true.
Proof. vm_compute. reflexivity. Qed.
Example unterminated : each (upto 0 128 ++ [USIZE_MAX]) (fun i => let bs := Length_to_bytes (Definite i) in
  len_fails (take (nlen bs - 1) bs) UnterminatedBytes) = true.
Proof. vm_compute. reflexivity. Qed.
Example to_bytes_indefinite : Length_to_bytes Indefinite = [0x80].
Proof. vm_compute. reflexivity. Qed.
Example to_bytes_definite : each (upto 0 256 ++ [USIZE_MAX]) (fun i => let bs := Length_to_bytes (Definite i) in
  len_reads bs (def i) bs []) = true.
Proof. vm_compute. reflexivity. Qed.
Example len : (Length_len Indefinite =? 1) && each (upto 0 127) (fun i => Length_len (Definite i) =? 1) &&
  each [128; 255] (fun i => Length_len (Definite i) =? 2) && each [257; 65535] (fun i => Length_len (Definite i) =? 3) &&
  (Length_len (Definite USIZE_MAX) =? 9) = true.
Proof. vm_compute. reflexivity. Qed.

(** ** bsn1/src/contents.rs and contents_ref.rs *)
(** [i.unsigned_shr(8) as u8] and [i as u8] *)
Definition hi (i : Z) : N := Z.to_N ((i / 256) mod 256).
Definition lo (i : Z) : N := Z.to_N (i mod 256).
Definition from_is (t : int_ty) (i : Z) (expected : list N) : bool := is_ok (Contents_from_int t i) (bytes_eqb expected).
Definition i16s : list Z := (zsteps (-32768) 701 32767 ++ zsteps (-300) 7 300 ++ [32766; 32767])%Z.
Definition u16s : list Z := (zsteps 0 701 65535 ++ zsteps 0 7 300 ++ [32767; 32768; 65535])%Z.
Example contents_from_i8 : each (zsteps (-128) 1 127) (fun i => from_is I8 i [lo i]) = true.
Proof. vm_compute. reflexivity. Qed.
Example contents_from_u8 : each (zsteps 0 1 127) (fun i => from_is U8 i [lo i]) && each (zsteps 128 1 255) (fun i => from_is U8 i [0; lo i]) = true.
Proof. vm_compute. reflexivity. Qed.
Example contents_from_i16 : each i16s (fun i => ((-128 <=? i)%Z && (i <=? 127)%Z) || from_is I16 i [hi i; lo i]) = true.
Proof. vm_compute. reflexivity. Qed.
Example contents_from_u16 : each u16s (fun i => (i <? 32768)%Z || from_is U16 i [0; hi i; lo i]) = true.
Proof. vm_compute. reflexivity. Qed.
Example contents_from_i128 : from_is I128 (int_min I128) (0x80 :: repeat 0 15) && from_is I128 (int_max I128) (0x7f :: repeat 0xff 15) = true.
Proof. vm_compute. reflexivity. Qed.
Example contents_from_u128 : from_is U128 (int_max I128 + 1) (0 :: 0x80 :: repeat 0 15) && from_is U128 (int_max U128) (0 :: repeat 0xff 16) = true.
Proof. vm_compute. reflexivity. Qed.
Definition back (t : int_ty) (i : Z) : bool := is_ok (let! c := Contents_from_int t i in to_integer t c) (Z.eqb i).
Definition back_unchecked (t : int_ty) (i : Z) : bool := is_ok (let! c := Contents_from_int t i in to_integer_unchecked t c) (Z.eqb i).
Definition i32s : list Z := [int_min I32; int_min I16 - 1; int_max I16 + 1; int_max I32]%Z.
Definition u32s : list Z := [int_max I32 + 1; int_max U32]%Z.
Definition i128s : list Z := [int_min I128; int_min I64 - 1; int_min I64; int_max I64; int_max I64 + 1; int_max I128]%Z.
Definition u128s : list Z := [int_max I128 + 1; int_max U128]%Z.
Example contents_to_integer_ok : each i16s (back I16) && each u16s (back U16) && each i32s (back I32) && each u32s (back U32) &&
  each i128s (back I128) && each u128s (back U128) = true.
Proof. vm_compute. reflexivity. Qed.
Example contents_to_integer_unchecked : each (zsteps (-128) 1 127) (back_unchecked I8) && each (zsteps 0 1 255) (back_unchecked U8) &&
  each i16s (back_unchecked I16) && each u16s (back_unchecked U16) && each i32s (back_unchecked I32) && each u32s (back_unchecked U32) &&
  each i128s (back_unchecked I128) && each u128s (back_unchecked U128) = true.
Proof. vm_compute. reflexivity. Qed.
Definition ok {A} (r : res A) : bool := is_ok r (fun _ => true).
Example empty_contents_to_integer : fails (to_integer I32 []) = true.
Proof. vm_compute. reflexivity. Qed.
Example redundant_contents_to_integer :
  each [[0; 0]; [0; 0x7f]; [0xff; 0xff]; [0xff; 0x80]] (fun c => fails (to_integer I32 c)) &&
  each [[0; 0x80]; [0; 0xff]; [0xff; 0x7f]; [0xff; 0]] (fun c => ok (to_integer I32 c)) = true.
Proof. vm_compute. reflexivity. Qed.
Example overflow_contents_to_integer :
  each [([0xff; 0x7f; 0xff; 0xff; 0xff], (false, false)); ([0x80; 0; 0; 0], (true, false)); ([0xff], (true, false));
        ([0], (true, true)); ([0x7f; 0xff; 0xff; 0xff], (true, true)); ([0; 0x80; 0; 0; 0], (false, true))]
    (fun x => let '(c, (i, u)) := x in
      (if i then ok (to_integer I32 c) else fails (to_integer I32 c)) && (if u then ok (to_integer U32 c) else fails (to_integer U32 c))) = true.
Proof. vm_compute. reflexivity. Qed.
Example contents_to_bool_ber : each [[]; [1; 2]; [1; 2; 3]] (fun c => fails (to_bool_ber c)) && is_ok (to_bool_ber [0]) negb &&
  each (upto 1 255) (fun i => is_ok (to_bool_ber [i]) (fun b => b)) = true.
Proof. vm_compute. reflexivity. Qed.
Example contents_to_bool_der : each [[]; [1; 2]; [1; 2; 3]] (fun c => fails (to_bool_der c)) && is_ok (to_bool_der [0]) negb &&
  is_ok (to_bool_der [0xff]) (fun b => b) && each (upto 1 254) (fun i => fails (to_bool_der [i])) = true.
Proof. vm_compute. reflexivity. Qed.
Example contents_from_bool : Contents_from_bool true = [0xff] /\ Contents_from_bool false = [0].
Proof. vm_compute. split; reflexivity. Qed.

(** ** bsn1/src/der.rs and der_ref.rs *)
Definition cfg16 : bufcfg := {| init_cap := 16; junk := fun i => 7 * i |}.
Definition cfg23 : bufcfg := {| init_cap := 23; junk := fun i => 3 * i + 1 |}.
Definition layouts (f : bufcfg -> bool) : bool := each [cfg16; cfg23] f.
Definition byteses : list (list N) := [[]; [0]; [0xff]; [0; 0]; [0xff; 0xff]].
Definition tlv_is (o : list N) (id : list N) (l : Length -> bool) (contents : list N) : bool :=
  is_ok (tlv_id o) (bytes_eqb id) && is_ok (tlv_length o) l && is_ok (tlv_contents o) (bytes_eqb contents).
Definition octets (r : res buf) (f : list N -> bool) : bool := is_ok r (fun b => f (bf_slice b)).
Example der_new : layouts (fun cfg => each byteses (fun c =>
  octets (Der_new cfg ID_OCTET_STRING c) (fun o => tlv_is o ID_OCTET_STRING (def (nlen c)) c))) = true.
Proof. vm_compute. reflexivity. Qed.
Example from_id_iterator : layouts (fun cfg => each
  [([], []); ([[]], []); ([[1; 2; 3]], [1; 2; 3]); ([[]; []], []); ([[]; [1; 2]], [1; 2]); ([[3]; []], [3]); ([[1; 2]; [3]], [1; 2; 3])]
  (fun x => octets (Der_from_id_iterator cfg ID_OCTET_STRING (fst x)) (fun o =>
    octets (Der_new cfg ID_OCTET_STRING (snd x)) (bytes_eqb o)))) = true.
Proof. vm_compute. reflexivity. Qed.
Example der_from_bool : layouts (fun cfg => each [false; true] (fun b =>
  octets (Der_from_bool cfg b) (fun o => is_ok (tlv_id o) (bytes_eqb ID_BOOLEAN) &&
    is_ok (let! c := tlv_contents o in to_bool_der c) (Bool.eqb b)))) = true.
Proof. vm_compute. reflexivity. Qed.
Definition der_int (t : int_ty) (i : Z) : bool := layouts (fun cfg =>
  octets (Der_from_int cfg t i) (fun o => is_ok (tlv_id o) (bytes_eqb ID_INTEGER) &&
    is_ok (let! c := tlv_contents o in to_integer t c) (Z.eqb i))).
Definition signed_range (t : int_ty) : list Z := (int_min t :: (int_min I16 - 1)%Z :: i16s ++ [int_max I16 + 1; int_max t])%Z.
Definition unsigned_range (t : int_ty) : list Z := (u16s ++ [int_max U16 + 1; int_max t])%Z.
Example from_8 : each (zsteps (-128) 1 127) (der_int I8) && each (zsteps 0 1 255) (der_int U8) = true.
Proof. vm_compute. reflexivity. Qed.
Example from_16 : each i16s (der_int I16) && each u16s (der_int U16) = true.
Proof. vm_compute. reflexivity. Qed.
Example from_32_to_size : each [I32; I64; I128; ISize] (fun t => each (signed_range t) (der_int t)) &&
  each [U32; U64; U128; USize] (fun t => each (unsigned_range t) (der_int t)) = true.
Proof. vm_compute. reflexivity. Qed.
(** foo *)
Example from_str : layouts (fun cfg => octets (Der_from_str cfg [0x66; 0x6f; 0x6f]) (fun o =>
  is_ok (tlv_id o) (bytes_eqb ID_UTF8_STRING) && is_ok (tlv_contents o) (bytes_eqb [0x66; 0x6f; 0x6f]))) = true.
Proof. vm_compute. reflexivity. Qed.
Example der_parse : layouts (fun cfg => each byteses (fun c =>
  octets (Der_new cfg ID_OCTET_STRING c) (fun o => is_ok (fst (DerRef_parse o)) (bytes_eqb o)))) = true.
Proof. vm_compute. reflexivity. Qed.
(** i and j by steps *)
Definition some_lens : list N := [0; 1; 13; 14; 20; 21; 63; 64; 122; 127; 128; 255].
Example extend_from_slice : layouts (fun cfg => each some_lens (fun i => each some_lens (fun j =>
  octets (let! b := Der_from_bytes cfg (take i bytes) in Der_extend cfg (take j bytes) b)
    (fun o => tlv_is o ID_OCTET_STRING (def (i + j)) (take i bytes ++ take j bytes))))) = true.
Proof. vm_compute. reflexivity. Qed.
Example truncate : layouts (fun cfg =>
  each some_bytes (fun i => octets (let! b := Der_from_bytes cfg bytes in Der_truncate i b)
    (fun o => tlv_is o ID_OCTET_STRING (def i) (take i bytes))) &&
  each [256; 257] (fun i => octets (let! b := Der_from_bytes cfg bytes in let! b := Der_truncate i b in Der_truncate (nlen (bf_slice b) + 1) b)
    (fun o => tlv_is o ID_OCTET_STRING (def 256) bytes))) = true.
Proof. vm_compute. reflexivity. Qed.
Definition parses (parse : list N -> res (list N) * list N) (o : list N) : bool :=
  let (r, rest) := parse o in is_ok r (bytes_eqb o) && bytes_eqb rest [].
Example parse_single : each some_bytes (fun i => octets (Der_from_bytes cfg16 (take i bytes)) (parses DerRef_parse)) = true.
Proof. vm_compute. reflexivity. Qed.
Example parse_recursive : each some_bytes (fun i =>
  octets (let! inner := Der_from_bytes cfg16 (take i bytes) in Der_new cfg16 ID_SEQUENCE (bf_slice inner)) (parses DerRef_parse)) = true.
Proof. vm_compute. reflexivity. Qed.

(** ** bsn1/src/ber.rs and ber_ref.rs: the parse tests are the same for [Ber::parse], which
    reads a slice here, and [BerRef::parse]. *)
Definition ber_parses (o : list N) : bool := parses BerRef_parse o && parses (Ber_parse slice_reader 300) o.
(** [(0..10).map(Ber::from)], integers of i32, the first [i] of them joined *)
Definition ints (i : nat) : list N := concat (map (fun v => match Der_from_int cfg23 I32 (Z.of_nat v) with Ok b => bf_slice b | _ => [] end) (seq 0 i)).
Definition indefinite_with_eoc (id contents : list N) : res buf :=
  let! b := Ber_new_indefinite cfg23 id contents in Ber_extend cfg23 EOC b.
Example ber_parse_definite : each some_bytes (fun i => octets (Der_from_bytes cfg23 (take i bytes)) ber_parses) = true.
Proof. vm_compute. reflexivity. Qed.
Example ber_parse_indefinite : each (seq 0 10) (fun i => octets (indefinite_with_eoc ID_SEQUENCE (ints i)) ber_parses) = true.
Proof. vm_compute. reflexivity. Qed.
Example ber_parse_definite_in_definite : each some_bytes (fun i =>
  octets (let! inner := Der_from_bytes cfg23 (take i bytes) in Ber_new cfg23 ID_SEQUENCE (bf_slice inner)) ber_parses) = true.
Proof. vm_compute. reflexivity. Qed.
Example ber_parse_indefinite_in_definite : each (seq 0 10) (fun i =>
  octets (let! inner := indefinite_with_eoc ID_OCTET_STRING (ints i) in Ber_new cfg23 ID_SEQUENCE (bf_slice inner)) ber_parses) = true.
Proof. vm_compute. reflexivity. Qed.
Example ber_parse_definite_in_indefinite : each some_bytes (fun i =>
  octets (let! inner := Der_from_bytes cfg23 (take i bytes) in indefinite_with_eoc ID_SEQUENCE (bf_slice inner)) ber_parses) = true.
Proof. vm_compute. reflexivity. Qed.
Example ber_parse_indefinite_in_indefinite : each (seq 0 10) (fun i =>
  octets (let! inner := indefinite_with_eoc ID_OCTET_STRING (ints i) in indefinite_with_eoc ID_SEQUENCE (bf_slice inner)) ber_parses) = true.
Proof. vm_compute. reflexivity. Qed.
Example truncate_definite : layouts (fun cfg =>
  each some_bytes (fun i => octets (let! b := Der_from_bytes cfg bytes in Ber_truncate i b)
    (fun o => tlv_is o ID_OCTET_STRING (def i) (take i bytes))) &&
  each [256; 257] (fun i => octets (let! b := Der_from_bytes cfg bytes in let! b := Ber_truncate i b in Ber_truncate (nlen (bf_slice b) + 1) b)
    (fun o => tlv_is o ID_OCTET_STRING (def 256) bytes))) = true.
Proof. vm_compute. reflexivity. Qed.
Example truncate_indefinite : layouts (fun cfg =>
  each some_bytes (fun i => octets (let! b := Ber_new_indefinite cfg ID_OCTET_STRING bytes in Ber_truncate i b)
    (fun o => tlv_is o ID_OCTET_STRING Length_is_indefinite (take i bytes))) &&
  each [256; 257] (fun i => octets (let! b := Ber_new_indefinite cfg ID_OCTET_STRING bytes in let! b := Ber_truncate i b in Ber_truncate (nlen (bf_slice b) + 1) b)
    (fun o => tlv_is o ID_OCTET_STRING Length_is_indefinite bytes))) = true.
Proof. vm_compute. reflexivity. Qed.
Example extend_definite_from_slice : layouts (fun cfg => each some_lens (fun i => each some_lens (fun j =>
  octets (let! b := Der_from_bytes cfg (take i bytes) in Ber_extend cfg (take j bytes) b)
    (fun o => tlv_is o ID_OCTET_STRING (def (i + j)) (take i bytes ++ take j bytes))))) = true.
Proof. vm_compute. reflexivity. Qed.
Example extend_indefinite_from_slice : layouts (fun cfg => each some_lens (fun i => each some_lens (fun j =>
  octets (let! b := Ber_new_indefinite cfg ID_OCTET_STRING (take i bytes) in Ber_extend cfg (take j bytes) b)
    (fun o => tlv_is o ID_OCTET_STRING Length_is_indefinite (take i bytes ++ take j bytes))))) = true.
Proof. vm_compute. reflexivity. Qed.

(** ** bsn1/src/buffer/tests.rs, which both layouts of the buffer share: in raw memory. *)
(** Blocks are handed out one after the other. *)
Definition one_by_one : allocator :=
  {| al_pick := fun h n => Some (2 ^ 20 + fold_left (fun a e => N.max a (fst e + nlen (snd e))) h 0);
     al_junk := fun _ a i => a + 5 * i |}.
Definition runs {A} (m : M A) (f : A -> bool) : bool := match m [] with Done a _ => f a | _ => false end.
Section BUFFER.
Context (L : layout).
Definition INIT := L_init_cap L.
(** length, capacity and octets at the end; the buffer is dropped. *)
Definition inspect (b : L_raw L) (cap : N) (o : list N) : M bool :=
  s <-- L_slice L b ;
  let r := (L_len L b =? nlen o) && (L_capacity L b =? cap) && bytes_eqb s o in
  _ <-- L_drop L b ; fun h => Done (r && match h with [] => true | _ => false end) h.
Definition yes (m : M bool) : bool := runs m (fun b => b).
Definition buffer_new : bool := yes (inspect (L_new L) INIT []).
Definition buffer_with_capacity : bool := each (steps 0 3 99) (fun i => yes (
  b <-- L_with_capacity L one_by_one i ; inspect b (N.max INIT i) [])).
Definition buffer_reserve : bool := each (upto 0 39) (fun i =>
  yes (b <-- L_reserve L one_by_one i (L_new L) ; inspect b (N.max INIT i) []) &&
  yes (b <-- L_from_slice L one_by_one [1] ; b <-- L_reserve L one_by_one i b ; inspect b (N.max INIT (i + 1)) [1]) &&
  (let v := upto 0 199 in
   yes (b <-- L_from_slice L one_by_one v ; b <-- L_reserve L one_by_one i b ; inspect b (N.max INIT (i + nlen v)) v))).
Fixpoint push_all (v : list N) (b : L_raw L) : M (L_raw L) :=
  match v with [] => mret b | c :: v' => b <-- L_push L c b ; push_all v' b end.
Definition buffer_push : bool :=
  each (upto 0 (INIT - 1)) (fun i => let v := take i bytes in yes (b <-- push_all v (L_new L) ; inspect b INIT v)) &&
  each (steps 0 3 99) (fun i => let v := take i bytes in
    yes (b <-- L_with_capacity L one_by_one i ; b <-- push_all v b ; inspect b (N.max INIT i) v)).
Fixpoint extend_tens (is : list N) (b : L_raw L) (v : list N) : M bool :=
  match is with
  | [] => _ <-- L_drop L b ; mret true
  | i :: is' =>
      b <-- L_reserve L one_by_one 10 b ; b <-- L_extend L (repeat i 10) b ;
      s <-- L_slice L b ; if bytes_eqb s (v ++ repeat i 10) then extend_tens is' b s else mret false
  end.
Definition buffer_extend_from_slice : bool := yes (extend_tens (upto 0 39) (L_new L) []).
Definition buffer_from_empty_vec : bool := yes (b <-- L_from_vec L vec_new ; inspect b INIT []).
Definition buffer_from_capacity_vec : bool := each (upto 1 99) (fun i => yes (
  v <-- vec_make one_by_one [] i ; b <-- L_from_vec L v ; inspect b i [])).
Definition buffer_from_filled_vec : bool := each (tl some_bytes) (fun i => yes (
  v <-- vec_make one_by_one (take i bytes) 0 ; b <-- L_from_vec L v ; inspect b i (take i bytes))).
Definition buffer_into_vec : bool := each (tl some_bytes) (fun i => yes (
  b <-- L_from_slice L one_by_one (take i bytes) ; v <-- L_into_vec L one_by_one b ;
  s <-- vec_slice v ; _ <-- vec_drop v ; mret (bytes_eqb s (take i bytes)))).
Definition buffer_tests : bool := buffer_new && buffer_with_capacity && buffer_reserve && buffer_push && buffer_extend_from_slice &&
  buffer_from_empty_vec && buffer_from_capacity_vec && buffer_from_filled_vec && buffer_into_vec.
End BUFFER.
Example little_endian_tests : buffer_tests LE = true.
Proof. vm_compute. reflexivity. Qed.
Example universal_endian_tests : buffer_tests UE = true.
Proof. vm_compute. reflexivity. Qed.

(** ** bsn1/src/length_buffer.rs *)
Example length_buffer_new : lb_len lb_new = 0.
Proof. reflexivity. Qed.
Fixpoint lb_fill (is : list N) (b : lbuf) (v : list N) : M bool :=
  match is with
  | [] => mret (lb_len b =? LB_CAPACITY)
  | i :: is' =>
      if negb (lb_len b =? i) then mret false
      else
        b <-- lb_push i b ;
        s <-- lb_deref b ;
        if bytes_eqb s (v ++ [i]) then lb_fill is' b s else mret false
  end.
Example length_buffer_push : yes (lb_fill (upto 0 (LB_CAPACITY - 1)) lb_new []) = true.
Proof. vm_compute. reflexivity. Qed.
