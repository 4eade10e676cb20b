(** The unit tests of bsn1_serde/src, run on the model; as in RepoTestsUnit. *)
From Coq Require Import String Ascii.
From Verif Require Import Base ModelError ModelIo ModelTag ModelContents ModelBuf ModelTlv ModelSerde.
From Verif Require Import RepoTests RepoTestsUnit.
Local Open Scope N_scope.
Local Open Scope list_scope.

Definition E := test_env.
Definition der_of_test {T} (D : serialize T) (v : T) : res (list N) := let! b := to_der E D v in Ok (bf_slice b).
Definition ber_of_test {T} (D : serialize T) (v : T) : res (list N) := let! b := to_ber E D v in Ok (bf_slice b).
Definition some_len (r : res (option N)) (n : N) : bool := is_ok r (fun o => match o with Some k => k =? n | None => false end).
(** Identifier, length, contents, and the lengths announced. *)
Definition announces {T} (D : serialize T) (v : T) (id contents : list N) : bool :=
  is_ok (der_of_test D v) (fun o => tlv_is o id (def (nlen contents)) contents) &&
  some_len (id_len D v) (nlen id) && some_len (der_contents_len D v) (nlen contents).
(** Both ways, DER and BER. *)
Definition there_and_back {T} (S : serialize T) (D : deserialize T) (eqb : T -> T -> bool) (v : T) : bool :=
  is_ok (let! o := ber_of_test S v in serde_from_ber D o) (eqb v) && is_ok (let! o := der_of_test S v in serde_from_der D o) (eqb v).

(** ** ser/mod.rs *)
Example bool_to_der : each [true; false] (fun b => announces ser_bool b ID_BOOLEAN (Contents_from_bool b) &&
  is_ok (der_of_test ser_bool b) (fun o => octets (Der_from_bool cfg23 b) (bytes_eqb o))) = true.
Proof. vm_compute. reflexivity. Qed.
Definition int_test (t : int_ty) (v : Z) : bool :=
  is_ok (Contents_from_int t v) (fun c => announces (ser_int t) v ID_INTEGER c).
Definition ends (t : int_ty) : list Z := [int_min t; 0%Z; int_max t].
Definition wide : list int_ty := [I32; U32; I64; U64; I128; U128; ISize; USize].
Example ints_to_der : each (zsteps (-128) 1 127) (int_test I8) && each (zsteps 0 1 255) (int_test U8) &&
  each i16s (int_test I16) && each u16s (int_test U16) && each wide (fun t => each (ends t) (int_test t)) = true.
Proof. vm_compute. reflexivity. Qed.
(** The last one is five letters of three octets each. *)
Definition strings : list (list N) := [[]; octets_of "a"; octets_of "abc";
  [0xe3; 0x81; 0x82; 0xe3; 0x81; 0x84; 0xe3; 0x81; 0x86; 0xe3; 0x81; 0x88; 0xe3; 0x81; 0x8a]].
Example string_to_der : each strings (fun s => announces ser_string s ID_UTF8_STRING s) = true.
Proof. vm_compute. reflexivity. Qed.
(** The contents are the TLVs of the integers, read one after the other. *)
Fixpoint reads_ints (t : int_ty) (vs : list Z) (contents : list N) : bool :=
  match vs with
  | [] => bytes_eqb contents []
  | v :: vs' =>
      let (r, rest) := DerRef_parse contents in
      is_ok r (fun o => is_ok (Contents_from_int t v) (fun c => tlv_is o ID_INTEGER (def (nlen c)) c)) && reads_ints t vs' rest
  end.
Definition items_test (D : serialize (list Z)) (id : list N) (t : int_ty) (vs : list Z) : bool :=
  is_ok (der_of_test D vs) (fun o => is_ok (tlv_id o) (bytes_eqb id) &&
    is_ok (tlv_contents o) (fun c => reads_ints t vs c && some_len (id_len D vs) (nlen id) && some_len (der_contents_len D vs) (nlen c) &&
      is_ok (tlv_length o) (def (nlen c)))).
Definition zrange (lo : Z) (n : nat) : list Z := map (fun i => (lo + Z.of_nat i)%Z) (seq 0 n).
Example vec_to_der : each [0; 1; 2; 3; 10; 41; 42; 43; 99]%nat (fun n => items_test (ser_vec E (ser_int I32)) ID_SEQUENCE I32 (zrange 0 n)) = true.
Proof. vm_compute. reflexivity. Qed.
Example collections_to_der : each [0; 256]%nat (fun n =>
  items_test (ser_linked_list E (ser_int I8)) ID_SEQUENCE I8 (zrange (-128) n) &&
  items_test (ser_vec_deque E (ser_int I8)) ID_SEQUENCE I8 (zrange (-128) n) &&
  items_test (ser_btree_set E (ser_int I8)) ID_SEQUENCE I8 (zrange (-128) n) &&
  items_test (ser_hash_set E (ser_int I8)) ID_SET I8 (zrange (-128) n)) = true.
Proof. vm_compute. reflexivity. Qed.
Fixpoint reads_entries (vs : list (Z * list N)) (contents : list N) : bool :=
  match vs with
  | [] => bytes_eqb contents []
  | (k, v) :: vs' =>
      let (r, rest) := DerRef_parse contents in
      is_ok r (fun o => is_ok (tlv_id o) (bytes_eqb ID_SEQUENCE) && is_ok (tlv_contents o) (fun c =>
        let (r1, c1) := DerRef_parse c in let (r2, c2) := DerRef_parse c1 in bytes_eqb c2 [] &&
        is_ok r1 (fun o1 => is_ok (Contents_from_int I8 k) (fun c => tlv_is o1 ID_INTEGER (def (nlen c)) c)) &&
        is_ok r2 (fun o2 => tlv_is o2 ID_UTF8_STRING (def (nlen v)) v))) && reads_entries vs' rest
  end.
Definition map_test (D : serialize (list (Z * list N))) (id : list N) (n : nat) : bool :=
  let vs := map (fun i => (i, to_string i)) (zrange (-128) n) in
  is_ok (der_of_test D vs) (fun o => is_ok (tlv_id o) (bytes_eqb id) && is_ok (tlv_contents o) (reads_entries vs)).
Example maps_to_der : each [0; 256]%nat (fun n => map_test (ser_btree_map E (ser_int I8) ser_string) ID_SEQUENCE n &&
  map_test (ser_hash_map E (ser_int I8) ser_string) ID_SET n) = true.
Proof. vm_compute. reflexivity. Qed.

(** ** de/mod.rs *)
Example boolean : each [false; true] (there_and_back ser_bool (de_bool E) Bool.eqb) = true.
Proof. vm_compute. reflexivity. Qed.
Definition int_back (t : int_ty) : Z -> bool := there_and_back (ser_int t) (de_int E t) Z.eqb.
Example ints_back : each (zsteps (-128) 1 127) (int_back I8) && each (zsteps 0 1 255) (int_back U8) &&
  each i16s (int_back I16) && each u16s (int_back U16) && each wide (fun t => each (ends t) (int_back t)) = true.
Proof. vm_compute. reflexivity. Qed.
Example string : each strings (there_and_back ser_string (de_string E) bytes_eqb) = true.
Proof. vm_compute. reflexivity. Qed.
Fixpoint list_eqb {A} (eqb : A -> A -> bool) (a b : list A) : bool :=
  match a, b with [], [] => true | x :: a', y :: b' => eqb x y && list_eqb eqb a' b' | _, _ => false end.
(** [test_env] puts a new element of a hash collection at the front: the same set is the
    reversed list. *)
Definition same_set {A} (eqb : A -> A -> bool) (a b : list A) : bool := list_eqb eqb a (rev b).
Definition three : list (list Z) := [[-1; 0; 1]; [1]; []]%Z.
Example sequences_back : each three (fun v =>
  there_and_back (ser_vec E (ser_int I32)) (de_vec E (de_int E I32)) (list_eqb Z.eqb) v &&
  there_and_back (ser_linked_list E (ser_int I32)) (de_linked_list E (de_int E I32)) (list_eqb Z.eqb) v &&
  there_and_back (ser_vec_deque E (ser_int I32)) (de_vec_deque E (de_int E I32)) (list_eqb Z.eqb) v) = true.
Proof. vm_compute. reflexivity. Qed.
Example sets_back : each (seq 0 20) (fun n => let v := zrange (-10) n in
  there_and_back (ser_btree_set E (ser_int I32)) (de_btree_set E Z.compare (de_int E I32)) (list_eqb Z.eqb) v &&
  there_and_back (ser_hash_set E (ser_int I32)) (de_hash_set E Z.eqb (de_int E I32)) (same_set Z.eqb) v) = true.
Proof. vm_compute. reflexivity. Qed.
Definition pair_eqb (a b : Z * Z) : bool := Z.eqb (fst a) (fst b) && Z.eqb (snd a) (snd b).
Example maps_back : each (seq 0 20) (fun n => let v := combine (zrange (-10) n) (zrange 100 n) in
  there_and_back (ser_btree_map E (ser_int I32) (ser_int I32)) (de_btree_map E Z.compare (de_int E I32) (de_int E I32)) (list_eqb pair_eqb) v &&
  there_and_back (ser_hash_map E (ser_int I32) (ser_int I32)) (de_hash_map E Z.eqb (de_int E I32) (de_int E I32)) (same_set pair_eqb) v) = true.
Proof. vm_compute. reflexivity. Qed.

(** ** octet_string.rs *)
Example serialize_octet_string : announces ser_octets [1; 2; 3] ID_OCTET_STRING [1; 2; 3] = true.
Proof. vm_compute. reflexivity. Qed.
Example deserialize_octet_string : there_and_back ser_octets de_octets bytes_eqb [1; 2; 3] = true.
Proof. vm_compute. reflexivity. Qed.

(** ** lib.rs *)
Example test_to_der : is_ok (der_of_test (ser_int U16) 0x1234%Z) (fun o => is_ok (Contents_from_int U16 0x1234%Z) (fun c =>
  is_ok (tlv_id o) (bytes_eqb ID_INTEGER) && is_ok (tlv_contents o) (bytes_eqb c))) = true.
Proof. vm_compute. reflexivity. Qed.
Example test_to_ber : is_ok (ber_of_test ser_string (octets_of "abc")) (fun o =>
  is_ok (tlv_id o) (bytes_eqb ID_UTF8_STRING) && is_ok (tlv_contents o) (bytes_eqb (octets_of "abc"))) = true.
Proof. vm_compute. reflexivity. Qed.
Definition vec_i32 := de_vec E (de_int E I32).
Example test_from : there_and_back (ser_vec E (ser_int I32)) vec_i32 (list_eqb Z.eqb) [1; 2; 3]%Z = true.
Proof. vm_compute. reflexivity. Qed.
Example test_from_ber_indefinite : is_ok (let! o := ber_of_test (ser_vec E (ser_int I32)) [1; 2; 3]%Z in
  let! c := tlv_contents o in let! b := indefinite_with_eoc ID_SEQUENCE c in serde_from_ber vec_i32 (bf_slice b)) (list_eqb Z.eqb [1; 2; 3]%Z) = true.
Proof. vm_compute. reflexivity. Qed.
(** A [Vec<u8>] takes all it is given. *)
Definition vec_writer : writer (list N) := {| wr_write := fun s bs => (WrOk (nlen bs), s ++ bs); wr_fuel := 20 |}.
Definition written {T} (D : serialize T) (v : T) : res (list N) :=
  match write_der E D vec_writer v [] with (Ok _, s) => Ok s | (Err e, _) => Err e | (Panic, _) => Panic | (NoFuel, _) => NoFuel end.
Definition bwritten {T} (D : serialize T) (v : T) : res (list N) :=
  match write_ber E D vec_writer v [] with (Ok _, s) => Ok s | (Err e, _) => Err e | (Panic, _) => Panic | (NoFuel, _) => NoFuel end.
Example test_write : is_ok (written ser_bool true) (fun o => is_ok (der_of_test ser_bool true) (bytes_eqb o)) &&
  is_ok (written (ser_int I32) 0x1234%Z) (fun o => is_ok (der_of_test (ser_int I32) 0x1234%Z) (bytes_eqb o)) = true.
Proof. vm_compute. reflexivity. Qed.
Example test_read :
  is_ok (let! o := written (ser_int I32) 0x1234%Z in fst (read_der (de_int E I32) slice_reader 10 o)) (Z.eqb 0x1234%Z) &&
  is_ok (let! o := bwritten (ser_int I32) 0x1234%Z in fst (read_ber (de_int E I32) slice_reader 10 o)) (Z.eqb 0x1234%Z) &&
  is_ok (let! o := written (ser_int I32) 0x1234%Z in fst (parse_der (de_int E I32) o)) (Z.eqb 0x1234%Z) &&
  is_ok (let! o := bwritten (ser_int I32) 0x1234%Z in fst (parse_ber (de_int E I32) o)) (Z.eqb 0x1234%Z) = true.
Proof. vm_compute. reflexivity. Qed.
(** Types that do not tell one of their lengths, or neither, alone and in vectors *)
Definition same_as (D : serialize Z) (v : Z) : bool :=
  is_ok (der_of_test D v) (fun o => is_ok (der_of_test (ser_int I16) v) (bytes_eqb o)) &&
  is_ok (ber_of_test D v) (fun o => is_ok (ber_of_test (ser_int I16) v) (bytes_eqb o)).
Definition same_vec (D : serialize Z) (v : list Z) : bool :=
  is_ok (der_of_test (ser_vec E D) v) (fun o => is_ok (der_of_test (ser_vec E (ser_int I16)) v) (bytes_eqb o)) &&
  is_ok (ber_of_test (ser_vec E D) v) (fun o => is_ok (ber_of_test (ser_vec E (ser_int I16)) v) (bytes_eqb o)).
Example test_write_none : each [no_contents_len (ser_int I16); no_id_len (ser_int I16); no_id_len (no_contents_len (ser_int I16))] (fun D =>
  each i16s (same_as D) && each (seq 0 10) (fun n => same_vec D (zrange 0 n))) = true.
Proof. vm_compute. reflexivity. Qed.
(** [NoneLenEnum]: six kinds of variants, by number; the wrapped ones do the same. *)
Definition none_len_enum : serialize (N * Z) :=
  let D := ser_int I16 in
  {| write_id := fun _ W v => write_id D W (snd v); write_der_contents := fun _ W v => write_der_contents D W (snd v);
     id_len := fun v => if fst v <? 2 then id_len D (snd v) else Ok None;
     der_contents_len := fun v => if (2 <=? fst v) && (fst v <? 4) then der_contents_len D (snd v) else Ok None |}.
Definition same_enum (v : N * Z) : bool :=
  is_ok (der_of_test none_len_enum v) (fun o => is_ok (der_of_test (ser_int I16) (snd v)) (bytes_eqb o)).
Example test_write_none_len_enum : each (upto 0 5) (fun k => each i16s (fun i => same_enum (k, i))) &&
  each (seq 0 10) (fun n => let va := concat (map (fun i => map (fun k => (k, i)) (upto 0 5)) (zrange 0 n)) in
    is_ok (der_of_test (ser_vec E none_len_enum) va) (fun o => is_ok (der_of_test (ser_vec E (ser_int I16)) (map snd va)) (bytes_eqb o)) &&
    is_ok (ber_of_test (ser_vec E none_len_enum) va) (fun o => is_ok (ber_of_test (ser_vec E (ser_int I16)) (map snd va)) (bytes_eqb o))) = true.
Proof. vm_compute. reflexivity. Qed.
