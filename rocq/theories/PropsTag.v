(** C01-C07, C39: length octets and identifier octets. *)
From Verif Require Import Base ModelIo ModelTag Spec TagProofs IdProofs TagMain.

Theorem C01_length_round_trip : forall n rest, n < 2 ^ 64 -> bytes_ok rest ->
  Length_parse_slice (Length_to_bytes (Definite n) ++ rest) = (Ok (Definite n), rest) /\
  Length_parse_slice (Length_to_bytes Indefinite ++ rest) = (Ok Indefinite, rest).
Proof. exact length_round_trip. Qed.
Print Assumptions C01_length_round_trip.
Example C01_ex : 300 < 2 ^ 64 /\ bytes_ok [1; 2; 0x82] /\
  Length_to_bytes (Definite 300) = [0x82; 1; 44] /\
  Length_parse_slice ([0x82; 1; 44] ++ [1; 2; 0x82]) = (Ok (Definite 300), [1; 2; 0x82]).
Proof. repeat split; repeat constructor. Qed.

Theorem C02_length_accepts_minimal : forall bs len rest, bytes_ok bs ->
  Length_parse_slice bs = (Ok len, rest) ->
  exists l, bs = l ++ rest /\ l = Length_to_bytes len /\ nlen l = Length_len len /\
    match len with
    | Definite n => n < 2 ^ 64 /\ minimal_length n l
    | Indefinite => l = [0x80]
    end.
Proof. exact length_accepts_minimal. Qed.
Print Assumptions C02_length_accepts_minimal.
(** The acceptance is complete: every minimal encoding of a usize is accepted. *)
Theorem C02_length_accepts_all_minimal : forall n l rest, n < 2 ^ 64 -> minimal_length n l -> bytes_ok (l ++ rest) ->
  Length_parse_slice (l ++ rest) = (Ok (Definite n), rest).
Proof. exact length_accepts_all_minimal. Qed.
Print Assumptions C02_length_accepts_all_minimal.
(** [minimal_length] really is the shortest among the X.690 encodings. *)
Theorem C02_minimal_is_shortest : forall n l l', minimal_length n l -> x690_length n l' -> nlen l <= nlen l'.
Proof. exact minimal_is_shortest. Qed.
Print Assumptions C02_minimal_is_shortest.
Theorem C02_length_unique : forall bs bs' len, bytes_ok bs -> bytes_ok bs' ->
  Length_parse_slice bs = (Ok len, []) -> Length_parse_slice bs' = (Ok len, []) -> bs = bs'.
Proof. exact length_unique. Qed.
Print Assumptions C02_length_unique.
Example C02_ex :
  Length_parse_slice [0x82; 1; 44; 9] = (Ok (Definite 300), [9]) /\ minimal_length 300 [0x82; 1; 44] /\
  x690_length 300 [0x83; 0; 1; 44] /\ fst (Length_parse_slice [0x83; 0; 1; 44]) = Err RedundantBytes.
Proof.
  repeat split.
  - apply (ml_long 300 1 [44]); try (vm_compute; congruence); repeat constructor.
  - apply (xl_long 300 [0; 1; 44]); try (vm_compute; congruence); repeat constructor.
Qed.

Theorem C03_length_errors : forall bs e, bytes_ok bs ->
  (fst (Length_parse_slice bs) = Err e <-> length_error bs e).
Proof. exact length_errors. Qed.
Print Assumptions C03_length_errors.
Theorem C03_length_no_panic : forall bs, bytes_ok bs ->
  exists r, fst (Length_parse_slice bs) = r /\ r <> Panic /\ r <> NoFuel /\
    (forall e, r = Err e -> e = UnterminatedBytes \/ e = RedundantBytes \/ e = OverFlow).
Proof. exact length_no_panic. Qed.
Print Assumptions C03_length_no_panic.
Example C03_ex :
  fst (Length_parse_slice [0x82; 1]) = Err UnterminatedBytes /\
  fst (Length_parse_slice [0x81; 0x7f]) = Err RedundantBytes /\
  fst (Length_parse_slice [0x89; 1; 0; 0; 0; 0; 0; 0; 0; 0]) = Err OverFlow /\
  length_error [0x82; 1] UnterminatedBytes.
Proof. repeat split. apply le_truncated; [lia | lia | vm_compute; reflexivity]. Qed.

Theorem C04_id_new : forall c p n, n < 2 ^ 128 ->
  exists bs, Id_new c p n = Ok bs /\ identifier (class_num c) (pc_num p) n bs /\
    IdRef_class bs = Ok c /\ IdRef_pc bs = Ok p /\ IdRef_number bs = Ok n.
Proof. exact id_new_reads_back. Qed.
Print Assumptions C04_id_new.
(** The identifier octets of the specification are the shortest, so no other
    octet string is a valid identifier with the same components. *)
Theorem C04_identifier_unique : forall c p n bs bs', identifier c p n bs -> identifier c p n bs' -> bs = bs'.
Proof. exact identifier_fun. Qed.
Print Assumptions C04_identifier_unique.
Theorem C04_identifier_shortest : forall c p n bs bs',
  identifier c p n bs -> x690_identifier c p n bs' -> nlen bs <= nlen bs'.
Proof. exact identifier_shortest. Qed.
Print Assumptions C04_identifier_shortest.
Example C04_ex : Id_new Private Constructed 300 = Ok [0xff; 0x82; 0x2c] /\
  IdRef_class [0xff; 0x82; 0x2c] = Ok Private /\ IdRef_pc [0xff; 0x82; 0x2c] = Ok Constructed /\
  IdRef_number [0xff; 0x82; 0x2c] = Ok 300.
Proof. repeat split. Qed.

Theorem C05_id_accepts : forall id rest, is_identifier id -> bytes_ok rest ->
  IdRef_parse (id ++ rest) = (Ok id, rest) /\ IdRef_parse_mut (id ++ rest) = (Ok id, rest).
Proof. exact id_accepts. Qed.
Print Assumptions C05_id_accepts.
Theorem C05_id_accepts_only : forall bs id rest, bytes_ok bs ->
  IdRef_parse bs = (Ok id, rest) -> is_identifier id /\ bs = id ++ rest.
Proof. exact id_accepts_only. Qed.
Print Assumptions C05_id_accepts_only.
Theorem C05_id_errors : forall bs e, bytes_ok bs ->
  (IdRef_parse bs = (Err e, bs) <-> identifier_error bs e) /\
  (fst (IdRef_parse bs) = Err e -> IdRef_parse bs = (Err e, bs)) /\
  IdRef_parse_mut bs = IdRef_parse bs.
Proof. exact id_errors. Qed.
Print Assumptions C05_id_errors.
Theorem C05_id_no_panic : forall bs, bytes_ok bs ->
  fst (IdRef_parse bs) <> Panic /\ fst (IdRef_parse bs) <> NoFuel /\
  (forall e, fst (IdRef_parse bs) = Err e -> e = UnterminatedBytes \/ e = RedundantBytes).
Proof. exact id_no_panic. Qed.
Print Assumptions C05_id_no_panic.
Example C05_ex :
  IdRef_parse [0x1f; 0x81; 0x00; 7] = (Ok [0x1f; 0x81; 0x00], [7]) /\
  IdRef_parse [0x1f; 0x80; 0x01] = (Err RedundantBytes, [0x1f; 0x80; 0x01]) /\
  IdRef_parse [0x1f; 0x81; 0x82] = (Err UnterminatedBytes, [0x1f; 0x81; 0x82]) /\
  identifier 0 0 128 [0x1f; 0x81; 0x00].
Proof.
  repeat split. apply (id_long 0 0 128 [1] 0); repeat constructor; try lia; discriminate.
Qed.

Theorem C06_number_exact : forall c p n id, identifier c p n id ->
  IdRef_number id = if n <? 2 ^ 128 then Ok n else Err OverFlow.
Proof. exact IdRef_number_spec. Qed.
Print Assumptions C06_number_exact.
Example C06_ex :
  identifier 0 0 (2 ^ 128) (0x1f :: 0x84 :: repeat 0x80 17 ++ [0x00]) /\
  IdRef_number (0x1f :: 0x84 :: repeat 0x80 17 ++ [0x00]) = Err OverFlow /\
  IdRef_number (0x1f :: 0x83 :: repeat 0xff 17 ++ [0x7f]) = Ok (2 ^ 128 - 1).
Proof.
  repeat split. apply (id_long 0 0 (2 ^ 128) (4 :: repeat 0 17) 0); try lia.
  - repeat constructor.
  - discriminate.
  - reflexivity.
Qed.

Theorem C07_setters : forall cls pc n id, identifier cls pc n id ->
  (forall c, exists id', IdRef_set_class c id = Ok id' /\ identifier (class_num c) pc n id') /\
  (forall p, exists id', IdRef_set_pc p id = Ok id' /\ identifier cls (pc_num p) n id') /\
  (forall m, m < 2 ^ 128 -> exists id', Id_set_number m id = Ok id' /\ identifier cls pc m id').
Proof. exact setters_ok. Qed.
Print Assumptions C07_setters.
(** The same seen through the accessors. *)
Theorem C07_setters_read_back : forall c p n id, identifier (class_num c) (pc_num p) n id -> n < 2 ^ 128 ->
  (forall c', exists id', IdRef_set_class c' id = Ok id' /\ IdRef_class id' = Ok c' /\ IdRef_pc id' = Ok p /\ IdRef_number id' = Ok n) /\
  (forall p', exists id', IdRef_set_pc p' id = Ok id' /\ IdRef_class id' = Ok c /\ IdRef_pc id' = Ok p' /\ IdRef_number id' = Ok n) /\
  (forall m, m < 2 ^ 128 -> exists id', Id_set_number m id = Ok id' /\ IdRef_class id' = Ok c /\ IdRef_pc id' = Ok p /\ IdRef_number id' = Ok m).
Proof. exact setters_read_back. Qed.
Print Assumptions C07_setters_read_back.
Example C07_ex :
  IdRef_set_class Private [0x1f; 0x82; 0x2c] = Ok [0xdf; 0x82; 0x2c] /\
  IdRef_set_pc Constructed [0x1f; 0x82; 0x2c] = Ok [0x3f; 0x82; 0x2c] /\
  Id_set_number 5 [0x1f; 0x82; 0x2c] = Ok [0x05] /\ Id_set_number 16384 [0xa5] = Ok [0xbf; 0x81; 0x80; 0x00] /\
  identifier (class_num Universal) (pc_num Primitive) 300 [0x1f; 0x82; 0x2c].
Proof. repeat split. apply (id_long 0 0 300 [2] 44); repeat constructor; try lia; discriminate. Qed.

Theorem C39_length_order : forall a b c,
  (Length_eqb a b = true <-> exists n, a = Definite n /\ b = Definite n) /\
  (Length_eqb a b = true <-> Length_partial_cmp a b = Some Eq) /\
  (Length_partial_cmp a b = Some Lt <-> exists x y, a = Definite x /\ b = Definite y /\ x < y) /\
  (Length_partial_cmp a b = Some Gt <-> Length_partial_cmp b a = Some Lt) /\
  (Length_partial_cmp a b = None <-> a = Indefinite \/ b = Indefinite) /\
  (Length_partial_cmp a b = Some Lt -> Length_partial_cmp b c = Some Lt -> Length_partial_cmp a c = Some Lt) /\
  (Length_eqb a b = true -> Length_eqb b c = true -> Length_eqb a c = true) /\
  Length_eqb a b = Length_eqb b a.
Proof. exact length_order. Qed.
Print Assumptions C39_length_order.
Example C39_ex : Length_partial_cmp (Definite 3) (Definite 5) = Some Lt /\ Length_eqb Indefinite Indefinite = false.
Proof. split; reflexivity. Qed.
