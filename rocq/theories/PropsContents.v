(** C08-C11: contents octets of integers and booleans. *)
From Verif Require Import Base ModelTag ModelContents Spec ContentsProofs.

(** The values of the types, in numbers. *)
Theorem C08_int_ranges : forall t v, in_range t v <->
  match t with
  | I8 => -128 <= v <= 127 | U8 => 0 <= v <= 255
  | I16 => -32768 <= v <= 32767 | U16 => 0 <= v <= 65535
  | I32 => -2147483648 <= v <= 2147483647 | U32 => 0 <= v <= 4294967295
  | I64 | ISize => -9223372036854775808 <= v <= 9223372036854775807
  | U64 | USize => 0 <= v <= 18446744073709551615
  | I128 => -170141183460469231731687303715884105728 <= v <= 170141183460469231731687303715884105727
  | U128 => 0 <= v <= 340282366920938463463374607431768211455
  end%Z.
Proof. intros [] v; apply iff_refl. Qed.
Print Assumptions C08_int_ranges.
Example C08_ranges_ex : in_range USize 18446744073709551615 /\ ~ in_range U32 4294967296 /\ in_range I16 (-32768).
Proof. rewrite !C08_int_ranges. lia. Qed.

Theorem C08_int_contents_shortest : forall t v, in_range t v ->
  exists bs, Contents_from_int t v = Ok bs /\ bytes_ok bs /\ shortest_twos bs /\ twos_value bs = v.
Proof. exact from_int_spec. Qed.
Print Assumptions C08_int_contents_shortest.
Example C08_ex :
  in_range I128 (-129) /\ Contents_from_int I128 (-129) = Ok [0xff; 0x7f] /\
  in_range U8 255 /\ Contents_from_int U8 255 = Ok [0x00; 0xff] /\
  in_range I64 (-9223372036854775808) /\
  Contents_from_int I64 (-9223372036854775808) = Ok [0x80; 0; 0; 0; 0; 0; 0; 0] /\
  twos_value [0xff; 0x7f] = (-129)%Z.
Proof. repeat split; vm_compute; congruence. Qed.

Theorem C09_to_integer_accepts : forall t bs v, bytes_ok bs ->
  (to_integer t bs = Ok v <-> shortest_twos bs /\ twos_value bs = v /\ in_range t v).
Proof. exact to_integer_iff. Qed.
Print Assumptions C09_to_integer_accepts.
Theorem C09_to_integer_errors : forall t bs e, bytes_ok bs ->
  (to_integer t bs = Err e <->
   (bs = [] /\ e = UnterminatedBytes) \/
   (bs <> [] /\ ~ shortest_twos bs /\ e = RedundantBytes) \/
   (shortest_twos bs /\ ~ in_range t (twos_value bs) /\ e = OverFlow)).
Proof. exact to_integer_err_iff. Qed.
Print Assumptions C09_to_integer_errors.
Theorem C09_to_integer_no_panic : forall t bs, bytes_ok bs -> to_integer t bs <> Panic /\ to_integer t bs <> NoFuel.
Proof. exact to_integer_no_panic. Qed.
Print Assumptions C09_to_integer_no_panic.
(** The unchecked variant gives the same number whenever its contract is met. *)
Theorem C09_to_integer_unchecked : forall t bs v, bytes_ok bs -> to_integer t bs = Ok v -> to_integer_unchecked t bs = Ok v.
Proof. exact to_integer_unchecked_agrees. Qed.
Print Assumptions C09_to_integer_unchecked.
Example C09_ex :
  to_integer I16 [0xff; 0x7f] = Ok (-129)%Z /\ to_integer U16 [0xff; 0x7f] = Err OverFlow /\
  to_integer I8 [0xff; 0x7f] = Err OverFlow /\ to_integer I16 [0xff; 0x80] = Err RedundantBytes /\
  to_integer U8 [0; 0x80] = Ok 128%Z /\ to_integer I8 [0; 0x80] = Err OverFlow /\
  to_integer I8 [] = Err UnterminatedBytes.
Proof. repeat split. Qed.

Theorem C10_int_round_trip : forall t u v, in_range t v ->
  exists bs, Contents_from_int t v = Ok bs /\ bytes_ok bs /\
    (in_range u v -> to_integer u bs = Ok v) /\
    (~ in_range u v -> to_integer u bs = Err OverFlow).
Proof. exact int_round_trip. Qed.
Print Assumptions C10_int_round_trip.
(** Decoding is injective: the accepted octets are the ones the encoder produces. *)
Theorem C10_int_encoding_unique : forall t bs v, bytes_ok bs -> to_integer t bs = Ok v -> Contents_from_int t v = Ok bs.
Proof. exact int_encoding_unique. Qed.
Print Assumptions C10_int_encoding_unique.
Example C10_ex :
  in_range U64 200 /\ Contents_from_int U64 200 = Ok [0; 200] /\ in_range U8 200 /\ ~ in_range I8 200 /\
  to_integer U8 [0; 200] = Ok 200%Z /\ to_integer I8 [0; 200] = Err OverFlow.
Proof. repeat split; try (vm_compute; congruence). intros [_ H]. vm_compute in H. congruence. Qed.

Theorem C11_bool_ber : forall bs b, bytes_ok bs ->
  (to_bool_ber bs = Ok b <-> exists o, bs = [o] /\ (b = false <-> o = 0)).
Proof. exact bool_ber. Qed.
Print Assumptions C11_bool_ber.
Theorem C11_bool_der : forall bs b, to_bool_der bs = Ok b <-> bs = (if b then [0xff] else [0x00]).
Proof. exact bool_der. Qed.
Print Assumptions C11_bool_der.
Theorem C11_bool_encode : forall b,
  to_bool_der (Contents_from_bool b) = Ok b /\ to_bool_ber (Contents_from_bool b) = Ok b.
Proof. intros [|]; split; reflexivity. Qed.
Print Assumptions C11_bool_encode.
Theorem C11_bool_errors : forall bs,
  (bs = [] -> to_bool_ber bs = Err UnterminatedBytes /\ to_bool_der bs = Err UnterminatedBytes) /\
  (1 < nlen bs -> to_bool_ber bs = Err ExtraContentsOctet /\ to_bool_der bs = Err ExtraContentsOctet) /\
  (forall o, bs = [o] -> o <> 0 -> o <> 255 -> to_bool_der bs = Err InvalidDerBooleanContents).
Proof. exact bool_errors. Qed.
Print Assumptions C11_bool_errors.
Example C11_ex : to_bool_ber [7] = Ok true /\ to_bool_der [7] = Err InvalidDerBooleanContents /\
  to_bool_der [0xff] = Ok true /\ to_bool_ber [0; 0] = Err ExtraContentsOctet.
Proof. repeat split. Qed.
