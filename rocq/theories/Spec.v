(** Independent specification, written from ITU-T X.690 and the crate's public
    documentation.  Nothing here refers to the model of the code. *)
From Verif Require Import Base.

(** ** Big-endian numbers *)
Definition be_value (ds : list N) : N := fold_left (fun a d => a * 256 + d) ds 0.

(** ** Length octets (X.690 8.1.3, restricted to the minimal form of 10.1) *)
Inductive minimal_length : N -> list N -> Prop :=
| ml_short n : n < 128 -> minimal_length n [n]
| ml_long n d ds :
    128 <= n -> bytes_ok (d :: ds) -> d <> 0 -> be_value (d :: ds) = n -> nlen (d :: ds) <= 127 ->
    minimal_length n (128 + nlen (d :: ds) :: d :: ds).

(** Why a string of octets is not (does not start with) a length. *)
Inductive length_error : list N -> error -> Prop :=
| le_empty : length_error [] UnterminatedBytes
| le_only_first f : 128 < f -> length_error [f] UnterminatedBytes
| le_leading_zero f t : 128 < f -> length_error (f :: 0 :: t) RedundantBytes
| le_short_would_do f s t : f = 0x81 -> 0 < s < 128 -> length_error (f :: s :: t) RedundantBytes
| le_too_big f s t : 0x88 < f -> s <> 0 -> length_error (f :: s :: t) OverFlow
| le_truncated f s t :
    0x82 <= f <= 0x88 -> s <> 0 -> nlen (s :: t) < f - 128 ->
    length_error (f :: s :: t) UnterminatedBytes.

(** ** Identifier octets (X.690 8.1.2) *)
(** Class and primitive/constructed as numbers 0..3 and 0..1. *)
Definition b128_value (ds : list N) : N := fold_left (fun a d => a * 128 + d) ds 0.
Inductive identifier (cls pc num : N) : list N -> Prop :=
| id_short :
    cls < 4 -> pc < 2 -> num < 31 -> identifier cls pc num [cls * 64 + pc * 32 + num]
| id_long hi lo :
    cls < 4 -> pc < 2 -> 31 <= num ->
    (* [hi] then [lo]: base-128 digits, most significant first, no leading zero *)
    Forall (fun d => d < 128) (hi ++ [lo]) -> hd lo hi <> 0 ->
    b128_value (hi ++ [lo]) = num ->
    identifier cls pc num (cls * 64 + pc * 32 + 31 :: map (fun d => 128 + d) hi ++ [lo]).
Definition is_identifier (bs : list N) : Prop := exists cls pc num, identifier cls pc num bs.

(** Why a string of octets does not start with an identifier. *)
Inductive identifier_error : list N -> error -> Prop :=
| ie_empty : identifier_error [] UnterminatedBytes
| ie_redundant f s t :
    f mod 32 = 31 -> s < 31 \/ s = 128 -> identifier_error (f :: s :: t) RedundantBytes
| ie_truncated f t :
    f mod 32 = 31 -> Forall (fun o => 128 <= o) t -> hd 255 t <> 128 ->
    identifier_error (f :: t) UnterminatedBytes.

(** ** Two's complement (X.690 8.3) *)
Definition twos_value (bs : list N) : Z :=
  match bs with
  | [] => 0%Z
  | b :: _ => (Z.of_N (be_value bs) - (if (b <? 128)%N then 0 else 256 ^ Z.of_N (nlen bs)))%Z
  end.
(** No shorter non-empty octet string has the same value. *)
Definition shortest_twos (bs : list N) : Prop :=
  bs <> [] /\
  forall bs', bytes_ok bs' -> bs' <> [] -> twos_value bs' = twos_value bs -> nlen bs <= nlen bs'.

(** ** TLVs *)
(** One DER value with given parts. *)
Inductive der_tlv (id contents : list N) : list N -> Prop :=
| dt_intro len :
    is_identifier id -> minimal_length (nlen contents) len -> nlen contents < 2 ^ 64 ->
    der_tlv id contents (id ++ len ++ contents).

(** One BER value as the library understands it: definite length with opaque
    contents, or indefinite length with a list of complete values none of which
    is the end-of-contents marker, closed by 00 00. *)
Inductive ber_value : list N -> Prop :=
| bv_definite id contents bs : der_tlv id contents bs -> ber_value bs
| bv_indefinite id items :
    is_identifier id -> ber_items items -> ber_value (id ++ [0x80] ++ items ++ [0; 0])
with ber_items : list N -> Prop :=
| bi_nil : ber_items []
| bi_cons v items : ber_value v -> v <> [0; 0] -> ber_items items -> ber_items (v ++ items).

(** Any X.690 8.1.3 definite length encoding, minimal or not. *)
Inductive x690_length : N -> list N -> Prop :=
| xl_short n : n < 128 -> x690_length n [n]
| xl_long n ds :
    bytes_ok ds -> ds <> [] -> nlen ds <= 127 -> be_value ds = n -> x690_length n (128 + nlen ds :: ds).

(** Any X.690 8.1.2 style identifier encoding, the high-tag-number form used for
    any number and with any number of leading zero digits. *)
Inductive x690_identifier (cls pc num : N) : list N -> Prop :=
| xi_short :
    cls < 4 -> pc < 2 -> num < 31 -> x690_identifier cls pc num [cls * 64 + pc * 32 + num]
| xi_long hi lo :
    cls < 4 -> pc < 2 -> Forall (fun d => d < 128) (hi ++ [lo]) -> b128_value (hi ++ [lo]) = num ->
    x690_identifier cls pc num (cls * 64 + pc * 32 + 31 :: map (fun d => 128 + d) hi ++ [lo]).

(** Why a string of octets does not start with a DER value. *)
Inductive der_error : list N -> error -> Prop :=
| de_id bs e : identifier_error bs e -> der_error bs e
| de_length id t e : is_identifier id -> length_error t e -> der_error (id ++ t) e
| de_indefinite id t : is_identifier id -> der_error (id ++ 0x80 :: t) IndefiniteLength
| de_truncated id n len t :
    is_identifier id -> minimal_length n len -> n < 2 ^ 64 -> nlen t < n ->
    der_error (id ++ len ++ t) UnterminatedBytes.

(** Why a string of octets does not start with a BER value: something is wrong at
    its header or with its (definite) contents, or inside an indefinite-length
    value, after some complete items. *)
Inductive ber_error : list N -> error -> Prop :=
| bre_id bs e : identifier_error bs e -> ber_error bs e
| bre_length id t e : is_identifier id -> length_error t e -> ber_error (id ++ t) e
| bre_truncated id n len t :
    is_identifier id -> minimal_length n len -> n < 2 ^ 64 -> nlen t < n ->
    ber_error (id ++ len ++ t) UnterminatedBytes
| bre_inside id items t e :
    is_identifier id -> ber_items items -> ber_error t e ->
    ber_error (id ++ [0x80] ++ items ++ t) e.

(** How a streaming BER reader fails on octets that do not start with a value, when
    [pre] was consumed before: like [ber_error], except that missing contents are an
    I/O error (end of file), and that a header announcing more octets than an
    allocation can have (with those already held) panics. *)
Inductive ber_stream_failure {A} (max : N) : list N -> list N -> res A -> Prop :=
| bsf_id pre bs e : identifier_error bs e -> ber_stream_failure max pre bs (Err e)
| bsf_length pre id t e : is_identifier id -> length_error t e -> ber_stream_failure max pre (id ++ t) (Err e)
| bsf_eof pre id n len t :
    is_identifier id -> minimal_length n len -> n < 2 ^ 64 -> nlen t < n ->
    nlen (pre ++ id ++ len) + n <= max ->
    ber_stream_failure max pre (id ++ len ++ t) (Err (Io UnexpectedEof))
| bsf_huge pre id n len t :
    is_identifier id -> minimal_length n len -> n < 2 ^ 64 -> nlen t < n ->
    max < nlen (pre ++ id ++ len) + n ->
    ber_stream_failure max pre (id ++ len ++ t) Panic
| bsf_inside pre id items t r :
    is_identifier id -> ber_items items ->
    ber_stream_failure max (pre ++ id ++ [0x80] ++ items) t r ->
    ber_stream_failure max pre (id ++ [0x80] ++ items ++ t) r.
