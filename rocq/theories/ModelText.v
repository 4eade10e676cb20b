(** The texts of errors: bsn1/src/lib.rs:86-107, and what [anyhow] and the contexts add;
    what [{:?}] prints. *)
From Coq Require Import String Ascii Decimal DecimalString.
From Verif Require Import Base ModelError ModelTag ModelSerde ModelDerive.
Open Scope string_scope.
Open Scope N_scope.

(** [{}] of an index *)
Definition decimal (n : N) : string := NilZero.string_of_uint (N.to_uint n).

Section Texts.
(** What others print: kinds of i/o errors, foreign errors; the tokens that
    [stringify!] is given: the field with its container, the type of its [try_from]
    (both by the number of the field), and the type a container is converted from.
    A number of a context does not say which container that is. *)
Context (io_text : io_kind -> string) (foreign_text : N -> string).
Context (field_text try_text : N -> string) (container_text : string).

(** bsn1_serde/src/de/mod.rs:598-780: the texts of DeserializeHelper *)
Definition helper_text (message index : N) : string :=
  let i := decimal index in
  match message with
  | 0 => "Failed to parse DER at index " ++ i                                  (* 607 *)
  | 1 => "Failed to deserialize DER into element at index " ++ i               (* 612 *)
  | 2 => "Failed to parse BER at index " ++ i                                  (* 632 *)
  | 3 => "Failed to deserialize BER into element at index " ++ i               (* 638 *)
  | 4 => "Failed to parse DER of the key-value pair at index " ++ i
  | 5 => "The id of key-value pair at index " ++ i ++ " is not SEQUENCE"
  | 6 => "Failed to parse DER of the key at index " ++ i
  | 7 => "Failed to parse DER of the value at index " ++ i
  | 8 => "Failed to deserialize DER into the key at index " ++ i
  | 9 => "Failed to deserialize DER into the value at index " ++ i
  | 10 => "The key-value pair at index " ++ i ++ " includes (an) extra octet(s)"
  | 11 => "Failed to parse BER of the key-value pair at index " ++ i
  | 12 => "Failed to parse BER of the key at index " ++ i
  | 13 => "Failed to parse BER of the value at index " ++ i
  | 14 => "Failed to deserialize BER into the key at index " ++ i
  | _ => "Failed to deserialize BER into the value at index " ++ i
  end%string.
(** bsn1_serde_macros/src/data_container.rs:360-402, 471-506, 546-587, 639-673 and
    de/mod.rs:97: the texts of derived code *)
Definition derive_text (kind name : N) : string :=
  match kind with
  | 0 => "Failed to parse BER for `" ++ field_text name ++ "`"
  | 1 => "Failed to deserialize BER into `" ++ field_text name ++ "`"
  | 2 => "Failed to parse DER for `" ++ field_text name ++ "`"
  | 3 => "Failed to deserialize DER into `" ++ field_text name ++ "`"
  | 4 => "Failed to convert `" ++ try_text name ++ "` into `" ++ field_text name ++ "`"
  | _ => "Failed to convert from `" ++ container_text ++ "`"
  end%string.
(** The text behind a number: the inverse of [ctx] and [field_ctx]. *)
Definition context_text (c : N) : string :=
  if N.odd c then derive_text (c / 2 mod 8) (c / 2 / 8) else helper_text (c / 2 mod 16) (c / 2 / 16).

(** lib.rs:86-107, Display::fmt; [anyhow::Error] prints the outermost error only. *)
Fixpoint display (self : error) : string :=
  match self with
  | UnterminatedBytes => "The bytes finish before the last octet."
  | RedundantBytes => "The bytes include some redundant octet(s)."
  | OverFlow => "Over flow is occurred to parse bytes as a number."
  | IndefiniteLength => "'Indefinite Length' is used where not allowed."
  | BadEoc => "'Indefinite Length BER' includes a bad 'EOC.'"
  | ExtraContentsOctet => "Contents include (an) invlid octet(s) at the end."
  | UnmatchedId => "The identifier does not match to that of data type."
  | InvalidUtf8 => "Invalid as UTF-8."
  | InvalidDerBooleanContents => "The contents of DER BOOLEAN must be 0x00 or 0xFF."
  | InvalidKeyValuePair => "SEQUENCE of key-value pair is required."
  | Io err => io_text err
  | Anyhow err => anyhow_display err
  end
with anyhow_display (a : anyhow) : string :=
  match a with
  | AnNew e => display e
  | AnForeign f => match f with FLeaf c | FOver c _ | FLib c _ => foreign_text c end
  | AnContext c _ => context_text c
  end.
(** [{:#}]: [anyhow::Error] prints its chain, each cause with [{}], with [: ] between;
    the other texts are written as they are. *)
Definition cause_text (c : cause) : string :=
  match c with CLib e => display e | CForeign code => foreign_text code | CContext n => context_text n end.
Definition display_alternate (self : error) : string :=
  match self with
  | Anyhow err => String.concat ": " (map cause_text (chain err))
  | _ => display self
  end.
End Texts.

(** ** Debug *)
(** [{:?}] of a slice of octets: [debug_list] of the standard library *)
Definition debug_slice (bs : list N) : string := ("[" ++ String.concat ", " (map decimal bs) ++ "]")%string.
(** bsn1/src/buffer/mod.rs:134, little_endian/mod.rs:208, universal_endian/mod.rs:302 *)
Definition debug_buffer (as_slice : list N) : string := ("Buffer(" ++ debug_slice as_slice ++ ")")%string.
(** The derived implementations: identifier.rs:32, identifier_ref.rs:34, contents.rs:28,
    contents_ref.rs:30, der.rs:27, der_ref.rs:23, ber.rs:38, ber_ref.rs:35; the name of the
    struct and of its only field. *)
Inductive holder := HId | HContents | HDer | HBer | HIdRef | HContentsRef | HDerRef | HBerRef.
Definition debug (h : holder) (bs : list N) : string :=
  match h with
  | HId => "Id { buffer: " ++ debug_buffer bs ++ " }"
  | HContents => "Contents { buffer: " ++ debug_buffer bs ++ " }"
  | HDer => "Der { buffer: " ++ debug_buffer bs ++ " }"
  | HBer => "Ber { buffer: " ++ debug_buffer bs ++ " }"
  | HIdRef => "IdRef { bytes: " ++ debug_slice bs ++ " }"
  | HContentsRef => "ContentsRef { bytes: " ++ debug_slice bs ++ " }"
  | HDerRef => "DerRef { bytes: " ++ debug_slice bs ++ " }"
  | HBerRef => "BerRef { bytes: " ++ debug_slice bs ++ " }"
  end%string.
(** length.rs:35 *)
Definition debug_length (l : Length) : string :=
  match l with
  | Indefinite => "Indefinite"
  | Definite n => "Definite(" ++ decimal n ++ ")"
  end%string.
