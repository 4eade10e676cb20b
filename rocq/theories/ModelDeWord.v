(** Deserialisation on a machine whose usize has [w] octets: the definitions of ModelSerde.v and ModelDerive.v, same
    lines, with the parsers of ModelWordTlv.v.  What parses nothing (booleans, integers, strings, octet strings, the
    conversions, transparent structs) is as it is there, but for isize and usize.  The index of an element is a usize
    and does not overflow: each element has an octet. *)
From Coq Require Import String Ascii.
From Verif Require Import Base ModelError ModelIo ModelTag ModelContents ModelBuf ModelTlv ModelSerde ModelAttr ModelDerive ModelWord ModelWordTlv ModelSerWord.

Section WORD.
Context (w : N).

Section Entry.
Context {T : Type} (D : deserialize T).
(** bsn1_serde/src/lib.rs:124-130 *)
Definition x_serde_from_ber (ber : list N) : res T :=
  let! (p, contents) := w_disassemble w ber in from_ber D (fst p) (snd p) contents.
(** bsn1_serde/src/lib.rs:133-139 *)
Definition x_serde_from_der (der : list N) : res T :=
  let! (p, contents) := w_disassemble w der in from_der D (fst p) contents.
(** bsn1_serde/src/lib.rs:148-154 *)
Definition x_parse_ber (buffer : list N) : res T * list N :=
  match w_BerRef_parse w buffer with
  | (Ok ber, rest) => (x_serde_from_ber ber, rest)
  | (Err e, rest) => (Err e, rest)
  | (Panic, rest) => (Panic, rest)
  | (NoFuel, rest) => (NoFuel, rest)
  end.
(** bsn1_serde/src/lib.rs:163-169 *)
Definition x_parse_der (buffer : list N) : res T * list N :=
  match w_DerRef_parse w buffer with
  | (Ok der, rest) => (x_serde_from_der der, rest)
  | (Err e, rest) => (Err e, rest)
  | (Panic, rest) => (Panic, rest)
  | (NoFuel, rest) => (NoFuel, rest)
  end.
(** bsn1_serde/src/lib.rs:177-184 *)
Definition x_read_ber {S} (R : reader S) (fuel : nat) (s : S) : res T * S :=
  match w_Ber_parse w R fuel s with
  | (Ok ber, s') => (x_serde_from_ber ber, s')
  | (Err e, s') => (Err e, s')
  | (Panic, s') => (Panic, s')
  | (NoFuel, s') => (NoFuel, s')
  end.
(** bsn1_serde/src/lib.rs:192-199 *)
Definition x_read_der {S} (R : reader S) (fuel : nat) (s : S) : res T * S :=
  match w_Der_parse w R fuel s with
  | (Ok der, s') => (x_serde_from_der der, s')
  | (Err e, s') => (Err e, s')
  | (Panic, s') => (Panic, s')
  | (NoFuel, s') => (NoFuel, s')
  end.
End Entry.

(** ** isize and usize: de/mod.rs:61-287, the same code for all integers *)
Definition x_de_word (E : env) (signed : bool) : deserialize Z := de_int E (word_ty w signed).

(** ** Collections *)
(** de/mod.rs:598-620, der_to_val *)
Definition x_der_to_val {T} (D : deserialize T) (h : helper) : res (option (T * helper)) :=
  let (contents, index) := h in
  match contents with
  | [] => Ok None
  | _ =>
      let! (der, rest) := with_ctx 0 index (parsed (w_DerRef_parse w contents)) in
      let! (p, c) := w_disassemble w der in
      let! val := with_ctx 1 index (from_der D (fst p) c) in
      Ok (Some (val, (rest, index + 1)))
  end.
(** de/mod.rs:622-646, ber_to_val *)
Definition x_ber_to_val {T} (D : deserialize T) (h : helper) : res (option (T * helper)) :=
  let (contents, index) := h in
  match contents with
  | [] => Ok None
  | _ =>
      let! (ber, rest) := with_ctx 2 index (parsed (w_BerRef_parse w contents)) in
      let! (p, c) := w_disassemble w ber in
      let! val := with_ctx 3 index (from_ber D (fst p) (snd p) c) in
      Ok (Some (val, (rest, index + 1)))
  end.
(** de/mod.rs:648-711, der_to_key_val *)
Definition x_der_to_key_val {K V} (DK : deserialize K) (DV : deserialize V) (h : helper)
  : res (option ((K * V) * helper)) :=
  let (contents, index) := h in
  match contents with
  | [] => Ok None
  | _ =>
      let! (pair_, rest) := with_ctx 4 index (parsed (w_DerRef_parse w contents)) in
      let! pid := tlv_id pair_ in
      if negb (bytes_eqb pid ID_SEQUENCE) then Err (Error_context (ctx 5 index) InvalidKeyValuePair)
      else
        let! pair_contents := w_tlv_contents w pair_ in
        let! (key, pair_contents) := with_ctx 6 index (parsed (w_DerRef_parse w pair_contents)) in
        let! (val, pair_contents) := with_ctx 7 index (parsed (w_DerRef_parse w pair_contents)) in
        match pair_contents with
        | [] =>
            let! (p, c) := w_disassemble w key in
            let! k := with_ctx 8 index (from_der DK (fst p) c) in
            let! (p, c) := w_disassemble w val in
            let! v := with_ctx 9 index (from_der DV (fst p) c) in
            Ok (Some ((k, v), (rest, index + 1)))
        | _ => Err (Error_context (ctx 10 index) InvalidKeyValuePair)
        end
  end.
(** de/mod.rs:713-780, ber_to_key_val *)
Definition x_ber_to_key_val {K V} (DK : deserialize K) (DV : deserialize V) (h : helper)
  : res (option ((K * V) * helper)) :=
  let (contents, index) := h in
  match contents with
  | [] => Ok None
  | _ =>
      let! (pair_, rest) := with_ctx 11 index (parsed (w_BerRef_parse w contents)) in
      let! pid := tlv_id pair_ in
      if negb (bytes_eqb pid ID_SEQUENCE) then Err (Error_context (ctx 5 index) InvalidKeyValuePair)
      else
        let! pair_contents := w_tlv_contents w pair_ in
        let! (key, pair_contents) := with_ctx 12 index (parsed (w_BerRef_parse w pair_contents)) in
        let! (val, pair_contents) := with_ctx 13 index (parsed (w_BerRef_parse w pair_contents)) in
        match pair_contents with
        | [] =>
            let! (p, c) := w_disassemble w key in
            let! k := with_ctx 14 index (from_ber DK (fst p) (snd p) c) in
            let! (p, c) := w_disassemble w val in
            let! v := with_ctx 15 index (from_ber DV (fst p) (snd p) c) in
            Ok (Some ((k, v), (rest, index + 1)))
        | _ => Err (Error_context (ctx 10 index) InvalidKeyValuePair)
        end
  end.
(** de/mod.rs:316-419, Vec, LinkedList and VecDeque *)
Definition x_de_vec {T} (E : env) (D : deserialize T) : deserialize (list T) :=
  de_collection E ID_SEQUENCE [] push_back (x_ber_to_val D) (x_der_to_val D).
(** de/mod.rs:421-454 *)
Definition x_de_btree_set {T} (E : env) (cmp : T -> T -> comparison) (D : deserialize T) : deserialize (list T) :=
  de_collection E ID_SEQUENCE [] (btree_insert cmp) (x_ber_to_val D) (x_der_to_val D).
(** de/mod.rs:456-490 *)
Definition x_de_btree_map {K V} (E : env) (cmp : K -> K -> comparison) (DK : deserialize K) (DV : deserialize V)
  : deserialize (list (K * V)) :=
  de_collection E ID_SEQUENCE [] (btree_map_insert cmp) (x_ber_to_key_val DK DV) (x_der_to_key_val DK DV).
(** de/mod.rs:492-525 *)
Definition x_de_hash_set {T} (E : env) (eqb : T -> T -> bool) (D : deserialize T) : deserialize (list T) :=
  de_collection E ID_SET [] (hash_insert E eqb) (x_ber_to_val D) (x_der_to_val D).
(** de/mod.rs:527-561 *)
Definition x_de_hash_map {K V} (E : env) (eqb : K -> K -> bool) (DK : deserialize K) (DV : deserialize V)
  : deserialize (list (K * V)) :=
  de_collection E ID_SET [] (hash_map_insert E eqb) (x_ber_to_key_val DK DV) (x_der_to_key_val DK DV).

(** ** Derived implementations: bsn1_serde_macros/src *)
Section Derive.
Context (is_path : string -> bool) (E : env).
(** data_container.rs:360-378 *)
Definition x_ber_value_of {T} (name : N) (D : deserialize T) (contents_bytes : list N) : res (T * list N) :=
  let! (ber, rest) := with_context 0 name (parsed (w_BerRef_parse w contents_bytes)) in
  let! (p, c) := w_disassemble w ber in
  let! v := with_context 1 name (from_ber D (fst p) (snd p) c) in
  Ok (v, rest).
(** data_container.rs:546-563 *)
Definition x_der_value_of {T} (name : N) (D : deserialize T) (contents_bytes : list N) : res (T * list N) :=
  let! (der, rest) := with_context 2 name (parsed (w_DerRef_parse w contents_bytes)) in
  let! (p, c) := w_disassemble w der in
  let! v := with_context 3 name (from_der D (fst p) c) in
  Ok (v, rest).
(** data_container.rs:380-402 *)
Definition x_ber_field {T} (f : field T) (contents_bytes : list N) : res (T * list N) :=
  let attr := f_attr f in
  let ns := f_names f in
  if is_skip_deserializing attr then Ok (n_default ns (default_path attr), contents_bytes)
  else
    match a_from attr with
    | Some ty =>
        let s := p_from (n_paths ns) ty in
        let! (u, rest) := x_ber_value_of (n_field ns) (sr_de s) contents_bytes in
        Ok (sr_conv s u, rest)
    | None =>
        match a_try_from attr with
        | Some ty =>
            let s := p_try_from (n_paths ns) ty in
            let! (u, rest) := x_ber_value_of (n_field ns) (ts_de s) contents_bytes in
            let! t := try_convert 4 (n_field ns) (ts_conv s u) in
            Ok (t, rest)
        | None => x_ber_value_of (n_field ns) (n_de ns) contents_bytes
        end
    end.
(** data_container.rs:565-587 *)
Definition x_der_field {T} (f : field T) (contents_bytes : list N) : res (T * list N) :=
  let attr := f_attr f in
  let ns := f_names f in
  if is_skip_deserializing attr then Ok (n_default ns (default_path attr), contents_bytes)
  else
    match a_from attr with
    | Some ty =>
        let s := p_from (n_paths ns) ty in
        let! (u, rest) := x_der_value_of (n_field ns) (sr_de s) contents_bytes in
        Ok (sr_conv s u, rest)
    | None =>
        match a_try_from attr with
        | Some ty =>
            let s := p_try_from (n_paths ns) ty in
            let! (u, rest) := x_der_value_of (n_field ns) (ts_de s) contents_bytes in
            let! t := try_convert 4 (n_field ns) (ts_conv s u) in
            Ok (t, rest)
        | None => x_der_value_of (n_field ns) (n_de ns) contents_bytes
        end
    end.
(** data_container.rs:336-444 *)
Definition x_from_ber_contents {Ts} (dc : data_container Ts) (length : Length) (contents : list N) : res (tuple Ts) :=
  let! contents_bytes :=
    match length with
    | Definite contents_length =>
        let! _ := debug_assert E (contents_length =? nlen contents) in Ok contents
    | Indefinite =>
        if ends_with contents EOC then Ok (take (nlen contents - nlen EOC) contents)
        else Err UnterminatedBytes
    end in
  all_read (construct (@x_ber_field) Ts (dc_fields dc) contents_bytes).
(** data_container.rs:528-613 *)
Definition x_from_der_contents {Ts} (dc : data_container Ts) (contents : list N) : res (tuple Ts) :=
  all_read (construct (@x_der_field) Ts (dc_fields dc) contents).
(** de/mod.rs:118-171 *)
Definition x_do_deserialize_struct (a : attribute) (Ts : list Type) (fs : hlist field_decl Ts) : option (deserialize (tuple Ts)) :=
  get dc := try_struct is_path a Ts fs in
  if a_transparent (dc_attr dc) then de_transparent dc
  else
    Some {| from_ber := fun id length contents =>
              if negb (bytes_eqb id (id_slice (dc_attr dc))) then Err UnmatchedId
              else x_from_ber_contents dc length contents;
            from_der := fun id contents =>
              if negb (bytes_eqb id (id_slice (dc_attr dc))) then Err UnmatchedId
              else x_from_der_contents dc contents |}.
(** de/mod.rs:174-225 *)
Definition x_do_deserialize_enum (a : attribute) (Tss : list (list Type)) (vs : vlist variant_decl Tss)
  : option (deserialize (choice Tss)) :=
  if negb (sanitize_as_enum a) then None else
  get variants := try_variants is_path Tss vs in
  Some {| from_ber := fun id length contents =>
            dispatch (fun Ts dc x => x_from_ber_contents dc (fst x) (snd x)) Tss variants id (length, contents);
          from_der := fun id contents => dispatch (fun Ts dc x => x_from_der_contents dc x) Tss variants id contents |}.
(** de/mod.rs:22-58 *)
Definition x_do_deserialize (attrs : list syn_attribute) (d : data) (ps : paths (value d)) : option (deserialize (value d)) :=
  get a := Attribute_try_from is_path attrs in
  if negb (sanitize_as_container a) then None else
  match a_from a with
  | Some ty => Some (do_from_deserialize (p_from ps ty))
  | None =>
      match a_try_from a with
      | Some ty => Some (do_try_from_deserialize (p_try_from ps ty))
      | None =>
          match d return option (deserialize (value d)) with
          | DStruct Ts fs => x_do_deserialize_struct a Ts fs
          | DEnum Tss vs => x_do_deserialize_enum a Tss vs
          | DUnion _ => None
          end
      end
  end.
End Derive.
End WORD.
