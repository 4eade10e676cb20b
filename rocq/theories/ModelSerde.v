(** Serialisation and deserialisation of the provided types:
    bsn1_serde/src/{lib,ser/mod,de/mod,octet_string}.rs *)
From Verif Require Import Base ModelError ModelIo ModelTag ModelContents ModelBuf ModelTlv.

(** ** Writers *)
(** Result of one [std::io::Write::write] call: how many octets were taken, an error,
    or a panic inside the writer. *)
Inductive wres := WrOk (n : N) | WrErr (k : io_kind) | WrPanic.
(** [impl std::io::Write]: one call of [write] returns its result and the writer's
    next state.  [wr_fuel] bounds the number of calls one [write_all] makes; it is an
    artefact of the model. *)
Record writer (S : Type) := { wr_write : S -> list N -> wres * S; wr_fuel : nat }.
Arguments wr_write {S} w s bs.
Arguments wr_fuel {S} w.

(** Code that works on a writer's state. *)
Definition wr (S A : Type) : Type := S -> res A * S.
Definition wret {S A} (a : A) : wr S A := fun s => (Ok a, s).
Definition wlift {S A} (r : res A) : wr S A := fun s => (r, s).
Definition wbind {S A B} (m : wr S A) (k : A -> wr S B) : wr S B := fun s =>
  match m s with
  | (Ok a, s') => k a s'
  | (Err e, s') => (Err e, s')
  | (Panic, s') => (Panic, s')
  | (NoFuel, s') => (NoFuel, s')
  end.
Notation "'do!' x := m 'in' k" := (wbind m (fun x => k))
  (at level 200, x pattern, m at level 100, k at level 200, right associativity).

(** std::io::Write::write_all (default implementation), the loop. *)
Fixpoint write_all_loop {S} (W : writer S) (fuel : nat) (bs : list N) (s : S) : res unit * S :=
  match bs with
  | [] => (Ok tt, s)
  | _ :: _ =>
      match fuel with
      | O => (NoFuel, s)
      | Datatypes.S fuel' =>
          match wr_write W s bs with
          | (WrOk n, s') =>
              if n =? 0 then (Err (Io WriteZero), s')
              else if nlen bs <? n then (Panic, s')
              else write_all_loop W fuel' (drop n bs) s'
          | (WrErr Interrupted, s') => write_all_loop W fuel' bs s'
          | (WrErr k, s') => (Err (Io k), s')
          | (WrPanic, s') => (Panic, s')
          end
      end
  end.
Definition write_all {S} (W : writer S) (bs : list N) : wr S unit := write_all_loop W (wr_fuel W) bs.

(** bsn1/src/buffer/mod.rs:201-211, [impl Write for Buffer]. *)
Definition buf_writer (cfg : bufcfg) : writer buf :=
  {| wr_write := fun b bs =>
       match bf_io_write cfg bs b with
       | Ok b' => (WrOk (nlen bs), b')
       | _ => (WrPanic, b)
       end;
     wr_fuel := 1 |}.

(** ** The traits *)
(** bsn1_serde/src/ser/mod.rs:24-52, trait Serialize, as the record of the methods of
    one implementation.  The two writing methods are generic over the writer. *)
Record serialize (T : Type) := {
  write_id : forall S, writer S -> T -> wr S unit;
  write_der_contents : forall S, writer S -> T -> wr S unit;
  id_len : T -> res (option N);
  der_contents_len : T -> res (option N) }.
Arguments write_id {T} s {S} w t.
Arguments write_der_contents {T} s {S} w t.
Arguments id_len {T} s t.
Arguments der_contents_len {T} s t.
(** bsn1_serde/src/de/mod.rs:24-38, trait Deserialize.  Identifier and contents are
    their octets. *)
Record deserialize (T : Type) := {
  from_ber : list N -> Length -> list N -> res T;
  from_der : list N -> list N -> res T }.
Arguments from_ber {T} d id length contents.
Arguments from_der {T} d id contents.

(** What differs between runs and builds: the buffer layout and its fresh memory,
    whether debug assertions are on, and where a hash table puts a new element (the
    place in its iteration order). *)
Record env := { e_cfg : bufcfg; e_debug : bool; e_place : forall A : Type, A -> list A -> list A }.
Arguments e_place e {A} x l.

(** [debug_assert!(cond)] *)
Definition debug_assert (E : env) (cond : bool) : res unit :=
  if e_debug E && negb cond then Panic else Ok tt.
(** [debug_assert_eq!(length.definite(), Some(contents.len()))] *)
Definition assert_length (E : env) (length : Length) (contents : list N) : res unit :=
  debug_assert E (option_N_eqb (Length_definite length) (Some (nlen contents))).

(** Writing into a fresh [Buffer]. *)
Definition in_buffer (r : res unit * buf) : res buf :=
  match r with
  | (Ok _, b) => Ok b
  | (Err e, _) => Err e
  | (Panic, _) => Panic
  | (NoFuel, _) => NoFuel
  end.

Section Entry.
Context (E : env) {T : Type} (D : serialize T).
Let cfg := e_cfg E.

(** bsn1_serde/src/lib.rs:36-43 and 85-92: the length of the contents, and the
    contents if they had to be serialised to know it. *)
Definition contents_or_len (v : T) : res (N * option buf) :=
  let! l := der_contents_len D v in
  match l with
  | Some len => Ok (len, None)
  | None =>
      let! contents := in_buffer (write_der_contents D (buf_writer cfg) v (bf_new cfg)) in
      Ok (b_len contents, Some contents)
  end.
(** [Result<(), io::Error>::unwrap()] on a [Buffer]: an error would panic. *)
Definition unwrap_unit (r : res buf) : res buf := match r with Err _ => Panic | _ => r end.

(** bsn1_serde/src/lib.rs:32-63, to_der *)
Definition to_der (v : T) : res buf :=
  let! (contents_len, contents) := contents_or_len v in
  let length := Length_to_bytes (Definite contents_len) in
  let buffer := bf_new cfg in
  let! il := id_len D v in
  let! buffer :=
    match il with
    | Some id_len =>
        let! t := add_usize id_len (nlen length) in
        let! der_len := add_usize t contents_len in
        bf_reserve cfg der_len buffer
    | None => Ok buffer
    end in
  let! buffer := in_buffer (write_id D (buf_writer cfg) v buffer) in
  let! buffer := unwrap_unit (in_buffer (write_all (buf_writer cfg) length buffer)) in
  match contents with
  | Some contents => unwrap_unit (in_buffer (write_all (buf_writer cfg) (bf_slice contents) buffer))
  | None => in_buffer (write_der_contents D (buf_writer cfg) v buffer)
  end.
(** bsn1_serde/src/lib.rs:66-72, to_ber *)
Definition to_ber (v : T) : res buf := to_der v.

(** bsn1_serde/src/lib.rs:80-106, write_der *)
Definition write_der {S} (W : writer S) (v : T) : wr S unit :=
  do! p := wlift (contents_or_len v) in
  let length := Length_to_bytes (Definite (fst p)) in
  do! _ := write_id D W v in
  do! _ := write_all W length in
  match snd p with
  | Some contents => write_all W (bf_slice contents)
  | None => write_der_contents D W v
  end.
(** bsn1_serde/src/lib.rs:114-121, write_ber *)
Definition write_ber {S} (W : writer S) (v : T) : wr S unit := write_der W v.

(** bsn1_serde/src/ser/mod.rs:663-675, der_len *)
Definition der_len (v : T) : res (option N) :=
  let! c := der_contents_len D v in
  match c with
  | Some contents_len =>
      let! i := id_len D v in
      match i with
      | Some id_len =>
          let! t := add_usize id_len (Length_len (Definite contents_len)) in
          let! r := add_usize t contents_len in
          Ok (Some r)
      | None => Ok None
      end
  | None => Ok None
  end.
(** bsn1_serde/src/ser/mod.rs:677-691, der_contents_len; [ret] is the running sum. *)
Fixpoint der_contents_len_from (ret : N) (it : list T) : res (option N) :=
  match it with
  | [] => Ok (Some ret)
  | t :: it' =>
      let! l := der_len t in
      match l with
      | Some len => let! ret' := add_usize ret len in der_contents_len_from ret' it'
      | None => Ok None
      end
  end.
(** [for t in self.iter() { crate::write_der(t, buffer)?; }], ser/mod.rs:401-403 *)
Fixpoint write_ders {S} (W : writer S) (it : list T) : wr S unit :=
  match it with
  | [] => wret tt
  | t :: it' => do! _ := write_der W t in write_ders W it'
  end.
End Entry.

(** Deserialising entry points. *)
Section EntryDe.
Context {T : Type} (D : deserialize T).
(** bsn1_serde/src/lib.rs:124-130; the argument is the octets of a [BerRef]. *)
Definition serde_from_ber (ber : list N) : res T :=
  let! (p, contents) := disassemble ber in from_ber D (fst p) (snd p) contents.
(** bsn1_serde/src/lib.rs:133-139 *)
Definition serde_from_der (der : list N) : res T :=
  let! (p, contents) := disassemble der in from_der D (fst p) contents.
(** bsn1_serde/src/lib.rs:148-154: outcome and the slice variable afterwards. *)
Definition parse_ber (buffer : list N) : res T * list N :=
  match BerRef_parse buffer with
  | (Ok ber, rest) => (serde_from_ber ber, rest)
  | (Err e, rest) => (Err e, rest)
  | (Panic, rest) => (Panic, rest)
  | (NoFuel, rest) => (NoFuel, rest)
  end.
(** bsn1_serde/src/lib.rs:163-169 *)
Definition parse_der (buffer : list N) : res T * list N :=
  match DerRef_parse buffer with
  | (Ok der, rest) => (serde_from_der der, rest)
  | (Err e, rest) => (Err e, rest)
  | (Panic, rest) => (Panic, rest)
  | (NoFuel, rest) => (NoFuel, rest)
  end.
(** bsn1_serde/src/lib.rs:177-184 *)
Definition read_ber {S} (R : reader S) (fuel : nat) (s : S) : res T * S :=
  match Ber_parse R fuel s with
  | (Ok ber, s') => (serde_from_ber ber, s')
  | (Err e, s') => (Err e, s')
  | (Panic, s') => (Panic, s')
  | (NoFuel, s') => (NoFuel, s')
  end.
(** bsn1_serde/src/lib.rs:192-199 *)
Definition read_der {S} (R : reader S) (fuel : nat) (s : S) : res T * S :=
  match Der_parse R fuel s with
  | (Ok der, s') => (serde_from_der der, s')
  | (Err e, s') => (Err e, s')
  | (Panic, s') => (Panic, s')
  | (NoFuel, s') => (NoFuel, s')
  end.
End EntryDe.

(** ** Booleans *)
(** bsn1_serde/src/ser/mod.rs:54-74 *)
Definition ser_bool : serialize bool :=
  {| write_id := fun _ W _ => write_all W ID_BOOLEAN;
     write_der_contents := fun _ W v => write_all W (Contents_from_bool v);
     id_len := fun _ => Ok (Some 1);
     der_contents_len := fun _ => Ok (Some 1) |}.
(** bsn1_serde/src/de/mod.rs:40-59.  [length == Length::Indefinite] is [Length_eqb]. *)
Definition de_bool (E : env) : deserialize bool :=
  {| from_ber := fun id length contents =>
       if negb (bytes_eqb id ID_BOOLEAN) then Err UnmatchedId
       else if Length_eqb length Indefinite then Err IndefiniteLength
       else let! _ := assert_length E length contents in to_bool_ber contents;
     from_der := fun id contents =>
       if negb (bytes_eqb id ID_BOOLEAN) then Err UnmatchedId else to_bool_der contents |}.

(** ** Integers *)
(** [T::BITS] *)
Definition int_bits (t : int_ty) : N := 8 * N.of_nat (int_size t).
(** [leading_zeros] of the memory of a non-negative value, [leading_ones] of that of a
    negative one. *)
Definition leading_zeros (t : int_ty) (v : Z) : N := int_bits t - N.size (Z.to_N v).
Definition leading_ones (t : int_ty) (v : Z) : N := int_bits t - N.size (Z.to_N (- v - 1)).
(** der_contents_len of each integer type: bsn1_serde/src/ser/mod.rs:92-94 (i8),
    113-119 (u8), 138-144 (i16), 163-171 (u16), 190-198, 239-247, 288-296, 337-345
    (i32, i64, i128, isize), 217-220, 266-269, 315-318, 364-367 (u32, u64, u128, usize).
    The u32 arithmetic cannot overflow. *)
Definition int_contents_len (t : int_ty) (v : Z) : N :=
  match t with
  | I8 => 1
  | U8 => if (v <=? 127)%Z then 1 else 2
  | I16 => if ((-128 <=? v) && (v <=? 127))%Z then 1 else 2
  | U16 => if (v <=? 127)%Z then 1 else if (v <=? 32767)%Z then 2 else 3
  | I32 | I64 | I128 | ISize =>
      if (v <? 0)%Z then (int_bits t + 8 - leading_ones t v) / 8
      else (int_bits t + 8 - leading_zeros t v) / 8
  | U32 | U64 | U128 | USize => (int_bits t + 8 - leading_zeros t v) / 8
  end.
(** bsn1_serde/src/ser/mod.rs:76-368 *)
Definition ser_int (t : int_ty) : serialize Z :=
  {| write_id := fun _ W _ => write_all W ID_INTEGER;
     write_der_contents := fun _ W v =>
       do! contents := wlift (Contents_from_int t v) in write_all W contents;
     id_len := fun _ => Ok (Some 1);
     der_contents_len := fun v => Ok (Some (int_contents_len t v)) |}.
(** bsn1_serde/src/de/mod.rs:61-287 *)
Definition int_from_der (t : int_ty) (id contents : list N) : res Z :=
  if negb (bytes_eqb id ID_INTEGER) then Err UnmatchedId else to_integer t contents.
Definition de_int (E : env) (t : int_ty) : deserialize Z :=
  {| from_ber := fun id length contents =>
       if Length_eqb length Indefinite then Err IndefiniteLength
       else let! _ := assert_length E length contents in int_from_der t id contents;
     from_der := int_from_der t |}.

(** ** Strings; a [String] is its octets. *)
(** std::str::from_utf8: whether the octets are valid UTF-8 (Unicode, table 3-7, which
    is what core::str::validations checks). *)
Definition is_cont (b : N) : bool := (0x80 <=? b) && (b <=? 0xbf).
Definition between (lo hi b : N) : bool := (lo <=? b) && (b <=? hi).
Fixpoint utf8_valid_from (fuel : nat) (bs : list N) : bool :=
  match fuel with
  | O => false
  | S fuel' =>
      match bs with
      | [] => true
      | b0 :: t0 =>
          if b0 <? 0x80 then utf8_valid_from fuel' t0
          else
            match t0 with
            | [] => false
            | b1 :: t1 =>
                if between 0xc2 0xdf b0 then is_cont b1 && utf8_valid_from fuel' t1
                else
                  match t1 with
                  | [] => false
                  | b2 :: t2 =>
                      if (((b0 =? 0xe0) && between 0xa0 0xbf b1)
                          || (between 0xe1 0xec b0 && is_cont b1)
                          || ((b0 =? 0xed) && between 0x80 0x9f b1)
                          || (between 0xee 0xef b0 && is_cont b1))
                      then is_cont b2 && utf8_valid_from fuel' t2
                      else
                        match t2 with
                        | [] => false
                        | b3 :: t3 =>
                            (((b0 =? 0xf0) && between 0x90 0xbf b1)
                             || (between 0xf1 0xf3 b0 && is_cont b1)
                             || ((b0 =? 0xf4) && between 0x80 0x8f b1))
                            && is_cont b2 && is_cont b3 && utf8_valid_from fuel' t3
                        end
                  end
            end
      end
  end.
Definition utf8_valid (bs : list N) : bool := utf8_valid_from (S (length bs)) bs.

(** bsn1_serde/src/ser/mod.rs:370-388 *)
Definition ser_string : serialize (list N) :=
  {| write_id := fun _ W _ => write_all W ID_UTF8_STRING;
     write_der_contents := fun _ W v => write_all W v;
     id_len := fun _ => Ok (Some 1);
     der_contents_len := fun v => Ok (Some (nlen v)) |}.
(** bsn1_serde/src/de/mod.rs:289-314 *)
Definition str_from_utf8 (contents : list N) : res (list N) :=
  if utf8_valid contents then Ok contents else Err InvalidUtf8.
Definition de_string (E : env) : deserialize (list N) :=
  {| from_ber := fun id length contents =>
       if negb (bytes_eqb id ID_UTF8_STRING) && negb (bytes_eqb id ID_UTF8_STRING_CONSTRUCTED)
       then Err UnmatchedId
       else if Length_eqb length Indefinite then Err IndefiniteLength
       else let! _ := assert_length E length contents in str_from_utf8 contents;
     from_der := fun id contents =>
       if negb (bytes_eqb id ID_UTF8_STRING) then Err UnmatchedId else str_from_utf8 contents |}.

(** ** OctetString: bsn1_serde/src/octet_string.rs:63-80 *)
Definition ser_octets : serialize (list N) :=
  {| write_id := fun _ W _ => write_all W [0x04];
     write_der_contents := fun _ W v => write_all W v;
     id_len := fun _ => Ok (Some 1);
     der_contents_len := fun v => Ok (Some (nlen v)) |}.
(** octet_string.rs:82-105 *)
Definition de_octets : deserialize (list N) :=
  {| from_ber := fun id length contents =>
       if negb (bytes_eqb id ID_OCTET_STRING) && negb (bytes_eqb id ID_OCTET_STRING_CONSTRUCTED)
       then Err UnmatchedId
       else if Length_is_indefinite length then Err IndefiniteLength
       else Ok contents;
     from_der := fun id contents =>
       if negb (bytes_eqb id ID_OCTET_STRING) then Err UnmatchedId else Ok contents |}.

(** ** Collections.  A collection is the list of its elements in iteration order. *)
(** bsn1_serde/src/ser/mod.rs:390-415 (Vec), 417-441 (LinkedList), 443-467 (VecDeque),
    469-493 (BTreeSet), all with the identifier of SEQUENCE; 568-590 (HashSet) with that
    of SET.  The five bodies are the same text. *)
Definition ser_items {T} (E : env) (ID : list N) (D : serialize T) : serialize (list T) :=
  {| write_id := fun _ W _ => write_all W ID;
     write_der_contents := fun _ W v => write_ders E D W v;
     id_len := fun _ => Ok (Some 1);
     der_contents_len := fun v => der_contents_len_from D 0 v |}.
Definition ser_vec {T} (E : env) (D : serialize T) := ser_items E ID_SEQUENCE D.
Definition ser_linked_list {T} (E : env) (D : serialize T) := ser_items E ID_SEQUENCE D.
Definition ser_vec_deque {T} (E : env) (D : serialize T) := ser_items E ID_SEQUENCE D.
Definition ser_btree_set {T} (E : env) (D : serialize T) := ser_items E ID_SEQUENCE D.
Definition ser_hash_set {T} (E : env) (D : serialize T) := ser_items E ID_SET D.

Section Maps.
Context (E : env) {K V : Type} (DK : serialize K) (DV : serialize V).
(** ser/mod.rs:508-515, 516-523 and 603-610, 611-618: the length of the DER of a key or
    value, and the DER if it had to be made to know it. *)
Definition der_or_len {T} (D : serialize T) (t : T) : res (N * option buf) :=
  let! l := der_len D t in
  match l with
  | Some len => Ok (len, None)
  | None => let! d := to_der E D t in Ok (nlen (bf_slice d), Some d)
  end.
Definition write_der_or {T S} (D : serialize T) (W : writer S) (t : T) (d : option buf) : wr S unit :=
  match d with
  | Some d => write_all W (bf_slice d)
  | None => write_der E D W t
  end.
(** ser/mod.rs:506-542 (BTreeMap) and 602-640 (HashMap), the body of the loop. *)
Definition write_entry {S} (W : writer S) (k : K) (v : V) : wr S unit :=
  do! pk := wlift (der_or_len DK k) in
  do! pv := wlift (der_or_len DV v) in
  do! content_len := wlift (add_usize (fst pk) (fst pv)) in
  do! _ := write_all W ID_SEQUENCE in
  do! _ := write_all W (Length_to_bytes (Definite content_len)) in
  do! _ := write_der_or DK W k (snd pk) in
  write_der_or DV W v (snd pv).
Fixpoint write_entries {S} (W : writer S) (it : list (K * V)) : wr S unit :=
  match it with
  | [] => wret tt
  | (k, v) :: it' => do! _ := write_entry W k v in write_entries W it'
  end.
(** ser/mod.rs:549-565, BTreeMap::der_contents_len; [ret] is the running sum. *)
Fixpoint btree_map_len (ret : N) (it : list (K * V)) : res (option N) :=
  match it with
  | [] => Ok (Some ret)
  | (k, v) :: it' =>
      let! kl := der_len DK k in
      match kl with
      | Some k_len =>
          let! vl := der_len DV v in
          match vl with
          | Some v_len =>
              let! content_len := add_usize k_len v_len in
              let! t := add_usize (nlen ID_SEQUENCE) (Length_len (Definite content_len)) in
              let! t := add_usize t content_len in
              let! ret' := add_usize ret t in
              btree_map_len ret' it'
          | None => Ok None
          end
      | None => Ok None
      end
  end.
(** ser/mod.rs:646-660, HashMap::der_contents_len: the outer [if let] has no [else], so
    an entry whose key has no known length adds nothing. *)
Fixpoint hash_map_len (ret : N) (it : list (K * V)) : res (option N) :=
  match it with
  | [] => Ok (Some ret)
  | (k, v) :: it' =>
      let! kl := der_len DK k in
      match kl with
      | Some k_len =>
          let! vl := der_len DV v in
          match vl with
          | Some v_len =>
              let! content_len := add_usize k_len v_len in
              let! t := add_usize (nlen ID_SEQUENCE) (Length_len (Definite content_len)) in
              let! t := add_usize t content_len in
              let! ret' := add_usize ret t in
              hash_map_len ret' it'
          | None => Ok None
          end
      | None => hash_map_len ret it'
      end
  end.
(** ser/mod.rs:495-566 *)
Definition ser_btree_map : serialize (list (K * V)) :=
  {| write_id := fun _ W _ => write_all W ID_SEQUENCE;
     write_der_contents := fun _ W v => write_entries W v;
     id_len := fun _ => Ok (Some 1);
     der_contents_len := btree_map_len 0 |}.
(** ser/mod.rs:592-661 *)
Definition ser_hash_map : serialize (list (K * V)) :=
  {| write_id := fun _ W _ => write_all W ID_SET;
     write_der_contents := fun _ W v => write_entries W v;
     id_len := fun _ => Ok (Some 1);
     der_contents_len := hash_map_len 0 |}.
End Maps.

(** ** Decoding collections *)
(** de/mod.rs:563-581, exclude_eoc *)
Definition exclude_eoc (E : env) (length : Length) (contents : list N) : res (list N) :=
  match length with
  | Definite len => let! _ := debug_assert E (len =? nlen contents) in Ok contents
  | Indefinite =>
      if ends_with contents EOC then Ok (take (nlen contents - nlen EOC) contents)
      else Err UnterminatedBytes
  end.

(** The texts of the contexts added by DeserializeHelper, numbered (the even
    numbers); each ends in the index of the element. *)
Definition ctx (message index : N) : N := 2 * (message + 16 * index).
Definition with_ctx {A} (message index : N) (r : res A) : res A :=
  rmap_err (fun e => Error_context (ctx message index) e) r.
(** The outcome of parsing a reference off a slice variable, with the variable
    afterwards when it went well. *)
Definition parsed (p : res (list N) * list N) : res (list N * list N) :=
  let! v := fst p in Ok (v, snd p).

(** de/mod.rs:583-596, DeserializeHelper: the rest of the contents and the index. *)
Definition helper : Type := list N * N.
(** de/mod.rs:598-620, der_to_val.  What happens to the helper on failure is not
    observable. *)
Definition der_to_val {T} (D : deserialize T) (h : helper) : res (option (T * helper)) :=
  let (contents, index) := h in
  match contents with
  | [] => Ok None
  | _ =>
      let! (der, rest) := with_ctx 0 index (parsed (DerRef_parse contents)) in
      let! (p, c) := disassemble der in
      let! val := with_ctx 1 index (from_der D (fst p) c) in
      Ok (Some (val, (rest, index + 1)))
  end.
(** de/mod.rs:622-646, ber_to_val *)
Definition ber_to_val {T} (D : deserialize T) (h : helper) : res (option (T * helper)) :=
  let (contents, index) := h in
  match contents with
  | [] => Ok None
  | _ =>
      let! (ber, rest) := with_ctx 2 index (parsed (BerRef_parse contents)) in
      let! (p, c) := disassemble ber in
      let! val := with_ctx 3 index (from_ber D (fst p) (snd p) c) in
      Ok (Some (val, (rest, index + 1)))
  end.
(** de/mod.rs:648-711, der_to_key_val *)
Definition der_to_key_val {K V} (DK : deserialize K) (DV : deserialize V) (h : helper)
  : res (option ((K * V) * helper)) :=
  let (contents, index) := h in
  match contents with
  | [] => Ok None
  | _ =>
      let! (pair_, rest) := with_ctx 4 index (parsed (DerRef_parse contents)) in
      let! pid := tlv_id pair_ in
      if negb (bytes_eqb pid ID_SEQUENCE) then Err (Error_context (ctx 5 index) InvalidKeyValuePair)
      else
        let! pair_contents := tlv_contents pair_ in
        let! (key, pair_contents) := with_ctx 6 index (parsed (DerRef_parse pair_contents)) in
        let! (val, pair_contents) := with_ctx 7 index (parsed (DerRef_parse pair_contents)) in
        match pair_contents with
        | [] =>
            let! (p, c) := disassemble key in
            let! k := with_ctx 8 index (from_der DK (fst p) c) in
            let! (p, c) := disassemble val in
            let! v := with_ctx 9 index (from_der DV (fst p) c) in
            Ok (Some ((k, v), (rest, index + 1)))
        | _ => Err (Error_context (ctx 10 index) InvalidKeyValuePair)
        end
  end.
(** de/mod.rs:713-780, ber_to_key_val *)
Definition ber_to_key_val {K V} (DK : deserialize K) (DV : deserialize V) (h : helper)
  : res (option ((K * V) * helper)) :=
  let (contents, index) := h in
  match contents with
  | [] => Ok None
  | _ =>
      let! (pair_, rest) := with_ctx 11 index (parsed (BerRef_parse contents)) in
      let! pid := tlv_id pair_ in
      if negb (bytes_eqb pid ID_SEQUENCE) then Err (Error_context (ctx 5 index) InvalidKeyValuePair)
      else
        let! pair_contents := tlv_contents pair_ in
        let! (key, pair_contents) := with_ctx 12 index (parsed (BerRef_parse pair_contents)) in
        let! (val, pair_contents) := with_ctx 13 index (parsed (BerRef_parse pair_contents)) in
        match pair_contents with
        | [] =>
            let! (p, c) := disassemble key in
            let! k := with_ctx 14 index (from_ber DK (fst p) (snd p) c) in
            let! (p, c) := disassemble val in
            let! v := with_ctx 15 index (from_ber DV (fst p) (snd p) c) in
            Ok (Some ((k, v), (rest, index + 1)))
        | _ => Err (Error_context (ctx 10 index) InvalidKeyValuePair)
        end
  end.

(** [while let Some(t) = next()? { insert t }], de/mod.rs:327-329 and the like.  Each
    round but the last consumes at least one octet. *)
Fixpoint collect {X C} (next : helper -> res (option (X * helper))) (insert : X -> C -> C)
  (fuel : nat) (h : helper) (ret : C) : res C :=
  match fuel with
  | O => NoFuel
  | S fuel' =>
      let! o := next h in
      match o with
      | None => Ok ret
      | Some (x, h') => collect next insert fuel' h' (insert x ret)
      end
  end.
(** The bodies of from_ber and from_der of all collections (de/mod.rs:316-561): they
    differ in the identifier, the element reader and the insertion. *)
Definition de_collection {X C} (E : env) (ID : list N) (empty : C) (insert : X -> C -> C)
  (bnext dnext : helper -> res (option (X * helper))) : deserialize C :=
  {| from_ber := fun id length contents =>
       if negb (bytes_eqb id ID) then Err UnmatchedId
       else
         let! c := exclude_eoc E length contents in
         collect bnext insert (S (List.length c)) (c, 0) empty;
     from_der := fun id contents =>
       if negb (bytes_eqb id ID) then Err UnmatchedId
       else collect dnext insert (S (List.length contents)) (contents, 0) empty |}.

(** [push] / [push_back] *)
Definition push_back {T} (x : T) (l : list T) : list T := l ++ [x].
(** BTreeSet::insert (std) on the sorted list of the elements: an equal element stays. *)
Fixpoint btree_insert {T} (cmp : T -> T -> comparison) (x : T) (l : list T) : list T :=
  match l with
  | [] => [x]
  | y :: l' =>
      match cmp x y with
      | Lt => x :: l
      | Eq => l
      | Gt => y :: btree_insert cmp x l'
      end
  end.
(** BTreeMap::insert (std): an equal key stays, its value is replaced. *)
Fixpoint btree_map_insert {K V} (cmp : K -> K -> comparison) (kv : K * V) (l : list (K * V)) : list (K * V) :=
  match l with
  | [] => [kv]
  | (k', v') :: l' =>
      match cmp (fst kv) k' with
      | Lt => kv :: l
      | Eq => (k', snd kv) :: l'
      | Gt => (k', v') :: btree_map_insert cmp kv l'
      end
  end.
(** HashSet::insert (std): an equal element stays, a new one goes anywhere. *)
Definition hash_insert {T} (E : env) (eqb : T -> T -> bool) (x : T) (l : list T) : list T :=
  if existsb (eqb x) l then l else e_place E x l.
(** HashMap::insert (std) *)
Fixpoint replace_value {K V} (eqb : K -> K -> bool) (kv : K * V) (l : list (K * V)) : list (K * V) :=
  match l with
  | [] => []
  | (k', v') :: l' => if eqb (fst kv) k' then (k', snd kv) :: l' else (k', v') :: replace_value eqb kv l'
  end.
Definition hash_map_insert {K V} (E : env) (eqb : K -> K -> bool) (kv : K * V) (l : list (K * V)) : list (K * V) :=
  if existsb (fun p => eqb (fst kv) (fst p)) l then replace_value eqb kv l else e_place E kv l.

(** de/mod.rs:316-349 *)
Definition de_vec {T} (E : env) (D : deserialize T) : deserialize (list T) :=
  de_collection E ID_SEQUENCE [] push_back (ber_to_val D) (der_to_val D).
(** de/mod.rs:351-384 *)
Definition de_linked_list {T} (E : env) (D : deserialize T) : deserialize (list T) :=
  de_collection E ID_SEQUENCE [] push_back (ber_to_val D) (der_to_val D).
(** de/mod.rs:386-419 *)
Definition de_vec_deque {T} (E : env) (D : deserialize T) : deserialize (list T) :=
  de_collection E ID_SEQUENCE [] push_back (ber_to_val D) (der_to_val D).
(** de/mod.rs:421-454 *)
Definition de_btree_set {T} (E : env) (cmp : T -> T -> comparison) (D : deserialize T) : deserialize (list T) :=
  de_collection E ID_SEQUENCE [] (btree_insert cmp) (ber_to_val D) (der_to_val D).
(** de/mod.rs:456-490 *)
Definition de_btree_map {K V} (E : env) (cmp : K -> K -> comparison) (DK : deserialize K) (DV : deserialize V)
  : deserialize (list (K * V)) :=
  de_collection E ID_SEQUENCE [] (btree_map_insert cmp) (ber_to_key_val DK DV) (der_to_key_val DK DV).
(** de/mod.rs:492-525 *)
Definition de_hash_set {T} (E : env) (eqb : T -> T -> bool) (D : deserialize T) : deserialize (list T) :=
  de_collection E ID_SET [] (hash_insert E eqb) (ber_to_val D) (der_to_val D).
(** de/mod.rs:527-561 *)
Definition de_hash_map {K V} (E : env) (eqb : K -> K -> bool) (DK : deserialize K) (DV : deserialize V)
  : deserialize (list (K * V)) :=
  de_collection E ID_SET [] (hash_map_insert E eqb) (ber_to_key_val DK DV) (der_to_key_val DK DV).
