(** Specification of serialisation: the octets of each type, from X.690 and the crate's
    documentation, and what it means for an implementation to produce and read them. *)
From Verif Require Import Base ModelIo ModelTag ModelContents ModelTlv ModelSerde Spec.
From Coq Require Import Sorting.Sorted Sorting.Permutation.

(** ** Octets *)
(** Shortest big-endian base-256 digits. *)
Fixpoint be_digits_from (fuel : nat) (n : N) (acc : list N) : list N :=
  match fuel with
  | O => acc
  | S fuel' => if n =? 0 then acc else be_digits_from fuel' (n / 256) (n mod 256 :: acc)
  end.
Definition be_digits (n : N) : list N := be_digits_from (N.size_nat n) n [].
(** Length octets, X.690 8.1.3 and 10.1. *)
Definition length_octets (n : N) : list N :=
  if n <? 128 then [n] else 128 + nlen (be_digits n) :: be_digits n.
(** One DER value. *)
Definition tlv (id c : list N) : list N := id ++ length_octets (nlen c) ++ c.

(** The shortest two's complement octets, X.690 8.3. *)
Fixpoint be_fixed (k : nat) (n : N) : list N :=
  match k with O => [] | S k' => be_fixed k' (n / 256) ++ [n mod 256] end.
Definition int_width (z : Z) : nat :=
  Z.to_nat ((Z.log2 (if (z <? 0)%Z then - z - 1 else z) + 1) / 8 + 1).
Definition int_octets (z : Z) : list N :=
  let k := int_width z in be_fixed k (Z.to_N (z mod 256 ^ Z.of_nat k)).

(** UTF-8, RFC 3629. *)
Definition scalar (c : N) : Prop := c < 0xd800 \/ 0xe000 <= c < 0x110000.
Definition utf8_encode (c : N) : list N :=
  if c <? 0x80 then [c]
  else if c <? 0x800 then [0xc0 + c / 64; 0x80 + c mod 64]
  else if c <? 0x10000 then [0xe0 + c / 4096; 0x80 + c / 64 mod 64; 0x80 + c mod 64]
  else [0xf0 + c / 262144; 0x80 + c / 4096 mod 64; 0x80 + c / 64 mod 64; 0x80 + c mod 64].
Definition is_utf8 (bs : list N) : Prop := exists cs, Forall scalar cs /\ bs = concat (map utf8_encode cs).

(** ** Codecs *)
(** What a type is for the encoding rules. *)
Record codec := {
  car : Type;
  (** the representation stands for a value *)
  wf : car -> Prop;
  (** equality of values *)
  same : car -> car -> Prop;
  (** the identifier octets, and the DER contents octets *)
  id_of : car -> list N;
  contents_of : car -> list N;
  (** BER encodings: identifier, length, contents (with the end-of-contents octets of
      an indefinite length) *)
  ber_of : car -> list N -> Length -> list N -> Prop }.
(** The whole DER value. *)
Definition der_of (C : codec) (v : car C) : list N := tlv (id_of C v) (contents_of C v).
(** A whole BER value. *)
Definition length_of (l : Length) : list N :=
  match l with Definite n => length_octets n | Indefinite => [0x80] end.
Definition ber_octets (C : codec) (v : car C) (bs : list N) : Prop :=
  exists id l c, ber_of C v id l c /\ bs = id ++ length_of l ++ c.

(** X.690 8.2, 11.1 *)
Definition bool_codec : codec :=
  {| car := bool; wf := fun _ => True; same := eq;
     id_of := fun _ => [0x01]; contents_of := fun b => [if b then 0xff else 0x00];
     ber_of := fun b id l c =>
       exists o, id = [0x01] /\ l = Definite 1 /\ c = [o] /\ o < 256 /\ (b = false <-> o = 0) |}.
(** X.690 8.3 *)
Definition int_codec (t : int_ty) : codec :=
  {| car := Z; wf := in_range t; same := eq;
     id_of := fun _ => [0x02]; contents_of := int_octets;
     ber_of := fun z id l c => id = [0x02] /\ l = Definite (nlen c) /\ c = int_octets z |}.
(** X.690 8.23 with UTF-8, the primitive form; for constructed strings see [ber_string]. *)
Definition string_codec : codec :=
  {| car := list N; wf := is_utf8; same := eq;
     id_of := fun _ => [0x0c]; contents_of := fun s => s;
     ber_of := fun s id l c => id = [0x0c] /\ l = Definite (nlen c) /\ c = s |}.
(** X.690 8.7, the primitive form *)
Definition octets_codec : codec :=
  {| car := list N; wf := bytes_ok; same := eq;
     id_of := fun _ => [0x04]; contents_of := fun s => s;
     ber_of := fun s id l c => id = [0x04] /\ l = Definite (nlen c) /\ c = s |}.

(** Contents of a constructed value made of [items]: definite, or indefinite. *)
Inductive constructed (items : list (list N)) : Length -> list N -> Prop :=
| con_definite : constructed items (Definite (nlen (concat items))) (concat items)
| con_indefinite : constructed items Indefinite (concat items ++ [0; 0]).

(** All BER forms of a string, X.690 8.7 and 8.23.6: identifier [tag] and the octets, or
    the constructed identifier and segments, which are themselves octet strings (tag 4);
    the value is what the segments hold, one after the other. *)
Inductive ber_string : N -> list N -> list N -> Length -> list N -> Prop :=
| bs_primitive tag v : ber_string tag v [tag] (Definite (nlen v)) v
| bs_constructed tag vs items l c : ber_segments vs items -> constructed items l c ->
    ber_string tag (concat vs) [tag + 0x20] l c
with ber_segments : list (list N) -> list (list N) -> Prop :=
| sg_nil : ber_segments [] []
| sg_cons v id l c vs items : ber_string 0x04 v id l c -> ber_segments vs items ->
    ber_segments (v :: vs) ((id ++ length_of l ++ c) :: items).

(** SEQUENCE OF and SET OF, X.690 8.10, 8.12: the elements in iteration order. *)
Definition items_codec (ID : list N) (C : codec) : codec :=
  {| car := list (car C); wf := Forall (wf C); same := Forall2 (same C);
     id_of := fun _ => ID; contents_of := fun vs => concat (map (der_of C) vs);
     ber_of := fun vs id l c =>
       id = ID /\ exists items, Forall2 (ber_octets C) vs items /\ constructed items l c |}.
Definition with_values (C : codec) (P : car C -> Prop) (eqv : car C -> car C -> Prop) : codec :=
  {| car := car C; wf := fun v => wf C v /\ P v; same := eqv;
     id_of := id_of C; contents_of := contents_of C; ber_of := ber_of C |}.
(** Vec, LinkedList, VecDeque. *)
Definition seq_codec (C : codec) : codec := items_codec [0x30] C.
(** BTreeSet: strictly increasing. *)
Definition sorted {T} (cmp : T -> T -> comparison) : list T -> Prop := StronglySorted (fun x y => cmp x y = Lt).
Definition btree_set_codec (C : codec) (cmp : car C -> car C -> comparison) : codec :=
  with_values (items_codec [0x30] C) (sorted cmp) (same (items_codec [0x30] C)).
(** Equality of unordered collections. *)
Definition same_unordered {T} (same : T -> T -> Prop) (a b : list T) : Prop :=
  exists a', Permutation a a' /\ Forall2 same a' b.
(** HashSet: no two equal elements. *)
Definition distinct {T} (eqb : T -> T -> bool) : list T -> Prop := ForallOrdPairs (fun x y => eqb x y = false /\ eqb y x = false).
Definition hash_set_codec (C : codec) (eqb : car C -> car C -> bool) : codec :=
  with_values (items_codec [0x31] C) (distinct eqb) (same_unordered (same C)).

(** An entry of a map: a SEQUENCE of key and value. *)
Definition entry_codec (CK CV : codec) : codec :=
  {| car := car CK * car CV; wf := fun p => wf CK (fst p) /\ wf CV (snd p);
     same := fun p q => same CK (fst p) (fst q) /\ same CV (snd p) (snd q);
     id_of := fun _ => [0x30];
     contents_of := fun p => der_of CK (fst p) ++ der_of CV (snd p);
     ber_of := fun p id l c =>
       id = [0x30] /\ exists k v, ber_octets CK (fst p) k /\ ber_octets CV (snd p) v /\
         l = Definite (nlen c) /\ c = k ++ v |}.
Definition btree_map_codec (CK CV : codec) (cmp : car CK -> car CK -> comparison) : codec :=
  with_values (items_codec [0x30] (entry_codec CK CV)) (fun l => sorted cmp (map fst l))
    (same (items_codec [0x30] (entry_codec CK CV))).
Definition hash_map_codec (CK CV : codec) (eqb : car CK -> car CK -> bool) : codec :=
  with_values (items_codec [0x31] (entry_codec CK CV)) (fun l => distinct eqb (map fst l))
    (same_unordered (same (entry_codec CK CV))).

(** ** Laws *)
(** Code that, on any writer, makes the [write_all] calls [cs] in turn and gives up at
    the first that fails; [bs] is what they write in all. *)
Fixpoint write_chunks {S} (W : writer S) (cs : list (list N)) : wr S unit :=
  match cs with
  | [] => wret tt
  | c :: cs' => do! _ := write_all W c in write_chunks W cs'
  end.
Definition emits (f : forall S, writer S -> wr S unit) (bs : list N) : Prop :=
  exists cs, concat cs = bs /\ forall S (W : writer S) s, f S W s = write_chunks W cs s.
(** A length announced before serialisation is unknown or right. *)
Definition announces (r : res (option N)) (bs : list N) : Prop := r = Ok None \/ r = Ok (Some (nlen bs)).

(** [D] serialises [v] as identifier [id] and contents [c]. *)
Record serialises {T} (D : serialize T) (v : T) (id c : list N) : Prop := {
  ss_id : emits (fun _ W => write_id D W v) id;
  ss_contents : emits (fun _ W => write_der_contents D W v) c;
  ss_id_len : announces (id_len D v) id;
  ss_contents_len : announces (der_contents_len D v) c }.

(** The octets of a type are octets. *)
Definition codec_ok (C : codec) : Prop :=
  forall v, wf C v -> is_identifier (id_of C v) /\
    (nlen (contents_of C v) < usize_limit -> bytes_ok (contents_of C v)).
(** The implementation writes the octets of the type (of contents that fit in memory). *)
Definition ser_law (C : codec) (D : serialize (car C)) : Prop :=
  forall v, wf C v -> nlen (contents_of C v) <= isize_max -> serialises D v (id_of C v) (contents_of C v).
(** It also knows all lengths beforehand. *)
Definition ser_known (C : codec) (D : serialize (car C)) : Prop :=
  forall v, wf C v -> nlen (contents_of C v) <= isize_max ->
    id_len D v = Ok (Some (nlen (id_of C v))) /\ der_contents_len D v = Ok (Some (nlen (contents_of C v))).
(** The implementation reads them back. *)
Definition de_law (C : codec) (D : deserialize (car C)) : Prop :=
  forall v, wf C v -> nlen (contents_of C v) < usize_limit ->
    exists v', from_der D (id_of C v) (contents_of C v) = Ok v' /\ wf C v' /\ same C v v'.
(** And any BER encoding. *)
Definition ber_law (C : codec) (D : deserialize (car C)) : Prop :=
  forall v id l c, wf C v -> ber_of C v id l c -> nlen c < usize_limit ->
    exists v', from_ber D id l c = Ok v' /\ wf C v' /\ same C v v'.
(** BER encodings are BER; the DER encoding is among them. *)
Definition ber_ok (C : codec) : Prop :=
  (forall v id l c, wf C v -> ber_of C v id l c -> nlen c < usize_limit ->
     is_identifier id /\ hd 0 id <> 0 /\ bytes_ok c /\
     match l with
     | Definite n => n = nlen c
     | Indefinite => exists items, ber_items items /\ c = items ++ [0; 0]
     end) /\
  (forall v, wf C v -> ber_of C v (id_of C v) (Definite (nlen (contents_of C v))) (contents_of C v)).
(** Only those octets are read. *)
Definition canonical (C : codec) (D : deserialize (car C)) : Prop :=
  forall id c v, bytes_ok c -> nlen c < usize_limit -> from_der D id c = Ok v -> wf C v /\ id = id_of C v /\ c = contents_of C v.
(** An order or an equality test that agrees with the equality of values. *)
Definition order_ok (C : codec) (cmp : car C -> car C -> comparison) : Prop :=
  (forall x y, wf C x -> wf C y -> cmp y x = CompOpp (cmp x y)) /\
  (forall x y x' y', wf C x -> wf C y -> wf C x' -> wf C y' -> same C x x' -> same C y y' -> cmp x y = cmp x' y').
Definition eqb_ok (C : codec) (eqb : car C -> car C -> bool) : Prop :=
  forall x y x' y', wf C x -> wf C y -> wf C x' -> wf C y' -> same C x x' -> same C y y' -> eqb x y = eqb x' y'.
(** Hash tables keep all their elements. *)
Definition good_env (E : env) : Prop := forall A (x : A) l, Permutation (e_place E x l) (x :: l).
(** A call that returns. *)
Definition answers {A} (r : res A) : Prop := (exists a, r = Ok a) \/ (exists e, r = Err e).
Definition der_answers {T} (D : deserialize T) : Prop := forall id c, bytes_ok c -> answers (from_der D id c).
(** Read from the start as values, and so on inside their contents, the octets show no
    value of indefinite length, up to where they stop being values. *)
Inductive quiet : list N -> Prop :=
| quiet_end c : (forall v rest, c = v ++ rest -> ~ ber_value v) -> quiet c
| quiet_value id c v rest : der_tlv id c v -> quiet c -> quiet rest -> quiet (v ++ rest).
(** Without debug assertions, on any octets; with them, on quiet ones. *)
Definition ber_answers (E : env) {T} (D : deserialize T) : Prop :=
  forall id l c, bytes_ok c -> e_debug E = false \/ l = Definite (nlen c) /\ quiet c -> answers (from_ber D id l c).
(** All of these. *)
Record laws (E : env) (C : codec) (S : serialize (car C)) (D : deserialize (car C)) : Prop := {
  l_codec : codec_ok C; l_ser : ser_law C S; l_de : de_law C D; l_ber : ber_law C D;
  l_ber_ok : ber_ok C; l_der_answers : der_answers D; l_ber_answers : ber_answers E D }.

(** ** The types of the crate *)
(** The type with codec [C] is built from the provided implementations, which are [S]
    and [D].  Orders and equality tests are any that agree with the equality of values. *)
Inductive provided (E : env) : forall C : codec, serialize (car C) -> deserialize (car C) -> Prop :=
| pv_bool : provided E bool_codec ser_bool (de_bool E)
| pv_int t : provided E (int_codec t) (ser_int t) (de_int E t)
| pv_string : provided E string_codec ser_string (de_string E)
| pv_octets : provided E octets_codec ser_octets de_octets
| pv_vec C S D : provided E C S D -> provided E (seq_codec C) (ser_vec E S) (de_vec E D)
| pv_linked_list C S D : provided E C S D -> provided E (seq_codec C) (ser_linked_list E S) (de_linked_list E D)
| pv_vec_deque C S D : provided E C S D -> provided E (seq_codec C) (ser_vec_deque E S) (de_vec_deque E D)
| pv_btree_set C S D cmp : provided E C S D -> order_ok C cmp ->
    provided E (btree_set_codec C cmp) (ser_btree_set E S) (de_btree_set E cmp D)
| pv_hash_set C S D eqb : provided E C S D -> eqb_ok C eqb ->
    provided E (hash_set_codec C eqb) (ser_hash_set E S) (de_hash_set E eqb D)
| pv_btree_map CK SK DK CV SV DV cmp : provided E CK SK DK -> provided E CV SV DV -> order_ok CK cmp ->
    provided E (btree_map_codec CK CV cmp) (ser_btree_map E SK SV) (de_btree_map E cmp DK DV)
| pv_hash_map CK SK DK CV SV DV eqb : provided E CK SK DK -> provided E CV SV DV -> eqb_ok CK eqb ->
    provided E (hash_map_codec CK CV eqb) (ser_hash_map E SK SV) (de_hash_map E eqb DK DV).
(** Those without sets and maps. *)
Inductive sequential (E : env) : forall C : codec, serialize (car C) -> deserialize (car C) -> Prop :=
| sq_bool : sequential E bool_codec ser_bool (de_bool E)
| sq_int t : sequential E (int_codec t) (ser_int t) (de_int E t)
| sq_string : sequential E string_codec ser_string (de_string E)
| sq_octets : sequential E octets_codec ser_octets de_octets
| sq_vec C S D : sequential E C S D -> sequential E (seq_codec C) (ser_vec E S) (de_vec E D)
| sq_linked_list C S D : sequential E C S D -> sequential E (seq_codec C) (ser_linked_list E S) (de_linked_list E D)
| sq_vec_deque C S D : sequential E C S D -> sequential E (seq_codec C) (ser_vec_deque E S) (de_vec_deque E D).
(** Those without hash tables. *)
Inductive unhashed (E : env) : forall C : codec, serialize (car C) -> deserialize (car C) -> Prop :=
| uh_sequential C S D : sequential E C S D -> unhashed E C S D
| uh_vec C S D : unhashed E C S D -> unhashed E (seq_codec C) (ser_vec E S) (de_vec E D)
| uh_linked_list C S D : unhashed E C S D -> unhashed E (seq_codec C) (ser_linked_list E S) (de_linked_list E D)
| uh_vec_deque C S D : unhashed E C S D -> unhashed E (seq_codec C) (ser_vec_deque E S) (de_vec_deque E D)
| uh_btree_set C S D cmp : unhashed E C S D -> order_ok C cmp ->
    unhashed E (btree_set_codec C cmp) (ser_btree_set E S) (de_btree_set E cmp D)
| uh_btree_map CK SK DK CV SV DV cmp : unhashed E CK SK DK -> unhashed E CV SV DV -> order_ok CK cmp ->
    unhashed E (btree_map_codec CK CV cmp) (ser_btree_map E SK SV) (de_btree_map E cmp DK DV).

(** ** Entries of maps *)
(** The octets [b] are a SEQUENCE of two values, which decode as key and value. *)
Definition der_entry {K V} (DK : deserialize K) (DV : deserialize V) (b : list N) (p : K * V) : Prop :=
  exists kb vb, (exists id c, der_tlv id c kb) /\ (exists id c, der_tlv id c vb) /\ nlen (kb ++ vb) < usize_limit /\
    b = tlv [0x30] (kb ++ vb) /\ serde_from_der DK kb = Ok (fst p) /\ serde_from_der DV vb = Ok (snd p).
Definition ber_entry {K V} (DK : deserialize K) (DV : deserialize V) (b : list N) (p : K * V) : Prop :=
  exists kb vb l, ber_value kb /\ ber_value vb /\ ber_value b /\
    ((l = Definite (nlen (kb ++ vb)) /\ nlen (kb ++ vb) < usize_limit) \/ l = Indefinite) /\
    b = [0x30] ++ length_of l ++ kb ++ vb /\ serde_from_ber DK kb = Ok (fst p) /\ serde_from_ber DV vb = Ok (snd p).

(** ** Writers *)
(** [log s]: what the writer has taken.  A call takes at most what it is given, from the
    front, and says how much; a failing call takes nothing. *)
Definition honest_writer {S} (W : writer S) (log : S -> list N) : Prop :=
  forall s bs, match wr_write W s bs with
               | (WrOk n, s') => n <= nlen bs /\ log s' = log s ++ take n bs
               | (WrErr _, s') => log s' = log s
               | (WrPanic, _) => False
               end.
(** The call of [write] with which a run failed: it reported error [k], or took nothing. *)
Definition last_call {S} (W : writer S) (s : S) (bs : list N) (k : io_kind) (s' : S) : Prop :=
  (wr_write W s bs = (WrErr k, s') /\ k <> Interrupted) \/ (wr_write W s bs = (WrOk 0, s') /\ k = WriteZero).
(** A writer that takes [step] octets at a time, [k] in all, then fails with [e]. *)
Definition limited (k step : N) (e : io_kind) : writer (list N) :=
  {| wr_write := fun s bs =>
       if k <=? nlen s then (WrErr e, s)
       else let n := N.min (nlen bs) (N.min step (k - nlen s)) in (WrOk n, s ++ take n bs);
     wr_fuel := S (N.to_nat k) |}.
