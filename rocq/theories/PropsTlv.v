(** C12-C18, C40-C42, C44, C46: values (identifier, length, contents). *)
From Verif Require Import Base ModelIo ModelTag ModelContents ModelBuf ModelTlv Spec SpecLeft TagProofs IdProofs TagMain ContentsProofs TlvProofs BufProofs TlvMain LeftProofs.

(** A layout and some uninitialised octets, for the examples. *)
Definition ex_cfg : bufcfg := {| init_cap := 23; junk := fun i => 0xa5 + i |}.
Lemma ex_id : is_identifier [0x04].
Proof. apply universal_identifier. lia. Qed.
Lemma ex_tlv : der_tlv [0x04] [7; 8] [0x04; 2; 7; 8].
Proof.
  change [0x04; 2; 7; 8] with ([0x04] ++ [2] ++ [7; 8]). constructor; [exact ex_id | | reflexivity].
  change (nlen [7; 8]) with 2. constructor. reflexivity.
Qed.
Lemma ex_indef : ber_value [0x30; 0x80; 0x04; 2; 7; 8; 0x30; 0x80; 0; 0; 0; 0].
Proof.
  assert (I : is_identifier [0x30]).
  { exists 0, 1, 16. change [0x30] with [0 * 64 + 1 * 32 + 16]. constructor; lia. }
  change [0x30; 0x80; 0x04; 2; 7; 8; 0x30; 0x80; 0; 0; 0; 0]
    with ([0x30] ++ [0x80] ++ ([0x04; 2; 7; 8] ++ [0x30; 0x80; 0; 0] ++ []) ++ [0; 0]).
  apply bv_indefinite; [exact I|]. apply bi_cons; [eapply bv_definite, ex_tlv | discriminate |].
  apply bi_cons; [| discriminate | constructor].
  change [0x30; 0x80; 0; 0] with ([0x30] ++ [0x80] ++ [] ++ [0; 0]). apply bv_indefinite; [exact I | constructor].
Qed.

(** ** C12 *)
Theorem C12_der_new : forall cfg id c bs, der_tlv id c bs -> nlen bs <= isize_max -> bytes_ok c ->
  exists b, Der_new cfg id c = Ok b /\ bf_slice b = bs /\
    tlv_id bs = Ok id /\ tlv_length bs = Ok (Definite (nlen c)) /\ tlv_contents bs = Ok c /\
    disassemble bs = Ok (id, Definite (nlen c), c) /\
    forall rest, bytes_ok rest -> DerRef_parse (bs ++ rest) = (Ok bs, rest).
Proof. exact der_new_full. Qed.
Print Assumptions C12_der_new.
(** Such octets exist and are unique for every identifier and contents. *)
Theorem C12_der_exists : forall id c, is_identifier id -> nlen c < 2 ^ 64 -> exists bs, der_tlv id c bs.
Proof. exact der_exists. Qed.
Theorem C12_der_unique : forall id c bs bs', der_tlv id c bs -> der_tlv id c bs' -> bs = bs'.
Proof. exact der_tlv_fun. Qed.
Print Assumptions C12_der_unique.
Example C12_ex : der_tlv [0x04] [7; 8] [0x04; 2; 7; 8] /\
  rmap bf_slice (Der_new ex_cfg [0x04] [7; 8]) = Ok [0x04; 2; 7; 8] /\
  rmap bf_slice (Der_new ex_cfg [0x04] (repeat 9 200)) = Ok (0x04 :: 0x81 :: 200 :: repeat 9 200).
Proof. split; [exact ex_tlv|]. split; vm_compute; reflexivity. Qed.

(** ** C13 *)
Theorem C13_der_parse_accepts : forall bs v rest, bytes_ok bs ->
  (DerRef_parse bs = (Ok v, rest) <-> (exists id c, der_tlv id c v) /\ bs = v ++ rest).
Proof. exact der_parse_iff. Qed.
Print Assumptions C13_der_parse_accepts.
Theorem C13_der_parse_errors : forall bs e, bytes_ok bs -> (fst (DerRef_parse bs) = Err e <-> der_error bs e).
Proof. exact der_err_iff. Qed.
Print Assumptions C13_der_parse_errors.
Theorem C13_der_parse_no_panic : forall bs, bytes_ok bs ->
  fst (DerRef_parse bs) <> Panic /\ fst (DerRef_parse bs) <> NoFuel.
Proof. exact der_no_panic. Qed.
Print Assumptions C13_der_parse_no_panic.
Theorem C13_der_parse_mut : forall bs, bytes_ok bs ->
  fst (DerRef_parse_mut bs) = fst (DerRef_parse bs) /\
  (forall v rest, DerRef_parse_mut bs = (Ok v, rest) <-> DerRef_parse bs = (Ok v, rest)) /\
  (forall e, fst (DerRef_parse_mut bs) = Err e -> snd (DerRef_parse_mut bs) = bs).
Proof. exact der_parse_mut_same. Qed.
Print Assumptions C13_der_parse_mut.
Example C13_ex : DerRef_parse [0x04; 2; 7; 8; 9] = (Ok [0x04; 2; 7; 8], [9]) /\
  fst (DerRef_parse [0x04; 2; 7]) = Err UnterminatedBytes /\
  fst (DerRef_parse [0x30; 0x80; 0; 0]) = Err IndefiniteLength /\
  fst (DerRef_parse [0x04; 0x81; 1; 9]) = Err RedundantBytes /\
  der_error [0x04; 2; 7] UnterminatedBytes.
Proof.
  repeat split. apply (de_truncated [0x04] 2 [2] [7]); try lia; [exact ex_id | constructor; lia | reflexivity].
Qed.

(** ** C14: the documentation of all six parsers says the caller's variable is not
    updated on failure.  True of parse_mut (and of IdRef::parse, see C05_id_errors); false of
    DerRef::parse and BerRef::parse, which leave it somewhere inside the input. *)
Theorem C14_parse_mut_unchanged : forall bs e, bytes_ok bs ->
  (fst (DerRef_parse_mut bs) = Err e -> DerRef_parse_mut bs = (Err e, bs)) /\
  (fst (BerRef_parse_mut bs) = Err e -> BerRef_parse_mut bs = (Err e, bs)) /\
  (fst (IdRef_parse bs) = Err e -> IdRef_parse bs = (Err e, bs)) /\
  (fst (IdRef_parse_mut bs) = Err e -> IdRef_parse_mut bs = (Err e, bs)).
Proof.
  intros bs e Hok. destruct (id_errors bs e Hok) as (_ & B & C). rewrite C. repeat split; auto.
  - intros H. pose proof (proj2 (proj2 (der_parse_mut_same bs Hok)) e H). destruct (DerRef_parse_mut bs); cbn in *; congruence.
  - intros H. pose proof (proj2 (proj2 (ber_parse_mut_same bs Hok)) e H). destruct (BerRef_parse_mut bs); cbn in *; congruence.
Qed.
Print Assumptions C14_parse_mut_unchanged.
Theorem C14_der_parse_refuted : ~ (forall bs e, bytes_ok bs -> fst (DerRef_parse bs) = Err e -> snd (DerRef_parse bs) = bs).
Proof.
  intros H. specialize (H [0x04; 2; 7] UnterminatedBytes).
  assert (bytes_ok [0x04; 2; 7]) by (repeat constructor).
  specialize (H H0 eq_refl). vm_compute in H. discriminate.
Qed.
Print Assumptions C14_der_parse_refuted.
Theorem C14_ber_parse_refuted : ~ (forall bs e, bytes_ok bs -> fst (BerRef_parse bs) = Err e -> snd (BerRef_parse bs) = bs).
Proof.
  intros H. specialize (H [0x30; 0x80; 0x04; 2; 7] UnterminatedBytes).
  assert (bytes_ok [0x30; 0x80; 0x04; 2; 7]) by (repeat constructor).
  specialize (H H0 eq_refl). vm_compute in H. discriminate.
Qed.
Print Assumptions C14_ber_parse_refuted.
(** What holds instead: the variable is left at some suffix of the input. *)
Theorem C14_parse_leaves_suffix : forall bs,
  (exists p, bs = p ++ snd (DerRef_parse bs)) /\ (exists p, bs = p ++ snd (BerRef_parse bs)).
Proof.
  intros bs. split.
  - apply der_parse_suffix with (fst (DerRef_parse bs)). now destruct (DerRef_parse bs).
  - apply ber_parse_suffix with (fst (BerRef_parse bs)). now destruct (BerRef_parse bs).
Qed.
Print Assumptions C14_parse_leaves_suffix.
(** Exactly: the octets up to there decide the failure. They are refused whatever comes
    next, or they need more octets than there are; and they are none only if there are no
    octets at all. *)
Theorem C14_exact : forall bs,
  (forall e rest, DerRef_parse bs = (Err e, rest) -> exists p, bs = p ++ rest /\ stuck DerRef_parse p e rest /\ (rest = bs <-> bs = [])) /\
  (forall e rest, BerRef_parse bs = (Err e, rest) -> exists p, bs = p ++ rest /\ stuck BerRef_parse p e rest /\ (rest = bs <-> bs = [])).
Proof.
  assert (K : forall parse p e rest, (forall x, parse [x] = (Err UnterminatedBytes, [])) -> stuck parse p e rest -> (rest = p ++ rest <-> p ++ rest = [])).
  { intros parse p e rest P C. split.
    - intros E. assert (p = []) as -> by (destruct p; [reflexivity|]; apply (f_equal (@length N)) in E; rewrite app_length in E; cbn [length] in E; lia).
      exact (stuck_moved parse [] e rest P C eq_refl).
    - intros E. apply app_eq_nil in E as [-> ->]. reflexivity. }
  intros bs. split; intros e rest H.
  - destruct (der_stuck _ _ _ H) as (p & -> & C). exists p. split; [reflexivity|]. split; [assumption|]. exact (K _ p e rest der_single C).
  - destruct (ber_stuck _ _ _ H) as (p & -> & C). exists p. split; [reflexivity|]. split; [assumption|]. exact (K _ p e rest ber_single C).
Qed.
Print Assumptions C14_exact.
Example C14_exact_ex : DerRef_parse [0x1f; 0x05; 1; 1] = (Err RedundantBytes, [1; 1]) /\
  BerRef_parse [0x30; 0x80; 4; 1; 7; 4; 3; 8; 9] = (Err UnterminatedBytes, [8; 9]) /\
  fst (BerRef_parse [0x30; 0x80; 4; 1; 7; 4; 3; 8; 9; 9; 0; 0]) = Ok [0x30; 0x80; 4; 1; 7; 4; 3; 8; 9; 9; 0; 0].
Proof. repeat split. Qed.
Example C14_ex : DerRef_parse [0x04; 2; 7] = (Err UnterminatedBytes, [7]) /\
  DerRef_parse_mut [0x04; 2; 7] = (Err UnterminatedBytes, [0x04; 2; 7]).
Proof. split; reflexivity. Qed.

(** ** C15 *)
Theorem C15_ber_parse_accepts : forall bs v rest, bytes_ok bs ->
  (BerRef_parse bs = (Ok v, rest) <-> ber_value v /\ bs = v ++ rest).
Proof. exact ber_parse_iff. Qed.
Print Assumptions C15_ber_parse_accepts.
Theorem C15_ber_parse_errors : forall bs e, bytes_ok bs -> (fst (BerRef_parse bs) = Err e <-> ber_error bs e).
Proof. exact ber_err_iff. Qed.
Print Assumptions C15_ber_parse_errors.
Theorem C15_ber_parse_no_panic : forall bs, bytes_ok bs ->
  fst (BerRef_parse bs) <> Panic /\ fst (BerRef_parse bs) <> NoFuel.
Proof. exact ber_no_panic. Qed.
Print Assumptions C15_ber_parse_no_panic.
Theorem C15_ber_parse_mut : forall bs, bytes_ok bs ->
  fst (BerRef_parse_mut bs) = fst (BerRef_parse bs) /\
  (forall v rest, BerRef_parse_mut bs = (Ok v, rest) <-> BerRef_parse bs = (Ok v, rest)) /\
  (forall e, fst (BerRef_parse_mut bs) = Err e -> snd (BerRef_parse_mut bs) = bs).
Proof. exact ber_parse_mut_same. Qed.
Print Assumptions C15_ber_parse_mut.
(** The grammar is unambiguous: a string starts with at most one value. *)
Theorem C15_ber_unambiguous : forall v v' r r', bytes_ok (v ++ r) ->
  ber_value v -> ber_value v' -> v ++ r = v' ++ r' -> v = v' /\ r = r'.
Proof. exact ber_value_prefix. Qed.
Print Assumptions C15_ber_unambiguous.
Example C15_ex : ber_value [0x30; 0x80; 0x04; 2; 7; 8; 0x30; 0x80; 0; 0; 0; 0] /\
  BerRef_parse [0x30; 0x80; 0x04; 2; 7; 8; 0x30; 0x80; 0; 0; 0; 0; 5] =
    (Ok [0x30; 0x80; 0x04; 2; 7; 8; 0x30; 0x80; 0; 0; 0; 0], [5]) /\
  fst (BerRef_parse [0x30; 0x80; 0x04; 2; 7; 8; 0x30; 0x80; 0; 0]) = Err UnterminatedBytes.
Proof. split; [exact ex_indef|]. split; vm_compute; reflexivity. Qed.

(** ** C16 *)
Theorem C16_ber_extends_der : forall bs v rest, bytes_ok bs ->
  DerRef_parse bs = (Ok v, rest) -> BerRef_parse bs = (Ok v, rest).
Proof. exact ber_extends_der. Qed.
Print Assumptions C16_ber_extends_der.
Theorem C16_only_indefinite_added : forall bs v rest, bytes_ok bs -> BerRef_parse bs = (Ok v, rest) ->
  DerRef_parse bs = (Ok v, rest) \/ fst (DerRef_parse bs) = Err IndefiniteLength.
Proof. exact ber_adds_indefinite. Qed.
Print Assumptions C16_only_indefinite_added.
Example C16_ex : DerRef_parse [0x04; 2; 7; 8; 9] = (Ok [0x04; 2; 7; 8], [9]) /\ BerRef_parse [0x04; 2; 7; 8; 9] = (Ok [0x04; 2; 7; 8], [9]).
Proof. split; reflexivity. Qed.

(** ** C17 *)
Theorem C17_der_history : forall cfgs ops id c b bs, bytes_ok c -> der_tlv id c bs -> holds b bs -> nlen bs <= isize_max ->
  history_ok (der_fits id) ops c ->
  exists b' bs', run_ops der_op cfgs ops b = Ok b' /\ bf_slice b' = bs' /\ holds b' bs' /\
    der_tlv id (vec_ops ops c) bs' /\ bytes_ok (vec_ops ops c).
Proof. exact (fun cfgs ops => der_history ops cfgs). Qed.
Print Assumptions C17_der_history.
(** From [Der::new]; reading the result. *)
Theorem C17_der_new_history : forall cfg cfgs ops id c bs, bytes_ok c -> der_tlv id c bs -> nlen bs <= isize_max ->
  history_ok (der_fits id) ops c ->
  exists b b', Der_new cfg id c = Ok b /\ run_ops der_op cfgs ops b = Ok b' /\
    disassemble (bf_slice b') = Ok (id, Definite (nlen (vec_ops ops c)), vec_ops ops c) /\
    DerRef_parse (bf_slice b') = (Ok (bf_slice b'), []).
Proof.
  intros cfg cfgs ops id c bs Hc Hd Hl H. destruct (der_new_ok cfg id c bs Hd Hl) as (b & E & _ & Hb).
  destruct (der_history ops cfgs id c b bs Hc Hd Hb Hl H) as (b' & bs' & R & S & _ & D & Hok).
  exists b, b'. rewrite S. destruct (der_tlv_disassemble _ _ _ D) as (_ & _ & _ & T). repeat split; auto.
  apply der_parse_iff; [now apply (der_tlv_ok _ _ _ D)|]. split; [eauto | now rewrite app_nil_r].
Qed.
Print Assumptions C17_der_new_history.
Example C17_ex :
  let ops := [OpExtend (repeat 9 130); OpPush 1; OpTruncate 131; OpEdit (map (fun x => x + 1)); OpTruncate 3] in
  history_ok (der_fits [0x04]) ops [7; 8] /\
  (let! b := Der_new ex_cfg [0x04] [7; 8] in let! b' := run_ops der_op (fun _ => ex_cfg) ops b in Ok (bf_slice b')) = Ok [0x04; 3; 8; 9; 10] /\
  vec_ops ops [7; 8] = [8; 9; 10].
Proof.
  assert (F : forall c, nlen c <= 1000 -> der_fits [0x04] c).
  { intros c L. exists ([0x04] ++ Length_to_bytes (Definite (nlen c)) ++ c).
    assert (nlen c < 2 ^ 64) by (apply N.le_lt_trans with 1000; [assumption | reflexivity]).
    split; [apply der_tlv_make; [exact ex_id | assumption]|].
    rewrite !nlen_app, len_len by assumption.
    pose proof (Length_len_mono _ _ L) as M. change (Length_len (Definite 1000)) with 3 in M.
    apply N.le_trans with (1 + (3 + 1000)); [|vm_compute; discriminate].
    change (nlen [0x04]) with 1. lia. }
  split; [|split; vm_compute; reflexivity].
  repeat split; try (apply F; vm_compute; discriminate); try exact I; vm_compute; repeat constructor.
Qed.

(** ** C18 *)
Theorem C18_ber_history_definite : forall cfgs ops id c b bs, bytes_ok c -> der_tlv id c bs -> holds b bs -> nlen bs <= isize_max ->
  history_ok (der_fits id) ops c ->
  exists b' bs', run_ops ber_op cfgs ops b = Ok b' /\ bf_slice b' = bs' /\ holds b' bs' /\
    der_tlv id (vec_ops ops c) bs' /\ bytes_ok (vec_ops ops c).
Proof. exact (fun cfgs ops => ber_history_definite ops cfgs). Qed.
Print Assumptions C18_ber_history_definite.
Theorem C18_ber_history_indefinite : forall cfgs ops id c b, is_identifier id -> bytes_ok c -> holds b (id ++ 0x80 :: c) ->
  indef_fits id c -> history_ok (indef_fits id) ops c ->
  exists b', run_ops ber_op cfgs ops b = Ok b' /\ bf_slice b' = id ++ 0x80 :: vec_ops ops c /\
    holds b' (id ++ 0x80 :: vec_ops ops c) /\ bytes_ok (vec_ops ops c).
Proof. exact (fun cfgs ops => ber_history_indefinite ops cfgs). Qed.
Print Assumptions C18_ber_history_indefinite.
(** From the constructors; reading the result. *)
Theorem C18_ber_new_history : forall cfg cfgs ops id c, is_identifier id -> bytes_ok c -> indef_fits id c ->
  history_ok (indef_fits id) ops c ->
  exists b b', Ber_new_indefinite cfg id c = Ok b /\ run_ops ber_op cfgs ops b = Ok b' /\
    disassemble (bf_slice b') = Ok (id, Indefinite, vec_ops ops c).
Proof.
  intros cfg cfgs ops id c Hi Hc Hf H. destruct (Ber_new_indefinite_ok cfg id c Hi) as (b & E & Hb).
  { unfold indef_fits in Hf. rewrite nlen_app, nlen_cons in Hf. lia. }
  destruct (ber_history_indefinite ops cfgs id c b Hi Hc Hb Hf H) as (b' & R & S & _).
  exists b, b'. rewrite S. repeat split; auto. now apply tlv_parts_indefinite.
Qed.
Print Assumptions C18_ber_new_history.
Example C18_ex :
  let ops := [OpPush 1; OpExtend [2; 0; 0]; OpTruncate 2] in
  history_ok (indef_fits [0x30]) ops [7] /\
  (let! b := Ber_new_indefinite ex_cfg [0x30] [7] in let! b' := run_ops ber_op (fun _ => ex_cfg) ops b in Ok (bf_slice b')) = Ok [0x30; 0x80; 7; 1].
Proof. split; [|vm_compute; reflexivity]. repeat split; try (vm_compute; discriminate); repeat constructor. Qed.

(** ** C40: repeated parsing.  [parses p bs vs]: calling [p] again and again on what
    is left yields exactly [vs] and ends with nothing left. *)
Theorem C40_der_framing : forall vs us, Forall (fun v => exists id c, der_tlv id c v) vs -> bytes_ok (concat vs) ->
  (parses DerRef_parse (concat vs) us <-> us = vs).
Proof.
  apply framing; [intros v (id & c & H); now apply der_tlv_nonempty in H | exact der_parse_iff].
Qed.
Print Assumptions C40_der_framing.
Theorem C40_ber_framing : forall vs us, Forall ber_value vs -> bytes_ok (concat vs) ->
  (parses BerRef_parse (concat vs) us <-> us = vs).
Proof. apply framing; [exact ber_value_nonempty | exact ber_parse_iff]. Qed.
Print Assumptions C40_ber_framing.
(** And whatever parses is the concatenation of values. *)
Theorem C40_parses_concat : forall bs vs, bytes_ok bs ->
  (parses DerRef_parse bs vs -> bs = concat vs /\ Forall (fun v => exists id c, der_tlv id c v) vs) /\
  (parses BerRef_parse bs vs -> bs = concat vs /\ Forall ber_value vs).
Proof.
  intros bs vs H. split.
  - apply (parses_concat _ _ der_parse_iff); assumption.
  - apply (parses_concat _ _ ber_parse_iff); assumption.
Qed.
Print Assumptions C40_parses_concat.
Example C40_ex : parses DerRef_parse [0x04; 2; 7; 8; 0x05; 0] [[0x04; 2; 7; 8]; [0x05; 0]].
Proof. repeat (econstructor; [reflexivity|]). constructor. Qed.

(** ** C41 *)
Theorem C41_der_truncated : forall id c p q, der_tlv id c (p ++ q) -> bytes_ok (p ++ q) -> q <> [] ->
  fst (DerRef_parse p) = Err UnterminatedBytes.
Proof. exact der_prefix. Qed.
Print Assumptions C41_der_truncated.
Theorem C41_ber_truncated : forall p q, ber_value (p ++ q) -> bytes_ok (p ++ q) -> q <> [] ->
  fst (BerRef_parse p) = Err UnterminatedBytes.
Proof. exact ber_prefix. Qed.
Print Assumptions C41_ber_truncated.
Example C41_ex : ber_value ([0x30; 0x80; 0x04; 2; 7; 8; 0x30] ++ [0x80; 0; 0; 0; 0]) /\
  fst (BerRef_parse [0x30; 0x80; 0x04; 2; 7; 8; 0x30]) = Err UnterminatedBytes.
Proof. split; [exact ex_indef | reflexivity]. Qed.

(** ** C42 *)
Theorem C42_der_from_iterator : forall cfg id items bs, der_tlv id (concat items) bs -> nlen bs <= isize_max ->
  exists b b', Der_from_id_iterator cfg id items = Ok b /\ Der_new cfg id (concat items) = Ok b' /\
    bf_slice b = bs /\ bf_slice b' = bs /\
    Ber_from_id_iterator cfg id items = Ok b /\ Ber_new cfg id (concat items) = Ok b'.
Proof.
  intros cfg id items bs H L. destruct (der_from_iterator cfg id items bs H L) as (b & E & S & _).
  destruct (der_new_ok cfg id (concat items) bs H L) as (b' & E' & S' & _). exists b, b'. auto 10.
Qed.
Print Assumptions C42_der_from_iterator.
Theorem C42_ber_from_iterator_indefinite : forall cfg id items, is_identifier id -> nlen (id ++ 0x80 :: concat items) <= isize_max ->
  exists b b', Ber_from_id_iterator_indefinite cfg id items = Ok b /\ Ber_new_indefinite cfg id (concat items) = Ok b' /\
    bf_slice b = id ++ 0x80 :: concat items /\ bf_slice b' = id ++ 0x80 :: concat items.
Proof.
  intros cfg id items Hi L. destruct (ber_from_iterator_indefinite cfg id items L) as (b & E & S & _).
  rewrite nlen_app, nlen_cons in L.
  destruct (Ber_new_indefinite_ok cfg id (concat items) Hi) as (b' & E' & Hb'); [lia|].
  exists b, b'. rewrite (holds_slice _ _ Hb'). auto.
Qed.
Print Assumptions C42_ber_from_iterator_indefinite.
Theorem C42_with_id_length : forall cfg id n, is_identifier id -> nlen id + nlen (Length_to_bytes (Definite n)) + n <= isize_max ->
  exists b c, Der_with_id_length cfg id n = Ok b /\ nlen c = n /\ bytes_ok c /\ der_tlv id c (bf_slice b) /\ holds b (bf_slice b).
Proof. exact der_with_id_length. Qed.
Print Assumptions C42_with_id_length.
Theorem C42_with_id_length_indefinite : forall cfg id n, nlen id + 1 + n <= isize_max ->
  exists b c, Ber_with_id_length_indefinite cfg id n = Ok b /\ nlen c = n /\ bytes_ok c /\ bf_slice b = id ++ 0x80 :: c /\
    holds b (id ++ 0x80 :: c).
Proof. exact ber_with_id_length_indefinite. Qed.
Print Assumptions C42_with_id_length_indefinite.
Example C42_ex : rmap bf_slice (Der_from_id_iterator ex_cfg [0x30] [[2; 1; 5]; []; [5; 0]]) = Ok [0x30; 5; 2; 1; 5; 5; 0] /\
  rmap bf_slice (Ber_from_id_iterator_indefinite ex_cfg [0x30] [[2; 1; 5]; [0; 0]]) = Ok [0x30; 0x80; 2; 1; 5; 0; 0].
Proof. split; vm_compute; reflexivity. Qed.

(** ** C44 *)
Theorem C44_edit_contents : forall f id c bs, der_tlv id c bs -> nlen (f c) = nlen c ->
  exists bs', edit_contents f bs = Ok bs' /\ der_tlv id (f c) bs' /\ nlen bs' = nlen bs.
Proof. exact edit_contents_der. Qed.
Print Assumptions C44_edit_contents.
Theorem C44_edit_contents_indefinite : forall f id c, is_identifier id -> nlen (f c) = nlen c ->
  edit_contents f (id ++ 0x80 :: c) = Ok (id ++ 0x80 :: f c).
Proof. exact edit_contents_indefinite. Qed.
Print Assumptions C44_edit_contents_indefinite.
Theorem C44_edit_class : forall k cls pc n id c bs, identifier cls pc n id -> der_tlv id c bs ->
  exists id' bs', edit_id (IdRef_set_class k) bs = Ok bs' /\ identifier (class_num k) pc n id' /\ der_tlv id' c bs' /\ nlen bs' = nlen bs.
Proof. exact edit_class_der. Qed.
Print Assumptions C44_edit_class.
Theorem C44_edit_pc : forall k cls pc n id c bs, identifier cls pc n id -> der_tlv id c bs ->
  exists id' bs', edit_id (IdRef_set_pc k) bs = Ok bs' /\ identifier cls (pc_num k) n id' /\ der_tlv id' c bs' /\ nlen bs' = nlen bs.
Proof. exact edit_pc_der. Qed.
Print Assumptions C44_edit_pc.
Theorem C44_edit_id_indefinite : forall k k' cls pc n id c, identifier cls pc n id ->
  (exists id', edit_id (IdRef_set_class k) (id ++ 0x80 :: c) = Ok (id' ++ 0x80 :: c) /\ identifier (class_num k) pc n id') /\
  (exists id', edit_id (IdRef_set_pc k') (id ++ 0x80 :: c) = Ok (id' ++ 0x80 :: c) /\ identifier cls (pc_num k') n id').
Proof. exact edit_id_indefinite. Qed.
Print Assumptions C44_edit_id_indefinite.
Example C44_ex : edit_contents (map (fun x => x + 1)) [0x04; 2; 7; 8] = Ok [0x04; 2; 8; 9] /\
  edit_id (IdRef_set_class Private) [0x04; 2; 7; 8] = Ok [0xc4; 2; 7; 8].
Proof. split; reflexivity. Qed.

(** ** C46 *)
Theorem C46_der_from_int : forall cfg t v, in_range t v ->
  exists b c, Der_from_int cfg t v = Ok b /\ der_tlv [0x02] c (bf_slice b) /\ twos_value c = v /\ shortest_twos c /\ bytes_ok c.
Proof. exact der_from_int. Qed.
Print Assumptions C46_der_from_int.
Theorem C46_der_from_bool : forall cfg v,
  exists b, Der_from_bool cfg v = Ok b /\ bf_slice b = [0x01; 0x01; if v then 0xff else 0x00] /\
    DerRef_boolean v = bf_slice b /\ der_tlv [0x01] [if v then 0xff else 0x00] (bf_slice b).
Proof. exact der_from_bool. Qed.
Print Assumptions C46_der_from_bool.
Theorem C46_der_from_bytes : forall cfg bs, nlen bs <= isize_max - 64 ->
  (exists b, Der_from_str cfg bs = Ok b /\ der_tlv [0x0c] bs (bf_slice b)) /\
  (exists b, Der_from_bytes cfg bs = Ok b /\ der_tlv [0x04] bs (bf_slice b)).
Proof. exact der_from_bytes. Qed.
Print Assumptions C46_der_from_bytes.
Example C46_ex : in_range I16 (-129) /\ rmap bf_slice (Der_from_int ex_cfg I16 (-129)) = Ok [2; 2; 0xff; 0x7f] /\
  rmap bf_slice (Der_from_str ex_cfg [0x61; 0x62]) = Ok [0x0c; 2; 0x61; 0x62].
Proof. repeat split; vm_compute; congruence. Qed.

(** ** C49 *)
Theorem C49_from_vec : forall cfg bs spare, bytes_ok spare ->
  holds (bf_from_vec cfg bs spare) bs /\ bf_slice (bf_from_vec cfg bs spare) = bs /\
  bf_into_vec (bf_from_vec cfg bs spare) = bs.
Proof.
  intros cfg bs spare H. pose proof (from_vec_holds cfg bs spare H) as Hb.
  unfold bf_into_vec. rewrite (holds_slice _ _ Hb). auto.
Qed.
Print Assumptions C49_from_vec.
Theorem C49_clone_to_owned : forall cfg b bs, holds b bs -> nlen bs <= isize_max ->
  (exists b', bf_clone cfg b = Ok b' /\ holds b' bs /\ bf_slice b' = bf_slice b) /\
  (exists b', bf_from_slice cfg bs = Ok b' /\ holds b' bs) /\ bf_into_vec b = bs.
Proof.
  intros cfg b bs H L. destruct (clone_ok cfg b bs H L) as (b' & E & H'). repeat split.
  - exists b'. rewrite (holds_slice _ _ H), (holds_slice _ _ H'). auto.
  - exists b'. unfold bf_clone in E. rewrite (holds_slice _ _ H) in E. auto.
  - now apply holds_slice.
Qed.
Print Assumptions C49_clone_to_owned.
Example C49_ex : bf_slice (bf_from_vec ex_cfg [0x04; 1; 7] [9; 9]) = [0x04; 1; 7] /\
  rmap bf_slice (run_ops der_op (fun _ => ex_cfg) [OpVec [9; 9]; OpPush 8; OpVec []; OpTruncate 1] (bf_from_vec ex_cfg [0x04; 1; 7] [])) = Ok [0x04; 1; 7].
Proof. split; reflexivity. Qed.
