(** Properties of deserialisation on machines with words of another size (C81). *)
From Coq Require Import String Ascii.
From Verif Require Import Base ModelError ModelIo ModelTag ModelContents ModelBuf ModelTlv ModelSerde ModelAttr ModelDerive ModelWord ModelWordTlv ModelSerWord ModelDeWord.
From Verif Require Import Spec SpecIo SpecSerde SpecAttr SpecDerive SpecSerWord SpecDeWord.
From Verif Require Import TagProofs IdProofs TagMain ContentsProofs TlvProofs BufProofs TlvMain SerdeOctets SerdeSer SerdeDe SerdeMain SerdeEntry AttrProofs AttrParse DeriveProofs DeriveMain.
From Verif Require Import WordProofs WordTlvProofs SerWordProofs SerWordMain DeWordProofs PropsDerive PropsSerWord.

(** ** C81: the implementations *)
(** Those that parse nothing are the same code; isize and usize are the integers of that many octets. *)
Theorem C81_plain : forall w E,
  agrees w (de_bool E) (de_bool E) /\ (forall t, agrees w (de_int E t) (de_int E t)) /\
  (forall signed, agrees w (de_int E (word_ty w signed)) (x_de_word w E signed)) /\
  agrees w (de_string E) (de_string E) /\ agrees w de_octets de_octets.
Proof. intros w E. assert (H : forall T (D : deserialize T), agrees w D D) by (intros T D id l c _ _; split; apply alike_refl). repeat split; apply alike_refl. Qed.
Print Assumptions C81_plain.
(** Collections of elements read alike are read alike. *)
Theorem C81_collections : forall w E T (D D' : deserialize T), 1 <= w -> w <= 8 -> agrees w D D' ->
  agrees w (de_vec E D) (x_de_vec w E D') /\ agrees w (de_linked_list E D) (x_de_vec w E D') /\ agrees w (de_vec_deque E D) (x_de_vec w E D') /\
  (forall cmp, agrees w (de_btree_set E cmp D) (x_de_btree_set w E cmp D')) /\
  (forall eqb, agrees w (de_hash_set E eqb D) (x_de_hash_set w E eqb D')).
Proof.
  intros w E T D D' H1 H8 A. destruct (vec_agrees w H1 H8 D D' A E) as (V1 & V2 & V3). repeat (split; [assumption|]).
  split; [intros cmp; now apply btree_set_agrees | intros eqb; now apply hash_set_agrees].
Qed.
Print Assumptions C81_collections.
Theorem C81_maps : forall w E K V (DK DK' : deserialize K) (DV DV' : deserialize V), 1 <= w -> w <= 8 -> agrees w DK DK' -> agrees w DV DV' ->
  (forall cmp, agrees w (de_btree_map E cmp DK DV) (x_de_btree_map w E cmp DK' DV')) /\
  (forall eqb, agrees w (de_hash_map E eqb DK DV) (x_de_hash_map w E eqb DK' DV')).
Proof. intros w E K V DK DK' DV DV' H1 H8 AK AV. split; [intros cmp; now apply btree_map_agrees | intros eqb; now apply hash_map_agrees]. Qed.
Print Assumptions C81_maps.
(** Derived implementations, too: structs (transparent or not), enums, and those with from or try_from. *)
Theorem C81_struct : forall w is_path E attrs a Ts decls decls' fs fs' ps ps' D, 1 <= w -> w <= 8 ->
  Attribute_try_from is_path attrs = Some a -> a_from a = None -> a_try_from a = None ->
  try_fields is_path Ts decls = Some fs -> try_fields is_path Ts decls' = Some fs' -> fields_agree w Ts fs fs' ->
  do_deserialize is_path E attrs (DStruct Ts decls) ps = Some D ->
  exists D', x_do_deserialize w is_path E attrs (DStruct Ts decls') ps' = Some D' /\ agrees w D D'.
Proof. intros w is_path E attrs a Ts decls decls' fs fs' ps ps' D H1 H8. now apply derived_struct. Qed.
Print Assumptions C81_struct.
Theorem C81_enum : forall w is_path E attrs a Tss decls decls' vs vs' ps ps' D, 1 <= w -> w <= 8 ->
  Attribute_try_from is_path attrs = Some a -> a_from a = None -> a_try_from a = None ->
  try_variants is_path Tss decls = Some vs -> try_variants is_path Tss decls' = Some vs' -> variants_agree w Tss vs vs' ->
  do_deserialize is_path E attrs (DEnum Tss decls) ps = Some D ->
  exists D', x_do_deserialize w is_path E attrs (DEnum Tss decls') ps' = Some D' /\ agrees w D D'.
Proof. intros w is_path E attrs a Tss decls decls' vs vs' ps ps' D H1 H8. now apply derived_enum. Qed.
Print Assumptions C81_enum.
Theorem C81_from : forall w is_path E attrs a d (ps ps' : paths (value d)) D,
  Attribute_try_from is_path attrs = Some a ->
  match a_from a with
  | Some ty => source_agrees w (p_from ps ty) (p_from ps' ty)
  | None => match a_try_from a with Some ty => try_source_agrees w (p_try_from ps ty) (p_try_from ps' ty) | None => False end
  end ->
  do_deserialize is_path E attrs d ps = Some D ->
  exists D', x_do_deserialize w is_path E attrs d ps' = Some D' /\ agrees w D D'.
Proof. intros w is_path E attrs a d ps ps' D. now apply derived_from. Qed.
Print Assumptions C81_from.
(** Which declarations the derive macro takes does not depend on the machine. *)
Theorem C81_accepted : forall w is_path E attrs d (ps : paths (value d)),
  do_deserialize is_path E attrs d ps = None <-> x_do_deserialize w is_path E attrs d ps = None.
Proof. intros w is_path E attrs d ps. apply derived_accepted. Qed.
Print Assumptions C81_accepted.

(** ** C81: the functions of the crate *)
(** On slices: the same value and rest; or an error, the same or, for octets that are missing, that the length is too large. *)
Theorem C81_parse : forall w T (D D' : deserialize T) bs, 1 <= w -> w <= 8 -> agrees w D D' -> bytes_ok bs -> nlen bs <= 2 ^ (8 * w - 1) - 1 ->
  (alike (fst (parse_der D bs)) (fst (x_parse_der w D' bs)) /\
   forall v, fst (parse_der D bs) = Ok v -> x_parse_der w D' bs = parse_der D bs) /\
  (alike (fst (parse_ber D bs)) (fst (x_parse_ber w D' bs)) /\
   forall v, fst (parse_ber D bs) = Ok v -> x_parse_ber w D' bs = parse_ber D bs).
Proof.
  intros w T D D' bs H1 H8 A B L. assert (F : fine w bs) by now split.
  destruct (parse_der_alike w H1 H8 D D' A bs F) as [A1 S1]. destruct (parse_ber_alike w H1 H8 D D' A bs F) as [A2 S2].
  split; (split; [assumption|]); intros v E.
  - specialize (S1 (ex_intro _ v E)). destruct A1 as [K|(e & e' & K & _)]; [|congruence]. destruct (x_parse_der w D' bs), (parse_der D bs). cbn [fst snd] in *. congruence.
  - specialize (S2 (ex_intro _ v E)). destruct A2 as [K|(e & e' & K & _)]; [|congruence]. destruct (x_parse_ber w D' bs), (parse_ber D bs). cbn [fst snd] in *. congruence.
Qed.
Print Assumptions C81_parse.
(** Of a value already parsed. *)
Theorem C81_from_value : forall w T (D D' : deserialize T) v, 1 <= w -> w <= 8 -> agrees w D D' -> bytes_ok v -> nlen v <= 2 ^ (8 * w - 1) - 1 ->
  ((exists id c, der_tlv id c v) -> alike (serde_from_der D v) (x_serde_from_der w D' v)) /\
  (ber_value v -> alike (serde_from_ber D v) (x_serde_from_ber w D' v)).
Proof.
  intros w T D D' v H1 H8 A B L. assert (F : fine w v) by now split. split.
  - intros (id & c & V). apply (from_der_alike w D D' A), (der_apart w H1 H8 id c v); assumption.
  - intros V. apply (from_ber_alike w D D' A), (ber_apart w H1 H8 v); assumption.
Qed.
Print Assumptions C81_from_value.
(** From a stream: the same, and the stream is left in the same state; or it is refused for a value larger than
    isize::MAX of this machine. *)
Theorem C81_read_der : forall w T St (D D' : deserialize T) (R : reader St) content fuel s, 1 <= w -> w <= 8 -> agrees w D D' ->
  honest R content -> bytes_ok (content s) ->
  (alike (fst (read_der D R fuel s)) (fst (x_read_der w D' R fuel s)) /\ snd (x_read_der w D' R fuel s) = snd (read_der D R fuel s)) \/
  ((fst (x_read_der w D' R fuel s) = Err OverFlow \/ fst (x_read_der w D' R fuel s) = Panic) /\
   forall v, fst (Der_parse R fuel s) = Ok v -> 2 ^ (8 * w - 1) - 1 < nlen v).
Proof. intros w T St D D' R content fuel s H1 H8 A Hh B. exact (read_der_alike w H1 H8 D D' R content A Hh fuel s B). Qed.
Print Assumptions C81_read_der.
Theorem C81_read_ber : forall w T St (D D' : deserialize T) (R : reader St) content fuel s, 1 <= w -> w <= 8 -> agrees w D D' ->
  honest R content -> bytes_ok (content s) ->
  (alike (fst (read_ber D R fuel s)) (fst (x_read_ber w D' R fuel s)) /\ snd (x_read_ber w D' R fuel s) = snd (read_ber D R fuel s)) \/
  ((fst (x_read_ber w D' R fuel s) = Err OverFlow \/ fst (x_read_ber w D' R fuel s) = Panic) /\
   forall v, fst (Ber_parse R fuel s) = Ok v -> 2 ^ (8 * w - 1) - 1 < nlen v).
Proof. intros w T St D D' R content fuel s H1 H8 A Hh B. exact (read_ber_alike w H1 H8 D D' R content A Hh fuel s B). Qed.
Print Assumptions C81_read_ber.

(** ** C81: round trips *)
(** What to_der writes on one machine is read back on another, as long as it fits there. *)
Theorem C81_round_trip : forall w w' rel E C S S0 D D' v, 1 <= w -> w <= 8 -> 1 <= w' -> w' <= 8 -> init_cap (e_cfg E) <= 2 ^ (8 * w - 1) - 1 ->
  on_word E w rel C S -> laws E C S0 D -> agrees w' D D' -> wf C v ->
  nlen (der_of C v) <= 2 ^ (8 * w - 1) - 1 -> nlen (der_of C v) <= 2 ^ (8 * w' - 1) - 1 ->
  exists b v', x_to_der w rel E S v = Ok b /\ wf C v' /\ same C v v' /\ x_serde_from_der w' D' (bf_slice b) = Ok v' /\
    forall rest, bytes_ok rest -> nlen (bf_slice b ++ rest) <= 2 ^ (8 * w' - 1) - 1 -> x_parse_der w' D' (bf_slice b ++ rest) = (Ok v', rest).
Proof.
  intros w w' rel E C S S0 D D' v H1 H8 K1 K8 HC O LW A W L L'. destruct (C80_octets w rel E C S v H1 H8 HC O W L) as [(b & Eb & Es & _) _].
  pose proof (max_8 w' K1 K8) as M. unfold word_max in M. assert (nlen (der_of C v) <= isize_max) as L0 by lia.
  destruct (round_trip_der E C S0 D LW v W L0) as (v' & W' & Sm & F & P & _). destruct (der_of_tlv E C S0 D LW v W L0) as [V B].
  exists b, v'. rewrite Es. do 3 (split; [assumption|]). split.
  - destruct (C81_from_value w' _ D D' (der_of C v) K1 K8 A B L') as [K _]. destruct (K (ex_intro _ _ (ex_intro _ _ V))) as [->|(e & e' & K' & _)]; [exact F | congruence].
  - intros rest Hr Lr. assert (bytes_ok (der_of C v ++ rest)) as B' by (apply bytes_ok_app; now split).
    destruct (C81_parse w' _ D D' _ K1 K8 A B' Lr) as [[_ K] _]. specialize (P rest Hr). rewrite (K v'); rewrite P; reflexivity.
Qed.
Print Assumptions C81_round_trip.
(** And so is any BER encoding. *)
Theorem C81_any_ber : forall w E C S D D' v bs rest, 1 <= w -> w <= 8 -> laws E C S D -> agrees w D D' -> wf C v ->
  ber_octets C v bs -> bytes_ok rest -> nlen (bs ++ rest) <= 2 ^ (8 * w - 1) - 1 ->
  exists v', wf C v' /\ same C v v' /\ x_parse_ber w D' (bs ++ rest) = (Ok v', rest).
Proof.
  intros w E C S D D' v bs rest H1 H8 LW A W O Hr L. pose proof (max_8 w H1 H8) as M. unfold word_max in M. rewrite nlen_app in L.
  assert (nlen bs < usize_limit) as L0 by (unfold isize_max, usize_limit in *; lia).
  destruct (round_trip_ber E C S D LW v bs W O L0) as (v' & W' & Sm & V & F & P & _). exists v'. do 2 (split; [assumption|]).
  assert (bytes_ok bs) as B by (destruct (ber_octets_value C v bs (l_ber_ok _ _ _ _ LW) W O L0) as (id & l & c & X); intuition).
  assert (bytes_ok (bs ++ rest)) as B' by (apply bytes_ok_app; now split). specialize (P rest Hr).
  destruct (C81_parse w _ D D' (bs ++ rest) H1 H8 A B' ltac:(rewrite nlen_app; lia)) as [_ [_ K]]. rewrite (K v'); rewrite P; reflexivity.
Qed.
Print Assumptions C81_any_ber.

(** ** C81: on eight octets this is the model of the other claims *)
Theorem C81_eight : forall T (D : deserialize T),
  (forall bs, x_serde_from_ber 8 D bs = serde_from_ber D bs) /\ (forall bs, x_serde_from_der 8 D bs = serde_from_der D bs) /\
  (forall bs, x_parse_ber 8 D bs = parse_ber D bs) /\ (forall bs, x_parse_der 8 D bs = parse_der D bs) /\
  (forall S (R : reader S) fuel s, x_read_ber 8 D R fuel s = read_ber D R fuel s) /\
  (forall S (R : reader S) fuel s, x_read_der 8 D R fuel s = read_der D R fuel s).
Proof. intros T D. apply eight_entry. Qed.
Print Assumptions C81_eight.
Theorem C81_eight_collections : forall E T (D : deserialize T) id l c,
  from_der (x_de_vec 8 E D) id c = from_der (de_vec E D) id c /\ from_ber (x_de_vec 8 E D) id l c = from_ber (de_vec E D) id l c /\
  (forall cmp, from_der (x_de_btree_set 8 E cmp D) id c = from_der (de_btree_set E cmp D) id c /\
     from_ber (x_de_btree_set 8 E cmp D) id l c = from_ber (de_btree_set E cmp D) id l c) /\
  (forall eqb, from_der (x_de_hash_set 8 E eqb D) id c = from_der (de_hash_set E eqb D) id c /\
     from_ber (x_de_hash_set 8 E eqb D) id l c = from_ber (de_hash_set E eqb D) id l c).
Proof.
  intros E T D id l c. assert (Hb : forall h, x_ber_to_val 8 D h = ber_to_val D h) by (intros h; apply eight_vals).
  assert (Hd : forall h, x_der_to_val 8 D h = der_to_val D h) by (intros h; apply eight_vals).
  split; [|split; [|split; [intros cmp | intros eqb]]]; now apply collection_ext.
Qed.
Print Assumptions C81_eight_collections.
Theorem C81_eight_maps : forall E K V (DK : deserialize K) (DV : deserialize V) id l c,
  (forall cmp, from_der (x_de_btree_map 8 E cmp DK DV) id c = from_der (de_btree_map E cmp DK DV) id c /\
     from_ber (x_de_btree_map 8 E cmp DK DV) id l c = from_ber (de_btree_map E cmp DK DV) id l c) /\
  (forall eqb, from_der (x_de_hash_map 8 E eqb DK DV) id c = from_der (de_hash_map E eqb DK DV) id c /\
     from_ber (x_de_hash_map 8 E eqb DK DV) id l c = from_ber (de_hash_map E eqb DK DV) id l c).
Proof.
  intros E K V DK DV id l c. assert (Hb : forall h, x_ber_to_key_val 8 DK DV h = ber_to_key_val DK DV h) by (intros h; apply eight_key_vals).
  assert (Hd : forall h, x_der_to_key_val 8 DK DV h = der_to_key_val DK DV h) by (intros h; apply eight_key_vals).
  split; [intros cmp | intros eqb]; now apply collection_ext.
Qed.
Print Assumptions C81_eight_maps.
Theorem C81_eight_derived : forall is_path E attrs d (ps : paths (value d)),
  match do_deserialize is_path E attrs d ps, x_do_deserialize 8 is_path E attrs d ps with
  | Some D, Some D' => forall id l c, from_der D' id c = from_der D id c /\ from_ber D' id l c = from_ber D id l c
  | None, None => True
  | _, _ => False
  end.
Proof. exact eight_derived. Qed.
Print Assumptions C81_eight_derived.

(** ** Examples *)
(** BTreeMap<String, Vec<Point>> and usize on a machine whose usize has two octets (see C80_example). *)
Definition point_de16 : deserialize (tuple Point) :=
  match x_do_deserialize 2 any_path env16 (tagged "5") (DStruct Point (point_decls env16)) (same_paths point16 (point_de env16)) with Some D => D | None => point_de env16 end.
Definition by_size (a b : list N) : comparison := N.compare (nlen a) (nlen b).
Definition de64 : deserialize (list (list N * list (tuple Point))) := de_btree_map env16 by_size (de_string env16) (de_vec env16 (point_de env16)).
Definition de16 : deserialize (list (list N * list (tuple Point))) := x_de_btree_map 2 env16 by_size (de_string env16) (x_de_vec 2 env16 point_de16).
Lemma point16_agrees : agrees 2 (point_de env16) point_de16.
Proof.
  destruct (C81_struct 2 any_path env16 (tagged "5") (tagged_attr 5) Point (point_decls env16) (point_decls env16) (point_fields env16) (point_fields env16)
    (same_paths point16 (point_de env16)) (same_paths point16 (point_de env16)) (point_de env16)) as (D' & E & A); try reflexivity; try discriminate.
  - repeat split; try reflexivity; right; apply C81_plain || (intros id l c _ _; split; apply alike_refl).
  - unfold point_de16. rewrite E. exact A.
Qed.
Lemma de16_agrees : agrees 2 de64 de16.
Proof.
  apply (C81_maps 2 env16); [discriminate | discriminate | apply C81_plain|].
  apply (C81_collections 2 env16 _ (point_de env16) point_de16); [discriminate | discriminate | apply point16_agrees].
Qed.
Lemma short_laws w E C S D size : laws E C S D -> (forall x y, same C x y -> size x = size y) -> laws E (short w C size) S D.
Proof.
  intros [A B F G [H1 H2] I1 I2] Z. constructor.
  - intros v [W _]. now apply A.
  - intros v [W _]. now apply B.
  - intros v [W L] Lc. destruct (F v W Lc) as (v' & Ev & W' & Sm). exists v'. split; [exact Ev|]. split; [split; [exact W' | now rewrite <- (Z v v' Sm)] | exact Sm].
  - intros v id l c [W L] Bo Lc. destruct (G v id l c W Bo Lc) as (v' & Ev & W' & Sm). exists v'. split; [exact Ev|]. split; [split; [exact W' | now rewrite <- (Z v v' Sm)] | exact Sm].
  - split; [intros v id l c [W _]; now apply H1 | intros v [W _]; now apply H2].
  - exact I1.
  - exact I2.
Qed.
Lemma env16_good : good_env env16.
Proof. intros A x l. apply Permutation.Permutation_refl. Qed.
Lemma laws16 : exists S, laws env16 codec16 S de64.
Proof.
  eexists. apply supported_laws; [apply env16_good|]. apply sp_btree_map.
  - apply sp_custom, short_laws; [|now intros x y ->]. apply supported_laws; [apply env16_good | apply sp_provided; constructor].
  - apply (sp_vec env16 point_codec), point_supported.
  - split; [intros x y _ _; apply N.compare_antisym | intros x y x' y' _ _ _ _ -> ->; reflexivity].
Qed.
(** The hypotheses of C81_round_trip; and that value, read. *)
Example C81_example : (exists S, laws env16 codec16 S de64) /\ agrees 2 de64 de16 /\ wf codec16 value16 /\
  x_serde_from_der 2 de16 der16 = Ok [([0x61], [(7, (true, (-300, tt)))%Z; (0, (true, (70000, tt)))%Z]); ([0xc3; 0xa9], [])] /\
  x_serde_from_der 2 (x_de_word 2 env16 false) [2; 3; 0; 0x9c; 0x40] = Ok 40000%Z /\
  x_serde_from_der 2 (x_de_word 2 env16 false) [2; 3; 1; 0x9c; 0x40] = Err OverFlow.
Proof. split; [apply laws16|]. split; [apply de16_agrees|]. split; [apply C80_example|]. vm_compute. auto. Qed.
(** The two differ here: 70000 octets are announced, which is too many for this machine.  From a stream, 40000 are:
    it panics, where a machine of 64 bits reads on. *)
Example C81_example_errors :
  fst (parse_der de64 [0x30; 0x83; 1; 0x11; 0x70; 0]) = Err UnterminatedBytes /\
  fst (x_parse_der 2 de16 [0x30; 0x83; 1; 0x11; 0x70; 0]) = Err OverFlow /\
  from_der (x_de_vec 2 env16 point_de16) [0x30] [0x65; 0x83; 1; 0x11; 0x70; 0] = Err (Error_context (ctx 0 0) OverFlow) /\
  alike (from_der (de_vec env16 (point_de env16)) [0x30] [0x65; 0x83; 1; 0x11; 0x70; 0]) (Err (Error_context (ctx 0 0) OverFlow)) /\
  fst (x_read_der 2 de16 slice_reader 9 [0x30; 0x82; 0x9c; 0x40]) = Panic /\
  fst (read_der de64 slice_reader 9 [0x30; 0x82; 0x9c; 0x40]) = Err UnterminatedBytes.
Proof.
  do 3 (split; [vm_compute; reflexivity|]). split; [|split; vm_compute; reflexivity].
  right. exists (Error_context (ctx 0 0) UnterminatedBytes). eexists. split; [vm_compute; reflexivity|]. split; [reflexivity|]. apply el_context, el_large.
Qed.
