(** C24-C31, C36, C43: serialisation and deserialisation of the provided types. *)
From Verif Require Import Base ModelError ModelIo ModelTag ModelContents ModelBuf ModelTlv ModelSerde Spec SpecIo SpecSerde.
From Verif Require Import TagProofs IdProofs TagMain ContentsProofs TlvProofs BufProofs TlvMain StreamProofs StreamMain.
From Verif Require Import SerdeOctets SerdeSer SerdeDe SerdeMain SerdeEntry.

(** An environment and a nested type for the examples: HashMap<String, Vec<i32>> and
    BTreeMap<i32, HashSet<bool>>. *)
Definition ex_env (debug : bool) : env :=
  {| e_cfg := {| init_cap := 16; junk := fun i => 7 * i |}; e_debug := debug; e_place := fun _ x l => x :: l |}.
Lemma ex_good debug : good_env (ex_env debug).
Proof. intros A x l. apply Permutation.Permutation_refl. Qed.
Definition ex_codec : codec := hash_map_codec string_codec (seq_codec (int_codec I32)) bytes_eqb.
Definition ex_ser E := ser_hash_map E ser_string (ser_vec E (ser_int I32)).
Definition ex_de E := de_hash_map E bytes_eqb (de_string E) (de_vec E (de_int E I32)).
Lemma ex_provided E : provided E ex_codec (ex_ser E) (ex_de E).
Proof.
  apply pv_hash_map; [apply pv_string | apply pv_vec, pv_int|].
  intros x y x' y' _ _ _ _ H H'. cbn in H, H'. now subst.
Qed.
Definition ex_value : list (list N * list Z) := [([0x61], [1; -300]%Z); ([0xc3; 0xa9], [])].
Lemma ex_wf : wf ex_codec ex_value.
Proof.
  split.
  - repeat constructor; cbn; try lia; [exists [0x61] | exists [0xe9]]; split; try reflexivity; repeat constructor; lia.
  - repeat constructor.
Qed.
Definition ex_der : list N := [0x31; 22; 0x30; 12; 0x0c; 1; 0x61; 0x30; 7; 2; 1; 1; 2; 2; 0xfe; 0xd4; 0x30; 6; 0x0c; 2; 0xc3; 0xa9; 0x30; 0].
Lemma ex_der_of : der_of ex_codec ex_value = ex_der.
Proof. vm_compute. reflexivity. Qed.

(** ** C24 *)
Theorem C24_provided : forall E C S D v, good_env E -> provided E C S D -> wf C v -> nlen (contents_of C v) <= isize_max ->
  emits (fun _ W => write_id S W v) (id_of C v) /\ emits (fun _ W => write_der_contents S W v) (contents_of C v) /\
  id_len S v = Ok (Some (nlen (id_of C v))) /\ der_contents_len S v = Ok (Some (nlen (contents_of C v))).
Proof.
  intros E C S D v HE P W L. pose proof (l_ser _ _ _ _ (provided_laws E C S D HE P)) as SL.
  pose proof (provided_known E C S D HE P) as SK. destruct (SL v W L). destruct (SK v W L). auto.
Qed.
Print Assumptions C24_provided.
(** Around any other implementations whose announcements are right or missing. *)
Theorem C24_generic : forall E C (S : serialize (car C)) CV (SV : serialize (car CV)), ser_law C S -> ser_law CV SV ->
  ser_law (seq_codec C) (ser_vec E S) /\ ser_law (seq_codec C) (ser_linked_list E S) /\ ser_law (seq_codec C) (ser_vec_deque E S) /\
  (forall cmp, ser_law (btree_set_codec C cmp) (ser_btree_set E S)) /\ (forall eqb, ser_law (hash_set_codec C eqb) (ser_hash_set E S)) /\
  (forall cmp, ser_law (btree_map_codec C CV cmp) (ser_btree_map E S SV)) /\
  (forall eqb, ser_known C S -> ser_law (hash_map_codec C CV eqb) (ser_hash_map E S SV)).
Proof.
  intros E C S CV SV H HV. conj.
  - now apply ser_items_law.
  - now apply ser_items_law.
  - now apply ser_items_law.
  - intros. now apply with_values_law, ser_items_law.
  - intros. now apply with_values_law, ser_items_law.
  - intros. now apply ser_btree_map_law.
  - intros. now apply ser_hash_map_law.
Qed.
Print Assumptions C24_generic.
(** A HashMap whose keys do not announce their lengths announces a wrong length. *)
Definition quiet_bool : serialize bool :=
  {| write_id := fun _ W _ => write_all W ID_BOOLEAN; write_der_contents := fun _ W v => write_all W (Contents_from_bool v);
     id_len := fun _ => Ok None; der_contents_len := fun _ => Ok None |}.
Lemma quiet_bool_law : ser_law bool_codec quiet_bool.
Proof. intros v _ _. split; [apply emits_write_all | destruct v; apply emits_write_all | now left | now left]. Qed.
Theorem C24_hash_map_refuted :
  ~ (forall E CK (SK : serialize (car CK)) CV (SV : serialize (car CV)) eqb, ser_law CK SK -> ser_law CV SV ->
     ser_law (hash_map_codec CK CV eqb) (ser_hash_map E SK SV)).
Proof.
  intros H. specialize (H (ex_env false) bool_codec quiet_bool bool_codec quiet_bool eqb quiet_bool_law quiet_bool_law).
  assert (wf (hash_map_codec bool_codec bool_codec eqb) [(true, true)]) as W by (split; repeat constructor).
  destruct (H _ W) as [_ _ _ A]; [vm_compute; discriminate|]. destruct A as [A|A]; vm_compute in A; discriminate.
Qed.
Print Assumptions C24_hash_map_refuted.
(** Exactly what a HashMap announces: the octets of the entries whose keys announce theirs,
    and nothing if one of these has a value that does not. *)
Definition announced {T} (S : serialize T) (v : T) : bool :=
  match id_len S v, der_contents_len S v with Ok (Some _), Ok (Some _) => true | _, _ => false end.
Lemma der_len_announced {T} (S : serialize T) v id c : serialises S v id c -> nlen (tlv id c) < usize_limit ->
  der_len S v = if announced S v then Ok (Some (nlen (tlv id c))) else Ok None.
Proof.
  intros [_ _ A B] L. unfold announced. destruct A as [A|A].
  - rewrite A. unfold der_len. rewrite A. destruct B as [B|B]; rewrite B; reflexivity.
  - destruct B as [B|B].
    + rewrite A, B. unfold der_len. rewrite A, B. reflexivity.
    + rewrite A, B. now apply der_len_known.
Qed.
Lemma hash_map_len_exact CK (SK : serialize (car CK)) CV (SV : serialize (car CV)) : ser_law CK SK -> ser_law CV SV ->
  forall l acc, Forall (wf (entry_codec CK CV)) l -> acc + nlen (concat (map (der_of (entry_codec CK CV)) l)) <= isize_max ->
  let l' := filter (fun p => announced SK (fst p)) l in
  hash_map_len SK SV acc l =
    if forallb (fun p => announced SV (snd p)) l' then Ok (Some (acc + nlen (concat (map (der_of (entry_codec CK CV)) l')))) else Ok None.
Proof.
  intros LK LV l acc F. revert acc. induction F as [|[k v] l [Hk Hv] F IH]; intros acc L; cbn [map concat hash_map_len filter forallb fst snd] in *.
  - change (nlen (@nil N)) with 0. now rewrite N.add_0_r.
  - rewrite nlen_app in *.
    change (der_of (entry_codec CK CV) (k, v)) with (tlv [0x30] (der_of CK k ++ der_of CV v)) in *.
    rewrite tlv_len in *. pose proof (isize_lt _ L). assert (nlen (der_of CK k ++ der_of CV v) < 2 ^ 64) as LL by (unfold usize_limit in *; lia).
    rewrite length_octets_len in * by assumption. rewrite nlen_app in *. change (nlen [0x30]) with 1 in *.
    pose proof (tlv_contents_le (id_of CK k) (contents_of CK k)). pose proof (tlv_contents_le (id_of CV v) (contents_of CV v)).
    assert (serialises SK k (id_of CK k) (contents_of CK k)) as SSK by (apply LK; [assumption | unfold der_of in *; lia]).
    assert (serialises SV v (id_of CV v) (contents_of CV v)) as SSV by (apply LV; [assumption | unfold der_of in *; lia]).
    rewrite (der_len_announced SK k _ _ SSK) by (unfold der_of in *; lia).
    destruct (announced SK k); cbn [rbind]; [|rewrite IH by lia; reflexivity].
    rewrite (der_len_announced SV v _ _ SSV) by (unfold der_of in *; lia). cbn [forallb fst snd map concat].
    destruct (announced SV v); cbn [rbind andb]; [|reflexivity].
    change (nlen ID_SEQUENCE) with 1.
    do 4 (rewrite add_usize_ok by (unfold der_of in *; lia); cbn [rbind]). rewrite IH by (unfold der_of in *; lia).
    destruct (forallb _ _); [|reflexivity]. do 2 f_equal. rewrite nlen_app.
    change (der_of (entry_codec CK CV) (k, v)) with (tlv [0x30] (der_of CK k ++ der_of CV v)). rewrite (tlv_len [0x30]), length_octets_len by (rewrite nlen_app; assumption). rewrite nlen_app.
    change (nlen [0x30]) with 1. unfold der_of. lia.
Qed.
Theorem C24_hash_map_exact : forall E CK (SK : serialize (car CK)) CV (SV : serialize (car CV)) eqb l, ser_law CK SK -> ser_law CV SV ->
  let H := hash_map_codec CK CV eqb in wf H l -> nlen (contents_of H l) <= isize_max ->
  let l' := filter (fun p => announced SK (fst p)) l in
  (der_contents_len (ser_hash_map E SK SV) l =
     if forallb (fun p => announced SV (snd p)) l' then Ok (Some (nlen (contents_of H l'))) else Ok None) /\
  (announces (der_contents_len (ser_hash_map E SK SV) l) (contents_of H l) <->
     Forall (fun p => announced SK (fst p) = true) l \/ Exists (fun p => announced SK (fst p) = true /\ announced SV (snd p) = false) l).
Proof.
  intros E CK SK CV SV eqb l LK LV H [W _] L l'. pose proof (hash_map_len_exact CK SK CV SV LK LV l 0 W L) as Eq. cbv zeta in Eq. fold l' in Eq.
  change (der_contents_len (ser_hash_map E SK SV) l) with (hash_map_len SK SV 0 l). rewrite N.add_0_l in Eq. split; [exact Eq|]. rewrite Eq. clear Eq.
  assert (nlen (concat (map (der_of (entry_codec CK CV)) l')) <= nlen (contents_of H l) /\
    (nlen (concat (map (der_of (entry_codec CK CV)) l')) = nlen (contents_of H l) -> Forall (fun p => announced SK (fst p) = true) l)) as [Le Eq].
  { change (contents_of H l) with (concat (map (der_of (entry_codec CK CV)) l)). subst l'. clear. induction l as [|p l [IH1 IH2]]; [split; [reflexivity | constructor]|].
    cbn [filter map concat]. assert (1 <= nlen (der_of (entry_codec CK CV) p)) as P.
    { unfold der_of, tlv. cbn [id_of entry_codec]. rewrite nlen_app, nlen_cons. lia. }
    destruct (announced SK (fst p)) eqn:A; cbn [map concat]; rewrite !nlen_app; (split; [lia|]).
    - intros Q. constructor; [assumption|]. apply IH2. lia.
    - intros Q. lia. }
  destruct (forallb (fun p => announced SV (snd p)) l') eqn:B.
  - split.
    + intros [A|A]; [discriminate|]. injection A as A. left. now apply Eq.
    + intros [A|A].
      * right. subst l'. assert (filter (fun p => announced SK (fst p)) l = l) as ->; [|reflexivity].
        clear - A. induction A as [|p l A _ IH]; [reflexivity|]. cbn [filter]. now rewrite A, IH.
      * exfalso. rewrite forallb_forall in B. apply Exists_exists in A as (p & I & A1 & A2). specialize (B p). rewrite B in A2; [discriminate|].
        subst l'. apply filter_In. auto.
  - split; [|now left]. intros _. right. apply Exists_exists. clear - B. subst l'. induction l as [|p l IH]; [discriminate|]. cbn [filter] in B.
    destruct (announced SK (fst p)) eqn:A; [cbn [forallb] in B; destruct (announced SV (snd p)) eqn:A2; cbn [andb] in B|];
      [|exists p; split; [now left | auto]|]; destruct (IH B) as (q & I & Q); exists q; (split; [now right | assumption]).
Qed.
Print Assumptions C24_hash_map_exact.
Example C24_ex : der_contents_len (ex_ser (ex_env true)) ex_value = Ok (Some 22) /\ nlen (contents_of ex_codec ex_value) = 22.
Proof. split; vm_compute; reflexivity. Qed.
(** What the HashMap above is serialised to: zero as the length of five octets. *)
Example C24_hash_map_ex :
  match to_der (ex_env false) (ser_hash_map (ex_env false) quiet_bool ser_bool) [(true, false)] with
  | Ok b => bf_slice b = [0x31; 0; 0x30; 6; 1; 1; 0xff; 1; 1; 0]
  | _ => False
  end.
Proof. vm_compute. reflexivity. Qed.

(** ** C25 *)
Theorem C25_entry_points : forall E T (S : serialize T) v id c,
  serialises S v id c -> is_identifier id -> bytes_ok c -> nlen (tlv id c) <= isize_max ->
  der_tlv id c (tlv id c) /\
  (exists b, to_der E S v = Ok b /\ to_ber E S v = Ok b /\ holds b (tlv id c)) /\
  emits (fun _ W => write_der E S W v) (tlv id c) /\ emits (fun _ W => write_ber E S W v) (tlv id c) /\
  DerRef_parse (tlv id c) = (Ok (tlv id c), []).
Proof. exact @entry_points. Qed.
Print Assumptions C25_entry_points.
Theorem C25_provided : forall E C S D v, good_env E -> provided E C S D -> wf C v -> nlen (der_of C v) <= isize_max ->
  (exists b, to_der E S v = Ok b /\ to_ber E S v = Ok b /\ holds b (der_of C v)) /\
  emits (fun _ W => write_der E S W v) (der_of C v) /\ emits (fun _ W => write_ber E S W v) (der_of C v) /\
  DerRef_parse (der_of C v) = (Ok (der_of C v), []).
Proof.
  intros E C S D v HE P W L. pose proof (provided_laws E C S D HE P) as LW. destruct (der_fits C v L) as [L1 L2].
  destruct (l_codec _ _ _ _ LW v W) as [I Hc].
  apply (entry_points E S v (id_of C v) (contents_of C v) (l_ser _ _ _ _ LW v W L1) I (Hc L2) L).
Qed.
Print Assumptions C25_provided.
Example C25_ex : exists b, to_der (ex_env true) (ex_ser (ex_env true)) ex_value = Ok b /\ bf_slice b = ex_der.
Proof. eexists. split; vm_compute; reflexivity. Qed.

(** ** C26, C27 *)
Theorem C26_round_trip : forall E C S D v, good_env E -> provided E C S D -> wf C v -> nlen (der_of C v) <= isize_max ->
  exists b v', to_der E S v = Ok b /\ bf_slice b = der_of C v /\ wf C v' /\ same C v v' /\
  serde_from_der D (bf_slice b) = Ok v' /\
  (forall rest, bytes_ok rest -> parse_der D (bf_slice b ++ rest) = (Ok v', rest)) /\
  (forall St (R : reader St) content inv s fuel rest, greedy R content inv -> inv s -> content s = bf_slice b ++ rest ->
     bytes_ok rest -> nlen (content s) <= isize_max -> (length (content s) <= fuel)%nat ->
     exists s', read_der D R fuel s = (Ok v', s') /\ content s' = rest).
Proof.
  intros E C S D v HE P W L. pose proof (provided_laws E C S D HE P) as LW.
  destruct (to_der_law E C S D LW v W L) as (b & Eb & Es). destruct (round_trip_der E C S D LW v W L) as (v' & W' & Sm & A).
  exists b, v'. rewrite Es. split; [assumption|]. split; [reflexivity|]. do 2 (split; [assumption|]). exact A.
Qed.
Print Assumptions C26_round_trip.
(** Equality is that of the representations unless hash tables are involved. *)
Theorem C26_equality : forall E C S D, unhashed E C S D -> provided E C S D /\ forall x y, same C x y <-> x = y.
Proof. intros E C S D H. split; [now apply unhashed_provided | now apply (unhashed_same E C S D)]. Qed.
Print Assumptions C26_equality.
Example C26_ex : wf ex_codec ex_value /\ serde_from_der (ex_de (ex_env true)) ex_der = Ok (rev ex_value) /\
  parse_der (ex_de (ex_env true)) (ex_der ++ [9]) = (Ok (rev ex_value), [9]).
Proof. split; [exact ex_wf|]. split; vm_compute; reflexivity. Qed.

Theorem C27_der_as_ber : forall E C S D v, good_env E -> provided E C S D -> wf C v -> nlen (der_of C v) <= isize_max ->
  exists b v', to_der E S v = Ok b /\ bf_slice b = der_of C v /\ wf C v' /\ same C v v' /\ serde_from_ber D (bf_slice b) = Ok v' /\
  (forall rest, bytes_ok rest -> parse_ber D (bf_slice b ++ rest) = (Ok v', rest)) /\
  (forall St (R : reader St) content inv s fuel rest, steady R content inv -> inv s -> content s = bf_slice b ++ rest ->
     bytes_ok rest -> nlen (content s) <= isize_max -> (length (content s) + 2 <= fuel)%nat ->
     exists s', read_ber D R fuel s = (Ok v', s') /\ content s' = rest).
Proof.
  intros E C S D v HE P W L. pose proof (provided_laws E C S D HE P) as LW.
  destruct (to_der_law E C S D LW v W L) as (b & Eb & Es).
  destruct (round_trip_ber E C S D LW v (der_of C v) W (der_is_ber E C S D LW v W)) as (v' & W' & Sm & _ & A); [now apply isize_lt|].
  exists b, v'. rewrite Es. split; [assumption|]. split; [reflexivity|]. do 2 (split; [assumption|]). exact A.
Qed.
Print Assumptions C27_der_as_ber.
Example C27_ex : serde_from_ber (ex_de (ex_env true)) ex_der = Ok (rev ex_value).
Proof. vm_compute. reflexivity. Qed.

(** ** C28 *)
Theorem C28_canonical : forall E C S D bs rest v, good_env E -> sequential E C S D -> bytes_ok bs -> parse_der D bs = (Ok v, rest) ->
  wf C v /\ bs = der_of C v ++ rest /\
  (nlen bs <= isize_max -> exists b, to_der E S v = Ok b /\ bs = bf_slice b ++ rest).
Proof.
  intros E C S D bs rest v HE SQ Hok H. destruct (canonical_der C D bs rest v (sequential_canonical _ _ _ _ SQ) Hok H) as (W & -> & T).
  split; [assumption|]. split; [reflexivity|]. intros L. rewrite nlen_app in L.
  pose proof (provided_laws E C S D HE (sequential_provided _ _ _ _ SQ)) as LW.
  destruct (to_der_law E C S D LW v W) as (b & Eb & <-); [lia|]. eauto.
Qed.
Print Assumptions C28_canonical.
Theorem C28_injective : forall E C S D bs1 bs2 v, sequential E C S D -> bytes_ok bs1 -> bytes_ok bs2 ->
  parse_der D bs1 = (Ok v, []) -> parse_der D bs2 = (Ok v, []) -> bs1 = bs2.
Proof.
  intros E C S D bs1 bs2 v SQ H1 H2 P1 P2. pose proof (sequential_canonical _ _ _ _ SQ) as CC.
  destruct (canonical_der C D bs1 [] v CC H1 P1) as (_ & -> & _). now destruct (canonical_der C D bs2 [] v CC H2 P2) as (_ & -> & _).
Qed.
Print Assumptions C28_injective.
(** Sets and maps are not canonical: the order of the elements is not checked. *)
Theorem C28_sets_not_canonical : exists bs1 bs2 v, let D := de_btree_set (ex_env true) Z.compare (de_int (ex_env true) I8) in
  bs1 <> bs2 /\ parse_der D bs1 = (Ok v, []) /\ parse_der D bs2 = (Ok v, []).
Proof.
  exists [0x30; 6; 2; 1; 1; 2; 1; 2], [0x30; 6; 2; 1; 2; 2; 1; 1], [1; 2]%Z. split; [discriminate|]. split; vm_compute; reflexivity.
Qed.
Print Assumptions C28_sets_not_canonical.
Example C28_ex : let D := de_vec (ex_env true) (de_int (ex_env true) I32) in
  parse_der D [0x30; 7; 2; 1; 1; 2; 2; 0xfe; 0xd4; 9] = (Ok [1; -300]%Z, [9]) /\
  fst (parse_der D [0x30; 3; 2; 0x81; 1; 1]) <> Ok [1%Z].
Proof. split; [vm_compute; reflexivity | vm_compute; discriminate]. Qed.

(** ** C29 *)
(** For every container, any contents, even where both fail. *)
Theorem C29_containers : forall E T (D : deserialize T) K (DK : deserialize K) id c,
  from_ber (de_vec E D) id Indefinite (c ++ [0; 0]) = from_ber (de_vec E D) id (Definite (nlen c)) c /\
  from_ber (de_linked_list E D) id Indefinite (c ++ [0; 0]) = from_ber (de_linked_list E D) id (Definite (nlen c)) c /\
  from_ber (de_vec_deque E D) id Indefinite (c ++ [0; 0]) = from_ber (de_vec_deque E D) id (Definite (nlen c)) c /\
  (forall cmp, from_ber (de_btree_set E cmp D) id Indefinite (c ++ [0; 0]) = from_ber (de_btree_set E cmp D) id (Definite (nlen c)) c) /\
  (forall eqb, from_ber (de_hash_set E eqb D) id Indefinite (c ++ [0; 0]) = from_ber (de_hash_set E eqb D) id (Definite (nlen c)) c) /\
  (forall cmp, from_ber (de_btree_map E cmp DK D) id Indefinite (c ++ [0; 0]) = from_ber (de_btree_map E cmp DK D) id (Definite (nlen c)) c) /\
  (forall eqb, from_ber (de_hash_map E eqb DK D) id Indefinite (c ++ [0; 0]) = from_ber (de_hash_map E eqb DK D) id (Definite (nlen c)) c).
Proof. intros. conj; intros; apply collection_indefinite. Qed.
Print Assumptions C29_containers.
(** The same of whole values, for implementations with that property. *)
Theorem C29_whole : forall T (D : deserialize T) id c rest1 rest2,
  from_ber D id Indefinite (c ++ [0; 0]) = from_ber D id (Definite (nlen c)) c ->
  is_identifier id -> ber_items c -> nlen c < usize_limit -> bytes_ok c -> bytes_ok rest1 -> bytes_ok rest2 ->
  parse_ber D ((id ++ 0x80 :: c ++ [0; 0]) ++ rest1) = (from_ber D id (Definite (nlen c)) c, rest1) /\
  parse_ber D (tlv id c ++ rest2) = (from_ber D id (Definite (nlen c)) c, rest2).
Proof. exact @whole_indefinite. Qed.
Print Assumptions C29_whole.
(** Nested: with any choice of lengths at any depth (but definite entries of maps), the
    value is the same. *)
Theorem C29_nested : forall E C S D v bs rest, good_env E -> provided E C S D -> wf C v -> ber_octets C v bs -> nlen bs < usize_limit ->
  bytes_ok rest -> exists v', wf C v' /\ same C v v' /\ ber_value bs /\ serde_from_ber D bs = Ok v' /\ parse_ber D (bs ++ rest) = (Ok v', rest).
Proof.
  intros E C S D v bs rest HE P W O L Hr. pose proof (provided_laws E C S D HE P) as LW.
  destruct (round_trip_ber E C S D LW v bs W O L) as (v' & W' & Sm & V & A & B & _). exists v'. auto 10.
Qed.
Print Assumptions C29_nested.
(** An entry of a map with indefinite length is not decoded like the definite one. *)
Theorem C29_entries_refuted : ~ (forall K V (DK : deserialize K) (DV : deserialize V) k v i,
  ber_value k -> ber_value v -> k <> [0; 0] -> v <> [0; 0] -> bytes_ok (k ++ v) ->
  ber_to_key_val DK DV ([0x30; 0x80] ++ k ++ v ++ [0; 0], i) = ber_to_key_val DK DV (tlv [0x30] (k ++ v), i)).
Proof.
  intros H. specialize (H _ _ (de_bool (ex_env true)) (de_bool (ex_env true)) (tlv [1] [0xff]) (tlv [1] [0]) 0).
  assert (forall o, ber_value (tlv [1] [o])) as V.
  { intros o. apply (bv_definite [1] [o]), tlv_der; [apply (small_identifier 1); lia | reflexivity]. }
  specialize (H (V _) (V _) ltac:(discriminate) ltac:(discriminate) ltac:(repeat constructor; cbv; reflexivity)).
  vm_compute in H. discriminate.
Qed.
Print Assumptions C29_entries_refuted.
Example C29_ex : let D := de_vec (ex_env true) (de_vec (ex_env true) (de_bool (ex_env true))) in
  parse_ber D [0x30; 0x80; 0x30; 3; 1; 1; 0xff; 0x30; 0x80; 1; 1; 0; 0; 0; 0; 0; 9] = (Ok [[true]; [false]], [9]) /\
  parse_ber D [0x30; 10; 0x30; 3; 1; 1; 0xff; 0x30; 3; 1; 1; 0; 9] = (Ok [[true]; [false]], [9]).
Proof. split; vm_compute; reflexivity. Qed.

(** ** C30 *)
(** Booleans, integers and strings: the comparison with Indefinite is never true.  With
    debug assertions every such value panics; without, the end-of-contents octets
    count as contents. *)
Theorem C30_indefinite_refuted : forall E t c,
  (e_debug E = true -> from_ber (de_bool E) [0x01] Indefinite c = Panic /\ from_ber (de_int E t) [0x02] Indefinite c = Panic /\
     from_ber (de_string E) [0x0c] Indefinite c = Panic) /\
  (e_debug E = false -> from_ber (de_int E t) [0x02] Indefinite c = from_der (de_int E t) [0x02] c /\
     from_ber (de_string E) [0x0c] Indefinite c = from_der (de_string E) [0x0c] c).
Proof.
  intros E t c. split; intros R.
  - cbn. unfold assert_length, debug_assert. rewrite R. cbn. auto.
  - cbn. unfold assert_length, debug_assert. rewrite R. cbn. auto.
Qed.
Print Assumptions C30_indefinite_refuted.
Theorem C30_statement_refuted : forall E, ~ (forall bs, bytes_ok bs -> forall id c, bs = id ++ 0x80 :: c -> is_identifier id -> id = [0x02] ->
  ber_value bs -> fst (parse_ber (de_int E I64) bs) = Err IndefiniteLength).
Proof.
  intros E H. specialize (H [2; 0x80; 1; 1; 0; 0; 0]). specialize (H ltac:(repeat constructor; cbv; reflexivity) [2] [1; 1; 0; 0; 0] eq_refl).
  specialize (H ltac:(apply (small_identifier 2); lia) eq_refl).
  assert (ber_value [2; 0x80; 1; 1; 0; 0; 0]) as V.
  { apply (bv_indefinite [2] [1; 1; 0]); [apply (small_identifier 2); lia|].
    apply (bi_cons [1; 1; 0] []); [| discriminate | constructor].
    apply (bv_definite [1] [0]), (tlv_der [1] [0]); [apply (small_identifier 1); lia | reflexivity]. }
  specialize (H V). destruct E as [cfg [|] pl]; vm_compute in H; discriminate.
Qed.
Print Assumptions C30_statement_refuted.
(** What holds: octet strings reject, and a boolean is never misread without debug
    assertions. *)
Theorem C30_partial : forall E c, (forall id, id = [0x04] \/ id = [0x24] -> from_ber de_octets id Indefinite c = Err IndefiniteLength) /\
  (e_debug E = false -> forall id items, exists e, from_ber (de_bool E) id Indefinite (items ++ [0; 0]) = Err e).
Proof.
  intros E c. split.
  - intros id [->| ->]; reflexivity.
  - intros R id items. cbn. destruct (negb _); [eauto|]. unfold assert_length, debug_assert. rewrite R. cbn.
    destruct items as [|x [|y items]]; cbn; eauto.
Qed.
Print Assumptions C30_partial.
(** Whole values, exactly.  With debug assertions an integer panics whatever the identifier
    is, a boolean or string if the identifier is its own.  Without, the value is read as the
    definite one whose contents end with the end-of-contents octets.  The stream stands after
    the value in every case. *)
Theorem C30_exact : forall E t id items rest, is_identifier id -> ber_items items -> bytes_ok items -> nlen items + 2 < usize_limit -> bytes_ok rest ->
  let v := id ++ 0x80 :: items ++ [0; 0] in let d := tlv id (items ++ [0; 0]) in
  (e_debug E = true ->
     parse_ber (de_int E t) (v ++ rest) = (Panic, rest) /\
     parse_ber (de_bool E) (v ++ rest) = (if bytes_eqb id [0x01] then Panic else Err UnmatchedId, rest) /\
     parse_ber (de_string E) (v ++ rest) = (if bytes_eqb id [0x0c] || bytes_eqb id [0x2c] then Panic else Err UnmatchedId, rest)) /\
  (e_debug E = false ->
     parse_ber (de_int E t) (v ++ rest) = parse_ber (de_int E t) (d ++ rest) /\
     parse_ber (de_bool E) (v ++ rest) = parse_ber (de_bool E) (d ++ rest) /\
     parse_ber (de_string E) (v ++ rest) = parse_ber (de_string E) (d ++ rest)) /\
  parse_ber de_octets (v ++ rest) = (Err (if bytes_eqb id [0x04] || bytes_eqb id [0x24] then IndefiniteLength else UnmatchedId), rest).
Proof.
  intros E t id items rest Hi Hb Ho Hn Hr v d.
  pose proof (fun T (D : deserialize T) => parses_indefinite D id items rest Hi Hb Ho Hr) as P.
  assert (Q : forall T (D : deserialize T), parse_ber D (d ++ rest) = (from_ber D id (Definite (nlen (items ++ [0; 0]))) (items ++ [0; 0]), rest)).
  { intros T D. apply (parses_definite D id (items ++ [0; 0]) rest Hi); [rewrite nlen_app; exact Hn | | exact Hr].
    apply bytes_ok_app. split; [assumption | repeat constructor; reflexivity]. }
  unfold v. rewrite !P. split; [|split].
  - intros R. cbn [from_ber de_int de_bool de_string Length_eqb]. unfold assert_length, debug_assert. rewrite R. cbn [rbind].
    change ID_BOOLEAN with [0x01]. change ID_UTF8_STRING with [0x0c]. change ID_UTF8_STRING_CONSTRUCTED with [0x2c].
    split; [reflexivity|]. split; [now destruct (bytes_eqb id [0x01]) | now destruct (bytes_eqb id [0x0c]), (bytes_eqb id [0x2c])].
  - intros R. rewrite !Q. cbn [from_ber de_int de_bool de_string Length_eqb]. unfold assert_length, debug_assert. rewrite R. cbn [rbind]. auto.
  - cbn [from_ber de_octets]. change ID_OCTET_STRING with [0x04]. change ID_OCTET_STRING_CONSTRUCTED with [0x24].
    now destruct (bytes_eqb id [0x04]), (bytes_eqb id [0x24]).
Qed.
Print Assumptions C30_exact.
(** Debug: a SEQUENCE of indefinite length, read as an integer. *)
Example C30_exact_ex : is_identifier [0x30] /\ ber_items [1; 1; 0xff] /\
  parse_ber (de_int (ex_env true) I64) [0x30; 0x80; 1; 1; 0xff; 0; 0; 9] = (Panic, [9]) /\
  parse_ber (de_int (ex_env false) I64) [0x30; 0x80; 1; 1; 0xff; 0; 0; 9] = (Err UnmatchedId, [9]) /\
  parse_ber (de_int (ex_env false) I64) [2; 0x80; 1; 1; 0xff; 0; 0; 9] = (Ok 0x0101ff0000%Z, [9]).
Proof.
  split; [exact id_30|]. split.
  - apply (bi_cons [1; 1; 0xff] []); [| discriminate | constructor].
    apply (bv_definite [1] [0xff]), (tlv_der [1] [0xff]); [apply (small_identifier 1); lia | reflexivity].
  - repeat split; vm_compute; reflexivity.
Qed.
(** Misread as an integer and a string. *)
Example C30_ex : parse_ber (de_int (ex_env false) I64) [2; 0x80; 1; 1; 0; 0; 0] = (Ok 0x0101000000%Z, []) /\
  parse_ber (de_string (ex_env false)) [0x0c; 0x80; 0; 0] = (Ok [0; 0], []) /\
  parse_ber (de_string (ex_env true)) [0x0c; 0x80; 0; 0] = (Panic, []) /\
  parse_ber de_octets [0x04; 0x80; 0; 0] = (Err IndefiniteLength, []).
Proof. repeat split; vm_compute; reflexivity. Qed.

(** ** C59 *)
Scheme ber_string_mind := Minimality for ber_string Sort Prop
  with ber_segments_mind := Minimality for ber_segments Sort Prop.
Combined Scheme ber_string_both from ber_string_mind, ber_segments_mind.
(** The octets of a string are at least as many as those of its value, and every
    segment adds two. *)
Lemma ber_string_sizes :
  (forall tag v id l c, ber_string tag v id l c -> (1 <= length id)%nat /\ (length v <= length c)%nat) /\
  (forall vs items, ber_segments vs items -> (length (concat vs) + 2 * length items <= length (concat items))%nat).
Proof.
  assert (forall l, (1 <= length (length_of l))%nat) as L.
  { intros [|n]; cbn; [lia|]. unfold length_octets. destruct (n <? 128); cbn; lia. }
  apply ber_string_both.
  - intros. cbn. lia.
  - intros tag vs items l c _ IH K. split; [cbn; lia|]. destruct K; [|rewrite app_length]; lia.
  - cbn. lia.
  - intros v id l c vs items _ [I V] _ IH. cbn [concat length]. rewrite !app_length. specialize (L l). lia.
Qed.
Lemma constructed_string_value tag v l c : ber_string tag v [tag + 0x20] l c -> v = c -> c = [] /\ l = Definite 0.
Proof.
  intros H E. inversion H as [t v' Ev Et Ei|t vs items l' c' S K Et Ev Ei]; [lia|]. subst t l' c'.
  apply (proj2 ber_string_sizes) in S as Z. rewrite Ev, E in Z. destruct K as [|].
  - assert (length items = 0)%nat as I by lia. destruct items; [|discriminate I]. split; reflexivity.
  - rewrite app_length in Z. cbn in Z. lia.
Qed.
Lemma constructed_octets l c v : from_ber de_octets [0x24] l c = Ok v -> v = c.
Proof. destruct l; intros H; vm_compute in H; [discriminate|]. injection H as ->. reflexivity. Qed.
Lemma constructed_utf8 E l c v : from_ber (de_string E) [0x2c] l c = Ok v -> v = c.
Proof.
  cbn [from_ber de_string].
  change (negb (bytes_eqb [0x2c] ID_UTF8_STRING) && negb (bytes_eqb [0x2c] ID_UTF8_STRING_CONSTRUCTED)) with false. cbv iota.
  destruct (Length_eqb l Indefinite); [discriminate|].
  destruct (assert_length E l c) as [u| | |]; cbn; try discriminate. unfold str_from_utf8. destruct (utf8_valid c); congruence.
Qed.
(** A constructed string is given as the octets of its segments, headers and all; so it
    comes out right only if it has no segments at all. *)
Theorem C59_constructed_refuted : forall E v l c,
  (ber_string 0x04 v [0x24] l c -> from_ber de_octets [0x24] l c = Ok v -> v = [] /\ c = [] /\ l = Definite 0) /\
  (ber_string 0x0c v [0x2c] l c -> from_ber (de_string E) [0x2c] l c = Ok v -> v = [] /\ c = [] /\ l = Definite 0).
Proof.
  intros E v l c. split; intros B F.
  - apply constructed_octets in F. apply (constructed_string_value 4) in B as [-> ->]; auto.
  - apply constructed_utf8 in F. apply (constructed_string_value 12) in B as [-> ->]; auto.
Qed.
Print Assumptions C59_constructed_refuted.
(** It is an answer all the same, and a wrong one. *)
Theorem C59_wrong_refuted : forall c, c <> [] -> forall v, ber_string 0x04 v [0x24] (Definite (nlen c)) c ->
  exists v', from_ber de_octets [0x24] (Definite (nlen c)) c = Ok v' /\ v' <> v.
Proof.
  intros c N v B. exists c. split; [reflexivity|]. intros ->. apply (constructed_string_value 4) in B; [|reflexivity]. now destruct B.
Qed.
Print Assumptions C59_wrong_refuted.
Example C59_wrong_ex : ber_string 0x04 [0x61; 0x62; 0x63] [0x24] (Definite 7) [0x04; 2; 0x61; 0x62; 0x04; 1; 0x63] /\
  parse_ber de_octets [0x24; 7; 0x04; 2; 0x61; 0x62; 0x04; 1; 0x63] = (Ok [0x04; 2; 0x61; 0x62; 0x04; 1; 0x63], []) /\
  parse_ber (de_string (ex_env true)) [0x2c; 7; 0x04; 2; 0x61; 0x62; 0x04; 1; 0x63] = (Ok [0x04; 2; 0x61; 0x62; 0x04; 1; 0x63], []) /\
  ber_string 0x04 [0x61] [0x24] Indefinite [0x04; 1; 0x61; 0; 0] /\
  parse_ber de_octets [0x24; 0x80; 0x04; 1; 0x61; 0; 0] = (Err IndefiniteLength, []).
Proof.
  repeat split; try (vm_compute; reflexivity).
  - apply (bs_constructed 4 [[0x61; 0x62]; [0x63]] [[0x04; 2; 0x61; 0x62]; [0x04; 1; 0x63]] (Definite 7) [0x04; 2; 0x61; 0x62; 0x04; 1; 0x63]).
    + apply (sg_cons _ _ _ _ _ _ (bs_primitive 4 [0x61; 0x62])), (sg_cons _ _ _ _ _ _ (bs_primitive 4 [0x63])), sg_nil.
    + apply (con_definite [[0x04; 2; 0x61; 0x62]; [0x04; 1; 0x63]]).
  - apply (bs_constructed 4 [[0x61]] [[0x04; 1; 0x61]] Indefinite [0x04; 1; 0x61; 0; 0]).
    + apply (sg_cons _ _ _ _ _ _ (bs_primitive 4 [0x61])), sg_nil.
    + apply (con_indefinite [[0x04; 1; 0x61]]).
Qed.
(** What holds: the primitive form gives the value, the empty constructed string is
    empty, an octet string of indefinite length is refused, and DER refuses every
    constructed string. *)
Theorem C59_partial : forall E v,
  (forall l c, ber_string 0x04 v [0x04] l c -> from_ber de_octets [0x04] l c = Ok v) /\
  (forall l c, is_utf8 v -> ber_string 0x0c v [0x0c] l c -> from_ber (de_string E) [0x0c] l c = Ok v) /\
  from_ber de_octets [0x24] (Definite 0) [] = Ok [] /\ from_ber (de_string E) [0x2c] (Definite 0) [] = Ok [] /\
  (forall c, from_ber de_octets [0x24] Indefinite c = Err IndefiniteLength) /\
  (forall c, from_der de_octets [0x24] c = Err UnmatchedId /\ from_der (de_string E) [0x2c] c = Err UnmatchedId).
Proof.
  intros E v. repeat split.
  - intros l c B. inversion B; subst; reflexivity.
  - intros l c U B. inversion B; subst. cbn [from_ber de_string].
    change (negb (bytes_eqb [12] ID_UTF8_STRING) && negb (bytes_eqb [12] ID_UTF8_STRING_CONSTRUCTED)) with false. cbv iota.
    change (Length_eqb (Definite (nlen c)) Indefinite) with false. cbv iota. rewrite assert_length_same.
    unfold str_from_utf8. now rewrite (proj2 (utf8_valid_iff c) U).
  - unfold de_string, assert_length, debug_assert. destruct E as [cfg [|] pl]; reflexivity.
Qed.
Print Assumptions C59_partial.
Example C59_ex : ber_string 0x0c [0xc3; 0xa9] [0x0c] (Definite 2) [0xc3; 0xa9] /\ is_utf8 [0xc3; 0xa9] /\
  from_ber (de_string (ex_env true)) [0x0c] (Definite 2) [0xc3; 0xa9] = Ok [0xc3; 0xa9] /\
  ber_string 0x04 [] [0x24] (Definite 0) [].
Proof.
  split; [apply (bs_primitive 0x0c [0xc3; 0xa9])|]. split; [|split; [vm_compute; reflexivity|]].
  - exists [0xe9]. split; [repeat constructor; unfold scalar; lia | reflexivity].
  - apply (bs_constructed 4 [] [] (Definite 0) []); [constructor | apply con_definite].
Qed.

(** ** C31 *)
Definition folded {K V} (insert : K * V -> list (K * V) -> list (K * V)) (xs : list (K * V)) : list (K * V) :=
  fold_left (fun m x => insert x m) xs [].
Theorem C31_der : forall E K V (DK : deserialize K) (DV : deserialize V) cmp eqb id c m, bytes_ok c ->
  (from_der (de_btree_map E cmp DK DV) id c = Ok m <->
   id = [0x30] /\ exists bs xs, c = concat bs /\ Forall2 (der_entry DK DV) bs xs /\ m = folded (btree_map_insert cmp) xs) /\
  (from_der (de_hash_map E eqb DK DV) id c = Ok m <->
   id = [0x31] /\ exists bs xs, c = concat bs /\ Forall2 (der_entry DK DV) bs xs /\ m = folded (hash_map_insert E eqb) xs).
Proof. intros. split; now apply der_map_iff. Qed.
Print Assumptions C31_der.
Theorem C31_ber : forall E K V (DK : deserialize K) (DV : deserialize V) cmp eqb id c m, bytes_ok c ->
  (from_ber (de_btree_map E cmp DK DV) id (Definite (nlen c)) c = Ok m <->
   id = [0x30] /\ exists bs xs, c = concat bs /\ Forall2 (ber_entry DK DV) bs xs /\ m = folded (btree_map_insert cmp) xs) /\
  (from_ber (de_hash_map E eqb DK DV) id (Definite (nlen c)) c = Ok m <->
   id = [0x31] /\ exists bs xs, c = concat bs /\ Forall2 (ber_entry DK DV) bs xs /\ m = folded (hash_map_insert E eqb) xs).
Proof.
  intros E K V DK DV cmp eqb id c m Hc. pose proof (proj2 (exclude_eoc_both E c)) as X.
  split; (etransitivity; [apply (ber_map_iff DK DV); assumption|]); (split; [intros (-> & c' & E1 & H) | intros (-> & H)]); (split; [reflexivity|]).
  1,3: rewrite X in E1; injection E1 as <-; exact H.
  all: exists c; split; assumption.
Qed.
Print Assumptions C31_ber.
(** Extra data and entries that are no SEQUENCE: InvalidKeyValuePair, with context. *)
Theorem C31_errors_partial : forall E K V (DK : deserialize K) (DV : deserialize V) cmp eqb good xs bad,
  Forall2 (der_entry DK DV) good xs -> bytes_ok (concat good ++ bad) ->
  (exists kb vb x rest, bad = tlv [0x30] (kb ++ vb ++ x) ++ rest /\ (exists id c, der_tlv id c kb) /\ (exists id c, der_tlv id c vb) /\
     x <> [] /\ nlen (kb ++ vb ++ x) < usize_limit) \/
  (exists id c b rest, bad = b ++ rest /\ der_tlv id c b /\ id <> [0x30]) ->
  exists n, from_der (de_btree_map E cmp DK DV) [0x30] (concat good ++ bad) = Err (Error_context n InvalidKeyValuePair) /\
            from_der (de_hash_map E eqb DK DV) [0x31] (concat good ++ bad) = Err (Error_context n InvalidKeyValuePair).
Proof.
  intros E K V DK DV cmp eqb good xs bad F Hok B.
  assert (exists n, der_to_key_val DK DV (bad, 0 + nlen good) = Err (Error_context n InvalidKeyValuePair)) as [n Hn].
  { apply bytes_ok_app in Hok as [_ Hb]. destruct B as [(kb & vb & x & rest & -> & Tk & Tv & Hx & L)|(id & c & b & rest & -> & T & Hi)].
    - eexists. now apply der_entry_extra.
    - eexists. eapply der_entry_id; eassumption. }
  assert (Forall2 (reads (der_to_key_val DK DV)) good xs) as R by (clear -F; induction F; constructor; [now apply der_entry_reads' | assumption]).
  exists n. cbn [from_der de_btree_map de_hash_map de_collection].
  change (negb (bytes_eqb [0x30] ID_SEQUENCE)) with false. change (negb (bytes_eqb [0x31] ID_SET)) with false. cbv iota.
  split; (eapply collect_fails; [exact R | assumption | exact Hn | rewrite app_length; lia]).
Qed.
Print Assumptions C31_errors_partial.
(** A missing value (or key) is another error, and no error compares equal to InvalidKeyValuePair. *)
Theorem C31_errors_refuted : let D := de_btree_map (ex_env true) Z.compare (de_int (ex_env true) I8) (de_bool (ex_env true)) in
  (exists n, from_der D [0x30] [0x30; 3; 2; 1; 7] = Err (Error_context n UnterminatedBytes)) /\
  (exists n, from_der D [0x30] [0x30; 0] = Err (Error_context n UnterminatedBytes)) /\
  (forall n, Error_eqb (Error_context n InvalidKeyValuePair) InvalidKeyValuePair = false).
Proof. split; [exists (ctx 7 0); vm_compute; reflexivity|]. split; [exists (ctx 6 0); vm_compute; reflexivity|]. reflexivity. Qed.
Print Assumptions C31_errors_refuted.
Example C31_ex : let D := de_btree_map (ex_env true) Z.compare (de_int (ex_env true) I8) (de_bool (ex_env true)) in
  from_der D [0x30] [0x30; 6; 2; 1; 7; 1; 1; 0xff; 0x30; 6; 2; 1; 3; 1; 1; 0; 0x30; 6; 2; 1; 7; 1; 1; 0] = Ok [(3, false); (7, false)]%Z /\
  from_der D [0x30] [0x30; 9; 2; 1; 7; 1; 1; 0xff; 1; 1; 0xff] = Err (Error_context (ctx 10 0) InvalidKeyValuePair).
Proof. split; vm_compute; reflexivity. Qed.

(** ** C36 *)
Theorem C36_prefix : forall E C S D v St (W : writer St) log s r s', good_env E -> provided E C S D -> wf C v ->
  nlen (der_of C v) <= isize_max -> honest_writer W log -> write_der E S W v s = (r, s') ->
  exists p q, der_of C v = p ++ q /\ log s' = log s ++ p /\
    match r with
    | Ok _ => q = []
    | Err e => exists k s1 q1 q2, e = Io k /\ q = q1 ++ q2 /\ q1 <> [] /\ last_call W s1 q1 k s'
    | Panic => False
    | NoFuel => True
    end.
Proof.
  intros E C S D v St W log s r s' HE P Wv L HW H. destruct (C25_provided E C S D v HE P Wv L) as (_ & EM & _).
  exact (failing_writer _ _ W log s r s' EM HW H).
Qed.
Print Assumptions C36_prefix.
(** [NoFuel] stands for a loop that goes on: not without interruptions. *)
Theorem C36_ends : forall E C S D v St (W : writer St) s, good_env E -> provided E C S D -> wf C v -> nlen (der_of C v) <= isize_max ->
  (forall s bs s', wr_write W s bs <> (WrErr Interrupted, s')) -> (length (der_of C v) <= wr_fuel W)%nat ->
  fst (write_der E S W v s) <> NoFuel.
Proof.
  intros E C S D v St W s HE P Wv L NI F. destruct (C25_provided E C S D v HE P Wv L) as (_ & EM & _).
  exact (failing_writer_ends _ _ W s EM NI F).
Qed.
Print Assumptions C36_ends.
(** The writer that takes [k] octets and then fails. *)
Theorem C36_exact : forall E C S D v k step e, good_env E -> provided E C S D -> wf C v -> nlen (der_of C v) <= isize_max ->
  0 < step -> e <> Interrupted ->
  write_der E S (limited k step e) v [] =
  if nlen (der_of C v) <=? k then (Ok tt, der_of C v) else (Err (Io e), take k (der_of C v)).
Proof.
  intros E C S D v k step e HE P Wv L H0 He. destruct (C25_provided E C S D v HE P Wv L) as (_ & EM & _).
  exact (limited_writer _ _ k step e EM H0 He).
Qed.
Print Assumptions C36_exact.
(** The same of any lawful implementation. *)
Theorem C36_lawful : forall E T (S : serialize T) v id c St (W : writer St) log s r s',
  serialises S v id c -> nlen c <= isize_max -> honest_writer W log -> write_der E S W v s = (r, s') ->
  exists p q, tlv id c = p ++ q /\ log s' = log s ++ p /\
    match r with
    | Ok _ => q = []
    | Err e => exists k s1 q1 q2, e = Io k /\ q = q1 ++ q2 /\ q1 <> [] /\ last_call W s1 q1 k s'
    | Panic => False
    | NoFuel => True
    end.
Proof.
  intros E T S v id c St W log s r s' SS L HW H.
  exact (failing_writer _ _ W log s r s' (write_der_emits E S v id c SS L) HW H).
Qed.
Print Assumptions C36_lawful.
Example C36_ex : honest_writer (limited 9 2 (OtherIo 5)) (fun s => s) /\
  write_der (ex_env true) (ex_ser (ex_env true)) (limited 9 2 (OtherIo 5)) ex_value [] = (Err (Io (OtherIo 5)), take 9 ex_der) /\
  write_der (ex_env true) (ex_ser (ex_env true)) (limited 99 2 (OtherIo 5)) ex_value [] = (Ok tt, ex_der).
Proof. split; [apply limited_honest|]. split; vm_compute; reflexivity. Qed.

(** ** C43 *)
Theorem C43_from_der : forall E C S D id c, good_env E -> provided E C S D -> bytes_ok c -> answers (from_der D id c).
Proof. intros E C S D id c HE P. exact (l_der_answers _ _ _ _ (provided_laws E C S D HE P) id c). Qed.
Print Assumptions C43_from_der.
Theorem C43_from_ber_release : forall E C S D id l c, good_env E -> provided E C S D -> e_debug E = false -> bytes_ok c ->
  answers (from_ber D id l c).
Proof. intros E C S D id l c HE P R Hc. exact (l_ber_answers _ _ _ _ (provided_laws E C S D HE P) id l c Hc (or_introl R)). Qed.
Print Assumptions C43_from_ber_release.
Theorem C43_parse : forall E C S D bs, good_env E -> provided E C S D -> bytes_ok bs ->
  answers (fst (parse_der D bs)) /\ (e_debug E = false -> answers (fst (parse_ber D bs))) /\
  answers (fst (DerRef_parse bs)) /\ answers (fst (BerRef_parse bs)).
Proof.
  intros E C S D bs HE P Hok. pose proof (provided_laws E C S D HE P) as LW.
  destruct (der_no_panic bs Hok) as [P1 F1]. destruct (ber_no_panic bs Hok) as [P2 F2]. conj.
  - apply (laws_parse E C S D bs LW Hok).
  - intros R. apply (laws_parse E C S D bs LW Hok). now left.
  - destruct (DerRef_parse bs) as [[v|e| |] rest]; cbn [fst] in *; [apply answers_ok | apply answers_err | congruence | congruence].
  - destruct (BerRef_parse bs) as [[v|e| |] rest]; cbn [fst] in *; [apply answers_ok | apply answers_err | congruence | congruence].
Qed.
Print Assumptions C43_parse.
(** With debug assertions, six octets of a BER integer are enough. *)
Theorem C43_debug_refuted : ~ (forall E C S D bs, good_env E -> provided E C S D -> bytes_ok bs -> answers (fst (parse_ber D bs))).
Proof.
  intros H. specialize (H (ex_env true) _ _ _ [2; 0x80; 0; 0] (ex_good true) (pv_int _ I32) ltac:(repeat constructor; cbv; reflexivity)).
  destruct H as [[a H]|[e H]]; vm_compute in H; discriminate.
Qed.
Print Assumptions C43_debug_refuted.
(** It takes an indefinite length in the place of a value: without one, no build panics. *)
Theorem C43_quiet : forall E C S D, good_env E -> provided E C S D ->
  (forall id c, bytes_ok c -> quiet c -> answers (from_ber D id (Definite (nlen c)) c)) /\
  (forall bs, bytes_ok bs -> quiet bs -> answers (fst (parse_ber D bs))).
Proof.
  intros E C S D HE P. pose proof (provided_laws E C S D HE P) as LW. split.
  - intros id c Hc Q. apply (l_ber_answers _ _ _ _ LW); auto.
  - intros bs Hok Q. apply (laws_parse E C S D bs LW Hok). now right.
Qed.
Print Assumptions C43_quiet.
(** In particular on octets without [80]. *)
Theorem C43_quiet_simple : forall bs, bytes_ok bs -> ~ In 0x80 bs -> quiet bs.
Proof. exact no_80_quiet. Qed.
Print Assumptions C43_quiet_simple.
(** With debug assertions, an integer of indefinite length always panics. *)
Theorem C43_int_indefinite : forall E t id c, e_debug E = true -> from_ber (de_int E t) id Indefinite c = Panic.
Proof. intros [cfg [|] pl] t id c R; [reflexivity | discriminate]. Qed.
Print Assumptions C43_int_indefinite.
Example C43_quiet_ex : quiet [0x31; 3; 0x30; 1; 0xff] /\ provided (ex_env true) ex_codec (ex_ser (ex_env true)) (ex_de (ex_env true)) /\
  fst (parse_ber (ex_de (ex_env true)) [0x31; 3; 0x30; 1; 0xff]) = Err (Error_context (ctx 12 0) UnterminatedBytes).
Proof.
  split; [|split; [apply ex_provided | vm_compute; reflexivity]].
  apply no_80_quiet; [repeat constructor; cbv; reflexivity | cbn; intuition discriminate].
Qed.
Example C43_ex : provided (ex_env false) ex_codec (ex_ser (ex_env false)) (ex_de (ex_env false)) /\
  fst (parse_ber (ex_de (ex_env false)) [0x31; 3; 0x30; 1; 0xff]) = Err (Error_context (ctx 12 0) UnterminatedBytes).
Proof. split; [apply ex_provided | vm_compute; reflexivity]. Qed.
