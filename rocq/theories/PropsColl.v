(** C62, C63: equal elements and keys; what is decoded. *)
From Verif Require Import Base ModelError ModelIo ModelTag ModelContents ModelBuf ModelTlv ModelSerde Spec SpecIo SpecSerde.
From Verif Require Import ModelAttr ModelDerive SpecAttr SpecDerive SpecColl.
From Verif Require Import TagProofs IdProofs TagMain ContentsProofs TlvProofs BufProofs TlvMain StreamProofs StreamMain.
From Verif Require Import SerdeOctets SerdeSer SerdeDe SerdeMain SerdeEntry PropsSerde DeriveMain CollProofs DecodedProofs.
From Coq Require Import Permutation.

(** ** C62 *)
Lemma vec_iff {T} E (D : deserialize T) : (forall id c xs, bytes_ok c ->
    (from_der (de_vec E D) id c = Ok xs <-> id = [0x30] /\ exists bs, c = concat bs /\ Forall2 (der_item D) bs xs)) /\
  (forall id l c xs, bytes_ok c -> right_length l c ->
    (from_ber (de_vec E D) id l c = Ok xs <-> id = [0x30] /\ exists bs, constructed bs l c /\ Forall2 (ber_item D) bs xs)).
Proof.
  split.
  - intros id c xs Hok. etransitivity; [apply (der_coll_iff E [0x30] push_back (ber_to_val D) (der_to_val D) (der_item D))|].
    + apply der_item_next.
    + apply der_next_none.
    + reflexivity.
    + apply der_item_reads.
    + assumption.
    + split; intros (-> & bs & H).
      * destruct H as (ys & -> & F & ->). rewrite inserted_push. eauto.
      * destruct H as (-> & F). split; [reflexivity|]. exists bs, xs. rewrite inserted_push. auto.
  - intros id l c xs Hok R. etransitivity; [apply (ber_coll_iff E [0x30] push_back (ber_to_val D) (der_to_val D) (ber_item D))|].
    + apply ber_item_next.
    + apply ber_next_none.
    + reflexivity.
    + apply ber_item_reads.
    + assumption.
    + assumption.
    + split; intros (-> & bs & H).
      * destruct H as (ys & K & F & ->). rewrite inserted_push. eauto.
      * destruct H as (K & F). split; [reflexivity|]. exists bs, xs. rewrite inserted_push. auto.
Qed.
(** A Vec, LinkedList or VecDeque is exactly its elements, decoded one after another. *)
Theorem C62_sequences : forall E T (D : deserialize T), (forall id c xs, bytes_ok c ->
    (from_der (de_vec E D) id c = Ok xs <-> id = [0x30] /\ exists bs, c = concat bs /\ Forall2 (der_item D) bs xs) /\
    (from_der (de_linked_list E D) id c = Ok xs <-> id = [0x30] /\ exists bs, c = concat bs /\ Forall2 (der_item D) bs xs) /\
    (from_der (de_vec_deque E D) id c = Ok xs <-> id = [0x30] /\ exists bs, c = concat bs /\ Forall2 (der_item D) bs xs)) /\
  (forall id l c xs, bytes_ok c -> right_length l c ->
    (from_ber (de_vec E D) id l c = Ok xs <-> id = [0x30] /\ exists bs, constructed bs l c /\ Forall2 (ber_item D) bs xs) /\
    (from_ber (de_linked_list E D) id l c = Ok xs <-> id = [0x30] /\ exists bs, constructed bs l c /\ Forall2 (ber_item D) bs xs) /\
    (from_ber (de_vec_deque E D) id l c = Ok xs <-> id = [0x30] /\ exists bs, constructed bs l c /\ Forall2 (ber_item D) bs xs)).
Proof.
  intros E T D. destruct (vec_iff E D) as [A B]. split.
  - intros id c xs Hok. exact (conj (A id c xs Hok) (conj (A id c xs Hok) (A id c xs Hok))).
  - intros id l c xs Hok R. exact (conj (B id l c xs Hok R) (conj (B id l c xs Hok R) (B id l c xs Hok R))).
Qed.
Print Assumptions C62_sequences.

(** A BTreeSet: in increasing order, of equal elements the first. *)
Theorem C62_btree_set : forall E T cmp (D : deserialize T), total_order any cmp ->
  (forall id c l, bytes_ok c ->
    (from_der (de_btree_set E cmp D) id c = Ok l <->
     id = [0x30] /\ exists bs xs, c = concat bs /\ Forall2 (der_item D) bs xs /\ sorted cmp l /\ set_of (equal_by cmp) xs l)) /\
  (forall id len c l, bytes_ok c -> right_length len c ->
    (from_ber (de_btree_set E cmp D) id len c = Ok l <->
     id = [0x30] /\ exists bs xs, constructed bs len c /\ Forall2 (ber_item D) bs xs /\ sorted cmp l /\ set_of (equal_by cmp) xs l)).
Proof.
  intros E T cmp D O. assert (forall xs : list T, Forall any xs) as A by (intros xs; apply Forall_forall; intros x _; exact I). split.
  - intros id c l Hok. etransitivity; [apply (der_coll_iff E [0x30] (btree_insert cmp) (ber_to_val D) (der_to_val D) (der_item D));
      [apply der_item_next | apply der_next_none | reflexivity | apply der_item_reads | assumption]|].
    split; intros (-> & bs & xs & K & F & H); (split; [reflexivity|]); exists bs, xs; (split; [assumption|]); (split; [assumption|]).
    + subst l. now destruct (btree_set_of any cmp O xs (A xs)) as (_ & B & C).
    + destruct H. now apply (btree_set_unique any cmp O).
  - intros id len c l Hok R. etransitivity; [apply (ber_coll_iff E [0x30] (btree_insert cmp) (ber_to_val D) (der_to_val D) (ber_item D));
      [apply ber_item_next | apply ber_next_none | reflexivity | apply ber_item_reads | assumption | assumption]|].
    split; intros (-> & bs & xs & K & F & H); (split; [reflexivity|]); exists bs, xs; (split; [assumption|]); (split; [assumption|]).
    + subst l. now destruct (btree_set_of any cmp O xs (A xs)) as (_ & B & C).
    + destruct H. now apply (btree_set_unique any cmp O).
Qed.
Print Assumptions C62_btree_set.
(** A BTreeMap: keys in increasing order, of equal keys the first with the last value. *)
Theorem C62_btree_map : forall E K V cmp (DK : deserialize K) (DV : deserialize V), total_order any cmp ->
  (forall id c l, bytes_ok c ->
    (from_der (de_btree_map E cmp DK DV) id c = Ok l <->
     id = [0x30] /\ exists bs kvs, c = concat bs /\ Forall2 (der_entry DK DV) bs kvs /\ sorted cmp (map fst l) /\ map_of (equal_by cmp) kvs l)) /\
  (forall id len c l, bytes_ok c -> right_length len c ->
    (from_ber (de_btree_map E cmp DK DV) id len c = Ok l <->
     id = [0x30] /\ exists bs kvs, constructed bs len c /\ Forall2 (ber_entry DK DV) bs kvs /\ sorted cmp (map fst l) /\ map_of (equal_by cmp) kvs l)).
Proof.
  intros E K V cmp DK DV O. assert (forall xs : list K, Forall any xs) as A by (intros xs; apply Forall_forall; intros x _; exact I). split.
  - intros id c l Hok. etransitivity; [apply (der_coll_iff E [0x30] (btree_map_insert cmp) (ber_to_key_val DK DV) (der_to_key_val DK DV) (der_entry DK DV));
      [apply entry_next_der | apply der_kv_none | reflexivity | apply der_entry_reads' | assumption]|].
    split; intros (-> & bs & xs & B & F & H); (split; [reflexivity|]); exists bs, xs; (split; [assumption|]); (split; [assumption|]).
    + subst l. now destruct (btree_map_of any cmp O xs (A _)) as (_ & C & G).
    + destruct H. now apply (btree_map_unique any cmp O).
  - intros id len c l Hok R. etransitivity; [apply (ber_coll_iff E [0x30] (btree_map_insert cmp) (ber_to_key_val DK DV) (der_to_key_val DK DV) (ber_entry DK DV));
      [apply entry_next_ber | apply ber_kv_none | reflexivity | apply ber_entry_reads' | assumption | assumption]|].
    split; intros (-> & bs & xs & B & F & H); (split; [reflexivity|]); exists bs, xs; (split; [assumption|]); (split; [assumption|]).
    + subst l. now destruct (btree_map_of any cmp O xs (A _)) as (_ & C & G).
    + destruct H. now apply (btree_map_unique any cmp O).
Qed.
Print Assumptions C62_btree_map.

(** A HashSet: no two equal elements, of equal elements the first; only the order of
    iteration is left open. *)
Lemma placed_unordered {T} (eqb : T -> T -> bool) l l' : equivalence any eqb -> distinct eqb l -> distinct eqb l' -> (forall y, In y l <-> In y l') -> Permutation l l'.
Proof.
  intros (R & _) D D' I.
  assert (forall l, distinct eqb l -> NoDup l) as ND.
  { intros m H. induction H as [|x m H _ IH]; constructor; [|assumption]. intros J. rewrite Forall_forall in H.
    destruct (H x J) as [H1 _]. rewrite (R x Logic.I) in H1. discriminate. }
  apply NoDup_Permutation; auto.
Qed.
Theorem C62_hash_set : forall E T eqb (D : deserialize T), good_env E -> equivalence any eqb ->
  (forall id c l, bytes_ok c -> from_der (de_hash_set E eqb D) id c = Ok l ->
     id = [0x31] /\ exists bs xs, c = concat bs /\ Forall2 (der_item D) bs xs /\ distinct eqb l /\ set_of (equal_if eqb) xs l) /\
  (forall bs xs l, bytes_ok (concat bs) -> Forall2 (der_item D) bs xs -> distinct eqb l -> set_of (equal_if eqb) xs l ->
     exists l', from_der (de_hash_set E eqb D) [0x31] (concat bs) = Ok l' /\ Permutation l l') /\
  (forall id len c l, bytes_ok c -> right_length len c -> from_ber (de_hash_set E eqb D) id len c = Ok l ->
     id = [0x31] /\ exists bs xs, constructed bs len c /\ Forall2 (ber_item D) bs xs /\ distinct eqb l /\ set_of (equal_if eqb) xs l) /\
  (forall bs xs len c l, bytes_ok c -> constructed bs len c -> Forall2 (ber_item D) bs xs -> distinct eqb l -> set_of (equal_if eqb) xs l ->
     exists l', from_ber (de_hash_set E eqb D) [0x31] len c = Ok l' /\ Permutation l l').
Proof.
  intros E T eqb D HE O. assert (forall xs : list T, Forall any xs) as A by (intros xs; apply Forall_forall; intros x _; exact I).
  assert (forall xs l, distinct eqb l -> set_of (equal_if eqb) xs l -> Permutation l (inserted (hash_insert E eqb) xs [])) as P.
  { intros xs l G S. destruct (hash_set_of any eqb O E HE xs (A xs)) as (_ & B & C). apply (placed_unordered eqb); auto.
    intros y. rewrite (S y), (C y). reflexivity. }
  pose proof (fun id c m Hok => der_coll_iff E [0x31] (hash_insert E eqb) (ber_to_val D) (der_to_val D) (der_item D)
    (der_item_next D) (der_next_none D) (fun _ => eq_refl) (der_item_reads D) id c m Hok) as DI.
  pose proof (fun id len c m Hok R => ber_coll_iff E [0x31] (hash_insert E eqb) (ber_to_val D) (der_to_val D) (ber_item D)
    (ber_item_next D) (ber_next_none D) (fun _ => eq_refl) (ber_item_reads D) id len c m Hok R) as BI.
  split; [|split; [|split]].
  - intros id c l Hok H. apply (DI id c l Hok) in H as (-> & bs & xs & K & F & ->). split; [reflexivity|]. exists bs, xs.
    destruct (hash_set_of any eqb O E HE xs (A xs)) as (_ & B & C). auto.
  - intros bs xs l Hok F G S. exists (inserted (hash_insert E eqb) xs []). split; [|now apply P]. apply (DI [0x31] _ _ Hok). eauto 7.
  - intros id len c l Hok R H. apply (BI id len c l Hok R) in H as (-> & bs & xs & K & F & ->). split; [reflexivity|]. exists bs, xs.
    destruct (hash_set_of any eqb O E HE xs (A xs)) as (_ & B & C). auto.
  - intros bs xs len c l Hok K F G S. exists (inserted (hash_insert E eqb) xs []). split; [|now apply P].
    apply (BI [0x31] len c _ Hok); [destruct K; cbn [right_length]; auto | eauto 7].
Qed.
Print Assumptions C62_hash_set.
(** A HashMap: no two equal keys, of equal keys the first with the last value. *)
Theorem C62_hash_map : forall E K V eqb (DK : deserialize K) (DV : deserialize V), good_env E -> equivalence any eqb ->
  (forall id c l, bytes_ok c -> from_der (de_hash_map E eqb DK DV) id c = Ok l ->
     id = [0x31] /\ exists bs kvs, c = concat bs /\ Forall2 (der_entry DK DV) bs kvs /\ distinct eqb (map fst l) /\ map_of (equal_if eqb) kvs l) /\
  (forall bs kvs l, bytes_ok (concat bs) -> Forall2 (der_entry DK DV) bs kvs -> distinct eqb (map fst l) -> map_of (equal_if eqb) kvs l ->
     exists l', from_der (de_hash_map E eqb DK DV) [0x31] (concat bs) = Ok l' /\ Permutation l l') /\
  (forall id len c l, bytes_ok c -> right_length len c -> from_ber (de_hash_map E eqb DK DV) id len c = Ok l ->
     id = [0x31] /\ exists bs kvs, constructed bs len c /\ Forall2 (ber_entry DK DV) bs kvs /\ distinct eqb (map fst l) /\ map_of (equal_if eqb) kvs l) /\
  (forall bs kvs len c l, bytes_ok c -> constructed bs len c -> Forall2 (ber_entry DK DV) bs kvs -> distinct eqb (map fst l) -> map_of (equal_if eqb) kvs l ->
     exists l', from_ber (de_hash_map E eqb DK DV) [0x31] len c = Ok l' /\ Permutation l l').
Proof.
  intros E K V eqb DK DV HE O. assert (forall xs : list K, Forall any xs) as A by (intros xs; apply Forall_forall; intros x _; exact I).
  assert (forall l : list (K * V), distinct eqb (map fst l) -> NoDup l) as ND.
  { intros l. remember (map fst l) as m eqn:E0. intros H. revert l E0. induction H as [|x m H _ IH]; intros [|p l] [=]; constructor; [|now apply IH].
    intros J. subst. rewrite Forall_forall in H. destruct (H (fst p)) as [H1 _]; [now apply in_map|]. rewrite (proj1 O _ I) in H1. discriminate. }
  assert (forall (xs l : list (K * V)), distinct eqb (map fst l) -> map_of (equal_if eqb) xs l -> Permutation l (inserted (hash_map_insert E eqb) xs [])) as P.
  { intros xs l G S. destruct (hash_map_of any eqb O E HE xs (A _)) as (_ & B & C). apply NoDup_Permutation; auto.
    intros [k v]. rewrite (S k v), (C k v). reflexivity. }
  pose proof (fun id c m Hok => der_coll_iff E [0x31] (hash_map_insert E eqb) (ber_to_key_val DK DV) (der_to_key_val DK DV) (der_entry DK DV)
    (entry_next_der DK DV) (der_kv_none DK DV) (fun _ => eq_refl) (der_entry_reads' DK DV) id c m Hok) as DI.
  pose proof (fun id len c m Hok R => ber_coll_iff E [0x31] (hash_map_insert E eqb) (ber_to_key_val DK DV) (der_to_key_val DK DV) (ber_entry DK DV)
    (entry_next_ber DK DV) (ber_kv_none DK DV) (fun _ => eq_refl) (ber_entry_reads' DK DV) id len c m Hok R) as BI.
  split; [|split; [|split]].
  - intros id c l Hok H. apply (DI id c l Hok) in H as (-> & bs & xs & B & F & ->). split; [reflexivity|]. exists bs, xs.
    destruct (hash_map_of any eqb O E HE xs (A _)) as (_ & C & G). auto.
  - intros bs xs l Hok F G S. exists (inserted (hash_map_insert E eqb) xs []). split; [|now apply P]. apply (DI [0x31] _ _ Hok). eauto 7.
  - intros id len c l Hok R H. apply (BI id len c l Hok R) in H as (-> & bs & xs & B & F & ->). split; [reflexivity|]. exists bs, xs.
    destruct (hash_map_of any eqb O E HE xs (A _)) as (_ & C & G). auto.
  - intros bs xs len c l Hok B F G S. exists (inserted (hash_map_insert E eqb) xs []). split; [|now apply P].
    apply (BI [0x31] len c _ Hok); [destruct B; cbn [right_length]; auto | eauto 7].
Qed.
Print Assumptions C62_hash_map.
(** Two entries with key 1: the key once, with the second value; and elements compared
    by their last digit only, of which the first stays. *)
Definition by_digit (x y : Z) : comparison := Z.compare (x mod 10) (y mod 10).
Example C62_ex : let E := ex_env true in let D := de_int E I8 in
  total_order any by_digit /\ equivalence any Z.eqb /\
  parse_der (de_btree_set E by_digit D) [0x30; 12; 2; 1; 12; 2; 1; 21; 2; 1; 1; 2; 1; 2] = (Ok [21; 12]%Z, []) /\
  parse_der (de_btree_map E Z.compare D D) [0x30; 16; 0x30; 6; 2; 1; 1; 2; 1; 5; 0x30; 6; 2; 1; 1; 2; 1; 6] = (Ok [(1, 6)]%Z, []) /\
  parse_ber (de_hash_map E Z.eqb D D) ([0x31; 0x80] ++ [0x30; 6; 2; 1; 1; 2; 1; 5; 0x30; 6; 2; 1; 1; 2; 1; 6] ++ [0; 0]) = (Ok [(1, 6)]%Z, []) /\
  parse_der (de_hash_set E Z.eqb D) [0x31; 6; 2; 1; 1; 2; 1; 1] = (Ok [1]%Z, []).
Proof.
  cbv zeta. split; [|split].
  - unfold by_digit. split; [|split].
    + intros x y _ _. apply Z.compare_antisym.
    + intros x y z _ _ _. rewrite !Z.compare_lt_iff. apply Z.lt_trans.
    + intros x y z _ _ _ H. apply Z.compare_eq in H. now rewrite H.
  - split; [|split].
    + intros x _. apply Z.eqb_refl.
    + intros x y _ _. apply Z.eqb_sym.
    + intros x y z _ _ _. rewrite !Z.eqb_eq. congruence.
  - repeat split; vm_compute; reflexivity.
Qed.

(** ** C63 *)
(** Whatever is decoded, from whatever octets, is a value of the type: integers within
    range, strings of UTF-8, sets without equal elements, and so on at any depth. *)
Theorem C63_values : forall E conv C D, good_env E -> decoded E conv C D -> forall bs rest v, bytes_ok bs ->
  (parse_der D bs = (Ok v, rest) -> wf C v) /\
  (parse_ber D bs = (Ok v, rest) -> nlen bs < usize_limit -> wf C v).
Proof.
  intros E conv C D HE H bs rest v Hok. destruct (decoded_fit E conv C D HE H) as [S _]. split.
  - intros P. destruct (parse_der_item D bs v rest Hok P) as (b & -> & Hb & _ & I). now apply (der_item_wf C D b).
  - intros P L. destruct (parse_ber_item D bs v rest Hok P) as (b & -> & Hb & _ & I). apply (ber_item_wf C D b); auto.
    rewrite nlen_app in L. lia.
Qed.
Print Assumptions C63_values.
(** Without conversions, its DER is no longer than what was decoded, if that was DER,
    and at most five times as long if it was BER. *)
Theorem C63_sizes : forall E C D, good_env E -> decoded E false C D -> forall bs rest v, bytes_ok bs ->
  (parse_der D bs = (Ok v, rest) -> nlen (der_of C v) + nlen rest <= nlen bs) /\
  (parse_ber D bs = (Ok v, rest) -> 5 * nlen bs < usize_limit -> nlen (der_of C v) <= 5 * (nlen bs - nlen rest)).
Proof.
  intros E C D HE H bs rest v Hok. destruct (decoded_fit E false C D HE H) as [_ [S|S]]; [discriminate|]. split.
  - intros P. destruct (parse_der_item D bs v rest Hok P) as (b & -> & Hb & _ & I). pose proof (der_item_size C D b v S Hb I).
    rewrite nlen_app. lia.
  - intros P L. destruct (parse_ber_item D bs v rest Hok P) as (b & -> & Hb & _ & I). rewrite nlen_app in *.
    pose proof (ber_item_size C D b v S Hb ltac:(lia) I). lia.
Qed.
Print Assumptions C63_sizes.
(** So decoding BER (or DER) and encoding again works, and gives DER for the value. *)
Theorem C63_transcode : forall E C S D, good_env E -> supported E C S D -> decoded E false C D -> forall bs rest v, bytes_ok bs ->
  parse_der D bs = (Ok v, rest) /\ nlen bs <= isize_max \/ parse_ber D bs = (Ok v, rest) /\ 5 * nlen bs <= isize_max ->
  exists b, to_der E S v = Ok b /\ bf_slice b = der_of C v /\
    (exists v', parse_der D (bf_slice b) = (Ok v', []) /\ same C v v') /\ (exists v', parse_ber D (bf_slice b) = (Ok v', []) /\ same C v v').
Proof.
  intros E C S D HE SP DC bs rest v Hok H. pose proof (supported_laws E C S D HE SP) as LW.
  pose proof (C63_values E false C D HE DC bs rest v Hok) as [VD VB]. pose proof (C63_sizes E C D HE DC bs rest v Hok) as [SD SB].
  assert (isize_max < usize_limit) as M by reflexivity.
  assert (wf C v /\ nlen (der_of C v) <= isize_max) as [W L].
  { destruct H as [[P L]|[P L]]; split; auto.
    - specialize (SD P). lia.
    - apply VB; [assumption | lia].
    - specialize (SB P ltac:(lia)). lia. }
  destruct (to_der_law E C S D LW v W L) as (b & Eb & Es). destruct (round_trip_der E C S D LW v W L) as (v' & W' & Sm & _ & RT & _).
  destruct (round_trip_ber E C S D LW v (der_of C v) W (der_is_ber E C S D LW v W) ltac:(lia)) as (v'' & W'' & Sm' & _ & _ & RB & _).
  specialize (RT [] ltac:(constructor)). specialize (RB [] ltac:(constructor)). rewrite app_nil_r in RT, RB.
  exists b. rewrite Es. split; [assumption|]. split; [reflexivity|]. split; [exists v' | exists v'']; auto.
Qed.
Print Assumptions C63_transcode.
(** With conversions, if the encoding of the value fits in memory. *)
Theorem C63_transcode_converted : forall E conv C S D, good_env E -> supported E C S D -> decoded E conv C D -> forall bs rest v, bytes_ok bs ->
  parse_der D bs = (Ok v, rest) \/ parse_ber D bs = (Ok v, rest) /\ nlen bs < usize_limit -> nlen (der_of C v) <= isize_max ->
  exists b, to_der E S v = Ok b /\ bf_slice b = der_of C v /\
    (exists v', parse_der D (bf_slice b) = (Ok v', []) /\ same C v v') /\ (exists v', parse_ber D (bf_slice b) = (Ok v', []) /\ same C v v').
Proof.
  intros E conv C S D HE SP DC bs rest v Hok H L. pose proof (supported_laws E C S D HE SP) as LW.
  pose proof (C63_values E conv C D HE DC bs rest v Hok) as [VD VB]. assert (isize_max < usize_limit) as M by reflexivity.
  assert (wf C v) as W by (destruct H as [P|[P L']]; auto).
  destruct (to_der_law E C S D LW v W L) as (b & Eb & Es). destruct (round_trip_der E C S D LW v W L) as (v' & W' & Sm & _ & RT & _).
  destruct (round_trip_ber E C S D LW v (der_of C v) W (der_is_ber E C S D LW v W) ltac:(lia)) as (v'' & W'' & Sm' & _ & _ & RB & _).
  specialize (RT [] ltac:(constructor)). specialize (RB [] ltac:(constructor)). rewrite app_nil_r in RT, RB.
  exists b. rewrite Es. split; [assumption|]. split; [reflexivity|]. split; [exists v' | exists v'']; auto.
Qed.
Print Assumptions C63_transcode_converted.
Lemma ex_decoded E conv : decoded E conv ex_codec (ex_de E).
Proof.
  apply dc_hash_map; [apply dc_string | apply dc_vec, dc_int|]. split; [|split].
  - intros x _. now apply bytes_eqb_eq.
  - intros x y _ _. apply Bool.eq_true_iff_eq. rewrite !bytes_eqb_eq. split; congruence.
  - intros x y z _ _ _. rewrite !bytes_eqb_eq. congruence.
Qed.
Example C63_ex : let E := ex_env true in
  decoded E false ex_codec (ex_de E) /\ supported E ex_codec (ex_ser E) (ex_de E) /\
  parse_ber (ex_de E) ([0x31; 0x80] ++ [0x30; 14; 0x0c; 1; 0x61; 0x30; 0x80; 2; 1; 1; 2; 2; 0xfe; 0xd4; 0; 0] ++ [0; 0; 7]) =
    (Ok [([0x61], [1; -300]%Z)], [7]) /\
  (let! b := to_der E (ex_ser E) [([0x61], [1; -300]%Z)] in Ok (bf_slice b)) = Ok [0x31; 14; 0x30; 12; 0x0c; 1; 0x61; 0x30; 7; 2; 1; 1; 2; 2; 0xfe; 0xd4].
Proof. cbv zeta. split; [apply ex_decoded|]. split; [apply sp_provided, ex_provided|]. split; vm_compute; reflexivity. Qed.
