(** C66, C67: which values have the same encoding; the order of SET OF. *)
From Verif Require Import Base ModelError ModelIo ModelTag ModelContents ModelBuf ModelTlv ModelSerde Spec SpecIo SpecCmp SpecSerde.
From Verif Require Import ModelAttr ModelDerive SpecAttr SpecDerive SpecOrder.
From Verif Require Import TagProofs IdProofs TagMain ContentsProofs TlvProofs BufProofs TlvMain StreamProofs StreamMain.
From Verif Require Import SerdeOctets SerdeSer SerdeDe SerdeMain SerdeEntry PropsSerde DeriveMain OrderProofs.
From Coq Require Import Sorting.Sorted Sorting.Permutation.

(** ** C66 *)
(** If the encoding of one value starts with that of another, they are equal (to what both
    decode to), and nothing is left over. *)
Theorem C66_prefix_free : forall E C S D v w b b' r s, good_env E -> supported E C S D -> wf C v -> wf C w ->
  nlen (der_of C v) <= isize_max -> nlen (der_of C w) <= isize_max -> bytes_ok r -> bytes_ok s ->
  to_der E S v = Ok b -> to_der E S w = Ok b' -> bf_slice b ++ r = bf_slice b' ++ s ->
  r = s /\ bf_slice b = bf_slice b' /\ exists u, wf C u /\ same C v u /\ same C w u.
Proof.
  intros E C S D v w b b' r s HE SP V W Lv Lw Hr Hs Ev Ew H. pose proof (supported_laws E C S D HE SP) as LW.
  destruct (to_der_law E C S D LW v V Lv) as (b1 & E1 & B1). destruct (to_der_law E C S D LW w W Lw) as (b2 & E2 & B2).
  rewrite Ev in E1. injection E1 as <-. rewrite Ew in E2. injection E2 as <-. rewrite B1, B2 in *.
  destruct (encodings_differ E C S D LW v w r s V W Lv Lw Hr Hs H) as (-> & U). split; [reflexivity|].
  split; [now apply app_inv_tail in H | exact U].
Qed.
Print Assumptions C66_prefix_free.
(** Without hash tables and derives they are one and the same value. *)
Theorem C66_injective : forall E C S D v w b b', good_env E -> unhashed E C S D -> wf C v -> wf C w ->
  nlen (der_of C v) <= isize_max -> nlen (der_of C w) <= isize_max ->
  to_der E S v = Ok b -> to_der E S w = Ok b' -> (bf_slice b = bf_slice b' <-> v = w).
Proof.
  intros E C S D v w b b' HE U V W Lv Lw Ev Ew. destruct (C26_equality E C S D U) as [P Eq]. split.
  - intros H. destruct (C66_prefix_free E C S D v w b b' [] [] HE (sp_provided E C S D P) V W Lv Lw) as (_ & _ & u & _ & S1 & S2); try assumption; try constructor.
    { now rewrite H. }
    apply Eq in S1. apply Eq in S2. congruence.
  - intros ->. rewrite Ew in Ev. now injection Ev as ->.
Qed.
Print Assumptions C66_injective.
(** So are values written one after another. *)
Theorem C66_sequences : forall E C S D vs ws, good_env E -> supported E C S D -> Forall (wf C) vs -> Forall (wf C) ws ->
  nlen (concat (map (der_of C) vs)) <= isize_max -> concat (map (der_of C) vs) = concat (map (der_of C) ws) ->
  Forall2 (fun v w => exists u, wf C u /\ same C v u /\ same C w u) vs ws.
Proof.
  intros E C S D vs ws HE SP. pose proof (supported_laws E C S D HE SP) as LW. revert ws.
  assert (forall v, wf C v -> nlen (der_of C v) <= isize_max -> der_of C v <> [] /\ bytes_ok (der_of C v)) as T.
  { intros v V L. destruct (der_of_tlv E C S D LW v V L) as [T Hok]. split; [now apply der_tlv_nonempty in T | assumption]. }
  assert (forall vs, Forall (wf C) vs -> nlen (concat (map (der_of C) vs)) <= isize_max -> bytes_ok (concat (map (der_of C) vs))) as Ts.
  { intros us. induction 1 as [|v us V _ IH]; cbn [map concat]; intros L; [constructor|]. rewrite nlen_app in L. apply bytes_ok_app.
    split; [apply T; [assumption | lia] | apply IH; lia]. }
  induction vs as [|v vs IH]; intros [|w ws] V W L H; [constructor | | |]; inversion_clear V; inversion_clear W; cbn [map concat] in *.
  - destruct (der_of C w) eqn:Ew; [|discriminate]. assert (nlen (der_of C w) <= isize_max) as Lw by (rewrite Ew; discriminate).
    now destruct (T w H0 Lw) as [[] _].
  - rewrite nlen_app in L. destruct (T v) as [Nv _]; [assumption | lia|]. destruct (der_of C v); [congruence | discriminate].
  - assert (nlen (der_of C w ++ concat (map (der_of C) ws)) <= isize_max) as L' by now rewrite <- H.
    rewrite nlen_app in L, L'. destruct (encodings_differ E C S D LW v w (concat (map (der_of C) vs)) (concat (map (der_of C) ws))) as [E1 U];
      try assumption; try lia; try (apply Ts; [assumption | lia]).
    constructor; [assumption|]. apply IH; try assumption. lia.
Qed.
Print Assumptions C66_sequences.
Example C66_ex : let E := ex_env true in let S := ser_vec E (ser_int I16) in
  (let! b := to_der E S [1; -300]%Z in let! b' := to_der E S [1; 300]%Z in Ok (bf_slice b, bf_slice b')) =
  Ok ([0x30; 7; 2; 1; 1; 2; 2; 0xfe; 0xd4], [0x30; 7; 2; 1; 1; 2; 2; 0x01; 0x2c]) /\
  unhashed E (seq_codec (int_codec I16)) S (de_vec E (de_int E I16)) /\
  wf (seq_codec (int_codec I16)) [1; -300]%Z /\ wf (seq_codec (int_codec I16)) [1; 300]%Z.
Proof.
  cbv zeta. split; [vm_compute; reflexivity|]. split; [apply uh_vec, uh_sequential, sq_int|].
  split; repeat constructor; vm_compute; discriminate.
Qed.

(** ** C67 *)
(** Equal values of types without hash tables have the same encoding, whatever the fields
    that are not encoded hold. *)
Theorem C67_equal_values : forall E C S D v w, good_env E -> supported E C S D -> unhashed_codec C -> wf C v -> wf C w -> same C v w ->
  nlen (der_of C v) <= isize_max ->
  exists b b', to_der E S v = Ok b /\ to_der E S w = Ok b' /\ bf_slice b = bf_slice b'.
Proof.
  intros E C S D v w HE SP U V W Sm L. pose proof (supported_laws E C S D HE SP) as LW.
  pose proof (uniform_der C (unhashed_uniform C U) v w V W Sm) as H.
  destruct (to_der_law E C S D LW v V L) as (b & Eb & B). destruct (to_der_law E C S D LW w W) as (b' & Eb' & B'); [now rewrite <- H|].
  exists b, b'. rewrite B, B'. auto.
Qed.
Print Assumptions C67_equal_values.
Lemma hash_items E CI P S D : let H := with_values (items_codec [0x31] CI) P (same_unordered (same CI)) in
  laws E H S D -> uniform CI -> codec_ok CI -> forall v w, wf H v -> wf H w -> same H v w -> nlen (der_of H v) <= isize_max ->
  exists b b' items items', to_der E S v = Ok b /\ to_der E S w = Ok b' /\
    bf_slice b = [0x31] ++ length_octets (nlen (concat items)) ++ concat items /\
    bf_slice b' = [0x31] ++ length_octets (nlen (concat items)) ++ concat items' /\
    Permutation items items' /\ Forall (fun i => exists id c, der_tlv id c i) items.
Proof.
  intros H LW U OK v w V W Sm L. pose proof (same_unordered_items CI U v w (proj1 V) (proj1 W) Sm) as Pm.
  pose proof (concat_permutation _ _ Pm) as Len.
  assert (der_of H v = tlv [0x31] (concat (map (der_of CI) v))) as Dv by reflexivity.
  assert (der_of H w = tlv [0x31] (concat (map (der_of CI) w))) as Dw by reflexivity.
  destruct (to_der_law E H S D LW v V L) as (b & Eb & B).
  destruct (to_der_law E H S D LW w W) as (b' & Eb' & B').
  { revert L. rewrite Dv, Dw. unfold tlv. rewrite !nlen_app, Len. auto. }
  exists b, b', (map (der_of CI) v), (map (der_of CI) w). rewrite B, B', Dv, Dw.
  do 2 (split; [assumption|]). split; [reflexivity|]. split; [now rewrite Len|]. split; [assumption|].
  destruct (der_fits H v L) as [_ F]. change (contents_of H v) with (concat (map (der_of CI) v)) in F. destruct V as [V _]. cbn in V.
  clear - V F OK. induction V as [|x v X _ IH]; cbn [map concat] in *; constructor.
  - rewrite nlen_app in F. exists (id_of CI x), (contents_of CI x). apply tlv_der; [apply (OK x X)|].
    unfold der_of in F. pose proof (tlv_contents_le (id_of CI x) (contents_of CI x)). change (2 ^ 64) with usize_limit. lia.
  - apply IH. rewrite nlen_app in F. lia.
Qed.
(** Equal hash sets and maps: the same header, then the same items in some order. *)
Theorem C67_hash_partial : forall E C S D CV SV DV, good_env E -> supported E C S D -> unhashed_codec C -> supported E CV SV DV -> unhashed_codec CV ->
  (forall eqb v w, eqb_ok C eqb -> let H := hash_set_codec C eqb in wf H v -> wf H w -> same H v w -> nlen (der_of H v) <= isize_max ->
    exists b b' items items', to_der E (ser_hash_set E S) v = Ok b /\ to_der E (ser_hash_set E S) w = Ok b' /\
      bf_slice b = [0x31] ++ length_octets (nlen (concat items)) ++ concat items /\
      bf_slice b' = [0x31] ++ length_octets (nlen (concat items)) ++ concat items' /\
      Permutation items items' /\ Forall (fun i => exists id c, der_tlv id c i) items) /\
  (forall eqb v w, eqb_ok C eqb -> ser_known C S -> let H := hash_map_codec C CV eqb in wf H v -> wf H w -> same H v w -> nlen (der_of H v) <= isize_max ->
    exists b b' items items', to_der E (ser_hash_map E S SV) v = Ok b /\ to_der E (ser_hash_map E S SV) w = Ok b' /\
      bf_slice b = [0x31] ++ length_octets (nlen (concat items)) ++ concat items /\
      bf_slice b' = [0x31] ++ length_octets (nlen (concat items)) ++ concat items' /\
      Permutation items items' /\ Forall (fun i => exists id c, der_tlv id c i) items).
Proof.
  intros E C S D CV SV DV HE SP U SPV UV. pose proof (l_codec _ _ _ _ (supported_laws E C S D HE SP)) as OK.
  pose proof (l_codec _ _ _ _ (supported_laws E CV SV DV HE SPV)) as OV. apply unhashed_uniform in U. apply unhashed_uniform in UV. split.
  - intros eqb v w EO H. apply (hash_items E C (distinct eqb) _ (de_hash_set E eqb D)); try assumption.
    now apply supported_laws, sp_hash_set.
  - intros eqb v w EO K H. apply (hash_items E (entry_codec C CV) (fun l => distinct eqb (map fst l)) _ (de_hash_map E eqb D DV)).
    + now apply supported_laws, sp_hash_map.
    + now apply uniform_entry.
    + now apply entry_codec_ok.
Qed.
Print Assumptions C67_hash_partial.

(** The octets do depend on that order, which is not a part of the value. *)
Definition bool_set : codec := hash_set_codec bool_codec eqb.
Lemma bool_set_supported E : supported E bool_set (ser_hash_set E ser_bool) (de_hash_set E eqb (de_bool E)).
Proof. apply sp_provided, pv_hash_set; [apply pv_bool|]. intros x y x' y' _ _ _ _ H H'. cbn in H, H'. now subst. Qed.
Lemma bool_set_wf a : wf bool_set [a; negb a].
Proof. split; [repeat constructor|]. destruct a; repeat constructor. Qed.
Theorem C67_equal_refuted : ~ (forall E C S D v w, good_env E -> supported E C S D -> wf C v -> wf C w -> same C v w ->
  nlen (der_of C v) <= isize_max ->
  exists b b', to_der E S v = Ok b /\ to_der E S w = Ok b' /\ bf_slice b = bf_slice b').
Proof.
  intros H. destruct (H (ex_env true) bool_set _ _ [true; false] [false; true] (ex_good true) (bool_set_supported (ex_env true)) (bool_set_wf true) (bool_set_wf false))
    as (b & b' & E1 & E2 & E3).
  - exists [false; true]. split; [apply perm_swap | repeat constructor].
  - vm_compute. discriminate.
  - vm_compute in E1, E2. injection E1 as <-. injection E2 as <-. vm_compute in E3. discriminate.
Qed.
Print Assumptions C67_equal_refuted.
(** So a SET is not the DER of a SET OF. *)
Theorem C67_order_refuted : ~ (forall E C S D eqb v b, good_env E -> supported E C S D -> eqb_ok C eqb -> let H := hash_set_codec C eqb in
  wf H v -> to_der E (ser_hash_set E S) v = Ok b -> exists c, bf_slice b = tlv [0x31] c /\ der_set_of c).
Proof.
  intros H. destruct (H (ex_env true) bool_codec ser_bool (de_bool (ex_env true)) eqb [true; false]
    {| b_mem := [0x31; 6; 1; 1; 0xff; 1; 1; 0; 0; 0; 0; 0; 0; 0; 0; 0]; b_len := 8; b_heap := false |} (ex_good true)) as (c & E1 & items & -> & T & O).
  - apply sp_provided, pv_bool.
  - intros x y x' y' _ _ _ _ A B. cbn in A, B. now subst.
  - exact (bool_set_wf true).
  - vm_compute. reflexivity.
  - assert (concat items = [1; 1; 0xff; 1; 1; 0]) as E2.
    { assert (tlv [0x31] (concat items) = tlv [0x31] [1; 1; 0xff; 1; 1; 0]) as E2 by (rewrite <- E1; reflexivity).
      pose proof (tlv_contents_le [0x31] (concat items)) as L. rewrite E2 in L. change (nlen (tlv [0x31] [1; 1; 0xff; 1; 1; 0])) with 8 in L.
      assert (is_identifier [0x31]) as I by (exists 0, 1, 17; now constructor).
      assert (8 < 2 ^ 64) as B by reflexivity.
      assert (nlen [1; 1; 0xff; 1; 1; 0] < 2 ^ 64) as B' by reflexivity.
      assert (tlv [0x31] (concat items) ++ [] = tlv [0x31] [1; 1; 0xff; 1; 1; 0] ++ []) as E3 by now rewrite E2.
      now destruct (der_tlv_prefix _ _ _ _ _ _ _ _ (tlv_der [0x31] (concat items) I ltac:(lia)) (tlv_der [0x31] _ I B') E3) as (_ & -> & _). }
    assert (items = [[1; 1; 0xff]; [1; 1; 0]]) as ->.
    { assert (is_identifier [1]) as I by (exists 0, 0, 1; now constructor).
      apply items_unique; [assumption | | assumption]. constructor; [|constructor; [|constructor]]; exists [1]; eexists; apply (tlv_der [1] [_]); easy. }
    inversion_clear O as [|? ? _ F]. inversion_clear F as [|? ? N _]. destruct N as [N|N]; [discriminate N|].
    cbn in N. apply before_cons in N as [N|[_ N]]; [lia|]. apply before_cons in N as [N|[_ N]]; [lia|]. apply before_cons in N as [N|[N _]]; lia.
Qed.
Print Assumptions C67_order_refuted.
(** It is when the table happens to be iterated in that order. *)
Theorem C67_order_partial : forall E C S D eqb v, good_env E -> supported E C S D -> eqb_ok C eqb -> let H := hash_set_codec C eqb in
  wf H v -> nlen (der_of H v) <= isize_max ->
  exists b, to_der E (ser_hash_set E S) v = Ok b /\ bf_slice b = tlv [0x31] (concat (map (der_of C) v)) /\
    (der_set_of (concat (map (der_of C) v)) <-> StronglySorted not_after (map (der_of C) v)).
Proof.
  intros E C S D eqb v HE SP EO H V L. destruct (to_der_law E H _ (de_hash_set E eqb D) (supported_laws E H _ _ HE (sp_hash_set E C S D eqb SP EO)) v V L) as (b & Eb & B).
  exists b. split; [assumption|]. split; [exact B|].
  assert (Forall (fun i => exists id c, der_tlv id c i) (map (der_of C) v)) as T.
  { apply Forall_forall. intros i I. apply in_map_iff in I as (x & <- & I). pose proof (proj1 V) as V1. cbn in V1. rewrite Forall_forall in V1.
    destruct (der_fits H v L) as [_ F]. change (contents_of H v) with (concat (map (der_of C) v)) in F.
    exists (id_of C x), (contents_of C x). apply tlv_der; [apply (l_codec _ _ _ _ (supported_laws E C S D HE SP) x (V1 x I))|].
    pose proof (tlv_contents_le (id_of C x) (contents_of C x)). change (2 ^ 64) with usize_limit.
    assert (nlen (der_of C x) <= nlen (concat (map (der_of C) v))); [|unfold der_of in *; lia].
    clear - I. induction v as [|y v IH]; [destruct I|]. cbn [map concat]. rewrite nlen_app. destruct I as [->|I]; [lia|]. specialize (IH I). lia. }
  split.
  - intros (items & Ei & F & O). now rewrite (items_unique _ _ T F Ei).
  - intros O. now exists (map (der_of C) v).
Qed.
Print Assumptions C67_order_partial.
Example C67_ex : let E := ex_env true in
  (let! b := to_der E (ser_hash_set E ser_bool) [false; true] in let! b' := to_der E (ser_hash_set E ser_bool) [true; false] in Ok (bf_slice b, bf_slice b')) =
  Ok ([0x31; 6; 1; 1; 0; 1; 1; 0xff], [0x31; 6; 1; 1; 0xff; 1; 1; 0]) /\
  StronglySorted not_after (map (der_of bool_codec) [false; true]).
Proof.
  cbv zeta. split; [vm_compute; reflexivity|]. constructor; [constructor; constructor|]. constructor; [|constructor].
  right. exact (lt_differ [1; 1] 0 0xff [] [] ltac:(lia)).
Qed.
(** Two structs that differ only in a field that is skipped: i32 and a skipped bool. *)
Definition C67_fields : hlist field_spec [Z : Type; bool : Type] := (Coded (of_codec (int_codec I32)), (Skipped false, tt)).
Example C67_skipped_ex : unhashed_codec (struct_codec [0x30] _ C67_fields) /\
  same (struct_codec [0x30] _ C67_fields) (7%Z, (true, tt)) (7%Z, (false, tt)) /\ der_of (struct_codec [0x30] _ C67_fields) (7%Z, (true, tt)) = [0x30; 3; 2; 1; 7].
Proof. split; [apply uc_struct, uf_coded; [apply uc_int | apply uf_skipped, uf_nil]|]. split; [repeat split | vm_compute; reflexivity]. Qed.
