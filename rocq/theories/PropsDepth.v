(** C75: the stack that decoding takes. *)
From Coq Require Import String Ascii.
From Verif Require Import Base ModelError ModelIo ModelTag ModelContents ModelBuf ModelTlv ModelSerde ModelAttr ModelDerive ModelCmp.
From Verif Require Import Spec SpecIo SpecSerde SpecAttr SpecDerive SpecRec SpecDepth.
From Verif Require Import TagProofs IdProofs TagMain ContentsProofs TlvProofs BufProofs TlvMain.
From Verif Require Import SerdeOctets SerdeSer SerdeDe SerdeMain SerdeEntry AttrProofs AttrParse DeriveProofs DeriveMain CmpProofs DecodedProofs PropsDerive RecProofs PropsRec DepthProofs.

(** ** Any recursive type *)
(** The encodings of [v], DER or BER, decode on a stack with room for more calls than [v]
    has levels below the top, and abort the program on any other. *)
Theorem C75_depth : forall T (C : codec_on T) depth FD k v, aborting FD -> deepens depth FD -> reads_deeper C depth FD ->
  (forall v v', on_wf C v -> on_same C v v' -> depth v' = depth v) -> on_wf C v ->
  (nlen (on_contents C v) < usize_limit -> bytes_ok (on_contents C v) ->
    ((depth v < k)%nat -> exists v', from_der (on_stack FD k) (on_id C v) (on_contents C v) = Ok v' /\ on_wf C v' /\ on_same C v v') /\
    ((k <= depth v)%nat -> from_der (on_stack FD k) (on_id C v) (on_contents C v) = Panic)) /\
  (forall id l c, on_ber C v id l c -> nlen c < usize_limit -> bytes_ok c ->
    ((depth v < k)%nat -> exists v', from_ber (on_stack FD k) id l c = Ok v' /\ on_wf C v' /\ on_same C v v') /\
    ((k <= depth v)%nat -> from_ber (on_stack FD k) id l c = Panic)).
Proof.
  intros T C depth FD k v HA HD HR HS W. split.
  - intros L Hc. exact (der_depth C depth FD HA HD HR HS k v W L Hc).
  - intros id l c B L Hc. exact (ber_depth C depth FD HA HD HR HS k v id l c W B L Hc).
Qed.
Print Assumptions C75_depth.
(** Whatever the contents: with at least [d] octets between one call and the next, less
    than [d * k] octets are decoded with [k] nested calls as they are on a stack without
    end. *)
Theorem C75_enough : forall T d (FD : deserialize T -> deserialize T) D k id l c, spaced d FD -> knot_de FD D -> bytes_ok c -> (length c < d * k)%nat ->
  from_der (on_stack FD k) id c = from_der D id c /\ from_ber (on_stack FD k) id l c = from_ber D id l c.
Proof. intros T d FD D k id l c HP K Hc L. now apply (stack_enough d FD D HP K k id l c). Qed.
Print Assumptions C75_enough.
Theorem C75_enough_ser : forall T (depth : T -> nat) FS S k, guarded_ser depth FS -> knot_ser FS S ->
  same_ser (fun v => depth v < k)%nat (ser_on_stack FS k) S.
Proof. exact (fun T depth FS S k G K => ser_stack_enough depth FS S G K k). Qed.
Print Assumptions C75_enough_ser.

(** ** [Tree] and [Json] meet the conditions *)
Lemma below_ok {T} (C : codec_on T) depth n : codec_ok (to_codec C) -> codec_ok (to_codec (below C depth n)).
Proof. intros H v [W _]. exact (H v W). Qed.
Lemma below_ber_ok {T} (C : codec_on T) depth n : ber_ok (to_codec C) -> ber_ok (to_codec (below C depth n)).
Proof. intros [H1 H2]. split; [intros v id l c [W _]; exact (H1 v id l c W) | intros v [W _]; exact (H2 v W)]. Qed.
Lemma same_codec_reads {T} (a b : codec_on T) D : same_codec a b -> de_law (to_codec a) D -> ber_law (to_codec a) D ->
  de_law (to_codec b) D /\ ber_law (to_codec b) D.
Proof.
  intros (HW & HS & HI & HC & HB) L1 L2. split.
  - intros v W L. cbn in *. rewrite <- HI, <- HC in *. apply HW in W. destruct (L1 v W L) as (v' & E1 & W' & Sm). cbn in *.
    exists v'. split; [assumption|]. split; [now apply HW | now apply HS].
  - intros v id l c W B L. cbn in *. apply HW in W. apply HB in B. destruct (L2 v id l c W B L) as (v' & E1 & W' & Sm). cbn in *.
    exists v'. split; [assumption|]. split; [now apply HW | now apply HS].
Qed.
Lemma tree_codec_laws : codec_ok tree_codec /\ ber_ok tree_codec.
Proof. destruct (C61_tree_laws (ex_env true) _ _ (ex_good true) (tree_ok (ex_env true))) as [L1 _ _ _ L5 _ _]. auto. Qed.
Definition tree_spec n : hlist field_spec Tree :=
  (Coded (of_codec (int_codec I32)), (Coded (of_codec (seq_codec (to_codec (below tree_on tree_depth n)))), tt)).
Lemma tree_undoes n : undoes (struct_codec [0x30] Tree (tree_spec n)) tree_tuple (fun u => inl (tree_of u)) (fun _ => True) eq.
Proof.
  intros [z ts] [z' [ts' []]] _ W _ Sm. cbn in *. destruct Sm as (-> & F & _). exists (Node z' ts). split; [|auto].
  now rewrite (Forall2_same ts ts' F).
Qed.
Lemma tree_spec_ok E D fps n : fields_rel spec_ok Tree (tree_fields E ser_none D fps) (tree_spec n).
Proof.
  destruct tree_codec_laws as [CO BO]. split; [split; apply (int_laws E I32)|]. split; [|exact I].
  split; [apply (items_codec_ok [0x30] (to_codec (below tree_on tree_depth n))); [apply id_30 | now apply below_ok] | apply (items_ber_ok [0x30] (to_codec (below tree_on tree_depth n))); [apply id_30 | discriminate | now apply below_ber_ok]].
Qed.
Lemma tree_de_as E (D : deserialize tree) fps n : de_law (to_codec (below tree_on tree_depth n)) D -> ber_law (to_codec (below tree_on tree_depth n)) D ->
  fields_rel de_as Tree (tree_fields E ser_none D fps) (tree_spec n).
Proof.
  intros L1 L2. destruct tree_codec_laws as [CO BO]. split; [split; [reflexivity | split; apply (int_laws E I32)]|]. split; [|exact I]. split; [reflexivity|]. split.
  - apply (vec_de E (to_codec (below tree_on tree_depth n)) D); [now apply below_ok | assumption].
  - apply (vec_ber E (to_codec (below tree_on tree_depth n)) D); [now apply below_ber_ok | assumption].
Qed.
Theorem C75_tree : forall E fps, let FD := tree_fd E fps in
  aborting FD /\ deepens tree_depth FD /\ reads_deeper tree_on tree_depth FD /\ spaced 4 FD.
Proof.
  intros E fps FD. split; [|split; [|split]].
  - intros D D' H. apply from_cut, struct_cut. split; [repeat split; apply cut_refl|]. split; [|exact I]. do 4 (split; [reflexivity|]). now apply vec_cut.
  - intros n D G. apply from_gives. apply (gives_impl (tuple_in Tree ((fun _ => True), (Forall (fun t => tree_depth t < n)%nat, tt)))).
    { intros [z [ts []]] (_ & F & _). now apply (proj2 (tree_depth_below z ts n)). }
    apply struct_gives. split; [reflexivity|]. split; [intros ? ? ? ? ? ?; exact I|]. split; [reflexivity|]. split; [|exact I].
    exact (vec_gives E _ D G).
  - intros n D Cn Cn' L1 L2. apply (same_codec_reads _ _ _ (tree_specs_same n)).
    + apply (via_de_law (struct_codec [0x30] Tree (tree_spec n)) tree_tuple (fun _ => True) eq (fun u => inl (tree_of u)) (de_struct E {| dc_attr := no_attribute; dc_fields := tree_fields E ser_none D fps |})); [apply tree_undoes | constructor|].
      apply (struct_de_law E {| dc_attr := no_attribute; dc_fields := tree_fields E ser_none D fps |}); [apply id_30 | apply tree_spec_ok | now apply tree_de_as].
    + apply (via_ber_law (struct_codec [0x30] Tree (tree_spec n)) tree_tuple (fun _ => True) eq (fun u => inl (tree_of u)) (de_struct E {| dc_attr := no_attribute; dc_fields := tree_fields E ser_none D fps |})); [apply tree_undoes | constructor|].
      apply (struct_ber_law E {| dc_attr := no_attribute; dc_fields := tree_fields E ser_none D fps |}); [apply id_30 | apply tree_spec_ok | discriminate | now apply tree_de_as].
  - intros n D D'. apply tree_spaced_de.
Qed.
Print Assumptions C75_tree.
Lemma json_codec_laws cmp : order_ok string_codec cmp -> codec_ok (json_codec cmp) /\ ber_ok (json_codec cmp).
Proof. intros HO. destruct (C61_json_laws (ex_env true) cmp _ _ (ex_good true) HO (json_ok (ex_env true) cmp)) as [L1 _ _ _ L5 _ _]. auto. Qed.
Lemma json_undoes cmp n : undoes (enum_codec Json (json_specs cmp n)) json_choice (fun u => inl (json_of u)) (fun _ => True) eq.
Proof.
  intros v u _ W _ Sm. exists v. split; [|auto]. f_equal. destruct v as [z|js|kvs], u as [[z' []]|[[js' []]|[[kvs' []]|[]]]]; cbn in Sm; try contradiction.
  - destruct Sm as [-> _]. reflexivity.
  - destruct Sm as [F _]. now rewrite (Forall2_same js js' F).
  - destruct Sm as [F _]. cbn. f_equal. symmetry. apply Forall2_same. revert F. apply Forall2_impl. intros [k j] [k' j'] [A B]. cbn in *. congruence.
Qed.
Lemma json_variant_de E cmp fps n (D : deserialize json) : order_ok string_codec cmp ->
  de_law (to_codec (below (json_on cmp) json_depth n)) D -> ber_law (to_codec (below (json_on cmp) json_depth n)) D ->
  variants_rel variant_de Json (json_variants E cmp fps ser_none D) (json_specs cmp n).
Proof.
  intros HO L1 L2. destruct (json_codec_laws cmp HO) as [CO BO]. pose proof (below_ok (json_on cmp) json_depth n CO) as CO'. pose proof (below_ber_ok (json_on cmp) json_depth n BO) as BO'.
  destruct (string_laws E) as (S1 & S2 & S3 & S4 & _).
  split; [|split; [|split; [|exact I]]].
  - split; [split; [reflexivity|]; split; [exists 1, 1, 1; now apply (id_short 1 1 1) | split; [discriminate|]]; split; [split; apply (int_laws E I32) | exact I]|].
    split; [|exact I]. split; [reflexivity | split; apply (int_laws E I32)].
  - split; [split; [reflexivity|]; split; [exists 1, 1, 2; now apply (id_short 1 1 2) | split; [discriminate|]]; split; [|exact I]|].
    + split; [apply (items_codec_ok [0x30] (to_codec (below (json_on cmp) json_depth n))); [apply id_30 | assumption]
             | apply (items_ber_ok [0x30] (to_codec (below (json_on cmp) json_depth n))); [apply id_30 | discriminate | assumption]].
    + split; [|exact I]. split; [reflexivity|]. split; [apply (vec_de E (to_codec (below (json_on cmp) json_depth n)) D) | apply (vec_ber E (to_codec (below (json_on cmp) json_depth n)) D)]; assumption.
  - split; [split; [reflexivity|]; split; [exists 1, 1, 3; now apply (id_short 1 1 3) | split; [discriminate|]]; split; [|exact I]|].
    + split; [change (codec_ok (btree_map_codec string_codec (to_codec (below (json_on cmp) json_depth n)) cmp)) | change (ber_ok (btree_map_codec string_codec (to_codec (below (json_on cmp) json_depth n)) cmp))].
      * apply with_values_codec_ok, (items_codec_ok [0x30] (entry_codec string_codec (to_codec (below (json_on cmp) json_depth n)))); [apply id_30 | now apply entry_codec_ok].
      * apply with_values_ber_ok, (items_ber_ok [0x30] (entry_codec string_codec (to_codec (below (json_on cmp) json_depth n)))); [apply id_30 | discriminate | now apply entry_ber_ok].
    + split; [|exact I]. split; [reflexivity|]. split; [apply (btree_map_de E string_codec (to_codec (below (json_on cmp) json_depth n)) (de_string E) D) | apply (btree_map_ber E string_codec (to_codec (below (json_on cmp) json_depth n)) (de_string E) D)]; assumption.
Qed.
Theorem C75_json : forall E cmp fps, order_ok string_codec cmp -> let FD := json_fd E cmp fps in
  aborting FD /\ deepens json_depth FD /\ reads_deeper (json_on cmp) json_depth FD /\ spaced 4 FD.
Proof.
  intros E cmp fps HO FD. split; [|split; [|split]].
  - intros D D' H. apply from_cut, enum_cut. unfold json_variants. cbn [variants_cut fields_cut fst snd dc_attr dc_fields Json One Arr_ Obj_].
    unfold field_cut, plain_field, arr_names, obj_names, named. cbn [f_attr f_names n_default n_field n_paths n_de]. conj_refl.
    + apply cut_de_refl.
    + now apply vec_cut.
    + apply map_cut; [apply cut_de_refl | assumption].
  - intros n D G. apply from_gives.
    apply (gives_impl (choice_in Json (((fun _ => True), tt), ((Forall (fun t => json_depth t < n)%nat, tt), ((Forall (fun p => json_depth (snd p) < n)%nat, tt), tt))))).
    { intros [[z []]|[[js []]|[[kvs []]|[]]]] F; cbn in F; cbn [json_of json_depth].
      - lia.
      - now apply depth_below.
      - now apply (depth_below (fun p => json_depth (snd p))). }
    apply enum_gives. split; [split; [reflexivity|]; split; [intros ? ? ? ? ? ?; exact I | exact I]|].
    split; [split; [reflexivity|]; split; [exact (vec_gives E _ D G) | exact I]|].
    split; [split; [reflexivity|]; split; [exact (map_gives E cmp _ (de_string E) D G) | exact I]|]. exact I.
  - intros n D Cn Cn' L1 L2. pose proof (json_variant_de E cmp fps n D HO L1 L2) as V.
    assert (NoDup (variant_ids Json (json_specs cmp n))) as ND by (repeat constructor; cbn; intuition discriminate).
    apply (same_codec_reads _ _ _ (json_specs_same cmp n)).
    + apply (via_de_law (enum_codec Json (json_specs cmp n)) json_choice (fun _ => True) eq (fun u => inl (json_of u)) (de_enum E Json (json_variants E cmp fps ser_none D)));
        [apply json_undoes | constructor | now apply enum_de_law].
    + apply (via_ber_law (enum_codec Json (json_specs cmp n)) json_choice (fun _ => True) eq (fun u => inl (json_of u)) (de_enum E Json (json_variants E cmp fps ser_none D)));
        [apply json_undoes | constructor | now apply enum_ber_law].
  - intros n D D'. apply json_spaced_de.
Qed.
Print Assumptions C75_json.

(** ** At the entry points *)
(** The implementations are what the declarations make of themselves. *)
Theorem C75_impls : forall E S D, tree_impls E S D -> exists fps, knot_ser (tree_fs E fps) S /\ knot_de (tree_fd E fps) D.
Proof. exact tree_impls_knots. Qed.
Print Assumptions C75_impls.
(** Decoding a tree takes exactly one call per level. *)
Theorem C75_tree_exact : forall E fps k t rest, tree_wf t -> bytes_ok rest ->
  (nlen (tlv [0x30] (tree_contents t)) <= isize_max ->
   parse_der (on_stack (tree_fd E fps) k) (tlv [0x30] (tree_contents t) ++ rest) = ((if (tree_depth t <? k)%nat then Ok t else Panic), rest)) /\
  (forall bs, ber_octets tree_codec t bs -> nlen bs < usize_limit ->
   parse_ber (on_stack (tree_fd E fps) k) (bs ++ rest) = ((if (tree_depth t <? k)%nat then Ok t else Panic), rest)).
Proof.
  intros E fps k t rest W Hr. destruct (C75_tree E fps) as (HA & HD & HR & _). destruct tree_codec_laws as [CO BO]. split.
  - intros L. apply (parse_der_depth tree_on tree_depth (tree_fd E fps)); auto. reflexivity.
  - intros bs O L. apply (parse_ber_depth tree_on tree_depth (tree_fd E fps)); auto. reflexivity.
Qed.
Print Assumptions C75_tree_exact.
Theorem C75_json_exact : forall E cmp fps k j rest, order_ok string_codec cmp -> json_wf cmp j -> bytes_ok rest ->
  (nlen (tlv (json_id j) (json_contents j)) <= isize_max ->
   parse_der (on_stack (json_fd E cmp fps) k) (tlv (json_id j) (json_contents j) ++ rest) = ((if (json_depth j <? k)%nat then Ok j else Panic), rest)) /\
  (forall bs, ber_octets (json_codec cmp) j bs -> nlen bs < usize_limit ->
   parse_ber (on_stack (json_fd E cmp fps) k) (bs ++ rest) = ((if (json_depth j <? k)%nat then Ok j else Panic), rest)).
Proof.
  intros E cmp fps k j rest HO W Hr. destruct (C75_json E cmp fps HO) as (HA & HD & HR & _). destruct (json_codec_laws cmp HO) as [CO BO]. split.
  - intros L. apply (parse_der_depth (json_on cmp) json_depth (json_fd E cmp fps)); auto. reflexivity.
  - intros bs O L. apply (parse_ber_depth (json_on cmp) json_depth (json_fd E cmp fps)); auto. reflexivity.
Qed.
Print Assumptions C75_json_exact.
(** No octets need more than one call for every four of them. *)
Theorem C75_any_partial : forall E S D, tree_impls E S D -> exists fps, knot_de (tree_fd E fps) D /\
  forall k id l c, bytes_ok c -> (length c < 4 * k)%nat ->
    from_der (on_stack (tree_fd E fps) k) id c = from_der D id c /\ from_ber (on_stack (tree_fd E fps) k) id l c = from_ber D id l c.
Proof.
  intros E S D I. destruct (tree_impls_knots E S D I) as (fps & _ & KD). exists fps. split; [assumption|]. intros k id l c Hc L.
  apply (C75_enough tree 4 (tree_fd E fps) D k); auto. apply C75_tree.
Qed.
Print Assumptions C75_any_partial.
(** But no fixed number of calls is enough for all: short inputs nest deeply. *)
Lemma header_small n : n < 2 ^ 64 -> nlen (length_octets n) <= 9.
Proof.
  intros H. unfold length_octets. destruct (N.ltb_spec n 128) as [K|K]; [change (nlen [n]) with 1; lia|]. rewrite nlen_cons.
  destruct (be_digits_bounds n ltac:(lia)) as (_ & B & _).
  destruct (N.le_gt_cases (nlen (be_digits n)) 8) as [G|G]; [lia|].
  assert (256 ^ 8 <= 256 ^ (nlen (be_digits n) - 1)) by (apply N.pow_le_mono_r; lia). change (256 ^ 8) with (2 ^ 64) in *. lia.
Qed.
Lemma chain_depth n : tree_depth (chain n) = n.
Proof. induction n as [|n IH]; [reflexivity|]. cbn [chain tree_depth map fold_right]. rewrite IH. lia. Qed.
Lemma chain_wf n : tree_wf (chain n).
Proof. induction n as [|n IH]; cbn [chain]; (constructor; [split; vm_compute; discriminate | repeat constructor; assumption]). Qed.
Theorem C75_chain : forall n, 23 * (N.of_nat n + 1) <= isize_max ->
  tree_wf (chain n) /\ tree_depth (chain n) = n /\ nlen (tlv [0x30] (tree_contents (chain n))) <= 23 * (N.of_nat n + 1).
Proof.
  intros n H. split; [apply chain_wf|]. split; [apply chain_depth|]. revert H. change isize_max with (2 ^ 63 - 1).
  assert (forall c, nlen c < 2 ^ 64 -> nlen (tlv [0x30] c) <= nlen c + 10) as HT.
  { intros c L. rewrite tlv_len. pose proof (header_small (nlen c) L). change (nlen [0x30]) with 1. lia. }
  assert (2 ^ 63 < 2 ^ 64) as HP by now vm_compute.
  induction n as [|n IH]; intros H; [now vm_compute|]. specialize (IH ltac:(lia)).
  assert (tree_contents (chain (S n)) = tlv [0x02] (int_octets 0) ++ tlv [0x30] (tlv [0x30] (tree_contents (chain n)))) as -> by (cbn [chain tree_contents map concat]; now rewrite app_nil_r).
  set (x := tlv [0x30] (tree_contents (chain n))) in *.
  pose proof (HT x ltac:(lia)) as A. change (tlv [0x02] (int_octets 0)) with [0x02; 1; 0].
  assert (nlen ([0x02; 1; 0] ++ tlv [0x30] x) = 3 + nlen (tlv [0x30] x)) as B by (rewrite nlen_app; reflexivity).
  pose proof (HT ([0x02; 1; 0] ++ tlv [0x30] x) ltac:(lia)). lia.
Qed.
Print Assumptions C75_chain.
Theorem C75_refuted : forall E S D, good_env E -> tree_impls E S D -> exists fps, knot_de (tree_fd E fps) D /\
  forall k, 23 * (N.of_nat k + 1) <= isize_max -> exists bs, bytes_ok bs /\ nlen bs <= 23 * (N.of_nat k + 1) /\
    parse_der D bs = (Ok (chain k), []) /\ parse_der (on_stack (tree_fd E fps) k) bs = (Panic, []) /\
    parse_ber D bs = (Ok (chain k), []) /\ parse_ber (on_stack (tree_fd E fps) k) bs = (Panic, []).
Proof.
  intros E S D HE I. destruct (tree_impls_knots E S D I) as (fps & _ & KD). exists fps. split; [assumption|]. intros k L.
  destruct (C75_chain k L) as (W & Dp & Ln). set (bs := tlv [0x30] (tree_contents (chain k))) in *. exists bs.
  assert (nlen bs <= isize_max) as Lb by lia. assert (nlen bs < usize_limit) as Lu by now apply isize_lt.
  pose proof (C61_tree_laws E S D HE I) as LW.
  pose proof (der_of_tlv E tree_codec S D LW (chain k) W Lb) as [_ Hok]. split; [exact Hok|]. split; [exact Ln|].
  destruct (C61_tree_round_trip E S D (chain k) HE I W Lb) as (_ & _ & P & B).
  pose proof (der_is_ber E tree_codec S D LW (chain k) W) as O.
  destruct (C75_tree_exact E fps k (chain k) [] W ltac:(constructor)) as [P' B'].
  rewrite Dp, Nat.ltb_irrefl in P', B'. fold bs in P, P', Lb. rewrite app_nil_r in P'.
  pose proof (P [] ltac:(constructor)) as P0. rewrite app_nil_r in P0. specialize (B' bs O Lu). rewrite app_nil_r in B'.
  destruct (B bs [] O Lu ltac:(constructor)) as [_ B0]. rewrite app_nil_r in B0. auto.
Qed.
Print Assumptions C75_refuted.
(** Serialising a tree takes no more than one call per level. *)
Theorem C75_ser : forall E S D t k, tree_impls E S D -> (tree_depth t < k)%nat -> exists fps,
  (forall X (W : writer X) s, write_der E (ser_on_stack (tree_fs E fps) k) W t s = write_der E S W t s) /\
  to_der E (ser_on_stack (tree_fs E fps) k) t = to_der E S t /\ der_len (ser_on_stack (tree_fs E fps) k) t = der_len S t.
Proof.
  intros E S D t k I L. destruct (tree_impls_knots E S D I) as (fps & KS & _). exists fps.
  pose proof (C75_enough_ser tree tree_depth (tree_fs E fps) S k (tree_guarded_ser E fps) KS t L) as H.
  assert (same_at (ser_on_stack (tree_fs E fps) k) S t) as A by exact H. split; [|split].
  - intros X W s. now apply write_der_same.
  - now apply to_der_same.
  - now apply der_len_same.
Qed.
Print Assumptions C75_ser.
Example C75_ex : let E := ex_env true in
  tree_depth ex_tree = 3%nat /\ tree_wf ex_tree /\
  parse_der (on_stack (tree_fd E tree_paths) 4) ex_tree_der = (Ok ex_tree, []) /\
  parse_der (on_stack (tree_fd E tree_paths) 3) ex_tree_der = (Panic, []) /\
  parse_der (tree_de E) (tlv [0x30] (tree_contents (chain 9))) = (Ok (chain 9), []) /\
  parse_der (on_stack (tree_fd E tree_paths) 9) (tlv [0x30] (tree_contents (chain 9))) = (Panic, []) /\
  nlen (tlv [0x30] (tree_contents (chain 9))) = 70 /\
  (exists b, to_der E (ser_on_stack (tree_fs E tree_paths) 4) ex_tree = Ok b /\ bf_slice b = ex_tree_der) /\
  to_der E (ser_on_stack (tree_fs E tree_paths) 3) ex_tree = Panic /\
  json_depth ex_json = 2%nat /\ parse_der (on_stack (json_fd E slice_cmp json_paths) 3) ex_json_der = (Ok ex_json, []) /\
  parse_der (on_stack (json_fd E slice_cmp json_paths) 2) ex_json_der = (Panic, []).
Proof.
  cbv zeta. split; [reflexivity|]. split; [repeat constructor; cbn; lia|]. do 5 (split; [vm_compute; reflexivity|]).
  split; [eexists; split; vm_compute; reflexivity|]. repeat split; vm_compute; reflexivity.
Qed.
