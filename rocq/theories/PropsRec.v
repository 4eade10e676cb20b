(** C61: types that contain collections of themselves. *)
From Coq Require Import String Ascii.
From Verif Require Import Base ModelError ModelIo ModelTag ModelContents ModelBuf ModelTlv ModelSerde ModelAttr ModelDerive ModelCmp.
From Verif Require Import Spec SpecIo SpecSerde SpecAttr SpecDerive SpecRec.
From Verif Require Import TagProofs IdProofs TagMain ContentsProofs TlvProofs BufProofs TlvMain.
From Verif Require Import SerdeOctets SerdeSer SerdeDe SerdeMain SerdeEntry AttrProofs AttrParse DeriveProofs DeriveMain CmpProofs PropsDerive RecProofs.

(** ** Any recursive type *)
Theorem C61_knot : forall E T (C : codec_on T) depth FS FD S D, lawful_step E C depth FS FD -> guarded_de FD ->
  knot_ser FS S -> knot_de FD D -> laws E (to_codec C) S D.
Proof. exact (fun E T C depth FS FD S D H G => knot_laws E C depth FS FD H G S D). Qed.
Print Assumptions C61_knot.
(** The implementations exist, and deserialising is determined. *)
Theorem C61_knot_exists : forall T (depth : T -> nat) (FS : serialize T -> serialize T) (FD : deserialize T -> deserialize T), guarded_ser depth FS -> guarded_de FD ->
  exists S D, knot_ser FS S /\ knot_de FD D.
Proof. intros T depth FS FD GS GD. exists (ser_knot depth FS), (de_knot FD). split; [now apply ser_knot_ok | now apply de_knot_ok]. Qed.
Print Assumptions C61_knot_exists.
Theorem C61_knot_unique : forall T (FD : deserialize T -> deserialize T) D D' id l c, guarded_de FD -> knot_de FD D -> knot_de FD D' -> bytes_ok c ->
  from_der D id c = from_der D' id c /\ from_ber D id l c = from_ber D' id l c.
Proof. intros T FD D D' id l c G K K' Hc. apply (knot_unique FD G D D' K K' (S (length c))); [assumption | lia]. Qed.
Print Assumptions C61_knot_unique.
Theorem C61_knot_unique_ser : forall T depth (FS : serialize T -> serialize T) S S', guarded_ser depth FS -> knot_ser FS S -> knot_ser FS S' ->
  same_ser (fun _ => True) S S'.
Proof. exact (fun T depth FS S S' G => knot_ser_unique depth FS G S S'). Qed.
Print Assumptions C61_knot_unique_ser.

(** ** [struct Tree { value: i32, children: Vec<Tree> }] *)
Definition Tree : list Type := [Z : Type; list tree : Type].
Definition tree_tuple (t : tree) : tuple Tree := (node_value t, (node_children t, tt)).
Definition tree_of (v : tuple Tree) : tree := Node (fst v) (fst (snd v)).
Definition children_names E S D (ps : paths (list tree)) : names (list tree) :=
  {| n_ser := ser_vec E S; n_de := de_vec E D; n_default := fun _ => []; n_paths := ps; n_field := 2 |}.
Definition tree_decls E S D ps : hlist field_decl Tree :=
  (int_field E [] 0%Z 1, ({| fd_attrs := []; fd_names := children_names E S D ps |}, tt)).
Definition tree_fields E S D ps : hlist field Tree :=
  (plain_field (named (ser_int I32) (de_int E I32) 0%Z 1), (plain_field (children_names E S D ps), tt)).
(** [S] and [D] are what the derives make of the declaration, in which they are the
    implementations for [Tree]. *)
Definition tree_impls (E : env) (S : serialize tree) (D : deserialize tree) : Prop :=
  exists fps ps S0 D0,
    do_serialize any_path E [] (DStruct Tree (tree_decls E S D fps)) ps = Some S0 /\
    do_deserialize any_path E [] (DStruct Tree (tree_decls E S D fps)) ps = Some D0 /\
    same_ser (fun _ => True) S (ser_on tree_tuple S0) /\
    (forall n, same_de n D (do_from_deserialize {| sr_ty := tuple Tree; sr_conv := tree_of; sr_de := D0 |})).
Definition tree_fs E fps (S : serialize tree) : serialize tree :=
  ser_on tree_tuple (ser_fields E {| dc_attr := no_attribute; dc_fields := tree_fields E S de_none fps |}).
Definition tree_fd E fps (D : deserialize tree) : deserialize tree :=
  do_from_deserialize {| sr_ty := tuple Tree; sr_conv := tree_of;
    sr_de := de_struct E {| dc_attr := no_attribute; dc_fields := tree_fields E ser_none D fps |} |}.
Lemma tree_depth_below z ts n : (tree_depth (Node z ts) < S n)%nat <-> Forall (fun t => tree_depth t < n)%nat ts.
Proof.
  cbn [tree_depth]. induction ts as [|t ts IH]; cbn [map fold_right]; [split; [constructor | lia]|].
  rewrite Forall_cons_iff, <- IH. lia.
Qed.
Lemma tree_impls_knots E S D : tree_impls E S D -> exists fps, knot_ser (tree_fs E fps) S /\ knot_de (tree_fd E fps) D.
Proof.
  intros (fps & ps & S0 & D0 & HS & HD & KS & KD). exists fps.
  assert (S0 = ser_fields E {| dc_attr := no_attribute; dc_fields := tree_fields E S D fps |}) as -> by (injection HS as <-; reflexivity).
  assert (D0 = de_struct E {| dc_attr := no_attribute; dc_fields := tree_fields E S D fps |}) as -> by (injection HD as <-; reflexivity).
  split.
  - eapply same_ser_trans; [exact KS|]. intros v _. apply ser_on_same, ser_fields_same. cbn. repeat split.
  - intros n. eapply same_de_trans; [apply KD|]. apply do_from_same. apply (same_de_weaken (Datatypes.S (Datatypes.S n))); [lia|].
    apply de_struct_same. cbn. repeat split.
Qed.
Lemma tree_spaced_de E fps n D D' : same_de n D D' -> same_de (4 + n) (tree_fd E fps D) (tree_fd E fps D').
Proof.
  intros H. apply do_from_same, de_struct_same. split; [repeat split|]. split; [|exact I]. do 4 (split; [reflexivity|]).
  now apply de_vec_same.
Qed.
Lemma tree_guarded_de E fps : guarded_de (tree_fd E fps).
Proof. intros n D D' H. apply (same_de_weaken (4 + n)); [lia | now apply tree_spaced_de]. Qed.
Lemma tree_guarded_ser E fps : guarded_ser tree_depth (tree_fs E fps).
Proof.
  intros n S S' H [z ts] L. apply ser_on_same, ser_fields_same. apply tree_depth_below in L.
  cbn [fields_same_ser tree_fields fst snd tree_tuple]. split; [repeat split|]. split; [|exact I]. do 2 (split; [reflexivity|]).
  apply ser_items_same. revert L. apply Forall_impl. exact H.
Qed.
Lemma tree_specs_same n : same_codec
  (via (struct_codec [0x30] Tree (Coded (of_codec (int_codec I32)), (Coded (of_codec (seq_codec (to_codec (below tree_on tree_depth n)))), tt)))
     tree_tuple (fun _ => True) eq) (below tree_on tree_depth (S n)).
Proof.
  split; [|split; [|split; [|split]]].
  - intros [z ts]. cbn [on_wf via below tree_on]. rewrite tree_depth_below. cbn. split.
    + intros (_ & R & F & _). split; [constructor; [assumption|] |]; revert F; apply Forall_impl; tauto.
    + intros [W F]. inversion W as [? ? R F']. split; [exact I|]. split; [assumption|]. split; [|exact I].
      rewrite Forall_forall in *. auto.
  - intros v w _ _. reflexivity.
  - reflexivity.
  - intros [z ts]. cbn. now rewrite app_nil_r.
  - intros [z ts] id l c. cbn. split.
    + intros (-> & items & (zb & i1 & -> & Oz & cb & i2 & -> & Oc & ->) & K).
      destruct Oc as (id & lc & cc & (-> & its & F & KC) & ->). econstructor; eassumption.
    + intros B. inversion B as [? ? zb its lc cc ? ? Oz F KC K]; subst. split; [reflexivity|].
      eexists. split; [|exact K]. exists zb. eexists. split; [reflexivity|]. split; [assumption|].
      eexists. eexists. split; [reflexivity|]. split; [|reflexivity]. exists [0x30], lc, cc. split; [|reflexivity].
      split; [reflexivity|]. exists its. auto.
Qed.
Lemma Forall2_impl {A B} (P Q : A -> B -> Prop) l l' : (forall x y, P x y -> Q x y) -> Forall2 P l l' -> Forall2 Q l l'.
Proof. intros H. induction 1; constructor; auto. Qed.
Lemma Forall2_same {A} (l l' : list A) : Forall2 eq l l' -> l = l'.
Proof. induction 1 as [|x y l l' -> F IH]; [reflexivity | now rewrite IH]. Qed.
Lemma sequence_identified : identified no_attribute [0x30].
Proof. split; [now apply (id_short 0 1 16) | cbn; lia]. Qed.
Lemma tree_step E fps : good_env E -> lawful_step E tree_on tree_depth (tree_fs E fps) (tree_fd E fps).
Proof.
  intros HE n S D L. apply (laws_same_codec E _ _ _ _ (tree_specs_same n)). apply supported_laws; [assumption|].
  eapply sp_via with (g := fun u => inl (tree_of u)).
  - set (fs := tree_fields E S D fps).
    assert (supported E (struct_codec [0x30] Tree (Coded (of_codec (int_codec I32)), (Coded (of_codec (seq_codec (to_codec (below tree_on tree_depth n)))), tt)))
      (ser_fields E {| dc_attr := no_attribute; dc_fields := fs |}) (de_struct E {| dc_attr := no_attribute; dc_fields := fs |})) as SP.
    { eapply (sp_struct E any_path [] no_attribute [0x30] Tree (tree_decls E S D fps) fs _ (same_paths ser_none de_none));
        [reflexivity | apply no_plain | apply sequence_identified | reflexivity | | reflexivity | reflexivity].
      apply sf_coded; [flags | flags | apply (sp_provided E (int_codec I32)); constructor|].
      apply sf_coded; [flags | flags | apply (sp_vec E (to_codec (below tree_on tree_depth n))), sp_custom, L | constructor]. }
    exact SP.
  - intros [z ts] [z' [ts' []]] _ W _ Sm. cbn in *. destruct Sm as (-> & F & _). exists (Node z' ts). split; [|auto].
    now rewrite (Forall2_same ts ts' F).
  - constructor.
  - constructor.
Qed.
Lemma knots_tree_impls E fps S D : knot_ser (tree_fs E fps) S -> knot_de (tree_fd E fps) D -> tree_impls E S D.
Proof.
  intros KS KD. exists fps, (same_paths ser_none de_none). eexists. eexists. split; [reflexivity|]. split; [reflexivity|]. split.
  - eapply same_ser_trans; [exact KS|]. intros v _. apply ser_on_same, (ser_fields_same E Tree no_attribute (tree_fields E S de_none fps) (tree_fields E S D fps)). repeat split.
  - intros n. eapply same_de_trans; [apply KD|]. apply do_from_same. apply (same_de_weaken (Datatypes.S (Datatypes.S n))); [lia|].
    apply (de_struct_same E n no_attribute Tree (tree_fields E ser_none D fps) (tree_fields E S D fps)). repeat split.
Qed.
Theorem C61_tree_laws : forall E S D, good_env E -> tree_impls E S D -> laws E tree_codec S D.
Proof.
  intros E S D HE I. destruct (tree_impls_knots E S D I) as (fps & KS & KD).
  exact (C61_knot E tree tree_on tree_depth _ _ S D (tree_step E fps HE) (tree_guarded_de E fps) KS KD).
Qed.
Print Assumptions C61_tree_laws.
Definition tree_paths : paths (list tree) := same_paths ser_none de_none.
Definition tree_ser E : serialize tree := ser_knot tree_depth (tree_fs E tree_paths).
Definition tree_de E : deserialize tree := de_knot (tree_fd E tree_paths).
Lemma tree_ok E : tree_impls E (tree_ser E) (tree_de E).
Proof. apply (knots_tree_impls E tree_paths); [apply ser_knot_ok, tree_guarded_ser | apply de_knot_ok, tree_guarded_de]. Qed.
Theorem C61_tree_exists : forall E, exists S D, tree_impls E S D.
Proof. intros E. exists (tree_ser E), (tree_de E). apply tree_ok. Qed.
Print Assumptions C61_tree_exists.
Lemma tree_fd_paths E fps fps' D n : same_de n (tree_fd E fps D) (tree_fd E fps' D).
Proof.
  apply do_from_same. intros id l c Hc L. split; reflexivity.
Qed.
Theorem C61_tree_unique : forall E S D S' D' id l c, tree_impls E S D -> tree_impls E S' D' -> bytes_ok c ->
  same_ser (fun _ => True) S S' /\ from_der D id c = from_der D' id c /\ from_ber D id l c = from_ber D' id l c.
Proof.
  intros E S D S' D' id l c I I' Hc. destruct (tree_impls_knots E S D I) as (fps & KS & KD), (tree_impls_knots E S' D' I') as (fps' & KS' & KD').
  split.
  { apply (C61_knot_unique_ser tree tree_depth (tree_fs E fps) S S'); [apply tree_guarded_ser | assumption|].
    eapply same_ser_trans; [exact KS'|]. intros v _. repeat split. }
  apply (C61_knot_unique tree (tree_fd E fps) D D'); [apply tree_guarded_de | assumption | | assumption].
  intros n. eapply same_de_trans; [apply KD' | apply tree_fd_paths].
Qed.
Print Assumptions C61_tree_unique.
(** Every tree, however deep, serialises to its DER and reads back, from DER and from any
    of its BER forms. *)
Theorem C61_tree_round_trip : forall E S D t, good_env E -> tree_impls E S D -> tree_wf t -> nlen (tlv [0x30] (tree_contents t)) <= isize_max ->
  (exists b, to_der E S t = Ok b /\ bf_slice b = tlv [0x30] (tree_contents t)) /\
  serde_from_der D (tlv [0x30] (tree_contents t)) = Ok t /\
  (forall rest, bytes_ok rest -> parse_der D (tlv [0x30] (tree_contents t) ++ rest) = (Ok t, rest)) /\
  (forall bs rest, ber_octets tree_codec t bs -> nlen bs < usize_limit -> bytes_ok rest ->
     serde_from_ber D bs = Ok t /\ parse_ber D (bs ++ rest) = (Ok t, rest)).
Proof.
  intros E S D t HE I W L. pose proof (C61_tree_laws E S D HE I) as LW.
  pose proof (sp_custom E tree_codec S D LW) as SP.
  destruct (C26_derived E tree_codec S D t HE SP W L) as (b & t' & B & Sl & _ & Sm & F & P & _). cbn in Sm. subst t'.
  rewrite Sl in F, P. split; [exists b; auto|]. split; [exact F|]. split; [exact P|].
  intros bs rest O Lb Hr. destruct (C29_derived_nested E tree_codec S D t bs rest HE SP W O Lb Hr) as (t' & _ & Sm & _ & A & B'). cbn in Sm. now subst t'.
Qed.
Print Assumptions C61_tree_round_trip.
(** Nothing else is accepted as DER, and no octets make decoding panic. *)
Theorem C61_tree_canonical : forall E S D bs rest t, tree_impls E S D -> bytes_ok bs -> parse_der D bs = (Ok t, rest) ->
  tree_wf t /\ bs = tlv [0x30] (tree_contents t) ++ rest.
Proof.
  intros E S D bs rest t I Hok H. destruct (tree_impls_knots E S D I) as (fps & _ & KD).
  assert (canonical tree_codec D) as CC.
  { apply (knot_canonical tree_on tree_depth (tree_fd E fps)); [apply tree_guarded_de | | assumption].
    intros n D0 H0. apply (same_codec_canonical _ _ _ (tree_specs_same n)).
    intros id c v Hc L F. apply rbind_inv in F as ([z [ts []]] & F & Ev). injection Ev as <-.
    destruct (struct_canonical E {| dc_attr := no_attribute; dc_fields := tree_fields E ser_none D0 fps |}
      (Coded (of_codec (int_codec I32)), (Coded (of_codec (seq_codec (to_codec (below tree_on tree_depth n)))), tt))) with (id := id) (c := c) (v := (z, (ts, tt))) as (W & I1 & C1); auto.
    - split; [split; [reflexivity | apply (int_laws E I32)]|]. split; [|exact Logic.I]. split; [reflexivity|]. exact (vec_canonical E (to_codec (below tree_on tree_depth n)) D0 H0).
    - split; [split; [exact Logic.I | exact W] | auto]. }
  destruct (canonical_der tree_codec D bs rest t CC Hok H) as (W & -> & _). auto.
Qed.
Print Assumptions C61_tree_canonical.
Theorem C61_tree_total : forall E S D, good_env E -> tree_impls E S D ->
  (forall bs, bytes_ok bs -> answers (fst (parse_der D bs)) /\ (e_debug E = false \/ quiet bs -> answers (fst (parse_ber D bs)))).
Proof.
  intros E S D HE I bs Hok. pose proof (C61_tree_laws E S D HE I) as LW. pose proof (sp_custom E tree_codec S D LW) as SP.
  destruct (C43_derived E tree_codec S D HE SP) as (_ & _ & A). destruct (C43_derived_quiet E tree_codec S D HE SP) as (_ & Q).
  destruct (A bs Hok) as [A1 A2]. split; [exact A1|]. intros [R|R]; auto.
Qed.
Print Assumptions C61_tree_total.
Definition ex_tree : tree := Node 1 [Node 2 []; Node (-300) [Node 7 [Node 8 []]]].
Definition ex_tree_der : list N :=
  [0x30; 34; 2; 1; 1; 0x30; 29; 0x30; 5; 2; 1; 2; 0x30; 0; 0x30; 20; 2; 2; 0xfe; 0xd4; 0x30; 14;
   0x30; 12; 2; 1; 7; 0x30; 7; 0x30; 5; 2; 1; 8; 0x30; 0].
Example C61_tree_ex : let E := ex_env true in tree_impls E (tree_ser E) (tree_de E) /\ tree_wf ex_tree /\
  tlv [0x30] (tree_contents ex_tree) = ex_tree_der /\
  (exists b, to_der E (tree_ser E) ex_tree = Ok b /\ bf_slice b = ex_tree_der) /\
  parse_der (tree_de E) (ex_tree_der ++ [9]) = (Ok ex_tree, [9]) /\
  parse_ber (tree_de E) [0x30; 0x80; 2; 1; 1; 0x30; 0x80; 0x30; 5; 2; 1; 2; 0x30; 0; 0; 0; 0; 0; 9] = (Ok (Node 1 [Node 2 []]), [9]).
Proof.
  cbv zeta. split; [apply tree_ok|]. split; [repeat constructor; cbn; lia|]. split; [vm_compute; reflexivity|].
  split; [eexists; split; vm_compute; reflexivity|]. split; vm_compute; reflexivity.
Qed.

(** ** [enum Json { #[bsn1_serde(tag_class = APPLICATION, tag_num = 1)] Num(i32),
                   #[bsn1_serde(tag_class = APPLICATION, tag_num = 2)] Arr(Vec<Json>),
                   #[bsn1_serde(tag_class = APPLICATION, tag_num = 3)] Obj(BTreeMap<String, Json>) }] *)
Definition Arr_ : list Type := [list json : Type].
Definition Obj_ : list Type := [list (list N * json) : Type].
Definition Json : list (list Type) := [One; Arr_; Obj_].
Definition json_choice (j : json) : choice Json :=
  match j with
  | Num z => inl (z, tt)
  | Arr js => inr (inl (js, tt))
  | Obj kvs => inr (inr (inl (kvs, tt)))
  end.
Definition json_of (v : choice Json) : json :=
  match v with
  | inl (z, _) => Num z
  | inr (inl (js, _)) => Arr js
  | inr (inr (inl (kvs, _))) => Obj kvs
  | inr (inr (inr e)) => match e with end
  end.
Section JsonDecls.
Context (E : env) (cmp : list N -> list N -> comparison) (fps : paths (list json) * paths (list (list N * json))).
Definition arr_names S D : names (list json) :=
  {| n_ser := ser_vec E S; n_de := de_vec E D; n_default := fun _ => []; n_paths := fst fps; n_field := 0 |}.
Definition obj_names S D : names (list (list N * json)) :=
  {| n_ser := ser_btree_map E ser_string S; n_de := de_btree_map E cmp (de_string E) D; n_default := fun _ => []; n_paths := snd fps; n_field := 0 |}.
Definition json_decls S D : vlist variant_decl Json :=
  ({| vd_attrs := tagged "1"; vd_fields := (int_field E [] 0%Z 0, tt) : hlist field_decl One |},
   ({| vd_attrs := tagged "2"; vd_fields := ({| fd_attrs := []; fd_names := arr_names S D |}, tt) : hlist field_decl Arr_ |},
    ({| vd_attrs := tagged "3"; vd_fields := ({| fd_attrs := []; fd_names := obj_names S D |}, tt) : hlist field_decl Obj_ |}, tt))).
Definition json_variants S D : vlist data_container Json :=
  ({| dc_attr := tagged_attr 1; dc_fields := (plain_field (named (ser_int I32) (de_int E I32) 0%Z 0), tt) : hlist field One |},
   ({| dc_attr := tagged_attr 2; dc_fields := (plain_field (arr_names S D), tt) : hlist field Arr_ |},
    ({| dc_attr := tagged_attr 3; dc_fields := (plain_field (obj_names S D), tt) : hlist field Obj_ |}, tt))).
Definition json_fs (S : serialize json) : serialize json := ser_on json_choice (ser_variants E Json (json_variants S de_none)).
Definition json_fd (D : deserialize json) : deserialize json :=
  do_from_deserialize {| sr_ty := choice Json; sr_conv := json_of; sr_de := de_enum E Json (json_variants ser_none D) |}.
Definition json_specs n : vlist variant_spec Json :=
  (([0x61], (Coded (of_codec (int_codec I32)), tt)),
   (([0x62], (Coded (of_codec (seq_codec (to_codec (below (json_on cmp) json_depth n)))), tt)),
    (([0x63], (Coded (of_codec (btree_map_codec string_codec (to_codec (below (json_on cmp) json_depth n)) cmp)), tt)), tt))).
Lemma json_spaced_de n D D' : same_de n D D' -> same_de (4 + n) (json_fd D) (json_fd D').
Proof.
  intros H. apply do_from_same, de_enum_same. unfold json_variants.
  cbn [variants_same_de fields_same_de fst snd dc_attr dc_fields Json One Arr_ Obj_]. unfold field_same, plain_field, arr_names, obj_names, named.
  cbn [f_attr f_names n_default n_field n_paths n_de]. repeat match goal with |- _ /\ _ => split | |- _ = _ => reflexivity | |- True => exact I end.
  - apply same_de_refl.
  - now apply de_vec_same.
  - apply de_btree_map_same; [apply same_de_refl | assumption].
Qed.
Lemma json_guarded_de : guarded_de json_fd.
Proof. intros n D D' H. apply (same_de_weaken (4 + n)); [lia | now apply json_spaced_de]. Qed.
End JsonDecls.
Definition json_impls (E : env) cmp (S : serialize json) (D : deserialize json) : Prop :=
  exists fps ps S0 D0,
    do_serialize any_path E [] (DEnum Json (json_decls E cmp fps S D)) ps = Some S0 /\
    do_deserialize any_path E [] (DEnum Json (json_decls E cmp fps S D)) ps = Some D0 /\
    same_ser (fun _ => True) S (ser_on json_choice S0) /\
    (forall n, same_de n D (do_from_deserialize {| sr_ty := choice Json; sr_conv := json_of; sr_de := D0 |})).
Lemma depth_below {A} (f : A -> nat) l n : (fold_right Nat.max O (map (fun x => S (f x)) l) < S n)%nat <-> Forall (fun x => f x < n)%nat l.
Proof.
  induction l as [|t l IH]; cbn [map fold_right]; [split; [constructor | lia]|]. rewrite Forall_cons_iff, <- IH. lia.
Qed.
Ltac conj_refl := repeat match goal with |- _ /\ _ => split | |- _ = _ => reflexivity | |- True => exact I end.
Ltac json_ser_fields j :=
  destruct j as [z|js|kvs]; cbn [variants_same_ser fields_same_ser json_choice fst snd dc_attr dc_fields Json One Arr_ Obj_];
  unfold plain_field, arr_names, obj_names, named; cbn [f_attr f_names n_paths n_ser]; conj_refl.
Ltac json_de_fields := cbn [variants_same_de fields_same_de fst snd dc_attr dc_fields Json One Arr_ Obj_]; unfold field_same, plain_field, arr_names, obj_names, named;
  cbn [f_attr f_names n_default n_field n_paths n_de]; conj_refl.
Lemma json_guarded_ser E cmp fps : guarded_ser json_depth (json_fs E cmp fps).
Proof.
  intros n S S' H j L. apply ser_on_same, ser_variants_same. unfold json_variants. json_ser_fields j.
  - apply same_at_refl.
  - cbn [json_depth] in L. apply depth_below in L. apply ser_items_same. revert L. apply Forall_impl. exact H.
  - cbn [json_depth] in L. apply (depth_below (fun p => json_depth (snd p))) in L. apply ser_btree_map_same. revert L. apply Forall_impl. intros p Lp. split; [apply same_at_refl | now apply H].
Qed.
Lemma json_impls_knots E cmp S D : json_impls E cmp S D -> exists fps, knot_ser (json_fs E cmp fps) S /\ knot_de (json_fd E cmp fps) D.
Proof.
  intros (fps & ps & S0 & D0 & HS & HD & KS & KD). exists fps.
  assert (S0 = ser_variants E Json (json_variants E cmp fps S D)) as -> by (injection HS as <-; reflexivity).
  assert (D0 = de_enum E Json (json_variants E cmp fps S D)) as -> by (injection HD as <-; reflexivity).
  split.
  - eapply same_ser_trans; [exact KS|]. intros v _. apply ser_on_same, ser_variants_same. unfold json_variants. json_ser_fields v; apply same_at_refl.
  - intros n. eapply same_de_trans; [apply KD|]. apply do_from_same. apply (same_de_weaken (Datatypes.S (Datatypes.S n))); [lia|].
    apply de_enum_same. unfold json_variants. json_de_fields; apply same_de_refl.
Qed.
Lemma knots_json_impls E cmp fps S D : knot_ser (json_fs E cmp fps) S -> knot_de (json_fd E cmp fps) D -> json_impls E cmp S D.
Proof.
  intros KS KD. exists fps, (same_paths ser_none de_none). eexists. eexists. split; [reflexivity|]. split; [reflexivity|]. split.
  - eapply same_ser_trans; [exact KS|]. intros v _. apply ser_on_same, (ser_variants_same E Json (json_variants E cmp fps S de_none) (json_variants E cmp fps S D)). unfold json_variants.
    json_ser_fields v; apply same_at_refl.
  - intros n. eapply same_de_trans; [apply KD|]. apply do_from_same. apply (same_de_weaken (Datatypes.S (Datatypes.S n))); [lia|].
    apply (de_enum_same E n Json (json_variants E cmp fps ser_none D) (json_variants E cmp fps S D)). unfold json_variants. json_de_fields; apply same_de_refl.
Qed.
Lemma json_specs_same cmp n : same_codec (via (enum_codec Json (json_specs cmp n)) json_choice (fun _ => True) eq) (below (json_on cmp) json_depth (S n)).
Proof.
  split; [|split; [|split; [|split]]].
  - intros [z|js|kvs]; cbn [on_wf via below json_on json_depth].
    + cbn. split; [intros (_ & R & _); split; [now constructor | lia] | intros [W _]; inversion W; auto].
    + rewrite depth_below. cbn. split.
      * intros (_ & F & _). split; [constructor|]; revert F; apply Forall_impl; tauto.
      * intros [W F]. inversion W as [|? F'|]. split; [exact I|]. split; [|exact I]. rewrite Forall_forall in *. auto.
    + rewrite (depth_below (fun p => json_depth (snd p))). cbn. split.
      * intros (_ & [F O] & _). split; [constructor; [|assumption]|]; revert F; apply Forall_impl; tauto.
      * intros [W F]. inversion W as [| |? F' O]. split; [exact I|]. split; [|exact I]. split; [|assumption]. rewrite Forall_forall in *.
        intros p Hp. destruct (F' p Hp). auto.
  - intros v w _ _. reflexivity.
  - intros [z|js|kvs]; reflexivity.
  - intros [z|js|kvs]; [cbn; now rewrite app_nil_r | cbn; now rewrite app_nil_r|].
    change (concat [tlv [0x30] (concat (map (der_of (entry_codec string_codec (to_codec (below (json_on cmp) json_depth n)))) kvs))] =
      tlv [0x30] (concat (map (fun p => match p with (k, j) => tlv [0x30] (tlv [0x0c] k ++ tlv (json_id j) (json_contents j)) end) kvs))).
    cbn [concat]. rewrite app_nil_r. do 2 f_equal. apply map_ext. intros [k j]. reflexivity.
  - intros [z|js|kvs] id l c; cbn.
    + split.
      * intros (-> & items & (zb & i1 & -> & Oz & ->) & K). now apply (jb_num z zb).
      * intros B. inversion B; subst. split; [reflexivity|]. eexists. split; [|eassumption]. eexists. eexists. split; [reflexivity|]. split; [assumption | reflexivity].
    + split.
      * intros (-> & items & (zb & i1 & -> & (id0 & lc & cc & (-> & its & F & KC) & ->) & ->) & K). now apply (jb_arr js its lc cc).
      * intros B. inversion B as [|? its li ci ? ? F KC K|]; subst. split; [reflexivity|]. eexists. split; [|eassumption]. eexists. eexists. split; [reflexivity|]. split; [|reflexivity].
        exists [0x30], li, ci. split; [|reflexivity]. split; [reflexivity|]. exists its. auto.
    + split.
      * intros (-> & items & (zb & i1 & -> & (id0 & lc & cc & (-> & its & F & KC) & ->) & ->) & K). apply (jb_obj kvs its lc cc); [|assumption|assumption].
        revert F. apply Forall2_impl. intros [k j] b (id0 & l0 & c0 & (-> & kb & vb & Ok_ & Ov & -> & ->) & ->). exists kb, vb. auto.
      * intros B. inversion B as [| |? its li ci ? ? F KC K]; subst. split; [reflexivity|]. eexists. split; [|eassumption]. eexists. eexists. split; [reflexivity|]. split; [|reflexivity].
        exists [0x30], li, ci. split; [|reflexivity]. split; [reflexivity|]. exists its. split; [|assumption].
        revert F. apply Forall2_impl. intros [k j] b (kb & jb & Ok_ & Ov & ->). exists [0x30]. eexists. eexists. split; [|reflexivity]. split; [reflexivity|]. exists kb, jb. auto.
Qed.
Lemma json_step E cmp fps : good_env E -> order_ok string_codec cmp -> lawful_step E (json_on cmp) json_depth (json_fs E cmp fps) (json_fd E cmp fps).
Proof.
  intros HE HO n S D L. apply (laws_same_codec E _ _ _ _ (json_specs_same cmp n)).
  set (vs := json_variants E cmp fps S D).
  apply (laws_same_ser E _ (ser_on json_choice (ser_variants E Json vs))).
  { intros v _. apply ser_on_same, ser_variants_same. unfold vs, json_variants. json_ser_fields v; apply same_at_refl. }
  apply (laws_same_de E _ _ (do_from_deserialize {| sr_ty := choice Json; sr_conv := json_of; sr_de := de_enum E Json vs |})).
  { intros m. apply do_from_same. apply (same_de_weaken (Datatypes.S (Datatypes.S m))); [lia|]. apply de_enum_same. unfold vs, json_variants. json_de_fields; apply same_de_refl. }
  apply supported_laws; [assumption|].
  apply (sp_via E (enum_codec Json (json_specs cmp n)) (ser_variants E Json vs) (de_enum E Json vs) json json_choice (fun u => inl (json_of u))).
  - assert (supported E (enum_codec Json (json_specs cmp n)) (ser_variants E Json (json_variants E cmp fps S D)) (de_enum E Json (json_variants E cmp fps S D))) as SP.
    { eapply (sp_enum E any_path [] no_attribute Json (json_decls E cmp fps S D) (json_variants E cmp fps S D) _ (same_paths ser_none de_none));
        [reflexivity | apply no_plain | reflexivity | | | reflexivity | reflexivity].
      - apply sv_cons; [now apply (tagged_identified 1) | |].
        { apply sf_coded; [flags | flags | apply (sp_provided E (int_codec I32)); constructor | constructor]. }
        apply (sv_cons E Arr_ [Obj_]); [now apply (tagged_identified 2) | |].
        { apply sf_coded; [flags | flags | apply (sp_vec E (to_codec (below (json_on cmp) json_depth n))), sp_custom, L | constructor]. }
        apply (sv_cons E Obj_ []); [now apply (tagged_identified 3) | | constructor].
        apply sf_coded; [flags | flags | | constructor].
        apply (sp_btree_map E string_codec ser_string (de_string E) (to_codec (below (json_on cmp) json_depth n))); [apply sp_provided; constructor | now apply sp_custom | assumption].
      - repeat constructor; cbn; intuition discriminate. }
    exact SP.
  - intros v u _ W _ Sm. exists v. split; [|auto]. f_equal. destruct v as [z|js|kvs], u as [[z' []]|[[js' []]|[[kvs' []]|[]]]]; cbn in Sm; try contradiction.
    + destruct Sm as [-> _]. reflexivity.
    + destruct Sm as [F _]. now rewrite (Forall2_same js js' F).
    + destruct Sm as [F _]. cbn. f_equal. symmetry. apply Forall2_same. revert F. apply Forall2_impl. intros [k j] [k' j'] [A B]. cbn in *. congruence.
  - constructor.
  - constructor.
Qed.
Theorem C61_json_laws : forall E cmp S D, good_env E -> order_ok string_codec cmp -> json_impls E cmp S D -> laws E (json_codec cmp) S D.
Proof.
  intros E cmp S D HE HO I. destruct (json_impls_knots E cmp S D I) as (fps & KS & KD).
  exact (C61_knot E json (json_on cmp) json_depth _ _ S D (json_step E cmp fps HE HO) (json_guarded_de E cmp fps) KS KD).
Qed.
Print Assumptions C61_json_laws.
Definition json_paths : paths (list json) * paths (list (list N * json)) := (same_paths ser_none de_none, same_paths ser_none de_none).
Definition json_ser E cmp : serialize json := ser_knot json_depth (json_fs E cmp json_paths).
Definition json_de E cmp : deserialize json := de_knot (json_fd E cmp json_paths).
Lemma json_ok E cmp : json_impls E cmp (json_ser E cmp) (json_de E cmp).
Proof.
  exact (knots_json_impls E cmp json_paths _ _ (ser_knot_ok json_depth (json_fs E cmp json_paths) (json_guarded_ser E cmp json_paths))
    (de_knot_ok (json_fd E cmp json_paths) (json_guarded_de E cmp json_paths))).
Qed.
Theorem C61_json_exists : forall E cmp, exists S D, json_impls E cmp S D.
Proof. intros E cmp. exists (json_ser E cmp), (json_de E cmp). apply json_ok. Qed.
Print Assumptions C61_json_exists.
Theorem C61_json_round_trip : forall E cmp S D j, good_env E -> order_ok string_codec cmp -> json_impls E cmp S D -> json_wf cmp j ->
  nlen (tlv (json_id j) (json_contents j)) <= isize_max ->
  (exists b, to_der E S j = Ok b /\ bf_slice b = tlv (json_id j) (json_contents j)) /\
  serde_from_der D (tlv (json_id j) (json_contents j)) = Ok j /\
  (forall rest, bytes_ok rest -> parse_der D (tlv (json_id j) (json_contents j) ++ rest) = (Ok j, rest)) /\
  (forall bs rest, ber_octets (json_codec cmp) j bs -> nlen bs < usize_limit -> bytes_ok rest ->
     serde_from_ber D bs = Ok j /\ parse_ber D (bs ++ rest) = (Ok j, rest)).
Proof.
  intros E cmp S D j HE HO I W L. pose proof (C61_json_laws E cmp S D HE HO I) as LW.
  pose proof (sp_custom E (json_codec cmp) S D LW) as SP.
  destruct (C26_derived E (json_codec cmp) S D j HE SP W L) as (b & j' & B & Sl & _ & Sm & F & P & _). cbn in Sm. subst j'.
  rewrite Sl in F, P. split; [exists b; auto|]. split; [exact F|]. split; [exact P|].
  intros bs rest O Lb Hr. destruct (C29_derived_nested E (json_codec cmp) S D j bs rest HE SP W O Lb Hr) as (j' & _ & Sm & _ & A & B'). cbn in Sm. now subst j'.
Qed.
Print Assumptions C61_json_round_trip.
Theorem C61_json_total : forall E cmp S D bs, good_env E -> order_ok string_codec cmp -> json_impls E cmp S D -> bytes_ok bs ->
  answers (fst (parse_der D bs)) /\ (e_debug E = false \/ quiet bs -> answers (fst (parse_ber D bs))).
Proof.
  intros E cmp S D bs HE HO I Hok. pose proof (sp_custom E (json_codec cmp) S D (C61_json_laws E cmp S D HE HO I)) as SP.
  destruct (C43_derived E (json_codec cmp) S D HE SP) as (_ & _ & A). destruct (C43_derived_quiet E (json_codec cmp) S D HE SP) as (_ & Q).
  destruct (A bs Hok) as [A1 A2]. split; [exact A1|]. intros [R|R]; auto.
Qed.
Print Assumptions C61_json_total.
(** The order of [str], that of the octets. *)
Lemma str_order : order_ok string_codec slice_cmp.
Proof. split; [intros x y _ _; apply slice_cmp_opp|]. intros x y x' y' _ _ _ _ -> ->. reflexivity. Qed.
Definition ex_json : json := Obj [([0x61], Arr [Num 1; Arr []; Num (-300)]); ([0x62; 0x63], Obj [([0x78], Num 7)])].
Definition ex_json_der : list N :=
  [0x63; 46; 0x30; 44; 0x30; 22; 0x0c; 1; 0x61; 0x62; 17; 0x30; 15; 0x61; 3; 2; 1; 1; 0x62; 2; 0x30; 0; 0x61; 4; 2; 2; 0xfe; 0xd4;
   0x30; 18; 0x0c; 2; 0x62; 0x63; 0x63; 12; 0x30; 10; 0x30; 8; 0x0c; 1; 0x78; 0x61; 3; 2; 1; 7].
Lemma ex_json_wf : json_wf slice_cmp ex_json.
Proof.
  assert (forall s, Forall (fun b => b < 128) s -> is_utf8 s) as A.
  { intros s H. exists s. split; [revert H; apply Forall_impl; intros b L; left; lia|].
    induction H as [|b s L H IH]; [reflexivity|]. cbn [map concat]. rewrite <- IH. unfold utf8_encode.
    destruct (N.ltb_spec b 0x80); [reflexivity | lia]. }
  constructor; [|repeat constructor]. apply Forall_cons; [split|apply Forall_cons; [split|constructor]]; cbn [fst snd].
  - apply A. repeat constructor.
  - repeat constructor; cbn; lia.
  - apply A. repeat constructor.
  - constructor; [|repeat constructor]. constructor; [|constructor]. split; cbn [fst snd].
    + apply A. repeat constructor.
    + repeat constructor; cbn; lia.
Qed.
Example C61_json_ex : let E := ex_env true in let S := json_ser E slice_cmp in let D := json_de E slice_cmp in
  json_impls E slice_cmp S D /\ order_ok string_codec slice_cmp /\ json_wf slice_cmp ex_json /\
  tlv (json_id ex_json) (json_contents ex_json) = ex_json_der /\
  (exists b, to_der E S ex_json = Ok b /\ bf_slice b = ex_json_der) /\ parse_der D (ex_json_der ++ [9]) = (Ok ex_json, [9]) /\
  parse_ber D [0x62; 0x80; 0x30; 0x80; 0x61; 3; 2; 1; 1; 0; 0; 0; 0; 9] = (Ok (Arr [Num 1]), [9]) /\
  fst (parse_der D [0x62; 2; 0x30; 1]) = Err (Error_context (field_ctx 2 0) UnterminatedBytes).
Proof.
  cbv zeta. split; [apply json_ok|]. split; [apply str_order|]. split; [apply ex_json_wf|]. split; [vm_compute; reflexivity|].
  split; [eexists; split; vm_compute; reflexivity|]. repeat split; vm_compute; reflexivity.
Qed.
