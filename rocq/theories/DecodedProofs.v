(** Whatever is decoded is a value, and not much larger than the octets. *)
From Verif Require Import Base ModelError ModelIo ModelTag ModelContents ModelBuf ModelTlv ModelSerde Spec SpecIo SpecSerde.
From Verif Require Import ModelAttr ModelDerive SpecAttr SpecDerive SpecColl.
From Verif Require Import TagProofs IdProofs TagMain ContentsProofs TlvProofs BufProofs TlvMain StreamProofs StreamMain.
From Verif Require Import SerdeOctets SerdeSer SerdeDe SerdeMain SerdeEntry AttrProofs AttrParse DeriveProofs DeriveMain CollProofs.
From Coq Require Import Permutation Sorted.

(** ** Sizes of lengths *)
Definition llen (n : N) : N := nlen (length_octets n).
Lemma be_digits_bounds n : n <> 0 -> 1 <= nlen (be_digits n) /\ 256 ^ (nlen (be_digits n) - 1) <= n < 256 ^ nlen (be_digits n).
Proof.
  intros N0. destruct (be_digits_spec n) as (Hok & V & L). destruct (L N0) as (d & ds & E & D0).
  rewrite E in *. rewrite nlen_cons in *. split; [lia|]. replace (1 + nlen ds - 1) with (nlen ds) by lia. rewrite <- V. split.
  - rewrite be_value_cons. nia.
  - pose proof (be_value_bound _ Hok) as B. now rewrite nlen_cons in B.
Qed.
Lemma be_digits_mono n m : n <= m -> n <> 0 -> nlen (be_digits n) <= nlen (be_digits m).
Proof.
  intros L N0. destruct (be_digits_bounds n N0) as (A1 & A2 & _). destruct (be_digits_bounds m ltac:(lia)) as (_ & _ & B3).
  destruct (N.le_gt_cases (nlen (be_digits n)) (nlen (be_digits m))) as [H|H]; [assumption|].
  assert (256 ^ nlen (be_digits m) <= 256 ^ (nlen (be_digits n) - 1)) by (apply N.pow_le_mono_r; lia). lia.
Qed.
Lemma be_digits_double n : n <> 0 -> nlen (be_digits (2 * n)) <= 1 + nlen (be_digits n).
Proof.
  intros N0. destruct (be_digits_bounds n N0) as (A1 & _ & A3). destruct (be_digits_bounds (2 * n) ltac:(lia)) as (B1 & B2 & _).
  destruct (N.le_gt_cases (nlen (be_digits (2 * n))) (1 + nlen (be_digits n))) as [H|H]; [assumption|].
  assert (256 ^ (1 + nlen (be_digits n)) <= 256 ^ (nlen (be_digits (2 * n)) - 1)) as K by (apply N.pow_le_mono_r; lia).
  rewrite N.pow_add_r in K. lia.
Qed.
Lemma llen_eq n : llen n = if n <? 128 then 1 else 1 + nlen (be_digits n).
Proof. unfold llen, length_octets. destruct (n <? 128); now rewrite nlen_cons. Qed.
Lemma llen_pos n : 1 <= llen n.
Proof. rewrite llen_eq. destruct (n <? 128); lia. Qed.
Lemma llen_mono n m : n <= m -> llen n <= llen m.
Proof.
  intros L. rewrite !llen_eq. destruct (N.ltb_spec n 128), (N.ltb_spec m 128); try lia.
  pose proof (be_digits_mono n m L ltac:(lia)). lia.
Qed.
Lemma llen_double n : llen (2 * n) <= 1 + llen n.
Proof.
  rewrite !llen_eq. destruct (N.ltb_spec (2 * n) 128) as [?|G]; [destruct (n <? 128); lia|].
  destruct (N.ltb_spec n 128) as [L|G'].
  - destruct (be_digits_bounds (2 * n) ltac:(lia)) as (B1 & B2 & _).
    destruct (N.le_gt_cases (nlen (be_digits (2 * n))) 1) as [H|H]; [lia|].
    assert (256 ^ 1 <= 256 ^ (nlen (be_digits (2 * n)) - 1)) as K by (apply N.pow_le_mono_r; lia). rewrite N.pow_1_r in K. lia.
  - pose proof (be_digits_double n ltac:(lia)). lia.
Qed.
Lemma llen_add a b : llen (a + b) <= llen a + llen b.
Proof.
  pose proof (llen_pos a). pose proof (llen_pos b). destruct (N.le_gt_cases a b) as [L|L].
  - pose proof (llen_mono (a + b) (2 * b) ltac:(lia)). pose proof (llen_double b). lia.
  - pose proof (llen_mono (a + b) (2 * a) ltac:(lia)). pose proof (llen_double a). lia.
Qed.
Lemma llen_small n : n < usize_limit -> llen n <= 9.
Proof. intros H. now apply length_octets_small. Qed.
Lemma tlv_size id c : nlen (tlv id c) = nlen id + llen (nlen c) + nlen c.
Proof. apply tlv_len. Qed.
Lemma tlv_le id c c' : nlen c' <= nlen c -> nlen (tlv id c') <= nlen (tlv id c).
Proof. intros L. rewrite !tlv_size. pose proof (llen_mono _ _ L). lia. Qed.
Lemma tlv_le_5 id id' l c c' : nlen id' <= nlen id -> 1 <= nlen id -> nlen c' <= 5 * nlen c -> 5 * nlen c < usize_limit ->
  nlen (tlv id' c') <= 5 * nlen (id ++ length_of l ++ c).
Proof.
  intros L1 L2 L3 L4. rewrite tlv_size, !nlen_app. pose proof (llen_small (nlen c') ltac:(lia)).
  assert (1 <= nlen (length_of l)) by (destruct l; [cbn [length_of]; rewrite nlen_cons; lia | apply llen_pos]). lia.
Qed.

(** ** Sums of sizes *)
Definition total {X} (w : X -> N) (l : list X) : N := fold_right (fun x a => w x + a) 0 l.
Lemma total_cons {X} (w : X -> N) x l : total w (x :: l) = w x + total w l.
Proof. reflexivity. Qed.
Lemma total_app {X} (w : X -> N) a b : total w (a ++ b) = total w a + total w b.
Proof. induction a as [|x a IH]; cbn [app]; [reflexivity|]. rewrite !total_cons, IH. lia. Qed.
Lemma total_perm {X} (w : X -> N) a b : Permutation a b -> total w a = total w b.
Proof. induction 1; rewrite ?total_cons in *; lia. Qed.
Lemma nlen_concat_map {X} (f : X -> list N) l : nlen (concat (map f l)) = total (fun x => nlen (f x)) l.
Proof. induction l as [|x l IH]; cbn [map concat]; [reflexivity|]. now rewrite nlen_app, total_cons, IH. Qed.
Lemma nlen_concat_total (l : list (list N)) : nlen (concat l) = total (fun b => nlen b) l.
Proof. induction l as [|x l IH]; cbn [concat]; [reflexivity|]. now rewrite nlen_app, total_cons, IH. Qed.
Definition adding {X} (w : X -> N) (insert : X -> list X -> list X) : Prop := forall x l, total w (insert x l) <= w x + total w l.
Lemma inserted_total {X} (w : X -> N) insert xs : adding w insert -> forall ret, total w (inserted insert xs ret) <= total w xs + total w ret.
Proof.
  intros A. induction xs as [|x xs IH]; intros ret; cbn [inserted fold_left]; [cbn [total fold_right]; lia|].
  rewrite total_cons. pose proof (IH (insert x ret)). pose proof (A x ret). unfold inserted in *. lia.
Qed.
Lemma push_adding {X} (w : X -> N) : adding w push_back.
Proof. intros x l. unfold push_back. rewrite total_app, total_cons. cbn [total fold_right]. lia. Qed.
Lemma btree_adding {X} (w : X -> N) cmp : adding w (btree_insert cmp).
Proof.
  intros x l. induction l as [|y l IH]; cbn [btree_insert]; [rewrite total_cons; lia|].
  destruct (cmp x y); rewrite ?total_cons in *; lia.
Qed.
Lemma hash_adding {X} E (w : X -> N) eqb : good_env E -> adding w (hash_insert E eqb).
Proof. intros HE x l. unfold hash_insert. destruct (existsb (eqb x) l); [lia|]. rewrite (total_perm w _ _ (HE _ x l)). rewrite total_cons. lia. Qed.
Definition mixing {K V} (w : K * V -> N) : Prop := forall k v k' v', w (k', v) <= w (k, v) + w (k', v').
Lemma btree_map_adding {K V} (w : K * V -> N) cmp : mixing w -> adding w (btree_map_insert cmp).
Proof.
  intros M [k v] l. induction l as [|[k' v'] l IH]; cbn [btree_map_insert fst snd]; [rewrite total_cons; lia|].
  destruct (cmp k k'); rewrite ?total_cons in *; [pose proof (M k v k' v') | |]; lia.
Qed.
Lemma replace_adding {K V} (w : K * V -> N) eqb : mixing w -> adding w (replace_value eqb).
Proof.
  intros M [k v] l. induction l as [|[k' v'] l IH]; cbn [replace_value fst snd]; [lia|].
  destruct (eqb k k'); rewrite ?total_cons in *; [pose proof (M k v k' v')|]; lia.
Qed.
Lemma hash_map_adding {K V} E (w : K * V -> N) eqb : good_env E -> mixing w -> adding w (hash_map_insert E eqb).
Proof.
  intros HE M kv l. unfold hash_map_insert. destruct (existsb _ l); [now apply replace_adding|].
  rewrite (total_perm w _ _ (HE _ kv l)). rewrite total_cons. lia.
Qed.
Lemma entry_mixing CK CV : mixing (fun p => nlen (der_of (entry_codec CK CV) p)).
Proof.
  intros k v k' v'. cbv beta. change (der_of (entry_codec CK CV)) with (fun p => tlv [0x30] (der_of CK (fst p) ++ der_of CV (snd p))).
  cbn [fst snd]. rewrite !tlv_size, !nlen_app.
  set (a := nlen (der_of CK k)). set (b := nlen (der_of CV v)). set (a' := nlen (der_of CK k')). set (b' := nlen (der_of CV v')).
  pose proof (llen_mono (a' + b) ((a + b) + (a' + b')) ltac:(lia)). pose proof (llen_add (a + b) (a' + b')). lia.
Qed.

(** ** Items *)
Section Items.
Context (C : codec) (D : deserialize (car C)).
Lemma der_item_parts b x : bytes_ok b -> der_item D b x -> exists id c, b = tlv id c /\ is_identifier id /\ bytes_ok c /\ nlen c < usize_limit /\ from_der D id c = Ok x.
Proof using.
  intros Hok ((id & c & T) & H). rewrite (serde_der_eq D _ _ _ T) in H. exists id, c.
  split; [now apply der_tlv_eq|]. split; [apply (der_tlv_id _ _ _ T)|]. split; [now apply (der_tlv_ok _ _ _ T)|]. split; [apply (der_tlv_lt _ _ _ T) | assumption].
Qed.
Lemma ber_item_parts b x : bytes_ok b -> ber_item D b x -> exists id l c, b = id ++ length_of l ++ c /\ is_identifier id /\ bytes_ok c /\ from_ber D id l c = Ok x.
Proof using.
  intros Hok [V H]. assert (bytes_ok (b ++ [])) as Hok' by now rewrite app_nil_r. pose proof (parsed_ber b [] V Hok') as P.
  apply parsed_ber_inv in P as (_ & _ & _ & id & l & c & Ds & _ & _ & Hc & I & Eb & _); [|assumption].
  unfold serde_from_ber in H. rewrite Ds in H. cbn [rbind fst snd] in H. exists id, l, c. auto.
Qed.
Lemma der_item_wf b x : sound C D -> bytes_ok b -> der_item D b x -> wf C x.
Proof using. intros [S _] Hok I. destruct (der_item_parts b x Hok I) as (id & c & _ & _ & Hc & L & F). eauto. Qed.
Lemma ber_item_wf b x : sound C D -> bytes_ok b -> nlen b < usize_limit -> ber_item D b x -> wf C x.
Proof using.
  intros [_ S] Hok L I. destruct (ber_item_parts b x Hok I) as (id & l & c & -> & _ & Hc & F). apply (S id l c); try assumption.
  rewrite !nlen_app in L. lia.
Qed.
Lemma der_item_size b x : compact C D -> bytes_ok b -> der_item D b x -> nlen (der_of C x) <= nlen b.
Proof using.
  intros [S _] Hok I. destruct (der_item_parts b x Hok I) as (id & c & -> & _ & Hc & L & F). destruct (S id c x Hc L F) as [E1 E2].
  unfold der_of. rewrite E1. now apply tlv_le.
Qed.
Lemma ber_item_size b x : compact C D -> bytes_ok b -> 5 * nlen b < usize_limit -> ber_item D b x -> nlen (der_of C x) <= 5 * nlen b.
Proof using.
  intros [_ S] Hok L I. destruct (ber_item_parts b x Hok I) as (id & l & c & -> & J & Hc & F).
  assert (5 * nlen c < usize_limit) as Lc by (rewrite !nlen_app in L; lia). destruct (S id l c x Hc Lc F) as [E1 E2].
  unfold der_of. apply tlv_le_5; try assumption. apply is_identifier_nonempty in J. destruct id; [congruence|]. rewrite nlen_cons. lia.
Qed.
End Items.
Section Entries.
Context (CK CV : codec) (DK : deserialize (car CK)) (DV : deserialize (car CV)).
Let CE := entry_codec CK CV.
Lemma der_entry_parts b p : bytes_ok b -> der_entry DK DV b p -> exists kb vb, b = tlv [0x30] (kb ++ vb) /\
  bytes_ok kb /\ bytes_ok vb /\ der_item DK kb (fst p) /\ der_item DV vb (snd p).
Proof using.
  intros Hok (kb & vb & Tk & Tv & L & -> & Ek & Ev). exists kb, vb. split; [reflexivity|]. unfold tlv in Hok.
  do 2 apply bytes_ok_app in Hok as [_ Hok]. apply bytes_ok_app in Hok as [Hk Hv]. unfold der_item. auto 6.
Qed.
Lemma ber_entry_parts b p : bytes_ok b -> ber_entry DK DV b p -> exists kb vb l, b = [0x30] ++ length_of l ++ kb ++ vb /\
  bytes_ok kb /\ bytes_ok vb /\ ber_item DK kb (fst p) /\ ber_item DV vb (snd p).
Proof using.
  intros Hok (kb & vb & l & Vk & Vv & Vb & Hl & -> & Ek & Ev). exists kb, vb, l. split; [reflexivity|].
  do 2 apply bytes_ok_app in Hok as [_ Hok]. apply bytes_ok_app in Hok as [Hk Hv]. unfold ber_item. auto 6.
Qed.
Lemma der_entry_wf b p : sound CK DK -> sound CV DV -> bytes_ok b -> der_entry DK DV b p -> wf CE p.
Proof using.
  intros SK SV Hok I. destruct (der_entry_parts b p Hok I) as (kb & vb & -> & Hk & Hv & Ik & Iv).
  split; [now apply (der_item_wf CK DK kb) | now apply (der_item_wf CV DV vb)].
Qed.
Lemma ber_entry_wf b p : sound CK DK -> sound CV DV -> bytes_ok b -> nlen b < usize_limit -> ber_entry DK DV b p -> wf CE p.
Proof using.
  intros SK SV Hok L I. destruct (ber_entry_parts b p Hok I) as (kb & vb & l & -> & Hk & Hv & Ik & Iv). rewrite !nlen_app in L.
  split; [apply (ber_item_wf CK DK kb); auto; lia | apply (ber_item_wf CV DV vb); auto; lia].
Qed.
Lemma der_entry_size b p : compact CK DK -> compact CV DV -> bytes_ok b -> der_entry DK DV b p -> nlen (der_of CE p) <= nlen b.
Proof using.
  intros SK SV Hok I. destruct (der_entry_parts b p Hok I) as (kb & vb & -> & Hk & Hv & Ik & Iv).
  pose proof (der_item_size CK DK kb _ SK Hk Ik). pose proof (der_item_size CV DV vb _ SV Hv Iv).
  unfold der_of at 1. cbn [id_of contents_of CE entry_codec]. apply tlv_le. rewrite !nlen_app. lia.
Qed.
Lemma ber_entry_size b p : compact CK DK -> compact CV DV -> bytes_ok b -> 5 * nlen b < usize_limit -> ber_entry DK DV b p -> nlen (der_of CE p) <= 5 * nlen b.
Proof using.
  intros SK SV Hok L I. destruct (ber_entry_parts b p Hok I) as (kb & vb & l & -> & Hk & Hv & Ik & Iv). rewrite !nlen_app in L.
  pose proof (ber_item_size CK DK kb _ SK Hk ltac:(lia) Ik). pose proof (ber_item_size CV DV vb _ SV Hv ltac:(lia) Iv).
  unfold der_of at 1. cbn [id_of contents_of CE entry_codec]. apply tlv_le_5; rewrite ?nlen_app; try lia.
  rewrite nlen_cons. lia.
Qed.
End Entries.

(** ** Collections *)
Lemma bytes_ok_concat bs : bytes_ok (concat bs) <-> Forall bytes_ok bs.
Proof.
  induction bs as [|b bs IH]; cbn [concat]; [split; constructor|]. rewrite bytes_ok_app, IH. split; [intros [A B]; now constructor | inversion 1; auto].
Qed.
Lemma Forall2_right {A B} (R : A -> B -> Prop) (P : A -> Prop) (Q : B -> Prop) xs ys : Forall2 R xs ys -> Forall P xs ->
  (forall x y, P x -> R x y -> Q y) -> Forall Q ys.
Proof. intros F FP H. induction F; inversion FP; subst; constructor; eauto. Qed.
Lemma Forall2_total {A B} (R : A -> B -> Prop) (P : A -> Prop) (f : A -> N) (w : B -> N) xs ys : Forall2 R xs ys -> Forall P xs ->
  (forall x y, P x -> R x y -> w y <= f x) -> total w ys <= total f xs.
Proof. intros F FP H. induction F as [|x y xs ys R1 F IH]; [reflexivity|]. inversion FP; subst. rewrite !total_cons. specialize (IH H3). specialize (H _ _ H2 R1). lia. Qed.
Lemma total_5 {A} (f : A -> N) l : total (fun x => 5 * f x) l = 5 * total f l.
Proof. induction l as [|x l IH]; [reflexivity|]. rewrite !total_cons, IH. lia. Qed.
Lemma concat_fits (bs : list (list N)) n : nlen (concat bs) < n -> Forall (fun b => nlen b < n) bs.
Proof. induction bs as [|b bs IH]; cbn [concat]; intros L; constructor; rewrite nlen_app in L; [lia | apply IH; lia]. Qed.
Lemma concat_fits_5 (bs : list (list N)) n : 5 * nlen (concat bs) < n -> Forall (fun b => 5 * nlen b < n) bs.
Proof. induction bs as [|b bs IH]; cbn [concat]; intros L; constructor; rewrite nlen_app in L; [lia | apply IH; lia]. Qed.
Section Coll.
Context (C : codec) (E : env) (ID : list N) (insert : car C -> list (car C) -> list (car C)).
Context (bnext dnext : helper -> res (option (car C * helper))) (PB PD : list N -> car C -> Prop).
Hypothesis b_some : forall bs i x rest j, bytes_ok bs -> bnext (bs, i) = Ok (Some (x, (rest, j))) -> exists b, bs = b ++ rest /\ b <> [] /\ PB b x.
Hypothesis d_some : forall bs i x rest j, bytes_ok bs -> dnext (bs, i) = Ok (Some (x, (rest, j))) -> exists b, bs = b ++ rest /\ b <> [] /\ PD b x.
Hypothesis b_none : forall bs i, bnext (bs, i) = Ok None -> bs = [].
Hypothesis d_none : forall bs i, dnext (bs, i) = Ok None -> bs = [].
Let D := de_collection E ID [] insert bnext dnext.
Let w := fun x => nlen (der_of C x).
Lemma coll_der id c m : bytes_ok c -> from_der D id c = Ok m ->
  id = ID /\ exists bs xs, c = concat bs /\ Forall bytes_ok bs /\ Forall2 PD bs xs /\ m = inserted insert xs [].
Proof using b_some b_none d_some d_none.
  intros Hok H. cbn [from_der D de_collection] in H. destruct (bytes_eqb id ID) eqn:EI; [|discriminate]. apply bytes_eqb_eq in EI as ->. cbn [negb] in H.
  split; [reflexivity|]. destruct (collect_inv dnext insert PD d_some d_none _ _ _ _ _ Hok H) as (bs & xs & -> & F & ->).
  apply bytes_ok_concat in Hok. eauto 6.
Qed.
Lemma coll_ber id l c m : bytes_ok c -> from_ber D id l c = Ok m ->
  id = ID /\ exists bs xs, nlen (concat bs) <= nlen c /\ Forall bytes_ok bs /\ Forall2 PB bs xs /\ m = inserted insert xs [].
Proof using b_some b_none d_some d_none.
  intros Hok H. destruct (ber_coll_sound E ID insert bnext dnext PB b_some b_none id l c m Hok H) as (-> & bs & xs & Ec & F & ->).
  split; [reflexivity|]. assert (bytes_ok (concat bs) /\ nlen (concat bs) <= nlen c) as [Hb Lb].
  { destruct l; subst; [|split; [assumption | lia]]. rewrite nlen_app. split; [now apply bytes_ok_app in Hok | lia]. }
  apply bytes_ok_concat in Hb. eauto 6.
Qed.
(** [Q]: what the insertions make of well-formed elements. *)
Lemma coll_sound (Q : list (car C) -> Prop) : (forall b x, bytes_ok b -> PD b x -> wf C x) ->
  (forall b x, bytes_ok b -> nlen b < usize_limit -> PB b x -> wf C x) ->
  (forall xs, Forall (wf C) xs -> Forall (wf C) (inserted insert xs []) /\ Q (inserted insert xs [])) ->
  (forall id c m, bytes_ok c -> nlen c < usize_limit -> from_der D id c = Ok m -> Forall (wf C) m /\ Q m) /\
  (forall id l c m, bytes_ok c -> nlen c < usize_limit -> from_ber D id l c = Ok m -> Forall (wf C) m /\ Q m).
Proof using b_some b_none d_some d_none.
  intros SD SB HQ. split.
  - intros id c m Hok _ H. destruct (coll_der id c m Hok H) as (_ & bs & xs & _ & Hb & F & ->). apply HQ.
    apply (Forall2_right _ _ _ _ _ F Hb). exact SD.
  - intros id l c m Hok L H. destruct (coll_ber id l c m Hok H) as (_ & bs & xs & Lb & Hb & F & ->). apply HQ.
    apply (Forall2_right _ (fun b => bytes_ok b /\ nlen b < usize_limit) _ _ _ F).
    + apply Forall_and; [assumption|]. apply concat_fits. lia.
    + intros b x [A B]. now apply SB.
Qed.
Lemma coll_compact : adding w insert -> (forall b x, bytes_ok b -> PD b x -> w x <= nlen b) ->
  (forall b x, bytes_ok b -> 5 * nlen b < usize_limit -> PB b x -> w x <= 5 * nlen b) -> compact (items_codec ID C) D.
Proof using b_some b_none d_some d_none.
  intros A SD SB. split.
  - intros id c m Hok _ H. destruct (coll_der id c m Hok H) as (-> & bs & xs & -> & Hb & F & ->). cbn [id_of contents_of items_codec].
    split; [reflexivity|]. rewrite nlen_concat_map, nlen_concat_total. pose proof (inserted_total w insert xs A []) as T.
    pose proof (Forall2_total _ _ (fun b : list N => nlen b) w _ _ F Hb SD). cbn [total fold_right] in T. unfold w in *. lia.
  - intros id l c m Hok L H. destruct (coll_ber id l c m Hok H) as (-> & bs & xs & Lb & Hb & F & ->). cbn [id_of contents_of items_codec].
    split; [reflexivity|]. rewrite nlen_concat_map. pose proof (inserted_total w insert xs A []) as T.
    assert (total w xs <= total (fun b => 5 * nlen b) bs) as T2.
    { apply (Forall2_total _ (fun b => bytes_ok b /\ 5 * nlen b < usize_limit) _ _ _ _ F).
      - apply Forall_and; [assumption|]. apply concat_fits_5. lia.
      - intros b x [A1 A2]. now apply SB. }
    rewrite total_5, <- nlen_concat_total in T2. cbn [total fold_right] in T. unfold w in *. lia.
Qed.
End Coll.
Definition fit (conv : bool) (C : codec) (D : deserialize (car C)) : Prop := sound C D /\ (conv = true \/ compact C D).
Section Fits.
Context (E : env) (HE : good_env E) (conv : bool).
Lemma items_fit ID C D insert (Q : list (car C) -> Prop) eqv : fit conv C D -> adding (fun x => nlen (der_of C x)) insert ->
  (forall xs, Forall (wf C) xs -> Forall (wf C) (inserted insert xs []) /\ Q (inserted insert xs [])) ->
  fit conv (with_values (items_codec ID C) Q eqv) (de_collection E ID [] insert (ber_to_val D) (der_to_val D)).
Proof using.
  intros [S F] A HQ. split.
  - apply (coll_sound C E ID insert (ber_to_val D) (der_to_val D) (ber_item D) (der_item D));
      [apply ber_item_next | apply der_item_next | apply ber_next_none | apply der_next_none | | | exact HQ].
    + intros b x Hb I. now apply (der_item_wf C D b).
    + intros b x Hb L I. now apply (ber_item_wf C D b).
  - destruct F as [F|F]; [now left|]. right.
    change (compact (items_codec ID C) (de_collection E ID [] insert (ber_to_val D) (der_to_val D))).
    apply (coll_compact C E ID insert (ber_to_val D) (der_to_val D) (ber_item D) (der_item D));
      [apply ber_item_next | apply der_item_next | apply ber_next_none | apply der_next_none | exact A | |].
    + intros b x Hb I. now apply (der_item_size C D b).
    + intros b x Hb L I. now apply (ber_item_size C D b).
Qed.
Lemma entries_fit ID CK CV DK DV insert (Q : list (car CK * car CV) -> Prop) eqv : fit conv CK DK -> fit conv CV DV ->
  adding (fun x => nlen (der_of (entry_codec CK CV) x)) insert ->
  (forall xs, Forall (wf (entry_codec CK CV)) xs -> Forall (wf (entry_codec CK CV)) (inserted insert xs []) /\ Q (inserted insert xs [])) ->
  fit conv (with_values (items_codec ID (entry_codec CK CV)) Q eqv) (de_collection E ID [] insert (ber_to_key_val DK DV) (der_to_key_val DK DV)).
Proof using.
  intros [SK FK] [SV FV] A HQ. split.
  - apply (coll_sound (entry_codec CK CV) E ID insert (ber_to_key_val DK DV) (der_to_key_val DK DV) (ber_entry DK DV) (der_entry DK DV));
      [apply entry_next_ber | apply entry_next_der | apply ber_kv_none | apply der_kv_none | | | exact HQ].
    + intros b x Hb I. now apply (der_entry_wf CK CV DK DV b).
    + intros b x Hb L I. now apply (ber_entry_wf CK CV DK DV b).
  - destruct FK as [F|FK]; [now left|]. destruct FV as [F|FV]; [now left|]. right.
    change (compact (items_codec ID (entry_codec CK CV)) (de_collection E ID [] insert (ber_to_key_val DK DV) (der_to_key_val DK DV))).
    apply (coll_compact (entry_codec CK CV) E ID insert (ber_to_key_val DK DV) (der_to_key_val DK DV) (ber_entry DK DV) (der_entry DK DV));
      [apply entry_next_ber | apply entry_next_der | apply ber_kv_none | apply der_kv_none | exact A | |].
    + intros b x Hb I. now apply (der_entry_size CK CV DK DV b).
    + intros b x Hb L I. now apply (ber_entry_size CK CV DK DV b).
Qed.
Lemma seq_fit C D : fit conv C D -> fit conv (seq_codec C) (de_vec E D).
Proof using.
  intros F. destruct (items_fit [0x30] C D push_back any (same (seq_codec C)) F (push_adding _)) as [S K].
  - intros xs W. rewrite inserted_push. split; [exact W | exact Logic.I].
  - split; [|exact K]. destruct S as [S1 S2]. split.
    + intros id c v Hok L H. exact (proj1 (S1 id c v Hok L H)).
    + intros id l c v Hok L H. exact (proj1 (S2 id l c v Hok L H)).
Qed.
Lemma btree_set_fit C D cmp : fit conv C D -> total_order (wf C) cmp -> fit conv (btree_set_codec C cmp) (de_btree_set E cmp D).
Proof using.
  intros F O. apply items_fit; [assumption | apply btree_adding|]. intros xs W. destruct (btree_set_of (wf C) cmp O xs W) as (A & B & _). auto.
Qed.
Lemma hash_set_fit C D eqb : fit conv C D -> equivalence (wf C) eqb -> fit conv (hash_set_codec C eqb) (de_hash_set E eqb D).
Proof using HE.
  intros F O. apply items_fit; [assumption | now apply hash_adding|]. intros xs W. destruct (hash_set_of (wf C) eqb O E HE xs W) as (A & B & _). auto.
Qed.
(** What is in a map comes from the entries. *)
Lemma map_entries_wf {K V} (PK : K -> Prop) (PV : V -> Prop) eqv (xs l : list (K * V)) : Forall (fun p => PK (fst p) /\ PV (snd p)) xs ->
  Forall PK (map fst l) -> map_of eqv xs l -> Forall (fun p => PK (fst p) /\ PV (snd p)) l.
Proof using.
  intros F FK M. rewrite Forall_forall in *. intros [k v] I. split; [apply FK; now apply (in_map fst) in I|].
  apply M in I as [_ (l1 & k' & l2 & -> & _)]. apply (F (k', v)). apply in_or_app. right. now left.
Qed.
Lemma keys_wf {K V} (PK : K -> Prop) (PV : V -> Prop) (xs : list (K * V)) : Forall (fun p => PK (fst p) /\ PV (snd p)) xs -> Forall PK (map fst xs).
Proof using. intros F. rewrite Forall_forall in *. intros k I. apply in_map_iff in I as (p & <- & I). now apply F. Qed.
Lemma btree_map_fit CK CV DK DV cmp : fit conv CK DK -> fit conv CV DV -> total_order (wf CK) cmp ->
  fit conv (btree_map_codec CK CV cmp) (de_btree_map E cmp DK DV).
Proof using.
  intros FK FV O. apply entries_fit; [assumption | assumption | apply btree_map_adding, entry_mixing|]. intros xs W.
  destruct (btree_map_of (wf CK) cmp O xs (keys_wf _ _ _ W)) as (A & B & M). split; [|assumption]. now apply (map_entries_wf _ _ _ xs _ W A M).
Qed.
Lemma hash_map_fit CK CV DK DV eqb : fit conv CK DK -> fit conv CV DV -> equivalence (wf CK) eqb ->
  fit conv (hash_map_codec CK CV eqb) (de_hash_map E eqb DK DV).
Proof using HE.
  intros FK FV O. apply entries_fit; [assumption | assumption | apply hash_map_adding; [assumption | apply entry_mixing]|]. intros xs W.
  destruct (hash_map_of (wf CK) eqb O E HE xs (keys_wf _ _ _ W)) as (A & B & M). split; [|assumption]. now apply (map_entries_wf _ _ _ xs _ W A M).
Qed.

(** ** Primitive types *)
Lemma canonical_der_fit C D : canonical C D ->
  (forall id c v, bytes_ok c -> nlen c < usize_limit -> from_der D id c = Ok v -> wf C v /\ id_of C v = id /\ nlen (contents_of C v) <= nlen c).
Proof using. intros K id c v Hok L H. destruct (K id c v Hok L H) as (W & -> & ->). split; [assumption|]. split; [reflexivity | lia]. Qed.
Lemma prim_fit C D : canonical C D ->
  (forall id l c v, bytes_ok c -> nlen c < usize_limit -> from_ber D id l c = Ok v -> wf C v /\ nlen (id_of C v) <= nlen id /\ nlen (contents_of C v) <= 5 * nlen c) ->
  fit conv C D.
Proof using.
  intros K B. pose proof (canonical_der_fit C D K) as A. split; [|right]; split.
  - intros id c v Hok L H. exact (proj1 (A id c v Hok L H)).
  - intros id l c v Hok L H. exact (proj1 (B id l c v Hok L H)).
  - intros id c v Hok L H. exact (proj2 (A id c v Hok L H)).
  - intros id l c v Hok L H. exact (proj2 (B id l c v Hok ltac:(lia) H)).
Qed.
Lemma bool_fit : fit conv bool_codec (de_bool E).
Proof using.
  apply prim_fit; [apply bool_laws|]. intros id l c v _ _ H. split; [exact Logic.I|]. cbn [from_ber de_bool] in H.
  destruct (bytes_eqb id ID_BOOLEAN) eqn:E1; [|discriminate]. apply bytes_eqb_eq in E1 as ->. cbn [negb] in H.
  destruct (Length_eqb l Indefinite); [discriminate|]. apply rbind_inv in H as (u & _ & H). cbn [id_of contents_of bool_codec].
  split; [reflexivity|]. unfold to_bool_ber in H. destruct c as [|o [|]]; try discriminate H. rewrite !nlen_cons. lia.
Qed.
Lemma int_fit t : fit conv (int_codec t) (de_int E t).
Proof using.
  apply prim_fit; [apply int_laws|]. intros id l c v Hok L H. cbn [from_ber de_int] in H.
  destruct (Length_eqb l Indefinite); [discriminate|]. apply rbind_inv in H as (u & _ & H).
  destruct (int_laws E t) as (_ & _ & _ & _ & K & _). destruct (K id c v Hok L H) as (W & -> & ->). split; [assumption|]. split; [reflexivity | lia].
Qed.
Lemma string_fit : fit conv string_codec (de_string E).
Proof using.
  apply prim_fit; [apply string_laws|]. intros id l c v Hok L H. cbn [from_ber de_string] in H.
  destruct (negb (bytes_eqb id ID_UTF8_STRING) && negb (bytes_eqb id ID_UTF8_STRING_CONSTRUCTED)) eqn:E1; [discriminate|].
  destruct (Length_eqb l Indefinite); [discriminate|]. apply rbind_inv in H as (u & _ & H).
  unfold str_from_utf8 in H. destruct (utf8_valid c) eqn:U; [|discriminate]. injection H as <-. apply utf8_valid_iff in U.
  split; [assumption|]. cbn [id_of contents_of string_codec]. split; [|lia].
  apply Bool.andb_false_iff in E1 as [E1|E1]; apply Bool.negb_false_iff, bytes_eqb_eq in E1 as ->; reflexivity.
Qed.
Lemma octets_fit : fit conv octets_codec de_octets.
Proof using E.
  apply prim_fit; [apply (octets_laws E)|]. intros id l c v Hok L H. cbn [from_ber de_octets] in H.
  destruct (negb (bytes_eqb id ID_OCTET_STRING) && negb (bytes_eqb id ID_OCTET_STRING_CONSTRUCTED)) eqn:E1; [discriminate|].
  destruct (Length_is_indefinite l); [discriminate|]. injection H as <-.
  split; [assumption|]. cbn [id_of contents_of octets_codec]. split; [|lia].
  apply Bool.andb_false_iff in E1 as [E1|E1]; apply Bool.negb_false_iff, bytes_eqb_eq in E1 as ->; reflexivity.
Qed.

(** ** Structs and enums *)
Definition fit_as (T : Type) (f : field T) (s : field_spec T) : Prop :=
  match s with Skipped d => skips_de (f_attr f) | Coded c => ~ skips_de (f_attr f) /\ fit conv (to_codec c) (field_de f) end.
Lemma der_fields_wf Ts : forall fs cs c v, fields_rel fit_as Ts fs cs -> bytes_ok c -> der_fields Ts fs c v ->
  fields_wf Ts cs v /\ (conv = true \/ nlen (concat (fields_der Ts cs v)) <= nlen c).
Proof using.
  induction Ts as [|T Ts IH]; intros fs cs c v R Hok F; [split; [exact Logic.I | right; cbn [fields_der concat]; rewrite nlen_nil; lia]|]. destruct fs as [f fs], cs as [s cs], v as [x v].
  cbn [fields_rel fst snd der_fields fields_wf fields_der] in *. destruct R as [Rf R].
  destruct F as [(SK & Ex & F)|(NS & id & c' & rest & I & L & -> & Ef & F)].
  - destruct s as [d|k]; cbn [fit_as] in Rf; [|now destruct Rf]. destruct (IH fs cs c v R Hok F) as [A B]. auto.
  - destruct s as [d|k]; cbn [fit_as] in Rf; [now destruct NS|]. destruct Rf as [_ [S K]].
    apply bytes_ok_app in Hok as [Hb Hr]. assert (bytes_ok c') as Hc by (unfold tlv in Hb; now do 2 apply bytes_ok_app in Hb as [_ Hb]).
    destruct (IH fs cs rest v R Hr F) as [A B]. split; [split; [|assumption]|].
    + exact (proj1 S id c' x Hc L Ef).
    + destruct K as [K|K]; [now left|]. destruct B as [B|B]; [now left|]. right.
      destruct (proj1 K id c' x Hc L Ef) as [K1 K2]. cbn [concat]. rewrite !nlen_app. unfold der_of. rewrite K1. pose proof (tlv_le id _ _ K2). lia.
Qed.
Lemma ber_fields_wf Ts : forall fs cs c v, fields_rel fit_as Ts fs cs -> bytes_ok c -> nlen c < usize_limit -> ber_fields Ts fs c v ->
  fields_wf Ts cs v /\ (conv = true \/ (5 * nlen c < usize_limit -> nlen (concat (fields_der Ts cs v)) <= 5 * nlen c)).
Proof using.
  induction Ts as [|T Ts IH]; intros fs cs c v R Hok Lc F; [split; [exact Logic.I | right; intros _; cbn [fields_der concat]; rewrite nlen_nil; lia]|]. destruct fs as [f fs], cs as [s cs], v as [x v].
  cbn [fields_rel fst snd ber_fields fields_wf fields_der] in *. destruct R as [Rf R].
  destruct F as [(SK & Ex & F)|(NS & id & l & c' & rest & _ & I & _ & -> & Ef & F)].
  - destruct s as [d|k]; cbn [fit_as] in Rf; [|now destruct Rf]. destruct (IH fs cs c v R Hok Lc F) as [A B]. auto.
  - destruct s as [d|k]; cbn [fit_as] in Rf; [now destruct NS|]. destruct Rf as [_ [S K]].
    apply bytes_ok_app in Hok as [Hb Hr]. assert (bytes_ok c') as Hc by now do 2 apply bytes_ok_app in Hb as [_ Hb].
    rewrite nlen_app in Lc. assert (nlen c' <= nlen (id ++ length_of l ++ c')) as L1 by (rewrite !nlen_app; lia).
    destruct (IH fs cs rest v R Hr ltac:(lia) F) as [A B]. split; [split; [|assumption]|].
    + exact (proj2 S id l c' x Hc ltac:(lia) Ef).
    + destruct K as [K|K]; [now left|]. destruct B as [B|B]; [now left|]. right. rewrite nlen_app. intros L5. specialize (B ltac:(lia)).
      destruct (proj2 K id l c' x Hc ltac:(lia) Ef) as [K1 K2]. cbn [concat]. rewrite nlen_app. unfold der_of at 1.
      assert (1 <= nlen id) as L2 by (apply is_identifier_nonempty in I; destruct id; [congruence | rewrite nlen_cons; lia]).
      pose proof (tlv_le_5 id _ l c' _ K1 L2 K2 ltac:(lia)). lia.
Qed.
Lemma excluded l c bs : exclude_eoc E l c = Ok bs -> bytes_ok c -> bytes_ok bs /\ nlen bs <= nlen c.
Proof using.
  intros X Hok. apply exclude_eoc_inv in X. destruct l; subst; [|split; [assumption | lia]].
  rewrite nlen_app. split; [now apply bytes_ok_app in Hok | lia].
Qed.
Lemma struct_fit Ts (dc : data_container Ts) cs : fields_rel fit_as Ts (dc_fields dc) cs ->
  fit conv (struct_codec (id_slice (dc_attr dc)) Ts cs) (de_struct E dc).
Proof using.
  intros R.
  assert (forall id c v, bytes_ok c -> from_der (de_struct E dc) id c = Ok v -> id = id_slice (dc_attr dc) /\
    fields_wf Ts cs v /\ (conv = true \/ nlen (concat (fields_der Ts cs v)) <= nlen c)) as A.
  { intros id c v Hok H. apply de_struct_der_iff in H as [-> F]; [|assumption]. split; [reflexivity|]. now apply (der_fields_wf Ts (dc_fields dc)). }
  assert (forall id l c v, bytes_ok c -> nlen c < usize_limit -> from_ber (de_struct E dc) id l c = Ok v -> id = id_slice (dc_attr dc) /\
    fields_wf Ts cs v /\ (conv = true \/ (5 * nlen c < usize_limit -> nlen (concat (fields_der Ts cs v)) <= 5 * nlen c))) as B.
  { intros id l c v Hok L H. apply de_struct_ber_iff in H as (-> & bs & X & F); [|assumption]. split; [reflexivity|].
    destruct (excluded l c bs X Hok) as [Hb Lb]. destruct (ber_fields_wf Ts (dc_fields dc) cs bs v R Hb ltac:(lia) F) as [W S]. split; [assumption|].
    destruct S as [S|S]; [now left|]. right. intros L5. specialize (S ltac:(lia)). lia. }
  split; [split; intros; [eapply A | eapply B]; eassumption|].
  destruct conv; [now left|]. right. split.
  - intros id c v Hok _ H. destruct (A id c v Hok H) as (-> & _ & [K|K]); [discriminate|]. auto.
  - intros id l c v Hok L5 H. destruct (B id l c v Hok ltac:(lia) H) as (-> & _ & [K|K]); [discriminate|]. cbn [id_of contents_of struct_codec]. auto using N.le_refl.
Qed.
Lemma fit_count Ts : forall fs cs, fields_rel fit_as Ts fs cs ->
  length (filter (fun a => negb (is_skip_deserializing a)) (field_attributes Ts fs)) = coded_count Ts cs.
Proof using.
  induction Ts as [|T Ts IH]; intros fs cs R; [reflexivity|]. destruct fs as [f fs], cs as [s cs].
  cbn [fields_rel field_attributes coded_count fst snd filter] in *. destruct R as [Rf R], s as [d|c]; cbn [fit_as] in Rf.
  - apply skips_de_iff in Rf. rewrite Rf. cbn [negb]. now apply IH.
  - destruct Rf as [NS _]. apply not_skips_de in NS. rewrite NS. cbn [negb length]. f_equal. now apply IH.
Qed.
Lemma whole_wf (read : forall T, field T -> T -> Prop) (good : forall T, codec_on T -> T -> Prop) Ts : forall fs cs v,
  fields_rel fit_as Ts fs cs -> whole_fields read Ts fs v ->
  (forall T (f : field T) k t, fit conv (to_codec k) (field_de f) -> read T f t -> on_wf k t /\ good T k t) ->
  fields_wf Ts cs v /\ (coded_count Ts cs = 1%nat -> forall none, only_field (fun T k t => good T k t) none Ts cs v).
Proof using.
  induction Ts as [|T Ts IH]; intros fs cs v R F H; [split; [exact Logic.I | discriminate]|]. destruct fs as [f fs], cs as [s cs], v as [x v].
  cbn [fields_rel fst snd whole_fields fields_wf only_field coded_count] in *. destruct R as [Rf R], F as [Fx F].
  destruct (IH fs cs v R F H) as [A B]. destruct s as [d|k]; cbn [fit_as] in Rf.
  - split; [now split|]. exact B.
  - destruct Rf as [NS K]. destruct Fx as [[SK _]|[_ Fx]]; [now destruct NS|]. destruct (H T f k x K Fx). split; [now split|]. intros _ _. assumption.
Qed.
Lemma only_field_map {X} (pick : forall T, codec_on T -> T -> X) none (Q : X -> Prop) Ts : forall cs v,
  only_field (fun T k t => Q (pick T k t)) (Q none) Ts cs v -> Q (only_field pick none Ts cs v).
Proof using.
  induction Ts as [|T Ts IH]; intros cs v H; [exact H|]. destruct cs as [s cs], v as [x v]. cbn [only_field fst snd] in *. destruct s; auto.
Qed.
Lemma transparent_fit Ts (fs : hlist field Ts) cs : fields_rel fit_as Ts fs cs -> coded_count Ts cs = 1%nat ->
  fit conv (transparent_codec Ts cs) (de_whole fs).
Proof using.
  intros R K1. split; [split|].
  - intros id c v Hok L H. apply whole_der_iff in H. eapply (proj1 (whole_wf _ (fun _ _ _ => True) Ts fs cs v R H _)).
    Unshelve. intros T f k t [S _] Hr. split; [exact (proj1 S id c t Hok L Hr) | exact Logic.I].
  - intros id l c v Hok L H. apply whole_ber_iff in H. eapply (proj1 (whole_wf _ (fun _ _ _ => True) Ts fs cs v R H _)).
    Unshelve. intros T f k t [S _] Hr. split; [exact (proj2 S id l c t Hok L Hr) | exact Logic.I].
  - destruct conv eqn:Ec; [now left|]. right. split.
    + intros id c v Hok L H. apply whole_der_iff in H. cbn [id_of contents_of transparent_codec].
      assert (forall T (f : field T) k t, fit conv (to_codec k) (field_de f) -> from_der (field_de f) id c = Ok t -> on_wf k t /\ (on_id k t = id /\ nlen (on_contents k t) <= nlen c)) as G.
      { intros T f k t [S F] Hr. split; [exact (proj1 S id c t Hok L Hr)|]. destruct F as [F|F]; [congruence|]. exact (proj1 F id c t Hok L Hr). }
      pose proof (proj2 (whole_wf _ (fun T k t => on_id k t = id /\ nlen (on_contents k t) <= nlen c) Ts fs cs v R H G) K1) as W.
      revert W K1. clear. revert cs v. induction Ts as [|T Ts IH]; intros cs v W K1; [discriminate|]. destruct cs as [s cs], v as [x v]. cbn [only_field fst snd coded_count] in *.
      destruct s; [now apply IH | now apply (W True)].
    + intros id l c v Hok L5 H. apply whole_ber_iff in H. cbn [id_of contents_of transparent_codec].
      assert (forall T (f : field T) k t, fit conv (to_codec k) (field_de f) -> from_ber (field_de f) id l c = Ok t -> on_wf k t /\ (nlen (on_id k t) <= nlen id /\ nlen (on_contents k t) <= 5 * nlen c)) as G.
      { intros T f k t [S F] Hr. split; [exact (proj2 S id l c t Hok ltac:(lia) Hr)|]. destruct F as [F|F]; [congruence|]. exact (proj2 F id l c t Hok L5 Hr). }
      pose proof (proj2 (whole_wf _ (fun T k t => nlen (on_id k t) <= nlen id /\ nlen (on_contents k t) <= 5 * nlen c) Ts fs cs v R H G) K1) as W.
      revert W K1. clear. revert cs v. induction Ts as [|T Ts IH]; intros cs v W K1; [discriminate|]. destruct cs as [s cs], v as [x v]. cbn [only_field fst snd coded_count] in *.
      destruct s; [now apply IH | now apply (W True)].
Qed.
Definition fit_variant (Ts : list Type) (dc : data_container Ts) (w : variant_spec Ts) : Prop :=
  id_slice (dc_attr dc) = fst w /\ fields_rel fit_as Ts (dc_fields dc) (snd w).
Lemma sum_fit A B (a : codec_on A) (b : codec_on B) DA DB D : fit conv (to_codec a) DA -> fit conv (to_codec b) DB ->
  (forall id c v, from_der D id c = Ok v -> match v with inl x => from_der DA id c = Ok x | inr y => from_der DB id c = Ok y end) ->
  (forall id l c v, from_ber D id l c = Ok v -> match v with inl x => from_ber DA id l c = Ok x | inr y => from_ber DB id l c = Ok y end) ->
  fit conv (to_codec (sum_on a b)) D.
Proof using.
  intros [SA FA] [SB FB] HD HB. split; [split|].
  - intros id c [x|y] Hok L H; apply HD in H; [exact (proj1 SA id c x Hok L H) | exact (proj1 SB id c y Hok L H)].
  - intros id l c [x|y] Hok L H; apply HB in H; [exact (proj2 SA id l c x Hok L H) | exact (proj2 SB id l c y Hok L H)].
  - destruct FA as [F|FA]; [now left|]. destruct FB as [F|FB]; [now left|]. right. split.
    + intros id c [x|y] Hok L H; apply HD in H; [exact (proj1 FA id c x Hok L H) | exact (proj1 FB id c y Hok L H)].
    + intros id l c [x|y] Hok L H; apply HB in H; [exact (proj2 FA id l c x Hok L H) | exact (proj2 FB id l c y Hok L H)].
Qed.
Lemma enum_fit Tss : forall vs ws, variants_rel fit_variant Tss vs ws -> fit conv (enum_codec Tss ws) (de_enum E Tss vs).
Proof using.
  induction Tss as [|Ts Tss IH]; intros vs ws R.
  - split; [|right]; (split; [intros id c [] | intros id l c []]).
  - destruct vs as [dc vs], ws as [[ID cs] ws]. cbn [variants_rel fst snd] in R. destruct R as [[EI R1] R]. cbn [fst snd] in *.
    apply (sum_fit (tuple Ts) (choice Tss) (of_codec (variant_codec (ID, cs))) (enum_on Tss ws) (de_struct E dc) (de_enum E Tss vs)).
    + rewrite <- EI. exact (struct_fit Ts dc cs R1).
    + exact (IH vs ws R).
    + intros id c v H. apply (eq_trans (eq_sym (de_enum_der E Ts Tss dc vs id c))) in H. destruct (bytes_eqb id (id_slice (dc_attr dc))); apply rbind_inv in H as (t & H & [= <-]); exact H.
    + intros id l c v H. apply (eq_trans (eq_sym (de_enum_ber E Ts Tss dc vs id l c))) in H. destruct (bytes_eqb id (id_slice (dc_attr dc))); apply rbind_inv in H as (t & H & [= <-]); exact H.
Qed.
Lemma via_sound C D0 T (f : T -> car C) g P eqv D : sound C D0 -> makes C f g P -> de_via D0 g D -> sound (to_codec (via C f P eqv)) D.
Proof using.
  intros [S1 S2] M V. destruct V as [g|g]; (split; intros id); [intros c|intros l c|intros c|intros l c]; intros v Hok L H;
    apply rbind_inv in H as (u & Hu & H).
  - injection H as <-. apply (M u); [now apply (S1 id c) | reflexivity].
  - injection H as <-. apply (M u); [now apply (S2 id l c) | reflexivity].
  - apply try_convert_ok in H. apply (M u); [now apply (S1 id c) | exact H].
  - apply try_convert_ok in H. apply (M u); [now apply (S2 id l c) | exact H].
Qed.
End Fits.

Scheme decoded_min := Minimality for decoded Sort Prop
  with decoded_fields_min := Minimality for decoded_fields Sort Prop
  with decoded_variants_min := Minimality for decoded_variants Sort Prop.
Lemma try_variants_slices is_path Tss : forall decls vs, try_variants is_path Tss decls = Some vs -> forall (conv : bool) ws,
  variants_rel (fun Ts dc w => identifier (class_of (dc_attr dc)) (pc_of (dc_attr dc)) (number_of (dc_attr dc)) (fst w) /\ fields_rel (fit_as conv) Ts (dc_fields dc) (snd w)) Tss vs ws ->
  variants_rel (fit_variant conv) Tss vs ws.
Proof.
  induction Tss as [|Ts Tss IH]; intros decls vs H conv ws R; [exact I|]. cbn [try_variants] in H.
  destruct (try_variant is_path Ts (fst decls)) as [v|] eqn:V; [|discriminate].
  destruct (try_variants is_path Tss (snd decls)) as [rest|] eqn:K; [|discriminate]. injection H as <-.
  destruct R as [[I F] R]. cbn [fst snd] in *. split; [|now apply (IH (snd decls))].
  unfold try_variant in V. destruct (Attribute_try_from is_path (vd_attrs (fst decls))) as [a|] eqn:TF; [|discriminate].
  destruct (negb (sanitize_as_variant a)); [discriminate|]. destruct (try_fields is_path Ts (vd_fields (fst decls))); [|discriminate].
  injection V as <-. cbn [dc_attr] in *. split; [|exact F].
  eapply identifier_fun; [apply id_slice_identifier; eapply try_from_values; exact TF | exact I].
Qed.
Lemma decoded_fit E conv C D : good_env E -> decoded E conv C D -> fit conv C D.
Proof.
  intros HE. apply (decoded_min E conv (fun C D => fit conv C D) (fun Ts fs cs => fields_rel (fit_as conv) Ts fs cs)
    (fun Tss vs ws => variants_rel (fun Ts dc w => identifier (class_of (dc_attr dc)) (pc_of (dc_attr dc)) (number_of (dc_attr dc)) (fst w) /\ fields_rel (fit_as conv) Ts (dc_fields dc) (snd w)) Tss vs ws)).
  - apply bool_fit.
  - apply int_fit.
  - apply string_fit.
  - apply (octets_fit E).
  - intros C0 D0 S K. now split.
  - intros. now apply seq_fit.
  - intros. now apply seq_fit.
  - intros. now apply seq_fit.
  - intros. now apply btree_set_fit.
  - intros. now apply hash_set_fit.
  - intros. now apply btree_map_fit.
  - intros. now apply hash_map_fit.
  - intros is_path attrs a ID Ts decls fs cs ps D0 TF P I F _ R HD.
    rewrite (proj2 (plain_struct is_path E attrs a TF Ts decls fs ps (ser_fields E {| dc_attr := a; dc_fields := fs |}) D0 P F) HD).
    assert (ID = id_slice a) as -> by (eapply identifier_fun; [exact I | apply id_slice_identifier; eapply try_from_values; exact TF]).
    now apply (struct_fit E conv Ts {| dc_attr := a; dc_fields := fs |} cs).
  - intros is_path attrs a Ts decls fs cs ps D0 TF P F _ R HD. pose proof (transparent_cases a (try_from_sanitized _ _ _ TF) P) as Pc.
    destruct (proj2 (transparent_struct is_path E attrs a TF Ts decls fs ps (ser_fields E {| dc_attr := a; dc_fields := fs |}) D0 Pc F) HD) as [-> N1].
    apply transparent_fit; [assumption|]. rewrite <- (fit_count conv Ts fs cs R). rewrite nlen_length in N1. lia.
  - intros is_path attrs a Tss decls vs ws ps D0 TF P F _ R HD.
    rewrite (proj2 (plain_enum is_path E attrs a TF Tss decls vs ps (ser_variants E Tss vs) D0 P F) HD).
    apply enum_fit. now apply (try_variants_slices is_path Tss decls).
  - intros C0 D0 T f g P eqv D1 Ec _ [S _] M V. split; [now apply (via_sound C0 D0 T f g) | now left].
  - exact I.
  - intros T Ts f fs cs SK _ R. split; [exact SK | exact R].
  - intros T Ts f c fs cs NS _ K _ R. split; [split; assumption | exact R].
  - exact I.
  - intros Ts Tss dc ID cs vs ws I0 _ R _ L. split; [split; assumption | exact L].
Qed.

(** ** Entry points *)
Lemma parse_der_item {T} (D : deserialize T) bs v rest : bytes_ok bs -> parse_der D bs = (Ok v, rest) ->
  exists b, bs = b ++ rest /\ bytes_ok b /\ bytes_ok rest /\ der_item D b v.
Proof.
  intros Hok H. unfold parse_der in H. destruct (DerRef_parse bs) as [r rest'] eqn:P. destruct r as [b|e| |]; try discriminate.
  apply der_parse_iff in P as (T0 & ->); auto. injection H as H <-. apply bytes_ok_app in Hok as [Hb Hr]. exists b. unfold der_item. auto.
Qed.
Lemma parse_ber_item {T} (D : deserialize T) bs v rest : bytes_ok bs -> parse_ber D bs = (Ok v, rest) ->
  exists b, bs = b ++ rest /\ bytes_ok b /\ bytes_ok rest /\ ber_item D b v.
Proof.
  intros Hok H. unfold parse_ber in H. destruct (BerRef_parse bs) as [r rest'] eqn:P. destruct r as [b|e| |]; try discriminate.
  assert (parsed (BerRef_parse bs) = Ok (b, rest')) as P' by now rewrite P.
  apply parsed_ber_inv in P' as (V & -> & _); auto. injection H as H <-. apply bytes_ok_app in Hok as [Hb Hr]. exists b. unfold ber_item. auto.
Qed.
