(** Equal values and their octets. *)
From Verif Require Import Base ModelError ModelIo ModelTag ModelContents ModelBuf ModelTlv ModelSerde Spec SpecIo SpecCmp SpecSerde.
From Verif Require Import ModelAttr ModelDerive SpecAttr SpecDerive SpecOrder.
From Verif Require Import TagProofs IdProofs TagMain ContentsProofs TlvProofs BufProofs TlvMain StreamProofs StreamMain.
From Verif Require Import SerdeOctets SerdeSer SerdeDe SerdeMain SerdeEntry DeriveMain.
From Coq Require Import Sorting.Sorted Sorting.Permutation.

Lemma uniform_der C : uniform C -> forall v w, wf C v -> wf C w -> same C v w -> der_of C v = der_of C w.
Proof. intros U v w V W S. unfold der_of. destruct (U v w V W S) as [-> ->]. reflexivity. Qed.
Lemma uniform_items C ID : uniform C -> uniform (items_codec ID C).
Proof.
  intros U v w V W S. split; [reflexivity|]. cbn in *. f_equal. induction S as [|x y v w S _ IH]; [reflexivity|].
  inversion V; inversion W; subst. cbn [map]. f_equal; [now apply uniform_der | now apply IH].
Qed.
Lemma uniform_with_values C P : uniform C -> uniform (with_values C P (same C)).
Proof. intros U v w [V _] [W _] S. exact (U v w V W S). Qed.
Lemma uniform_entry CK CV : uniform CK -> uniform CV -> uniform (entry_codec CK CV).
Proof.
  intros UK UV v w [V1 V2] [W1 W2] [S1 S2]. split; [reflexivity|]. cbn. f_equal; now apply uniform_der.
Qed.
(** Fields. *)
Fixpoint uniform_fields (Ts : list Type) : hlist field_spec Ts -> Prop :=
  match Ts with
  | [] => fun _ => True
  | T :: Ts' => fun cs => match fst cs with Skipped _ => True | Coded c => uniform (to_codec c) end /\ uniform_fields Ts' (snd cs)
  end.
Lemma uniform_fields_der Ts cs : uniform_fields Ts cs -> forall v w, fields_wf Ts cs v -> fields_wf Ts cs w -> fields_same Ts cs v w ->
  fields_der Ts cs v = fields_der Ts cs w.
Proof.
  induction Ts as [|T Ts IH]; intros U v w V W S; [reflexivity|]. destruct cs as [f cs], v as [x v], w as [y w]. cbn in *.
  destruct U as [U1 U2], V as [V1 V2], W as [W1 W2], S as [S1 S2]. rewrite (IH cs U2 v w V2 W2 S2).
  destruct f as [d|c]; [reflexivity|]. f_equal. now apply (uniform_der (to_codec c)).
Qed.
Lemma uniform_struct ID Ts cs : uniform_fields Ts cs -> uniform (struct_codec ID Ts cs).
Proof. intros U v w V W S. split; [reflexivity|]. cbn in *. now rewrite (uniform_fields_der Ts cs U v w V W S). Qed.
Lemma uniform_transparent Ts cs : uniform_fields Ts cs -> uniform (transparent_codec Ts cs).
Proof.
  intros U v w V W S. cbn in *. induction Ts as [|T Ts IH]; [split; reflexivity|]. destruct cs as [f cs], v as [x v], w as [y w]. cbn in *.
  destruct U as [U1 U2], V as [V1 V2], W as [W1 W2], S as [S1 S2]. destruct f as [d|c]; [now apply IH|]. exact (U1 x y V1 W1 S1).
Qed.
Fixpoint uniform_variants (Tss : list (list Type)) : vlist variant_spec Tss -> Prop :=
  match Tss with
  | [] => fun _ => True
  | Ts :: Tss' => fun ws => uniform_fields Ts (snd (fst ws)) /\ uniform_variants Tss' (snd ws)
  end.
Lemma uniform_enum Tss ws : uniform_variants Tss ws -> uniform (enum_codec Tss ws).
Proof.
  induction Tss as [|Ts Tss IH]; intros U v w V W S; [destruct v|]. destruct ws as [[ID cs] ws], U as [U1 U2]. destruct v as [x|v], w as [y|w]; cbn in S.
  - exact (uniform_struct ID Ts cs U1 x y V W S).
  - contradiction.
  - contradiction.
  - exact (IH ws U2 v w V W S).
Qed.
Scheme uc_ind := Induction for unhashed_codec Sort Prop
  with uf_ind := Induction for unhashed_fields Sort Prop
  with uv_ind := Induction for unhashed_variants Sort Prop.
Lemma unhashed_uniform C : unhashed_codec C -> uniform C.
Proof.
  apply (uc_ind (fun C _ => uniform C) (fun Ts cs _ => uniform_fields Ts cs) (fun Tss ws _ => uniform_variants Tss ws)).
  - intros v w _ _ S. cbn in S. now subst.
  - intros t v w _ _ S. cbn in S. now subst.
  - intros v w _ _ S. cbn in S. now subst.
  - intros v w _ _ S. cbn in S. now subst.
  - auto.
  - intros. now apply uniform_items.
  - intros. now apply (uniform_with_values (items_codec [0x30] C0)), uniform_items.
  - intros. now apply (uniform_with_values (items_codec [0x30] (entry_codec CK CV))), uniform_items, uniform_entry.
  - intros. now apply uniform_struct.
  - intros. now apply uniform_transparent.
  - intros. now apply uniform_enum.
  - intros C0 T f P eqv _ U R v w [V1 V2] [W1 W2] S. cbn in *. apply U; auto.
  - exact I.
  - intros T Ts d cs _ U. split; [exact I | assumption].
  - intros T Ts c cs _ U _ Us. split; assumption.
  - exact I.
  - intros Ts Tss ID cs ws _ U _ Us. split; assumption.
Qed.

(** Equal sets and maps: the same items in some order. *)
Lemma same_unordered_items C : uniform C -> forall v w, Forall (wf C) v -> Forall (wf C) w -> same_unordered (same C) v w ->
  Permutation (map (der_of C) v) (map (der_of C) w).
Proof.
  intros U v w V W (v' & P & F). rewrite (Permutation_map (der_of C) P). assert (Forall (wf C) v') as V'.
  { rewrite Forall_forall in *. intros x I. apply V. eapply Permutation_in; [symmetry; exact P | assumption]. }
  clear P V. replace (map (der_of C) w) with (map (der_of C) v'); [reflexivity|].
  induction F as [|x y v' w S _ IH]; [reflexivity|]. inversion V'; inversion W; subst. cbn [map]. f_equal; [now apply uniform_der | now apply IH].
Qed.
Lemma concat_permutation (a b : list (list N)) : Permutation a b -> nlen (concat a) = nlen (concat b).
Proof. induction 1; cbn [concat]; rewrite ?nlen_app; lia. Qed.

(** The same octets, or one encoding at the start of another: the same value. *)
Lemma encodings_differ E C S D : laws E C S D -> forall v w r s, wf C v -> wf C w -> nlen (der_of C v) <= isize_max -> nlen (der_of C w) <= isize_max ->
  bytes_ok r -> bytes_ok s -> der_of C v ++ r = der_of C w ++ s ->
  r = s /\ exists u, wf C u /\ same C v u /\ same C w u.
Proof.
  intros LW v w r s V W Lv Lw Hr Hs H.
  destruct (round_trip_der E C S D LW v V Lv) as (v' & V' & Sv & _ & P & _). destruct (round_trip_der E C S D LW w W Lw) as (w' & W' & Sw & _ & Q & _).
  specialize (P r Hr). specialize (Q s Hs). rewrite H in P. rewrite Q in P. injection P as -> ->. split; [reflexivity|]. eauto.
Qed.

(** Splitting contents into values. *)
Lemma items_unique (a b : list (list N)) : Forall (fun b => exists id d, der_tlv id d b) a -> Forall (fun b => exists id d, der_tlv id d b) b ->
  concat a = concat b -> a = b.
Proof.
  revert b. induction a as [|x a IH]; intros [|y b] A B H; [reflexivity | | |]; inversion_clear A; inversion_clear B; cbn [concat] in H.
  - destruct H0 as (id & d & T). apply der_tlv_nonempty in T. destruct y; [congruence | discriminate].
  - destruct H0 as (id & d & T). apply der_tlv_nonempty in T. destruct x; [congruence | discriminate].
  - destruct H0 as (id & d & T), H2 as (id' & d' & T'). destruct (der_tlv_prefix _ _ _ _ _ _ _ _ T T' H) as (_ & _ & -> & E).
    f_equal. now apply IH.
Qed.
Lemma before_cons_eq l m : before l m -> forall x y a b, l = x :: a -> m = y :: b -> x < y \/ x = y /\ before a b.
Proof.
  destruct 1 as [l z t|p z z' s t Hz]; intros x y a b E1 E2.
  - subst l. injection E2 as <- <-. right. split; [reflexivity | constructor].
  - destruct p as [|u p]; cbn in E1, E2; injection E1 as <- <-; injection E2 as <- <-; [now left|]. right. split; [reflexivity | now constructor].
Qed.
Lemma before_cons x y a b : before (x :: a) (y :: b) -> x < y \/ x = y /\ before a b.
Proof. intros H. now apply (before_cons_eq _ _ H). Qed.
