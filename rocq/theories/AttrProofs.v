(** Lemmas about the attributes of the derive macros. *)
From Coq Require Import String Ascii.
From Verif Require Import Base ModelTag ModelAttr Spec SpecAttr TagProofs IdProofs.

(** ** Identifiers *)
Lemma set_class_octet : forall o, o < 256 -> forall c, c < 4 -> N.lor (N.land o 0x3f) (c * 64) = c * 64 + o mod 64.
Proof.
  sweep (fun o => forallb (fun c => N.lor (N.land o 0x3f) (c * 64) =? c * 64 + o mod 64) [0; 1; 2; 3]).
  intros F c L. assert (c = 0 \/ c = 1 \/ c = 2 \/ c = 3) as H by lia.
  apply N.eqb_eq. apply forallb_forall with (x := c) in F; [exact F|]. cbn [In]. lia.
Qed.
Lemma set_pc_octet : forall o, o < 256 -> forall p, p < 2 -> N.lor (N.land o 0xdf) (p * 32) = o / 64 * 64 + p * 32 + o mod 32.
Proof.
  sweep (fun o => forallb (fun p => N.lor (N.land o 0xdf) (p * 32) =? o / 64 * 64 + p * 32 + o mod 32) [0; 1]).
  intros F p L. apply N.eqb_eq. apply forallb_forall with (x := p) in F; [exact F|]. cbn [In]. lia.
Qed.
Lemma set_num_octet : forall o, o < 256 -> forall n, n < 31 -> N.lor (N.land o 0xe0) n = o / 64 * 64 + o / 32 mod 2 * 32 + n.
Proof.
  sweep (fun o => forallb (fun n => N.lor (N.land o 0xe0) n =? o / 64 * 64 + o / 32 mod 2 * 32 + n) (map N.of_nat (seq 0 31))).
  intros F n L. apply N.eqb_eq. apply forallb_forall with (x := n) in F; [exact F|].
  apply in_map_iff. exists (N.to_nat n). split; [lia|]. apply in_seq. lia.
Qed.
Lemma long_octet : forall o, o < 256 -> N.lor o 0x1f = o / 64 * 64 + o / 32 mod 2 * 32 + 31.
Proof. sweep (fun o => N.lor o 0x1f =? o / 64 * 64 + o / 32 mod 2 * 32 + 31). apply N.eqb_eq. Qed.

(** The digits, the other way round. *)
Lemma tag_digits_value fuel : forall n, n < 128 ^ N.of_nat fuel -> b128_value (rev (tag_digits fuel n)) = n.
Proof.
  induction fuel as [|fuel IH]; intros n L; cbn [tag_digits].
  - change (128 ^ N.of_nat 0) with 1 in L. cbn. lia.
  - replace (N.of_nat (S fuel)) with (1 + N.of_nat fuel) in L by lia. rewrite N.pow_add_r, N.pow_1_r in L.
    destruct (N.ltb_spec 0 n); [|cbn; lia]. cbn [rev].
    change 0x80 with 128. rewrite b128_value_snoc, IH by (apply N.div_lt_upper_bound; lia). lia.
Qed.
Lemma tag_digits_ok fuel : forall n, Forall (fun d => d < 128) (tag_digits fuel n).
Proof.
  induction fuel as [|fuel IH]; intros n; cbn [tag_digits]; [constructor|].
  destruct (0 <? n); constructor; [|apply IH]. change 0x80 with 128. lia.
Qed.
Lemma tag_digits_last fuel : forall n, n < 128 ^ N.of_nat fuel -> 0 < n -> exists ds d, tag_digits fuel n = ds ++ [d] /\ d <> 0.
Proof.
  induction fuel as [|fuel IH]; intros n L P.
  - change (128 ^ N.of_nat 0) with 1 in L. lia.
  - replace (N.of_nat (S fuel)) with (1 + N.of_nat fuel) in L by lia. rewrite N.pow_add_r, N.pow_1_r in L.
    cbn [tag_digits]. destruct (N.ltb_spec 0 n); [|lia]. change 0x80 with 128.
    destruct (N.eq_dec (n / 128) 0) as [Z|Z].
    + exists [], (n mod 128). rewrite Z. split; [|lia]. destruct fuel; reflexivity.
    + destruct (IH (n / 128)) as (ds & d & -> & D); [apply N.div_lt_upper_bound; lia | lia |].
      exists (n mod 128 :: ds), d. split; [reflexivity | assumption].
Qed.
Lemma size_fuel n : n < 128 ^ N.of_nat (N.size_nat n).
Proof.
  destruct n as [|p]; [reflexivity|].
  assert (N.pos p < 2 ^ N.size (N.pos p)) as H by (apply size_bounds; lia).
  replace (N.of_nat (N.size_nat (N.pos p))) with (N.size (N.pos p)).
  - eapply N.lt_le_trans; [exact H|]. apply N.pow_le_mono_l. lia.
  - clear H. induction p; cbn [N.size N.size_nat Pos.size Pos.size_nat] in *;
      [rewrite Nat2N.inj_succ, <- IHp; reflexivity | rewrite Nat2N.inj_succ, <- IHp; reflexivity | reflexivity].
Qed.
Lemma set_more_rev ds : Forall (fun d => d < 128) ds -> ds <> [] ->
  exists hi lo, rev ds = hi ++ [lo] /\ rev (set_more ds) = map (fun d => 128 + d) hi ++ [lo].
Proof.
  intros F N0. destruct ds as [|d ds]; [congruence|]. exists (rev ds), d. split; [reflexivity|].
  cbn [set_more rev]. f_equal. rewrite map_rev. f_equal. inversion F; subst.
  apply map_ext_Forall. revert H2. apply Forall_impl. intros x L. change 0x80 with 128. rewrite lor_80 by lia. lia.
Qed.

Lemma documented_id_octet name cls pc num : In (name, (cls, pc, num)) documented_ids ->
  cls < 4 /\ pc < 2 /\ num < 31.
Proof. cbn. intros H. repeat (destruct H as [H|H]; [injection H as <- <- <- <-; lia|]). destruct H. Qed.
Lemma documented_class_lt name cls : In (name, cls) documented_classes -> cls < 4.
Proof. cbn. intros H. repeat (destruct H as [H|H]; [injection H as <- <-; lia|]). destruct H. Qed.
Lemma documented_pc_lt name pc : In (name, pc) documented_pcs -> pc < 2.
Proof. cbn. intros H. repeat (destruct H as [H|H]; [injection H as <- <-; lia|]). destruct H. Qed.

Lemma base_octet a : values_ok a -> exists c p n, or_else (a_id a) 0x30 = c * 64 + p * 32 + n /\ c < 4 /\ p < 2 /\ n < 31.
Proof.
  intros (V & _). destruct (a_id a) as [v|]; cbn [or_else].
  - destruct (V v eq_refl) as (name & c & p & n & I & ->). exists c, p, n. apply documented_id_octet in I. auto.
  - exists 0, 1, 16. lia.
Qed.
Lemma class_of_lt a : values_ok a -> class_of a < 4.
Proof.
  intros V. destruct (base_octet a V) as (c & p & n & E & Hc & Hp & Hn). unfold class_of.
  destruct (a_tag_class a) as [v|] eqn:Ev; cbn [or_else].
  - destruct V as (_ & V & _). destruct (V v Ev) as (name & k & I & ->). apply documented_class_lt in I. lia.
  - rewrite E. lia.
Qed.
Lemma pc_of_lt a : pc_of a < 2.
Proof. unfold pc_of. lia. Qed.
Lemma id_slice_identifier a : values_ok a -> identifier (class_of a) (pc_of a) (number_of a) (id_slice a).
Proof.
  intros V. pose proof (class_of_lt a V) as Lc. pose proof (pc_of_lt a) as Lp.
  destruct (base_octet a V) as (c & p & n & E & Hc & Hp & Hn).
  set (o1 := match a_tag_class a with Some v => N.lor (N.land (or_else (a_id a) 0x30) 0x3f) v | None => or_else (a_id a) 0x30 end).
  assert (o1 = class_of a * 64 + p * 32 + n) as E1.
  { unfold o1, class_of. destruct (a_tag_class a) as [v|] eqn:Ev; cbn [or_else].
    - destruct V as (_ & V & _). destruct (V v Ev) as (name & k & I & ->). apply documented_class_lt in I.
      rewrite E, set_class_octet by lia. lia.
    - rewrite E. lia. }
  set (o2 := match a_tag_pc a with Some v => N.lor (N.land o1 0xdf) v | None => o1 end).
  assert (o2 = class_of a * 64 + pc_of a * 32 + n) as E2.
  { unfold o2, pc_of. destruct (a_tag_pc a) as [v|] eqn:Ev; cbn [or_else].
    - destruct V as (_ & _ & V & _). destruct (V v Ev) as (name & k & I & ->). apply documented_pc_lt in I.
      rewrite E1, set_pc_octet by lia. lia.
    - rewrite E1, E. lia. }
  assert (id_slice a = match a_tag_num a with
                       | Some tag_num =>
                           if tag_num <? 0x1f then [N.lor (N.land o2 0xe0) tag_num]
                           else N.lor o2 0x1f :: rev (set_more (tag_digits (N.size_nat tag_num) tag_num))
                       | None => [o2]
                       end) as ->.
  { unfold id_slice, Attribute_id, o2, o1. destruct (a_id a), (a_tag_class a), (a_tag_pc a), (a_tag_num a); reflexivity. }
  assert (number_of a = match a_tag_num a with Some m => m | None => n end) as ->.
  { unfold number_of. destruct (a_tag_num a); cbn [or_else]; [reflexivity|]. rewrite E. lia. }
  clearbody o2. clear o1 E1. destruct (a_tag_num a) as [m|].
  - destruct (N.ltb_spec m 0x1f).
    + rewrite set_num_octet by lia.
      replace (o2 / 64 * 64 + o2 / 32 mod 2 * 32 + m) with (class_of a * 64 + pc_of a * 32 + m) by lia. now apply id_short.
    + pose proof (size_fuel m) as F. pose proof (tag_digits_ok (N.size_nat m) m) as Hd.
      destruct (tag_digits_last _ m F) as (ds & d & Ed & D); [lia|].
      destruct (set_more_rev (tag_digits (N.size_nat m) m) Hd) as (hi & lo & R & ->); [rewrite Ed; now destruct ds|].
      rewrite long_octet by lia.
      replace (o2 / 64 * 64 + o2 / 32 mod 2 * 32 + 31) with (class_of a * 64 + pc_of a * 32 + 31) by lia.
      apply id_long; try assumption; rewrite <- ?R.
      * now apply Forall_rev.
      * rewrite Ed, rev_app_distr in R. cbn [rev app] in R. destruct hi as [|h hi]; cbn [app] in R; injection R as R _; cbn [hd]; congruence.
      * now apply tag_digits_value.
  - rewrite E2. now apply id_short.
Qed.
Lemma id_slice_new a c p : values_ok a -> class_num c = class_of a -> pc_num p = pc_of a ->
  Id_new c p (number_of a) = Ok (id_slice a).
Proof.
  intros V Ec Ep. destruct (Id_new_ok c p (number_of a)) as (bs & -> & I). rewrite Ec, Ep in I.
  now rewrite (identifier_fun _ _ _ _ _ I (id_slice_identifier a V)).
Qed.

(** ** Conflicts *)
Definition flag (a : attribute) (x : arg) : bool :=
  match x with
  | AId => is_some (a_id a) | ATagClass => is_some (a_tag_class a) | ATagPc => is_some (a_tag_pc a)
  | ATagNum => is_some (a_tag_num a)
  | ASkipSerializing => a_skip_serializing a | ASkipDeserializing => a_skip_deserializing a
  | ADefault => is_some (a_default a) | ASkip => a_skip a
  | AInto => is_some (a_into a) | AFrom => is_some (a_from a) | ATo => is_some (a_to a)
  | ATryFrom => is_some (a_try_from a) | ATransparent => a_transparent a
  end.
Lemma has_flag a x : has a x <-> flag a x = true.
Proof.
  unfold has, says, flag, is_some.
  destruct x;
    (split;
     [ intros (v & H); first [destruct H as (n & -> & _); reflexivity | apply H]
     | intros H; first
       [ match type of H with (match ?o with _ => _ end) = true => destruct o; [eauto | discriminate] end
       | now exists VNone ] ]).
Qed.
Definition args : list arg :=
  [AId; ATagClass; ATagPc; ATagNum; ASkipSerializing; ASkipDeserializing; ADefault; ASkip; AInto; AFrom; ATo; ATryFrom; ATransparent].
Definition arg_index (x : arg) : nat :=
  match x with
  | AId => 0 | ATagClass => 1 | ATagPc => 2 | ATagNum => 3 | ASkipSerializing => 4 | ASkipDeserializing => 5
  | ADefault => 6 | ASkip => 7 | AInto => 8 | AFrom => 9 | ATo => 10 | ATryFrom => 11 | ATransparent => 12
  end.
Lemma in_args x : In x args.
Proof. destruct x; cbn; tauto. Qed.
Lemma arg_eq_dec (x y : arg) : {x = y} + {x <> y}.
Proof. decide equality. Defined.
Lemma group_eq_dec (x y : group) : {x = y} + {x <> y}.
Proof. decide equality. Defined.
Lemma conflict_dec x y : {conflict x y} + {~ conflict x y}.
Proof.
  unfold conflict. destruct (group_eq_dec (group_of x) (group_of y)); [|left; tauto].
  destruct (arg_eq_dec x AFrom), (arg_eq_dec y ATryFrom), (arg_eq_dec x AInto), (arg_eq_dec y ATo);
    first [left; tauto | right; tauto].
Defined.
Lemma allowed_dec p x : {allowed p x} + {~ allowed p x}.
Proof. destruct p, x; cbn; (now left) || (now right; intros []). Defined.
Definition to_bool {P} (d : {P} + {~ P}) : bool := if d then true else false.
Lemma to_bool_iff {P} (d : {P} + {~ P}) : to_bool d = true <-> P.
Proof. destruct d; cbn; split; auto; discriminate. Qed.

(** The specification and the code on all sets of arguments. *)
Definition compatible_flags (f : arg -> bool) : bool :=
  forallb (fun x => if f x then forallb (fun y => if f y then negb (to_bool (conflict_dec x y)) else true) args else true) args.
Definition allowed_flags (p : position) (f : arg -> bool) : bool :=
  forallb (fun x => negb (f x) || to_bool (allowed_dec p x)) args.
Lemma compatible_flags_iff a : compatible_flags (flag a) = true <-> compatible a.
Proof.
  unfold compatible_flags, compatible. rewrite forallb_forall. split.
  - intros H x y Hx Hy C. apply has_flag in Hx, Hy. specialize (H x (in_args x)). rewrite Hx, forallb_forall in H.
    specialize (H y (in_args y)). rewrite Hy in H. rewrite (proj2 (to_bool_iff (conflict_dec x y)) C) in H. discriminate.
  - intros H x _. destruct (flag a x) eqn:Hx; [|reflexivity]. apply forallb_forall. intros y _.
    destruct (flag a y) eqn:Hy; [|reflexivity]. specialize (H x y). rewrite !has_flag in H.
    destruct (conflict_dec x y) as [C|]; [|reflexivity]. now destruct (H Hx Hy).
Qed.
Lemma allowed_flags_iff p a : allowed_flags p (flag a) = true <-> (forall x, has a x -> allowed p x).
Proof.
  unfold allowed_flags. rewrite forallb_forall. split.
  - intros H x Hx. specialize (H x (in_args x)). apply has_flag in Hx. rewrite Hx in H. now apply to_bool_iff in H.
  - intros H x _. specialize (H x). rewrite has_flag in H. destruct (flag a x); [|reflexivity]. cbn. apply to_bool_iff. auto.
Qed.
(** Functions of 13 booleans. *)
Fixpoint all_lists (n : nat) (P : list bool -> bool) : bool :=
  match n with O => P [] | S n' => all_lists n' (fun l => P (true :: l)) && all_lists n' (fun l => P (false :: l)) end.
Lemma all_lists_ok n : forall P l, all_lists n P = true -> length l = n -> P l = true.
Proof.
  induction n as [|n IH]; intros P l H L; (destruct l as [|b l]; [try discriminate|try discriminate]); [exact H|].
  cbn in H. apply andb_prop in H as [H1 H2]. injection L as L.
  destruct b; [exact (IH _ l H1 L) | exact (IH _ l H2 L)].
Qed.
Definition from_list (l : list bool) (x : arg) : bool := nth (arg_index x) l false.
Definition attr_of (f : arg -> bool) : attribute :=
  let o x := if f x then Some 0 else None in
  let s x := if f x then Some EmptyString else None in
  {| a_id := o AId; a_tag_class := o ATagClass; a_tag_pc := o ATagPc; a_tag_num := o ATagNum;
     a_skip_serializing := f ASkipSerializing; a_skip_deserializing := f ASkipDeserializing; a_default := s ADefault; a_skip := f ASkip;
     a_into := s AInto; a_from := s AFrom; a_to := s ATo; a_try_from := s ATryFrom; a_transparent := f ATransparent |}.
Definition flag_list (f : arg -> bool) : list bool := map f args.
Lemma is_some_if {A} (b : bool) (x : A) : is_some (if b then Some x else None) = b.
Proof. now destruct b. Qed.
Lemma by_flags (code : attribute -> bool) (spec : (arg -> bool) -> bool) :
  (forall a, code a = code (attr_of (from_list (flag_list (flag a))))) ->
  (forall a, spec (flag a) = spec (from_list (flag_list (flag a)))) ->
  all_lists 13 (fun l => Bool.eqb (code (attr_of (from_list l))) (spec (from_list l))) = true ->
  forall a, code a = spec (flag a).
Proof.
  intros C S H a. rewrite C, S. apply eqb_prop.
  exact (all_lists_ok 13 (fun l => Bool.eqb (code (attr_of (from_list l))) (spec (from_list l))) (flag_list (flag a)) H eq_refl).
Qed.
Lemma spec_compatible_ext a : compatible_flags (flag a) = compatible_flags (from_list (flag_list (flag a))).
Proof. reflexivity. Qed.
Lemma sanitize_flags a : sanitize a = compatible_flags (flag a).
Proof.
  revert a. apply by_flags.
  - intros a. unfold sanitize, ids, skips, conversions, attr_of. cbn [a_id a_tag_class a_tag_pc a_tag_num a_skip_serializing
      a_skip_deserializing a_default a_skip a_into a_from a_to a_try_from a_transparent]. rewrite !is_some_if. reflexivity.
  - intros a. apply spec_compatible_ext.
  - vm_compute. reflexivity.
Qed.
Lemma accepted_flags p a : accepted p a = allowed_flags p (flag a) && compatible_flags (flag a).
Proof.
  revert a. apply (by_flags (accepted p) (fun f => allowed_flags p f && compatible_flags f)).
  - intros a. destruct p; unfold accepted, sanitize_as_struct, sanitize_as_enum, sanitize_as_variant, sanitize_as_field,
      sanitize_as_container, sanitize, ids, skips, conversions, attr_of; cbn [a_id a_tag_class a_tag_pc a_tag_num a_skip_serializing
      a_skip_deserializing a_default a_skip a_into a_from a_to a_try_from a_transparent]; rewrite !is_some_if; reflexivity.
  - intros a. reflexivity.
  - destruct p; vm_compute; reflexivity.
Qed.
Lemma sanitize_iff a : sanitize a = true <-> compatible a.
Proof. rewrite sanitize_flags. apply compatible_flags_iff. Qed.
Lemma accepted_iff p a : accepted p a = true <-> (forall x, has a x -> allowed p x) /\ compatible a.
Proof. rewrite accepted_flags, andb_true_iff, allowed_flags_iff, compatible_flags_iff. reflexivity. Qed.
