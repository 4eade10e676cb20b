(** Lemmas about identifier octets. *)
From Verif Require Import Base ModelIo ModelTag Spec TagProofs.

Definition digits_ok (ds : list N) : Prop := Forall (fun d => d < 128) ds.

(** ** b128_value *)
Lemma b128_value_acc ds a :
  fold_left (fun a d => a * 128 + d) ds a = a * 128 ^ nlen ds + b128_value ds.
Proof.
  unfold b128_value. revert a. induction ds as [|d ds IH]; intros a; simpl.
  - rewrite nlen_nil. lia.
  - rewrite IH, (IH (0 * 128 + d)), nlen_cons, N.pow_add_r, N.pow_1_r.
    generalize (128 ^ nlen ds). intros. lia.
Qed.
Lemma b128_value_cons d ds : b128_value (d :: ds) = d * 128 ^ nlen ds + b128_value ds.
Proof. unfold b128_value at 1. simpl fold_left. rewrite b128_value_acc. lia. Qed.
Lemma b128_value_snoc ds d : b128_value (ds ++ [d]) = b128_value ds * 128 + d.
Proof. unfold b128_value. rewrite fold_left_app. reflexivity. Qed.
Lemma b128_value_bound ds : digits_ok ds -> b128_value ds < 128 ^ nlen ds.
Proof.
  induction ds as [|d ds IH]; intros H.
  - reflexivity.
  - inversion H as [|? ? Hd H']; subst. rewrite b128_value_cons, nlen_cons, N.pow_add_r, N.pow_1_r.
    specialize (IH H'). nia.
Qed.
Lemma b128_inj ds ds' :
  digits_ok ds -> digits_ok ds' -> nlen ds = nlen ds' -> b128_value ds = b128_value ds' -> ds = ds'.
Proof.
  revert ds'. induction ds as [|d ds IH] using rev_ind; intros ds' H H' L V.
  - symmetry. apply nlen_zero. now rewrite <- L.
  - destruct ds' as [|d' ds' _] using rev_ind.
    { rewrite nlen_app, nlen_cons, nlen_nil in L. lia. }
    rewrite !nlen_app, !nlen_cons, !nlen_nil in L. rewrite !b128_value_snoc in V.
    apply Forall_app in H as [H Hd]. apply Forall_app in H' as [H' Hd'].
    inversion Hd; inversion Hd'; subst.
    assert (d = d') by lia. subst d'. f_equal. apply IH; auto; lia.
Qed.
(** The number of digits is determined by the value when the first is not 0. *)
Lemma b128_len_mono d ds d' ds' :
  digits_ok (d :: ds) -> digits_ok (d' :: ds') -> d <> 0 ->
  b128_value (d :: ds) = b128_value (d' :: ds') -> nlen (d :: ds) <= nlen (d' :: ds').
Proof.
  intros H H' Hd V.
  destruct (N.le_gt_cases (nlen (d :: ds)) (nlen (d' :: ds'))) as [|G]; [assumption|exfalso].
  pose proof (b128_value_bound _ H') as B.
  rewrite <- V, b128_value_cons in B. rewrite (nlen_cons d ds) in G.
  assert (128 ^ nlen (d' :: ds') <= 128 ^ nlen ds) by (apply N.pow_le_mono_r; lia). nia.
Qed.
Lemma b128_canon_inj ds ds' :
  digits_ok ds -> digits_ok ds' -> ds <> [] -> ds' <> [] -> hd 0 ds <> 0 -> hd 0 ds' <> 0 ->
  b128_value ds = b128_value ds' -> ds = ds'.
Proof.
  intros H H' N0 N0' Hd Hd' V. destruct ds as [|d ds]; [congruence|]. destruct ds' as [|d' ds']; [congruence|].
  apply b128_inj; auto. simpl in *.
  apply N.le_antisymm; apply b128_len_mono; auto.
Qed.

(** ** The shape of a valid identifier *)
(** octets after a first octet with low bits 11111 *)
Definition groups (hi : list N) (lo : N) : list N := map (fun d => 128 + d) hi ++ [lo].

Lemma groups_cons d hi lo : groups (d :: hi) lo = (128 + d) :: groups hi lo.
Proof. reflexivity. Qed.
Lemma groups_len hi lo : nlen (groups hi lo) = nlen hi + 1.
Proof. unfold groups. rewrite nlen_app, nlen_map, nlen_cons, nlen_nil. lia. Qed.
Lemma groups_prefix hi lo hi' lo' r r' :
  digits_ok hi -> digits_ok hi' -> lo < 128 -> lo' < 128 ->
  groups hi lo ++ r = groups hi' lo' ++ r' -> hi = hi' /\ lo = lo' /\ r = r'.
Proof.
  revert hi'. induction hi as [|d hi IH]; intros hi' H H' Hl Hl' E; destruct hi' as [|d' hi'];
    unfold groups in E; cbn [map app] in E; apply cons_inj in E as [E1 E].
  - subst; auto.
  - exfalso; lia.
  - exfalso; lia.
  - inversion H; inversion H'; subst.
    destruct (IH hi') as (-> & -> & ->); auto. assert (d = d') by lia. subst; auto.
Qed.
Lemma groups_ok hi lo : digits_ok hi -> lo < 128 -> bytes_ok (groups hi lo).
Proof.
  intros H Hl. unfold groups. apply bytes_ok_app. split.
  - apply Forall_map. eapply Forall_impl; [|exact H]. unfold is_byte. simpl. intros; lia.
  - apply bytes_ok_cons. split; [lia|constructor].
Qed.
Lemma groups_value_masked hi lo :
  digits_ok hi -> lo < 128 -> map (fun o => o mod 128) (groups hi lo) = hi ++ [lo].
Proof.
  intros H Hl. unfold groups. rewrite map_app. simpl. f_equal; [|now rewrite N.mod_small].
  rewrite map_map. induction H as [|d hi Hd H IH]; [reflexivity|]. simpl. f_equal; [lia | exact IH].
Qed.

(** A uniform view of the two constructors. *)
Definition id_long_form (f : N) (hi : list N) (lo : N) : Prop :=
  f < 256 /\ f mod 32 = 31 /\ digits_ok hi /\ lo < 128 /\ hd lo hi <> 0 /\ 31 <= b128_value (hi ++ [lo]).

Lemma is_identifier_cases bs :
  is_identifier bs <->
  (exists f, f < 256 /\ f mod 32 <> 31 /\ bs = [f]) \/
  (exists f hi lo, id_long_form f hi lo /\ bs = f :: groups hi lo).
Proof.
  split.
  - intros (c & p & n & H). destruct H as [Hc Hp Hn|hi lo Hc Hp Hn Hd Hh Hv].
    + left. exists (c * 64 + p * 32 + n). repeat split; lia.
    + right. apply Forall_app in Hd as [Hd Hl]. inversion Hl; subst.
      exists (c * 64 + p * 32 + 31), hi, lo. split; [|reflexivity].
      repeat split; auto; lia.
  - intros [(f & Hf & Hm & ->)|(f & hi & lo & (Hf & Hm & Hd & Hl & Hh & Hv) & ->)].
    + exists (f / 64), (f / 32 mod 2), (f mod 32).
      replace f with (f / 64 * 64 + f / 32 mod 2 * 32 + f mod 32) at 4 by lia.
      apply id_short; lia.
    + exists (f / 64), (f / 32 mod 2), (b128_value (hi ++ [lo])).
      replace f with (f / 64 * 64 + f / 32 mod 2 * 32 + 31) at 3 by lia.
      apply id_long; auto; try lia. apply Forall_app; auto.
Qed.

Lemma is_identifier_ok bs : is_identifier bs -> bytes_ok bs.
Proof.
  intros H. apply is_identifier_cases in H as [(f & Hf & Hm & ->)|(f & hi & lo & (Hf & Hm & Hd & Hl & Hh & Hv) & ->)].
  - apply bytes_ok_cons; split; [assumption|constructor].
  - apply bytes_ok_cons; split; [assumption|]. now apply groups_ok.
Qed.

Lemma is_identifier_nonempty bs : is_identifier bs -> bs <> [].
Proof. intros (c & p & n & H) ->. inversion H. Qed.

Lemma is_identifier_prefix a b r s : is_identifier a -> is_identifier b -> a ++ r = b ++ s -> a = b /\ r = s.
Proof.
  intros Ha Hb E.
  apply is_identifier_cases in Ha as [(f & Hf & Hm & ->)|(f & hi & lo & (Hf & Hm & Hd & Hl & Hh & Hv) & ->)];
  apply is_identifier_cases in Hb as [(f' & Hf' & Hm' & ->)|(f' & hi' & lo' & (Hf' & Hm' & Hd' & Hl' & Hh' & Hv') & ->)];
    cbn [app] in E; apply cons_inj in E as [E1 E]; subst.
  - auto.
  - contradiction.
  - contradiction.
  - destruct (groups_prefix hi lo hi' lo' r s) as (-> & -> & ->); auto.
Qed.

(** ** parse_id on slices *)
Lemma pbind_write {S A} b (k : unit -> parser S A) s w : pbind (write_u8 b) k (s, w) = k tt (s, w ++ [b]).
Proof. reflexivity. Qed.
Lemma pbind_read_cons {A} (k : N -> parser (list N) A) b s w : pbind (read_u8 slice_reader) k (b :: s, w) = k b (s, w).
Proof. reflexivity. Qed.
Lemma pbind_read_nil {A} (k : N -> parser (list N) A) w :
  pbind (read_u8 slice_reader) k ([], w) = (Err UnterminatedBytes, ([], w)).
Proof. reflexivity. Qed.
Lemma parse_id_loop_slice fuel : forall i o s w,
  bytes_ok (o :: s) -> (length s < fuel)%nat ->
  (exists hi lo rest, o :: s = groups hi lo ++ rest /\ digits_ok hi /\ lo < 128 /\
     parse_id_loop slice_reader fuel i o (s, w) = (Ok (i + nlen hi), (rest, w ++ groups hi lo)))
  \/ (Forall (fun x => 128 <= x) (o :: s) /\
      exists w', parse_id_loop slice_reader fuel i o (s, w) = (Err UnterminatedBytes, ([], w'))).
Proof.
  induction fuel as [|fuel IH]; intros i o s w Hok Hf; [lia|].
  apply bytes_ok_cons in Hok as [Ho Hok].
  cbn [parse_id_loop]. rewrite pbind_write.
  unfold MORE_FLAG. rewrite land_80 by assumption.
  destruct (N.leb_spec 128 o) as [H|H]; cbn [negb].
  - destruct s as [|b s].
    + rewrite pbind_read_nil. right. split; [constructor; [assumption|constructor]|]. eexists; reflexivity.
    + rewrite pbind_read_cons. simpl in Hf.
      destruct (IH (i + 1) b s (w ++ [o]) Hok) as [(hi & lo & rest & E & Hd & Hl & ->)|(Hall & w' & ->)]; [lia| |].
      * left. exists (o - 128 :: hi), lo, rest. repeat split; auto.
        -- rewrite groups_cons. cbn [app]. rewrite <- E. f_equal. lia.
        -- constructor; [lia|assumption].
        -- rewrite nlen_cons, groups_cons, <- app_assoc. cbn [app].
           replace (128 + (o - 128)) with o by lia. do 2 f_equal. lia.
      * right. split; [constructor; assumption|]. eexists; reflexivity.
  - left. exists [], o, s. repeat split; auto; [constructor|].
    unfold pret. rewrite nlen_nil, N.add_0_r. reflexivity.
Qed.

Inductive id_outcome (bs : list N) : res N * (list N * list N) -> Prop :=
| io_ok id rest : is_identifier id -> bs = id ++ rest -> id_outcome bs (Ok (nlen id), (rest, id))
| io_err e st : identifier_error bs e -> id_outcome bs (Err e, st).

Lemma parse_id_slice bs fuel :
  bytes_ok bs -> (length bs <= fuel)%nat -> id_outcome bs (parse_id slice_reader fuel (bs, [])).
Proof.
  intros Hok Hfuel. unfold parse_id. unfold pbind at 1. destruct bs as [|f bs].
  { rewrite read_u8_nil. constructor. constructor. }
  apply bytes_ok_cons in Hok as [Hf Hok].
  rewrite read_u8_cons. unfold pbind at 1. unfold write_u8 at 1. cbv beta iota.
  unfold ID_LONG_FLAG. rewrite land_1f by assumption.
  destruct (N.eqb_spec (f mod 32) 0x1f) as [Hm|Hm]; cbn [negb].
  2:{ unfold pret. change 1 with (nlen [f]). apply io_ok; [|reflexivity].
      apply is_identifier_cases. left. eauto. }
  unfold pbind at 1. destruct bs as [|o bs].
  { rewrite read_u8_nil. constructor. apply ie_truncated; [assumption | constructor | discriminate]. }
  rewrite read_u8_cons. unfold ID_MAX_SHORT, ID_LONG_FLAG, MORE_FLAG.
  destruct (N.leb_spec o (0x1f - 1)) as [Ho|Ho].
  { constructor. apply ie_redundant; [assumption | left; lia]. }
  destruct (N.eqb_spec o 0x80) as [Ho2|Ho2].
  { constructor. apply ie_redundant; [assumption | right; lia]. }
  simpl in Hfuel.
  destruct (parse_id_loop_slice fuel 2 o bs ([] ++ [f]) Hok) as [(hi & lo & rest & E & Hd & Hl & ->)|(Hall & w' & ->)]; [lia| |].
  - rewrite E. replace (2 + nlen hi) with (nlen (f :: groups hi lo)).
    2:{ rewrite nlen_cons, groups_len. lia. }
    apply (io_ok (f :: groups hi lo ++ rest) (f :: groups hi lo)); [|reflexivity].
    apply is_identifier_cases. right. exists f, hi, lo. split; [|reflexivity].
    assert (hd lo hi <> 0 /\ 31 <= b128_value (hi ++ [lo])) as [].
    { destruct hi as [|d hi]; unfold groups in E; cbn [map app] in E; apply cons_inj in E as [E1 E].
      - subst o. simpl. unfold b128_value. simpl. lia.
      - simpl. split; [lia|]. rewrite b128_value_cons, nlen_app, nlen_cons, nlen_nil.
        assert (128 ^ 1 <= 128 ^ (nlen hi + (1 + 0))) by (apply N.pow_le_mono_r; lia).
        rewrite N.pow_1_r in *. nia. }
    repeat split; auto.
  - constructor. apply ie_truncated; auto.
Qed.

Lemma identifier_not_error id r e : is_identifier id -> ~ identifier_error (id ++ r) e.
Proof.
  intros H HE. apply is_identifier_cases in H as [(f & Hf & Hm & ->)|(f & hi & lo & (Hf & Hm & Hd & Hl & Hh & Hv) & ->)].
  - cbn [app] in HE. inversion HE; subst; contradiction.
  - cbn [app] in HE. inversion HE as [|f' s t Hm' Hs|f' t Hm' Ht Hh']; subst.
    + destruct hi as [|d hi]; cbn [groups map app] in *.
      * simpl in *. unfold groups in *. cbn [map app] in *.
        match goal with H : _ :: _ = _ :: _ |- _ => apply cons_inj in H as [-> _] end.
        unfold b128_value in Hv. simpl in Hv. lia.
      * match goal with H : _ :: _ = _ :: _ |- _ => apply cons_inj in H as [E1 _] end.
        inversion Hd; subst. simpl in Hh. lia.
    + unfold groups in Ht. rewrite <- app_assoc in Ht. apply Forall_app in Ht as [_ Ht].
      inversion Ht; subst. lia.
Qed.

Lemma identifier_error_fun bs e e' : identifier_error bs e -> identifier_error bs e' -> e = e'.
Proof.
  intros H H'.
  destruct H as [|f s t Hm Hs|f t Hm Ht Hh]; inversion H' as [|f' s' t' Hm' Hs'|f' t' Hm' Ht' Hh']; subst; auto.
  - exfalso. inversion Ht'; subst. simpl in Hh'. lia.
  - exfalso. inversion Ht; subst. simpl in Hh. lia.
Qed.

Lemma parse_id_ok id rest w fuel :
  is_identifier id -> bytes_ok rest -> (length (id ++ rest) <= fuel)%nat ->
  parse_id slice_reader fuel (id ++ rest, w) = (Ok (nlen id), (rest, w ++ id)).
Proof.
  intros H Hr Hf. rewrite framed_parse_id.
  assert (Hok : bytes_ok (id ++ rest)) by (apply bytes_ok_app; split; [now apply is_identifier_ok | assumption]).
  pose proof (parse_id_slice _ _ Hok Hf) as O.
  destruct (parse_id slice_reader fuel (id ++ rest, [])) as [r [s' w']]. inversion O as [id' rest' Hi E|e st HE]; subst.
  - destruct (is_identifier_prefix id w' rest s') as [-> ->]; auto.
  - exfalso. eapply identifier_not_error; eauto.
Qed.
Lemma parse_id_error bs e w fuel :
  bytes_ok bs -> (length bs <= fuel)%nat -> identifier_error bs e ->
  exists st, parse_id slice_reader fuel (bs, w) = (Err e, st).
Proof.
  intros Hok Hf H. rewrite framed_parse_id. pose proof (parse_id_slice _ _ Hok Hf) as O.
  destruct (parse_id slice_reader fuel (bs, [])) as [r [s' w']]. inversion O as [id' rest' Hi E|e' st HE]; subst.
  - exfalso. eapply identifier_not_error; eauto.
  - replace e' with e by (eapply identifier_error_fun; eauto). eauto.
Qed.

(** Every octet string either starts with an identifier or has an error. *)
Lemma identifier_total bs : bytes_ok bs ->
  (exists id rest, is_identifier id /\ bs = id ++ rest) \/ (exists e, identifier_error bs e).
Proof.
  intros Hok. pose proof (parse_id_slice bs (length bs) Hok (le_n _)) as O.
  inversion O; eauto.
Qed.
Lemma length_total bs : bytes_ok bs ->
  (exists rest, bs = 0x80 :: rest) \/
  (exists n l rest, minimal_length n l /\ n < 2 ^ 64 /\ bs = l ++ rest) \/ (exists e, length_error bs e).
Proof.
  intros Hok. pose proof (parse_length_slice bs Hok) as O.
  inversion O; eauto 10.
Qed.

(** ** Accessors *)
Definition class_num (c : class_tag) : N :=
  match c with Universal => 0 | Application => 1 | ContextSpecific => 2 | Private => 3 end.
Definition pc_num (p : pc_tag) : N := match p with Primitive => 0 | Constructed => 1 end.

Lemma class_u8_num c : class_u8 c = class_num c * 64.
Proof. now destruct c. Qed.
Lemma pc_u8_num p : pc_u8 p = pc_num p * 32.
Proof. now destruct p. Qed.
Lemma class_num_lt c : class_num c < 4.
Proof. destruct c; simpl; lia. Qed.
Lemma pc_num_lt p : pc_num p < 2.
Proof. destruct p; simpl; lia. Qed.
Lemma class_num_inj c d : class_num c = class_num d -> c = d.
Proof. destruct c, d; simpl; intros; try reflexivity; lia. Qed.
Lemma pc_num_inj c d : pc_num c = pc_num d -> c = d.
Proof. destruct c, d; simpl; intros; try reflexivity; lia. Qed.
Lemma class_num_surj n : n < 4 -> exists c, class_num c = n.
Proof.
  intros H. destruct (N.eq_dec n 0) as [->|]; [exists Universal; reflexivity|].
  destruct (N.eq_dec n 1) as [->|]; [exists Application; reflexivity|].
  destruct (N.eq_dec n 2) as [->|]; [exists ContextSpecific; reflexivity|].
  exists Private. simpl. lia.
Qed.
Lemma pc_num_surj n : n < 2 -> exists c, pc_num c = n.
Proof.
  intros H. destruct (N.eq_dec n 0) as [->|]; [exists Primitive; reflexivity|].
  exists Constructed. simpl. lia.
Qed.

Lemma identifier_first c p n bs : identifier c p n bs ->
  c < 4 /\ p < 2 /\ exists b0 t, bs = b0 :: t /\ b0 = c * 64 + p * 32 + (if n <? 31 then n else 31) /\ b0 < 256.
Proof.
  intros H. destruct H as [Hc Hp Hn|hi lo Hc Hp Hn Hd Hh Hv]; repeat split; auto.
  - exists (c * 64 + p * 32 + n), []. repeat split; [|lia]. destruct (N.ltb_spec n 31); lia.
  - exists (c * 64 + p * 32 + 31), (groups hi lo). repeat split; [|lia]. destruct (N.ltb_spec n 31); lia.
Qed.

Lemma IdRef_class_ok c p n bs : identifier (class_num c) p n bs -> IdRef_class bs = Ok c.
Proof.
  intros H. apply identifier_first in H as (Hc & Hp & b0 & t & -> & E & Hb).
  unfold IdRef_class, id_class_is, CLASS_MASK, rbind. rewrite land_c0 by assumption.
  assert (E2 : b0 / 64 * 64 = class_u8 c) by (rewrite class_u8_num; destruct (n <? 31) eqn:?; lia).
  rewrite E2. now destruct c.
Qed.
Lemma IdRef_pc_ok c p n bs : identifier c (pc_num p) n bs -> IdRef_pc bs = Ok p.
Proof.
  intros H. apply identifier_first in H as (Hc & Hp & b0 & t & -> & E & Hb).
  unfold IdRef_pc, IdRef_is_pc, PC_MASK, rbind. rewrite land_20 by assumption.
  assert (E2 : b0 / 32 mod 2 * 32 = pc_u8 p) by (rewrite pc_u8_num; destruct (n <? 31) eqn:?; lia).
  rewrite E2. now destruct p.
Qed.

Lemma number_loop_spec os ret :
  bytes_ok os -> ret < u128_limit ->
  number_loop os ret =
    (let v := ret * 128 ^ nlen os + b128_value (map (fun o => o mod 128) os) in
     if v <? u128_limit then Ok v else Err OverFlow).
Proof.
  revert ret. induction os as [|o os IH]; intros ret Hok Hr; cbn [number_loop map].
  - rewrite nlen_nil, N.pow_0_r. cbv zeta.
    replace (ret * 1 + b128_value []) with ret by (unfold b128_value; simpl; lia).
    destruct (N.ltb_spec ret u128_limit); [reflexivity | lia].
  - apply bytes_ok_cons in Hok as [Ho Hok].
    change (not_u8 MORE_FLAG) with 0x7f. rewrite land_7f by assumption. cbv zeta.
    rewrite b128_value_cons, nlen_cons, nlen_map, N.pow_add_r, N.pow_1_r.
    assert (Hp : 0 < 128 ^ nlen os) by (apply N.neq_0_lt_0, N.pow_nonzero; lia).
    set (P := 128 ^ nlen os) in *. set (V := b128_value (map _ os)).
    destruct (N.leb_spec u128_limit (ret * 128)) as [H|H].
    + destruct (N.ltb_spec (ret * (128 * P) + (o mod 128 * P + V)) u128_limit) as [L|L]; [exfalso; nia | reflexivity].
    + assert (H2 : ret * 128 + o mod 128 < u128_limit).
      { unfold u128_limit in *. replace (2 ^ 128) with (2 ^ 121 * 128) in * by reflexivity. lia. }
      destruct (N.leb_spec u128_limit (ret * 128 + o mod 128)); [lia|].
      rewrite IH by assumption. cbv zeta. fold P V.
      replace ((ret * 128 + o mod 128) * P + V) with (ret * (128 * P) + (o mod 128 * P + V)) by lia.
      reflexivity.
Qed.

Lemma IdRef_number_spec c p n bs : identifier c p n bs ->
  IdRef_number bs = if n <? u128_limit then Ok n else Err OverFlow.
Proof.
  intros H. destruct H as [Hc Hp Hn|hi lo Hc Hp Hn Hd Hh Hv].
  - simpl. unfold ID_LONG_FLAG. rewrite land_1f by lia.
    destruct (N.ltb_spec n u128_limit) as [|G]; [f_equal; lia | unfold u128_limit in G; lia].
  - apply Forall_app in Hd as [Hd Hl]. inversion Hl; subst.
    change (map (fun d => 128 + d) hi ++ [lo]) with (groups hi lo).
    unfold IdRef_number.
    destruct (groups hi lo) as [|g gs] eqn:E.
    { pose proof (groups_len hi lo) as L. rewrite E, nlen_nil in L. lia. }
    rewrite <- E. unfold ID_LONG_FLAG. rewrite land_1f by lia.
    destruct (N.eqb_spec ((c * 64 + p * 32 + 31) mod 32) 0x1f); [|lia]. cbn [negb].
    rewrite number_loop_spec; [|now apply groups_ok | unfold u128_limit; lia].
    rewrite groups_value_masked by assumption. cbv zeta. rewrite N.mul_0_l, N.add_0_l. reflexivity.
Qed.

(** ** Building identifiers *)
(** The [k] least significant base-128 digits, most significant first. *)
Fixpoint b128_digits (k : nat) (n : N) : list N :=
  match k with O => [] | S k' => b128_digits k' (n / 128) ++ [n mod 128] end.

Lemma b128_digits_len k n : nlen (b128_digits k n) = N.of_nat k.
Proof.
  revert n. induction k as [|k IH]; intros n; simpl; [reflexivity|].
  rewrite nlen_app, IH, nlen_cons, nlen_nil. lia.
Qed.
Lemma b128_digits_ok k n : digits_ok (b128_digits k n).
Proof.
  revert n. induction k as [|k IH]; intros n; simpl; [constructor|].
  apply Forall_app. split; [apply IH|]. constructor; [lia | constructor].
Qed.
Lemma b128_digits_value k n : b128_value (b128_digits k n) = n mod 128 ^ N.of_nat k.
Proof.
  revert n. induction k as [|k IH]; intros n; simpl b128_digits.
  - rewrite N.pow_0_r, N.mod_1_r. reflexivity.
  - rewrite b128_value_snoc, IH.
    replace (N.of_nat (S k)) with (1 + N.of_nat k) by lia.
    rewrite N.pow_add_r, N.pow_1_r, N.mod_mul_r by (try apply N.pow_nonzero; lia). lia.
Qed.
Lemma b128_digits_S k n : b128_digits (S k) n = (n / 128 ^ N.of_nat k) mod 128 :: b128_digits k n.
Proof.
  revert n. induction k as [|k IH]; intros n.
  - simpl b128_digits. rewrite N.pow_0_r, N.div_1_r. reflexivity.
  - change (b128_digits (S (S k)) n) with (b128_digits (S k) (n / 128) ++ [n mod 128]).
    rewrite IH. rewrite N.div_div by (try apply N.pow_nonzero; lia).
    change (b128_digits (S k) n) with (b128_digits k (n / 128) ++ [n mod 128]).
    replace (N.of_nat (S k)) with (1 + N.of_nat k) by lia.
    now rewrite N.pow_add_r, N.pow_1_r.
Qed.
Lemma pow128 k : 128 ^ k = 2 ^ (7 * k).
Proof. change 128 with (2 ^ 7). now rewrite <- N.pow_mul_r. Qed.
Lemma number_bytes_len_bounds n :
  0 < n -> 0 < number_bytes_len n /\ 128 ^ (number_bytes_len n - 1) <= n < 128 ^ number_bytes_len n.
Proof.
  intros H. pose proof (size_bounds n H) as [H1 H2].
  assert (Hs : 0 < N.size n) by (destruct n; [lia | unfold N.size; lia]).
  unfold number_bytes_len. rewrite !pow128. split; [lia|]. split.
  - eapply N.le_trans; [|exact H1]. apply N.pow_le_mono_r; lia.
  - eapply N.lt_le_trans; [exact H2|]. apply N.pow_le_mono_r; lia.
Qed.

Lemma id_fill_spec k : forall num acc,
  id_fill k num acc = (map (fun d => 128 + d) (b128_digits k num) ++ acc, num / 128 ^ N.of_nat k).
Proof.
  induction k as [|k IH]; intros num acc; simpl id_fill.
  - rewrite N.pow_0_r, N.div_1_r. reflexivity.
  - rewrite IH. simpl b128_digits. rewrite map_app, <- app_assoc. simpl.
    rewrite N.shiftr_div_pow2. change (2 ^ 7) with 128. unfold as_u8, MORE_FLAG.
    rewrite lor_80 by lia. f_equal.
    + do 3 f_equal. replace (num mod 256 mod 128) with (num mod 128) by lia. reflexivity.
    + rewrite N.div_div by (try apply N.pow_nonzero; lia).
      f_equal. rewrite <- N.pow_succ_r'. f_equal. lia.
Qed.
Lemma map_last_snoc f l x : map_last f (l ++ [x]) = Some (l ++ [f x]).
Proof.
  induction l as [|y l IH]; [reflexivity|]. simpl. rewrite IH.
  destruct (l ++ [x]) eqn:E; [destruct l; discriminate | reflexivity].
Qed.

(** What the base-128 encoders produce. *)
Lemma id_long_encode c p n f :
  c < 4 -> p < 2 -> 31 <= n ->
  (forall o, 128 <= o < 256 -> f o = o - 128) ->
  exists bs,
    map_last f (c * 64 + p * 32 + 31 :: fst (id_fill (N.to_nat (number_bytes_len n)) n [])) = Some bs
    /\ identifier c p n bs /\ snd (id_fill (N.to_nat (number_bytes_len n)) n []) = 0.
Proof.
  intros Hc Hp Hn Hfo. rewrite id_fill_spec. simpl fst. simpl snd. rewrite app_nil_r.
  destruct (number_bytes_len_bounds n) as (Hb & H1 & H2); [lia|].
  rewrite N2Nat.id.
  destruct (N.to_nat (number_bytes_len n)) as [|k] eqn:Ek; [lia|].
  pose proof (b128_digits_value (S k) n) as HV.
  pose proof (b128_digits_ok (S k) n) as HO.
  pose proof (b128_digits_S k n) as HS.
  pose proof (b128_digits_len (S k) n) as HL.
  assert (Hkp : N.of_nat k = number_bytes_len n - 1) by lia.
  assert (HkS : 128 ^ number_bytes_len n = 128 * 128 ^ N.of_nat k).
  { rewrite <- N.pow_succ_r'. f_equal. lia. }
  assert (Hpk : 0 < 128 ^ N.of_nat k) by (apply N.neq_0_lt_0, N.pow_nonzero; lia).
  assert (Hd : n / 128 ^ N.of_nat k < 128) by (apply N.div_lt_upper_bound; lia).
  assert (Hd1 : 1 <= n / 128 ^ N.of_nat k).
  { apply N.div_le_lower_bound; [lia|]. rewrite Hkp. lia. }
  rewrite N.mod_small in HV by (replace (N.of_nat (S k)) with (number_bytes_len n) by lia; exact H2).
  rewrite (N.mod_small _ 128) in HS by exact Hd.
  destruct (b128_digits (S k) n) as [|lo hi _] eqn:ED using rev_ind.
  { rewrite nlen_nil in HL. lia. }
  exists (c * 64 + p * 32 + 31 :: map (fun d => 128 + d) hi ++ [lo]).
  apply Forall_app in HO as [HO1 HO2]. inversion HO2 as [|? ? Hlo _].
  repeat split.
  - rewrite map_app. cbn [map]. rewrite app_comm_cons, map_last_snoc. rewrite Hfo by lia.
    cbn [app]. do 4 f_equal. lia.
  - apply id_long; auto.
    + apply Forall_app; split; assumption.
    + destruct hi as [|d hi]; cbn [app hd] in HS |- *; apply cons_inj in HS as [HS _]; lia.
  - apply N.div_small. exact H2.
Qed.

Lemma xor_clear o : 128 <= o < 256 -> N.lxor o MORE_FLAG = o - 128.
Proof. intros [H1 H2]. now apply lxor_80. Qed.
Lemma and_clear o : 128 <= o < 256 -> N.land o (not_u8 MORE_FLAG) = o - 128.
Proof. intros [H1 H2]. change (not_u8 MORE_FLAG) with 0x7f. rewrite land_7f by assumption. lia. Qed.

Lemma u8_add3_ok c p k : k < 32 ->
  u8_add3 (class_u8 c) (pc_u8 p) k = Ok (class_num c * 64 + pc_num p * 32 + k).
Proof.
  intros H. unfold u8_add3. rewrite class_u8_num, pc_u8_num.
  pose proof (class_num_lt c). pose proof (pc_num_lt p).
  destruct (N.ltb_spec (class_num c * 64 + pc_num p * 32 + k) 256); [reflexivity | lia].
Qed.

Lemma Id_new_ok c p n : exists bs, Id_new c p n = Ok bs /\ identifier (class_num c) (pc_num p) n bs.
Proof.
  unfold Id_new. pose proof (class_num_lt c). pose proof (pc_num_lt p).
  unfold ID_MAX_SHORT. destruct (N.leb_spec n (ID_LONG_FLAG - 1)) as [H1|H1]; unfold ID_LONG_FLAG in *.
  - unfold as_u8. rewrite N.mod_small by lia. rewrite u8_add3_ok by lia. cbn [rbind].
    eexists. split; [reflexivity|]. apply id_short; lia.
  - rewrite u8_add3_ok by lia. cbn [rbind].
    destruct (id_long_encode (class_num c) (pc_num p) n (fun o => N.lxor o MORE_FLAG)) as (bs & -> & Hi & _);
      auto; try lia. { apply xor_clear. }
    eauto.
Qed.

Lemma Id_set_number_ok c p n m bs : identifier (class_num c) (pc_num p) n bs ->
  exists bs', Id_set_number m bs = Ok bs' /\ identifier (class_num c) (pc_num p) m bs'.
Proof.
  intros H. pose proof (class_num_lt c). pose proof (pc_num_lt p).
  unfold Id_set_number. rewrite (IdRef_class_ok _ _ _ _ H). cbn [rbind]. rewrite (IdRef_pc_ok _ _ _ _ H).
  cbn [rbind]. unfold ID_MAX_SHORT. destruct (N.leb_spec m (ID_LONG_FLAG - 1)) as [H1'|H1']; unfold ID_LONG_FLAG in *.
  - unfold as_u8. rewrite N.mod_small by lia. rewrite u8_add3_ok by lia. cbn [rbind].
    eexists. split; [reflexivity|]. apply id_short; lia.
  - rewrite u8_add3_ok by lia. cbn [rbind].
    destruct (id_long_encode (class_num c) (pc_num p) m (fun o => N.land o (not_u8 MORE_FLAG))) as (bs' & E & Hi & Hz);
      auto; try lia. { apply and_clear. }
    destruct (id_fill (N.to_nat (number_bytes_len m)) m []) as [octets z]. simpl in *. subst z.
    change (0 =? 0) with true. cbn [negb]. rewrite E. eauto.
Qed.

Lemma identifier_inj c p n c' p' n' bs : identifier c p n bs -> identifier c' p' n' bs -> c = c' /\ p = p' /\ n = n'.
Proof.
  intros H H'. destruct H as [Hc Hp Hn|hi lo Hc Hp Hn Hd Hh Hv].
  - remember [c * 64 + p * 32 + n] as bs eqn:E.
    destruct H' as [Hc' Hp' Hn'|hi' lo' Hc' Hp' Hn' Hd' Hh' Hv']; apply cons_inj in E as [E1 E]; [repeat split; lia|].
    exfalso. destruct hi'; discriminate.
  - remember (c * 64 + p * 32 + 31 :: map (fun d => 128 + d) hi ++ [lo]) as bs eqn:E.
    destruct H' as [Hc' Hp' Hn'|hi' lo' Hc' Hp' Hn' Hd' Hh' Hv']; apply cons_inj in E as [E1 E].
    { exfalso. destruct hi; discriminate. }
    apply Forall_app in Hd as [Hd Hl]. apply Forall_app in Hd' as [Hd' Hl'].
    inversion Hl; inversion Hl'; subst.
    destruct (groups_prefix hi' lo' hi lo [] []) as (-> & -> & _); auto.
    { unfold groups. now rewrite E. }
    repeat split; lia.
Qed.
Lemma identifier_fun c p n bs bs' : identifier c p n bs -> identifier c p n bs' -> bs = bs'.
Proof.
  intros H H'. destruct H as [Hc Hp Hn|hi lo Hc Hp Hn Hd Hh Hv].
  - inversion H' as [Hc' Hp' Hn'|hi' lo' Hc' Hp' Hn' Hd' Hh' Hv']; [reflexivity | lia].
  - inversion H' as [Hc' Hp' Hn'|hi' lo' Hc' Hp' Hn' Hd' Hh' Hv']; [lia|].
    assert (EE : hi ++ [lo] = hi' ++ [lo']).
    { apply b128_canon_inj; auto.
      - destruct hi; discriminate.
      - destruct hi'; discriminate.
      - destruct hi; simpl in *; auto.
      - destruct hi'; simpl in *; auto.
      - congruence. }
    apply app_inj_tail in EE as [-> ->]. reflexivity.
Qed.

Lemma set_class_ok k c p n bs : identifier c p n bs ->
  exists bs', IdRef_set_class k bs = Ok bs' /\ identifier (class_num k) p n bs'.
Proof.
  intros H. pose proof (class_num_lt k).
  assert (B : forall b, b < 256 -> N.lor (N.land b (not_u8 CLASS_MASK)) (class_u8 k) = class_num k * 64 + b mod 64).
  { intros b Hb. change (not_u8 CLASS_MASK) with 0x3f.
    revert b Hb. destruct k; simpl class_u8; simpl class_num;
    match goal with |- forall b, _ -> @?f b = @?g b => sweep (fun b => f b =? g b) end; cbv beta; apply N.eqb_eq. }
  destruct H as [Hc Hp Hn|hi lo Hc Hp Hn Hd Hh Hv]; cbn [IdRef_set_class]; rewrite B by lia;
    (eexists; split; [reflexivity|]).
  - replace ((c * 64 + p * 32 + n) mod 64) with (p * 32 + n) by lia. rewrite N.add_assoc. now apply id_short.
  - replace ((c * 64 + p * 32 + 31) mod 64) with (p * 32 + 31) by lia. rewrite N.add_assoc. now apply id_long.
Qed.
Lemma set_pc_ok k c p n bs : identifier c p n bs ->
  exists bs', IdRef_set_pc k bs = Ok bs' /\ identifier c (pc_num k) n bs'.
Proof.
  intros H. pose proof (pc_num_lt k).
  assert (B : forall b, b < 256 -> N.lor (N.land b (not_u8 PC_MASK)) (pc_u8 k) = b / 64 * 64 + pc_num k * 32 + b mod 32).
  { intros b Hb. change (not_u8 PC_MASK) with 0xdf.
    revert b Hb. destruct k; simpl pc_u8; simpl pc_num;
    match goal with |- forall b, _ -> @?f b = @?g b => sweep (fun b => f b =? g b) end; cbv beta; apply N.eqb_eq. }
  destruct H as [Hc Hp Hn|hi lo Hc Hp Hn Hd Hh Hv]; cbn [IdRef_set_pc]; rewrite B by lia;
    (eexists; split; [reflexivity|]).
  - replace ((c * 64 + p * 32 + n) / 64) with c by lia. replace ((c * 64 + p * 32 + n) mod 32) with n by lia. now apply id_short.
  - replace ((c * 64 + p * 32 + 31) / 64) with c by lia. replace ((c * 64 + p * 32 + 31) mod 32) with 31 by lia. now apply id_long.
Qed.

(** ** parse_id_unchecked *)
Lemma id_scan_groups hi lo rest i :
  digits_ok hi -> lo < 128 -> id_scan (groups hi lo ++ rest) i = Ok (i + nlen hi).
Proof.
  revert i. induction hi as [|d hi IH]; intros i Hd Hl.
  - unfold groups. cbn [map app id_scan]. unfold MORE_FLAG. rewrite land_80 by lia.
    destruct (N.leb_spec 128 lo); [lia|]. cbn [negb]. now rewrite nlen_nil, N.add_0_r.
  - inversion Hd; subst. rewrite groups_cons. cbn [app id_scan]. unfold MORE_FLAG. rewrite land_80 by lia.
    destruct (N.leb_spec 128 (128 + d)); [|lia]. cbn [negb]. rewrite IH by assumption.
    rewrite nlen_cons. f_equal. lia.
Qed.
Lemma parse_id_unchecked_ok id rest : is_identifier id -> parse_id_unchecked (id ++ rest) = Ok (id, rest).
Proof.
  intros H. apply is_identifier_cases in H as [(f & Hf & Hm & ->)|(f & hi & lo & (Hf & Hm & Hd & Hl & Hh & Hv) & ->)];
    unfold parse_id_unchecked; cbn [app]; unfold ID_LONG_FLAG; rewrite land_1f by assumption.
  - destruct (N.eqb_spec (f mod 32) 0x1f); [contradiction|]. reflexivity.
  - destruct (N.eqb_spec (f mod 32) 0x1f); [|contradiction]. cbn [negb].
    rewrite id_scan_groups by assumption. cbn [rbind].
    replace (1 + nlen hi + 1) with (nlen (f :: groups hi lo)) by (rewrite nlen_cons, groups_len; lia).
    change (f :: groups hi lo ++ rest) with ((f :: groups hi lo) ++ rest).
    now rewrite take_app_exact, drop_app_exact.
Qed.
