(** Lemmas about integer contents. *)
From Verif Require Import Base ModelTag ModelContents Spec TagProofs.
Local Open Scope Z_scope.

Definition zlen (bs : list N) : Z := Z.of_N (nlen bs).
Definition zbe (bs : list N) : Z := Z.of_N (be_value bs).

Lemma zbe_bound bs : bytes_ok bs -> 0 <= zbe bs < 256 ^ zlen bs.
Proof.
  intros H. pose proof (be_value_bound bs H) as B. unfold zbe, zlen.
  rewrite <- (N2Z.inj_pow 256). lia.
Qed.
Lemma zbe_cons b bs : zbe (b :: bs) = Z.of_N b * 256 ^ zlen bs + zbe bs.
Proof.
  unfold zbe, zlen. rewrite be_value_cons, N2Z.inj_add, N2Z.inj_mul, N2Z.inj_pow. reflexivity.
Qed.
Lemma zlen_cons b bs : zlen (b :: bs) = 1 + zlen bs.
Proof. unfold zlen. rewrite nlen_cons. lia. Qed.
Lemma zlen_nonneg bs : 0 <= zlen bs.
Proof. unfold zlen. lia. Qed.
Lemma pow256_pos k : 0 <= k -> 0 < 256 ^ k.
Proof. intros. apply Z.pow_pos_nonneg; lia. Qed.
Lemma pow256_S k : 0 <= k -> 256 ^ (1 + k) = 256 * 256 ^ k.
Proof. intros. rewrite Z.pow_add_r by lia. reflexivity. Qed.

Lemma twos_cons b bs :
  twos_value (b :: bs) = zbe (b :: bs) - (if (b <? 128)%N then 0 else 256 ^ zlen (b :: bs)).
Proof. reflexivity. Qed.

(** Doubled bounds avoid division. *)
Lemma twos_bounds bs : bytes_ok bs -> bs <> [] ->
  - 256 ^ zlen bs <= 2 * twos_value bs < 256 ^ zlen bs.
Proof.
  intros H N0. destruct bs as [|b bs]; [congruence|].
  rewrite twos_cons. apply bytes_ok_cons in H as [Hb H].
  pose proof (zbe_bound bs H) as B. rewrite zbe_cons, zlen_cons.
  pose proof (zlen_nonneg bs). rewrite pow256_S by assumption.
  pose proof (pow256_pos (zlen bs)). set (P := 256 ^ zlen bs) in *.
  destruct (N.ltb_spec b 128); nia.
Qed.

(** Syntactic form of "not shortest". *)
Definition redundant_twos (bs : list N) : Prop :=
  exists b0 b1 t, bs = b0 :: b1 :: t /\ ((b0 = 0 /\ b1 < 128) \/ (b0 = 255 /\ 128 <= b1))%N.

Lemma redundant_value b0 b1 t :
  bytes_ok (b0 :: b1 :: t) -> ((b0 = 0 /\ b1 < 128) \/ (b0 = 255 /\ 128 <= b1))%N ->
  twos_value (b0 :: b1 :: t) = twos_value (b1 :: t).
Proof.
  intros H C. rewrite !twos_cons, (zbe_cons b0), !zlen_cons.
  pose proof (zlen_nonneg t). rewrite !pow256_S by lia. set (P := 256 ^ zlen t).
  destruct C as [[-> L]|[-> L]].
  - change (0 <? 128)%N with true. destruct (N.ltb_spec b1 128); lia.
  - change (255 <? 128)%N with false. destruct (N.ltb_spec b1 128); lia.
Qed.

(** A non-redundant string needs its length. *)
Lemma nonredundant_large b0 b1 t :
  bytes_ok (b0 :: b1 :: t) -> ~ redundant_twos (b0 :: b1 :: t) ->
  2 * twos_value (b0 :: b1 :: t) < - 256 ^ zlen (b1 :: t) \/ 256 ^ zlen (b1 :: t) <= 2 * twos_value (b0 :: b1 :: t).
Proof.
  intros H R. rewrite twos_cons. apply bytes_ok_cons in H as [Hb0 H].
  pose proof (zbe_bound _ H) as B. apply bytes_ok_cons in H as [Hb1 H]. pose proof (zbe_bound _ H) as B1.
  rewrite zbe_cons, (zlen_cons b0). rewrite (zbe_cons b1) in *. rewrite (zlen_cons b1) in *.
  pose proof (zlen_nonneg t). rewrite !pow256_S in * by lia.
  pose proof (pow256_pos (zlen t)). set (P := 256 ^ zlen t) in *. set (V := zbe t) in *.
  assert (~ (b0 = 0 /\ b1 < 128)%N) by (intro; apply R; exists b0, b1, t; auto).
  assert (~ (b0 = 255 /\ 128 <= b1)%N) by (intro; apply R; exists b0, b1, t; auto).
  destruct (N.ltb_spec b0 128).
  - right. assert (1 <= b0 \/ 128 <= b1)%N as [|] by lia; nia.
  - left. assert (b0 <= 254 \/ b1 < 128)%N as [|] by lia; nia.
Qed.

Lemma shortest_iff bs : bytes_ok bs -> (shortest_twos bs <-> bs <> [] /\ ~ redundant_twos bs).
Proof.
  intros Hok. split.
  - intros [N0 M]. split; [assumption|]. intros (b0 & b1 & t & -> & C).
    assert (Hok' : bytes_ok (b1 :: t)) by (now apply bytes_ok_cons in Hok).
    specialize (M (b1 :: t) Hok'). rewrite (redundant_value b0 b1 t Hok C) in M.
    assert (b1 :: t <> []) by discriminate. specialize (M H eq_refl). rewrite !nlen_cons in M. lia.
  - intros [N0 R]. split; [assumption|]. intros bs' Hok' N0' E.
    destruct bs as [|b0 [|b1 t]]; [congruence| |].
    + destruct bs' as [|x bs']; [congruence|]. rewrite !nlen_cons, nlen_nil. lia.
    + pose proof (nonredundant_large b0 b1 t Hok R) as L.
      pose proof (twos_bounds bs' Hok' N0') as B. rewrite E in B.
      destruct (N.le_gt_cases (nlen (b0 :: b1 :: t)) (nlen bs')) as [|G]; [assumption|exfalso].
      assert (256 ^ zlen bs' <= 256 ^ zlen (b1 :: t)).
      { apply Z.pow_le_mono_r; [lia|]. unfold zlen. rewrite nlen_cons in G. lia. }
      lia.
Qed.

Lemma shortest_unique bs bs' :
  bytes_ok bs -> bytes_ok bs' -> shortest_twos bs -> shortest_twos bs' -> twos_value bs = twos_value bs' -> bs = bs'.
Proof.
  intros Hok Hok' [N0 M] [N0' M'] E.
  assert (L : nlen bs = nlen bs').
  { apply N.le_antisymm; [apply M; auto | apply M'; auto]. }
  apply be_value_inj; auto.
  pose proof (zbe_bound _ Hok) as B. pose proof (zbe_bound _ Hok') as B'.
  assert (zlen bs = zlen bs') as ZL by (unfold zlen; congruence).
  destruct bs as [|b bs]; [congruence|]. destruct bs' as [|b' bs']; [congruence|].
  rewrite !twos_cons in E. rewrite ZL in *. unfold zbe in *.
  destruct (b <? 128)%N, (b' <? 128)%N; lia.
Qed.

(** ** int types *)
Lemma int_mod_pos t : 0 < int_mod t.
Proof. unfold int_mod. apply pow256_pos. lia. Qed.
Lemma int_size_pos t : (1 <= int_size t)%nat.
Proof. destruct t; simpl; lia. Qed.
Lemma int_mod_even t : int_mod t = 2 * (int_mod t / 2).
Proof. destruct t; reflexivity. Qed.

Lemma to_be_mem_ok t v : bytes_ok (to_be_mem t v).
Proof. apply be_tail_ok. Qed.
Lemma to_be_mem_len t v : nlen (to_be_mem t v) = N.of_nat (int_size t).
Proof. apply be_tail_length. Qed.
Lemma to_be_mem_value t v : zbe (to_be_mem t v) = v mod int_mod t.
Proof.
  unfold zbe, to_be_mem. rewrite be_tail_value.
  pose proof (int_mod_pos t). pose proof (Z.mod_pos_bound v _ H).
  rewrite N.mod_small; [lia|].
  assert (Z.of_N (256 ^ N.of_nat (int_size t)) = int_mod t).
  { rewrite N2Z.inj_pow. unfold int_mod. f_equal. lia. }
  lia.
Qed.
Lemma zbe_app a b : zbe (a ++ b) = zbe a * 256 ^ zlen b + zbe b.
Proof. unfold zbe, zlen. rewrite be_value_app, N2Z.inj_add, N2Z.inj_mul, N2Z.inj_pow. reflexivity. Qed.
Lemma zlen_app a b : zlen (a ++ b) = zlen a + zlen b.
Proof. unfold zlen. rewrite nlen_app. lia. Qed.
Lemma zlen_nil : zlen [] = 0.
Proof. reflexivity. Qed.
Lemma zbe_nil : zbe [] = 0.
Proof. reflexivity. Qed.

Lemma zbe_repeat0 n : zbe (repeat 0%N n) = 0.
Proof. induction n as [|n IH]; [reflexivity|]. simpl repeat. rewrite zbe_cons, IH. lia. Qed.
Lemma zlen_repeat b n : zlen (repeat b n) = Z.of_nat n.
Proof. unfold zlen. rewrite nlen_repeat. lia. Qed.
Lemma zbe_repeatff n : zbe (repeat 255%N n) = 256 ^ Z.of_nat n - 1.
Proof.
  induction n as [|n IH]; [reflexivity|]. simpl repeat. rewrite zbe_cons, IH, zlen_repeat.
  replace (Z.of_nat (S n)) with (1 + Z.of_nat n) by lia. rewrite pow256_S by lia. lia.
Qed.
Lemma repeat_ok b n : (b < 256)%N -> bytes_ok (repeat b n).
Proof. intros H. apply Forall_forall. intros x Hx. apply repeat_spec in Hx. now subst. Qed.

(** ** from_positive *)
Lemma count_leading_spec b l :
  match count_leading b l with
  | None => Forall (eq b) l
  | Some k => exists x l', l = repeat b (N.to_nat k) ++ x :: l' /\ x <> b
  end.
Proof.
  induction l as [|x l IH]; simpl; [constructor|].
  destruct (N.eqb_spec x b) as [->|H].
  - destruct (count_leading b l) as [k|]; simpl.
    + destruct IH as (y & l' & -> & Hy). exists y, l'. split; [|assumption].
      replace (N.to_nat (k + 1)) with (S (N.to_nat k)) by lia. reflexivity.
    + constructor; auto.
  - exists x, l. split; [reflexivity | assumption].
Qed.

Lemma nth_byte_app_cons l x l' : nth_byte (l ++ x :: l') (nlen l) = Some x.
Proof.
  unfold nth_byte. rewrite nlen_length, Nat2N.id.
  rewrite nth_error_app2 by lia. now rewrite Nat.sub_diag.
Qed.

Lemma to_be_mem_zero t : to_be_mem t 0 = repeat 0%N (int_size t).
Proof. destruct t; vm_compute; reflexivity. Qed.

Lemma Forall_eq_repeat {A} (x : A) l : Forall (eq x) l -> l = repeat x (length l).
Proof. induction 1; simpl; [reflexivity|]. subst. f_equal. assumption. Qed.

Lemma from_positive_spec t v :
  0 < v < int_mod t ->
  exists bs, Contents_from_positive t v = Ok bs /\ bytes_ok bs /\ bs <> [] /\ ~ redundant_twos bs /\ twos_value bs = v.
Proof.
  intros Hv. unfold Contents_from_positive. cbv zeta.
  pose proof (int_size_pos t) as Hs.
  assert (HD0 : drop (N.of_nat (int_size t)) (to_be_mem t 0 ++ to_be_mem t v) = to_be_mem t v).
  { rewrite <- (to_be_mem_len t 0). apply drop_app_exact. }
  rewrite HD0. clear HD0.
  pose proof (to_be_mem_value t v) as HV. rewrite Z.mod_small in HV by lia.
  pose proof (to_be_mem_ok t v) as Hok.
  pose proof (to_be_mem_len t v) as Hlen.
  pose proof (count_leading_spec 0 (to_be_mem t v)) as HC.
  destruct (count_leading 0 (to_be_mem t v)) as [k|].
  2:{ exfalso. apply Forall_eq_repeat in HC. rewrite HC, zbe_repeat0 in HV. lia. }
  destruct HC as (x & l' & E & Hx). rewrite E in *.
  apply bytes_ok_app in Hok as [_ Hok]. apply bytes_ok_cons in Hok as [Hxb Hl'].
  rewrite nlen_app, nlen_repeat, nlen_cons in Hlen. rewrite N2Nat.id in Hlen.
  set (Z0 := to_be_mem t 0 ++ repeat 0%N (N.to_nat k)).
  replace (to_be_mem t 0 ++ repeat 0%N (N.to_nat k) ++ x :: l') with (Z0 ++ x :: l')
    by (unfold Z0; now rewrite <- app_assoc).
  assert (HZ : nlen Z0 = (N.of_nat (int_size t) + k)%N).
  { unfold Z0. rewrite nlen_app, to_be_mem_len, nlen_repeat. lia. }
  rewrite <- HZ. rewrite nth_byte_app_cons.
  rewrite zbe_app, zbe_repeat0 in HV.
  rewrite land_80 by assumption.
  destruct (N.leb_spec 128 x) as [H|H].
  - (* one zero octet in front *)
    assert (HZr : Z0 = repeat 0%N (N.to_nat (nlen Z0 - 1)) ++ [0%N]).
    { change [0%N] with (repeat 0%N 1). rewrite <- repeat_app.
      unfold Z0 at 1. rewrite to_be_mem_zero, <- repeat_app. f_equal. lia. }
    assert (HD : drop (nlen Z0 - 1) (Z0 ++ x :: l') = 0%N :: x :: l').
    { rewrite HZr at 2. rewrite <- app_assoc.
      replace (nlen Z0 - 1)%N with (nlen (repeat 0%N (N.to_nat (nlen Z0 - 1)))) at 1 by (rewrite nlen_repeat; lia).
      now rewrite drop_app_exact. }
    rewrite HD. rewrite take_ge by (rewrite !nlen_cons; lia).
    exists (0 :: x :: l')%N. split; [reflexivity|]. repeat split.
    + apply bytes_ok_cons; split; [lia|]. apply bytes_ok_cons; auto.
    + discriminate.
    + intros (b0 & b1 & tt & E1 & C). apply cons_inj in E1 as [<- E1]. apply cons_inj in E1 as [<- _]. lia.
    + rewrite twos_cons. change (0 <? 128)%N with true. rewrite zbe_cons. lia.
  - replace (nlen Z0) with (nlen Z0 + 0)%N by lia.
    rewrite N.add_0_r, drop_app_exact. rewrite take_ge by (rewrite nlen_cons; lia).
    exists (x :: l')%N. split; [reflexivity|]. repeat split.
    + apply bytes_ok_cons; auto.
    + discriminate.
    + intros (b0 & b1 & tt & E1 & C). apply cons_inj in E1 as [<- E1]. lia.
    + rewrite twos_cons. destruct (N.ltb_spec x 128); lia.
Qed.

(** ** from_negative *)
Lemma skip_ff_cons x y l : skip_ff (x :: y :: l) = (if (x =? 255)%N then skip_ff (y :: l) + 1 else 0)%N.
Proof. reflexivity. Qed.
Lemma skip_ff_spec l : l <> [] ->
  exists x l', l = repeat 255%N (N.to_nat (skip_ff l)) ++ x :: l' /\ (x <> 255%N \/ l' = []).
Proof.
  induction l as [|x l IH]; intros N0; [congruence|]. destruct l as [|y l].
  - exists x, []. split; [reflexivity | now right].
  - rewrite skip_ff_cons. destruct (N.eqb_spec x 255) as [->|H].
    + destruct IH as (z & l' & E & C); [discriminate|]. exists z, l'. split; [|assumption].
      replace (N.to_nat (skip_ff (y :: l) + 1)) with (S (N.to_nat (skip_ff (y :: l)))) by lia.
      cbn [repeat app]. now rewrite <- E.
    + exists x, (y :: l). split; [reflexivity | now left].
Qed.

Lemma land_80_zero b : (b < 256)%N -> (N.land b 0x80 =? 0)%N = (b <? 128)%N.
Proof.
  revert b. sweep (fun b => Bool.eqb (N.land b 0x80 =? 0)%N (b <? 128)%N). apply eqb_prop.
Qed.

Lemma from_negative_spec t v :
  - int_mod t <= 2 * v < 0 ->
  exists bs, Contents_from_negative t v = Ok bs /\ bytes_ok bs /\ bs <> [] /\ ~ redundant_twos bs /\ twos_value bs = v.
Proof.
  intros Hv. unfold Contents_from_negative. cbv zeta.
  pose proof (int_size_pos t) as Hs. pose proof (int_mod_pos t) as Hm.
  pose proof (to_be_mem_value t v) as HV.
  assert (HVm : v mod int_mod t = v + int_mod t).
  { rewrite <- (Z_mod_plus_full v 1 (int_mod t)), Z.mul_1_l. apply Z.mod_small. lia. }
  rewrite HVm in HV.
  pose proof (to_be_mem_ok t v) as Hok.
  pose proof (to_be_mem_len t v) as Hlen.
  assert (HM : int_mod t = 256 ^ zlen (to_be_mem t v)).
  { unfold zlen. rewrite Hlen. unfold int_mod. f_equal. lia. }
  set (mem := to_be_mem t v) in *.
  assert (Hne : mem <> []) by (intros E; rewrite E, nlen_nil in Hlen; lia).
  destruct (skip_ff_spec mem Hne) as (x & l' & E & C).
  set (k := skip_ff mem) in *. rewrite E in *. clear E.
  apply bytes_ok_app in Hok as [_ Hok]. apply bytes_ok_cons in Hok as [Hxb Hl'].
  rewrite nlen_app, nlen_repeat, nlen_cons, N2Nat.id in Hlen.
  rewrite zbe_app, zbe_repeatff in HV. rewrite zlen_app, zlen_repeat, zlen_cons in HM.
  rewrite Z.pow_add_r in HM by (try lia; pose proof (zlen_nonneg l'); lia).
  rewrite zlen_cons in HV.
  set (F := repeat 255%N (N.to_nat k)) in *.
  assert (HF : nlen F = k) by (unfold F; rewrite nlen_repeat; lia).
  assert (HN : nth_byte (F ++ x :: l') k = Some x) by (rewrite <- HF; apply nth_byte_app_cons).
  rewrite HN. rewrite land_80_zero by assumption.
  assert (HV2 : v = zbe (x :: l') - 256 ^ (1 + zlen l')) by lia.
  pose proof (zlen_nonneg l') as Hnn. pose proof (pow256_pos _ Hnn) as Hpp.
  pose proof (zbe_bound l' Hl') as Bl'.
  destruct (N.ltb_spec x 128) as [H|H].
  - (* step back one 0xff *)
    destruct (N.eqb_spec k 0) as [Hk|Hk].
    { exfalso. assert (F = []) by (apply nlen_zero; lia).
      rewrite Hk in *. change (Z.of_nat (N.to_nat 0)) with 0 in *. rewrite Z.pow_0_r in HM.
      rewrite zbe_cons, pow256_S in HV2 by lia. rewrite pow256_S in HM by lia. nia. }
    assert (HFr : F = repeat 255%N (N.to_nat (k - 1)) ++ [255%N]).
    { change [255%N] with (repeat 255%N 1). rewrite <- repeat_app. unfold F. f_equal. lia. }
    assert (HD : drop (k - 1) (F ++ x :: l') = 255%N :: x :: l').
    { rewrite HFr, <- app_assoc.
      replace (k - 1)%N with (nlen (repeat 255%N (N.to_nat (k - 1)))) at 1 by (rewrite nlen_repeat; lia).
      now rewrite drop_app_exact. }
    rewrite HD. rewrite take_ge by (rewrite !nlen_cons; lia).
    exists (255 :: x :: l')%N. split; [reflexivity|]. repeat split.
    + apply bytes_ok_cons; split; [lia|]. apply bytes_ok_cons; auto.
    + discriminate.
    + intros (b0 & b1 & tt & E1 & C1). apply cons_inj in E1 as [<- E1]. apply cons_inj in E1 as [<- _]. lia.
    + rewrite twos_cons. change (255 <? 128)%N with false. rewrite (zbe_cons 255), !zlen_cons.
      rewrite (pow256_S (1 + zlen l')) by lia. lia.
  - assert (HD : drop k (F ++ x :: l') = x :: l') by (rewrite <- HF; apply drop_app_exact).
    rewrite HD. rewrite take_ge by (rewrite nlen_cons; lia).
    exists (x :: l')%N. split; [reflexivity|]. repeat split.
    + apply bytes_ok_cons; auto.
    + discriminate.
    + intros (b0 & b1 & tt & E1 & C1). apply cons_inj in E1 as [<- E1]. subst l'.
      destruct C as [C|C]; [lia | discriminate].
    + rewrite twos_cons, zlen_cons. destruct (N.ltb_spec x 128); lia.
Qed.

Lemma in_range_bounds t v : in_range t v ->
  if int_signed t then - int_mod t <= 2 * v < int_mod t else 0 <= v < int_mod t.
Proof.
  unfold in_range, int_min, int_max. pose proof (int_mod_even t). destruct (int_signed t); lia.
Qed.
Lemma in_range_intro t v :
  (if int_signed t then - int_mod t <= 2 * v < int_mod t else 0 <= v < int_mod t) -> in_range t v.
Proof.
  unfold in_range, int_min, int_max. pose proof (int_mod_even t). destruct (int_signed t); lia.
Qed.

Theorem from_int_spec t v : in_range t v ->
  exists bs, Contents_from_int t v = Ok bs /\ bytes_ok bs /\ shortest_twos bs /\ twos_value bs = v.
Proof.
  intros H. apply in_range_bounds in H. pose proof (int_mod_pos t).
  assert (Z0 : exists bs, Ok Contents_from_zero = Ok bs /\ bytes_ok bs /\ bs <> [] /\ ~ redundant_twos bs /\ twos_value bs = 0).
  { exists [0%N]. repeat split; try discriminate.
    - apply bytes_ok_cons; split; [lia | constructor].
    - intros (b0 & b1 & tt & E & _). discriminate. }
  assert (G : exists bs, Contents_from_int t v = Ok bs /\ bytes_ok bs /\ bs <> [] /\ ~ redundant_twos bs /\ twos_value bs = v).
  { unfold Contents_from_int. destruct (int_signed t).
    - destruct (Z.ltb_spec v 0); [apply from_negative_spec; lia|].
      destruct (Z.eqb_spec v 0) as [->|]; [exact Z0 | apply from_positive_spec; lia].
    - destruct (Z.eqb_spec v 0) as [->|]; [exact Z0 | apply from_positive_spec; lia]. }
  destruct G as (bs & E & Hok & N0 & R & V). exists bs. repeat split; auto; now apply shortest_iff.
Qed.

(** ** to_integer *)
Lemma from_be_mem_value t mem : bytes_ok mem -> nlen mem = N.of_nat (int_size t) ->
  from_be_mem t mem = if int_signed t && (int_mod t / 2 <=? zbe mem) then zbe mem - int_mod t else zbe mem.
Proof. reflexivity. Qed.

Lemma to_integer_spec t bs : bytes_ok bs ->
  (bs = [] /\ to_integer t bs = Err UnterminatedBytes) \/
  (bs <> [] /\ ~ shortest_twos bs /\ to_integer t bs = Err RedundantBytes) \/
  (shortest_twos bs /\ ~ in_range t (twos_value bs) /\ to_integer t bs = Err OverFlow) \/
  (shortest_twos bs /\ in_range t (twos_value bs) /\ to_integer t bs = Ok (twos_value bs)).
Proof.
  intros Hok. destruct bs as [|b0 rest]; [left; auto | right].
  set (bs := b0 :: rest) in *.
  assert (N0 : bs <> []) by discriminate.
  pose proof Hok as Hok'. apply bytes_ok_cons in Hok' as [Hb0 Hrest].
  pose proof (shortest_iff bs Hok) as SI.
  set (red := match rest with [] => false | b1 :: _ =>
    ((b0 =? 0) && (N.land b1 0x80 =? 0) || (b0 =? 0xff) && (N.land b1 0x80 =? 0x80))%N end).
  assert (HT : to_integer t bs =
    if red then Err RedundantBytes else
    if (N.of_nat (int_size t) <? nlen (drop_leading_zero bs))%N then Err OverFlow else
    let! v := to_integer_unchecked t bs in
    if (N.land b0 0x80 =? 0)%N then (if v <? 0 then Err OverFlow else Ok v)
    else (if 0 <=? v then Err OverFlow else Ok v)) by reflexivity.
  rewrite HT. clear HT.
  assert (HR : red = true <-> redundant_twos bs).
  { subst red bs. destruct rest as [|b1 t'].
    - split; [discriminate | intros (? & ? & ? & E & _); discriminate].
    - apply bytes_ok_cons in Hrest as [Hb1 _].
      rewrite land_80_zero, land_80 by assumption. split.
      + intros R. exists b0, b1, t'. split; [reflexivity|]. lia.
      + intros (c0 & c1 & tt & E & C). apply cons_inj in E as [<- E]. apply cons_inj in E as [<- _]. lia. }
  destruct red.
  { left. split; [assumption|]. split; [|reflexivity]. intros S. apply SI in S as [_ S]. apply S, HR. reflexivity. }
  assert (S : shortest_twos bs).
  { apply SI. split; [assumption|]. intros R. apply HR in R. discriminate. }
  assert (NR : ~ redundant_twos bs) by (intros R; apply HR in R; discriminate). clear HR SI.
  right. pose proof (int_mod_pos t) as Hm. pose proof (int_size_pos t) as Hsz.
  set (bytes := drop_leading_zero bs).
  assert (Hbytes : bytes_ok bytes /\ zbe bytes = zbe bs).
  { subst bytes bs. unfold drop_leading_zero. destruct (N.eqb_spec b0 0) as [->|].
    - split; [assumption|]. rewrite zbe_cons. lia.
    - auto. }
  destruct Hbytes as [Hbok Hbv].
  assert (HMz : int_mod t = 256 ^ Z.of_N (N.of_nat (int_size t))).
  { unfold int_mod. f_equal. lia. }
  rewrite land_80_zero by assumption.
  assert (Htw : twos_value bs = zbe bs - (if (b0 <? 128)%N then 0 else 256 ^ zlen bs)) by reflexivity.
  destruct (N.ltb_spec (N.of_nat (int_size t)) (nlen bytes)) as [L|L].
  { (* too long for the type *)
    left. split; [assumption|]. split; [|reflexivity]. intros Rg. apply in_range_bounds in Rg.
    destruct rest as [|b1 t'].
    { subst bytes bs. unfold drop_leading_zero in L. destruct (b0 =? 0)%N; rewrite ?nlen_cons, nlen_nil in L; lia. }
    pose proof (nonredundant_large b0 b1 t' Hok NR) as NL. fold bs in NL.
    destruct (N.eqb_spec b0 0) as [E0|E0].
    - (* leading zero: the next octet is at least 128 *)
      subst bytes bs. unfold drop_leading_zero in L. rewrite E0 in L. change (0 =? 0)%N with true in L.
      assert (Hge : 256 ^ zlen (b1 :: t') <= 2 * twos_value (b0 :: b1 :: t')).
      { destruct NL as [NL|NL]; [|assumption]. rewrite Htw in NL.
        pose proof (zbe_bound (b0 :: b1 :: t') Hok).
        pose proof (pow256_pos (zlen (b1 :: t')) (zlen_nonneg _)).
        destruct (N.ltb_spec b0 128); lia. }
      assert (int_mod t * 256 <= 256 ^ zlen (b1 :: t')).
      { rewrite HMz, Z.mul_comm, <- pow256_S by lia. apply Z.pow_le_mono_r; [lia|].
        unfold zlen. lia. }
      destruct (int_signed t); lia.
    - subst bytes bs. unfold drop_leading_zero in L.
      rewrite (proj2 (N.eqb_neq b0 0) E0) in L.
      assert (int_mod t <= 256 ^ zlen (b1 :: t')).
      { rewrite HMz. apply Z.pow_le_mono_r; [lia|]. unfold zlen. rewrite nlen_cons in L. lia. }
      destruct (N.ltb_spec b0 128) as [Lb|Lb].
      + (* value at least 256^(len-1) *)
        rewrite zbe_cons in Htw.
        pose proof (zbe_bound (b1 :: t') Hrest).
        assert (int_mod t <= twos_value (b0 :: b1 :: t')) by nia.
        destruct (int_signed t); lia.
      + pose proof (zbe_bound (b0 :: b1 :: t') Hok). 
        destruct NL as [NL|NL]; destruct (int_signed t); try lia. }
  (* fits *)
  assert (HU : to_integer_unchecked t bs =
    Ok (from_be_mem t (repeat (if (b0 <? 128)%N then 0%N else 255%N) (N.to_nat (N.of_nat (int_size t) - nlen bytes)) ++ bytes))).
  { unfold to_integer_unchecked. unfold bs at 1. fold bytes. rewrite land_80_zero by assumption.
    destruct (N.ltb_spec (N.of_nat (int_size t)) (nlen bytes)); [lia | reflexivity]. }
  rewrite HU. cbn [rbind].
  set (fill := repeat _ _).
  assert (Hmem : bytes_ok (fill ++ bytes)).
  { apply bytes_ok_app. split; [|assumption]. unfold fill. destruct (b0 <? 128)%N; apply repeat_ok; lia. }
  assert (Hml : nlen (fill ++ bytes) = N.of_nat (int_size t)).
  { unfold fill. rewrite nlen_app, nlen_repeat. lia. }
  rewrite from_be_mem_value by assumption.
  pose proof (zbe_bound _ Hmem) as Bm. unfold zlen in Bm. rewrite Hml, <- HMz in Bm.
  pose proof (int_mod_even t) as Hev.
  destruct (N.ltb_spec b0 128) as [Lb|Lb].
  - (* non-negative *)
    assert (Hmv : zbe (fill ++ bytes) = twos_value bs).
    { rewrite zbe_app. unfold fill. rewrite zbe_repeat0. lia. }
    rewrite Hmv in *.
    destruct (int_signed t) eqn:Es; cbn [andb].
    + destruct (Z.leb_spec (int_mod t / 2) (twos_value bs)) as [G|G].
      * left. split; [assumption|].
        destruct (Z.ltb_spec (twos_value bs - int_mod t) 0); [|lia]. split; [|reflexivity].
        intros Rg. apply in_range_bounds in Rg. rewrite Es in Rg. lia.
      * right. split; [assumption|].
        destruct (Z.ltb_spec (twos_value bs) 0); [lia|]. split; [|reflexivity].
        apply in_range_intro. rewrite Es. lia.
    + right. split; [assumption|].
      destruct (Z.ltb_spec (twos_value bs) 0); [lia|]. split; [|reflexivity].
      apply in_range_intro. rewrite Es. lia.
  - (* negative *)
    assert (Hbb : bytes = bs).
    { subst bytes bs. unfold drop_leading_zero. destruct (N.eqb_spec b0 0); [lia | reflexivity]. }
    assert (Hmv : zbe (fill ++ bytes) = twos_value bs + int_mod t).
    { rewrite zbe_app. unfold fill. rewrite zbe_repeatff, Hbb, Htw, HMz.
      replace (Z.of_N (N.of_nat (int_size t))) with (Z.of_nat (N.to_nat (N.of_nat (int_size t) - nlen bs)) + zlen bs)
        by (unfold zlen; rewrite Hbb in L; lia).
      rewrite Z.pow_add_r by (try lia; apply zlen_nonneg). lia. }
    rewrite Hmv in *.
    pose proof (zbe_bound bs Hok) as Bb.
    assert (twos_value bs < 0) by lia.
    destruct (int_signed t) eqn:Es; cbn [andb].
    + assert (- int_mod t <= 2 * twos_value bs).
      { pose proof (twos_bounds bs Hok N0) as TB.
        assert (256 ^ zlen bs <= int_mod t).
        { rewrite HMz. apply Z.pow_le_mono_r; [lia|]. unfold zlen. rewrite Hbb in L. lia. }
        lia. }
      right. split; [assumption|].
      destruct (Z.leb_spec (int_mod t / 2) (twos_value bs + int_mod t)) as [G|G]; [|lia].
      destruct (Z.leb_spec 0 (twos_value bs + int_mod t - int_mod t)); [lia|].
      split; [|f_equal; lia]. apply in_range_intro. rewrite Es. lia.
    + left. split; [assumption|].
      destruct (Z.leb_spec 0 (twos_value bs + int_mod t)); [|lia].
      split; [|reflexivity]. intros Rg. apply in_range_bounds in Rg. rewrite Es in Rg. lia.
Qed.

(** ** Statements of PropsContents.v *)
Lemma to_integer_iff t bs v : bytes_ok bs ->
  (to_integer t bs = Ok v <-> shortest_twos bs /\ twos_value bs = v /\ in_range t v).
Proof.
  intros Hok. destruct (to_integer_spec t bs Hok) as [[E ->]|[(N0 & S & ->)|[(S & R & ->)|(S & R & ->)]]].
  - split; [discriminate|]. intros ((N0 & _) & _). contradiction.
  - split; [discriminate|]. intros (S' & _). contradiction.
  - split; [discriminate|]. intros (_ & <- & R'). contradiction.
  - split; [intros [= <-]; auto | intros (_ & -> & _); reflexivity].
Qed.
Lemma to_integer_err_iff t bs e : bytes_ok bs ->
  (to_integer t bs = Err e <->
   (bs = [] /\ e = UnterminatedBytes) \/
   (bs <> [] /\ ~ shortest_twos bs /\ e = RedundantBytes) \/
   (shortest_twos bs /\ ~ in_range t (twos_value bs) /\ e = OverFlow)).
Proof.
  intros Hok. destruct (to_integer_spec t bs Hok) as [[E ->]|[(N0 & S & ->)|[(S & R & ->)|(S & R & ->)]]].
  - split; [intros [= <-]; auto|]. intros [[_ ->]|[(? & _)|((? & _) & _)]]; [reflexivity | contradiction | contradiction].
  - split; [intros [= <-]; auto|]. intros [[? _]|[(_ & _ & ->)|(? & _)]]; [contradiction | reflexivity | contradiction].
  - split; [intros [= <-]; auto|]. destruct S as [N0 S]. intros [[? _]|[(_ & NS & _)|(_ & _ & ->)]]; [contradiction | | reflexivity].
    exfalso. apply NS. split; auto.
  - split; [discriminate|]. destruct S as [N0 S].
    intros [[? _]|[(_ & NS & _)|(_ & ? & _)]]; [contradiction | | contradiction].
    exfalso. apply NS. split; auto.
Qed.
Lemma to_integer_no_panic t bs : bytes_ok bs -> to_integer t bs <> Panic /\ to_integer t bs <> NoFuel.
Proof.
  intros Hok. destruct (to_integer_spec t bs Hok) as [[E ->]|[(N0 & S & ->)|[(S & R & ->)|(S & R & ->)]]]; split; discriminate.
Qed.

Lemma to_integer_unchecked_agrees t bs v : bytes_ok bs -> to_integer t bs = Ok v -> to_integer_unchecked t bs = Ok v.
Proof.
  intros Hok H. unfold to_integer in H. destruct bs as [|b0 rest]; [discriminate|]. cbv zeta in H.
  match type of H with (if ?c then _ else _) = _ => destruct c; [discriminate|] end.
  match type of H with (if ?c then _ else _) = _ => destruct c; [discriminate|] end.
  destruct (to_integer_unchecked t (b0 :: rest)) as [u| | |]; cbn [rbind] in H; try discriminate.
  destruct (N.land b0 128 =? 0)%N.
  - destruct (u <? 0); congruence.
  - destruct (0 <=? u); congruence.
Qed.

Lemma int_round_trip t u v : in_range t v ->
  exists bs, Contents_from_int t v = Ok bs /\ bytes_ok bs /\
    (in_range u v -> to_integer u bs = Ok v) /\
    (~ in_range u v -> to_integer u bs = Err OverFlow).
Proof.
  intros H. destruct (from_int_spec t v H) as (bs & E & Hok & S & V). exists bs. split; [assumption|]. split; [assumption|].
  split; intros R.
  - apply to_integer_iff; auto.
  - apply to_integer_err_iff; auto. right. right. rewrite V. auto.
Qed.
Lemma int_encoding_unique t bs v : bytes_ok bs -> to_integer t bs = Ok v -> Contents_from_int t v = Ok bs.
Proof.
  intros Hok H. apply to_integer_iff in H as (S & V & R); auto.
  destruct (from_int_spec t v R) as (bs' & E & Hok' & S' & V'). rewrite E. f_equal.
  apply shortest_unique; auto. congruence.
Qed.

Lemma bool_ber bs b : bytes_ok bs -> (to_bool_ber bs = Ok b <-> exists o, bs = [o] /\ (b = false <-> o = 0%N)).
Proof.
  intros Hok. destruct bs as [|o [|o' r]]; simpl.
  - split; [discriminate | intros (o & E & _); discriminate].
  - destruct (N.eqb_spec o 0) as [->|Ho]; split.
    + intros [= <-]. exists 0%N. split; [reflexivity | tauto].
    + intros (o & [= <-] & I). f_equal. symmetry. now apply I.
    + intros [= <-]. exists o. split; [reflexivity | split; congruence].
    + intros (o' & [= <-] & I). destruct b; [reflexivity | exfalso; apply Ho; now apply I].
  - split; [discriminate | intros (? & E & _); discriminate].
Qed.
Lemma bool_der bs b : to_bool_der bs = Ok b <-> bs = Contents_from_bool b.
Proof.
  destruct bs as [|o [|o' r]]; simpl.
  - split; [discriminate | destruct b; discriminate].
  - destruct (N.eqb_spec o 0) as [->|Ho]; [|destruct (N.eqb_spec o 0xff) as [->|Ho']].
    + split; [intros [= <-]; reflexivity | destruct b; [discriminate | reflexivity]].
    + split; [intros [= <-]; reflexivity | destruct b; [reflexivity | discriminate]].
    + split; [discriminate|]. destruct b; unfold Contents_from_bool; intros [= ->]; contradiction.
  - split; [discriminate | destruct b; discriminate].
Qed.
Lemma bool_errors bs :
  (bs = [] -> to_bool_ber bs = Err UnterminatedBytes /\ to_bool_der bs = Err UnterminatedBytes) /\
  ((1 < nlen bs)%N -> to_bool_ber bs = Err ExtraContentsOctet /\ to_bool_der bs = Err ExtraContentsOctet) /\
  (forall o, bs = [o] -> o <> 0%N -> o <> 255%N -> to_bool_der bs = Err InvalidDerBooleanContents).
Proof.
  destruct bs as [|o [|o' r]]; cbn [to_bool_ber to_bool_der]; (split; [|split]); try discriminate; auto.
  intros o' [= <-] H H'. destruct (N.eqb_spec o 0); [contradiction|].
  destruct (N.eqb_spec o 255); [contradiction | reflexivity].
Qed.
