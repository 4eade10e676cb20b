(** Machines of either byte order: what is computed is the same, and the portable layout
    behaves as a byte vector on each. *)
From Verif Require Import Base ModelTag ModelContents ModelBuf ModelHeap ModelBufLE ModelBufUE ModelEndian Spec TagProofs BufProofs RawProofs.

(** ** words in memory *)
Lemma le_octets_rev k : forall n, le_octets k n = rev (be_tail k n).
Proof.
  induction k as [|k IH]; intros n; [reflexivity|]. cbn [le_octets be_tail]. rewrite rev_app_distr. cbn [rev app]. now rewrite IH.
Qed.
Lemma le_value_rev l : le_value (rev l) = fold_left (fun a b => a * 256 + b) l 0.
Proof.
  induction l as [|x l IH] using rev_ind; [reflexivity|].
  rewrite rev_app_distr, fold_left_app. cbn [rev app le_value fold_left]. rewrite IH. lia.
Qed.
Lemma value_of_rev l : fold_left (fun a b => a * 256 + b) (rev l) 0 = le_value l.
Proof. rewrite <- le_value_rev. now rewrite rev_involutive. Qed.
Lemma be_of_value l : bytes_ok l -> be_tail (length l) (fold_left (fun a b => a * 256 + b) l 0) = l.
Proof.
  intros H. rewrite <- le_value_rev. rewrite <- (rev_involutive (be_tail _ _)), <- le_octets_rev, <- rev_length.
  rewrite le_octets_of_value; [apply rev_involutive|]. unfold bytes_ok in *. apply Forall_forall. intros x I.
  apply in_rev in I. rewrite Forall_forall in H. now apply H.
Qed.
Lemma bytes_ok_rev l : bytes_ok l -> bytes_ok (rev l).
Proof. unfold bytes_ok. rewrite !Forall_forall. intros H x I. apply H. now apply in_rev. Qed.
Lemma nlen_rev (l : list N) : nlen (rev l) = nlen l.
Proof. now rewrite !nlen_length, rev_length. Qed.
Lemma mem_of_len o k n : nlen (mem_of o k n) = N.of_nat k.
Proof. destruct o; [apply be_tail_length | apply le_octets_len]. Qed.
Lemma mem_of_ok o k n : bytes_ok (mem_of o k n).
Proof. destruct o; [apply be_tail_ok | apply le_octets_ok]. Qed.
Lemma word_mem o k n : n < 256 ^ N.of_nat k -> word_of o (mem_of o k n) = n.
Proof.
  intros H. destruct o; cbn [word_of mem_of]; [|now apply le_value_octets].
  change (be_value (be_tail k n) = n). rewrite be_tail_value. now apply N.mod_small.
Qed.
Lemma mem_word o l : bytes_ok l -> mem_of o (length l) (word_of o l) = l.
Proof. intros H. destruct o; [now apply be_of_value | now apply le_octets_of_value]. Qed.
Lemma word_mem_usize o n : n < usize_limit -> word_of o (mem_of o 8 n) = n.
Proof. intros H. now apply word_mem. Qed.
Lemma length_be k n : length (be_tail k n) = k.
Proof. pose proof (be_tail_length k n) as H. rewrite nlen_length in H. lia. Qed.
Lemma length_le k n : length (le_octets k n) = k.
Proof. pose proof (le_octets_len k n) as H. rewrite nlen_length in H. lia. Qed.
(** the memory of a value after to_be *)
Lemma mem_swap o k n : mem_of o k (be_swap o k n) = be_tail k n.
Proof.
  destruct o; [reflexivity|]. cbn [mem_of be_swap]. unfold swap_bytes. cbn [mem_of word_of].
  rewrite <- le_value_rev, (le_octets_rev k n), rev_involutive.
  rewrite <- (length_be k n) at 1. apply le_octets_of_value, be_tail_ok.
Qed.
Lemma swap_lt o k n : n < 256 ^ N.of_nat k -> be_swap o k n < 256 ^ N.of_nat k.
Proof.
  intros H. destruct o; [exact H|]. unfold be_swap, swap_bytes. cbn [word_of mem_of]. rewrite <- le_value_rev.
  pose proof (le_value_bound (rev (le_octets k n))) as B. rewrite nlen_rev, le_octets_len in B.
  apply B, bytes_ok_rev, le_octets_ok.
Qed.
(** the value that from_be makes of octets in memory *)
Lemma swap_word o l : bytes_ok l -> be_swap o (length l) (word_of o l) = fold_left (fun a b => a * 256 + b) l 0.
Proof.
  intros H. destruct o; [reflexivity|]. unfold be_swap, swap_bytes. cbn [word_of mem_of]. now rewrite le_octets_of_value.
Qed.

(** ** integers *)
Lemma int_mod_pow t : int_mod t = Z.of_N (256 ^ N.of_nat (int_size t)).
Proof. unfold int_mod. rewrite N2Z.inj_pow, nat_N_Z. reflexivity. Qed.
Lemma int_word_lt t v : int_word t v < 256 ^ N.of_nat (int_size t).
Proof.
  unfold int_word. pose proof (int_mod_pow t) as E. assert (0 < int_mod t)%Z by (rewrite E; apply (N2Z.inj_lt 0), N.neq_0_lt_0, N.pow_nonzero; discriminate).
  pose proof (Z.mod_pos_bound v (int_mod t)). lia.
Qed.
Lemma int_word_int t u : u < 256 ^ N.of_nat (int_size t) -> int_word t (word_int t u) = u.
Proof.
  intros H. unfold int_word, word_int. pose proof (int_mod_pow t) as E.
  destruct (int_signed t && _).
  - replace (Z.of_N u - int_mod t)%Z with (Z.of_N u + (-1) * int_mod t)%Z by lia.
    rewrite Z.mod_add by lia. rewrite Z.mod_small by lia. apply N2Z.id.
  - rewrite Z.mod_small by lia. apply N2Z.id.
Qed.
Lemma int_mem_be o t v : int_mem o t (int_to_be o t v) = to_be_mem t v.
Proof.
  unfold int_mem, int_to_be. rewrite int_word_int by apply swap_lt, int_word_lt. apply mem_swap.
Qed.
Lemma int_mem_zero o t : int_mem o t 0 = to_be_mem t 0.
Proof.
  unfold int_mem, to_be_mem, int_word. rewrite Zmod_0_l. change (Z.to_N 0) with 0. destruct o; [reflexivity|].
  cbn [mem_of]. induction (int_size t) as [|k IH]; [reflexivity|]. cbn [le_octets be_tail].
  change (0 mod 256) with 0. change (0 / 256) with 0. rewrite IH. clear.
  induction k as [|k IH]; [reflexivity|]. cbn [be_tail]. change (0 mod 256) with 0. change (0 / 256) with 0.
  rewrite app_comm_cons, IH. reflexivity.
Qed.
Lemma int_from_mem o t mem : bytes_ok mem -> length mem = int_size t -> int_from_be o t (int_of_mem o t mem) = from_be_mem t mem.
Proof.
  intros H L. unfold int_from_be, int_of_mem.
  assert (word_of o mem < 256 ^ N.of_nat (int_size t)) as B.
  { rewrite <- L. pose proof (swap_word o mem H) as W. destruct o; cbn [be_swap] in W.
    - cbn [word_of]. rewrite <- le_value_rev. pose proof (le_value_bound (rev mem) (bytes_ok_rev _ H)) as B. now rewrite nlen_rev in B.
    - exact (le_value_bound mem H). }
  rewrite int_word_int by assumption. rewrite <- L. rewrite swap_word by assumption. reflexivity.
Qed.
Lemma on_positive o t v : on_from_positive o t v = Contents_from_positive t v.
Proof. unfold on_from_positive, Contents_from_positive. now rewrite int_mem_be, int_mem_zero. Qed.
Lemma on_negative o t v : on_from_negative o t v = Contents_from_negative t v.
Proof. unfold on_from_negative, Contents_from_negative. now rewrite int_mem_be. Qed.
Lemma on_from_int o t v : on_Contents_from_int o t v = Contents_from_int t v.
Proof. unfold on_Contents_from_int, Contents_from_int. now rewrite on_positive, on_negative. Qed.
Lemma on_unchecked o t bs : bytes_ok bs -> on_to_integer_unchecked o t bs = to_integer_unchecked t bs.
Proof.
  intros H. unfold on_to_integer_unchecked, to_integer_unchecked. destruct bs as [|b0 rest]; [reflexivity|]. cbv zeta.
  destruct (N.ltb_spec (N.of_nat (int_size t)) (nlen (drop_leading_zero (b0 :: rest)))) as [|B]; [reflexivity|].
  f_equal. assert (bytes_ok (drop_leading_zero (b0 :: rest))) as K.
  { cbn [drop_leading_zero]. destruct (b0 =? 0); [|exact H]. now apply bytes_ok_cons in H. }
  apply int_from_mem.
  - apply bytes_ok_app. split; [|exact K]. apply Forall_forall. intros x I. apply repeat_spec in I. subst x. now destruct (N.land b0 0x80 =? 0).
  - rewrite app_length, repeat_length. rewrite nlen_length in *. lia.
Qed.
Lemma on_to_int o t bs : bytes_ok bs -> on_to_integer o t bs = to_integer t bs.
Proof.
  intros H. unfold on_to_integer, to_integer. destruct bs as [|b0 rest]; [reflexivity|]. now rewrite on_unchecked.
Qed.
Lemma be_tail_suffix k : forall j n, be_tail (j + k) n = be_tail j (n / 256 ^ N.of_nat k) ++ be_tail k n.
Proof.
  induction k as [|k IH]; intros j n.
  - rewrite Nat.add_0_r. cbn [be_tail]. rewrite app_nil_r. change (256 ^ N.of_nat 0) with 1. now rewrite N.div_1_r.
  - rewrite Nat.add_succ_r. cbn [be_tail]. rewrite IH, <- app_assoc. f_equal.
    f_equal. rewrite N.div_div by (try apply N.pow_nonzero; discriminate). f_equal.
    rewrite Nat2N.inj_succ, N.pow_succ_r'. reflexivity.
Qed.
Lemma on_length o l : (forall n, l = Definite n -> n < usize_limit) -> on_Length_to_bytes o l = Length_to_bytes l.
Proof.
  intros H. destruct l as [|n]; [reflexivity|]. specialize (H n eq_refl). unfold on_Length_to_bytes, Length_to_bytes.
  destruct (n <=? LEN_MAX_SHORT); [reflexivity|]. cbv zeta. f_equal. rewrite mem_swap.
  assert (byte_len n <= 8) as B.
  { unfold byte_len. assert (N.size n <= 64) as S.
    { destruct (N.eq_dec n 0) as [->|Z]; [discriminate|]. rewrite N.size_log2 by assumption.
      pose proof (proj1 (N.log2_lt_pow2 n 64 ltac:(lia)) H). lia. }
    apply N.lt_succ_r. apply N.div_lt_upper_bound; lia. }
  replace 8%nat with (N.to_nat (8 - byte_len n) + N.to_nat (byte_len n))%nat by lia.
  rewrite be_tail_suffix. set (a := be_tail (N.to_nat (8 - byte_len n)) _).
  replace (8 - byte_len n) with (nlen a) by (unfold a; rewrite be_tail_length; lia). rewrite drop_app_exact.
  apply take_ge. rewrite be_tail_length. lia.
Qed.

(** ** the portable layout on any machine *)
Section MACHINE.
Context (o : order) (first : bool).
Definition mue_view (r : ue_raw) (s : st) : Prop :=
  swf UE_INIT_CAPACITY s /\
  match s with
  | Stk m n => r = {| u_len_ := n; u_union := m |}
  | Hp p c n => r = {| u_len_ := n + 2 ^ 63; u_union := (mue_heap_union o first) p c |}
  end.

Lemma mue_union_data p c : p < usize_limit -> (mue_data_at o first) ((mue_heap_union o first) p c) = p.
Proof using.
  intros H. unfold mue_data_at, mue_heap_union. destruct first.
  - replace 8 with (nlen (mem_of o 8 p)) by apply mem_of_len. rewrite take_app_exact. now apply word_mem_usize.
  - replace 8 with (nlen (mem_of o 8 c)) by apply mem_of_len. rewrite drop_app_exact. now apply word_mem_usize.
Qed.
Lemma mue_union_cap p c : c < usize_limit ->
  word_of o (if first then drop 8 ((mue_heap_union o first) p c) else take 8 ((mue_heap_union o first) p c)) = c.
Proof using.
  intros H. unfold mue_heap_union. destruct first.
  - replace 8 with (nlen (mem_of o 8 p)) by apply mem_of_len. rewrite drop_app_exact. now apply word_mem_usize.
  - replace 8 with (nlen (mem_of o 8 c)) by apply mem_of_len. rewrite take_app_exact. now apply word_mem_usize.
Qed.
Lemma mue_stack_facts m n : n <= UE_INIT_CAPACITY ->
  let r := {| u_len_ := n; u_union := m |} in
  ue_is_stack r = true /\ ue_len r = n /\ (mue_capacity o first) r = UE_INIT_CAPACITY.
Proof using.
  intros H. change UE_INIT_CAPACITY with 16 in H. cbv zeta. unfold ue_len, mue_capacity, ue_is_stack. cbn [u_len_].
  change UE_HEAP_FLAG with (2 ^ 63). change UE_LEN_MASK with (2 ^ 63 - 1).
  assert (n < 2 ^ 63) by (change (2 ^ 63) with 0x8000000000000000; lia).
  rewrite land_flag_low, land_mask_low by assumption. auto.
Qed.
Lemma mue_heap_facts p c n : p < usize_limit -> c <= isize_max -> n <= c ->
  let r := {| u_len_ := n + 2 ^ 63; u_union := (mue_heap_union o first) p c |} in
  ue_is_stack r = false /\ ue_len r = n /\ (mue_capacity o first) r = c /\ (mue_data o first) r = p /\ (mue_cap_ o first) r = c.
Proof using.
  intros Hp Hc Hn. cbv zeta. assert (isize_max = 2 ^ 63 - 1) as EI by reflexivity. assert (usize_limit = 2 ^ 63 + 2 ^ 63) as EU by reflexivity.
  unfold ue_len, mue_capacity, ue_is_stack, mue_data, mue_cap_. cbn [u_len_ u_union].
  change UE_HEAP_FLAG with (2 ^ 63). change UE_LEN_MASK with (2 ^ 63 - 1).
  rewrite land_flag_high, land_mask_high, mue_union_data, mue_union_cap by lia. auto.
Qed.
Lemma mue_view_len r s : mue_view r s -> ue_len r = s_len s.
Proof using.
  intros [W V]. destruct s as [m n|p c n]; cbn [swf] in W; subst r.
  - apply mue_stack_facts; tauto.
  - destruct W as (Hp & _ & Hc & Hn). apply mue_heap_facts; assumption.
Qed.
Lemma mue_view_cap r s : mue_view r s -> (mue_capacity o first) r = s_cap UE_INIT_CAPACITY s.
Proof using.
  intros [W V]. destruct s as [m n|p c n]; cbn [swf] in W; subst r.
  - apply mue_stack_facts; tauto.
  - destruct W as (Hp & _ & Hc & Hn). apply mue_heap_facts; assumption.
Qed.
Lemma mue_fo_set_len n r s : mue_view r s -> mrel mue_view ((mue_set_len o first) n r) (s_set_len UE_INIT_CAPACITY n s).
Proof using.
  intros V. unfold s_set_len, mue_set_len. rewrite (mue_view_cap _ _ V).
  destruct (N.ltb_spec (s_cap UE_INIT_CAPACITY s) n) as [H|H]; [apply mrel_ub|]. apply mrel_ret.
  destruct V as [W V]. assert (isize_max = 2 ^ 63 - 1) as EI by reflexivity.
  destruct s as [m n0|p c n0]; cbn [s_cap swf] in *; subst r; cbn [u_len_ u_union]; change UE_HEAP_FLAG with (2 ^ 63).
  - destruct W as (L & Hn0 & Hok). split; [cbn [swf]; auto|]. change UE_INIT_CAPACITY with 16 in *.
    rewrite land_flag_low by (change (2 ^ 63) with 0x8000000000000000; lia). now rewrite N.lor_0_l.
  - destruct W as (Hp & Hc0 & Hc & Hn0). split; [cbn [swf]; auto|].
    rewrite land_flag_high, N.lor_comm, lor_flag by lia. reflexivity.
Qed.
Lemma mue_fo_load off n r s : mue_view r s -> mrel eq ((mue_load o first) off n r) (s_load off n s).
Proof using.
  intros [W V]. destruct s as [m n0|p c n0]; cbn [swf] in *; subst r; unfold mue_load.
  - destruct W as (L & Hn0 & Hok). destruct (mue_stack_facts m n0 Hn0) as (S & _ & _). rewrite S. apply mrel_refl.
  - destruct W as (Hp & Hc0 & Hc & Hn0). destruct (mue_heap_facts p c n0 Hp Hc Hn0) as (S & _ & _ & D & _).
    rewrite S, D. apply mrel_refl.
Qed.
Lemma mue_fo_store off src r s : bytes_ok src -> mue_view r s -> mrel mue_view ((mue_store o first) off src r) (s_store off src s).
Proof using.
  intros Hsrc [W V]. destruct s as [m n0|p c n0]; cbn [swf] in *; subst r; unfold mue_store.
  - destruct W as (L & Hn0 & Hok). destruct (mue_stack_facts m n0 Hn0) as (S & _ & _). rewrite S.
    cbn [s_store u_union u_len_]. destruct (N.ltb_spec (nlen m) (off + nlen src)) as [H|H]; [apply mrel_ub|].
    apply mrel_ret. split; [|reflexivity]. cbn [swf]. rewrite !nlen_app, nlen_take, nlen_drop, !bytes_ok_app.
    split; [lia|]. repeat split; auto; [now apply bytes_ok_take | now apply bytes_ok_drop].
  - destruct W as (Hp & Hc0 & Hc & Hn0). destruct (mue_heap_facts p c n0 Hp Hc Hn0) as (S & _ & _ & D & _).
    rewrite S, D. cbn [s_store]. eapply mrel_bind; [apply mrel_refl|]. intros [] [] _. apply mrel_ret.
    split; [cbn [swf]; auto | reflexivity].
Qed.
Lemma mue_fo_reserve al k r s : good_allocator al -> mue_view r s ->
  mrel mue_view ((mue_reserve o first) al k r) (s_reserve UE_INIT_CAPACITY al k s).
Proof using.
  intros G V. unfold mue_reserve, s_reserve. rewrite (mue_view_len _ _ V), (mue_view_cap _ _ V). cbv zeta.
  destruct (N.ltb_spec isize_max (s_len s + k)) as [|H1]; [apply mrel_ub|].
  assert (isize_max = 2 ^ 63 - 1) as EI by reflexivity. assert (usize_limit = 2 ^ 63 + 2 ^ 63) as EU by reflexivity.
  destruct (N.leb_spec usize_limit (s_len s + k)); [lia|].
  destruct (N.leb_spec (s_len s + k) (s_cap UE_INIT_CAPACITY s)) as [|H2]; [now apply mrel_ret|].
  destruct V as [W V]. destruct s as [m n|p c n]; cbn [swf s_len s_cap] in *; subst r.
  - destruct W as (L & Hn & Hok). destruct (mue_stack_facts m n Hn) as (S & LL & _). rewrite S.
    unfold mue_heap_new. destruct (N.eqb_spec (n + k) 0); [lia|].
    eapply (mrel_bind (fun u q => u = (mue_heap_union o first) q (n + k) /\ q < usize_limit)).
    { intros h. pose proof (alloc_rel al (n + k) G h) as K. unfold mbind.
      destruct (alloc al (n + k) h) as [a h'| | |]; cbn [orel] in *; auto. destruct K as (x & [= <-] & _ & Hx).
      eexists. split; [reflexivity | auto]. }
    intros u q [-> Hq]. rewrite mue_union_data by assumption.
    assert (E : (mue_load o first) 0 n {| u_len_ := n; u_union := m |} = mret (take n m)).
    { unfold mue_load. rewrite S. cbn [u_union]. destruct (N.ltb_spec (nlen m) (0 + n)); [lia|]. now rewrite drop_0. }
    rewrite E. apply mrel_ret_l. eapply mrel_bind; [apply mrel_refl|]. intros [] [] _. apply mrel_ret.
    split; [cbn [swf]; repeat split; auto; lia|]. cbn [u_len_]. change UE_HEAP_FLAG with (2 ^ 63). now rewrite lor_flag by lia.
  - destruct W as (Hp & Hc0 & Hc & Hn). destruct (mue_heap_facts p c n Hp Hc Hn) as (S & _ & _ & D & C).
    rewrite S, D, C. apply mrel_bind with eq_ptr; [now apply realloc_rel|]. intros q q' [<- Hq]. apply mrel_ret.
    split; [cbn [swf]; repeat split; auto; lia|]. reflexivity.
Qed.
Lemma mue_new_view : mue_view ue_new (s_new UE_INIT_CAPACITY).
Proof using.
  split; [|reflexivity]. cbn [swf s_new]. split; [reflexivity|]. split; [discriminate|]. unfold bytes_ok. repeat constructor.
Qed.
Lemma mue_fo_with_capacity al k : good_allocator al -> mrel mue_view ((mue_with_capacity o first) al k) (s_with_capacity UE_INIT_CAPACITY al k).
Proof using.
  intros G. unfold mue_with_capacity, s_with_capacity, s_reserve. cbn [s_len s_cap s_new]. rewrite N.add_0_l.
  destruct (N.ltb_spec isize_max k) as [|H1]; [apply mrel_ub|].
  destruct (N.leb_spec k UE_INIT_CAPACITY) as [|H2]; [apply mrel_ret, mue_new_view|].
  unfold s_new. unfold mue_heap_new. destruct (N.eqb_spec k 0); [lia|]. intros h. unfold mbind, alloc.
  destruct (N.ltb_spec isize_max k); [lia|]. destruct (N.eqb_spec k 0); [lia|].
  destruct (al_pick al h k) as [a|] eqn:E; [|reflexivity]. destruct (G h k a E) as (_ & _ & Ha).
  unfold store. rewrite get_set_eq, !take_0. change (0 + nlen (@nil N)) with 0.
  destruct (N.ltb_spec (nlen (new_octets al h a k)) 0); [lia|]. cbn [app]. rewrite drop_0, set_set. unfold mret. cbn [orel].
  eexists. split; [reflexivity|]. split; [cbn [swf]; repeat split; auto; lia|]. reflexivity.
Qed.
Lemma mue_fo_push v r s : v < 256 -> mue_view r s -> mrel mue_view ((mue_push o first) v r) (s_push UE_INIT_CAPACITY v s).
Proof using.
  intros Hv V. unfold mue_push, s_push. rewrite (mue_view_len _ _ V), (mue_view_cap _ _ V).
  destruct (N.ltb_spec (s_len s) (s_cap UE_INIT_CAPACITY s)) as [H|H]; [|apply mrel_ub].
  pose proof (mue_fo_set_len (s_len s + 1) r s V) as K. unfold s_set_len in *.
  destruct (N.ltb_spec (s_cap UE_INIT_CAPACITY s) (s_len s + 1)); [lia|].
  eapply mrel_bind with (R := fun r1 s1 => mue_view r1 s1 /\ s_len s1 = s_len s + 1).
  - intros h. destruct (K h) as (a & -> & HV). exists a. repeat split; auto; try apply HV. now destruct s.
  - intros r1 s1 [V1 L1]. rewrite (mue_view_len _ _ V1), L1. destruct (N.ltb_spec (s_len s) (s_len s + 1)); [|lia].
    apply mue_fo_store; [|assumption]. apply bytes_ok_cons. split; [assumption | constructor].
Qed.
Lemma mue_fo_extend vals r s : bytes_ok vals -> mue_view r s -> mrel mue_view ((mue_extend o first) vals r) (s_extend UE_INIT_CAPACITY vals s).
Proof using.
  intros Hv V. unfold mue_extend, s_extend. rewrite (mue_view_len _ _ V).
  eapply mrel_bind with (R := fun r1 s1 => mue_view r1 s1 /\ s_len s1 = s_len s).
  - intros h. pose proof (mue_fo_store (s_len s) vals r s Hv V h) as K.
    destruct (s_store (s_len s) vals s h) as [s1 h1| | |] eqn:E; cbn [orel] in *; auto.
    destruct K as (a & -> & HV). exists a. repeat split; auto; try apply HV. now apply s_store_len in E.
  - intros r1 s1 [V1 L1]. rewrite (mue_view_len _ _ V1), L1. now apply mue_fo_set_len.
Qed.
Lemma mue_fo_from_vec v : mrel mue_view ((mue_from_vec o first) v) (s_from_vec UE_INIT_CAPACITY v).
Proof using.
  unfold mue_from_vec, s_from_vec. destruct (v_cap v =? 0) eqn:E.
  - unfold vec_drop. rewrite E. apply mrel_ret_l, mrel_ret, mue_new_view.
  - destruct (N.ltb_spec (v_cap v) (v_len v)); [apply mrel_ub|].
    destruct (N.ltb_spec isize_max (v_cap v)); [apply mrel_ub|].
    destruct (N.leb_spec usize_limit (v_ptr v)); [apply mrel_ub|]. cbn [orb].
    apply mrel_ret. apply N.eqb_neq in E. split; [cbn [swf]; repeat split; auto; lia|].
    assert (isize_max = 2 ^ 63 - 1) as EI by reflexivity. change UE_HEAP_FLAG with (2 ^ 63). now rewrite lor_flag by lia.
Qed.
Lemma mue_fo_into_vec al r s : mue_view r s -> mrel eq ((mue_into_vec o first) al r) (s_into_vec al s).
Proof using.
  intros V. pose proof (mue_fo_load 0 (s_len s) r s V) as K. pose proof (mue_view_len _ _ V) as LL.
  destruct V as [W V]. destruct s as [m n|p c n]; cbn [swf s_len s_into_vec] in *; subst r; unfold mue_into_vec, mue_drop.
  - destruct W as (L & Hn & Hok). destruct (mue_stack_facts m n Hn) as (S & _). rewrite S, LL. cbn [s_load] in K.
    destruct (N.ltb_spec (nlen m) (0 + n)); [lia|]. rewrite drop_0 in K.
    apply (mrel_bind eq eq _ (mret (take n m)) _ (fun x => vec_from_slice al x)); [exact K|].
    intros a b ->. change (mrel eq (v <-- vec_from_slice al b; mret v) (vec_from_slice al b)).
    intros h. unfold mbind, mret. destruct (vec_from_slice al b h) as [x h'| | |]; cbn [orel]; auto. exists x. auto.
  - destruct W as (Hp & Hc0 & Hc & Hn). destruct (mue_heap_facts p c n Hp Hc Hn) as (S & _ & C & D & _).
    rewrite S, D, C, LL. apply mrel_refl.
Qed.
Lemma mue_fo_drop r s : mue_view r s -> mrel eq ((mue_drop o first) r) (s_drop s).
Proof using.
  intros [W V]. destruct s as [m n|p c n]; cbn [swf s_drop] in *; subst r; unfold mue_drop.
  - destruct W as (L & Hn & Hok). destruct (mue_stack_facts m n Hn) as (S & _). rewrite S. apply mrel_refl.
  - destruct W as (Hp & Hc0 & Hc & Hn). destruct (mue_heap_facts p c n Hp Hc Hn) as (S & _ & _ & D & C).
    rewrite S, D, C. apply mrel_refl.
Qed.
Lemma mue_fo_clone al r s : good_allocator al -> mue_view r s -> mrel mue_view ((mue_clone o first) al r) (s_clone UE_INIT_CAPACITY al s).
Proof using.
  intros G V. unfold mue_clone, s_clone. rewrite (mue_view_len _ _ V).
  apply mrel_bind with mue_view; [now apply mue_fo_with_capacity|]. intros r1 s1 V1.
  apply mrel_bind with eq; [now apply mue_fo_load|]. intros x y ->.
  destruct (forallb (fun b => b <? 256) y) eqn:E; [|apply mrel_ub]. apply mue_fo_extend; [now apply octets_ok | assumption].
Qed.
Theorem mUE_follows : follows good_allocator (UE_on o first) mue_view.
Proof using.
  constructor; cbn [UE_on L_raw L_init_cap L_new L_with_capacity L_from_vec L_len L_capacity L_reserve L_set_len L_push L_extend L_load L_store L_clone L_into_vec L_drop].
  - now intros r s [W _].
  - exact mue_new_view.
  - exact mue_view_len.
  - exact mue_view_cap.
  - exact mue_fo_set_len.
  - exact mue_fo_load.
  - exact mue_fo_store.
  - exact mue_fo_reserve.
  - exact mue_fo_with_capacity.
  - exact mue_fo_push.
  - exact mue_fo_extend.
  - exact mue_fo_clone.
  - exact mue_fo_from_vec.
  - exact mue_fo_into_vec.
  - exact mue_fo_drop.
Qed.
End MACHINE.
