(** Words of any size: the two layouts follow the abstract buffer of RawProofs.v within the
    limits of the machine. *)
From Verif Require Import Base ModelIo ModelTag ModelBuf ModelHeap ModelBufLE ModelBufUE ModelWord Spec SpecBuf SpecWord TagProofs BufProofs RawProofs RawMain.

(** With eight octets, the definitions used elsewhere. *)
Lemma eight_le : WLE 8 = LE.
Proof. reflexivity. Qed.
Lemma eight_ue : WUE 8 = UE.
Proof. reflexivity. Qed.

(** ** bit operations on words *)
Lemma flag_low k x : x < 2 ^ k -> N.land x (2 ^ k) = 0.
Proof.
  intros H. apply N.bits_inj_0. intros n. rewrite N.land_spec, N.pow2_bits_eqb.
  destruct (N.eqb_spec k n) as [<-|]; [|apply andb_false_r].
  rewrite andb_true_r. destruct (N.eq_dec x 0) as [->|Nz]; [apply N.bits_0|].
  apply N.bits_above_log2. apply N.log2_lt_pow2; lia.
Qed.
Lemma flag_or k x : x < 2 ^ k -> N.lor x (2 ^ k) = x + 2 ^ k.
Proof.
  intros H. pose proof (flag_low k x H) as Z.
  rewrite <- N.lxor_lor by assumption. symmetry. now apply N.add_nocarry_lxor.
Qed.
Lemma flag_high k x : x < 2 ^ k -> N.land (x + 2 ^ k) (2 ^ k) = 2 ^ k.
Proof.
  intros H. rewrite <- flag_or by assumption.
  rewrite N.land_lor_distr_l, flag_low, N.land_diag by assumption. reflexivity.
Qed.
Lemma ones_pred k : 2 ^ k - 1 = N.ones k.
Proof. rewrite N.ones_equiv. lia. Qed.
Lemma mask_low k x : x < 2 ^ k -> N.land x (2 ^ k - 1) = x.
Proof. intros H. rewrite ones_pred, N.land_ones. now apply N.mod_small. Qed.
Lemma mask_high k x : x < 2 ^ k -> N.land (x + 2 ^ k) (2 ^ k - 1) = x.
Proof.
  intros H. rewrite ones_pred, N.land_ones. rewrite <- (N.mul_1_l (2 ^ k)) at 1.
  rewrite N.mod_add by (apply N.pow_nonzero; discriminate). now apply N.mod_small.
Qed.
Lemma top_or k v n : v < 2 ^ k -> N.lor v (n * 2 ^ k) = v + n * 2 ^ k.
Proof.
  intros H. assert (Z : N.land v (n * 2 ^ k) = 0).
  { apply N.bits_inj_0. intros i. rewrite N.land_spec. destruct (N.ltb_spec i k) as [K|K].
    - rewrite N.mul_pow2_bits_low by assumption. apply andb_false_r.
    - destruct (N.eq_dec v 0) as [->|Nz]; [now rewrite N.bits_0|].
      rewrite N.bits_above_log2; [reflexivity|]. apply N.lt_le_trans with k; [apply N.log2_lt_pow2; lia | assumption]. }
  rewrite <- N.lxor_lor by assumption. symmetry. now apply N.add_nocarry_lxor.
Qed.
Lemma not_top k : N.lxor (N.shiftl 0xff k) (2 ^ (k + 8) - 1) = N.ones k.
Proof.
  rewrite ones_pred. apply N.bits_inj. intros i. rewrite N.lxor_spec. destruct (N.ltb_spec i k) as [H|H].
  - rewrite N.shiftl_spec_low, !N.ones_spec_low by lia. reflexivity.
  - rewrite N.shiftl_spec_high' by assumption. rewrite (N.ones_spec_high k) by assumption.
    change 0xff with (N.ones 8). destruct (N.ltb_spec (i - k) 8).
    + rewrite !N.ones_spec_low by lia. reflexivity.
    + rewrite !N.ones_spec_high by lia. reflexivity.
Qed.

Section WORD.
Context (w : N) (Hw1 : 1 <= w) (Hw8 : w <= 8).
Notation T := (2 ^ (8 * w - 8)).
Lemma T_pos : 1 <= T.
Proof. pose proof (N.pow_nonzero 2 (8 * w - 8)). lia. Qed.
Lemma limit_T : word_limit w = 256 * T.
Proof. unfold word_limit. replace (8 * w) with (8 + (8 * w - 8)) at 1 by lia. rewrite N.pow_add_r. reflexivity. Qed.
Lemma flag_T : 2 ^ (8 * w - 1) = 128 * T.
Proof. replace (8 * w - 1) with (7 + (8 * w - 8)) by lia. rewrite N.pow_add_r. reflexivity. Qed.
Lemma limit_256 : word_limit w = 256 ^ w.
Proof. unfold word_limit. rewrite N.pow_mul_r. reflexivity. Qed.
Lemma T_256 : T = 256 ^ (w - 1).
Proof. replace (8 * w - 8) with (8 * (w - 1)) by lia. rewrite N.pow_mul_r. reflexivity. Qed.
Lemma max_T : word_max w = 128 * T - 1.
Proof. unfold word_max. now rewrite flag_T. Qed.
Lemma max_8 : word_max w <= isize_max.
Proof.
  unfold word_max. change isize_max with (2 ^ 63 - 1). pose proof (N.pow_le_mono_r 2 (8 * w - 1) 63). lia.
Qed.
Lemma limit_8 : word_limit w <= usize_limit.
Proof. unfold word_limit. change usize_limit with (2 ^ 64). apply N.pow_le_mono_r; lia. Qed.

(** The allocator of this machine. *)
Notation w_good := (word_allocator w).
Definition w_wf (ic : N) (s : st) : Prop :=
  swf ic s /\ match s with Stk _ _ => True | Hp p c _ => p < word_limit w /\ c <= word_max w end.

(** What a layout of this machine must do. *)
Record w_follows (L : layout) (V : L_raw L -> st -> Prop) : Prop := {
  wf_wf : forall r s, V r s -> w_wf (L_init_cap L) s;
  wf_ic : L_init_cap L <= word_max w;
  wf_new : V (L_new L) (s_new (L_init_cap L));
  wf_len : forall r s, V r s -> L_len L r = s_len s;
  wf_cap : forall r s, V r s -> L_capacity L r = s_cap (L_init_cap L) s;
  wf_set_len : forall n r s, V r s -> mrel V (L_set_len L n r) (s_set_len (L_init_cap L) n s);
  wf_load : forall off n r s, V r s -> mrel eq (L_load L off n r) (s_load off n s);
  wf_store : forall off src r s, bytes_ok src -> V r s -> mrel V (L_store L off src r) (s_store off src s);
  wf_reserve : forall al k r s, w_good al -> V r s -> s_len s + k <= word_max w ->
    mrel V (L_reserve L al k r) (s_reserve (L_init_cap L) al k s);
  wf_with_capacity : forall al k, w_good al -> k <= word_max w ->
    mrel V (L_with_capacity L al k) (s_with_capacity (L_init_cap L) al k);
  wf_push : forall v r s, v < 256 -> V r s -> mrel V (L_push L v r) (s_push (L_init_cap L) v s);
  wf_extend : forall vals r s, bytes_ok vals -> V r s -> mrel V (L_extend L vals r) (s_extend (L_init_cap L) vals s);
  wf_clone : forall al r s, w_good al -> V r s -> mrel V (L_clone L al r) (s_clone (L_init_cap L) al s);
  wf_from_vec : forall v, v_cap v <= word_max w -> v_ptr v < word_limit w ->
    mrel V (L_from_vec L v) (s_from_vec (L_init_cap L) v);
  wf_into_vec : forall al r s, V r s -> mrel eq (L_into_vec L al r) (s_into_vec al s);
  wf_drop : forall r s, V r s -> mrel eq (L_drop L r) (s_drop s)
}.

Definition w_eq_ptr (a b : N) : Prop := a = b /\ a < usize_limit /\ a < word_limit w.
Lemma w_alloc_rel al n : w_good al -> n <= word_max w -> mrel w_eq_ptr (w_alloc w al n) (alloc al n).
Proof.
  intros [G G'] Hn h. unfold alloc, w_alloc. pose proof max_8. destruct (N.ltb_spec (word_max w) n); [lia|].
  destruct (N.ltb_spec isize_max n); [exact I|]. destruct (n =? 0); [exact I|].
  destruct (al_pick al h n) as [a|] eqn:E; [|reflexivity]. exists a. destruct (G h n a E) as (_ & _ & ?).
  specialize (G' h n a E). repeat split; auto.
Qed.
Lemma w_realloc_rel al p o n : w_good al -> o <= word_max w -> n <= word_max w ->
  mrel w_eq_ptr (w_realloc w al p o n) (realloc al p o n).
Proof.
  intros [G G'] Ho Hn h. unfold realloc, w_realloc. pose proof max_8. destruct (N.ltb_spec (word_max w) o); [lia|].
  destruct (N.ltb_spec (word_max w) n); [lia|]. destruct (N.ltb_spec isize_max o); [lia|]. destruct (N.ltb_spec isize_max n); [lia|].
  destruct (h_get p h) as [c|]; [|exact I].
  destruct (negb (nlen c =? o)); [exact I|]. destruct (n =? 0); cbn [orb]; [exact I|]. cbv zeta.
  destruct (al_pick al (h_del p h) n) as [a|] eqn:E; [|reflexivity]. exists a. destruct (G _ n a E) as (_ & _ & ?).
  specialize (G' _ n a E). repeat split; auto.
Qed.
Lemma w_vec_from_slice_rel al bs : nlen bs <= word_max w -> mrel eq (w_vec_from_slice w al bs) (vec_from_slice al bs).
Proof.
  intros Hn. unfold w_vec_from_slice, vec_from_slice. destruct (nlen bs =? 0) eqn:Z; [apply mrel_refl|].
  apply (mrel_bind eq); [|intros a b ->; apply mrel_refl].
  intros h. unfold alloc, w_alloc. pose proof max_8. destruct (N.ltb_spec (word_max w) (nlen bs)); [lia|].
  destruct (N.ltb_spec isize_max (nlen bs)); [lia|]. rewrite Z.
  destruct (al_pick al h (nlen bs)); [eexists; eauto | reflexivity].
Qed.

(** ** the little-endian layout *)
Notation ic := (WLE_INIT_CAPACITY w).
Notation oct := (le_octets (N.to_nat w)).
Definition wle_view (r : list N) (s : st) : Prop :=
  w_wf ic s /\
  match s with
  | Stk m n => r = m ++ [n]
  | Hp p c n => r = oct p ++ oct c ++ oct (n + 2 ^ (8 * w - 1))
  end.
Lemma oct_len n : nlen (oct n) = w.
Proof. rewrite le_octets_len. lia. Qed.
Lemma wle_word_at i pre x post : nlen pre = w * i -> nlen x = w -> wle_word w i (pre ++ x ++ post) = le_value x.
Proof. intros H Hx. unfold wle_word. rewrite <- H, drop_app_exact, <- Hx, take_app_exact. reflexivity. Qed.
Lemma wle_word_end i pre x : nlen pre = w * i -> nlen x = w -> wle_word w i (pre ++ x) = le_value x.
Proof. intros H Hx. rewrite <- (wle_word_at i pre x []) by assumption. now rewrite app_nil_r. Qed.
Lemma wle_set_word_at i v pre x post : nlen pre = w * i -> nlen x = w ->
  wle_set_word w i v (pre ++ x ++ post) = pre ++ oct v ++ post.
Proof.
  intros H Hx. unfold wle_set_word. rewrite <- H, take_app_exact. do 2 f_equal.
  rewrite drop_app_ge by lia. replace (nlen pre + w - nlen pre) with (nlen x) by lia. apply drop_app_exact.
Qed.
Lemma wle_set_word_0 v x post : nlen x = w -> wle_set_word w 0 v (x ++ post) = oct v ++ post.
Proof. apply (wle_set_word_at 0 v []). rewrite N.mul_0_r. reflexivity. Qed.
Lemma wle_stk_split m : nlen m = ic -> exists a b c : list N, m = a ++ b ++ c /\ nlen a = w /\ nlen b = w /\ nlen c = w - 1.
Proof.
  unfold WLE_INIT_CAPACITY. intros H.
  destruct (split_at w m) as (a & r & -> & La); [lia|]. rewrite nlen_app in H.
  destruct (split_at w r) as (b & c & -> & Lb); [lia|]. rewrite nlen_app in H.
  exists a, b, c. repeat split; auto; lia.
Qed.
Lemma ic_small : ic < 128.
Proof. unfold WLE_INIT_CAPACITY. lia. Qed.
Lemma ic_max : ic <= word_max w.
Proof. rewrite max_T. pose proof T_pos. pose proof ic_small. lia. Qed.
Lemma wle_len_word a b c n : nlen a = w -> nlen b = w -> nlen c = w - 1 -> bytes_ok c ->
  wle_len_ w (a ++ b ++ c ++ [n]) = le_value c + n * T /\ le_value c < T.
Proof.
  intros Ha Hb Hc Hok. split.
  - unfold wle_len_. rewrite (app_assoc a b). rewrite <- (app_nil_r (c ++ [n])).
    rewrite wle_word_at by (rewrite nlen_app, ?nlen_cons, ?nlen_nil; lia).
    rewrite le_value_app, Hc. cbn [le_value]. rewrite <- T_256. lia.
  - apply (N.lt_le_trans _ (256 ^ nlen c)); [now apply le_value_bound|]. rewrite Hc, <- T_256. apply N.le_refl.
Qed.
Lemma wle_stack_facts m n : nlen m = ic -> bytes_ok m -> n <= ic ->
  wle_is_stack w (m ++ [n]) = true /\ wle_len w (m ++ [n]) = n /\ wle_capacity w (m ++ [n]) = ic.
Proof.
  intros L Hok Hn. destruct (wle_stk_split m L) as (a & b & c & -> & La & Lb & Lc).
  apply bytes_ok_app in Hok as [_ Hok]. apply bytes_ok_app in Hok as [_ Hok].
  pose proof ic_small. pose proof T_pos.
  destruct (wle_len_word a b c n La Lb Lc Hok) as [E B].
  assert (S : wle_is_stack w ((a ++ b ++ c) ++ [n]) = true).
  { unfold wle_is_stack. rewrite <- !app_assoc, E. unfold W_HEAP_FLAG. rewrite flag_low; [reflexivity|].
    rewrite flag_T. nia. }
  split; [assumption|]. unfold wle_len, wle_capacity. rewrite S. split; [|reflexivity].
  rewrite <- !app_assoc, E, N.shiftr_div_pow2.
  rewrite N.div_add by (apply N.pow_nonzero; discriminate). rewrite N.div_small by assumption. reflexivity.
Qed.
Lemma w_small_word n : n < word_limit w -> le_value (oct n) = n.
Proof. intros H. apply le_value_octets. rewrite N2Nat.id, <- limit_256. exact H. Qed.
Lemma wle_heap_facts p c n : p < word_limit w -> c <= word_max w -> n <= c ->
  let r := oct p ++ oct c ++ oct (n + 2 ^ (8 * w - 1)) in
  wle_is_stack w r = false /\ wle_len w r = n /\ wle_capacity w r = c /\ wle_data w r = p /\ wle_cap_ w r = c.
Proof.
  intros Hp Hc Hn r. pose proof max_T as EM. pose proof flag_T as EF. pose proof limit_T as EL. pose proof T_pos.
  assert (W0 : wle_data w r = p).
  { unfold wle_data. rewrite <- (w_small_word p) by assumption. unfold r.
    apply (wle_word_at 0 []); [now rewrite N.mul_0_r | apply oct_len]. }
  assert (W1 : wle_cap_ w r = c).
  { unfold wle_cap_. rewrite <- (w_small_word c) by lia. unfold r. apply wle_word_at; rewrite oct_len; lia. }
  assert (W2 : wle_len_ w r = n + 2 ^ (8 * w - 1)).
  { unfold wle_len_. rewrite <- (w_small_word (n + 2 ^ (8 * w - 1))) by lia. unfold r.
    rewrite app_assoc. apply wle_word_end; [|apply oct_len].
    rewrite nlen_app, !oct_len. lia. }
  assert (S : wle_is_stack w r = false).
  { unfold wle_is_stack. rewrite W2. unfold W_HEAP_FLAG. rewrite flag_high by lia. apply N.eqb_neq. lia. }
  split; [assumption|]. unfold wle_len, wle_capacity. rewrite S, W1, W2. unfold W_LEN_MASK.
  rewrite mask_high by lia. auto.
Qed.

Lemma wle_fo_set_len n r s : wle_view r s -> mrel wle_view (wle_set_len w n r) (s_set_len ic n s).
Proof.
  intros [[W B] V]. unfold s_set_len. destruct (N.ltb_spec (s_cap ic s) n) as [H|H]; [apply mrel_ub|].
  pose proof max_T as EM. pose proof flag_T as EF. pose proof limit_T as EL. pose proof T_pos as TP. pose proof ic_small as IS.
  destruct s as [m n0|p c n0]; cbn [s_cap swf] in *; subst r.
  - destruct W as (L & Hn0 & Hok). destruct (wle_stack_facts m n0 L Hok Hn0) as (S & _ & _).
    unfold wle_set_len. rewrite S. cbv zeta. apply mrel_ret. split; [split; [cbn [swf]; auto | exact I]|].
    destruct (wle_stk_split m L) as (a & b & c & -> & La & Lb & Lc).
    apply bytes_ok_app in Hok as [_ Hok]. apply bytes_ok_app in Hok as [_ Hok].
    rewrite <- !app_assoc.
    destruct (wle_len_word a b c n0 La Lb Lc Hok) as [E Bc]. rewrite E.
    assert (NM : N.lxor (N.shiftl 0xff (8 * w - 8)) (word_limit w - 1) = N.ones (8 * w - 8)).
    { rewrite <- not_top. unfold word_limit. do 3 f_equal. lia. }
    rewrite NM.
    rewrite N.land_ones, N.mod_add by (apply N.pow_nonzero; discriminate). rewrite N.mod_small by assumption.
    assert (SW : forall v x y, nlen (x ++ [y]) = w -> wle_set_word w 2 v (a ++ b ++ x ++ [y]) = a ++ b ++ oct v).
    { intros v x y Hx. rewrite (app_assoc a b), <- (app_nil_r (x ++ [y])).
      rewrite wle_set_word_at by (rewrite ?nlen_app in *; auto; lia). now rewrite app_nil_r, <- app_assoc. }
    assert (O : forall k, k < 256 -> oct (le_value c + k * T) = c ++ [k]).
    { intros k Hk. replace (le_value c + k * T) with (le_value (c ++ [k])).
      - replace (N.to_nat w) with (length (c ++ [k])).
        + apply le_octets_of_value. apply bytes_ok_app. split; [assumption|]. apply bytes_ok_cons. split; [assumption | constructor].
        + apply Nat2N.inj. rewrite <- nlen_length, nlen_app, Lc, N2Nat.id. change (nlen [k]) with 1. lia.
      - rewrite le_value_app, Lc. cbn [le_value]. rewrite <- T_256. lia. }
    assert (L8 : forall k, nlen (c ++ [k]) = w) by (intros k; rewrite nlen_app, Lc; change (nlen [k]) with 1; lia).
    rewrite SW by apply L8. replace (le_value c) with (le_value c + 0 * T) at 1 2 by lia.
    rewrite O by lia. destruct (wle_len_word a b c 0 La Lb Lc Hok) as [E0 _]. rewrite E0.
    rewrite SW by apply L8. rewrite N.shiftl_mul_pow2.
    rewrite N.mod_small by (rewrite EL; nia).
    rewrite N.mul_0_l, N.add_0_r, top_or by assumption. rewrite O by lia. reflexivity.
  - destruct W as (Hp & Hc0 & Hc & Hn0). destruct B as [Hp' Hc'].
    destruct (wle_heap_facts p c n0 Hp' Hc' Hn0) as (S & _).
    unfold wle_set_len. rewrite S. apply mrel_ret. split; [split; cbn [swf]; auto|].
    unfold W_HEAP_FLAG. rewrite flag_or by lia.
    rewrite app_assoc, <- (app_nil_r (oct (n0 + _))).
    rewrite wle_set_word_at by (rewrite ?nlen_app, !oct_len; lia).
    now rewrite app_nil_r, <- app_assoc.
Qed.
Lemma wle_fo_load off n r s : wle_view r s -> mrel eq (wle_load w off n r) (s_load off n s).
Proof.
  intros [[W B] V]. destruct s as [m n0|p c n0]; cbn [swf] in *; subst r; unfold wle_load.
  - destruct W as (L & Hn0 & Hok). destruct (wle_stack_facts m n0 L Hok Hn0) as (S & _ & _). rewrite S.
    cbn [s_load]. destruct (N.ltb_spec (nlen m) (off + n)) as [H|H]; [apply mrel_ub|].
    rewrite nlen_app. destruct (N.ltb_spec (nlen m + nlen [n0]) (off + n)); [lia|].
    apply mrel_ret. destruct (split_at off m) as (a & b & -> & La); [lia|]. subst off. rewrite nlen_app in H.
    rewrite <- app_assoc, !drop_app_exact. destruct (split_at n b) as (x & y & -> & Lx); [lia|]. subst n.
    now rewrite <- app_assoc, !take_app_exact.
  - destruct W as (Hp & Hc0 & Hc & Hn0). destruct (wle_heap_facts p c n0 (proj1 B) (proj2 B) Hn0) as (S & _ & _ & D & _).
    rewrite S, D. apply mrel_refl.
Qed.
Lemma wle_fo_store off src r s : bytes_ok src -> wle_view r s -> mrel wle_view (wle_store w off src r) (s_store off src s).
Proof.
  intros Hsrc [[W B] V]. destruct s as [m n0|p c n0]; cbn [swf] in *; subst r; unfold wle_store.
  - destruct W as (L & Hn0 & Hok). destruct (wle_stack_facts m n0 L Hok Hn0) as (S & _ & _). rewrite S.
    cbn [s_store]. destruct (N.ltb_spec (nlen m) (off + nlen src)) as [H|H]; [apply mrel_ub|].
    rewrite nlen_app. destruct (N.ltb_spec (nlen m + nlen [n0]) (off + nlen src)); [lia|].
    apply mrel_ret. destruct (split_at off m) as (a & b & -> & La); [lia|]. subst off. rewrite nlen_app in H.
    destruct (split_at (nlen src) b) as (x & y & -> & Lx); [lia|].
    rewrite <- !app_assoc. assert (D : forall z, drop (nlen a + nlen src) (a ++ x ++ z) = z).
    { intros z. rewrite drop_app_ge by lia. replace (nlen a + nlen src - nlen a) with (nlen x) by lia. apply drop_app_exact. }
    rewrite !take_app_exact, !D. rewrite !nlen_app in L. rewrite !bytes_ok_app in Hok. split.
    + split; [|exact I]. cbn [swf]. rewrite !nlen_app, !bytes_ok_app. split; [lia|]. tauto.
    + now rewrite <- !app_assoc.
  - destruct W as (Hp & Hc0 & Hc & Hn0). destruct (wle_heap_facts p c n0 (proj1 B) (proj2 B) Hn0) as (S & _ & _ & D & _).
    rewrite S, D. cbn [s_store]. eapply mrel_bind; [apply mrel_refl|]. intros [] [] _. apply mrel_ret.
    split; [split; cbn [swf]; auto | reflexivity].
Qed.
Lemma wle_view_len r s : wle_view r s -> wle_len w r = s_len s.
Proof.
  intros [[W B] V]. destruct s as [m n|p c n]; cbn [swf] in W; subst r.
  - apply wle_stack_facts; tauto.
  - destruct W as (Hp & _ & Hc & Hn). apply wle_heap_facts; tauto.
Qed.
Lemma wle_view_cap r s : wle_view r s -> wle_capacity w r = s_cap ic s.
Proof.
  intros [[W B] V]. destruct s as [m n|p c n]; cbn [swf] in W; subst r.
  - apply wle_stack_facts; tauto.
  - destruct W as (Hp & _ & Hc & Hn). apply wle_heap_facts; tauto.
Qed.
Lemma wle_fo_reserve al k r s : w_good al -> wle_view r s -> s_len s + k <= word_max w ->
  mrel wle_view (wle_reserve w al k r) (s_reserve ic al k s).
Proof.
  intros G V Hk. unfold wle_reserve, s_reserve. rewrite (wle_view_len _ _ V), (wle_view_cap _ _ V). cbv zeta.
  pose proof max_T as EM. pose proof flag_T as EF. pose proof limit_T as EL. pose proof T_pos as TP. pose proof max_8 as M8.
  destruct (N.ltb_spec isize_max (s_len s + k)) as [|H1]; [apply mrel_ub|].
  destruct (N.leb_spec (word_limit w) (s_len s + k)); [lia|].
  destruct (N.leb_spec (s_len s + k) (s_cap ic s)) as [|H2]; [now apply mrel_ret|].
  destruct V as [[W B] V]. destruct s as [m n|p c n]; cbn [swf s_len s_cap] in *; subst r.
  - destruct W as (L & Hn & Hok). destruct (wle_stack_facts m n L Hok Hn) as (S & LL & _). rewrite S.
    apply mrel_bind with w_eq_ptr; [now apply w_alloc_rel|]. intros q q' (<- & Hq & Hq').
    assert (E : wle_load w 0 n (m ++ [n]) = mret (take n m)).
    { unfold wle_load. rewrite S, nlen_app. destruct (N.ltb_spec (nlen m + nlen [n]) (0 + n)); [rewrite nlen_cons in *; lia|].
      rewrite drop_0. f_equal. destruct (split_at n m) as (a & b & -> & <-); [lia|]. now rewrite <- app_assoc, !take_app_exact. }
    rewrite E. apply mrel_ret_l. eapply mrel_bind; [apply mrel_refl|]. intros [] [] _. apply mrel_ret.
    assert (W' : w_wf ic (Hp q (n + k) n)) by (split; cbn [swf]; repeat split; auto; lia).
    split; [assumption|]. destruct (wle_stk_split m L) as (a & b & c & -> & La & Lb & Lc).
    rewrite <- !app_assoc. rewrite wle_set_word_0 by assumption.
    rewrite (wle_set_word_at 1 (n + k) (oct q) b) by (rewrite ?oct_len; auto; lia).
    rewrite !bytes_ok_app in Hok.
    destruct (wle_stack_facts (oct q ++ oct (n + k) ++ c) n) as (_ & LL' & _).
    { rewrite !nlen_app, !oct_len, Lc. unfold WLE_INIT_CAPACITY. lia. }
    { rewrite !bytes_ok_app. repeat split; try apply le_octets_ok. tauto. }
    { assumption. }
    rewrite <- !app_assoc in LL'. rewrite LL'. unfold W_HEAP_FLAG. rewrite flag_or by lia.
    rewrite (app_assoc (oct q)), <- (app_nil_r (c ++ [n])).
    rewrite wle_set_word_at by (rewrite ?nlen_app, ?oct_len, ?Lc; change (nlen [n]) with 1; lia).
    now rewrite app_nil_r, <- app_assoc.
  - destruct W as (Hp & Hc0 & Hc & Hn). destruct B as [Hp' Hc']. destruct (wle_heap_facts p c n Hp' Hc' Hn) as (S & _ & C & D & _).
    rewrite S, D. apply mrel_bind with w_eq_ptr; [now apply w_realloc_rel|]. intros q q' (<- & Hq & Hq'). apply mrel_ret.
    split; [split; cbn [swf]; repeat split; auto; lia|].
    rewrite wle_set_word_0 by apply oct_len.
    rewrite wle_set_word_at by (rewrite ?oct_len; lia). reflexivity.
Qed.
Lemma repeat_len k : nlen (repeat 0 (N.to_nat k)) = k.
Proof. rewrite nlen_length, repeat_length. lia. Qed.
Lemma repeat_ok k : bytes_ok (repeat 0 k).
Proof. unfold bytes_ok. apply Forall_forall. intros x H. apply repeat_spec in H. subst x. reflexivity. Qed.
Lemma wle_new_view : wle_view (wle_new w) (s_new ic).
Proof.
  split; [split; [|exact I]|].
  - cbn [swf s_new]. split; [apply repeat_len|]. split; [lia | apply repeat_ok].
  - cbn [s_new]. unfold wle_new. replace (N.to_nat (3 * w)) with (N.to_nat ic + 1)%nat by (unfold WLE_INIT_CAPACITY; lia).
    rewrite repeat_app. reflexivity.
Qed.
Lemma wle_fo_push v r s : v < 256 -> wle_view r s -> mrel wle_view (wle_push w v r) (s_push ic v s).
Proof.
  intros Hv V. unfold wle_push, s_push. rewrite (wle_view_len _ _ V), (wle_view_cap _ _ V).
  destruct (N.ltb_spec (s_len s) (s_cap ic s)) as [H|H]; [|apply mrel_ub].
  unfold s_set_len. destruct (N.ltb_spec (s_cap ic s) (s_len s + 1)); [lia|].
  pose proof (wle_fo_set_len (s_len s + 1) r s V) as K. unfold s_set_len in K.
  destruct (N.ltb_spec (s_cap ic s) (s_len s + 1)); [lia|].
  eapply mrel_bind with (R := fun r1 s1 => wle_view r1 s1 /\ s_len s1 = s_len s + 1).
  - intros h. destruct (K h) as (a & -> & HV). exists a. split; [reflexivity|]. split; [exact HV|]. now destruct s.
  - intros r1 s1 [V1 L1]. rewrite (wle_view_len _ _ V1), L1. destruct (N.ltb_spec (s_len s) (s_len s + 1)); [|lia].
    apply wle_fo_store; [|assumption]. apply bytes_ok_cons. split; [assumption | constructor].
Qed.
Lemma wle_fo_extend vals r s : bytes_ok vals -> wle_view r s -> mrel wle_view (wle_extend w vals r) (s_extend ic vals s).
Proof.
  intros Hv V. unfold wle_extend, s_extend. rewrite (wle_view_len _ _ V).
  eapply mrel_bind with (R := fun r1 s1 => wle_view r1 s1 /\ s_len s1 = s_len s).
  - intros h. pose proof (wle_fo_store (s_len s) vals r s Hv V h) as K.
    destruct (s_store (s_len s) vals s h) as [s1 h1| | |] eqn:E; cbn [orel] in *; auto.
    destruct K as (a & -> & HV). exists a. split; [reflexivity|]. split; [exact HV|]. now apply s_store_len in E.
  - intros r1 s1 [V1 L1]. rewrite (wle_view_len _ _ V1), L1. now apply wle_fo_set_len.
Qed.
Lemma wle_fo_from_vec v : v_cap v <= word_max w -> v_ptr v < word_limit w ->
  mrel wle_view (wle_from_vec w v) (s_from_vec ic v).
Proof.
  intros Bc Bp. unfold wle_from_vec, s_from_vec. destruct (v_cap v =? 0) eqn:E.
  - unfold vec_drop. rewrite E. apply mrel_ret_l, mrel_ret, wle_new_view.
  - destruct (N.ltb_spec (v_cap v) (v_len v)); [apply mrel_ub|].
    destruct (N.ltb_spec isize_max (v_cap v)); [apply mrel_ub|].
    destruct (N.leb_spec usize_limit (v_ptr v)); [apply mrel_ub|]. cbn [orb].
    apply mrel_ret. apply N.eqb_neq in E. split; [split; cbn [swf]; repeat split; auto; lia|].
    pose proof max_T as EM. pose proof flag_T as EF. pose proof T_pos.
    unfold W_HEAP_FLAG. now rewrite flag_or by lia.
Qed.
Lemma wle_fo_into_vec al r s : wle_view r s -> mrel eq (wle_into_vec w al r) (s_into_vec al s).
Proof.
  intros V. pose proof (wle_fo_load 0 (s_len s) r s V) as K. pose proof (wle_view_len _ _ V) as LL.
  destruct V as [[W B] V]. destruct s as [m n|p c n]; cbn [swf s_len s_into_vec] in *; subst r; unfold wle_into_vec, wle_drop.
  - destruct W as (L & Hn & Hok). destruct (wle_stack_facts m n L Hok Hn) as (S & _). rewrite S, LL. cbn [s_load] in K.
    destruct (N.ltb_spec (nlen m) (0 + n)); [lia|]. rewrite drop_0 in K.
    apply (mrel_bind (fun a b => a = b /\ nlen b <= word_max w) eq _ (mret (take n m)) _ (fun x => vec_from_slice al x)).
    { intros h. destruct (K h) as (a & E & ->). exists (take n m). split; [exact E|]. split; [reflexivity|].
      rewrite nlen_take. pose proof ic_max. lia. }
    intros a b [-> Hb]. pose proof (w_vec_from_slice_rel al b Hb) as K2.
    intros h. specialize (K2 h). unfold mbind, mret. destruct (vec_from_slice al b h) as [x h'| | |]; cbn [orel] in *; auto.
    + destruct K2 as (y & -> & ->). exists x. auto.
    + rewrite K2. reflexivity.
  - destruct W as (Hp & Hc0 & Hc & Hn). destruct (wle_heap_facts p c n (proj1 B) (proj2 B) Hn) as (S & _ & _ & D & C).
    rewrite S, D, C, LL. apply mrel_refl.
Qed.
Lemma wle_fo_drop r s : wle_view r s -> mrel eq (wle_drop w r) (s_drop s).
Proof.
  intros [[W B] V]. destruct s as [m n|p c n]; cbn [swf s_drop] in *; subst r; unfold wle_drop.
  - destruct W as (L & Hn & Hok). destruct (wle_stack_facts m n L Hok Hn) as (S & _). rewrite S. apply mrel_refl.
  - destruct W as (Hp & Hc0 & Hc & Hn). destruct (wle_heap_facts p c n (proj1 B) (proj2 B) Hn) as (S & _ & _ & D & C).
    rewrite S, D, C. apply mrel_refl.
Qed.
Lemma w_len_max x s : x <= word_max w -> w_wf x s -> s_len s <= word_max w.
Proof. intros Hx [W B]. destruct s as [m n|p c n]; cbn [swf s_len] in *; lia. Qed.
Lemma wle_fo_clone al r s : w_good al -> wle_view r s -> mrel wle_view (wle_clone w al r) (s_clone ic al s).
Proof.
  intros G V. unfold wle_clone, s_clone. rewrite (wle_view_len _ _ V).
  apply mrel_bind with wle_view.
  { apply wle_fo_reserve; [assumption | exact wle_new_view |]. cbn [s_new s_len]. rewrite N.add_0_l.
    apply (w_len_max ic); [apply ic_max | apply V]. }
  intros r1 s1 V1.
  apply mrel_bind with eq; [now apply wle_fo_load|]. intros x y ->.
  destruct (forallb (fun b => b <? 256) y) eqn:E; [|apply mrel_ub]. apply wle_fo_extend; [now apply octets_ok | assumption].
Qed.
Theorem WLE_follows : w_follows (WLE w) wle_view.
Proof.
  constructor; cbn [WLE L_raw L_init_cap L_new L_with_capacity L_from_vec L_len L_capacity L_reserve L_set_len L_push L_extend L_load L_store L_clone L_into_vec L_drop].
  - now intros r s [W _].
  - exact ic_max.
  - exact wle_new_view.
  - exact wle_view_len.
  - exact wle_view_cap.
  - exact wle_fo_set_len.
  - exact wle_fo_load.
  - exact wle_fo_store.
  - exact wle_fo_reserve.
  - intros al k G Hk. apply wle_fo_reserve; [assumption | exact wle_new_view | exact Hk].
  - exact wle_fo_push.
  - exact wle_fo_extend.
  - exact wle_fo_clone.
  - exact wle_fo_from_vec.
  - exact wle_fo_into_vec.
  - exact wle_fo_drop.
Qed.

(** ** the portable layout *)
Notation uc := (WUE_INIT_CAPACITY w).
Definition wue_view (r : ue_raw) (s : st) : Prop :=
  w_wf uc s /\
  match s with
  | Stk m n => r = {| u_len_ := n; u_union := m |}
  | Hp p c n => r = {| u_len_ := n + 2 ^ (8 * w - 1); u_union := wue_heap_union w p c |}
  end.
Lemma uc_max : uc <= word_max w.
Proof. rewrite max_T. pose proof T_pos. unfold WUE_INIT_CAPACITY. lia. Qed.
Lemma w_value_tail n : n < word_limit w -> ue_value (be_tail (N.to_nat w) n) = n.
Proof.
  intros H. rewrite ue_value_be, be_tail_value. apply N.mod_small. rewrite N2Nat.id, <- limit_256. exact H.
Qed.
Lemma w_tail_len n : nlen (be_tail (N.to_nat w) n) = w.
Proof. rewrite be_tail_length. lia. Qed.
Lemma wue_union_data p c : p < word_limit w -> ue_value (take w (wue_heap_union w p c)) = p.
Proof.
  intros H. unfold wue_heap_union. rewrite <- (w_tail_len p) at 1. rewrite take_app_exact. now apply w_value_tail.
Qed.
Lemma wue_union_cap p c : c < word_limit w -> ue_value (drop w (wue_heap_union w p c)) = c.
Proof.
  intros H. unfold wue_heap_union. rewrite <- (w_tail_len p) at 1. rewrite drop_app_exact. now apply w_value_tail.
Qed.
Lemma wue_stack_facts m n : n <= uc ->
  let r := {| u_len_ := n; u_union := m |} in
  wue_is_stack w r = true /\ wue_len w r = n /\ wue_capacity w r = uc.
Proof.
  intros H. cbv zeta. unfold wue_len, wue_capacity, wue_is_stack, W_HEAP_FLAG, W_LEN_MASK. cbn [u_len_].
  pose proof flag_T as EF. pose proof T_pos. unfold WUE_INIT_CAPACITY in H.
  assert (n < 2 ^ (8 * w - 1)) by (rewrite EF; lia).
  rewrite flag_low, mask_low by assumption. auto.
Qed.
Lemma wue_heap_facts p c n : p < word_limit w -> c <= word_max w -> n <= c ->
  let r := {| u_len_ := n + 2 ^ (8 * w - 1); u_union := wue_heap_union w p c |} in
  wue_is_stack w r = false /\ wue_len w r = n /\ wue_capacity w r = c /\ wue_data w r = p /\ wue_cap_ w r = c.
Proof.
  intros Hp Hc Hn. cbv zeta. pose proof max_T as EM. pose proof flag_T as EF. pose proof limit_T as EL. pose proof T_pos.
  unfold wue_len, wue_capacity, wue_is_stack, wue_data, wue_cap_, W_HEAP_FLAG, W_LEN_MASK. cbn [u_len_ u_union].
  rewrite flag_high, mask_high, wue_union_data, wue_union_cap by lia.
  destruct (N.eqb_spec (2 ^ (8 * w - 1)) 0); [lia|]. auto.
Qed.
Lemma wue_view_len r s : wue_view r s -> wue_len w r = s_len s.
Proof.
  intros [[W B] V]. destruct s as [m n|p c n]; cbn [swf] in W; subst r.
  - apply wue_stack_facts; tauto.
  - destruct W as (Hp & _ & Hc & Hn). apply wue_heap_facts; tauto.
Qed.
Lemma wue_view_cap r s : wue_view r s -> wue_capacity w r = s_cap uc s.
Proof.
  intros [[W B] V]. destruct s as [m n|p c n]; cbn [swf] in W; subst r.
  - apply wue_stack_facts; tauto.
  - destruct W as (Hp & _ & Hc & Hn). apply wue_heap_facts; tauto.
Qed.
Lemma wue_fo_set_len n r s : wue_view r s -> mrel wue_view (wue_set_len w n r) (s_set_len uc n s).
Proof.
  intros V. unfold s_set_len, wue_set_len. rewrite (wue_view_cap _ _ V).
  destruct (N.ltb_spec (s_cap uc s) n) as [H|H]; [apply mrel_ub|]. apply mrel_ret.
  pose proof max_T as EM. pose proof flag_T as EF. pose proof T_pos.
  destruct V as [[W B] V].
  destruct s as [m n0|p c n0]; cbn [s_cap swf] in *; subst r; cbn [u_len_ u_union]; unfold W_HEAP_FLAG.
  - destruct W as (L & Hn0 & Hok). split; [split; cbn [swf]; auto|]. unfold WUE_INIT_CAPACITY in *.
    rewrite flag_low by lia. now rewrite N.lor_0_l.
  - destruct W as (Hp & Hc0 & Hc & Hn0). split; [split; cbn [swf]; auto|].
    rewrite flag_high, N.lor_comm, flag_or by lia. reflexivity.
Qed.
Lemma wue_fo_load off n r s : wue_view r s -> mrel eq (wue_load w off n r) (s_load off n s).
Proof.
  intros [[W B] V]. destruct s as [m n0|p c n0]; cbn [swf] in *; subst r; unfold wue_load.
  - destruct W as (L & Hn0 & Hok). destruct (wue_stack_facts m n0 Hn0) as (S & _ & _). rewrite S. apply mrel_refl.
  - destruct W as (Hp & Hc0 & Hc & Hn0). destruct (wue_heap_facts p c n0 (proj1 B) (proj2 B) Hn0) as (S & _ & _ & D & _).
    rewrite S, D. apply mrel_refl.
Qed.
Lemma wue_fo_store off src r s : bytes_ok src -> wue_view r s -> mrel wue_view (wue_store w off src r) (s_store off src s).
Proof.
  intros Hsrc [[W B] V]. destruct s as [m n0|p c n0]; cbn [swf] in *; subst r; unfold wue_store.
  - destruct W as (L & Hn0 & Hok). destruct (wue_stack_facts m n0 Hn0) as (S & _ & _). rewrite S.
    cbn [s_store u_union u_len_]. destruct (N.ltb_spec (nlen m) (off + nlen src)) as [H|H]; [apply mrel_ub|].
    apply mrel_ret. split; [split; [|exact I]|reflexivity]. cbn [swf]. rewrite !nlen_app, nlen_take, nlen_drop, !bytes_ok_app.
    split; [lia|]. repeat split; auto; [now apply bytes_ok_take | now apply bytes_ok_drop].
  - destruct W as (Hp & Hc0 & Hc & Hn0). destruct (wue_heap_facts p c n0 (proj1 B) (proj2 B) Hn0) as (S & _ & _ & D & _).
    rewrite S, D. cbn [s_store]. eapply mrel_bind; [apply mrel_refl|]. intros [] [] _. apply mrel_ret.
    split; [split; cbn [swf]; auto | reflexivity].
Qed.
Lemma wue_new_view : wue_view (wue_new w) (s_new uc).
Proof.
  split; [split; [|exact I]|reflexivity].
  cbn [swf s_new]. split; [apply repeat_len|]. split; [lia | apply repeat_ok].
Qed.
Lemma wue_heap_rel al k : w_good al -> k <= word_max w -> k <> 0 ->
  mrel (fun u q => u = wue_heap_union w q k /\ q < word_limit w /\ q < usize_limit) (wue_heap_new w al k) (alloc al k).
Proof.
  intros G Hk Nz h. pose proof (w_alloc_rel al k G Hk h) as K. unfold wue_heap_new. apply N.eqb_neq in Nz. rewrite Nz.
  unfold mbind. destruct (alloc al k h) as [a h'| | |]; cbn [orel] in *; auto.
  - destruct K as (x & -> & <- & H1 & H2). eexists. split; [reflexivity|]. auto.
  - rewrite K. reflexivity.
Qed.
Lemma wue_fo_reserve al k r s : w_good al -> wue_view r s -> s_len s + k <= word_max w ->
  mrel wue_view (wue_reserve w al k r) (s_reserve uc al k s).
Proof.
  intros G V Hk. unfold wue_reserve, s_reserve. rewrite (wue_view_len _ _ V), (wue_view_cap _ _ V). cbv zeta.
  pose proof max_T as EM. pose proof flag_T as EF. pose proof limit_T as EL. pose proof T_pos as TP. pose proof max_8 as M8.
  destruct (N.ltb_spec isize_max (s_len s + k)) as [|H1]; [apply mrel_ub|].
  destruct (N.leb_spec (word_limit w) (s_len s + k)); [lia|].
  destruct (N.leb_spec (s_len s + k) (s_cap uc s)) as [|H2]; [now apply mrel_ret|].
  destruct V as [[W B] V]. destruct s as [m n|p c n]; cbn [swf s_len s_cap] in *; subst r.
  - destruct W as (L & Hn & Hok). destruct (wue_stack_facts m n Hn) as (S & LL & _). rewrite S.
    eapply mrel_bind; [apply wue_heap_rel; [assumption | assumption | lia]|].
    cbv beta. intros u q (-> & Hq & Hq'). rewrite wue_union_data by assumption.
    assert (E : wue_load w 0 n {| u_len_ := n; u_union := m |} = mret (take n m)).
    { unfold wue_load. rewrite S. cbn [u_union]. destruct (N.ltb_spec (nlen m) (0 + n)); [lia|]. now rewrite drop_0. }
    rewrite E. apply mrel_ret_l. eapply mrel_bind; [apply mrel_refl|]. intros [] [] _. apply mrel_ret.
    split; [split; cbn [swf]; repeat split; auto; lia|]. cbn [u_len_]. unfold W_HEAP_FLAG. now rewrite flag_or by lia.
  - destruct W as (Hp & Hc0 & Hc & Hn). destruct B as [Hp' Hc']. destruct (wue_heap_facts p c n Hp' Hc' Hn) as (S & _ & _ & D & C).
    rewrite S, D, C. apply mrel_bind with w_eq_ptr; [now apply w_realloc_rel|]. intros q q' (<- & Hq & Hq'). apply mrel_ret.
    split; [split; cbn [swf]; repeat split; auto; lia|]. reflexivity.
Qed.
Lemma wue_fo_with_capacity al k : w_good al -> k <= word_max w ->
  mrel wue_view (wue_with_capacity w al k) (s_with_capacity uc al k).
Proof.
  intros G Hk. unfold wue_with_capacity, s_with_capacity, s_reserve. cbn [s_len s_cap s_new]. rewrite N.add_0_l.
  pose proof max_8 as M8.
  destruct (N.ltb_spec isize_max k) as [|H1]; [apply mrel_ub|].
  destruct (N.leb_spec k uc) as [|H2]; [apply mrel_ret, wue_new_view|].
  unfold s_new. intros h. pose proof (wue_heap_rel al k G Hk ltac:(lia) h) as K. unfold mbind.
  destruct (alloc al k h) as [a h1| | |] eqn:EA; cbn [orel] in *; auto.
  2:{ now rewrite K. }
  destruct K as (u & -> & -> & Ha & Ha'). unfold alloc in EA. destruct (N.ltb_spec isize_max k); [lia|].
  destruct (N.eqb_spec k 0); [lia|]. destruct (al_pick al h k) as [b|] eqn:E; [|discriminate].
  injection EA as <- <-.
  unfold store. rewrite get_set_eq, !take_0. change (0 + nlen (@nil N)) with 0.
  destruct (N.ltb_spec (nlen (new_octets al h b k)) 0); [lia|]. cbn [app]. rewrite drop_0, set_set. unfold mret. cbn [orel].
  eexists. split; [reflexivity|]. split; [split; cbn [swf]; repeat split; auto; lia|]. reflexivity.
Qed.
Lemma wue_fo_push v r s : v < 256 -> wue_view r s -> mrel wue_view (wue_push w v r) (s_push uc v s).
Proof.
  intros Hv V. unfold wue_push, s_push. rewrite (wue_view_len _ _ V), (wue_view_cap _ _ V).
  destruct (N.ltb_spec (s_len s) (s_cap uc s)) as [H|H]; [|apply mrel_ub].
  pose proof (wue_fo_set_len (s_len s + 1) r s V) as K. unfold s_set_len in *.
  destruct (N.ltb_spec (s_cap uc s) (s_len s + 1)); [lia|].
  eapply mrel_bind with (R := fun r1 s1 => wue_view r1 s1 /\ s_len s1 = s_len s + 1).
  - intros h. destruct (K h) as (a & -> & HV). exists a. split; [reflexivity|]. split; [exact HV|]. now destruct s.
  - intros r1 s1 [V1 L1]. rewrite (wue_view_len _ _ V1), L1. destruct (N.ltb_spec (s_len s) (s_len s + 1)); [|lia].
    apply wue_fo_store; [|assumption]. apply bytes_ok_cons. split; [assumption | constructor].
Qed.
Lemma wue_fo_extend vals r s : bytes_ok vals -> wue_view r s -> mrel wue_view (wue_extend w vals r) (s_extend uc vals s).
Proof.
  intros Hv V. unfold wue_extend, s_extend. rewrite (wue_view_len _ _ V).
  eapply mrel_bind with (R := fun r1 s1 => wue_view r1 s1 /\ s_len s1 = s_len s).
  - intros h. pose proof (wue_fo_store (s_len s) vals r s Hv V h) as K.
    destruct (s_store (s_len s) vals s h) as [s1 h1| | |] eqn:E; cbn [orel] in *; auto.
    destruct K as (a & -> & HV). exists a. split; [reflexivity|]. split; [exact HV|]. now apply s_store_len in E.
  - intros r1 s1 [V1 L1]. rewrite (wue_view_len _ _ V1), L1. now apply wue_fo_set_len.
Qed.
Lemma wue_fo_from_vec v : v_cap v <= word_max w -> v_ptr v < word_limit w ->
  mrel wue_view (wue_from_vec w v) (s_from_vec uc v).
Proof.
  intros Bc Bp. unfold wue_from_vec, s_from_vec. destruct (v_cap v =? 0) eqn:E.
  - unfold vec_drop. rewrite E. apply mrel_ret_l, mrel_ret, wue_new_view.
  - destruct (N.ltb_spec (v_cap v) (v_len v)); [apply mrel_ub|].
    destruct (N.ltb_spec isize_max (v_cap v)); [apply mrel_ub|].
    destruct (N.leb_spec usize_limit (v_ptr v)); [apply mrel_ub|]. cbn [orb].
    apply mrel_ret. apply N.eqb_neq in E. split; [split; cbn [swf]; repeat split; auto; lia|].
    pose proof max_T as EM. pose proof flag_T as EF. pose proof T_pos.
    unfold W_HEAP_FLAG. now rewrite flag_or by lia.
Qed.
Lemma wue_fo_into_vec al r s : wue_view r s -> mrel eq (wue_into_vec w al r) (s_into_vec al s).
Proof.
  intros V. pose proof (wue_fo_load 0 (s_len s) r s V) as K. pose proof (wue_view_len _ _ V) as LL.
  destruct V as [[W B] V]. destruct s as [m n|p c n]; cbn [swf s_len s_into_vec] in *; subst r; unfold wue_into_vec, wue_drop.
  - destruct W as (L & Hn & Hok). destruct (wue_stack_facts m n Hn) as (S & _). rewrite S, LL. cbn [s_load] in K.
    destruct (N.ltb_spec (nlen m) (0 + n)); [lia|]. rewrite drop_0 in K.
    apply (mrel_bind (fun a b => a = b /\ nlen b <= word_max w) eq _ (mret (take n m)) _ (fun x => vec_from_slice al x)).
    { intros h. destruct (K h) as (a & E & ->). exists (take n m). split; [exact E|]. split; [reflexivity|].
      rewrite nlen_take. pose proof uc_max. lia. }
    intros a b [-> Hb]. pose proof (w_vec_from_slice_rel al b Hb) as K2.
    intros h. specialize (K2 h). unfold mbind, mret. destruct (vec_from_slice al b h) as [x h'| | |]; cbn [orel] in *; auto.
    + destruct K2 as (y & -> & ->). exists x. auto.
    + rewrite K2. reflexivity.
  - destruct W as (Hp & Hc0 & Hc & Hn). destruct (wue_heap_facts p c n (proj1 B) (proj2 B) Hn) as (S & _ & C & D & _).
    rewrite S, D, C, LL. apply mrel_refl.
Qed.
Lemma wue_fo_drop r s : wue_view r s -> mrel eq (wue_drop w r) (s_drop s).
Proof.
  intros [[W B] V]. destruct s as [m n|p c n]; cbn [swf s_drop] in *; subst r; unfold wue_drop.
  - destruct W as (L & Hn & Hok). destruct (wue_stack_facts m n Hn) as (S & _). rewrite S. apply mrel_refl.
  - destruct W as (Hp & Hc0 & Hc & Hn). destruct (wue_heap_facts p c n (proj1 B) (proj2 B) Hn) as (S & _ & _ & D & C).
    rewrite S, D, C. apply mrel_refl.
Qed.
Lemma wue_fo_clone al r s : w_good al -> wue_view r s -> mrel wue_view (wue_clone w al r) (s_clone uc al s).
Proof.
  intros G V. unfold wue_clone, s_clone. rewrite (wue_view_len _ _ V).
  apply mrel_bind with wue_view.
  { apply wue_fo_with_capacity; [assumption|]. apply (w_len_max uc); [apply uc_max | apply V]. }
  intros r1 s1 V1.
  apply mrel_bind with eq; [now apply wue_fo_load|]. intros x y ->.
  destruct (forallb (fun b => b <? 256) y) eqn:E; [|apply mrel_ub]. apply wue_fo_extend; [now apply octets_ok | assumption].
Qed.
Theorem WUE_follows : w_follows (WUE w) wue_view.
Proof.
  constructor; cbn [WUE L_raw L_init_cap L_new L_with_capacity L_from_vec L_len L_capacity L_reserve L_set_len L_push L_extend L_load L_store L_clone L_into_vec L_drop].
  - now intros r s [W _].
  - exact uc_max.
  - exact wue_new_view.
  - exact wue_view_len.
  - exact wue_view_cap.
  - exact wue_fo_set_len.
  - exact wue_fo_load.
  - exact wue_fo_store.
  - exact wue_fo_reserve.
  - exact wue_fo_with_capacity.
  - exact wue_fo_push.
  - exact wue_fo_extend.
  - exact wue_fo_clone.
  - exact wue_fo_from_vec.
  - exact wue_fo_into_vec.
  - exact wue_fo_drop.
Qed.

(** ** histories *)
Section HISTORY.
Context (al : allocator) (G : w_good al) (L : layout) (V : L_raw L -> st -> Prop) (F : w_follows L V).
Notation ic := (L_init_cap L).
Notation wm := (word_max w).
(** The abstract buffer as a layout. *)
Definition AL : layout := {|
  L_raw := st; L_init_cap := ic; L_new := s_new ic; L_with_capacity := s_with_capacity ic;
  L_from_vec := s_from_vec ic; L_len := s_len; L_capacity := s_cap ic; L_reserve := s_reserve ic;
  L_set_len := s_set_len ic; L_push := s_push ic; L_extend := s_extend ic; L_load := s_load; L_store := s_store;
  L_clone := s_clone ic; L_into_vec := s_into_vec; L_drop := s_drop |}.
Lemma ic_isize : ic <= isize_max.
Proof. pose proof (wf_ic _ _ F). pose proof max_8. lia. Qed.
Lemma AL_refines : buffer_refines AL al (srep ic).
Proof.
  destruct G as [GA _]. pose proof ic_isize as Hic.
  constructor; cbn [AL L_raw L_init_cap L_new L_with_capacity L_from_vec L_len L_capacity L_reserve L_set_len L_push L_extend L_load L_store L_clone L_into_vec L_drop].
  - intros r h b own R. destruct (srep_facts _ Hic _ _ _ _ R) as (A & B & C & D & E). repeat split; auto.
    unfold L_slice. cbn [AL L_load L_len]. rewrite A. eapply s_load_ok; [eassumption|]. unfold mem_read. unfold bf_cap in C.
    destruct (N.ltb_spec (nlen (b_mem b)) (0 + b_len b)); [lia|]. now rewrite drop_0.
  - intros r h b a R. eapply srep_owned; eassumption.
  - intros r h h' b own R K. eapply srep_frame; eassumption.
  - intros h j. now apply s_new_ok.
  - intros h k Hk. now apply s_with_capacity_ok.
  - intros r h b own k R Hk. now apply s_reserve_ok.
  - intros r h b own off n x R E. eapply s_load_ok; eassumption.
  - intros r h b own off src b' R Hs E. destruct (s_store_ok _ Hic _ _ _ _ _ _ _ R Hs E) as (s' & h' & X & Y & Z & _). eauto.
  - intros r h b own n b' R E. eapply s_set_len_ok; eassumption.
  - intros r h b own v b' R Hv E. eapply s_push_ok; eassumption.
  - intros r h b own bs b' R Hv E. eapply s_extend_ok; eassumption.
  - intros r h b own R. eapply s_clone_ok; eassumption.
  - intros v h bs spare own K. eapply s_from_vec_ok; eassumption.
  - intros r h b own R. apply (s_into_vec_ok al GA ic Hic); assumption.
  - intros r h b own R. eapply s_drop_ok; eassumption.
Qed.

(** The same outcome, out of memory only for a request the machine can make. *)
Definition lock {A B} (R : A -> B -> Prop) (o1 : outcome A) (o2 : outcome B) : Prop :=
  orel R o1 o2 /\ (o2 = Abort -> refuses_within wm al).
Lemma lock_bind {A B C D} (R : A -> B -> Prop) (Q : C -> D -> Prop) m1 m2 k1 k2 h :
  lock R (m1 h) (m2 h) -> (forall a b h', m2 h = Done b h' -> R a b -> lock Q (k1 a h') (k2 b h')) ->
  lock Q (mbind m1 k1 h) (mbind m2 k2 h).
Proof.
  intros [H S] K. unfold mbind. destruct (m2 h) as [b h'| | |]; cbn [orel] in H.
  - destruct H as (a & -> & HR). now apply K.
  - rewrite H. split; [reflexivity|]. intros _. now apply S.
  - split; [exact I | discriminate].
  - split; [exact I | discriminate].
Qed.
Lemma lock_ret {A B} (R : A -> B -> Prop) a b h : R a b -> lock R (mret a h) (mret b h).
Proof. intros H. split; [exists a; auto | discriminate]. Qed.
Lemma lock_ub {A B} (R : A -> B -> Prop) o : lock (A := A) (B := B) R o UB.
Proof. split; [exact I | discriminate]. Qed.
Lemma lock_mono {A B} (R Q : A -> B -> Prop) o1 o2 : lock R o1 o2 -> (forall a b, R a b -> Q a b) -> lock Q o1 o2.
Proof. intros [H S] K. split; [|assumption]. destruct o2; cbn [orel] in *; auto. destruct H as (x & -> & HR). eauto. Qed.

(** Nothing else runs out of memory. *)
Lemma no_abort_load p off n h : load p off n h <> Abort.
Proof. unfold load. destruct (h_get p h); [|discriminate]. destruct (_ <? _); discriminate. Qed.
Lemma no_abort_store p off src h : store p off src h <> Abort.
Proof. unfold store. destruct (h_get p h); [|discriminate]. destruct (_ <? _); discriminate. Qed.
Lemma no_abort_dealloc p n h : dealloc p n h <> Abort.
Proof. unfold dealloc. destruct (h_get p h); [|discriminate]. destruct (_ =? _); discriminate. Qed.
Lemma abort_alloc n h : n <= wm -> alloc al n h = Abort -> refuses_within wm al.
Proof.
  intros H. unfold alloc. destruct (_ <? _); [discriminate|]. destruct (N.eqb_spec n 0); [discriminate|].
  destruct (al_pick al h n) eqn:E; [discriminate|]. intros _. exists h, n. repeat split; auto. lia.
Qed.
Lemma abort_realloc p c n h : n <= wm -> realloc al p c n h = Abort -> refuses_within wm al.
Proof.
  intros H. unfold realloc. destruct (_ <? _); [discriminate|]. destruct (h_get p h) as [m|]; [|discriminate].
  destruct (negb _); [discriminate|]. destruct (N.eqb_spec n 0); [discriminate|]. destruct (_ <? _); [discriminate|]. cbn [orb].
  destruct (al_pick al (h_del p h) n) eqn:E; [discriminate|]. intros _. exists (h_del p h), n. repeat split; auto. lia.
Qed.
Lemma no_abort_s_load off n s h : s_load off n s h <> Abort.
Proof. destruct s; cbn [s_load]; [destruct (_ <? _); discriminate | apply no_abort_load]. Qed.
Lemma no_abort_s_store off src s h : s_store off src s h <> Abort.
Proof.
  destruct s; cbn [s_store]; [destruct (_ <? _); discriminate|]. unfold mbind.
  pose proof (no_abort_store p off src h). destruct (store p off src h); try discriminate. congruence.
Qed.
Lemma no_abort_s_set_len n s h : s_set_len ic n s h <> Abort.
Proof. unfold s_set_len. destruct (_ <? _); discriminate. Qed.
Lemma no_abort_s_push v s h : s_push ic v s h <> Abort.
Proof.
  unfold s_push. destruct (_ <? _); [|discriminate]. unfold mbind.
  pose proof (no_abort_s_set_len (s_len s + 1) s h). destruct (s_set_len ic (s_len s + 1) s h); try discriminate; [|congruence].
  apply no_abort_s_store.
Qed.
Lemma no_abort_s_extend bs s h : s_extend ic bs s h <> Abort.
Proof.
  unfold s_extend, mbind. pose proof (no_abort_s_store (s_len s) bs s h).
  destruct (s_store (s_len s) bs s h); try discriminate; [|congruence]. apply no_abort_s_set_len.
Qed.
Lemma no_abort_s_from_vec v h : s_from_vec ic v h <> Abort.
Proof. unfold s_from_vec. destruct (_ =? _); [discriminate|]. destruct (_ || _); discriminate. Qed.
Lemma no_abort_s_drop s h : s_drop s h <> Abort.
Proof. destruct s; cbn [s_drop]; [discriminate | apply no_abort_dealloc]. Qed.
Lemma no_abort_vec_drop v h : vec_drop v h <> Abort.
Proof. unfold vec_drop. destruct (_ =? _); [discriminate | apply no_abort_dealloc]. Qed.
Lemma abort_s_reserve k s h : s_len s + k <= wm -> s_reserve ic al k s h = Abort -> refuses_within wm al.
Proof.
  intros H. unfold s_reserve. destruct (_ <? _); [discriminate|]. destruct (_ <=? _); [discriminate|].
  destruct s as [m n|p c n]; unfold mbind; cbn [s_len] in H.
  - pose proof (abort_alloc (n + k) h H). destruct (alloc al (n + k) h) as [q h'| | |]; try discriminate; auto.
    pose proof (no_abort_store q 0 (take n m) h'). destruct (store q 0 (take n m) h'); try discriminate. congruence.
  - pose proof (abort_realloc p c (n + k) h H). destruct (realloc al p c (n + k) h) as [q h'| | |]; try discriminate; auto.
Qed.
Lemma abort_s_with_capacity k h : k <= wm -> s_with_capacity ic al k h = Abort -> refuses_within wm al.
Proof. intros H. apply abort_s_reserve. exact H. Qed.
Lemma abort_s_clone s h : s_len s <= wm -> s_clone ic al s h = Abort -> refuses_within wm al.
Proof.
  intros H. unfold s_clone, mbind. pose proof (abort_s_with_capacity (s_len s) h H).
  destruct (s_with_capacity ic al (s_len s) h) as [s' h'| | |]; try discriminate; auto.
  pose proof (no_abort_s_load 0 (s_len s) s h'). destruct (s_load 0 (s_len s) s h') as [x h2| | |]; try discriminate; try congruence.
  destruct (forallb _ x); [|discriminate]. intros E. now apply no_abort_s_extend in E.
Qed.
Lemma abort_vec_from_slice bs h : nlen bs <= wm -> vec_from_slice al bs h = Abort -> refuses_within wm al.
Proof.
  intros H. unfold vec_from_slice. destruct (_ =? _); [discriminate|]. unfold mbind.
  pose proof (abort_alloc (nlen bs) h H). destruct (alloc al (nlen bs) h) as [q h'| | |]; try discriminate; auto.
  pose proof (no_abort_store q 0 bs h'). destruct (store q 0 bs h'); try discriminate. congruence.
Qed.
Lemma abort_vec_make bs sp h : nlen bs + sp <= wm -> vec_make al bs sp h = Abort -> refuses_within wm al.
Proof.
  intros H. unfold vec_make. destruct (_ =? _); [discriminate|]. unfold mbind.
  pose proof (abort_alloc (nlen bs + sp) h H). destruct (alloc al (nlen bs + sp) h) as [q h'| | |]; try discriminate; auto.
  pose proof (no_abort_store q 0 bs h'). destruct (store q 0 bs h'); try discriminate. congruence.
Qed.

(** Vectors of this machine. *)
Definition fits_word (a : vec) : Prop := v_cap a <= wm /\ v_ptr a < word_limit w.
Definition vrel (x : var (L_raw L)) (y : var st) : Prop :=
  match x, y with
  | VEmpty, VEmpty => True
  | VBuf r, VBuf s => V r s
  | VVec a, VVec b => a = b /\ fits_word a
  | _, _ => False
  end.
Definition verel (v : env (var (L_raw L))) (v' : env (var st)) : Prop := forall i, vrel (v i) (v' i).
Lemma verel_upd i x y v v' : verel v v' -> vrel x y -> verel (upd i x v) (upd i y v').
Proof. intros H K j. unfold upd. destruct (Nat.eqb j i); auto. Qed.
Lemma vec_new_fits : fits_word vec_new.
Proof. split; cbn [vec_new v_cap v_ptr]; [lia|]. pose proof limit_T. pose proof T_pos. lia. Qed.
Lemma vec_make_lock bs sp h : nlen bs + sp <= wm ->
  lock (fun a b => a = b /\ fits_word a) (w_vec_make w al bs sp h) (vec_make al bs sp h).
Proof.
  intros H. split; [|now apply abort_vec_make]. unfold w_vec_make, vec_make. destruct (_ =? 0).
  - exists vec_new. split; [reflexivity|]. split; [reflexivity | apply vec_new_fits].
  - revert h. apply (mrel_bind w_eq_ptr); [now apply w_alloc_rel|]. intros p p' (-> & Hp & Hp').
    apply (mrel_bind eq); [apply mrel_refl|]. intros [] [] _. apply mrel_ret. split; [reflexivity|]. split; assumption.
Qed.
Lemma into_vec_lock r s h : V r s -> lock (fun a b => a = b /\ fits_word a) (L_into_vec L al r h) (s_into_vec al s h).
Proof.
  intros HV. pose proof (wf_wf _ _ F _ _ HV) as [W B]. pose proof (wf_ic _ _ F) as HI.
  assert (Q : forall b h', s_into_vec al s h = Done b h' -> fits_word b).
  { destruct s as [m n|p c n]; cbn [s_into_vec swf] in *; intros b h'.
    - unfold vec_from_slice. destruct (N.eqb_spec (nlen (take n m)) 0); [intros [= <- _]; apply vec_new_fits|].
      unfold mbind. destruct (alloc al (nlen (take n m)) h) as [q h1| | |] eqn:EA; try discriminate.
      destruct (store q 0 (take n m) h1) as [u h2| | |]; try discriminate. intros [= <- _]. split; cbn [v_cap v_ptr].
      + rewrite nlen_take. lia.
      + unfold alloc in EA. destruct (_ <? _); [discriminate|]. destruct (_ =? 0); [discriminate|].
        destruct (al_pick al h (nlen (take n m))) as [q0|] eqn:EP; [|discriminate]. injection EA as -> _. now apply G in EP.
    - intros [= <- _]. split; cbn [v_cap v_ptr]; tauto. }
  split.
  - pose proof (wf_into_vec _ _ F al _ _ HV h) as K. destruct (s_into_vec al s h) as [b h'| | |]; cbn [orel] in *; auto.
    destruct K as (a & -> & ->). exists b. split; [reflexivity|]. split; [reflexivity|]. eapply Q; reflexivity.
  - destruct s as [m n|p c n]; cbn [s_into_vec swf] in *; [|discriminate]. apply abort_vec_from_slice. rewrite nlen_take. lia.
Qed.

Lemma step_lock h0 h e e' v v' o : good AL (srep ic) h0 e v' h -> verel v v' -> asks o e <= wm -> estep ic o e = Some e' ->
  lock verel (w_rstep w L al o v h) (rstep AL al o v' h).
Proof.
  intros [own (I1 & _)] HV HA E. pose proof (wf_ic _ _ F) as HI.
  assert (PUT : forall i (m1 : M (L_raw L)) (m2 : M st), lock V (m1 h) (m2 h) ->
            lock verel ((r <-- m1 ; mret (upd i (VBuf r) v)) h) ((r <-- m2 ; mret (upd i (VBuf r) v')) h)).
  { intros i m1 m2 K. eapply lock_bind; [exact K|]. intros a b h' _ HR. apply lock_ret. now apply verel_upd. }
  assert (BUF : forall i (f1 : L_raw L -> M (L_raw L)) (f2 : st -> M st),
            (forall r s, V r s -> v' i = VBuf s -> lock V (f1 r h) (f2 s h)) ->
            lock verel (match v i with VBuf r => (r <-- f1 r ; mret (upd i (VBuf r) v)) | _ => mub end h)
                       (match v' i with VBuf s => (s <-- f2 s ; mret (upd i (VBuf s) v')) | _ => mub end h)).
  { intros i f1 f2 K. specialize (HV i). destruct (v i) as [|r|a], (v' i) as [|s|b] eqn:Ei; try contradiction; try apply lock_ub.
    apply PUT. now apply K. }
  destruct o as [i|i k|i bs|i bs sp|i|i|i j|i|i k|i x|i bs|i n|i off bs|i src dst n|i bs];
    cbn [w_rstep rstep asks estep] in *.
  - apply PUT. apply lock_ret. apply (wf_new _ _ F).
  - apply PUT. split; [now apply (wf_with_capacity _ _ F) | now apply abort_s_with_capacity].
  - destruct (e i); try discriminate. unfold guard in E. destruct ((nlen bs <=? isize_max) && octets bs) eqn:EO; [|discriminate].
    apply andb_prop in EO as [_ EO]. apply octets_ok in EO. apply PUT. unfold L_from_slice.
    apply (lock_bind V).
    { split; [now apply (wf_with_capacity _ _ F) | now apply abort_s_with_capacity]. }
    intros r s h' _ HR. split; [now apply (wf_extend _ _ F)|]. intros X. now apply no_abort_s_extend in X.
  - eapply lock_bind; [now apply vec_make_lock|]. intros a b h' _ HR. apply lock_ret. now apply verel_upd.
  - specialize (HV i) as HVi. destruct (v i) as [|r|a], (v' i) as [|s|b]; try contradiction; try apply lock_ub.
    destruct HVi as [<- [B1 B2]]. apply PUT. split; [now apply (wf_from_vec _ _ F)|]. intros X. now apply no_abort_s_from_vec in X.
  - specialize (HV i) as HVi. destruct (v i) as [|r|a], (v' i) as [|s|b]; try contradiction; try apply lock_ub.
    eapply lock_bind; [now apply into_vec_lock|]. intros x y h' _ HR. apply lock_ret. now apply verel_upd.
  - specialize (HV i) as HVi. destruct (v i) as [|r|a], (v' i) as [|s|b]; try contradiction; try apply lock_ub.
    apply PUT. split; [now apply (wf_clone _ _ F)|]. apply abort_s_clone. apply (w_len_max ic); [assumption|]. now apply (wf_wf _ _ F r).
  - specialize (HV i) as HVi. destruct (v i) as [|r|a], (v' i) as [|s|b]; try contradiction.
    + apply lock_ret. now apply verel_upd.
    + apply (lock_bind eq).
      { split; [now apply (wf_drop _ _ F)|]. intros X. now apply no_abort_s_drop in X. }
      intros [] [] h' _ _. apply lock_ret. now apply verel_upd.
    + destruct HVi as [<- _]. apply (lock_bind eq).
      { split; [apply mrel_refl|]. intros X. now apply no_abort_vec_drop in X. }
      intros [] [] h' _ _. apply lock_ret. now apply verel_upd.
  - apply BUF. intros r s HR Es. specialize (I1 i). rewrite Es in I1. destruct (e i) as [|cells len|]; try contradiction.
    destruct I1 as (b & Rs & Lb & _). apply srep_facts in Rs as (LS & _); [|apply ic_isize].
    split; [apply (wf_reserve _ _ F); [assumption | assumption | lia] | apply abort_s_reserve; lia].
  - destruct (e i); try discriminate. unfold guard in E. destruct ((len <? nlen cells) && (x <? 256)) eqn:EO; [|discriminate].
    apply andb_prop in EO as [_ EO]. apply N.ltb_lt in EO. apply BUF. intros r s HR _.
    split; [now apply (wf_push _ _ F)|]. intros X. now apply no_abort_s_push in X.
  - destruct (e i); try discriminate. unfold guard in E. destruct ((len + nlen bs <=? nlen cells) && octets bs) eqn:EO; [|discriminate].
    apply andb_prop in EO as [_ EO]. apply octets_ok in EO. apply BUF. intros r s HR _.
    split; [now apply (wf_extend _ _ F)|]. intros X. now apply no_abort_s_extend in X.
  - apply BUF. intros r s HR _. unfold L_set_len_checked. cbn [AL L_capacity L_set_len].
    rewrite (wf_cap _ _ F _ _ HR). destruct (s_cap ic s <? n).
    + split; [exact I | discriminate].
    + split; [now apply (wf_set_len _ _ F)|]. intros X. now apply no_abort_s_set_len in X.
  - destruct (e i); try discriminate. unfold guard in E. destruct ((off + nlen bs <=? nlen cells) && octets bs) eqn:EO; [|discriminate].
    apply andb_prop in EO as [_ EO]. apply octets_ok in EO. apply BUF. intros r s HR _.
    split; [now apply (wf_store _ _ F)|]. intros X. now apply no_abort_s_store in X.
  - apply BUF. intros r s HR Es. specialize (I1 i). rewrite Es in I1. destruct (e i) as [|cells len|]; try contradiction.
    destruct I1 as (b & Rs & Lb & Fb & _). destruct (srep_facts _ ic_isize _ _ _ _ Rs) as (_ & _ & _ & Hok & _).
    unfold guard in E. destruct ((src + n <=? nlen cells) && (dst + n <=? nlen cells)) eqn:EO; [|discriminate].
    apply andb_prop in EO as [EO _]. apply N.leb_le in EO. pose proof (fits_len _ _ Fb) as FL.
    apply (lock_bind eq).
    { split; [now apply (wf_load _ _ F)|]. intros X. now apply no_abort_s_load in X. }
    intros x y h' EL <-. cbn [AL L_load L_store] in *.
    assert (RD : mem_read src n (b_mem b) = Ok (take n (drop src (b_mem b)))).
    { unfold mem_read. destruct (N.ltb_spec (nlen (b_mem b)) (src + n)); [lia | reflexivity]. }
    rewrite (s_load_ok _ _ _ _ _ _ _ _ Rs RD) in EL. injection EL as <- <-.
    split; [apply (wf_store _ _ F); [now apply bytes_ok_take, bytes_ok_drop | assumption]|]. intros X. now apply no_abort_s_store in X.
  - destruct (e i) as [|cells len|] eqn:Ee; try discriminate. unfold guard in E. destruct ((len + nlen bs <=? isize_max) && octets bs) eqn:EO; [|discriminate].
    apply andb_prop in EO as [_ EO]. apply octets_ok in EO. apply BUF. intros r s HR Es.
    specialize (I1 i). rewrite Es, Ee in I1. destruct I1 as (b & Rs & Lb & _). apply srep_facts in Rs as (LS & _); [|apply ic_isize].
    unfold L_io_write. apply (lock_bind V).
    { split; [apply (wf_reserve _ _ F); [assumption | assumption | lia] | apply abort_s_reserve; lia]. }
    intros r1 s1 h1 _ HR1. split; [now apply (wf_extend _ _ F)|]. intros X. now apply no_abort_s_extend in X.
Qed.
Lemma run_lock os : forall h0 h e e' v v', good AL (srep ic) h0 e v' h -> verel v v' -> asks_within wm ic os e -> erun ic os e = Some e' ->
  lock verel (w_rrun w L al os v h) (rrun AL al os v' h).
Proof.
  induction os as [|o os IH]; intros h0 h e e' v v' HG HV HA E; cbn [erun asks_within w_rrun rrun] in *.
  - now apply lock_ret.
  - destruct HA as [HA HB]. destruct (estep ic o e) as [e1|] eqn:E1; [|discriminate].
    eapply lock_bind; [eapply step_lock; eassumption|]. intros a b h' ED HR.
    pose proof (step_good AL al (proj1 G) (srep ic) AL_refines h0 h v' e o e1 HG E1) as K. rewrite ED in K. cbn [meets] in K.
    eapply IH; eassumption.
Qed.
Lemma shows_rel h x y e : vrel x y -> shows AL h y e -> shows L h x e.
Proof.
  destruct x as [|r|a], y as [|s|b]; cbn [vrel]; try contradiction; auto.
  - intros HR. destruct e as [|cells len|]; cbn [shows AL L_len L_capacity L_load]; try contradiction.
    unfold L_slice. cbn [AL L_load L_len]. rewrite (wf_len _ _ F _ _ HR), (wf_cap _ _ F _ _ HR).
    intros (A & B & C & (m & E1 & F1) & (bs & E2 & F2)). repeat split; auto.
    + exists m. split; [|assumption]. pose proof (wf_load _ _ F 0 (nlen cells) _ _ HR h) as K. rewrite E1 in K.
      destruct K as (z & -> & ->). reflexivity.
    + exists bs. split; [|assumption]. pose proof (wf_load _ _ F 0 (s_len s) _ _ HR h) as K. rewrite E2 in K.
      destruct K as (z & -> & ->). reflexivity.
  - intros [<- _]. destruct e; cbn [shows]; auto.
Qed.
Theorem w_history os e h0 : erun ic os eempty = Some e -> asks_within wm ic os eempty ->
  match w_rrun w L al os vempty h0 with
  | Done v h =>
      (forall i, shows L h (v i) (e i)) /\
      (forall a c, h_get a h0 = Some c -> h_get a h = Some c) /\
      ((forall i, e i = EEmpty) -> forall a, h_get a h = h_get a h0)
  | Abort => refuses_within wm al
  | Crash | UB => False
  end.
Proof.
  intros E HA. pose proof (history AL al (proj1 G) (srep ic) AL_refines os e h0 E) as K.
  assert (HG : good AL (srep ic) h0 eempty vempty h0).
  { exists (fun _ => None). split; [|split; [|split]]; try discriminate; reflexivity. }
  destruct (run_lock os h0 h0 eempty e vempty vempty HG (fun _ => I) HA E) as [R S].
  destruct (rrun AL al os vempty h0) as [v' h| | |]; cbn [orel meets] in *; try contradiction.
  - destruct R as (v & -> & HV). destruct K as (K1 & K2). split; [|exact K2]. intros i. eapply shows_rel; [apply HV | apply K1].
  - rewrite R. now apply S.
Qed.
End HISTORY.

(** ** lengths *)
Lemma pow256_T : 256 ^ w = word_limit w.
Proof. symmetry. apply limit_256. Qed.
Lemma bind_read_u8 {S A} (R : reader S) (k : N -> parser S A) s out :
  pbind (read_u8 R) k (s, out) =
  match rd_read R s 1 with
  | (IoErr e, s') => (Err (Io e), (s', out))
  | (IoOk [], s') => (Err UnterminatedBytes, (s', out))
  | (IoOk [b], s') => k b (s', out)
  | (IoOk _, s') => (Panic, (s', out))
  end.
Proof. unfold pbind, read_u8. destruct (rd_read R s 1) as [[[|b [|b' bs']]|er] s1]; reflexivity. Qed.
Lemma bind_write_u8 {S A} b (k : unit -> parser S A) s out : pbind (write_u8 b) k (s, out) = k tt (s, out ++ [b]).
Proof. reflexivity. Qed.
Lemma w_loop_rel {S} (R : reader S) : forall P : S -> Prop,
  (forall s n, P s -> match rd_read R s n with (IoOk bs, s') => bytes_ok bs /\ P s' | (IoErr _, s') => P s' end) ->
  forall k j len st, P (fst st) -> len < 256 ^ j -> j + N.of_nat k <= 8 ->
  (j + N.of_nat k <= w -> w_parse_length_loop w R k len st = parse_length_loop R k len st) /\
  (forall l, fst (parse_length_loop R k len st) = Ok l -> exists n, l = Definite n /\ len * 256 ^ N.of_nat k <= n /\ n < 256 ^ (j + N.of_nat k)).
Proof.
  intros P HR. induction k as [|k IH]; intros j len st HP Hl Hj; cbn [w_parse_length_loop parse_length_loop].
  - split; [reflexivity|]. intros l [= <-]. exists len. split; [reflexivity|]. change (256 ^ N.of_nat 0) with 1. rewrite N.add_0_r. lia.
  - assert (EP : 256 ^ (j + 1) = 256 ^ j * 256) by (rewrite N.pow_add_r; reflexivity).
    assert (NM : forall W, j + 1 <= W -> N.shiftl len 8 mod 2 ^ (8 * W) = len * 256).
    { intros W HW. rewrite N.shiftl_mul_pow2. apply N.mod_small. change (2 ^ 8) with 256.
      apply N.lt_le_trans with (256 ^ (j + 1)); [lia|]. replace (2 ^ (8 * W)) with (256 ^ W).
      - apply N.pow_le_mono_r; lia.
      - change 256 with (2 ^ 8). now rewrite <- N.pow_mul_r. }
    assert (N8 : N.shiftl len 8 mod usize_limit = len * 256) by (apply (NM 8); lia).
    destruct st as [s0 out]. cbn [fst] in HP. rewrite !bind_read_u8. specialize (HR s0 1 HP) as ER.
    destruct (rd_read R s0 1) as [[[|b [|b' bs']]|er] s1]; try (split; [reflexivity | discriminate]).
    destruct ER as [ER HP1]. apply bytes_ok_cons in ER as [Hb _].
    rewrite !bind_write_u8, N8. destruct (IH (j + 1) (len * 256 + b) (s1, out ++ [b])) as [IA IB]; [exact HP1 | rewrite EP; lia | lia |].
    split.
    + intros Hw. unfold word_limit. rewrite NM by lia. apply IA. lia.
    + intros l E. destruct (IB l E) as (n & -> & A & B). exists n. split; [reflexivity|].
      replace (j + 1 + N.of_nat k) with (j + N.of_nat (Datatypes.S k)) in B by lia. split; [|assumption].
      replace (N.of_nat (Datatypes.S k)) with (1 + N.of_nat k) by lia. rewrite N.pow_add_r. change (256 ^ 1) with 256. nia.
Qed.
Lemma xor_long first : first < 256 -> N.land first LEN_LONG_FLAG = LEN_LONG_FLAG -> N.lxor first LEN_LONG_FLAG = first - 128 /\ 128 <= first.
Proof.
  intros H.
  assert (K : forallb (fun k => implb (N.land k LEN_LONG_FLAG =? LEN_LONG_FLAG) ((N.lxor k LEN_LONG_FLAG =? k - 128) && (128 <=? k))) (map N.of_nat (seq 0 256)) = true)
    by (vm_compute; reflexivity).
  intros E. rewrite forallb_forall in K. specialize (K first). rewrite E, N.eqb_refl in K. cbn [implb] in K.
  assert (I : In first (map N.of_nat (seq 0 256))).
  { apply in_map_iff. exists (N.to_nat first). split; [lia|]. apply in_seq. lia. }
  apply K, andb_prop in I as [A B]. apply N.eqb_eq in A. apply N.leb_le in B. auto.
Qed.
Theorem w_parse_length_rel {S} (R : reader S) st : octets_from R (fst st) ->
  match fst (parse_length R st) with
  | Ok (Definite n) => if n <? word_limit w then w_parse_length w R st = parse_length R st else fst (w_parse_length w R st) = Err OverFlow
  | Ok Indefinite => w_parse_length w R st = parse_length R st
  | _ => w_parse_length w R st = parse_length R st \/ fst (w_parse_length w R st) = Err OverFlow
  end.
Proof.
  intros (P & HP & HR). pose proof limit_256 as EL. pose proof T_256 as T2. pose proof limit_T as ELT. pose proof T_pos as TP.
  unfold w_parse_length, parse_length. destruct st as [s0 out]. cbn [fst] in HP. rewrite !bind_read_u8. specialize (HR s0 1 HP) as ER.
  destruct (rd_read R s0 1) as [[[|first [|b' bs']]|er] s1]; cbn [fst]; auto.
  destruct ER as [ER HP1]. apply bytes_ok_cons in ER as [Hf _]. rewrite !bind_write_u8.
  destruct (N.eqb_spec first LEN_INDEFINITE) as [|NI]; [reflexivity|].
  destruct (N.eqb_spec (N.land first LEN_LONG_FLAG) LEN_LONG_FLAG) as [E1|E1]; cbn [negb].
  2:{ cbn [pret fst]. destruct (N.ltb_spec first (word_limit w)); [reflexivity | lia]. }
  destruct (xor_long first Hf E1) as [-> Hge]. rewrite !bind_read_u8. specialize (HR s1 1 HP1) as ER.
  destruct (rd_read R s1 1) as [[[|second [|b' bs']]|er] s2]; cbn [fst]; auto.
  destruct ER as [ER HP2]. apply bytes_ok_cons in ER as [Hs _].
  destruct (N.eqb_spec second 0) as [|Hs0]; [now left|]. rewrite !bind_write_u8.
  destruct ((first - 128 =? 1) && (second <=? LEN_MAX_SHORT)); [now left|].
  set (k := first - 128) in *.
  destruct (N.ltb_spec 8 k) as [H8|H8].
  { destruct (N.ltb_spec w k); [|lia]. now left. }
  assert (Z : k <> 0) by (change LEN_INDEFINITE with 128 in NI; lia).
  destruct (w_loop_rel R P HR (N.to_nat (k - 1)) 1 second (s2, (out ++ [first]) ++ [second])) as [IA IB]; [exact HP2 | exact Hs | lia |].
  destruct (N.ltb_spec w k) as [Hk|Hk].
  - destruct (fst (parse_length_loop R (N.to_nat (k - 1)) second (s2, (out ++ [first]) ++ [second]))) as [l| | |] eqn:EP; auto.
    destruct (IB l eq_refl) as (n & -> & A & _).
    destruct (N.ltb_spec n (word_limit w)) as [Hn|]; [|reflexivity]. exfalso.
    assert (256 ^ w <= 256 ^ N.of_nat (N.to_nat (k - 1))) by (apply N.pow_le_mono_r; lia). nia.
  - rewrite IA by lia.
    destruct (fst (parse_length_loop R (N.to_nat (k - 1)) second (s2, (out ++ [first]) ++ [second]))) as [l| | |] eqn:EP; auto.
    destruct (IB l eq_refl) as (n & -> & _ & B).
    destruct (N.ltb_spec n (word_limit w)) as [Hn|Hn]; [reflexivity|]. exfalso.
    assert (256 ^ (1 + N.of_nat (N.to_nat (k - 1))) <= 256 ^ w) by (apply N.pow_le_mono_r; lia). lia.
Qed.

Lemma w_fold_rel : forall l j acc, bytes_ok l -> acc < 256 ^ j -> j + nlen l <= w ->
  fold_left (fun acc b => N.shiftl acc 8 mod word_limit w + b) l acc = fold_left (fun acc b => N.shiftl acc 8 mod usize_limit + b) l acc.
Proof.
  induction l as [|b l IH]; intros j acc Hb Ha Hj; cbn [fold_left]; [reflexivity|].
  apply bytes_ok_cons in Hb as [Hb Hl]. rewrite nlen_cons in Hj.
  assert (EP : 256 ^ (j + 1) = 256 ^ j * 256) by (rewrite N.pow_add_r; reflexivity).
  assert (HT : 256 ^ (j + 1) <= 256 ^ w) by (apply N.pow_le_mono_r; lia).
  rewrite pow256_T in HT. pose proof limit_8 as L8.
  rewrite N.shiftl_mul_pow2. change (2 ^ 8) with 256. rewrite !N.mod_small by lia.
  apply (IH (j + 1)); [assumption | lia | lia].
Qed.
Theorem w_unchecked_rel bs : bytes_ok bs -> match bs with b :: _ => b <= 128 + w | [] => True end ->
  w_parse_length_unchecked w bs = parse_length_unchecked bs.
Proof.
  intros Hb Hw. unfold w_parse_length_unchecked, parse_length_unchecked. destruct bs as [|b bs]; [reflexivity|].
  apply bytes_ok_cons in Hb as [Hb Hl]. destruct (b =? LEN_INDEFINITE); [reflexivity|].
  destruct (N.eqb_spec (N.land b LEN_LONG_FLAG) LEN_LONG_FLAG) as [E1|E1]; cbn [negb]; [|reflexivity].
  set (k := N.land b (not_u8 LEN_LONG_FLAG)).
  assert (K : k = b - 128).
  { unfold k. clear - Hb E1.
    assert (K : forallb (fun k => implb (N.land k LEN_LONG_FLAG =? LEN_LONG_FLAG) (N.land k (not_u8 LEN_LONG_FLAG) =? k - 128)) (map N.of_nat (seq 0 256)) = true)
      by (vm_compute; reflexivity).
    rewrite forallb_forall in K. specialize (K b). rewrite E1, N.eqb_refl in K. cbn [implb] in K. apply N.eqb_eq, K.
    apply in_map_iff. exists (N.to_nat b). split; [lia|]. apply in_seq. lia. }
  destruct (N.ltb_spec (nlen bs) k); [reflexivity|].
  rewrite (w_fold_rel (take k bs) 0 0); [reflexivity | now apply bytes_ok_take | reflexivity | rewrite nlen_take; lia].
Qed.

Lemma w_byte_len_eq n : n < word_limit w -> w_byte_len w n = byte_len n.
Proof.
  intros H. unfold w_byte_len, w_leading_zeros, byte_len. do 2 f_equal.
  destruct (N.eq_dec n 0) as [->|Nz]; [change (N.size 0) with 0; lia|].
  destruct (size_bounds n ltac:(lia)) as [B _]. unfold word_limit in H.
  assert (N.size n - 1 < 8 * w) by (apply (N.pow_lt_mono_r_iff 2); lia).
  lia.
Qed.
Lemma byte_len_le n : n < word_limit w -> byte_len n <= w.
Proof.
  intros H. unfold byte_len. destruct (N.eq_dec n 0) as [->|Nz]; [change (N.size 0) with 0; change ((0 + 7) / 8) with 0; lia|].
  destruct (size_bounds n ltac:(lia)) as [B _]. unfold word_limit in H.
  assert (N.size n - 1 < 8 * w) by (apply (N.pow_lt_mono_r_iff 2); lia).
  apply N.lt_succ_r, N.div_lt_upper_bound; lia.
Qed.
Theorem w_Length_len_eq n : n < word_limit w -> w_Length_len w (Definite n) = Length_len (Definite n).
Proof. intros H. cbn [w_Length_len Length_len]. now rewrite w_byte_len_eq. Qed.
Lemma be_tail_app a : forall k n, be_tail (k + a) n = be_tail k (n / 256 ^ N.of_nat a) ++ be_tail a n.
Proof.
  induction a as [|a IH]; intros k n.
  - rewrite Nat.add_0_r. change (256 ^ N.of_nat 0) with 1. rewrite N.div_1_r. cbn [be_tail]. now rewrite app_nil_r.
  - rewrite Nat.add_succ_r. cbn [be_tail]. rewrite IH, app_assoc. do 3 f_equal.
    rewrite N.div_div by (try discriminate; apply N.pow_nonzero; discriminate).
    f_equal. replace (N.of_nat (Datatypes.S a)) with (1 + N.of_nat a) by lia. now rewrite N.pow_add_r.
Qed.
Lemma w_capacity_eq : w_LB_CAPACITY w = w + 1.
Proof.
  pose proof T_pos. pose proof limit_T as EL.
  unfold w_LB_CAPACITY. rewrite w_Length_len_eq by lia. cbn [Length_len].
  change LEN_MAX_SHORT with 127. destruct (N.leb_spec (word_limit w - 1) 127); [lia|]. f_equal.
  apply N.le_antisymm; [apply byte_len_le; lia|]. unfold byte_len.
  assert (word_limit w - 1 < 2 ^ N.size (word_limit w - 1)) by apply N.size_gt.
  assert (8 * w <= N.size (word_limit w - 1)).
  { apply N.lt_succ_r. apply (N.pow_lt_mono_r_iff 2); [lia|]. rewrite N.pow_succ_r'. unfold word_limit in *. lia. }
  apply N.div_le_lower_bound; lia.
Qed.
Theorem w_to_bytes_eq n : n < word_limit w -> w_Length_to_bytes w (Definite n) = Ok (Length_to_bytes (Definite n)).
Proof.
  intros H. unfold w_Length_to_bytes, Length_to_bytes. destruct (n <=? LEN_MAX_SHORT); [reflexivity|].
  rewrite w_byte_len_eq, w_capacity_eq by assumption. pose proof (byte_len_le n H) as K. cbv zeta.
  assert (AK : as_u8 (byte_len n) = byte_len n) by (apply N.mod_small; lia). rewrite AK.
  assert (AF : as_u8 (LEN_LONG_FLAG + byte_len n) = LEN_LONG_FLAG + byte_len n) by (apply N.mod_small; unfold LEN_LONG_FLAG; lia).
  rewrite AF. unfold LEN_LONG_FLAG.
  destruct (N.leb_spec 256 (128 + byte_len n)); [lia|]. destruct (N.ltb_spec (w + 1) (byte_len n + 1)); [lia|].
  destruct (N.ltb_spec w (byte_len n)); [lia|]. do 2 f_equal.
  set (k := byte_len n) in *. replace (N.to_nat w) with (N.to_nat (w - k) + N.to_nat k)%nat by lia. rewrite be_tail_app.
  rewrite drop_app_ge by (rewrite be_tail_length; lia). rewrite be_tail_length, N2Nat.id, N.sub_diag, drop_0.
  apply take_ge. rewrite be_tail_length. lia.
Qed.

Lemma minimal_word n l : minimal_length n l -> n < word_limit w -> match l with b :: _ => b <= 128 + w | [] => True end.
Proof.
  intros H Hn. destruct H as [n H|n d ds Hn' Hok Hd Hv Hl]; [lia|].
  rewrite be_value_cons in Hv. rewrite nlen_cons in *.
  assert (nlen ds < w); [|lia]. apply (N.pow_lt_mono_r_iff 256); [lia|]. rewrite pow256_T. nia.
Qed.
Lemma slice_octets bs : bytes_ok bs -> octets_from slice_reader bs.
Proof.
  intros H. exists bytes_ok. split; [assumption|]. intros s n Hs. cbn [slice_reader rd_read].
  split; [now apply bytes_ok_take | now apply bytes_ok_drop].
Qed.
Theorem w_unchecked_accepted bs n rest : bytes_ok bs ->
  match w_parse_length w slice_reader (bs, []) with (Ok l, (readable, _)) => l = n /\ readable = rest | _ => False end ->
  w_parse_length_unchecked w bs = Ok (n, rest).
Proof.
  intros Hb H. pose proof (w_parse_length_rel slice_reader (bs, []) (slice_octets bs Hb)) as K.
  pose proof (parse_length_slice bs Hb) as O.
  destruct (parse_length slice_reader (bs, [])) as [r st] eqn:E. cbn [fst] in K.
  inversion O as [rest' Eb|m l rest' Hm Hn Eb|e st' HE]; subst r st.
  - rewrite K in H. destruct H as [<- <-]. rewrite w_unchecked_rel by (try assumption; subst bs; lia). subst bs. reflexivity.
  - destruct (N.ltb_spec m (word_limit w)) as [Hw|Hw].
    + rewrite K in H. destruct H as [<- <-]. rewrite w_unchecked_rel; [subst bs; now apply parse_length_unchecked_definite | assumption |].
      pose proof (minimal_word m l Hm Hw) as M. subst bs. destruct l; [inversion Hm | exact M].
    + destruct (w_parse_length w slice_reader (bs, [])) as [q [x y]]. cbn [fst] in K. rewrite K in H. contradiction.
  - destruct (w_parse_length w slice_reader (bs, [])) as [q [x y]]. cbn [fst] in K. destruct K as [[= -> _]| ->]; contradiction.
Qed.
End WORD.
