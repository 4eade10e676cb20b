(** The octet-level buffer layouts follow one abstract description of a buffer, whose
    operations in turn refine those of ModelBuf.v. *)
From Verif Require Import Base ModelTag ModelBuf ModelHeap ModelBufLE ModelBufUE Spec TagProofs BufProofs.

(** ** heaps *)
Lemma get_del x a h : h_get x (h_del a h) = if a =? x then None else h_get x h.
Proof.
  unfold h_del. induction h as [|[y c] h IH]; cbn [filter h_get fst].
  - now destruct (a =? x).
  - destruct (N.eqb_spec y a) as [->|N]; cbn [negb].
    + rewrite IH. now destruct (a =? x).
    + cbn [h_get]. rewrite IH. destruct (N.eqb_spec y x) as [->|]; [|reflexivity].
      destruct (N.eqb_spec a x); [congruence | reflexivity].
Qed.
Lemma get_set x a c h : h_get x (h_set a c h) = if a =? x then Some c else h_get x h.
Proof. unfold h_set. cbn [h_get]. rewrite get_del. now destruct (a =? x). Qed.
Lemma get_set_eq a c h : h_get a (h_set a c h) = Some c.
Proof. now rewrite get_set, N.eqb_refl. Qed.
Lemma del_del a h : h_del a (h_del a h) = h_del a h.
Proof.
  unfold h_del. induction h as [|e h IH]; cbn [filter]; [reflexivity|].
  destruct (negb (fst e =? a)) eqn:E; cbn [filter]; [|assumption]. now rewrite E, IH.
Qed.
Lemma del_set a c h : h_del a (h_set a c h) = h_del a h.
Proof. unfold h_set, h_del at 1. cbn [filter fst]. rewrite N.eqb_refl. cbn [negb]. apply del_del. Qed.
Lemma set_set a c c' h : h_set a c' (h_set a c h) = h_set a c' h.
Proof. unfold h_set at 1 3. f_equal. apply del_set. Qed.
Global Opaque h_get h_set h_del.

(** ** an abstract buffer over raw memory *)
Inductive st := Stk (m : list N) (n : N) | Hp (p cap n : N).
Section ST.
Context (ic : N).
Definition s_len (s : st) : N := match s with Stk _ n => n | Hp _ _ n => n end.
Definition s_cap (s : st) : N := match s with Stk _ _ => ic | Hp _ c _ => c end.
Definition s_new : st := Stk (repeat 0 (N.to_nat ic)) 0.
Definition s_set_len (n : N) (s : st) : M st :=
  if s_cap s <? n then mub else mret (match s with Stk m _ => Stk m n | Hp p c _ => Hp p c n end).
Definition s_load (off n : N) (s : st) : M (list N) :=
  match s with
  | Stk m _ => if nlen m <? off + n then mub else mret (take n (drop off m))
  | Hp p _ _ => load p off n
  end.
Definition s_store (off : N) (src : list N) (s : st) : M st :=
  match s with
  | Stk m n => if nlen m <? off + nlen src then mub else mret (Stk (take off m ++ src ++ drop (off + nlen src) m) n)
  | Hp p _ _ => _ <-- store p off src ; mret s
  end.
Definition s_reserve (al : allocator) (k : N) (s : st) : M st :=
  if isize_max <? s_len s + k then mub
  else if s_len s + k <=? s_cap s then mret s
  else match s with
       | Stk m n => p <-- alloc al (n + k) ; _ <-- store p 0 (take n m) ; mret (Hp p (n + k) n)
       | Hp p c n => q <-- realloc al p c (n + k) ; mret (Hp q (n + k) n)
       end.
Definition s_push (v : N) (s : st) : M st :=
  if s_len s <? s_cap s then (s1 <-- s_set_len (s_len s + 1) s ; s_store (s_len s) [v] s1) else mub.
Definition s_extend (vals : list N) (s : st) : M st :=
  s1 <-- s_store (s_len s) vals s ; s_set_len (s_len s + nlen vals) s1.
Definition s_with_capacity (al : allocator) (k : N) : M st := s_reserve al k s_new.
Definition s_clone (al : allocator) (s : st) : M st :=
  r <-- s_with_capacity al (s_len s) ; x <-- s_load 0 (s_len s) s ;
  if forallb (fun b => b <? 256) x then s_extend x r else mub.
Definition s_from_vec (v : vec) : M st :=
  if v_cap v =? 0 then mret s_new
  else if (v_cap v <? v_len v) || (isize_max <? v_cap v) || (usize_limit <=? v_ptr v) then mub
  else mret (Hp (v_ptr v) (v_cap v) (v_len v)).
Definition s_into_vec (al : allocator) (s : st) : M vec :=
  match s with
  | Stk m n => vec_from_slice al (take n m)
  | Hp p c n => mret {| v_ptr := p; v_cap := c; v_len := n |}
  end.
Definition s_drop (s : st) : M unit := match s with Stk _ _ => mret tt | Hp p c _ => dealloc p c end.

(** well-formed *)
Definition swf (s : st) : Prop :=
  match s with
  | Stk m n => nlen m = ic /\ n <= ic /\ bytes_ok m
  | Hp p c n => p < usize_limit /\ 0 < c /\ c <= isize_max /\ n <= c
  end.
End ST.

(** [o1] does what [o2] does, unless the latter is undefined. *)
Definition orel {A B} (R : A -> B -> Prop) (o1 : outcome A) (o2 : outcome B) : Prop :=
  match o2 with
  | Done b h => exists a, o1 = Done a h /\ R a b
  | Abort => o1 = Abort
  | Crash | UB => True
  end.
Definition mrel {A B} (R : A -> B -> Prop) (m1 : M A) (m2 : M B) : Prop := forall h, orel R (m1 h) (m2 h).
Lemma mrel_bind {A B C D} (R : A -> B -> Prop) (Q : C -> D -> Prop) m1 m2 k1 k2 :
  mrel R m1 m2 -> (forall a b, R a b -> mrel Q (k1 a) (k2 b)) -> mrel Q (mbind m1 k1) (mbind m2 k2).
Proof.
  intros H K h. specialize (H h). unfold mbind. destruct (m2 h) as [b h'| | |]; cbn [orel] in *.
  - destruct H as (a & -> & HR). apply K. assumption.
  - now rewrite H.
  - exact I.
  - exact I.
Qed.
Lemma mrel_ret {A B} (R : A -> B -> Prop) a b : R a b -> mrel R (mret a) (mret b).
Proof. intros H h. exists a. auto. Qed.
Lemma mrel_ub {A B} (R : A -> B -> Prop) m : mrel R m mub.
Proof. intros h. exact I. Qed.
Lemma mrel_refl {A} (m : M A) : mrel eq m m.
Proof. intros h. destruct (m h) as [a h'| | |] eqn:E; cbn [orel]; auto. exists a. auto. Qed.

(** What a layout must do, with allocators satisfying [A]. *)
Record follows (A : allocator -> Prop) (L : layout) (V : L_raw L -> st -> Prop) : Prop := {
  fo_wf : forall r s, V r s -> swf (L_init_cap L) s;
  fo_new : V (L_new L) (s_new (L_init_cap L));
  fo_len : forall r s, V r s -> L_len L r = s_len s;
  fo_cap : forall r s, V r s -> L_capacity L r = s_cap (L_init_cap L) s;
  fo_set_len : forall n r s, V r s -> mrel V (L_set_len L n r) (s_set_len (L_init_cap L) n s);
  fo_load : forall off n r s, V r s -> mrel eq (L_load L off n r) (s_load off n s);
  fo_store : forall off src r s, bytes_ok src -> V r s -> mrel V (L_store L off src r) (s_store off src s);
  fo_reserve : forall al k r s, A al -> V r s -> mrel V (L_reserve L al k r) (s_reserve (L_init_cap L) al k s);
  fo_with_capacity : forall al k, A al -> mrel V (L_with_capacity L al k) (s_with_capacity (L_init_cap L) al k);
  fo_push : forall v r s, v < 256 -> V r s -> mrel V (L_push L v r) (s_push (L_init_cap L) v s);
  fo_extend : forall vals r s, bytes_ok vals -> V r s -> mrel V (L_extend L vals r) (s_extend (L_init_cap L) vals s);
  fo_clone : forall al r s, A al -> V r s -> mrel V (L_clone L al r) (s_clone (L_init_cap L) al s);
  fo_from_vec : forall v, mrel V (L_from_vec L v) (s_from_vec (L_init_cap L) v);
  fo_into_vec : forall al r s, V r s -> mrel eq (L_into_vec L al r) (s_into_vec al s);
  fo_drop : forall r s, V r s -> mrel eq (L_drop L r) (s_drop s)
}.

(** ** bit operations on words *)
Lemma land_flag_low x : x < 2 ^ 63 -> N.land x (2 ^ 63) = 0.
Proof.
  intros H. apply N.bits_inj_0. intros n. rewrite N.land_spec, N.pow2_bits_eqb.
  destruct (N.eqb_spec 63 n) as [<-|]; [|apply andb_false_r].
  rewrite andb_true_r. destruct (N.eq_dec x 0) as [->|Nz]; [reflexivity|].
  apply N.bits_above_log2. apply N.log2_lt_pow2; lia.
Qed.
Lemma lor_flag x : x < 2 ^ 63 -> N.lor x (2 ^ 63) = x + 2 ^ 63.
Proof.
  intros H. pose proof (land_flag_low x H) as Z.
  rewrite <- N.lxor_lor by assumption. symmetry. now apply N.add_nocarry_lxor.
Qed.
Lemma land_flag_high x : x < 2 ^ 63 -> N.land (x + 2 ^ 63) (2 ^ 63) = 2 ^ 63.
Proof.
  intros H. rewrite <- lor_flag by assumption.
  rewrite N.land_lor_distr_l, land_flag_low, N.land_diag by assumption. reflexivity.
Qed.
Lemma land_mask_low x : x < 2 ^ 63 -> N.land x (2 ^ 63 - 1) = x.
Proof.
  intros H. change (2 ^ 63 - 1) with (N.ones 63). rewrite N.land_ones. now apply N.mod_small.
Qed.
Lemma land_mask_high x : x < 2 ^ 63 -> N.land (x + 2 ^ 63) (2 ^ 63 - 1) = x.
Proof.
  intros H. change (2 ^ 63 - 1) with (N.ones 63). rewrite N.land_ones.
  rewrite <- (N.mul_1_l (2 ^ 63)) at 1. rewrite N.mod_add by discriminate. now apply N.mod_small.
Qed.
Lemma lor_top v n : v < 2 ^ 56 -> N.lor v (n * 2 ^ 56) = v + n * 2 ^ 56.
Proof.
  intros H. assert (Z : N.land v (n * 2 ^ 56) = 0).
  { apply N.bits_inj_0. intros k. rewrite N.land_spec. destruct (N.ltb_spec k 56) as [K|K].
    - rewrite N.mul_pow2_bits_low by assumption. apply andb_false_r.
    - destruct (N.eq_dec v 0) as [->|Nz]; [reflexivity|].
      rewrite N.bits_above_log2; [reflexivity|]. apply N.lt_le_trans with 56; [apply N.log2_lt_pow2; lia | assumption]. }
  rewrite <- N.lxor_lor by assumption. symmetry. now apply N.add_nocarry_lxor.
Qed.

(** ** little-endian words *)
Lemma le_octets_len k : forall n, nlen (le_octets k n) = N.of_nat k.
Proof. induction k as [|k IH]; intros n; cbn [le_octets]; [reflexivity|]. rewrite nlen_cons, IH. lia. Qed.
Lemma le_octets_ok k : forall n, bytes_ok (le_octets k n).
Proof.
  induction k as [|k IH]; intros n; cbn [le_octets]; [constructor|]. apply bytes_ok_cons.
  split; [apply N.mod_lt; lia | apply IH].
Qed.
Lemma le_value_octets k : forall n, n < 256 ^ N.of_nat k -> le_value (le_octets k n) = n.
Proof.
  induction k as [|k IH]; intros n H; cbn [le_octets le_value].
  - change (256 ^ N.of_nat 0) with 1 in H. lia.
  - rewrite Nat2N.inj_succ, N.pow_succ_r' in H. rewrite IH.
    + pose proof (N.div_mod' n 256). lia.
    + apply N.div_lt_upper_bound; lia.
Qed.
Lemma le_value_app a : forall b, le_value (a ++ b) = le_value a + 256 ^ nlen a * le_value b.
Proof.
  induction a as [|x a IH]; intros b; cbn [app le_value].
  - change (256 ^ nlen []) with 1. lia.
  - rewrite IH, nlen_cons. replace (1 + nlen a) with (N.succ (nlen a)) by lia. rewrite N.pow_succ_r'. lia.
Qed.
Lemma le_value_bound l : bytes_ok l -> le_value l < 256 ^ nlen l.
Proof.
  induction l as [|x l IH]; intros H.
  - reflexivity.
  - apply bytes_ok_cons in H as [Hx Hl]. specialize (IH Hl). cbn [le_value]. rewrite nlen_cons.
    replace (1 + nlen l) with (N.succ (nlen l)) by lia. rewrite N.pow_succ_r'. lia.
Qed.
Lemma le_octets_of_value l : bytes_ok l -> le_octets (length l) (le_value l) = l.
Proof.
  induction l as [|x l IH]; intros H; [reflexivity|]. apply bytes_ok_cons in H as [Hx Hl].
  cbn [length le_octets le_value]. f_equal.
  - rewrite (N.mul_comm 256), N.mod_add by discriminate. now apply N.mod_small.
  - rewrite (N.add_comm x), (N.mul_comm 256), N.div_add_l by discriminate. rewrite (N.div_small x) by assumption.
    rewrite N.add_0_r. now apply IH.
Qed.

Lemma le_word_at i pre w post : nlen pre = 8 * i -> nlen w = 8 -> le_word i (pre ++ w ++ post) = le_value w.
Proof. intros H Hw. unfold le_word. rewrite <- H, drop_app_exact, <- Hw, take_app_exact. reflexivity. Qed.
Lemma le_word_end i pre w : nlen pre = 8 * i -> nlen w = 8 -> le_word i (pre ++ w) = le_value w.
Proof. intros H Hw. rewrite <- (le_word_at i pre w []) by assumption. now rewrite app_nil_r. Qed.
Lemma le_set_word_at i v pre w post : nlen pre = 8 * i -> nlen w = 8 ->
  le_set_word i v (pre ++ w ++ post) = pre ++ le_octets 8 v ++ post.
Proof.
  intros H Hw. unfold le_set_word. rewrite <- H, take_app_exact. do 2 f_equal.
  rewrite drop_app_ge by lia. replace (nlen pre + 8 - nlen pre) with (nlen w) by lia. apply drop_app_exact.
Qed.
Lemma le_set_word_0 v w post : nlen w = 8 -> le_set_word 0 v (w ++ post) = le_octets 8 v ++ post.
Proof. exact (le_set_word_at 0 v [] w post eq_refl). Qed.

(** ** the little-endian layout *)
Definition le_view (r : le_raw) (s : st) : Prop :=
  swf LE_INIT_CAPACITY s /\
  match s with
  | Stk m n => r = m ++ [n]
  | Hp p c n => r = le_octets 8 p ++ le_octets 8 c ++ le_octets 8 (n + 2 ^ 63)
  end.

Lemma le_stk_split m : nlen m = LE_INIT_CAPACITY -> exists a b c : list N, m = a ++ b ++ c /\ nlen a = 8 /\ nlen b = 8 /\ nlen c = 7.
Proof.
  change LE_INIT_CAPACITY with 23. intros H.
  destruct (split_at 8 m) as (a & r & -> & La); [lia|]. rewrite nlen_app in H.
  destruct (split_at 8 r) as (b & c & -> & Lb); [lia|]. rewrite nlen_app in H.
  exists a, b, c. repeat split; auto; lia.
Qed.
(** The third word of a small buffer: seven octets of contents and the length. *)
Lemma le_len_word a b c n : nlen a = 8 -> nlen b = 8 -> nlen c = 7 -> bytes_ok c ->
  le_len_ (a ++ b ++ c ++ [n]) = le_value c + n * 2 ^ 56 /\ le_value c < 2 ^ 56.
Proof.
  intros Ha Hb Hc Hok. split.
  - unfold le_len_. rewrite (app_assoc a b). rewrite <- (app_nil_r (c ++ [n])).
    rewrite le_word_at by (rewrite nlen_app, ?nlen_cons, ?nlen_nil; lia).
    rewrite le_value_app, Hc. cbn [le_value]. change (256 ^ 7) with (2 ^ 56). lia.
  - apply (N.lt_le_trans _ (256 ^ nlen c)); [now apply le_value_bound|]. rewrite Hc. discriminate.
Qed.
Lemma le_stack_facts m n : nlen m = LE_INIT_CAPACITY -> bytes_ok m -> n <= LE_INIT_CAPACITY ->
  le_is_stack (m ++ [n]) = true /\ le_len (m ++ [n]) = n /\ le_capacity (m ++ [n]) = LE_INIT_CAPACITY.
Proof.
  intros L Hok Hn. destruct (le_stk_split m L) as (a & b & c & -> & La & Lb & Lc).
  apply bytes_ok_app in Hok as [_ Hok]. apply bytes_ok_app in Hok as [_ Hok].
  change LE_INIT_CAPACITY with 23 in Hn.
  destruct (le_len_word a b c n La Lb Lc Hok) as [E B].
  assert (S : le_is_stack ((a ++ b ++ c) ++ [n]) = true).
  { unfold le_is_stack. rewrite <- !app_assoc, E. change HEAP_FLAG with (2 ^ 63). rewrite land_flag_low; [reflexivity|].
    change (2 ^ 63) with (128 * 2 ^ 56). nia. }
  split; [assumption|]. unfold le_len, le_capacity. rewrite S. split; [|reflexivity].
  rewrite <- !app_assoc, E, N.shiftr_div_pow2. change (64 - 8) with 56.
  rewrite N.div_add by discriminate. rewrite N.div_small by assumption. reflexivity.
Qed.
Lemma small_word n : n < usize_limit -> le_value (le_octets 8 n) = n.
Proof. intros H. apply le_value_octets. exact H. Qed.
Lemma le_heap_facts p c n : p < usize_limit -> c <= isize_max -> n <= c ->
  let r := le_octets 8 p ++ le_octets 8 c ++ le_octets 8 (n + 2 ^ 63) in
  le_is_stack r = false /\ le_len r = n /\ le_capacity r = c /\ le_data r = p /\ le_cap_ r = c.
Proof.
  intros Hp Hc Hn r. assert (isize_max = 2 ^ 63 - 1) as EI by reflexivity. assert (usize_limit = 2 ^ 63 + 2 ^ 63) as EU by reflexivity.
  assert (W0 : le_data r = p).
  { unfold le_data. rewrite <- (small_word p) by assumption. unfold r. apply (le_word_at 0 []); reflexivity. }
  assert (W1 : le_cap_ r = c).
  { unfold le_cap_. rewrite <- (small_word c) by lia. unfold r. apply le_word_at; apply le_octets_len. }
  assert (W2 : le_len_ r = n + 2 ^ 63).
  { unfold le_len_. rewrite <- (small_word (n + 2 ^ 63)) by lia. unfold r.
    rewrite app_assoc. apply le_word_end; [|apply le_octets_len].
    rewrite nlen_app, !le_octets_len. reflexivity. }
  assert (S : le_is_stack r = false).
  { unfold le_is_stack. rewrite W2. change HEAP_FLAG with (2 ^ 63). rewrite land_flag_high by lia. reflexivity. }
  split; [assumption|]. unfold le_len, le_capacity. rewrite S, W1, W2. change LEN_MASK with (2 ^ 63 - 1).
  rewrite land_mask_high by lia. auto.
Qed.

Lemma le_fo_set_len n r s : le_view r s -> mrel le_view (le_set_len n r) (s_set_len LE_INIT_CAPACITY n s).
Proof.
  intros [W V]. unfold s_set_len. destruct (N.ltb_spec (s_cap LE_INIT_CAPACITY s) n) as [H|H]; [apply mrel_ub|].
  destruct s as [m n0|p c n0]; cbn [s_cap swf] in *; subst r.
  - destruct W as (L & Hn0 & Hok). destruct (le_stack_facts m n0 L Hok Hn0) as (S & _ & _).
    unfold le_set_len. rewrite S. cbv zeta. apply mrel_ret. split; [cbn [swf]; auto|].
    destruct (le_stk_split m L) as (a & b & c & -> & La & Lb & Lc).
    apply bytes_ok_app in Hok as [_ Hok]. apply bytes_ok_app in Hok as [_ Hok].
    rewrite <- !app_assoc. change LE_INIT_CAPACITY with 23 in *.
    destruct (le_len_word a b c n0 La Lb Lc Hok) as [E B]. rewrite E.
    replace (N.lxor (N.shiftl 0xff (64 - 8)) (usize_limit - 1)) with (N.ones 56) by reflexivity.
    rewrite N.land_ones, N.mod_add by discriminate. rewrite N.mod_small by assumption.
    assert (SW : forall v x y, nlen (x ++ [y]) = 8 -> le_set_word 2 v (a ++ b ++ x ++ [y]) = a ++ b ++ le_octets 8 v).
    { intros v x y Hx. rewrite (app_assoc a b), <- (app_nil_r (x ++ [y])).
      rewrite le_set_word_at by (rewrite ?nlen_app in *; auto; lia). now rewrite app_nil_r, <- app_assoc. }
    assert (O : forall k, k < 256 -> le_octets 8 (le_value c + k * 2 ^ 56) = c ++ [k]).
    { intros k Hk. replace (le_value c + k * 2 ^ 56) with (le_value (c ++ [k])).
      - replace 8%nat with (length (c ++ [k])).
        + apply le_octets_of_value. apply bytes_ok_app. split; [assumption|]. apply bytes_ok_cons. split; [assumption | constructor].
        + apply Nat2N.inj. rewrite <- nlen_length, nlen_app, Lc. reflexivity.
      - rewrite le_value_app, Lc. cbn [le_value]. change (256 ^ 7) with (2 ^ 56). lia. }
    assert (L8 : forall k, nlen (c ++ [k]) = 8) by (intros; rewrite nlen_app, Lc; reflexivity).
    rewrite SW by apply L8. replace (le_value c) with (le_value c + 0 * 2 ^ 56) at 1 2 by lia.
    rewrite O by lia. destruct (le_len_word a b c 0 La Lb Lc Hok) as [E0 _]. rewrite E0.
    rewrite SW by apply L8. rewrite N.shiftl_mul_pow2. change (64 - 8) with 56.
    rewrite N.mod_small by (change usize_limit with (256 * 2 ^ 56); nia).
    rewrite N.mul_0_l, N.add_0_r, lor_top by assumption. rewrite O by lia. reflexivity.
  - destruct W as (Hp & Hc0 & Hc & Hn0).
    destruct (le_heap_facts p c n0 Hp Hc Hn0) as (S & _).
    unfold le_set_len. rewrite S. apply mrel_ret. split; [cbn [swf]; auto|].
    change HEAP_FLAG with (2 ^ 63). assert (isize_max = 2 ^ 63 - 1) by reflexivity. rewrite lor_flag by lia.
    rewrite app_assoc, <- (app_nil_r (le_octets 8 (n0 + 2 ^ 63))).
    rewrite le_set_word_at by (rewrite ?nlen_app, !le_octets_len; reflexivity).
    now rewrite app_nil_r, <- app_assoc.
Qed.
Lemma le_fo_load off n r s : le_view r s -> mrel eq (le_load off n r) (s_load off n s).
Proof.
  intros [W V]. destruct s as [m n0|p c n0]; cbn [swf] in *; subst r; unfold le_load.
  - destruct W as (L & Hn0 & Hok). destruct (le_stack_facts m n0 L Hok Hn0) as (S & _ & _). rewrite S.
    cbn [s_load]. destruct (N.ltb_spec (nlen m) (off + n)) as [H|H]; [apply mrel_ub|].
    rewrite nlen_app. destruct (N.ltb_spec (nlen m + nlen [n0]) (off + n)); [lia|].
    apply mrel_ret. destruct (split_at off m) as (a & b & -> & La); [lia|]. subst off. rewrite nlen_app in H.
    rewrite <- app_assoc, !drop_app_exact. destruct (split_at n b) as (x & y & -> & Lx); [lia|]. subst n.
    now rewrite <- app_assoc, !take_app_exact.
  - destruct W as (Hp & Hc0 & Hc & Hn0). destruct (le_heap_facts p c n0 Hp Hc Hn0) as (S & _ & _ & D & _).
    rewrite S, D. apply mrel_refl.
Qed.
Lemma le_fo_store off src r s : bytes_ok src -> le_view r s -> mrel le_view (le_store off src r) (s_store off src s).
Proof.
  intros Hsrc [W V]. destruct s as [m n0|p c n0]; cbn [swf] in *; subst r; unfold le_store.
  - destruct W as (L & Hn0 & Hok). destruct (le_stack_facts m n0 L Hok Hn0) as (S & _ & _). rewrite S.
    cbn [s_store]. destruct (N.ltb_spec (nlen m) (off + nlen src)) as [H|H]; [apply mrel_ub|].
    rewrite nlen_app. destruct (N.ltb_spec (nlen m + nlen [n0]) (off + nlen src)); [lia|].
    apply mrel_ret. destruct (split_at off m) as (a & b & -> & La); [lia|]. subst off. rewrite nlen_app in H.
    destruct (split_at (nlen src) b) as (x & y & -> & Lx); [lia|].
    rewrite <- !app_assoc. assert (D : forall z, drop (nlen a + nlen src) (a ++ x ++ z) = z).
    { intros z. rewrite drop_app_ge by lia. replace (nlen a + nlen src - nlen a) with (nlen x) by lia. apply drop_app_exact. }
    rewrite !take_app_exact, !D. rewrite !nlen_app in L. rewrite !bytes_ok_app in Hok. split.
    + cbn [swf]. rewrite !nlen_app, !bytes_ok_app. split; [lia|]. tauto.
    + now rewrite <- !app_assoc.
  - destruct W as (Hp & Hc0 & Hc & Hn0). destruct (le_heap_facts p c n0 Hp Hc Hn0) as (S & _ & _ & D & _).
    rewrite S, D. cbn [s_store]. eapply mrel_bind; [apply mrel_refl|]. intros [] [] _. apply mrel_ret.
    split; [cbn [swf]; auto | reflexivity].
Qed.
Lemma mrel_ret_l {A B C} (Q : B -> C -> Prop) (a : A) k m2 : mrel Q (k a) m2 -> mrel Q (mbind (mret a) k) m2.
Proof. exact (fun H => H). Qed.
Definition eq_ptr (a b : N) : Prop := a = b /\ a < usize_limit.
Lemma alloc_rel al n : good_allocator al -> mrel eq_ptr (alloc al n) (alloc al n).
Proof.
  intros G h. unfold alloc. destruct (isize_max <? n); [exact I|]. destruct (n =? 0); [exact I|].
  destruct (al_pick al h n) as [a|] eqn:E; [|reflexivity]. exists a. destruct (G h n a E) as (_ & _ & ?). repeat split; auto.
Qed.
Lemma realloc_rel al p o n : good_allocator al -> mrel eq_ptr (realloc al p o n) (realloc al p o n).
Proof.
  intros G h. unfold realloc. destruct (isize_max <? o); [exact I|]. destruct (h_get p h) as [c|]; [|exact I].
  destruct (negb (nlen c =? o)); [exact I|]. destruct ((n =? 0) || (isize_max <? n)); [exact I|]. cbv zeta.
  destruct (al_pick al (h_del p h) n) as [a|] eqn:E; [|reflexivity]. exists a. destruct (G _ n a E) as (_ & _ & ?). repeat split; auto.
Qed.

Lemma le_view_len r s : le_view r s -> le_len r = s_len s.
Proof.
  intros [W V]. destruct s as [m n|p c n]; cbn [swf] in W; subst r.
  - apply le_stack_facts; tauto.
  - destruct W as (Hp & _ & Hc & Hn). apply le_heap_facts; assumption.
Qed.
Lemma le_view_cap r s : le_view r s -> le_capacity r = s_cap LE_INIT_CAPACITY s.
Proof.
  intros [W V]. destruct s as [m n|p c n]; cbn [swf] in W; subst r.
  - apply le_stack_facts; tauto.
  - destruct W as (Hp & _ & Hc & Hn). apply le_heap_facts; assumption.
Qed.
Lemma le_fo_reserve al k r s : good_allocator al -> le_view r s ->
  mrel le_view (le_reserve al k r) (s_reserve LE_INIT_CAPACITY al k s).
Proof.
  intros G V. unfold le_reserve, s_reserve. rewrite (le_view_len _ _ V), (le_view_cap _ _ V). cbv zeta.
  destruct (N.ltb_spec isize_max (s_len s + k)) as [|H1]; [apply mrel_ub|].
  assert (isize_max = 2 ^ 63 - 1) as EI by reflexivity. assert (usize_limit = 2 ^ 63 + 2 ^ 63) as EU by reflexivity.
  destruct (N.leb_spec usize_limit (s_len s + k)); [lia|].
  destruct (N.leb_spec (s_len s + k) (s_cap LE_INIT_CAPACITY s)) as [|H2]; [now apply mrel_ret|].
  destruct V as [W V]. destruct s as [m n|p c n]; cbn [swf s_len s_cap] in *; subst r.
  - destruct W as (L & Hn & Hok). destruct (le_stack_facts m n L Hok Hn) as (S & LL & _). rewrite S.
    apply mrel_bind with eq_ptr; [now apply alloc_rel|]. intros q q' [<- Hq].
    assert (E : le_load 0 n (m ++ [n]) = mret (take n m)).
    { unfold le_load. rewrite S, nlen_app. destruct (N.ltb_spec (nlen m + nlen [n]) (0 + n)); [rewrite nlen_cons in *; lia|].
      rewrite drop_0. f_equal. destruct (split_at n m) as (a & b & -> & <-); [lia|]. now rewrite <- app_assoc, !take_app_exact. }
    rewrite E. apply mrel_ret_l. eapply mrel_bind; [apply mrel_refl|]. intros [] [] _. apply mrel_ret.
    assert (W' : swf LE_INIT_CAPACITY (Hp q (n + k) n)) by (cbn [swf]; repeat split; auto; lia).
    split; [assumption|]. destruct (le_stk_split m L) as (a & b & c & -> & La & Lb & Lc).
    rewrite <- !app_assoc. rewrite le_set_word_0 by assumption.
    rewrite (le_set_word_at 1 (n + k) (le_octets 8 q) b) by (rewrite ?le_octets_len; auto; reflexivity).
    rewrite !bytes_ok_app in Hok.
    destruct (le_stack_facts (le_octets 8 q ++ le_octets 8 (n + k) ++ c) n) as (_ & LL' & _).
    { rewrite !nlen_app, !le_octets_len, Lc. reflexivity. }
    { rewrite !bytes_ok_app. repeat split; try apply le_octets_ok. tauto. }
    { assumption. }
    rewrite <- !app_assoc in LL'. rewrite LL'. change HEAP_FLAG with (2 ^ 63). rewrite lor_flag by lia.
    rewrite (app_assoc (le_octets 8 q)), <- (app_nil_r (c ++ [n])).
    rewrite le_set_word_at by (rewrite ?nlen_app, ?le_octets_len, ?Lc; reflexivity).
    now rewrite app_nil_r, <- app_assoc.
  - destruct W as (Hp & Hc0 & Hc & Hn). destruct (le_heap_facts p c n Hp Hc Hn) as (S & _ & C & D & _).
    rewrite S, D. apply mrel_bind with eq_ptr; [now apply realloc_rel|]. intros q q' [<- Hq]. apply mrel_ret.
    split; [cbn [swf]; repeat split; auto; lia|].
    rewrite le_set_word_0 by apply le_octets_len.
    rewrite le_set_word_at by (rewrite ?le_octets_len; reflexivity). reflexivity.
Qed.
Lemma le_new_view : le_view le_new (s_new LE_INIT_CAPACITY).
Proof.
  split; [|reflexivity]. cbn [swf s_new]. split; [reflexivity|]. split; [discriminate|]. unfold bytes_ok. repeat constructor.
Qed.
Lemma le_fo_push v r s : v < 256 -> le_view r s -> mrel le_view (le_push v r) (s_push LE_INIT_CAPACITY v s).
Proof.
  intros Hv V. unfold le_push, s_push. rewrite (le_view_len _ _ V), (le_view_cap _ _ V).
  destruct (N.ltb_spec (s_len s) (s_cap LE_INIT_CAPACITY s)) as [H|H]; [|apply mrel_ub].
  unfold s_set_len. destruct (N.ltb_spec (s_cap LE_INIT_CAPACITY s) (s_len s + 1)); [lia|].
  pose proof (le_fo_set_len (s_len s + 1) r s V) as K. unfold s_set_len in K.
  destruct (N.ltb_spec (s_cap LE_INIT_CAPACITY s) (s_len s + 1)); [lia|].
  eapply mrel_bind with (R := fun r1 s1 => le_view r1 s1 /\ s_len s1 = s_len s + 1).
  - intros h. destruct (K h) as (a & -> & HV). exists a. repeat split; auto; try apply HV. now destruct s.
  - intros r1 s1 [V1 L1]. rewrite (le_view_len _ _ V1), L1. destruct (N.ltb_spec (s_len s) (s_len s + 1)); [|lia].
    apply le_fo_store; [|assumption]. apply bytes_ok_cons. split; [assumption | constructor].
Qed.
Lemma s_store_len off src s h s' h' : s_store off src s h = Done s' h' -> s_len s' = s_len s.
Proof.
  destruct s as [m n|p c n]; cbn [s_store].
  - destruct (nlen m <? off + nlen src); [discriminate|]. intros [= <- <-]. reflexivity.
  - unfold mbind. destruct (store p off src h); try discriminate. intros [= <- <-]. reflexivity.
Qed.
Lemma le_fo_extend vals r s : bytes_ok vals -> le_view r s -> mrel le_view (le_extend vals r) (s_extend LE_INIT_CAPACITY vals s).
Proof.
  intros Hv V. unfold le_extend, s_extend. rewrite (le_view_len _ _ V).
  eapply mrel_bind with (R := fun r1 s1 => le_view r1 s1 /\ s_len s1 = s_len s).
  - intros h. pose proof (le_fo_store (s_len s) vals r s Hv V h) as K.
    destruct (s_store (s_len s) vals s h) as [s1 h1| | |] eqn:E; cbn [orel] in *; auto.
    destruct K as (a & -> & HV). exists a. repeat split; auto; try apply HV. now apply s_store_len in E.
  - intros r1 s1 [V1 L1]. rewrite (le_view_len _ _ V1), L1. now apply le_fo_set_len.
Qed.
Lemma le_fo_from_vec v : mrel le_view (le_from_vec v) (s_from_vec LE_INIT_CAPACITY v).
Proof.
  unfold le_from_vec, s_from_vec. destruct (v_cap v =? 0) eqn:E.
  - unfold vec_drop. rewrite E. apply mrel_ret_l, mrel_ret, le_new_view.
  - destruct (N.ltb_spec (v_cap v) (v_len v)); [apply mrel_ub|].
    destruct (N.ltb_spec isize_max (v_cap v)); [apply mrel_ub|].
    destruct (N.leb_spec usize_limit (v_ptr v)); [apply mrel_ub|]. cbn [orb].
    apply mrel_ret. apply N.eqb_neq in E. split; [cbn [swf]; repeat split; auto; lia|].
    assert (isize_max = 2 ^ 63 - 1) as EI by reflexivity. change HEAP_FLAG with (2 ^ 63). now rewrite lor_flag by lia.
Qed.
Lemma le_fo_into_vec al r s : le_view r s -> mrel eq (le_into_vec al r) (s_into_vec al s).
Proof.
  intros V. pose proof (le_fo_load 0 (s_len s) r s V) as K. pose proof (le_view_len _ _ V) as LL.
  destruct V as [W V]. destruct s as [m n|p c n]; cbn [swf s_len s_into_vec] in *; subst r; unfold le_into_vec, le_drop.
  - destruct W as (L & Hn & Hok). destruct (le_stack_facts m n L Hok Hn) as (S & _). rewrite S, LL. cbn [s_load] in K.
    destruct (N.ltb_spec (nlen m) (0 + n)); [lia|]. rewrite drop_0 in K.
    apply (mrel_bind eq eq _ (mret (take n m)) _ (fun x => vec_from_slice al x)); [exact K|].
    intros a b ->. change (mrel eq (v <-- vec_from_slice al b; mret v) (vec_from_slice al b)).
    intros h. unfold mbind, mret. destruct (vec_from_slice al b h) as [x h'| | |]; cbn [orel]; auto. exists x. auto.
  - destruct W as (Hp & Hc0 & Hc & Hn). destruct (le_heap_facts p c n Hp Hc Hn) as (S & _ & _ & D & C).
    rewrite S, D, C, LL. apply mrel_refl.
Qed.
Lemma le_fo_drop r s : le_view r s -> mrel eq (le_drop r) (s_drop s).
Proof.
  intros [W V]. destruct s as [m n|p c n]; cbn [swf s_drop] in *; subst r; unfold le_drop.
  - destruct W as (L & Hn & Hok). destruct (le_stack_facts m n L Hok Hn) as (S & _). rewrite S. apply mrel_refl.
  - destruct W as (Hp & Hc0 & Hc & Hn). destruct (le_heap_facts p c n Hp Hc Hn) as (S & _ & _ & D & C).
    rewrite S, D, C. apply mrel_refl.
Qed.
Lemma octets_ok x : forallb (fun b => b <? 256) x = true <-> bytes_ok x.
Proof. unfold bytes_ok. rewrite forallb_forall, Forall_forall. split; intros H b Hb; specialize (H b Hb); now apply N.ltb_lt. Qed.
Lemma le_fo_clone al r s : good_allocator al -> le_view r s -> mrel le_view (le_clone al r) (s_clone LE_INIT_CAPACITY al s).
Proof.
  intros G V. unfold le_clone, s_clone. rewrite (le_view_len _ _ V).
  apply mrel_bind with le_view; [apply le_fo_reserve; [assumption | exact le_new_view]|]. intros r1 s1 V1.
  apply mrel_bind with eq; [now apply le_fo_load|]. intros x y ->.
  destruct (forallb (fun b => b <? 256) y) eqn:E; [|apply mrel_ub]. apply le_fo_extend; [now apply octets_ok | assumption].
Qed.
Theorem LE_follows : follows good_allocator LE le_view.
Proof.
  constructor; cbn [LE L_raw L_init_cap L_new L_with_capacity L_from_vec L_len L_capacity L_reserve L_set_len L_push L_extend L_load L_store L_clone L_into_vec L_drop].
  - now intros r s [W _].
  - exact le_new_view.
  - exact le_view_len.
  - exact le_view_cap.
  - exact le_fo_set_len.
  - exact le_fo_load.
  - exact le_fo_store.
  - exact le_fo_reserve.
  - intros al k G. apply le_fo_reserve; [assumption | exact le_new_view].
  - exact le_fo_push.
  - exact le_fo_extend.
  - exact le_fo_clone.
  - exact le_fo_from_vec.
  - exact le_fo_into_vec.
  - exact le_fo_drop.
Qed.

(** ** the portable layout *)
Definition ue_view (r : ue_raw) (s : st) : Prop :=
  swf UE_INIT_CAPACITY s /\
  match s with
  | Stk m n => r = {| u_len_ := n; u_union := m |}
  | Hp p c n => r = {| u_len_ := n + 2 ^ 63; u_union := ue_heap_union p c |}
  end.

Lemma ue_value_be l : ue_value l = be_value l.
Proof. reflexivity. Qed.
Lemma ue_value_tail n : n < usize_limit -> ue_value (be_tail 8 n) = n.
Proof. intros H. rewrite ue_value_be, be_tail_value. now apply N.mod_small. Qed.
Lemma ue_union_data p c : p < usize_limit -> ue_value (take 8 (ue_heap_union p c)) = p.
Proof.
  intros H. unfold ue_heap_union. replace 8 with (nlen (be_tail 8 p)) by (apply be_tail_length).
  rewrite take_app_exact. now apply ue_value_tail.
Qed.
Lemma ue_union_cap p c : c < usize_limit -> ue_value (drop 8 (ue_heap_union p c)) = c.
Proof.
  intros H. unfold ue_heap_union. replace 8 with (nlen (be_tail 8 p)) by (apply be_tail_length).
  rewrite drop_app_exact. now apply ue_value_tail.
Qed.
Lemma ue_stack_facts m n : n <= UE_INIT_CAPACITY ->
  let r := {| u_len_ := n; u_union := m |} in
  ue_is_stack r = true /\ ue_len r = n /\ ue_capacity r = UE_INIT_CAPACITY.
Proof.
  intros H. change UE_INIT_CAPACITY with 16 in H. cbv zeta. unfold ue_len, ue_capacity, ue_is_stack. cbn [u_len_].
  change UE_HEAP_FLAG with (2 ^ 63). change UE_LEN_MASK with (2 ^ 63 - 1).
  assert (n < 2 ^ 63) by (change (2 ^ 63) with 0x8000000000000000; lia).
  rewrite land_flag_low, land_mask_low by assumption. auto.
Qed.
Lemma ue_heap_facts p c n : p < usize_limit -> c <= isize_max -> n <= c ->
  let r := {| u_len_ := n + 2 ^ 63; u_union := ue_heap_union p c |} in
  ue_is_stack r = false /\ ue_len r = n /\ ue_capacity r = c /\ ue_data r = p /\ ue_cap_ r = c.
Proof.
  intros Hp Hc Hn. cbv zeta. assert (isize_max = 2 ^ 63 - 1) as EI by reflexivity. assert (usize_limit = 2 ^ 63 + 2 ^ 63) as EU by reflexivity.
  unfold ue_len, ue_capacity, ue_is_stack, ue_data, ue_cap_. cbn [u_len_ u_union].
  change UE_HEAP_FLAG with (2 ^ 63). change UE_LEN_MASK with (2 ^ 63 - 1).
  rewrite land_flag_high, land_mask_high, ue_union_data, ue_union_cap by lia. auto.
Qed.
Lemma ue_view_len r s : ue_view r s -> ue_len r = s_len s.
Proof.
  intros [W V]. destruct s as [m n|p c n]; cbn [swf] in W; subst r.
  - apply ue_stack_facts; tauto.
  - destruct W as (Hp & _ & Hc & Hn). apply ue_heap_facts; assumption.
Qed.
Lemma ue_view_cap r s : ue_view r s -> ue_capacity r = s_cap UE_INIT_CAPACITY s.
Proof.
  intros [W V]. destruct s as [m n|p c n]; cbn [swf] in W; subst r.
  - apply ue_stack_facts; tauto.
  - destruct W as (Hp & _ & Hc & Hn). apply ue_heap_facts; assumption.
Qed.
Lemma ue_fo_set_len n r s : ue_view r s -> mrel ue_view (ue_set_len n r) (s_set_len UE_INIT_CAPACITY n s).
Proof.
  intros V. unfold s_set_len, ue_set_len. rewrite (ue_view_cap _ _ V).
  destruct (N.ltb_spec (s_cap UE_INIT_CAPACITY s) n) as [H|H]; [apply mrel_ub|]. apply mrel_ret.
  destruct V as [W V]. assert (isize_max = 2 ^ 63 - 1) as EI by reflexivity.
  destruct s as [m n0|p c n0]; cbn [s_cap swf] in *; subst r; cbn [u_len_ u_union]; change UE_HEAP_FLAG with (2 ^ 63).
  - destruct W as (L & Hn0 & Hok). split; [cbn [swf]; auto|]. change UE_INIT_CAPACITY with 16 in *.
    rewrite land_flag_low by (change (2 ^ 63) with 0x8000000000000000; lia). now rewrite N.lor_0_l.
  - destruct W as (Hp & Hc0 & Hc & Hn0). split; [cbn [swf]; auto|].
    rewrite land_flag_high, N.lor_comm, lor_flag by lia. reflexivity.
Qed.
Lemma ue_fo_load off n r s : ue_view r s -> mrel eq (ue_load off n r) (s_load off n s).
Proof.
  intros [W V]. destruct s as [m n0|p c n0]; cbn [swf] in *; subst r; unfold ue_load.
  - destruct W as (L & Hn0 & Hok). destruct (ue_stack_facts m n0 Hn0) as (S & _ & _). rewrite S. apply mrel_refl.
  - destruct W as (Hp & Hc0 & Hc & Hn0). destruct (ue_heap_facts p c n0 Hp Hc Hn0) as (S & _ & _ & D & _).
    rewrite S, D. apply mrel_refl.
Qed.
Lemma ue_fo_store off src r s : bytes_ok src -> ue_view r s -> mrel ue_view (ue_store off src r) (s_store off src s).
Proof.
  intros Hsrc [W V]. destruct s as [m n0|p c n0]; cbn [swf] in *; subst r; unfold ue_store.
  - destruct W as (L & Hn0 & Hok). destruct (ue_stack_facts m n0 Hn0) as (S & _ & _). rewrite S.
    cbn [s_store u_union u_len_]. destruct (N.ltb_spec (nlen m) (off + nlen src)) as [H|H]; [apply mrel_ub|].
    apply mrel_ret. split; [|reflexivity]. cbn [swf]. rewrite !nlen_app, nlen_take, nlen_drop, !bytes_ok_app.
    split; [lia|]. repeat split; auto; [now apply bytes_ok_take | now apply bytes_ok_drop].
  - destruct W as (Hp & Hc0 & Hc & Hn0). destruct (ue_heap_facts p c n0 Hp Hc Hn0) as (S & _ & _ & D & _).
    rewrite S, D. cbn [s_store]. eapply mrel_bind; [apply mrel_refl|]. intros [] [] _. apply mrel_ret.
    split; [cbn [swf]; auto | reflexivity].
Qed.
Lemma ue_fo_reserve al k r s : good_allocator al -> ue_view r s ->
  mrel ue_view (ue_reserve al k r) (s_reserve UE_INIT_CAPACITY al k s).
Proof.
  intros G V. unfold ue_reserve, s_reserve. rewrite (ue_view_len _ _ V), (ue_view_cap _ _ V). cbv zeta.
  destruct (N.ltb_spec isize_max (s_len s + k)) as [|H1]; [apply mrel_ub|].
  assert (isize_max = 2 ^ 63 - 1) as EI by reflexivity. assert (usize_limit = 2 ^ 63 + 2 ^ 63) as EU by reflexivity.
  destruct (N.leb_spec usize_limit (s_len s + k)); [lia|].
  destruct (N.leb_spec (s_len s + k) (s_cap UE_INIT_CAPACITY s)) as [|H2]; [now apply mrel_ret|].
  destruct V as [W V]. destruct s as [m n|p c n]; cbn [swf s_len s_cap] in *; subst r.
  - destruct W as (L & Hn & Hok). destruct (ue_stack_facts m n Hn) as (S & LL & _). rewrite S.
    unfold ue_heap_new. destruct (N.eqb_spec (n + k) 0); [lia|].
    eapply (mrel_bind (fun u q => u = ue_heap_union q (n + k) /\ q < usize_limit)).
    { intros h. pose proof (alloc_rel al (n + k) G h) as K. unfold mbind.
      destruct (alloc al (n + k) h) as [a h'| | |]; cbn [orel] in *; auto. destruct K as (x & [= <-] & _ & Hx).
      eexists. split; [reflexivity | auto]. }
    intros u q [-> Hq]. rewrite ue_union_data by assumption.
    assert (E : ue_load 0 n {| u_len_ := n; u_union := m |} = mret (take n m)).
    { unfold ue_load. rewrite S. cbn [u_union]. destruct (N.ltb_spec (nlen m) (0 + n)); [lia|]. now rewrite drop_0. }
    rewrite E. apply mrel_ret_l. eapply mrel_bind; [apply mrel_refl|]. intros [] [] _. apply mrel_ret.
    split; [cbn [swf]; repeat split; auto; lia|]. cbn [u_len_]. change UE_HEAP_FLAG with (2 ^ 63). now rewrite lor_flag by lia.
  - destruct W as (Hp & Hc0 & Hc & Hn). destruct (ue_heap_facts p c n Hp Hc Hn) as (S & _ & _ & D & C).
    rewrite S, D, C. apply mrel_bind with eq_ptr; [now apply realloc_rel|]. intros q q' [<- Hq]. apply mrel_ret.
    split; [cbn [swf]; repeat split; auto; lia|]. reflexivity.
Qed.
Lemma ue_new_view : ue_view ue_new (s_new UE_INIT_CAPACITY).
Proof.
  split; [|reflexivity]. cbn [swf s_new]. split; [reflexivity|]. split; [discriminate|]. unfold bytes_ok. repeat constructor.
Qed.
Lemma ue_fo_with_capacity al k : good_allocator al -> mrel ue_view (ue_with_capacity al k) (s_with_capacity UE_INIT_CAPACITY al k).
Proof.
  intros G. unfold ue_with_capacity, s_with_capacity, s_reserve. cbn [s_len s_cap s_new]. rewrite N.add_0_l.
  destruct (N.ltb_spec isize_max k) as [|H1]; [apply mrel_ub|].
  destruct (N.leb_spec k UE_INIT_CAPACITY) as [|H2]; [apply mrel_ret, ue_new_view|].
  unfold s_new. unfold ue_heap_new. destruct (N.eqb_spec k 0); [lia|]. intros h. unfold mbind, alloc.
  destruct (N.ltb_spec isize_max k); [lia|]. destruct (N.eqb_spec k 0); [lia|].
  destruct (al_pick al h k) as [a|] eqn:E; [|reflexivity]. destruct (G h k a E) as (_ & _ & Ha).
  unfold store. rewrite get_set_eq, !take_0. change (0 + nlen (@nil N)) with 0.
  destruct (N.ltb_spec (nlen (new_octets al h a k)) 0); [lia|]. cbn [app]. rewrite drop_0, set_set. unfold mret. cbn [orel].
  eexists. split; [reflexivity|]. split; [cbn [swf]; repeat split; auto; lia|]. reflexivity.
Qed.
Lemma ue_fo_push v r s : v < 256 -> ue_view r s -> mrel ue_view (ue_push v r) (s_push UE_INIT_CAPACITY v s).
Proof.
  intros Hv V. unfold ue_push, s_push. rewrite (ue_view_len _ _ V), (ue_view_cap _ _ V).
  destruct (N.ltb_spec (s_len s) (s_cap UE_INIT_CAPACITY s)) as [H|H]; [|apply mrel_ub].
  pose proof (ue_fo_set_len (s_len s + 1) r s V) as K. unfold s_set_len in *.
  destruct (N.ltb_spec (s_cap UE_INIT_CAPACITY s) (s_len s + 1)); [lia|].
  eapply mrel_bind with (R := fun r1 s1 => ue_view r1 s1 /\ s_len s1 = s_len s + 1).
  - intros h. destruct (K h) as (a & -> & HV). exists a. repeat split; auto; try apply HV. now destruct s.
  - intros r1 s1 [V1 L1]. rewrite (ue_view_len _ _ V1), L1. destruct (N.ltb_spec (s_len s) (s_len s + 1)); [|lia].
    apply ue_fo_store; [|assumption]. apply bytes_ok_cons. split; [assumption | constructor].
Qed.
Lemma ue_fo_extend vals r s : bytes_ok vals -> ue_view r s -> mrel ue_view (ue_extend vals r) (s_extend UE_INIT_CAPACITY vals s).
Proof.
  intros Hv V. unfold ue_extend, s_extend. rewrite (ue_view_len _ _ V).
  eapply mrel_bind with (R := fun r1 s1 => ue_view r1 s1 /\ s_len s1 = s_len s).
  - intros h. pose proof (ue_fo_store (s_len s) vals r s Hv V h) as K.
    destruct (s_store (s_len s) vals s h) as [s1 h1| | |] eqn:E; cbn [orel] in *; auto.
    destruct K as (a & -> & HV). exists a. repeat split; auto; try apply HV. now apply s_store_len in E.
  - intros r1 s1 [V1 L1]. rewrite (ue_view_len _ _ V1), L1. now apply ue_fo_set_len.
Qed.
Lemma ue_fo_from_vec v : mrel ue_view (ue_from_vec v) (s_from_vec UE_INIT_CAPACITY v).
Proof.
  unfold ue_from_vec, s_from_vec. destruct (v_cap v =? 0) eqn:E.
  - unfold vec_drop. rewrite E. apply mrel_ret_l, mrel_ret, ue_new_view.
  - destruct (N.ltb_spec (v_cap v) (v_len v)); [apply mrel_ub|].
    destruct (N.ltb_spec isize_max (v_cap v)); [apply mrel_ub|].
    destruct (N.leb_spec usize_limit (v_ptr v)); [apply mrel_ub|]. cbn [orb].
    apply mrel_ret. apply N.eqb_neq in E. split; [cbn [swf]; repeat split; auto; lia|].
    assert (isize_max = 2 ^ 63 - 1) as EI by reflexivity. change UE_HEAP_FLAG with (2 ^ 63). now rewrite lor_flag by lia.
Qed.
Lemma ue_fo_into_vec al r s : ue_view r s -> mrel eq (ue_into_vec al r) (s_into_vec al s).
Proof.
  intros V. pose proof (ue_fo_load 0 (s_len s) r s V) as K. pose proof (ue_view_len _ _ V) as LL.
  destruct V as [W V]. destruct s as [m n|p c n]; cbn [swf s_len s_into_vec] in *; subst r; unfold ue_into_vec, ue_drop.
  - destruct W as (L & Hn & Hok). destruct (ue_stack_facts m n Hn) as (S & _). rewrite S, LL. cbn [s_load] in K.
    destruct (N.ltb_spec (nlen m) (0 + n)); [lia|]. rewrite drop_0 in K.
    apply (mrel_bind eq eq _ (mret (take n m)) _ (fun x => vec_from_slice al x)); [exact K|].
    intros a b ->. change (mrel eq (v <-- vec_from_slice al b; mret v) (vec_from_slice al b)).
    intros h. unfold mbind, mret. destruct (vec_from_slice al b h) as [x h'| | |]; cbn [orel]; auto. exists x. auto.
  - destruct W as (Hp & Hc0 & Hc & Hn). destruct (ue_heap_facts p c n Hp Hc Hn) as (S & _ & C & D & _).
    rewrite S, D, C, LL. apply mrel_refl.
Qed.
Lemma ue_fo_drop r s : ue_view r s -> mrel eq (ue_drop r) (s_drop s).
Proof.
  intros [W V]. destruct s as [m n|p c n]; cbn [swf s_drop] in *; subst r; unfold ue_drop.
  - destruct W as (L & Hn & Hok). destruct (ue_stack_facts m n Hn) as (S & _). rewrite S. apply mrel_refl.
  - destruct W as (Hp & Hc0 & Hc & Hn). destruct (ue_heap_facts p c n Hp Hc Hn) as (S & _ & _ & D & C).
    rewrite S, D, C. apply mrel_refl.
Qed.
Lemma ue_fo_clone al r s : good_allocator al -> ue_view r s -> mrel ue_view (ue_clone al r) (s_clone UE_INIT_CAPACITY al s).
Proof.
  intros G V. unfold ue_clone, s_clone. rewrite (ue_view_len _ _ V).
  apply mrel_bind with ue_view; [now apply ue_fo_with_capacity|]. intros r1 s1 V1.
  apply mrel_bind with eq; [now apply ue_fo_load|]. intros x y ->.
  destruct (forallb (fun b => b <? 256) y) eqn:E; [|apply mrel_ub]. apply ue_fo_extend; [now apply octets_ok | assumption].
Qed.
Theorem UE_follows : follows good_allocator UE ue_view.
Proof.
  constructor; cbn [UE L_raw L_init_cap L_new L_with_capacity L_from_vec L_len L_capacity L_reserve L_set_len L_push L_extend L_load L_store L_clone L_into_vec L_drop].
  - now intros r s [W _].
  - exact ue_new_view.
  - exact ue_view_len.
  - exact ue_view_cap.
  - exact ue_fo_set_len.
  - exact ue_fo_load.
  - exact ue_fo_store.
  - exact ue_fo_reserve.
  - exact ue_fo_with_capacity.
  - exact ue_fo_push.
  - exact ue_fo_extend.
  - exact ue_fo_clone.
  - exact ue_fo_from_vec.
  - exact ue_fo_into_vec.
  - exact ue_fo_drop.
Qed.
