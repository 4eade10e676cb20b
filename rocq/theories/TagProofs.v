(** Lemmas about length and identifier octets. *)
From Verif Require Import Base ModelIo ModelTag Spec.

(** ** Octet facts, by sweeping all 256 octets *)
Ltac sweep P :=
  let H := fresh in
  assert (H : forallb P all_bytes = true) by (vm_compute; reflexivity);
  let b := fresh "b" in let Hb := fresh "Hb" in
  intros b Hb; generalize (byte_sweep P H b Hb); clear H; cbv beta.

Lemma land_80 : forall b, b < 256 -> (N.land b 0x80 =? 0x80) = (128 <=? b).
Proof.
  sweep (fun b => Bool.eqb (N.land b 0x80 =? 0x80) (128 <=? b)). apply eqb_prop.
Qed.
Lemma lxor_80 : forall b, b < 256 -> 128 <= b -> N.lxor b 0x80 = b - 128.
Proof.
  sweep (fun b => negb (128 <=? b) || (N.lxor b 0x80 =? b - 128)).
  destruct (N.leb_spec 128 b); simpl; intros E ?; [now apply N.eqb_eq | lia].
Qed.
Lemma land_1f : forall b, b < 256 -> N.land b 0x1f = b mod 32.
Proof. sweep (fun b => N.land b 0x1f =? b mod 32). apply N.eqb_eq. Qed.
Lemma land_7f : forall b, b < 256 -> N.land b 0x7f = b mod 128.
Proof. sweep (fun b => N.land b 0x7f =? b mod 128). apply N.eqb_eq. Qed.
Lemma land_c0 : forall b, b < 256 -> N.land b 0xc0 = b / 64 * 64.
Proof. sweep (fun b => N.land b 0xc0 =? b / 64 * 64). apply N.eqb_eq. Qed.
Lemma land_20 : forall b, b < 256 -> N.land b 0x20 = b / 32 mod 2 * 32.
Proof. sweep (fun b => N.land b 0x20 =? b / 32 mod 2 * 32). apply N.eqb_eq. Qed.
Lemma lor_80 : forall b, b < 256 -> N.lor b 0x80 = 128 + b mod 128.
Proof. sweep (fun b => N.lor b 0x80 =? 128 + b mod 128). apply N.eqb_eq. Qed.

(** ** be_value *)
Lemma be_value_acc ds a :
  fold_left (fun a d => a * 256 + d) ds a = a * 256 ^ nlen ds + be_value ds.
Proof.
  unfold be_value. revert a. induction ds as [|d ds IH]; intros a; simpl.
  - rewrite nlen_nil. lia.
  - rewrite IH, (IH (0 * 256 + d)), nlen_cons, N.pow_add_r, N.pow_1_r.
    generalize (256 ^ nlen ds). intros. lia.
Qed.
Lemma be_value_cons d ds : be_value (d :: ds) = d * 256 ^ nlen ds + be_value ds.
Proof. unfold be_value at 1. simpl fold_left. apply be_value_acc. Qed.
Lemma be_value_snoc ds d : be_value (ds ++ [d]) = be_value ds * 256 + d.
Proof. unfold be_value. rewrite fold_left_app. reflexivity. Qed.
Lemma be_value_app a b : be_value (a ++ b) = be_value a * 256 ^ nlen b + be_value b.
Proof. unfold be_value at 1. rewrite fold_left_app. apply be_value_acc. Qed.
Lemma be_value_bound ds : bytes_ok ds -> be_value ds < 256 ^ nlen ds.
Proof.
  induction ds as [|d ds IH]; intros H.
  - reflexivity.
  - apply bytes_ok_cons in H as [Hd H]. rewrite be_value_cons, nlen_cons, N.pow_add_r, N.pow_1_r.
    specialize (IH H). nia.
Qed.
Lemma be_tail_length k n : nlen (be_tail k n) = N.of_nat k.
Proof.
  revert n. induction k as [|k IH]; intros n; simpl be_tail; [reflexivity|].
  rewrite nlen_app, IH, nlen_cons, nlen_nil. lia.
Qed.
Lemma be_tail_ok k n : bytes_ok (be_tail k n).
Proof.
  revert n. induction k as [|k IH]; intros n; simpl be_tail; [constructor|].
  apply bytes_ok_app. split; [apply IH|]. apply bytes_ok_cons. split; [lia | constructor].
Qed.
Lemma be_tail_value k n : be_value (be_tail k n) = n mod 256 ^ N.of_nat k.
Proof.
  revert n. induction k as [|k IH]; intros n; simpl be_tail.
  - rewrite N.pow_0_r, N.mod_1_r. reflexivity.
  - rewrite be_value_snoc, IH.
    replace (N.of_nat (S k)) with (1 + N.of_nat k) by lia.
    rewrite N.pow_add_r, N.pow_1_r, N.mod_mul_r by (try apply N.pow_nonzero; lia). lia.
Qed.
Lemma be_tail_S k n : be_tail (S k) n = (n / 256 ^ N.of_nat k) mod 256 :: be_tail k n.
Proof.
  revert n. induction k as [|k IH]; intros n.
  - simpl be_tail. rewrite N.pow_0_r, N.div_1_r. reflexivity.
  - change (be_tail (S (S k)) n) with (be_tail (S k) (n / 256) ++ [n mod 256]).
    rewrite IH. rewrite N.div_div by (try apply N.pow_nonzero; lia).
    change (be_tail (S k) n) with (be_tail k (n / 256) ++ [n mod 256]).
    replace (N.of_nat (S k)) with (1 + N.of_nat k) by lia.
    now rewrite N.pow_add_r, N.pow_1_r.
Qed.
Lemma be_tail_of_value ds : bytes_ok ds -> be_tail (length ds) (be_value ds) = ds.
Proof.
  induction ds as [|d ds IH] using rev_ind; intros H; [reflexivity|].
  apply bytes_ok_app in H as [H Hd]. apply bytes_ok_cons in Hd as [Hd _].
  rewrite app_length, Nat.add_1_r. simpl be_tail. rewrite be_value_snoc.
  replace ((be_value ds * 256 + d) / 256) with (be_value ds) by lia.
  replace ((be_value ds * 256 + d) mod 256) with d by lia.
  now rewrite IH.
Qed.

(** byte_len *)
Lemma size_bounds n : 0 < n -> 2 ^ (N.size n - 1) <= n < 2 ^ N.size n.
Proof.
  intros H. rewrite N.size_log2 by lia.
  replace (N.succ (N.log2 n) - 1) with (N.log2 n) by lia.
  apply N.log2_spec. lia.
Qed.
Lemma pow256 k : 256 ^ k = 2 ^ (8 * k).
Proof. change 256 with (2 ^ 8). now rewrite <- N.pow_mul_r. Qed.
Lemma byte_len_bounds n : 0 < n -> 0 < byte_len n /\ 256 ^ (byte_len n - 1) <= n < 256 ^ byte_len n.
Proof.
  intros H. pose proof (size_bounds n H) as [H1 H2].
  assert (Hs : 0 < N.size n) by (destruct n; [lia | unfold N.size; lia]).
  unfold byte_len. rewrite !pow256. split; [lia|]. split.
  - eapply N.le_trans; [|exact H1]. apply N.pow_le_mono_r; lia.
  - eapply N.lt_le_trans; [exact H2|]. apply N.pow_le_mono_r; lia.
Qed.
Lemma byte_len_unique n k : 0 < k -> 256 ^ (k - 1) <= n < 256 ^ k -> byte_len n = k.
Proof.
  intros Hk [H1 H2].
  assert (H0 : 0 < n).
  { eapply N.lt_le_trans; [|exact H1]. apply N.neq_0_lt_0, N.pow_nonzero. lia. }
  destruct (byte_len_bounds n H0) as (Hb & H3 & H4).
  destruct (N.lt_trichotomy (byte_len n) k) as [L|[E|G]]; [|exact E|]; exfalso.
  - assert (256 ^ byte_len n <= 256 ^ (k - 1)) by (apply N.pow_le_mono_r; lia). lia.
  - assert (256 ^ k <= 256 ^ (byte_len n - 1)) by (apply N.pow_le_mono_r; lia). lia.
Qed.
Lemma byte_len_le n k : n < 256 ^ k -> 0 < n -> byte_len n <= k.
Proof.
  intros H H0. destruct (byte_len_bounds n H0) as (Hb & H3 & H4).
  destruct (N.le_gt_cases (byte_len n) k); [assumption|exfalso].
  assert (256 ^ k <= 256 ^ (byte_len n - 1)) by (apply N.pow_le_mono_r; lia). lia.
Qed.

(** ** Slice reader *)
Lemma take1_cons {A} (x : A) l : take 1 (x :: l) = [x].
Proof. reflexivity. Qed.
Lemma drop1_cons {A} (x : A) l : drop 1 (x :: l) = l.
Proof. reflexivity. Qed.
Lemma read_u8_cons b s w : read_u8 slice_reader (b :: s, w) = (Ok b, (s, w)).
Proof. reflexivity. Qed.
Lemma read_u8_nil w : read_u8 slice_reader ([], w) = (Err UnterminatedBytes, ([], w)).
Proof. reflexivity. Qed.

(** ** parse_length on a slice *)
Lemma parse_length_loop_slice k ds len s w :
  bytes_ok ds -> length ds = k -> len < 256 ^ (8 - N.of_nat k) -> N.of_nat k <= 8 ->
  parse_length_loop slice_reader k len (ds ++ s, w) =
  (Ok (Definite (len * 256 ^ nlen ds + be_value ds)), (s, w ++ ds)).
Proof.
  revert ds len w. induction k as [|k IH]; intros ds len w Hok Hl Hb Hk; destruct ds as [|d ds];
    try discriminate.
  - simpl. rewrite nlen_nil, N.pow_0_r, app_nil_r. unfold pret. do 3 f_equal. unfold be_value. simpl. lia.
  - simpl app. simpl parse_length_loop. unfold pbind at 1. rewrite read_u8_cons.
    unfold pbind at 1. simpl write_u8.
    apply bytes_ok_cons in Hok as [Hd Hok]. injection Hl as Hl.
    assert (Hlt : len * 256 < usize_limit).
    { unfold usize_limit. replace (2 ^ 64) with (256 ^ (7 + 1)) by reflexivity.
      rewrite N.pow_add_r, N.pow_1_r.
      assert (256 ^ (8 - N.of_nat (S k)) <= 256 ^ 7) by (apply N.pow_le_mono_r; lia). nia. }
    rewrite N.shiftl_mul_pow2. change (2 ^ 8) with 256. rewrite (N.mod_small _ _ Hlt).
    rewrite IH; try assumption; try lia.
    + rewrite <- app_assoc. simpl app. do 3 f_equal.
      rewrite be_value_cons, nlen_cons, N.pow_add_r, N.pow_1_r. lia.
    + replace (8 - N.of_nat k) with (8 - N.of_nat (S k) + 1) by lia.
      rewrite N.pow_add_r, N.pow_1_r. lia.
Qed.

Lemma parse_length_loop_short k ds len w :
  (length ds < k)%nat ->
  exists w', parse_length_loop slice_reader k len (ds, w) = (Err UnterminatedBytes, ([], w')).
Proof.
  revert ds len w. induction k as [|k IH]; intros ds len w Hl; [lia|].
  simpl parse_length_loop. unfold pbind at 1. destruct ds as [|d ds].
  - rewrite read_u8_nil. eauto.
  - rewrite read_u8_cons. unfold pbind at 1. simpl write_u8. apply IH. simpl in Hl. lia.
Qed.

(** What parse_length does on a slice, in one relation. *)
Inductive len_outcome (bs : list N) : res Length * (list N * list N) -> Prop :=
| lo_indef rest : bs = 0x80 :: rest -> len_outcome bs (Ok Indefinite, (rest, [0x80]))
| lo_def n l rest : minimal_length n l -> n < 2 ^ 64 -> bs = l ++ rest ->
    len_outcome bs (Ok (Definite n), (rest, l))
| lo_err e st : length_error bs e -> len_outcome bs (Err e, st).

Lemma parse_length_slice bs :
  bytes_ok bs -> len_outcome bs (parse_length slice_reader (bs, [])).
Proof.
  intros Hok. unfold parse_length, pbind. destruct bs as [|f bs].
  { rewrite read_u8_nil. constructor. constructor. }
  apply bytes_ok_cons in Hok as [Hf Hok].
  rewrite read_u8_cons. simpl write_u8. cbv iota.
  destruct (f =? LEN_INDEFINITE) eqn:E1.
  { apply N.eqb_eq in E1. subst f. apply lo_indef. reflexivity. }
  apply N.eqb_neq in E1. unfold LEN_INDEFINITE, LEN_LONG_FLAG in *.
  rewrite land_80 by assumption.
  destruct (N.leb_spec 128 f) as [Hf2|Hf2]; cbn [negb]; cbv beta iota.
  2:{ unfold pret. apply lo_def with (l := [f]); [constructor; lia | lia | reflexivity]. }
  destruct bs as [|s bs].
  { rewrite read_u8_nil. constructor. constructor. lia. }
  apply bytes_ok_cons in Hok as [Hs Hok].
  rewrite read_u8_cons.
  destruct (N.eqb_spec s 0) as [->|Hs0].
  { constructor. constructor. lia. }
  cbv beta iota. unfold write_u8 at 1. cbv beta iota.
  rewrite lxor_80 by assumption.
  unfold LEN_MAX_SHORT, LEN_LONG_FLAG.
  destruct ((f - 128 =? 1) && (s <=? 0x80 - 1)) eqn:E2.
  { apply andb_true_iff in E2 as [E2 E3].
    constructor. apply le_short_would_do; lia. }
  destruct (N.ltb_spec 8 (f - 128)) as [Hc|Hc].
  { constructor. constructor; lia. }
  set (k := N.to_nat (f - 128 - 1)).
  destruct (Nat.lt_ge_cases (length bs) k) as [Hl|Hl].
  { destruct (parse_length_loop_short k bs s ([f] ++ [s]) Hl) as [w' ->].
    constructor. subst k.
    rewrite andb_false_iff in E2. apply le_truncated; [|assumption|].
    - assert (f - 128 <> 1); [|lia]. intro. assert ((length bs < 0)%nat) by lia. lia.
    - rewrite nlen_cons. change (nlen bs) with (N.of_nat (length bs)). lia. }
  rewrite <- (firstn_skipn k bs) in Hok |- *.
  apply bytes_ok_app in Hok as [Hok1 Hok2].
  set (ds := firstn k bs) in *. set (r := skipn k bs) in *.
  assert (Hdl : length ds = k) by (subst ds; rewrite firstn_length; lia).
  assert (Hkn : N.of_nat k = f - 129) by lia.
  rewrite parse_length_loop_slice; try assumption.
  2:{ rewrite Hkn. eapply N.lt_le_trans; [exact Hs|].
      change 256 with (256 ^ 1) at 1. apply N.pow_le_mono_r; lia. }
  2: lia.
  assert (Hnl : nlen ds = f - 129) by (rewrite nlen_length, Hdl; exact Hkn).
  assert (Hall : bytes_ok (s :: ds)) by (apply bytes_ok_cons; auto).
  apply lo_def.
  - rewrite <- be_value_cons. simpl app.
    replace f with (128 + nlen (s :: ds)) at 1 by (rewrite nlen_cons; lia).
    apply ml_long; auto.
    + rewrite be_value_cons, Hnl.
      destruct (N.eq_dec (f - 128) 1) as [E1'|E1'].
      * assert (128 <= s) by (rewrite andb_false_iff in E2; lia).
        replace (f - 129) with 0 by lia. rewrite N.pow_0_r. lia.
      * assert (256 ^ 1 <= 256 ^ (f - 129)) by (apply N.pow_le_mono_r; lia).
        rewrite N.pow_1_r in *. nia.
    + rewrite nlen_cons. lia.
  - rewrite <- be_value_cons.
    eapply N.lt_le_trans; [apply be_value_bound; assumption|].
    change (2 ^ 64) with (256 ^ 8). apply N.pow_le_mono_r; [lia|]. rewrite nlen_cons. lia.
  - reflexivity.
Qed.

(** ** Determinism of the specification of lengths *)
Lemma app_len_inj {A} (a b r s : list A) : nlen a = nlen b -> a ++ r = b ++ s -> a = b /\ r = s.
Proof.
  rewrite !nlen_length. intros Hl. assert (H : length a = length b) by lia. clear Hl.
  revert b H. induction a as [|x a IH]; intros [|y b] H E; try discriminate; simpl in *.
  - auto.
  - injection E as -> E. injection H as H. destruct (IH b H E) as [-> ->]. auto.
Qed.

Lemma minimal_length_prefix n l n' l' r r' :
  minimal_length n l -> minimal_length n' l' -> l ++ r = l' ++ r' -> n = n' /\ l = l' /\ r = r'.
Proof.
  intros H H' E. destruct H as [n Hn|n d ds Hn Hok Hd Hv Hl], H' as [n' Hn'|n' d' ds' Hn' Hok' Hd' Hv' Hl'];
    cbn [app] in E; apply cons_inj in E as [E1 E].
  - subst; auto.
  - exfalso; lia.
  - exfalso; lia.
  - assert (nlen (d :: ds) = nlen (d' :: ds')) by lia.
    destruct (app_len_inj (d :: ds) (d' :: ds') r r') as [E2 ->]; auto.
    rewrite <- E2 in *. split; [congruence|]. split; auto.
Qed.

Lemma be_value_byte_len d ds :
  bytes_ok (d :: ds) -> d <> 0 -> byte_len (be_value (d :: ds)) = nlen (d :: ds).
Proof.
  intros Hx Hx0. apply byte_len_unique; [rewrite nlen_cons; lia|]. split.
  - rewrite be_value_cons, nlen_cons. replace (1 + nlen ds - 1) with (nlen ds) by lia. nia.
  - now apply be_value_bound.
Qed.

Lemma be_value_inj l l' : bytes_ok l -> bytes_ok l' -> nlen l = nlen l' -> be_value l = be_value l' -> l = l'.
Proof.
  intros Hl Hl' E V. rewrite <- (be_tail_of_value l), <- (be_tail_of_value l') by assumption.
  rewrite V. f_equal. rewrite !nlen_length in E. lia.
Qed.

Lemma minimal_length_fun n l l' : minimal_length n l -> minimal_length n l' -> l = l'.
Proof.
  intros H H'. destruct H as [n Hn|n d ds Hn Hok Hd Hv Hl].
  - inversion H' as [? Hn'|? d' ds' Hn' Hok' Hd' Hv' Hl']; [reflexivity | lia].
  - inversion H' as [? Hn'|? d' ds' Hn' Hok' Hd' Hv' Hl']; [lia|].
    assert (E : nlen (d :: ds) = nlen (d' :: ds')).
    { rewrite <- be_value_byte_len, <- be_value_byte_len by assumption. congruence. }
    f_equal; [congruence|]. apply be_value_inj; auto. congruence.
Qed.

Lemma minimal_length_not_error n l r e : n < 2 ^ 64 -> minimal_length n l -> ~ length_error (l ++ r) e.
Proof.
  intros Hn64 H HE. destruct H as [n Hn|n d ds Hn Hok Hd Hv Hl]; cbn [app] in HE.
  - inversion HE; subst; lia.
  - assert (Hn8 : nlen (d :: ds) <= 8).
    { destruct (N.le_gt_cases (nlen (d :: ds)) 8) as [|G]; [assumption|exfalso].
      rewrite be_value_cons in Hv. rewrite nlen_cons in G.
      assert (256 ^ 8 <= 256 ^ nlen ds) by (apply N.pow_le_mono_r; lia).
      change (256 ^ 8) with (2 ^ 64) in *. nia. }
    inversion HE; subst; try lia.
    + assert (E1 : nlen (d :: ds) = 1) by lia. rewrite nlen_cons in E1.
      assert (ds = []) by (apply nlen_zero; lia). subst ds.
      unfold be_value in Hn. simpl in Hn. lia.
    + rewrite ?nlen_cons, ?nlen_app in *. lia.
Qed.

Lemma minimal_length_not_indef n l r r' : minimal_length n l -> l ++ r <> 0x80 :: r'.
Proof.
  intros H E. destruct H as [n Hn|n d ds Hn Hok Hd Hv Hl]; cbn [app] in E; apply cons_inj in E as [E1 E].
  - lia.
  - rewrite nlen_cons in E1. lia.
Qed.

Lemma indef_not_error r e : ~ length_error (0x80 :: r) e.
Proof. intros H. inversion H; subst; lia. Qed.

Lemma length_error_fun bs e e' : length_error bs e -> length_error bs e' -> e = e'.
Proof. intros H H'. destruct H; inversion H'; subst; try reflexivity; try lia; rewrite ?nlen_cons in *; lia. Qed.

(** ** Framing: what was written before does not matter, writes are appended. *)
Definition framed {S A} (m : parser S A) : Prop :=
  forall s w, m (s, w) = let '(r, (s', w')) := m (s, []) in (r, (s', w ++ w')).

Lemma framed_ret {S A} (a : A) : framed (S := S) (pret a).
Proof. intros s w. simpl. now rewrite app_nil_r. Qed.
Lemma framed_fail {S A} e : framed (S := S) (A := A) (pfail e).
Proof. intros s w. simpl. now rewrite app_nil_r. Qed.
Lemma framed_panic {S A} : framed (S := S) (A := A) ppanic.
Proof. intros s w. simpl. now rewrite app_nil_r. Qed.
Lemma framed_write {S} b : framed (S := S) (write_u8 b).
Proof. intros s w. reflexivity. Qed.
Lemma framed_read {S} (R : reader S) : framed (read_u8 R).
Proof.
  intros s w. unfold read_u8. destruct (rd_read R s 1) as [[bs|k] s']; [destruct bs as [|b [|? ?]]|];
    now rewrite app_nil_r.
Qed.
Lemma framed_bind {S A B} (m : parser S A) (k : A -> parser S B) :
  framed m -> (forall a, framed (k a)) -> framed (pbind m k).
Proof.
  intros Hm Hk s w. unfold pbind. rewrite (Hm s w). destruct (m (s, [])) as [r [s' w']].
  destruct r; try reflexivity.
  rewrite (Hk a s' (w ++ w')), (Hk a s' w'). destruct (k a (s', [])) as [r' [s'' w'']].
  now rewrite app_assoc.
Qed.
Lemma framed_if {S A} (b : bool) (m m' : parser S A) : framed m -> framed m' -> framed (if b then m else m').
Proof. now destruct b. Qed.
Lemma framed_id_loop {S} (R : reader S) fuel : forall i o, framed (parse_id_loop R fuel i o).
Proof.
  induction fuel as [|fuel IH]; intros i o; simpl.
  - intros s w. now rewrite app_nil_r.
  - apply framed_bind; [apply framed_write|]. intros _. apply framed_if; [apply framed_ret|].
    apply framed_bind; [apply framed_read|]. intros. apply IH.
Qed.
Lemma framed_parse_id {S} (R : reader S) fuel : framed (parse_id R fuel).
Proof.
  apply framed_bind; [apply framed_read|]. intros f. apply framed_bind; [apply framed_write|]. intros _.
  apply framed_if; [apply framed_ret|]. apply framed_bind; [apply framed_read|]. intros o.
  apply framed_if; [apply framed_fail|]. apply framed_if; [apply framed_fail|]. apply framed_id_loop.
Qed.
Lemma framed_len_loop {S} (R : reader S) k : forall len, framed (parse_length_loop R k len).
Proof.
  induction k as [|k IH]; intros len; simpl; [apply framed_ret|].
  apply framed_bind; [apply framed_read|]. intros b. apply framed_bind; [apply framed_write|].
  intros _. apply IH.
Qed.
Lemma framed_parse_length {S} (R : reader S) : framed (parse_length R).
Proof.
  apply framed_bind; [apply framed_read|]. intros f. apply framed_bind; [apply framed_write|]. intros _.
  apply framed_if; [apply framed_ret|]. apply framed_if; [apply framed_ret|].
  apply framed_bind; [apply framed_read|]. intros o. apply framed_if; [apply framed_fail|].
  apply framed_bind; [apply framed_write|]. intros _. cbv zeta.
  apply framed_if; [apply framed_fail|]. apply framed_if; [apply framed_fail|]. apply framed_len_loop.
Qed.

(** ** Exact behaviour of parse_length on slices *)
Lemma parse_length_definite n l rest w :
  bytes_ok (l ++ rest) -> minimal_length n l -> n < 2 ^ 64 ->
  parse_length slice_reader (l ++ rest, w) = (Ok (Definite n), (rest, w ++ l)).
Proof.
  intros Hok H Hn. rewrite framed_parse_length.
  pose proof (parse_length_slice _ Hok) as O.
  destruct (parse_length slice_reader (l ++ rest, [])) as [r [s' w']].
  inversion O; subst.
  - exfalso. eapply minimal_length_not_indef; eauto.
  - destruct (minimal_length_prefix n l n0 w' rest s') as (-> & -> & ->); auto.
  - exfalso. eapply minimal_length_not_error; eauto.
Qed.
Lemma parse_length_indefinite rest w :
  parse_length slice_reader (0x80 :: rest, w) = (Ok Indefinite, (rest, w ++ [0x80])).
Proof. reflexivity. Qed.
Lemma parse_length_error bs e w :
  bytes_ok bs -> length_error bs e ->
  exists st, parse_length slice_reader (bs, w) = (Err e, st).
Proof.
  intros Hok H. rewrite framed_parse_length.
  pose proof (parse_length_slice _ Hok) as O.
  destruct (parse_length slice_reader (bs, [])) as [r [s' w']].
  inversion O; subst.
  - exfalso. eapply indef_not_error; eauto.
  - exfalso. eapply minimal_length_not_error; eauto.
  - replace e0 with e by (eapply length_error_fun; eauto). eauto.
Qed.

(** ** to_bytes *)
Lemma Length_to_bytes_minimal n : n < 2 ^ 64 -> minimal_length n (Length_to_bytes (Definite n)).
Proof.
  intros Hn. unfold Length_to_bytes, LEN_MAX_SHORT, LEN_LONG_FLAG.
  destruct (N.leb_spec n (0x80 - 1)) as [H|H].
  - unfold as_u8. rewrite N.mod_small by lia. constructor. lia.
  - assert (H0 : 0 < n) by lia.
    destruct (byte_len_bounds n H0) as (Hb & H1 & H2).
    assert (Hle : byte_len n <= 8) by (apply byte_len_le; [exact Hn | lia]).
    unfold as_u8. rewrite N.mod_small by lia.
    destruct (N.to_nat (byte_len n)) as [|k] eqn:Ek; [lia|].
    rewrite be_tail_S.
    assert (Hk : N.of_nat k = byte_len n - 1) by lia.
    assert (Hpk : 0 < 256 ^ N.of_nat k) by (apply N.neq_0_lt_0, N.pow_nonzero; lia).
    assert (HkS : 256 ^ byte_len n = 256 * 256 ^ N.of_nat k).
    { rewrite <- N.pow_succ_r'. f_equal. lia. }
    assert (Hd : n / 256 ^ N.of_nat k < 256).
    { apply N.div_lt_upper_bound; lia. }
    assert (Hd1 : 1 <= n / 256 ^ N.of_nat k).
    { apply N.div_le_lower_bound; [lia|]. rewrite Hk. lia. }
    rewrite (N.mod_small _ 256) by exact Hd.
    replace (128 + byte_len n) with (128 + nlen (n / 256 ^ N.of_nat k :: be_tail k n))
      by (rewrite nlen_cons, be_tail_length; lia).
    apply ml_long.
    + lia.
    + apply bytes_ok_cons. split; [exact Hd | apply be_tail_ok].
    + lia.
    + rewrite be_value_cons, be_tail_value, be_tail_length.
      rewrite (N.mul_comm (n / _)). symmetry. apply N.div_mod. lia.
    + rewrite nlen_cons, be_tail_length. lia.
Qed.

Lemma minimal_length_ok n l : minimal_length n l -> bytes_ok l.
Proof.
  intros H. destruct H as [n Hn|n d ds Hn Hok Hd Hv Hl].
  - apply bytes_ok_cons. split; [lia | constructor].
  - apply bytes_ok_cons. split; [lia | assumption].
Qed.

Lemma Length_to_bytes_len l : (forall n, l = Definite n -> n < 2 ^ 64) -> nlen (Length_to_bytes l) = Length_len l.
Proof.
  intros _. destruct l as [|n]; [reflexivity|]. unfold Length_to_bytes, Length_len.
  destruct (n <=? LEN_MAX_SHORT); [reflexivity|].
  rewrite nlen_cons, be_tail_length. lia.
Qed.

Lemma Length_to_bytes_nonempty l : Length_to_bytes l <> [].
Proof.
  destruct l as [|n]; simpl; [discriminate|]. destruct (n <=? LEN_MAX_SHORT); discriminate.
Qed.

(** parse_length_unchecked on well-formed octets *)
Lemma plu_fold ds a :
  bytes_ok ds -> a * 256 ^ nlen ds + be_value ds < 2 ^ 64 ->
  fold_left (fun acc b => N.shiftl acc 8 mod usize_limit + b) ds a = a * 256 ^ nlen ds + be_value ds.
Proof.
  revert a. induction ds as [|d ds IH]; intros a Hok Hb.
  - rewrite nlen_nil. unfold be_value. simpl. lia.
  - apply bytes_ok_cons in Hok as [Hd Hok]. rewrite be_value_cons, nlen_cons, N.pow_add_r, N.pow_1_r in *.
    assert (Hp : 0 < 256 ^ nlen ds) by (apply N.neq_0_lt_0, N.pow_nonzero; lia).
    simpl fold_left. rewrite N.shiftl_mul_pow2. change (2 ^ 8) with 256.
    rewrite N.mod_small by (unfold usize_limit; nia).
    rewrite IH; [lia | assumption | lia].
Qed.
Lemma parse_length_unchecked_definite n l rest :
  minimal_length n l -> n < 2 ^ 64 -> parse_length_unchecked (l ++ rest) = Ok (Definite n, rest).
Proof.
  intros H Hn64. destruct H as [n Hn|n d ds Hn Hok Hd Hv Hl].
  - simpl. unfold LEN_INDEFINITE, LEN_LONG_FLAG. rewrite land_80 by lia.
    destruct (N.eqb_spec n 0x80); [lia|]. destruct (N.leb_spec 128 n); [lia|]. reflexivity.
  - set (D := d :: ds) in *. unfold parse_length_unchecked. simpl app.
    assert (1 <= nlen D) by (unfold D; rewrite nlen_cons; lia).
    unfold LEN_INDEFINITE, LEN_LONG_FLAG. rewrite land_80 by lia.
    destruct (N.eqb_spec (128 + nlen D) 0x80); [lia|].
    destruct (N.leb_spec 128 (128 + nlen D)); [|lia]. cbn [negb].
    change (not_u8 0x80) with 0x7f. rewrite land_7f by lia.
    replace ((128 + nlen D) mod 128) with (nlen D) by lia.
    cbv zeta. change (d :: ds ++ rest) with (D ++ rest).
    destruct (N.ltb_spec (nlen (D ++ rest)) (nlen D)) as [L|L]; [rewrite nlen_app in L; lia|].
    rewrite take_app_exact, drop_app_exact, plu_fold; auto.
    + do 3 f_equal. lia.
    + lia.
Qed.
Lemma parse_length_unchecked_indefinite rest : parse_length_unchecked (0x80 :: rest) = Ok (Indefinite, rest).
Proof. reflexivity. Qed.
