(** The octets of the serde specification against those of the model: lengths, values,
    integers, UTF-8. *)
From Verif Require Import Base ModelIo ModelTag ModelContents ModelTlv ModelSerde Spec SpecSerde.
From Verif Require Import TagProofs IdProofs TagMain ContentsProofs TlvProofs BufProofs TlvMain.

(** ** Length octets *)
Lemma size_nat_size n : N.of_nat (N.size_nat n) = N.size n.
Proof.
  destruct n as [|p]; [reflexivity|]. cbn [N.size_nat N.size].
  induction p as [p IH|p IH|]; [| |reflexivity]; cbn [Pos.size_nat Pos.size]; rewrite Nat2N.inj_succ, IH; reflexivity.
Qed.
Lemma be_digits_from_spec fuel : forall n acc, n < 2 ^ N.of_nat fuel ->
  exists ds, be_digits_from fuel n acc = ds ++ acc /\ bytes_ok ds /\ be_value ds = n /\
    (n <> 0 -> exists d ds', ds = d :: ds' /\ d <> 0).
Proof.
  induction fuel as [|fuel IH]; intros n acc H.
  - change (2 ^ N.of_nat 0) with 1 in H. exists []. replace n with 0 by lia. cbn. repeat split; try constructor. lia.
  - cbn [be_digits_from]. destruct (N.eqb_spec n 0) as [->|N0].
    + exists []. repeat split; try constructor. lia.
    + destruct (IH (n / 256) (n mod 256 :: acc)) as (ds & E & Hok & V & L).
      { replace (N.of_nat (S fuel)) with (1 + N.of_nat fuel) in H by lia.
        rewrite N.pow_add_r in H. change (2 ^ 1) with 2 in H. lia. }
      exists (ds ++ [n mod 256]). rewrite E, <- app_assoc. split; [reflexivity|].
      split; [apply bytes_ok_app; split; [assumption | apply bytes_ok_cons; split; [lia | constructor]]|].
      split; [rewrite be_value_snoc, V; lia|]. intros _.
      destruct (N.eq_dec (n / 256) 0) as [Z|NZ].
      * destruct ds as [|d ds].
        -- exists (n mod 256), []. split; [reflexivity|lia].
        -- exfalso. rewrite Z in E. replace (be_digits_from fuel 0 (n mod 256 :: acc)) with (n mod 256 :: acc) in E by now destruct fuel.
           apply (f_equal (@length N)) in E. rewrite app_length in E. cbn [length] in E. lia.
      * destruct (L NZ) as (d & ds' & -> & D0). exists d, (ds' ++ [n mod 256]). now split.
Qed.
Lemma be_digits_spec n : bytes_ok (be_digits n) /\ be_value (be_digits n) = n /\
  (n <> 0 -> exists d ds', be_digits n = d :: ds' /\ d <> 0).
Proof.
  destruct (be_digits_from_spec (N.size_nat n) n []) as (ds & E & R).
  - rewrite size_nat_size. apply N.size_gt.
  - unfold be_digits. rewrite E, app_nil_r. exact R.
Qed.
Lemma length_octets_minimal n : n < 2 ^ 64 -> minimal_length n (length_octets n).
Proof.
  intros H. unfold length_octets. destruct (N.ltb_spec n 128); [now constructor|].
  destruct (be_digits_spec n) as (Hok & V & L). destruct (L ltac:(lia)) as (d & ds & E & D0).
  rewrite E in *. apply ml_long; try assumption.
  assert (byte_len n = nlen (d :: ds)) as <- by (rewrite <- V; now apply be_value_byte_len).
  assert (byte_len n <= 8) by (apply byte_len_le; [exact H | lia]). lia.
Qed.
Lemma length_octets_eq n : n < 2 ^ 64 -> Length_to_bytes (Definite n) = length_octets n.
Proof.
  intros H. apply (minimal_length_fun n); [now apply Length_to_bytes_minimal | now apply length_octets_minimal].
Qed.
Lemma length_octets_len n : n < 2 ^ 64 -> nlen (length_octets n) = Length_len (Definite n).
Proof.
  intros H. rewrite <- length_octets_eq by assumption. apply Length_to_bytes_len. intros m E. now inversion E; subst.
Qed.
Lemma length_octets_ok n : n < 2 ^ 64 -> bytes_ok (length_octets n).
Proof. intros H. eapply minimal_length_ok. now apply length_octets_minimal. Qed.
Lemma length_octets_small n : n < 2 ^ 64 -> 1 <= nlen (length_octets n) <= 9.
Proof.
  intros H. rewrite length_octets_len by assumption. unfold Length_len, LEN_MAX_SHORT, LEN_LONG_FLAG.
  destruct (N.leb_spec n (0x80 - 1)); [lia|].
  assert (byte_len n <= 8) by (apply byte_len_le; [exact H | lia]). lia.
Qed.

(** ** One value *)
Lemma tlv_der id c : is_identifier id -> nlen c < 2 ^ 64 -> der_tlv id c (tlv id c).
Proof. intros I H. unfold tlv. rewrite <- length_octets_eq by assumption. now apply der_tlv_make. Qed.
Lemma tlv_len id c : nlen (tlv id c) = nlen id + nlen (length_octets (nlen c)) + nlen c.
Proof. unfold tlv. rewrite !nlen_app. lia. Qed.
Lemma der_tlv_eq id c bs : der_tlv id c bs -> bs = tlv id c.
Proof.
  intros H. eapply der_tlv_fun; [eassumption|]. apply tlv_der; [eapply der_tlv_id | eapply der_tlv_lt]; eassumption.
Qed.
Lemma tlv_ok id c : is_identifier id -> nlen c < 2 ^ 64 -> bytes_ok c -> bytes_ok (tlv id c).
Proof. intros I H B. apply (der_tlv_ok id c); [now apply tlv_der | assumption]. Qed.

(** ** Integers *)
Lemma be_fixed_tail k : forall n, be_fixed k n = be_tail k n.
Proof. induction k as [|k IH]; intros n; [reflexivity|]. cbn [be_fixed be_tail]. now rewrite IH. Qed.
Section Width.
Local Open Scope Z_scope.
(** The size of the magnitude. *)
Definition mag (z : Z) : Z := if z <? 0 then - z - 1 else z.
Lemma mag_nonneg z : 0 <= mag z.
Proof. unfold mag. destruct (Z.ltb_spec z 0); lia. Qed.
Lemma mag_lt z b : 0 <= b -> (mag z < b <-> - b <= z < b).
Proof. intros H. unfold mag. destruct (Z.ltb_spec z 0); lia. Qed.
Lemma int_width_eq z : Z.of_nat (int_width z) = (Z.log2 (mag z) + 1) / 8 + 1.
Proof.
  unfold int_width. fold (mag z). pose proof (Z.log2_nonneg (mag z)). rewrite Z2Nat.id; lia.
Qed.
Lemma int_width_pos z : (1 <= int_width z)%nat.
Proof. pose proof (int_width_eq z). pose proof (Z.log2_nonneg (mag z)). lia. Qed.
Lemma pow2_8 k : 0 < k -> 256 ^ k = 2 * 2 ^ (8 * k - 1).
Proof.
  intros H. change 256 with (2 ^ 8). rewrite <- Z.pow_mul_r by lia.
  replace (8 * k) with (1 + (8 * k - 1)) at 1 by lia. rewrite Z.pow_add_r by lia. reflexivity.
Qed.
Lemma int_width_holds z : - 256 ^ Z.of_nat (int_width z) <= 2 * z < 256 ^ Z.of_nat (int_width z).
Proof.
  pose proof (int_width_eq z) as W. pose proof (Z.log2_nonneg (mag z)) as L0.
  pose proof (mag_nonneg z) as M0. pose proof (int_width_pos z).
  assert (mag z < 2 ^ (8 * Z.of_nat (int_width z) - 1)) as M.
  { apply Z.lt_le_trans with (2 ^ (Z.log2 (mag z) + 1)).
    - destruct (Z.eq_dec (mag z) 0) as [->|NZ]; [reflexivity|]. apply Z.log2_spec. lia.
    - apply Z.pow_le_mono_r; lia. }
  rewrite pow2_8 by lia. apply mag_lt in M; [|apply Z.pow_nonneg; lia]. lia.
Qed.
Lemma int_width_least z k : (1 <= k)%nat -> - 256 ^ Z.of_nat k <= 2 * z < 256 ^ Z.of_nat k -> (int_width z <= k)%nat.
Proof.
  intros K. rewrite pow2_8 by lia. intros H. pose proof (int_width_eq z) as W. pose proof (mag_nonneg z) as M0.
  assert (mag z < 2 ^ (8 * Z.of_nat k - 1)) as M by (apply mag_lt; [apply Z.pow_nonneg|]; lia).
  assert (Z.log2 (mag z) < 8 * Z.of_nat k - 1).
  { destruct (Z.eq_dec (mag z) 0) as [->|NZ]; [change (Z.log2 0) with 0; lia|]. apply Z.log2_lt_pow2; lia. }
  lia.
Qed.
Lemma int_octets_len z : nlen (int_octets z) = N.of_nat (int_width z).
Proof. unfold int_octets. cbv zeta. rewrite be_fixed_tail. apply be_tail_length. Qed.
Lemma int_octets_ok z : bytes_ok (int_octets z).
Proof. unfold int_octets. cbv zeta. rewrite be_fixed_tail. apply be_tail_ok. Qed.
Lemma int_octets_value z : twos_value (int_octets z) = z.
Proof.
  unfold int_octets. cbv zeta. rewrite be_fixed_tail. pose proof (int_width_pos z) as P. pose proof (int_width_holds z) as H.
  destruct (int_width z) as [|k]; [lia|].
  set (u := Z.to_N (z mod 256 ^ Z.of_nat (S k))).
  assert (0 < 256 ^ Z.of_nat (S k)) as P0 by (apply pow256_pos; lia).
  pose proof (Z.mod_pos_bound z _ P0) as MB.
  assert (Z.of_N u = z mod 256 ^ Z.of_nat (S k)) as U by (unfold u; rewrite Z2N.id; lia).
  pose proof (be_tail_value (S k) u) as V. pose proof (be_tail_length (S k) u) as L.
  rewrite be_tail_S in *. rewrite twos_cons. unfold zbe, zlen. rewrite V, L.
  rewrite N2Z.inj_mod, N2Z.inj_pow, U. rewrite nat_N_Z. change (Z.of_N 256) with 256. rewrite Z.mod_mod by lia.
  assert (256 ^ Z.of_nat (S k) = 256 * 256 ^ Z.of_nat k) as PS
    by (replace (Z.of_nat (S k)) with (1 + Z.of_nat k) by lia; apply pow256_S; lia).
  assert (0 < 256 ^ Z.of_nat k) as Pk by (apply pow256_pos; lia).
  assert (Z.of_N (u / 256 ^ N.of_nat k mod 256) = (z mod 256 ^ Z.of_nat (S k)) / 256 ^ Z.of_nat k) as HD.
  { rewrite N2Z.inj_mod, N2Z.inj_div, N2Z.inj_pow, U, nat_N_Z. change (Z.of_N 256) with 256. apply Z.mod_small.
    split; [apply Z.div_pos; lia | apply Z.div_lt_upper_bound; lia]. }
  set (hb := (u / 256 ^ N.of_nat k mod 256)%N) in *.
  assert (z mod 256 ^ Z.of_nat (S k) = if z <? 0 then z + 256 ^ Z.of_nat (S k) else z) as MZ.
  { destruct (Z.ltb_spec z 0).
    - symmetry. apply Z.mod_unique with (-1); [left|]; lia.
    - apply Z.mod_small; lia. }
  rewrite MZ in *. destruct (Z.ltb_spec z 0); destruct (N.ltb_spec hb 128); try lia; exfalso.
  - assert ((z + 256 ^ Z.of_nat (S k)) / 256 ^ Z.of_nat k < 128) as Q by lia.
    assert (128 <= (z + 256 ^ Z.of_nat (S k)) / 256 ^ Z.of_nat k) by (apply Z.div_le_lower_bound; lia). lia.
  - assert (z / 256 ^ Z.of_nat k < 128) by (apply Z.div_lt_upper_bound; lia). lia.
Qed.
Lemma int_octets_shortest z : shortest_twos (int_octets z).
Proof.
  pose proof (int_octets_len z) as L. pose proof (int_width_pos z).
  split; [intros E; rewrite E in L; change (nlen (@nil N)) with 0%N in L; lia|].
  intros bs' Hok N0 E. rewrite int_octets_value in E. pose proof (twos_bounds bs' Hok N0) as B. rewrite E in B.
  assert (nlen bs' = N.of_nat (length bs')) as LB by reflexivity.
  assert (1 <= length bs')%nat by (destruct bs'; cbn; [congruence | lia]).
  unfold zlen in B. rewrite LB, nat_N_Z in B. apply int_width_least in B; lia.
Qed.
Lemma int_octets_unique bs : bytes_ok bs -> shortest_twos bs -> bs = int_octets (twos_value bs).
Proof.
  intros Hok S. apply shortest_unique; auto using int_octets_ok, int_octets_shortest. now rewrite int_octets_value.
Qed.
Lemma from_int_octets t v : in_range t v -> Contents_from_int t v = Ok (int_octets v).
Proof.
  intros R. destruct (from_int_spec t v R) as (bs & E & Hok & S & V). rewrite E. f_equal.
  rewrite <- V. now apply int_octets_unique.
Qed.
Lemma to_integer_octets t v : in_range t v -> to_integer t (int_octets v) = Ok v.
Proof.
  intros R. apply to_integer_iff; [apply int_octets_ok|].
  split; [apply int_octets_shortest | split; [apply int_octets_value | assumption]].
Qed.
Lemma int_width_unique z k : (1 <= k)%nat -> - 256 ^ Z.of_nat k <= 2 * z < 256 ^ Z.of_nat k ->
  (k = 1%nat \/ 256 ^ Z.of_nat (k - 1) <= 2 * z \/ 2 * z < - 256 ^ Z.of_nat (k - 1)) -> int_width z = k.
Proof.
  intros K H O. pose proof (int_width_least z k K H) as L. pose proof (int_width_pos z) as P.
  destruct O as [->|O]; [lia|]. destruct (Nat.eq_dec (int_width z) k) as [|NE]; [assumption|exfalso].
  pose proof (int_width_holds z) as W.
  assert (256 ^ Z.of_nat (int_width z) <= 256 ^ Z.of_nat (k - 1)) by (apply Z.pow_le_mono_r; lia). lia.
Qed.
Lemma size_log2 n : (0 < n)%N -> N.size n = (N.log2 n + 1)%N.
Proof. intros H. rewrite N.size_log2 by lia. lia. Qed.
Lemma bit_width_width m : 0 <= m -> Z.of_N ((N.size (Z.to_N m) + 8) / 8) = (Z.log2 m + 1) / 8 + 1.
Proof.
  intros H. destruct (Z.eq_dec m 0) as [->|NZ]; [reflexivity|].
  rewrite size_log2 by lia. assert (Z.of_N (N.log2 (Z.to_N m)) = Z.log2 m) as E.
  { destruct m as [|p|p]; [reflexivity | destruct p; reflexivity | lia]. }
  lia.
Qed.
Lemma int_contents_len_eq t v : in_range t v -> int_contents_len t v = nlen (int_octets v).
Proof.
  intros R. rewrite int_octets_len.
  assert (forall m, 0 <= m -> mag v = m -> (N.size (Z.to_N m) <= int_bits t)%N ->
    ((int_bits t + 8 - (int_bits t - N.size (Z.to_N m))) / 8)%N = N.of_nat (int_width v)) as W.
  { intros m M0 M S. replace (int_bits t + 8 - (int_bits t - N.size (Z.to_N m)))%N with (N.size (Z.to_N m) + 8)%N by lia.
    pose proof (bit_width_width m M0) as B. pose proof (int_width_eq v) as W. rewrite M in W. lia. }
  assert (forall m, 0 <= m < int_mod t -> (N.size (Z.to_N m) <= int_bits t)%N) as SZ.
  { intros m M. destruct (Z.eq_dec m 0) as [->|NZ]; [apply N.le_0_l|]. rewrite size_log2 by lia.
    assert (N.log2 (Z.to_N m) < int_bits t)%N; [|lia]. apply N.log2_lt_pow2; [lia|].
    unfold int_mod in M. unfold int_bits. rewrite N.pow_mul_r. change (2 ^ 8)%N with 256%N.
    assert (Z.of_N (256 ^ N.of_nat (int_size t)) = 256 ^ Z.of_nat (int_size t)) by (rewrite N2Z.inj_pow, nat_N_Z; reflexivity).
    lia. }
  apply in_range_bounds in R. pose proof (int_mod_pos t) as IM.
  destruct t; cbn [int_contents_len int_signed] in *;
    try (apply W; [lia | unfold mag; destruct (Z.ltb_spec v 0); lia | apply SZ; lia]);
    try (destruct (Z.ltb_spec v 0); (apply W; [lia | unfold mag; destruct (Z.ltb_spec v 0); lia | apply SZ; lia])).
  - rewrite (int_width_unique v 1); [reflexivity|lia| |now left]. exact R.
  - change (int_mod U8) with 256 in R. destruct (Z.leb_spec v 127).
    + rewrite (int_width_unique v 1); [reflexivity|lia| |now left]. change (256 ^ Z.of_nat 1) with 256. lia.
    + rewrite (int_width_unique v 2); [reflexivity|lia| |right; left].
      * change (256 ^ Z.of_nat 2) with 65536. lia.
      * change (256 ^ Z.of_nat (2 - 1)) with 256. lia.
  - change (int_mod I16) with 65536 in R. destruct (Z.leb_spec (-128) v); destruct (Z.leb_spec v 127); cbn [andb];
      first [ rewrite (int_width_unique v 1); [reflexivity|lia| |now left]; change (256 ^ Z.of_nat 1) with 256; lia
            | rewrite (int_width_unique v 2); [reflexivity|lia| |right];
              [change (256 ^ Z.of_nat 2) with 65536 | change (256 ^ Z.of_nat (2 - 1)) with 256]; lia ].
  - change (int_mod U16) with 65536 in R. destruct (Z.leb_spec v 127); [|destruct (Z.leb_spec v 32767)].
    + rewrite (int_width_unique v 1); [reflexivity|lia| |now left]. change (256 ^ Z.of_nat 1) with 256. lia.
    + rewrite (int_width_unique v 2); [reflexivity|lia| |right; left].
      * change (256 ^ Z.of_nat 2) with 65536. lia.
      * change (256 ^ Z.of_nat (2 - 1)) with 256. lia.
    + rewrite (int_width_unique v 3); [reflexivity|lia| |right; left].
      * change (256 ^ Z.of_nat 3) with 16777216. lia.
      * change (256 ^ Z.of_nat (3 - 1)) with 65536. lia.
Qed.
End Width.

(** ** UTF-8 *)
Lemma utf8_step c : scalar c -> forall fuel t, utf8_valid_from (S fuel) (utf8_encode c ++ t) = utf8_valid_from fuel t.
Proof.
  unfold scalar. intros H fuel t. unfold utf8_encode.
  destruct (N.ltb_spec c 0x80).
  { cbn [app utf8_valid_from]. rewrite (proj2 (N.ltb_lt _ _)) by assumption. reflexivity. }
  destruct (N.ltb_spec c 0x800).
  { cbn [app utf8_valid_from]. unfold between, is_cont.
    rewrite (proj2 (N.ltb_ge _ _)) by lia. rewrite !(proj2 (N.leb_le _ _)) by lia. reflexivity. }
  destruct (N.ltb_spec c 0x10000).
  { cbn [app utf8_valid_from].
    replace (0xe0 + c / 4096 <? 0x80) with false by (symmetry; apply N.ltb_ge; lia).
    replace (between 0xc2 0xdf (0xe0 + c / 4096)) with false
      by (symmetry; unfold between; apply andb_false_iff; right; apply N.leb_gt; lia).
    replace (is_cont (0x80 + c mod 64)) with true
      by (symmetry; unfold is_cont; apply andb_true_iff; split; apply N.leb_le; lia).
    cbn [andb].
    match goal with |- (if ?b then _ else _) = _ => assert (b = true) as -> end; [|reflexivity].
    unfold between, is_cont. rewrite !orb_true_iff, !andb_true_iff, !N.leb_le, !N.eqb_eq. lia. }
  cbn [app utf8_valid_from].
  replace (0xf0 + c / 262144 <? 0x80) with false by (symmetry; apply N.ltb_ge; lia).
  replace (between 0xc2 0xdf (0xf0 + c / 262144)) with false
    by (symmetry; unfold between; apply andb_false_iff; right; apply N.leb_gt; lia).
  match goal with |- (if ?b then _ else _) = _ => assert (b = false) as -> end.
  { unfold between. rewrite !orb_false_iff, !andb_false_iff, !N.leb_gt, !N.eqb_neq. lia. }
  match goal with |- ?b && _ && _ && _ = _ => assert (b = true) as -> end.
  { unfold between, is_cont. rewrite !orb_true_iff, !andb_true_iff, !N.leb_le, !N.eqb_eq. lia. }
  replace (is_cont (0x80 + c / 64 mod 64)) with true
    by (symmetry; unfold is_cont; apply andb_true_iff; split; apply N.leb_le; lia).
  replace (is_cont (0x80 + c mod 64)) with true
    by (symmetry; unfold is_cont; apply andb_true_iff; split; apply N.leb_le; lia).
  reflexivity.
Qed.
Lemma utf8_encode_ok c : scalar c -> bytes_ok (utf8_encode c) /\ (1 <= length (utf8_encode c))%nat.
Proof.
  unfold scalar, utf8_encode. intros H.
  destruct (N.ltb_spec c 0x80); [|destruct (N.ltb_spec c 0x800); [|destruct (N.ltb_spec c 0x10000)]];
    (split; [repeat (apply bytes_ok_cons; split; [lia|]); constructor | cbn [length]; lia]).
Qed.
Lemma is_utf8_ok bs : is_utf8 bs -> bytes_ok bs.
Proof.
  intros (cs & S & ->). induction S as [|c cs S _ IH]; [constructor|]. cbn [map concat].
  apply bytes_ok_app. split; [now apply utf8_encode_ok | assumption].
Qed.
Lemma is_utf8_cons c t : scalar c -> is_utf8 t -> is_utf8 (utf8_encode c ++ t).
Proof. intros S (cs & F & ->). exists (c :: cs). split; [now constructor | reflexivity]. Qed.
Lemma utf8_complete bs : is_utf8 bs -> forall fuel, (length bs < fuel)%nat -> utf8_valid_from fuel bs = true.
Proof.
  intros (cs & S & ->). induction S as [|c cs S _ IH]; intros fuel L.
  - destruct fuel; [cbn in L; lia | reflexivity].
  - cbn [map concat] in *. rewrite app_length in L. pose proof (utf8_encode_ok c S) as [_ P].
    destruct fuel as [|fuel]; [lia|]. rewrite utf8_step by assumption. apply IH. lia.
Qed.
Lemma utf8_sound fuel : forall bs, utf8_valid_from fuel bs = true -> is_utf8 bs.
Proof.
  induction fuel as [|fuel IH]; intros bs H; [discriminate|].
  assert (forall c e t, scalar c -> utf8_encode c = e -> utf8_valid_from fuel t = true -> is_utf8 (e ++ t)) as K.
  { intros c e t S <- V. apply is_utf8_cons; auto. }
  destruct bs as [|b0 t0]; [exists []; split; [constructor | reflexivity]|].
  cbn [utf8_valid_from] in H. destruct (N.ltb_spec b0 0x80) as [L0|L0].
  { apply (K b0 [b0]); auto; [unfold scalar; lia|]. unfold utf8_encode. now rewrite (proj2 (N.ltb_lt _ _)). }
  destruct t0 as [|b1 t1]; [discriminate|]. unfold between, is_cont in H.
  destruct ((0xc2 <=? b0) && (b0 <=? 0xdf)) eqn:C2.
  { apply andb_true_iff in C2 as [A B]. apply N.leb_le in A, B.
    rewrite !andb_true_iff, !N.leb_le in H. destruct H as [[C D] H].
    apply (K ((b0 - 0xc0) * 64 + (b1 - 0x80)) [b0; b1]); auto; [unfold scalar; lia|].
    unfold utf8_encode.
    rewrite (proj2 (N.ltb_ge _ _)) by lia. rewrite (proj2 (N.ltb_lt _ _)) by lia.
    repeat f_equal; lia. }
  destruct t1 as [|b2 t2]; [discriminate|].
  match type of H with (if ?b then _ else _) = _ => destruct b eqn:C3 end.
  { rewrite !orb_true_iff, !andb_true_iff, !N.leb_le, !N.eqb_eq in C3.
    rewrite !andb_true_iff, !N.leb_le in H. destruct H as [[C D] H]. clear C2.
    apply (K ((b0 - 0xe0) * 4096 + (b1 - 0x80) * 64 + (b2 - 0x80)) [b0; b1; b2]); auto; [unfold scalar; lia|].
    unfold utf8_encode.
    rewrite (proj2 (N.ltb_ge _ _)) by lia. rewrite (proj2 (N.ltb_ge _ _)) by lia. rewrite (proj2 (N.ltb_lt _ _)) by lia.
    repeat f_equal; lia. }
  destruct t2 as [|b3 t3]; [discriminate|]. clear C2 C3.
  rewrite !andb_true_iff, !orb_true_iff, !andb_true_iff, !N.leb_le, !N.eqb_eq in H.
  destruct H as [[[A B] C] H].
  apply (K ((b0 - 0xf0) * 262144 + (b1 - 0x80) * 4096 + (b2 - 0x80) * 64 + (b3 - 0x80)) [b0; b1; b2; b3]); auto; [unfold scalar; lia|].
  unfold utf8_encode.
  rewrite (proj2 (N.ltb_ge _ _)) by lia. rewrite (proj2 (N.ltb_ge _ _)) by lia. rewrite (proj2 (N.ltb_ge _ _)) by lia.
  repeat f_equal; lia.
Qed.
Lemma utf8_valid_iff bs : utf8_valid bs = true <-> is_utf8 bs.
Proof.
  split; [apply utf8_sound|]. intros H. apply utf8_complete; [assumption | lia].
Qed.
