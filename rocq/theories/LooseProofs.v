(** Values made of any octets: proofs. *)
From Coq Require Import Lia.
From Verif Require Import Base ModelIo ModelTag ModelContents ModelBuf ModelTlv ModelHeap ModelTlvRaw ModelRelease Spec SpecBuf SpecTlv SpecLoose ModelLoose
  TagProofs IdProofs BufProofs RawMain RawTlv RelProofs ConvProofs.

(** ** Reading *)
Lemma id_scan_inv bs : forall i j, bytes_ok bs -> id_scan bs i = Ok j ->
  exists more last rest, bs = more ++ last :: rest /\ Forall (fun x => 128 <= x) more /\ last < 128 /\ j = i + nlen more.
Proof.
  induction bs as [|b bs IH]; intros i j Ok_ E; [discriminate|]. apply bytes_ok_cons in Ok_ as [Hb Ok_].
  cbn [id_scan] in E. unfold MORE_FLAG in E. rewrite land_80 in E by assumption. destruct (N.leb_spec 128 b) as [H|H]; cbn [negb] in E.
  - destruct (IH _ _ Ok_ E) as (more & last & rest & -> & F & Hl & ->). exists (b :: more), last, rest. rewrite nlen_cons.
    split; [reflexivity|]. split; [now constructor|]. split; [assumption | lia].
  - injection E as <-. exists [], b, bs. rewrite nlen_nil. split; [reflexivity|]. split; [constructor|]. split; [assumption | lia].
Qed.
Lemma id_scan_at more : forall last rest i, Forall (fun x => 128 <= x) more -> bytes_ok more -> last < 128 ->
  id_scan (more ++ last :: rest) i = Ok (i + nlen more).
Proof.
  induction more as [|b more IH]; intros last rest i F B Hl; cbn [app id_scan]; unfold MORE_FLAG.
  - rewrite land_80 by lia. destruct (N.leb_spec 128 last); [lia|]. cbn [negb]. f_equal. rewrite nlen_nil. lia.
  - inversion F; subst. apply bytes_ok_cons in B as [Hb B]. rewrite land_80 by assumption. destruct (N.leb_spec 128 b); [|lia]. cbn [negb].
    rewrite IH by assumption. f_equal. rewrite nlen_cons. lia.
Qed.
Lemma id_reads bs id rest : bytes_ok bs -> parse_id_unchecked bs = Ok (id, rest) -> bs = id ++ rest /\ loose_id id.
Proof.
  unfold parse_id_unchecked. destruct bs as [|b bs]; [discriminate|]. intros B. apply bytes_ok_cons in B as [Hb B].
  unfold ID_LONG_FLAG. rewrite land_1f by assumption. destruct (N.eqb_spec (b mod 32) 0x1f) as [H|H]; cbn [negb].
  - destruct (id_scan bs 1) as [i| | |] eqn:E; try discriminate. cbn [rbind]. intros [= <- <-].
    destruct (id_scan_inv _ _ _ B E) as (more & last & t & -> & F & Hl & ->).
    replace (b :: more ++ last :: t) with ((b :: more ++ [last]) ++ t) by (cbn [app]; now rewrite <- app_assoc).
    replace (1 + nlen more + 1) with (nlen (b :: more ++ [last])) by (rewrite nlen_cons, nlen_app, nlen_cons, nlen_nil; lia).
    rewrite take_app_exact, drop_app_exact. split; [reflexivity | now constructor].
  - intros [= <- <-]. split; [reflexivity | now constructor].
Qed.
Lemma id_back id rest : loose_id id -> bytes_ok id -> parse_id_unchecked (id ++ rest) = Ok (id, rest).
Proof.
  intros [b H|b more last H F Hl] B; unfold parse_id_unchecked; cbn [app]; apply bytes_ok_cons in B as [Hb B]; unfold ID_LONG_FLAG; rewrite land_1f by assumption.
  - destruct (N.eqb_spec (b mod 32) 0x1f); [contradiction | reflexivity].
  - destruct (N.eqb_spec (b mod 32) 0x1f); [|contradiction]. cbn [negb]. apply bytes_ok_app in B as [B _].
    rewrite <- app_assoc. cbn [app]. rewrite id_scan_at by assumption. cbn [rbind].
    replace (b :: more ++ last :: rest) with ((b :: more ++ [last]) ++ rest) by (cbn [app]; now rewrite <- app_assoc).
    replace (1 + nlen more + 1) with (nlen (b :: more ++ [last])) by (rewrite nlen_cons, nlen_app, nlen_cons, nlen_nil; lia).
    now rewrite take_app_exact, drop_app_exact.
Qed.
Lemma wrap_fold ds : forall a, a < usize_limit -> bytes_ok ds ->
  fold_left (fun acc b => N.shiftl acc 8 mod usize_limit + b) ds a = (a * 256 ^ nlen ds + be_value ds) mod usize_limit.
Proof.
  induction ds as [|d ds IH]; intros a Ha B; cbn [fold_left].
  - rewrite nlen_nil. change (be_value []) with 0. rewrite N.pow_0_r, N.mul_1_r, N.add_0_r. symmetry. now apply N.mod_small.
  - apply bytes_ok_cons in B as [Hd B]. rewrite N.shiftl_mul_pow2. change (2 ^ 8) with 256.
    assert (Q : a * 256 mod usize_limit + d = (a * 256 + d) mod usize_limit).
    { change usize_limit with (2 ^ 56 * 256). rewrite N.mul_mod_distr_r by discriminate.
      assert (a mod 2 ^ 56 < 2 ^ 56) by (apply N.mod_lt; discriminate).
      pose proof (N.div_mod a (2 ^ 56) ltac:(discriminate)) as D.
      apply (N.mod_unique _ _ (a / 2 ^ 56)); nia. }
    rewrite Q, IH by (assumption || (apply N.mod_lt; discriminate)). rewrite be_value_cons, nlen_cons, N.pow_add_r, N.pow_1_r.
    rewrite N.add_mod, N.mul_mod_idemp_l, <- N.add_mod by discriminate. f_equal. lia.
Qed.
Lemma length_reads bs l rest : bytes_ok bs -> parse_length_unchecked bs = Ok (l, rest) ->
  exists q, bs = q ++ rest /\ loose_length q (Length_definite l).
Proof.
  unfold parse_length_unchecked. destruct bs as [|f bs]; [discriminate|]. intros B. apply bytes_ok_cons in B as [Hf B].
  unfold LEN_INDEFINITE, LEN_LONG_FLAG. rewrite land_80 by assumption. destruct (N.eqb_spec f 0x80) as [->|H].
  - intros [= <- <-]. exists [128]. split; [reflexivity | constructor].
  - destruct (N.leb_spec 128 f) as [H'|H']; cbn [negb].
    + change (not_u8 0x80) with 0x7f. rewrite land_7f by assumption. cbv zeta. set (k := f mod 128).
      assert (Ek : f = 128 + k) by (unfold k; lia). assert (Hk : 0 < k <= 127) by (unfold k in *; lia). clearbody k.
      destruct (N.ltb_spec (nlen bs) k); [discriminate|]. intros [= <- <-]. exists (f :: take k bs). cbn [app]. rewrite take_drop. split; [reflexivity|].
      cbn [Length_definite]. rewrite wrap_fold by (reflexivity || now apply bytes_ok_take). rewrite N.mul_0_l, N.add_0_l.
      assert (K : nlen (take k bs) = k) by (rewrite nlen_take; lia).
      rewrite Ek, <- K at 1. apply lo_long; [|lia]. intros X. rewrite X, nlen_nil in K. lia.
    + intros [= <- <-]. exists [f]. split; [reflexivity | now constructor].
Qed.
Lemma length_back q n rest : loose_length q n -> bytes_ok q -> exists l, parse_length_unchecked (q ++ rest) = Ok (l, rest) /\ Length_definite l = n.
Proof.
  intros [m H| |ds H K] B.
  - exists (Definite m). split; [|reflexivity]. apply parse_length_unchecked_definite; [now constructor | lia].
  - exists Indefinite. split; reflexivity.
  - assert (1 <= nlen ds) by (destruct ds; [contradiction|]; rewrite nlen_cons; lia). apply bytes_ok_cons in B as [_ B].
    eexists. split; [|shelve]. unfold parse_length_unchecked. cbn [app]. unfold LEN_INDEFINITE, LEN_LONG_FLAG. rewrite land_80 by lia.
    destruct (N.eqb_spec (128 + nlen ds) 0x80); [lia|]. destruct (N.leb_spec 128 (128 + nlen ds)); [|lia]. cbn [negb].
    change (not_u8 0x80) with 0x7f. rewrite land_7f by lia. replace ((128 + nlen ds) mod 128) with (nlen ds) by lia. cbv zeta.
    destruct (N.ltb_spec (nlen (ds ++ rest)) (nlen ds)) as [X|_]; [rewrite nlen_app in X; lia|].
    rewrite take_app_exact, drop_app_exact. rewrite wrap_fold by (reflexivity || assumption). rewrite N.mul_0_l, N.add_0_l. reflexivity.
    Unshelve. reflexivity.
Qed.
(** What disassemble takes a value to be. *)
Lemma dis_reads bs id l c : bytes_ok bs -> disassemble bs = Ok (id, l, c) ->
  exists q, bs = id ++ q ++ c /\ loose_id id /\ loose_length q (Length_definite l).
Proof.
  intros B E. unfold disassemble in E. apply rbind_inv in E as ((id', t) & E1 & E). apply rbind_inv in E as ((l', c') & E2 & E). injection E as -> -> ->.
  destruct (id_reads _ _ _ B E1) as (-> & Hi). apply bytes_ok_app in B as [_ B]. destruct (length_reads _ _ _ B E2) as (q & -> & Hq). exists q. auto.
Qed.
Lemma dis_back id q c n : loose_id id -> loose_length q n -> bytes_ok id -> bytes_ok q ->
  exists l, disassemble (id ++ q ++ c) = Ok (id, l, c) /\ Length_definite l = n.
Proof.
  intros Hi Hq Bi Bq. destruct (length_back q n c Hq Bq) as (l & E & D). exists l. split; [|assumption].
  unfold disassemble. rewrite id_back by assumption. cbn [rbind]. rewrite E. reflexivity.
Qed.
Lemma dis_minimal id n c : loose_id id -> bytes_ok id -> n < usize_limit -> disassemble (id ++ Length_to_bytes (Definite n) ++ c) = Ok (id, Definite n, c).
Proof.
  intros Hi Bi Hn. unfold disassemble. rewrite id_back by assumption. cbn [rbind].
  rewrite (parse_length_unchecked_definite n) by (assumption || now apply Length_to_bytes_minimal). reflexivity.
Qed.
Lemma loose_small q n : loose_length q (Some n) -> n < usize_limit.
Proof. intros X. remember (Some n) as o eqn:E. destruct X; inversion E; subst; [unfold usize_limit; lia | apply N.mod_lt; discriminate]. Qed.
(** The octets are as many as claimed, at least. *)
Definition fits_in (bs : list N) : Prop := forall id n c, disassemble bs = Ok (id, Definite n, c) -> nlen id + Length_len (Definite n) + n <= nlen bs.
Lemma fits_iff bs : bytes_ok bs -> (~ overruns bs <-> fits_in bs).
Proof.
  intros B. split.
  - intros H id n c E. destruct (N.le_gt_cases (nlen id + Length_len (Definite n) + n) (nlen bs)) as [|G]; [assumption|]. exfalso. apply H.
    destruct (dis_reads _ _ _ _ B E) as (q & X & Hi & Hq). cbn [Length_definite] in Hq. pose proof (loose_small _ _ Hq) as Hn.
    exists (nlen id + Length_len (Definite n) + n). split; [|assumption]. exists id, n, (Length_to_bytes (Definite n)).
    split; [exists q, c; auto|]. split; [now apply Length_to_bytes_minimal|]. now rewrite len_len.
  - intros H (total & (id & n & len & (q & c & E & Hi & Hq) & M & ->) & G). subst bs.
    apply bytes_ok_app in B as [Bi B]. apply bytes_ok_app in B as [Bq B]. pose proof (loose_small _ _ Hq) as Hn.
    destruct (dis_back id q c _ Hi Hq Bi Bq) as (l & D & Dl). destruct l as [|m]; [discriminate|]. injection Dl as ->.
    specialize (H _ _ _ D). rewrite (minimal_is_to_bytes n len Hn M), len_len in G by assumption. lia.
Qed.

(** ** Outcomes *)
(** A value, a panic, or no memory; nothing else. *)
Definition calm {A} (al : allocator) (o : outcome A) (Q : A -> heap -> Prop) : Prop :=
  match o with Done a h => Q a h | Abort => out_of_memory al | Crash => True | UB => False end.
Lemma calm_bind {A B} al (m : M A) (k : A -> M B) h P Q : calm al (m h) P -> (forall a h', P a h' -> calm al (k a h') Q) -> calm al (mbind m k h) Q.
Proof. unfold calm, mbind. intros H K. destruct (m h); try contradiction; [exact (K _ _ H) | exact H | exact I]. Qed.
Lemma calm_meets {A} al (o : outcome A) Q : meets al o Q -> calm al o Q.
Proof. unfold meets, calm. destruct o; tauto. Qed.
Lemma calm_mono {A} al (o : outcome A) (P Q : A -> heap -> Prop) : calm al o P -> (forall a h, P a h -> Q a h) -> calm al o Q.
Proof. unfold calm. intros H K. destruct o; try contradiction; auto. Qed.
Lemma calm_lift {A} al (x : res A) h (Q : A -> heap -> Prop) : (forall e, x <> Err e) -> x <> NoFuel -> (forall a, x = Ok a -> Q a h) -> calm al (mlift x h) Q.
Proof. intros H1 H2 H. destruct x as [a|e| |]; cbn; [now apply H | now destruct (H1 e) | exact I | now destruct H2]. Qed.
Lemma calm_add al x y h (Q : N -> heap -> Prop) : (x + y < usize_limit -> Q (x + y) h) -> calm al (madd x y h) Q.
Proof. intros H. unfold madd. destruct (N.ltb_spec (x + y) usize_limit); cbn; auto. Qed.

(** ** Steps *)
Lemma tlv_id_of bs id l c : disassemble bs = Ok (id, l, c) -> tlv_id bs = Ok id /\ tlv_length bs = Ok l /\ tlv_contents bs = Ok c.
Proof.
  intros E. unfold tlv_length, tlv_contents. rewrite E. cbn [rbind]. split; [|auto].
  unfold tlv_id. unfold disassemble in E. apply rbind_inv in E as ((id', t) & -> & E). cbn [rbind].
  apply rbind_inv in E as ((l', c') & _ & E). now injection E as -> _ _.
Qed.
Lemma scan_quiet bs : forall i, (forall e, id_scan bs i <> Err e) /\ id_scan bs i <> NoFuel.
Proof. induction bs as [|b bs IH]; intros i; cbn [id_scan]; [split; [intros e|]; discriminate|]. destruct (negb _); [split; [intros e|]; discriminate | apply IH]. Qed.
Lemma id_quiet bs : (forall e, parse_id_unchecked bs <> Err e) /\ parse_id_unchecked bs <> NoFuel.
Proof.
  unfold parse_id_unchecked. destruct bs as [|b bs]; [split; [intros e|]; discriminate|]. destruct (negb _); [split; [intros e|]; discriminate|].
  destruct (scan_quiet bs 1) as (A & B). destruct (id_scan bs 1) as [|e0| |]; cbn [rbind]; try (split; [intros e|]; discriminate); [now destruct (A e0) | now destruct B].
Qed.
Lemma length_quiet bs : (forall e, parse_length_unchecked bs <> Err e) /\ parse_length_unchecked bs <> NoFuel.
Proof.
  unfold parse_length_unchecked. destruct bs as [|b bs]; [split; [intros e|]; discriminate|]. destruct (_ =? _); [split; [intros e|]; discriminate|].
  destruct (negb _); [split; [intros e|]; discriminate|]. cbv zeta. destruct (_ <? _); split; try (intros e); discriminate.
Qed.
(** Either it can be read, or reading panics. *)
Lemma dis_cases bs : (exists id l c, disassemble bs = Ok (id, l, c)) \/
  (disassemble bs = Panic /\ (tlv_id bs = Panic \/ exists id, tlv_id bs = Ok id) /\ tlv_length bs = Panic /\ tlv_contents bs = Panic).
Proof.
  unfold tlv_length, tlv_contents, tlv_id, disassemble. destruct (id_quiet bs) as (A & B).
  destruct (parse_id_unchecked bs) as [(id, t)|e0| |]; cbn [rbind].
  - destruct (length_quiet t) as (A' & B'). destruct (parse_length_unchecked t) as [(l, c)|e0| |]; cbn [rbind].
    + left. eauto.
    + now destruct (A' e0).
    + right. split; [reflexivity|]. split; [right; eauto|]. auto.
    + now destruct B'.
  - now destruct (A e0).
  - right. auto.
  - now destruct B.
Qed.

Section STEP.
Context (L : layout) (al : allocator) (Rp : L_raw L -> heap -> buf -> option N -> Prop) (BR : buffer_refines L al Rp).
Notation raw := (L_raw L).

(** The value in [r] now: [good] octets, at most [m] of them, and nothing else has changed in memory since [h]. *)
Definition owns (own : option N) (h : heap) (good : list N -> Prop) (m : N) (r : raw) (h' : heap) : Prop :=
  exists b own', Rp r h' b own' /\ frame own own' h h' /\ good (bf_slice b) /\ b_len b <= m.

Lemma slice_len b : b_len b <= bf_cap b -> nlen (bf_slice b) = b_len b.
Proof using. intros H. unfold bf_slice, bf_cap in *. rewrite nlen_take. lia. Qed.
Lemma rp_holds r h b own : Rp r h b own -> holds b (bf_slice b) /\ bytes_ok (bf_slice b) /\ nlen (bf_slice b) = b_len b /\ b_len b <= isize_max.
Proof using BR.
  intros R. destruct (br_observe _ _ _ BR _ _ _ _ R) as (_ & _ & H1 & H2 & H3 & _). pose proof (holds_self b H1 H3) as H.
  split; [assumption|]. split; [|split; [now apply slice_len | lia]]. unfold bf_slice. now apply bytes_ok_take.
Qed.

(** Making room: the octets stay where they are. *)
Lemma room r h b own off : Rp r h b own -> b_len b + off <= isize_max ->
  meets al (L_reserve L al off r h) (fun r1 h1 => exists b1 own1 sp, Rp r1 h1 b1 own1 /\ frame own own1 h h1 /\
    b_mem b1 = bf_slice b ++ sp /\ b_len b1 = b_len b /\ off <= nlen sp).
Proof using BR.
  intros R H. destruct (rp_holds _ _ _ _ R) as (Hh & B & Ll & _).
  eapply meets_mono; [apply (br_reserve _ _ _ BR _ _ _ _ off R H)|]. intros r1 h1 (j & b1 & o1 & R1 & F1 & E).
  destruct (reserve_ok {| init_cap := L_init_cap L; junk := j |} off b (bf_slice b) Hh) as (b1' & sp & E' & M & L1 & K & _); [lia|].
  rewrite E in E'. injection E' as <-. exists b1, o1, sp. rewrite L1, Ll. auto.
Qed.
Lemma lengthen r h b own n : Rp r h b own -> n <= bf_cap b ->
  exists r', L_set_len_checked L n r h = Done r' h /\ L_set_len L n r h = Done r' h /\ Rp r' h {| b_mem := b_mem b; b_len := n; b_heap := b_heap b |} own.
Proof using BR.
  intros R H. assert (E : bf_set_len n b = Ok {| b_mem := b_mem b; b_len := n; b_heap := b_heap b |}) by (unfold bf_set_len; destruct (N.ltb_spec (bf_cap b) n); [lia | reflexivity]).
  destruct (br_set_len _ _ _ BR _ _ _ _ _ _ R E) as (r' & E' & R'). exists r'. split; [|auto].
  unfold L_set_len_checked. destruct (br_observe _ _ _ BR _ _ _ _ R) as (_ & -> & _). destruct (N.ltb_spec (bf_cap b) n); [lia | assumption].
Qed.
Lemma put r h b own off w : Rp r h b own -> bytes_ok w -> off + nlen w <= bf_cap b ->
  exists r' h', L_store L off w r h = Done r' h' /\ frame own own h h' /\
    Rp r' h' {| b_mem := take off (b_mem b) ++ w ++ drop (off + nlen w) (b_mem b); b_len := b_len b; b_heap := b_heap b |} own.
Proof using BR.
  intros R Hw H. destruct (br_store _ _ _ BR r h b own off w {| b_mem := take off (b_mem b) ++ w ++ drop (off + nlen w) (b_mem b); b_len := b_len b; b_heap := b_heap b |} R Hw) as (r' & h' & E & R' & F).
  - unfold bf_write, mem_write. unfold bf_cap in H. destruct (N.ltb_spec (nlen (b_mem b)) (off + nlen w)); [lia|]. reflexivity.
  - exists r', h'. auto.
Qed.
(** Moving [n] octets from [src] to [dst], or leaving them. *)
Lemma shift r h b own src dst n : Rp r h b own -> src + n <= bf_cap b -> dst + n <= bf_cap b ->
  exists r' h', (if src =? dst then mret r else L_move L src dst n r) h = Done r' h' /\ frame own own h h' /\
    Rp r' h' {| b_mem := take dst (b_mem b) ++ take n (drop src (b_mem b)) ++ drop (dst + n) (b_mem b); b_len := b_len b; b_heap := b_heap b |} own.
Proof using BR.
  intros R H1 H2. destruct (N.eqb_spec src dst) as [->|Hne].
  - exists r, h. split; [reflexivity|]. split; [apply frame_refl|]. replace (take n (drop dst (b_mem b)) ++ drop (dst + n) (b_mem b)) with (drop dst (b_mem b)).
    + rewrite take_drop. destruct b; exact R.
    + rewrite <- drop_drop. now rewrite take_drop.
  - unfold L_move. assert (E : mem_read src n (b_mem b) = Ok (take n (drop src (b_mem b)))) by (unfold mem_read; unfold bf_cap in H1; destruct (N.ltb_spec (nlen (b_mem b)) (src + n)); [lia | reflexivity]).
    rewrite (mbind_done _ _ _ h h (br_load _ _ _ BR _ _ _ _ _ _ _ R E)).
    assert (K : nlen (take n (drop src (b_mem b))) = n) by (unfold bf_cap in *; rewrite nlen_take, nlen_drop; lia).
    destruct (put r h b own dst (take n (drop src (b_mem b))) R) as (r' & h' & E' & F & R').
    + apply bytes_ok_take, bytes_ok_drop. apply (br_observe _ _ _ BR _ _ _ _ R).
    + lia.
    + rewrite K in R'. exists r', h'. auto.
Qed.

Lemma length_bounds n : n < usize_limit -> 1 <= Length_len (Definite n) <= 9.
Proof using.
  intros H. unfold Length_len. change LEN_MAX_SHORT with 127. destruct (N.leb_spec n 127); cbv iota; [lia|].
  pose proof (byte_len_le n 8 H ltac:(lia)). lia.
Qed.
(** What extending leaves: the octets where the contents should be, the new ones, and whatever follows. *)
Definition extended (bs id : list N) (n : N) (w z : list N) : list N :=
  id ++ Length_to_bytes (Definite (n + nlen w)) ++ take n (drop (nlen id + Length_len (Definite n)) bs) ++ w ++ z.
Lemma extend_at r h b own w id n c : Rp r h b own -> bytes_ok w -> disassemble (bf_slice b) = Ok (id, Definite n, c) ->
  nlen id + Length_len (Definite n) + n <= b_len b -> b_len b + nlen w + 8 <= isize_max ->
  let t := b_len b - (nlen id + Length_len (Definite n) + n) in
  meets al (rel_Der_extend L al w r h) (fun r' h' => exists b' own' z, Rp r' h' b' own' /\ frame own own' h h' /\
    bf_slice b' = extended (bf_slice b) id n w z /\ nlen z = t) /\
  (t = 0 -> meets al (raw_Der_extend L al w r h) (fun r' h' => exists b' own', Rp r' h' b' own' /\ frame own own' h h' /\
    bf_slice b' = extended (bf_slice b) id n w [])) /\
  (t <> 0 -> meets al (match raw_Der_extend L al w r h with Crash => Done tt h | Abort => Abort | _ => UB end) (fun _ _ => True)).
Proof using BR.
  intros R Hw D Hf Hm t. pose proof isize_lt as Hz. change (2 ^ 64) with usize_limit in Hz.
  destruct (rp_holds _ _ _ _ R) as (Hh & Bs & Ls & _). destruct (dis_reads _ _ _ _ Bs D) as (q & Eq & Hi & Hq). cbn [Length_definite] in Hq.
  destruct (tlv_id_of _ _ _ _ D) as (T1 & T2 & _). set (k := Length_len (Definite n)) in *. set (p := nlen id) in *.
  assert (Hn : n < usize_limit) by lia. assert (Hnm : n + nlen w < usize_limit) by lia.
  pose proof (length_bounds n Hn) as K1. pose proof (length_bounds (n + nlen w) Hnm) as K2. pose proof (Length_len_mono n (n + nlen w) ltac:(lia)) as K3.
  fold k in K1, K3. set (k' := Length_len (Definite (n + nlen w))) in *. set (off := nlen w + k' - k).
  assert (Lb : nlen (Length_to_bytes (Definite (n + nlen w))) = k') by now apply len_len.
  assert (SL := rp_slice L al Rp BR _ _ _ _ R).
  assert (CORE : forall r1 h1 b1 own1 sp, Rp r1 h1 b1 own1 -> frame own own1 h h1 -> b_mem b1 = bf_slice b ++ sp -> b_len b1 = b_len b + off -> off <= nlen sp ->
    exists r3 h3 b3, Rp r3 h3 b3 own1 /\ frame own own1 h h3 /\ b_len b3 = b_len b + off /\
      (forall B (kk : raw -> M B), (r2 <-- (if p + k =? p + k' then mret r1 else L_move L (p + k) (p + k') n r1) ; r3 <-- L_store L (p + k' + n) w r2 ; kk r3) h1 = kk r3 h3) /\
      exists r4 h4 b4 z, L_store L p (Length_to_bytes (Definite (n + nlen w))) r3 h3 = Done r4 h4 /\ Rp r4 h4 b4 own1 /\ frame own own1 h h4 /\
        bf_slice b4 = extended (bf_slice b) id n w z /\ nlen z = t).
  { intros r1 h1 b1 own1 sp R1 F1 M1 L1 K4. assert (C1 : bf_cap b1 = b_len b + nlen sp) by (unfold bf_cap; rewrite M1, nlen_app; lia).
    destruct (shift _ _ _ _ (p + k) (p + k') n R1) as (r2 & h2 & E2 & F2 & R2); [lia | lia|].
    set (mem3 := take (p + k') (b_mem b1) ++ take n (drop (p + k) (b_mem b1)) ++ drop (p + k' + n) (b_mem b1)) in *.
    assert (X1 : nlen (take (p + k') (b_mem b1)) = p + k') by (rewrite nlen_take; unfold bf_cap in C1; lia).
    assert (X2 : nlen (take n (drop (p + k) (b_mem b1))) = n) by (rewrite nlen_take, nlen_drop; unfold bf_cap in C1; lia).
    assert (X3 : nlen mem3 = bf_cap b1) by (unfold mem3; rewrite !nlen_app, X1, X2, nlen_drop; unfold bf_cap in *; lia).
    destruct (put _ _ _ _ (p + k' + n) w R2 Hw) as (r3 & h3 & E3 & F3 & R3); [unfold bf_cap at 1; cbn [b_mem]; lia|]. cbn [b_mem b_len b_heap] in R3.
    assert (F13 : frame own own1 h h3).
    { eapply frame_trans; [exact F1 | eapply frame_trans; [exact F2 | exact F3 |] | ]; intros a Ea; eapply rp_live; eassumption. }
    exists r3, h3. eexists. split; [exact R3|]. split; [exact F13|]. split; [exact L1|]. split.
    { intros B kk. rewrite (mbind_done _ _ _ _ _ E2). now rewrite (mbind_done _ _ _ _ _ E3). }
    set (A := take (p + k') (b_mem b1)) in *. set (mid := take n (drop (p + k) (b_mem b1))) in *.
    assert (Y : take (p + k' + n) mem3 = A ++ mid).
    { unfold mem3. rewrite app_assoc. replace (p + k' + n) with (nlen (A ++ mid)) at 1 by (rewrite nlen_app; lia). apply take_app_exact. }
    rewrite Y in R3. set (rest := drop (p + k' + n + nlen w) mem3) in *.
    destruct (put _ _ _ _ p (Length_to_bytes (Definite (n + nlen w))) R3) as (r4 & h4 & E4 & F4 & R4).
    { now apply len_bytes_ok. }
    { unfold bf_cap. cbn [b_mem]. rewrite !nlen_app. lia. }
    cbn [b_mem b_len b_heap] in R4. exists r4, h4. eexists. exists (take t rest). split; [exact E4|]. split; [exact R4|].
    split; [eapply frame_trans; [exact F13 | exact F4 | intros a Ea; eapply rp_live; eassumption]|].
    assert (Pid : take p ((A ++ mid) ++ w ++ rest) = id).
    { rewrite <- app_assoc, take_app_le by lia. unfold A. rewrite take_take, N.min_l by lia. rewrite M1, Eq, <- app_assoc. unfold p. apply take_app_exact. }
    assert (Pd : drop (p + nlen (Length_to_bytes (Definite (n + nlen w)))) ((A ++ mid) ++ w ++ rest) = mid ++ w ++ rest).
    { rewrite Lb, <- X1. rewrite <- app_assoc. apply drop_app_exact. }
    unfold bf_slice at 1. cbn [b_mem b_len]. rewrite Pid, Pd. unfold extended.
    assert (Emid : mid = take n (drop (p + k) (bf_slice b))).
    { unfold mid. rewrite M1. rewrite drop_app_le by lia. apply take_app_le. rewrite nlen_drop. lia. }
    fold p k. rewrite <- Emid. split.
    - rewrite L1. replace (b_len b + off) with (nlen (id ++ Length_to_bytes (Definite (n + nlen w)) ++ mid ++ w) + t).
      + replace (id ++ Length_to_bytes (Definite (n + nlen w)) ++ mid ++ w ++ rest) with ((id ++ Length_to_bytes (Definite (n + nlen w)) ++ mid ++ w) ++ rest) by now rewrite <- !app_assoc.
        rewrite take_app_ge by lia. rewrite <- !app_assoc. do 5 f_equal. lia.
      + rewrite !nlen_app, Lb, X2. fold p. unfold t, off. lia.
    - rewrite nlen_take. unfold rest. rewrite nlen_drop, X3, C1. unfold t, off in *. lia. }
  assert (Hoff : off <= nlen w + 8) by (unfold off; lia).
  split; [|split].
  - unfold rel_Der_extend. cbv zeta. rewrite (mbind_done _ _ _ h h SL), T1, T2. do 2 rewrite (mbind_done (mlift (Ok _)) _ _ h h eq_refl).
    cbn [Length_definite unwrap]. rewrite (mbind_done (mlift (Ok n)) _ n h h eq_refl). rewrite (wadd_small n) by assumption. fold k k' p.
    rewrite (wadd_small (nlen w)) by lia. rewrite wsub_small by lia. fold off.
    eapply meets_bind; [apply (room _ _ _ _ off R); lia|]. intros r1 h1 (b1 & own1 & sp & R1 & F1 & M1 & L1 & K4).
    rewrite (rp_len L al Rp BR _ _ _ _ R1), L1, wadd_small by lia.
    destruct (lengthen _ _ _ _ (b_len b + off) R1) as (r2 & _ & E2 & R2); [unfold bf_cap; rewrite M1, nlen_app; lia|]. rewrite (mbind_done _ _ _ _ _ E2).
    destruct (CORE _ _ _ _ sp R2 F1 M1 eq_refl K4) as (r3 & h3 & b3 & _ & _ & _ & E3 & r4 & h4 & b4 & z & E4 & R4 & F4 & S4 & Z4).
    rewrite E3, E4. cbn [meets]. exists b4, own1, z. auto.
  - intros Ht. unfold raw_Der_extend. rewrite (mbind_done _ _ _ h h SL), T1, T2. do 2 rewrite (mbind_done (mlift (Ok _)) _ _ h h eq_refl).
    cbn [Length_definite unwrap]. rewrite (mbind_done (mlift (Ok n)) _ n h h eq_refl).
    rewrite (mbind_done _ _ (n + nlen w) h h) by (unfold madd; destruct (N.ltb_spec (n + nlen w) usize_limit); [reflexivity | lia]). fold k k' p.
    rewrite (mbind_done _ _ (nlen w + k') h h) by (unfold madd; destruct (N.ltb_spec (nlen w + k') usize_limit); [reflexivity | lia]).
    rewrite (mbind_done _ _ off h h) by (unfold msub, off; destruct (N.ltb_spec (nlen w + k') k); [lia | reflexivity]).
    eapply meets_bind; [apply (room _ _ _ _ off R); lia|]. intros r1 h1 (b1 & own1 & sp & R1 & F1 & M1 & L1 & K4).
    rewrite (rp_len L al Rp BR _ _ _ _ R1), L1. rewrite (mbind_done _ _ (b_len b + off) h1 h1) by (unfold madd; destruct (N.ltb_spec (b_len b + off) usize_limit); [reflexivity | lia]).
    destruct (lengthen _ _ _ _ (b_len b + off) R1) as (r2 & E2 & _ & R2); [unfold bf_cap; rewrite M1, nlen_app; lia|]. rewrite (mbind_done _ _ _ _ _ E2).
    destruct (CORE _ _ _ _ sp R2 F1 M1 eq_refl K4) as (r3 & h3 & b3 & R3 & _ & L3 & E3 & r4 & h4 & b4 & z & E4 & R4 & F4 & S4 & Z4).
    rewrite E3, (rp_len L al Rp BR _ _ _ _ R3), L3. destruct (N.eqb_spec (p + k' + n + nlen w) (b_len b + off)) as [_|X]; [|unfold t, off in *; lia]. cbn [negb].
    rewrite E4. cbn [meets]. exists b4, own1. split; [assumption|]. split; [assumption|]. rewrite S4. f_equal. apply nlen_zero. lia.
  - intros Ht. unfold raw_Der_extend. rewrite (mbind_done _ _ _ h h SL), T1, T2. do 2 rewrite (mbind_done (mlift (Ok _)) _ _ h h eq_refl).
    cbn [Length_definite unwrap]. rewrite (mbind_done (mlift (Ok n)) _ n h h eq_refl).
    rewrite (mbind_done _ _ (n + nlen w) h h) by (unfold madd; destruct (N.ltb_spec (n + nlen w) usize_limit); [reflexivity | lia]). fold k k' p.
    rewrite (mbind_done _ _ (nlen w + k') h h) by (unfold madd; destruct (N.ltb_spec (nlen w + k') usize_limit); [reflexivity | lia]).
    rewrite (mbind_done _ _ off h h) by (unfold msub, off; destruct (N.ltb_spec (nlen w + k') k); [lia | reflexivity]).
    pose proof (room _ _ _ _ off R ltac:(lia)) as RM. unfold mbind at 1. destruct (L_reserve L al off r h) as [r1 h1| | |]; cbn [meets] in *; [|exact RM | contradiction | contradiction].
    destruct RM as (b1 & own1 & sp & R1 & F1 & M1 & L1 & K4).
    rewrite (rp_len L al Rp BR _ _ _ _ R1), L1. rewrite (mbind_done _ _ (b_len b + off) h1 h1) by (unfold madd; destruct (N.ltb_spec (b_len b + off) usize_limit); [reflexivity | lia]).
    destruct (lengthen _ _ _ _ (b_len b + off) R1) as (r2 & E2 & _ & R2); [unfold bf_cap; rewrite M1, nlen_app; lia|]. rewrite (mbind_done _ _ _ _ _ E2).
    destruct (CORE _ _ _ _ sp R2 F1 M1 eq_refl K4) as (r3 & h3 & b3 & R3 & _ & L3 & E3 & _).
    rewrite E3, (rp_len L al Rp BR _ _ _ _ R3), L3. destruct (N.eqb_spec (p + k' + n + nlen w) (b_len b + off)) as [X|_]; [unfold t, off in *; lia|]. cbn [negb].
    exact I.
Qed.

Definition shortened (bs id : list N) (n m : N) : list N :=
  id ++ Length_to_bytes (Definite m) ++ take m (drop (nlen id + Length_len (Definite n)) bs).
Lemma truncate_at r h b own m id n c : Rp r h b own -> disassemble (bf_slice b) = Ok (id, Definite n, c) ->
  nlen id + Length_len (Definite n) + n <= b_len b -> m < n ->
  (exists r' h' b', raw_Der_truncate L m r h = Done r' h' /\ rel_Der_truncate L m r h = Done r' h' /\ Rp r' h' b' own /\ frame own own h h' /\
     bf_slice b' = shortened (bf_slice b) id n m /\ b_len b' <= b_len b).
Proof using BR.
  intros R D Hf Hm. pose proof isize_lt as Hz. change (2 ^ 64) with usize_limit in Hz.
  destruct (rp_holds _ _ _ _ R) as (Hh & Bs & Ls & Hb). destruct (dis_reads _ _ _ _ Bs D) as (q & Eq & Hi & Hq). cbn [Length_definite] in Hq.
  destruct (tlv_id_of _ _ _ _ D) as (T1 & T2 & _). set (k := Length_len (Definite n)) in *. set (p := nlen id) in *.
  assert (Hn : n < usize_limit) by lia. assert (Hm' : m < usize_limit) by lia.
  pose proof (length_bounds m Hm') as K2. pose proof (Length_len_mono m n ltac:(lia)) as K3. fold k in K3. set (k' := Length_len (Definite m)) in *.
  assert (Lb : nlen (Length_to_bytes (Definite m)) = k') by now apply len_len.
  assert (Lo : nlen (Length_to_bytes (Definite n)) = k) by now apply len_len.
  assert (SL := rp_slice L al Rp BR _ _ _ _ R). assert (Cb : b_len b <= bf_cap b) by apply (br_observe _ _ _ BR _ _ _ _ R).
  unfold raw_Der_truncate, rel_Der_truncate. cbv zeta. rewrite !(mbind_done _ _ _ h h SL), T1, T2. rewrite !(mbind_done (mlift (Ok _)) _ _ h h eq_refl).
  cbn [Length_definite unwrap]. rewrite !(mbind_done (mlift (Ok n)) _ n h h eq_refl). destruct (N.leb_spec n m); [lia|]. rewrite Lb, Lo. fold p.
  destruct (put _ _ _ _ p (Length_to_bytes (Definite m)) R) as (r1 & h1 & E1 & F1 & R1); [now apply len_bytes_ok | lia|].
  rewrite !(mbind_done _ _ _ _ _ E1). rewrite Lb in R1.
  assert (Eb : b_mem b = bf_slice b ++ drop (b_len b) (b_mem b)) by (unfold bf_slice; now rewrite take_drop).
  assert (Pid : take p (b_mem b) = id) by (rewrite Eb, take_app_le by lia; rewrite Eq; unfold p; apply take_app_exact).
  rewrite Pid in R1. set (mem1 := id ++ Length_to_bytes (Definite m) ++ drop (p + k') (b_mem b)) in *.
  assert (X1 : nlen mem1 = bf_cap b) by (unfold mem1; rewrite !nlen_app, Lb, nlen_drop; fold p; unfold bf_cap in *; lia).
  assert (MV : exists r2 h2 b2, (if k' <? k then L_move L (p + k) (p + k') m r1 else mret r1) h1 = Done r2 h2 /\ frame own own h1 h2 /\ Rp r2 h2 b2 own /\
    bf_cap b2 = bf_cap b /\ take (p + k' + m) (b_mem b2) = shortened (bf_slice b) id n m).
  { destruct (shift _ _ _ _ (p + k) (p + k') m R1) as (r2 & h2 & E2 & F2 & R2); [unfold bf_cap at 1; cbn [b_mem]; lia | unfold bf_cap at 1; cbn [b_mem]; lia |].
    cbn [b_mem b_len b_heap] in R2. exists r2, h2. eexists. split.
    { rewrite <- E2. destruct (N.ltb_spec k' k), (N.eqb_spec (p + k) (p + k')); try lia; reflexivity. }
    split; [exact F2|]. split; [exact R2|]. unfold bf_cap at 1. cbn [b_mem].
    assert (A1 : take (p + k') mem1 = id ++ Length_to_bytes (Definite m)).
    { unfold mem1. rewrite app_assoc. replace (p + k') with (nlen (id ++ Length_to_bytes (Definite m))) at 1 by (rewrite nlen_app; fold p; lia). apply take_app_exact. }
    assert (A2 : take m (drop (p + k) mem1) = take m (drop (p + k) (bf_slice b))).
    { unfold mem1. rewrite app_assoc, drop_app_ge by (rewrite nlen_app; fold p; lia). rewrite drop_drop, nlen_app. fold p. rewrite Lb.
      replace (p + k' + (p + k - (p + k'))) with (p + k) by lia. rewrite Eb at 1. rewrite drop_app_le by lia. apply take_app_le. rewrite nlen_drop. lia. }
    assert (A3 : nlen (take m (drop (p + k) (bf_slice b))) = m) by (rewrite nlen_take, nlen_drop; lia).
    rewrite A1, A2. split.
    - rewrite !nlen_app, Lb, A3, nlen_drop, X1. fold p. lia.
    - unfold shortened. fold p k. rewrite <- app_assoc.
      replace (id ++ Length_to_bytes (Definite m) ++ take m (drop (p + k) (bf_slice b)) ++ drop (p + k' + m) mem1)
        with ((id ++ Length_to_bytes (Definite m) ++ take m (drop (p + k) (bf_slice b))) ++ drop (p + k' + m) mem1) by now rewrite <- !app_assoc.
      replace (p + k' + m) with (nlen (id ++ Length_to_bytes (Definite m) ++ take m (drop (p + k) (bf_slice b)))) at 1 by (rewrite !nlen_app, Lb, A3; fold p; lia).
      apply take_app_exact. }
  destruct MV as (r2 & h2 & b2 & E2 & F2 & R2 & C2 & S2). rewrite !(mbind_done _ _ _ _ _ E2).
  rewrite (mbind_done _ _ (p + k') h2 h2) by (unfold madd; destruct (N.ltb_spec (p + k') usize_limit); [reflexivity | lia]).
  rewrite (mbind_done _ _ (p + k' + m) h2 h2) by (unfold madd; destruct (N.ltb_spec (p + k' + m) usize_limit); [reflexivity | lia]).
  rewrite (wadd_small p), wadd_small by lia. destruct (lengthen _ _ _ _ (p + k' + m) R2) as (r3 & E3 & E3' & R3); [lia|].
  exists r3, h2. eexists. split; [exact E3|]. split; [exact E3'|]. split; [exact R3|].
  split; [eapply frame_trans; [exact F1 | exact F2 | intros a Ea; eapply rp_live; eassumption]|]. unfold bf_slice at 1. cbn [b_mem b_len]. split; [exact S2 | lia].
Qed.
(** ** One step *)
Lemma definite_fits id n c : loose_id id -> bytes_ok id -> n < usize_limit -> n <= nlen c -> fits_in (id ++ Length_to_bytes (Definite n) ++ c).
Proof using.
  intros Hi Bi Hn Hc id' n' c' E. rewrite (dis_minimal id n c Hi Bi Hn) in E. injection E as <- <- <-. rewrite !nlen_app, len_len by assumption. lia.
Qed.
(** The id in front of the octets of a value. *)
Lemma id_front bs id l c : bytes_ok bs -> disassemble bs = Ok (id, l, c) -> loose_id id /\ bytes_ok id /\ (forall n, l = Definite n -> n < usize_limit).
Proof using.
  intros B D. destruct (dis_reads _ _ _ _ B D) as (q & -> & Hi & Hq). apply bytes_ok_app in B as [Bi _]. split; [assumption|]. split; [assumption|].
  intros n ->. exact (loose_small _ _ Hq).
Qed.
Lemma crash_fine {A} (Q : A -> heap -> Prop) : calm al Crash Q.
Proof using. exact I. Qed.
Lemma der_extend_calm w r h b own : Rp r h b own -> fits_in (bf_slice b) -> bytes_ok w -> b_len b + nlen w + 8 <= isize_max ->
  calm al (raw_Der_extend L al w r h) (owns own h fits_in (b_len b + nlen w + 8)) /\
  calm al (rel_Der_extend L al w r h) (owns own h fits_in (b_len b + nlen w + 8)).
Proof using BR.
  intros R Hf Hw Hm. pose proof isize_lt as Hz. change (2 ^ 64) with usize_limit in Hz. assert (SL := rp_slice L al Rp BR _ _ _ _ R). destruct (rp_holds _ _ _ _ R) as (_ & Bs & Ls & _).
  destruct (dis_cases (bf_slice b)) as [(id & l & c & D)|(D & T1 & T2 & T3)].
  - destruct l as [|n].
    + destruct (tlv_id_of _ _ _ _ D) as (T1 & T2 & _). unfold raw_Der_extend, rel_Der_extend. cbv zeta. rewrite !(mbind_done _ _ _ h h SL), T1, T2.
      rewrite !(mbind_done (mlift (Ok _)) _ _ h h eq_refl). split; exact I.
    + destruct (id_front _ _ _ _ Bs D) as (Hi & Bi & Hn). specialize (Hn n eq_refl). pose proof (Hf _ _ _ D) as Hfn. rewrite Ls in Hfn.
      destruct (extend_at r h b own w id n c R Hw D Hfn Hm) as (X1 & X2 & X3).
      pose proof (length_bounds (n + nlen w) ltac:(lia)) as K2. pose proof (length_bounds n Hn) as K1.
      assert (Lx : nlen (take n (drop (nlen id + Length_len (Definite n)) (bf_slice b))) = n) by (rewrite nlen_take, nlen_drop; lia).
      assert (Lb : nlen (Length_to_bytes (Definite (n + nlen w))) = Length_len (Definite (n + nlen w))) by (apply len_len; change (2 ^ 64) with usize_limit; lia).
      assert (G : forall b' z, Rp r h b own -> b_len b' <= bf_cap b' -> bf_slice b' = extended (bf_slice b) id n w z -> nlen z = b_len b - (nlen id + Length_len (Definite n) + n) ->
        fits_in (bf_slice b') /\ b_len b' <= b_len b + nlen w + 8).
      { intros b' z _ Hc E Ez. split.
        - rewrite E. unfold extended. apply definite_fits; [assumption | assumption | lia |]. rewrite !nlen_app, Lx. lia.
        - rewrite <- (slice_len b' Hc), E. unfold extended. rewrite !nlen_app, Lx, Lb, Ez. lia. }
      split.
      * destruct (N.eq_dec (b_len b - (nlen id + Length_len (Definite n) + n)) 0) as [Z|Z].
        -- apply calm_meets. eapply meets_mono; [exact (X2 Z)|]. intros r' h' (b' & o' & R' & F' & S'). destruct (G b' [] R) as (G1 & G2).
           ++ apply (br_observe _ _ _ BR _ _ _ _ R').
           ++ exact S'.
           ++ rewrite nlen_nil. lia.
           ++ exists b', o'. auto.
        -- specialize (X3 Z). destruct (raw_Der_extend L al w r h); cbn [meets calm] in *; auto; contradiction.
      * apply calm_meets. eapply meets_mono; [exact X1|]. intros r' h' (b' & o' & z & R' & F' & S' & Z'). destruct (G b' z R) as (G1 & G2); [apply (br_observe _ _ _ BR _ _ _ _ R') | exact S' | exact Z' |].
        exists b', o'. auto.
  - unfold raw_Der_extend, rel_Der_extend. cbv zeta. rewrite !(mbind_done _ _ _ h h SL), T2. destruct T1 as [->|(id & ->)]; [split; exact I|].
    rewrite !(mbind_done (mlift (Ok _)) _ _ h h eq_refl). split; exact I.
Qed.
Lemma der_truncate_calm m r h b own : Rp r h b own -> fits_in (bf_slice b) -> m < usize_limit ->
  calm al (raw_Der_truncate L m r h) (owns own h fits_in (b_len b)) /\
  calm al (rel_Der_truncate L m r h) (owns own h fits_in (b_len b)).
Proof using BR.
  intros R Hf Hm. assert (SL := rp_slice L al Rp BR _ _ _ _ R). destruct (rp_holds _ _ _ _ R) as (_ & Bs & Ls & _).
  destruct (dis_cases (bf_slice b)) as [(id & l & c & D)|(D & T1 & T2 & T3)].
  - destruct l as [|n].
    + destruct (tlv_id_of _ _ _ _ D) as (T1 & T2 & _). unfold raw_Der_truncate, rel_Der_truncate. cbv zeta. rewrite !(mbind_done _ _ _ h h SL), T1, T2.
      rewrite !(mbind_done (mlift (Ok _)) _ _ h h eq_refl). split; exact I.
    + destruct (id_front _ _ _ _ Bs D) as (Hi & Bi & Hn). specialize (Hn n eq_refl). pose proof (Hf _ _ _ D) as Hfn. rewrite Ls in Hfn.
      destruct (N.le_gt_cases n m) as [Hle|Hlt].
      * destruct (tlv_id_of _ _ _ _ D) as (T1 & T2 & _). unfold raw_Der_truncate, rel_Der_truncate. cbv zeta. rewrite !(mbind_done _ _ _ h h SL), T1, T2.
        rewrite !(mbind_done (mlift (Ok _)) _ _ h h eq_refl). cbn [Length_definite unwrap]. rewrite !(mbind_done (mlift (Ok n)) _ n h h eq_refl). destruct (N.leb_spec n m); [|lia].
        split; exists b, own; (split; [assumption|]; split; [apply frame_refl|]; split; [assumption | lia]).
      * destruct (truncate_at r h b own m id n c R D Hfn Hlt) as (r' & h' & b' & -> & -> & R' & F' & S' & K').
        assert (X : owns own h fits_in (b_len b) r' h'); [|split; exact X]. exists b', own. split; [assumption|]. split; [assumption|]. split; [|assumption].
        rewrite S'. unfold shortened. apply definite_fits; [assumption | assumption | assumption |]. rewrite nlen_take, nlen_drop. lia.
  - unfold raw_Der_truncate, rel_Der_truncate. cbv zeta. rewrite !(mbind_done _ _ _ h h SL), T2. destruct T1 as [->|(id & ->)]; [split; exact I|].
    rewrite !(mbind_done (mlift (Ok _)) _ _ h h eq_refl). split; exact I.
Qed.
(** The contents changed, the octets before them not. *)
Lemma other_contents bs id l c c' : bytes_ok bs -> disassemble bs = Ok (id, l, c) ->
  take (nlen bs - nlen c) bs = take (nlen bs - nlen c) (take (nlen bs - nlen c) bs ++ c') /\
  exists l', disassemble (take (nlen bs - nlen c) bs ++ c') = Ok (id, l', c') /\ Length_definite l' = Length_definite l.
Proof using.
  intros B D. destruct (dis_reads _ _ _ _ B D) as (q & -> & Hi & Hq). apply bytes_ok_app in B as [Bi B]. apply bytes_ok_app in B as [Bq _].
  assert (X : take (nlen (id ++ q ++ c) - nlen c) (id ++ q ++ c) = id ++ q).
  { rewrite app_assoc. replace (nlen ((id ++ q) ++ c) - nlen c) with (nlen (id ++ q)) by (rewrite (nlen_app (id ++ q)); lia). apply take_app_exact. }
  rewrite X. split.
  - replace (nlen (id ++ q ++ c) - nlen c) with (nlen (id ++ q)) by (rewrite !nlen_app; lia). now rewrite take_app_exact.
  - rewrite <- app_assoc. apply dis_back; assumption.
Qed.
Lemma indefinite_fits bs id c c' : bytes_ok bs -> disassemble bs = Ok (id, Indefinite, c) -> fits_in (take (nlen bs - nlen c) bs ++ c').
Proof using.
  intros B D id' n' c'' E. destruct (other_contents bs id Indefinite c c' B D) as (_ & l' & E' & K). rewrite E in E'. injection E' as -> <- ->. discriminate.
Qed.
Lemma contents_end bs id l c : bytes_ok bs -> disassemble bs = Ok (id, l, c) -> nlen c <= nlen bs /\ drop (nlen bs - nlen c) bs = c.
Proof using.
  intros B D. destruct (dis_reads _ _ _ _ B D) as (q & -> & _). rewrite !nlen_app. split; [lia|]. rewrite app_assoc.
  replace (nlen id + (nlen q + nlen c) - nlen c) with (nlen (id ++ q)) by (rewrite nlen_app; lia). apply drop_app_exact.
Qed.
Lemma ber_extend_calm w r h b own : Rp r h b own -> fits_in (bf_slice b) -> bytes_ok w -> b_len b + nlen w + 8 <= isize_max ->
  calm al (raw_Ber_extend L al w r h) (owns own h fits_in (b_len b + nlen w + 8)) /\
  calm al (rel_Ber_extend L al w r h) (owns own h fits_in (b_len b + nlen w + 8)).
Proof using BR.
  intros R Hf Hw Hm. pose proof isize_lt as Hz. change (2 ^ 64) with usize_limit in Hz. assert (SL := rp_slice L al Rp BR _ _ _ _ R). destruct (rp_holds _ _ _ _ R) as (_ & Bs & Ls & _).
  unfold raw_Ber_extend, rel_Ber_extend. rewrite !(mbind_done _ _ _ h h SL).
  destruct (dis_cases (bf_slice b)) as [(id & l & c & D)|(D & T1 & -> & T3)]; [|split; exact I].
  destruct (tlv_id_of _ _ _ _ D) as (T1 & -> & _). rewrite !(mbind_done (mlift (Ok l)) _ l h h eq_refl). destruct l as [|n]; [|now apply der_extend_calm].
  assert (X : forall r1 h1, (exists b1 own1 sp, Rp r1 h1 b1 own1 /\ frame own own1 h h1 /\ b_mem b1 = bf_slice b ++ sp /\ b_len b1 = b_len b /\ nlen w <= nlen sp) ->
    exists r3 h3 b3 own3, L_store L (L_len L r1) w r1 h1 = Done r3 h3 /\ Rp r3 h3 b3 own3 /\ frame own own3 h h3 /\ b_len b3 = b_len b /\
      bf_cap b3 >= b_len b + nlen w /\ take (b_len b + nlen w) (b_mem b3) = bf_slice b ++ w).
  { intros r1 h1 (b1 & own1 & sp & R1 & F1 & M1 & L1 & K). rewrite (rp_len L al Rp BR _ _ _ _ R1), L1.
    destruct (put _ _ _ _ (b_len b) w R1 Hw) as (r3 & h3 & E3 & F3 & R3); [unfold bf_cap; rewrite M1, nlen_app; lia|].
    exists r3, h3. eexists. exists own1. split; [exact E3|]. split; [exact R3|]. split; [eapply frame_trans; [exact F1 | exact F3 | intros a Ea; eapply rp_live; eassumption]|].
    split; [exact L1|]. unfold bf_cap. cbn [b_mem]. rewrite M1.
    assert (Tk : take (b_len b) (bf_slice b ++ sp) = bf_slice b) by (rewrite <- Ls; apply take_app_exact). rewrite Tk. split.
    - rewrite !nlen_app. lia.
    - rewrite app_assoc. replace (b_len b + nlen w) with (nlen (bf_slice b ++ w)) at 1 by (rewrite nlen_app; lia). apply take_app_exact. }
  assert (Fit : fits_in (bf_slice b ++ w)).
  { destruct (contents_end _ _ _ _ Bs D) as (Hc & Ec). pose proof (indefinite_fits _ _ _ (c ++ w) Bs D) as Y. rewrite app_assoc in Y.
    rewrite <- Ec in Y at 2. now rewrite take_drop in Y. }
  split; apply calm_meets; (eapply meets_bind; [apply (room _ _ _ _ (nlen w) R); lia|]); intros r1 h1 P1; destruct (X r1 h1 P1) as (r3 & h3 & b3 & own3 & E3 & R3 & F3 & L3 & C3 & S3);
    rewrite (mbind_done _ _ _ _ _ E3), (rp_len L al Rp BR _ _ _ _ R3), L3; destruct (lengthen _ _ _ _ (b_len b + nlen w) R3) as (r4 & E4 & E4' & R4); try lia.
  - rewrite (mbind_done _ _ (b_len b + nlen w) h3 h3) by (unfold madd; destruct (N.ltb_spec (b_len b + nlen w) usize_limit); [reflexivity | lia]).
    rewrite E4. cbn [meets]. eexists. exists own3. split; [exact R4|]. split; [exact F3|]. unfold bf_slice at 1. cbn [b_mem b_len]. rewrite S3. split; [exact Fit | lia].
  - rewrite wadd_small by lia. rewrite E4'. cbn [meets]. eexists. exists own3. split; [exact R4|]. split; [exact F3|]. unfold bf_slice at 1. cbn [b_mem b_len]. rewrite S3. split; [exact Fit | lia].
Qed.
Lemma ber_truncate_calm m r h b own : Rp r h b own -> fits_in (bf_slice b) -> m < usize_limit ->
  calm al (raw_Ber_truncate L m r h) (owns own h fits_in (b_len b)) /\
  calm al (rel_Ber_truncate L m r h) (owns own h fits_in (b_len b)).
Proof using BR.
  intros R Hf Hm. pose proof isize_lt as Hz. change (2 ^ 64) with usize_limit in Hz. assert (SL := rp_slice L al Rp BR _ _ _ _ R). destruct (rp_holds _ _ _ _ R) as (_ & Bs & Ls & Hb).
  unfold raw_Ber_truncate, rel_Ber_truncate. rewrite !(mbind_done _ _ _ h h SL).
  destruct (dis_cases (bf_slice b)) as [(id & l & c & D)|(D & T1 & -> & T3)]; [|split; exact I].
  destruct (tlv_id_of _ _ _ _ D) as (T1 & -> & ->). rewrite !(mbind_done (mlift (Ok l)) _ l h h eq_refl). destruct l as [|n]; [|now apply der_truncate_calm].
  rewrite !(mbind_done (mlift (Ok c)) _ c h h eq_refl). destruct (contents_end _ _ _ _ Bs D) as (Hc & Ec).
  destruct (N.leb_spec (nlen c) m) as [Q|Q].
  - split; exists b, own; (split; [assumption|]; split; [apply frame_refl|]; split; [assumption | lia]).
  - rewrite (rp_len L al Rp BR _ _ _ _ R).
    rewrite (mbind_done _ _ (b_len b + m) h h) by (unfold madd; destruct (N.ltb_spec (b_len b + m) usize_limit); [reflexivity | unfold isize_max, usize_limit in *; lia]).
    rewrite (mbind_done _ _ (b_len b + m - nlen c) h h) by (unfold msub; destruct (N.ltb_spec (b_len b + m) (nlen c)); [lia | reflexivity]).
    rewrite wadd_small, wsub_small by (unfold isize_max, usize_limit in *; lia).
    assert (Cb : b_len b <= bf_cap b) by apply (br_observe _ _ _ BR _ _ _ _ R).
    destruct (lengthen _ _ _ _ (b_len b + m - nlen c) R) as (r4 & E4 & E4' & R4); [lia|]. rewrite E4, E4'.
    assert (X : owns own h fits_in (b_len b) r4 h); [|split; exact X]. eexists. exists own. split; [exact R4|]. split; [apply frame_refl|]. unfold bf_slice at 1. cbn [b_mem b_len]. split; [|lia].
    pose proof (indefinite_fits _ _ _ (take m c) Bs D) as Y.
    replace (take (b_len b + m - nlen c) (b_mem b)) with (take (nlen (bf_slice b) - nlen c) (bf_slice b) ++ take m c); [exact Y|].
    replace (take (b_len b + m - nlen c) (b_mem b)) with (take (b_len b + m - nlen c) (bf_slice b)) by (unfold bf_slice; rewrite take_take, N.min_l by lia; reflexivity).
    rewrite <- (take_drop (nlen (bf_slice b) - nlen c) (bf_slice b)) at 3. rewrite Ec. rewrite take_app_ge by (rewrite nlen_take; lia). rewrite nlen_take. do 2 f_equal. lia.
Qed.
Lemma edit_calm f r h b own : Rp r h b own -> fits_in (bf_slice b) -> (forall c, bytes_ok c -> bytes_ok (f c)) ->
  calm al (raw_edit L f r h) (owns own h fits_in (b_len b)).
Proof using BR.
  intros R Hf Hb. assert (SL := rp_slice L al Rp BR _ _ _ _ R). destruct (rp_holds _ _ _ _ R) as (_ & Bs & Ls & _).
  unfold raw_edit. rewrite (mbind_done _ _ _ h h SL). destruct (dis_cases (bf_slice b)) as [(id & l & c & D)|(D & T1 & T2 & ->)]; [|exact I].
  destruct (tlv_id_of _ _ _ _ D) as (T1 & T2 & T3). rewrite T3, (mbind_done (mlift (Ok c)) _ c h h eq_refl).
  unfold raw_set_contents. rewrite (mbind_done _ _ _ h h SL), T3, (mbind_done (mlift (Ok c)) _ c h h eq_refl). destruct (N.eqb_spec (nlen c) (nlen (f c))) as [Q|]; [|exact I].
  destruct (contents_end _ _ _ _ Bs D) as (Hc & Ec). assert (Cb : b_len b <= bf_cap b) by apply (br_observe _ _ _ BR _ _ _ _ R).
  destruct (put _ _ _ _ (nlen (bf_slice b) - nlen c) (f c) R) as (r1 & h1 & E1 & F1 & R1).
  { apply Hb. rewrite <- Ec. now apply bytes_ok_drop. }
  { lia. }
  rewrite E1. cbn [calm]. eexists. exists own. split; [exact R1|]. split; [exact F1|]. unfold bf_slice at 1. cbn [b_mem b_len]. split; [|lia].
  replace (take (b_len b) (take (nlen (bf_slice b) - nlen c) (b_mem b) ++ f c ++ drop (nlen (bf_slice b) - nlen c + nlen (f c)) (b_mem b)))
    with (take (nlen (bf_slice b) - nlen c) (bf_slice b) ++ f c).
  - destruct (other_contents _ _ _ _ (f c) Bs D) as (_ & l' & E' & K). intros id' n' c' E. rewrite E in E'. injection E' as -> <- ->.
    destruct l as [|n]; [discriminate|]. injection K as ->. specialize (Hf _ _ _ D). rewrite nlen_app, nlen_take. lia.
  - rewrite app_assoc. assert (Tk : take (nlen (bf_slice b) - nlen c) (bf_slice b) = take (nlen (bf_slice b) - nlen c) (b_mem b)) by (unfold bf_slice at 2; rewrite take_take; f_equal; lia). rewrite Tk.
    assert (X : nlen (take (nlen (bf_slice b) - nlen c) (b_mem b) ++ f c) = b_len b) by (rewrite nlen_app, nlen_take; unfold bf_cap in Cb; lia).
    rewrite <- X. symmetry. apply take_app_exact.
Qed.
Lemma step_calm y e r h b own : Rp r h b own -> fits_in (bf_slice b) -> edit_ok e -> b_len b + more e <= isize_max ->
  calm al (edit_raw L al y e r h) (owns own h fits_in (b_len b + more e)) /\
  calm al (edit_rel L al y e r h) (owns own h fits_in (b_len b + more e)).
Proof using BR.
  intros R Hf He Hm. destruct e as [w|m|f]; cbn [edit_raw edit_rel more edit_ok] in *; rewrite ?N.add_0_r, ?N.add_assoc in *.
  - destruct y; [now apply der_extend_calm | now apply ber_extend_calm].
  - destruct y; [now apply der_truncate_calm | now apply ber_truncate_calm].
  - split; now apply edit_calm.
Qed.
Lemma most_le es : forall n m, n <= m -> most es n <= most es m.
Proof using. induction es as [|e es IH]; intros n m H; cbn [most]; [assumption|]. apply IH. lia. Qed.
Lemma most_ge es : forall n, n <= most es n.
Proof using. induction es as [|e es IH]; intros n; cbn [most]; [lia|]. specialize (IH (n + more e)). lia. Qed.
Lemma run_calm (step : edit -> raw -> M raw) :
  (forall e r h b own, Rp r h b own -> fits_in (bf_slice b) -> edit_ok e -> b_len b + more e <= isize_max -> calm al (step e r h) (owns own h fits_in (b_len b + more e))) ->
  forall es r h0 h b own0 own, Rp r h b own -> frame own0 own h0 h -> fits_in (bf_slice b) -> Forall edit_ok es -> most es (b_len b) <= isize_max ->
  calm al (edits L step es r h) (owns own0 h0 fits_in (most es (b_len b))).
Proof using BR.
  intros S es. induction es as [|e es IH]; intros r h0 h b own0 own R F Hf He Hm; cbn [edits most] in *.
  - exists b, own. split; [assumption|]. split; [assumption|]. split; [assumption | lia].
  - inversion He as [|? ? He1 He2]. subst. eapply calm_bind; [apply (S e r h b own R Hf He1); pose proof (most_ge es (b_len b + more e)); lia|].
    intros r1 h1 (b1 & own1 & R1 & F1 & Hf1 & L1). pose proof (most_le es _ _ L1).
    eapply calm_mono; [apply (IH r1 h0 h1 b1 own0 own1 R1); [eapply frame_trans; [exact F | exact F1 | intros a Ea; eapply rp_live; eassumption] | assumption | assumption | lia]|].
    intros r2 h2 (b2 & o2 & R2 & F2 & Hf2 & L2). exists b2, o2. split; [assumption|]. split; [assumption|]. split; [assumption | lia].
Qed.
(** ** From the octets on *)
Lemma made_calm (step : edit -> raw -> M raw) bs es h :
  (forall e r h b own, Rp r h b own -> fits_in (bf_slice b) -> edit_ok e -> b_len b + more e <= isize_max -> calm al (step e r h) (owns own h fits_in (b_len b + more e))) ->
  bytes_ok bs -> fits_in bs -> Forall edit_ok es -> most es (nlen bs) <= isize_max ->
  calm al (made_of L al step bs es h) (owns None h fits_in (most es (nlen bs))).
Proof using BR.
  intros S B Hf He Hm. unfold made_of. pose proof (most_ge es (nlen bs)) as G. eapply calm_bind.
  - apply calm_meets. apply (create_result L al Rp _ _ h bs (sim_from_slice L al Rp BR bs B)). intros cfg. apply from_slice_holds. lia.
  - intros r h1 (b & o & R & F & H). pose proof (holds_slice _ _ H) as Sl. pose proof (holds_len _ _ H) as Ll. rewrite <- Ll in *.
    apply (run_calm step S es r h h1 b None o R F); [now rewrite Sl | assumption | assumption].
Qed.
End STEP.
