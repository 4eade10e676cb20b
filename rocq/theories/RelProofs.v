(** The release profile (ModelRelease.v). *)
From Verif Require Import Base ModelIo ModelTag ModelContents ModelBuf ModelTlv ModelHeap ModelBufLE ModelBufUE ModelTlvRaw ModelUnwind ModelRelease
  Spec SpecIo SpecBuf SpecTlv SpecUnwind SpecRelease TagProofs IdProofs TagMain ContentsProofs TlvProofs BufProofs TlvMain StreamProofs StreamMain
  RawProofs RawMain RawTlv RawStream RawEdges UnwindProofs.

Lemma wadd_small x y : x + y < usize_limit -> wadd x y = x + y.
Proof. intros H. unfold wadd. now apply N.mod_small. Qed.
Lemma wadd_wraps x y : usize_limit <= x + y -> x + y < 2 * usize_limit -> wadd x y = x + y - usize_limit.
Proof.
  intros H1 H2. unfold wadd. replace (x + y) with (x + y - usize_limit + 1 * usize_limit) at 1 by lia.
  rewrite N.mod_add by discriminate. apply N.mod_small. lia.
Qed.
Lemma wsub_small x y : y <= x -> x < usize_limit -> wsub x y = x - y.
Proof.
  intros H1 H2. unfold wsub. replace (x + usize_limit - y) with (x - y + 1 * usize_limit) by lia.
  rewrite N.mod_add by discriminate. apply N.mod_small. lia.
Qed.

(** [m'] does what [m] does where [m] returns or aborts. *)
Definition covers {A} (m m' : M A) : Prop :=
  forall h, match m h with Done a h' => m' h = Done a h' | Abort => m' h = Abort | _ => True end.
Lemma covers_refl {A} (m : M A) : covers m m.
Proof. intros h. destruct (m h); auto. Qed.
Lemma covers_bind {A C} (m m' : M A) (k k' : A -> M C) : covers m m' -> (forall a, covers (k a) (k' a)) -> covers (mbind m k) (mbind m' k').
Proof.
  intros H1 H2 h. specialize (H1 h). unfold mbind. destruct (m h) as [a h'| | |]; auto; rewrite H1; [apply H2 | reflexivity].
Qed.
Lemma covers_add {C} x y (k : N -> M C) m' : (x + y < usize_limit -> covers (k (x + y)) m') -> covers (mbind (madd x y) k) m'.
Proof.
  intros H h. unfold mbind, madd. destruct (N.ltb_spec (x + y) usize_limit); [|exact I]. now apply H.
Qed.
Lemma covers_sub {C} x y (k : N -> M C) m' : (y <= x -> covers (k (x - y)) m') -> covers (mbind (msub x y) k) m'.
Proof.
  intros H h. unfold mbind, msub. destruct (N.ltb_spec x y); [exact I|]. now apply H.
Qed.
Lemma covers_checked L n b : covers (L_set_len_checked L n b) (L_set_len L n b).
Proof. intros h. unfold L_set_len_checked. destruct (_ <? _); [exact I|]. apply covers_refl. Qed.
Lemma covers_if {A} (c : bool) (m1 m2 m1' m2' : M A) : covers m1 m1' -> covers m2 m2' -> covers (if c then m1 else m2) (if c then m1' else m2').
Proof. now destruct c. Qed.

(** ** Der and Ber *)
Section RAW.
Context (L : layout) (al : allocator).
Lemma covers_with_header id l n : covers (raw_with_header L al id l n) (rel_with_header L al id l n).
Proof.
  unfold raw_with_header, rel_with_header. apply covers_add. intros H1. apply covers_add. intros H2.
  cbv zeta. rewrite (wadd_small (nlen id) (nlen l)), wadd_small by lia.
  repeat (apply covers_bind; [apply covers_refl|]; intros). apply covers_checked.
Qed.
Lemma covers_new id c : covers (raw_new L al id c) (rel_new L al id c).
Proof. apply covers_bind; [apply covers_with_header | intros; apply covers_refl]. Qed.
Lemma covers_new_indefinite id c : covers (raw_new_indefinite L al id c) (rel_new_indefinite L al id c).
Proof. apply covers_bind; [apply covers_with_header | intros; apply covers_refl]. Qed.
Lemma covers_total {C} items : forall acc (k : N -> M C) m', (covers (k (rel_total acc items)) m') -> covers (mbind (raw_total acc items) k) m'.
Proof.
  induction items as [|i items IH]; intros acc k m' H; [exact H|]. intros h. cbn [raw_total rel_total] in *.
  unfold mbind at 2. unfold madd. destruct (N.ltb_spec (acc + nlen i) usize_limit); [|exact I]. cbn [mret].
  rewrite (wadd_small acc (nlen i)) in H by assumption. exact (IH _ _ _ H h).
Qed.
Lemma covers_from_iterator id lb counted items : covers (raw_from_iterator L al id lb counted items) (rel_from_iterator L al id lb counted items).
Proof.
  unfold raw_from_iterator, rel_from_iterator. apply covers_total. apply covers_add. intros H1. apply covers_add. intros H2.
  cbv zeta. rewrite (wadd_small (nlen id)), wadd_small by lia. apply covers_refl.
Qed.
Lemma covers_Der_extend bytes b : covers (raw_Der_extend L al bytes b) (rel_Der_extend L al bytes b).
Proof.
  unfold raw_Der_extend, rel_Der_extend. cbv zeta. do 4 (apply covers_bind; [apply covers_refl|]; intros ?).
  apply covers_add. intros H1. apply covers_add. intros H2. apply covers_sub. intros H3.
  rewrite (wadd_small a2 (nlen bytes)) by assumption. rewrite (wadd_small (nlen bytes)) by assumption. rewrite wsub_small by assumption.
  apply covers_bind; [apply covers_refl|]. intros b1. apply covers_add. intros H4. rewrite wadd_small by assumption.
  apply covers_bind; [apply covers_checked|]. intros b2. apply covers_bind; [apply covers_refl|]. intros b3.
  apply covers_bind; [apply covers_refl|]. intros b4. intros h. destruct (negb _); [exact I|]. apply covers_refl.
Qed.
Lemma covers_Der_truncate n b : covers (raw_Der_truncate L n b) (rel_Der_truncate L n b).
Proof.
  unfold raw_Der_truncate, rel_Der_truncate. cbv zeta. do 4 (apply covers_bind; [apply covers_refl|]; intros ?).
  apply covers_if; [apply covers_refl|]. do 2 (apply covers_bind; [apply covers_refl|]; intros ?).
  apply covers_add. intros H1. apply covers_add. intros H2. rewrite (wadd_small (nlen a0)), wadd_small by lia. apply covers_checked.
Qed.
Lemma covers_Ber_extend bytes b : covers (raw_Ber_extend L al bytes b) (rel_Ber_extend L al bytes b).
Proof.
  unfold raw_Ber_extend, rel_Ber_extend. do 2 (apply covers_bind; [apply covers_refl|]; intros ?).
  destruct a0; [|apply covers_Der_extend]. do 2 (apply covers_bind; [apply covers_refl|]; intros ?).
  apply covers_add. intros H. rewrite wadd_small by assumption. apply covers_checked.
Qed.
Lemma covers_Ber_truncate n b : covers (raw_Ber_truncate L n b) (rel_Ber_truncate L n b).
Proof.
  unfold raw_Ber_truncate, rel_Ber_truncate. do 2 (apply covers_bind; [apply covers_refl|]; intros ?).
  destruct a0; [|apply covers_Der_truncate]. apply covers_bind; [apply covers_refl|]; intros c.
  apply covers_if; [apply covers_refl|]. apply covers_add. intros H1. apply covers_sub. intros H2.
  rewrite wadd_small by assumption. rewrite wsub_small by assumption. apply covers_checked.
Qed.
Lemma covers_vraw o v : covers (vraw L al o v) (rel_vraw L al o v).
Proof.
  assert (P : forall i m m', covers m m' -> covers (r <-- m ; mret (upd i (VBuf r) v)) (r <-- m' ; mret (upd i (VBuf r) v))).
  { intros i m m' H. apply covers_bind; [exact H | intros; apply covers_refl]. }
  assert (Q : forall i (f f' : L_raw L -> M (L_raw L)), (forall r, covers (f r) (f' r)) ->
    covers (match v i with VBuf r => (r <-- f r ; mret (upd i (VBuf r) v)) | _ => mub end)
           (match v i with VBuf r => (r <-- f' r ; mret (upd i (VBuf r) v)) | _ => mub end)).
  { intros i f f' H. destruct (v i); auto using covers_refl. }
  destruct o as [i [| | |]| i [| | |] |?|[] ?|[] ?|[] ?|?|?|?|?|?|?|?]; cbn [vraw rel_vraw]; try apply covers_refl;
    repeat match goal with |- context [match ?x with true => _ | false => _ end] => destruct x end; cbv zeta;
    first [ apply P; first [apply covers_new | apply covers_new_indefinite | apply covers_from_iterator]
          | apply Q; intros; first [apply covers_Der_extend | apply covers_Ber_extend | apply covers_Der_truncate | apply covers_Ber_truncate] ].
Qed.
Lemma covers_vraws os : forall v, covers (vraws L al os v) (rel_vraws L al os v).
Proof.
  induction os as [|o os IH]; intros v; [apply covers_refl|]. apply covers_bind; [apply covers_vraw | exact IH].
Qed.
End RAW.

(** ** the layouts *)
Record release_of (L : layout) (al : allocator) (ops : rel_ops (L_raw L)) : Prop := {
  ro_cap : forall k h, k < usize_limit -> r_with_capacity ops al k h = L_with_capacity L al k h;
  ro_reserve : forall k r h, L_len L r + k < usize_limit -> r_reserve ops al k r h = L_reserve L al k r h;
  ro_wraps : forall k r h, L_len L r <= L_capacity L r -> L_len L r <= isize_max -> k < usize_limit -> usize_limit <= L_len L r + k ->
    r_reserve ops al k r h = Done r h /\ L_reserve L al k r h = Crash;
  ro_set_len : forall n r h, n <= L_capacity L r -> r_set_len ops n r h = L_set_len L n r h;
  ro_push : forall v r h, L_len L r < L_capacity L r -> L_len L r + 1 < usize_limit -> r_push ops v r h = L_push L v r h;
  ro_extend : forall vals r h r1 h1, L_store L (L_len L r) vals r h = Done r1 h1 -> L_len L r1 + nlen vals <= L_capacity L r1 ->
    L_len L r1 + nlen vals < usize_limit -> r_extend ops vals r h = L_extend L vals r h;
  ro_clone : forall r, L_clone L al r = (ret <-- L_with_capacity L al (L_len L r) ; s <-- L_load L 0 (L_len L r) r ; L_extend L s ret) /\
    r_clone ops al r = (ret <-- r_with_capacity ops al (L_len L r) ; s <-- L_load L 0 (L_len L r) r ; r_extend ops s ret)
}.
Lemma le_release al : release_of LE al le_ops.
Proof.
  assert (RS : forall k r h, le_len r + k < usize_limit -> le_reserve_rel al k r h = le_reserve al k r h).
  { intros k r h H. unfold le_reserve_rel, le_reserve. rewrite wadd_small by assumption. cbv zeta.
    destruct (N.leb_spec usize_limit (le_len r + k)); [lia | reflexivity]. }
  constructor; cbn [L_raw L_len L_capacity L_reserve L_with_capacity L_set_len L_push L_extend L_store L_clone L_load LE le_ops r_with_capacity r_reserve r_set_len r_push r_extend r_clone].
  - intros k h H. unfold le_with_capacity_rel, le_with_capacity. apply RS. change (le_len le_new) with 0. lia.
  - exact RS.
  - intros k r h H1 H2 H3 H4. pose proof isize_lt. change (2 ^ 64) with usize_limit in *. unfold le_reserve_rel, le_reserve. cbv zeta. rewrite wadd_wraps by lia. split.
    + destruct (N.leb_spec (le_len r + k - usize_limit) (le_capacity r)); [reflexivity | lia].
    + destruct (N.leb_spec usize_limit (le_len r + k)); [reflexivity | lia].
  - reflexivity.
  - intros v r h H1 H2. unfold le_push_rel, le_push. cbv zeta. rewrite wadd_small by assumption. destruct (N.ltb_spec (le_len r) (le_capacity r)); [reflexivity | lia].
  - intros vals r h r1 h1 E H1 H2. unfold le_extend_rel, le_extend, mbind. rewrite E. now rewrite wadd_small.
  - intros r. split; reflexivity.
Qed.
Lemma ue_release al : release_of UE al ue_ops.
Proof.
  assert (HN : forall n, 0 < n -> ue_heap_new_rel al n = ue_heap_new al n).
  { intros n H. unfold ue_heap_new_rel, ue_heap_new. destruct (N.eqb_spec n 0); [lia | reflexivity]. }
  constructor; cbn [L_raw L_len L_capacity L_reserve L_with_capacity L_set_len L_push L_extend L_store L_clone L_load UE ue_ops r_with_capacity r_reserve r_set_len r_push r_extend r_clone].
  - intros k h H. unfold ue_with_capacity_rel, ue_with_capacity. destruct (N.leb_spec k UE_INIT_CAPACITY); [reflexivity|]. rewrite HN; [reflexivity|]. unfold UE_INIT_CAPACITY in *. lia.
  - intros k r h H. unfold ue_reserve_rel, ue_reserve. rewrite wadd_small by assumption. cbv zeta.
    destruct (N.leb_spec usize_limit (ue_len r + k)); [lia|]. destruct (N.leb_spec (ue_len r + k) (ue_capacity r)); [reflexivity|].
    rewrite HN by lia. reflexivity.
  - intros k r h H1 H2 H3 H4. pose proof isize_lt. change (2 ^ 64) with usize_limit in *. unfold ue_reserve_rel, ue_reserve. cbv zeta. rewrite wadd_wraps by lia. split.
    + destruct (N.leb_spec (ue_len r + k - usize_limit) (ue_capacity r)); [reflexivity | lia].
    + destruct (N.leb_spec usize_limit (ue_len r + k)); [reflexivity | lia].
  - intros n r h H. unfold ue_set_len_rel, ue_set_len. destruct (N.ltb_spec (ue_capacity r) n); [lia | reflexivity].
  - intros v r h H1 H2. unfold ue_push_rel, ue_push. cbv zeta. rewrite wadd_small by assumption. destruct (N.ltb_spec (ue_len r) (ue_capacity r)); [|lia].
    unfold ue_set_len_rel, ue_set_len, mbind. destruct (N.ltb_spec (ue_capacity r) (ue_len r + 1)); [lia | reflexivity].
  - intros vals r h r1 h1 E H1 H2. unfold ue_extend_rel, ue_extend, mbind. rewrite E. rewrite wadd_small by assumption.
    unfold ue_set_len_rel, ue_set_len. destruct (N.ltb_spec (ue_capacity r1) (ue_len r1 + nlen vals)); [lia | reflexivity].
  - intros r. split; reflexivity.
Qed.

Section LAYOUT.
Context (L : layout) (al : allocator) (Rp : L_raw L -> heap -> buf -> option N -> Prop) (BR : buffer_refines L al Rp)
        (ops : rel_ops (L_raw L)) (RO : release_of L al ops).
Notation Lr := (released L ops).
Lemma limits : isize_max < usize_limit. Proof. reflexivity. Qed.
Lemma rel_extend_eq r h b own bs b' : Rp r h b own -> bytes_ok bs -> bf_extend bs b = Ok b' -> r_extend ops bs r h = L_extend L bs r h.
Proof.
  intros R Hb E. pose proof limits. unfold bf_extend, rbind in E. destruct (bf_write (b_len b) bs b) as [b1| | |] eqn:E1; try discriminate.
  unfold bf_set_len in E. destruct (N.ltb_spec (bf_cap b1) (b_len b1 + nlen bs)) as [Hk|Hk]; [discriminate|].
  destruct (br_observe _ _ _ BR _ _ _ _ R) as (O1 & _).
  destruct (br_store _ _ _ BR _ _ _ _ _ _ _ R Hb E1) as (r1 & h1 & X1 & R1 & _).
  destruct (br_observe _ _ _ BR _ _ _ _ R1) as (P1 & P2 & P3 & P4 & _).
  rewrite <- O1 in X1. apply (ro_extend _ _ _ RO _ _ _ _ _ X1); lia.
Qed.
Lemma released_refines : buffer_refines Lr al Rp.
Proof.
  pose proof limits as LM.
  constructor; cbn [L_raw L_init_cap L_new L_len L_capacity L_reserve L_with_capacity L_set_len L_push L_extend L_store L_clone L_load L_from_vec L_into_vec L_drop released].
  - intros r h b own R. exact (br_observe _ _ _ BR _ _ _ _ R).
  - exact (br_owned _ _ _ BR).
  - exact (br_frame _ _ _ BR).
  - exact (br_new _ _ _ BR).
  - intros h k Hk. rewrite (ro_cap _ _ _ RO) by lia. exact (br_with_capacity _ _ _ BR h k Hk).
  - intros r h b own k R Hk. destruct (br_observe _ _ _ BR _ _ _ _ R) as (O1 & _). rewrite (ro_reserve _ _ _ RO) by (rewrite O1; lia). exact (br_reserve _ _ _ BR _ _ _ _ k R Hk).
  - exact (br_load _ _ _ BR).
  - exact (br_store _ _ _ BR).
  - intros r h b own n b' R E. destruct (br_observe _ _ _ BR _ _ _ _ R) as (_ & O2 & _).
    rewrite (ro_set_len _ _ _ RO); [exact (br_set_len _ _ _ BR _ _ _ _ _ _ R E)|].
    unfold bf_set_len in E. destruct (N.ltb_spec (bf_cap b) n); [discriminate | lia].
  - intros r h b own v b' R Hv E. destruct (br_observe _ _ _ BR _ _ _ _ R) as (O1 & O2 & O3 & O4 & _).
    rewrite (ro_push _ _ _ RO); [exact (br_push _ _ _ BR _ _ _ _ _ _ R Hv E)| |];
      unfold bf_push in E; destruct (N.ltb_spec (b_len b) (bf_cap b)); try discriminate; lia.
  - intros r h b own bs b' R Hb E. rewrite (rel_extend_eq r h b own bs b' R Hb E). exact (br_extend _ _ _ BR _ _ _ _ _ _ R Hb E).
  - intros r h b own R. pose proof (br_clone _ _ _ BR _ _ _ _ R) as K. destruct (ro_clone _ _ _ RO r) as (C1 & C2). rewrite C2. rewrite C1 in K.
    destruct (br_observe _ _ _ BR _ _ _ _ R) as (O1 & O2 & O3 & O4 & O5 & O6). unfold mbind in *. rewrite (ro_cap _ _ _ RO) by lia.
    pose proof (br_with_capacity _ _ _ BR h (L_len L r) ltac:(lia)) as W. destruct (L_with_capacity L al (L_len L r) h) as [r1 h1| | |] eqn:E1; try contradiction; auto.
    cbn [meets] in W. destruct W as (j & b1 & o1 & R1 & F1 & B1).
    destruct (L_load L 0 (L_len L r) r h1) as [s h2| | |] eqn:E2; auto.
    assert (R' : Rp r h1 b own).
    { apply (br_frame _ _ _ BR _ h _ _ _ R). intros a ->. destruct F1 as (F11 & F12 & _). apply F11; [discriminate|].
      intros ->. destruct (F12 a eq_refl) as [[=]|Z]. rewrite (br_owned _ _ _ BR _ _ _ _ R) in Z. discriminate. }
    pose proof (rp_slice L al Rp BR _ _ _ _ R') as SL. unfold L_slice in SL. rewrite SL in E2. injection E2 as <- <-.
    assert (LB : nlen (bf_slice b) = b_len b) by (unfold bf_slice, bf_cap in *; rewrite nlen_take; lia).
    assert (X : exists b2, bf_extend (bf_slice b) b1 = Ok b2).
    { unfold bf_with_capacity in B1. destruct (reserve_ok {| init_cap := L_init_cap L; junk := j |} (L_len L r) (bf_new {| init_cap := L_init_cap L; junk := j |}) [] (holds_new {| init_cap := L_init_cap L; junk := j |}) ltac:(change (nlen (@nil N)) with 0; lia)) as (b1' & s1 & Eb & M1 & L1 & K1 & P1).
      rewrite Eb in B1. injection B1 as ->. destruct (extend_ok b1 [] s1 (bf_slice b) M1 L1 ltac:(lia) P1) as (b2 & s2 & -> & _). eauto. }
    destruct X as (b2 & Eb2). rewrite (rel_extend_eq r1 h1 b1 o1 (bf_slice b) b2 R1); [exact K | | exact Eb2].
    unfold bf_slice. now apply bytes_ok_take.
  - exact (br_from_vec _ _ _ BR).
  - exact (br_into_vec _ _ _ BR).
  - exact (br_drop _ _ _ BR).
Qed.
End LAYOUT.

(** ** parse *)
Section PARSE.
Context (L : layout) (al : allocator) (Rp : L_raw L -> heap -> buf -> option N -> Prop) (BR : buffer_refines L al Rp)
        (big : forall r h b own k, Rp r h b own -> isize_max < b_len b + k -> L_reserve L al k r h = Crash \/ L_reserve L al k r h = UB)
        (ops : rel_ops (L_raw L)) (RO : release_of L al ops).
Context {S : Type} (R : user_reader S) (W : writes_octets R).
Notation Lr := (released L ops).
Notation B := (B L (S := S)).

(** [m] and [m'] run in step: the same results, the same buffer while it goes on, the same block
    owned when it ends. *)
Definition lpost {A} (V : A -> Prop) (x y : run S (L_raw L) A) : Prop :=
  match x with
  | Run (Ok a) s1 b1 h1 => y = Run (Ok a) s1 b1 h1 /\ V a /\ exists bf1 own1, Rp b1 h1 bf1 own1
  | Run r s1 b1 h1 => exists b2 bf1 bf2 own1, y = Run r s1 b2 h1 /\ Rp b1 h1 bf1 own1 /\ Rp b2 h1 bf2 own1
  | x => y = x
  end.
Definition locked {A} (V : A -> Prop) (m m' : B A) : Prop := forall s b h bf own, Rp b h bf own -> lpost V (m s b h) (m' s b h).
Lemma lpost_bind {A C} (V : A -> Prop) (V' : C -> Prop) (m m' : B A) (k k' : A -> B C) s b h : lpost V (m s b h) (m' s b h) ->
  (forall a, V a -> locked V' (k a) (k' a)) -> lpost V' (bbind L m k s b h) (bbind Lr m' k' s b h).
Proof.
  intros H K. unfold bbind. unfold lpost in H.
  destruct (m s b h) as [[a|e| |] s1 b1 h1| | |].
  - destruct H as (-> & Va & bf1 & own1 & R1). exact (K a Va s1 b1 h1 bf1 own1 R1).
  - destruct H as (b2 & bf1 & bf2 & own1 & -> & R1 & R2). exists b2, bf1, bf2, own1. auto.
  - destruct H as (b2 & bf1 & bf2 & own1 & -> & R1 & R2). exists b2, bf1, bf2, own1. auto.
  - destruct H as (b2 & bf1 & bf2 & own1 & -> & R1 & R2). exists b2, bf1, bf2, own1. auto.
  - now rewrite H.
  - now rewrite H.
  - now rewrite H.
Qed.
Lemma locked_bind {A C} (V : A -> Prop) (V' : C -> Prop) (m m' : B A) (k k' : A -> B C) : locked V m m' -> (forall a, V a -> locked V' (k a) (k' a)) ->
  locked V' (bbind L m k) (bbind Lr m' k').
Proof. intros H K s b h bf own Hr. exact (lpost_bind V V' m m' k k' s b h (H s b h bf own Hr) K). Qed.
Lemma locked_stop {A} (V : A -> Prop) (r : res A) : (forall a, r = Ok a -> V a) -> locked V (fun s b h => Run r s b h) (fun s b h => Run r s b h).
Proof.
  intros H s b h bf own Hr. destruct r as [a|e| |]; [split; [reflexivity|]; split; [now apply H | eauto] | | |]; exists b, bf, bf, own; auto.
Qed.
Lemma locked_if {A} (V : A -> Prop) (c : bool) (m1 m2 m1' m2' : B A) : locked V m1 m1' -> locked V m2 m2' -> locked V (if c then m1 else m2) (if c then m1' else m2').
Proof. now destruct c. Qed.
Lemma locked_read_u8 : locked (fun x => x < 256) (u_read_u8 L R) (u_read_u8 Lr R).
Proof.
  intros s b h bf own Hr. rewrite read_u8_run, (read_u8_run Lr). pose proof (W s 1) as (O1 & _). destruct (u_read R s 1) as [[w e] s']. cbn [fst] in O1.
  apply (locked_stop (fun x => x < 256) (u8_of w e)) with (bf := bf) (own := own) (s := s'); [|exact Hr].
  intros a E. destruct e as [[|[p|p|]]|k| |]; try discriminate. injection E as <-. destruct O1; [reflexivity | assumption].
Qed.
Lemma locked_write_u8 x : x < 256 -> locked (fun _ => True) (u_write_u8 L al x) (u_write_u8 Lr al x).
Proof.
  intros Hx s b h bf own Hr. unfold u_write_u8, bbind, breserve, bmut. pose proof limits as LM.
  destruct (br_observe _ _ _ BR _ _ _ _ Hr) as (O1 & O2 & O3 & O4 & O5 & _).
  cbn [L_reserve L_extend L_len released]. rewrite (ro_reserve _ _ _ RO) by (change usize_limit with (2 * (isize_max + 1)); rewrite O1; change isize_max with (2 ^ 63 - 1) in *; lia).
  destruct (N.le_gt_cases (b_len bf + 1) isize_max) as [Hn|Hn].
  - pose proof (br_reserve _ _ _ BR _ _ _ _ 1 Hr Hn) as X. destruct (L_reserve L al 1 b h) as [b1 h1| | |]; try contradiction; [|reflexivity].
    destruct X as (j & bf1 & own1 & R1 & F1 & E1).
    assert (Y : exists bf2, bf_extend [x] bf1 = Ok bf2).
    { destruct (reserve_ok {| init_cap := L_init_cap L; junk := j |} 1 bf (bf_slice bf) (holds_slice_of bf O3 O5)) as (b1' & s1 & Eb & M1 & L1 & K1 & P1).
      { unfold bf_slice, bf_cap in *. rewrite nlen_take. lia. }
      rewrite Eb in E1. injection E1 as ->. destruct (extend_ok bf1 _ s1 [x] M1 L1 ltac:(change (nlen [x]) with 1; lia) P1) as (b2 & s2 & -> & _). eauto. }
    destruct Y as (bf2 & E2). assert (Hb : bytes_ok [x]) by (constructor; auto).
    cbn [released r_extend L_extend]. rewrite (rel_extend_eq L al Rp BR ops RO b1 h1 bf1 own1 [x] bf2 R1 Hb E2).
    destruct (br_extend _ _ _ BR _ _ _ _ _ _ R1 Hb E2) as (b2 & h2 & -> & R2 & _). cbn [lpost]. eauto 6.
  - destruct (big b h bf own 1 Hr Hn) as [-> | ->].
    + exists b, bf, bf, own. auto.
    + destruct (isize_max <? L_len L b + 1); reflexivity.
Qed.
Lemma locked_id_loop fuel : forall octet, octet < 256 -> locked (fun _ => True) (u_parse_id_loop L al R fuel octet) (u_parse_id_loop Lr al R fuel octet).
Proof.
  induction fuel as [|fuel IH]; intros octet Ho; cbn [u_parse_id_loop].
  - apply (locked_stop (fun _ => True) NoFuel). auto.
  - eapply locked_bind; [now apply locked_write_u8|]. intros _ _. apply locked_if; [apply (locked_stop (fun _ => True) (Ok tt)); auto|].
    eapply locked_bind; [apply locked_read_u8 | exact IH].
Qed.
Lemma locked_id fuel : locked (fun _ => True) (u_parse_id L al R fuel) (u_parse_id Lr al R fuel).
Proof.
  unfold u_parse_id. eapply locked_bind; [apply locked_read_u8|]. intros first Hf. cbv beta in Hf. eapply locked_bind; [now apply locked_write_u8|]. intros _ _.
  apply locked_if; [apply (locked_stop (fun _ => True) (Ok tt)); auto|].
  eapply locked_bind; [apply locked_read_u8|]. intros octet Ho. cbv beta in Ho.
  apply locked_if; [apply (locked_stop (fun _ => True) (Err RedundantBytes)); auto|].
  apply locked_if; [apply (locked_stop (fun _ => True) (Err RedundantBytes)); auto|]. now apply locked_id_loop.
Qed.
Definition short_length (l : Length) : Prop := match l with Definite n => n < usize_limit | Indefinite => True end.
Lemma locked_length_loop k : forall len, len < usize_limit -> locked short_length (u_parse_length_loop L al R k len) (u_parse_length_loop Lr al R k len).
Proof.
  induction k as [|k IH]; intros len Hl; cbn [u_parse_length_loop].
  - apply (locked_stop short_length (Ok (Definite len))). intros a [= <-]. exact Hl.
  - eapply locked_bind; [apply locked_read_u8|]. intros byte Hb. cbv beta in Hb. eapply locked_bind; [now apply locked_write_u8|]. intros _ _. apply IH.
    rewrite N.shiftl_mul_pow2. change (2 ^ 8) with 256. change usize_limit with (2 ^ 56 * 256).
    rewrite N.mul_mod_distr_r by discriminate. pose proof (N.mod_lt len (2 ^ 56) ltac:(discriminate)). lia.
Qed.
Lemma locked_length : locked short_length (u_parse_length L al R) (u_parse_length Lr al R).
Proof.
  unfold u_parse_length. cbv zeta. eapply locked_bind; [apply locked_read_u8|]. intros first Hf. cbv beta in Hf. eapply locked_bind; [now apply locked_write_u8|]. intros _ _.
  apply locked_if; [apply (locked_stop short_length (Ok Indefinite)); intros a [= <-]; exact I|].
  apply locked_if; [apply (locked_stop short_length (Ok (Definite first))); intros a [= <-]; cbn; unfold usize_limit; lia|].
  eapply locked_bind; [apply locked_read_u8|]. intros second Hs. cbv beta in Hs.
  apply locked_if; [apply (locked_stop short_length (Err RedundantBytes)); discriminate|].
  eapply locked_bind; [now apply locked_write_u8|]. intros _ _.
  apply locked_if; [apply (locked_stop short_length (Err RedundantBytes)); discriminate|].
  apply locked_if; [apply (locked_stop short_length (Err OverFlow)); discriminate|].
  apply locked_length_loop. unfold usize_limit. lia.
Qed.
Lemma locked_id_length fuel : locked short_length (u_parse_id_length L al R fuel) (u_parse_id_length Lr al R fuel).
Proof. unfold u_parse_id_length. eapply locked_bind; [apply locked_id|]. intros _ _. apply locked_length. Qed.
Lemma call_same f off n s b h bf own : (forall s n, bytes_ok (fst (fst (f s n)))) -> Rp b h bf own -> off + n <= b_len bf ->
  lpost (fun _ => True) (bcall L f off n s b h) (bcall Lr f off n s b h).
Proof.
  intros Hf Hr Hn. unfold bcall. cbn [L_store released]. specialize (Hf s n). destruct (f s n) as [[w e] s']. cbn [fst] in Hf.
  destruct (br_observe _ _ _ BR _ _ _ _ Hr) as (O1 & O2 & O3 & O4 & O5 & _).
  assert (Hb : bytes_ok (take n w)) by now apply bytes_ok_take.
  assert (X : exists bf1, bf_write off (take n w) bf = Ok bf1).
  { unfold bf_write, mem_write, bf_cap in *. pose proof (nlen_take n w). destruct (N.ltb_spec (nlen (b_mem bf)) (off + nlen (take n w))); [lia|]. cbn [rbind]. eauto. }
  destruct X as (bf1 & E1). destruct (br_store _ _ _ BR _ _ _ _ _ _ _ Hr Hb E1) as (b1 & h1 & -> & R1 & _).
  destruct e; cbn [lpost]; eauto 10.
Qed.
(** Room for [n] more octets: both profiles make it, or both fail, or the sum overflows. *)
Lemma room_same n b h bf own : Rp b h bf own -> L_len L b + n < usize_limit ->
  r_reserve ops al n b h = L_reserve L al n b h /\
  ((exists b1 h1 bf1 own1 b2 bf2, L_reserve L al n b h = Done b1 h1 /\ Rp b1 h1 bf1 own1 /\ L_len L b1 = L_len L b /\
      L_set_len_checked L (L_len L b + n) b1 h1 = Done b2 h1 /\ r_set_len ops (L_len L b + n) b1 h1 = Done b2 h1 /\
      Rp b2 h1 bf2 own1 /\ b_len bf2 = L_len L b + n) \/
   L_reserve L al n b h = Abort \/ L_reserve L al n b h = Crash \/ (L_reserve L al n b h = UB)).
Proof.
  intros Hr Hn. split; [now apply (ro_reserve _ _ _ RO)|]. destruct (br_observe _ _ _ BR _ _ _ _ Hr) as (O1 & O2 & O3 & O4 & O5 & _).
  destruct (N.le_gt_cases (b_len bf + n) isize_max) as [Hk|Hk]; [|destruct (big b h bf own n Hr Hk); auto].
  pose proof (br_reserve _ _ _ BR _ _ _ _ n Hr Hk) as X. destruct (L_reserve L al n b h) as [b1 h1| | |]; try contradiction; [|auto].
  destruct X as (j & bf1 & own1 & R1 & F1 & E1). left.
  destruct (reserve_ok {| init_cap := L_init_cap L; junk := j |} n bf (bf_slice bf) (holds_slice_of bf O3 O5)) as (b1' & s1 & Eb & M1 & L1 & K1 & P1).
  { unfold bf_slice, bf_cap in *. rewrite nlen_take. lia. }
  rewrite Eb in E1. injection E1 as ->. destruct (br_observe _ _ _ BR _ _ _ _ R1) as (Q1 & Q2 & _).
  assert (LS : nlen (bf_slice bf) = b_len bf) by (unfold bf_slice, bf_cap in *; rewrite nlen_take; lia).
  assert (C : L_len L b + n <= bf_cap bf1) by (unfold bf_cap; rewrite M1, nlen_app; lia).
  assert (E2 : bf_set_len (L_len L b + n) bf1 = Ok {| b_mem := b_mem bf1; b_len := L_len L b + n; b_heap := b_heap bf1 |}).
  { unfold bf_set_len. destruct (N.ltb_spec (bf_cap bf1) (L_len L b + n)); [lia | reflexivity]. }
  destruct (br_set_len _ _ _ BR _ _ _ _ _ _ R1 E2) as (b2 & X2 & R2).
  exists b1, h1, bf1, own1, b2, {| b_mem := b_mem bf1; b_len := L_len L b + n; b_heap := b_heap bf1 |}.
  split; [reflexivity|]. split; [exact R1|]. split; [lia|]. unfold L_set_len_checked.
  destruct (N.ltb_spec (L_capacity L b1) (L_len L b + n)); [lia|]. split; [exact X2|].
  rewrite (ro_set_len _ _ _ RO) by lia. auto.
Qed.
(** The sum overflows: the length is set too short and the index panics. *)
Lemma room_wraps n b h bf own : Rp b h bf own -> n < usize_limit -> usize_limit <= L_len L b + n ->
  r_reserve ops al n b h = Done b h /\ L_reserve L al n b h = Crash /\
  exists b2 bf2, r_set_len ops (wadd (L_len L b) n) b h = Done b2 h /\ Rp b2 h bf2 own /\ L_len L b2 < L_len L b.
Proof.
  intros Hr Hn Ho. destruct (br_observe _ _ _ BR _ _ _ _ Hr) as (O1 & O2 & O3 & O4 & O5 & _).
  destruct (ro_wraps _ _ _ RO n b h ltac:(lia) ltac:(lia) Hn Ho) as (E1 & E2). split; [exact E1|]. split; [exact E2|].
  pose proof limits. rewrite wadd_wraps by lia.
  assert (E3 : bf_set_len (L_len L b + n - usize_limit) bf = Ok {| b_mem := b_mem bf; b_len := L_len L b + n - usize_limit; b_heap := b_heap bf |}).
  { unfold bf_set_len. destruct (N.ltb_spec (bf_cap bf) (L_len L b + n - usize_limit)); [lia | reflexivity]. }
  destruct (br_set_len _ _ _ BR _ _ _ _ _ _ Hr E3) as (b2 & X2 & R2).
  eexists b2, _. rewrite (ro_set_len _ _ _ RO) by lia. split; [exact X2|]. split; [exact R2|].
  destruct (br_observe _ _ _ BR _ _ _ _ R2) as (P1 & _). rewrite P1. cbn [b_len]. lia.
Qed.
Lemma bind_ok (L0 : layout) {A C} (m : ModelUnwind.B L0 (S := S) A) (k : A -> ModelUnwind.B L0 (S := S) C) s b h a s1 b1 h1 :
  m s b h = Run (Ok a) s1 b1 h1 -> bbind L0 m k s b h = k a s1 b1 h1.
Proof using. intros E. unfold bbind. now rewrite E. Qed.
Lemma bind_panic (L0 : layout) {A C} (m : ModelUnwind.B L0 (S := S) A) (k : A -> ModelUnwind.B L0 (S := S) C) s b h s1 b1 h1 :
  m s b h = Run Panic s1 b1 h1 -> bbind L0 m k s b h = Run Panic s1 b1 h1.
Proof using. intros E. unfold bbind. now rewrite E. Qed.
Lemma bind_end (L0 : layout) {A C} (m : ModelUnwind.B L0 (S := S) A) (k : A -> ModelUnwind.B L0 (S := S) C) s b h :
  (m s b h = RAbort -> bbind L0 m k s b h = RAbort) /\ (m s b h = ROversize -> bbind L0 m k s b h = ROversize) /\ (m s b h = RUB -> bbind L0 m k s b h = RUB).
Proof using. unfold bbind. repeat split; intros ->; reflexivity. Qed.
Lemma reserve_run n (s : S) b h : L_len L b + n < usize_limit ->
  breserve L al n s b h = match L_reserve L al n b h with Done b1 h1 => Run (Ok tt) s b1 h1 | Crash => Run Panic s b h | Abort => RAbort | UB => if isize_max <? L_len L b + n then ROversize else RUB end /\
  breserve Lr al n s b h = breserve L al n s b h.
Proof using RO.
  intros H. unfold breserve, bmut. cbn [L_reserve L_len released]. rewrite (ro_reserve _ _ _ RO) by assumption. destruct (L_reserve L al n b h); auto.
Qed.
Lemma locked_Der_body fuel : locked (fun _ => True) (u_Der_body L al R fuel) (rel_Der_body Lr al R fuel).
Proof.
  unfold u_Der_body, rel_Der_body. eapply locked_bind; [apply locked_id_length|]. intros [|n] Hn.
  { apply (locked_stop (fun _ => True) (Err IndefiniteLength)). auto. }
  cbn [short_length] in Hn. intros s b h bf own Hr. cbv zeta.
  rewrite (bind_ok L (blen L) _ s b h (L_len L b) s b h eq_refl), (bind_ok Lr (blen Lr) _ s b h (L_len L b) s b h eq_refl).
  unfold badd at 1. destruct (N.ltb_spec (L_len L b + n) usize_limit) as [Hs|Hs].
  - rewrite (bind_ok L (bret (L_len L b + n)) _ s b h _ s b h eq_refl). rewrite wadd_small by assumption.
    destruct (reserve_run n s b h Hs) as (Q1 & Q2).
    destruct (room_same n b h bf own Hr Hs) as (ER & [(b1 & h1 & bf1 & own1 & b2 & bf2 & E1 & R1 & L1 & E2 & E3 & R2 & L2)|[E1|[E1|E1]]]);
      rewrite E1 in Q1; rewrite Q1 in Q2.
    + rewrite (bind_ok L _ _ s b h _ s b1 h1 Q1), (bind_ok Lr _ _ s b h _ s b1 h1 Q2).
      rewrite (bind_ok L _ _ s b1 h1 tt s b2 h1) by (unfold bmut; now rewrite E2).
      rewrite (bind_ok Lr _ _ s b1 h1 tt s b2 h1) by (unfold bmut; cbn [L_set_len released]; now rewrite E3).
      rewrite (bind_ok Lr (blen Lr) _ s b2 h1 (L_len L b2) s b2 h1 eq_refl).
      destruct (br_observe _ _ _ BR _ _ _ _ R2) as (P1 & _). rewrite P1, L2.
      destruct (N.ltb_spec (L_len L b + n) (L_len L b)); [lia|]. replace (L_len L b + n - L_len L b) with n by lia.
      eapply lpost_bind; [apply (call_same (u_read R)) with (bf := bf2) (own := own1); [intros; apply W | exact R2 | lia]|].
      intros a _. apply locked_if; [apply (locked_stop (fun _ => True) (Err UnterminatedBytes)); auto | apply (locked_stop (fun _ => True) (Ok tt)); auto].
    + now rewrite (proj1 (bind_end L _ _ s b h) Q1), (proj1 (bind_end Lr _ _ s b h) Q2).
    + rewrite (bind_panic L _ _ s b h s b h Q1), (bind_panic Lr _ _ s b h s b h Q2). cbn [lpost]. eauto 8.
    + destruct (isize_max <? L_len L b + n).
      * now rewrite (proj1 (proj2 (bind_end L _ _ s b h)) Q1), (proj1 (proj2 (bind_end Lr _ _ s b h)) Q2).
      * now rewrite (proj2 (proj2 (bind_end L _ _ s b h)) Q1), (proj2 (proj2 (bind_end Lr _ _ s b h)) Q2).
  - rewrite (bind_panic L bpanic _ s b h s b h eq_refl). destruct (room_wraps n b h bf own Hr Hn Hs) as (E1 & _ & b2 & bf2 & E2 & R2 & L2).
    rewrite (bind_ok Lr _ _ s b h tt s b h) by (unfold breserve, bmut; cbn [L_reserve released]; now rewrite E1).
    rewrite (bind_ok Lr _ _ s b h tt s b2 h) by (unfold bmut; cbn [L_set_len released]; now rewrite E2).
    rewrite (bind_ok Lr (blen Lr) _ s b2 h (L_len L b2) s b2 h eq_refl).
    destruct (N.ltb_spec (L_len L b2) (L_len L b)); [|lia]. cbn [lpost]. exists b2, bf, bf2, own. auto.
Qed.
Lemma locked_slice : locked (fun _ => True) (bslice L) (bslice Lr).
Proof. intros s b h bf own Hr. unfold bslice. cbn [L_slice L_load L_len released]. unfold L_slice. cbn [L_load L_len released]. pose proof (rp_slice L al Rp BR _ _ _ _ Hr) as E. unfold L_slice in E. rewrite E. cbn [lpost]. eauto 6. Qed.
Lemma locked_Ber_do_parse fuel : locked (fun _ => True) (u_Ber_do_parse L al R fuel) (rel_Ber_do_parse Lr al R fuel).
Proof.
  unfold u_Ber_do_parse, rel_Ber_do_parse.
  eapply (locked_bind (fun _ => True)). { intros s b h bf own Hr. unfold blen. cbn [lpost L_len released]. eauto 6. }
  intros init_len _. eapply locked_bind; [apply locked_id_length|]. intros [|n] Hn.
  { apply (locked_stop (fun _ => True) (Ok 1%Z)). auto. }
  cbn [short_length] in Hn. intros s b h bf own Hr. cbv zeta.
  destruct (N.ltb_spec (L_len L b + n) usize_limit) as [Hs|Hs].
  - destruct (reserve_run n s b h Hs) as (Q1 & Q2).
    destruct (room_same n b h bf own Hr Hs) as (ER & [(b1 & h1 & bf1 & own1 & b2 & bf2 & E1 & R1 & L1 & E2 & E3 & R2 & L2)|[E1|[E1|E1]]]);
      rewrite E1 in Q1; rewrite Q1 in Q2.
    + rewrite (bind_ok L _ _ s b h _ s b1 h1 Q1), (bind_ok Lr _ _ s b h _ s b1 h1 Q2).
      rewrite (bind_ok L (blen L) _ s b1 h1 (L_len L b1) s b1 h1 eq_refl), (bind_ok Lr (blen Lr) _ s b1 h1 (L_len L b1) s b1 h1 eq_refl). rewrite L1.
      unfold badd at 1. destruct (N.ltb_spec (L_len L b + n) usize_limit); [|lia]. rewrite (bind_ok L (bret (L_len L b + n)) _ s b1 h1 _ s b1 h1 eq_refl). rewrite wadd_small by assumption.
      rewrite (bind_ok L _ _ s b1 h1 tt s b2 h1) by (unfold bmut; now rewrite E2).
      rewrite (bind_ok Lr _ _ s b1 h1 tt s b2 h1) by (unfold bmut; cbn [L_set_len released]; now rewrite E3).
      rewrite (bind_ok Lr (blen Lr) _ s b2 h1 (L_len L b2) s b2 h1 eq_refl).
      destruct (br_observe _ _ _ BR _ _ _ _ R2) as (P1 & _). rewrite P1, L2.
      destruct (N.ltb_spec (L_len L b + n) (L_len L b)); [lia|]. replace (L_len L b + n - L_len L b) with n by lia.
      eapply lpost_bind; [apply (call_same (u_read_exact R)) with (bf := bf2) (own := own1); [intros; apply W | exact R2 | lia]|].
      intros a _. eapply locked_bind; [apply locked_slice|]. intros bs _. apply (locked_stop (fun _ => True) (Ok _)). auto.
    + now rewrite (proj1 (bind_end L _ _ s b h) Q1), (proj1 (bind_end Lr _ _ s b h) Q2).
    + rewrite (bind_panic L _ _ s b h s b h Q1), (bind_panic Lr _ _ s b h s b h Q2). cbn [lpost]. eauto 8.
    + destruct (isize_max <? L_len L b + n).
      * now rewrite (proj1 (proj2 (bind_end L _ _ s b h)) Q1), (proj1 (proj2 (bind_end Lr _ _ s b h)) Q2).
      * now rewrite (proj2 (proj2 (bind_end L _ _ s b h)) Q1), (proj2 (proj2 (bind_end Lr _ _ s b h)) Q2).
  - destruct (room_wraps n b h bf own Hr Hn Hs) as (E1 & E0 & b2 & bf2 & E2 & R2 & L2).
    rewrite (bind_panic L _ _ s b h s b h) by (unfold breserve, bmut; now rewrite E0).
    rewrite (bind_ok Lr _ _ s b h tt s b h) by (unfold breserve, bmut; cbn [L_reserve released]; now rewrite E1).
    rewrite (bind_ok Lr (blen Lr) _ s b h (L_len L b) s b h eq_refl).
    rewrite (bind_ok Lr _ _ s b h tt s b2 h) by (unfold bmut; cbn [L_set_len released]; now rewrite E2).
    rewrite (bind_ok Lr (blen Lr) _ s b2 h (L_len L b2) s b2 h eq_refl).
    destruct (N.ltb_spec (L_len L b2) (L_len L b)); [|lia]. cbn [lpost]. exists b2, bf, bf2, own. auto.
Qed.
Lemma locked_Ber_loop ifuel fuel : forall d, locked (fun _ => True) (u_Ber_loop L al R ifuel fuel d) (rel_Ber_loop Lr al R ifuel fuel d).
Proof.
  induction fuel as [|fuel IH]; intros d; cbn [u_Ber_loop rel_Ber_loop].
  - apply (locked_stop (fun _ => True) NoFuel). auto.
  - eapply locked_bind; [apply locked_Ber_do_parse|]. intros z _. apply locked_if; [apply IH | apply (locked_stop (fun _ => True) (Ok tt)); auto].
Qed.
(** Whole functions. *)
Lemma owning_agree (m m' : B unit) s b h bf own : locked (fun _ => True) m m' -> Rp b h bf own ->
  match owning L m s b h with EUB => True | x => agree x (owning Lr m' s b h) end.
Proof.
  intros H Hr. specialize (H s b h bf own Hr). unfold owning. cbn [L_drop released].
  assert (D : forall r s1 b1 b2 h1 bf1 bf2 own1, Rp b1 h1 bf1 own1 -> Rp b2 h1 bf2 own1 ->
    match (match L_drop L b1 h1 with Done _ h' => Ends r s1 h' | Abort => EAbort | _ => EUB end : ends S (L_raw L)) with EUB => True | x =>
      agree x (match L_drop L b2 h1 with Done _ h' => Ends r s1 h' | Abort => EAbort | _ => EUB end) end).
  { intros r s1 b1 b2 h1 bf1 bf2 own1 R1 R2. destruct (br_drop _ _ _ BR _ _ _ _ R1) as (h2 & -> & F1 & _ & F2). destruct (br_drop _ _ _ BR _ _ _ _ R2) as (h3 & -> & F3 & _ & F4).
    cbn [agree]. split; [reflexivity|]. split; [reflexivity|]. intros a. destruct own1 as [o|].
    - destruct (N.eq_dec a o) as [->|Ha]; [rewrite F4, F2; (reflexivity || discriminate)|]. rewrite F1, F3; congruence.
    - rewrite F1, F3; (discriminate || reflexivity). }
  destruct (m s b h) as [[a|e| |] s1 b1 h1| | |]; cbn [lpost] in H.
  - destruct H as (-> & _). cbn [agree]. repeat split.
  - destruct H as (b2 & bf1 & bf2 & own1 & -> & R1 & R2). exact (D (Err e) s1 b1 b2 h1 bf1 bf2 own1 R1 R2).
  - destruct H as (b2 & bf1 & bf2 & own1 & -> & R1 & R2). exact (D Panic s1 b1 b2 h1 bf1 bf2 own1 R1 R2).
  - destruct H as (b2 & bf1 & bf2 & own1 & -> & R1 & R2). exact (D NoFuel s1 b1 b2 h1 bf1 bf2 own1 R1 R2).
  - rewrite H. exact I.
  - rewrite H. exact I.
  - exact I.
Qed.
Theorem der_parse_agrees fuel s h : agree (u_Der_parse L al R fuel s h) (rel_Der_parse Lr al R fuel s h).
Proof.
  pose proof (owning_agree _ _ s (L_new L) h _ None (locked_Der_body fuel) (br_new _ _ _ BR h (fun _ => 0))) as K.
  pose proof (der_parse_cleans L al Rp BR big R fuel s h W) as C. unfold u_Der_parse in *. unfold rel_Der_parse. cbn [L_new released].
  destruct (owning L (u_Der_body L al R fuel) s (L_new L) h); try exact K. contradiction.
Qed.
Theorem ber_parse_agrees fuel s h : agree (u_Ber_parse L al R fuel s h) (rel_Ber_parse Lr al R fuel s h).
Proof.
  pose proof (owning_agree _ _ s (L_new L) h _ None (locked_Ber_loop fuel fuel 0) (br_new _ _ _ BR h (fun _ => 0))) as K.
  pose proof (ber_parse_cleans L al Rp BR big R fuel s h W) as C. unfold u_Ber_parse in *. unfold rel_Ber_parse. cbn [L_new released].
  destruct (owning L (u_Ber_loop L al R fuel fuel 0) s (L_new L) h); try exact K. contradiction.
Qed.
End PARSE.

(** ** whole programs *)
Lemma covers_rrun L al os : forall v, covers (rrun L al os v) (rel_rrun L al os v).
Proof.
  induction os as [|o os IH]; intros v; [apply covers_refl|]. apply covers_bind; [|exact IH].
  destruct o; try apply covers_refl. cbn [rstep rel_rstep]. destruct (v i); try apply covers_refl.
  apply covers_bind; [apply covers_checked | intros; apply covers_refl].
Qed.
Lemma meets_covers {A} al (m m' : M A) h Q : covers m m' -> meets al (m h) Q -> meets al (m' h) Q.
Proof. intros C H. specialize (C h). unfold meets in *. destruct (m h); try contradiction; rewrite C; exact H. Qed.

Section BUILD.
Context (L : layout) (al : allocator) (Rp : L_raw L -> heap -> buf -> option N -> Prop) (BR : buffer_refines L al Rp)
        (big : forall r h b own k, Rp r h b own -> isize_max < b_len b + k -> L_reserve L al k r h = Crash \/ L_reserve L al k r h = UB)
        (cap_big : forall n h, isize_max < n -> L_with_capacity L al n h = Crash)
        (ops : rel_ops (L_raw L)) (RO : release_of L al ops).
Notation Lr := (released L ops).
(** ** extend_from_slice *)
Lemma big_reserve (k : L_raw L -> M (L_raw L)) n b h bf own : Rp b h bf own -> isize_max < b_len bf + n -> b_len bf + n < usize_limit ->
  match mbind (L_reserve Lr al n b) k h with Done _ _ | Abort => False | _ => True end.
Proof using BR big RO.
  clear cap_big. intros R H1 H2. destruct (br_observe _ _ _ BR _ _ _ _ R) as (O1 & _). unfold mbind. cbn [L_reserve released]. rewrite (ro_reserve _ _ _ RO) by lia.
  destruct (big b h bf own n R H1) as [-> | ->]; exact I.
Qed.
Definition outgrows (o : outcome (L_raw L)) (h : heap) (own : option N) (new : list N) : Prop :=
  match o with
  | Done b' h' => exists bf' own', Rp b' h' bf' own' /\ frame own own' h h' /\ bf_slice bf' = new
  | Abort => out_of_memory al
  | Crash | UB => isize_max < nlen new
  end.
Lemma outgrows_fits (f f' : L_raw L -> M (L_raw L)) g b h bf own new : asim Lr al Rp f g -> covers (f b) (f' b) -> Rp b h bf own ->
  (forall c, exists b', g c bf = Ok b' /\ holds b' new) -> outgrows (f' b h) h own new.
Proof using.
  intros A C R Hg. pose proof (meets_covers al _ _ h _ C (alloc_result Lr al Rp f g b h bf own new A R Hg)) as X. unfold meets, contains in X. unfold outgrows.
  destruct (f' b h) as [b' h'| | |]; try contradiction; [|exact X]. destruct X as (bf' & o' & R' & F' & H').
  exists bf', o'. split; [assumption|]. split; [assumption|]. now apply holds_slice.
Qed.
Lemma outgrows_big o h own new : match o with Done _ _ | Abort => False | _ => True end -> isize_max < nlen new -> outgrows o h own new.
Proof using. destruct o; (contradiction || auto). Qed.
Theorem rel_der_extend bytes b h bf own id c : Rp b h bf own -> is_identifier id -> bytes_ok bytes -> bytes_ok c ->
  holds bf (id ++ Length_to_bytes (Definite (nlen c)) ++ c) ->
  nlen (id ++ Length_to_bytes (Definite (nlen (c ++ bytes))) ++ c ++ bytes) < usize_limit ->
  outgrows (rel_Der_extend Lr al bytes b h) h own (id ++ Length_to_bytes (Definite (nlen (c ++ bytes))) ++ c ++ bytes).
Proof using BR big RO.
  clear cap_big. intros R Hi Hb Hc H Hnew. pose proof isize_lt. pose proof limits. pose proof (released_refines L al Rp BR ops RO) as BR'.
  pose proof (br_observe _ _ _ BR _ _ _ _ R) as (_ & _ & Ob1 & Ob2 & _).
  assert (Hfit : nlen id + nlen (Length_to_bytes (Definite (nlen c))) + nlen c <= isize_max).
  { rewrite (holds_len _ _ H), !nlen_app in Ob1. lia. }
  assert (Hu : nlen c + nlen bytes < usize_limit) by (rewrite !nlen_app in Hnew; lia).
  assert (Hl : nlen (Length_to_bytes (Definite (nlen (c ++ bytes)))) = Length_len (Definite (nlen c + nlen bytes))) by (rewrite nlen_app; now apply len_len).
  destruct (N.le_gt_cases (nlen id + Length_len (Definite (nlen c + nlen bytes)) + nlen c + nlen bytes) isize_max) as [Hn|Hn].
  - apply (outgrows_fits (raw_Der_extend Lr al bytes) (rel_Der_extend Lr al bytes) (fun c => Der_extend c bytes) b h bf own _ (sim_Der_extend Lr al Rp BR' bytes Hb)).
    + exact (covers_Der_extend Lr al bytes b).
    + exact R.
    + intros cfg. now apply Der_extend_ok.
  - apply outgrows_big; [|rewrite !nlen_app in *; lia]. unfold rel_Der_extend. cbv zeta.
    assert (Hm0 : minimal_length (nlen c) (Length_to_bytes (Definite (nlen c)))) by (apply Length_to_bytes_minimal; unfold isize_max, usize_limit in *; lia).
    destruct (tlv_parts_definite id (nlen c) _ c Hi Hm0 ltac:(lia)) as (T1 & T2 & _ & _).
    assert (SL : L_slice Lr b h = Done (id ++ Length_to_bytes (Definite (nlen c)) ++ c) h) by (rewrite (rp_slice Lr al Rp BR' _ _ _ _ R), (holds_slice _ _ H); reflexivity).
    rewrite (mbind_done _ _ _ h h SL). rewrite T1, T2. cbn [mlift]. unfold mbind at 1, mret at 1. unfold mbind at 1, mret at 1.
    change (unwrap (Length_definite (Definite (nlen c)))) with (Ok (nlen c)). cbn [mlift]. unfold mbind at 1, mret at 1.
    rewrite (wadd_small (nlen c)) by assumption. rewrite !nlen_app, <- nlen_app, Hl in Hnew.
    rewrite nlen_app in Hnew.
    rewrite (wadd_small (nlen bytes)) by lia.
    assert (HM : Length_len (Definite (nlen c)) <= Length_len (Definite (nlen c + nlen bytes))) by (apply Length_len_mono; lia).
    rewrite wsub_small by lia. apply (big_reserve _ _ b h bf own R); rewrite (holds_len _ _ H), !nlen_app, len_len by lia; lia.
Qed.
Theorem rel_ber_extend bytes b h bf own id c : Rp b h bf own -> is_identifier id -> bytes_ok bytes -> bytes_ok c ->
  (holds bf (id ++ Length_to_bytes (Definite (nlen c)) ++ c) ->
   nlen (id ++ Length_to_bytes (Definite (nlen (c ++ bytes))) ++ c ++ bytes) < usize_limit ->
   outgrows (rel_Ber_extend Lr al bytes b h) h own (id ++ Length_to_bytes (Definite (nlen (c ++ bytes))) ++ c ++ bytes)) /\
  (holds bf (id ++ 0x80 :: c) -> nlen (id ++ 0x80 :: c ++ bytes) < usize_limit ->
   outgrows (rel_Ber_extend Lr al bytes b h) h own (id ++ 0x80 :: c ++ bytes)).
Proof using BR big RO.
  clear cap_big. intros R Hi Hb Hc. pose proof isize_lt as Hisz. pose proof limits. pose proof (released_refines L al Rp BR ops RO) as BR'.
  pose proof (br_observe _ _ _ BR _ _ _ _ R) as (_ & _ & Ob1 & Ob2 & _). split; intros H1 Hnew.
  - assert (E : rel_Ber_extend Lr al bytes b h = rel_Der_extend Lr al bytes b h).
    { rewrite (holds_len _ _ H1), !nlen_app in Ob1.
      assert (Hm0 : minimal_length (nlen c) (Length_to_bytes (Definite (nlen c)))) by (apply Length_to_bytes_minimal; unfold isize_max, usize_limit in *; lia).
      destruct (tlv_parts_definite id (nlen c) _ c Hi Hm0 ltac:(lia)) as (_ & T2 & _ & _).
      unfold rel_Ber_extend.
      assert (SL : L_slice Lr b h = Done (id ++ Length_to_bytes (Definite (nlen c)) ++ c) h) by (rewrite (rp_slice Lr al Rp BR' _ _ _ _ R), (holds_slice _ _ H1); reflexivity).
      rewrite (mbind_done _ _ _ h h SL). rewrite T2. reflexivity. }
    rewrite E. now apply (rel_der_extend bytes b h bf own id c).
  - destruct (N.le_gt_cases (nlen id + 1 + nlen c + nlen bytes) isize_max) as [Hn|Hn].
    + apply (outgrows_fits (raw_Ber_extend Lr al bytes) (rel_Ber_extend Lr al bytes) (fun c => Ber_extend c bytes) b h bf own _ (sim_Ber_extend Lr al Rp BR' bytes Hb)).
      * exact (covers_Ber_extend Lr al bytes b).
      * exact R.
      * intros cfg. now apply Ber_extend_indefinite.
    + rewrite nlen_app, nlen_cons, nlen_app in Hnew. apply outgrows_big; [|rewrite nlen_app, nlen_cons, nlen_app; lia].
      destruct (tlv_parts_indefinite id c Hi) as (_ & T2 & _). unfold rel_Ber_extend.
      assert (SL : L_slice Lr b h = Done (id ++ 0x80 :: c) h) by (rewrite (rp_slice Lr al Rp BR' _ _ _ _ R), (holds_slice _ _ H1); reflexivity).
      rewrite (mbind_done _ _ _ h h SL). rewrite T2. cbn [mlift]. unfold mbind at 1, mret at 1.
      apply (big_reserve _ _ b h bf own R); rewrite (holds_len _ _ H1), nlen_app, nlen_cons; lia.
Qed.

(** ** from_id_iterator *)
Lemma rel_total_sum items : forall acc, acc < usize_limit -> rel_total acc items = (acc + nlen (concat items)) mod usize_limit.
Proof using.
  induction items as [|i items IH]; intros acc H; cbn [rel_total concat].
  - change (nlen (@nil N)) with 0. rewrite N.add_0_r, N.mod_small; auto.
  - rewrite IH by (apply N.mod_lt; discriminate). unfold wadd. rewrite nlen_app, N.add_assoc, N.add_mod_idemp_l by discriminate. reflexivity.
Qed.
Theorem rel_iterator id lb items h : bytes_ok id -> Forall bytes_ok items -> (forall n, n < usize_limit -> bytes_ok (lb n)) ->
  let n := nlen (concat items) in
  nlen id + nlen (lb n) + n < usize_limit ->
  match rel_from_iterator Lr al id lb items items h with
  | Done b h' => new_value L h b (id ++ lb n ++ concat items) h'
  | Abort => out_of_memory al
  | Crash => isize_max < nlen id + nlen (lb n) + n
  | UB => False
  end.
Proof using BR cap_big RO.
  clear big. intros Hi Hs Hl n Hn. pose proof (released_refines L al Rp BR ops RO) as BR'.
  destruct (N.le_gt_cases (nlen id + nlen (lb n) + n) isize_max) as [Hk|Hk].
  - pose proof (meets_covers al _ _ h _ (covers_from_iterator Lr al id lb items items)
      (create_result Lr al Rp _ _ h (id ++ lb n ++ concat items) (sim_from_iterator Lr al Rp BR' id lb items Hi Hs Hl)
        (fun cfg => from_iterator_ok cfg id lb items Hk))) as X. unfold meets in X.
    destruct (rel_from_iterator Lr al id lb items items h) as [b h'| | |]; try contradiction; [|exact X].
    destruct X as (bf & own & R & F & H). split; [rewrite <- (holds_slice _ _ H); exact (rp_slice L al Rp BR _ _ _ _ R)|]. split.
    + intros a x Ha. destruct F as (F1 & F2 & _). rewrite F1; [assumption | discriminate |]. intros ->. destruct (F2 a eq_refl) as [[=]|Z]. congruence.
    + destruct (br_drop _ _ _ BR _ _ _ _ R) as (h2 & E & F3). exists h2. split; [exact E|]. intros a. revert a. apply frame_none.
      eapply frame_trans; [eassumption | eassumption |]. intros y Ey. eapply rp_live; eassumption.
  - unfold rel_from_iterator. cbv zeta. rewrite rel_total_sum by reflexivity. rewrite N.add_0_l. fold n. rewrite N.mod_small by lia.
    rewrite (wadd_small (nlen id)), wadd_small by lia. unfold mbind at 1. cbn [L_with_capacity released]. rewrite (ro_cap _ _ _ RO) by lia. rewrite cap_big by assumption. exact Hk.
Qed.
End BUILD.

(** Octets enough for the length to wrap around to 0. *)
Lemma concat_repeat_len (x : list N) k : nlen (concat (repeat x k)) = N.of_nat k * nlen x.
Proof. induction k as [|k IH]; [reflexivity|]. cbn [repeat concat]. rewrite nlen_app, IH. lia. Qed.
Lemma overrun_le al x k h : nlen x = 32 -> N.of_nat k * nlen x = usize_limit ->
  rel_Der_from_id_iterator LE_release al [4] (repeat x k) (repeat x k) h = UB.
Proof.
  intros Hx Hk. unfold rel_Der_from_id_iterator, rel_from_iterator. rewrite rel_total_sum by reflexivity. rewrite N.add_0_l, concat_repeat_len, Hk.
  change (usize_limit mod usize_limit) with 0.
  destruct k as [|k]; [change (N.of_nat 0) with 0 in Hk; rewrite N.mul_0_l in Hk; discriminate|]. cbn [repeat raw_extend_all].
  set (rest := raw_extend_all LE_release (repeat x k)). clearbody rest.
  assert (E : forall kk : L_raw LE_release -> M (L_raw LE_release), mbind (L_extend LE_release x ((4 :: 0 :: repeat 0 21) ++ [2])) kk h = UB).
  { intros kk. unfold mbind. cbn [L_extend LE_release released le_ops r_extend]. unfold le_extend_rel, mbind, le_store.
    change (le_is_stack ((4 :: 0 :: repeat 0 21) ++ [2])) with true. cbv iota. change (le_len ((4 :: 0 :: repeat 0 21) ++ [2])) with 2. rewrite Hx. reflexivity. }
  exact (E rest).
Qed.
Lemma overrun_ue al x k h : nlen x = 32 -> N.of_nat k * nlen x = usize_limit ->
  rel_Der_from_id_iterator UE_release al [4] (repeat x k) (repeat x k) h = UB.
Proof.
  intros Hx Hk. unfold rel_Der_from_id_iterator, rel_from_iterator. rewrite rel_total_sum by reflexivity. rewrite N.add_0_l, concat_repeat_len, Hk.
  change (usize_limit mod usize_limit) with 0.
  destruct k as [|k]; [change (N.of_nat 0) with 0 in Hk; rewrite N.mul_0_l in Hk; discriminate|]. cbn [repeat raw_extend_all].
  set (rest := raw_extend_all UE_release (repeat x k)). clearbody rest.
  assert (E : forall kk : L_raw UE_release -> M (L_raw UE_release), mbind (L_extend UE_release x {| u_len_ := 2; u_union := 4 :: 0 :: repeat 0 14 |}) kk h = UB).
  { intros kk. unfold mbind. cbn [L_extend UE_release released ue_ops r_extend]. unfold ue_extend_rel, mbind, ue_store.
    change (ue_is_stack {| u_len_ := 2; u_union := 4 :: 0 :: repeat 0 14 |}) with true. cbv iota. change (ue_len {| u_len_ := 2; u_union := 4 :: 0 :: repeat 0 14 |}) with 2. rewrite Hx. reflexivity. }
  exact (E rest).
Qed.
Lemma dev_total_crashes {C} items : forall acc (k : N -> M C) h, usize_limit <= acc + nlen (concat items) -> acc < usize_limit -> mbind (raw_total acc items) k h = Crash.
Proof.
  induction items as [|i items IH]; intros acc k h H1 H2; cbn [raw_total concat] in *.
  - change (nlen (@nil N)) with 0 in H1. lia.
  - rewrite nlen_app in H1. unfold mbind, madd. destruct (N.ltb_spec (acc + nlen i) usize_limit); [|reflexivity]. cbn [mret].
    apply (IH (acc + nlen i) k h); lia.
Qed.
