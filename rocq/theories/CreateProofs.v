(** Creating values: how the constructors of Der and Ber end, for every size of the value. *)
From Verif Require Import Base ModelIo ModelTag ModelContents ModelBuf ModelTlv ModelHeap ModelBufLE ModelBufUE ModelTlvRaw ModelUnwind ModelRelease
  Spec SpecIo SpecBuf SpecTlv SpecUnwind SpecRelease SpecCreate TagProofs IdProofs TagMain ContentsProofs TlvProofs BufProofs TlvMain StreamProofs StreamMain
  RawProofs RawMain RawTlv RawStream RawEdges UnwindProofs RelProofs.

Section CREATE.
Context (L : layout) (al : allocator) (Rp : L_raw L -> heap -> buf -> option N -> Prop) (BR : buffer_refines L al Rp).
Notation cf j := {| init_cap := L_init_cap L; junk := j |}.
Context (cap_big : forall n h, isize_max < n -> L_with_capacity L al n h = Crash).

Lemma rep_value h r h' bf own bs : Rp r h' bf own -> frame None own h h' -> holds bf bs -> new_value L h r bs h'.
Proof using BR.
  clear cap_big. intros R F H. split; [rewrite <- (holds_slice _ _ H); exact (rp_slice L al Rp BR _ _ _ _ R)|]. split.
  - intros a x Ha. destruct F as (F1 & F2 & _). rewrite F1; [assumption | discriminate |]. intros ->. destruct (F2 a eq_refl) as [[=]|Z]. congruence.
  - destruct (br_drop _ _ _ BR _ _ _ _ R) as (h2 & E & F3). exists h2. split; [exact E|]. intros a. revert a. apply frame_none.
    eapply frame_trans; [eassumption | eassumption |]. intros y Ey. eapply rp_live; eassumption.
Qed.
Lemma fits (k : M (L_raw L)) f h (P : list N -> Prop) : csim L al Rp k f -> (forall cfg, exists b bs, f cfg = Ok b /\ holds b bs /\ P bs) ->
  meets al (k h) (fun b h' => exists bs, P bs /\ new_value L h b bs h').
Proof using BR.
  clear cap_big. intros S A. eapply meets_mono; [apply (S h)|].
  - intros j. destruct (A (cf j)) as (b & bs & E & _). eauto.
  - cbv beta. intros r' h' (j & b' & o' & R' & F & E). destruct (A (cf j)) as (b & bs & E2 & H2 & HP). rewrite E in E2. injection E2 as <-.
    exists bs. split; [assumption|]. eapply rep_value; eassumption.
Qed.
Lemma creates_fits o h P total : total <= isize_max -> meets al o (fun b h' => exists bs, P bs /\ new_value L h b bs h') -> creates L al h o P total.
Proof using. clear cap_big BR Rp. intros Ht X. unfold creates, meets in *. destruct o; try contradiction; (split; [|exact X]); split; (discriminate || lia). Qed.
Lemma creates_big o h P total : isize_max < total -> o = Crash -> creates L al h o P total.
Proof using. intros Ht ->. split; [tauto | exact I]. Qed.

Lemma header_crash id len n h : isize_max < nlen id + nlen len + n -> raw_with_header L al id len n h = Crash.
Proof using cap_big.
  clear BR Rp. intros Hk. unfold raw_with_header, mbind, madd. destruct (N.ltb_spec (nlen id + nlen len) usize_limit); [|reflexivity]. cbn [mret].
  destruct (N.ltb_spec (nlen id + nlen len + n) usize_limit); [|reflexivity]. cbn [mret]. now rewrite cap_big.
Qed.
Theorem create_header id len n h : bytes_ok id -> bytes_ok len ->
  creates L al h (raw_with_header L al id len n h) (fun bs => exists c, bs = id ++ len ++ c /\ nlen c = n /\ bytes_ok c) (nlen id + nlen len + n).
Proof using BR cap_big.
  intros Hi Hl. destruct (N.le_gt_cases (nlen id + nlen len + n) isize_max) as [Hk|Hk].
  - apply creates_fits; [assumption|]. eapply fits; [now apply sim_with_header|]. intros cfg.
    destruct (with_header_ok cfg id len n Hk) as (b & c & E & Hb & Lc & Hc). exists b, (id ++ len ++ c). eauto 10.
  - apply creates_big; [assumption|]. now apply header_crash.
Qed.
Theorem create_new id c h : is_identifier id -> bytes_ok c ->
  creates L al h (raw_new L al id c h) (fun bs => bs = id ++ Length_to_bytes (Definite (nlen c)) ++ c) (nlen id + nlen (Length_to_bytes (Definite (nlen c))) + nlen c).
Proof using BR cap_big.
  intros Hi Hc. destruct (N.le_gt_cases (nlen id + nlen (Length_to_bytes (Definite (nlen c))) + nlen c) isize_max) as [Hk|Hk].
  - apply creates_fits; [assumption|]. eapply fits; [apply sim_new; [exact BR | now apply is_identifier_ok | assumption | pose proof limits; lia]|]. intros cfg.
    assert (Hl : nlen c < 2 ^ 64) by (change (2 ^ 64) with usize_limit; pose proof limits; lia). rewrite (len_len (nlen c) Hl) in Hk. destruct (Der_new_ok cfg id c Hi Hk) as (b & E & Hb). exists b. eauto.
  - apply creates_big; [assumption|]. unfold raw_new, mbind. now rewrite header_crash.
Qed.
Theorem create_new_indefinite id c h : is_identifier id -> bytes_ok c ->
  creates L al h (raw_new_indefinite L al id c h) (fun bs => bs = id ++ 0x80 :: c) (nlen id + 1 + nlen c).
Proof using BR cap_big.
  intros Hi Hc. destruct (N.le_gt_cases (nlen id + 1 + nlen c) isize_max) as [Hk|Hk].
  - apply creates_fits; [assumption|]. eapply fits; [apply sim_new_indefinite; [exact BR | now apply is_identifier_ok | assumption]|]. intros cfg.
    destruct (Ber_new_indefinite_ok cfg id c Hi Hk) as (b & E & Hb). exists b. eauto.
  - apply creates_big; [assumption|]. unfold raw_new_indefinite, mbind. now rewrite header_crash.
Qed.
Lemma raw_total_sum items : forall acc h, acc + nlen (concat items) < usize_limit -> raw_total acc items h = Done (acc + nlen (concat items)) h.
Proof using.
  clear. induction items as [|i items IH]; intros acc h H; cbn [raw_total concat] in *.
  - rewrite nlen_nil, N.add_0_r. reflexivity.
  - rewrite nlen_app in *. unfold mbind, madd. destruct (N.ltb_spec (acc + nlen i) usize_limit); [|lia]. cbn [mret]. rewrite IH by lia. f_equal. lia.
Qed.
Theorem create_iterator id lb items h : bytes_ok id -> Forall bytes_ok items -> (forall n, n < usize_limit -> bytes_ok (lb n)) ->
  let n := nlen (concat items) in
  creates L al h (raw_from_iterator L al id lb items items h) (fun bs => bs = id ++ lb n ++ concat items) (nlen id + nlen (lb n) + n).
Proof using BR cap_big.
  intros Hi Hs Hl n. destruct (N.le_gt_cases (nlen id + nlen (lb n) + n) isize_max) as [Hk|Hk].
  - apply creates_fits; [assumption|]. eapply fits; [now apply sim_from_iterator|]. intros cfg.
    destruct (from_iterator_ok cfg id lb items Hk) as (b & E & Hb). eauto.
  - apply creates_big; [assumption|]. unfold raw_from_iterator. destruct (N.le_gt_cases usize_limit n) as [Hn|Hn].
    + apply dev_total_crashes; [exact Hn | reflexivity].
    + unfold mbind at 1. rewrite raw_total_sum by exact Hn. rewrite N.add_0_l. fold n. unfold mbind, madd.
      destruct (N.ltb_spec (nlen id + nlen (lb n)) usize_limit); [|reflexivity]. cbn [mret].
      destruct (N.ltb_spec (nlen id + nlen (lb n) + n) usize_limit); [|reflexivity]. cbn [mret]. now rewrite cap_big.
Qed.
End CREATE.

(** ** The release profile *)
Section RELEASED.
Context (L : layout) (al : allocator) (Rp : L_raw L -> heap -> buf -> option N -> Prop) (BR : buffer_refines L al Rp).
Context (cap_big : forall n h, isize_max < n -> L_with_capacity L al n h = Crash).
Context (ops : rel_ops (L_raw L)) (RO : release_of L al ops).
Notation Lr := (released L ops).
Lemma rel_fits (k k' : M (L_raw L)) f h (P : list N -> Prop) total : csim Lr al Rp k f -> covers k k' -> total <= isize_max ->
  (forall cfg, exists b bs, f cfg = Ok b /\ holds b bs /\ P bs) -> creates L al h (k' h) P total.
Proof using BR RO.
  clear cap_big. intros S C Ht A. apply creates_fits; [assumption|]. eapply meets_covers; [exact C|].
  exact (fits Lr al Rp (released_refines L al Rp BR ops RO) k f h P S A).
Qed.
Lemma rel_header_crash id len n h : isize_max < nlen id + nlen len + n -> nlen id + nlen len + n < usize_limit -> rel_with_header Lr al id len n h = Crash.
Proof using cap_big RO.
  clear BR Rp. intros Hk Hn. unfold rel_with_header, mbind. rewrite (wadd_small (nlen id)), wadd_small by lia.
  cbn [L_with_capacity released]. rewrite (ro_cap _ _ _ RO) by lia. now rewrite cap_big.
Qed.
Theorem rel_create_header id len n h : bytes_ok id -> bytes_ok len -> nlen id + nlen len + n < usize_limit ->
  creates L al h (rel_with_header Lr al id len n h) (fun bs => exists c, bs = id ++ len ++ c /\ nlen c = n /\ bytes_ok c) (nlen id + nlen len + n).
Proof using BR cap_big RO.
  intros Hi Hl Hn. destruct (N.le_gt_cases (nlen id + nlen len + n) isize_max) as [Hk|Hk].
  - eapply rel_fits; [exact (sim_with_header Lr al Rp (released_refines L al Rp BR ops RO) id len n Hi Hl) | exact (covers_with_header Lr al id len n) | assumption |]. intros cfg.
    destruct (with_header_ok cfg id len n Hk) as (b & c & E & Hb & Lc & Hc). exists b, (id ++ len ++ c). eauto 10.
  - apply creates_big; [assumption|]. now apply rel_header_crash.
Qed.
Theorem rel_create_new id c h : is_identifier id -> bytes_ok c -> nlen id + nlen (Length_to_bytes (Definite (nlen c))) + nlen c < usize_limit ->
  creates L al h (rel_new Lr al id c h) (fun bs => bs = id ++ Length_to_bytes (Definite (nlen c)) ++ c) (nlen id + nlen (Length_to_bytes (Definite (nlen c))) + nlen c).
Proof using BR cap_big RO.
  intros Hi Hc Hn. destruct (N.le_gt_cases (nlen id + nlen (Length_to_bytes (Definite (nlen c))) + nlen c) isize_max) as [Hk|Hk].
  - eapply rel_fits; [exact (sim_new Lr al Rp (released_refines L al Rp BR ops RO) id c (is_identifier_ok _ Hi) Hc ltac:(lia)) | exact (covers_new Lr al id c) | assumption |]. intros cfg.
    assert (Hl : nlen c < 2 ^ 64) by (change (2 ^ 64) with usize_limit; pose proof limits; lia). rewrite (len_len (nlen c) Hl) in Hk. destruct (Der_new_ok cfg id c Hi Hk) as (b & E & Hb). exists b. eauto.
  - apply creates_big; [assumption|]. unfold rel_new, mbind. now rewrite rel_header_crash.
Qed.
Theorem rel_create_new_indefinite id c h : is_identifier id -> bytes_ok c -> nlen id + 1 + nlen c < usize_limit ->
  creates L al h (rel_new_indefinite Lr al id c h) (fun bs => bs = id ++ 0x80 :: c) (nlen id + 1 + nlen c).
Proof using BR cap_big RO.
  intros Hi Hc Hn. destruct (N.le_gt_cases (nlen id + 1 + nlen c) isize_max) as [Hk|Hk].
  - eapply rel_fits; [exact (sim_new_indefinite Lr al Rp (released_refines L al Rp BR ops RO) id c (is_identifier_ok _ Hi) Hc) | exact (covers_new_indefinite Lr al id c) | assumption |].
    intros cfg. destruct (Ber_new_indefinite_ok cfg id c Hi Hk) as (b & E & Hb). exists b. eauto.
  - apply creates_big; [assumption|]. unfold rel_new_indefinite, mbind. now rewrite rel_header_crash.
Qed.

(** The size wraps around, the header fits into the buffer: only its first octets are left. *)
Lemma short_ok b id len t : b_mem b = repeat 0 (N.to_nat (bf_cap b)) -> nlen id + nlen len <= bf_cap b -> t <= nlen id + nlen len ->
  exists b', (let! b1 := bf_write 0 id b in let! b2 := bf_write (nlen id) len b1 in bf_set_len t b2) = Ok b' /\ bf_slice b' = take t (id ++ len).
Proof using.
  clear. intros Em Hh Ht. unfold bf_cap in Hh.
  destruct (split_at (nlen id) (b_mem b)) as (x & r & E & Lx); [lia|].
  destruct (split_at (nlen len) r) as (y & c & -> & Ly). { rewrite E, nlen_app in Hh. lia. }
  rewrite (bf_write_at [] x (y ++ c) id 0 b) by (auto; rewrite nlen_nil; reflexivity). cbn [rbind app].
  rewrite (bf_write_at id y c len (nlen id)) by (auto; reflexivity). cbn [rbind].
  unfold bf_set_len, bf_cap. cbn [b_mem b_len b_heap]. rewrite !nlen_app.
  destruct (N.ltb_spec (nlen id + (nlen len + nlen c)) t); [lia|]. eexists. split; [reflexivity|].
  unfold bf_slice. cbn [b_len b_mem]. rewrite app_assoc. apply take_app_le. rewrite nlen_app. lia.
Qed.
Context (cap_small : forall n h, n <= L_init_cap L -> L_with_capacity L al n h = Done (L_new L) h).
Theorem rel_short id len n h : bytes_ok id -> bytes_ok len -> n < usize_limit -> nlen id + nlen len <= L_init_cap L -> L_init_cap L <= isize_max ->
  usize_limit <= nlen id + nlen len + n ->
  exists b h', rel_with_header Lr al id len n h = Done b h' /\ L_slice L b h' = Done (take (nlen id + nlen len + n - usize_limit) (id ++ len)) h'.
Proof using BR RO cap_small.
  clear cap_big. intros Hi Hl Hn Hh Hc Hw. pose proof limits. set (t := nlen id + nlen len + n - usize_limit). assert (Ht : t <= nlen id + nlen len) by (unfold t; lia).
  assert (E1 : wadd (wadd (nlen id) (nlen len)) n = t) by (rewrite (wadd_small (nlen id)), wadd_wraps by lia; reflexivity).
  pose proof (released_refines L al Rp BR ops RO) as BR'.
  pose proof (br_new _ _ _ BR' h (fun _ => 0)) as R. set (b0 := bf_new _) in R.
  assert (Ec : bf_cap b0 = L_init_cap L) by (unfold bf_cap, b0, bf_new; cbn [b_mem]; rewrite nlen_repeat; cbn [init_cap]; apply N2Nat.id).
  destruct (short_ok b0 id len t) as (b' & E & Eb); [now rewrite Ec | lia | exact Ht |].
  assert (D : dsim Lr Rp (fun b => b <-- L_store Lr 0 id b ; b <-- L_store Lr (nlen id) len b ; L_set_len_checked Lr t b)
                (fun b => let! b1 := bf_write 0 id b in let! b2 := bf_write (nlen id) len b1 in bf_set_len t b2)).
  { apply (dsim_bind Lr al Rp BR'); [now apply (dsim_store _ _ _ BR')|]. apply (dsim_bind Lr al Rp BR'); [now apply (dsim_store _ _ _ BR')|]. now apply (dsim_set_len _ _ _ BR'). }
  destruct (D _ _ _ _ _ R E) as (r' & h' & Er & R' & _).
  exists r', h'. split.
  - unfold rel_with_header. cbv zeta. rewrite E1. rewrite (mbind_done _ _ (L_new L) h h).
    + assert (C : covers (b <-- L_store Lr 0 id (L_new L) ; b <-- L_store Lr (nlen id) len b ; L_set_len_checked Lr t b)
                         (b <-- L_store Lr 0 id (L_new L) ; b <-- L_store Lr (nlen id) len b ; L_set_len Lr t b)).
      { apply covers_bind; [apply covers_refl|]. intros a. apply covers_bind; [apply covers_refl|]. intros a'. apply covers_checked. }
      specialize (C h). change (L_new Lr) with (L_new L) in Er. rewrite Er in C. exact C.
    + cbn [L_with_capacity released]. rewrite (ro_cap _ _ _ RO) by lia. apply cap_small. lia.
  - rewrite <- Eb. exact (rp_slice L al Rp BR _ _ _ _ R').
Qed.
(** It does not fit: the header is written beyond the buffer.  [size]: the octets the value itself has. *)
Context (size : N).
Definition room (b : buf) : N := if b_heap b then bf_cap b else size.
Context (store_ub : forall r h b own off src, Rp r h b own -> room b < off + nlen src -> L_store L off src r h = UB).
Lemma capacity_room cfg t b : init_cap cfg = L_init_cap L -> bf_with_capacity cfg t = Ok b ->
  if b_heap b then bf_cap b <= t else bf_cap b = L_init_cap L.
Proof using.
  clear. intros Ei E. unfold bf_with_capacity, bf_reserve in E. cbn [bf_new b_len b_heap b_mem] in E. rewrite N.add_0_l in E. cbv zeta in E.
  destruct (N.leb_spec t (bf_cap (bf_new cfg))).
  - injection E as <-. cbn [bf_new b_heap]. unfold bf_cap, bf_new. cbn [b_mem]. rewrite nlen_repeat, Ei. apply N2Nat.id.
  - destruct (isize_max <? t); [discriminate|]. injection E as <-. cbn [b_heap]. unfold bf_cap. cbn [b_mem]. rewrite take_0. cbn [app]. rewrite nlen_nil.
    unfold fresh. rewrite N.sub_0_r. rewrite junk_from_len. rewrite N2Nat.id. apply N.le_refl.
Qed.
Theorem rel_overrun id len n h : bytes_ok id -> bytes_ok len -> n < usize_limit -> nlen id <= L_init_cap L \/ size < nlen id ->
  size < nlen id + nlen len -> nlen id + nlen len <= isize_max -> usize_limit <= nlen id + nlen len + n ->
  match rel_with_header Lr al id len n h with UB => True | Abort => out_of_memory al | _ => False end.
Proof using BR RO store_ub.
  clear cap_big cap_small. intros Hi Hl Hn Hs Hh Hm Hw. pose proof limits. set (t := nlen id + nlen len + n - usize_limit). assert (Ht : t < nlen id + nlen len) by (unfold t; lia).
  assert (E1 : wadd (wadd (nlen id) (nlen len)) n = t) by (rewrite (wadd_small (nlen id)), wadd_wraps by lia; reflexivity).
  unfold rel_with_header. cbv zeta. rewrite E1. unfold mbind at 1. cbn [L_with_capacity released]. rewrite (ro_cap _ _ _ RO) by lia.
  pose proof (br_with_capacity _ _ _ BR h t ltac:(lia)) as X. unfold meets in X.
  destruct (L_with_capacity L al t h) as [r h1| | |]; try contradiction; [|exact X].
  destruct X as (j & b & own & R & _ & E). apply capacity_room in E; [|reflexivity].
  unfold mbind at 1. cbn [L_store released].
  destruct (N.le_gt_cases (nlen id) (bf_cap b)) as [K|K].
  - assert (W : exists b', bf_write 0 id b = Ok b' /\ room b' = room b).
    { unfold bf_cap in K. destruct (split_at (nlen id) (b_mem b)) as (x & y & Em & Lx); [exact K|].
      rewrite (bf_write_at [] x y id 0 b) by (auto; rewrite nlen_nil; reflexivity). eexists. split; [reflexivity|].
      unfold room, bf_cap. cbn [b_heap b_mem]. rewrite Em. cbn [app]. rewrite !nlen_app. now rewrite Lx. }
    destruct W as (b' & Eb & Rb). destruct (br_store _ _ _ BR _ _ _ _ _ _ _ R Hi Eb) as (r' & h' & -> & R' & _).
    unfold mbind. rewrite (store_ub _ _ _ _ _ _ R'); [exact I|]. rewrite Rb. unfold room. destruct (b_heap b); lia.
  - rewrite (store_ub _ _ _ _ _ _ R); [exact I|]. unfold room. destruct (b_heap b); [lia|]. rewrite E in K. lia.
Qed.
End RELEASED.

(** The header does not fit into the buffer asked for. *)
Lemma le_cap_small al n h : n <= LE_INIT_CAPACITY -> le_with_capacity al n h = Done le_new h.
Proof.
  intros H. unfold le_with_capacity, le_reserve. change (le_len le_new) with 0. change (le_capacity le_new) with 23. rewrite N.add_0_l.
  change LE_INIT_CAPACITY with 23 in H. destruct (N.leb_spec usize_limit n); [assert (23 < usize_limit) by reflexivity; lia|].
  destruct (N.leb_spec n 23); [reflexivity | lia].
Qed.
Lemma ue_cap_small al n h : n <= UE_INIT_CAPACITY -> ue_with_capacity al n h = Done ue_new h.
Proof. intros H. unfold ue_with_capacity. destruct (N.leb_spec n UE_INIT_CAPACITY); [reflexivity | lia]. Qed.
Lemma le_store_ub r h b own off src : Rep LE le_view r h b own -> room 24 b < off + nlen src -> L_store LE off src r h = UB.
Proof.
  intros (s & V & W & R) H. destruct V as [_ V]. cbn [LE L_store]. unfold le_store. destruct s as [m n|p c n]; cbn [swf] in W.
  - destruct W as (Lm & Hn & Hok). destruct R as [-> _]. unfold room in H. cbn [b_heap] in H. subst r.
    destruct (le_stack_facts m n Lm Hok Hn) as (-> & _). rewrite nlen_app, Lm. change (L_init_cap LE + nlen [n]) with 24.
    destruct (N.ltb_spec 24 (off + nlen src)); [reflexivity | lia].
  - destruct W as (Hp & Hc0 & Hc & Hn). destruct R as (m & G & Lm & _ & _ & -> & _). unfold room, bf_cap in H. cbn [b_heap b_mem] in H. subst r.
    destruct (le_heap_facts p c n Hp Hc Hn) as (-> & _ & _ & -> & _). unfold mbind, store. rewrite G.
    destruct (N.ltb_spec (nlen m) (off + nlen src)); [reflexivity | lia].
Qed.
Lemma ue_store_ub r h b own off src : Rep UE ue_view r h b own -> room 16 b < off + nlen src -> L_store UE off src r h = UB.
Proof.
  intros (s & V & W & R) H. destruct V as [_ V]. cbn [UE L_store]. unfold ue_store. destruct s as [m n|p c n]; cbn [swf] in W.
  - destruct W as (Lm & Hn & Hok). destruct R as [-> _]. unfold room in H. cbn [b_heap] in H. subst r.
    destruct (ue_stack_facts m n Hn) as (-> & _). cbn [u_union]. rewrite Lm. change (L_init_cap UE) with 16.
    destruct (N.ltb_spec 16 (off + nlen src)); [reflexivity | lia].
  - destruct W as (Hp & Hc0 & Hc & Hn). destruct R as (m & G & Lm & _ & _ & -> & _). unfold room, bf_cap in H. cbn [b_heap b_mem] in H. subst r.
    destruct (ue_heap_facts p c n Hp Hc Hn) as (-> & _ & _ & -> & _). unfold mbind, store. rewrite G.
    destruct (N.ltb_spec (nlen m) (off + nlen src)); [reflexivity | lia].
Qed.
