(** Raw memory where the code trusts its callers: iterators that change when cloned,
    and lengths no allocation can hold. *)
From Verif Require Import Base ModelIo ModelTag ModelContents ModelBuf ModelTlv ModelHeap ModelBufLE ModelBufUE ModelTlvRaw
  Spec SpecIo SpecBuf SpecTlv TagProofs IdProofs TagMain ContentsProofs TlvProofs BufProofs TlvMain StreamProofs StreamMain RawProofs RawMain RawTlv RawStream.

Section EDGES.
Context (L : layout) (al : allocator) (G : good_allocator al)
        (Rp : L_raw L -> heap -> buf -> option N -> Prop) (BR : buffer_refines L al Rp).
Notation cf j := {| init_cap := L_init_cap L; junk := j |}.
Notation raw := (L_raw L).

(** ** an iterator whose clone yields [counted] *)
Definition from_two (cfg : bufcfg) (id lb : list N) (total : N) (items : list (list N)) : res buf :=
  let! b := bf_with_capacity cfg total in
  let! b := bf_extend id b in
  let! b := bf_extend lb b in
  extend_all items b.
Lemma from_two_ok cfg id lb total items : nlen id + nlen lb + nlen (concat items) <= total -> total <= isize_max ->
  exists b, from_two cfg id lb total items = Ok b /\ holds b (id ++ lb ++ concat items).
Proof.
  intros H Ht. unfold from_two, bf_with_capacity.
  destruct (reserve_ok cfg total (bf_new cfg) [] (holds_new _)) as (b1 & s1 & -> & M1 & L1 & K1 & O1); [rewrite nlen_nil; lia|].
  cbn [rbind]. destruct (extend_ok b1 [] s1 id M1 L1) as (b2 & s2 & -> & M2 & L2 & K2 & O2); [lia | assumption |]. cbn [rbind app] in *.
  destruct (extend_ok b2 id s2 lb M2 L2) as (b3 & s3 & -> & M3 & L3 & K3 & O3); [lia | assumption |]. cbn [rbind] in *.
  destruct (extend_all_ok items b3 (id ++ lb) s3 M3 L3) as (b4 & -> & H4); [lia | assumption |].
  exists b4. rewrite <- app_assoc in H4. auto.
Qed.
Lemma sim_from_two id lb total items : bytes_ok id -> bytes_ok lb -> Forall bytes_ok items ->
  csim L al Rp (b <-- L_with_capacity L al total ; b <-- L_extend L id b ; b <-- L_extend L lb b ; raw_extend_all L items b)
       (fun c => from_two c id lb total items).
Proof.
  intros Hi Hl Hs. unfold from_two. eapply (csim_bind L al Rp BR _ _ (fun c => bf_with_capacity c total)); [eapply csim_with_capacity; eassumption|].
  apply (dsim_bind L al Rp BR); [eapply dsim_extend; eassumption|]. apply (dsim_bind L al Rp BR); [eapply dsim_extend; eassumption|].
  eapply sim_extend_all; eassumption.
Qed.
Lemma iterator_result id lbs counted items h : bytes_ok id -> Forall bytes_ok items -> (forall n, n < usize_limit -> bytes_ok (lbs n)) ->
  nlen (concat items) <= nlen (concat counted) ->
  nlen id + nlen (lbs (nlen (concat counted))) + nlen (concat counted) <= isize_max ->
  meets al (raw_from_iterator L al id lbs counted items h)
    (contains L Rp (id ++ lbs (nlen (concat counted)) ++ concat items) None h).
Proof.
  intros Hi Hs Hl Hle Hn. pose proof isize_lt. unfold raw_from_iterator.
  assert (Hc : nlen (concat counted) < usize_limit) by (change usize_limit with (2 ^ 64); lia).
  rewrite (mbind_done _ _ (nlen (concat counted)) h h).
  2:{ apply sim_total. rewrite total_length_ok; [now rewrite N.add_0_l | lia]. }
  rewrite (mbind_done _ _ (nlen id + nlen (lbs (nlen (concat counted)))) h h) by (apply madd_ok, add_usize_ok; lia).
  rewrite (mbind_done _ _ (nlen id + nlen (lbs (nlen (concat counted))) + nlen (concat counted)) h h) by (apply madd_ok, add_usize_ok; lia).
  apply (create_result L al Rp _ _ h _ (sim_from_two id (lbs (nlen (concat counted))) _ items Hi (Hl _ Hc) Hs)).
  intros cfg. apply from_two_ok; lia.
Qed.

Lemma iterator_header id counted items hdr h0 : is_identifier id -> Forall bytes_ok items ->
  der_tlv id (concat counted) (hdr ++ concat counted) -> nlen (hdr ++ concat counted) <= isize_max ->
  nlen (concat items) <= nlen (concat counted) ->
  meets al (raw_Der_from_id_iterator L al id counted items h0) (fun r h =>
    L_slice L r h = Done (hdr ++ concat items) h /\ (forall a c, h_get a h0 = Some c -> h_get a h = Some c)).
Proof.
  intros Hi Hs Hd Hn Hle. apply der_tlv_octets in Hd. rewrite app_assoc in Hd. apply app_inv_tail in Hd. subst hdr.
  eapply meets_mono; [apply iterator_result; auto|].
  - now apply is_identifier_ok.
  - intros n. apply len_bytes_ok.
  - rewrite !nlen_app in Hn. cbv beta. lia.
  - intros r h (b & o & R & F & H). split.
    + rewrite (rp_slice L al Rp BR _ _ _ _ R), (holds_slice _ _ H), <- app_assoc. reflexivity.
    + intros y c Hc. destruct F as (F1 & F2 & _). rewrite F1; [assumption | discriminate |].
      intros ->. destruct (F2 y eq_refl) as [[=]|Z]. congruence.
Qed.

(** ** lengths beyond any allocation, before the header leaves the inline storage *)
Context (inline : forall r h b own, Rp r h b own -> b_heap b = false -> bf_cap b = L_init_cap L /\ own = None).
Lemma feed_inline w : forall r h b bs, Rp r h b None -> b_heap b = false -> holds b bs -> bytes_ok w -> nlen bs + nlen w <= L_init_cap L ->
  L_init_cap L <= isize_max ->
  meets al (raw_feed L al w r h) (fun r' h' => exists b', Rp r' h' b' None /\ b_heap b' = false /\ holds b' (bs ++ w) /\ forall a, h_get a h' = h_get a h).
Proof.
  induction w as [|x w IH]; intros r h b bs HRp Hb H Hw Hn Hc; cbn [raw_feed].
  - cbn [meets mret]. exists b. rewrite app_nil_r. auto.
  - rewrite nlen_cons in Hn. apply Forall_cons_iff in Hw as [Hx Hw]. destruct (inline _ _ _ _ HRp Hb) as [Cb _].
    assert (L1 : nlen [x] = 1) by reflexivity.
    assert (A : forall cfg, exists b', bf_io_write cfg [x] b = Ok b' /\ (holds b' (bs ++ [x]) /\ b_heap b' = false)).
    { intros cfg. unfold bf_io_write, bf_reserve. rewrite (holds_len _ _ H), Cb, L1.
      destruct (N.leb_spec (nlen bs + 1) (L_init_cap L)); [|lia]. cbn [rbind].
      destruct H as (sp & M1 & LL & Os). unfold bf_cap in Cb. rewrite M1, nlen_app in Cb.
      destruct (extend_ok b bs sp [x] M1 LL) as (b' & sp' & E & M' & L' & _ & O'); [lia | assumption |].
      exists b'. split; [exact E|]. split; [exists sp'; auto|].
      revert E. unfold bf_extend, bf_write, bf_set_len. destruct (mem_write _ _ _) as [m| | |]; cbn [rbind]; try discriminate.
      destruct (_ <? _); [discriminate|]. intros [= <-]. assumption. }
    eapply meets_bind.
    { eapply (asim_bind L al Rp BR (L_reserve L al (nlen [x])) (L_extend L [x]) (fun c => bf_reserve c (nlen [x])) (bf_extend [x])); [eapply asim_reserve; eassumption | eapply dsim_extend; [eassumption | now repeat constructor] | exact HRp |].
      intros j. destruct (A (cf j)) as (b' & E & _). exists b'. exact E. }
    cbv beta. intros r1 h1 (j & b1 & o1 & R1 & F1 & E1).
    destruct (A (cf j)) as (b2 & E2 & H2 & Hp2). change (bf_io_write (cf j) [x] b = Ok b1) in E1. rewrite E1 in E2. injection E2 as <-.
    destruct (inline _ _ _ _ R1 Hp2) as [_ ->].
    eapply meets_mono; [apply (IH r1 h1 b1 (bs ++ [x]) R1 Hp2 H2 Hw)|].
    + rewrite nlen_app, L1. lia.
    + assumption.
    + cbv beta. intros r2 h2 (b3 & R3 & P3 & H3 & S3). exists b3. rewrite <- app_assoc in H3. do 3 (split; [assumption|]).
      intros a. rewrite S3. now apply frame_none.
Qed.
Context (crash : forall r h b k, Rp r h b None -> b_len b <= L_init_cap L -> isize_max < b_len b + k -> L_reserve L al k r h = Crash).
(** The header [w] was read and its length is [n]. *)
Theorem der_parse_inline {S} (R : reader S) (content : S -> list N) C fuel s h0 w n s' : honest R content -> bytes_ok (content s) ->
  parse_id_length R fuel (s, []) = (Ok (Definite n), (s', w)) -> nlen w <= L_init_cap L -> L_init_cap L <= isize_max ->
  isize_max < nlen w + n -> raw_Der_parse L al R C fuel s h0 = Crash \/ (raw_Der_parse L al R C fuel s h0 = Abort /\ out_of_memory al).
Proof.
  intros HR Hok E Hw Hc Hn. unfold raw_Der_parse.
  destruct (ap_parse_id_length R content HR fuel s Hok) as (r & s1 & w1 & E1 & _ & Ow & _). rewrite (E1 []) in E. cbn [app] in E. injection E as -> -> ->.
  rewrite (E1 []). cbn [app].
  pose proof (feed_inline w (L_new L) h0 _ [] (br_new _ _ _ BR h0 (fun _ => 0)) eq_refl (holds_new _) Ow) as F.
  rewrite nlen_nil in F. specialize (F ltac:(lia) Hc). cbn [app] in F.
  match goal with |- ?x = Crash \/ _ => enough (K : match x with Crash => True | Abort => out_of_memory al | _ => False end)
    by (destruct x; try contradiction; auto) end.
  unfold mbind at 1. unfold meets in F. destruct (raw_feed L al w (L_new L) h0) as [r1 h1| | |]; try contradiction; [|assumption].
  destruct F as (b & R1 & _ & H1 & _). rewrite (rp_len L al Rp BR _ _ _ _ R1), (holds_len _ _ H1).
  unfold mbind at 1. unfold madd. destruct (nlen w + n <? usize_limit); [|exact I]. unfold mret at 1.
  unfold mbind at 1. rewrite (crash r1 h1 b n R1); [exact I | | ]; rewrite (holds_len _ _ H1); assumption.
Qed.
End EDGES.

Lemma parsed_from_stream L {S} (R : reader S) content (HR : honest R content) fuel s h0 b s' h : bytes_ok (content s) ->
  nlen (content s) <= isize_max -> (length (content s) <= fuel)%nat ->
  leaves L h0 (fst (Der_parse R fuel s)) (snd (Der_parse R fuel s)) (Ok b, s') h ->
  exists v, L_slice L b h = Done v h /\ content s = v ++ content s'.
Proof.
  intros Hok Hn Hf (E & K). destruct (Der_parse R fuel s) as [[v| | |] s1] eqn:EP; cbn [fst snd] in *; try contradiction. subst s1.
  destruct (replay_der R content HR fuel s v s' EP) as (c & Ec & Rp). exists v. split; [apply K|].
  specialize (Rp []). rewrite app_nil_r in Rp. rewrite Ec in Hok, Hf, Hn. rewrite nlen_app in Hn. apply bytes_ok_app in Hok as [Hok _]. rewrite app_length in Hf.
  apply same_der in Rp; [|assumption | lia | lia].
  apply der_parse_iff in Rp; [|assumption]. destruct Rp as (_ & Rp). rewrite app_nil_r in Rp. now subst c.
Qed.

Lemma rep_inline L V r h b own : Rep L V r h b own -> b_heap b = false -> bf_cap b = L_init_cap L /\ own = None.
Proof.
  intros (s & _ & W & R) Hb. destruct s as [m n|p c n].
  - destruct R as [-> ->]. cbn [swf] in W. split; [apply W | reflexivity].
  - destruct R as (m & _ & _ & _ & _ & -> & _). discriminate.
Qed.
Lemma le_inline_crash al r h b k : Rep LE le_view r h b None -> b_len b <= L_init_cap LE -> isize_max < b_len b + k -> L_reserve LE al k r h = Crash.
Proof.
  intros (s & V & R) Hl Hk. destruct R as [W R]. destruct s as [m n|p c n]; [|destruct R as (? & _ & _ & _ & _ & _ & [=])].
  pose proof (le_view_len _ _ V) as LL. pose proof (le_view_cap _ _ V) as CC.
  destruct V as [_ ->]. cbn [swf s_len s_cap] in *. destruct W as (L & Hn & Hok). destruct R as [-> _]. cbn [b_len] in *.
  destruct (le_stack_facts m n L Hok Hn) as (S & _). cbn [LE L_reserve]. unfold le_reserve. rewrite LL, CC, S. cbv zeta.
  destruct (usize_limit <=? n + k); [reflexivity|].
  destruct (N.leb_spec (n + k) LE_INIT_CAPACITY) as [Q|]; [exfalso; assert (LE_INIT_CAPACITY <= isize_max) by discriminate; lia|].
  unfold mbind, alloc. destruct (N.ltb_spec isize_max (n + k)); [reflexivity | lia].
Qed.
Lemma ue_inline_crash al r h b k : Rep UE ue_view r h b None -> b_len b <= L_init_cap UE -> isize_max < b_len b + k -> L_reserve UE al k r h = Crash.
Proof.
  intros (s & V & R) Hl Hk. destruct R as [W R]. destruct s as [m n|p c n]; [|destruct R as (? & _ & _ & _ & _ & _ & [=])].
  pose proof (ue_view_len _ _ V) as LL. pose proof (ue_view_cap _ _ V) as CC.
  destruct V as [_ ->]. cbn [swf s_len s_cap] in *. destruct W as (L & Hn & Hok). destruct R as [-> _]. cbn [b_len] in *.
  destruct (ue_stack_facts m n Hn) as (S & _). cbn [UE L_reserve]. unfold ue_reserve. rewrite LL, CC, S. cbv zeta.
  destruct (usize_limit <=? n + k); [reflexivity|].
  destruct (N.leb_spec (n + k) UE_INIT_CAPACITY) as [Q|]; [exfalso; assert (UE_INIT_CAPACITY <= isize_max) by discriminate; lia|].
  unfold ue_heap_new. destruct (N.eqb_spec (n + k) 0); [lia|].
  unfold mbind, alloc. destruct (N.ltb_spec isize_max (n + k)); [reflexivity | lia].
Qed.
