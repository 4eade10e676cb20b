(** Values that claim more octets than they have: proofs. *)
From Coq Require Import Lia.
From Verif Require Import Base ModelIo ModelTag ModelContents ModelBuf ModelTlv ModelHeap ModelBufLE ModelBufUE ModelTlvRaw ModelRelease Spec SpecBuf SpecTlv SpecLoose ModelLoose
  TagProofs IdProofs BufProofs RawProofs RawMain RawTlv RawLimits RelProofs ConvProofs LooseProofs ModelSerde SerdeSer.

(** ** Outside the memory *)
Lemma le_beyond r h b own off n : Rep LE le_view r h b own -> bf_cap b < off + n -> 24 < off + n ->
  L_load LE off n r h = UB /\ forall w, nlen w = n -> L_store LE off w r h = UB.
Proof.
  intros (s & V & R) Hk Hx. destruct R as [W R]. pose proof (le_view_len _ _ V) as LL. destruct V as [_ V]. destruct s as [m k|p c k]; subst r; cbn [swf s_len] in *.
  - destruct W as (L & Hn & Hok). destruct R as [-> _]. unfold bf_cap in Hk. cbn [b_mem b_len b_heap] in *.
    destruct (le_stack_facts m k L Hok Hn) as (S & _). cbn [LE L_load L_store]. unfold le_load, le_store. rewrite S.
    rewrite nlen_app, nlen_cons, nlen_nil, L. change (L_init_cap LE) with 23. split; [|intros w Hw; rewrite Hw].
    + destruct (N.ltb_spec (23 + (1 + 0)) (off + n)); [reflexivity | lia].
    + destruct (N.ltb_spec (23 + (1 + 0)) (off + n)); [reflexivity | lia].
  - destruct W as (Hp & Hc0 & Hc & Hn). destruct R as (m & Hg & Hm & Hp0 & Hok & -> & _). unfold bf_cap in Hk. cbn [b_mem b_len] in *.
    destruct (le_heap_facts p c k Hp Hc Hn) as (S & _ & _ & D & _). cbn [LE L_load L_store]. unfold le_load, le_store, mbind, load, store. rewrite S, D, Hg.
    split; [|intros w Hw; rewrite Hw]; destruct (N.ltb_spec (nlen m) (off + n)); (reflexivity || lia).
Qed.
Lemma ue_beyond r h b own off n : Rep UE ue_view r h b own -> bf_cap b < off + n ->
  L_load UE off n r h = UB /\ forall w, nlen w = n -> L_store UE off w r h = UB.
Proof.
  intros (s & V & R) Hk. destruct R as [W R]. pose proof (ue_view_len _ _ V) as LL. destruct V as [_ V]. destruct s as [m k|p c k]; subst r; cbn [swf s_len] in *.
  - destruct W as (L & Hn & Hok). destruct R as [-> _]. unfold bf_cap in Hk. cbn [b_mem b_len] in *.
    destruct (ue_stack_facts m k Hn) as (S & _). cbn [UE L_load L_store]. unfold ue_load, ue_store. rewrite S. cbn [u_union].
    split; [|intros w Hw; rewrite Hw]; destruct (N.ltb_spec (nlen m) (off + n)); (reflexivity || lia).
  - destruct W as (Hp & Hc0 & Hc & Hn). destruct R as (m & Hg & Hm & Hp0 & Hok & -> & _). unfold bf_cap in Hk. cbn [b_mem b_len] in *.
    destruct (ue_heap_facts p c k Hp Hc Hn) as (S & _ & _ & D & _). cbn [UE L_load L_store]. unfold ue_load, ue_store, mbind, load, store. rewrite S, D, Hg.
    split; [|intros w Hw; rewrite Hw]; destruct (N.ltb_spec (nlen m) (off + n)); (reflexivity || lia).
Qed.

Lemma ends_then {A B} al (m : M A) (k : A -> M B) h : ends al (m h) UB -> ends al (mbind m k h) UB.
Proof. unfold mbind, ends. intros [->|[-> O]]; auto. Qed.

Section OVER.
Context (L : layout) (al : allocator) (Rp : L_raw L -> heap -> buf -> option N -> Prop) (BR : buffer_refines L al Rp).
Context (small : L_init_cap L <= 24)
  (beyond : forall r h b own off n, Rp r h b own -> bf_cap b < off + n -> 24 < off + n ->
     L_load L off n r h = UB /\ forall w, nlen w = n -> L_store L off w r h = UB).
Notation cf j := {| init_cap := L_init_cap L; junk := j |}.

Lemma from_slice_cap j bs b : bf_from_slice (cf j) bs = Ok b -> bf_cap b = N.max (L_init_cap L) (nlen bs).
Proof using.
  clear small beyond BR Rp. unfold bf_from_slice. intros E. apply rbind_inv in E as (b0 & E0 & E). destruct (with_capacity_exact L j (nlen bs) b0 E0) as (H & C & _).
  unfold cap_for in C. unfold bf_extend in E. apply rbind_inv in E as (b1 & E1 & E). unfold bf_write in E1. apply rbind_inv in E1 as (m & E1 & Ei). injection Ei as <-.
  unfold bf_set_len in E. cbn [b_len b_mem b_heap] in E. destruct (_ <? _); [discriminate|]. injection E as <-. unfold bf_cap in *. cbn [b_mem].
  unfold mem_write in E1. destruct (N.ltb_spec (nlen (b_mem b0)) (b_len b0 + nlen bs)); [discriminate|]. injection E1 as <-. rewrite !nlen_app, nlen_take, nlen_drop. lia.
Qed.
Lemma reserve_cap j k b b' : b_len b <= bf_cap b -> bf_reserve (cf j) k b = Ok b' -> bf_cap b' = N.max (bf_cap b) (b_len b + k) \/ bf_cap b' = b_len b + k.
Proof using.
  clear small beyond BR Rp. intros Hc. unfold bf_reserve. destruct (N.leb_spec (b_len b + k) (bf_cap b)); [intros [= <-]; left; lia|]. destruct (_ <? _); [discriminate|]. intros [= <-]. right.
  unfold bf_cap in *. cbn [b_mem]. rewrite nlen_app, fresh_len. destruct (b_heap b); [|rewrite nlen_take]; lia.
Qed.
Lemma length_step n m : Length_len (Definite n) <> Length_len (Definite (n + m)) -> 128 <= n + m.
Proof using. clear. unfold Length_len. change LEN_MAX_SHORT with 127. destruct (N.leb_spec n 127), (N.leb_spec (n + m) 127); cbv iota; lia. Qed.

Lemma over_extend r h b own w id n c : Rp r h b own -> bf_cap b <= N.max 24 (b_len b) -> bytes_ok w -> w <> [] -> disassemble (bf_slice b) = Ok (id, Definite n, c) ->
  b_len b < nlen id + Length_len (Definite n) + n -> 24 < nlen id + Length_len (Definite n) + n + nlen w -> n + nlen w < usize_limit -> b_len b + nlen w + 8 <= isize_max ->
  ends al (raw_Der_extend L al w r h) UB /\ ends al (rel_Der_extend L al w r h) UB.
Proof using BR small beyond.
  intros R Hcap Hw W0 D Ho Hx Hnm Hm. assert (Hz : isize_max + 9 < usize_limit) by reflexivity.
  destruct (rp_holds L al Rp BR _ _ _ _ R) as (Hh & Bs & Ls & _). destruct (tlv_id_of _ _ _ _ D) as (T1 & T2 & _).
  assert (Cb : b_len b <= bf_cap b) by apply (br_observe _ _ _ BR _ _ _ _ R).
  assert (Hi : 1 <= nlen id). { destruct (dis_reads _ _ _ _ Bs D) as (q & _ & Hi & _). destruct Hi; rewrite nlen_cons; lia. }
  set (k := Length_len (Definite n)) in *. set (p := nlen id) in *.
  assert (Hn : n < usize_limit) by lia. pose proof (length_bounds n Hn) as K1. pose proof (length_bounds (n + nlen w) Hnm) as K2. pose proof (Length_len_mono n (n + nlen w) ltac:(lia)) as K3.
  pose proof (length_step n (nlen w)) as K4. fold k in K1, K3, K4. set (k' := Length_len (Definite (n + nlen w))) in *. set (off := nlen w + k' - k).
  assert (SL := rp_slice L al Rp BR _ _ _ _ R). assert (Wl : 1 <= nlen w) by (destruct w; [contradiction|]; rewrite nlen_cons; lia).
  assert (CORE : forall r2 h2 b2 own2, Rp r2 h2 b2 own2 -> b_len b + off <= bf_cap b2 -> bf_cap b2 <= N.max 24 (b_len b + off) ->
    forall B (kk : L_raw L -> M B), (r3 <-- (if p + k =? p + k' then mret r2 else L_move L (p + k) (p + k') n r2) ; r4 <-- L_store L (p + k' + n) w r3 ; kk r4) h2 = UB).
  { intros r2 h2 b2 own2 R2 G2 C2 B kk. destruct (N.eqb_spec (p + k) (p + k')) as [E|E].
    - unfold mbind at 1, mret. destruct (beyond r2 h2 b2 own2 (p + k' + n) (nlen w) R2) as (_ & S); [unfold off in *; lia | lia |]. unfold mbind. now rewrite (S w eq_refl).
    - specialize (K4 ltac:(lia)). unfold L_move, mbind. destruct (N.le_gt_cases (p + k + n) (bf_cap b2)) as [Q|Q].
      + destruct (N.le_gt_cases (b_len b + off) 24) as [Q'|Q']; [exfalso; unfold off in *; lia|]. rewrite N.max_r in C2 by lia.
        destruct (N.le_gt_cases (p + k' + n) (bf_cap b2)) as [Q2|Q2].
        * destruct (shift L al Rp BR _ _ _ _ (p + k) (p + k') n R2 Q Q2) as (r3 & h3 & E3 & _ & R3). destruct (N.eqb_spec (p + k) (p + k')); [lia|].
          unfold L_move, mbind in E3. rewrite E3. destruct (beyond r3 h3 _ _ (p + k' + n) (nlen w) R3) as (_ & S).
          -- unfold bf_cap at 1. cbn [b_mem]. rewrite !nlen_app, !nlen_take, !nlen_drop. unfold bf_cap, off in *. lia.
          -- lia.
          -- now rewrite (S w eq_refl).
        * assert (E0 : mem_read (p + k) n (b_mem b2) = Ok (take n (drop (p + k) (b_mem b2)))) by (unfold mem_read; unfold bf_cap in Q; destruct (N.ltb_spec (nlen (b_mem b2)) (p + k + n)); [lia | reflexivity]).
          rewrite (br_load _ _ _ BR _ _ _ _ _ _ _ R2 E0). destruct (beyond r2 h2 b2 own2 (p + k') n R2) as (_ & S); [lia | lia |].
          rewrite (S (take n (drop (p + k) (b_mem b2)))) by (rewrite nlen_take, nlen_drop; unfold bf_cap in Q; lia). reflexivity.
      + destruct (beyond r2 h2 b2 own2 (p + k) n R2) as (-> & _); [lia | | reflexivity].
        destruct (N.le_gt_cases (b_len b + off) 24) as [Q'|Q']; [unfold off in *; lia|].
        destruct (N.le_gt_cases (p + k + n) 24) as [Q2|Q2]; [|lia]. exfalso. unfold off in *. lia. }
  assert (RES : forall r1 h1, (exists j b1 own1, Rp r1 h1 b1 own1 /\ frame own own1 h h1 /\ bf_reserve (cf j) off b = Ok b1) ->
    exists b1 own1, Rp r1 h1 b1 own1 /\ b_len b1 = b_len b /\ b_len b + off <= bf_cap b1 /\ bf_cap b1 <= N.max 24 (b_len b + off)).
  { intros r1 h1 (j & b1 & own1 & R1 & F1 & E1). exists b1, own1. split; [assumption|]. pose proof (reserve_cap j off b b1 Cb E1) as C1.
    destruct (reserve_ok (cf j) off b (bf_slice b) Hh ltac:(unfold off; lia)) as (b1' & sp & E' & M & L1 & K & _). rewrite E1 in E'. injection E' as <-.
    split; [lia|]. split; [unfold bf_cap; rewrite M, nlen_app; lia|]. lia. }
  assert (Hoff : b_len b + off <= isize_max) by (unfold off; lia).
  split.
  - unfold raw_Der_extend. rewrite (mbind_done _ _ _ h h SL), T1, T2. do 2 rewrite (mbind_done (mlift (Ok _)) _ _ h h eq_refl).
    cbn [Length_definite unwrap]. rewrite (mbind_done (mlift (Ok n)) _ n h h eq_refl).
    rewrite (mbind_done _ _ (n + nlen w) h h) by (unfold madd; destruct (N.ltb_spec (n + nlen w) usize_limit); [reflexivity | lia]). fold k k' p.
    rewrite (mbind_done _ _ (nlen w + k') h h) by (unfold madd; destruct (N.ltb_spec (nlen w + k') usize_limit); [reflexivity | lia]).
    rewrite (mbind_done _ _ off h h) by (unfold msub, off; destruct (N.ltb_spec (nlen w + k') k); [lia | reflexivity]).
    eapply ends_bind; [apply (br_reserve _ _ _ BR _ _ _ _ off R Hoff)|]. intros r1 h1 P1. destruct (RES r1 h1 P1) as (b1 & own1 & R1 & L1 & G1 & C1). left.
    rewrite (rp_len L al Rp BR _ _ _ _ R1), L1. rewrite (mbind_done _ _ (b_len b + off) h1 h1) by (unfold madd; destruct (N.ltb_spec (b_len b + off) usize_limit); [reflexivity | lia]).
    destruct (lengthen L al Rp BR _ _ _ _ (b_len b + off) R1 G1) as (r2 & E2 & _ & R2). rewrite (mbind_done _ _ _ _ _ E2). exact (CORE _ _ _ _ R2 G1 C1 _ _).
  - unfold rel_Der_extend. cbv zeta. rewrite (mbind_done _ _ _ h h SL), T1, T2. do 2 rewrite (mbind_done (mlift (Ok _)) _ _ h h eq_refl).
    cbn [Length_definite unwrap]. rewrite (mbind_done (mlift (Ok n)) _ n h h eq_refl). rewrite (wadd_small n) by assumption. fold k k' p.
    rewrite (wadd_small (nlen w)) by lia. rewrite wsub_small by lia. fold off.
    eapply ends_bind; [apply (br_reserve _ _ _ BR _ _ _ _ off R Hoff)|]. intros r1 h1 P1. destruct (RES r1 h1 P1) as (b1 & own1 & R1 & L1 & G1 & C1). left.
    rewrite (rp_len L al Rp BR _ _ _ _ R1), L1, wadd_small by lia.
    destruct (lengthen L al Rp BR _ _ _ _ (b_len b + off) R1 G1) as (r2 & _ & E2 & R2). rewrite (mbind_done _ _ _ _ _ E2). exact (CORE _ _ _ _ R2 G1 C1 _ _).
Qed.
Lemma over_made y bs w h total : bytes_ok bs -> bytes_ok w -> w <> [] -> claims bs total -> nlen bs < total -> 24 < total + nlen w -> total + nlen w < usize_limit ->
  nlen bs + nlen w + 8 <= isize_max ->
  ends al (made_of L al (edit_raw L al y) bs [Extend w] h) UB /\ ends al (made_of L al (edit_rel L al y) bs [Extend w] h) UB.
Proof using BR small beyond.
  intros B Bw W0 (id & n & len & (q & c & E & Hi & Hq) & M & ->) Ho Hx Hu Hm. subst bs. pose proof B as B0.
  apply bytes_ok_app in B0 as [Bi B0]. apply bytes_ok_app in B0 as [Bq _]. pose proof (loose_small _ _ Hq) as Hn.
  destruct (dis_back id q c _ Hi Hq Bi Bq) as (l & D & Dl). destruct l as [|n']; [discriminate|]. injection Dl as ->.
  rewrite (minimal_is_to_bytes n len Hn M), len_len in * by assumption. set (bs := id ++ q ++ c) in *.
  assert (X : forall r1 h1, (exists j b' own', Rp r1 h1 b' own' /\ frame None own' h h1 /\ bf_from_slice (cf j) bs = Ok b') ->
    ends al (raw_Der_extend L al w r1 h1) UB /\ ends al (rel_Der_extend L al w r1 h1) UB /\ raw_Ber_extend L al w r1 h1 = raw_Der_extend L al w r1 h1 /\ rel_Ber_extend L al w r1 h1 = rel_Der_extend L al w r1 h1).
  { intros r1 h1 (j & b & own & R & F & E). destruct (from_slice_holds (cf j) bs ltac:(lia)) as (b' & E' & H). rewrite E in E'. injection E' as <-.
    pose proof (holds_slice _ _ H) as Sl. pose proof (holds_len _ _ H) as Ll. pose proof (from_slice_cap j bs b E) as C.
    destruct (over_extend r1 h1 b own w id n c R) as (A1 & A2); try assumption; [lia | now rewrite Sl | lia | lia | lia |].
    split; [assumption|]. split; [assumption|]. destruct (tlv_id_of _ _ _ _ D) as (_ & T2 & _).
    unfold raw_Ber_extend, rel_Ber_extend. rewrite !(mbind_done _ _ _ h1 h1 (rp_slice L al Rp BR _ _ _ _ R)), Sl, T2. split; reflexivity. }
  pose proof (sim_from_slice L al Rp BR bs B h) as C. unfold made_of. cbn [edits edit_raw edit_rel].
  assert (C' : meets al (L_from_slice L al bs h) (fun r1 h1 => exists j b' own', Rp r1 h1 b' own' /\ frame None own' h h1 /\ bf_from_slice (cf j) bs = Ok b')).
  { apply C. intros j. destruct (from_slice_holds (cf j) bs ltac:(lia)) as (b' & E' & _). eauto. }
  split; (eapply ends_bind; [exact C'|]); intros r1 h1 P; destruct (X r1 h1 P) as (A1 & A2 & A3 & A4);
    destruct y; (apply ends_then; rewrite ?A3, ?A4; assumption).
Qed.
End OVER.

Lemma rp_reads L al Rp (BR : buffer_refines L al Rp) r h b own id n : Rp r h b own -> reads_as (bf_slice b) id (Some n) ->
  exists c, disassemble (bf_slice b) = Ok (id, Definite n, c) /\ n < 2 ^ 64.
Proof.
  intros R (q & c & E & Hi & Hq). destruct (rp_holds L al Rp BR _ _ _ _ R) as (_ & B & _). rewrite E in *. apply bytes_ok_app in B as [Bi B]. apply bytes_ok_app in B as [Bq _].
  destruct (dis_back id q c _ Hi Hq Bi Bq) as (l & D & Dl). destruct l as [|n']; [discriminate|]. injection Dl as ->. exists c. split; [assumption | exact (loose_small _ _ Hq)].
Qed.

(** ** to_der *)
(** An implementation of Serialize that writes [id] and [c], and says that the contents are [n] octets. *)
Definition says (id : list N) (n : N) (c : list N) : serialize unit := {|
  write_id := fun S W _ => write_all W id; write_der_contents := fun S W _ => write_all W c; id_len := fun _ => Ok None; der_contents_len := fun _ => Ok (Some n) |}.
Lemma says_der E id n c : n < usize_limit -> nlen (id ++ Length_to_bytes (Definite n) ++ c) <= isize_max ->
  exists b, to_der E (says id n c) tt = Ok b /\ bf_slice b = id ++ Length_to_bytes (Definite n) ++ c.
Proof.
  intros Hn H. rewrite !nlen_app in H. unfold to_der, contents_or_len. cbn [der_contents_len id_len write_id write_der_contents says rbind].
  destruct (buf_write_all (e_cfg E) id (bf_new (e_cfg E)) [] (holds_new _)) as (b1 & -> & H1); [rewrite nlen_app, nlen_nil; lia|]. cbn [in_buffer rbind].
  destruct (buf_write_all (e_cfg E) (Length_to_bytes (Definite n)) b1 _ H1) as (b2 & -> & H2); [cbn [app]; rewrite nlen_app; lia|]. cbn [in_buffer unwrap_unit rbind].
  destruct (buf_write_all (e_cfg E) c b2 _ H2) as (b3 & -> & H3); [cbn [app]; rewrite !nlen_app; lia|]. cbn [in_buffer]. exists b3. split; [reflexivity|].
  rewrite (holds_slice _ _ H3). cbn [app]. now rewrite <- app_assoc.
Qed.
