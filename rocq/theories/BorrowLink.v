(** The views of ModelBorrow.v are those of the buffers in raw memory (ModelBufLE.v, ModelBufUE.v). *)
From Verif Require Import Base ModelTag ModelBuf ModelHeap ModelBufLE ModelBufUE Spec SpecBuf TagProofs BufProofs RawProofs RawMain.
From Verif Require Import ModelBorrow SpecBorrow BorrowHist SpecLink.

Lemma le_inline r h b own : Rep LE le_view r h b own -> le_is_stack r = negb (b_heap b).
Proof.
  intros (s & (W & V) & (_ & R)). destruct s as [m n|p c n]; cbn [swf] in W; subst r.
  - destruct R as [-> _]. destruct W as (A & B & C). now destruct (le_stack_facts m n A C B).
  - destruct R as (m & _ & _ & _ & _ & -> & _). destruct W as (A & _ & B & C). now destruct (le_heap_facts p c n A B C).
Qed.
Lemma ue_inline r h b own : Rep UE ue_view r h b own -> ue_is_stack r = negb (b_heap b).
Proof.
  intros (s & (W & V) & (_ & R)). destruct s as [m n|p c n]; cbn [swf] in W; subst r.
  - destruct R as [-> _]. destruct W as (A & B & C). now destruct (ue_stack_facts m n B).
  - destruct R as (m & _ & _ & _ & _ & -> & _). destruct W as (A & _ & B & C). now destruct (ue_heap_facts p c n A B C).
Qed.

(** The view of a buffer of ModelBuf.v. *)
Definition of_buf (b : buf) (w : view) : Prop := v_inline w = negb (b_heap b) /\ v_len w = b_len b /\ v_cap w = bf_cap b.
Lemma of_push x b b' w w' : of_buf b w -> bf_push x b = Ok b' -> v_len w' = v_len w + 1 -> v_inline w' = v_inline w -> v_cap w' = v_cap w ->
  of_buf b' w'.
Proof.
  intros (A & B & C) E L I K. unfold bf_push, bf_set_len, bf_write, mem_write in E.
  destruct (_ <? _); [|discriminate]. destruct (_ <? _); [discriminate|]. cbn [rbind b_mem b_len b_heap] in E.
  destruct (N.ltb_spec (nlen (b_mem b)) (b_len b + nlen [x])) as [|H]; [discriminate|]. cbn [rbind] in E. injection E as <-.
  unfold of_buf, bf_cap in *. cbn [b_mem b_len b_heap]. rewrite L, I, K, A, B, C. repeat split.
  rewrite !nlen_app, nlen_take, nlen_cons, nlen_drop. rewrite nlen_cons, nlen_nil in *. lia.
Qed.
Lemma of_extend bs b b' w w' : of_buf b w -> bf_extend bs b = Ok b' -> v_len w' = v_len w + nlen bs -> v_inline w' = v_inline w -> v_cap w' = v_cap w ->
  of_buf b' w'.
Proof.
  intros (A & B & C) E L I K. unfold bf_extend, bf_set_len, bf_write, mem_write in E.
  destruct (N.ltb_spec (nlen (b_mem b)) (b_len b + nlen bs)) as [|H]; [discriminate|]. cbn [rbind b_mem b_len b_heap] in E.
  destruct (_ <? _); [discriminate|]. injection E as <-.
  unfold of_buf, bf_cap in *. cbn [b_mem b_len b_heap]. rewrite L, I, K, A, B, C. repeat split.
  rewrite !nlen_app, nlen_take, nlen_drop. lia.
Qed.
Lemma of_set_len n b b' w w' : of_buf b w -> bf_set_len n b = Ok b' -> v_len w' = n -> v_inline w' = v_inline w -> v_cap w' = v_cap w -> of_buf b' w'.
Proof.
  intros (A & B & C) E L I K. unfold bf_set_len in E. destruct (_ <? _); [discriminate|]. injection E as <-.
  unfold of_buf, bf_cap in *. cbn [b_mem b_len b_heap]. rewrite L, I, K. auto.
Qed.
Lemma of_reserve cfg k b b' w w' : of_buf b w -> b_len b <= bf_cap b -> bf_reserve cfg k b = Ok b' -> v_len w' = v_len w ->
  v_inline w' = v_inline w && (v_len w + k <=? v_cap w) -> v_cap w' = N.max (v_cap w) (v_len w + k) -> of_buf b' w'.
Proof.
  intros (A & B & C) LE0 E L I K. unfold bf_reserve in E. rewrite B, C in *.
  destruct (N.leb_spec (b_len b + k) (bf_cap b)) as [H|H].
  - injection E as <-. unfold of_buf. rewrite I, K, L, A, andb_true_r. repeat split. lia.
  - destruct (isize_max <? _); [discriminate|]. injection E as <-. unfold of_buf. cbn [b_mem b_len b_heap].
    rewrite I, K, L, andb_false_r. repeat split. unfold bf_cap in *. cbn [b_mem]. rewrite nlen_app.
    destruct (b_heap b); rewrite ?nlen_take; unfold fresh; rewrite junk_from_len; lia.
Qed.

(** What the calls do to views. *)
Definition changes (A : borrows) : Prop := forall c w,
  let w' := fst (fst (do_call A c w 1%nat)) in
  match c with
  | CPush => v_len w' = v_len w + 1 /\ v_inline w' = v_inline w /\ v_cap w' = v_cap w
  | CExtend n => v_len w' = v_len w + n /\ v_inline w' = v_inline w /\ v_cap w' = v_cap w
  | CReserve k => v_len w' = v_len w /\ v_inline w' = v_inline w && (v_len w + k <=? v_cap w) /\ v_cap w' = N.max (v_cap w) (v_len w + k)
  | CSetLen n => v_len w' = n /\ v_inline w' = v_inline w /\ v_cap w' = v_cap w
  | CClone => v_len w' = v_len w /\ v_inline w' = v_inline w /\ v_cap w' = v_cap w
  | _ => True
  end.
Ltac sight w := destruct w as [inl len cap blk nx]; destruct inl.
Lemma ale_changes : changes ALE.
Proof.
  intros c w. cbv zeta. destruct c; try exact I; sight w; try (repeat split; fail).
  - cbv -[N.add N.leb N.max andb]. destruct (N.leb_spec (len + n) cap); repeat split; cbn [andb]; lia.
  - cbv -[N.add N.leb N.max andb]. destruct (N.leb_spec (len + n) cap); repeat split; cbn [andb]; lia.
  - cbv -[N.add N.leb]. destruct (len <=? _); repeat split.
  - cbv -[N.add N.leb]. destruct (len <=? _); repeat split.
Qed.
Lemma aue_changes : changes AUE.
Proof.
  intros c w. cbv zeta. destruct c; try exact I; sight w; try (repeat split; fail).
  - cbv -[N.add N.leb N.max andb]. destruct (N.leb_spec (len + n) cap); repeat split; cbn [andb]; lia.
  - cbv -[N.add N.leb N.max andb]. destruct (N.leb_spec (len + n) cap); repeat split; lia.
  - cbv -[N.add N.leb]. destruct (len <=? _); repeat split.
  - cbv -[N.add N.leb]. destruct (len <=? _); repeat split.
Qed.

Section LINK.
Context (L : layout) (al : allocator) (G : good_allocator al) (Rp : L_raw L -> heap -> buf -> option N -> Prop) (BR : buffer_refines L al Rp).
Context (inline : L_raw L -> bool) (INL : forall r h b own, Rp r h b own -> inline r = negb (b_heap b)) (A : borrows) (CH : changes A).

Lemma seen_of r h b own w : Rp r h b own -> (seen L inline r w <-> of_buf b w).
Proof.
  intros R. unfold seen, of_buf. rewrite (INL _ _ _ _ R). destruct (br_observe _ _ _ BR _ _ _ _ R) as (-> & -> & _). reflexivity.
Qed.
Lemma link_step h0 e v h o e' c i r w v' h' :
  good L Rp h0 e v h -> estep (L_init_cap L) o e = Some e' -> made i o c -> v i = VBuf r -> seen L inline r w -> rstep L al o v h = Done v' h' ->
  call_ok c w /\ exists r', v' i = VBuf r' /\ seen L inline r' (fst (fst (do_call A c w 1%nat))).
Proof.
  intros (own & I1 & I2 & I3 & I4) E M Vi S Run. specialize (I1 i) as Mi. rewrite Vi in Mi. pose proof (CH c w) as C. cbv zeta in C.
  destruct M as [x|bs|k|n|j]; cbn [estep rstep call_ok] in *; rewrite ?Vi in Run; unfold guard in E; destruct (e i) as [|cells len|cells len] eqn:Ei; try discriminate;
    cbn [vmatch] in Mi; destruct Mi as (b & R & Lb & F & Hl); pose proof (proj1 (seen_of _ _ _ _ w R) S) as O; pose proof O as (Oi & Ol & Oc);
    pose proof (fits_len _ _ F) as FL; destruct (br_observe _ _ _ BR _ _ _ _ R) as (_ & _ & Hb & Hm & Hok & _); unfold bf_cap in *.
  - (* push *)
    destruct (N.ltb_spec len (nlen cells)) as [H|]; [|discriminate]. destruct (N.ltb_spec x 256) as [Hx|]; [|discriminate].
    split; [lia|]. assert (exists b', bf_push x b = Ok b') as (b' & Eb).
    { unfold bf_push, bf_set_len, bf_write, mem_write, bf_cap. destruct (N.ltb_spec (b_len b) (nlen (b_mem b))); [|lia].
      destruct (N.ltb_spec (nlen (b_mem b)) (b_len b + 1)); [lia|]. cbn [rbind b_mem b_len b_heap].
      rewrite nlen_cons, nlen_nil. destruct (N.ltb_spec (nlen (b_mem b)) (b_len b + (1 + 0))); [lia|]. eexists. reflexivity. }
    destruct (br_push _ _ _ BR _ _ _ _ _ _ R Hx Eb) as (r' & h1 & Er & R' & _). unfold mbind in Run. rewrite Er in Run. cbn in Run.
    injection Run as <- <-. exists r'. rewrite upd_eq. split; [reflexivity|]. apply (seen_of _ _ _ _ _ R').
    destruct C as (C1 & C2 & C3). now apply (of_push x b b' w).
  - (* extend *)
    destruct (N.leb_spec (len + nlen bs) (nlen cells)) as [H|]; [|discriminate]. destruct (octets bs) eqn:Ob; [|discriminate].
    split; [lia|]. destruct (extend_fits bs b cells) as (b' & Eb & _ & _); [lia | assumption |].
    destruct (br_extend _ _ _ BR _ _ _ _ _ _ R (proj1 (octets_ok _) Ob) Eb) as (r' & h1 & Er & R' & _). unfold mbind in Run. rewrite Er in Run. cbn in Run.
    injection Run as <- <-. exists r'. rewrite upd_eq. split; [reflexivity|]. apply (seen_of _ _ _ _ _ R').
    destruct C as (C1 & C2 & C3). now apply (of_extend bs b b' w).
  - (* reserve *)
    destruct (N.leb_spec (len + k) isize_max) as [H|]; [|discriminate]. split; [exact I|].
    assert (Hk : b_len b + k <= isize_max) by lia. pose proof (br_reserve _ _ _ BR _ _ _ _ k R Hk) as X. unfold mbind in Run.
    destruct (L_reserve L al k r h) as [r' h1| | |]; try discriminate. cbn [meets] in X. destruct X as (jk & b' & o' & R' & _ & Eb). cbn in Run.
    injection Run as <- <-. exists r'. rewrite upd_eq. split; [reflexivity|]. apply (seen_of _ _ _ _ _ R').
    destruct C as (C1 & C2 & C3). eapply (of_reserve _ k b b' w); eassumption.
  - (* set_len *)
    destruct (N.leb_spec n (nlen cells)) as [H|]; [|discriminate]. split; [lia|].
    destruct (set_len_fits n b cells H F) as (b' & Eb & _ & _).
    destruct (br_set_len _ _ _ BR _ _ _ _ _ _ R Eb) as (r' & Er & R'). unfold mbind, L_set_len_checked in Run.
    assert (K : L_capacity L r = nlen (b_mem b)) by (destruct (br_observe _ _ _ BR _ _ _ _ R) as (_ & K & _); exact K). rewrite K in Run.
    destruct (N.ltb_spec (nlen (b_mem b)) n); [lia|]. rewrite Er in Run. cbn in Run.
    injection Run as <- <-. exists r'. rewrite upd_eq. split; [reflexivity|]. apply (seen_of _ _ _ _ _ R').
    destruct C as (C1 & C2 & C3). now apply (of_set_len n b b' w).
  - (* clone *)
    split; [exact I|]. unfold mbind in Run. destruct (L_clone L al r h) as [r' h1| | |]; try discriminate. cbn in Run. injection Run as <- <-.
    exists r. destruct (Nat.eq_dec i j) as [<-|Nj]; [rewrite Ei in E; discriminate|]. rewrite upd_neq by congruence. split; [assumption|].
    destruct C as (C1 & C2 & C3). destruct S as (S1 & S2 & S3). unfold seen. rewrite C1, C2, C3. auto.
Qed.
Lemma link_run os : forall cs h0 e v h e' i r w v' h',
  good L Rp h0 e v h -> erun (L_init_cap L) os e = Some e' -> Forall2 (made i) os cs -> v i = VBuf r -> seen L inline r w -> rrun L al os v h = Done v' h' ->
  calls_ok A cs w /\ exists r', v' i = VBuf r' /\ seen L inline r' (view_end A cs w).
Proof.
  induction os as [|o os IH]; intros cs h0 e v h e' i r w v' h' HG E M Vi S Run; inversion M as [|? c ? cs' M1 M2]; subst.
  - cbn in *. injection Run as <- <-. split; [exact I|]. eauto.
  - cbn [erun rrun] in *. destruct (estep (L_init_cap L) o e) as [e1|] eqn:E1; [|discriminate]. unfold mbind in Run.
    destruct (rstep L al o v h) as [v1 h1| | |] eqn:R1; try discriminate.
    destruct (link_step _ _ _ _ _ _ _ _ _ _ _ _ HG E1 M1 Vi S R1) as (CO & r1 & V1 & S1).
    pose proof (step_good L al G Rp BR _ _ _ _ _ _ HG E1) as HG1. rewrite R1 in HG1. cbn [meets] in HG1.
    destruct (IH _ _ _ _ _ _ _ _ _ _ _ HG1 E M2 V1 S1 Run) as (X & Y). split; [split; assumption | exact Y].
Qed.
(** After any history. *)
Theorem link before os cs e e' i r w v h v' h' h0 :
  erun (L_init_cap L) before eempty = Some e -> rrun L al before vempty h0 = Done v h -> v i = VBuf r ->
  erun (L_init_cap L) os e = Some e' -> rrun L al os v h = Done v' h' -> Forall2 (made i) os cs -> seen L inline r w ->
  calls_ok A cs w /\ exists r', v' i = VBuf r' /\ seen L inline r' (snd (history A cs w 1)).
Proof.
  intros E1 R1 Vi E2 R2 M S. rewrite history_view.
  assert (good L Rp h0 eempty vempty h0) as G0.
  { exists (fun _ => None). split; [|split; [|split]].
    - intros k. reflexivity.
    - intros k j a [=].
    - intros k a [=].
    - reflexivity. }
  pose proof (run_good L al G Rp BR before h0 h0 vempty eempty e G0 E1) as HG. rewrite R1 in HG. cbn [meets] in HG.
  eapply link_run; eassumption.
Qed.
(** Every buffer has a view. *)
Theorem link_view before e i r v h h0 next : 
  erun (L_init_cap L) before eempty = Some e -> rrun L al before vempty h0 = Done v h -> v i = VBuf r -> 2 < next ->
  (inline r = true -> L_capacity L r = L_init_cap L) ->
  exists w, seen L inline r w /\ view_ok (L_init_cap L) w /\ v_next w = next.
Proof.
  intros E1 R1 Vi Hn HI. clear INL CH.
  assert (good L Rp h0 eempty vempty h0) as G0.
  { exists (fun _ => None). split; [|split; [|split]].
    - intros k. reflexivity.
    - intros k j a [=].
    - intros k a [=].
    - reflexivity. }
  pose proof (run_good L al G Rp BR before h0 h0 vempty eempty e G0 E1) as HG. rewrite R1 in HG. cbn [meets] in HG.
  destruct HG as (own & I1 & _). specialize (I1 i). rewrite Vi in I1. destruct (e i) as [|cells len|]; try contradiction. destruct I1 as (b & R & _).
  destruct (br_observe _ _ _ BR _ _ _ _ R) as (A1 & A2 & A3 & _).
  exists {| v_inline := inline r; v_len := L_len L r; v_cap := L_capacity L r; v_block := 2; v_next := next |}. split; [repeat split|].
  split; [|reflexivity]. unfold view_ok. cbn [v_inline v_len v_cap v_block v_next]. split; [lia|]. split; [destruct (inline r); auto | lia].
Qed.
End LINK.

Lemma le_inline_cap r : le_is_stack r = true -> L_capacity LE r = L_init_cap LE.
Proof. intros E. cbn [LE L_capacity L_init_cap]. unfold le_capacity. now rewrite E. Qed.
Lemma ue_inline_cap r : ue_is_stack r = true -> L_capacity UE r = L_init_cap UE.
Proof. intros E. cbn [UE L_capacity L_init_cap]. unfold ue_capacity. now rewrite E. Qed.

Section FRESH.
Context (L : layout) (al : allocator) (Rp : L_raw L -> heap -> buf -> option N -> Prop) (BR : buffer_refines L al Rp).
Context (inline : L_raw L -> bool) (INL : forall r h b own, Rp r h b own -> inline r = negb (b_heap b)) (A : borrows) (INIT : A_init A = L_init_cap L).
Lemma of_fresh k j b next : bf_with_capacity {| init_cap := L_init_cap L; junk := j |} k = Ok b -> of_buf b (b_fresh A k next).
Proof.
  intros E. unfold b_fresh. rewrite INIT.
  apply (of_reserve {| init_cap := L_init_cap L; junk := j |} k (bf_new {| init_cap := L_init_cap L; junk := j |}) b
    {| v_inline := true; v_len := 0; v_cap := L_init_cap L; v_block := 0; v_next := 0 |}).
  - unfold of_buf, bf_cap. cbn [bf_new b_mem b_len b_heap v_inline v_len v_cap init_cap negb]. repeat split. rewrite nlen_length, repeat_length. lia.
  - cbn [bf_new b_len]. lia.
  - exact E.
  - reflexivity.
  - cbn [v_inline v_len v_cap andb]. rewrite N.add_0_l. reflexivity.
  - cbn [v_inline v_len v_cap]. rewrite N.add_0_l. destruct (N.leb_spec k (L_init_cap L)); lia.
Qed.
Lemma fresh_seen k h r h' next : k <= isize_max -> L_with_capacity L al k h = Done r h' -> seen L inline r (b_fresh A k next).
Proof.
  intros Hk E. pose proof (br_with_capacity _ _ _ BR h k Hk) as X. rewrite E in X. cbn [meets] in X. destruct X as (j & b & own & R & _ & Eb).
  apply (seen_of L al Rp BR inline INL _ _ _ _ _ R). eapply of_fresh. eassumption.
Qed.
Lemma fresh_filled bs h r h' next : nlen bs <= isize_max -> bytes_ok bs -> L_from_slice L al bs h = Done r h' ->
  seen L inline r (set_v_len (nlen bs) (b_fresh A (nlen bs) next)).
Proof.
  intros Hk Hok E. unfold L_from_slice, mbind in E. pose proof (br_with_capacity _ _ _ BR h _ Hk) as X.
  destruct (L_with_capacity L al (nlen bs) h) as [r0 h1| | |]; try discriminate. cbn [meets] in X. destruct X as (j & b & own & R & _ & Eb).
  destruct (with_capacity_ok {| init_cap := L_init_cap L; junk := j |} _ Hk) as (b0 & E0 & L0 & C0 & Ok0). rewrite Eb in E0. injection E0 as <-.
  destruct (extend_ok b [] (b_mem b) bs) as (b' & sp & E' & _); auto.
  destruct (br_extend _ _ _ BR _ _ _ _ _ _ R Hok E') as (r' & h2 & Er & R' & _). rewrite Er in E. injection E as <- <-.
  apply (seen_of L al Rp BR inline INL _ _ _ _ _ R'). apply (of_extend bs b b' (b_fresh A (nlen bs) next)); auto.
  eapply of_fresh. eassumption.
Qed.
Lemma clone_filled r0 h b own r h' next : Rp r0 h b own -> L_clone L al r0 h = Done r h' ->
  seen L inline r (set_v_len (L_len L r0) (b_fresh A (L_len L r0) next)).
Proof.
  intros R0 E. pose proof (br_clone _ _ _ BR _ _ _ _ R0) as X. rewrite E in X. cbn [meets] in X. destruct X as (j & b' & own' & R & _ & Eb).
  destruct (br_observe _ _ _ BR _ _ _ _ R0) as (Ll & _ & Hl & Hm & Hok & _).
  assert (nlen (bf_slice b) = b_len b) as Ls by (unfold bf_slice, bf_cap in *; rewrite nlen_take; lia). rewrite Ll, <- Ls.
  unfold bf_clone, bf_from_slice in Eb. destruct (bf_with_capacity _ (nlen (bf_slice b))) as [b1| | |] eqn:E1; try discriminate. cbn [rbind] in Eb.
  apply (seen_of L al Rp BR inline INL _ _ _ _ _ R). apply (of_extend (bf_slice b) b1 b' (b_fresh A (nlen (bf_slice b)) next)); auto.
  eapply of_fresh. eassumption.
Qed.
End FRESH.
