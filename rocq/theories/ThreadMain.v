(** The invariant of several threads that use buffers. *)
From Verif Require Import Base ModelTag ModelBuf ModelHeap ModelBufLE ModelBufUE SpecBuf ModelThreads SpecThreads.
From Verif Require Import BufProofs RawProofs RawMain ThreadProofs.

Section THREADS.
Context (L : layout) (P : programs (L_raw L)) (Rp : L_raw L -> heap -> buf -> option N -> Prop).
Context (BR : forall al, good_allocator al -> buffer_refines L al Rp).
Context (IM : forall al, implements L P al) (LI : light P).
Context (CL : forall r, P_clone P r = (ret <~ P_with_capacity P (L_len L r) ; s <~ P_load P 0 (L_len L r) r ; P_extend P s ret)).
Notation ic := (L_init_cap L).
Notation BB := (BR bump bump_good).

Definition seen_ok (st_seen : list (list (option N))) (seen : list (list N)) : Prop :=
  Forall2 (fun cells bs => fits cells bs /\ nlen bs = nlen cells) st_seen seen.
Definition post (st : sthread) (x : vars L * list (list N)) (h : heap) : Prop :=
  good L Rp [] (st_vars st) (fst x) h /\ seen_ok (st_seen st) (snd x).
Definition tinv (n : nat) (hN : heap) (ownS : env (option N)) (t : nat) (h : heap) (mt : thread L) (st : sthread) : Prop :=
  match t_busy mt, st_busy st with
  | None, None => post st (t_vars mt, t_seen mt) h
  | Some p, Some r => (t < n)%nat /\ exists ro, safe ro p (post st) h /\
      forall a c, h_get a ro = Some c -> h_get a hN = Some c /\ exists k, r = Some k /\ ownS k = Some a
  | _, _ => False
  end.
Definition INV (n : nat) (h0 : heap) (m : machine L) (s : smachine) : Prop := exists hs ownS,
  parts hs (m_heap m) h0 /\ inv L Rp [] (hs None) (m_shared m) (s_shared s) ownS /\
  forall t, tinv n (hs None) ownS t (hs (Some t)) (m_threads m t) (s_threads s t).

(** ** The operations *)
Lemma start_safe o v e e' seen seen' h : good L Rp [] e v h -> estep ic o e = Some e' -> seen_ok seen seen' ->
  forall b, safe [] (v' <~ pstep L P o v ; PRet (v', seen')) (post {| st_vars := e'; st_seen := seen; st_busy := b |}) h.
Proof.
  intros HG E S b. apply safe_bind. cbn [safe].
  apply (safe_mono [] _ (fun v' h' => good L Rp [] e' v' h')); [intros v' h' G'; split; [exact G' | exact S]|].
  apply once_safe; [now apply once_pstep|]. intros al G. rewrite (same_pstep L P al o v (IM al)).
  apply (step_good L al G Rp (BR al G) [] h v e o e' HG E).
Qed.
(** The block of one variable. *)
Definition block (o : option N) (h : heap) : heap := match o with Some a => match h_get a h with Some c => h_set a c [] | None => [] end | None => [] end.
Lemma block_get o h a : o = Some a -> h_get a (block o h) = h_get a h.
Proof. intros ->. unfold block. destruct (h_get a h) eqn:E; [apply get_set_eq | reflexivity]. Qed.
Lemma block_in o h a c : h_get a (block o h) = Some c -> o = Some a /\ h_get a h = Some c.
Proof.
  unfold block. destruct o as [x|]; [|discriminate]. destruct (h_get x h) eqn:E; [|discriminate].
  rewrite get_set. destruct (N.eqb_spec x a) as [->|]; [|discriminate]. intros [= <-]. auto.
Qed.
Lemma slice_load r h b o : Rp r h b o -> L_load L 0 (L_len L r) r h = Done (bf_slice b) h.
Proof. intros R. apply (br_observe _ _ _ BB _ _ _ _ R). Qed.
Lemma load_safe r h b o g : Rp r h b o -> safe (block o h) (P_load P 0 (L_len L r) r) (fun y h' => y = bf_slice b /\ h' = g) g.
Proof.
  intros R. apply (reads_safe _ bump); [apply (li_load _ LI)|]. rewrite (im_load _ _ _ (IM bump)). apply slice_load with (o := o).
  eapply br_frame; [apply BB | exact R|]. intros a E. now apply block_get.
Qed.
Lemma read_safe r cells len h o v e seen seen' g : vmatch L Rp h (VBuf r) (EBuf cells len) o -> good L Rp [] e v g -> seen_ok seen seen' ->
  forall b, safe (block o h) (bs <~ P_load P 0 (L_len L r) r ; PRet (v, bs :: seen')) (post {| st_vars := e; st_seen := take len cells :: seen; st_busy := b |}) g.
Proof.
  intros (b & R & <- & F & Hl) HG S b'. apply safe_bind. eapply safe_mono; [|eapply load_safe; eassumption].
  intros y h' (-> & ->). split; [exact HG|]. constructor; [|exact S]. split; [now apply fits_slice|].
  pose proof (fits_len _ _ F). unfold bf_slice. rewrite !nlen_take. lia.
Qed.
Lemma clone_safe r cells len h o v e seen seen' g j : vmatch L Rp h (VBuf r) (EBuf cells len) o -> good L Rp [] e v g -> seen_ok seen seen' ->
  e j = EEmpty -> forall b,
  safe (block o h) (r' <~ P_clone P r ; PRet (upd j (VBuf r') v, seen'))
    (post {| st_vars := upd j (EBuf (take len cells ++ unknown (ic - len)) len) e; st_seen := seen; st_busy := b |}) g.
Proof.
  intros (b & R & <- & F & Hl) (own & HI) S Ej b'. apply safe_bind. rewrite CL. apply safe_bind.
  destruct (br_observe _ _ _ BB _ _ _ _ R) as (Ll & _ & Cl & Cm & Hok & _).
  pose proof (fits_len _ _ F) as FL.
  assert (LS : nlen (bf_slice b) = b_len b) by (unfold bf_slice; rewrite nlen_take; lia).
  assert (Hs : bytes_ok (bf_slice b)) by (now apply bytes_ok_take).
  apply (safe_mono _ _ (fun r1 h1 => exists jk b1 o1, Rp r1 h1 b1 o1 /\ frame None o1 g h1 /\
           bf_with_capacity {| init_cap := ic; junk := jk |} (L_len L r) = Ok b1)).
  2: { apply safe_ro, once_safe; [apply (li_with_capacity _ LI)|]. intros al G. rewrite (im_with_capacity _ _ _ (IM al)).
       apply (br_with_capacity _ _ _ (BR al G)). lia. }
  intros r1 h1 (jk & b1 & o1 & R1 & F1 & E1). apply safe_bind. eapply safe_mono; [|eapply load_safe; eassumption].
  intros y h2 (-> & ->). rewrite Ll, <- LS in E1.
  destruct (from_slice_fits {| init_cap := ic; junk := jk |} (bf_slice b) ltac:(lia) Hs) as (b0 & b2 & E0 & E2 & L2 & F2).
  rewrite E0 in E1. injection E1 as <-.
  destruct (br_extend _ _ _ BB _ _ _ _ _ _ R1 Hs E2) as (r' & h' & Er & R' & F').
  apply safe_ro, (none_safe _ _ bump); [apply (li_extend _ LI)|]. rewrite (im_extend _ _ _ (IM bump)), Er. cbn [meets safe].
  split; [|exact S]. cbn [fst st_vars]. pose proof (proj1 HI j) as Mj. rewrite Ej in Mj. destruct (v j); try contradiction. cbn in Mj.
  exists (upd j o1 own). apply (inv_upd L bump Rp BB [] g); [exact HI | rewrite Mj |].
  - eapply frame_trans; [exact F1 | exact F' |]. intros a ->. rewrite (br_owned _ _ _ BB _ _ _ _ R1). discriminate.
  - exists b2. split; [exact R'|]. split; [lia|]. rewrite nlen_app, nlen_take. split; [|lia].
    rewrite <- LS at 2. apply F2; [rewrite nlen_take; lia | now apply fits_slice].
Qed.

(** ** From one to another *)
Lemma move_inv h1 v1 e1 own1 h2 v2 e2 own2 i j : inv L Rp [] h1 v1 e1 own1 -> inv L Rp [] h2 v2 e2 own2 ->
  (forall a, h_get a h1 <> None -> h_get a h2 = None) -> e2 j = EEmpty ->
  inv L Rp [] (give (own1 i) h1) (upd i VEmpty v1) (upd i EEmpty e1) (upd i None own1) /\
  inv L Rp [] (gain (own1 i) h1 h2) (upd j (v1 i) v2) (upd j (e1 i) e2) (upd j (own1 i) own2).
Proof.
  intros I1 I2 D Ej. pose proof (proj1 I1 i) as Mi. pose proof (proj1 I2 j) as Mj. rewrite Ej in Mj. destruct (v2 j); try contradiction. cbn in Mj.
  split.
  - apply (inv_upd L bump Rp BB [] h1); [exact I1 | | reflexivity]. unfold give. destruct (own1 i) as [a|] eqn:E; [|apply frame_refl].
    split; [|split]; [| |].
    + intros x Hx _. rewrite get_del. destruct (N.eqb_spec a x); congruence.
    + intros x [=].
    + intros x [= ->] _. now rewrite get_del, N.eqb_refl.
  - apply (inv_upd L bump Rp BB [] h2); [exact I2 | rewrite Mj |].
    + unfold gain. destruct (own1 i) as [a|] eqn:E; [|apply frame_refl]. apply (vmatch_live L bump Rp BB) in Mi.
      destruct (h_get a h1) as [c|] eqn:Ea; [|contradiction]. split; [|split].
      * intros x _ Hx. rewrite get_set. destruct (N.eqb_spec a x); congruence.
      * intros x [= ->]. right. apply D. congruence.
      * intros x [=].
    + apply (vmatch_frame L bump Rp BB h1); [exact Mi|]. intros a E. rewrite E in *. apply (vmatch_live L bump Rp BB) in Mi.
      unfold gain. destruct (h_get a h1) as [c|]; [apply get_set_eq | contradiction].
Qed.
Lemma parts_apart hs H h0 w w' a : parts hs H h0 -> w <> w' -> h_get a (hs w) <> None -> h_get a (hs w') = None.
Proof. intros (_ & D & _) N Ha. destruct (h_get a (hs w')) eqn:E; [|reflexivity]. elim N. apply (D w w' a); congruence. Qed.

Lemma tinv_other n hN ownS hN' ownS' t h mt st : tinv n hN ownS t h mt st ->
  (forall k a c, st_busy st = Some (Some k) -> ownS k = Some a -> h_get a hN = Some c -> ownS' k = Some a /\ h_get a hN' = Some c) ->
  tinv n hN' ownS' t h mt st.
Proof.
  unfold tinv. destruct (t_busy mt), (st_busy st) as [r|]; auto. intros (B & ro & S & K) X. split; [exact B|]. exists ro. split; [exact S|].
  intros a c Ha. destruct (K a c Ha) as (HN & k & -> & Ok). destruct (X k a c eq_refl Ok HN). eauto.
Qed.
Lemma idle_post n hN ownS t h mt st : tinv n hN ownS t h mt st -> st_busy st = None -> t_busy mt = None /\ post st (t_vars mt, t_seen mt) h.
Proof. unfold tinv. intros T E. rewrite E in T. destruct (t_busy mt); [contradiction | auto]. Qed.
Lemma guard_some {A} b (x : option A) y : guard b x = Some y -> b = true /\ x = Some y.
Proof. destruct b; [auto | discriminate]. Qed.
Lemma s_idle_true t s : s_idle t s = true -> st_busy (s_threads s t) = None.
Proof. unfold s_idle. destruct (st_busy (s_threads s t)); [discriminate | reflexivity]. Qed.
Lemma no_var_true x : no_var x = true -> x = EEmpty.
Proof. destruct x; [reflexivity | discriminate..]. Qed.

Definition lands (n : nat) (al : allocator) (h0 : heap) (s : smachine) (r : ran L) : Prop :=
  match r with Ran m => INV n h0 m s | Refused => out_of_memory al | Early => True | Crashed | Undefined => False end.

Lemma begin_inv n h0 hs ownS m s t p st' al : parts hs (m_heap m) h0 -> inv L Rp [] (hs None) (m_shared m) (s_shared s) ownS ->
  (forall t, tinv n (hs None) ownS t (hs (Some t)) (m_threads m t) (s_threads s t)) ->
  (forall mt, t_busy mt = Some p -> tinv n (hs None) ownS t (hs (Some t)) mt st') ->
  lands n al h0 (s_put t st' s) (begins L t p m).
Proof.
  intros HP HS HT H. unfold begins. destruct (t_busy (m_threads m t)) eqn:B; [exact I|]. exists hs, ownS.
  cbn [m_put m_heap m_shared m_threads s_put s_shared s_threads]. repeat split; try apply HP; try apply HS.
  intros u. destruct (Nat.eq_dec u t) as [->|N]; [rewrite !upd_eq; now apply H | rewrite !upd_neq by assumption; apply HT].
Qed.
Lemma tick_inv n al h0 m s t p : good_allocator al -> INV n h0 m s -> t_busy (m_threads m t) = Some p ->
  match access al p (m_heap m) with
  | Done p' h' => INV n h0 {| m_heap := h'; m_threads := upd t {| t_vars := t_vars (m_threads m t); t_seen := t_seen (m_threads m t); t_busy := Some p' |} (m_threads m);
                              m_shared := m_shared m |} s
  | Abort => out_of_memory al
  | Crash | UB => False
  end.
Proof.
  intros G (hs & ownS & HP & HS & HT) B. pose proof (HT t) as T. unfold tinv in T. rewrite B in T.
  destruct (st_busy (s_threads s t)) as [r|] eqn:Bs; [|contradiction]. destruct T as (Ht & ro & S & K).
  pose proof (safe_access al ro p (post (s_threads s t)) (hs (Some t)) (m_heap m) G (proj1 HP (Some t))
    (fun a c E => proj1 HP None a c (proj1 (K a c E))) S) as X.
  destruct (access al p (m_heap m)) as [p' H'| | |]; auto. destruct X as (h' & S' & MV).
  exists (setp (Some t) h' hs), ownS. cbn [m_heap m_threads m_shared].
  split; [eapply parts_step; eassumption|]. rewrite setp_neq by discriminate. split; [exact HS|].
  intros u. destruct (Nat.eq_dec u t) as [->|N].
  - rewrite upd_eq, setp_eq. unfold tinv. cbn [t_busy]. rewrite Bs. split; [exact Ht|]. exists ro. split; [exact S' | exact K].
  - rewrite upd_neq, setp_neq by congruence. apply HT.
Qed.
Lemma step_inv n al h0 a m s s' : good_allocator al -> INV n h0 m s -> sstep n ic a s = Some s' -> lands n al h0 s' (mstep L P al a m).
Proof.
  intros G HI E. pose proof HI as (hs & ownS & HP & HS & HT). destruct a as [t o|t k j|t k|t|t|t i u j|t i k|k t i]; cbn [sstep mstep] in *.
  - (* an operation *)
    apply guard_some in E. destruct E as (B & E). apply andb_prop in B. destruct B as (Bn & Bi). apply Nat.ltb_lt in Bn. apply s_idle_true in Bi.
    destruct (estep ic o (st_vars (s_threads s t))) as [e|] eqn:Ee; [|discriminate]. injection E as <-.
    destruct (idle_post _ _ _ _ _ _ _ (HT t) Bi) as (_ & PG & PS). cbn [fst snd] in *.
    apply (begin_inv n h0 hs ownS); auto. intros mt Bm. unfold tinv. rewrite Bm. cbn [st_busy]. split; [exact Bn|]. exists []. split; [|intros ? ? [=]].
    eapply start_safe; eassumption.
  - (* clone of a shared one *)
    destruct (s_shared s k) as [|cells len|] eqn:Ek; try discriminate. apply guard_some in E. destruct E as (B & E). injection E as <-.
    apply andb_prop in B. destruct B as (B & Bj). apply andb_prop in B. destruct B as (Bn & Bi). apply Nat.ltb_lt in Bn. apply s_idle_true in Bi. apply no_var_true in Bj.
    destruct (idle_post _ _ _ _ _ _ _ (HT t) Bi) as (_ & PG & PS). cbn [fst snd] in *.
    pose proof (proj1 HS k) as Mk. rewrite Ek in Mk. destruct (m_shared m k) as [|r|]; try contradiction.
    apply (begin_inv n h0 hs ownS); auto. intros mt Bm. unfold tinv. rewrite Bm. cbn [st_busy]. split; [exact Bn|]. exists (block (ownS k) (hs None)).
    split; [eapply clone_safe; eassumption|]. intros a c Ha. apply block_in in Ha. destruct Ha. eauto.
  - (* reading a shared one *)
    destruct (s_shared s k) as [|cells len|] eqn:Ek; try discriminate. apply guard_some in E. destruct E as (B & E). injection E as <-.
    apply andb_prop in B. destruct B as (Bn & Bi). apply Nat.ltb_lt in Bn. apply s_idle_true in Bi.
    destruct (idle_post _ _ _ _ _ _ _ (HT t) Bi) as (_ & PG & PS). cbn [fst snd] in *.
    pose proof (proj1 HS k) as Mk. rewrite Ek in Mk. destruct (m_shared m k) as [|r|]; try contradiction.
    apply (begin_inv n h0 hs ownS); auto. intros mt Bm. unfold tinv. rewrite Bm. cbn [st_busy]. split; [exact Bn|]. exists (block (ownS k) (hs None)).
    split; [eapply read_safe; eassumption|]. intros a c Ha. apply block_in in Ha. destruct Ha. eauto.
  - (* an access *)
    injection E as <-. destruct (t_busy (m_threads m t)) as [p|] eqn:B; [|exact I]. pose proof (tick_inv n al h0 m s t p G HI B) as X.
    destruct p; try exact I; match goal with |- context [access ?al ?p ?h] => destruct (access al p h) end; exact X.
  - (* the end of an operation *)
    injection E as <-. destruct (t_busy (m_threads m t)) as [p|] eqn:B; [|exact I]. destruct p as [[v seen]| | | | | | |]; try exact I.
    pose proof (HT t) as T. unfold tinv in T. rewrite B in T. destruct (st_busy (s_threads s t)) as [r|] eqn:Bs; [|contradiction].
    destruct T as (Ht & ro & S & _). cbn [safe] in S. exists hs, ownS. cbn [m_put m_heap m_shared m_threads s_put s_shared s_threads].
    repeat split; try apply HP; try apply HS. intros u. destruct (Nat.eq_dec u t) as [->|N]; [rewrite !upd_eq | rewrite !upd_neq by assumption; apply HT].
    exact S.
  - (* to another thread *)
    apply guard_some in E. destruct E as (B & E). injection E as <-. apply andb_prop in B. destruct B as (B & Bj). apply andb_prop in B. destruct B as (B & Bu).
    apply andb_prop in B. destruct B as (Ne & Bt). apply negb_true_iff, Nat.eqb_neq in Ne. apply s_idle_true in Bt, Bu. apply no_var_true in Bj.
    destruct (idle_post _ _ _ _ _ _ _ (HT t) Bt) as (Mt & (own1 & I1) & PS1). destruct (idle_post _ _ _ _ _ _ _ (HT u) Bu) as (Mu & (own2 & I2) & PS2).
    cbn [fst snd] in *. destruct (move_inv _ _ _ _ _ _ _ _ i j I1 I2) as (J1 & J2); [|exact Bj|].
    { intros a. apply (parts_apart hs (m_heap m) h0); [exact HP | congruence]. }
    exists (setp (Some u) (gain (own1 i) (hs (Some t)) (hs (Some u))) (setp (Some t) (give (own1 i) (hs (Some t))) hs)), ownS.
    unfold m_set_var, s_set_var. cbn [m_put m_heap m_shared m_threads s_put s_shared s_threads].
    split; [apply parts_move; [exact HP | congruence]|]. rewrite !(setp_neq _ None) by discriminate. split; [exact HS|].
    rewrite !(upd_neq t u) by congruence. intros w. destruct (Nat.eq_dec w u) as [->|Nu]; [|destruct (Nat.eq_dec w t) as [->|Nt]].
    + rewrite !upd_eq, setp_eq. unfold tinv. cbn [t_busy st_busy]. rewrite Mu, Bu. split; [eexists; exact J2 | exact PS2].
    + rewrite !(upd_neq u t), !upd_eq, setp_neq, setp_eq by congruence. unfold tinv. cbn [t_busy st_busy]. rewrite Mt, Bt. split; [eexists; exact J1 | exact PS1].
    + rewrite !upd_neq, !setp_neq by congruence. apply HT.
  - (* to all threads *)
    apply guard_some in E. destruct E as (B & E). injection E as <-. apply andb_prop in B. destruct B as (Bt & Bk). apply s_idle_true in Bt. apply no_var_true in Bk.
    destruct (idle_post _ _ _ _ _ _ _ (HT t) Bt) as (Mt & (own1 & I1) & PS1). cbn [fst snd] in *.
    destruct (move_inv _ _ _ _ _ _ _ _ i k I1 HS) as (J1 & J2); [|exact Bk|].
    { intros a. apply (parts_apart hs (m_heap m) h0); [exact HP | congruence]. }
    exists (setp None (gain (own1 i) (hs (Some t)) (hs None)) (setp (Some t) (give (own1 i) (hs (Some t))) hs)), (upd k (own1 i) ownS).
    unfold m_set_var, s_set_var, m_set_shared, s_set_shared. cbn [m_put m_heap m_shared m_threads s_put s_shared s_threads].
    split; [apply parts_move; [exact HP | congruence]|]. rewrite setp_eq. split; [exact J2|].
    intros w. rewrite setp_neq by discriminate. destruct (Nat.eq_dec w t) as [->|Nt].
    + rewrite !upd_eq, setp_eq. unfold tinv. cbn [t_busy st_busy]. rewrite Mt, Bt. split; [eexists; exact J1 | exact PS1].
    + rewrite !upd_neq, setp_neq by congruence. eapply tinv_other; [apply HT|]. intros k' a c _ Ok Ha.
      pose proof (proj1 HS k) as Mk. rewrite Bk in Mk. destruct (m_shared m k); try contradiction. cbn in Mk.
      rewrite upd_neq by congruence. split; [exact Ok|]. unfold gain. destruct (own1 i) as [b|]; [|exact Ha]. destruct (h_get b (hs (Some t))) as [d|] eqn:Eb; [|exact Ha].
      rewrite get_set. destruct (N.eqb_spec b a) as [->|]; [|exact Ha]. rewrite (parts_apart hs _ _ None (Some t) a HP) in Eb; congruence.
  - (* and back *)
    apply guard_some in E. destruct E as (B & E). injection E as <-. apply andb_prop in B. destruct B as (B & Bn). apply andb_prop in B. destruct B as (Bt & Bi).
    apply s_idle_true in Bt. apply no_var_true in Bi. rewrite forallb_forall in Bn.
    destruct (idle_post _ _ _ _ _ _ _ (HT t) Bt) as (Mt & (own2 & I2) & PS2). cbn [fst snd] in *.
    destruct (move_inv _ _ _ _ _ _ _ _ k i HS I2) as (J1 & J2); [|exact Bi|].
    { intros a. apply (parts_apart hs (m_heap m) h0); [exact HP | congruence]. }
    exists (setp (Some t) (gain (ownS k) (hs None) (hs (Some t))) (setp None (give (ownS k) (hs None)) hs)), (upd k None ownS).
    unfold m_set_var, s_set_var, m_set_shared, s_set_shared. cbn [m_put m_heap m_shared m_threads s_put s_shared s_threads].
    split; [apply parts_move; [exact HP | congruence]|]. rewrite (setp_neq _ None), setp_eq by discriminate. split; [exact J1|].
    intros w. destruct (Nat.eq_dec w t) as [->|Nt].
    + rewrite !upd_eq, setp_eq. unfold tinv. cbn [t_busy st_busy]. rewrite Mt, Bt. split; [eexists; exact J2 | exact PS2].
    + rewrite !upd_neq, !setp_neq by congruence. eapply tinv_other; [apply HT|]. intros k' a c Eb Ok Ha.
      assert (k' <> k) as Nk.
      { intros ->. pose proof (HT w) as T. unfold tinv in T. rewrite Eb in T. destruct (t_busy (m_threads m w)); [|contradiction]. destruct T as (Hw & _).
        specialize (Bn w). rewrite in_seq, Eb, Nat.eqb_refl in Bn. discriminate Bn. lia. }
      rewrite upd_neq by assumption. split; [exact Ok|]. unfold give. destruct (ownS k) as [b|] eqn:Ob; [|exact Ha].
      rewrite get_del. destruct (N.eqb_spec b a) as [->|]; [|exact Ha]. elim Nk. destruct HS as (_ & Inj & _). eapply Inj; eassumption.
Qed.
Lemma run_inv n al h0 acts : forall m s s', good_allocator al -> INV n h0 m s -> srun n ic acts s = Some s' -> lands n al h0 s' (mrun L P al acts m).
Proof.
  induction acts as [|a acts IH]; intros m s s' G HI E; cbn [srun mrun] in *.
  - injection E as <-. exact HI.
  - destruct (sstep n ic a s) as [s1|] eqn:E1; [|discriminate]. pose proof (step_inv n al h0 a m s s1 G HI E1) as X.
    destruct (mstep L P al a m) as [m1| | | |]; auto. eapply IH; eassumption.
Qed.
Lemma empty_inv n h0 : INV n h0 (mempty L h0) sempty.
Proof.
  assert (forall e v, e = eempty -> v = vempty -> inv L Rp [] [] v e (fun _ => None)) as X.
  { intros e v -> ->. repeat split; try discriminate. }
  exists (fun _ => []), (fun _ => None). cbn [mempty sempty m_heap m_threads m_shared s_threads s_shared]. split; [|split].
  - repeat split; try discriminate; try (intros; contradiction).
  - now apply X.
  - intros t. cbn. split; [exists (fun _ => None); now apply X | constructor].
Qed.

(** ** What the invariant says *)
Lemma inv_race n h0 m s : INV n h0 m s -> ~ race L m.
Proof.
  intros (hs & ownS & HP & HS & HT) (t & u & p & q & b & Ne & Bt & Bu & W & RW).
  pose proof (HT t) as Tt. pose proof (HT u) as Tu. unfold tinv in Tt, Tu. rewrite Bt in Tt. rewrite Bu in Tu.
  destruct (st_busy (s_threads s t)) as [rt|]; [|contradiction]. destruct (st_busy (s_threads s u)) as [ru|]; [|contradiction].
  destruct Tt as (_ & ro1 & S1 & K1), Tu as (_ & ro2 & S2 & K2). pose proof (safe_writes _ _ _ _ _ S1 W) as W1. destruct HP as (_ & D & _).
  destruct RW as [X|X].
  - pose proof (safe_writes _ _ _ _ _ S2 X) as W2. specialize (D _ _ _ W1 W2). congruence.
  - destruct (safe_reads _ _ _ _ _ S2 X) as [R|R].
    + specialize (D _ _ _ W1 R). congruence.
    + destruct (h_get b ro2) as [c|] eqn:E; [|contradiction]. destruct (K2 b c E) as (HN & _).
      specialize (D (Some t) None b W1). discriminate D. congruence.
Qed.
Lemma shows_in h H v e own : within h H -> inv L Rp [] h v e own -> forall i, shows L H (v i) (e i).
Proof.
  intros W (I1 & _) i. apply (vmatch_shows L bump Rp BB) with (own := own i). apply (vmatch_frame L bump Rp BB h); [apply I1|].
  intros a E. specialize (I1 i). rewrite E in I1. apply (vmatch_live L bump Rp BB) in I1. destruct (h_get a h) as [c|] eqn:Ea; [now apply W | contradiction].
Qed.
Lemma no_blocks h v e own : inv L Rp [] h v e own -> (forall i, e i = EEmpty) -> forall a, h_get a h = None.
Proof.
  intros (I1 & _ & _ & I4) He a. rewrite I4; [reflexivity|]. intros i E. specialize (I1 i). rewrite He, E in I1. destruct (v i); try contradiction. discriminate I1.
Qed.
Lemma inv_agrees n h0 m s : INV n h0 m s -> agrees L h0 m s.
Proof.
  intros (hs & ownS & HP & HS & HT). pose proof HP as (P1 & P2 & P3 & P4). split; [|split; [|split]].
  - intros t Bt. destruct (idle_post _ _ _ _ _ _ _ (HT t) Bt) as (Mt & (own & I1) & PS). cbn [fst snd] in *. split; [|exact PS].
    eapply shows_in; [apply P1 | exact I1].
  - eapply shows_in; [apply P1 | exact HS].
  - intros a c E. rewrite P4; [exact E|]. intros w. destruct (h_get a (hs w)) eqn:Ew; [|reflexivity]. rewrite (P3 w a) in E; congruence.
  - intros Bt Ev Es a. apply P4. intros [t|].
    + destruct (idle_post _ _ _ _ _ _ _ (HT t) (Bt t)) as (Mt & (own & I1) & PS). cbn [fst snd] in *. eapply no_blocks; [exact I1 | apply Ev].
    + eapply no_blocks; [exact HS | apply Es].
Qed.
Theorem threads_run n al acts s h0 : good_allocator al -> srun n ic acts sempty = Some s ->
  match mrun L P al acts (mempty L h0) with
  | Ran m => ~ race L m /\ agrees L h0 m s
  | Refused => out_of_memory al
  | Early => True
  | Crashed | Undefined => False
  end.
Proof.
  intros G E. pose proof (run_inv n al h0 acts _ _ _ G (empty_inv n h0) E) as X. destruct (mrun L P al acts (mempty L h0)); auto.
  split; [eapply inv_race; exact X | eapply inv_agrees; exact X].
Qed.
Lemma goes_on n al h0 t : good_allocator al -> forall p m s, INV n h0 m s -> t_busy (m_threads m t) = Some p ->
  exists k, match mrun L P al (repeat (Tick t) k ++ [Finish t]) m with Ran _ => True | Refused => out_of_memory al | _ => False end.
Proof.
  intros G. induction p as [x|z c IH|q z c IH|q o z c IH|q off z c IH|q off src c IH| |]; intros m s HI B; pose proof (tick_inv n al h0 m s t _ G HI B) as X.
  { exists 0%nat. cbn. rewrite B. destruct x. exact I. }
  all: match type of X with match access ?al ?p ?h with _ => _ end => destruct (access al p h) as [p' h'| | |] eqn:A end; try contradiction X;
    [|exists 1%nat; cbn [repeat app mrun mstep]; rewrite B, A; exact X].
  all: assert (exists k, match mrun L P al (repeat (Tick t) k ++ [Finish t])
      {| m_heap := h'; m_threads := upd t {| t_vars := t_vars (m_threads m t); t_seen := t_seen (m_threads m t); t_busy := Some p' |} (m_threads m);
         m_shared := m_shared m |} with Ran _ => True | Refused => out_of_memory al | _ => False end) as (k & Hk);
    [|exists (S k); cbn [repeat app mrun mstep]; rewrite B, A; exact Hk].
  all: assert (t_busy (m_threads {| m_heap := h'; m_threads := upd t {| t_vars := t_vars (m_threads m t); t_seen := t_seen (m_threads m t); t_busy := Some p' |} (m_threads m);
         m_shared := m_shared m |} t) = Some p') as B' by (cbn [m_threads]; rewrite upd_eq; reflexivity).
  all: cbn [access] in A; unfold mbind, mret in A.
  - destruct (alloc al z (m_heap m)) as [y h''| | |]; try discriminate A. injection A as <- <-. eapply IH; eassumption.
  - destruct (dealloc q z (m_heap m)) as [y h''| | |]; try discriminate A. injection A as <- <-. eapply IH; eassumption.
  - destruct (realloc al q o z (m_heap m)) as [y h''| | |]; try discriminate A. injection A as <- <-. eapply IH; eassumption.
  - destruct (load q off z (m_heap m)) as [y h''| | |]; try discriminate A. injection A as <- <-. eapply IH; eassumption.
  - destruct (store q off src (m_heap m)) as [y h''| | |]; try discriminate A. injection A as <- <-. eapply IH; eassumption.
  - discriminate A.
  - discriminate A.
Qed.
Theorem threads_progress n al acts s h0 m t : good_allocator al -> srun n ic acts sempty = Some s -> mrun L P al acts (mempty L h0) = Ran m ->
  t_busy (m_threads m t) <> None ->
  exists k, match mrun L P al (repeat (Tick t) k ++ [Finish t]) m with Ran _ => True | Refused => out_of_memory al | _ => False end.
Proof.
  intros G E Em B. pose proof (run_inv n al h0 acts _ _ _ G (empty_inv n h0) E) as X. rewrite Em in X. cbn [lands] in X.
  destruct (t_busy (m_threads m t)) as [p|] eqn:Bp; [|contradiction]. eapply goes_on; eassumption.
Qed.
End THREADS.

Lemma LE_clone r : P_clone PLE r = (ret <~ P_with_capacity PLE (L_len LE r) ; s <~ P_load PLE 0 (L_len LE r) r ; P_extend PLE s ret).
Proof. reflexivity. Qed.
Lemma UE_clone r : P_clone PUE r = (ret <~ P_with_capacity PUE (L_len UE r) ; s <~ P_load PUE 0 (L_len UE r) r ; P_extend PUE s ret).
Proof. reflexivity. Qed.
Lemma LE_all al : good_allocator al -> buffer_refines LE al (Rep LE le_view).
Proof. intros G. apply (follows_refines good_allocator); [assumption | assumption | discriminate | exact LE_follows]. Qed.
Lemma UE_all al : good_allocator al -> buffer_refines UE al (Rep UE ue_view).
Proof. intros G. apply (follows_refines good_allocator); [assumption | assumption | discriminate | exact UE_follows]. Qed.

(** ** Which blocks an access reads and writes *)
Lemma access_writes al A (m : prog A) h m' h' b c : good_allocator al -> access al m h = Done m' h' ->
  h_get b h = Some c -> writes_block m <> Some b -> h_get b h' = Some c.
Proof.
  intros G E Hb W. destruct m as [a|n k|p size k|p old new k|p off n k|p off src k| |]; cbn [access writes_block] in E, W; try discriminate E.
  - inversion E. now subst.
  - unfold mbind, alloc in E. destruct (isize_max <? n); [discriminate|]. destruct (n =? 0); [discriminate|].
    destruct (al_pick al h n) as [a|] eqn:P; [|discriminate]. inversion E. subst. destruct (G _ _ _ P) as (Fr & _).
    rewrite get_set. destruct (N.eqb_spec a b) as [->|]; [congruence | assumption].
  - unfold mbind, dealloc in E. destruct (h_get p h) as [x|] eqn:P; [|discriminate]. destruct (nlen x =? size); [|discriminate].
    inversion E. subst. rewrite get_del. destruct (N.eqb_spec p b) as [->|]; [congruence | assumption].
  - unfold mbind, realloc in E. destruct (isize_max <? old); [discriminate|]. destruct (h_get p h) as [x|] eqn:P; [|discriminate].
    destruct (negb (nlen x =? old)); [discriminate|]. destruct ((new =? 0) || (isize_max <? new)); [discriminate|].
    destruct (al_pick al (h_del p h) new) as [a|] eqn:Q; [|discriminate]. inversion E. subst. destruct (G _ _ _ Q) as (Fr & _).
    assert (p <> b) by congruence. rewrite get_set, get_del. rewrite get_del in Fr.
    destruct (N.eqb_spec a b) as [->|]; [|destruct (N.eqb_spec p b); [contradiction | assumption]].
    destruct (N.eqb_spec p b); [contradiction | congruence].
  - unfold mbind, load in E. destruct (h_get p h) as [x|]; [|discriminate]. destruct (nlen x <? off + n); [discriminate|]. inversion E. now subst.
  - unfold mbind, store in E. destruct (h_get p h) as [x|]; [|discriminate]. destruct (nlen x <? off + nlen src); [discriminate|].
    inversion E. subst. rewrite get_set. destruct (N.eqb_spec p b) as [->|]; [congruence | assumption].
Qed.
Lemma access_reads al A (m : prog A) h b c1 c2 : (forall n k, m <> PAlloc n k) ->
  reads_block m <> Some b -> writes_block m <> Some b ->
  (forall p old new k, m <> PRealloc p old new k) ->
  match access al m (h_set b c1 h), access al m (h_set b c2 h) with
  | Done m1 _, Done m2 _ => m1 = m2
  | Abort, Abort | Crash, Crash | UB, UB => True
  | _, _ => False
  end.
Proof.
  intros NA R W NR. destruct m as [a|n k|p size k|p old new k|p off n k|p off src k| |]; cbn [access writes_block reads_block] in *; try exact I.
  - reflexivity.
  - now destruct (NA n k).
  - unfold mbind, dealloc. rewrite !get_set. destruct (N.eqb_spec b p) as [->|]; [congruence|]. destruct (h_get p h) as [x|]; [|exact I].
    destruct (nlen x =? size); [reflexivity | exact I].
  - now destruct (NR p old new k).
  - unfold mbind, load. rewrite !get_set. destruct (N.eqb_spec b p) as [->|]; [congruence|]. destruct (h_get p h) as [x|]; [|exact I].
    destruct (nlen x <? off + n); [exact I | reflexivity].
  - unfold mbind, store. rewrite !get_set. destruct (N.eqb_spec b p) as [->|]; [congruence|]. destruct (h_get p h) as [x|]; [|exact I].
    destruct (nlen x <? off + nlen src); [exact I | reflexivity].
Qed.
