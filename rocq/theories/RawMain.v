(** Both layouts refine ModelBuf.v, and histories of operations on them behave as the
    specification of SpecBuf.v says. *)
From Verif Require Import Base ModelTag ModelBuf ModelHeap ModelBufLE ModelBufUE Spec SpecBuf TagProofs BufProofs RawProofs.

Lemma new_octets_len al h a n : nlen (new_octets al h a n) = n.
Proof. unfold new_octets. rewrite junk_from_len. lia. Qed.
Lemma new_octets_ok al h a n : bytes_ok (new_octets al h a n).
Proof. apply junk_from_ok. Qed.

Section REF.
Context (al : allocator) (G : good_allocator al) (ic : N) (Hic : ic <= isize_max).
Definition srep (s : st) (h : heap) (b : buf) (own : option N) : Prop :=
  swf ic s /\
  match s with
  | Stk m n => b = {| b_mem := m; b_len := n; b_heap := false |} /\ own = None
  | Hp p c n => exists m, h_get p h = Some m /\ nlen m = c /\ 0 < p /\ bytes_ok m /\
                  b = {| b_mem := m; b_len := n; b_heap := true |} /\ own = Some p
  end.
Notation cf j := {| init_cap := ic; junk := j |}.

Lemma srep_facts s h b own : srep s h b own ->
  s_len s = b_len b /\ s_cap ic s = bf_cap b /\ b_len b <= bf_cap b /\ bytes_ok (b_mem b) /\ bf_cap b <= isize_max.
Proof.
  intros [W R]. destruct s as [m n|p c n]; cbn [swf s_len s_cap] in *.
  - destruct R as [-> ->]. cbn. unfold bf_cap. cbn. destruct W as (L & Hn & Hok). rewrite L. auto.
  - destruct R as (m & Hg & L & Hp & Hok & -> & ->). unfold bf_cap. cbn. rewrite L. destruct W as (? & ? & ? & ?). auto.
Qed.
Lemma srep_owned s h b a : srep s h b (Some a) -> h_get a h = Some (b_mem b).
Proof.
  intros [W R]. destruct s as [m n|p c n].
  - destruct R as [_ [=]].
  - destruct R as (m & Hg & L & Hp & Hok & -> & [= ->]). assumption.
Qed.
Lemma srep_frame s h h' b own : srep s h b own -> (forall a, own = Some a -> h_get a h' = h_get a h) -> srep s h' b own.
Proof.
  intros [W R] F. split; [assumption|]. destruct s as [m n|p c n]; [assumption|].
  destruct R as (m & Hg & R). exists m. split; [|assumption]. rewrite F; [assumption|]. tauto.
Qed.
Lemma frame_refl own h : frame own own h h.
Proof. split; [auto|]. split; [auto|]. intros a -> []. reflexivity. Qed.
Lemma frame_set p c h : frame (Some p) (Some p) h (h_set p c h).
Proof.
  split; [|split].
  - intros a H _. rewrite get_set. destruct (N.eqb_spec p a); [congruence | reflexivity].
  - auto.
  - intros a E H. congruence.
Qed.
Lemma frame_trans o1 o2 o3 h1 h2 h3 : frame o1 o2 h1 h2 -> frame o2 o3 h2 h3 ->
  (forall a, o2 = Some a -> h_get a h2 <> None) -> frame o1 o3 h1 h3.
Proof.
  intros (A1 & B1 & C1) (A2 & B2 & C2) X.
  assert (D : forall (o : option N) a, o = Some a \/ o <> Some a).
  { intros [x|] a; [|right; discriminate]. destruct (N.eq_dec x a) as [->|]; [now left | right; congruence]. }
  split; [|split].
  - intros a H1 H3. destruct (D o2 a) as [E|E].
    + rewrite (C2 a E H3). destruct (B1 a E) as [|Z]; [contradiction | now rewrite Z].
    + rewrite A2, A1 by assumption. reflexivity.
  - intros a E. destruct (B2 a E) as [E2|Z]; [now apply B1|].
    destruct (D o1 a) as [|N1]; [now left|]. right. destruct (D o2 a) as [E2|N2].
    + now apply X in E2.
    + now rewrite A1 in Z by assumption.
  - intros a E N3. destruct (D o2 a) as [E2|N2]; [now apply C2|].
    rewrite A2 by assumption. now apply C1.
Qed.

Lemma s_load_ok s h b own off n x : srep s h b own -> mem_read off n (b_mem b) = Ok x -> s_load off n s h = Done x h.
Proof.
  intros [W R] E. unfold mem_read in E. destruct s as [m k|p c k]; cbn [s_load].
  - destruct R as [-> ->]. cbn [b_mem] in E. destruct (nlen m <? off + n); [discriminate|]. injection E as <-. reflexivity.
  - destruct R as (m & Hg & L & Hp & Hok & -> & ->). cbn [b_mem] in E. unfold load. rewrite Hg.
    destruct (nlen m <? off + n); [discriminate|]. injection E as <-. reflexivity.
Qed.
Lemma s_set_len_ok s h b own n b' : srep s h b own -> bf_set_len n b = Ok b' ->
  exists s', s_set_len ic n s h = Done s' h /\ srep s' h b' own.
Proof.
  intros Hr E. destruct (srep_facts _ _ _ _ Hr) as (_ & C & _). destruct Hr as [W R].
  unfold bf_set_len in E. unfold s_set_len. rewrite C. destruct (N.ltb_spec (bf_cap b) n) as [|H]; [discriminate|].
  injection E as <-. eexists. split; [reflexivity|]. rewrite <- C in H. destruct s as [m k|p c k]; cbn [swf s_cap] in *.
  - destruct R as [-> ->]. cbn. repeat split; tauto.
  - destruct R as (m & Hg & L & Hp & Hok & -> & ->). split; [cbn [swf]; tauto|]. exists m. repeat split; auto.
Qed.
Lemma s_store_ok s h b own off src b' : srep s h b own -> bytes_ok src -> bf_write off src b = Ok b' ->
  exists s' h', s_store off src s h = Done s' h' /\ srep s' h' b' own /\ frame own own h h' /\ s_len s' = s_len s.
Proof.
  intros [W R] Hs E. unfold bf_write, mem_write in E. destruct s as [m k|p c k]; cbn [s_store swf] in *.
  - destruct R as [-> ->]. cbn [b_mem b_len b_heap] in E. destruct (N.ltb_spec (nlen m) (off + nlen src)); [discriminate|].
    injection E as <-. exists (Stk (take off m ++ src ++ drop (off + nlen src) m) k), h. split; [reflexivity|].
    split; [|split; [apply frame_refl | reflexivity]]. split; [|auto].
    cbn [swf]. rewrite !nlen_app, nlen_take, nlen_drop, !bytes_ok_app. destruct W as (L & Hn & Hok).
    split; [lia|]. repeat split; auto; [now apply bytes_ok_take | now apply bytes_ok_drop].
  - destruct R as (m & Hg & L & Hp & Hok & -> & ->). cbn [b_mem b_len b_heap] in E. unfold mbind, store. rewrite Hg.
    destruct (N.ltb_spec (nlen m) (off + nlen src)); [discriminate|]. injection E as <-.
    eexists _, _. split; [reflexivity|]. split; [|split; [apply frame_set | reflexivity]].
    split; [assumption|]. eexists. split; [apply get_set_eq|]. split.
    { rewrite !nlen_app, nlen_take, nlen_drop. lia. }
    repeat split; auto. rewrite !bytes_ok_app. repeat split; auto; [now apply bytes_ok_take | now apply bytes_ok_drop].
Qed.
Lemma s_push_ok s h b own v b' : srep s h b own -> v < 256 -> bf_push v b = Ok b' ->
  exists s' h', s_push ic v s h = Done s' h' /\ srep s' h' b' own /\ frame own own h h'.
Proof.
  intros Hr Hv E. destruct (srep_facts _ _ _ _ Hr) as (L & C & _). unfold bf_push in E. unfold s_push. rewrite L, C.
  destruct (b_len b <? bf_cap b); [|discriminate].
  destruct (bf_set_len (b_len b + 1) b) as [b1| | |] eqn:E1; try discriminate. cbn [rbind] in E.
  destruct (s_set_len_ok _ _ _ _ _ _ Hr E1) as (s1 & S1 & R1). unfold mbind. rewrite S1.
  destruct (s_store_ok s1 h b1 own (b_len b) [v] b' R1) as (s' & h' & X); auto.
  { apply bytes_ok_cons. split; [assumption | constructor]. }
  exists s', h'. tauto.
Qed.
Lemma s_extend_ok s h b own bs b' : srep s h b own -> bytes_ok bs -> bf_extend bs b = Ok b' ->
  exists s' h', s_extend ic bs s h = Done s' h' /\ srep s' h' b' own /\ frame own own h h'.
Proof.
  intros Hr Hv E. destruct (srep_facts _ _ _ _ Hr) as (L & C & _). unfold bf_extend in E. unfold s_extend. rewrite L.
  destruct (bf_write (b_len b) bs b) as [b1| | |] eqn:E1; try discriminate. cbn [rbind] in E.
  destruct (s_store_ok _ _ _ _ _ _ _ Hr Hv E1) as (s1 & h1 & S1 & R1 & F1 & L1). unfold mbind. rewrite S1.
  destruct (srep_facts _ _ _ _ R1) as (L1' & _). rewrite <- L1', L1, L in E.
  destruct (s_set_len_ok _ _ _ _ _ _ R1 E) as (s' & S' & R'). exists s', h1. auto.
Qed.

Lemma junk_shift f k : forall s d, junk_from f (s + d) k = junk_from (fun x => f (x + d)) s k.
Proof.
  induction k as [|k IH]; intros s d; cbn [junk_from]; [reflexivity|]. f_equal.
  replace (s + d + 1) with (s + 1 + d) by lia. apply IH.
Qed.
Lemma junk_app f n k : forall s, junk_from f s (n + k) = junk_from f s n ++ junk_from f (s + N.of_nat n) k.
Proof.
  induction n as [|n IH]; intros s; cbn [junk_from app Nat.add].
  - f_equal. lia.
  - f_equal. rewrite IH. do 2 f_equal. lia.
Qed.
Lemma drop_new_octets h a n k : n <= k -> exists j, drop n (new_octets al h a k) = fresh (cf j) (k - n).
Proof.
  intros H. exists (fun x => al_junk al h a (x + n)). unfold new_octets, fresh.
  set (f := al_junk al h a).
  replace (N.to_nat k) with (N.to_nat n + N.to_nat (k - n))%nat by lia. rewrite junk_app.
  assert (E : nlen (junk_from f 0 (N.to_nat n)) = n) by (rewrite junk_from_len; lia).
  transitivity (junk_from f (0 + n) (N.to_nat (k - n))).
  - rewrite <- E at 1. rewrite drop_app_exact. f_equal. lia.
  - apply junk_shift.
Qed.

Lemma s_reserve_ok s h b own k : srep s h b own -> b_len b + k <= isize_max ->
  meets al (s_reserve ic al k s h) (fun s' h' => exists j b' own', srep s' h' b' own' /\ frame own own' h h' /\
    bf_reserve (cf j) k b = Ok b').
Proof.
  intros Hr Hk. destruct (srep_facts _ _ _ _ Hr) as (L & C & Hlc & Hok & Hcap). unfold s_reserve, bf_reserve. rewrite L, C.
  destruct (N.ltb_spec isize_max (b_len b + k)); [lia|].
  destruct (N.leb_spec (b_len b + k) (bf_cap b)) as [Hle|Hgt].
  { exists (fun _ => 0), b, own. split; [assumption|]. split; [apply frame_refl | reflexivity]. }
  cbv zeta. destruct Hr as [W R]. destruct s as [m n|p c n]; cbn [swf s_len s_cap] in *.
  - destruct R as [-> ->]. unfold bf_cap in *. cbn [b_mem b_len b_heap] in *. unfold mbind, alloc.
    destruct (N.ltb_spec isize_max (n + k)); [lia|]. destruct (N.eqb_spec (n + k) 0); [lia|].
    destruct (al_pick al h (n + k)) as [a|] eqn:E; [|exists h, (n + k); repeat split; auto; lia].
    destruct (G _ _ _ E) as (Ha & Ha0 & Hau). destruct W as (Lm & Hn & _).
    unfold store. rewrite get_set_eq, new_octets_len, nlen_take, N.min_l, N.add_0_l by lia.
    destruct (N.ltb_spec (n + k) n); [lia|]. rewrite set_set, take_0. unfold mret. cbn [meets app].
    destruct (drop_new_octets h a n (n + k) ltac:(lia)) as [j Ej]. rewrite Ej.
    exists j. eexists _, (Some a). split; [|split].
    3:{ reflexivity. }
    + split; [cbn [swf]; repeat split; auto; lia|]. eexists. split; [apply get_set_eq|].
      rewrite nlen_app, nlen_take, fresh_len. split; [lia|]. split; [assumption|]. split; [|auto].
      apply bytes_ok_app. split; [now apply bytes_ok_take | apply fresh_ok].
    + split; [|split].
      * intros x _ Hx. rewrite get_set. destruct (N.eqb_spec a x); [congruence | reflexivity].
      * intros x [= ->]. auto.
      * intros x [=].
  - destruct R as (m & Hg & Lm & Hp & _ & -> & ->). unfold bf_cap in *. cbn [b_mem b_len b_heap] in *. unfold mbind, realloc.
    destruct W as (Hpu & Hc0 & Hc & Hn). rewrite Hg, Lm, N.eqb_refl. cbn [negb].
    destruct (N.ltb_spec isize_max c); [lia|]. destruct (N.eqb_spec (n + k) 0); [lia|].
    destruct (N.ltb_spec isize_max (n + k)); [lia|]. cbn [orb].
    destruct (al_pick al (h_del p h) (n + k)) as [a|] eqn:E; [|exists (h_del p h), (n + k); repeat split; auto; lia].
    destruct (G _ _ _ E) as (Ha & Ha0 & Hau). unfold mret. cbn [meets]. rewrite take_ge by lia.
    exists (al_junk al (h_del p h) a). eexists _, (Some a). split; [|split; [|reflexivity]].
    + split; [cbn [swf]; repeat split; auto; lia|]. eexists. split; [apply get_set_eq|].
      rewrite nlen_app, new_octets_len. split; [lia|]. split; [assumption|]. split; [|auto].
      apply bytes_ok_app. split; [assumption | apply new_octets_ok].
    + rewrite get_del in Ha. split; [|split].
      * intros x Hx1 Hx2. rewrite get_set, get_del. destruct (N.eqb_spec a x); [congruence|]. destruct (N.eqb_spec p x); [congruence | reflexivity].
      * intros x [= ->]. destruct (N.eqb_spec p x) as [->|]; auto.
      * intros x [= ->] Hx. rewrite get_set, get_del. destruct (N.eqb_spec a x); [congruence|]. now rewrite N.eqb_refl.
Qed.
Lemma s_new_ok h j : srep (s_new ic) h (bf_new (cf j)) None.
Proof.
  split; [|split; reflexivity]. cbn [swf s_new]. split; [|split; [lia|]].
  - rewrite nlen_length, repeat_length. lia.
  - unfold bytes_ok. apply Forall_forall. intros x H. apply repeat_spec in H. subst x. reflexivity.
Qed.
Lemma s_with_capacity_ok h k : k <= isize_max ->
  meets al (s_with_capacity ic al k h) (fun s' h' => exists j b' own', srep s' h' b' own' /\ frame None own' h h' /\
    bf_with_capacity (cf j) k = Ok b').
Proof. intros H. apply (s_reserve_ok _ _ _ _ k (s_new_ok h (fun _ => 0))). exact H. Qed.
Lemma meets_mono {A} (o : outcome A) (P Q : A -> heap -> Prop) : meets al o P -> (forall a h, P a h -> Q a h) -> meets al o Q.
Proof. intros M H. destruct o; cbn in *; auto. Qed.
Lemma srep_live s h b own a : srep s h b own -> own = Some a -> h_get a h <> None.
Proof. intros R ->. apply srep_owned in R. congruence. Qed.
Lemma s_clone_ok s h b own : srep s h b own ->
  meets al (s_clone ic al s h) (fun s' h' => exists j b' own', srep s' h' b' own' /\ frame None own' h h' /\
    bf_clone (cf j) b = Ok b').
Proof.
  intros Hr. destruct (srep_facts _ _ _ _ Hr) as (L & C & Hlc & Hok & Hcap). unfold s_clone, mbind. rewrite L.
  pose proof (s_with_capacity_ok h (b_len b) ltac:(lia)) as K.
  destruct (s_with_capacity ic al (b_len b) h) as [s1 h1| | |]; cbn [meets] in K |- *; auto.
  destruct K as (j & b1 & o1 & R1 & F1 & E1).
  assert (Hr1 : srep s h1 b own).
  { apply (srep_frame _ _ _ _ _ Hr). intros a ->. destruct F1 as (A & B & _). apply A; [discriminate|].
    intros E. destruct (B a E) as [|Z]; [discriminate|]. now apply (srep_live _ _ _ _ a Hr eq_refl). }
  assert (RD : mem_read 0 (b_len b) (b_mem b) = Ok (bf_slice b)).
  { unfold mem_read. unfold bf_cap in *. destruct (N.ltb_spec (nlen (b_mem b)) (0 + b_len b)); [lia|]. now rewrite drop_0. }
  rewrite (s_load_ok _ _ _ _ _ _ _ Hr1 RD).
  assert (Hs : bytes_ok (bf_slice b)) by (now apply bytes_ok_take).
  pose proof Hs as Hs'. apply octets_ok in Hs'. rewrite Hs'.
  assert (LS : nlen (bf_slice b) = b_len b) by (unfold bf_slice; rewrite nlen_take; unfold bf_cap in *; lia).
  destruct (with_capacity_ok (cf j) (b_len b) ltac:(lia)) as (bx & Ex & Lx & Cx & Okx). rewrite Ex in E1. injection E1 as <-.
  destruct (extend_ok bx [] (b_mem bx) (bf_slice b)) as (b' & sp & Eb & _); auto; [lia|].
  destruct (s_extend_ok _ _ _ _ _ _ R1 Hs Eb) as (s' & h' & -> & R' & F'). cbn [meets].
  exists j, b', o1. split; [assumption|]. split.
  - apply (frame_trans None o1 o1 h h1 h'); auto. intros a. now apply (srep_live _ _ _ _ a R1).
  - unfold bf_clone, bf_from_slice. rewrite LS, Ex. cbn [rbind]. assumption.
Qed.
Lemma s_from_vec_ok v h bs spare own : vec_is v h bs spare own ->
  exists s', s_from_vec ic v h = Done s' h /\ forall j, srep s' h (bf_from_vec (cf j) bs spare) own.
Proof.
  intros (Ln & Lc & Hc & Hok & Eo & K). unfold s_from_vec, bf_from_vec. rewrite <- Lc. destruct (N.eqb_spec (v_cap v) 0) as [Z|Nz].
  - eexists. split; [reflexivity|]. intros j. subst own. apply s_new_ok.
  - destruct (K Nz) as (Hg & Hp & Hu). rewrite nlen_app in Lc.
    destruct (N.ltb_spec (v_cap v) (v_len v)); [lia|]. destruct (N.ltb_spec isize_max (v_cap v)); [lia|].
    destruct (N.leb_spec usize_limit (v_ptr v)); [lia|]. cbn [orb]. eexists. split; [reflexivity|]. intros j.
    split; [cbn [swf]; repeat split; auto; lia|]. exists (bs ++ spare). rewrite nlen_app. repeat split; auto. now rewrite Ln.
Qed.
Lemma vec_from_slice_ok bs h : nlen bs <= isize_max -> bytes_ok bs ->
  meets al (vec_from_slice al bs h) (fun v h' => exists own', vec_is v h' bs [] own' /\ frame None own' h h').
Proof.
  intros Hn Hok. unfold vec_from_slice. destruct (N.eqb_spec (nlen bs) 0) as [Z|Nz].
  - cbn [meets mret]. apply nlen_zero in Z. subst bs. exists None. split; [|apply frame_refl].
    unfold vec_is, vec_new. cbn [v_cap v_len v_ptr app]. repeat split; auto; try congruence; try discriminate.
  - unfold mbind, alloc. destruct (N.ltb_spec isize_max (nlen bs)); [lia|]. destruct (N.eqb_spec (nlen bs) 0); [lia|].
    destruct (al_pick al h (nlen bs)) as [a|] eqn:E; [|exists h, (nlen bs); repeat split; auto; lia].
    destruct (G _ _ _ E) as (Ha & Ha0 & Hau). unfold store. rewrite get_set_eq, new_octets_len, N.add_0_l.
    destruct (N.ltb_spec (nlen bs) (nlen bs)); [lia|]. rewrite take_0, drop_ge by (rewrite new_octets_len; lia).
    cbn [app]. rewrite set_set, app_nil_r. cbn [meets mret]. exists (Some a). split.
    + unfold vec_is. cbn [v_cap v_len v_ptr]. rewrite app_nil_r, get_set_eq. destruct (N.eqb_spec (nlen bs) 0); [lia|]. repeat split; auto.
    + split; [|split].
      * intros x _ Hx. rewrite get_set. destruct (N.eqb_spec a x); [congruence | reflexivity].
      * intros x [= ->]. auto.
      * intros x [=].
Qed.
Lemma s_into_vec_ok s h b own : srep s h b own ->
  meets al (s_into_vec al s h) (fun v h' => exists spare own', vec_is v h' (bf_into_vec b) spare own' /\ frame own own' h h').
Proof.
  intros Hr. destruct (srep_facts _ _ _ _ Hr) as (L & C & Hlc & Hok & Hcap). destruct Hr as [W R].
  unfold bf_into_vec, bf_slice. destruct s as [m n|p c n]; cbn [swf s_into_vec s_len s_cap] in *.
  - destruct R as [-> ->]. cbn [b_mem b_len] in *. unfold bf_cap in *. cbn [b_mem] in *.
    eapply meets_mono; [apply vec_from_slice_ok|].
    + rewrite nlen_take. lia.
    + now apply bytes_ok_take.
    + intros v h' (o & V & F). exists [], o. auto.
  - destruct R as (m & Hg & Lm & Hp & _ & -> & ->). unfold bf_cap in *. cbn [b_mem b_len] in *. cbn [meets mret].
    destruct W as (Hpu & Hc0 & Hc & Hn).
    exists (drop n m), (Some p). split; [|apply frame_refl]. unfold vec_is. cbn [v_cap v_len v_ptr]. rewrite take_drop.
    destruct (N.eqb_spec c 0); [lia|]. rewrite nlen_take. repeat split; auto. lia.
Qed.
Lemma s_drop_ok s h b own : srep s h b own -> exists h', s_drop s h = Done tt h' /\ frame own None h h'.
Proof.
  intros [W R]. destruct s as [m n|p c n]; cbn [s_drop].
  - destruct R as [-> ->]. exists h. split; [reflexivity | apply frame_refl].
  - destruct R as (m & Hg & Lm & Hp & _ & -> & ->). unfold dealloc. rewrite Hg, Lm, N.eqb_refl.
    eexists. split; [reflexivity|]. split; [|split].
    + intros a Ha _. rewrite get_del. destruct (N.eqb_spec p a); [congruence | reflexivity].
    + intros a [=].
    + intros a [= ->] _. now rewrite get_del, N.eqb_refl.
Qed.
End REF.

Definition Rep (L : layout) (V : L_raw L -> st -> Prop) (r : L_raw L) (h : heap) (b : buf) (own : option N) : Prop :=
  exists s, V r s /\ srep (L_init_cap L) s h b own.

Lemma meets_rel {A B} al (R : A -> B -> Prop) o1 o2 Q : orel R o1 o2 -> meets al o2 Q ->
  meets al o1 (fun a h => exists b, R a b /\ Q b h).
Proof.
  intros O M. destruct o2 as [b h| | |]; cbn [orel meets] in *; try contradiction.
  - destruct O as (a & -> & HR). cbn [meets]. eauto.
  - now rewrite O.
Qed.
Lemma orel_done {A B} (R : A -> B -> Prop) o1 o2 b h : orel R o1 o2 -> o2 = Done b h -> exists a, o1 = Done a h /\ R a b.
Proof. intros O ->. exact O. Qed.

Theorem follows_refines (P : allocator -> Prop) L V al : good_allocator al -> P al -> L_init_cap L <= isize_max -> follows P L V -> buffer_refines L al (Rep L V).
Proof.
  intros G HA Hic F. constructor.
  - intros r h b own (s & HV & HR). destruct (srep_facts _ Hic _ _ _ _ HR) as (A & B & C & D & E).
    rewrite (fo_len _ _ _ F _ _ HV), (fo_cap _ _ _ F _ _ HV). repeat split; auto.
    unfold L_slice. rewrite (fo_len _ _ _ F _ _ HV), A.
    destruct (orel_done eq _ _ (bf_slice b) h (fo_load _ _ _ F 0 (b_len b) _ _ HV h)) as (x & -> & ->); [|reflexivity].
    eapply s_load_ok; [eassumption|]. unfold mem_read. unfold bf_cap in C.
    destruct (N.ltb_spec (nlen (b_mem b)) (0 + b_len b)); [lia|]. now rewrite drop_0.
  - intros r h b a (s & HV & HR). eapply srep_owned; eassumption.
  - intros r h h' b own (s & HV & HR) K. exists s. split; [assumption|]. eapply srep_frame; eassumption.
  - intros h j. exists (s_new (L_init_cap L)). split; [apply (fo_new _ _ _ F) | now apply s_new_ok].
  - intros h k Hk. eapply meets_mono; [eapply meets_rel; [apply (fo_with_capacity _ _ _ F al k HA h) | now apply s_with_capacity_ok]|].
    cbv beta. intros r' h' (s' & HV & j & b' & o' & HR & X). exists j, b', o'. split; [exists s'; auto | assumption].
  - intros r h b own k (s & HV & HR) Hk.
    eapply meets_mono; [eapply meets_rel; [apply (fo_reserve _ _ _ F al k r s HA HV h) | eapply s_reserve_ok; eassumption]|].
    cbv beta. intros r' h' (s' & HV' & j & b' & o' & HR' & X). exists j, b', o'. split; [exists s'; auto | assumption].
  - intros r h b own off n x (s & HV & HR) E.
    destruct (orel_done eq _ _ x h (fo_load _ _ _ F off n _ _ HV h)) as (y & -> & ->); [|reflexivity]. eapply s_load_ok; eassumption.
  - intros r h b own off src b' (s & HV & HR) Hs E.
    destruct (s_store_ok _ Hic _ _ _ _ _ _ _ HR Hs E) as (s' & h' & E' & R' & F' & _).
    destruct (orel_done V _ _ _ _ (fo_store _ _ _ F off src _ _ Hs HV h) E') as (r' & -> & HV').
    exists r', h'. repeat split; try apply F'. exists s'. auto.
  - intros r h b own n b' (s & HV & HR) E.
    destruct (s_set_len_ok _ Hic _ _ _ _ _ _ HR E) as (s' & E' & R').
    destruct (orel_done V _ _ _ _ (fo_set_len _ _ _ F n _ _ HV h) E') as (r' & -> & HV').
    exists r'. split; [reflexivity|]. exists s'. auto.
  - intros r h b own v b' (s & HV & HR) Hv E.
    destruct (s_push_ok _ Hic _ _ _ _ _ _ HR Hv E) as (s' & h' & E' & R' & F').
    destruct (orel_done V _ _ _ _ (fo_push _ _ _ F v _ _ Hv HV h) E') as (r' & -> & HV').
    exists r', h'. repeat split; try apply F'. exists s'. auto.
  - intros r h b own bs b' (s & HV & HR) Hv E.
    destruct (s_extend_ok _ Hic _ _ _ _ _ _ HR Hv E) as (s' & h' & E' & R' & F').
    destruct (orel_done V _ _ _ _ (fo_extend _ _ _ F bs _ _ Hv HV h) E') as (r' & -> & HV').
    exists r', h'. repeat split; try apply F'. exists s'. auto.
  - intros r h b own (s & HV & HR).
    eapply meets_mono; [eapply meets_rel; [apply (fo_clone _ _ _ F al r s HA HV h) | eapply s_clone_ok; eassumption]|].
    cbv beta. intros r' h' (s' & HV' & j & b' & o' & HR' & X). exists j, b', o'. split; [exists s'; auto | assumption].
  - intros v h bs spare own HVec. destruct (s_from_vec_ok _ Hic _ _ _ _ _ HVec) as (s' & E & HR).
    destruct (orel_done V _ _ _ _ (fo_from_vec _ _ _ F v h) E) as (r' & -> & HV').
    exists r'. split; [reflexivity|]. intros j. exists s'. auto.
  - intros r h b own (s & HV & HR).
    eapply meets_mono; [eapply meets_rel; [apply (fo_into_vec _ _ _ F al r s HV h) | eapply s_into_vec_ok; eassumption]|].
    cbv beta. intros v h' (v' & -> & X). exact X.
  - intros r h b own (s & HV & HR). destruct (s_drop_ok _ _ _ _ _ HR) as (h' & E & F').
    destruct (orel_done eq _ _ _ _ (fo_drop _ _ _ F r s HV h) E) as (u & -> & ->). eauto.
Qed.

(** ** histories *)
Lemma fits_len c : forall m, fits c m -> nlen c <= nlen m.
Proof.
  induction c as [|x c IH]; intros [|y m] H; cbn [fits] in H.
  - change (0 <= 0). lia.
  - change (nlen (@nil (option N))) with 0. lia.
  - contradiction.
  - destruct H as [_ H]. apply IH in H. rewrite !nlen_cons. lia.
Qed.
Lemma fits_app a : forall x b y, nlen a = nlen x -> (fits (a ++ b) (x ++ y) <-> fits a x /\ fits b y).
Proof.
  induction a as [|c a IH]; intros [|m x] b y E; rewrite ?nlen_cons in E.
  - cbn. tauto.
  - exfalso. change (nlen (@nil (option N))) with 0 in E. lia.
  - exfalso. change (nlen (@nil N)) with 0 in E. lia.
  - cbn [app fits]. rewrite (IH x b y) by lia. tauto.
Qed.
Lemma fits_app_l a : forall x y, fits a x -> fits a (x ++ y).
Proof.
  induction a as [|c a IH]; intros [|m x] y H; cbn [fits app] in *; try contradiction; auto.
  destruct H. split; auto.
Qed.
Lemma fits_unknown k m : k <= nlen m -> fits (unknown k) m.
Proof.
  unfold unknown. intros H. assert (K : (N.to_nat k <= length m)%nat) by (rewrite nlen_length in H; lia). clear H.
  revert m K. induction (N.to_nat k) as [|n IH]; intros [|x m] K; cbn [repeat fits]; auto; cbn [length] in K; try lia.
  split; [exact I|]. apply IH. lia.
Qed.
Lemma fits_some bs : fits (map Some bs) bs.
Proof. induction bs as [|b bs IH]; cbn [map fits]; auto. Qed.
Lemma nlen_unknown k : nlen (unknown k) = k.
Proof. unfold unknown. rewrite nlen_length, repeat_length. lia. Qed.
Lemma nlen_some bs : nlen (map (@Some N) bs) = nlen bs.
Proof. rewrite !nlen_length, map_length. reflexivity. Qed.
Lemma fits_split n c m : n <= nlen c -> fits c m ->
  exists c1 c2 m1 m2, c = c1 ++ c2 /\ m = m1 ++ m2 /\ nlen c1 = n /\ nlen m1 = n /\ fits c1 m1 /\ fits c2 m2.
Proof.
  intros H F. pose proof (fits_len _ _ F). destruct (split_at n c H) as (c1 & c2 & -> & L1).
  destruct (split_at n m ltac:(lia)) as (m1 & m2 & -> & L2). apply fits_app in F as [F1 F2]; [|lia].
  exists c1, c2, m1, m2. auto 10.
Qed.
Lemma fits_overwrite cells mem off new src : fits cells mem -> off + nlen new <= nlen cells -> fits new src -> nlen src = nlen new ->
  fits (overwrite off new cells) (take off mem ++ src ++ drop (off + nlen src) mem).
Proof.
  intros F H Fn E. destruct (fits_split off cells mem ltac:(lia) F) as (c1 & c2 & m1 & m2 & -> & -> & L1 & L2 & F1 & F2).
  rewrite nlen_app in H. destruct (fits_split (nlen new) c2 m2 ltac:(lia) F2) as (c3 & c4 & m3 & m4 & -> & -> & L3 & L4 & F3 & F4).
  unfold overwrite. rewrite E. subst off.
  replace (take (nlen c1) (m1 ++ m3 ++ m4)) with m1 by (rewrite <- L2, take_app_exact; reflexivity).
  rewrite take_app_exact.
  replace (drop (nlen c1 + nlen new) (c1 ++ c3 ++ c4)) with c4.
  2:{ rewrite drop_app_ge by lia. replace (nlen c1 + nlen new - nlen c1) with (nlen c3) by lia. now rewrite drop_app_exact. }
  replace (drop (nlen c1 + nlen new) (m1 ++ m3 ++ m4)) with m4.
  2:{ rewrite drop_app_ge by lia. replace (nlen c1 + nlen new - nlen m1) with (nlen m3) by lia. now rewrite drop_app_exact. }
  apply fits_app; [congruence|]. split; [assumption|]. apply fits_app; auto.
Qed.
Lemma nlen_overwrite off new cells : off + nlen new <= nlen cells -> nlen (overwrite off new cells) = nlen cells.
Proof. intros H. unfold overwrite. rewrite !nlen_app, nlen_take, nlen_drop. lia. Qed.

Section HIST.
Context (L : layout) (al : allocator) (G : good_allocator al)
        (Rp : L_raw L -> heap -> buf -> option N -> Prop) (BR : buffer_refines L al Rp).
Notation ic := (L_init_cap L).

Definition vmatch (h : heap) (x : var (L_raw L)) (e : evar) (own : option N) : Prop :=
  match x, e with
  | VEmpty, EEmpty => own = None
  | VBuf r, EBuf cells len => exists b, Rp r h b own /\ b_len b = len /\ fits cells (b_mem b) /\ len <= nlen cells
  | VVec v, EVec cells len => exists bs spare, vec_is v h bs spare own /\ nlen bs = len /\ fits cells (bs ++ spare) /\ len <= nlen cells
  | _, _ => False
  end.
Lemma vmatch_frame h h' x e own : vmatch h x e own -> (forall a, own = Some a -> h_get a h' = h_get a h) -> vmatch h' x e own.
Proof.
  destruct x as [|r|v], e as [|cells len|cells len]; cbn [vmatch]; auto; try contradiction.
  - intros (b & R & X) F. exists b. split; [|assumption]. eapply br_frame; eassumption.
  - intros (bs & spare & (A & B & C & D & E & K) & X) F. exists bs, spare. split; [|assumption].
    repeat split; auto; try (apply K; assumption).
    rewrite F; [now apply K|]. rewrite E. apply N.eqb_neq in H. now rewrite H.
Qed.
Lemma vmatch_live h x e a : vmatch h x e (Some a) -> h_get a h <> None.
Proof.
  destruct x as [|r|v], e as [|cells len|cells len]; cbn [vmatch]; try contradiction; try discriminate.
  - intros (b & R & _) Z. apply (br_owned _ _ _ BR) in R. congruence.
  - intros (bs & spare & (_ & _ & _ & _ & E & K) & _). destruct (N.eqb_spec (v_cap v) 0) as [|Nz]; [discriminate|].
    injection E as ->. destruct (K Nz) as [-> _]. discriminate.
Qed.

Definition inv (h0 h : heap) (v : env (var (L_raw L))) (e : env evar) (own : env (option N)) : Prop :=
  (forall i, vmatch h (v i) (e i) (own i)) /\
  (forall i j a, own i = Some a -> own j = Some a -> i = j) /\
  (forall i a, own i = Some a -> h_get a h0 = None) /\
  (forall a, (forall i, own i <> Some a) -> h_get a h = h_get a h0).
Lemma upd_eq {A} i (x : A) e : upd i x e i = x.
Proof. unfold upd. now rewrite Nat.eqb_refl. Qed.
Lemma upd_neq {A} i j (x : A) e : j <> i -> upd i x e j = e j.
Proof. intros H. unfold upd. destruct (Nat.eqb_spec j i); [contradiction | reflexivity]. Qed.

Lemma inv_upd h0 h h' v e own i x' e' o' : inv h0 h v e own -> frame (own i) o' h h' -> vmatch h' x' e' o' ->
  inv h0 h' (upd i x' v) (upd i e' e) (upd i o' own).
Proof.
  intros (I1 & I2 & I3 & I4) (F1 & F2 & F3) M.
  assert (LV : forall j a, own j = Some a -> h_get a h <> None).
  { intros j a E. specialize (I1 j). rewrite E in I1. now apply vmatch_live in I1. }
  assert (OT : forall j a, j <> i -> own j = Some a -> own i <> Some a /\ o' <> Some a).
  { intros j a N E. assert (X : own i <> Some a) by (intros E'; apply N; eapply I2; eassumption).
    split; [assumption|]. intros Eo. destruct (F2 a Eo) as [|Z]; [contradiction|]. now apply (LV j a). }
  split; [|split; [|split]].
  - intros j. destruct (Nat.eq_dec j i) as [->|N]; [now rewrite !upd_eq|]. rewrite !upd_neq by assumption.
    apply (vmatch_frame h); [apply I1|]. intros a E. destruct (OT j a N E). now apply F1.
  - intros j k a. destruct (Nat.eq_dec j i) as [->|N], (Nat.eq_dec k i) as [->|N']; rewrite ?upd_eq, ?upd_neq by assumption; intros E1 E2.
    + reflexivity.
    + destruct (OT k a N' E2). contradiction.
    + destruct (OT j a N E1). contradiction.
    + eapply I2; eassumption.
  - intros j a. destruct (Nat.eq_dec j i) as [->|N]; rewrite ?upd_eq, ?upd_neq by assumption; [|apply I3].
    intros E. destruct (F2 a E) as [E'|Z]; [eapply I3; eassumption|].
    destruct (h_get a h0) as [c|] eqn:H0; [|reflexivity]. exfalso.
    rewrite I4 in Z; [congruence|]. intros k Ek. apply I3 in Ek. congruence.
  - intros a Ha. assert (Ho : o' <> Some a) by (specialize (Ha i); now rewrite upd_eq in Ha).
    assert (Hk : forall k, k <> i -> own k <> Some a) by (intros k N; specialize (Ha k); now rewrite upd_neq in Ha).
    destruct (own i) as [x|] eqn:Ei; [destruct (N.eq_dec x a) as [->|Nx]|].
    + rewrite F3 by auto. symmetry. eapply I3; eassumption.
    + rewrite F1 by congruence. apply I4. intros k. destruct (Nat.eq_dec k i) as [->|]; [congruence | auto].
    + rewrite F1 by congruence. apply I4. intros k. destruct (Nat.eq_dec k i) as [->|]; [congruence | auto].
Qed.

Lemma holds_self b : b_len b <= bf_cap b -> bytes_ok (b_mem b) -> holds b (bf_slice b).
Proof.
  intros H Hok. exists (drop (b_len b) (b_mem b)). unfold bf_slice. rewrite take_drop, nlen_take. unfold bf_cap in H.
  repeat split; [lia | now apply bytes_ok_drop].
Qed.
Lemma fits_slice cells b : fits cells (b_mem b) -> b_len b <= nlen cells -> fits (take (b_len b) cells) (bf_slice b).
Proof.
  intros F H. destruct (fits_split _ _ _ H F) as (c1 & c2 & m1 & m2 & -> & E & L1 & L2 & F1 & F2).
  unfold bf_slice. rewrite E. rewrite <- L1 at 1. rewrite <- L2. now rewrite !take_app_exact.
Qed.
Lemma reserve_fits cfg k b b' cells : b_len b + k <= isize_max -> b_len b <= nlen cells -> fits cells (b_mem b) -> bytes_ok (b_mem b) ->
  bf_reserve cfg k b = Ok b' -> b_len b' = b_len b /\ fits (e_reserve k cells (b_len b)) (b_mem b') /\ b_len b + k <= nlen (e_reserve k cells (b_len b)).
Proof.
  intros Hk Hl F Hok E. pose proof (fits_len _ _ F) as FL. unfold e_reserve.
  assert (HS : holds b (bf_slice b)) by (apply holds_self; [unfold bf_cap; lia | assumption]).
  assert (LS : nlen (bf_slice b) = b_len b) by (unfold bf_slice; rewrite nlen_take; lia).
  destruct (reserve_ok cfg k b _ HS ltac:(lia)) as (b1 & sp & E1 & M1 & L1 & K1 & _). rewrite E1 in E. injection E as <-.
  split; [lia|]. destruct (N.leb_spec (b_len b + k) (nlen cells)) as [A|A].
  - split; [|lia]. unfold bf_reserve, bf_cap in E1. destruct (N.leb_spec (b_len b + k) (nlen (b_mem b))); [|lia].
    injection E1 as <-. assumption.
  - rewrite nlen_app, nlen_take, nlen_unknown. split; [|lia]. rewrite M1. apply fits_app.
    + rewrite nlen_take. lia.
    + split; [now apply fits_slice | now apply fits_unknown].
Qed.
Lemma write_fits off src b cells : off + nlen src <= nlen cells -> fits cells (b_mem b) ->
  exists b', bf_write off src b = Ok b' /\ b_len b' = b_len b /\ fits (overwrite off (map Some src) cells) (b_mem b').
Proof.
  intros H F. pose proof (fits_len _ _ F). unfold bf_write, mem_write.
  destruct (N.ltb_spec (nlen (b_mem b)) (off + nlen src)); [lia|]. eexists. split; [reflexivity|]. cbn [b_len b_mem]. split; [reflexivity|].
  apply fits_overwrite; auto; rewrite ?nlen_some; auto. apply fits_some.
Qed.
Lemma set_len_fits n b cells : n <= nlen cells -> fits cells (b_mem b) ->
  exists b', bf_set_len n b = Ok b' /\ b_len b' = n /\ b_mem b' = b_mem b.
Proof.
  intros H F. pose proof (fits_len _ _ F). unfold bf_set_len, bf_cap. destruct (N.ltb_spec (nlen (b_mem b)) n); [lia|].
  eexists. split; [reflexivity|]. auto.
Qed.
Lemma extend_fits bs b cells : b_len b + nlen bs <= nlen cells -> fits cells (b_mem b) ->
  exists b', bf_extend bs b = Ok b' /\ b_len b' = b_len b + nlen bs /\ fits (overwrite (b_len b) (map Some bs) cells) (b_mem b').
Proof.
  intros H F. destruct (write_fits (b_len b) bs b cells H F) as (b1 & E1 & L1 & F1). unfold bf_extend. rewrite E1. cbn [rbind].
  assert (H1 : b_len b1 + nlen bs <= nlen (overwrite (b_len b) (map Some bs) cells)) by (rewrite nlen_overwrite; rewrite ?nlen_some; lia).
  destruct (set_len_fits (b_len b1 + nlen bs) b1 _ H1 F1) as (b2 & E2 & L2 & M2).
  exists b2. split; [assumption|]. rewrite M2, L2, L1. auto.
Qed.
Lemma from_slice_fits cfg bs : nlen bs <= isize_max -> bytes_ok bs ->
  exists b0 b', bf_with_capacity cfg (nlen bs) = Ok b0 /\ bf_extend bs b0 = Ok b' /\ b_len b' = nlen bs /\
    forall cells, nlen cells = nlen bs -> fits cells bs -> fits (cells ++ unknown (init_cap cfg - nlen bs)) (b_mem b').
Proof.
  intros Hk Hok. destruct (with_capacity_ok cfg _ Hk) as (b0 & E0 & L0 & C0 & Ok0).
  destruct (extend_ok b0 [] (b_mem b0) bs) as (b' & sp & E' & M' & L' & Ls & _); auto.
  exists b0, b'. repeat split; auto. intros cells Lc Fc. cbn [app] in M'. rewrite M'. apply fits_app; [assumption|].
  split; [assumption|]. apply fits_unknown. rewrite Ls.
  assert (init_cap cfg <= nlen (b_mem b0)); [|lia].
  unfold bf_with_capacity, bf_reserve in E0. unfold bf_cap in E0. cbn [bf_new b_mem b_len b_heap init_cap] in E0.
  destruct (N.leb_spec (0 + nlen bs) (nlen (repeat 0 (N.to_nat (init_cap cfg))))) as [A|A].
  - injection E0 as <-. cbn [bf_new b_mem init_cap]. rewrite (nlen_length (repeat _ _)), repeat_length in *. lia.
  - rewrite (nlen_length (repeat _ _)), repeat_length in A. lia.
Qed.

(** Stepping through monadic code. *)
Lemma meets_bind {A B} (m : M A) (k : A -> M B) h P Q : meets al (m h) P -> (forall a h', P a h' -> meets al (k a h') Q) -> meets al (mbind m k h) Q.
Proof. intros H K. unfold mbind. destruct (m h); cbn [meets] in *; auto. Qed.
Lemma meets_done {A} (o : outcome A) a h (Q : A -> heap -> Prop) : o = Done a h -> Q a h -> meets al o Q.
Proof. now intros -> H. Qed.

Definition good (h0 : heap) (e : env evar) (v : env (var (L_raw L))) (h : heap) : Prop := exists own, inv h0 h v e own.

Ltac case_e e i := let E := fresh "Ei" in destruct (e i) as [|cells len|cells len] eqn:E; try discriminate.
Lemma ext_ok bs : octets bs = true -> bytes_ok bs.
Proof. apply octets_ok. Qed.

(** The cases of [step_good] that replace the buffer in one variable. *)
Lemma put_buf h0 h v e own i cells' len' (m : M (L_raw L)) :
  inv h0 h v e own ->
  meets al (m h) (fun r' h' => exists b' o', Rp r' h' b' o' /\ frame (own i) o' h h' /\ b_len b' = len' /\ fits cells' (b_mem b') /\ len' <= nlen cells') ->
  meets al ((r <-- m ; mret (upd i (VBuf r) v)) h) (good h0 (upd i (EBuf cells' len') e)).
Proof.
  intros HI HM. eapply meets_bind; [exact HM|]. intros r' h' (b' & o' & R & F & X).
  cbn [meets mret]. exists (upd i o' own). eapply inv_upd; [eassumption | eassumption |]. exists b'. auto.
Qed.
Lemma step_good h0 h v e o e' : good h0 e v h -> estep ic o e = Some e' -> meets al (rstep L al o v h) (good h0 e').
Proof.
  intros (own & HI) E. pose proof HI as (I1 & I2 & I3 & I4). destruct o; cbn [estep rstep] in *; unfold guard in E.
  - (* new *)
    case_e e i. injection E as <-. pose proof (I1 i) as Mi. rewrite Ei in Mi. destruct (v i); try contradiction.
    apply (put_buf h0 h v e own i); [assumption|]. cbn [meets mret].
    exists (bf_new {| init_cap := ic; junk := fun _ => 0 |}), None. split; [apply (br_new _ _ _ BR)|].
    cbn in Mi. rewrite Mi. split; [apply frame_refl|]. split; [reflexivity|]. rewrite nlen_unknown. split; [|lia].
    apply fits_unknown. cbn [bf_new b_mem init_cap]. rewrite nlen_length, repeat_length. lia.
  - (* with_capacity *)
    case_e e i. pose proof (I1 i) as Mi. rewrite Ei in Mi. destruct (v i); try contradiction. cbn in Mi.
    destruct (N.leb_spec k isize_max) as [Hk|]; [|discriminate]. injection E as <-.
    apply (put_buf h0 h v e own i); [assumption|].
    eapply meets_mono; [apply (br_with_capacity _ _ _ BR); assumption|].
    intros r' h' (j & b' & o' & R & F & Eb). exists b', o'. rewrite Mi. split; [assumption|]. split; [assumption|].
    destruct (with_capacity_ok {| init_cap := ic; junk := j |} k Hk) as (bx & Ex & Lx & Cx & _). rewrite Ex in Eb. injection Eb as <-.
    split; [assumption|]. rewrite nlen_unknown. split; [|lia]. apply fits_unknown.
    unfold bf_with_capacity, bf_reserve in Ex. unfold bf_cap in Ex. cbn [bf_new b_mem b_len b_heap init_cap] in Ex.
    destruct (N.leb_spec (0 + k) (nlen (repeat 0 (N.to_nat ic)))) as [A|A].
    + injection Ex as <-. cbn [bf_new b_mem init_cap]. rewrite nlen_length, repeat_length in *. lia.
    + rewrite nlen_length, repeat_length in A. lia.
  - (* from slice *)
    case_e e i. pose proof (I1 i) as Mi. rewrite Ei in Mi. destruct (v i); try contradiction. cbn in Mi.
    destruct (N.leb_spec (nlen bs) isize_max) as [Hk|]; [|discriminate]. destruct (octets bs) eqn:Ho; [|discriminate]. injection E as <-.
    apply ext_ok in Ho. apply (put_buf h0 h v e own i); [assumption|]. unfold L_from_slice.
    eapply meets_bind; [apply (br_with_capacity _ _ _ BR); exact Hk|].
    intros r1 h1 (j & b1 & o1 & R1 & F1 & E1).
    destruct (from_slice_fits {| init_cap := ic; junk := j |} bs Hk Ho) as (b0 & b' & E0 & Eb & Lb & Fb).
    rewrite E0 in E1. injection E1 as <-.
    destruct (br_extend _ _ _ BR _ _ _ _ _ _ R1 Ho Eb) as (r' & h' & Er & R' & F'). rewrite Er. cbn [meets].
    exists b', o1. split; [assumption|]. rewrite Mi. split.
    { eapply frame_trans; [eassumption | eassumption |]. intros a ->. apply (br_owned _ _ _ BR) in R1. congruence. }
    split; [assumption|]. split; [apply Fb; [apply nlen_some | apply fits_some]|]. rewrite nlen_app, nlen_some. lia.
  - (* a vector *)
    case_e e i. pose proof (I1 i) as Mi. rewrite Ei in Mi. destruct (v i); try contradiction. cbn in Mi.
    destruct (N.leb_spec (nlen bs + spare) isize_max) as [Hk|]; [|discriminate]. destruct (octets bs) eqn:Ho; [|discriminate]. injection E as <-.
    apply ext_ok in Ho.
    assert (K : meets al (vec_make al bs spare h) (fun x h' => exists sp o', vec_is x h' bs sp o' /\ nlen sp = spare /\ frame None o' h h')).
    { unfold vec_make. destruct (N.eqb_spec (nlen bs + spare) 0) as [Z|Nz].
      - cbn [meets mret]. assert (bs = []) by (apply nlen_zero; lia). subst bs. exists [], None.
        split; [|split; [|apply frame_refl]].
        + unfold vec_is, vec_new. cbn [v_cap v_len v_ptr app]. repeat split; auto; try congruence; try discriminate.
        + change (nlen (@nil N)) with 0 in *. lia.
      - unfold mbind, alloc. destruct (N.ltb_spec isize_max (nlen bs + spare)); [lia|]. destruct (N.eqb_spec (nlen bs + spare) 0); [lia|].
        destruct (al_pick al h (nlen bs + spare)) as [a|] eqn:Ep; [|exists h, (nlen bs + spare); repeat split; auto; lia].
        destruct (G _ _ _ Ep) as (Ha & Ha0 & Hau). unfold store. rewrite get_set_eq, new_octets_len, N.add_0_l.
        destruct (N.ltb_spec (nlen bs + spare) (nlen bs)); [lia|]. rewrite take_0. cbn [app]. rewrite set_set. cbn [meets mret].
        exists (drop (nlen bs) (new_octets al h a (nlen bs + spare))), (Some a).
        assert (LD : nlen (drop (nlen bs) (new_octets al h a (nlen bs + spare))) = spare) by (rewrite nlen_drop, new_octets_len; lia).
        split; [|split; [assumption|]].
        + unfold vec_is. cbn [v_cap v_len v_ptr]. rewrite get_set_eq, nlen_app, LD. destruct (N.eqb_spec (nlen bs + spare) 0); [lia|].
          repeat split; auto. apply bytes_ok_app. split; [assumption|]. apply bytes_ok_drop, new_octets_ok.
        + split; [|split].
          * intros x _ Hx. rewrite get_set. destruct (N.eqb_spec a x); [congruence | reflexivity].
          * intros x [= ->]. auto.
          * intros x [=]. }
    eapply meets_bind; [exact K|]. intros x h' (sp & o' & V & Ls & F). cbn [meets mret]. exists (upd i o' own).
    eapply inv_upd; [eassumption | rewrite Mi; eassumption |]. exists bs, sp. split; [assumption|]. split; [reflexivity|].
    rewrite nlen_app, nlen_some, nlen_unknown. split; [|lia]. apply fits_app; [apply nlen_some|].
    split; [apply fits_some|]. apply fits_unknown. lia.
  - (* from vec *)
    case_e e i. injection E as <-. pose proof (I1 i) as Mi. rewrite Ei in Mi. destruct (v i) as [|r|x]; try contradiction.
    destruct Mi as (bs & sp & V & Lb & F & Hl). apply (put_buf h0 h v e own i); [assumption|].
    destruct (br_from_vec _ _ _ BR _ _ _ _ _ V) as (r' & Er & R). rewrite Er. cbn [meets].
    eexists _, (own i). split; [apply (R (fun _ => 0))|]. split; [apply frame_refl|].
    unfold bf_from_vec. destruct (N.eqb_spec (nlen (bs ++ sp)) 0) as [Z|Nz].
    + rewrite nlen_app in Z. assert (bs = [] /\ sp = []) as [-> ->] by (split; apply nlen_zero; lia).
      change (nlen (@nil N)) with 0 in *. subst len. split; [reflexivity|]. split; [|assumption].
      cbn [app] in F. destruct cells as [|c cells]; [|contradiction]. exact I.
    + cbn [b_len b_mem]. auto.
  - (* into vec *)
    case_e e i. injection E as <-. pose proof (I1 i) as Mi. rewrite Ei in Mi. destruct (v i) as [|r|x]; try contradiction.
    destruct Mi as (b & R & Lb & F & Hl).
    eapply meets_bind; [apply (br_into_vec _ _ _ BR _ _ _ _ R)|]. intros x h' (sp & o' & V & Fr). cbn [meets mret].
    exists (upd i o' own). eapply inv_upd; [eassumption | eassumption |]. exists (bf_into_vec b), sp. split; [assumption|].
    unfold bf_into_vec. pose proof (fits_len _ _ F). subst len. split; [unfold bf_slice; rewrite nlen_take; lia|].
    split; [|rewrite nlen_take; lia]. apply fits_app_l. now apply fits_slice.
  - (* clone *)
    case_e e i. destruct (e j) as [|?|?] eqn:Ei0; try discriminate. injection E as <-. pose proof (I1 i) as Mi. rewrite Ei in Mi. destruct (v i) as [|r|x]; try contradiction.
    destruct Mi as (b & R & Lb & F & Hl). pose proof (I1 j) as Mj. rewrite Ei0 in Mj. destruct (v j); try contradiction. cbn in Mj.
    apply (put_buf h0 h v e own j); [assumption|].
    eapply meets_mono; [apply (br_clone _ _ _ BR _ _ _ _ R)|]. intros r' h' (jk & b' & o' & R' & Fr & Eb).
    exists b', o'. rewrite Mj. split; [assumption|]. split; [assumption|].
    pose proof (fits_len _ _ F) as FL. destruct (br_observe _ _ _ BR _ _ _ _ R) as (_ & _ & Cl & Cm & Hok & _).
    assert (LS : nlen (bf_slice b) = len) by (unfold bf_slice; rewrite nlen_take; lia).
    assert (Hs : bytes_ok (bf_slice b)) by (now apply bytes_ok_take).
    destruct (from_slice_fits {| init_cap := ic; junk := jk |} (bf_slice b) ltac:(lia) Hs) as (b0 & b2 & E0 & E2 & L2 & F2).
    unfold bf_clone, bf_from_slice in Eb. rewrite E0 in Eb. cbn [rbind] in Eb. rewrite E2 in Eb. injection Eb as <-.
    split; [lia|]. rewrite nlen_app, nlen_take, nlen_unknown. split; [|lia]. rewrite <- LS at 2. apply F2.
    + rewrite nlen_take. lia.
    + subst len. now apply fits_slice.
  - (* drop *)
    injection E as <-. pose proof (I1 i) as Mi. destruct (v i) as [|r|x] eqn:Ev; destruct (e i) as [|cells len|cells len] eqn:Ei; try contradiction.
    + cbn [meets mret]. exists (upd i None own). cbn in Mi. eapply inv_upd; [eassumption | rewrite Mi; apply frame_refl | reflexivity].
    + destruct Mi as (b & R & _). destruct (br_drop _ _ _ BR _ _ _ _ R) as (h' & Ed & F). unfold mbind. rewrite Ed. cbn [meets mret].
      exists (upd i None own). eapply inv_upd; [eassumption | eassumption | reflexivity].
    + destruct Mi as (bs & sp & (A & B & C & D & Eo & K) & _). unfold vec_drop.
      destruct (N.eqb_spec (v_cap x) 0) as [Z|Nz].
      * cbn [meets mret mbind]. exists (upd i None own). eapply inv_upd; [eassumption | rewrite Eo; apply frame_refl | reflexivity].
      * destruct (K Nz) as (Hg & _). unfold mbind, dealloc. rewrite Hg, B, N.eqb_refl. cbn [meets mret].
        exists (upd i None own). eapply inv_upd; [eassumption | rewrite Eo | reflexivity]. split; [|split].
        -- intros a Ha _. rewrite get_del. destruct (N.eqb_spec (v_ptr x) a); [congruence | reflexivity].
        -- intros a [=].
        -- intros a [= ->] _. now rewrite get_del, N.eqb_refl.
  - (* reserve *)
    case_e e i. pose proof (I1 i) as Mi. rewrite Ei in Mi. destruct (v i) as [|r|x]; try contradiction.
    destruct Mi as (b & R & Lb & F & Hl). destruct (N.leb_spec (len + k) isize_max) as [Hk|]; [|discriminate]. injection E as <-.
    subst len. destruct (br_observe _ _ _ BR _ _ _ _ R) as (_ & _ & _ & _ & Hok & _).
    apply (put_buf h0 h v e own i); [assumption|]. eapply meets_mono; [apply (br_reserve _ _ _ BR _ _ _ _ k R Hk)|].
    intros r' h' (j & b' & o' & R' & Fr & Eb). exists b', o'. split; [assumption|]. split; [assumption|].
    destruct (reserve_fits _ _ _ _ _ Hk Hl F Hok Eb) as (A & B & C). repeat split; auto. lia.
  - (* push *)
    case_e e i. pose proof (I1 i) as Mi. rewrite Ei in Mi. destruct (v i) as [|r|x]; try contradiction.
    destruct Mi as (b & R & Lb & F & Hl). destruct (N.ltb_spec len (nlen cells)) as [Hk|]; [|discriminate].
    destruct (N.ltb_spec v0 256) as [Hv|]; [|discriminate]. injection E as <-. subst len.
    apply (put_buf h0 h v e own i); [assumption|]. pose proof (fits_len _ _ F) as FL.
    assert (exists b', bf_push v0 b = Ok b' /\ b_len b' = b_len b + 1 /\ fits (overwrite (b_len b) [Some v0] cells) (b_mem b')) as (b' & Eb & L' & F').
    { unfold bf_push. unfold bf_cap at 1. destruct (N.ltb_spec (b_len b) (nlen (b_mem b))); [|lia].
      destruct (set_len_fits (b_len b + 1) b cells ltac:(lia) F) as (b1 & -> & L1 & M1). cbn [rbind].
      destruct (write_fits (b_len b) [v0] b1 cells) as (b2 & -> & L2 & F2).
      { rewrite nlen_cons. change (nlen (@nil N)) with 0. lia. }
      { now rewrite M1. }
      exists b2. split; [reflexivity|]. split; [lia | exact F2]. }
    destruct (br_push _ _ _ BR _ _ _ _ _ _ R Hv Eb) as (r' & h' & Er & R' & Fr). rewrite Er. cbn [meets].
    exists b', (own i). repeat split; try apply Fr; auto. rewrite nlen_overwrite; rewrite ?nlen_cons; change (nlen (@nil (option N))) with 0; lia.
  - (* extend *)
    case_e e i. pose proof (I1 i) as Mi. rewrite Ei in Mi. destruct (v i) as [|r|x]; try contradiction.
    destruct Mi as (b & R & Lb & F & Hl). destruct (N.leb_spec (len + nlen bs) (nlen cells)) as [Hk|]; [|discriminate].
    destruct (octets bs) eqn:Ho; [|discriminate]. injection E as <-. apply ext_ok in Ho. subst len.
    apply (put_buf h0 h v e own i); [assumption|].
    destruct (extend_fits bs b cells Hk F) as (b' & Eb & L' & F').
    destruct (br_extend _ _ _ BR _ _ _ _ _ _ R Ho Eb) as (r' & h' & Er & R' & Fr). rewrite Er. cbn [meets].
    exists b', (own i). repeat split; try apply Fr; auto. rewrite nlen_overwrite; rewrite ?nlen_some; lia.
  - (* set_len *)
    case_e e i. pose proof (I1 i) as Mi. rewrite Ei in Mi. destruct (v i) as [|r|x]; try contradiction.
    destruct Mi as (b & R & Lb & F & Hl). destruct (N.leb_spec n (nlen cells)) as [Hk|]; [|discriminate]. injection E as <-.
    apply (put_buf h0 h v e own i); [assumption|]. pose proof (fits_len _ _ F) as FL.
    destruct (br_observe _ _ _ BR _ _ _ _ R) as (_ & Cp & _). unfold L_set_len_checked. rewrite Cp. unfold bf_cap.
    destruct (N.ltb_spec (nlen (b_mem b)) n); [lia|].
    destruct (set_len_fits n b cells Hk F) as (b' & Eb & L' & M').
    destruct (br_set_len _ _ _ BR _ _ _ _ _ _ R Eb) as (r' & Er & R'). rewrite Er. cbn [meets].
    exists b', (own i). split; [assumption|]. split; [apply frame_refl|]. rewrite M'. auto.
  - (* store *)
    case_e e i. pose proof (I1 i) as Mi. rewrite Ei in Mi. destruct (v i) as [|r|x]; try contradiction.
    destruct Mi as (b & R & Lb & F & Hl). destruct (N.leb_spec (off + nlen bs) (nlen cells)) as [Hk|]; [|discriminate].
    destruct (octets bs) eqn:Ho; [|discriminate]. injection E as <-. apply ext_ok in Ho.
    apply (put_buf h0 h v e own i); [assumption|].
    destruct (write_fits off bs b cells Hk F) as (b' & Eb & L' & F').
    destruct (br_store _ _ _ BR _ _ _ _ _ _ _ R Ho Eb) as (r' & h' & Er & R' & Fr). rewrite Er. cbn [meets].
    exists b', (own i). repeat split; try apply Fr; auto; [lia|]. rewrite nlen_overwrite; rewrite ?nlen_some; lia.
  - (* move *)
    case_e e i. pose proof (I1 i) as Mi. rewrite Ei in Mi. destruct (v i) as [|r|x]; try contradiction.
    destruct Mi as (b & R & Lb & F & Hl). destruct (N.leb_spec (src + n) (nlen cells)) as [H1|]; [|discriminate].
    destruct (N.leb_spec (dst + n) (nlen cells)) as [H2|]; [|discriminate]. injection E as <-.
    apply (put_buf h0 h v e own i); [assumption|]. pose proof (fits_len _ _ F) as FL.
    destruct (br_observe _ _ _ BR _ _ _ _ R) as (_ & _ & _ & _ & Hok & _).
    assert (RD : mem_read src n (b_mem b) = Ok (take n (drop src (b_mem b)))).
    { unfold mem_read. destruct (N.ltb_spec (nlen (b_mem b)) (src + n)); [lia | reflexivity]. }
    unfold mbind at 1. rewrite (br_load _ _ _ BR _ _ _ _ _ _ _ R RD).
    set (t := take n (drop src (b_mem b))) in *.
    assert (Lt : nlen t = n) by (unfold t; rewrite nlen_take, nlen_drop; lia).
    assert (Ht : bytes_ok t) by (now apply bytes_ok_take, bytes_ok_drop).
    destruct (write_fits dst t b cells ltac:(lia) F) as (b' & Eb & L' & _).
    destruct (br_store _ _ _ BR _ _ _ _ _ _ _ R Ht Eb) as (r' & h' & Er & R' & Fr). rewrite Er. cbn [meets].
    assert (Lc : nlen (take n (drop src cells)) = n) by (rewrite nlen_take, nlen_drop; lia).
    exists b', (own i). repeat split; try apply Fr; auto; [lia | |rewrite nlen_overwrite; lia].
    unfold bf_write, mem_write in Eb. destruct (N.ltb_spec (nlen (b_mem b)) (dst + nlen t)); [lia|]. injection Eb as <-. cbn [b_mem].
    apply fits_overwrite; auto; [lia | |lia].
    destruct (fits_split src cells (b_mem b) ltac:(lia) F) as (c1 & c2 & m1 & m2 & -> & Em & La & Lb' & _ & F2).
    unfold t. rewrite Em. rewrite nlen_app in H1. destruct (fits_split n c2 m2 ltac:(lia) F2) as (c3 & c4 & m3 & m4 & -> & -> & L3 & L4 & F3 & _).
    rewrite <- La at 1. rewrite drop_app_exact. rewrite <- Lb'. rewrite drop_app_exact. rewrite <- L3 at 1. rewrite take_app_exact, <- L4, take_app_exact. assumption.
  - (* io::Write::write *)
    case_e e i. pose proof (I1 i) as Mi. rewrite Ei in Mi. destruct (v i) as [|r|x]; try contradiction.
    destruct Mi as (b & R & Lb & F & Hl). destruct (N.leb_spec (len + nlen bs) isize_max) as [Hk|]; [|discriminate].
    destruct (octets bs) eqn:Ho; [|discriminate]. injection E as <-. apply ext_ok in Ho. subst len.
    destruct (br_observe _ _ _ BR _ _ _ _ R) as (_ & _ & _ & _ & Hok & _).
    apply (put_buf h0 h v e own i); [assumption|]. unfold L_io_write.
    eapply meets_bind; [apply (br_reserve _ _ _ BR _ _ _ _ (nlen bs) R Hk)|].
    intros r1 h1 (j & b1 & o1 & R1 & F1 & E1).
    destruct (reserve_fits _ _ _ _ _ Hk Hl F Hok E1) as (A & B & C).
    destruct (extend_fits bs b1 (e_reserve (nlen bs) cells (b_len b))) as (b' & Eb & L' & F'); [lia | assumption |].
    destruct (br_extend _ _ _ BR _ _ _ _ _ _ R1 Ho Eb) as (r' & h' & Er & R' & Fr). rewrite Er. cbn [meets].
    exists b', o1. split; [assumption|]. split.
    { eapply frame_trans; [eassumption | eassumption |]. intros a ->. apply (br_owned _ _ _ BR) in R1. congruence. }
    rewrite A in *. repeat split; auto. rewrite nlen_overwrite; rewrite ?nlen_some; lia.
Qed.
Lemma run_good os : forall h0 h v e e', good h0 e v h -> erun ic os e = Some e' -> meets al (rrun L al os v h) (good h0 e').
Proof.
  induction os as [|o os IH]; intros h0 h v e e' HG E; cbn [erun rrun] in *.
  - injection E as <-. exact HG.
  - destruct (estep ic o e) as [e1|] eqn:E1; [|discriminate].
    eapply meets_bind; [eapply step_good; eassumption|]. intros v1 h1 G1. eapply IH; eassumption.
Qed.
Lemma vmatch_shows h x e own : vmatch h x e own -> shows L h x e.
Proof.
  destruct x as [|r|v], e as [|cells len|cells len]; cbn [vmatch shows]; auto.
  - intros (b & R & <- & F & Hl). pose proof (fits_len _ _ F) as FL.
    destruct (br_observe _ _ _ BR _ _ _ _ R) as (A & B & C & D & Hok & S). rewrite A, B. unfold bf_cap in *. repeat split; auto.
    + exists (take (nlen cells) (b_mem b)). split.
      * apply (br_load _ _ _ BR _ _ _ _ _ _ _ R). unfold mem_read.
        destruct (N.ltb_spec (nlen (b_mem b)) (0 + nlen cells)); [lia|]. now rewrite drop_0.
      * destruct (fits_split (nlen cells) cells (b_mem b) ltac:(lia) F) as (c1 & c2 & m1 & m2 & Ec & -> & L1 & L2 & F1 & _).
        assert (c2 = []) by (apply nlen_zero; rewrite Ec, nlen_app in L1; lia). subst c2. rewrite app_nil_r in Ec. subst c1.
        rewrite <- L2, take_app_exact. assumption.
    + exists (bf_slice b). split; [assumption|]. split; [unfold bf_slice; rewrite nlen_take; lia | now apply fits_slice].
  - intros (bs & sp & (A & B & C & D & E & K) & <- & F & Hl). pose proof (fits_len _ _ F) as FL. rewrite A, B. repeat split; auto.
    { rewrite nlen_app. lia. }
    exists bs. split; [|split; [reflexivity|]].
    + unfold vec_slice. destruct (N.eqb_spec (v_cap v) 0) as [Z|Nz].
      * rewrite Z, nlen_app in B. assert (bs = []) as -> by (apply nlen_zero; lia). reflexivity.
      * destruct (K Nz) as (Hg & _). unfold load. rewrite Hg, A, nlen_app. destruct (N.ltb_spec (nlen bs + nlen sp) (0 + nlen bs)); [lia|].
        now rewrite drop_0, take_app_exact.
    + destruct (fits_split (nlen bs) cells (bs ++ sp) Hl F) as (c1 & c2 & m1 & m2 & -> & Em & L1 & L2 & F1 & _).
      rewrite <- L1, take_app_exact. replace bs with m1; [assumption|].
      rewrite <- (take_app_exact m1 m2), <- Em, L2. apply take_app_exact.
Qed.
Theorem history os e h0 : erun ic os eempty = Some e ->
  meets al (rrun L al os vempty h0) (fun v h =>
    (forall i, shows L h (v i) (e i)) /\
    (forall a c, h_get a h0 = Some c -> h_get a h = Some c) /\
    ((forall i, e i = EEmpty) -> forall a, h_get a h = h_get a h0)).
Proof.
  intros E. eapply meets_mono; [apply (run_good os h0 h0 vempty eempty e); [|assumption]|].
  - exists (fun _ => None). split; [|split; [|split]].
    + intros i. reflexivity.
    + intros i j a [=].
    + intros i a [=].
    + reflexivity.
  - intros v h (own & I1 & I2 & I3 & I4). split; [|split].
    + intros i. eapply vmatch_shows. apply I1.
    + intros a c Hc. rewrite I4; [assumption|]. intros i Hi. apply I3 in Hi. congruence.
    + intros He a. apply I4. intros i Hi. specialize (I1 i). rewrite He, Hi in I1. destruct (v i); try contradiction. discriminate.
Qed.
End HIST.

(** ** reserve outside the size limit *)
Lemma le_reserve_stack al k r h b : Rep LE le_view r h b None -> le_reserve al k r h <> UB.
Proof.
  intros (s & V & R). destruct R as [W R]. destruct s as [m n|p c n]; [|destruct R as (? & _ & _ & _ & _ & _ & [=])].
  pose proof (le_view_len _ _ V) as LL. pose proof (le_view_cap _ _ V) as CC.
  destruct V as [_ ->]. cbn [swf s_len s_cap] in *. destruct W as (L & Hn & Hok). destruct R as [-> _].
  destruct (le_stack_facts m n L Hok Hn) as (S & _). unfold le_reserve. rewrite LL, CC, S. cbv zeta.
  destruct (usize_limit <=? n + k); [discriminate|]. destruct (N.leb_spec (n + k) LE_INIT_CAPACITY); [discriminate|].
  unfold mbind, alloc. destruct (N.ltb_spec isize_max (n + k)); [discriminate|]. destruct (N.eqb_spec (n + k) 0); [lia|].
  destruct (al_pick al h (n + k)) as [a|]; [|discriminate]. unfold le_load. rewrite S, nlen_app.
  destruct (N.ltb_spec (nlen m + nlen [n]) (0 + n)); [rewrite nlen_cons in *; lia|]. unfold mret.
  unfold store. rewrite get_set_eq, new_octets_len, nlen_take, drop_0, nlen_app.
  destruct (N.ltb_spec (n + k) (0 + N.min n (nlen m + nlen [n]))); [lia | discriminate].
Qed.
Lemma ue_reserve_stack al k r h b : good_allocator al -> Rep UE ue_view r h b None -> ue_reserve al k r h <> UB.
Proof.
  intros G (s & V & R). destruct R as [W R]. destruct s as [m n|p c n]; [|destruct R as (? & _ & _ & _ & _ & _ & [=])].
  pose proof (ue_view_len _ _ V) as LL. pose proof (ue_view_cap _ _ V) as CC.
  destruct V as [_ ->]. cbn [swf s_len s_cap] in *. destruct W as (L & Hn & Hok). destruct R as [-> _].
  destruct (ue_stack_facts m n Hn) as (S & _). unfold ue_reserve. rewrite LL, CC, S. cbv zeta.
  destruct (usize_limit <=? n + k); [discriminate|]. destruct (N.leb_spec (n + k) UE_INIT_CAPACITY); [discriminate|].
  unfold ue_heap_new. destruct (N.eqb_spec (n + k) 0); [lia|].
  unfold mbind, alloc. destruct (N.ltb_spec isize_max (n + k)); [discriminate|]. destruct (N.eqb_spec (n + k) 0); [lia|].
  destruct (al_pick al h (n + k)) as [a|] eqn:E; [|discriminate]. unfold mret. unfold ue_load. rewrite S. cbn [u_union].
  destruct (N.ltb_spec (nlen m) (0 + n)); [lia|].
  destruct (G _ _ _ E) as (_ & _ & Ha). rewrite ue_union_data by assumption. unfold mret.
  unfold store. rewrite get_set_eq, new_octets_len, nlen_take, drop_0.
  destruct (N.ltb_spec (n + k) (0 + N.min n (nlen m))); [lia | discriminate].
Qed.

(** An allocator: above all blocks in use. *)
Definition top (h : heap) : N := fold_right (fun e a => N.max (fst e) a) 0 h.
Definition bump : allocator :=
  {| al_pick := fun h n => if top h + 1 <? usize_limit then Some (top h + 1) else None;
     al_junk := fun _ a i => 7 * a + i + 170 |}.
Lemma get_above a h : top h < a -> h_get a h = None.
Proof.
  Transparent h_get. induction h as [|[x c] h IH]; intros H; cbn [h_get top fold_right fst] in *; [reflexivity|].
  fold (top h) in H. destruct (N.eqb_spec x a); [lia|]. apply IH. lia. Opaque h_get.
Qed.
Lemma bump_good : good_allocator bump.
Proof.
  intros h n a. cbn [bump al_pick]. destruct (N.ltb_spec (top h + 1) usize_limit); [|discriminate]. intros [= <-].
  split; [apply get_above; lia | lia].
Qed.
