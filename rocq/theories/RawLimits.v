(** Lengths beyond any allocation, on raw memory: exactly what happens. *)
From Verif Require Import Base ModelIo ModelTag ModelContents ModelBuf ModelTlv ModelHeap ModelBufLE ModelBufUE ModelTlvRaw
  Spec SpecIo SpecBuf SpecTlv SpecMem SpecLimits TagProofs IdProofs TagMain ContentsProofs TlvProofs BufProofs TlvMain StreamProofs StreamMain RawProofs RawMain RawTlv RawStream RawEdges MemProofs.

(** ** reserve *)
Definition too_much {A} (b : buf) (k : N) : outcome A :=
  if b_heap b && (b_len b + k <? usize_limit) then UB else Crash.
Lemma le_over al r h b own k : Rep LE le_view r h b own -> isize_max < b_len b + k -> L_reserve LE al k r h = too_much b k.
Proof.
  intros (s & V & R) Hk. destruct R as [W R]. unfold too_much.
  pose proof (le_view_len _ _ V) as LL. pose proof (le_view_cap _ _ V) as CC.
  destruct V as [_ V]. destruct s as [m n|p c n]; subst r; cbn [swf s_len s_cap] in *.
  - destruct W as (L & Hn & Hok). destruct R as [-> _]. cbn [b_len b_heap andb] in *.
    destruct (le_stack_facts m n L Hok Hn) as (S & _). cbn [LE L_reserve]. unfold le_reserve. rewrite LL, CC, S. cbv zeta.
    destruct (usize_limit <=? n + k); [reflexivity|].
    destruct (N.leb_spec (n + k) LE_INIT_CAPACITY) as [Q|]; [exfalso; assert (LE_INIT_CAPACITY <= isize_max) by discriminate; lia|].
    unfold mbind, alloc. destruct (N.ltb_spec isize_max (n + k)); [reflexivity | lia].
  - destruct W as (Hp & Hc0 & Hc & Hn). destruct R as (m & Hg & Hm & Hp0 & Hok & -> & _). cbn [b_len b_heap andb] in *.
    destruct (le_heap_facts p c n Hp Hc Hn) as (S & _ & _ & D & _). cbn [LE L_reserve]. unfold le_reserve. rewrite LL, CC, S, D. cbv zeta.
    destruct (N.leb_spec usize_limit (n + k)), (N.ltb_spec (n + k) usize_limit); try lia; [reflexivity|].
    destruct (N.leb_spec (n + k) c); [lia|]. unfold mbind, realloc. destruct (N.ltb_spec isize_max c); [lia|].
    rewrite Hg, Hm, N.eqb_refl. cbn [negb]. destruct (N.ltb_spec isize_max (n + k)); [|lia]. now rewrite orb_true_r.
Qed.
Lemma ue_over al r h b own k : Rep UE ue_view r h b own -> isize_max < b_len b + k -> L_reserve UE al k r h = too_much b k.
Proof.
  intros (s & V & R) Hk. destruct R as [W R]. unfold too_much.
  pose proof (ue_view_len _ _ V) as LL. pose proof (ue_view_cap _ _ V) as CC.
  destruct V as [_ V]. destruct s as [m n|p c n]; subst r; cbn [swf s_len s_cap] in *.
  - destruct W as (L & Hn & Hok). destruct R as [-> _]. cbn [b_len b_heap andb] in *.
    destruct (ue_stack_facts m n Hn) as (S & _). cbn [UE L_reserve]. unfold ue_reserve. rewrite LL, CC, S. cbv zeta.
    destruct (usize_limit <=? n + k); [reflexivity|].
    destruct (N.leb_spec (n + k) UE_INIT_CAPACITY) as [Q|]; [exfalso; assert (UE_INIT_CAPACITY <= isize_max) by discriminate; lia|].
    unfold ue_heap_new. destruct (N.eqb_spec (n + k) 0); [lia|].
    unfold mbind, alloc. destruct (N.ltb_spec isize_max (n + k)); [reflexivity | lia].
  - destruct W as (Hp & Hc0 & Hc & Hn). destruct R as (m & Hg & Hm & Hp0 & Hok & -> & _). cbn [b_len b_heap andb] in *.
    destruct (ue_heap_facts p c n Hp Hc Hn) as (S & _ & _ & D & C). cbn [UE L_reserve]. unfold ue_reserve. rewrite LL, CC, S, D, C. cbv zeta.
    destruct (N.leb_spec usize_limit (n + k)), (N.ltb_spec (n + k) usize_limit); try lia; [reflexivity|].
    destruct (N.leb_spec (n + k) c); [lia|]. unfold mbind, realloc. destruct (N.ltb_spec isize_max c); [lia|].
    rewrite Hg, Hm, N.eqb_refl. cbn [negb]. destruct (N.ltb_spec isize_max (n + k)); [|lia]. now rewrite orb_true_r.
Qed.
Lemma rep_own L V r h b own : Rep L V r h b own -> b_heap b = match own with Some _ => true | None => false end.
Proof.
  intros (s & _ & W & R). destruct s as [m n|p c n].
  - now destruct R as [-> ->].
  - now destruct R as (m & _ & _ & _ & _ & -> & ->).
Qed.

(** ** the parsers *)
(** [o] is [x], unless memory runs out before. *)
Definition ends {A} (al : allocator) (o x : outcome A) : Prop := o = x \/ (o = Abort /\ out_of_memory al).
Lemma ends_bind {A B} al (m : M A) (k : A -> M B) h P x : meets al (m h) P -> (forall a h', P a h' -> ends al (k a h') x) -> ends al (mbind m k h) x.
Proof. intros H K. unfold mbind. destruct (m h); cbn [meets] in *; auto; [right; auto | contradiction | contradiction]. Qed.

(** Reading a header never panics. *)
Section CALM.
Context {S : Type} (R : reader S) (content : S -> list N) (HR : honest R content).
Definition calmly {A} (m : parser S A) : Prop := forall st, fst (m st) <> Panic.
Lemma cy_ret {A} (a : A) : calmly (pret a).
Proof. intros st. discriminate. Qed.
Lemma cy_fail {A} e : calmly (pfail (A := A) e).
Proof. intros st. discriminate. Qed.
Lemma cy_bind {A B} (m : parser S A) (k : A -> parser S B) : calmly m -> (forall a, calmly (k a)) -> calmly (pbind m k).
Proof.
  intros Hm Hk st. unfold pbind. specialize (Hm st). destruct (m st) as [[a|e| |] st1]; cbn [fst] in *; try discriminate; [apply Hk | congruence].
Qed.
Lemma cy_write b : calmly (write_u8 b).
Proof. intros [s w]. discriminate. Qed.
Lemma cy_read : calmly (read_u8 R).
Proof using HR.
  intros [s w]. unfold read_u8. pose proof (HR s 1) as H. destruct (rd_read R s 1) as [[[|b [|c bs]]|e] s']; try discriminate.
  destruct H as [_ H]. rewrite !nlen_cons in H. lia.
Qed.
Lemma cy_id_loop fuel : forall i b, calmly (parse_id_loop R fuel i b).
Proof using HR.
  induction fuel as [|fuel IH]; intros i b; cbn [parse_id_loop]; [intros st; discriminate|].
  apply cy_bind; [apply cy_write|]. intros _. destruct (negb _); [apply cy_ret|]. apply cy_bind; [apply cy_read|]. intros o. apply IH.
Qed.
Lemma cy_len_loop k : forall len, calmly (parse_length_loop R k len).
Proof using HR.
  induction k as [|k IH]; intros len; cbn [parse_length_loop]; [apply cy_ret|].
  apply cy_bind; [apply cy_read|]. intros b. apply cy_bind; [apply cy_write|]. intros _. apply IH.
Qed.
Lemma cy_header fuel : calmly (parse_id_length R fuel).
Proof using HR.
  apply cy_bind.
  - apply cy_bind; [apply cy_read|]. intros b. apply cy_bind; [apply cy_write|]. intros _. destruct (negb _); [apply cy_ret|].
    apply cy_bind; [apply cy_read|]. intros o. destruct (_ <=? _); [apply cy_fail|]. destruct (_ =? _); [apply cy_fail | apply cy_id_loop].
  - intros _. apply cy_bind; [apply cy_read|]. intros b. apply cy_bind; [apply cy_write|]. intros _. destruct (_ =? _); [apply cy_ret|]. destruct (negb _); [apply cy_ret|].
    apply cy_bind; [apply cy_read|]. intros o. destruct (_ =? _); [apply cy_fail|]. apply cy_bind; [apply cy_write|]. intros _. cbv zeta.
    destruct (_ && _); [apply cy_fail|]. destruct (_ <? _); [apply cy_fail | apply cy_len_loop].
Qed.
End CALM.

Section LIMITS.
Context (L : layout) (al : allocator) (G : good_allocator al)
        (Rp : L_raw L -> heap -> buf -> option N -> Prop) (BR : buffer_refines L al Rp)
        (inline : forall r h b own, Rp r h b own -> b_heap b = false -> bf_cap b = L_init_cap L /\ own = None)
        (over : forall r h b own k, Rp r h b own -> isize_max < b_len b + k -> L_reserve L al k r h = too_much b k).
Notation cf j := {| init_cap := L_init_cap L; junk := j |}.
Notation raw := (L_raw L).
(** On the heap if, and only if, longer than the inline storage. *)
Definition sized (b : buf) : Prop := b_heap b = (L_init_cap L <? b_len b).
Definition keeps (bs : list N) (own : option N) (h : heap) (r : raw) (h' : heap) : Prop :=
  exists b' o', Rp r h' b' o' /\ frame own o' h h' /\ holds b' bs /\ sized b'.

Lemma holds_room b bs : holds b bs -> b_len b <= bf_cap b.
Proof using. intros (sp & M & Ll & _). unfold bf_cap. rewrite M, Ll, (nlen_app bs). lia. Qed.
Lemma reserve_heap cfg n b b1 : (b_heap b = false -> bf_cap b = L_init_cap L) -> sized b -> b_len b <= bf_cap b -> bf_reserve cfg n b = Ok b1 ->
  b_len b1 = b_len b /\ b_heap b1 = (L_init_cap L <? b_len b + n).
Proof using.
  unfold sized, bf_reserve. intros I Sz Hc. destruct (N.leb_spec (b_len b + n) (bf_cap b)).
  - intros [= <-]. split; [reflexivity|]. rewrite Sz. destruct (N.ltb_spec (L_init_cap L) (b_len b)); symmetry.
    + apply N.ltb_lt. lia.
    + apply N.ltb_ge. rewrite <- I; assumption.
  - destruct (isize_max <? _); [discriminate|]. intros [= <-]. cbn [b_len b_heap]. split; [reflexivity|]. symmetry. apply N.ltb_lt.
    destruct (b_heap b) eqn:E; [|rewrite <- I; auto]. symmetry in Sz. apply N.ltb_lt in Sz. lia.
Qed.
Lemma extend_heap w b b1 : bf_extend w b = Ok b1 -> b_heap b1 = b_heap b.
Proof using.
  unfold bf_extend, bf_write, bf_set_len. destruct (mem_write _ _ _) as [m| | |]; cbn [rbind]; try discriminate.
  destruct (_ <? _); [discriminate|]. now intros [= <-].
Qed.
Lemma io_write_keeps w r h b own bs : Rp r h b own -> holds b bs -> sized b -> bytes_ok w -> nlen bs + nlen w <= isize_max ->
  meets al (L_io_write L al w r h) (keeps (bs ++ w) own h).
Proof using BR inline over.
  intros HRp H Sz Hw Hn.
  eapply meets_mono.
  { eapply (asim_bind L al Rp BR (L_reserve L al (nlen w)) (L_extend L w) (fun c => bf_reserve c (nlen w)) (bf_extend w));
      [eapply asim_reserve; eassumption | eapply dsim_extend; eassumption | exact HRp |].
    intros j. destruct (write_abs (cf j) b bs w H Hn) as (b' & E & _). exists b'. exact E. }
  cbv beta. intros r1 h1 (j & b1 & o1 & R1 & F1 & E1).
  destruct (write_abs (cf j) b bs w H Hn) as (b2 & E2 & H2). change (bf_io_write (cf j) w b = Ok b1) in E1. rewrite E1 in E2. injection E2 as <-.
  exists b1, o1. do 3 (split; [assumption|]). unfold sized.
  unfold bf_io_write in E1. apply rbind_inv in E1 as (b3 & E3 & E1).
  assert (Hc : b_len b <= bf_cap b) by now apply (holds_room b bs).
  destruct (reserve_heap (cf j) (nlen w) b b3 (fun Z => proj1 (inline _ _ _ _ HRp Z)) Sz Hc E3) as [_ K].
  rewrite (extend_heap _ _ _ E1), K, (holds_len _ _ H2), nlen_app, (holds_len _ _ H). reflexivity.
Qed.
Lemma feed_keeps w : forall r h b own bs, Rp r h b own -> holds b bs -> sized b -> bytes_ok w -> nlen bs + nlen w <= isize_max ->
  meets al (raw_feed L al w r h) (keeps (bs ++ w) own h).
Proof using BR inline over.
  induction w as [|x w IH]; intros r h b own bs HRp H Sz Hw Hn; cbn [raw_feed].
  - cbn [meets mret]. exists b, own. rewrite app_nil_r. auto using frame_refl.
  - rewrite nlen_cons in Hn. apply Forall_cons_iff in Hw as [Hx Hw].
    eapply meets_bind; [apply (io_write_keeps [x] r h b own bs HRp H Sz)|].
    + now repeat constructor.
    + rewrite nlen_cons, nlen_nil. lia.
    + intros r1 h1 (b1 & o1 & R1 & F1 & H1 & S1). eapply meets_mono; [apply (IH r1 h1 b1 o1 (bs ++ [x]) R1 H1 S1); auto|].
      * rewrite nlen_app, nlen_cons, nlen_nil. lia.
      * intros r2 h2 (b2 & o2 & R2 & F2 & H2 & S2). exists b2, o2. rewrite <- app_assoc in H2. split; [assumption|]. split; [|auto].
        eapply frame_trans; [eassumption | eassumption |]. intros a Ea. eapply rp_live; eassumption.
Qed.
Lemma new_sized j : sized (bf_new (cf j)).
Proof using. unfold sized. cbn [bf_new b_heap b_len]. symmetry. apply N.ltb_ge. apply N.le_0_l. Qed.
Lemma over_beyond r h b own bs k : Rp r h b own -> holds b bs -> sized b -> isize_max < nlen bs + k ->
  L_reserve L al k r h = beyond (L_init_cap L) (nlen bs) k.
Proof using over.
  intros HRp H Sz Hk. rewrite (over r h b own k HRp) by now rewrite (holds_len _ _ H).
  unfold too_much, beyond. rewrite Sz, (holds_len _ _ H). reflexivity.
Qed.
Lemma beyond_bind {A B} (m : M A) (k : A -> M B) h i n : m h = beyond (L_init_cap L) i n -> mbind m k h = beyond (L_init_cap L) i n.
Proof using. unfold mbind, beyond. intros ->. now destruct (_ && _). Qed.

Context {S : Type} (R : reader S) (content : S -> list N) (HR : honest R content).
(** The header [w] was read and its length is [n]. *)
Theorem der_parse_beyond C fuel s h0 w n s' : bytes_ok (content s) -> nlen (content s) <= isize_max ->
  parse_id_length R fuel (s, []) = (Ok (Definite n), (s', w)) -> isize_max < nlen w + n ->
  ends al (raw_Der_parse L al R C fuel s h0) (beyond (L_init_cap L) (nlen w) n).
Proof using BR inline over HR.
  intros Hok Hn0 E Hn. unfold raw_Der_parse.
  destruct (ap_parse_id_length R content HR fuel s Hok) as (r & s1 & w1 & E1 & Nw & Ow & _). rewrite (E1 []) in E. cbn [app] in E. injection E as -> -> ->.
  rewrite (E1 []). cbn [app].
  eapply ends_bind; [apply (feed_keeps w (L_new L) h0 _ None [] (br_new _ _ _ BR h0 (fun _ => 0)) (holds_new _) (new_sized _) Ow); rewrite nlen_nil; lia|].
  cbn [app]. intros r1 h1 (b & o & R1 & _ & H1 & S1). left. rewrite (rp_len L al Rp BR _ _ _ _ R1), (holds_len _ _ H1). cbv zeta.
  unfold mbind at 1. unfold madd. destruct (N.ltb_spec (nlen w + n) usize_limit) as [Q|Q].
  - unfold mret at 1. apply beyond_bind. eapply over_beyond; eassumption.
  - unfold mcrash, beyond. change usize_limit with (2 ^ 64) in Q. destruct (N.ltb_spec (nlen w + n) (2 ^ 64)); [lia|]. now rewrite andb_false_r.
Qed.

(** One step of Ber::parse that goes well. *)
Lemma ber_step_keeps fuel s w r h b own z s' w' : Rp r h b own -> holds b w -> sized b -> bytes_ok (content s) ->
  nlen w + nlen (content s) <= isize_max -> Ber_do_parse R fuel (s, w) = (Ok z, (s', w')) ->
  meets al (raw_Ber_do_parse L al R fuel s r h) (fun x h' => exists r', x = (Ok z, s', r') /\ keeps w' own h r' h').
Proof using BR inline over HR.
  intros HRp Hw Sz Hok Hn EB. unfold raw_Ber_do_parse. cbv zeta. unfold Ber_do_parse, pbind in EB. cbn [snd] in EB.
  destruct (ap_parse_id_length R content HR fuel s Hok) as (rl & s1 & d & E & Nd & Od & Oc & _).
  rewrite (E []). rewrite (E w) in EB. cbn [app]. rewrite (rp_len L al Rp BR _ _ _ _ HRp), (holds_len _ _ Hw).
  eapply meets_bind; [apply (feed_keeps d r h b own w HRp Hw Sz Od); lia|].
  intros r1 h1 (b1 & o1 & R1 & F1 & H1 & S1).
  destruct rl as [[|n]|e| |]; try discriminate.
  - injection EB as <- <- <-. cbn [meets mret]. exists r1. split; [reflexivity|]. exists b1, o1. auto.
  - cbn [snd] in EB. destruct (N.ltb_spec isize_max (nlen (w ++ d) + n)) as [|Hs]; [discriminate|].
    eapply meets_bind.
    { eapply meets_mono; [apply (rp_reserve L al Rp BR r1 h1 b1 o1 n R1)|].
      - intros j. destruct (reserve_ok (cf j) n b1 (w ++ d) H1 Hs) as (b2 & sp & E2 & _). eauto.
      - cbv beta. intros r2 h2 (j & b2 & o2 & R2 & F2 & E2).
        destruct (reserve_ok (cf j) n b1 (w ++ d) H1 Hs) as (b3 & sp & E3 & M3 & L3 & K3 & O3). rewrite E2 in E3. injection E3 as <-.
        assert (Hc : b_len b1 <= bf_cap b1) by now apply (holds_room b1 (w ++ d)).
        destruct (reserve_heap (cf j) n b1 b2 (fun Z => proj1 (inline _ _ _ _ R1 Z)) S1 Hc E2) as [_ K]. rewrite (holds_len _ _ H1) in K.
        exact (ex_intro (fun p => let '(b2, o2, sp) := p in Rp r2 h2 b2 o2 /\ frame o1 o2 h1 h2 /\ b_mem b2 = (w ++ d) ++ sp /\ b_len b2 = nlen (w ++ d) /\ n <= nlen sp /\ bytes_ok sp /\
          b_heap b2 = (L_init_cap L <? nlen (w ++ d) + n)) (b2, o2, sp) (conj R2 (conj F2 (conj M3 (conj L3 (conj K3 (conj O3 K))))))). }
    cbv beta zeta. intros r2 h2 ([[b2 o2] sp] & R2 & F2 & M2 & L2 & K2 & O2 & P2).
    rewrite (rp_len L al Rp BR _ _ _ _ R2), L2. rewrite (mbind_done _ _ (nlen (w ++ d) + n) h2 h2).
    2:{ apply madd_ok, add_usize_ok. pose proof isize_lt. lia. }
    destruct (rp_set_len L al Rp BR r2 h2 b2 o2 (nlen (w ++ d) + n) {| b_mem := b_mem b2; b_len := nlen (w ++ d) + n; b_heap := b_heap b2 |} R2) as (r3 & E3 & R3).
    { unfold bf_set_len, bf_cap. rewrite M2, (nlen_app (w ++ d)). destruct (N.ltb_spec (nlen (w ++ d) + nlen sp) (nlen (w ++ d) + n)); [lia | reflexivity]. }
    rewrite (mbind_done _ _ _ _ _ E3).
    destruct (ap_read_exact R content HR fuel n s1 Oc) as (rr & s2 & got & Eg & Ng & Og & Oc2 & Lg & Kg & Pg).
    rewrite (Eg []). rewrite (Eg (w ++ d)) in EB. cbn [app] in *.
    destruct (split_at (nlen got) sp ltac:(lia)) as (x & tl & -> & Lx).
    match type of R3 with Rp _ _ ?b3 _ => pose proof (bf_write_at (w ++ d) x tl got (nlen (w ++ d)) b3 M2 eq_refl Lx) as Ew end.
    destruct (br_store _ _ _ BR _ _ _ _ _ _ _ R3 Og Ew) as (r4 & h4 & Es & R4 & F4).
    rewrite (mbind_done _ _ _ _ _ Es).
    destruct rr as [[]|e| |]; try discriminate. specialize (Kg eq_refl).
    cbn [snd] in EB. injection EB as <- <- <-.
    match type of R4 with Rp _ _ ?b4 _ => assert (H4 : holds b4 ((w ++ d) ++ got)) end.
    { exists tl. cbn [b_mem b_len]. rewrite <- (app_assoc (w ++ d)). split; [reflexivity|]. split; [rewrite (nlen_app (w ++ d)); lia|]. now apply bytes_ok_app in O2. }
    rewrite (mbind_done _ _ _ _ _ (rp_slice L al Rp BR _ _ _ _ R4)), (holds_slice _ _ H4). rewrite <- !app_assoc, drop_app_exact.
    cbn [meets mret]. exists r4. split; [reflexivity|]. rewrite (app_assoc w d got). eexists _, _. split; [exact R4|]. split; [|split; [exact H4|]].
    + eapply frame_trans; [exact F1 | | intros a Ea; eapply rp_live; eassumption].
      eapply frame_trans; [exact F2 | exact F4 | intros a Ea; eapply rp_live; eassumption].
    + unfold sized. cbn [b_heap b_len]. exact P2.
Qed.
(** One that does not. *)
Lemma ber_step_beyond fuel s w st : bytes_ok (content s) ->
  nlen w + nlen (content s) <= isize_max -> Ber_do_parse R fuel (s, w) = (Panic, st) ->
  exists id len n t, content s = id ++ len ++ t /\ is_identifier id /\ minimal_length n len /\ isize_max < nlen (w ++ id ++ len) + n /\
  forall r h b own, Rp r h b own -> holds b w -> sized b ->
    ends al (raw_Ber_do_parse L al R fuel s r h) (beyond (L_init_cap L) (nlen (w ++ id ++ len)) n).
Proof using BR inline over HR.
  intros Hok Hn EB. unfold raw_Ber_do_parse. cbv zeta. unfold Ber_do_parse, pbind in EB. cbn [snd] in EB.
  destruct (ap_parse_id_length R content HR fuel s Hok) as (rl & s1 & d & E & Nd & Od & Oc & _).
  assert (NP : rl <> Panic) by (pose proof (cy_header R content HR fuel (s, [])) as NP; now rewrite (E []) in NP).
  rewrite (E []). rewrite (E w) in EB. cbn [app].
  destruct rl as [[|n]|e| |]; try discriminate.
  - cbn [snd] in EB. destruct (header_read R content HR fuel s [] _ s1 d Hok (E [])) as (id & len & Hi & Ed & Ec & Hm). cbn [app] in Ed. subst d.
    destruct (N.ltb_spec isize_max (nlen (w ++ id ++ len) + n)) as [Hs|Hs].
    + exists id, len, n, (content s1). do 4 (split; [assumption|]). intros r h b own HRp Hw Sz.
      eapply ends_bind; [apply (feed_keeps (id ++ len) r h b own w HRp Hw Sz Od); lia|].
      intros r1 h1 (b1 & o1 & R1 & F1 & H1 & S1). left. apply beyond_bind. eapply over_beyond; eassumption.
    + destruct (ap_read_exact R content HR fuel n s1 Oc) as (rr & s2 & got & Eg & Ng & Og & Oc2 & Lg & Kg & Pg).
      rewrite (Eg (w ++ id ++ len)) in EB. destruct rr as [[]|e| |]; try discriminate. congruence.
  - congruence.
Qed.
Lemma step_opens fuel s w z s' w' d : bytes_ok (content s) -> open_at d w -> Ber_do_parse R fuel (s, w) = (Ok z, (s', w')) -> (0 < Z.of_nat d + z)%Z ->
  open_at (Z.to_nat (Z.of_nat d + z)) w'.
Proof using HR.
  intros Hok O EB Hz. unfold Ber_do_parse, pbind in EB. cbn [snd] in EB.
  destruct (parse_id_length R fuel (s, w)) as [[l|e| |] [s1 w1]] eqn:E; try discriminate.
  destruct (header_read R content HR _ _ _ _ _ _ Hok E) as (id & len & Hi & -> & Ec & Hl). destruct l as [|n].
  - injection EB as <- <- <-. subst len. replace (Z.to_nat (Z.of_nat d + 1)) with (Datatypes.S d) by lia. now constructor.
  - cbn [snd] in EB. destruct (N.ltb_spec isize_max (nlen (w ++ id ++ len) + n)) as [|Hs]; [discriminate|].
    destruct (read_exact R fuel n (s1, w ++ id ++ len)) as [[[]|e| |] [s2 w2]] eqn:E2; try discriminate. cbn [snd] in EB. injection EB as <- <- <-.
    destruct (rp_read_exact_1 R content HR fuel n _ _ _ _ E2) as (c & Ec2 & Lc & -> & _).
    rewrite <- !app_assoc, drop_app_exact in *.
    destruct (bytes_eqb (id ++ len ++ c) EOC) eqn:Q.
    + apply bytes_eqb_eq in Q. rewrite Q. destruct d as [|[|d]]; try lia. replace (Z.to_nat (Z.of_nat (Datatypes.S (Datatypes.S d)) + -1)) with (Datatypes.S d) by lia. now constructor.
    + destruct d as [|d]; [lia|]. replace (Z.to_nat (Z.of_nat (Datatypes.S d) + 0)) with (Datatypes.S d) by lia.
      apply (oa_element d w id c); [assumption| |].
      * constructor; [assumption | now rewrite Lc | rewrite Lc; pose proof isize_lt; rewrite !nlen_app in Hs; lia].
      * intros Z. rewrite Z in Q. discriminate.
Qed.
Lemma ber_loop_beyond ifuel fuel : forall d s w st, bytes_ok (content s) ->
  nlen w + nlen (content s) <= isize_max -> open_at d w -> Ber_loop R ifuel fuel (Z.of_nat d) (s, w) = (Panic, st) ->
  exists d' p id len n t, w ++ content s = p ++ id ++ len ++ t /\ open_at d' p /\ is_identifier id /\ minimal_length n len /\ isize_max < nlen (p ++ id ++ len) + n /\
  forall r h b own, Rp r h b own -> holds b w -> sized b ->
    ends al (raw_Ber_loop L al R ifuel fuel (Z.of_nat d) s r h) (beyond (L_init_cap L) (nlen (p ++ id ++ len)) n).
Proof using BR inline over HR.
  induction fuel as [|fuel IH]; intros d s w st Hok Hn HO; cbn [raw_Ber_loop Ber_loop]; [discriminate|].
  unfold pbind. destruct (Ber_do_parse R ifuel (s, w)) as [[z|e| |] [s1 w1]] eqn:E; try discriminate.
  - destruct (Ber_do_parse_Ok R content HR _ _ _ _ _ _ Hok Hn E) as [O1 N1]. cbv zeta.
    destruct (Z.ltb_spec 0 (Z.of_nat d + z)) as [Hz|Hz]; [|discriminate]. intros EP.
    pose proof (step_opens ifuel s w z s1 w1 d Hok HO E Hz) as HO1.
    pose proof (Ber_do_parse_reads R content HR ifuel s w z s1 w1 Hok E) as ER.
    set (d1 := Z.to_nat (Z.of_nat d + z)) in *. replace (Z.of_nat d + z)%Z with (Z.of_nat d1) in * by lia.
    destruct (IH d1 s1 w1 st O1 N1 HO1 EP) as (d' & p & id & len & n & t & Q1 & Q2 & Q3 & Q4 & Q5 & Q6).
    exists d', p, id, len, n, t. rewrite ER. do 5 (split; [assumption|]). intros r h b own HRp Hw Sz.
    eapply ends_bind; [exact (ber_step_keeps ifuel s w r h b own z s1 w1 HRp Hw Sz Hok Hn E)|].
    cbv beta. intros x h1 (r1 & -> & b1 & o1 & R1 & F1 & H1 & S1).
    replace (Z.of_nat d + z)%Z with (Z.of_nat d1) by lia.
    destruct (Z.ltb_spec 0 (Z.of_nat d1)); [|lia]. eapply Q6; eassumption.
  - intros _. destruct (ber_step_beyond ifuel s w _ Hok Hn E) as (id & len & n & t & Ec & Hi & Hm & Hs & K).
    exists d, w, id, len, n, t. rewrite Ec. do 5 (split; [auto|]). intros r h b own HRp Hw Sz.
    destruct (K r h b own HRp Hw Sz) as [K1|[K1 A]]; [left; now apply beyond_bind|]. right. unfold mbind. now rewrite K1.
Qed.
Theorem ber_parse_beyond fuel s h0 : bytes_ok (content s) -> nlen (content s) <= isize_max -> fst (Ber_parse R fuel s) = Panic ->
  exists d p id len n t, content s = p ++ id ++ len ++ t /\ open_at d p /\ is_identifier id /\ minimal_length n len /\ isize_max < nlen (p ++ id ++ len) + n /\
    ends al (raw_Ber_parse L al R fuel s h0) (beyond (L_init_cap L) (nlen (p ++ id ++ len)) n).
Proof using BR inline over HR.
  intros Hok Hn HP. unfold Ber_parse in HP. destruct (Ber_loop R fuel fuel 0 (s, [])) as [[[]|e| |] [s1 w1]] eqn:E; cbn in HP; try discriminate.
  destruct (ber_loop_beyond fuel fuel 0 s [] (s1, w1) Hok) as (d & p & id & len & n & t & Q1 & Q2 & Q3 & Q4 & Q5 & Q6); [rewrite nlen_nil; lia | constructor | exact E |].
  exists d, p, id, len, n, t. do 5 (split; [assumption|]).
  apply (Q6 (L_new L) h0 _ None (br_new _ _ _ BR h0 (fun _ => 0)) (holds_new _) (new_sized _)).
Qed.
End LIMITS.

(** ** how much memory is asked for, lengths beyond isize::MAX included *)
Section ASKED.
Context (L : layout) (al al' : allocator) (k : N) (AG : agree_upto k al al')
        (Rp : L_raw L -> heap -> buf -> option N -> Prop) (BR : buffer_refines L al Rp)
        (RS : forall n r h, L_len L r + n <= k -> L_reserve L al n r h = L_reserve L al' n r h)
        (inline : forall r h b own, Rp r h b own -> b_heap b = false -> bf_cap b = L_init_cap L /\ own = None)
        (over : forall r h b own n, Rp r h b own -> isize_max < b_len b + n -> L_reserve L al n r h = too_much b n)
        (over' : forall r h b own n, Rp r h b own -> isize_max < b_len b + n -> L_reserve L al' n r h = too_much b n).
Context {S : Type} (R : reader S) (content : S -> list N) (HR : honest R content).
Lemma reserve_asked r h b own n : Rp r h b own -> (b_len b + n <= isize_max -> b_len b + n <= k) -> L_reserve L al n r h = L_reserve L al' n r h.
Proof using BR RS over over'.
  intros HRp H. destruct (N.ltb_spec isize_max (b_len b + n)) as [Q|Q].
  - now rewrite (over _ _ _ _ _ HRp Q), (over' _ _ _ _ _ HRp Q).
  - apply RS. rewrite (rp_len L al Rp BR _ _ _ _ HRp). auto.
Qed.
Theorem der_parse_asked C fuel s h0 : bytes_ok (content s) -> nlen (content s) <= isize_max -> nlen (content s) <= k ->
  (forall i n, header_at (content s) [] i n -> i + n <= isize_max -> i + n <= k) ->
  raw_Der_parse L al R C fuel s h0 = raw_Der_parse L al' R C fuel s h0.
Proof using AG BR RS inline over over' HR.
  intros Hok Hn Hk HD. unfold raw_Der_parse.
  destruct (ap_parse_id_length R content HR fuel s Hok) as (rl & s1 & d & E & Nd & Od & Oc & _). rewrite (E []). cbn [app].
  pose proof (feed_result L al Rp BR d (L_new L) h0 _ None [] (br_new _ _ _ BR h0 (fun _ => 0)) (holds_new _) Od) as F. rewrite nlen_nil in F. specialize (F ltac:(lia)).
  apply mbind_ext.
  { eapply (feed_same L al al' k AG Rp BR RS d (L_new L) h0 _ None []); [apply (br_new _ _ _ BR h0 (fun _ => 0)) | apply holds_new | assumption | rewrite nlen_nil; lia | rewrite nlen_nil; lia]. }
  intros r1 h1 E1. rewrite E1 in F. destruct F as (b1 & o1 & R1 & F1 & H1). cbn [app] in H1.
  destruct rl as [[|n]|e| |]; try reflexivity. cbv zeta.
  apply mbind_ext; [reflexivity|]. intros t h2 Et. unfold madd in Et. destruct (_ <? _); [|discriminate]. injection Et as <- <-.
  apply mbind_ext; [|reflexivity]. apply (reserve_asked r1 h1 b1 o1 n R1). rewrite (holds_len _ _ H1).
  destruct (header_read R content HR fuel s [] _ s1 d Hok (E [])) as (id & len & Hi & Ed & Ec & Hm). cbn [app] in Ed. subst d.
  apply (HD (nlen (id ++ len)) n). now apply (ha_intro _ [] id len (content s1)).
Qed.
Lemma ber_step_asked fuel s w r h b own bs : Rp r h b own -> holds b w -> bytes_ok (content s) -> nlen w + nlen (content s) <= isize_max ->
  bs = w ++ content s -> nlen bs <= k -> (forall p i n, header_at bs p i n -> i + n <= isize_max -> i + n <= k) ->
  raw_Ber_do_parse L al R fuel s r h = raw_Ber_do_parse L al' R fuel s r h.
Proof using AG BR RS inline over over' HR.
  intros HRp Hw Hok Hn Eb Hk HD. unfold raw_Ber_do_parse. cbv zeta.
  destruct (ap_parse_id_length R content HR fuel s Hok) as (rl & s1 & d & E & Nd & Od & Oc & _).
  rewrite (E []). cbn [app]. rewrite Eb, nlen_app in Hk.
  pose proof (feed_result L al Rp BR d r h b own w HRp Hw Od ltac:(lia)) as F.
  apply mbind_ext; [eapply feed_same; eauto; lia|].
  intros r1 h1 E1. rewrite E1 in F. destruct F as (b1 & o1 & R1 & F1 & H1).
  destruct rl as [[|n]|e| |]; try reflexivity.
  apply mbind_ext; [|reflexivity]. apply (reserve_asked r1 h1 b1 o1 n R1). rewrite (holds_len _ _ H1).
  destruct (header_read R content HR fuel s [] _ s1 d Hok (E [])) as (id & len & Hi & -> & Ec & Hm).
  apply (HD w). apply (ha_intro bs w id len (content s1)); [now rewrite Eb, Ec | assumption | assumption].
Qed.
Lemma ber_loop_asked ifuel fuel bs : nlen bs <= k -> (forall p i n, header_at bs p i n -> i + n <= isize_max -> i + n <= k) ->
  forall d s w r h b own, Rp r h b own -> holds b w -> sized L b -> bytes_ok (content s) ->
  nlen w + nlen (content s) <= isize_max -> bs = w ++ content s ->
  raw_Ber_loop L al R ifuel fuel d s r h = raw_Ber_loop L al' R ifuel fuel d s r h.
Proof using AG BR RS inline over over' HR.
  intros Hk HD. induction fuel as [|fuel IH]; intros d s w r h b own HRp Hw Sz Hok Hn Eb; cbn [raw_Ber_loop] in *; [reflexivity|].
  apply mbind_ext; [eapply ber_step_asked; eassumption|]. intros [[rz sz] rr] h1 E1. cbv beta.
  pose proof (ber_step_raw L al Rp BR R content HR ifuel s w r h b own HRp Hw Hok Hn) as K.
  destruct (Ber_do_parse R ifuel (s, w)) as [[z|e| |] [s1 w1]] eqn:E; cbn [fst] in K.
  - clear K. pose proof (ber_step_keeps L al Rp BR inline over R content HR ifuel s w r h b own z s1 w1 HRp Hw Sz Hok Hn E) as K. rewrite E1 in K. cbn [meets] in K.
    destruct K as (r' & [= -> -> ->] & b' & o' & R' & F' & H' & S'). cbv zeta.
    destruct (Ber_do_parse_Ok R content HR _ _ _ _ _ _ Hok Hn E) as [O1 N1].
    destruct (0 <? d + z)%Z; [|reflexivity]. eapply (IH (d + z)%Z s1 w1); try eassumption.
    rewrite Eb. now apply (Ber_do_parse_reads R content HR ifuel s w z).
  - specialize (K ltac:(discriminate)). rewrite E1 in K. now destruct K as (-> & -> & _).
  - destruct (ber_step_beyond L al Rp BR inline over R content HR ifuel s w _ Hok Hn E) as (id & len & n & t & _ & _ & _ & _ & Q).
    destruct (Q r h b own HRp Hw Sz) as [Q1|[Q1 _]]; rewrite E1 in Q1; [|discriminate]. unfold beyond in Q1. destruct (_ && _); discriminate.
  - specialize (K ltac:(discriminate)). rewrite E1 in K. now destruct K as (-> & -> & _).
Qed.
Theorem ber_parse_asked fuel s h0 : bytes_ok (content s) -> nlen (content s) <= isize_max -> nlen (content s) <= k ->
  (forall p i n, header_at (content s) p i n -> i + n <= isize_max -> i + n <= k) ->
  raw_Ber_parse L al R fuel s h0 = raw_Ber_parse L al' R fuel s h0.
Proof using AG BR RS inline over over' HR.
  intros Hok Hn Hk HD. unfold raw_Ber_parse.
  eapply (ber_loop_asked fuel fuel (content s) Hk HD 0 s []); [apply (br_new _ _ _ BR h0 (fun _ => 0)) | apply holds_new | apply new_sized | assumption | rewrite nlen_nil; lia | reflexivity].
Qed.
End ASKED.

(** ** only one header of a stream can be the one *)
Inductive unit_ : list N -> Prop :=
| un_open id : is_identifier id -> unit_ (id ++ [0x80])
| un_element id c bs : der_tlv id c bs -> unit_ bs.
Lemma eoc_tlv : der_tlv [0] [] [0; 0].
Proof. apply (dt_intro [0] [] [0]); [exists 0, 0, 0; now constructor | now constructor | reflexivity]. Qed.
Lemma unit_prefix u v z t : unit_ u -> unit_ v -> u ++ z = v ++ t -> u = v /\ z = t.
Proof.
  intros [id Hi|id c bs H] [id' Hi'|id' c' bs' H'] E.
  - rewrite <- !app_assoc in E. destruct (is_identifier_prefix _ _ _ _ Hi Hi' E) as [-> E2]. injection E2 as ->. auto.
  - exfalso. apply der_tlv_parts in H' as (len & -> & Hi' & Hm & _). rewrite <- !app_assoc in E. destruct (is_identifier_prefix _ _ _ _ Hi Hi' E) as [-> E2].
    symmetry in E2. now apply (minimal_length_not_indef _ _ _ _ Hm) in E2.
  - exfalso. apply der_tlv_parts in H as (len & -> & Hi & Hm & _). rewrite <- !app_assoc in E. destruct (is_identifier_prefix _ _ _ _ Hi Hi' E) as [-> E2].
    now apply (minimal_length_not_indef _ _ _ _ Hm) in E2.
  - destruct (der_tlv_prefix _ _ _ _ _ _ _ _ H H' E) as (_ & _ & A & B). auto.
Qed.
Lemma unit_pos u : unit_ u -> 0 < nlen u.
Proof.
  intros [id Hi|id c bs H].
  - rewrite nlen_app, nlen_cons. lia.
  - apply der_tlv_nonempty in H. destruct bs; [congruence|]. rewrite nlen_cons. lia.
Qed.
Lemma open_last d p : open_at d p -> p = [] \/ exists d1 p1 u, open_at d1 p1 /\ unit_ u /\ p = p1 ++ u.
Proof.
  intros [|d1 p1 id O Hi|d1 p1 id c bs O H _|d1 p1 O]; [now left | right ..].
  - exists d1, p1, (id ++ [0x80]). split; [assumption|]. split; [now constructor | reflexivity].
  - exists (Datatypes.S d1), p1, bs. split; [assumption|]. split; [eapply un_element; eassumption | reflexivity].
  - exists (Datatypes.S (Datatypes.S d1)), p1, [0; 0]. split; [assumption|]. split; [eapply un_element, eoc_tlv | reflexivity].
Qed.
Lemma app_cases {A} (a b x y : list A) : a ++ x = b ++ y -> (exists z, b = a ++ z /\ x = z ++ y) \/ (exists z, a = b ++ z /\ z <> [] /\ y = z ++ x).
Proof.
  revert b. induction a as [|i a IH]; intros b E; cbn [app] in *.
  - left. exists b. auto.
  - destruct b as [|j b]; cbn [app] in *.
    + right. exists (i :: a). split; [reflexivity|]. split; [discriminate|]. auto.
    + injection E as -> E. destruct (IH b E) as [(z & -> & ->)|(z & -> & Hz & ->)]; [left | right]; exists z; auto.
Qed.
Lemma open_next m : forall d p d' q, nlen (p ++ q) < m -> open_at d p -> open_at d' (p ++ q) -> q = [] \/ exists u q', unit_ u /\ q = u ++ q'.
Proof.
  induction m as [|m IH] using N.peano_ind; intros d p d' q Hm O O'; [lia|].
  destruct (open_last _ _ O') as [E|(d1 & p1 & u & O1 & U & E)].
  { left. now apply app_eq_nil in E. }
  pose proof (unit_pos u U) as Hu.
  apply app_cases in E as [(z & -> & ->)|(z & -> & Hz & ->)].
  - destruct (IH d p d1 z) as [->|(u2 & q' & U2 & ->)]; auto.
    + rewrite !nlen_app in *. lia.
    + right. exists u, []. rewrite app_nil_r. auto.
    + right. exists u2, (q' ++ u). rewrite app_assoc. auto.
  - destruct q as [|x q]; [now left|].
    destruct (IH d1 p1 d z) as [->|(u2 & q' & U2 & ->)]; auto.
    + rewrite !nlen_app in *. rewrite nlen_cons in Hm. lia.
    + congruence.
    + exfalso. rewrite <- app_assoc in U. pose proof (unit_prefix u2 _ (q' ++ x :: q) [] U2 U) as K. rewrite app_nil_r in K. destruct (K eq_refl) as [_ K2].
      apply app_eq_nil in K2 as [_ K2]. discriminate.
Qed.
Lemma header_earlier d p id len n t d' q z : open_at d p -> open_at d' (p ++ q) -> q <> [] -> is_identifier id -> minimal_length n len ->
  id ++ len ++ t = q ++ z -> nlen (p ++ id ++ len) + n <= nlen (p ++ q).
Proof.
  intros O O' Hq Hi Hm E. destruct (open_next (nlen (p ++ q) + 1) d p d' q ltac:(lia) O O') as [->|(u & q' & U & ->)]; [congruence|].
  rewrite <- app_assoc in E. destruct U as [id' Hi'|id' c bs H].
  - rewrite <- !app_assoc in E. destruct (is_identifier_prefix _ _ _ _ Hi Hi' E) as [-> E2].
    now apply (minimal_length_not_indef _ _ _ _ Hm) in E2.
  - apply der_tlv_parts in H as (len' & -> & Hi' & Hm' & _). rewrite <- !app_assoc in E. destruct (is_identifier_prefix _ _ _ _ Hi Hi' E) as [-> E2].
    destruct (minimal_length_prefix _ _ _ _ _ _ Hm Hm' E2) as (-> & -> & _). rewrite !nlen_app. lia.
Qed.
Theorem too_long_unique bs d p id len n t d' p' id' len' n' t' : nlen bs <= isize_max ->
  bs = p ++ id ++ len ++ t -> open_at d p -> is_identifier id -> minimal_length n len -> isize_max < nlen (p ++ id ++ len) + n ->
  bs = p' ++ id' ++ len' ++ t' -> open_at d' p' -> is_identifier id' -> minimal_length n' len' -> isize_max < nlen (p' ++ id' ++ len') + n' ->
  p = p' /\ id = id' /\ len = len' /\ n = n'.
Proof.
  intros Hb -> O Hi Hm Hn E O' Hi' Hm' Hn'.
  destruct (app_cases _ _ _ _ E) as [(z & -> & Ez)|(z & -> & Hz & Ez)].
  - destruct z as [|x z].
    + rewrite app_nil_r in *. cbn [app] in Ez. destruct (is_identifier_prefix _ _ _ _ Hi Hi' Ez) as [-> E2].
      destruct (minimal_length_prefix _ _ _ _ _ _ Hm Hm' E2) as (-> & -> & _). auto.
    + exfalso. pose proof (header_earlier d p id len n t d' (x :: z) _ O O' ltac:(discriminate) Hi Hm Ez).
      rewrite E, (nlen_app (p ++ x :: z)) in Hb. lia.
  - exfalso. pose proof (header_earlier d' p' id' len' n' t' d z _ O' O Hz Hi' Hm' Ez).
    rewrite (nlen_app (p' ++ z)) in Hb. lia.
Qed.

(** ** writing beyond the capacity *)
Lemma le_outside r h b own w : Rep LE le_view r h b own -> bf_cap b < b_len b + nlen w -> b_heap b = true \/ b_len b + nlen w <> 24 -> L_extend LE w r h = UB.
Proof.
  intros (s & V & R) Hk Hx. destruct R as [W R].
  pose proof (le_view_len _ _ V) as LL. destruct V as [_ V]. destruct s as [m n|p c n]; subst r; cbn [swf s_len] in *.
  - destruct W as (L & Hn & Hok). destruct R as [-> _]. unfold bf_cap in Hk. cbn [b_mem b_len b_heap] in *.
    destruct (le_stack_facts m n L Hok Hn) as (S & _). cbn [LE L_extend]. unfold le_extend, le_store. rewrite LL, S.
    unfold mbind. destruct (N.ltb_spec (nlen (m ++ [n])) (n + nlen w)) as [|Q]; [reflexivity|]. exfalso.
    rewrite nlen_app in Q. change (nlen [n]) with 1 in Q. rewrite L in *. change (L_init_cap LE) with 23 in *. destruct Hx; [discriminate | lia].
  - destruct W as (Hp & Hc0 & Hc & Hn). destruct R as (m & Hg & Hm & Hp0 & Hok & -> & _). unfold bf_cap in Hk. cbn [b_mem b_len] in *.
    destruct (le_heap_facts p c n Hp Hc Hn) as (S & _ & _ & D & _). cbn [LE L_extend]. unfold le_extend, le_store. rewrite LL, S, D.
    unfold mbind, store. rewrite Hg. destruct (N.ltb_spec (nlen m) (n + nlen w)); [reflexivity | lia].
Qed.
Lemma ue_outside r h b own w : Rep UE ue_view r h b own -> bf_cap b < b_len b + nlen w -> L_extend UE w r h = UB.
Proof.
  intros (s & V & R) Hk. destruct R as [W R].
  pose proof (ue_view_len _ _ V) as LL. destruct V as [_ V]. destruct s as [m n|p c n]; subst r; cbn [swf s_len] in *.
  - destruct W as (L & Hn & Hok). destruct R as [-> _]. unfold bf_cap in Hk. cbn [b_mem b_len] in *.
    destruct (ue_stack_facts m n Hn) as (S & _). cbn [UE L_extend]. unfold ue_extend, ue_store. rewrite LL, S. cbn [u_union].
    unfold mbind. destruct (N.ltb_spec (nlen m) (n + nlen w)) as [|Q]; [reflexivity | lia].
  - destruct W as (Hp & Hc0 & Hc & Hn). destruct R as (m & Hg & Hm & Hp0 & Hok & -> & _). unfold bf_cap in Hk. cbn [b_mem b_len] in *.
    destruct (ue_heap_facts p c n Hp Hc Hn) as (S & _ & _ & D & _). cbn [UE L_extend]. unfold ue_extend, ue_store. rewrite LL, S, D.
    unfold mbind, store. rewrite Hg. destruct (N.ltb_spec (nlen m) (n + nlen w)); [reflexivity | lia].
Qed.

Section OUTSIDE.
Context (L : layout) (al : allocator) (Rp : L_raw L -> heap -> buf -> option N -> Prop) (BR : buffer_refines L al Rp).
Notation cf j := {| init_cap := L_init_cap L; junk := j |}.
(** The capacity a new buffer gets. *)
Definition cap_for (n : N) : N := N.max (L_init_cap L) n.
Lemma new_cap j : bf_cap (bf_new (cf j)) = L_init_cap L.
Proof using. unfold bf_cap, bf_new. cbn [b_mem init_cap]. rewrite nlen_repeat. lia. Qed.
Lemma with_capacity_exact j n b : bf_with_capacity (cf j) n = Ok b -> holds b [] /\ bf_cap b = cap_for n /\ (L_init_cap L < n -> b_heap b = true).
Proof using.
  unfold bf_with_capacity, bf_reserve, cap_for. rewrite new_cap. cbn [bf_new b_len b_heap]. rewrite N.add_0_l.
  destruct (N.leb_spec n (L_init_cap L)) as [Q|Q].
  - intros [= <-]. rewrite new_cap. split; [apply (holds_new (cf j))|]. lia.
  - destruct (isize_max <? n); [discriminate|]. intros [= <-]. unfold bf_cap. cbn [b_len b_mem b_heap]. rewrite take_0. cbn [app].
    rewrite fresh_len, N.sub_0_r. split; [|split; [lia | reflexivity]].
    eexists. split; [reflexivity|]. split; [reflexivity | apply fresh_ok].
Qed.
(** [b] with [bs] in it and a capacity of [c], on the heap if [hp]. *)
Definition filled (bs : list N) (c : N) (hp : bool) (own : option N) (h : heap) (r : L_raw L) (h' : heap) : Prop :=
  exists b o, Rp r h' b o /\ frame own o h h' /\ holds b bs /\ bf_cap b = c /\ (hp = true -> b_heap b = true).
Lemma extend_fits w r h h0 own bs c hp : filled bs c hp own h0 r h -> bytes_ok w -> nlen bs + nlen w <= c ->
  exists r' h', L_extend L w r h = Done r' h' /\ filled (bs ++ w) c hp own h0 r' h'.
Proof using BR.
  intros (b & o & R & F & H & C & P) Hw Hn. pose proof H as H0. destruct H as (sp & M & Ll & Os).
  destruct (extend_ok b bs sp w M Ll) as (b' & sp' & E & M' & L' & K' & O'); [unfold bf_cap in C; rewrite M, nlen_app in C; lia | assumption |].
  destruct (dsim_extend L al Rp BR w Hw r h b o b' R E) as (r' & h' & Ed & R' & F'). exists r', h'. split; [exact Ed|].
  exists b', o. split; [assumption|]. split; [eapply frame_trans; [eassumption | eassumption | intros a Ea; eapply rp_live; eassumption]|].
  split; [exists sp'; auto|]. split.
  - unfold bf_cap in *. rewrite M', !nlen_app, K'. rewrite M, nlen_app in C. lia.
  - rewrite (extend_heap _ _ _ E). exact P.
Qed.
Lemma all_fits items : forall r h h0 own bs c hp, filled bs c hp own h0 r h -> Forall bytes_ok items -> nlen bs + nlen (concat items) <= c ->
  exists r' h', raw_extend_all L items r h = Done r' h' /\ filled (bs ++ concat items) c hp own h0 r' h'.
Proof using BR.
  induction items as [|i items IH]; intros r h h0 own bs c hp Fi Hi Hn; cbn [raw_extend_all concat] in *.
  - exists r, h. rewrite app_nil_r. split; [reflexivity | assumption].
  - inversion Hi as [|? ? Hi1 Hi2]. subst. rewrite nlen_app in Hn.
    destruct (extend_fits i r h h0 own bs c hp Fi Hi1) as (r1 & h1 & E1 & F1); [lia|].
    rewrite (mbind_done _ _ _ _ _ E1), app_assoc. apply IH; [assumption | assumption|]. rewrite nlen_app. lia.
Qed.
Lemma iterator_begins id lbs counted items h (x : outcome (L_raw L) -> Prop) : bytes_ok id -> (forall n, n < usize_limit -> bytes_ok (lbs n)) ->
  let lb := lbs (nlen (concat counted)) in let total := nlen id + nlen lb + nlen (concat counted) in
  total <= isize_max ->
  (forall r h', filled (id ++ lb) (cap_for total) (L_init_cap L <? total) None h r h' -> x (raw_extend_all L items r h')) ->
  (out_of_memory al -> x Abort) ->
  x (raw_from_iterator L al id lbs counted items h).
Proof using BR.
  intros Hi Hl lb total Ht K Ka. pose proof isize_lt. unfold raw_from_iterator.
  assert (Hc : nlen (concat counted) < usize_limit) by (change usize_limit with (2 ^ 64); lia).
  rewrite (mbind_done _ _ (nlen (concat counted)) h h).
  2:{ apply sim_total. rewrite total_length_ok; [now rewrite N.add_0_l | lia]. }
  fold lb. rewrite (mbind_done _ _ (nlen id + nlen lb) h h) by (apply madd_ok, add_usize_ok; lia).
  rewrite (mbind_done _ _ total h h) by (apply madd_ok, add_usize_ok; lia).
  pose proof (rp_with_capacity L al Rp BR h total) as W.
  assert (A : forall j, exists b', bf_with_capacity (cf j) total = Ok b').
  { intros j. unfold bf_with_capacity, bf_reserve. destruct (_ <=? _); [eauto|]. cbn [bf_new b_len].
    destruct (N.ltb_spec isize_max (0 + total)); [lia | eauto]. }
  specialize (W A). unfold mbind at 1. destruct (L_with_capacity L al total h) as [r h1| | |]; cbn [meets] in W; [|auto|contradiction|contradiction].
  destruct W as (j & b & own & R & F & E). apply with_capacity_exact in E as (H0 & C0 & P0).
  assert (F0 : filled [] (cap_for total) (L_init_cap L <? total) None h r h1).
  { exists b, own. split; [assumption|]. split; [assumption|]. split; [assumption|]. split; [assumption|].
    intros Q. apply N.ltb_lt in Q. auto. }
  assert (Ct : total <= cap_for total) by (unfold cap_for; lia).
  destruct (extend_fits id r h1 h None [] _ _ F0 Hi) as (r2 & h2 & E2 & F2); [rewrite nlen_nil; lia|].
  rewrite (mbind_done _ _ _ _ _ E2). cbn [app] in F2.
  destruct (extend_fits lb r2 h2 h None id _ _ F2 (Hl _ Hc)) as (r3 & h3 & E3 & F3); [lia|].
  rewrite (mbind_done _ _ _ _ _ E3). auto.
Qed.
Theorem iterator_fits id lbs counted items h : bytes_ok id -> (forall n, n < usize_limit -> bytes_ok (lbs n)) -> Forall bytes_ok items ->
  let lb := lbs (nlen (concat counted)) in let total := nlen id + nlen lb + nlen (concat counted) in
  total <= isize_max -> nlen id + nlen lb + nlen (concat items) <= cap_for total ->
  meets al (raw_from_iterator L al id lbs counted items h) (contains L Rp (id ++ lb ++ concat items) None h).
Proof using BR.
  intros Hi Hl Hs lb total Ht Hn. apply iterator_begins; [assumption | assumption | assumption | | intros M; exact M].
  fold lb total. intros r h' F. destruct (all_fits items r h' h None _ _ _ F Hs) as (r2 & h2 & E & b & o & R & F2 & H & _); [rewrite nlen_app; lia|].
  rewrite E. cbn [meets]. exists b, o. rewrite <- app_assoc in H. auto.
Qed.
Context (spared : N -> bool)
        (outside : forall r h b own w, Rp r h b own -> bf_cap b < b_len b + nlen w -> b_heap b = true \/ spared (b_len b + nlen w) = false -> L_extend L w r h = UB).
Lemma all_outside before i after : forall r h h0 own bs c hp, filled bs c hp own h0 r h -> Forall bytes_ok before ->
  nlen bs + nlen (concat before) <= c -> c < nlen bs + nlen (concat before) + nlen i ->
  hp = true \/ spared (nlen bs + nlen (concat before) + nlen i) = false -> raw_extend_all L (before ++ i :: after) r h = UB.
Proof using BR outside.
  induction before as [|x before IH]; intros r h h0 own bs c hp Fi Hb Hn Hx Hs; cbn [raw_extend_all concat app] in *.
  - rewrite nlen_nil, N.add_0_r in *. destruct Fi as (b & o & R & F & H & C & P). pose proof (holds_len _ _ H) as LL.
    unfold mbind. rewrite (outside r h b o i R); [reflexivity | lia |]. rewrite LL. destruct Hs; auto.
  - inversion Hb as [|? ? Hb1 Hb2]. subst. rewrite nlen_app in *.
    destruct (extend_fits x r h h0 own bs c hp Fi Hb1) as (r1 & h1 & E1 & F1); [lia|].
    rewrite (mbind_done _ _ _ _ _ E1). replace (nlen bs + (nlen x + nlen (concat before))) with (nlen (bs ++ x) + nlen (concat before)) in * by (rewrite nlen_app; lia).
    eapply IH; eassumption.
Qed.
Theorem iterator_outside id lbs counted before i after h : bytes_ok id -> (forall n, n < usize_limit -> bytes_ok (lbs n)) -> Forall bytes_ok before ->
  let lb := lbs (nlen (concat counted)) in let total := nlen id + nlen lb + nlen (concat counted) in
  let upto := nlen id + nlen lb + nlen (concat before) in
  total <= isize_max -> upto <= cap_for total -> cap_for total < upto + nlen i -> L_init_cap L < total \/ spared (upto + nlen i) = false ->
  ends al (raw_from_iterator L al id lbs counted (before ++ i :: after) h) UB.
Proof using BR outside.
  intros Hi Hl Hs lb total upto Ht Hn Hx Hp. apply iterator_begins; [assumption | assumption | assumption | | right; auto].
  fold lb total. intros r h' F. left. eapply all_outside; [eassumption | assumption | rewrite nlen_app; lia | rewrite nlen_app; lia|].
  rewrite nlen_app. destruct Hp; [left; now apply N.ltb_lt | now right].
Qed.
End OUTSIDE.

(** ** readers that report what they did not write *)
Section CLAIMS.
Context (L : layout) (al : allocator) (Rp : L_raw L -> heap -> buf -> option N -> Prop) (BR : buffer_refines L al Rp).
Context {S : Type} (R : reader S) (content : S -> list N) (HR : honest R content).
Theorem der_parse_claims C fuel s h0 w n s1 c s2 : bytes_ok (content s) -> nlen (content s) <= isize_max ->
  parse_id_length R fuel (s, []) = (Ok (Definite n), (s1, w)) -> nlen w + n <= isize_max -> C s1 n = (c, s2) ->
  (forall k got, c = ClaimOk k got -> bytes_ok got /\ nlen got <= n) ->
  meets al (raw_Der_parse L al R C fuel s h0) (fun x h => snd x = s2 /\
    match c, fst x with
    | ClaimErr k, Err e => e = Io k /\ frame None None h0 h
    | ClaimOk k got, Err e => k < n /\ e = UnterminatedBytes /\ frame None None h0 h
    | ClaimOk k got, Ok b => n <= k /\ exists residue, contains L Rp (w ++ got ++ residue) None h0 b h /\ nlen got + nlen residue = n
    | _, _ => False
    end).
Proof using BR HR.
  intros Hok Hn0 E Hs EC Hc. unfold raw_Der_parse.
  destruct (ap_parse_id_length R content HR fuel s Hok) as (r & s' & w' & E1 & Nw & Ow & Oc & _). rewrite (E1 []) in E. cbn [app] in E. injection E as -> -> ->.
  rewrite (E1 []). cbn [app].
  eapply meets_bind; [apply (feed_result L al Rp BR w (L_new L) h0 _ None [] (br_new _ _ _ BR h0 (fun _ => 0)) (holds_new _) Ow); rewrite nlen_nil; lia|].
  cbn [app]. intros r1 h1 (b1 & o1 & R1 & F1 & H1).
  rewrite (rp_len L al Rp BR _ _ _ _ R1), (holds_len _ _ H1). cbv zeta.
  rewrite (mbind_done _ _ (nlen w + n) h1 h1).
  2:{ apply madd_ok, add_usize_ok. pose proof isize_lt. lia. }
  eapply meets_bind; [apply (room L al Rp BR r1 h1 b1 o1 w n R1 H1 Hs)|]. cbv beta. intros r2 h2 (L2 & r3 & E3 & K3).
  rewrite (mbind_done _ _ _ _ _ E3), EC. destruct c as [k got|k].
  - destruct (Hc k got eq_refl) as [Og Lg]. destruct (N.ltb_spec n (nlen got)); [lia|].
    destruct (fill L al Rp BR _ _ _ _ _ _ got K3 Lg Og) as (r4 & h4 & b4 & o4 & tl & E4 & R4 & F4 & M4 & L4 & O4).
    rewrite (mbind_done _ _ _ _ _ E4).
    assert (F04 : frame None o4 h0 h4) by (eapply frame_trans; [eassumption | eassumption |]; intros a Ea; eapply rp_live; eassumption).
    destruct (N.ltb_spec k n) as [Hlt|Hge].
    + destruct (drop_result L al Rp BR r4 h4 b4 o4 h0 None (Err UnterminatedBytes : res (L_raw L), s2) R4 F04) as (h' & Ed & Fd).
      eapply meets_done; [exact Ed|]. split; [reflexivity|]. cbn. auto.
    + cbn [meets mret fst snd]. split; [reflexivity|]. split; [assumption|].
      assert (Ht : n - nlen got <= nlen tl).
      { destruct (br_observe _ _ _ BR _ _ _ _ R4) as (_ & _ & Q & _). unfold bf_cap in Q. rewrite M4, L4, !nlen_app in Q. lia. }
      destruct (split_at (n - nlen got) tl Ht) as (x & y & -> & Lx). exists x. split; [|lia].
      exists b4, o4. split; [assumption|]. split; [assumption|]. exists y. rewrite M4, L4, !nlen_app, <- !app_assoc. split; [reflexivity|]. split; [lia|].
      now apply bytes_ok_app in O4.
  - destruct K3 as (b3 & o3 & sp & R3 & F3 & _).
    assert (F03 : frame None o3 h0 h2) by (eapply frame_trans; [eassumption | eassumption |]; intros a Ea; eapply rp_live; eassumption).
    destruct (drop_result L al Rp BR r3 h2 b3 o3 h0 None (Err (Io k) : res (L_raw L), s2) R3 F03) as (h' & Ed & Fd).
    eapply meets_done; [exact Ed|]. split; [reflexivity|]. cbn. auto.
Qed.
End CLAIMS.
