(** Der and Ber on raw memory behave as on the abstract buffer: programs over them are
    safe and show the right encodings. *)
From Verif Require Import Base ModelIo ModelTag ModelContents ModelBuf ModelTlv ModelHeap ModelTlvRaw Spec SpecBuf SpecTlv
  TagProofs IdProofs TagMain ContentsProofs TlvProofs BufProofs TlvMain RawProofs RawMain.

Lemma rbind_inv {A B} (r : res A) (k : A -> res B) b : rbind r k = Ok b -> exists a, r = Ok a /\ k a = Ok b.
Proof. destruct r; cbn; try discriminate. eauto. Qed.
Lemma mlift_ok {A} (x : res A) a h : x = Ok a -> mlift x h = Done a h.
Proof. now intros ->. Qed.
Lemma madd_ok x y z h : add_usize x y = Ok z -> madd x y h = Done z h.
Proof. unfold add_usize, madd. destruct (x + y <? usize_limit); [|discriminate]. now intros [= ->]. Qed.
Lemma msub_ok x y z h : sub_usize x y = Ok z -> msub x y h = Done z h.
Proof. unfold sub_usize, msub. destruct (x <? y); [discriminate|]. now intros [= ->]. Qed.
Lemma add_usize_lt x y z : add_usize x y = Ok z -> z = x + y /\ z < usize_limit.
Proof. unfold add_usize. destruct (N.ltb_spec (x + y) usize_limit); [|discriminate]. intros [= <-]. auto. Qed.
Lemma len_bytes_ok n : n < usize_limit -> bytes_ok (Length_to_bytes (Definite n)).
Proof. intros H. eapply minimal_length_ok, Length_to_bytes_minimal. exact H. Qed.
Lemma mbind_done {A B} (m : M A) (k : A -> M B) a h h' : m h = Done a h' -> mbind m k h = k a h'.
Proof. intros E. unfold mbind. now rewrite E. Qed.

Section SIM.
Context (L : layout) (al : allocator) (G : good_allocator al)
        (Rp : L_raw L -> heap -> buf -> option N -> Prop) (BR : buffer_refines L al Rp).
Notation cf j := {| init_cap := L_init_cap L; junk := j |}.
Notation raw := (L_raw L).

(** ** steps *)
Lemma rp_live r h b own a : Rp r h b own -> own = Some a -> h_get a h <> None.
Proof. intros R ->. apply (br_owned _ _ _ BR) in R. congruence. Qed.
Lemma rp_slice r h b own : Rp r h b own -> L_slice L r h = Done (bf_slice b) h.
Proof. intros R. apply (br_observe _ _ _ BR _ _ _ _ R). Qed.
Lemma rp_len r h b own : Rp r h b own -> L_len L r = b_len b.
Proof. intros R. apply (br_observe _ _ _ BR _ _ _ _ R). Qed.
Lemma rp_mem r h b own : Rp r h b own -> bytes_ok (b_mem b).
Proof. intros R. apply (br_observe _ _ _ BR _ _ _ _ R). Qed.
Lemma rp_set_len r h b own n b' : Rp r h b own -> bf_set_len n b = Ok b' ->
  exists r', L_set_len_checked L n r h = Done r' h /\ Rp r' h b' own.
Proof.
  intros R E. destruct (br_set_len _ _ _ BR _ _ _ _ _ _ R E) as (r' & E' & R'). exists r'. split; [|assumption].
  unfold L_set_len_checked. destruct (br_observe _ _ _ BR _ _ _ _ R) as (_ & -> & _).
  unfold bf_set_len in E. destruct (bf_cap b <? n); [discriminate | assumption].
Qed.
Lemma rp_move r h b own src dst n b' : Rp r h b own -> bf_move src dst n b = Ok b' ->
  exists r' h', L_move L src dst n r h = Done r' h' /\ Rp r' h' b' own /\ frame own own h h'.
Proof.
  intros R E. unfold bf_move in E. apply rbind_inv in E as (t & E1 & E).
  unfold L_move. rewrite (mbind_done _ _ t h h) by (eapply (br_load _ _ _ BR); eassumption).
  eapply (br_store _ _ _ BR); [eassumption | | eassumption].
  unfold mem_read in E1. destruct (nlen (b_mem b) <? src + n); [discriminate|]. injection E1 as <-.
  apply bytes_ok_take, bytes_ok_drop. eapply rp_mem; eassumption.
Qed.
Lemma rp_reserve r h b own k : Rp r h b own -> (forall j, exists b', bf_reserve (cf j) k b = Ok b') ->
  meets al (L_reserve L al k r h) (fun r' h' => exists j b' own', Rp r' h' b' own' /\ frame own own' h h' /\
    bf_reserve (cf j) k b = Ok b').
Proof.
  intros R H. apply (br_reserve _ _ _ BR _ _ _ _ k R).
  destruct (br_observe _ _ _ BR _ _ _ _ R) as (_ & _ & _ & C & _).
  destruct (H (fun _ => 0)) as (b' & E). unfold bf_reserve in E.
  destruct (N.leb_spec (b_len b + k) (bf_cap b)); [lia|]. destruct (N.ltb_spec isize_max (b_len b + k)); [discriminate | lia].
Qed.
Lemma rp_with_capacity h k : (forall j, exists b', bf_with_capacity (cf j) k = Ok b') ->
  meets al (L_with_capacity L al k h) (fun r' h' => exists j b' own', Rp r' h' b' own' /\ frame None own' h h' /\
    bf_with_capacity (cf j) k = Ok b').
Proof.
  intros H. apply (br_with_capacity _ _ _ BR). destruct (H (fun _ => 0)) as (b' & E).
  pose proof (br_new _ _ _ BR [] (fun _ => 0)) as R. destruct (br_observe _ _ _ BR _ _ _ _ R) as (_ & _ & _ & C & _).
  unfold bf_with_capacity, bf_reserve in E. cbn [bf_new b_len] in E. unfold bf_new in C.
  destruct (N.leb_spec (0 + k) (bf_cap (bf_new (cf (fun _ => 0))))); [unfold bf_new in *; lia|].
  destruct (N.ltb_spec isize_max (0 + k)); [discriminate | lia].
Qed.

(** Without allocation / possibly with one. *)
Definition dsim (k : raw -> M raw) (f : buf -> res buf) : Prop := forall r h b own b', Rp r h b own -> f b = Ok b' ->
  exists r' h', k r h = Done r' h' /\ Rp r' h' b' own /\ frame own own h h'.
Definition asim (k : raw -> M raw) (f : bufcfg -> buf -> res buf) : Prop := forall r h b own, Rp r h b own ->
  (forall j, exists b', f (cf j) b = Ok b') ->
  meets al (k r h) (fun r' h' => exists j b' own', Rp r' h' b' own' /\ frame own own' h h' /\ f (cf j) b = Ok b').
Definition csim (k : M raw) (f : bufcfg -> res buf) : Prop := forall h,
  (forall j, exists b', f (cf j) = Ok b') ->
  meets al (k h) (fun r' h' => exists j b' own', Rp r' h' b' own' /\ frame None own' h h' /\ f (cf j) = Ok b').

Lemma dsim_bind k1 k2 f1 f2 : dsim k1 f1 -> dsim k2 f2 -> dsim (fun r => r1 <-- k1 r ; k2 r1) (fun b => let! b1 := f1 b in f2 b1).
Proof.
  intros S1 S2 r h b own b' R E. apply rbind_inv in E as (b1 & E1 & E2).
  destruct (S1 _ _ _ _ _ R E1) as (r1 & h1 & K1 & R1 & F1). destruct (S2 _ _ _ _ _ R1 E2) as (r2 & h2 & K2 & R2 & F2).
  exists r2, h2. rewrite (mbind_done _ _ _ _ _ K1). split; [assumption|]. split; [assumption|].
  eapply frame_trans; [eassumption | eassumption |]. intros a Ea. eapply rp_live; eassumption.
Qed.
Lemma asim_bind k1 k2 f1 f2 : asim k1 f1 -> dsim k2 f2 -> asim (fun r => r1 <-- k1 r ; k2 r1) (fun c b => let! b1 := f1 c b in f2 b1).
Proof.
  intros S1 S2 r h b own R E.
  eapply meets_bind; [apply (S1 r h b own R)|].
  { intros j. destruct (E j) as (b' & Ej). apply rbind_inv in Ej as (b1 & E1 & _). eauto. }
  cbv beta. intros r1 h1 (j & b1 & own1 & R1 & F1 & E1). destruct (E j) as (b' & Ej). rewrite E1 in Ej. cbn [rbind] in Ej.
  destruct (S2 _ _ _ _ _ R1 Ej) as (r2 & h2 & K2 & R2 & F2). eapply meets_done; [exact K2|].
  exists j, b', own1. split; [assumption|]. split; [|rewrite E1; assumption].
  eapply frame_trans; [eassumption | eassumption |]. intros a Ea. eapply rp_live; eassumption.
Qed.
Lemma csim_bind k1 k2 f1 f2 : csim k1 f1 -> dsim k2 f2 -> csim (r1 <-- k1 ; k2 r1) (fun c => let! b1 := f1 c in f2 b1).
Proof.
  intros S1 S2 h E.
  eapply meets_bind; [apply (S1 h)|].
  { intros j. destruct (E j) as (b' & Ej). apply rbind_inv in Ej as (b1 & E1 & _). eauto. }
  cbv beta. intros r1 h1 (j & b1 & own1 & R1 & F1 & E1). destruct (E j) as (b' & Ej). rewrite E1 in Ej. cbn [rbind] in Ej.
  destruct (S2 _ _ _ _ _ R1 Ej) as (r2 & h2 & K2 & R2 & F2). eapply meets_done; [exact K2|].
  exists j, b', own1. split; [assumption|]. split; [|rewrite E1; assumption].
  eapply frame_trans; [eassumption | eassumption |]. intros a Ea. eapply rp_live; eassumption.
Qed.
Lemma dsim_ret : dsim (fun r => mret r) (fun b => Ok b).
Proof. intros r h b own b' R [= <-]. exists r, h. split; [reflexivity|]. split; [assumption | apply frame_refl]. Qed.
Lemma dsim_store off src : bytes_ok src -> dsim (L_store L off src) (bf_write off src).
Proof. intros H r h b own b' R E. eapply (br_store _ _ _ BR); eassumption. Qed.
Lemma dsim_set_len n : dsim (L_set_len_checked L n) (bf_set_len n).
Proof. intros r h b own b' R E. destruct (rp_set_len _ _ _ _ _ _ R E) as (r' & E' & R'). exists r', h. auto using frame_refl. Qed.
Lemma dsim_move s d n : dsim (L_move L s d n) (bf_move s d n).
Proof. intros r h b own b' R E. eapply rp_move; eassumption. Qed.
Lemma dsim_extend bs : bytes_ok bs -> dsim (L_extend L bs) (bf_extend bs).
Proof. intros H r h b own b' R E. eapply (br_extend _ _ _ BR); eassumption. Qed.
Lemma dsim_panic k : dsim k (fun _ => Panic).
Proof. intros r h b own b' R [=]. Qed.
(** Looking at the octets, at the length. *)
Lemma dsim_slice k f : (forall bs, dsim (k bs) (f bs)) -> dsim (fun r => bs <-- L_slice L r ; k bs r) (fun b => f (bf_slice b) b).
Proof. intros S r h b own b' R E. rewrite (mbind_done _ _ _ _ _ (rp_slice _ _ _ _ R)). eapply S; eassumption. Qed.
Lemma asim_slice k f : (forall bs, asim (k bs) (fun c => f c bs)) -> asim (fun r => bs <-- L_slice L r ; k bs r) (fun c b => f c (bf_slice b) b).
Proof. intros S r h b own R E. rewrite (mbind_done _ _ _ _ _ (rp_slice _ _ _ _ R)). eapply S; eassumption. Qed.
Lemma dsim_len k f : (forall n, dsim (k n) (f n)) -> dsim (fun r => k (L_len L r) r) (fun b => f (b_len b) b).
Proof. intros S r h b own b' R E. rewrite (rp_len _ _ _ _ R). eapply S; eassumption. Qed.
Lemma dsim_lift {A} (x : res A) k f : (forall a, x = Ok a -> dsim (k a) (f a)) ->
  dsim (fun r => a <-- mlift x ; k a r) (fun b => let! a := x in f a b).
Proof.
  intros S r h b own b' R E. apply rbind_inv in E as (a & -> & E). rewrite (mbind_done (mlift (Ok a)) _ a h h eq_refl).
  eapply S; eauto.
Qed.
Lemma asim_lift {A} (x : res A) k f : (forall a, x = Ok a -> asim (k a) (fun c => f c a)) ->
  asim (fun r => a <-- mlift x ; k a r) (fun c b => let! a := x in f c a b).
Proof.
  intros S r h b own R E. destruct x as [a| | |]; try (destruct (E (fun _ => 0)) as (? & [=])).
  rewrite (mbind_done (mlift (Ok a)) _ a h h eq_refl). eapply S; eauto.
Qed.
Lemma asim_add x y k f : (forall z, add_usize x y = Ok z -> asim (k z) (fun c => f c z)) ->
  asim (fun r => z <-- madd x y ; k z r) (fun c b => let! z := add_usize x y in f c z b).
Proof.
  intros S r h b own R E. destruct (add_usize x y) as [z| | |] eqn:Ez; try (destruct (E (fun _ => 0)) as (? & [=])).
  rewrite (mbind_done _ _ z h h) by now apply madd_ok. eapply S; eauto.
Qed.
Lemma dsim_add x y k f : (forall z, add_usize x y = Ok z -> dsim (k z) (f z)) ->
  dsim (fun r => z <-- madd x y ; k z r) (fun b => let! z := add_usize x y in f z b).
Proof.
  intros S r h b own b' R E. apply rbind_inv in E as (z & Ez & E).
  rewrite (mbind_done _ _ z h h) by now apply madd_ok. eapply S; eauto.
Qed.
Lemma asim_sub x y k f : (forall z, sub_usize x y = Ok z -> asim (k z) (fun c => f c z)) ->
  asim (fun r => z <-- msub x y ; k z r) (fun c b => let! z := sub_usize x y in f c z b).
Proof.
  intros S r h b own R E. destruct (sub_usize x y) as [z| | |] eqn:Ez; try (destruct (E (fun _ => 0)) as (? & [=])).
  rewrite (mbind_done _ _ z h h) by now apply msub_ok. eapply S; eauto.
Qed.
Lemma dsim_sub x y k f : (forall z, sub_usize x y = Ok z -> dsim (k z) (f z)) ->
  dsim (fun r => z <-- msub x y ; k z r) (fun b => let! z := sub_usize x y in f z b).
Proof.
  intros S r h b own b' R E. apply rbind_inv in E as (z & Ez & E).
  rewrite (mbind_done _ _ z h h) by now apply msub_ok. eapply S; eauto.
Qed.
Lemma csim_add x y k f : (forall z, add_usize x y = Ok z -> csim (k z) (fun c => f c z)) ->
  csim (z <-- madd x y ; k z) (fun c => let! z := add_usize x y in f c z).
Proof.
  intros S h E. destruct (add_usize x y) as [z| | |] eqn:Ez; try (destruct (E (fun _ => 0)) as (? & [=])).
  rewrite (mbind_done _ _ z h h) by now apply madd_ok. eapply S; eauto.
Qed.
Lemma asim_reserve k : asim (L_reserve L al k) (fun c => bf_reserve c k).
Proof. intros r h b own R E. now apply rp_reserve. Qed.
Lemma csim_with_capacity k : csim (L_with_capacity L al k) (fun c => bf_with_capacity c k).
Proof. intros h E. now apply rp_with_capacity. Qed.
Lemma dsim_asim k f : dsim k f -> asim k (fun _ => f).
Proof.
  intros S r h b own R E. destruct (E (fun _ => 0)) as (b' & Eb). destruct (S _ _ _ _ _ R Eb) as (r' & h' & K & R' & F').
  eapply meets_done; [exact K|]. exists (fun _ => 0), b', own. auto.
Qed.

(** ** the functions of Der and Ber *)
Lemma sim_with_header id len n : bytes_ok id -> bytes_ok len ->
  csim (raw_with_header L al id len n) (fun c => with_header c id len n).
Proof.
  intros Hi Hl. unfold raw_with_header, with_header.
  apply csim_add. intros t _. apply csim_add. intros z _.
  apply (csim_bind _ _ (fun c => bf_with_capacity c z)); [apply csim_with_capacity|].
  apply dsim_bind; [now apply dsim_store|]. apply dsim_bind; [now apply dsim_store|]. apply dsim_set_len.
Qed.
Lemma sim_set_contents c : bytes_ok c -> dsim (raw_set_contents L c) (buf_set_contents c).
Proof.
  intros Hc. unfold raw_set_contents, buf_set_contents.
  apply (dsim_slice (fun bs r => x <-- mlift (tlv_contents bs) ; if nlen x =? nlen c then L_store L (nlen bs - nlen x) c r else mcrash)
                    (fun bs b => let! x := tlv_contents bs in if nlen x =? nlen c then bf_write (nlen bs - nlen x) c b else Panic)).
  intros bs. apply (dsim_lift _ (fun x r => if nlen x =? nlen c then L_store L (nlen bs - nlen x) c r else mcrash)
                               (fun x b => if nlen x =? nlen c then bf_write (nlen bs - nlen x) c b else Panic)).
  intros x _. destruct (nlen x =? nlen c); [now apply dsim_store | apply dsim_panic].
Qed.
Lemma sim_edit_at f r h b own b' c : Rp r h b own -> tlv_contents (bf_slice b) = Ok c -> bytes_ok (f c) -> buf_edit f b = Ok b' ->
  exists r' h', raw_edit L f r h = Done r' h' /\ Rp r' h' b' own /\ frame own own h h'.
Proof.
  intros R Ec Hc E. unfold buf_edit in E. rewrite Ec in E. cbn [rbind] in E. unfold raw_edit.
  rewrite (mbind_done _ _ _ _ _ (rp_slice _ _ _ _ R)), Ec. rewrite (mbind_done (mlift (Ok c)) _ c h h eq_refl).
  eapply sim_set_contents; eassumption.
Qed.
Lemma indef_bytes_ok : bytes_ok (Length_to_bytes Indefinite).
Proof. now repeat constructor. Qed.
Lemma sim_new id c : bytes_ok id -> bytes_ok c -> nlen c < usize_limit -> csim (raw_new L al id c) (fun cfg => Der_new cfg id c).
Proof.
  intros Hi Hc Hn. unfold raw_new, Der_new, Der_with_id_length.
  apply csim_bind; [apply sim_with_header; auto using len_bytes_ok | now apply sim_set_contents].
Qed.
Lemma sim_new_indefinite id c : bytes_ok id -> bytes_ok c ->
  csim (raw_new_indefinite L al id c) (fun cfg => Ber_new_indefinite cfg id c).
Proof.
  intros Hi Hc. unfold raw_new_indefinite, Ber_new_indefinite, Ber_with_id_length_indefinite.
  apply csim_bind; [apply sim_with_header; auto using indef_bytes_ok | now apply sim_set_contents].
Qed.
Lemma sim_total items : forall acc n h, total_length acc items = Ok n -> raw_total acc items h = Done n h.
Proof.
  induction items as [|i items IH]; intros acc n h E; cbn [total_length raw_total] in *.
  - now injection E as ->.
  - apply rbind_inv in E as (a & Ea & E). rewrite (mbind_done _ _ a h h) by now apply madd_ok. auto.
Qed.
Lemma sim_extend_all items : Forall bytes_ok items -> dsim (raw_extend_all L items) (extend_all items).
Proof.
  induction 1 as [|i items Hi _ IH]; cbn [raw_extend_all extend_all].
  - apply dsim_ret.
  - apply dsim_bind; [now apply dsim_extend | assumption].
Qed.
Lemma sim_from_iterator id lb items : bytes_ok id -> Forall bytes_ok items -> (forall n, n < usize_limit -> bytes_ok (lb n)) ->
  csim (raw_from_iterator L al id lb items items) (fun c => from_iterator c id lb items).
Proof.
  intros Hi Hs Hl. unfold raw_from_iterator, from_iterator. intros h E.
  destruct (total_length 0 items) as [n| | |] eqn:En; try (destruct (E (fun _ => 0)) as (? & [=])).
  rewrite (mbind_done _ _ n h h) by now apply sim_total. cbn [rbind] in *. revert h E.
  assert (Hn : forall t z, add_usize t n = Ok z -> n < usize_limit) by (intros t z Ez; apply add_usize_lt in Ez; lia).
  change (csim (
    t <-- madd (nlen id) (nlen (lb n)) ;
    total_len <-- madd t n ;
    b <-- L_with_capacity L al total_len ;
    b <-- L_extend L id b ;
    b <-- L_extend L (lb n) b ;
    raw_extend_all L items b) (fun c =>
    let! t := add_usize (nlen id) (nlen (lb n)) in
    let! total_len := add_usize t n in
    let! b := bf_with_capacity c total_len in
    let! b := bf_extend id b in
    let! b := bf_extend (lb n) b in
    extend_all items b)).
  apply csim_add. intros t _. apply csim_add. intros z Ez. apply Hn in Ez.
  apply (csim_bind _ _ (fun c => bf_with_capacity c z)); [apply csim_with_capacity|].
  apply dsim_bind; [now apply dsim_extend|]. apply dsim_bind; [apply dsim_extend; auto | now apply sim_extend_all].
Qed.
Lemma sim_from_slice bs : bytes_ok bs -> csim (L_from_slice L al bs) (fun c => bf_from_slice c bs).
Proof.
  intros H. unfold L_from_slice, bf_from_slice.
  apply (csim_bind _ _ (fun c => bf_with_capacity c (nlen bs))); [apply csim_with_capacity | now apply dsim_extend].
Qed.

(** [set_len(len() + k)] and [set_len(x + y + z)]: the sums do not overflow where the new length is within the capacity. *)
Lemma dsim_grow k f g : dsim f g ->
  dsim (fun r => n <-- madd (L_len L r) k ; r <-- L_set_len_checked L n r ; f r) (fun b => let! b := bf_set_len (b_len b + k) b in g b).
Proof.
  intros D r h b own b' R E. unfold rbind in E. destruct (bf_set_len (b_len b + k) b) as [b1| | |] eqn:E1; try discriminate.
  destruct (dsim_set_len _ _ _ _ _ _ R E1) as (r1 & h1 & X1 & R1 & F1). destruct (D r1 h1 b1 own b' R1 E) as (r2 & h2 & X2 & R2 & F2).
  pose proof (br_observe _ _ _ BR _ _ _ _ R) as (O1 & _ & O3 & O4 & _).
  unfold bf_set_len in E1. destruct (N.ltb_spec (bf_cap b) (b_len b + k)) as [Hk|Hk]; [discriminate|].
  exists r2, h2. unfold mbind, madd. pose proof isize_lt; change (2 ^ 64) with usize_limit in *. destruct (N.ltb_spec (L_len L r + k) usize_limit); [|lia].
  rewrite O1. cbn [mret]. rewrite X1. split; [exact X2|]. split; [exact R2|]. eapply frame_trans; eauto. intros y Ey. eapply rp_live; eassumption.
Qed.
Lemma dsim_grow_last k : dsim (fun r => n <-- madd (L_len L r) k ; L_set_len_checked L n r) (fun b => bf_set_len (b_len b + k) b).
Proof.
  intros r h b own b' R E. destruct (dsim_set_len _ _ _ _ _ _ R E) as (r1 & h1 & X1 & R1 & F1).
  pose proof (br_observe _ _ _ BR _ _ _ _ R) as (O1 & _ & O3 & O4 & _).
  unfold bf_set_len in E. destruct (N.ltb_spec (bf_cap b) (b_len b + k)) as [Hk|Hk]; [discriminate|].
  exists r1, h1. unfold mbind, madd. pose proof isize_lt; change (2 ^ 64) with usize_limit in *. destruct (N.ltb_spec (L_len L r + k) usize_limit); [|lia].
  rewrite O1. cbn [mret]. rewrite X1. auto.
Qed.
Lemma dsim_sum x y z : dsim (fun r => t <-- madd x y ; n <-- madd t z ; L_set_len_checked L n r) (bf_set_len (x + y + z)).
Proof.
  intros r h b own b' R E. destruct (dsim_set_len _ _ _ _ _ _ R E) as (r1 & h1 & X1 & R1 & F1).
  pose proof (br_observe _ _ _ BR _ _ _ _ R) as (O1 & _ & O3 & O4 & _).
  unfold bf_set_len in E. destruct (N.ltb_spec (bf_cap b) (x + y + z)) as [Hk|Hk]; [discriminate|].
  exists r1, h1. unfold mbind, madd. pose proof isize_lt; change (2 ^ 64) with usize_limit in *. destruct (N.ltb_spec (x + y) usize_limit); [|lia]. cbn [mret].
  destruct (N.ltb_spec (x + y + z) usize_limit); [|lia]. cbn [mret]. rewrite X1. auto.
Qed.
Lemma sim_Der_extend bytes : bytes_ok bytes -> asim (raw_Der_extend L al bytes) (fun c => Der_extend c bytes).
Proof.
  intros Hb. unfold raw_Der_extend, Der_extend. cbv zeta.
  apply (asim_slice
    (fun bs b =>
      id <-- mlift (tlv_id bs) ;
      old_length <-- mlift (tlv_length bs) ;
      old_n <-- mlift (unwrap (Length_definite old_length)) ;
      new_n <-- madd old_n (nlen bytes) ;
      off0 <-- madd (nlen bytes) (Length_len (Definite new_n)) ;
      offset <-- msub off0 (Length_len old_length) ;
      b <-- L_reserve L al offset b ;
      n <-- madd (L_len L b) offset ;
      b <-- L_set_len_checked L n b ;
      b <-- (if nlen id + Length_len old_length =? nlen id + Length_len (Definite new_n) then mret b
             else L_move L (nlen id + Length_len old_length) (nlen id + Length_len (Definite new_n)) old_n b) ;
      b <-- L_store L (nlen id + Length_len (Definite new_n) + old_n) bytes b ;
      if negb (nlen id + Length_len (Definite new_n) + old_n + nlen bytes =? L_len L b) then mcrash
      else L_store L (nlen id) (Length_to_bytes (Definite new_n)) b)
    (fun cfg bs b =>
      let! id := tlv_id bs in
      let! old_length := tlv_length bs in
      let! old_n := unwrap (Length_definite old_length) in
      let! new_n := add_usize old_n (nlen bytes) in
      let! off0 := add_usize (nlen bytes) (Length_len (Definite new_n)) in
      let! offset := sub_usize off0 (Length_len old_length) in
      let! b := bf_reserve cfg offset b in
      let! b := bf_set_len (b_len b + offset) b in
      let! b := (if nlen id + Length_len old_length =? nlen id + Length_len (Definite new_n) then Ok b
                 else bf_move (nlen id + Length_len old_length) (nlen id + Length_len (Definite new_n)) old_n b) in
      let! b := bf_write (nlen id + Length_len (Definite new_n) + old_n) bytes b in
      if negb (nlen id + Length_len (Definite new_n) + old_n + nlen bytes =? b_len b) then Panic
      else bf_write (nlen id) (Length_to_bytes (Definite new_n)) b)).
  intros bs. apply asim_lift. intros id _. apply asim_lift. intros l _. apply asim_lift. intros old_n _.
  apply asim_add. intros new_n En. apply asim_add. intros off0 _. apply asim_sub. intros offset _.
  apply (asim_bind _ _ (fun cfg => bf_reserve cfg offset)); [apply asim_reserve|].
  apply (dsim_grow offset (fun b =>
      b <-- (if nlen id + Length_len l =? nlen id + Length_len (Definite new_n) then mret b
             else L_move L (nlen id + Length_len l) (nlen id + Length_len (Definite new_n)) old_n b) ;
      b <-- L_store L (nlen id + Length_len (Definite new_n) + old_n) bytes b ;
      if negb (nlen id + Length_len (Definite new_n) + old_n + nlen bytes =? L_len L b) then mcrash
      else L_store L (nlen id) (Length_to_bytes (Definite new_n)) b)).
  apply dsim_bind; [destruct (_ =? _); [apply dsim_ret | apply dsim_move]|].
  apply dsim_bind; [now apply dsim_store|].
  apply (dsim_len (fun n r => if negb (nlen id + Length_len (Definite new_n) + old_n + nlen bytes =? n) then mcrash
                              else L_store L (nlen id) (Length_to_bytes (Definite new_n)) r)
                  (fun n b => if negb (nlen id + Length_len (Definite new_n) + old_n + nlen bytes =? n) then Panic
                              else bf_write (nlen id) (Length_to_bytes (Definite new_n)) b)).
  intros n. destruct (negb _); [apply dsim_panic|]. apply dsim_store, len_bytes_ok. apply add_usize_lt in En. tauto.
Qed.
Lemma sim_Der_truncate n : n < usize_limit -> dsim (raw_Der_truncate L n) (Der_truncate n).
Proof.
  intros Hn. unfold raw_Der_truncate, Der_truncate. cbv zeta.
  apply (dsim_slice
    (fun bs b =>
      id <-- mlift (tlv_id bs) ;
      l <-- mlift (tlv_length bs) ;
      old_length <-- mlift (unwrap (Length_definite l)) ;
      if old_length <=? n then mret b
      else
        b <-- L_store L (nlen id) (Length_to_bytes (Definite n)) b ;
        b <-- (if nlen (Length_to_bytes (Definite n)) <? nlen (Length_to_bytes (Definite old_length))
               then L_move L (nlen id + nlen (Length_to_bytes (Definite old_length))) (nlen id + nlen (Length_to_bytes (Definite n))) n b
               else mret b) ;
        t <-- madd (nlen id) (nlen (Length_to_bytes (Definite n))) ;
        new_total_len <-- madd t n ;
        L_set_len_checked L new_total_len b)
    (fun bs b =>
      let! id := tlv_id bs in
      let! l := tlv_length bs in
      let! old_length := unwrap (Length_definite l) in
      if old_length <=? n then Ok b
      else
        let! b := bf_write (nlen id) (Length_to_bytes (Definite n)) b in
        let! b := (if nlen (Length_to_bytes (Definite n)) <? nlen (Length_to_bytes (Definite old_length))
                   then bf_move (nlen id + nlen (Length_to_bytes (Definite old_length))) (nlen id + nlen (Length_to_bytes (Definite n))) n b
                   else Ok b) in
        bf_set_len (nlen id + nlen (Length_to_bytes (Definite n)) + n) b)).
  intros bs. apply dsim_lift. intros id _. apply dsim_lift. intros l _. apply dsim_lift. intros old _.
  destruct (old <=? n); [apply dsim_ret|].
  apply dsim_bind; [now apply dsim_store, len_bytes_ok|].
  apply dsim_bind; [destruct (_ <? _); [apply dsim_move | apply dsim_ret]|]. apply dsim_sum.
Qed.
Lemma sim_Ber_extend bytes : bytes_ok bytes -> asim (raw_Ber_extend L al bytes) (fun c => Ber_extend c bytes).
Proof.
  intros Hb. unfold raw_Ber_extend, Ber_extend.
  apply (asim_slice
    (fun bs b => l <-- mlift (tlv_length bs) ;
      match l with
      | Definite _ => raw_Der_extend L al bytes b
      | Indefinite =>
          b <-- L_reserve L al (nlen bytes) b ;
          b <-- L_store L (L_len L b) bytes b ;
          n <-- madd (L_len L b) (nlen bytes) ;
          L_set_len_checked L n b
      end)
    (fun cfg bs b => let! l := tlv_length bs in
      match l with
      | Definite _ => Der_extend cfg bytes b
      | Indefinite =>
          let! b := bf_reserve cfg (nlen bytes) b in
          let! b := bf_write (b_len b) bytes b in
          bf_set_len (b_len b + nlen bytes) b
      end)).
  intros bs. apply asim_lift. intros [|n] _; [|now apply sim_Der_extend].
  apply (asim_bind _ _ (fun cfg => bf_reserve cfg (nlen bytes))); [apply asim_reserve|].
  apply dsim_bind.
  - apply (dsim_len (fun n r => L_store L n bytes r) (fun n b => bf_write n bytes b)). intros n. now apply dsim_store.
  - apply dsim_grow_last.
Qed.
Lemma sim_Ber_truncate n : n < usize_limit -> dsim (raw_Ber_truncate L n) (Ber_truncate n).
Proof.
  intros Hn. unfold raw_Ber_truncate, Ber_truncate. cbv zeta.
  apply (dsim_slice
    (fun bs b => l <-- mlift (tlv_length bs) ;
      match l with
      | Definite _ => raw_Der_truncate L n b
      | Indefinite =>
          c <-- mlift (tlv_contents bs) ;
          if nlen c <=? n then mret b
          else t <-- madd (L_len L b) n ; new_total_len <-- msub t (nlen c) ; L_set_len_checked L new_total_len b
      end)
    (fun bs b => let! l := tlv_length bs in
      match l with
      | Definite _ => Der_truncate n b
      | Indefinite =>
          let! c := tlv_contents bs in
          if nlen c <=? n then Ok b
          else let! t := add_usize (b_len b) n in let! new_total_len := sub_usize t (nlen c) in bf_set_len new_total_len b
      end)).
  intros bs. apply dsim_lift. intros [|m] _; [|now apply sim_Der_truncate].
  apply dsim_lift. intros c _. destruct (nlen c <=? n); [apply dsim_ret|].
  apply (dsim_len (fun m b => t <-- madd m n ; new_total_len <-- msub t (nlen c) ; L_set_len_checked L new_total_len b)
                  (fun m b => let! t := add_usize m n in let! new_total_len := sub_usize t (nlen c) in bf_set_len new_total_len b)).
  intros m. apply dsim_add. intros t _. apply dsim_sub. intros z _. apply dsim_set_len.
Qed.

(** ** programs *)
Definition tmatch (t : tvar) (e : evar) : Prop :=
  match t with
  | TEmpty => e = EEmpty
  | TVec bs => exists x, e = EVec (map Some bs ++ x) (nlen bs) /\ bytes_ok bs
  | _ => exists bs x, encodes t bs /\ nlen bs <= isize_max /\ e = EBuf (map Some bs ++ x) (nlen bs)
  end.
Definition tgood (h0 : heap) (e : env tvar) (v : env (var raw)) (h : heap) : Prop :=
  exists E own, inv L Rp h0 h v E own /\ forall i, tmatch (e i) (E i).

Lemma fits_known bs : forall x m, fits (map Some bs ++ x) m -> exists s, m = bs ++ s.
Proof.
  induction bs as [|b bs IH]; intros x m F; cbn [map app] in *.
  - now exists m.
  - destruct m as [|y m]; cbn [fits] in F; [contradiction|]. destruct F as [-> F]. destruct (IH _ _ F) as (s & ->). now exists s.
Qed.
Lemma tmatch_holds r h bs x own : vmatch L Rp h (VBuf r) (EBuf (map Some bs ++ x) (nlen bs)) own ->
  exists b, Rp r h b own /\ holds b bs.
Proof.
  intros (b & R & Lb & F & _). exists b. split; [assumption|]. destruct (fits_known _ _ _ F) as (s & E).
  exists s. split; [assumption|]. split; [assumption|]. pose proof (rp_mem _ _ _ _ R) as Hok. rewrite E, bytes_ok_app in Hok. tauto.
Qed.
Lemma take_known bs (x : list (option N)) : take (nlen bs) (map Some bs ++ x) = map Some bs.
Proof. rewrite <- (nlen_some bs). apply take_app_exact. Qed.
Lemma tmatch_tlv t e : is_tlv t -> tmatch t e -> exists bs x, encodes t bs /\ nlen bs <= isize_max /\ e = EBuf (map Some bs ++ x) (nlen bs).
Proof. destruct t; cbn [is_tlv tmatch]; try contradiction; auto. Qed.
Lemma tmatch_make t bs x : is_tlv t -> encodes t bs -> nlen bs <= isize_max -> tmatch t (EBuf (map Some bs ++ x) (nlen bs)).
Proof. destruct t; cbn [is_tlv tmatch]; try contradiction; eauto 10. Qed.
Lemma encodes_ok t bs : encodes t bs -> bytes_ok bs.
Proof.
  destruct t as [|id c|[] id c|v]; cbn [encodes]; try contradiction.
  - intros [H Hc]. now apply (der_tlv_ok _ _ _ H).
  - intros (-> & Hi & Hc). apply bytes_ok_app. split; [now apply is_identifier_ok|]. constructor; [reflexivity | assumption].
  - intros [H Hc]. now apply (der_tlv_ok _ _ _ H).
  - now intros [-> H].
Qed.
Lemma encodes_fun t bs bs' : encodes t bs -> encodes t bs' -> bs = bs'.
Proof.
  destruct t as [|id c|[] id c|v]; cbn [encodes]; try contradiction.
  - intros [H _] [H' _]. eapply der_tlv_fun; eassumption.
  - intros (-> & _) (-> & _). reflexivity.
  - intros [H _] [H' _]. eapply der_tlv_fun; eassumption.
  - now intros [-> _] [-> _].
Qed.
Lemma upd_match e E i t' e' : (forall k, tmatch (e k) (E k)) -> tmatch t' e' -> forall k, tmatch (upd i t' e k) (upd i e' E k).
Proof. intros H Ht k. unfold upd. destruct (Nat.eqb k i); auto. Qed.

Lemma tput h0 h v E own e i t' bs' (m : M raw) : inv L Rp h0 h v E own -> (forall k, tmatch (e k) (E k)) ->
  is_tlv t' -> encodes t' bs' -> nlen bs' <= isize_max ->
  meets al (m h) (fun r' h' => exists b' o', Rp r' h' b' o' /\ frame (own i) o' h h' /\ holds b' bs') ->
  meets al ((r <-- m ; mret (upd i (VBuf r) v)) h) (tgood h0 (upd i t' e)).
Proof.
  intros HI HT Ht He Hs HM. eapply meets_mono.
  - apply (put_buf L al Rp BR h0 h v E own i (map Some bs' ++ []) (nlen bs') m HI).
    eapply meets_mono; [exact HM|]. cbv beta. intros r' h' (b' & o' & R & F & s & Em & Lb & Hsp).
    exists b', o'. rewrite app_nil_r, nlen_some. repeat split; try apply F; auto; [|lia].
    rewrite Em. apply fits_app_l, fits_some.
  - intros v' h' (own' & HI'). eexists _, own'. split; [exact HI'|]. apply upd_match; [assumption|]. now apply tmatch_make.
Qed.

(** The edits, on the abstract buffer. *)
Definition op_of (t : tvar) : bufcfg -> tlv_op -> buf -> res buf := match t with TDer _ _ => der_op | _ => ber_op end.
Definition contents (t : tvar) : list N := match t with TDer _ c | TBer _ _ c => c | _ => [] end.
Lemma abs_step t o b bs : is_tlv t -> encodes t bs -> holds b bs -> nlen bs <= isize_max -> op_ok o (contents t) ->
  possible (on_contents (vec_op o) t) ->
  exists bs', encodes (on_contents (vec_op o) t) bs' /\ nlen bs' <= isize_max /\
    forall cfg, exists b', op_of t cfg o b = Ok b' /\ holds b' bs'.
Proof.
  intros Ht He Hb Hs Ho (bs' & He' & Hs'). exists bs'. split; [assumption|]. split; [assumption|]. intros cfg.
  destruct t as [|id c|[] id c|v]; cbn [is_tlv encodes on_contents contents op_of] in *; try contradiction.
  - destruct He as [Hd Hc], He' as [Hd' Hc'].
    destruct (der_step cfg o b id c bs Hc Hd Hb (ex_intro _ bs (conj Hd Hs)) Ho (ex_intro _ bs' (conj Hd' Hs'))) as (b' & bs2 & E & H' & D' & _).
    rewrite (der_tlv_fun _ _ _ _ D' Hd') in H'. eauto.
  - destruct He as (-> & Hi & Hc), He' as (-> & _ & Hc').
    destruct (ber_history_indefinite [o] (fun _ => cfg) id c b Hi Hc Hb Hs) as (b' & E & _ & H' & _).
    { cbn [history_ok]. split; [assumption|]. split; [exact Hs' | exact I]. }
    cbn [run_ops] in E. apply rbind_inv in E as (b1 & E1 & [= ->]). eauto.
  - destruct He as [Hd Hc], He' as [Hd' Hc']. rewrite (ber_step_definite cfg o b id c bs Hd Hb).
    destruct (der_step cfg o b id c bs Hc Hd Hb (ex_intro _ bs (conj Hd Hs)) Ho (ex_intro _ bs' (conj Hd' Hs'))) as (b' & bs2 & E & H' & D' & _).
    rewrite (der_tlv_fun _ _ _ _ D' Hd') in H'. eauto.
Qed.
Lemma possible_shorter t g bs : is_tlv t -> encodes t bs -> nlen bs <= isize_max -> nlen (g (contents t)) <= nlen (contents t) ->
  bytes_ok (g (contents t)) -> possible (on_contents g t).
Proof.
  intros Ht He Hs Hg Hok. pose proof isize_lt.
  assert (DER : forall id c, der_tlv id c bs -> nlen (g c) <= nlen c -> exists bs', der_tlv id (g c) bs' /\ nlen bs' <= isize_max).
  { intros id c Hd Hn. pose proof (der_tlv_size _ _ _ Hd) as Sz.
    assert (Hd' : der_tlv id (g c) (id ++ Length_to_bytes (Definite (nlen (g c))) ++ g c)).
    { apply der_tlv_make; [eapply der_tlv_id; eassumption | apply der_tlv_lt in Hd; lia]. }
    eexists. split; [exact Hd'|]. rewrite (der_tlv_size _ _ _ Hd'). pose proof (Length_len_mono _ _ Hn). lia. }
  destruct t as [|id c|[] id c|v]; cbn [is_tlv encodes on_contents contents] in *; try contradiction.
  - destruct He as [Hd Hc]. destruct (DER id c Hd Hg) as (bs' & D & S'). exists bs'. cbn [encodes]. auto.
  - destruct He as (-> & Hi & Hc). eexists. cbn [encodes]. split; [split; [reflexivity | auto]|].
    rewrite nlen_app, nlen_cons in *. lia.
  - destruct He as [Hd Hc]. destruct (DER id c Hd Hg) as (bs' & D & S'). exists bs'. cbn [encodes]. auto.
Qed.
Lemma ty_tlv y t : has_ty y t -> is_tlv t.
Proof. destruct y, t; cbn; auto. Qed.
Lemma on_contents_ext g g' t : g (contents t) = g' (contents t) -> on_contents g t = on_contents g' t.
Proof. destruct t; cbn [on_contents contents]; auto; now intros ->. Qed.
Lemma op_extend_ok t bs : possible (on_contents (fun c => c ++ bs) t) -> is_tlv t -> bytes_ok bs.
Proof.
  intros (o & He & _) Ht. destruct t as [|id c|[] id c|v]; cbn [is_tlv on_contents encodes] in *; try contradiction.
  - destruct He as [_ H]. apply bytes_ok_app in H. tauto.
  - destruct He as (_ & _ & H). apply bytes_ok_app in H. tauto.
  - destruct He as [_ H]. apply bytes_ok_app in H. tauto.
Qed.

Lemma alloc_result (k : raw -> M raw) f r h b own bs' : asim k f -> Rp r h b own ->
  (forall cfg, exists b', f cfg b = Ok b' /\ holds b' bs') ->
  meets al (k r h) (fun r' h' => exists b' o', Rp r' h' b' o' /\ frame own o' h h' /\ holds b' bs').
Proof.
  intros S R A. eapply meets_mono; [apply (S r h b own R)|].
  - intros j. destruct (A (cf j)) as (b' & E & _). eauto.
  - cbv beta. intros r' h' (j & b' & o' & R' & F & E). destruct (A (cf j)) as (b2 & E2 & H2). rewrite E in E2. injection E2 as <-. eauto.
Qed.
Lemma create_result (k : M raw) f h bs' : csim k f -> (forall cfg, exists b', f cfg = Ok b' /\ holds b' bs') ->
  meets al (k h) (fun r' h' => exists b' o', Rp r' h' b' o' /\ frame None o' h h' /\ holds b' bs').
Proof.
  intros S A. eapply meets_mono; [apply (S h)|].
  - intros j. destruct (A (cf j)) as (b' & E & _). eauto.
  - cbv beta. intros r' h' (j & b' & o' & R' & F & E). destruct (A (cf j)) as (b2 & E2 & H2). rewrite E in E2. injection E2 as <-. eauto.
Qed.
Lemma extend_result (y : tlv_ty) t bs b r h own bs0 : has_ty y t -> encodes t bs0 -> holds b bs0 -> nlen bs0 <= isize_max ->
  possible (on_contents (fun c => c ++ bs) t) -> Rp r h b own ->
  exists bs', encodes (on_contents (fun c => c ++ bs) t) bs' /\ nlen bs' <= isize_max /\
  meets al ((match y with TyDer => raw_Der_extend L al bs | TyBer => raw_Ber_extend L al bs end) r h)
    (fun r' h' => exists b' o', Rp r' h' b' o' /\ frame own o' h h' /\ holds b' bs').
Proof.
  intros Hy He Hb Hs HP R. pose proof (ty_tlv _ _ Hy) as Ht. pose proof (op_extend_ok _ _ HP Ht) as Hok.
  destruct (abs_step t (OpExtend bs) b bs0 Ht He Hb Hs Hok HP) as (bs' & He' & Hs' & A).
  exists bs'. split; [assumption|]. split; [assumption|].
  destruct y, t; cbn [has_ty] in Hy; try contradiction; cbn [op_of der_op ber_op] in A.
  - eapply alloc_result; [now apply sim_Der_extend | eassumption | exact A].
  - eapply alloc_result; [now apply sim_Ber_extend | eassumption | exact A].
Qed.

Lemma tlv_slot h0 h v E own e i : inv L Rp h0 h v E own -> (forall k, tmatch (e k) (E k)) -> is_tlv (e i) ->
  exists r b bs, v i = VBuf r /\ Rp r h b (own i) /\ holds b bs /\ encodes (e i) bs /\ nlen bs <= isize_max.
Proof.
  intros (I1 & _) HT Ht. destruct (tmatch_tlv _ _ Ht (HT i)) as (bs & x & He & Hs & Ee). specialize (I1 i). rewrite Ee in I1.
  destruct (v i) as [|r|w]; try contradiction. destruct (tmatch_holds _ _ _ _ _ I1) as (b & R & Hb). exists r, b, bs. auto 10.
Qed.
Lemma empty_slot h0 h v E own e i : inv L Rp h0 h v E own -> (forall k, tmatch (e k) (E k)) -> e i = TEmpty ->
  E i = EEmpty /\ own i = None.
Proof.
  intros (I1 & _) HT Ht. specialize (HT i). rewrite Ht in HT. cbn in HT. specialize (I1 i). rewrite HT in I1.
  destruct (v i); try contradiction. auto.
Qed.
(** Steps the two machines have in common. *)
Lemma from_buffers h0 h v E own e' o E' : inv L Rp h0 h v E own -> estep (L_init_cap L) o E = Some E' ->
  (forall k, tmatch (e' k) (E' k)) -> meets al (rstep L al o v h) (tgood h0 e').
Proof.
  intros HI HE HT. eapply meets_mono; [eapply (step_good L al G Rp BR h0 h v E o E'); [now exists own | exact HE]|].
  intros v' h' (own' & HI'). exists E', own'. auto.
Qed.
Lemma octets_true bs : bytes_ok bs -> octets bs = true.
Proof. apply octets_ok. Qed.

Lemma new_abs t : is_tlv t -> possible t -> exists bs, encodes t bs /\ nlen bs <= isize_max /\
  match t with
  | TDer id c | TBer false id c => is_identifier id /\ bytes_ok c /\ nlen c < usize_limit /\
      (forall cfg, exists b, Der_new cfg id c = Ok b /\ holds b bs) /\
      (forall items, c = concat items -> forall cfg, exists b, Der_from_id_iterator cfg id items = Ok b /\ holds b bs)
  | TBer true id c => is_identifier id /\ bytes_ok c /\
      (forall cfg, exists b, Ber_new_indefinite cfg id c = Ok b /\ holds b bs) /\
      (forall items, c = concat items -> forall cfg, exists b, Ber_from_id_iterator_indefinite cfg id items = Ok b /\ holds b bs)
  | _ => False
  end.
Proof.
  intros Ht (bs & He & Hs). exists bs. split; [assumption|]. split; [assumption|].
  assert (DER : forall id c, der_tlv id c bs -> nlen c < usize_limit /\
      (forall cfg, exists b, Der_new cfg id c = Ok b /\ holds b bs) /\
      (forall items, c = concat items -> forall cfg, exists b, Der_from_id_iterator cfg id items = Ok b /\ holds b bs)).
  { intros id c Hd. split; [apply (der_tlv_lt _ _ _ Hd)|]. split.
    - intros cfg. destruct (der_new_ok cfg id c bs Hd Hs) as (b & E & _ & Hb). eauto.
    - intros items -> cfg. pose proof (der_tlv_size _ _ _ Hd) as Sz. pose proof (der_tlv_lt _ _ _ Hd).
      destruct (from_iterator_ok cfg id (fun n => Length_to_bytes (Definite n)) items) as (b & E & Hb).
      { rewrite len_len by assumption. lia. }
      exists b. split; [exact E|]. now rewrite (der_tlv_octets _ _ _ Hd). }
  destruct t as [|id c|[] id c|v]; cbn [is_tlv encodes] in *; try contradiction.
  - destruct He as [Hd Hc]. destruct (DER _ _ Hd) as (A & B & C). pose proof (der_tlv_id _ _ _ Hd). auto 10.
  - destruct He as (-> & Hi & Hc). split; [assumption|]. split; [assumption|]. rewrite nlen_app, nlen_cons in Hs. split.
    + intros cfg. apply Ber_new_indefinite_ok; [assumption | lia].
    + intros items -> cfg. destruct (from_iterator_ok cfg id (fun _ => Length_to_bytes Indefinite) items) as (b & E & Hb).
      { change (nlen (Length_to_bytes Indefinite)) with 1. lia. }
      exists b. split; [exact E | exact Hb].
  - destruct He as [Hd Hc]. destruct (DER _ _ Hd) as (A & B & C). pose proof (der_tlv_id _ _ _ Hd). auto 10.
Qed.
Lemma items_ok items : bytes_ok (concat items) -> Forall bytes_ok items.
Proof. induction items as [|i items IH]; cbn [concat]; [constructor|]. intros H. apply bytes_ok_app in H as []. constructor; auto. Qed.

Lemma tstep_good h0 h v e o : tgood h0 e v h -> legal o e -> meets al (vraw L al o v h) (tgood h0 (vstep o e)).
Proof.
  intros (E & own & HI & HT) HL. destruct o as [i t|i t items|i t bs|y i bs|y i x|y i n|i f|i j|i|i bs|i bs spare|i t|i]; cbn [legal vstep] in *.
  - (* new *)
    destruct HL as (He & Ht & HP). destruct (empty_slot _ _ _ _ _ _ _ HI HT He) as (_ & Ho).
    destruct (new_abs t Ht HP) as (bs & Hen & Hs & A). 
    destruct t as [|id c|[] id c|w]; cbn [vraw] in *; try contradiction.
    + destruct A as (Hi & Hc & Hn & A & _). eapply tput; eauto. rewrite Ho.
      eapply create_result; [apply sim_new; auto; now apply is_identifier_ok | exact A].
    + destruct A as (Hi & Hc & A & _). eapply tput; eauto. rewrite Ho.
      eapply create_result; [apply sim_new_indefinite; auto; now apply is_identifier_ok | exact A].
    + destruct A as (Hi & Hc & Hn & A & _). eapply tput; eauto. rewrite Ho.
      eapply create_result; [apply sim_new; auto; now apply is_identifier_ok | exact A].
  - (* from iterator *)
    destruct HL as (He & HP & Hcc). destruct (empty_slot _ _ _ _ _ _ _ HI HT He) as (_ & Ho).
    assert (Ht : is_tlv t) by (destruct t; cbn; auto).
    destruct (new_abs t Ht HP) as (bs & Hen & Hs & A).
    destruct t as [|id c|[] id c|w]; cbn [vraw] in *; try contradiction; subst c.
    + destruct A as (Hi & Hc & Hn & _ & A). eapply tput; eauto. rewrite Ho.
      eapply create_result; [|exact (A items eq_refl)].
      apply sim_from_iterator; [now apply is_identifier_ok | now apply items_ok | intros; now apply len_bytes_ok].
    + destruct A as (Hi & Hc & _ & A). eapply tput; eauto. rewrite Ho.
      eapply create_result; [|exact (A items eq_refl)].
      apply sim_from_iterator; [now apply is_identifier_ok | now apply items_ok | intros; apply indef_bytes_ok].
    + destruct A as (Hi & Hc & Hn & _ & A). eapply tput; eauto. rewrite Ho.
      eapply create_result; [|exact (A items eq_refl)].
      apply sim_from_iterator; [now apply is_identifier_ok | now apply items_ok | intros; now apply len_bytes_ok].
  - (* owned copy *)
    destruct HL as (He & Ht & Hen & Hs). destruct (empty_slot _ _ _ _ _ _ _ HI HT He) as (EE & Ho).
    change (vraw L al (VOwn i t bs) v) with (rstep L al (OFromSlice i bs) v).
    eapply from_buffers; [exact HI | |].
    + cbn [estep]. rewrite EE. apply N.leb_le in Hs. rewrite Hs, (octets_true bs) by (eapply encodes_ok; eassumption). reflexivity.
    + apply upd_match; [assumption|]. now apply tmatch_make.
  - (* extend *)
    destruct HL as (Hy & HP). rewrite upd_eq in HP.
    destruct (tlv_slot _ _ _ _ _ _ _ HI HT (ty_tlv _ _ Hy)) as (r & b & bs0 & Ev & R & Hb & He & Hs).
    destruct (extend_result y _ bs b r h (own i) bs0 Hy He Hb Hs HP R) as (bs' & He' & Hs' & A).
    assert (Ht : is_tlv (on_contents (fun c => c ++ bs) (e i))) by (apply ty_tlv in Hy; destruct (e i); cbn in *; auto).
    destruct y; cbn [vraw]; rewrite Ev; eapply tput; eauto.
  - (* push *)
    destruct HL as (Hy & HP). rewrite upd_eq in HP.
    destruct (tlv_slot _ _ _ _ _ _ _ HI HT (ty_tlv _ _ Hy)) as (r & b & bs0 & Ev & R & Hb & He & Hs).
    destruct (extend_result y _ [x] b r h (own i) bs0 Hy He Hb Hs HP R) as (bs' & He' & Hs' & A).
    assert (Ht : is_tlv (on_contents (fun c => c ++ [x]) (e i))) by (apply ty_tlv in Hy; destruct (e i); cbn in *; auto).
    destruct y; cbn [vraw]; rewrite Ev; eapply tput; eauto.
  - (* truncate *)
    destruct HL as (Hy & Hn). pose proof (ty_tlv _ _ Hy) as Ht.
    destruct (tlv_slot _ _ _ _ _ _ _ HI HT Ht) as (r & b & bs0 & Ev & R & Hb & He & Hs).
    assert (Hc : bytes_ok (contents (e i))).
    { destruct (e i) as [|id c|[] id c|w]; cbn [is_tlv encodes contents] in *; try contradiction; tauto. }
    assert (HP : possible (on_contents (vec_op (OpTruncate n)) (e i))).
    { eapply possible_shorter; eauto; cbn [vec_op]; [rewrite nlen_take; lia | now apply bytes_ok_take]. }
    destruct (abs_step (e i) (OpTruncate n) b bs0 Ht He Hb Hs I HP) as (bs' & He' & Hs' & A).
    assert (Ht' : is_tlv (on_contents (take n) (e i))) by (destruct (e i); cbn in *; auto).
    destruct y; cbn [vraw]; rewrite Ev; eapply tput; eauto;
      destruct (e i); cbn [has_ty] in Hy; try contradiction; cbn [op_of der_op ber_op] in A.
    + eapply (alloc_result _ (fun _ => Der_truncate n)); [now apply dsim_asim, sim_Der_truncate | eassumption | exact A].
    + eapply (alloc_result _ (fun _ => Ber_truncate n)); [now apply dsim_asim, sim_Ber_truncate | eassumption | exact A].
  - (* edit *)
    assert (Ht : is_tlv (e i)) by (destruct (e i); cbn; auto).
    assert (Hf : nlen (f (contents (e i))) = nlen (contents (e i)) /\ bytes_ok (f (contents (e i)))).
    { destruct (e i); cbn [contents] in *; try contradiction; assumption. }
    destruct Hf as (Hn & Hok). clear HL.
    destruct (tlv_slot _ _ _ _ _ _ _ HI HT Ht) as (r & b & bs0 & Ev & R & Hb & He & Hs).
    assert (HP : possible (on_contents (vec_op (OpEdit f)) (e i))).
    { eapply possible_shorter; eauto; cbn [vec_op]; lia. }
    destruct (abs_step (e i) (OpEdit f) b bs0 Ht He Hb Hs (conj Hn Hok) HP) as (bs' & He' & Hs' & A).
    assert (Ht' : is_tlv (on_contents f (e i))) by (destruct (e i); cbn in *; auto).
    assert (T : tlv_contents (bf_slice b) = Ok (contents (e i))).
    { rewrite (holds_slice _ _ Hb). destruct (e i) as [|id c|[] id c|w]; cbn [is_tlv encodes contents] in *; try contradiction.
      - destruct He as [Hd _]. apply (der_tlv_disassemble _ _ _ Hd).
      - destruct He as (-> & Hi & _). apply (tlv_parts_indefinite id c Hi).
      - destruct He as [Hd _]. apply (der_tlv_disassemble _ _ _ Hd). }
    cbn [vraw]; rewrite Ev; eapply tput; eauto.
    destruct (A (cf (fun _ => 0))) as (b' & Eb & Hb').
    assert (Ee : buf_edit f b = Ok b') by (destruct (e i); cbn [is_tlv] in Ht; try contradiction; exact Eb).
    destruct (sim_edit_at f r h b (own i) b' _ R T Hok Ee) as (r' & h' & K & R' & F').
    eapply meets_done; [exact K|]. eauto.
  - (* clone *)
    destruct HL as (Ht & He). destruct (empty_slot _ _ _ _ _ _ _ HI HT He) as (EE & Ho).
    destruct (tmatch_tlv _ _ Ht (HT i)) as (bs & x & Hen & Hs & Ee).
    change (vraw L al (VClone i j) v) with (rstep L al (OClone i j) v).
    eapply from_buffers; [exact HI | |].
    + cbn [estep]. rewrite EE, Ee. reflexivity.
    + apply upd_match; [assumption|]. rewrite take_known. now apply tmatch_make.
  - (* into Ber *)
    destruct (tlv_slot _ _ _ _ _ _ _ HI HT (ty_tlv _ _ HL)) as (r & b & bs0 & Ev & R & Hb & He & Hs).
    cbn [vraw]. rewrite Ev. destruct (e i) as [|id c|ind id c|w] eqn:Ei; cbn [has_ty] in HL; try contradiction.
    eapply (tput h0 h v E own e i (TBer false id c) bs0); eauto. cbn [meets mret]. exists b, (own i). auto using frame_refl.
  - (* into_vec *)
    destruct HL as (Ht & Hen). destruct (tmatch_tlv _ _ Ht (HT i)) as (bs0 & x & Hen0 & Hs & Ee).
    assert (bs0 = bs) as -> by (eapply encodes_fun; eassumption).
    change (vraw L al (VIntoVec i bs) v) with (rstep L al (OIntoVec i) v).
    eapply from_buffers; [exact HI | |].
    + cbn [estep]. rewrite Ee. reflexivity.
    + apply upd_match; [assumption|]. rewrite take_known. exists []. rewrite app_nil_r. split; [reflexivity | eapply encodes_ok; eassumption].
  - (* a vector *)
    destruct HL as (He & Hok & Hs). destruct (empty_slot _ _ _ _ _ _ _ HI HT He) as (EE & Ho).
    change (vraw L al (VVecNew i bs spare) v) with (rstep L al (OVec i bs spare) v).
    eapply from_buffers; [exact HI | |].
    + cbn [estep]. rewrite EE. apply N.leb_le in Hs. rewrite Hs, (octets_true bs Hok). reflexivity.
    + apply upd_match; [assumption|]. eexists. split; [reflexivity | assumption].
  - (* from_vec_unchecked *)
    destruct HL as (Ht & Hm). pose proof (HT i) as Ti. destruct (e i) as [| | |bs] eqn:Ei; try contradiction.
    cbn [tmatch] in Ti. destruct Ti as (x & Ee & Hok).
    assert (Hs : nlen bs <= isize_max).
    { destruct HI as (I1 & _). specialize (I1 i). rewrite Ee in I1. destruct (v i) as [|r|w]; try contradiction.
      destruct I1 as (bs0 & sp & (_ & A & B & _) & C & _). rewrite nlen_app in A. lia. }
    change (vraw L al (VFromVec i t) v) with (rstep L al (OFromVec i) v).
    eapply from_buffers; [exact HI | |].
    + cbn [estep]. rewrite Ee. reflexivity.
    + apply upd_match; [assumption|]. now apply tmatch_make.
  - (* drop *)
    change (vraw L al (VDrop i) v) with (rstep L al (ODrop i) v).
    eapply from_buffers; [exact HI | reflexivity |]. apply upd_match; [assumption | reflexivity].
Qed.
Lemma tsteps_good os : forall h0 h v e, tgood h0 e v h -> all_legal os e -> meets al (vraws L al os v h) (tgood h0 (vsteps os e)).
Proof.
  induction os as [|o os IH]; intros h0 h v e HG HL; cbn [all_legal vraws vsteps] in *; [exact HG|].
  destruct HL as [H1 H2]. eapply meets_bind; [eapply tstep_good; eassumption|]. intros v1 h1 G1. now apply IH.
Qed.
Lemma tmatch_shows h x t e own : vmatch L Rp h x e own -> tmatch t e -> tshows L h x t.
Proof.
  intros V T. destruct t as [|id c|ind id c|bs]; cbn [tmatch] in T.
  - subst e. destruct x; cbn in *; auto.
  - destruct T as (bs & y & He & Hs & ->). destruct x as [|r|w]; try contradiction. destruct (tmatch_holds _ _ _ _ _ V) as (b & R & Hb).
    exists bs. split; [assumption|]. rewrite (rp_slice _ _ _ _ R), (rp_len _ _ _ _ R), (holds_slice _ _ Hb), (holds_len _ _ Hb). auto.
  - destruct T as (bs & y & He & Hs & ->). destruct x as [|r|w]; try contradiction. destruct (tmatch_holds _ _ _ _ _ V) as (b & R & Hb).
    exists bs. split; [assumption|]. rewrite (rp_slice _ _ _ _ R), (rp_len _ _ _ _ R), (holds_slice _ _ Hb), (holds_len _ _ Hb). auto.
  - destruct T as (y & -> & Hok). pose proof (vmatch_shows L al Rp BR _ _ _ _ V) as S. destruct x as [|r|w]; try contradiction.
    cbn [shows] in S. destruct S as (A & _ & _ & bs' & B & C & D). rewrite take_known in D. cbn [tshows].
    split; [|assumption]. rewrite B. f_equal. rewrite <- (app_nil_r (map Some bs)) in D. destruct (fits_known _ _ _ D) as (s & ->).
    rewrite nlen_app in C. rewrite (nlen_zero s) by lia. apply app_nil_r.
Qed.
Theorem tlv_program os h0 : all_legal os tempty ->
  meets al (vraws L al os vempty h0) (fun v h =>
    (forall i, tshows L h (v i) (vsteps os tempty i)) /\
    (forall a c, h_get a h0 = Some c -> h_get a h = Some c) /\
    ((forall i, vsteps os tempty i = TEmpty) -> forall a, h_get a h = h_get a h0)).
Proof.
  intros HL. eapply meets_mono; [apply (tsteps_good os h0 h0 vempty tempty); [|assumption]|].
  - exists eempty, (fun _ => None). split; [split; [|split; [|split]]|].
    + intros i. reflexivity.
    + intros i j a [=].
    + intros i a [=].
    + reflexivity.
    + reflexivity.
  - intros v h (E & own & (I1 & I2 & I3 & I4) & HT). split; [|split].
    + intros i. eapply tmatch_shows; [apply I1 | apply HT].
    + intros a c Hc. rewrite I4; [assumption|]. intros i Hi. apply I3 in Hi. congruence.
    + intros He a. apply I4. intros i Hi. specialize (I1 i). specialize (HT i). rewrite He in HT. cbn in HT. rewrite HT, Hi in I1.
      destruct (v i); try contradiction. discriminate.
Qed.
End SIM.
