(** The streaming parsers on raw memory. *)
From Verif Require Import Base ModelIo ModelTag ModelContents ModelBuf ModelTlv ModelHeap ModelTlvRaw Spec SpecIo SpecBuf SpecTlv
  TagProofs IdProofs TagMain ContentsProofs TlvProofs BufProofs TlvMain RawProofs RawMain RawTlv.

(** ** what a parser adds to its writer *)
Section APPENDS.
Context {S : Type} (R : reader S) (content : S -> list N) (HR : honest R content).
Definition appends {A} (Q : A -> Prop) (m : parser S A) : Prop :=
  forall s, bytes_ok (content s) -> exists r s' d,
    (forall w, m (s, w) = (r, (s', w ++ d))) /\ nlen d + nlen (content s') <= nlen (content s) /\
    bytes_ok d /\ bytes_ok (content s') /\ (forall a, r = Ok a -> Q a).
Definition any {A} (a : A) : Prop := True.
Lemma ap_stop {A} (Q : A -> Prop) r : (forall a, r = Ok a -> Q a) -> appends Q (fun st => (r, st)).
Proof.
  intros H s Hs. exists r, s, []. split; [|split; [|split; [|split]]]; auto; [intros w; now rewrite app_nil_r | rewrite nlen_nil; lia | constructor].
Qed.
Lemma ap_ret {A} (a : A) : appends any (pret a).
Proof. apply ap_stop. now intros. Qed.
Lemma ap_fail {A} e : appends (A := A) any (pfail e).
Proof. apply ap_stop. discriminate. Qed.
Lemma ap_nofuel {A} : appends (A := A) any (fun st => (NoFuel, st)).
Proof. apply ap_stop. discriminate. Qed.
(** Written octets have been read before: the writer gets what [credit] allows. *)
Lemma ap_bind {A B} Q (m : parser S A) (k : A -> parser S B) : appends Q m -> (forall a, Q a -> appends any (k a)) -> appends any (pbind m k).
Proof.
  intros Hm Hk s Hs. destruct (Hm s Hs) as (r & s1 & d1 & E1 & N1 & O1 & C1 & Q1).
  destruct r as [a|e| |].
  - destruct (Hk a (Q1 a eq_refl) s1 C1) as (r2 & s2 & d2 & E2 & N2 & O2 & C2 & _). exists r2, s2, (d1 ++ d2).
    split; [|split; [|split; [|split]]]; auto.
    + intros w. unfold pbind. rewrite E1, E2. now rewrite app_assoc.
    + rewrite nlen_app. lia.
    + apply bytes_ok_app. auto.
    + intros a0 _. exact I.
  - exists (Err e), s1, d1. split; [intros w; unfold pbind; now rewrite E1|]. repeat split; auto.
  - exists Panic, s1, d1. split; [intros w; unfold pbind; now rewrite E1|]. repeat split; auto.
  - exists NoFuel, s1, d1. split; [intros w; unfold pbind; now rewrite E1|]. repeat split; auto.
Qed.
(** Reading an octet, and writing it. *)
Lemma read_cases s : bytes_ok (content s) -> exists r s', (forall w, read_u8 R (s, w) = (r, (s', w))) /\
  nlen (content s') <= nlen (content s) /\ bytes_ok (content s') /\
  (forall a, r = Ok a -> a < 256 /\ 1 + nlen (content s') <= nlen (content s)).
Proof.
  intros Hs. pose proof (HR s 1) as H. unfold read_u8. destruct (rd_read R s 1) as [[bs|k] s'].
  - destruct H as [E L]. rewrite E, bytes_ok_app in Hs. rewrite E, nlen_app. destruct Hs as [Hb Hs].
    destruct bs as [|b [|b2 bs]].
    + eexists _, s'. split; [reflexivity|]. repeat split; auto; [lia | |]; discriminate.
    + eexists _, s'. split; [reflexivity|]. rewrite nlen_cons, nlen_nil. split; [lia|]. split; [assumption|]. intros a [= <-]. inversion Hb; subst.
      split; [assumption | lia].
    + rewrite !nlen_cons in L. lia.
  - rewrite H in *. eexists _, s'. split; [reflexivity|]. repeat split; auto; try lia; discriminate.
Qed.
Lemma ap_read_if {B} (k : N -> parser S B) :
  (forall b s, b < 256 -> bytes_ok (content s) -> exists r s' d, (forall w, k b (s, w) = (r, (s', w ++ d))) /\
     nlen d + nlen (content s') <= 1 + nlen (content s) /\ bytes_ok d /\ bytes_ok (content s')) ->
  appends any (o <- read_u8 R ;; k o).
Proof.
  intros K s Hs. destruct (read_cases s Hs) as (r & s1 & E & N1 & C1 & Q1). destruct r as [b|e| |].
  - destruct (Q1 b eq_refl) as [Hb Hl]. destruct (K b s1 Hb C1) as (r2 & s2 & d & E2 & N2 & O2 & C2). exists r2, s2, d.
    split; [|repeat split; auto; lia]. intros w. unfold pbind. now rewrite E, E2.
  - exists (Err e), s1, []. split; [intros w; unfold pbind; rewrite E; now rewrite app_nil_r|]. rewrite nlen_nil. repeat split; auto; try lia; try constructor.
  - exists Panic, s1, []. split; [intros w; unfold pbind; rewrite E; now rewrite app_nil_r|]. rewrite nlen_nil. repeat split; auto; try lia; try constructor.
  - exists NoFuel, s1, []. split; [intros w; unfold pbind; rewrite E; now rewrite app_nil_r|]. rewrite nlen_nil. repeat split; auto; try lia; try constructor.
Qed.
(** Not writing what was read. *)
Lemma ap_skip {B} (m : parser S B) : appends any m ->
  forall s, bytes_ok (content s) -> exists r s' d, (forall w, m (s, w) = (r, (s', w ++ d))) /\
     nlen d + nlen (content s') <= 1 + nlen (content s) /\ bytes_ok d /\ bytes_ok (content s').
Proof. intros H s Hs. destruct (H s Hs) as (r & s' & d & E & N1 & O & C & _). exists r, s', d. repeat split; auto. lia. Qed.
Lemma ap_wrote {B} b (m : parser S B) : b < 256 -> appends any m ->
  forall s, bytes_ok (content s) -> exists r s' d, (forall w, (write_u8 b ;;; m) (s, w) = (r, (s', w ++ d))) /\
     nlen d + nlen (content s') <= 1 + nlen (content s) /\ bytes_ok d /\ bytes_ok (content s').
Proof.
  intros Hb H s Hs. destruct (H s Hs) as (r & s' & d & E & N1 & O & C & _). exists r, s', (b :: d).
  split; [|split; [rewrite nlen_cons; lia | split; [now constructor | assumption]]].
  intros w. unfold pbind, write_u8. rewrite E. now rewrite <- app_assoc.
Qed.
Lemma ap_id_loop fuel : forall i b, b < 256 -> forall s, bytes_ok (content s) -> exists r s' d,
  (forall w, parse_id_loop R fuel i b (s, w) = (r, (s', w ++ d))) /\
  nlen d + nlen (content s') <= 1 + nlen (content s) /\ bytes_ok d /\ bytes_ok (content s').
Proof.
  induction fuel as [|fuel IH]; intros i b Hb; cbn [parse_id_loop].
  - apply ap_skip, ap_nofuel.
  - apply ap_wrote; [assumption|]. destruct (negb _); [apply ap_ret|]. apply ap_read_if. intros o s Ho. now apply IH.
Qed.
Lemma ap_parse_id fuel : appends any (parse_id R fuel).
Proof.
  apply ap_read_if. intros b s Hb Hs. revert s Hs. apply ap_wrote; [assumption|]. destruct (negb _); [apply ap_ret|].
  apply ap_read_if. intros o s Ho Hs. destruct (o <=? ID_MAX_SHORT); [apply ap_skip; auto using ap_fail|].
  destruct (o =? MORE_FLAG); [apply ap_skip; auto using ap_fail|]. now apply ap_id_loop.
Qed.
Lemma ap_len_loop k : forall len, appends any (parse_length_loop R k len).
Proof.
  induction k as [|k IH]; intros len; cbn [parse_length_loop]; [apply ap_ret|].
  apply ap_read_if. intros b s Hb Hs. revert s Hs. now apply ap_wrote.
Qed.
Lemma ap_parse_length : appends any (parse_length R).
Proof.
  apply ap_read_if. intros b s Hb Hs. revert s Hs. apply ap_wrote; [assumption|]. destruct (b =? _); [apply ap_ret|].
  destruct (negb _); [apply ap_ret|]. apply ap_read_if. intros o s Ho Hs. destruct (o =? 0); [apply ap_skip; auto using ap_fail|].
  revert s Hs. apply ap_wrote; [assumption|]. cbv zeta. destruct ((_ =? 1) && _); [apply ap_fail|]. destruct (8 <? _); [apply ap_fail|]. apply ap_len_loop.
Qed.
Lemma ap_parse_id_length fuel : appends any (parse_id_length R fuel).
Proof. unfold parse_id_length. apply (ap_bind any); [apply ap_parse_id | intros; apply ap_parse_length]. Qed.
(** read_exact: also never more than asked for. *)
Lemma ap_read_exact fuel : forall n s, bytes_ok (content s) -> exists r s' d,
  (forall w, read_exact R fuel n (s, w) = (r, (s', w ++ d))) /\ nlen d + nlen (content s') <= nlen (content s) /\
  bytes_ok d /\ bytes_ok (content s') /\ nlen d <= n /\ (r = Ok tt -> nlen d = n) /\ r <> Panic.
Proof.
  induction fuel as [|fuel IH]; intros n s Hs.
  - exists NoFuel, s, []. cbn [read_exact]. rewrite nlen_nil. repeat split; try discriminate; auto; try lia; try constructor; try (intros w; now rewrite app_nil_r).
  - destruct (N.eqb_spec n 0) as [->|Hn].
    { exists (Ok tt), s, []. pose proof (@nlen_nil N). repeat split; try discriminate; auto; try lia; try constructor; try (intros w; now rewrite app_nil_r). }
    pose proof (HR s n) as H. destruct (rd_read R s n) as [[bs|k] s1] eqn:E.
    + destruct H as [Ec L]. rewrite Ec, bytes_ok_app in Hs. destruct Hs as [Hb Hs]. destruct bs as [|b bs].
      * exists (Err (Io UnexpectedEof)), s1, []. rewrite nlen_nil, Ec. cbn [app].
        repeat split; try discriminate; auto; try lia; try now constructor.
        intros w. cbn [read_exact]. apply N.eqb_neq in Hn. now rewrite Hn, E, app_nil_r.
      * destruct (IH (n - nlen (b :: bs)) s1 Hs) as (r & s2 & d & E2 & N2 & O2 & C2 & L2 & K2 & P2).
        assert (O3 : bytes_ok ((b :: bs) ++ d)) by (apply bytes_ok_app; auto).
        exists r, s2, ((b :: bs) ++ d). rewrite !Ec, !nlen_app. repeat split; auto; try lia.
        intros w. cbn [read_exact]. apply N.eqb_neq in Hn. rewrite Hn, E. apply N.leb_le in L. rewrite L, E2. now rewrite app_assoc.
    + rewrite H in Hs |- *. assert (X : k = Interrupted \/ k <> Interrupted) by (destruct k; auto; right; discriminate).
      destruct X as [->|X].
      * destruct (IH n s1 Hs) as (r & s2 & d & E2 & X2). exists r, s2, d. split; [|exact X2].
        intros w. cbn [read_exact]. apply N.eqb_neq in Hn. now rewrite Hn, E.
      * exists (Err (Io k)), s1, []. rewrite nlen_nil. repeat split; try discriminate; auto; try lia; try now constructor.
        intros w. cbn [read_exact]. apply N.eqb_neq in Hn. rewrite Hn, E, app_nil_r. destruct k; try reflexivity. contradiction.
Qed.
End APPENDS.

Section PARSE.
Context (L : layout) (al : allocator) (G : good_allocator al)
        (Rp : L_raw L -> heap -> buf -> option N -> Prop) (BR : buffer_refines L al Rp).
Context {S : Type} (R : reader S) (content : S -> list N) (HR : honest R content).
Notation cf j := {| init_cap := L_init_cap L; junk := j |}.
Notation raw := (L_raw L).
(** [r] holds the octets [bs] in memory it owns. *)
Definition contains (bs : list N) (own : option N) (h : heap) (r : raw) (h' : heap) : Prop :=
  exists b' o', Rp r h' b' o' /\ frame own o' h h' /\ holds b' bs.

Lemma write_abs cfg b bs w : holds b bs -> nlen bs + nlen w <= isize_max ->
  exists b', bf_io_write cfg w b = Ok b' /\ holds b' (bs ++ w).
Proof.
  intros H Hn. unfold bf_io_write. destruct (reserve_ok cfg (nlen w) b bs H Hn) as (b1 & sp & -> & M1 & L1 & K1 & O1). cbn [rbind].
  destruct (extend_ok b1 bs sp w M1 L1 K1 O1) as (b2 & s2 & E & M2 & L2 & _ & O2). exists b2. split; [exact E|].
  exists s2. auto.
Qed.
Lemma io_write_result w r h b own bs : Rp r h b own -> holds b bs -> bytes_ok w -> nlen bs + nlen w <= isize_max ->
  meets al (L_io_write L al w r h) (contains (bs ++ w) own h).
Proof.
  intros HRp H Hw Hn. unfold contains.
  eapply (alloc_result L al Rp (L_io_write L al w) (fun c => bf_io_write c w)); [|eassumption | intros cfg; now apply write_abs].
  unfold L_io_write, bf_io_write.
  apply (asim_bind L al Rp BR _ _ (fun c => bf_reserve c (nlen w))); [eapply asim_reserve; eassumption | eapply dsim_extend; eassumption].
Qed.
Lemma contains_trans own h r h1 bs bs' r' h' : contains bs own h r h1 ->
  (forall b o, Rp r h1 b o -> holds b bs -> contains bs' o h1 r' h') -> contains bs' own h r' h'.
Proof.
  intros (b & o & R1 & F1 & H1) K. destruct (K b o R1 H1) as (b' & o' & R2 & F2 & H2). exists b', o'. split; [assumption|]. split; [|assumption].
  eapply frame_trans; [eassumption | eassumption |]. intros a Ea. eapply rp_live; eassumption.
Qed.
Lemma feed_result w : forall r h b own bs, Rp r h b own -> holds b bs -> bytes_ok w -> nlen bs + nlen w <= isize_max ->
  meets al (raw_feed L al w r h) (contains (bs ++ w) own h).
Proof.
  induction w as [|x w IH]; intros r h b own bs HRp H Hw Hn; cbn [raw_feed].
  - cbn [meets mret]. exists b, own. rewrite app_nil_r. auto using frame_refl.
  - rewrite nlen_cons in Hn. apply Forall_cons_iff in Hw as [Hx Hw].
    eapply meets_bind; [apply (io_write_result [x] r h b own bs HRp H)|].
    + now repeat constructor.
    + rewrite nlen_cons, nlen_nil. lia.
    + intros r1 h1 (b1 & o1 & R1 & F1 & H1). eapply meets_mono; [apply (IH r1 h1 b1 o1 (bs ++ [x]) R1 H1); auto|].
      * rewrite nlen_app, nlen_cons, nlen_nil. lia.
      * intros r2 h2 (b2 & o2 & R2 & F2 & H2). exists b2, o2. rewrite <- app_assoc in H2. split; [assumption|]. split; [|assumption].
        eapply frame_trans; [eassumption | eassumption |]. intros a Ea. eapply rp_live; eassumption.
Qed.
(** Room for [n] octets, then some of them stored. *)
Definition roomy (bs : list N) (n : N) (own : option N) (h : heap) (r : raw) (h' : heap) : Prop :=
  exists b' o' sp, Rp r h' b' o' /\ frame own o' h h' /\ b_mem b' = bs ++ sp /\ b_len b' = nlen bs + n /\ n <= nlen sp /\ bytes_ok sp.
Lemma room r h b own bs n : Rp r h b own -> holds b bs -> nlen bs + n <= isize_max ->
  meets al (L_reserve L al n r h) (fun r' h' => L_len L r' = nlen bs /\
    exists r'', L_set_len_checked L (nlen bs + n) r' h' = Done r'' h' /\ roomy bs n own h r'' h').
Proof.
  intros HRp H Hn.
  eapply meets_mono; [apply (rp_reserve L al Rp BR r h b own n HRp)|].
  - intros j. destruct (reserve_ok (cf j) n b bs H Hn) as (b1 & sp & E & _). eauto.
  - cbv beta. intros r' h' (j & b1 & o1 & R1 & F1 & E1).
    destruct (reserve_ok (cf j) n b bs H Hn) as (b2 & sp & E & M1 & L1 & K1 & O1). rewrite E1 in E. injection E as <-.
    split; [rewrite (rp_len L al Rp BR _ _ _ _ R1); assumption|].
    destruct (rp_set_len L al Rp BR r' h' b1 o1 (nlen bs + n) {| b_mem := b_mem b1; b_len := nlen bs + n; b_heap := b_heap b1 |} R1) as (r2 & E2 & R2).
    { unfold bf_set_len, bf_cap. rewrite M1, nlen_app. destruct (N.ltb_spec (nlen bs + nlen sp) (nlen bs + n)); [lia | reflexivity]. }
    exists r2. split; [assumption|]. eexists _, o1, sp. split; [exact R2|]. cbn [b_mem b_len]. auto.
Qed.
Lemma fill r h own h0 bs n got : roomy bs n own h0 r h -> nlen got <= n -> bytes_ok got ->
  exists r' h' b' o' tl, L_store L (nlen bs) got r h = Done r' h' /\ Rp r' h' b' o' /\ frame own o' h0 h' /\
    b_mem b' = bs ++ got ++ tl /\ b_len b' = nlen bs + n /\ bytes_ok tl.
Proof.
  intros (b & o & sp & HRp & F & M1 & L1 & K & O) Hg Hok.
  destruct (split_at (nlen got) sp ltac:(lia)) as (x & tl & -> & Lx).
  pose proof (bf_write_at bs x tl got (nlen bs) b M1 eq_refl Lx) as E.
  destruct (br_store _ _ _ BR _ _ _ _ _ _ _ HRp Hok E) as (r' & h' & Es & R' & F'). eexists r', h', _, o, tl.
  split; [exact Es|]. split; [exact R'|]. cbn [b_mem b_len]. apply bytes_ok_app in O as [_ O]. repeat split; auto; try apply F'.
  - eapply frame_trans; [eassumption | eassumption |]. intros a Ea. eapply rp_live; eassumption.
  - eapply frame_trans; [eassumption | eassumption |]. intros a Ea. eapply rp_live; eassumption.
  - eapply frame_trans; [eassumption | eassumption |]. intros a Ea. eapply rp_live; eassumption.
Qed.
Lemma drop_result r h b own h0 own0 {A} (x : A) : Rp r h b own -> frame own0 own h0 h ->
  exists h', (_ <-- L_drop L r ; mret x) h = Done x h' /\ frame own0 None h0 h'.
Proof.
  intros HRp F. destruct (br_drop _ _ _ BR _ _ _ _ HRp) as (h' & E & F'). exists h'.
  split; [now rewrite (mbind_done _ _ _ _ _ E)|].
  eapply frame_trans; [eassumption | eassumption |]. intros a Ea. eapply rp_live; eassumption.
Qed.

(** What a finished parse leaves: the value alone, or nothing. *)
Definition parsed (r : res (list N)) (s : S) (h0 : heap) (x : res raw * S) (h : heap) : Prop :=
  snd x = s /\
  match r, fst x with
  | Ok v, Ok b => contains v None h0 b h
  | Err e, Err e' => e' = e /\ frame None None h0 h
  | NoFuel, NoFuel => frame None None h0 h
  | _, _ => False
  end.

Theorem der_parse_raw fuel s h0 : bytes_ok (content s) -> nlen (content s) <= isize_max ->
  fst (Der_parse R fuel s) <> Panic ->
  meets al (raw_Der_parse L al R (fun s n => let (x, s') := rd_read R s n in (claim_of x, s')) fuel s h0)
    (parsed (fst (Der_parse R fuel s)) (snd (Der_parse R fuel s)) h0).
Proof.
  intros Hok Hn HP. unfold raw_Der_parse, Der_parse in *.
  destruct (ap_parse_id_length R content HR fuel s Hok) as (r & s1 & w & E & Nw & Ow & Oc & _).
  rewrite (E []) in *. cbn [app] in *.
  eapply meets_bind; [apply (feed_result w (L_new L) h0 _ None [] (br_new _ _ _ BR h0 (fun _ => 0)) (holds_new _) Ow); rewrite nlen_nil; lia|].
  cbn [app]. intros r1 h1 (b1 & o1 & R1 & F1 & H1).
  assert (FAIL : forall (e : res raw) (s' : S), meets al ((_ <-- L_drop L r1 ; mret (e, s')) h1) (fun x h => x = (e, s') /\ frame None None h0 h)).
  { intros e s'. destruct (drop_result r1 h1 b1 o1 h0 None (e, s') R1 F1) as (h' & Ed & Fd). eapply meets_done; [exact Ed | auto]. }
  destruct r as [[|n]|e| |]; cbn [fst snd] in *.
  - eapply meets_mono; [apply FAIL|]. cbv beta. intros x h (-> & F). split; [reflexivity|]. cbn. auto.
  - destruct (N.ltb_spec isize_max (nlen w + n)) as [|Hs]; [cbn in HP; congruence|].
    rewrite (rp_len L al Rp BR _ _ _ _ R1), (holds_len _ _ H1). cbv zeta.
    rewrite (mbind_done _ _ (nlen w + n) h1 h1).
    2:{ apply madd_ok, add_usize_ok. pose proof isize_lt. lia. }
    eapply meets_bind; [apply (room r1 h1 b1 o1 w n R1 H1 Hs)|]. cbv beta. intros r2 h2 (L2 & r3 & E3 & K3).
    rewrite (mbind_done _ _ _ _ _ E3).
    pose proof (HR s1 n) as Hread. destruct (rd_read R s1 n) as [[got|k] s2]; cbn [claim_of].
    + destruct Hread as [Ec Lg]. rewrite Ec, bytes_ok_app in Oc. destruct Oc as [Og Oc].
      destruct (N.ltb_spec n (nlen got)); [lia|].
      destruct (fill _ _ _ _ _ _ got K3 Lg Og) as (r4 & h4 & b4 & o4 & tl & E4 & R4 & F4 & M4 & L4 & O4).
      rewrite (mbind_done _ _ _ _ _ E4).
      assert (F04 : frame None o4 h0 h4) by (eapply frame_trans; [eassumption | eassumption |]; intros a Ea; eapply rp_live; eassumption).
      destruct (N.ltb_spec (nlen got) n) as [Hlt|Hge].
      * destruct (drop_result r4 h4 b4 o4 h0 None (Err UnterminatedBytes : res raw, s2) R4 F04) as (h' & Ed & Fd).
        eapply meets_done; [exact Ed|]. split; [reflexivity|]. cbn. auto.
      * cbn [meets mret]. split; [reflexivity|]. cbn [fst snd]. exists b4, o4. split; [assumption|]. split; [assumption|].
        exists tl. rewrite <- app_assoc. split; [assumption|]. split; [|assumption]. rewrite nlen_app. lia.
    + destruct K3 as (b3 & o3 & sp & R3 & F3 & _).
      assert (F03 : frame None o3 h0 h2) by (eapply frame_trans; [eassumption | eassumption |]; intros a Ea; eapply rp_live; eassumption).
      destruct (drop_result r3 h2 b3 o3 h0 None (Err (Io k) : res raw, s2) R3 F03) as (h' & Ed & Fd).
      eapply meets_done; [exact Ed|]. split; [reflexivity|]. cbn. auto.
  - eapply meets_mono; [apply FAIL|]. cbv beta. intros x h (-> & F). split; [reflexivity|]. cbn. auto.
  - congruence.
  - eapply meets_mono; [apply FAIL|]. cbv beta. intros x h (-> & F). split; [reflexivity|]. cbn. auto.
Qed.

Definition stepped (own : option N) (h : heap) (st : pst S) (ab : res Z * pst S) (x : res Z * S * raw) (h' : heap) : Prop :=
  match ab, x with
  | (ra, (sa, w')), (rz, s', r') =>
      rz = ra /\ s' = sa /\
      match ra with
      | Ok _ => contains w' own h r' h' /\ nlen w' + nlen (content s') <= isize_max /\ bytes_ok (content s')
      | _ => exists b' o', Rp r' h' b' o' /\ frame own o' h h'
      end
  end.
Lemma ber_step_raw fuel s w r h b own : Rp r h b own -> holds b w -> bytes_ok (content s) ->
  nlen w + nlen (content s) <= isize_max -> fst (Ber_do_parse R fuel (s, w)) <> Panic ->
  meets al (raw_Ber_do_parse L al R fuel s r h) (stepped own h (s, w) (Ber_do_parse R fuel (s, w))).
Proof.
  intros HRp Hw Hok Hn HP. unfold raw_Ber_do_parse, Ber_do_parse, pbind in *. cbn [snd] in *.
  destruct (ap_parse_id_length R content HR fuel s Hok) as (rl & s1 & d & E & Nd & Od & Oc & _).
  rewrite (E []), (E w) in *. cbn [app] in *. rewrite (rp_len L al Rp BR _ _ _ _ HRp), (holds_len _ _ Hw).
  eapply meets_bind; [apply (feed_result d r h b own w HRp Hw Od); lia|].
  intros r1 h1 (b1 & o1 & R1 & F1 & H1).
  destruct rl as [[|n]|e| |].
  - cbn [meets mret pret]. split; [reflexivity|]. split; [reflexivity|]. split; [|rewrite nlen_app; split; [lia | assumption]].
    exists b1, o1. auto.
  - cbn [snd] in *. destruct (N.ltb_spec isize_max (nlen (w ++ d) + n)) as [|Hs]; [cbn in HP; congruence|].
    eapply meets_bind; [apply (room r1 h1 b1 o1 (w ++ d) n R1 H1 Hs)|]. cbv beta zeta. intros r2 h2 (L2 & r3 & E3 & K3).
    rewrite L2. rewrite (mbind_done _ _ (nlen (w ++ d) + n) h2 h2).
    2:{ apply madd_ok, add_usize_ok. pose proof isize_lt. lia. }
    rewrite (mbind_done _ _ _ _ _ E3).
    destruct (ap_read_exact R content HR fuel n s1 Oc) as (rr & s2 & got & Eg & Ng & Og & Oc2 & Lg & Kg & Pg).
    rewrite (Eg []), (Eg (w ++ d)) in *. cbn [app].
    destruct (fill _ _ _ _ _ _ got K3 Lg Og) as (r4 & h4 & b4 & o4 & tl & E4 & R4 & F4 & M4 & L4 & O4).
    rewrite (mbind_done _ _ _ _ _ E4).
    assert (F04 : frame own o4 h h4) by (eapply frame_trans; [eassumption | eassumption |]; intros a Ea; eapply rp_live; eassumption).
    destruct rr as [[]|e| |].
    + specialize (Kg eq_refl). assert (H4 : holds b4 ((w ++ d) ++ got)).
      { exists tl. rewrite <- app_assoc. split; [assumption|]. split; [|assumption]. rewrite (nlen_app (w ++ d)). lia. }
      rewrite (mbind_done _ _ _ _ _ (rp_slice L al Rp BR _ _ _ _ R4)), (holds_slice _ _ H4). cbn [snd]. rewrite <- !app_assoc, drop_app_exact.
      cbn [meets mret]. split; [reflexivity|]. split; [reflexivity|]. rewrite <- app_assoc in H4. split; [exists b4, o4; auto|].
      split; [|assumption]. rewrite !nlen_app. lia.
    + cbn [meets mret]. split; [reflexivity|]. split; [reflexivity|]. exists b4, o4. auto.
    + congruence.
    + cbn [meets mret]. split; [reflexivity|]. split; [reflexivity|]. exists b4, o4. auto.
  - cbn [meets mret]. split; [reflexivity|]. split; [reflexivity|]. exists b1, o1. auto.
  - cbn in HP. congruence.
  - cbn [meets mret]. split; [reflexivity|]. split; [reflexivity|]. exists b1, o1. auto.
Qed.
Definition loop_result (st : res unit * pst S) : res (list N) * S :=
  match st with
  | (Ok _, (s', w)) => (Ok w, s')
  | (Err e, (s', _)) => (Err e, s')
  | (Panic, (s', _)) => (Panic, s')
  | (NoFuel, (s', _)) => (NoFuel, s')
  end.
Definition parsed_from (own : option N) (p : res (list N) * S) (h0 : heap) (x : res raw * S) (h : heap) : Prop :=
  snd x = snd p /\
  match fst p, fst x with
  | Ok v, Ok b => contains v own h0 b h
  | Err e, Err e' => e' = e /\ frame own None h0 h
  | NoFuel, NoFuel => frame own None h0 h
  | _, _ => False
  end.
Lemma ber_loop_raw ifuel fuel : forall d s w r h b own, Rp r h b own -> holds b w -> bytes_ok (content s) ->
  nlen w + nlen (content s) <= isize_max -> fst (Ber_loop R ifuel fuel d (s, w)) <> Panic ->
  meets al (raw_Ber_loop L al R ifuel fuel d s r h) (parsed_from own (loop_result (Ber_loop R ifuel fuel d (s, w))) h).
Proof.
  induction fuel as [|fuel IH]; intros d s w r h b own HRp Hw Hok Hn HP; cbn [raw_Ber_loop Ber_loop].
  - destruct (drop_result r h b own h own (NoFuel : res raw, s) HRp (frame_refl _ _)) as (h' & Ed & Fd).
    eapply meets_done; [exact Ed|]. split; [reflexivity|]. exact Fd.
  - cbn [Ber_loop] in HP. unfold pbind in *.
    eapply meets_bind.
    { apply (ber_step_raw ifuel s w r h b own HRp Hw Hok Hn). intros X. apply HP. destruct (Ber_do_parse R ifuel (s, w)) as [[z|e| |] st]; cbn in *; congruence. }
    destruct (Ber_do_parse R ifuel (s, w)) as [ra [sa w']]. intros [[rz s'] r'] h' (-> & -> & K). cbn [fst] in HP.
    destruct ra as [z|e| |].
    + destruct K as ((b' & o' & R' & F' & H') & N' & O'). cbv zeta in *.
      destruct (0 <? d + z)%Z.
      * eapply meets_mono; [apply (IH (d + z)%Z sa w' r' h' b' o' R' H' O' N' HP)|].
        intros x h2 (A & B). split; [assumption|]. destruct (fst (loop_result _)), (fst x); try contradiction.
        -- destruct B as (b2 & o2 & R2 & F2 & H2). exists b2, o2. split; [assumption|]. split; [|assumption].
           eapply frame_trans; [eassumption | eassumption |]. intros y Ey. eapply rp_live; eassumption.
        -- destruct B as (-> & B). split; [reflexivity|].
           eapply frame_trans; [eassumption | eassumption |]. intros y Ey. eapply rp_live; eassumption.
        -- eapply frame_trans; [eassumption | eassumption |]. intros y Ey. eapply rp_live; eassumption.
      * cbn [meets mret pret loop_result]. split; [reflexivity|]. exists b', o'. auto.
    + destruct K as (b' & o' & R' & F'). destruct (drop_result r' h' b' o' h own (Err e : res raw, sa) R' F') as (h2 & Ed & Fd).
      eapply meets_done; [exact Ed|]. split; [reflexivity|]. cbn. auto.
    + exfalso; apply HP; reflexivity.
    + destruct K as (b' & o' & R' & F'). destruct (drop_result r' h' b' o' h own (NoFuel : res raw, sa) R' F') as (h2 & Ed & Fd).
      eapply meets_done; [exact Ed|]. split; [reflexivity|]. exact Fd.
Qed.
Theorem ber_parse_raw fuel s h0 : bytes_ok (content s) -> nlen (content s) <= isize_max ->
  fst (Ber_parse R fuel s) <> Panic ->
  meets al (raw_Ber_parse L al R fuel s h0) (parsed (fst (Ber_parse R fuel s)) (snd (Ber_parse R fuel s)) h0).
Proof.
  intros Hok Hn HP.
  assert (EQ : Ber_parse R fuel s = loop_result (Ber_loop R fuel fuel 0 (s, []))) by reflexivity.
  rewrite EQ in *. unfold raw_Ber_parse.
  eapply meets_mono; [apply (ber_loop_raw fuel fuel 0 s [] (L_new L) h0 _ None (br_new _ _ _ BR h0 (fun _ => 0)) (holds_new _) Hok); rewrite ?nlen_nil; [lia|]|].
  - intros X. apply HP. destruct (Ber_loop R fuel fuel 0 (s, [])) as [[| | |] [? ?]]; cbn in *; congruence.
  - intros x h K. exact K.
Qed.

(** In the terms of the specification. *)
Definition leaves (h0 : heap) (r : res (list N)) (s : S) (x : res raw * S) (h : heap) : Prop :=
  snd x = s /\
  match r, fst x with
  | Ok v, Ok b =>
      L_slice L b h = Done v h /\
      (forall a c, h_get a h0 = Some c -> h_get a h = Some c) /\
      exists h', L_drop L b h = Done tt h' /\ forall a, h_get a h' = h_get a h0
  | Err e, Err e' => e' = e /\ forall a, h_get a h = h_get a h0
  | NoFuel, NoFuel => forall a, h_get a h = h_get a h0
  | _, _ => False
  end.
Lemma frame_none h h' : frame None None h h' -> forall a, h_get a h' = h_get a h.
Proof. intros (F & _) a. apply F; discriminate. Qed.
Lemma parsed_leaves r s h0 x h : parsed r s h0 x h -> leaves h0 r s x h.
Proof.
  intros (A & B). split; [assumption|]. destruct r, (fst x); try contradiction.
  - destruct B as (b' & o' & R' & F' & H'). split; [rewrite (rp_slice L al Rp BR _ _ _ _ R'), (holds_slice _ _ H'); reflexivity|]. split.
    + intros y c Hc. destruct F' as (F1 & F2 & _). rewrite F1; [assumption | discriminate |].
      intros ->. destruct (F2 y eq_refl) as [[=]|Z]. congruence.
    + destruct (br_drop _ _ _ BR _ _ _ _ R') as (h' & E & F2). exists h'. split; [assumption|]. apply frame_none.
      eapply frame_trans; [eassumption | eassumption |]. intros y Ey. eapply rp_live; eassumption.
  - destruct B as (-> & B). split; [reflexivity|]. now apply frame_none.
  - now apply frame_none.
Qed.
End PARSE.
