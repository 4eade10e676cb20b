(** Lemmas for programs that read values, in the release profile. *)
From Verif Require Import Base ModelIo ModelTag ModelContents ModelBuf ModelTlv ModelHeap ModelTlvRaw ModelUnwind ModelRelease ModelUse Spec SpecIo SpecBuf SpecTlv SpecUnwind SpecRelease SpecUse
  TagProofs IdProofs TagMain ContentsProofs BufProofs TlvProofs TlvMain StreamProofs StreamMain RawProofs RawMain RawTlv RawStream UnwindProofs RelProofs UseProofs.

Lemma octets_exact {S} (R : reader S) : octet_reader R -> forall fuel n s w, bytes_ok w -> bytes_ok (snd (snd (read_exact R fuel n (s, w)))).
Proof.
  intros H. induction fuel as [|fuel IH]; intros n s w Hw; cbn [read_exact]; [exact Hw|]. destruct (n =? 0); [exact Hw|].
  specialize (H s n). destruct (rd_read R s n) as [[[|b bs]|k] s']; cbn [fst] in H; [exact Hw | | destruct k; auto].
  destruct (nlen (b :: bs) <=? n); [apply IH, bytes_ok_app; auto | exact Hw].
Qed.
Lemma octets_written {S} (R : reader S) fuel : octet_reader R -> writes_octets (user_of R fuel).
Proof.
  intros H s n. cbn [user_of u_read u_read_exact]. split.
  - specialize (H s n). destruct (rd_read R s n) as [[bs|k] s']; cbn [fst] in *; [exact H | constructor].
  - pose proof (octets_exact R H fuel n s [] ltac:(constructor)) as K. destruct (read_exact R fuel n (s, [])) as [r [s' g]]. exact K.
Qed.

Section REL.
Context (L : layout) (al : allocator) (G : good_allocator al)
        (Rp : L_raw L -> heap -> buf -> option N -> Prop) (BR : buffer_refines L al Rp)
        (big : forall r h b own k, Rp r h b own -> isize_max < b_len b + k -> L_reserve L al k r h = Crash \/ L_reserve L al k r h = UB)
        (ops : rel_ops (L_raw L)) (RO : release_of L al ops).
Notation raw := (L_raw L).
Notation Lr := (released L ops).
Notation tgood := (tgood L Rp).

Lemma frame_untouched h h' : untouched h h' -> frame None None h h'.
Proof using. intros U. split; [intros a _ _; apply U | split; intros a [=]]. Qed.
(** What [owning] returns is the buffer it ended with. *)
Lemma owning_rep {S} (O : Prop) (m : B L unit) (Q : res unit -> S -> buf -> Prop) s b h bf own h0 : triple L al Rp O (fun s' bf' => s' = s /\ bf' = bf) m Q -> Rp b h bf own -> frame None own h0 h ->
  match owning L m s b h with
  | Ends (Ok b') s' h' => exists bf' own', Q (Ok tt) s' bf' /\ Rp b' h' bf' own' /\ frame None own' h0 h'
  | Ends r s' h' => exists bf' r', Q r' s' bf' /\ untouched h0 h' /\
      match r', r with Err e, Err e' => e' = e | Panic, Panic => True | NoFuel, NoFuel => True | _, _ => False end
  | EAbort => out_of_memory al
  | EOversize => O
  | EUB => False
  end.
Proof using BR.
  intros T R F. pose proof (owning_clean L al Rp BR O m Q s b h bf own h0 T R F) as K. specialize (T s b h bf own R (conj eq_refl eq_refl)). unfold owning in *. unfold post in T.
  destruct (m s b h) as [[[]|e| |] s' b' h'| | |]; try exact K; [|destruct (L_drop L b' h'); exact K ..]. destruct T as (bf' & o' & R' & F' & X). exists bf', o'. split; [exact X|]. split; [exact R'|].
  eapply frame_trans; [eassumption | eassumption |]. intros y Ey. eapply rp_live; eassumption.
Qed.
Definition u_parse (y : tlv_ty) {S} (R : reader S) fuel (s : S) h : ends S raw :=
  match y with TyDer => u_Der_parse L al (user_of R fuel) fuel s h | TyBer => u_Ber_parse L al (user_of R fuel) fuel s h end.
Notation cf j := {| init_cap := L_init_cap L; junk := j |}.
Lemma u_parse_rep y {S} (R : reader S) content fuel s h0 : honest R content -> bytes_ok (content s) -> nlen (content s) <= isize_max -> stream_value y R fuel s <> Panic ->
  match u_parse y R fuel s h0 with
  | Ends Panic _ _ => False
  | Ends r s' h => parsed L Rp (stream_value y R fuel s) s' h0 (r, s') h
  | EAbort => out_of_memory al
  | _ => False
  end.
Proof using BR big.
  intros HR Ok0 N0 NP. destruct y; cbn [u_parse stream_value] in *.
  - pose proof (k_Der L al Rp BR big R content HR False fuel s Ok0 N0 ltac:(intros X; now apply NP)) as T. unfold u_Der_parse.
    pose proof (owning_rep False _ _ s (L_new L) h0 (bf_new (cf (fun _ => 0))) None h0
      (t_conseq L al Rp _ _ (fun s' bf' => s' = s /\ bf' = bf_new (cf (fun _ => 0))) _ _ _ T ltac:(intros ? ? (-> & ->); split; [reflexivity | apply holds_new]) (fun _ _ _ x => x))
      (br_new _ _ _ BR h0 (fun _ => 0)) (frame_refl None h0)) as K. cbv beta in K.
    destruct (Der_parse R fuel s) as [p s1]. cbn [fst] in *. unfold parsed. cbn [fst snd].
    destruct (owning L _ s (L_new L) h0) as [[b|e| |] s' h'| | |]; auto.
    + destruct K as (bf' & o' & HQ & R' & F'). destruct p as [v|e| |]; [|destruct HQ as (_ & HQ); discriminate..]. destruct HQ as (_ & _ & H). split; [reflexivity|]. exists bf', o'. auto.
    + destruct K as (bf' & r & HQ & X & Y). destruct r; try contradiction. subst e0. apply frame_untouched in X. destruct p as [v|e'| |]; destruct HQ as (_ & HQ); [destruct HQ as [HQ _]; discriminate | | discriminate..].
      injection HQ as ->. auto.
    + destruct K as (bf' & r & HQ & X & Y). destruct r; try contradiction. destruct p as [v|e'| |]; destruct HQ as (_ & HQ); try discriminate; [destruct HQ as [HQ _]; discriminate | congruence].
    + destruct K as (bf' & r & HQ & X & Y). destruct r; try contradiction. apply frame_untouched in X. destruct p as [v|e'| |]; destruct HQ as (_ & HQ); try discriminate; [destruct HQ as [HQ _]; discriminate | auto].
  - assert (EP : fst (Ber_loop R fuel fuel 0 (s, [])) = Panic -> False).
    { intros X. apply NP. unfold Ber_parse. destruct (Ber_loop R fuel fuel 0 (s, [])) as [[| | |] [? ?]]; cbn in *; congruence. }
    pose proof (k_Ber_loop L al Rp BR big R content HR False fuel fuel 0 s [] Ok0 ltac:(change (nlen (@nil N)) with 0; lia) EP) as T. unfold u_Ber_parse.
    pose proof (owning_rep False _ _ s (L_new L) h0 (bf_new (cf (fun _ => 0))) None h0
      (t_conseq L al Rp _ _ (fun s' bf' => s' = s /\ bf' = bf_new (cf (fun _ => 0))) _ _ _ T ltac:(intros ? ? (-> & ->); split; [reflexivity | apply holds_new]) (fun _ _ _ x => x))
      (br_new _ _ _ BR h0 (fun _ => 0)) (frame_refl None h0)) as K. cbv beta in K. unfold parsed. cbn [fst snd].
    destruct (owning L _ s (L_new L) h0) as [[b|e| |] s' h'| | |]; auto; unfold Ber_parse in *.
    + destruct K as (bf' & o' & (w & E & H) & R' & F'). rewrite E. cbn [fst snd]. split; [reflexivity|]. exists bf', o'. split; [exact R'|]. split; [exact F' | exact (H tt eq_refl)].
    + destruct K as (bf' & r & (w & E & H) & X & Y). destruct r; try contradiction. subst e0. rewrite E. cbn [fst snd]. auto using frame_untouched.
    + destruct K as (bf' & r & (w & E & H) & X & Y). destruct r; try contradiction. apply EP. now rewrite E.
    + destruct K as (bf' & r & (w & E & H) & X & Y). destruct r; try contradiction. rewrite E. cbn [fst snd]. auto using frame_untouched.
Qed.
Lemma frame_moved own h h1 h2 : frame None own h h1 -> untouched h1 h2 -> frame None own h h2.
Proof using. intros (A & B & C) U. split; [intros a; rewrite (U a); apply A | split; [exact B | intros a [=]]]. Qed.
Lemma rel_parse_good y {S} (R : reader S) content fuel s h0 : octet_reader R -> honest R content -> bytes_ok (content s) -> nlen (content s) <= isize_max ->
  stream_value y R fuel s <> Panic ->
  meets al (rel_parse Lr al y R fuel s h0) (fun x h => exists s', parsed L Rp (stream_value y R fuel s) s' h0 x h).
Proof using BR big RO.
  intros HO HR Hb Hn HP. pose proof (u_parse_rep y R content fuel s h0 HR Hb Hn HP) as K.
  assert (A : agree (u_parse y R fuel s h0) (match y with TyDer => rel_Der_parse Lr al (user_of R fuel) fuel s h0 | TyBer => rel_Ber_parse Lr al (user_of R fuel) fuel s h0 end)).
  { destruct y; [apply (der_parse_agrees L al Rp BR big ops RO) | apply (ber_parse_agrees L al Rp BR big ops RO)]; now apply octets_written. }
  unfold rel_parse. change (L_raw Lr) with raw in *. destruct (match y with TyDer => _ | TyBer => _ end) as [r' s' h'| | |], (u_parse y R fuel s h0) as [r s1 h1| | |]; cbn [agree] in A; try contradiction; auto.
  destruct A as (-> & -> & U).
  assert (P2 : parsed L Rp (stream_value y R fuel s) s1 h0 (r, s1) h1 -> parsed L Rp (stream_value y R fuel s) s1 h0 (r, s1) h').
  { unfold parsed. cbn [fst snd]. intros (_ & X). split; [reflexivity|]. destruct (stream_value y R fuel s), r; try contradiction.
    - destruct X as (b' & o' & R' & F' & H'). exists b', o'. split; [|split; [eapply frame_moved; eassumption | exact H']]. eapply (br_frame _ _ _ BR); [exact R' | intros; apply U].
    - destruct X as (-> & F). split; [reflexivity | eapply frame_moved; eassumption].
    - eapply frame_moved; eassumption. }
  destruct r; [| |contradiction|]; cbn [meets]; eexists; apply P2; exact K.
Qed.
Lemma rel_wstep_good h0 h v e o : tgood h0 e v h -> wlegal o e -> match o with WParse _ _ _ R _ _ _ => octet_reader R | _ => True end ->
  meets al (rel_wraw Lr al o v h) (tgood h0 (wstep o e)).
Proof using BR G big RO.
  intros TG HL HO. pose proof (released_refines L al Rp BR ops RO) as BR'. destruct o as [o|y i S R fuel s t|i k id'].
  - exact (meets_covers al _ _ h _ (covers_vraw Lr al o v) (tstep_good Lr al G Rp BR' h0 h v e o TG HL)).
  - cbn [wlegal wstep rel_wraw] in *. destruct TG as (E & own & HI & HT). destruct HL as (He & (content & HR & Hb & Hn) & HV).
    destruct (empty_slot L Rp h0 h v E own e i HI HT He) as (EE & Ho).
    eapply meets_bind; [apply (rel_parse_good y R content fuel s h HO HR Hb Hn); destruct (stream_value y R fuel s); (contradiction || discriminate)|].
    intros [x s2] h' (s' & _ & K). cbn [fst snd] in *. destruct (stream_value y R fuel s) as [bs|er| |]; try contradiction.
    + destruct x as [r| | |]; try contradiction. destruct K as (b' & o' & R' & F' & H'). destruct HV as [Hy HE]. cbn [meets mret].
      exists (upd i (EBuf (map Some bs ++ []) (nlen bs)) E), (upd i o' own). split.
      * apply (inv_upd L al Rp BR h0 h h' v E own i); [exact HI | now rewrite Ho | now apply (vmatch_value L Rp r h' b')].
      * apply upd_match; [exact HT|]. apply tmatch_make; [now apply (ty_tlv y) | exact HE |].
        destruct (br_observe _ _ _ BR _ _ _ _ R') as (_ & _ & L1 & L2 & _). rewrite (holds_len _ _ H') in L1. lia.
    + destruct x as [|e'| |]; try contradiction. destruct K as (-> & F). cbn [meets mret]. subst t.
      exists (upd i EEmpty E), (upd i None own). split.
      * apply (inv_upd L al Rp BR h0 h h' v E own i); [exact HI | now rewrite Ho | reflexivity].
      * apply upd_match; [exact HT | reflexivity].
  - exact (wstep_good Lr al G Rp BR' h0 h v e (WSetId i k id') TG HL).
Qed.
Lemma rel_wsteps_good os : forall h0 h v e, tgood h0 e v h -> all_wlegal os e -> octet_readers os -> meets al (rel_wraws Lr al os v h) (tgood h0 (wsteps os e)).
Proof using BR G big RO.
  induction os as [|o os IH]; intros h0 h v e TG HL HO; cbn [all_wlegal wsteps rel_wraws] in *; [exact TG|].
  destruct HL as [H1 H2]. assert (HO1 : match o with WParse _ _ _ R _ _ _ => octet_reader R | _ => True end) by (destruct o; [exact I | apply HO | exact I]).
  assert (HO2 : octet_readers os) by (destruct o; [exact HO | apply HO | exact HO]).
  eapply meets_bind; [eapply rel_wstep_good; eassumption|]. intros v1 h1 G1. now apply IH.
Qed.
Theorem rel_use_program os h0 : all_wlegal os tempty -> octet_readers os ->
  meets al (rel_wraws Lr al os vempty h0) (fun v h =>
    (forall i, tshows L h (v i) (wsteps os tempty i)) /\
    (forall a c, h_get a h0 = Some c -> h_get a h = Some c) /\
    ((forall i, wsteps os tempty i = TEmpty) -> forall a, h_get a h = h_get a h0)).
Proof using BR G big RO.
  intros HL HO. eapply meets_mono; [apply (rel_wsteps_good os h0 h0 vempty tempty); [|assumption ..]|].
  - exists eempty, (fun _ => None). split; [split; [|split; [|split]]|].
    + intros i. reflexivity.
    + intros i j a [=].
    + intros i a [=].
    + reflexivity.
    + reflexivity.
  - intros v h (E & own & (I1 & I2 & I3 & I4) & HT). split; [|split].
    + intros i. eapply (tmatch_shows L al Rp BR); [apply I1 | apply HT].
    + intros a c Hc. rewrite I4; [assumption|]. intros i Hi. apply I3 in Hi. congruence.
    + intros He a. apply I4. intros i Hi. specialize (I1 i). specialize (HT i). rewrite He in HT. cbn in HT. rewrite HT, Hi in I1.
      destruct (v i); try contradiction. discriminate.
Qed.
End REL.
