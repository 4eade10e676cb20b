(** Lemmas for programs that read values and edit identifiers. *)
From Verif Require Import Base ModelIo ModelTag ModelContents ModelBuf ModelTlv ModelHeap ModelTlvRaw ModelUse Spec SpecIo SpecBuf SpecTlv SpecUse
  TagProofs IdProofs TagMain ContentsProofs BufProofs TlvProofs TlvMain StreamProofs StreamMain RawProofs RawMain RawTlv RawStream.

Section USE.
Context (L : layout) (al : allocator) (G : good_allocator al)
        (Rp : L_raw L -> heap -> buf -> option N -> Prop) (BR : buffer_refines L al Rp).
Notation raw := (L_raw L).
Notation tgood := (tgood L Rp).

Lemma vmatch_value r h b own bs : Rp r h b own -> holds b bs -> vmatch L Rp h (VBuf r) (EBuf (map Some bs ++ []) (nlen bs)) own.
Proof using.
  intros R (s & Em & Lb & Hsp). exists b. split; [exact R|]. rewrite app_nil_r, nlen_some. split; [exact Lb|]. split; [|lia].
  rewrite Em. apply fits_app_l, fits_some.
Qed.
Lemma raw_parse_good y {S} (R : reader S) content fuel s h0 : honest R content -> bytes_ok (content s) -> nlen (content s) <= isize_max ->
  stream_value y R fuel s <> Panic ->
  meets al (raw_parse L al y R fuel s h0) (fun x h => exists s', parsed L Rp (stream_value y R fuel s) s' h0 x h).
Proof using BR.
  intros HR Hb Hn HP. destruct y; cbn [raw_parse stream_value] in *; (eapply meets_mono; [apply (der_parse_raw L al Rp BR R content HR) + apply (ber_parse_raw L al Rp BR R content HR); assumption|]);
    cbv beta; intros x h K; eexists; exact K.
Qed.
Lemma edit_of_ok k id id' : edited k id id' -> edit_of k id = Ok id' /\ nlen id' = nlen id /\ is_identifier id'.
Proof using.
  clear. intros (cls & pc & n & Hid & H). destruct k as [c|p]; cbn [edit_of].
  - destruct (set_class_ok c cls pc n id Hid) as (x & E & Hx). rewrite (identifier_fun _ _ _ _ _ H Hx). split; [exact E|].
    split; [symmetry; eapply identifier_len; eassumption | now exists (class_num c), pc, n].
  - destruct (set_pc_ok p cls pc n id Hid) as (x & E & Hx). rewrite (identifier_fun _ _ _ _ _ H Hx). split; [exact E|].
    split; [symmetry; eapply identifier_len; eassumption | now exists cls, (pc_num p), n].
Qed.
(** The octets of a value start with its identifier; it can be exchanged. *)
Lemma encodes_id t bs k id' : match t with TDer id _ | TBer _ id _ => edited k id id' | _ => False end -> encodes t bs ->
  exists id rest, bs = id ++ rest /\ tlv_id bs = Ok id /\ edit_of k id = Ok id' /\ nlen id' = nlen id /\ bytes_ok id' /\ is_tlv (with_id id' t) /\ encodes (with_id id' t) (id' ++ rest).
Proof using.
  clear.
  assert (DER : forall id c, edited k id id' -> der_tlv id c bs -> exists rest, bs = id ++ rest /\ tlv_id bs = Ok id /\ edit_of k id = Ok id' /\ nlen id' = nlen id /\ bytes_ok id' /\ der_tlv id' c (id' ++ rest)).
  { intros id c HE D. destruct (edit_of_ok _ _ _ HE) as (E & Ln & Hi'). destruct (der_tlv_disassemble _ _ _ D) as (T & _).
    apply der_tlv_parts in D as (len & -> & Hi & Hm & Hn). exists (len ++ c). split; [reflexivity|]. split; [exact T|]. split; [exact E|]. split; [exact Ln|].
    split; [now apply is_identifier_ok|]. constructor; auto. }
  destruct t as [|id c|[] id c|v]; cbn [encodes with_id is_tlv]; try contradiction.
  - intros HE [D Hc]. destruct (DER _ _ HE D) as (rest & A1 & A2 & A3 & A4 & A5 & A6). exists id, rest. auto 10.
  - intros HE (-> & Hi & Hc). destruct (edit_of_ok _ _ _ HE) as (E & Ln & Hi'). destruct (tlv_parts_indefinite id c Hi) as (T & _).
    exists id, (0x80 :: c). pose proof (is_identifier_ok _ Hi'). auto 10.
  - intros HE [D Hc]. destruct (DER _ _ HE D) as (rest & A1 & A2 & A3 & A4 & A5 & A6). exists id, rest. auto 10.
Qed.
Lemma wstep_good h0 h v e o : tgood h0 e v h -> wlegal o e -> meets al (wraw L al o v h) (tgood h0 (wstep o e)).
Proof using BR G.
  intros TG HL. destruct o as [o|y i S R fuel s t|i k id']; cbn [wlegal wstep wraw] in *.
  - exact (tstep_good L al G Rp BR h0 h v e o TG HL).
  - destruct TG as (E & own & HI & HT). destruct HL as (He & (content & HR & Hb & Hn) & HV).
    destruct (empty_slot L Rp h0 h v E own e i HI HT He) as (EE & Ho).
    eapply meets_bind; [apply (raw_parse_good y R content fuel s h HR Hb Hn); destruct (stream_value y R fuel s); (contradiction || discriminate)|].
    intros [x s2] h' (s' & _ & K). cbn [fst snd] in *. destruct (stream_value y R fuel s) as [bs|er| |]; try contradiction.
    + destruct x as [r| | |]; try contradiction. destruct K as (b' & o' & R' & F' & H'). destruct HV as [Hy HE]. cbn [meets mret].
      exists (upd i (EBuf (map Some bs ++ []) (nlen bs)) E), (upd i o' own). split.
      * apply (inv_upd L al Rp BR h0 h h' v E own i); [exact HI | now rewrite Ho | now apply (vmatch_value r h' b')].
      * apply upd_match; [exact HT|]. apply tmatch_make; [now apply (ty_tlv y) | exact HE |].
        destruct (br_observe _ _ _ BR _ _ _ _ R') as (_ & _ & L1 & L2 & _). rewrite (holds_len _ _ H') in L1. lia.
    + destruct x as [|e'| |]; try contradiction. destruct K as (-> & F). cbn [meets mret]. subst t.
      exists (upd i EEmpty E), (upd i None own). split.
      * apply (inv_upd L al Rp BR h0 h h' v E own i); [exact HI | now rewrite Ho | reflexivity].
      * apply upd_match; [exact HT | reflexivity].
  - destruct TG as (E & own & HI & HT). assert (Ht : is_tlv (e i)) by (destruct (e i); cbn; auto).
    destruct (tlv_slot L al Rp BR h0 h v E own e i HI HT Ht) as (r & b & bs & Ev & R & Hb & He & Hs). rewrite Ev.
    destruct (encodes_id (e i) bs k id' HL He) as (id & rest & Eb & T & Ek & Ln & Ok' & Ht' & He').
    eapply (tput L al Rp BR h0 h v E own e i (with_id id' (e i)) (id' ++ rest)); [exact HI | exact HT | exact Ht' | exact He' | |].
    + rewrite Eb in Hs. rewrite nlen_app in *. lia.
    + destruct Hb as (sp & Em & Lb & Hsp). subst bs. rewrite <- app_assoc in Em.
      assert (W : bf_write 0 id' b = Ok {| b_mem := id' ++ rest ++ sp; b_len := b_len b; b_heap := b_heap b |}).
      { apply (bf_write_at [] id (rest ++ sp) id' 0 b); auto. }
      assert (HS : bf_slice b = id ++ rest).
      { apply holds_slice. exists sp. rewrite <- app_assoc. auto. }
      destruct (br_store _ _ _ BR r h b (own i) 0 id' _ R Ok' W) as (r' & h' & ES & R' & F').
      eapply meets_done.
      * unfold raw_edit_id. rewrite (mbind_done _ _ (id ++ rest) h h) by (rewrite (rp_slice L al Rp BR _ _ _ _ R), HS; reflexivity).
        rewrite T. rewrite (mbind_done (mlift (Ok id)) _ id h h eq_refl), Ek, (mbind_done (mlift (Ok id')) _ id' h h eq_refl), Ln, N.eqb_refl. exact ES.
      * eexists _, _. split; [exact R'|]. split; [exact F'|]. exists sp. cbn [b_mem b_len]. split; [now rewrite <- app_assoc|].
        split; [rewrite Lb; rewrite !nlen_app; lia | exact Hsp].
Qed.
Lemma wsteps_good os : forall h0 h v e, tgood h0 e v h -> all_wlegal os e -> meets al (wraws L al os v h) (tgood h0 (wsteps os e)).
Proof using BR G.
  induction os as [|o os IH]; intros h0 h v e TG HL; cbn [all_wlegal wsteps wraws] in *; [exact TG|].
  destruct HL as [H1 H2]. eapply meets_bind; [eapply wstep_good; eassumption|]. intros v1 h1 G1. now apply IH.
Qed.
Theorem use_program os h0 : all_wlegal os tempty ->
  meets al (wraws L al os vempty h0) (fun v h =>
    (forall i, tshows L h (v i) (wsteps os tempty i)) /\
    (forall a c, h_get a h0 = Some c -> h_get a h = Some c) /\
    ((forall i, wsteps os tempty i = TEmpty) -> forall a, h_get a h = h_get a h0)).
Proof using BR G.
  intros HL. eapply meets_mono; [apply (wsteps_good os h0 h0 vempty tempty); [|assumption]|].
  - exists eempty, (fun _ => None). split; [split; [|split; [|split]]|].
    + intros i. reflexivity.
    + intros i j a [=].
    + intros i a [=].
    + reflexivity.
    + reflexivity.
  - intros v h (E & own & (I1 & I2 & I3 & I4) & HT). split; [|split].
    + intros i. eapply (tmatch_shows L al Rp BR); [apply I1 | apply HT].
    + intros a c Hc. rewrite I4; [assumption|]. intros i Hi. apply I3 in Hi. congruence.
    + intros He a. apply I4. intros i Hi. specialize (I1 i). specialize (HT i). rewrite He in HT. cbn in HT. rewrite HT, Hi in I1.
      destruct (v i); try contradiction. discriminate.
Qed.
End USE.

(** Every value that is read is one of a program. *)
Lemma read_value y {S} (R : reader S) content fuel s bs : honest R content -> bytes_ok (content s) -> stream_value y R fuel s = Ok bs ->
  exists t, has_ty y t /\ encodes t bs.
Proof.
  intros HR Hb. destruct y; cbn [stream_value].
  - destruct (Der_parse R fuel s) as [r s'] eqn:E. cbn [fst]. intros ->. destruct (exact_der R content HR fuel s bs s' Hb E) as ((id & c & D) & Ec).
    exists (TDer id c). split; [exact I|]. rewrite Ec in Hb. apply bytes_ok_app in Hb as [Hb _]. split; [exact D|].
    apply der_tlv_parts in D as (len & -> & _). rewrite !bytes_ok_app in Hb. tauto.
  - destruct (Ber_parse R fuel s) as [r s'] eqn:E. cbn [fst]. intros ->. destruct (exact_ber R content HR fuel s bs s' Hb E) as (D & Ec).
    rewrite Ec in Hb. apply bytes_ok_app in Hb as [Hb _]. destruct D as [id c bs D|id items Hi Hit].
    + exists (TBer false id c). split; [exact I|]. split; [exact D|]. apply der_tlv_parts in D as (len & -> & _). rewrite !bytes_ok_app in Hb. tauto.
    + exists (TBer true id (items ++ [0; 0])). split; [exact I|]. split; [reflexivity|]. split; [exact Hi|]. rewrite !bytes_ok_app in Hb. apply bytes_ok_app. tauto.
Qed.
