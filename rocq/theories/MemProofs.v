(** What the parsers ask of the allocator. *)
From Verif Require Import Base ModelIo ModelTag ModelContents ModelBuf ModelTlv ModelHeap ModelBufLE ModelBufUE ModelTlvRaw Spec SpecIo SpecBuf SpecTlv SpecMem
  TagProofs IdProofs TagMain ContentsProofs TlvProofs BufProofs TlvMain StreamProofs StreamMain RawProofs RawMain RawTlv RawStream RawEdges.

Lemma capped_agrees k al : agree_upto k al (capped k al).
Proof. split; [reflexivity|]. intros h n H. cbn. destruct (N.leb_spec n k); [reflexivity | lia]. Qed.
Lemma capped_good k al : good_allocator al -> good_allocator (capped k al).
Proof. intros G h n a. cbn. destruct (n <=? k); [apply G | discriminate]. Qed.
Lemma mbind_ext {A B} (m m' : M A) (f g : A -> M B) h : m h = m' h -> (forall a h1, m h = Done a h1 -> f a h1 = g a h1) -> mbind m f h = mbind m' g h.
Proof. intros E H. unfold mbind. rewrite <- E. destruct (m h); auto. Qed.

Lemma alloc_same k al al' n h : agree_upto k al al' -> n <= k -> alloc al n h = alloc al' n h.
Proof. intros [J P] H. unfold alloc, new_octets. now rewrite J, (P h n H). Qed.
Lemma realloc_same k al al' p old n h : agree_upto k al al' -> n <= k -> realloc al p old n h = realloc al' p old n h.
Proof.
  intros [J P] H. unfold realloc, new_octets. rewrite J. destruct (isize_max <? old); [reflexivity|]. destruct (h_get p h); [|reflexivity].
  destruct (negb _); [reflexivity|]. destruct (_ || _); [reflexivity|]. cbv zeta. now rewrite P.
Qed.
Lemma le_reserve_same k al al' n r h : agree_upto k al al' -> le_len r + n <= k -> le_reserve al n r h = le_reserve al' n r h.
Proof.
  intros A H. unfold le_reserve. cbv zeta. destruct (_ <=? _); [reflexivity|]. destruct (_ <=? _); [reflexivity|].
  destruct (le_is_stack r); (apply mbind_ext; [|reflexivity]); [eapply alloc_same | eapply realloc_same]; eassumption.
Qed.
Lemma ue_reserve_same k al al' n r h : agree_upto k al al' -> ue_len r + n <= k -> ue_reserve al n r h = ue_reserve al' n r h.
Proof.
  intros A H. unfold ue_reserve. cbv zeta. destruct (_ <=? _); [reflexivity|]. destruct (_ <=? _); [reflexivity|].
  destruct (ue_is_stack r); (apply mbind_ext; [|reflexivity]); [|eapply realloc_same; eassumption].
  unfold ue_heap_new. destruct (_ =? 0); [reflexivity|]. apply mbind_ext; [|reflexivity]. eapply alloc_same; eassumption.
Qed.

Section GROW.
Context {S : Type} (R : reader S) (content : S -> list N) (HR : honest R content).
Lemma Ber_do_parse_grows fuel s w r s' w' : bytes_ok (content s) -> Ber_do_parse R fuel (s, w) = (r, (s', w')) -> nlen w <= nlen w'.
Proof using HR.
  intros Hok. unfold Ber_do_parse, pbind. destruct (ap_parse_id_length R content HR fuel s Hok) as (rl & s1 & d & E & _ & _ & Oc & _).
  rewrite (E w). destruct rl as [[|n]|e| |]; cbn [snd].
  - intros [= _ _ <-]. rewrite nlen_app. lia.
  - destruct (isize_max <? _); [intros [= _ _ <-]; rewrite nlen_app; lia|].
    destruct (ap_read_exact R content HR fuel n s1 Oc) as (rr & s2 & got & Eg & _). rewrite (Eg (w ++ d)).
    destruct rr as [[]|e| |]; cbn; intros [= _ _ <-]; rewrite !nlen_app; lia.
  - intros [= _ _ <-]. rewrite nlen_app. lia.
  - intros [= _ _ <-]. rewrite nlen_app. lia.
  - intros [= _ _ <-]. rewrite nlen_app. lia.
Qed.
Lemma Ber_do_parse_Ok fuel s w z s' w' : bytes_ok (content s) -> nlen w + nlen (content s) <= isize_max ->
  Ber_do_parse R fuel (s, w) = (Ok z, (s', w')) -> bytes_ok (content s') /\ nlen w' + nlen (content s') <= isize_max.
Proof using HR.
  intros Hok Hn. unfold Ber_do_parse, pbind. destruct (ap_parse_id_length R content HR fuel s Hok) as (rl & s1 & d & E & Nd & _ & Oc & _).
  rewrite (E w). destruct rl as [[|n]|e| |]; cbn [snd]; try discriminate.
  - intros [= _ <- <-]. rewrite nlen_app. split; [assumption | lia].
  - destruct (isize_max <? _); [discriminate|].
    destruct (ap_read_exact R content HR fuel n s1 Oc) as (rr & s2 & got & Eg & Ng & _ & Oc2 & _). rewrite (Eg (w ++ d)).
    destruct rr as [[]|e| |]; cbn; intros [= _ <- <-]. rewrite !nlen_app. split; [assumption | lia].
Qed.
Lemma Ber_loop_grows ifuel fuel : forall d s w s' w', bytes_ok (content s) -> nlen w + nlen (content s) <= isize_max ->
  Ber_loop R ifuel fuel d (s, w) = (Ok tt, (s', w')) -> nlen w <= nlen w'.
Proof using HR.
  induction fuel as [|fuel IH]; intros d s w s' w' Hok Hn; cbn [Ber_loop]; [discriminate|]. unfold pbind.
  destruct (Ber_do_parse R ifuel (s, w)) as [[z|e| |] [s1 w1]] eqn:E; try discriminate.
  pose proof (Ber_do_parse_grows _ _ _ _ _ _ Hok E). destruct (Ber_do_parse_Ok _ _ _ _ _ _ Hok Hn E) as [O1 N1]. cbv zeta.
  destruct (0 <? d + z)%Z; [|now intros [= _ <-]].
  intros K. specialize (IH _ _ _ _ _ O1 N1 K). lia.
Qed.
(** The header that was read. *)
Lemma header_read fuel s w0 l s' w : bytes_ok (content s) -> parse_id_length R fuel (s, w0) = (Ok l, (s', w)) ->
  exists id len, is_identifier id /\ w = w0 ++ id ++ len /\ content s = id ++ len ++ content s' /\
    match l with Definite n => minimal_length n len | Indefinite => len = [0x80] end.
Proof using HR.
  intros Hok E. destruct (rp_parse_id_length R content HR fuel _ _ _ _ _ E) as (c & Ec & Rp). specialize (Rp (content s')). rewrite <- Ec in Rp.
  set (F := Nat.max fuel (length (content s))).
  assert (parse_id_length slice_reader F (content s, w0) = (Ok l, (content s', w))) as E1.
  { rewrite <- Rp. apply rf_parse_id_length; [unfold F; lia|]. rewrite Rp. discriminate. }
  destruct (header_total (content s) Hok) as [id n len rest H Hi Hm Hn Hr|id rest H Hi Hr|e He|id t e H Hi He Ht].
  - rewrite H in E1. rewrite (stream_definite id n) in E1; auto; [|rewrite <- H; unfold F; lia]. injection E1 as <- <- <-. exists id, len. auto.
  - rewrite H in E1. rewrite (stream_indefinite id) in E1; auto; [|rewrite <- H; unfold F; lia]. injection E1 as <- <- <-. exists id, [0x80]. auto.
  - destruct (stream_id_error (content s) e w0 F Hok He ltac:(unfold F; lia)) as (st & E2). rewrite E1 in E2. discriminate.
  - rewrite H in E1. destruct (stream_length_error id t e w0 F Hi Ht He) as (st & E2); [rewrite <- H; unfold F; lia|]. rewrite E1 in E2. discriminate.
Qed.
Lemma Ber_do_parse_reads fuel s w z s' w' : bytes_ok (content s) -> Ber_do_parse R fuel (s, w) = (Ok z, (s', w')) -> w ++ content s = w' ++ content s'.
Proof using HR.
  intros Hok. unfold Ber_do_parse, pbind. destruct (parse_id_length R fuel (s, w)) as [[l|e| |] [s1 w1]] eqn:E; try discriminate.
  destruct (header_read _ _ _ _ _ _ Hok E) as (id & len & _ & -> & Ec & _). destruct l as [|n]; cbn [snd].
  - intros [= _ <- <-]. rewrite Ec, <- !app_assoc. reflexivity.
  - destruct (isize_max <? _); [discriminate|].
    destruct (read_exact R fuel n (s1, w ++ id ++ len)) as [[[]|e| |] [s2 w2]] eqn:E2; try discriminate. cbn [snd]. intros [= _ <- <-].
    destruct (rp_read_exact_1 R content HR fuel n _ _ _ _ E2) as (c & Ec2 & _ & -> & _). rewrite Ec, Ec2, <- !app_assoc. reflexivity.
Qed.
End GROW.

Section MEM.
Context (L : layout) (al al' : allocator) (k : N) (AG : agree_upto k al al')
        (Rp : L_raw L -> heap -> buf -> option N -> Prop) (BR : buffer_refines L al Rp)
        (RS : forall n r h, L_len L r + n <= k -> L_reserve L al n r h = L_reserve L al' n r h).
Context {S : Type} (R : reader S) (content : S -> list N) (HR : honest R content).
Notation raw := (L_raw L).

Lemma feed_same w : forall r h b own bs, Rp r h b own -> holds b bs -> bytes_ok w -> nlen bs + nlen w <= isize_max -> nlen bs + nlen w <= k ->
  raw_feed L al w r h = raw_feed L al' w r h.
Proof using AG BR RS.
  induction w as [|x w IH]; intros r h b own bs HRp H Hw Hn Hk; cbn [raw_feed]; [reflexivity|].
  rewrite nlen_cons in Hn, Hk. apply Forall_cons_iff in Hw as [Hx Hw].
  assert (L_io_write L al [x] r h = L_io_write L al' [x] r h) as E.
  { unfold L_io_write. apply mbind_ext; [|reflexivity]. apply RS. rewrite (rp_len L al Rp BR _ _ _ _ HRp), (holds_len _ _ H), nlen_cons, nlen_nil. lia. }
  apply mbind_ext; [assumption|]. intros r1 h1 E1.
  pose proof (io_write_result L al Rp BR [x] r h b own bs HRp H) as K. rewrite E1 in K. destruct K as (b1 & o1 & R1 & _ & H1).
  - now repeat constructor.
  - rewrite nlen_cons, nlen_nil. lia.
  - apply (IH r1 h1 b1 o1 (bs ++ [x])); auto; rewrite nlen_app, nlen_cons, nlen_nil; lia.
Qed.

Theorem der_parse_same C fuel s h0 : bytes_ok (content s) -> nlen (content s) <= isize_max -> nlen (content s) <= k ->
  (forall n s' w, parse_id_length R fuel (s, []) = (Ok (Definite n), (s', w)) -> nlen w + n <= k) ->
  raw_Der_parse L al R C fuel s h0 = raw_Der_parse L al' R C fuel s h0.
Proof using AG BR RS HR.
  intros Hok Hn Hk HD. unfold raw_Der_parse.
  destruct (ap_parse_id_length R content HR fuel s Hok) as (r & s1 & w & E & Nw & Ow & Oc & _).
  rewrite (E []) in *. cbn [app] in *.
  pose proof (feed_result L al Rp BR w (L_new L) h0 _ None [] (br_new _ _ _ BR h0 (fun _ => 0)) (holds_new _) Ow) as F. rewrite nlen_nil in F. specialize (F ltac:(lia)). cbn [app] in F.
  apply mbind_ext.
  { apply (feed_same w (L_new L) h0 _ None [] (br_new _ _ _ BR h0 (fun _ => 0)) (holds_new _) Ow); rewrite nlen_nil; lia. }
  intros r1 h1 E1. rewrite E1 in F. destruct F as (b1 & o1 & R1 & F1 & H1).
  destruct r as [[|n]|e| |]; try reflexivity. specialize (HD n s1 w eq_refl).
  apply mbind_ext; [reflexivity|]. intros t h2 E2. cbv zeta. unfold madd in E2. destruct (_ <? _); [|discriminate]. injection E2 as <- <-.
  apply mbind_ext; [|reflexivity]. apply RS. rewrite (rp_len L al Rp BR _ _ _ _ R1), (holds_len _ _ H1). assumption.
Qed.

Lemma ber_step_same fuel s w r h b own z s' w' : Rp r h b own -> holds b w -> bytes_ok (content s) -> nlen w + nlen (content s) <= isize_max ->
  Ber_do_parse R fuel (s, w) = (Ok z, (s', w')) -> nlen w' <= k ->
  raw_Ber_do_parse L al R fuel s r h = raw_Ber_do_parse L al' R fuel s r h.
Proof using AG BR RS HR.
  intros HRp Hw Hok Hn EP Hk. unfold raw_Ber_do_parse, Ber_do_parse, pbind in *. cbn [snd] in *. cbv zeta.
  destruct (ap_parse_id_length R content HR fuel s Hok) as (rl & s1 & d & E & Nd & Od & Oc & _).
  rewrite (E []), (E w) in *. cbn [app] in *.
  assert (nlen w + nlen d <= nlen w' /\ (forall n, rl = Ok (Definite n) -> nlen w + nlen d + n <= nlen w')) as [W1 W2].
  { destruct rl as [[|n]|e| |]; try discriminate.
    - injection EP as _ _ <-. rewrite nlen_app. split; [lia | discriminate].
    - cbn [snd] in EP. destruct (isize_max <? _); [discriminate|].
      destruct (ap_read_exact R content HR fuel n s1 Oc) as (rr & s2 & got & Eg & _ & _ & _ & _ & Kg & _). rewrite (Eg (w ++ d)) in EP.
      destruct rr as [[]|e| |]; try discriminate. injection EP as _ _ <-. rewrite !nlen_app, (Kg eq_refl). split; [lia|]. intros m [= <-]. lia. }
  pose proof (feed_result L al Rp BR d r h b own w HRp Hw Od ltac:(lia)) as F.
  apply mbind_ext; [eapply feed_same; eauto; lia|].
  intros r1 h1 E1. rewrite E1 in F. destruct F as (b1 & o1 & R1 & F1 & H1).
  destruct rl as [[|n]|e| |]; try reflexivity. specialize (W2 n eq_refl).
  apply mbind_ext; [|reflexivity]. apply RS. rewrite (rp_len L al Rp BR _ _ _ _ R1), (holds_len _ _ H1), nlen_app. lia.
Qed.
Lemma ber_loop_same ifuel fuel : forall d s w r h b own s' w', Rp r h b own -> holds b w -> bytes_ok (content s) ->
  nlen w + nlen (content s) <= isize_max -> Ber_loop R ifuel fuel d (s, w) = (Ok tt, (s', w')) -> nlen w' <= k ->
  raw_Ber_loop L al R ifuel fuel d s r h = raw_Ber_loop L al' R ifuel fuel d s r h.
Proof using AG BR RS HR.
  induction fuel as [|fuel IH]; intros d s w r h b own s' w' HRp Hw Hok Hn EP Hk; cbn [raw_Ber_loop Ber_loop] in *; [discriminate|].
  unfold pbind in EP. destruct (Ber_do_parse R ifuel (s, w)) as [[z|e| |] [s1 w1]] eqn:E; try discriminate.
  destruct (Ber_do_parse_Ok R content HR _ _ _ _ _ _ Hok Hn E) as [O1 N1]. cbv zeta in EP.
  assert (nlen w1 <= k) as Hk1.
  { destruct (0 <? d + z)%Z; [|now injection EP as _ ->]. pose proof (Ber_loop_grows R content HR _ _ _ _ _ _ _ O1 N1 EP). lia. }
  apply mbind_ext; [eapply ber_step_same; eassumption|]. intros [[rz sz] rr] h1 E1. cbv beta.
  pose proof (ber_step_raw L al Rp BR R content HR ifuel s w r h b own HRp Hw Hok Hn) as K. rewrite E in K. specialize (K ltac:(discriminate)).
  rewrite E1 in K. destruct K as (-> & -> & (b' & o' & R' & F' & H') & _).
  destruct (0 <? d + z)%Z; [|reflexivity]. eapply IH; eassumption.
Qed.
Theorem ber_parse_same fuel s h0 v : bytes_ok (content s) -> nlen (content s) <= isize_max -> fst (Ber_parse R fuel s) = Ok v -> nlen v <= k ->
  raw_Ber_parse L al R fuel s h0 = raw_Ber_parse L al' R fuel s h0.
Proof using AG BR RS HR.
  intros Hok Hn EP Hk. unfold raw_Ber_parse, Ber_parse in *.
  destruct (Ber_loop R fuel fuel 0 (s, [])) as [[[]|e| |] [s1 w1]] eqn:E; try discriminate. injection EP as ->.
  eapply (ber_loop_same fuel fuel 0 s []); [apply (br_new _ _ _ BR h0 (fun _ => 0)) | apply holds_new | assumption | rewrite nlen_nil; lia | eassumption | assumption].
Qed.
(** Any stream. *)
Theorem der_parse_bound C fuel s h0 : bytes_ok (content s) -> nlen (content s) <= isize_max -> nlen (content s) <= k ->
  (forall i n, header_at (content s) [] i n -> i + n <= k) ->
  raw_Der_parse L al R C fuel s h0 = raw_Der_parse L al' R C fuel s h0.
Proof using AG BR RS HR.
  intros Hok Hn Hk HD. apply der_parse_same; try assumption. intros n s' w E.
  destruct (header_read R content HR fuel s [] _ s' w Hok E) as (id & len & Hi & -> & Ec & Hm).
  apply (HD (nlen (id ++ len)) n). now apply (ha_intro _ [] id len (content s')).
Qed.
Lemma ber_step_bound fuel s w r h b own bs : Rp r h b own -> holds b w -> bytes_ok (content s) -> nlen w + nlen (content s) <= isize_max ->
  bs = w ++ content s -> nlen bs <= k -> (forall p i n, header_at bs p i n -> i + n <= k) ->
  raw_Ber_do_parse L al R fuel s r h = raw_Ber_do_parse L al' R fuel s r h.
Proof using AG BR RS HR.
  intros HRp Hw Hok Hn Eb Hk HD. unfold raw_Ber_do_parse. cbv zeta.
  destruct (ap_parse_id_length R content HR fuel s Hok) as (rl & s1 & d & E & Nd & Od & Oc & _).
  rewrite (E []). cbn [app]. rewrite Eb, nlen_app in Hk.
  pose proof (feed_result L al Rp BR d r h b own w HRp Hw Od ltac:(lia)) as F.
  apply mbind_ext; [eapply feed_same; eauto; lia|].
  intros r1 h1 E1. rewrite E1 in F. destruct F as (b1 & o1 & R1 & F1 & H1).
  destruct rl as [[|n]|e| |]; try reflexivity.
  apply mbind_ext; [|reflexivity]. apply RS. rewrite (rp_len L al Rp BR _ _ _ _ R1), (holds_len _ _ H1).
  destruct (header_read R content HR fuel s [] _ s1 d Hok (E [])) as (id & len & Hi & -> & Ec & Hm).
  apply (HD w). apply (ha_intro bs w id len (content s1)); [now rewrite Eb, Ec | assumption | assumption].
Qed.
Lemma ber_loop_bound ifuel fuel bs : nlen bs <= k -> (forall p i n, header_at bs p i n -> i + n <= k) ->
  forall d s w r h b own, Rp r h b own -> holds b w -> bytes_ok (content s) ->
  nlen w + nlen (content s) <= isize_max -> bs = w ++ content s -> fst (Ber_loop R ifuel fuel d (s, w)) <> Panic ->
  raw_Ber_loop L al R ifuel fuel d s r h = raw_Ber_loop L al' R ifuel fuel d s r h.
Proof using AG BR RS HR.
  intros Hk HD. induction fuel as [|fuel IH]; intros d s w r h b own HRp Hw Hok Hn Eb HP; cbn [raw_Ber_loop Ber_loop] in *; [reflexivity|].
  unfold pbind in HP. apply mbind_ext; [eapply ber_step_bound; eassumption|]. intros [[rz sz] rr] h1 E1. cbv beta.
  pose proof (ber_step_raw L al Rp BR R content HR ifuel s w r h b own HRp Hw Hok Hn) as K.
  destruct (Ber_do_parse R ifuel (s, w)) as [[z|e| |] [s1 w1]] eqn:E; cbn [fst] in HP, K.
  - specialize (K ltac:(discriminate)). rewrite E1 in K. destruct K as (-> & -> & (b' & o' & R' & F' & H') & N' & O'). cbv zeta in HP.
    destruct (0 <? d + z)%Z; [|reflexivity]. eapply (IH (d + z)%Z s1 w1); try eassumption.
    rewrite Eb. now apply (Ber_do_parse_reads R content HR ifuel s w z).
  - specialize (K ltac:(discriminate)). rewrite E1 in K. now destruct K as (-> & -> & _).
  - now elim HP.
  - specialize (K ltac:(discriminate)). rewrite E1 in K. now destruct K as (-> & -> & _).
Qed.
Theorem ber_parse_bound fuel s h0 : bytes_ok (content s) -> nlen (content s) <= isize_max -> nlen (content s) <= k ->
  (forall p i n, header_at (content s) p i n -> i + n <= k) -> fst (Ber_parse R fuel s) <> Panic ->
  raw_Ber_parse L al R fuel s h0 = raw_Ber_parse L al' R fuel s h0.
Proof using AG BR RS HR.
  intros Hok Hn Hk HD HP. unfold raw_Ber_parse, Ber_parse in *.
  eapply (ber_loop_bound fuel fuel (content s) Hk HD 0 s []); [apply (br_new _ _ _ BR h0 (fun _ => 0)) | apply holds_new | assumption | rewrite nlen_nil; lia | reflexivity |].
  destruct (Ber_loop R fuel fuel 0 (s, [])) as [[[]|e| |] [s1 w1]]; cbn in *; congruence.
Qed.
End MEM.

(** ** A header asking for more than there is *)
Section ASK.
Context (L : layout) (al : allocator) (k : N)
        (Rp : L_raw L -> heap -> buf -> option N -> Prop) (BR : buffer_refines L (capped k al) Rp)
        (inline : forall r h b own, Rp r h b own -> b_heap b = false -> bf_cap b = L_init_cap L /\ own = None)
        (ask : forall r h b n, Rp r h b None -> L_init_cap L < b_len b + n -> k < b_len b + n -> b_len b + n <= isize_max ->
           L_reserve L (capped k al) n r h = Abort).
Theorem der_parse_asks {S} (R : reader S) (content : S -> list N) C fuel s h0 w n s' : honest R content -> bytes_ok (content s) ->
  parse_id_length R fuel (s, []) = (Ok (Definite n), (s', w)) -> nlen w <= L_init_cap L -> L_init_cap L <= isize_max ->
  L_init_cap L < nlen w + n -> k < nlen w + n -> nlen w + n <= isize_max -> raw_Der_parse L (capped k al) R C fuel s h0 = Abort.
Proof using BR inline ask.
  intros HR Hok E Hw Hc Hi Hk Hn. unfold raw_Der_parse.
  destruct (ap_parse_id_length R content HR fuel s Hok) as (r & s1 & w1 & E1 & _ & Ow & _). rewrite (E1 []) in E. cbn [app] in E. injection E as -> -> ->.
  rewrite (E1 []). cbn [app].
  pose proof (feed_inline L (capped k al) Rp BR inline w (L_new L) h0 _ [] (br_new _ _ _ BR h0 (fun _ => 0)) eq_refl (holds_new _) Ow) as F.
  rewrite nlen_nil in F. specialize (F ltac:(lia) Hc). cbn [app] in F.
  unfold mbind at 1. unfold meets in F. destruct (raw_feed L (capped k al) w (L_new L) h0) as [r1 h1| | |]; try contradiction; [|reflexivity].
  destruct F as (b & R1 & _ & H1 & _). rewrite (rp_len L _ Rp BR _ _ _ _ R1), (holds_len _ _ H1).
  unfold mbind at 1. unfold madd. destruct (N.ltb_spec (nlen w + n) usize_limit); [|exfalso; pose proof isize_lt; pose proof usize_is; lia]. unfold mret at 1.
  unfold mbind at 1. rewrite (ask r1 h1 b n R1); [reflexivity | | |]; rewrite (holds_len _ _ H1); assumption.
Qed.
Theorem ber_parse_asks {S} (R : reader S) (content : S -> list N) fuel s h0 w n s' : honest R content -> bytes_ok (content s) -> (fuel <> 0)%nat ->
  parse_id_length R fuel (s, []) = (Ok (Definite n), (s', w)) -> nlen w <= L_init_cap L -> L_init_cap L <= isize_max ->
  L_init_cap L < nlen w + n -> k < nlen w + n -> nlen w + n <= isize_max -> raw_Ber_parse L (capped k al) R fuel s h0 = Abort.
Proof using BR inline ask.
  intros HR Hok Hf E Hw Hc Hi Hk Hn. unfold raw_Ber_parse. destruct fuel as [|fuel]; [congruence|]. cbn [raw_Ber_loop]. unfold raw_Ber_do_parse.
  destruct (ap_parse_id_length R content HR (Datatypes.S fuel) s Hok) as (r & s1 & w1 & E1 & _ & Ow & _). rewrite (E1 []) in E. cbn [app] in E. injection E as -> -> ->.
  rewrite (E1 []). cbn [app].
  pose proof (feed_inline L (capped k al) Rp BR inline w (L_new L) h0 _ [] (br_new _ _ _ BR h0 (fun _ => 0)) eq_refl (holds_new _) Ow) as F.
  rewrite nlen_nil in F. specialize (F ltac:(lia) Hc). cbn [app] in F. cbv zeta.
  unfold mbind at 1 2. unfold meets in F. destruct (raw_feed L (capped k al) w (L_new L) h0) as [r1 h1| | |]; try contradiction; [|reflexivity].
  destruct F as (b & R1 & _ & H1 & _).
  unfold mbind at 1. rewrite (ask r1 h1 b n R1); [reflexivity | | |]; rewrite (holds_len _ _ H1); assumption.
Qed.
End ASK.
(** ** With an allocator that has the memory *)
Section HAVE.
Context (L : layout) (al : allocator)
        (Rp : L_raw L -> heap -> buf -> option N -> Prop) (BR : buffer_refines L al Rp)
        (inline : forall r h b own, Rp r h b own -> b_heap b = false -> bf_cap b = L_init_cap L /\ own = None)
        (noalloc : forall n r h, L_len L r + n <= L_capacity L r -> L_reserve L al n r h <> Abort)
        (calm : forall n l r h, L_set_len L n r h <> Abort /\ L_store L n l r h <> Abort /\ L_extend L l r h <> Abort /\ L_drop L r h <> Abort).
Lemma mbind_abort {A B} (m : M A) (f : A -> M B) h : mbind m f h = Abort -> m h = Abort \/ exists a h1, m h = Done a h1 /\ f a h1 = Abort.
Proof. unfold mbind. destruct (m h); try discriminate; eauto. Qed.
Lemma mbind_inv {A B} (m : M A) (f : A -> M B) h x h' : mbind m f h = Done x h' -> exists a h1, m h = Done a h1 /\ f a h1 = Done x h'.
Proof. unfold mbind. destruct (m h); try discriminate; eauto. Qed.
Lemma feed_noabort w : forall r h b bs, Rp r h b None -> b_heap b = false -> holds b bs -> bytes_ok w -> nlen bs + nlen w <= L_init_cap L ->
  L_init_cap L <= isize_max -> raw_feed L al w r h <> Abort.
Proof using BR inline noalloc calm.
  induction w as [|x w IH]; intros r h b bs HRp Hb H Hw Hn Hc; cbn [raw_feed]; [discriminate|].
  rewrite nlen_cons in Hn. apply Forall_cons_iff in Hw as [Hx Hw].
  destruct (inline _ _ _ _ HRp Hb) as [Cb _].
  intros E. apply mbind_abort in E as [E|(r1 & h1 & E & E1)].
  - unfold L_io_write in E. apply mbind_abort in E as [E|(r1 & h1 & _ & E)]; [|now apply (calm 0 [x] r1 h1) in E].
    revert E. apply noalloc. rewrite (rp_len L al Rp BR _ _ _ _ HRp), (holds_len _ _ H). destruct (br_observe _ _ _ BR _ _ _ _ HRp) as (_ & -> & _).
    rewrite Cb, nlen_cons, nlen_nil. lia.
  - pose proof (feed_inline L al Rp BR inline [x] r h b bs HRp Hb H) as K. cbn [raw_feed] in K. unfold mbind in K. rewrite E in K. cbn [meets mret] in K.
    destruct K as (b1 & R1 & B1 & H1 & _); [now repeat constructor | rewrite nlen_cons, nlen_nil; lia | assumption|].
    revert E1. apply (IH r1 h1 b1 (bs ++ [x])); auto. rewrite nlen_app, nlen_cons, nlen_nil. lia.
Qed.
Context (served : forall n r h b, Rp r h b None -> (forall m, al_pick al h m <> None) -> L_reserve L al n r h <> Abort).
Lemma empty_heap (h : heap) : (forall a, h_get a h = None) -> h = [].
Proof.
  destruct h as [|[a c] h]; [reflexivity|]. intros H. specialize (H a). Transparent h_get. cbn in H. Opaque h_get. now rewrite N.eqb_refl in H.
Qed.
Theorem der_parse_noabort {S} (R : reader S) (content : S -> list N) C fuel s w n s' : honest R content -> bytes_ok (content s) ->
  parse_id_length R fuel (s, []) = (Ok (Definite n), (s', w)) -> nlen w <= L_init_cap L -> L_init_cap L <= isize_max ->
  (forall m, al_pick al [] m <> None) -> raw_Der_parse L al R C fuel s [] <> Abort.
Proof using BR inline noalloc served calm.
  intros HR Hok E Hw Hc Hs. unfold raw_Der_parse.
  destruct (ap_parse_id_length R content HR fuel s Hok) as (r & s1 & w1 & E1 & _ & Ow & _). rewrite (E1 []) in E. cbn [app] in E. injection E as -> -> ->.
  rewrite (E1 []). cbn [app].
  pose proof (feed_inline L al Rp BR inline w (L_new L) [] _ [] (br_new _ _ _ BR [] (fun _ => 0)) eq_refl (holds_new _) Ow) as F.
  rewrite nlen_nil in F. specialize (F ltac:(lia) Hc). cbn [app] in F.
  intros A. apply mbind_abort in A as [A|(r1 & h1 & Ef & A)].
  { revert A. apply (feed_noabort w _ [] _ [] (br_new _ _ _ BR [] (fun _ => 0)) eq_refl (holds_new _) Ow); [rewrite nlen_nil; lia | assumption]. }
  rewrite Ef in F. destruct F as (b & R1 & Bh & H1 & Sh). assert (h1 = []) as -> by now apply empty_heap.
  apply mbind_abort in A as [A|(t & h2 & Et & A)]; [unfold madd in A; destruct (_ <? _); discriminate|].
  unfold madd in Et. destruct (_ <? _); [|discriminate]. injection Et as <- <-. cbv zeta in A.
  apply mbind_abort in A as [A|(r2 & h2 & _ & A)]; [revert A; now apply (served n r1 [] b)|].
  apply mbind_abort in A as [A|(r3 & h3 & _ & A)]; [unfold L_set_len_checked in A; destruct (_ <? _); [discriminate | now apply (calm _ [] _ _) in A]|].
  assert (forall (x : res (L_raw L) * S) r h, (_ <-- L_drop L r; mret x) h <> Abort) as D.
  { intros x r h D. apply mbind_abort in D as [D|(? & ? & _ & D)]; [now apply (calm 0 [] _ _) in D | discriminate]. }
  destruct (C s' n) as [[cl wr|e] s2]; [|now apply D in A]. destruct (_ <? _); [discriminate|].
  apply mbind_abort in A as [A|(r4 & h4 & _ & A)]; [now apply (calm _ _ _ _) in A|]. destruct (_ <? _); [now apply D in A | discriminate].
Qed.
Theorem ber_parse_noabort {S} (R : reader S) (content : S -> list N) fuel s w n s' : honest R content -> bytes_ok (content s) ->
  parse_id_length R fuel (s, []) = (Ok (Definite n), (s', w)) -> fst (read_exact R fuel n (s', [])) <> Ok tt -> nlen w <= L_init_cap L -> L_init_cap L <= isize_max ->
  (forall m, al_pick al [] m <> None) -> raw_Ber_parse L al R fuel s [] <> Abort.
Proof using BR inline noalloc served calm.
  intros HR Hok E Ex Hw Hc Hs. unfold raw_Ber_parse.
  assert (forall (x : res (L_raw L) * S) r h, (_ <-- L_drop L r; mret x) h <> Abort) as D.
  { intros x r h D. apply mbind_abort in D as [D|(? & ? & _ & D)]; [now apply (calm 0 [] _ _) in D | discriminate]. }
  destruct fuel as [|fuel]; [apply D|]. cbn [raw_Ber_loop]. unfold raw_Ber_do_parse.
  destruct (ap_parse_id_length R content HR (Datatypes.S fuel) s Hok) as (r & s1 & w1 & E1 & _ & Ow & _). rewrite (E1 []) in E. cbn [app] in E. injection E as -> -> ->.
  rewrite (E1 []). cbn [app]. cbv zeta.
  pose proof (feed_inline L al Rp BR inline w (L_new L) [] _ [] (br_new _ _ _ BR [] (fun _ => 0)) eq_refl (holds_new _) Ow) as F.
  rewrite nlen_nil in F. specialize (F ltac:(lia) Hc). cbn [app] in F.
  destruct (read_exact R (Datatypes.S fuel) n (s', [])) as [rr [s2 got]].
  intros A. apply mbind_abort in A as [A|([[rz sz] rr'] & h1 & A' & A)].
  - apply mbind_abort in A as [A|(r1 & h1 & Ef & A)].
    { revert A. apply (feed_noabort w _ [] _ [] (br_new _ _ _ BR [] (fun _ => 0)) eq_refl (holds_new _) Ow); [rewrite nlen_nil; lia | assumption]. }
    rewrite Ef in F. destruct F as (b & R1 & Bh & H1 & Sh). assert (h1 = []) as -> by now apply empty_heap.
    apply mbind_abort in A as [A|(r2 & h2 & _ & A)]; [revert A; now apply (served n r1 [] b)|].
    apply mbind_abort in A as [A|(t & h3 & _ & A)]; [unfold madd in A; destruct (_ <? _); discriminate|].
    apply mbind_abort in A as [A|(r3 & h4 & _ & A)]; [unfold L_set_len_checked in A; destruct (_ <? _); [discriminate | now apply (calm _ [] _ _) in A]|].
    apply mbind_abort in A as [A|(r4 & h5 & _ & A)]; [now apply (calm _ _ _ _) in A|].
    destruct rr as [[]|e| |]; try discriminate. now apply Ex.
  - assert (forall z, rz <> Ok z) as N0.
    { intros z ->. apply mbind_inv in A' as (r1 & h2 & _ & A'). apply mbind_inv in A' as (r2 & h3 & _ & A'). apply mbind_inv in A' as (t & h4 & _ & A').
      apply mbind_inv in A' as (r3 & h5 & _ & A'). apply mbind_inv in A' as (r4 & h6 & _ & A'). destruct rr as [[]|e| |]; try discriminate. now apply Ex. }
    destruct rz as [z|e| |]; [now apply (N0 z) | now apply D in A | discriminate | now apply D in A].
Qed.
End HAVE.
Lemma store_calm p n l h : store p n l h <> Abort.
Proof. unfold store. destruct (h_get p h); [|discriminate]. destruct (_ <? _); discriminate. Qed.
Lemma load_calm p n l h : load p n l h <> Abort.
Proof. unfold load. destruct (h_get p h); [|discriminate]. destruct (_ <? _); discriminate. Qed.
Lemma dealloc_calm p n h : dealloc p n h <> Abort.
Proof. unfold dealloc. destruct (h_get p h); [|discriminate]. destruct (_ =? _); discriminate. Qed.
Lemma le_calm n l r h : L_set_len LE n r h <> Abort /\ L_store LE n l r h <> Abort /\ L_extend LE l r h <> Abort /\ L_drop LE r h <> Abort.
Proof.
  assert (forall n r h, le_set_len n r h <> Abort) as A by (intros; unfold le_set_len; destruct (le_is_stack _); discriminate).
  assert (forall n r h, le_store n l r h <> Abort) as B.
  { intros. unfold le_store. destruct (le_is_stack _); [destruct (_ <? _); discriminate|]. intros E. apply mbind_abort in E as [E|(? & ? & _ & E)]; [now apply store_calm in E | discriminate]. }
  cbn [LE L_set_len L_store L_extend L_drop]. repeat split; [apply A | apply B | |].
  - unfold le_extend. intros E. apply mbind_abort in E as [E|(? & ? & _ & E)]; [now apply B in E | now apply A in E].
  - unfold le_drop. destruct (le_is_stack _); [discriminate | apply dealloc_calm].
Qed.
Lemma ue_calm n l r h : L_set_len UE n r h <> Abort /\ L_store UE n l r h <> Abort /\ L_extend UE l r h <> Abort /\ L_drop UE r h <> Abort.
Proof.
  assert (forall n r h, ue_set_len n r h <> Abort) as A by (intros; unfold ue_set_len; destruct (_ <? _); discriminate).
  assert (forall n r h, ue_store n l r h <> Abort) as B.
  { intros. unfold ue_store. destruct (ue_is_stack _); [destruct (_ <? _); discriminate|]. intros E. apply mbind_abort in E as [E|(? & ? & _ & E)]; [now apply store_calm in E | discriminate]. }
  cbn [UE L_set_len L_store L_extend L_drop]. repeat split; [apply A | apply B | |].
  - unfold ue_extend. intros E. apply mbind_abort in E as [E|(? & ? & _ & E)]; [now apply B in E | now apply A in E].
  - unfold ue_drop. destruct (ue_is_stack _); [discriminate | apply dealloc_calm].
Qed.
Lemma le_noalloc al n r h : L_len LE r + n <= L_capacity LE r -> L_reserve LE al n r h <> Abort.
Proof.
  cbn [LE L_len L_capacity L_reserve]. intros H. unfold le_reserve. cbv zeta. destruct (_ <=? _); [discriminate|]. destruct (N.leb_spec (le_len r + n) (le_capacity r)); [discriminate | lia].
Qed.
Lemma ue_noalloc al n r h : L_len UE r + n <= L_capacity UE r -> L_reserve UE al n r h <> Abort.
Proof.
  cbn [UE L_len L_capacity L_reserve]. intros H. unfold ue_reserve. cbv zeta. destruct (_ <=? _); [discriminate|]. destruct (N.leb_spec (ue_len r + n) (ue_capacity r)); [discriminate | lia].
Qed.
Lemma capped_none k al h n : k < n -> al_pick (capped k al) h n = None.
Proof. intros H. cbn. destruct (N.leb_spec n k); [lia | reflexivity]. Qed.
Lemma le_asks al k r h b n : Rep LE le_view r h b None -> L_init_cap LE < b_len b + n -> k < b_len b + n -> b_len b + n <= isize_max ->
  L_reserve LE (capped k al) n r h = Abort.
Proof.
  intros (s & V & R) Hl Hk Hi. destruct R as [W R]. destruct s as [m l|p c l]; [|destruct R as (? & _ & _ & _ & _ & _ & [=])].
  pose proof (le_view_len _ _ V) as LL. pose proof (le_view_cap _ _ V) as CC.
  destruct V as [_ ->]. cbn [swf s_len s_cap] in *. destruct W as (Lm & Hm & Hok). destruct R as [-> _]. cbn [b_len] in *.
  destruct (le_stack_facts m l Lm Hok Hm) as (S & _). cbn [LE L_reserve]. unfold le_reserve. rewrite LL, CC, S. cbv zeta.
  pose proof isize_lt. pose proof usize_is. destruct (N.leb_spec usize_limit (l + n)); [lia|]. cbn [LE L_init_cap] in Hl.
  destruct (N.leb_spec (l + n) LE_INIT_CAPACITY) as [Q|]; [lia|].
  unfold mbind, alloc. destruct (N.ltb_spec isize_max (l + n)); [lia|]. destruct (N.eqb_spec (l + n) 0); [lia|]. now rewrite capped_none.
Qed.
Lemma ue_asks al k r h b n : Rep UE ue_view r h b None -> L_init_cap UE < b_len b + n -> k < b_len b + n -> b_len b + n <= isize_max ->
  L_reserve UE (capped k al) n r h = Abort.
Proof.
  intros (s & V & R) Hl Hk Hi. destruct R as [W R]. destruct s as [m l|p c l]; [|destruct R as (? & _ & _ & _ & _ & _ & [=])].
  pose proof (ue_view_len _ _ V) as LL. pose proof (ue_view_cap _ _ V) as CC.
  destruct V as [_ ->]. cbn [swf s_len s_cap] in *. destruct W as (Lm & Hm & Hok). destruct R as [-> _]. cbn [b_len] in *.
  destruct (ue_stack_facts m l Hm) as (S & _). cbn [UE L_reserve]. unfold ue_reserve. rewrite LL, CC, S. cbv zeta.
  pose proof isize_lt. pose proof usize_is. destruct (N.leb_spec usize_limit (l + n)); [lia|]. cbn [UE L_init_cap] in Hl.
  destruct (N.leb_spec (l + n) UE_INIT_CAPACITY) as [Q|]; [lia|].
  unfold ue_heap_new. destruct (N.eqb_spec (l + n) 0) as [Z|Z]; [lia|]. unfold mbind, alloc. destruct (N.ltb_spec isize_max (l + n)); [lia|].
  apply N.eqb_neq in Z. now rewrite Z, capped_none.
Qed.
Lemma le_served al n r h b : Rep LE le_view r h b None -> (forall m, al_pick al h m <> None) -> L_reserve LE al n r h <> Abort.
Proof.
  intros (s & V & R) P. destruct R as [W R]. destruct s as [m l|p c l]; [|destruct R as (? & _ & _ & _ & _ & _ & [=])].
  destruct V as [_ ->]. cbn [swf] in W. destruct W as (Lm & Hm & Hok).
  destruct (le_stack_facts m l Lm Hok Hm) as (S & _). cbn [LE L_reserve]. unfold le_reserve. rewrite S. cbv zeta.
  destruct (_ <=? _); [discriminate|]. destruct (_ <=? _); [discriminate|]. intros E.
  apply mbind_abort in E as [E|(p & h1 & _ & E)].
  { unfold alloc in E. destruct (_ <? _); [discriminate|]. destruct (_ =? _); [discriminate|]. match type of E with match al_pick al h ?q with _ => _ end = _ => destruct (al_pick al h q) eqn:Q; [discriminate | now apply P in Q] end. }
  apply mbind_abort in E as [E|(x & h2 & _ & E)]; [unfold le_load in E; rewrite S in E; destruct (_ <? _); discriminate|].
  apply mbind_abort in E as [E|(y & h3 & _ & E)]; [now apply store_calm in E | discriminate].
Qed.
Lemma ue_served al n r h b : Rep UE ue_view r h b None -> (forall m, al_pick al h m <> None) -> L_reserve UE al n r h <> Abort.
Proof.
  intros (s & V & R) P. destruct R as [W R]. destruct s as [m l|p c l]; [|destruct R as (? & _ & _ & _ & _ & _ & [=])].
  destruct V as [_ ->]. cbn [swf] in W. destruct W as (Lm & Hm & Hok).
  destruct (ue_stack_facts m l Hm) as (S & _). cbn [UE L_reserve]. unfold ue_reserve. rewrite S. cbv zeta.
  destruct (_ <=? _); [discriminate|]. destruct (_ <=? _); [discriminate|]. intros E.
  apply mbind_abort in E as [E|(p & h1 & _ & E)].
  { unfold ue_heap_new in E. destruct (_ =? _); [discriminate|]. apply mbind_abort in E as [E|(p & h1 & _ & E)]; [|discriminate].
    unfold alloc in E. destruct (_ <? _); [discriminate|]. destruct (_ =? _); [discriminate|]. match type of E with match al_pick al h ?q with _ => _ end = _ => destruct (al_pick al h q) eqn:Q; [discriminate | now apply P in Q] end. }
  apply mbind_abort in E as [E|(x & h2 & _ & E)]; [unfold ue_load in E; rewrite S in E; destruct (_ <? _); discriminate|].
  apply mbind_abort in E as [E|(y & h3 & _ & E)]; [now apply store_calm in E | discriminate].
Qed.
