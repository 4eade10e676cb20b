(** What is written into a buffer; all the types; the release profile beyond isize::MAX; the machine with eight octets. *)
From Coq Require Import String Ascii.
From Verif Require Import Base ModelError ModelIo ModelTag ModelContents ModelBuf ModelTlv ModelSerde ModelAttr ModelDerive ModelWord ModelWordTlv ModelSerWord.
From Verif Require Import Spec SpecSerde SpecAttr SpecDerive SpecSerWord.
From Verif Require Import TagProofs IdProofs TagMain ContentsProofs TlvProofs BufProofs TlvMain SerdeOctets SerdeSer AttrProofs AttrParse DeriveProofs DeriveMain.
From Verif Require Import WordProofs WordTlvProofs SerWordProofs.

Section MACHINE.
Context (w : N) (rel : bool) (E : env).
Hypothesis H1 : 1 <= w.
Hypothesis H8 : w <= 8.
Hypothesis HC : init_cap (e_cfg E) <= word_max w.
Notation Max := (word_max w).
Notation Lim := (word_limit w).
Notation law := (w_law w rel).
Notation bnd := (w_bounded w E).
Notation fits := (fits w).
Notation W0 := (x_buf_writer w (e_cfg E)).

Definition sane (r : res (option N)) : Prop := r = Panic \/ r = Ok None \/ exists n, r = Ok (Some n) /\ n < Lim.
Lemma either C (D : serialize (car C)) v : law C D -> bnd C D -> wf C v ->
  nlen (contents_of C v) <= Max /\ w_serialises w D v (id_of C v) (contents_of C v) \/
  Max < nlen (contents_of C v) /\ w_overflows w E D v (id_of C v).
Proof.
  clear HC. intros L B F. destruct (N.ltb_spec Max (nlen (contents_of C v))) as [G|G]; [right | left]; (split; [assumption|]).
  - now apply B.
  - apply L; [assumption|]. intros _. assumption.
Qed.
Lemma either_id C (D : serialize (car C)) v : law C D -> bnd C D -> wf C v ->
  emits (fun _ W => write_id D W v) (id_of C v) /\ announces (id_len D v) (id_of C v) /\ sane (der_contents_len D v).
Proof.
  intros L B F. destruct (either C D v L B F) as [[_ [A1 A2 A3 A4]]|[_ [A1 A2 A3 A4]]]; (split; [assumption | split; [assumption|]]).
  - destruct A4 as [A4|[[A4 K]|[_ A4]]]; [right; left; assumption | right; right; eauto | now left].
  - exact A4.
Qed.
Lemma add_sane a b : x_add w rel a b = Panic \/ exists n, x_add w rel a b = Ok n /\ n < Lim.
Proof.
  clear. unfold x_add, w_add_usize. destruct rel.
  - right. eexists. split; [reflexivity|]. apply N.mod_lt. apply N.pow_nonzero. discriminate.
  - destruct (N.ltb_spec (a + b) Lim); [right; eauto | now left].
Qed.
Lemma lift_sane a b (k : N -> res (option N)) : (forall n, n < Lim -> sane (k n)) -> sane (let! t := x_add w rel a b in k t).
Proof.
  intros K. destruct (add_sane a b) as [->|(n & -> & L)]; cbn [rbind]; [now left | now apply K].
Qed.
Lemma x_der_len_sane C (D : serialize (car C)) v : law C D -> bnd C D -> wf C v -> sane (x_der_len w rel D v).
Proof.
  intros L B F. destruct (either_id C D v L B F) as (_ & AI & AC). unfold x_der_len.
  destruct AC as [->|[->|(n & -> & Ln)]]; cbn [rbind]; [now left | right; now left|].
  destruct AI as [->| ->]; cbn [rbind]; [right; now left|].
  apply lift_sane. intros t _. apply lift_sane. intros r Hr. right. right. eauto.
Qed.

(** Into a buffer: the octets, or a panic. *)
Definition into (f : wr buf unit) (bs : list N) : Prop := forall b pre, fits b pre ->
  (exists b', f b = (Ok tt, b') /\ fits b' (pre ++ bs)) \/ fst (f b) = Panic.
Lemma into_ret : into (wret tt) [].
Proof. intros b pre F. left. exists b. rewrite app_nil_r. auto. Qed.
Lemma into_bind f g a c : into f a -> into g c -> into (do! _ := f in g) (a ++ c).
Proof.
  intros F G b pre H. unfold wbind. destruct (F b pre H) as [(b1 & -> & H')|K].
  - rewrite app_assoc. now apply G.
  - right. destruct (f b) as [[u|e| |] s]; try discriminate K. reflexivity.
Qed.
Lemma into_emits P f bs : emits_or P f bs -> into (f buf W0) bs.
Proof.
  clear HC. intros (cs & <- & F) b pre H. destruct (F _ W0 b) as [->|[_ K]]; [|now right].
  destruct (x_write_chunks w E H1 H8 cs b pre H) as [K|[K _]]; [now left | now right].
Qed.
Lemma into_ext f g bs : (forall b, f b = g b) -> into g bs -> into f bs.
Proof. intros EX I b pre H. rewrite EX. now apply I. Qed.
Lemma into_lift {A} (r : res A) (g : A -> wr buf unit) bs :
  (r = Panic \/ exists a, r = Ok a /\ into (g a) bs) -> into (do! x := wlift r in g x) bs.
Proof.
  intros [->|(a & -> & I)] b pre H; [right; reflexivity|]. apply (I b pre H).
Qed.
(** Code that panics on every buffer. *)
Definition fails (f : wr buf unit) : Prop := forall b pre, fits b pre -> fst (f b) = Panic.
Lemma fails_into f bs : fails f -> into f bs.
Proof. intros F b pre H. right. now apply (F b pre). Qed.
Lemma fails_bind_r f g a : into f a -> fails g -> fails (do! _ := f in g).
Proof.
  intros F G b pre H. unfold wbind. destruct (F b pre H) as [(b1 & -> & H')|K]; [now apply (G b1 (pre ++ a))|].
  destruct (f b) as [[u|e| |] s]; try discriminate K. reflexivity.
Qed.
(** What is too big never goes into a buffer. *)
Lemma into_big f bs : into f bs -> Max < nlen bs -> fails f.
Proof.
  intros I B b pre H. destruct (I b pre H) as [(b' & _ & H')|K]; [|assumption].
  apply fits_len in H'. rewrite nlen_app in H'. lia.
Qed.
Lemma overflows_fails {T} (D : serialize T) v id : w_overflows w E D v id -> fails (write_der_contents D W0 v).
Proof.
  intros O b pre [(sp & M & L & Ok) K]. apply (wo_contents _ _ _ _ _ O).
  - split; [|assumption]. unfold bf_cap. rewrite M, L, nlen_app. lia.
  - rewrite M, L. now rewrite drop_app_exact.
Qed.
Lemma fails_overflows f : fails f -> forall b, b_len b <= bf_cap b <= Max -> bytes_ok (drop (b_len b) (b_mem b)) -> fst (f b) = Panic.
Proof.
  intros F b [L K] O. apply (F b (take (b_len b) (b_mem b))). split; [|assumption].
  exists (drop (b_len b) (b_mem b)). split; [now rewrite take_drop|]. split; [|assumption].
  rewrite nlen_take. unfold bf_cap in L. lia.
Qed.
Lemma in_buffer_fails f : fails f -> in_buffer (f (bf_new (e_cfg E))) = Panic.
Proof.
  intros F. specialize (F _ _ (fits_new w E HC)). unfold in_buffer. destruct (f (bf_new (e_cfg E))) as [[u|e| |] s]; try discriminate F. reflexivity.
Qed.
Lemma x_write_der_into C (D : serialize (car C)) v : law C D -> bnd C D -> wf C v -> into (x_write_der w E D W0 v) (der_of C v).
Proof.
  intros L B F. destruct (either C D v L B F) as [[_ SS]|[G O]].
  - apply (into_emits _ (fun _ W => x_write_der w E D W v) _ (x_write_der_emits w E H1 H8 HC D v _ _ SS)).
  - apply fails_into. intros b pre H. pose proof (overflows_fails _ _ _ O) as FC. destruct (wo_contents_len _ _ _ _ _ O) as [EL|[EL|(n & EL & Ln)]];
      unfold x_write_der, x_contents_or_len; rewrite EL; cbn [rbind].
    + reflexivity.
    + rewrite (in_buffer_fails _ FC). reflexivity.
    + rewrite (wlift_ok _ _ _ _ eq_refl). cbn [fst snd]. rewrite (w_octets_eq w H1 H8 n Ln). rewrite (wlift_ok _ _ _ _ eq_refl). cbn [fst snd].
      eapply (fails_bind_r _ _ (id_of C v)); [|eapply fails_bind_r; [|exact FC]|exact H].
      * apply (into_emits False _ _ (emits_emits_or _ _ _ (wo_id _ _ _ _ _ O))).
      * apply (into_emits False _ _ (emits_or_write_all _ (length_octets n))).
Qed.
Lemma in_buffer_into f bs b pre : into f bs -> fits b pre ->
  (exists b', in_buffer (f b) = Ok b' /\ fits b' (pre ++ bs)) \/ in_buffer (f b) = Panic.
Proof.
  intros I H. destruct (I b pre H) as [(b' & -> & H')|K]; [left; exists b'; auto|]. right.
  unfold in_buffer. destruct (f b) as [[u|e| |] s]; try discriminate K. reflexivity.
Qed.
Lemma x_to_der_into C (D : serialize (car C)) v : law C D -> bnd C D -> wf C v ->
  (exists b, x_to_der w rel E D v = Ok b /\ fits b (der_of C v)) \/ x_to_der w rel E D v = Panic /\ Max < nlen (der_of C v).
Proof.
  intros L B F. destruct (either C D v L B F) as [[_ SS]|[G O]]; [now apply x_to_der_ok|].
  right. split; [|pose proof (tlv_contents_le (id_of C v) (contents_of C v)); unfold der_of; lia].
  pose proof (overflows_fails _ _ _ O) as FC. unfold x_to_der, x_contents_or_len.
  destruct (wo_contents_len _ _ _ _ _ O) as [EL|[EL|(n & EL & Ln)]]; rewrite EL; cbn [rbind].
  - reflexivity.
  - rewrite (in_buffer_fails _ FC). reflexivity.
  - rewrite (w_octets_eq w H1 H8 n Ln). cbn [rbind].
    assert (forall b0, fits b0 [] ->
      (let! buffer := in_buffer (write_id D W0 v b0) in
       let! buffer := unwrap_unit (in_buffer (write_all W0 (length_octets n) buffer)) in
       in_buffer (write_der_contents D W0 v buffer)) = Panic) as K.
    { intros b0 F0. destruct (in_buffer_into _ _ b0 [] (into_emits False _ _ (emits_emits_or _ _ _ (wo_id _ _ _ _ _ O))) F0) as [(b1 & -> & F1)| ->]; [|reflexivity].
      cbn [rbind app] in *.
      destruct (in_buffer_into _ _ b1 _ (into_emits False _ _ (emits_or_write_all _ (length_octets n))) F1) as [(b2 & -> & F2)| ->]; [|reflexivity].
      cbn [rbind unwrap_unit]. specialize (FC b2 _ F2). unfold in_buffer. destruct (write_der_contents D W0 v b2) as [[u|e| |] s]; try discriminate FC. reflexivity. }
    destruct (wo_id_len _ _ _ _ _ O) as [->| ->]; cbn [rbind]; [apply K, fits_new, HC|].
    destruct (add_sane (nlen (id_of C v)) (nlen (length_octets n))) as [->|(t & -> & Lt)]; cbn [rbind]; [reflexivity|].
    destruct (add_sane t n) as [->|(t' & -> & Lt')]; cbn [rbind]; [reflexivity|].
    destruct (w_reserve_spec w E H1 H8 t' _ _ (fits_new w E HC)) as [[(b' & sp & -> & M & Lb & _ & Ob & CB) _]|[-> _]]; cbn [rbind]; [|reflexivity].
    apply K. split; [exists sp; auto | assumption].
Qed.

(** ** The types *)
Lemma emits_bounded C (D : serialize (car C)) : w_law w false C D -> bnd C D.
Proof.
  intros L v F G. destruct (L v F ltac:(discriminate)) as [A1 A2 A3 A4]. split; [assumption | assumption | |].
  - apply fails_overflows. eapply into_big; [|exact G]. exact (into_emits _ _ _ A2).
  - destruct A4 as [A4|[[A4 K]|[_ A4]]]; [right; left; assumption | right; right; eauto | now left].
Qed.
Lemma small_bounded C (D : serialize (car C)) : (forall v, wf C v -> nlen (contents_of C v) <= Max) -> bnd C D.
Proof. clear. intros S v F G. specialize (S v F). lia. Qed.
Lemma bounded_intro C (D : serialize (car C)) :
  (forall v, wf C v -> emits (fun _ W => write_id D W v) (id_of C v) /\ announces (id_len D v) (id_of C v) /\
     into (write_der_contents D W0 v) (contents_of C v) /\ sane (der_contents_len D v)) -> bnd C D.
Proof.
  intros K v F G. destruct (K v F) as (A1 & A2 & A3 & A4). split; [assumption | assumption | | exact A4].
  apply fails_overflows. eapply into_big; [exact A3 | exact G].
Qed.
Lemma x_write_ders_into C (D : serialize (car C)) : law C D -> bnd C D -> forall vs, Forall (wf C) vs ->
  into (x_write_ders w E D W0 vs) (concat (map (der_of C) vs)).
Proof.
  intros L B vs F. induction F as [|v vs Hv F IH]; cbn [map concat x_write_ders]; [apply into_ret|].
  apply into_bind; [now apply x_write_der_into | exact IH].
Qed.
Lemma x_contents_len_from_sane C (D : serialize (car C)) : law C D -> bnd C D -> forall vs acc, Forall (wf C) vs -> acc < Lim ->
  sane (x_der_contents_len_from w rel D acc vs).
Proof.
  intros L B vs acc F. revert acc. induction F as [|v vs Hv F IH]; intros acc LA; cbn [x_der_contents_len_from]; [right; right; eauto|].
  destruct (x_der_len_sane C D v L B Hv) as [->|[->|(n & -> & Ln)]]; cbn [rbind]; [now left | right; now left|].
  apply lift_sane. exact IH.
Qed.
Lemma lim_pos : 0 < Lim.
Proof. clear. apply N.neq_0_lt_0, N.pow_nonzero. discriminate. Qed.
Lemma x_ser_items_bounded ID C (D : serialize (car C)) : nlen ID = 1 -> law C D -> bnd C D -> bnd (items_codec ID C) (x_ser_items w rel E ID D).
Proof.
  intros I1 L B. apply bounded_intro. intros vs F. cbn in F. pose proof lim_pos.
  cbn [write_id write_der_contents id_len der_contents_len x_ser_items id_of contents_of items_codec].
  split; [apply emits_write_all|]. split; [right; now rewrite I1|]. split; [now apply x_write_ders_into|].
  apply (x_contents_len_from_sane C D); assumption.
Qed.
Lemma with_values_bounded C P e (D : serialize (car C)) : bnd C D -> bnd (with_values C P e) D.
Proof. clear. intros B v [W _] G. apply B; assumption. Qed.
Section MapSer.
Context (CK CV : codec) (DK : serialize (car CK)) (DV : serialize (car CV)).
Hypothesis SK : law CK DK.
Hypothesis SV : law CV DV.
Hypothesis BK : bnd CK DK.
Hypothesis BV : bnd CV DV.
Notation ec := (entry_codec CK CV).
Lemma x_der_or_len_sane C (D : serialize (car C)) v : law C D -> bnd C D -> wf C v ->
  x_der_or_len w rel E D v = Panic \/
  exists n o, x_der_or_len w rel E D v = Ok (n, o) /\ into (x_write_der_or w E D W0 v o) (der_of C v).
Proof.
  intros L B F. unfold x_der_or_len. destruct (x_der_len_sane C D v L B F) as [->|[->|(n & -> & Ln)]]; cbn [rbind]; [now left| |].
  - destruct (x_to_der_into C D v L B F) as [(b & -> & Hb & _)|[-> _]]; cbn [rbind]; [|now left]. right. eexists _, (Some b). split; [reflexivity|].
    cbn [x_write_der_or]. rewrite (holds_slice _ _ Hb). apply (into_emits False _ _ (emits_or_write_all _ (der_of C v))).
  - right. exists n, None. split; [reflexivity|]. cbn [x_write_der_or]. now apply x_write_der_into.
Qed.
Lemma x_write_entry_into k v : wf CK k -> wf CV v -> into (x_write_entry w rel E DK DV W0 k v) (der_of ec (k, v)).
Proof.
  intros Hk Hv. destruct (N.ltb_spec Max (nlen (der_of CK k ++ der_of CV v))) as [G|G].
  - apply fails_into. unfold x_write_entry.
    intros b pre H. destruct (x_der_or_len_sane CK DK k SK BK Hk) as [->|(nk & ok & -> & Ik)]; [reflexivity|]. rewrite (wlift_ok _ _ _ _ eq_refl). cbn [fst snd].
    destruct (x_der_or_len_sane CV DV v SV BV Hv) as [->|(nv & ov & -> & Iv)]; [reflexivity|]. rewrite (wlift_ok _ _ _ _ eq_refl). cbn [fst snd].
    destruct (add_sane nk nv) as [->|(n & -> & Ln)]; [reflexivity|]. rewrite (wlift_ok _ _ _ _ eq_refl). cbn [fst snd].
    rewrite (w_octets_eq w H1 H8 n Ln). rewrite (wlift_ok _ _ _ _ eq_refl). cbn [fst snd].
    eapply fails_bind_r; [|eapply fails_bind_r; [|apply (into_big _ _ (into_bind _ _ _ _ Ik Iv) G)]|exact H].
    + apply (into_emits False _ _ (emits_or_write_all _ ID_SEQUENCE)).
    + apply (into_emits False _ _ (emits_or_write_all _ (length_octets n))).
  - apply (into_emits _ (fun _ W => x_write_entry w rel E DK DV W k v) _ (x_write_entry_emits w rel E H1 H8 HC CK CV DK DV SK SV k v Hk Hv (fun _ => G))).
Qed.
Lemma x_write_entries_into l : Forall (wf ec) l -> into (x_write_entries w rel E DK DV W0 l) (concat (map (der_of ec) l)).
Proof.
  intros F. induction F as [|[k v] l [Hk Hv] F IH]; cbn [map concat x_write_entries]; [apply into_ret|].
  apply into_bind; [now apply x_write_entry_into | exact IH].
Qed.
Lemma x_btree_map_len_sane l : forall acc, Forall (wf ec) l -> acc < Lim -> sane (x_btree_map_len w rel DK DV acc l).
Proof.
  intros acc F. revert acc. induction F as [|[k v] l [Hk Hv] F IH]; intros acc LA; cbn [x_btree_map_len]; [right; right; eauto|].
  destruct (x_der_len_sane CK DK k SK BK Hk) as [->|[->|(nk & -> & Lk)]]; cbn [rbind]; [now left | right; now left|].
  destruct (x_der_len_sane CV DV v SV BV Hv) as [->|[->|(nv & -> & Lv)]]; cbn [rbind]; [now left | right; now left|].
  do 3 (apply lift_sane; intros ? _). apply lift_sane. exact IH.
Qed.
Lemma x_hash_map_len_sane l : forall acc, Forall (wf ec) l -> acc < Lim -> sane (x_hash_map_len w rel DK DV acc l).
Proof.
  intros acc F. revert acc. induction F as [|[k v] l [Hk Hv] F IH]; intros acc LA; cbn [x_hash_map_len]; [right; right; eauto|].
  destruct (x_der_len_sane CK DK k SK BK Hk) as [->|[->|(nk & -> & Lk)]]; cbn [rbind]; [now left | now apply IH|].
  destruct (x_der_len_sane CV DV v SV BV Hv) as [->|[->|(nv & -> & Lv)]]; cbn [rbind]; [now left | right; now left|].
  do 3 (apply lift_sane; intros ? _). apply lift_sane. exact IH.
Qed.
Lemma x_ser_btree_map_bounded cmp : bnd (btree_map_codec CK CV cmp) (x_ser_btree_map w rel E DK DV).
Proof.
  apply with_values_bounded, bounded_intro. intros l F. cbn in F. pose proof lim_pos.
  split; [apply emits_write_all|]. split; [now right|]. split; [now apply x_write_entries_into | now apply x_btree_map_len_sane].
Qed.
Lemma x_ser_hash_map_bounded eqb : bnd (hash_map_codec CK CV eqb) (x_ser_hash_map w rel E DK DV).
Proof.
  apply with_values_bounded, bounded_intro. intros l F. cbn in F. pose proof lim_pos.
  split; [apply emits_write_all|]. split; [now right|]. split; [now apply x_write_entries_into | now apply x_hash_map_len_sane].
Qed.
End MapSer.
(** Both laws of a field. *)
Definition w_both (T : Type) (f : field T) (s : field_spec T) : Prop :=
  match s with
  | Skipped _ => is_skip_serializing (f_attr f) = true
  | Coded c => is_skip_serializing (f_attr f) = false /\ law (to_codec c) (field_ser f) /\ bnd (to_codec c) (field_ser f)
  end.
Lemma both_ser T f s : w_both T f s -> w_ser_as w rel T f s.
Proof. destruct s; cbn; tauto. Qed.
Lemma x_write_fields_into Ts : forall fs cs v, fields_rel w_both Ts fs cs -> fields_wf Ts cs v ->
  into (x_write_fields w E W0 Ts fs v) (concat (fields_der Ts cs v)).
Proof.
  induction Ts as [|T Ts IH]; intros fs cs v R F; cbn [x_write_fields fields_der concat]; [apply into_ret|].
  destruct fs as [f fs], cs as [s cs], v as [x v]. cbn [fst snd fields_rel fields_wf fields_der] in *.
  destruct R as [Rf R], F as [Fx F]. destruct s as [d|c]; cbn [w_both] in Rf.
  - rewrite Rf. now apply IH.
  - destruct Rf as (-> & SL & SB). cbn [concat]. eapply into_ext.
    { intros b. apply wbind_ext; [|intros a s'; reflexivity]. now rewrite x_field_write. }
    apply into_bind; [exact (x_write_der_into (to_codec c) (field_ser f) x SL SB Fx) | now apply IH].
Qed.
Lemma x_fields_len_sane Ts : forall fs cs v acc, fields_rel w_both Ts fs cs ->
  existsb converts (field_attributes Ts fs) = false -> fields_wf Ts cs v -> acc < Lim -> sane (x_fields_len w rel Ts fs acc v).
Proof.
  induction Ts as [|T Ts IH]; intros fs cs v acc R NC F LA; cbn [x_fields_len]; [right; right; eauto|].
  destruct fs as [f fs], cs as [s cs], v as [x v]. cbn [fst snd fields_rel fields_wf field_attributes existsb] in *.
  apply Bool.orb_false_iff in NC as [NCf NC]. destruct R as [Rf R], F as [Fx F]. destruct s as [d|c]; cbn [w_both] in Rf.
  - rewrite Rf. now apply (IH fs cs).
  - destruct Rf as (-> & SL & SB). rewrite <- (converts_false f NCf). destruct (either_id (to_codec c) (field_ser f) x SL SB Fx) as (_ & AI & AC).
    cbn [car to_codec] in AC, AI. destruct AC as [->|[->|(n & -> & Ln)]]; cbn [rbind]; [now left | right; now left|].
    destruct AI as [->| ->]; cbn [rbind]; [right; now left|]. cbv zeta.
    do 2 (apply lift_sane; intros ? _). apply lift_sane. intros n' Ln'. now apply (IH fs cs).
Qed.
Lemma x_struct_bounded Ts (dc : data_container Ts) cs : fields_rel w_both Ts (dc_fields dc) cs ->
  bnd (struct_codec (id_slice (dc_attr dc)) Ts cs) (x_ser_fields w rel E dc).
Proof.
  intros R. apply bounded_intro. intros v F. cbn in F. pose proof lim_pos.
  split; [apply emits_write_all|]. split; [now right|]. split; [now apply x_write_fields_into|].
  cbn [der_contents_len x_ser_fields]. destruct (existsb converts _) eqn:NC; [right; now left|].
  now apply (x_fields_len_sane Ts (dc_fields dc) cs).
Qed.
Lemma converted_overflows {T} (t : target T) v id :
  w_overflows w E (ser_on (tg_conv t) (tg_ser t)) v id -> w_overflows w E (ser_converted t) v id.
Proof. clear. intros [A B C0 D0]. split; [exact A | now left | exact C0 | right; now left]. Qed.
Lemma ser_field_bounded {T} (f : field T) c : bnd (to_codec c) (field_ser f) -> bnd (to_codec c) (ser_field f).
Proof.
  clear. intros SL v F L. specialize (SL v F L). unfold field_ser in SL. unfold ser_field.
  destruct (a_into (f_attr f)); [now apply converted_overflows|]. destruct (a_to (f_attr f)); [now apply converted_overflows | exact SL].
Qed.
Lemma transparent_bounded Ts : forall fs cs S, fields_rel w_both Ts fs cs -> transparent_fields Ts fs = [S] -> bnd (transparent_codec Ts cs) S.
Proof.
  clear. induction Ts as [|T Ts IH]; intros fs cs S R H; [discriminate|]. destruct fs as [f fs], cs as [s cs].
  cbn [fields_rel transparent_fields fst snd] in *. destruct R as [Rf R], s as [d|c]; cbn [w_both] in Rf.
  - rewrite Rf in H. destruct (transparent_fields Ts fs) as [|s' [|]] eqn:K; try discriminate. injection H as <-.
    intros [x v] [_ F] L. destruct (IH fs cs s' R K v F L) as [A1 A2 A3 A4]. split; assumption.
  - destruct Rf as (NS & _ & SL). rewrite NS in H. destruct (transparent_fields Ts fs); [|discriminate]. injection H as <-.
    intros [x v] [Fx F] L. destruct (ser_field_bounded f c SL x Fx L) as [A1 A2 A3 A4]. split; assumption.
Qed.
Definition both_variant (Ts : list Type) (dc : data_container Ts) (s : variant_spec Ts) : Prop :=
  id_slice (dc_attr dc) = fst s /\ fields_rel w_both Ts (dc_fields dc) (snd s).
Lemma sum_bounded {A B} (a : codec_on A) (b : codec_on B) S1 S2 : bnd (to_codec a) S1 -> bnd (to_codec b) S2 ->
  bnd (to_codec (sum_on a b)) (ser_sum S1 S2).
Proof. clear. intros A1 A2 [x|y] F L; [destruct (A1 x F L) | destruct (A2 y F L)]; split; assumption. Qed.
Lemma x_enum_bounded Tss : forall vs ws, variants_rel both_variant Tss vs ws -> bnd (enum_codec Tss ws) (x_ser_variants w rel E Tss vs).
Proof.
  induction Tss as [|Ts Tss IH]; intros vs ws R; [intros []|]. destruct vs as [dc vs], ws as [[ID cs] ws]. destruct R as [(I & O) R].
  apply (sum_bounded (of_codec (struct_codec ID Ts cs)) (enum_on Tss ws) (x_ser_fields w rel E dc) (x_ser_variants w rel E Tss vs)); [|now apply IH].
  cbn [fst snd] in *. subst ID. now apply x_struct_bounded.
Qed.
Scheme on_word_min := Minimality for on_word Sort Prop
  with fields_on_word_min := Minimality for fields_on_word Sort Prop
  with variants_on_word_min := Minimality for variants_on_word Sort Prop.
Theorem on_word_laws C S : on_word E w rel C S -> law C S /\ bnd C S.
Proof.
  apply (on_word_min E w rel (fun C S => law C S /\ bnd C S) (fun Ts fs cs => fields_rel w_both Ts fs cs)
    (fun Tss vs ws => variants_rel (fun Ts dc s => identified (dc_attr dc) (fst s) /\ fields_rel w_both Ts (dc_fields dc) (snd s)) Tss vs ws)).
  - pose proof (max_127 w H1 H8) as M. split.
    + intros v F _. destruct ser_bool_law as [K _]. apply small_known; auto; [apply K; [exact F|destruct v; discriminate]|]. change (nlen _) with 1. lia.
    + apply small_bounded. intros v _. change (nlen _) with 1. lia.
  - intros t _ _. pose proof (max_127 w H1 H8) as M.
    assert (forall v, in_range t v -> nlen (int_octets v) <= 17) as SM by (intros v; apply int_octets_small). split.
    + intros v F _. destruct (ser_int_law t) as [K _]. specialize (SM v F). apply small_known; auto; [apply K; [exact F|]|]; cbn [contents_of int_codec]; unfold isize_max; lia.
    + apply small_bounded. intros v F. specialize (SM v F). cbn [contents_of int_codec]. lia.
  - intros signed I. pose proof (max_127 w H1 H8) as M.
    assert (forall v, in_range (word_ty w signed) v -> nlen (int_octets v) <= 17) as SM by (intros v; apply int_octets_small). split.
    + intros v F _. cbn in F. specialize (SM v F). apply small_known; auto; cbn [contents_of int_codec]; [|lia].
      split; [apply emits_write_all | | now right | right].
      * cbn [write_der_contents x_ser_word].
        apply (emits_lift _ _ (fun _ W c => write_all W c) _ (from_int_octets _ v F)). apply emits_write_all.
      * cbn [der_contents_len x_ser_word]. now rewrite word_len_eq.
    + apply small_bounded. intros v F. specialize (SM v F). cbn [contents_of int_codec]. lia.
  - split.
    + intros v [F L] _. cbn in L. destruct ser_string_law as [K _]. pose proof (max_8 w H1 H8).
      apply small_known; auto. apply K; [exact F|]. cbn. lia.
    + apply small_bounded. intros v [_ L]. exact L.
  - split.
    + intros v [F L] _. cbn in L. destruct ser_octets_law as [K _]. pose proof (max_8 w H1 H8).
      apply small_known; auto. apply K; [exact F|]. cbn. lia.
    + apply small_bounded. intros v [_ L]. exact L.
  - intros C0 S0 L B. split; assumption.
  - intros C0 S0 _ [L B]. split; [now apply x_ser_items_law | now apply x_ser_items_bounded].
  - intros C0 S0 cmp _ [L B]. split; [now apply with_values_w_law, x_ser_items_law | now apply with_values_bounded, x_ser_items_bounded].
  - intros C0 S0 eqb _ [L B]. split; [now apply with_values_w_law, x_ser_items_law | now apply with_values_bounded, x_ser_items_bounded].
  - intros CK SK CV SV cmp _ [L1 B1] _ [L2 B2]. split; [now apply x_ser_btree_map_law | now apply x_ser_btree_map_bounded].
  - intros CK SK CV SV eqb _ [L1 B1] K _ [L2 B2]. split; [now apply x_ser_hash_map_law | now apply x_ser_hash_map_bounded].
  - intros is_path attrs a ID Ts decls fs cs ps S0 TF P ID0 F _ R HS. rewrite (x_plain_struct w rel E is_path attrs a TF Ts decls fs ps S0 P F HS).
    rewrite (identified_slice _ _ _ _ TF ID0). split.
    + apply (x_struct_law w rel E H1 H8 HC Ts {| dc_attr := a; dc_fields := fs |}). eapply fields_rel_impl; [apply both_ser | exact R].
    + now apply (x_struct_bounded Ts {| dc_attr := a; dc_fields := fs |}).
  - intros is_path attrs a Ts decls fs cs ps S0 TF P F _ R HS. pose proof (x_transparent_struct w rel E is_path attrs a TF Ts decls fs ps S0 P F HS) as K. split.
    + eapply w_transparent_law; [eapply fields_rel_impl; [apply both_ser | exact R] | exact K].
    + eapply transparent_bounded; [exact R | exact K].
  - intros is_path attrs a Tss decls vs ws ps S0 TF P F _ R HS. rewrite (x_plain_enum w rel E is_path attrs a TF Tss decls vs ps S0 P F HS).
    assert (variants_rel both_variant Tss vs ws) as K.
    { eapply try_variants_ids; [exact F | | exact R]. intros Ts dc s [I0 L]. split; [exact I0|]. intros I. now split. }
    split; [|now apply x_enum_bounded]. apply x_enum_law; auto. eapply variants_rel_impl; [|exact K]. intros Ts dc s [I L].
    split; [assumption|]. eapply fields_rel_impl; [apply both_ser | exact L].
  - intros C0 S0 T f P eqv S1 _ [L B] SV. split.
    + intros v [_ Wf] A. destruct (L (f v) Wf A) as [A1 A2 A3 A4].
      destruct SV; (split; [exact A1 | exact A2 | |]); [exact A3 | exact A4 | now left | now left].
    + intros v [_ Wf] A. destruct (B (f v) Wf A) as [A1 A2 A3 A4].
      destruct SV; (split; [exact A1 | | exact A3 |]); [exact A2 | exact A4 | now left | right; now left].
  - exact I.
  - intros T Ts f d fs cs S1 _ R. split; [now apply skips_ser_iff | exact R].
  - intros T Ts f c fs cs S1 _ [L B] _ R. split; [split; [now apply not_skips_ser | split; assumption] | exact R].
  - exact I.
  - intros Ts Tss dc ID cs vs ws I0 _ R _ M. split; [split; assumption | exact M].
Qed.
End MACHINE.

(** ** The release profile beyond isize::MAX *)
(** The length of a string whose DER value has half as many octets as there are values of usize. *)
Definition half (w : N) : N := if w =? 1 then 126 else 2 ^ (8 * w - 1) - 2 - w.
Section HALF.
Context (w : N) (E : env).
Hypothesis H1 : 1 <= w.
Hypothesis H8 : w <= 8.
Hypothesis HC : init_cap (e_cfg E) <= word_max w.
Lemma half_facts : half w <= word_max w /\ 2 * (1 + nlen (length_octets (half w)) + half w) = word_limit w.
Proof.
  clear HC E. assert (In w [1; 2; 3; 4; 5; 6; 7; 8]) as I by (cbn [In]; lia). cbn [In] in I.
  repeat destruct I as [<-|I]; try contradiction; vm_compute; split; (discriminate || reflexivity).
Qed.
Section STRING.
Context (s : list N).
Hypothesis B : bytes_ok s.
Hypothesis L : nlen s = half w.
Notation D := (x_ser_items w true E ID_SEQUENCE ser_octets).
Lemma half_der : nlen (der_of octets_codec s) = 1 + nlen (length_octets (half w)) + half w.
Proof. unfold der_of. rewrite tlv_len. cbn [id_of contents_of octets_codec]. rewrite L. change (nlen [0x04]) with 1. reflexivity. Qed.
Lemma half_len : x_der_len w true ser_octets s = Ok (Some (1 + nlen (length_octets (half w)) + half w)).
Proof.
  destruct half_facts as [M S]. pose proof (ML w H1 H8). unfold x_der_len. cbn [der_contents_len ser_octets rbind id_len]. rewrite L.
  unfold x_add. cbn [rbind]. rewrite w_octets_len by (assumption || lia). rewrite (N.mod_small (1 + _)) by lia. rewrite N.mod_small by lia. reflexivity.
Qed.
Lemma wrapped_len : der_contents_len D [s; s] = Ok (Some 0).
Proof.
  destruct half_facts as [M S]. cbn [der_contents_len x_ser_items x_der_contents_len_from]. rewrite half_len. cbn [rbind].
  unfold x_add. cbn [rbind]. rewrite (N.mod_small (0 + _)) by lia. rewrite N.add_0_l.
  replace (1 + nlen (length_octets (half w)) + half w + (1 + nlen (length_octets (half w)) + half w)) with (1 * word_limit w) by lia.
  rewrite N.mod_mul by (apply N.pow_nonzero; discriminate). reflexivity.
Qed.
Lemma octets_small : w_serialises w ser_octets s [0x04] s.
Proof.
  destruct half_facts as [M _]. apply small_known; auto; [|lia]. destruct ser_octets_law as [K _]. apply (K s B). cbn.
  pose proof (max_8 w H1 H8). lia.
Qed.
Theorem wrapped : emits (fun _ W => x_write_der w E D W [s; s]) ([0x30; 0x00] ++ der_of octets_codec s ++ der_of octets_codec s).
Proof.
  destruct half_facts as [M _]. unfold x_write_der.
  assert (x_contents_or_len w E D [s; s] = Ok (0, None)) as E0 by (unfold x_contents_or_len; now rewrite wrapped_len).
  apply (emits_lift _ _ _ _ E0). cbn [fst snd]. apply (emits_lift (w_Length_to_bytes w (Definite 0)) [0x00]); [reflexivity|].
  change ([0x30; 0x00] ++ der_of octets_codec s ++ der_of octets_codec s)%list with ([0x30] ++ [0x00] ++ der_of octets_codec s ++ der_of octets_codec s)%list.
  apply emits_bind; [apply emits_write_all|]. apply emits_bind; [apply emits_write_all|].
  cbn [write_der_contents x_ser_items x_write_ders].
  assert (emits (fun _ W => x_write_der w E ser_octets W s) (der_of octets_codec s)) as K.
  { eapply emits_or_emits; [|apply (x_write_der_emits w E H1 H8 HC ser_octets s [0x04] s octets_small)]. lia. }
  apply emits_bind; [exact K|]. rewrite <- (app_nil_r (der_of octets_codec s)) at 1. apply emits_bind; [exact K | apply emits_ret].
Qed.
Lemma wrapped_wrong : ([0x30; 0x00] ++ der_of octets_codec s ++ der_of octets_codec s)%list <> der_of (seq_codec octets_codec) [s; s].
Proof.
  destruct half_facts as [_ S]. pose proof half_der as HD. pose proof (limit_T w H1) as LT. pose proof (T_pos w H1) as TP.
  change (der_of (seq_codec octets_codec) [s; s]) with (tlv [0x30] (der_of octets_codec s ++ der_of octets_codec s ++ [])).
  rewrite app_nil_r. assert (128 <= nlen (der_of octets_codec s ++ der_of octets_codec s)) as G by (rewrite nlen_app; lia).
  revert G. generalize (der_of octets_codec s ++ der_of octets_codec s). clear. intros c G H. unfold tlv in H.
  apply (f_equal (fun l => nth 1 l 5)) in H. unfold length_octets in H.
  destruct (N.ltb_spec (nlen c) 128); [lia|]. cbn [app nth] in H. lia.
Qed.
End STRING.
End HALF.

(** ** Eight octets *)
Lemma limit_eight : word_limit 8 = usize_limit.
Proof. vm_compute. reflexivity. Qed.
Lemma max_eight : word_max 8 = isize_max.
Proof. vm_compute. reflexivity. Qed.
Lemma eight_add a b : x_add 8 false a b = add_usize a b.
Proof. unfold x_add, w_add_usize, add_usize. now rewrite limit_eight. Qed.
Lemma eight_reserve cfg k b : w_bf_reserve 8 cfg k b = bf_reserve cfg k b.
Proof. unfold w_bf_reserve, bf_reserve. now rewrite max_eight. Qed.
Lemma eight_write_all cfg bs b : write_all (x_buf_writer 8 cfg) bs b = write_all (buf_writer cfg) bs b.
Proof.
  unfold write_all. cbn [wr_fuel x_buf_writer buf_writer]. destruct bs as [|x bs]; [reflexivity|]. cbn [write_all_loop wr_write x_buf_writer buf_writer].
  unfold x_bf_io_write, bf_io_write. rewrite eight_reserve. destruct (let! b1 := bf_reserve cfg (nlen (x :: bs)) b in bf_extend (x :: bs) b1); try reflexivity.
Qed.
Lemma eight_chunks cfg cs : forall b, write_chunks (x_buf_writer 8 cfg) cs b = write_chunks (buf_writer cfg) cs b.
Proof.
  induction cs as [|c cs IH]; intros b; [reflexivity|]. cbn [write_chunks]. apply wbind_ext; [apply eight_write_all | intros _ s'; apply IH].
Qed.
Lemma eight_emits cfg f bs b : emits f bs -> f buf (x_buf_writer 8 cfg) b = f buf (buf_writer cfg) b.
Proof. intros (cs & _ & F). rewrite !F. apply eight_chunks. Qed.
Lemma eight_to_bytes n : n < usize_limit -> w_Length_to_bytes 8 (Definite n) = Ok (Length_to_bytes (Definite n)).
Proof. intros H. apply w_to_bytes_eq; [discriminate | discriminate | now rewrite limit_eight]. Qed.
Lemma eight_len n : n < usize_limit -> w_Length_len 8 (Definite n) = Length_len (Definite n).
Proof. intros H. apply w_Length_len_eq; [discriminate | discriminate | now rewrite limit_eight]. Qed.
Section EIGHT.
Context (E : env).
(** Announced lengths are values of usize. *)
Definition usizes {T} (D : serialize T) (v : T) : Prop := forall n, der_contents_len D v = Ok (Some n) -> n < usize_limit.
Section ONE.
Context {T : Type} (D : serialize T) (v : T).
Hypothesis U : usizes D v.
Lemma eight_der_len : x_der_len 8 false D v = der_len D v.
Proof.
  unfold x_der_len, der_len. destruct (der_contents_len D v) as [[n|]|e| |] eqn:EL; cbn [rbind]; [|reflexivity..].
  destruct (id_len D v) as [[i|]|e| |]; cbn [rbind]; [|reflexivity..]. rewrite eight_len by (now apply U). rewrite eight_add.
  destruct (add_usize i _) as [t|e| |]; cbn [rbind]; [|reflexivity..]. now rewrite eight_add.
Qed.
Context (id c : list N).
Hypothesis EI : emits (fun _ W => write_id D W v) id.
Hypothesis EC : emits (fun _ W => write_der_contents D W v) c.
Lemma eight_contents_or_len : x_contents_or_len 8 E D v = contents_or_len E D v.
Proof.
  unfold x_contents_or_len, contents_or_len. destruct (der_contents_len D v) as [[n|]|e| |]; cbn [rbind]; [reflexivity| |reflexivity..].
  now rewrite (eight_emits (e_cfg E) _ _ (bf_new (e_cfg E)) EC).
Qed.
Lemma eight_sized p : contents_or_len E D v = Ok p -> nlen c <= isize_max -> fst p < usize_limit.
Proof.
  unfold contents_or_len. destruct (der_contents_len D v) as [[n|]|e| |] eqn:EL; cbn [rbind]; try discriminate.
  - intros [= <-] _. now apply U.
  - intros H L. destruct (emits_buffer (e_cfg E) _ _ (bf_new (e_cfg E)) [] EC (holds_new _) L) as (b & Eb & Hb). rewrite Eb in H. cbn [rbind] in H.
    injection H as <-. cbn [fst]. rewrite (holds_len _ _ Hb). now apply isize_lt.
Qed.
Hypothesis LC : nlen c <= isize_max.
Lemma eight_write_der {S} (W : writer S) s : x_write_der 8 E D W v s = write_der E D W v s.
Proof.
  unfold x_write_der, write_der. rewrite eight_contents_or_len. destruct (contents_or_len E D v) as [p|e| |] eqn:EP; [|reflexivity..].
  rewrite !(wlift_ok _ _ _ _ eq_refl). pose proof (eight_sized p EP LC) as L. now rewrite (wlift_ok _ _ _ _ (eight_to_bytes _ L)).
Qed.
Lemma eight_to_der : x_to_der 8 false E D v = to_der E D v.
Proof.
  unfold x_to_der, to_der. rewrite eight_contents_or_len. destruct (contents_or_len E D v) as [[n o]|e| |] eqn:EP; cbn [rbind]; [|reflexivity..].
  pose proof (eight_sized _ EP LC) as L. cbn [fst] in L. rewrite (eight_to_bytes n L). cbn [rbind].
  destruct (id_len D v) as [[i|]|e| |]; cbn [rbind]; [| |reflexivity..].
  - rewrite eight_add. destruct (add_usize i _) as [t|e| |]; cbn [rbind]; [|reflexivity..].
    rewrite eight_add. destruct (add_usize t _) as [t'|e| |]; cbn [rbind]; [|reflexivity..].
    rewrite eight_reserve. destruct (bf_reserve _ _ _) as [b|e| |]; cbn [rbind]; [|reflexivity..].
    rewrite (eight_emits (e_cfg E) _ _ b EI). destruct (in_buffer _) as [b1|e| |]; cbn [rbind]; [|reflexivity..].
    rewrite eight_write_all. destruct (unwrap_unit _) as [b2|e| |]; cbn [rbind]; [|reflexivity..].
    destruct o; [now rewrite eight_write_all|]. now rewrite (eight_emits (e_cfg E) _ _ b2 EC).
  - rewrite (eight_emits (e_cfg E) _ _ (bf_new (e_cfg E)) EI). destruct (in_buffer _) as [b1|e| |]; cbn [rbind]; [|reflexivity..].
    rewrite eight_write_all. destruct (unwrap_unit _) as [b2|e| |]; cbn [rbind]; [|reflexivity..].
    destruct o; [now rewrite eight_write_all|]. now rewrite (eight_emits (e_cfg E) _ _ b2 EC).
Qed.
End ONE.
Lemma eight_items_len {T} (D : serialize T) vs : Forall (usizes D) vs -> forall acc,
  x_der_contents_len_from 8 false D acc vs = der_contents_len_from D acc vs.
Proof.
  intros F. induction F as [|v vs U F IH]; intros acc; [reflexivity|]. cbn [x_der_contents_len_from der_contents_len_from].
  rewrite (eight_der_len D v U). destruct (der_len D v) as [[n|]|e| |]; cbn [rbind]; [|reflexivity..]. rewrite eight_add.
  destruct (add_usize acc n); cbn [rbind]; [apply IH|reflexivity..].
Qed.
Section MAPS.
Context {K V : Type} (DK : serialize K) (DV : serialize V).
Lemma add_lt a b n : add_usize a b = Ok n -> n < usize_limit.
Proof. unfold add_usize. destruct (N.ltb_spec (a + b) usize_limit); [now intros [= <-] | discriminate]. Qed.
Lemma rbind_same {A B} (r r' : res A) (f g : A -> res B) : r = r' -> (forall a, r' = Ok a -> f a = g a) -> rbind r f = rbind r' g.
Proof. intros -> H. destruct r'; cbn [rbind]; auto. Qed.
Lemma eight_entry n m acc (f g : N -> res (option N)) : (forall a, f a = g a) ->
  (let! content_len := x_add 8 false n m in
   let! t := x_add 8 false (nlen ID_SEQUENCE) (w_Length_len 8 (Definite content_len)) in
   let! t := x_add 8 false t content_len in
   let! ret' := x_add 8 false acc t in f ret') =
  (let! content_len := add_usize n m in
   let! t := add_usize (nlen ID_SEQUENCE) (Length_len (Definite content_len)) in
   let! t := add_usize t content_len in
   let! ret' := add_usize acc t in g ret').
Proof.
  intros F. apply rbind_same; [apply eight_add|]. intros c Hc. apply rbind_same; [rewrite eight_len by exact (add_lt _ _ _ Hc); apply eight_add|].
  intros t _. apply rbind_same; [apply eight_add|]. intros t' _. apply rbind_same; [apply eight_add|]. intros r _. apply F.
Qed.
Lemma eight_btree_len l : Forall (fun p => usizes DK (fst p) /\ usizes DV (snd p)) l -> forall acc,
  x_btree_map_len 8 false DK DV acc l = btree_map_len DK DV acc l.
Proof.
  intros F. induction F as [|[k v] l [UK UV] F IH]; intros acc; [reflexivity|]. cbn [x_btree_map_len btree_map_len fst snd] in *.
  apply rbind_same; [now apply eight_der_len|]. intros [n|] _; [|reflexivity]. apply rbind_same; [now apply eight_der_len|].
  intros [m|] _; [|reflexivity]. apply eight_entry. exact IH.
Qed.
Lemma eight_hash_len l : Forall (fun p => usizes DK (fst p) /\ usizes DV (snd p)) l -> forall acc,
  x_hash_map_len 8 false DK DV acc l = hash_map_len DK DV acc l.
Proof.
  intros F. induction F as [|[k v] l [UK UV] F IH]; intros acc; [reflexivity|]. cbn [x_hash_map_len hash_map_len fst snd] in *.
  apply rbind_same; [now apply eight_der_len|]. intros [n|] _; [|apply IH]. apply rbind_same; [now apply eight_der_len|].
  intros [m|] _; [|reflexivity]. apply eight_entry. exact IH.
Qed.
End MAPS.
End EIGHT.
