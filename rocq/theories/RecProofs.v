(** Recursive types: knots exist, are determined, and are lawful. *)
From Coq Require Import String Ascii.
From Verif Require Import Base ModelError ModelIo ModelTag ModelContents ModelBuf ModelTlv ModelSerde ModelAttr ModelDerive.
From Verif Require Import Spec SpecSerde SpecAttr SpecDerive SpecRec.
From Verif Require Import TagProofs IdProofs TagMain ContentsProofs TlvProofs BufProofs TlvMain.
From Verif Require Import SerdeOctets SerdeSer SerdeDe SerdeMain SerdeEntry AttrProofs AttrParse DeriveProofs DeriveMain.

(** ** The relations *)
Lemma same_ser_refl {T} P (S : serialize T) : same_ser P S S.
Proof. intros v _. auto. Qed.
Lemma same_ser_sym {T} P (S S' : serialize T) : same_ser P S S' -> same_ser P S' S.
Proof. intros H v Pv. destruct (H v Pv) as (A & B & C & D). repeat split; intros; symmetry; auto. Qed.
Lemma same_ser_trans {T} P (S S' S'' : serialize T) : same_ser P S S' -> same_ser P S' S'' -> same_ser P S S''.
Proof.
  intros H H' v Pv. destruct (H v Pv) as (A & B & C & D), (H' v Pv) as (A' & B' & C' & D').
  repeat split; intros; etransitivity; eauto.
Qed.
Lemma same_ser_weaken {T} (P Q : T -> Prop) S S' : (forall v, Q v -> P v) -> same_ser P S S' -> same_ser Q S S'.
Proof. intros H K v Qv. auto. Qed.
Lemma same_de_refl {T} n (D : deserialize T) : same_de n D D.
Proof. split; reflexivity. Qed.
Lemma same_de_sym {T} n (D D' : deserialize T) : same_de n D D' -> same_de n D' D.
Proof. intros H id l c Hc L. destruct (H id l c Hc L). auto. Qed.
Lemma same_de_trans {T} n (D D' D'' : deserialize T) : same_de n D D' -> same_de n D' D'' -> same_de n D D''.
Proof. intros H K id l c Hc L. destruct (H id l c Hc L), (K id l c Hc L). split; congruence. Qed.
Lemma same_de_weaken {T} n m (D D' : deserialize T) : (m <= n)%nat -> same_de n D D' -> same_de m D D'.
Proof. intros H K id l c Hc L. apply K; [assumption | lia]. Qed.

(** ** Decoding *)
Definition de_none {T} : deserialize T := {| from_ber := fun _ _ _ => Err UnmatchedId; from_der := fun _ _ => Err UnmatchedId |}.
Section De.
Context {T : Type} (FD : deserialize T -> deserialize T) (G : guarded_de FD).
Fixpoint de_iter (n : nat) : deserialize T := match n with O => de_none | S n' => FD (de_iter n') end.
Lemma knot_iter D : knot_de FD D -> forall n, same_de n D (de_iter n).
Proof using G.
  intros K. induction n as [|n IH]; [intros id l c _ L; lia|]. cbn [de_iter].
  eapply same_de_trans; [apply K|]. now apply G.
Qed.
Lemma iter_stable n m : (n <= m)%nat -> same_de n (de_iter n) (de_iter m).
Proof using G.
  revert m. induction n as [|n IH]; intros m L; [intros id l c _ H; lia|]. destruct m as [|m]; [lia|].
  cbn [de_iter]. apply G, IH. lia.
Qed.
Definition de_knot : deserialize T :=
  {| from_ber := fun id l c => from_ber (de_iter (S (length c))) id l c;
     from_der := fun id c => from_der (de_iter (S (length c))) id c |}.
Lemma de_knot_iter n : same_de n de_knot (de_iter n).
Proof using G. intros id l c Hc L. cbn [from_ber from_der de_knot]. apply iter_stable; [lia | assumption | lia]. Qed.
Lemma de_knot_ok : knot_de FD de_knot.
Proof using G.
  intros n. destruct n as [|n]; [intros id l c _ H; lia|].
  eapply same_de_trans; [apply (de_knot_iter (S n))|]. cbn [de_iter]. apply G, same_de_sym, de_knot_iter.
Qed.
Lemma knot_unique D D' : knot_de FD D -> knot_de FD D' -> forall n, same_de n D D'.
Proof using G. intros K K' n. eapply same_de_trans; [now apply knot_iter | apply same_de_sym; now apply knot_iter]. Qed.
End De.

(** ** Serialising *)
Definition ser_none {T} : serialize T :=
  {| write_id := fun _ _ _ => wret tt; write_der_contents := fun _ _ _ => wret tt;
     id_len := fun _ => Ok None; der_contents_len := fun _ => Ok None |}.
Section Ser.
Context {T : Type} (depth : T -> nat) (FS : serialize T -> serialize T) (G : guarded_ser depth FS).
Fixpoint ser_iter (n : nat) : serialize T := match n with O => ser_none | S n' => FS (ser_iter n') end.
Lemma ser_iter_stable n m : (n <= m)%nat -> same_ser (fun v => depth v < n)%nat (ser_iter n) (ser_iter m).
Proof using G.
  revert m. induction n as [|n IH]; intros m L; [intros v H; lia|]. destruct m as [|m]; [lia|].
  cbn [ser_iter]. apply G, IH. lia.
Qed.
Definition ser_knot : serialize T :=
  {| write_id := fun _ W v => write_id (ser_iter (S (depth v))) W v;
     write_der_contents := fun _ W v => write_der_contents (ser_iter (S (depth v))) W v;
     id_len := fun v => id_len (ser_iter (S (depth v))) v;
     der_contents_len := fun v => der_contents_len (ser_iter (S (depth v))) v |}.
Lemma ser_knot_iter n : same_ser (fun v => depth v < n)%nat ser_knot (ser_iter n).
Proof using G.
  intros v L. cbn [write_id write_der_contents id_len der_contents_len ser_knot].
  apply (ser_iter_stable (S (depth v)) n); lia.
Qed.
Lemma ser_knot_ok : knot_ser FS ser_knot.
Proof using G.
  intros v _. assert (same_ser (fun v => depth v < S (depth v))%nat ser_knot (FS ser_knot)) as H; [|apply H; lia].
  clear v. intros v _. assert (same_ser (fun x => depth x < S (depth v))%nat ser_knot (FS ser_knot)) as H; [|apply H; lia].
  eapply same_ser_trans; [apply ser_knot_iter|]. cbn [ser_iter]. apply G, same_ser_sym, ser_knot_iter.
Qed.
Lemma knot_ser_unique S S' : knot_ser FS S -> knot_ser FS S' -> same_ser (fun _ => True) S S'.
Proof using G.
  intros K K'. assert (forall n, same_ser (fun v => depth v < n)%nat S S') as H.
  { induction n as [|n IH]; [intros v L; lia|]. apply (same_ser_trans _ S (FS S)); [intros v _; now apply K|].
    apply (same_ser_trans _ (FS S) (FS S')); [apply G, IH|]. apply same_ser_sym. intros v _. now apply K'. }
  intros v _. apply (H (Datatypes.S (depth v))). lia.
Qed.
End Ser.

(** ** Laws *)
Lemma serialises_same {T} P (S S' : serialize T) v id c : same_ser P S S' -> P v -> serialises S v id c -> serialises S' v id c.
Proof.
  intros H Pv [A B C D]. destruct (H v Pv) as (E1 & E2 & E3 & E4). split.
  - destruct A as (cs & Ec & A). exists cs. split; [assumption|]. intros X W s. rewrite <- E1. apply A.
  - destruct B as (cs & Ec & B). exists cs. split; [assumption|]. intros X W s. rewrite <- E2. apply B.
  - now rewrite <- E3.
  - now rewrite <- E4.
Qed.
Lemma laws_same_ser E {T} (C : codec_on T) S S' D : same_ser (fun _ => True) S S' -> laws E (to_codec C) S D -> laws E (to_codec C) S' D.
Proof.
  intros H []. split; try assumption. intros v W L. apply (serialises_same (fun _ => True) S); auto.
Qed.
Lemma laws_same_de E {T} (C : codec_on T) S D D' : (forall n, same_de n D D') -> laws E (to_codec C) S D -> laws E (to_codec C) S D'.
Proof.
  intros H L. pose proof (fun id l c Hc => H (Datatypes.S (length c)) id l c Hc (Nat.lt_succ_diag_r _)) as K. clear H.
  destruct L as [L1 L2 L3 L4 L5 L6 L7]. split; try assumption.
  - intros v W N0. destruct (L3 v W N0) as (v' & F & R). exists v'. split; [|exact R]. eapply eq_trans; [|exact F].
    symmetry. apply (K _ Indefinite). now apply (L1 v W).
  - intros v id l c W B N0. destruct (L4 v id l c W B N0) as (v' & F & R). exists v'. split; [|exact R]. eapply eq_trans; [|exact F].
    symmetry. apply K. now apply (proj1 L5 v id l c W B N0).
  - intros id c Hc. pose proof (L6 id c Hc) as A. rewrite <- (proj1 (K id Indefinite c Hc)). exact A.
  - intros id l c Hc R. pose proof (L7 id l c Hc R) as A. rewrite <- (proj2 (K id l c Hc)). exact A.
Qed.
Section Rec.
Context (E : env) {T : Type} (C : codec_on T) (depth : T -> nat).
Context (FS : serialize T -> serialize T) (FD : deserialize T -> deserialize T).
Hypothesis step : lawful_step E C depth FS FD.
Hypothesis G : guarded_de FD.
Lemma iter_laws S : knot_ser FS S -> forall n, laws E (to_codec (below C depth n)) S (de_iter FD n).
Proof using step.
  intros K. induction n as [|n IH].
  - split; cbn.
    + intros v [_ H]; cbn in H; lia.
    + intros v [_ H]; cbn in H; lia.
    + intros v [_ H]; cbn in H; lia.
    + intros v id l c [_ H]; cbn in H; lia.
    + split; [intros v id l c [_ H]; cbn in H; lia | intros v [_ H]; cbn in H; lia].
    + intros id c _. apply answers_err.
    + intros id l c _ _. apply answers_err.
  - apply (laws_same_ser E _ (FS S)); [now apply same_ser_sym|]. cbn [de_iter]. now apply step.
Qed.
Lemma knot_laws S D : knot_ser FS S -> knot_de FD D -> laws E (to_codec C) S D.
Proof using step G.
  intros KS KD. pose proof (iter_laws S KS) as L. pose proof (knot_iter FD G D KD) as I.
  assert (codec_ok (to_codec C)) as CO.
  { intros v W. apply (l_codec _ _ _ _ (L (Datatypes.S (depth v)))). split; [assumption | cbn; lia]. }
  assert (ber_ok (to_codec C)) as BO.
  { split.
    - intros v id l c W B N0. apply (proj1 (l_ber_ok _ _ _ _ (L (Datatypes.S (depth v)))) v id l c); auto. split; [assumption | cbn; lia].
    - intros v W. apply (proj2 (l_ber_ok _ _ _ _ (L (Datatypes.S (depth v)))) v). split; [assumption | cbn; lia]. }
  split; [assumption | | | | assumption | |].
  - intros v W N0. apply (l_ser _ _ _ _ (L (Datatypes.S (depth v))) v); [|assumption]. split; [assumption | cbn; lia].
  - intros v W N0. set (n := Datatypes.S (depth v + length (on_contents C v))).
    destruct (l_de _ _ _ _ (L n) v) as (v' & F & [W' _] & Sm); [split; [assumption | cbn; unfold n; lia] | assumption|].
    exists v'. split; [|split; assumption]. eapply eq_trans; [|exact F]. apply (I n (on_id C v) Indefinite); [now apply CO | cbn; unfold n; lia].
  - intros v id l c W B N0. set (n := Datatypes.S (depth v + length c)).
    destruct (l_ber _ _ _ _ (L n) v id l c) as (v' & F & [W' _] & Sm); [split; [assumption | cbn; unfold n; lia] | assumption | assumption |].
    exists v'. split; [|split; assumption]. eapply eq_trans; [|exact F]. apply (I n id l c); [|unfold n; lia].
    now apply (proj1 BO v id l c W B N0).
  - intros id c Hc. change (answers (from_der D id c)). rewrite (proj1 (I (Datatypes.S (length c)) id Indefinite c Hc ltac:(lia))).
    now apply (l_der_answers _ _ _ _ (L (Datatypes.S (length c)))).
  - intros id l c Hc R. change (answers (from_ber D id l c)). rewrite (proj2 (I (Datatypes.S (length c)) id l c Hc ltac:(lia))).
    now apply (l_ber_answers _ _ _ _ (L (Datatypes.S (length c)))).
Qed.
End Rec.
(** Codecs that say the same. *)
Definition same_codec {T} (a b : codec_on T) : Prop :=
  (forall v, on_wf a v <-> on_wf b v) /\ (forall v w, on_wf a v -> on_wf a w -> (on_same a v w <-> on_same b v w)) /\
  (forall v, on_id a v = on_id b v) /\ (forall v, on_contents a v = on_contents b v) /\
  (forall v id l c, on_ber a v id l c <-> on_ber b v id l c).
Lemma laws_same_codec E {T} (a b : codec_on T) S D : same_codec a b -> laws E (to_codec a) S D -> laws E (to_codec b) S D.
Proof.
  intros (HW & HS & HI & HC & HB) [L1 L2 L3 L4 L5 L6 L7]. split; try assumption.
  - intros v W. apply HW in W. destruct (L1 v W) as [A B]. cbn in *. rewrite <- HI, <- HC. auto.
  - intros v W L. cbn in *. rewrite <- HI, <- HC in *. apply L2; [now apply HW | exact L].
  - intros v W L. cbn in *. apply HW in W. rewrite <- HC in L. destruct (L3 v W L) as (v' & A & B & K). cbn in *.
    exists v'. rewrite <- HI, <- HC. split; [assumption|]. split; [now apply HW | now apply HS].
  - intros v id l c W B L. cbn in *. apply HW in W. apply HB in B. destruct (L4 v id l c W B L) as (v' & A & Wv & K). cbn in *.
    exists v'. split; [assumption|]. split; [now apply HW | now apply HS].
  - split.
    + intros v id l c W B L. cbn in *. apply HW in W. apply HB in B. now apply (proj1 L5 v id l c).
    + intros v W. cbn in *. apply HW in W. apply HB. rewrite <- HI, <- HC. now apply (proj2 L5).
Qed.

(** ** What is guarded: decoding *)
Lemma parsed_der_shorter bs v rest : bytes_ok bs -> parsed (DerRef_parse bs) = Ok (v, rest) ->
  exists p c, disassemble v = Ok (p, c) /\ tlv_contents v = Ok c /\ bytes_ok c /\ (S (length c) < length bs)%nat /\ bytes_ok rest /\ (length rest < length bs)%nat.
Proof.
  intros Hok P. apply parsed_der_inv in P as (id & c & T & -> & Ds & _ & Dc & Hc & _ & Hr); auto.
  exists (id, Definite (nlen c)), c. destruct T as [len I M _]. rewrite !app_length. apply is_identifier_nonempty in I.
  assert (1 <= length len)%nat by (destruct M; cbn; lia).
  assert (1 <= length id)%nat by (destruct id; [congruence | cbn; lia]). repeat split; auto; lia.
Qed.
Lemma parsed_ber_shorter bs v rest : bytes_ok bs -> parsed (BerRef_parse bs) = Ok (v, rest) ->
  exists p c, disassemble v = Ok (p, c) /\ tlv_contents v = Ok c /\ bytes_ok c /\ (S (length c) < length bs)%nat /\ bytes_ok rest /\ (length rest < length bs)%nat.
Proof.
  intros Hok P. apply parsed_ber_inv in P as (V & -> & Hr & id & l & c & Ds & _ & Dc & Hc & I & Ev & _); auto.
  exists (id, l), c. apply is_identifier_nonempty in I. apply (f_equal (@length N)) in Ev. rewrite !app_length in *.
  assert (1 <= length (length_of l))%nat by (destruct l as [|m]; [cbn; lia|]; cbn [length_of]; unfold length_octets; destruct (m <? 128); cbn [length]; lia).
  assert (1 <= length id)%nat by (destruct id; [congruence | cbn; lia]). repeat split; auto; lia.
Qed.
Lemma rbind_congr {A B} (r : res A) (k k' : A -> res B) : (forall a, r = Ok a -> k a = k' a) -> rbind r k = rbind r k'.
Proof. destruct r; cbn; auto. Qed.
Section Next.
Context (n : nat) {T : Type} (D D' : deserialize T) (H : same_de n D D').
Lemma der_to_val_same bs i : bytes_ok bs -> (length bs <= S n)%nat -> der_to_val D (bs, i) = der_to_val D' (bs, i).
Proof using H.
  intros Hok L. destruct bs as [|o bs]; [reflexivity|]. rewrite !der_to_val_cons by discriminate.
  apply rbind_congr. intros [v r] P. apply with_ctx_ok in P. apply parsed_der_shorter in P as (p & c & -> & _ & Hc & Lc & _); auto.
  cbn [rbind]. now rewrite (proj1 (H (fst p) Indefinite c Hc ltac:(lia))).
Qed.
Lemma ber_to_val_same bs i : bytes_ok bs -> (length bs <= S n)%nat -> ber_to_val D (bs, i) = ber_to_val D' (bs, i).
Proof using H.
  intros Hok L. destruct bs as [|o bs]; [reflexivity|]. rewrite !ber_to_val_cons by discriminate.
  apply rbind_congr. intros [v r] P. apply with_ctx_ok in P. apply parsed_ber_shorter in P as (p & c & -> & _ & Hc & Lc & _); auto.
  cbn [rbind]. now rewrite (proj2 (H (fst p) (snd p) c Hc ltac:(lia))).
Qed.
End Next.
Section NextKV.
Context (n : nat) {K V : Type} (DK DK' : deserialize K) (DV DV' : deserialize V) (HK : same_de n DK DK') (HV : same_de n DV DV').
Lemma der_to_key_val_same bs i : bytes_ok bs -> (length bs <= S n)%nat -> der_to_key_val DK DV (bs, i) = der_to_key_val DK' DV' (bs, i).
Proof using HK HV.
  intros Hok L. destruct bs as [|o bs]; [reflexivity|]. rewrite !der_to_key_val_cons by discriminate.
  apply rbind_congr. intros [v r] P. apply with_ctx_ok in P. apply parsed_der_shorter in P as (p & c & _ & -> & Hc & Lc & _); auto.
  apply rbind_congr. intros id _. destruct (negb _); [reflexivity|]. cbn [rbind].
  apply rbind_congr. intros [k pc] P. apply with_ctx_ok in P. apply parsed_der_shorter in P as (pk & ck & -> & _ & Hck & Lck & Hpc & Lpc); auto.
  apply rbind_congr. intros [w pc2] P. apply with_ctx_ok in P. apply parsed_der_shorter in P as (pv & cv & -> & _ & Hcv & Lcv & _); auto.
  destruct pc2; [|reflexivity]. cbn [rbind].
  rewrite (proj1 (HK (fst pk) Indefinite ck Hck ltac:(lia))). apply rbind_congr. intros x _.
  now rewrite (proj1 (HV (fst pv) Indefinite cv Hcv ltac:(lia))).
Qed.
Lemma ber_to_key_val_same bs i : bytes_ok bs -> (length bs <= S n)%nat -> ber_to_key_val DK DV (bs, i) = ber_to_key_val DK' DV' (bs, i).
Proof using HK HV.
  intros Hok L. destruct bs as [|o bs]; [reflexivity|]. rewrite !ber_to_key_val_cons by discriminate.
  apply rbind_congr. intros [v r] P. apply with_ctx_ok in P. apply parsed_ber_shorter in P as (p & c & _ & -> & Hc & Lc & _); auto.
  apply rbind_congr. intros id _. destruct (negb _); [reflexivity|]. cbn [rbind].
  apply rbind_congr. intros [k pc] P. apply with_ctx_ok in P. apply parsed_ber_shorter in P as (pk & ck & -> & _ & Hck & Lck & Hpc & Lpc); auto.
  apply rbind_congr. intros [w pc2] P. apply with_ctx_ok in P. apply parsed_ber_shorter in P as (pv & cv & -> & _ & Hcv & Lcv & _); auto.
  destruct pc2; [|reflexivity]. cbn [rbind].
  rewrite (proj2 (HK (fst pk) (snd pk) ck Hck ltac:(lia))). apply rbind_congr. intros x _.
  now rewrite (proj2 (HV (fst pv) (snd pv) cv Hcv ltac:(lia))).
Qed.
End NextKV.
Lemma collect_same {X Y} n (next next' : helper -> res (option (X * helper))) (insert : X -> Y -> Y) (P : list N -> X -> Prop) :
  (forall bs i, bytes_ok bs -> (length bs <= n)%nat -> next (bs, i) = next' (bs, i)) ->
  (forall bs i x rest j, bytes_ok bs -> next (bs, i) = Ok (Some (x, (rest, j))) -> exists b, bs = b ++ rest /\ b <> [] /\ P b x) ->
  forall fuel bs i ret, bytes_ok bs -> (length bs <= n)%nat -> collect next insert fuel (bs, i) ret = collect next' insert fuel (bs, i) ret.
Proof.
  intros H Sm. induction fuel as [|fuel IH]; intros bs i ret Hok L; [reflexivity|]. cbn [collect].
  rewrite <- H by assumption. apply rbind_congr. intros [[x [rest j]]|] Hx; [|reflexivity].
  destruct (Sm _ _ _ _ _ Hok Hx) as (b & -> & _ & _). apply bytes_ok_app in Hok as [_ Hr]. rewrite app_length in L. apply IH; [assumption | lia].
Qed.
Lemma exclude_eoc_shorter E l c c' : bytes_ok c -> exclude_eoc E l c = Ok c' -> bytes_ok c' /\ (length c' <= length c)%nat.
Proof.
  intros Hc H. destruct l as [|m]; cbn [exclude_eoc] in H.
  - destruct (ends_with c EOC); [|discriminate]. injection H as <-. split; [now apply bytes_ok_take|].
    pose proof (nlen_take (nlen c - nlen EOC) c) as K. rewrite !(nlen_length c), (nlen_length (take _ _)) in K. rewrite !(nlen_length c). lia.
  - apply rbind_inv in H as (u & _ & H). injection H as <-. auto.
Qed.
Lemma collection_same E ID {X Y} n (empty : Y) (insert : X -> Y -> Y) bnext dnext bnext' dnext' P Q :
  (forall bs i, bytes_ok bs -> (length bs <= S n)%nat -> dnext (bs, i) = dnext' (bs, i)) ->
  (forall bs i x rest j, bytes_ok bs -> dnext (bs, i) = Ok (Some (x, (rest, j))) -> exists b, bs = b ++ rest /\ b <> [] /\ P b x) ->
  (forall bs i, bytes_ok bs -> (length bs <= S n)%nat -> bnext (bs, i) = bnext' (bs, i)) ->
  (forall bs i x rest j, bytes_ok bs -> bnext (bs, i) = Ok (Some (x, (rest, j))) -> exists b, bs = b ++ rest /\ b <> [] /\ Q b x) ->
  same_de (S (S n)) (de_collection E ID empty insert bnext dnext) (de_collection E ID empty insert bnext' dnext').
Proof.
  intros H1 S1 H2 S2 id l c Hc L. cbn [from_der from_ber de_collection]. destruct (negb _); [split; reflexivity|]. split.
  - apply (collect_same (S n) _ _ _ P); auto. lia.
  - apply rbind_congr. intros c' Ec. apply exclude_eoc_shorter in Ec as [Hc' Lc']; [|assumption]. apply (collect_same (S n) _ _ _ Q); auto. lia.
Qed.
Lemma de_vec_same E n {T} (D D' : deserialize T) : same_de n D D' -> same_de (S (S n)) (de_vec E D) (de_vec E D').
Proof.
  intros H. eapply collection_same; [intros; now apply (der_to_val_same n) | apply der_next_some | intros; now apply (ber_to_val_same n) | apply ber_next_some].
Qed.
Lemma de_btree_set_same E n {T} (cmp : T -> T -> comparison) (D D' : deserialize T) : same_de n D D' -> same_de (S (S n)) (de_btree_set E cmp D) (de_btree_set E cmp D').
Proof.
  intros H. eapply collection_same; [intros; now apply (der_to_val_same n) | apply der_next_some | intros; now apply (ber_to_val_same n) | apply ber_next_some].
Qed.
Lemma de_hash_set_same E n {T} (eqb : T -> T -> bool) (D D' : deserialize T) : same_de n D D' -> same_de (S (S n)) (de_hash_set E eqb D) (de_hash_set E eqb D').
Proof.
  intros H. eapply collection_same; [intros; now apply (der_to_val_same n) | apply der_next_some | intros; now apply (ber_to_val_same n) | apply ber_next_some].
Qed.
Lemma map_same E ID n {K V} insert (DK DK' : deserialize K) (DV DV' : deserialize V) : same_de n DK DK' -> same_de n DV DV' ->
  same_de (S (S n)) (de_collection (C := list (K * V)) E ID [] insert (ber_to_key_val DK DV) (der_to_key_val DK DV))
                (de_collection E ID [] insert (ber_to_key_val DK' DV') (der_to_key_val DK' DV')).
Proof.
  intros HK HV. apply (collection_same E ID n [] insert _ _ _ _ (fun _ _ => True) (fun _ _ => True)).
  - intros. now apply (der_to_key_val_same n).
  - intros bs i [k v] rest j Hb H. destruct (der_kv_some DK DV bs i k v rest j Hb H) as (b & -> & N0 & _). eauto.
  - intros. now apply (ber_to_key_val_same n).
  - intros bs i [k v] rest j Hb H. destruct (ber_kv_some DK DV bs i k v rest j Hb H) as (b & -> & N0 & _). eauto.
Qed.
Lemma de_btree_map_same E n {K V} (cmp : K -> K -> comparison) (DK DK' : deserialize K) (DV DV' : deserialize V) : same_de n DK DK' -> same_de n DV DV' ->
  same_de (S (S n)) (de_btree_map E cmp DK DV) (de_btree_map E cmp DK' DV').
Proof. apply map_same. Qed.
Lemma de_hash_map_same E n {K V} (eqb : K -> K -> bool) (DK DK' : deserialize K) (DV DV' : deserialize V) : same_de n DK DK' -> same_de n DV DV' ->
  same_de (S (S n)) (de_hash_map E eqb DK DV) (de_hash_map E eqb DK' DV').
Proof. apply map_same. Qed.
Lemma do_from_same n {T U} (g : U -> T) (D D' : deserialize U) : same_de n D D' ->
  same_de n (do_from_deserialize {| sr_ty := U; sr_conv := g; sr_de := D |}) (do_from_deserialize {| sr_ty := U; sr_conv := g; sr_de := D' |}).
Proof. intros H id l c Hc L. destruct (H id l c Hc L) as [A B]. cbn [from_der from_ber do_from_deserialize]. cbn [sr_de sr_conv].
  split; [change (rbind (from_der D id c) (fun v => Ok (g v)) = rbind (from_der D' id c) (fun v => Ok (g v)))
         | change (rbind (from_ber D id l c) (fun v => Ok (g v)) = rbind (from_ber D' id l c) (fun v => Ok (g v)))]; now rewrite ?A, ?B.
Qed.

(** Fields with the same attribute whose types decode the same. *)
Definition field_same (n : nat) (T : Type) (f f' : field T) : Prop :=
  f_attr f = f_attr f' /\ n_default (f_names f) = n_default (f_names f') /\ n_field (f_names f) = n_field (f_names f') /\
  n_paths (f_names f) = n_paths (f_names f') /\ same_de n (n_de (f_names f)) (n_de (f_names f')).
Fixpoint fields_same_de (n : nat) (Ts : list Type) : hlist field Ts -> hlist field Ts -> Prop :=
  match Ts with
  | [] => fun _ _ => True
  | T :: Ts' => fun fs fs' => field_same n T (fst fs) (fst fs') /\ fields_same_de n Ts' (snd fs) (snd fs')
  end.
Lemma der_value_same n m {T} (D D' : deserialize T) bs : same_de n D D' -> bytes_ok bs -> (length bs <= S n)%nat -> der_value_of m D bs = der_value_of m D' bs.
Proof.
  intros H Hok L. apply rbind_congr. intros [v r] P. apply with_context_ok in P. apply parsed_der_shorter in P as (p & c & -> & _ & Hc & Lc & _); auto.
  cbn [rbind]. now rewrite (proj1 (H (fst p) Indefinite c Hc ltac:(lia))).
Qed.
Lemma ber_value_same n m {T} (D D' : deserialize T) bs : same_de n D D' -> bytes_ok bs -> (length bs <= S n)%nat -> ber_value_of m D bs = ber_value_of m D' bs.
Proof.
  intros H Hok L. apply rbind_congr. intros [v r] P. apply with_context_ok in P. apply parsed_ber_shorter in P as (p & c & -> & _ & Hc & Lc & _); auto.
  cbn [rbind]. now rewrite (proj2 (H (fst p) (snd p) c Hc ltac:(lia))).
Qed.
Lemma der_field_same n {T} (f f' : field T) bs : field_same n T f f' -> bytes_ok bs -> (length bs <= S n)%nat -> der_field f bs = der_field f' bs.
Proof.
  intros (A & B & C & P & H) Hok L. unfold der_field. rewrite <- A, <- B, <- C, <- P.
  destruct (is_skip_deserializing (f_attr f)); [reflexivity|]. destruct (a_from (f_attr f)); [reflexivity|].
  destruct (a_try_from (f_attr f)); [reflexivity|]. now apply (der_value_same n).
Qed.
Lemma ber_field_same n {T} (f f' : field T) bs : field_same n T f f' -> bytes_ok bs -> (length bs <= S n)%nat -> ber_field f bs = ber_field f' bs.
Proof.
  intros (A & B & C & P & H) Hok L. unfold ber_field. rewrite <- A, <- B, <- C, <- P.
  destruct (is_skip_deserializing (f_attr f)); [reflexivity|]. destruct (a_from (f_attr f)); [reflexivity|].
  destruct (a_try_from (f_attr f)); [reflexivity|]. now apply (ber_value_same n).
Qed.
Lemma der_field_shorter {T} (f : field T) bs t rest : bytes_ok bs -> der_field f bs = Ok (t, rest) -> bytes_ok rest /\ (length rest <= length bs)%nat.
Proof.
  intros Hok H. split; [eapply der_field_rest; eassumption|]. destruct (is_skip_deserializing (f_attr f)) eqn:NS.
  - rewrite der_field_skip in H by assumption. now injection H as _ <-.
  - apply der_field_iff in H as (id & c & _ & _ & -> & _); auto. rewrite app_length. lia.
Qed.
Lemma ber_field_shorter {T} (f : field T) bs t rest : bytes_ok bs -> ber_field f bs = Ok (t, rest) -> bytes_ok rest /\ (length rest <= length bs)%nat.
Proof.
  intros Hok H. destruct (is_skip_deserializing (f_attr f)) eqn:NS.
  - rewrite ber_field_skip in H by assumption. now injection H as _ <-.
  - apply ber_field_iff in H as (id & l & c & _ & -> & _); auto. apply bytes_ok_app in Hok as [_ Hr]. split; [assumption|]. rewrite app_length. lia.
Qed.
Lemma construct_same n (rd : forall T, field T -> list N -> res (T * list N)) :
  (forall T f f' bs, field_same n T f f' -> bytes_ok bs -> (length bs <= S n)%nat -> rd T f bs = rd T f' bs) ->
  (forall T f bs t rest, bytes_ok bs -> rd T f bs = Ok (t, rest) -> bytes_ok rest /\ (length rest <= length bs)%nat) ->
  forall Ts fs fs' bs, fields_same_de n Ts fs fs' -> bytes_ok bs -> (length bs <= S n)%nat -> construct rd Ts fs bs = construct rd Ts fs' bs.
Proof.
  intros H R Ts. induction Ts as [|T Ts IH]; intros fs fs' bs F Hok L; [reflexivity|]. destruct F as [Ff F]. cbn [construct].
  rewrite <- (H T (fst fs) (fst fs') bs) by assumption. apply rbind_congr. intros [t r] P. apply R in P as [Hr Lr]; [|assumption].
  rewrite (IH (snd fs) (snd fs')); [reflexivity | assumption | assumption | lia].
Qed.
Lemma de_struct_same E n a Ts (fs fs' : hlist field Ts) : fields_same_de n Ts fs fs' ->
  same_de (S (S n)) (de_struct E {| dc_attr := a; dc_fields := fs |}) (de_struct E {| dc_attr := a; dc_fields := fs' |}).
Proof.
  intros F id l c Hc L. cbn [from_der from_ber de_struct dc_attr]. destruct (negb _); [split; reflexivity|]. split.
  - unfold from_der_contents. cbn [dc_fields]. rewrite (construct_same n (@der_field)) with (fs' := fs'); auto; [| |lia].
    + intros. now apply (der_field_same n).
    + intros. eapply der_field_shorter; eassumption.
  - rewrite !from_ber_contents_eq. cbn [dc_fields]. apply rbind_congr. intros c' Ec. apply exclude_eoc_shorter in Ec as [Hc' Lc']; [|assumption].
    rewrite (construct_same n (@ber_field)) with (fs' := fs'); auto; [| |lia].
    + intros. now apply (ber_field_same n).
    + intros. eapply ber_field_shorter; eassumption.
Qed.
Fixpoint variants_same_de (n : nat) (Tss : list (list Type)) : vlist data_container Tss -> vlist data_container Tss -> Prop :=
  match Tss with
  | [] => fun _ _ => True
  | Ts :: Tss' => fun vs vs' => dc_attr (fst vs) = dc_attr (fst vs') /\ fields_same_de n Ts (dc_fields (fst vs)) (dc_fields (fst vs')) /\
                                variants_same_de n Tss' (snd vs) (snd vs')
  end.
Lemma de_enum_same E n Tss : forall vs vs', variants_same_de n Tss vs vs' -> same_de (S (S n)) (de_enum E Tss vs) (de_enum E Tss vs').
Proof.
  induction Tss as [|Ts Tss IH]; intros vs vs' R; [apply same_de_refl|]. destruct vs as [dc vs], vs' as [dc' vs'].
  destruct R as (A & F & R). cbn [fst snd] in *. intros id l c Hc L.
  rewrite !de_enum_der, !de_enum_ber. rewrite <- A. destruct (IH vs vs' R id l c Hc L) as [B1 B2].
  destruct dc as [a fs], dc' as [a' fs']. cbn [dc_attr dc_fields] in *. subst a'.
  destruct (de_struct_same E n a Ts fs fs' F id l c Hc L) as [S1 S2]. rewrite S1, S2, B1, B2. split; reflexivity.
Qed.

(** ** What is guarded: serialising *)
Definition same_at {T} (S S' : serialize T) (v : T) : Prop :=
  (forall X (W : writer X) s, write_id S W v s = write_id S' W v s) /\
  (forall X (W : writer X) s, write_der_contents S W v s = write_der_contents S' W v s) /\
  id_len S v = id_len S' v /\ der_contents_len S v = der_contents_len S' v.
Lemma same_at_refl {T} (S : serialize T) v : same_at S S v.
Proof. repeat split. Qed.
Lemma wbind_congr {X A B} (m m' : wr X A) (k k' : A -> wr X B) s :
  m s = m' s -> (forall a s, k a s = k' a s) -> wbind m k s = wbind m' k' s.
Proof. intros H K. unfold wbind. rewrite <- H. destruct (m s) as [[] s']; auto. Qed.
Lemma contents_or_len_same E {T} (S S' : serialize T) v : same_at S S' v -> contents_or_len E S v = contents_or_len E S' v.
Proof. intros (A & B & C & D). unfold contents_or_len. now rewrite D, B. Qed.
Lemma write_der_same E {T X} (S S' : serialize T) (W : writer X) v s : same_at S S' v -> write_der E S W v s = write_der E S' W v s.
Proof.
  intros H. unfold write_der. rewrite (contents_or_len_same E S S' v H). destruct H as (A & B & _).
  apply wbind_congr; [reflexivity|]. intros [n o] s1. apply wbind_congr; [apply A|]. intros _ s2.
  apply wbind_congr; [reflexivity|]. intros _ s3. cbn [snd]. destruct o; [reflexivity | apply B].
Qed.
Lemma der_len_same {T} (S S' : serialize T) v : same_at S S' v -> der_len S v = der_len S' v.
Proof. intros (A & B & C & D). unfold der_len. now rewrite D, C. Qed.
Lemma to_der_same E {T} (S S' : serialize T) v : same_at S S' v -> to_der E S v = to_der E S' v.
Proof.
  intros H. unfold to_der. rewrite (contents_or_len_same E S S' v H). destruct H as (A & B & C & D). rewrite C.
  apply rbind_congr. intros [n o] _. apply rbind_congr. intros i _. apply rbind_congr. intros b _. rewrite A.
  apply rbind_congr. intros b' _. apply rbind_congr. intros b'' _. destruct o; [reflexivity | now rewrite B].
Qed.
Lemma ser_items_same E ID {T} (S S' : serialize T) l : Forall (same_at S S') l -> same_at (ser_items E ID S) (ser_items E ID S') l.
Proof.
  intros F. repeat split; cbn [write_der_contents der_contents_len ser_items].
  - intros X W. induction F as [|t l H F IH]; intros s; [reflexivity|]. cbn [write_ders].
    apply wbind_congr; [now apply write_der_same | intros _; apply IH].
  - generalize 0. induction F as [|t l H F IH]; intros n; [reflexivity|]. cbn [der_contents_len_from].
    rewrite (der_len_same S S' t H). apply rbind_congr. intros [m|] _; [|reflexivity]. apply rbind_congr. auto.
Qed.
Lemma der_or_len_same E {T} (S S' : serialize T) v : same_at S S' v -> der_or_len E S v = der_or_len E S' v.
Proof. intros H. unfold der_or_len. now rewrite (der_len_same S S' v H), (to_der_same E S S' v H). Qed.
Lemma write_der_or_same E {T X} (S S' : serialize T) (W : writer X) v d s : same_at S S' v -> write_der_or E S W v d s = write_der_or E S' W v d s.
Proof. intros H. destruct d; [reflexivity | now apply write_der_same]. Qed.
Lemma ser_btree_map_same E {K V} (SK SK' : serialize K) (SV SV' : serialize V) l :
  Forall (fun p => same_at SK SK' (fst p) /\ same_at SV SV' (snd p)) l -> same_at (ser_btree_map E SK SV) (ser_btree_map E SK' SV') l.
Proof.
  intros F. repeat split; cbn [write_der_contents der_contents_len ser_btree_map].
  - intros X W. induction F as [|[k v] l [HK HV] F IH]; intros s; [reflexivity|]. cbn [write_entries fst snd] in *.
    apply wbind_congr; [|intros _; apply IH]. unfold write_entry.
    rewrite (der_or_len_same E SK SK' k HK), (der_or_len_same E SV SV' v HV).
    apply wbind_congr; [reflexivity|]. intros pk s1. apply wbind_congr; [reflexivity|]. intros pv s2.
    apply wbind_congr; [reflexivity|]. intros n s3. apply wbind_congr; [reflexivity|]. intros _ s4.
    apply wbind_congr; [reflexivity|]. intros _ s5.
    apply wbind_congr; [now apply write_der_or_same|]. intros _ s6. now apply write_der_or_same.
  - generalize 0. induction F as [|[k v] l [HK HV] F IH]; intros n; [reflexivity|]. cbn [btree_map_len fst snd] in *.
    rewrite (der_len_same SK SK' k HK), (der_len_same SV SV' v HV).
    repeat first [apply IH | reflexivity | apply rbind_congr; intros ? _ | match goal with |- match ?x with _ => _ end = _ => destruct x end].
Qed.
Lemma ser_on_same {A T} (f : A -> T) (S S' : serialize T) v : same_at S S' (f v) -> same_at (ser_on f S) (ser_on f S') v.
Proof. exact (fun H => H). Qed.
(** Fields with the same attribute whose types serialise the same. *)
Fixpoint fields_same_ser (Ts : list Type) : hlist field Ts -> hlist field Ts -> tuple Ts -> Prop :=
  match Ts with
  | [] => fun _ _ _ => True
  | T :: Ts' => fun fs fs' v =>
      (f_attr (fst fs) = f_attr (fst fs') /\ n_paths (f_names (fst fs)) = n_paths (f_names (fst fs')) /\
       same_at (n_ser (f_names (fst fs))) (n_ser (f_names (fst fs'))) (fst v)) /\ fields_same_ser Ts' (snd fs) (snd fs') (snd v)
  end.
Lemma ser_fields_same E Ts a (fs fs' : hlist field Ts) v : fields_same_ser Ts fs fs' v ->
  same_at (ser_fields E {| dc_attr := a; dc_fields := fs |}) (ser_fields E {| dc_attr := a; dc_fields := fs' |}) v.
Proof.
  intros F. repeat split; cbn [write_der_contents der_contents_len ser_fields dc_fields].
  - intros X W. revert fs fs' v F. induction Ts as [|T Ts IH]; intros fs fs' v F s; [reflexivity|]. destruct F as [(A & P & H) F].
    cbn [write_fields]. rewrite <- A, <- P. destruct (is_skip_serializing _); [now apply IH|].
    apply wbind_congr; [|intros _; now apply IH]. destruct (a_into _); [reflexivity|]. destruct (a_to _); [reflexivity|]. now apply write_der_same.
  - assert (field_attributes Ts fs = field_attributes Ts fs') as ->.
    { revert fs fs' v F. induction Ts as [|T Ts IH]; intros fs fs' v F; [reflexivity|]. destruct F as [(A & P & H) F].
      cbn [field_attributes]. f_equal; [assumption | now apply (IH _ _ (snd v))]. }
    destruct (existsb _ _); [reflexivity|]. generalize 0. revert fs fs' v F.
    induction Ts as [|T Ts IH]; intros fs fs' v F n; [reflexivity|]. destruct F as [(A & P & _ & _ & Hi & Hl) F].
    cbn [fields_len]. rewrite <- A, <- Hi, <- Hl. destruct (is_skip_serializing _); [now apply IH|].
    repeat first [now apply IH | reflexivity | apply rbind_congr; intros ? _ | match goal with |- match ?x with _ => _ end = _ => destruct x end].
Qed.
Fixpoint variants_same_ser (Tss : list (list Type)) : vlist data_container Tss -> vlist data_container Tss -> choice Tss -> Prop :=
  match Tss with
  | [] => fun _ _ _ => True
  | Ts :: Tss' => fun vs vs' v =>
      match v with
      | inl t => dc_attr (fst vs) = dc_attr (fst vs') /\ fields_same_ser Ts (dc_fields (fst vs)) (dc_fields (fst vs')) t
      | inr v' => variants_same_ser Tss' (snd vs) (snd vs') v'
      end
  end.
Lemma ser_variants_same E Tss : forall vs vs' v, variants_same_ser Tss vs vs' v -> same_at (ser_variants E Tss vs) (ser_variants E Tss vs') v.
Proof.
  induction Tss as [|Ts Tss IH]; intros vs vs' v F; [destruct v|]. destruct vs as [dc vs], vs' as [dc' vs'].
  destruct v as [t|v]; cbn [fst snd variants_same_ser] in F.
  - destruct dc as [a fs], dc' as [a' fs']. cbn [dc_attr dc_fields] in F. destruct F as [<- F]. exact (ser_fields_same E Ts a fs fs' t F).
  - exact (IH vs vs' v F).
Qed.

(** ** Canonical encodings *)
Lemma same_codec_canonical {T} (a b : codec_on T) D : same_codec a b -> canonical (to_codec a) D -> canonical (to_codec b) D.
Proof.
  intros (HW & _ & HI & HC & _) H id c v Hc L F. destruct (H id c v Hc L F) as (W & I & K). cbn in *.
  split; [now apply HW|]. now rewrite <- HI, <- HC.
Qed.
Lemma knot_canonical {T} (C : codec_on T) depth FD D : guarded_de FD ->
  (forall n D, canonical (to_codec (below C depth n)) D -> canonical (to_codec (below C depth (S n))) (FD D)) ->
  knot_de FD D -> canonical (to_codec C) D.
Proof.
  intros G H K. assert (forall n, canonical (to_codec (below C depth n)) (de_iter FD n)) as I.
  { induction n as [|n IH]; [intros id c v _ _ F; discriminate|]. now apply H. }
  intros id c v Hc L F. destruct (I (S (length c)) id c v Hc L) as ((W & _) & B); [|split; assumption].
  eapply eq_trans; [|exact F]. symmetry. apply (knot_iter FD G D K (S (length c)) id Indefinite c Hc). lia.
Qed.
