(** Deserialisation: every provided implementation reads back the octets of its type, in
    DER and BER, reads only them, and answers on any octets. *)
From Verif Require Import Base ModelError ModelIo ModelTag ModelContents ModelBuf ModelTlv ModelSerde Spec SpecSerde.
From Verif Require Import TagProofs IdProofs TagMain ContentsProofs TlvProofs BufProofs TlvMain SerdeOctets SerdeSer.
From Coq Require Import Sorting.Sorted Sorting.Permutation.

Lemma ids_differ_refl id : negb (bytes_eqb id id) = false.
Proof. now rewrite bytes_eqb_refl. Qed.

(** ** Answers *)
Lemma answers_ok {A} (a : A) : answers (Ok a).
Proof. left. eauto. Qed.
Lemma answers_err {A} e : answers (A := A) (Err e).
Proof. right. eauto. Qed.
Lemma answers_bind {A B} (r : res A) (k : A -> res B) : answers r -> (forall a, r = Ok a -> answers (k a)) -> answers (rbind r k).
Proof. intros [[a ->]|[e ->]] H; cbn [rbind]; [now apply H | apply answers_err]. Qed.
Lemma answers_ctx {A} m i (r : res A) : answers r -> answers (with_ctx m i r).
Proof. intros [[a ->]|[e ->]]; [apply answers_ok | apply answers_err]. Qed.
Lemma answers_if {A} (b : bool) (r s : res A) : answers r -> answers s -> answers (if b then r else s).
Proof. now destruct b. Qed.
Lemma with_ctx_ok {A} m i (r : res A) a : with_ctx m i r = Ok a <-> r = Ok a.
Proof. destruct r; cbn; split; congruence. Qed.
Lemma rbind_inv {A B} (r : res A) (k : A -> res B) b : rbind r k = Ok b -> exists a, r = Ok a /\ k a = Ok b.
Proof. destruct r as [a|e| |]; cbn [rbind]; intros H; try discriminate. eauto. Qed.

(** ** Values inside contents octets *)
Lemma parsed_der id c v rest : der_tlv id c v -> bytes_ok (v ++ rest) -> parsed (DerRef_parse (v ++ rest)) = Ok (v, rest).
Proof. intros H Hok. unfold parsed. now rewrite (proj1 (DerRef_parse_ok id c v rest H Hok)). Qed.
Lemma parsed_ber v rest : ber_value v -> bytes_ok (v ++ rest) -> parsed (BerRef_parse (v ++ rest)) = Ok (v, rest).
Proof. intros H Hok. unfold parsed. now rewrite (proj1 (BerRef_parse_ok v rest H Hok)). Qed.
Lemma parsed_der_inv bs v rest : bytes_ok bs -> parsed (DerRef_parse bs) = Ok (v, rest) ->
  exists id c, der_tlv id c v /\ bs = v ++ rest /\ disassemble v = Ok (id, Definite (nlen c), c) /\
    tlv_id v = Ok id /\ tlv_contents v = Ok c /\ bytes_ok c /\ v = tlv id c /\ bytes_ok rest.
Proof.
  intros Hok H. unfold parsed in H. apply rbind_inv in H as (v' & E & H). injection H as -> <-.
  destruct (DerRef_parse bs) as [r rest] eqn:P. cbn [fst snd] in *. subst r.
  apply der_parse_iff in P as ((id & c & D) & ->); auto.
  apply bytes_ok_app in Hok as [Hv Hr].
  exists id, c. destruct (der_tlv_disassemble _ _ _ D) as (A & _ & B & C).
  pose proof (proj1 (der_tlv_ok _ _ _ D) Hv) as Hc. repeat (split; [assumption || reflexivity|]).
  split; [now apply der_tlv_eq | assumption].
Qed.
Lemma parsed_ber_inv bs v rest : bytes_ok bs -> parsed (BerRef_parse bs) = Ok (v, rest) ->
  ber_value v /\ bs = v ++ rest /\ bytes_ok rest /\ exists id l c, disassemble v = Ok (id, l, c) /\
    tlv_id v = Ok id /\ tlv_contents v = Ok c /\ bytes_ok c /\ is_identifier id /\ v = id ++ length_of l ++ c /\
    match l with
    | Definite n => n = nlen c /\ nlen c < 2 ^ 64
    | Indefinite => exists items, ber_items items /\ c = items ++ [0; 0]
    end.
Proof.
  intros Hok H. unfold parsed in H. apply rbind_inv in H as (v' & E & H). injection H as -> <-.
  destruct (BerRef_parse bs) as [r rest] eqn:P. cbn [fst snd] in *. subst r.
  apply ber_parse_iff in P as (V & ->); auto. apply bytes_ok_app in Hok as [Hv Hr].
  split; [assumption|]. split; [reflexivity|]. split; [assumption|].
  destruct V as [id c bs D|id items I B].
  - exists id, (Definite (nlen c)), c. destruct (der_tlv_disassemble _ _ _ D) as (A & _ & B & C).
    pose proof (proj1 (der_tlv_ok _ _ _ D) Hv) as Hc. pose proof (der_tlv_id _ _ _ D). pose proof (der_tlv_lt _ _ _ D).
    repeat (split; [assumption || reflexivity|]). split; [now apply der_tlv_eq | auto].
  - exists id, Indefinite, (items ++ [0; 0]). cbn [app] in *.
    destruct (tlv_parts_indefinite id (items ++ [0; 0]) I) as (A & _ & C & D).
    apply bytes_ok_app in Hv as [_ Hv]. apply bytes_ok_cons in Hv as [_ Hv].
    repeat (split; [assumption || reflexivity|]). eauto.
Qed.
Lemma parsed_der_answers bs : bytes_ok bs -> answers (parsed (DerRef_parse bs)).
Proof.
  intros Hok. destruct (der_no_panic bs Hok) as [P F]. unfold parsed.
  destruct (DerRef_parse bs) as [[a|e| |] rest]; cbn in *; [apply answers_ok | apply answers_err | congruence | congruence].
Qed.
Lemma parsed_ber_answers bs : bytes_ok bs -> answers (parsed (BerRef_parse bs)).
Proof.
  intros Hok. destruct (ber_no_panic bs Hok) as [P F]. unfold parsed.
  destruct (BerRef_parse bs) as [[a|e| |] rest]; cbn in *; [apply answers_ok | apply answers_err | congruence | congruence].
Qed.


(** ** Quiet octets *)
Lemma quiet_inv v r id l c : bytes_ok (v ++ r) -> quiet (v ++ r) -> ber_value v -> disassemble v = Ok (id, l, c) ->
  der_tlv id c v /\ l = Definite (nlen c) /\ quiet c /\ quiet r.
Proof.
  intros Hok Q V Ds. remember (v ++ r) as bs eqn:E. destruct Q as [bs N0|id' c' v' r' T Qc Qr].
  - exfalso. now apply (N0 v r).
  - assert (ber_value v') as V' by now apply (bv_definite id' c').
    destruct (ber_value_prefix v' v r' r Hok V' V E) as [-> ->].
    destruct (der_tlv_disassemble _ _ _ T) as (_ & _ & _ & D). rewrite D in Ds. injection Ds as <- <- <-. auto.
Qed.
Lemma quiet_prefix n : forall c s, (length c < n)%nat -> bytes_ok (c ++ s) -> quiet (c ++ s) -> quiet c.
Proof.
  induction n as [|n IH]; intros c s L Hok Q; [lia|].
  pose proof (proj1 (bytes_ok_app c s)) as Hs. destruct (Hs Hok) as [Hc _].
  destruct (ber_total c Hc) as [(v & r & V & ->)|(e & He)].
  - rewrite <- app_assoc in *. assert (exists id l x, disassemble v = Ok (id, l, x)) as (id & l & x & Ds).
    { destruct V as [id x v T|id items I B]; [destruct (der_tlv_disassemble _ _ _ T) as (_ & _ & _ & D); eauto|].
      cbn [app]. destruct (tlv_parts_indefinite id (items ++ [0; 0]) I) as (A & _ & C & D). eauto. }
    destruct (quiet_inv v (r ++ s) id l x Hok Q V Ds) as (T & _ & Qx & Qr). apply (quiet_value id x); auto.
    apply (IH r s); auto.
    + rewrite app_length in L. destruct v; [|cbn in L; lia]. now apply der_tlv_nonempty in T.
    + now apply bytes_ok_app in Hok.
  - apply quiet_end. intros v rest -> V. apply ber_err_iff in He; [|assumption].
    rewrite (proj1 (BerRef_parse_ok v rest V Hc)) in He. discriminate.
Qed.
Lemma no_80_quiet_len n : forall bs, (length bs < n)%nat -> bytes_ok bs -> ~ In 0x80 bs -> quiet bs.
Proof.
  induction n as [|n IH]; intros bs L Hok H; [lia|]. destruct (ber_total bs Hok) as [(v & r & V & ->)|(e & He)].
  - destruct V as [id c v T|id items I B].
    + pose proof (der_tlv_nonempty _ _ _ T) as N0. rewrite app_length in L. apply bytes_ok_app in Hok as [Hv Hr].
      apply (quiet_value id c); [assumption| |].
      * assert ((length c < length v)%nat /\ forall x, In x c -> In x v) as [Lc Sub].
        { destruct T as [len I Lc _]. split.
          - rewrite !app_length. destruct I as (x & y & z & I). inversion I; subst; cbn; lia.
          - intros x Hx. rewrite !in_app_iff. auto. }
        apply IH; [lia | now apply (der_tlv_ok _ _ _ T) |]. intros Hx. apply H, in_app_iff. auto.
      * apply IH; [destruct v; [congruence | cbn in L; lia] | assumption|]. intros Hx. apply H, in_app_iff. auto.
    + exfalso. apply H. rewrite !in_app_iff. cbn. auto.
  - apply quiet_end. intros v rest -> V. apply ber_err_iff in He; [|assumption].
    rewrite (proj1 (BerRef_parse_ok v rest V Hok)) in He. discriminate.
Qed.
Lemma no_80_quiet bs : bytes_ok bs -> ~ In 0x80 bs -> quiet bs.
Proof. apply (no_80_quiet_len (S (length bs))). lia. Qed.
(** Octets on which reading values goes well. *)
Definition settled (E : env) (bs : list N) : Prop := bytes_ok bs /\ (e_debug E = false \/ quiet bs).
Lemma settled_step E bs v rest : settled E bs -> parsed (BerRef_parse bs) = Ok (v, rest) ->
  settled E rest /\ exists id l c, disassemble v = Ok (id, l, c) /\ tlv_id v = Ok id /\ tlv_contents v = Ok c /\ v <> [] /\ bs = v ++ rest /\
    settled E c /\ forall T (D : deserialize T), ber_answers E D -> answers (from_ber D id l c).
Proof.
  intros [Hok Q] P. apply parsed_ber_inv in P as (V & -> & Hr & id & l & c & Ds & Di & Dc & Hc & I & Ev & _); [|assumption].
  assert (v <> []) as N0 by (rewrite Ev; intros Z; apply app_eq_nil in Z as [-> _]; destruct I as (x & y & z & I); inversion I).
  destruct Q as [R|Q].
  - split; [split; auto|]. exists id, l, c. do 5 (split; [auto; fail|]). split; [split; auto|]. intros T D A. now apply A; auto.
  - destruct (quiet_inv v rest id l c Hok Q V Ds) as (T0 & El & Qc & Qr). split; [split; auto|].
    exists id, l, c. do 5 (split; [auto; fail|]). split; [split; auto|]. intros T D A. apply A; auto.
Qed.
Lemma settled_prefix E c s : settled E (c ++ s) -> settled E c.
Proof.
  intros [Hok Q]. split; [now apply bytes_ok_app in Hok|]. destruct Q as [R|Q]; [now left|]. right.
  apply (quiet_prefix (S (length c)) c s); auto.
Qed.

(** A BER encoding of a value is one BER value. *)
Lemma ber_octets_value C v bs : ber_ok C -> wf C v -> ber_octets C v bs -> nlen bs < usize_limit ->
  exists id l c, ber_of C v id l c /\ bs = id ++ length_of l ++ c /\ nlen c < usize_limit /\ ber_value bs /\ bs <> [0; 0] /\ bytes_ok bs /\
    disassemble bs = Ok (id, l, c) /\ tlv_id bs = Ok id /\ tlv_contents bs = Ok c.
Proof.
  intros [B _] Hv (id & l & c & O & ->) L. rewrite !nlen_app in L.
  destruct (B v id l c Hv O) as (I & H0 & Hc & M); [lia|].
  exists id, l, c. split; [assumption|]. split; [reflexivity|]. split; [lia|].
  assert (id ++ length_of l ++ c <> [0; 0]) as NE.
  { intros E. destruct id as [|x id]; cbn in H0, E; [congruence|]. injection E as -> _. congruence. }
  pose proof (is_identifier_ok id I) as Hid. destruct l as [|n].
  - destruct M as (items & Bi & ->). cbn [length_of app] in *.
    destruct (tlv_parts_indefinite id (items ++ [0; 0]) I) as (A1 & _ & A2 & A3).
    split; [now apply (bv_indefinite id items)|]. split; [assumption|].
    split; [|auto]. apply bytes_ok_app. split; [assumption|]. apply bytes_ok_cons. split; [lia | assumption].
  - subst n. cbn [length_of] in *. assert (nlen c < 2 ^ 64) as L64 by (change (2 ^ 64) with usize_limit; lia).
    pose proof (tlv_der id c I L64) as D. unfold tlv in D.
    destruct (der_tlv_disassemble _ _ _ D) as (A1 & _ & A2 & A3).
    split; [econstructor; eassumption|]. split; [assumption|]. split; [now apply (der_tlv_ok _ _ _ D) | auto].
Qed.

(** ** The loop over the elements *)
Section Collect.
Context {X C : Type} (next : helper -> res (option (X * helper))) (insert : X -> C -> C).
Definition inserted (xs : list X) (ret : C) : C := fold_left (fun c x => insert x c) xs ret.
Hypothesis next_nil : forall i, next ([], i) = Ok None.
(** The octets [b] in front are read as [x]. *)
Definition reads (b : list N) (x : X) : Prop :=
  b <> [] /\ forall rest i, bytes_ok (b ++ rest) -> next (b ++ rest, i) = Ok (Some (x, (rest, i + 1))).
Lemma collect_all bss xs : Forall2 reads bss xs -> forall fuel i ret, bytes_ok (concat bss) ->
  (length (concat bss) < fuel)%nat -> collect next insert fuel (concat bss, i) ret = Ok (inserted xs ret).
Proof using next_nil.
  induction 1 as [|b x bss xs [N0 R] F IH]; intros fuel i ret Hok L; cbn [concat] in *.
  - destruct fuel; [cbn in L; lia|]. cbn [collect]. rewrite next_nil. reflexivity.
  - destruct fuel as [|fuel]; [lia|]. cbn [collect]. rewrite R by assumption. cbn [rbind].
    rewrite app_length in L. assert (1 <= length b)%nat by (destruct b; cbn; [congruence|lia]).
    rewrite IH; [reflexivity | now apply bytes_ok_app in Hok | lia].
Qed.
(** Conversely. *)
Variable P : list N -> X -> Prop.
Hypothesis next_some : forall bs i x rest j, bytes_ok bs -> next (bs, i) = Ok (Some (x, (rest, j))) ->
  exists b, bs = b ++ rest /\ b <> [] /\ P b x.
Hypothesis next_none : forall bs i, next (bs, i) = Ok None -> bs = [].
Lemma collect_inv fuel : forall bs i ret c, bytes_ok bs -> collect next insert fuel (bs, i) ret = Ok c ->
  exists bss xs, bs = concat bss /\ Forall2 P bss xs /\ c = inserted xs ret.
Proof using next_some next_none.
  induction fuel as [|fuel IH]; intros bs i ret c Hok H; [discriminate|]. cbn [collect] in H.
  apply rbind_inv in H as (o & E & H). destruct o as [[x [rest j]]|].
  - destruct (next_some _ _ _ _ _ Hok E) as (b & -> & _ & Pb). apply bytes_ok_app in Hok as [_ Hr].
    destruct (IH _ _ _ _ Hr H) as (bss & xs & -> & F & ->). exists (b :: bss), (x :: xs). repeat split. now constructor.
  - injection H as <-. apply next_none in E as ->. exists [], []. repeat split. constructor.
Qed.
Variable Q : list N -> Prop.
Hypothesis Q_ok : forall bs, Q bs -> bytes_ok bs.
Hypothesis next_keeps : forall bs i x rest j, Q bs -> next (bs, i) = Ok (Some (x, (rest, j))) -> Q rest.
Hypothesis next_answers : forall bs i, Q bs -> answers (next (bs, i)).
Lemma collect_answers fuel : forall bs i ret, Q bs -> (length bs < fuel)%nat -> answers (collect next insert fuel (bs, i) ret).
Proof using next_some next_answers next_keeps Q_ok.
  clear next_nil next_none.
  induction fuel as [|fuel IH]; intros bs i ret HQ L; [lia|]. cbn [collect].
  apply answers_bind; [auto|]. intros o E. destruct o as [[x [rest j]]|]; [|apply answers_ok].
  pose proof (next_keeps _ _ _ _ _ HQ E) as HR. destruct (next_some _ _ _ _ _ (Q_ok _ HQ) E) as (b & -> & N0 & _). apply IH; [assumption|].
  rewrite app_length in L. destruct b; cbn in L; [congruence|lia].
Qed.
End Collect.

(** ** Elements *)
Lemma der_to_val_nil {T} (D : deserialize T) i : der_to_val D ([], i) = Ok None.
Proof. reflexivity. Qed.
Lemma ber_to_val_nil {T} (D : deserialize T) i : ber_to_val D ([], i) = Ok None.
Proof. reflexivity. Qed.
Lemma der_to_val_cons {T} (D : deserialize T) bs i : bs <> [] -> der_to_val D (bs, i) =
  let! (der, rest) := with_ctx 0 i (parsed (DerRef_parse bs)) in
  let! (p, c) := disassemble der in
  let! val := with_ctx 1 i (from_der D (fst p) c) in Ok (Some (val, (rest, i + 1))).
Proof. destruct bs; [congruence | reflexivity]. Qed.
Lemma ber_to_val_cons {T} (D : deserialize T) bs i : bs <> [] -> ber_to_val D (bs, i) =
  let! (ber, rest) := with_ctx 2 i (parsed (BerRef_parse bs)) in
  let! (p, c) := disassemble ber in
  let! val := with_ctx 3 i (from_ber D (fst p) (snd p) c) in Ok (Some (val, (rest, i + 1))).
Proof. destruct bs; [congruence | reflexivity]. Qed.
Lemma app_nonempty {A} (a b : list A) : a <> [] -> a ++ b <> [].
Proof. destruct a; [congruence | discriminate]. Qed.

Lemma der_reads C (D : deserialize (car C)) v v' : codec_ok C -> wf C v -> nlen (contents_of C v) < usize_limit ->
  from_der D (id_of C v) (contents_of C v) = Ok v' -> reads (der_to_val D) (der_of C v) v'.
Proof.
  intros CO Hv L E. destruct (CO v Hv) as [I _]. pose proof (tlv_der _ _ I L) as T.
  split; [now apply (der_tlv_nonempty _ _ _ T)|]. intros rest i Hok.
  rewrite der_to_val_cons by (apply app_nonempty; now apply (der_tlv_nonempty _ _ _ T)).
  unfold der_of in *. rewrite (parsed_der _ _ _ _ T Hok). cbn [with_ctx rmap_err rbind].
  destruct (der_tlv_disassemble _ _ _ T) as (_ & _ & _ & ->). cbn [rbind fst]. rewrite E. reflexivity.
Qed.
Lemma ber_reads C (D : deserialize (car C)) v bs : ber_ok C -> ber_law C D -> wf C v -> ber_octets C v bs -> nlen bs < usize_limit ->
  exists v', reads (ber_to_val D) bs v' /\ wf C v' /\ same C v v'.
Proof.
  intros BO BL Hv O L. destruct (ber_octets_value C v bs BO Hv O L) as (id & l & c & B & -> & Lc & V & _ & Hok0 & Ds & _ & _).
  destruct (BL v id l c Hv B Lc) as (v' & E & W & S). exists v'. split; [|auto].
  split; [now apply ber_value_nonempty|]. intros rest i Hok.
  rewrite ber_to_val_cons by (apply app_nonempty; now apply ber_value_nonempty).
  rewrite (parsed_ber _ _ V Hok). cbn [with_ctx rmap_err rbind]. rewrite Ds. cbn [rbind fst snd]. rewrite E. reflexivity.
Qed.
Lemma der_next_some {T} (D : deserialize T) bs i x rest j : bytes_ok bs -> der_to_val D (bs, i) = Ok (Some (x, (rest, j))) ->
  exists b, bs = b ++ rest /\ b <> [] /\ (exists id c, b = tlv id c /\ bytes_ok c /\ nlen c < usize_limit /\ from_der D id c = Ok x).
Proof.
  intros Hok H. destruct bs as [|o bs]; [discriminate|]. rewrite der_to_val_cons in H by discriminate.
  apply rbind_inv in H as ([v r] & E & H). apply with_ctx_ok in E.
  apply parsed_der_inv in E as (id & c & Dt & -> & Ds & _ & _ & Hc & Et & Hr); auto.
  rewrite Ds in H. cbn [rbind fst] in H. apply rbind_inv in H as (val & E & H). apply with_ctx_ok in E.
  injection H as -> -> _. exists v. split; [reflexivity|]. split; [now apply (der_tlv_nonempty _ _ _ Dt)|].
  exists id, c. split; [assumption|]. split; [assumption|]. split; [apply (der_tlv_lt _ _ _ Dt) | assumption].
Qed.
Lemma ber_next_some {T} (D : deserialize T) bs i x rest j : bytes_ok bs -> ber_to_val D (bs, i) = Ok (Some (x, (rest, j))) ->
  exists b, bs = b ++ rest /\ b <> [] /\ (exists id l c, b = id ++ length_of l ++ c /\ bytes_ok c /\ from_ber D id l c = Ok x).
Proof.
  intros Hok H. destruct bs as [|o bs]; [discriminate|]. rewrite ber_to_val_cons in H by discriminate.
  apply rbind_inv in H as ([v r] & E & H). apply with_ctx_ok in E.
  apply parsed_ber_inv in E as (V & -> & _ & id & l & c & Ds & _ & _ & Hc & I & Eb & _); auto.
  rewrite Ds in H. cbn [rbind fst snd] in H. apply rbind_inv in H as (val & E & H). apply with_ctx_ok in E.
  injection H as -> -> _. exists v. split; [reflexivity|]. split; [now apply ber_value_nonempty|].
  exists id, l, c. auto.
Qed.
Lemma der_next_none {T} (D : deserialize T) bs i : der_to_val D (bs, i) = Ok None -> bs = [].
Proof.
  destruct bs as [|o bs]; [reflexivity|]. rewrite der_to_val_cons by discriminate. intros H.
  apply rbind_inv in H as ([v r] & _ & H). apply rbind_inv in H as ([p c] & _ & H). apply rbind_inv in H as (val & _ & H). discriminate.
Qed.
Lemma ber_next_none {T} (D : deserialize T) bs i : ber_to_val D (bs, i) = Ok None -> bs = [].
Proof.
  destruct bs as [|o bs]; [reflexivity|]. rewrite ber_to_val_cons by discriminate. intros H.
  apply rbind_inv in H as ([v r] & _ & H). apply rbind_inv in H as ([p c] & _ & H). apply rbind_inv in H as (val & _ & H). discriminate.
Qed.
Lemma der_next_answers {T} (D : deserialize T) : der_answers D -> forall bs i, bytes_ok bs -> answers (der_to_val D (bs, i)).
Proof.
  intros A bs i Hok. destruct bs as [|o bs]; [apply answers_ok|]. rewrite der_to_val_cons by discriminate.
  apply answers_bind; [now apply answers_ctx, parsed_der_answers|]. intros [v r] E. apply with_ctx_ok in E.
  apply parsed_der_inv in E as (id & c & Dt & _ & Ds & _ & _ & Hc & Et & Hr); auto.
  rewrite Ds. cbn [rbind fst]. apply answers_bind; [apply answers_ctx; auto|]. intros. apply answers_ok.
Qed.
Lemma ber_next_keeps E {T} (D : deserialize T) bs i x rest j : settled E bs -> ber_to_val D (bs, i) = Ok (Some (x, (rest, j))) -> settled E rest.
Proof.
  intros Hs H. destruct bs as [|o bs]; [discriminate|]. rewrite ber_to_val_cons in H by discriminate.
  apply rbind_inv in H as ([v r] & Er & H). apply with_ctx_ok in Er. apply (settled_step E) in Er as (Hr & _); auto.
  apply rbind_inv in H as ([[id l] c] & _ & H). apply rbind_inv in H as (val & _ & H). injection H as _ <- _. assumption.
Qed.
Lemma ber_next_answers E {T} (D : deserialize T) : ber_answers E D -> forall bs i, settled E bs -> answers (ber_to_val D (bs, i)).
Proof.
  intros A bs i Hs. destruct bs as [|o bs]; [apply answers_ok|]. rewrite ber_to_val_cons by discriminate.
  apply answers_bind; [now apply answers_ctx, parsed_ber_answers, Hs|]. intros [v r] Er. apply with_ctx_ok in Er.
  apply (settled_step E) in Er as (_ & id & l & c & Ds & _ & _ & _ & _ & _ & An); auto.
  rewrite Ds. cbn [rbind fst snd]. apply answers_bind; [apply answers_ctx; auto|]. intros. apply answers_ok.
Qed.

(** ** Entries of maps *)
Section Entries.
Context {K V : Type} (DK : deserialize K) (DV : deserialize V).
Lemma der_to_key_val_cons bs i : bs <> [] -> der_to_key_val DK DV (bs, i) =
  let! (pair_, rest) := with_ctx 4 i (parsed (DerRef_parse bs)) in
  let! pid := tlv_id pair_ in
  if negb (bytes_eqb pid ID_SEQUENCE) then Err (Error_context (ctx 5 i) InvalidKeyValuePair)
  else
    let! pc := tlv_contents pair_ in
    let! (key, pc) := with_ctx 6 i (parsed (DerRef_parse pc)) in
    let! (val, pc) := with_ctx 7 i (parsed (DerRef_parse pc)) in
    match pc with
    | [] =>
        let! (p, c) := disassemble key in
        let! k := with_ctx 8 i (from_der DK (fst p) c) in
        let! (p, c) := disassemble val in
        let! v := with_ctx 9 i (from_der DV (fst p) c) in
        Ok (Some ((k, v), (rest, i + 1)))
    | _ => Err (Error_context (ctx 10 i) InvalidKeyValuePair)
    end.
Proof. destruct bs; [congruence | reflexivity]. Qed.
Lemma ber_to_key_val_cons bs i : bs <> [] -> ber_to_key_val DK DV (bs, i) =
  let! (pair_, rest) := with_ctx 11 i (parsed (BerRef_parse bs)) in
  let! pid := tlv_id pair_ in
  if negb (bytes_eqb pid ID_SEQUENCE) then Err (Error_context (ctx 5 i) InvalidKeyValuePair)
  else
    let! pc := tlv_contents pair_ in
    let! (key, pc) := with_ctx 12 i (parsed (BerRef_parse pc)) in
    let! (val, pc) := with_ctx 13 i (parsed (BerRef_parse pc)) in
    match pc with
    | [] =>
        let! (p, c) := disassemble key in
        let! k := with_ctx 14 i (from_ber DK (fst p) (snd p) c) in
        let! (p, c) := disassemble val in
        let! v := with_ctx 15 i (from_ber DV (fst p) (snd p) c) in
        Ok (Some ((k, v), (rest, i + 1)))
    | _ => Err (Error_context (ctx 10 i) InvalidKeyValuePair)
    end.
Proof. destruct bs; [congruence | reflexivity]. Qed.

(** An entry of key [idk], [ck] and value [idv], [cv] is accepted when they are. *)
Lemma der_entry_reads idk ck idv cv k v :
  is_identifier idk -> is_identifier idv -> nlen (tlv idk ck ++ tlv idv cv) < usize_limit ->
  from_der DK idk ck = Ok k -> from_der DV idv cv = Ok v ->
  reads (der_to_key_val DK DV) (tlv [0x30] (tlv idk ck ++ tlv idv cv)) (k, v).
Proof.
  intros Ik Iv L Ek Ev. pose proof (tlv_contents_le idk ck). pose proof (tlv_contents_le idv cv).
  rewrite nlen_app in L.
  assert (der_tlv [0x30] (tlv idk ck ++ tlv idv cv) (tlv [0x30] (tlv idk ck ++ tlv idv cv))) as T.
  { apply tlv_der; [exists 0, 1, 16; now constructor | rewrite nlen_app; exact L]. }
  pose proof (tlv_der idk ck Ik ltac:(change (2 ^ 64) with usize_limit; lia)) as Tk.
  pose proof (tlv_der idv cv Iv ltac:(change (2 ^ 64) with usize_limit; lia)) as Tv.
  split; [now apply (der_tlv_nonempty _ _ _ T)|]. intros rest i Hok.
  rewrite der_to_key_val_cons by (apply app_nonempty; now apply (der_tlv_nonempty _ _ _ T)).
  rewrite (parsed_der _ _ _ _ T Hok). cbn [with_ctx rmap_err rbind].
  destruct (der_tlv_disassemble _ _ _ T) as (-> & _ & -> & _). cbn [rbind].
  change (negb (bytes_eqb [0x30] ID_SEQUENCE)) with false. cbv iota.
  apply bytes_ok_app in Hok as [Hok _]. apply (der_tlv_ok _ _ _ T) in Hok.
  rewrite (parsed_der _ _ _ _ Tk Hok). cbn [with_ctx rmap_err rbind].
  apply bytes_ok_app in Hok as [_ Hok].
  assert (parsed (DerRef_parse (tlv idv cv)) = Ok (tlv idv cv, [])) as P.
  { rewrite <- (app_nil_r (tlv idv cv)) at 1. apply (parsed_der _ _ _ _ Tv). now rewrite app_nil_r. }
  rewrite P. cbn [with_ctx rmap_err rbind].
  destruct (der_tlv_disassemble _ _ _ Tk) as (_ & _ & _ & ->). cbn [rbind fst].
  destruct (der_tlv_disassemble _ _ _ Tv) as (_ & _ & _ & ->). cbn [rbind fst].
  rewrite Ek. cbn [with_ctx rmap_err rbind]. rewrite Ev. reflexivity.
Qed.
Lemma der_kv_some bs i k v rest j : bytes_ok bs -> der_to_key_val DK DV (bs, i) = Ok (Some ((k, v), (rest, j))) ->
  exists b, bs = b ++ rest /\ b <> [] /\
    (exists idk ck idv cv, b = tlv [0x30] (tlv idk ck ++ tlv idv cv) /\ is_identifier idk /\ is_identifier idv /\
      bytes_ok ck /\ bytes_ok cv /\ nlen (tlv idk ck ++ tlv idv cv) < usize_limit /\ from_der DK idk ck = Ok k /\ from_der DV idv cv = Ok v).
Proof.
  intros Hok H. destruct bs as [|o bs]; [discriminate|]. rewrite der_to_key_val_cons in H by discriminate.
  apply rbind_inv in H as ([pr r] & E & H). apply with_ctx_ok in E.
  apply parsed_der_inv in E as (id & c & Dt & -> & _ & Di & Dc & Hc & Et & Hr); auto.
  rewrite Di in H. cbn [rbind] in H. destruct (bytes_eqb id ID_SEQUENCE) eqn:EI; [|discriminate]. cbn [negb] in H.
  apply bytes_eqb_eq in EI as ->. rewrite Dc in H. cbn [rbind] in H.
  apply rbind_inv in H as ([key pc] & E & H). apply with_ctx_ok in E.
  apply parsed_der_inv in E as (idk & ck & Dk & -> & Dsk & _ & _ & Hck & Ek & Hpc); auto.
  apply rbind_inv in H as ([val pc2] & E & H). apply with_ctx_ok in E.
  apply parsed_der_inv in E as (idv & cv & Dv & -> & Dsv & _ & _ & Hcv & Ev & Hpc2); auto.
  destruct pc2 as [|]; [|discriminate]. rewrite Dsk in H. cbn [rbind fst] in H.
  apply rbind_inv in H as (k' & E1 & H). apply with_ctx_ok in E1. rewrite Dsv in H. cbn [rbind fst] in H.
  apply rbind_inv in H as (v' & E2 & H). apply with_ctx_ok in E2. injection H as -> -> -> _.
  exists pr. split; [reflexivity|]. split; [now apply (der_tlv_nonempty _ _ _ Dt)|].
  pose proof (der_tlv_lt _ _ _ Dt) as LT. rewrite app_nil_r in *. subst key val.
  exists idk, ck, idv, cv. repeat (split; [solve [assumption | eapply der_tlv_id; eassumption]|]). assumption.
Qed.
Lemma der_kv_none bs i : der_to_key_val DK DV (bs, i) = Ok None -> bs = [].
Proof.
  destruct bs as [|o bs]; [reflexivity|]. rewrite der_to_key_val_cons by discriminate. intros H.
  apply rbind_inv in H as ([v r] & _ & H). apply rbind_inv in H as (pid & _ & H).
  destruct (negb (bytes_eqb pid ID_SEQUENCE)); [discriminate|]. apply rbind_inv in H as (pc & _ & H).
  apply rbind_inv in H as ([key pc1] & _ & H). apply rbind_inv in H as ([val pc2] & _ & H). destruct pc2; [|discriminate].
  apply rbind_inv in H as ([p c] & _ & H). apply rbind_inv in H as (k & _ & H).
  apply rbind_inv in H as ([p' c'] & _ & H). apply rbind_inv in H as (v' & _ & H). discriminate.
Qed.
Lemma der_kv_answers : der_answers DK -> der_answers DV -> forall bs i, bytes_ok bs -> answers (der_to_key_val DK DV (bs, i)).
Proof.
  intros AK AV bs i Hok. destruct bs as [|o bs]; [apply answers_ok|]. rewrite der_to_key_val_cons by discriminate.
  apply answers_bind; [now apply answers_ctx, parsed_der_answers|]. intros [pr r] E. apply with_ctx_ok in E.
  apply parsed_der_inv in E as (id & c & Dt & _ & _ & Di & Dc & Hc & Et & Hr); auto.
  rewrite Di. cbn [rbind]. apply answers_if; [apply answers_err|]. rewrite Dc. cbn [rbind].
  apply answers_bind; [now apply answers_ctx, parsed_der_answers|]. intros [key pc] E. apply with_ctx_ok in E.
  apply parsed_der_inv in E as (idk & ck & Dk & -> & Dsk & _ & _ & Hck & Ek & Hpc); auto.
  apply answers_bind; [now apply answers_ctx, parsed_der_answers|]. intros [val pc2] E. apply with_ctx_ok in E.
  apply parsed_der_inv in E as (idv & cv & Dv & -> & Dsv & _ & _ & Hcv & Ev & Hpc2); auto.
  destruct pc2; [|apply answers_err]. rewrite Dsk. cbn [rbind fst].
  apply answers_bind; [now apply answers_ctx, AK|]. intros k _. rewrite Dsv. cbn [rbind fst].
  apply answers_bind; [now apply answers_ctx, AV|]. intros. apply answers_ok.
Qed.

Lemma ber_kv_some bs i k v rest j : bytes_ok bs -> ber_to_key_val DK DV (bs, i) = Ok (Some ((k, v), (rest, j))) ->
  exists b, bs = b ++ rest /\ b <> [] /\
    (exists l c idk lk ck idv lv cv, b = [0x30] ++ length_of l ++ c /\ c = (idk ++ length_of lk ++ ck) ++ idv ++ length_of lv ++ cv /\
      ber_value b /\ ber_value (idk ++ length_of lk ++ ck) /\ ber_value (idv ++ length_of lv ++ cv) /\
      bytes_ok ck /\ bytes_ok cv /\ from_ber DK idk lk ck = Ok k /\ from_ber DV idv lv cv = Ok v /\
      disassemble (idk ++ length_of lk ++ ck) = Ok (idk, lk, ck) /\ disassemble (idv ++ length_of lv ++ cv) = Ok (idv, lv, cv) /\
      (l = Definite (nlen c) /\ nlen c < usize_limit \/ l = Indefinite)).
Proof.
  intros Hok H. destruct bs as [|o bs]; [discriminate|]. rewrite ber_to_key_val_cons in H by discriminate.
  apply rbind_inv in H as ([pr r] & E & H). apply with_ctx_ok in E.
  apply parsed_ber_inv in E as (Vp & -> & _ & id & l & c & _ & Di & Dc & Hc & _ & Ep & Ml); auto.
  rewrite Di in H. cbn [rbind] in H. destruct (bytes_eqb id ID_SEQUENCE) eqn:EI; [|discriminate]. cbn [negb] in H.
  apply bytes_eqb_eq in EI as ->. rewrite Dc in H. cbn [rbind] in H.
  apply rbind_inv in H as ([key pc] & E & H). apply with_ctx_ok in E.
  apply parsed_ber_inv in E as (Vk & -> & Hpc & idk & lk & ck & Dsk & _ & _ & Hck & _ & Ek & _); auto.
  apply rbind_inv in H as ([val pc2] & E & H). apply with_ctx_ok in E.
  apply parsed_ber_inv in E as (Vv & -> & Hpc2 & idv & lv & cv & Dsv & _ & _ & Hcv & _ & Ev & _); auto.
  destruct pc2 as [|]; [|discriminate]. rewrite Dsk in H. cbn [rbind fst snd] in H.
  apply rbind_inv in H as (k' & E1 & H). apply with_ctx_ok in E1. rewrite Dsv in H. cbn [rbind fst snd] in H.
  apply rbind_inv in H as (v' & E2 & H). apply with_ctx_ok in E2. injection H as -> -> -> _.
  exists pr. split; [reflexivity|]. split; [now apply ber_value_nonempty|]. rewrite app_nil_r in *.
  exists l, (key ++ val), idk, lk, ck, idv, lv, cv. subst key val. repeat (split; [solve [assumption | reflexivity]|]).
  destruct l; [right; reflexivity | left]. destruct Ml as [-> Ml]. split; [reflexivity | exact Ml].
Qed.
Lemma ber_kv_none bs i : ber_to_key_val DK DV (bs, i) = Ok None -> bs = [].
Proof.
  destruct bs as [|o bs]; [reflexivity|]. rewrite ber_to_key_val_cons by discriminate. intros H.
  apply rbind_inv in H as ([v r] & _ & H). apply rbind_inv in H as (pid & _ & H).
  destruct (negb (bytes_eqb pid ID_SEQUENCE)); [discriminate|]. apply rbind_inv in H as (pc & _ & H).
  apply rbind_inv in H as ([key pc1] & _ & H). apply rbind_inv in H as ([val pc2] & _ & H). destruct pc2; [|discriminate].
  apply rbind_inv in H as ([p c] & _ & H). apply rbind_inv in H as (k & _ & H).
  apply rbind_inv in H as ([p' c'] & _ & H). apply rbind_inv in H as (v' & _ & H). discriminate.
Qed.
Lemma ber_kv_keeps E bs i x rest j : settled E bs -> ber_to_key_val DK DV (bs, i) = Ok (Some (x, (rest, j))) -> settled E rest.
Proof.
  intros Hs H. destruct bs as [|o bs]; [discriminate|]. rewrite ber_to_key_val_cons in H by discriminate.
  apply rbind_inv in H as ([pr r] & Er & H). apply with_ctx_ok in Er. apply (settled_step E) in Er as (Hr & _); auto.
  apply rbind_inv in H as (id & _ & H). destruct (negb _); [discriminate|]. apply rbind_inv in H as (c & _ & H).
  apply rbind_inv in H as ([key pc] & _ & H). apply rbind_inv in H as ([val pc2] & _ & H). destruct pc2; [|discriminate].
  apply rbind_inv in H as ([pk ck] & _ & H). apply rbind_inv in H as (k & _ & H). apply rbind_inv in H as ([pv cv] & _ & H).
  apply rbind_inv in H as (v & _ & H). injection H as _ <- _. assumption.
Qed.
Lemma ber_kv_answers E : ber_answers E DK -> ber_answers E DV -> forall bs i, settled E bs -> answers (ber_to_key_val DK DV (bs, i)).
Proof.
  intros AK AV bs i Hs. destruct bs as [|o bs]; [apply answers_ok|]. rewrite ber_to_key_val_cons by discriminate.
  apply answers_bind; [now apply answers_ctx, parsed_ber_answers, Hs|]. intros [pr r] Er. apply with_ctx_ok in Er.
  apply (settled_step E) in Er as (_ & id & l & c & _ & Di & Dc & _ & _ & Hc & _); auto.
  rewrite Di. cbn [rbind]. apply answers_if; [apply answers_err|]. rewrite Dc. cbn [rbind].
  apply answers_bind; [now apply answers_ctx, parsed_ber_answers, Hc|]. intros [key pc] Er. apply with_ctx_ok in Er.
  apply (settled_step E) in Er as (Hpc & idk & lk & ck & Dsk & _ & _ & _ & _ & _ & Ak); auto.
  apply answers_bind; [now apply answers_ctx, parsed_ber_answers, Hpc|]. intros [val pc2] Er. apply with_ctx_ok in Er.
  apply (settled_step E) in Er as (_ & idv & lv & cv & Dsv & _ & _ & _ & _ & _ & Av); auto.
  destruct pc2; [|apply answers_err]. rewrite Dsk. cbn [rbind fst snd].
  apply answers_bind; [now apply answers_ctx, Ak|]. intros k _. rewrite Dsv. cbn [rbind fst snd].
  apply answers_bind; [now apply answers_ctx, Av|]. intros. apply answers_ok.
Qed.
(** A definite-length entry with one key and one value. *)
Lemma ber_entry_reads kb idk lk ck vb idv lv cv k v :
  nlen (kb ++ vb) < usize_limit -> ber_value kb -> ber_value vb ->
  disassemble kb = Ok (idk, lk, ck) -> disassemble vb = Ok (idv, lv, cv) ->
  from_ber DK idk lk ck = Ok k -> from_ber DV idv lv cv = Ok v ->
  reads (ber_to_key_val DK DV) (tlv [0x30] (kb ++ vb)) (k, v).
Proof.
  intros L Vk Vv Dsk Dsv Ek Ev.
  assert (der_tlv [0x30] (kb ++ vb) (tlv [0x30] (kb ++ vb))) as T by (apply tlv_der; [exists 0, 1, 16; now constructor | exact L]).
  split; [now apply (der_tlv_nonempty _ _ _ T)|]. intros rest i Hok.
  rewrite ber_to_key_val_cons by (apply app_nonempty; now apply (der_tlv_nonempty _ _ _ T)).
  rewrite parsed_ber by (assumption || (econstructor; eassumption)). cbn [with_ctx rmap_err rbind].
  destruct (der_tlv_disassemble _ _ _ T) as (-> & _ & -> & _). cbn [rbind].
  change (negb (bytes_eqb [0x30] ID_SEQUENCE)) with false. cbv iota.
  apply bytes_ok_app in Hok as [Hok _]. apply (der_tlv_ok _ _ _ T) in Hok.
  rewrite (parsed_ber _ _ Vk Hok). cbn [with_ctx rmap_err rbind]. apply bytes_ok_app in Hok as [_ Hok].
  assert (parsed (BerRef_parse vb) = Ok (vb, [])) as P.
  { rewrite <- (app_nil_r vb) at 1. apply (parsed_ber _ _ Vv). now rewrite app_nil_r. }
  rewrite P. cbn [with_ctx rmap_err rbind]. rewrite Dsk, Dsv. cbn [rbind fst snd]. rewrite Ek. cbn [with_ctx rmap_err rbind].
  rewrite Ev. reflexivity.
Qed.
End Entries.
