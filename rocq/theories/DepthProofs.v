(** Stack depth of decoding. *)
From Coq Require Import String Ascii.
From Verif Require Import Base ModelError ModelIo ModelTag ModelContents ModelBuf ModelTlv ModelSerde ModelAttr ModelDerive.
From Verif Require Import Spec SpecSerde SpecAttr SpecDerive SpecRec SpecDepth.
From Verif Require Import TagProofs IdProofs TagMain ContentsProofs TlvProofs BufProofs TlvMain.
From Verif Require Import SerdeOctets SerdeSer SerdeDe SerdeMain SerdeEntry AttrProofs AttrParse DeriveProofs DeriveMain RecProofs.

(** ** Aborted or the same *)
Lemma cut_refl {A} (r : res A) : cut r r.
Proof. now left. Qed.
Lemma cut_bind {A B} (r r' : res A) (k k' : A -> res B) : cut r r' -> (forall a, cut (k a) (k' a)) -> cut (rbind r k) (rbind r' k').
Proof. intros [->| ->] H; [destruct r'; cbn; auto using cut_refl | now right]. Qed.
Lemma cut_map_err {A} f (r r' : res A) : cut r r' -> cut (rmap_err f r) (rmap_err f r').
Proof. intros [->| ->]; [apply cut_refl | now right]. Qed.
Lemma cut_de_refl {T} (D : deserialize T) : cut_de D D.
Proof. intros id l c. split; apply cut_refl. Qed.
Lemma overflow_cut {T} (D : deserialize T) : cut_de overflow D.
Proof. intros id l c. split; now right. Qed.
Ltac cuts := repeat first
  [ apply cut_refl | apply cut_map_err; assumption
  | match goal with
    | H : cut_de ?D ?D' |- cut (with_ctx _ _ (from_der ?D _ _)) _ => apply cut_map_err, (H _ Indefinite _)
    | H : cut_de ?D ?D' |- cut (with_ctx _ _ (from_ber ?D _ _ _)) _ => apply cut_map_err, H
    | H : cut_de ?D ?D' |- cut (with_context _ _ (from_der ?D _ _)) _ => apply cut_map_err, (H _ Indefinite _)
    | H : cut_de ?D ?D' |- cut (with_context _ _ (from_ber ?D _ _ _)) _ => apply cut_map_err, H
    | |- cut (if ?b then _ else _) _ => destruct b
    | |- cut (rbind _ _) (rbind _ _) => apply cut_bind; [|intros]
    | x : (_ * _)%type |- _ => destruct x
    end ].
Section Cut.
Context {T : Type} (D D' : deserialize T) (H : cut_de D D').
Lemma der_to_val_cut h : cut (der_to_val D h) (der_to_val D' h).
Proof using H. destruct h as [[|o bs] i]; [apply cut_refl|]. cbn [der_to_val]. cuts. Qed.
Lemma ber_to_val_cut h : cut (ber_to_val D h) (ber_to_val D' h).
Proof using H. destruct h as [[|o bs] i]; [apply cut_refl|]. cbn [ber_to_val]. cuts. Qed.
Context {V : Type} (DV DV' : deserialize V) (HV : cut_de DV DV').
Lemma der_to_key_val_cut h : cut (der_to_key_val D DV h) (der_to_key_val D' DV' h).
Proof using H HV.
  destruct h as [[|o bs] i]; [apply cut_refl|]. cbn [der_to_key_val]. cuts.
Qed.
Lemma ber_to_key_val_cut h : cut (ber_to_key_val D DV h) (ber_to_key_val D' DV' h).
Proof using H HV.
  destruct h as [[|o bs] i]; [apply cut_refl|]. cbn [ber_to_key_val]. cuts.
Qed.
End Cut.
Lemma collect_cut {X C} (next next' : helper -> res (option (X * helper))) (insert : X -> C -> C) :
  (forall h, cut (next h) (next' h)) -> forall fuel h ret, cut (collect next insert fuel h ret) (collect next' insert fuel h ret).
Proof.
  intros H fuel. induction fuel as [|fuel IH]; intros h ret; [apply cut_refl|]. cbn [collect]. apply cut_bind; [apply H|].
  intros [[x h']|]; [apply IH | apply cut_refl].
Qed.
Lemma collection_cut E ID {X C} (empty : C) (insert : X -> C -> C) bnext dnext bnext' dnext' :
  (forall h, cut (bnext h) (bnext' h)) -> (forall h, cut (dnext h) (dnext' h)) ->
  cut_de (de_collection E ID empty insert bnext dnext) (de_collection E ID empty insert bnext' dnext').
Proof.
  intros HB HD id l c. cbn [from_der from_ber de_collection]. destruct (negb _); [split; apply cut_refl|]. split; [now apply collect_cut|].
  apply cut_bind; [apply cut_refl|]. intros c'. now apply collect_cut.
Qed.
Lemma vec_cut E {T} (D D' : deserialize T) : cut_de D D' -> cut_de (de_vec E D) (de_vec E D').
Proof. intros H. apply collection_cut; intros h; [now apply ber_to_val_cut | now apply der_to_val_cut]. Qed.
Lemma map_cut E {K V} cmp (DK DK' : deserialize K) (DV DV' : deserialize V) : cut_de DK DK' -> cut_de DV DV' ->
  cut_de (de_btree_map E cmp DK DV) (de_btree_map E cmp DK' DV').
Proof. intros H HV. apply collection_cut; intros h; [now apply ber_to_key_val_cut | now apply der_to_key_val_cut]. Qed.
(** Fields that differ in the implementations only. *)
Definition field_cut (T : Type) (f f' : field T) : Prop :=
  f_attr f = f_attr f' /\ n_default (f_names f) = n_default (f_names f') /\ n_field (f_names f) = n_field (f_names f') /\
  n_paths (f_names f) = n_paths (f_names f') /\ cut_de (n_de (f_names f)) (n_de (f_names f')).
Fixpoint fields_cut (Ts : list Type) : hlist field Ts -> hlist field Ts -> Prop :=
  match Ts with
  | [] => fun _ _ => True
  | T :: Ts' => fun fs fs' => field_cut T (fst fs) (fst fs') /\ fields_cut Ts' (snd fs) (snd fs')
  end.
Lemma der_field_cut {T} (f f' : field T) bs : field_cut T f f' -> cut (der_field f bs) (der_field f' bs).
Proof.
  intros (A & B & C & P & H). unfold der_field. rewrite <- A, <- B, <- C, <- P.
  destruct (is_skip_deserializing (f_attr f)); [apply cut_refl|]. destruct (a_from (f_attr f)); [apply cut_refl|].
  destruct (a_try_from (f_attr f)); [apply cut_refl|]. unfold der_value_of. cuts.
Qed.
Lemma ber_field_cut {T} (f f' : field T) bs : field_cut T f f' -> cut (ber_field f bs) (ber_field f' bs).
Proof.
  intros (A & B & C & P & H). unfold ber_field. rewrite <- A, <- B, <- C, <- P.
  destruct (is_skip_deserializing (f_attr f)); [apply cut_refl|]. destruct (a_from (f_attr f)); [apply cut_refl|].
  destruct (a_try_from (f_attr f)); [apply cut_refl|]. unfold ber_value_of. cuts.
Qed.
Lemma construct_cut (rd : forall T, field T -> list N -> res (T * list N)) :
  (forall T f f' bs, field_cut T f f' -> cut (rd T f bs) (rd T f' bs)) ->
  forall Ts fs fs' bs, fields_cut Ts fs fs' -> cut (construct rd Ts fs bs) (construct rd Ts fs' bs).
Proof.
  intros H Ts. induction Ts as [|T Ts IH]; intros fs fs' bs F; [apply cut_refl|]. destruct F as [Ff F]. cbn [construct].
  apply cut_bind; [now apply H|]. intros [t r]. apply cut_bind; [now apply IH|]. intros [ts r']. apply cut_refl.
Qed.
Lemma all_read_cut {A} (r r' : res (A * list N)) : cut r r' -> cut (all_read r) (all_read r').
Proof. intros [->| ->]; [apply cut_refl | now right]. Qed.
Lemma struct_cut E a Ts (fs fs' : hlist field Ts) : fields_cut Ts fs fs' ->
  cut_de (de_struct E {| dc_attr := a; dc_fields := fs |}) (de_struct E {| dc_attr := a; dc_fields := fs' |}).
Proof.
  intros F id l c. cbn [from_der from_ber de_struct dc_attr]. destruct (negb _); [split; apply cut_refl|]. split.
  - unfold from_der_contents. cbn [dc_fields]. apply all_read_cut, construct_cut; [|assumption]. intros. now apply der_field_cut.
  - rewrite !from_ber_contents_eq. cbn [dc_fields]. apply cut_bind; [apply cut_refl|]. intros c'. apply all_read_cut, construct_cut; [|assumption].
    intros. now apply ber_field_cut.
Qed.
Fixpoint variants_cut (Tss : list (list Type)) : vlist data_container Tss -> vlist data_container Tss -> Prop :=
  match Tss with
  | [] => fun _ _ => True
  | Ts :: Tss' => fun vs vs' => dc_attr (fst vs) = dc_attr (fst vs') /\ fields_cut Ts (dc_fields (fst vs)) (dc_fields (fst vs')) /\
                                variants_cut Tss' (snd vs) (snd vs')
  end.
Lemma enum_cut E Tss : forall vs vs', variants_cut Tss vs vs' -> cut_de (de_enum E Tss vs) (de_enum E Tss vs').
Proof.
  induction Tss as [|Ts Tss IH]; intros vs vs' R; [apply cut_de_refl|]. destruct vs as [dc vs], vs' as [dc' vs'].
  destruct R as (A & F & R). cbn [fst snd] in *. intros id l c.
  rewrite !de_enum_der, !de_enum_ber. rewrite <- A. destruct (IH vs vs' R id l c) as [B1 B2].
  destruct dc as [a fs], dc' as [a' fs']. cbn [dc_attr dc_fields] in *. subst a'.
  destruct (struct_cut E a Ts fs fs' F id l c) as [S1 S2].
  destruct (bytes_eqb _ _); split; (apply cut_bind; [assumption | intros; apply cut_refl]).
Qed.
Lemma from_cut {T U} (g : U -> T) (D D' : deserialize U) : cut_de D D' ->
  cut_de (do_from_deserialize {| sr_ty := U; sr_conv := g; sr_de := D |}) (do_from_deserialize {| sr_ty := U; sr_conv := g; sr_de := D' |}).
Proof. intros H id l c. destruct (H id l c) as [A B]. split; (apply cut_bind; [assumption | intros; apply cut_refl]). Qed.

(** ** What is given *)
Lemma gives_impl {T} (P Q : T -> Prop) D : (forall v, P v -> Q v) -> gives P D -> gives Q D.
Proof. intros I H id l c v Hc G. apply I. eauto. Qed.
Lemma inserted_keeps {X C} (insert : X -> C -> C) (P : X -> Prop) (Q : C -> Prop) : (forall x c, P x -> Q c -> Q (insert x c)) ->
  forall xs ret, Forall P xs -> Q ret -> Q (inserted insert xs ret).
Proof. intros H xs. induction xs as [|x xs IH]; intros ret F Hr; [assumption|]. inversion F; subst. apply IH; auto. Qed.
Lemma Forall2_right {A B} (R : A -> B -> Prop) (P : B -> Prop) l l' : (forall a b, R a b -> P b) -> Forall2 R l l' -> Forall P l'.
Proof. intros H. induction 1; constructor; eauto. Qed.
Lemma vec_gives E {T} (P : T -> Prop) (D : deserialize T) : gives P D -> gives (Forall P) (de_vec E D).
Proof.
  intros G id l c v Hc [H|H]; cbn [from_der from_ber de_vec de_collection] in H; destruct (negb _) in H; try discriminate.
  - destruct (collect_inv (der_to_val D) push_back _ (der_next_some D) (der_next_none D) _ _ _ _ _ Hc H) as (bss & xs & -> & F & ->).
    rewrite inserted_push. cbn [app]. eapply Forall2_right; [|exact F]. intros b x (i & cc & _ & Hcc & _ & E1). apply (G i Indefinite cc); auto.
  - apply rbind_inv in H as (c' & Ec & H). apply exclude_eoc_shorter in Ec as [Hc' _]; [|assumption].
    destruct (collect_inv (ber_to_val D) push_back _ (ber_next_some D) (ber_next_none D) _ _ _ _ _ Hc' H) as (bss & xs & -> & F & ->).
    rewrite inserted_push. cbn [app]. eapply Forall2_right; [|exact F]. intros b x (i & l' & cc & _ & Hcc & E1). apply (G i l' cc); auto.
Qed.
Lemma map_insert_keeps {K V} (cmp : K -> K -> comparison) (P : V -> Prop) (kv : K * V) l : P (snd kv) ->
  Forall (fun p => P (snd p)) l -> Forall (fun p => P (snd p)) (btree_map_insert cmp kv l).
Proof.
  intros Hp. induction 1 as [|[k' v'] l H F IH]; cbn [btree_map_insert]; [repeat constructor; assumption|].
  destruct (cmp (fst kv) k'); repeat constructor; auto.
Qed.
Lemma map_gives E {K V} cmp (P : V -> Prop) (DK : deserialize K) (DV : deserialize V) : gives P DV ->
  gives (Forall (fun p => P (snd p))) (de_btree_map E cmp DK DV).
Proof.
  intros G id l c v Hc [H|H]; cbn [from_der from_ber de_btree_map de_collection] in H; destruct (negb _) in H; try discriminate.
  - destruct (collect_inv (der_to_key_val DK DV) (btree_map_insert cmp) (fun _ p => P (snd p))) with (2 := fun bs i => der_kv_none DK DV bs i) (3 := Hc) (4 := H) as (bss & xs & -> & F & ->).
    + intros bs i [k w] rest j Hb K0. destruct (der_kv_some DK DV bs i k w rest j Hb K0) as (b & -> & N0 & idk & ck & idv & cv & _ & _ & _ & _ & Hcv & _ & _ & E1).
      exists b. split; [reflexivity|]. split; [assumption|]. apply (G idv Indefinite cv); auto.
    + apply (inserted_keeps _ (fun p => P (snd p))); [intros; now apply map_insert_keeps | | constructor]. eapply Forall2_right; [|exact F]. auto.
  - apply rbind_inv in H as (c' & Ec & H). apply exclude_eoc_shorter in Ec as [Hc' _]; [|assumption].
    destruct (collect_inv (ber_to_key_val DK DV) (btree_map_insert cmp) (fun _ p => P (snd p))) with (2 := fun bs i => ber_kv_none DK DV bs i) (3 := Hc') (4 := H) as (bss & xs & -> & F & ->).
    + intros bs i [k w] rest j Hb K0. destruct (ber_kv_some DK DV bs i k w rest j Hb K0) as (b & -> & N0 & K1).
      exists b. split; [reflexivity|]. split; [assumption|]. clear - G K1. decompose record K1. eapply G; [eassumption | right; eassumption].
    + apply (inserted_keeps _ (fun p => P (snd p))); [intros; now apply map_insert_keeps | | constructor]. eapply Forall2_right; [|exact F]. auto.
Qed.
(** Every field gives what it should. *)
Fixpoint fields_give (Ts : list Type) : hlist field Ts -> (hlist (fun T => T -> Prop) Ts) -> Prop :=
  match Ts with
  | [] => fun _ _ => True
  | T :: Ts' => fun fs Ps => is_skip_deserializing (f_attr (fst fs)) = false /\ gives (fst Ps) (field_de (fst fs)) /\ fields_give Ts' (snd fs) (snd Ps)
  end.
Fixpoint tuple_in (Ts : list Type) : hlist (fun T => T -> Prop) Ts -> tuple Ts -> Prop :=
  match Ts with
  | [] => fun _ _ => True
  | T :: Ts' => fun Ps v => fst Ps (fst v) /\ tuple_in Ts' (snd Ps) (snd v)
  end.
Lemma construct_gives (rd : forall T, field T -> list N -> res (T * list N)) :
  (forall T (f : field T) P bs t rest, bytes_ok bs -> is_skip_deserializing (f_attr f) = false -> gives P (field_de f) -> rd T f bs = Ok (t, rest) -> P t /\ bytes_ok rest) ->
  forall Ts fs Ps bs v rest, bytes_ok bs -> fields_give Ts fs Ps -> construct rd Ts fs bs = Ok (v, rest) -> tuple_in Ts Ps v.
Proof.
  intros R Ts. induction Ts as [|T Ts IH]; intros fs Ps bs v rest Hb F H; [exact I|]. destruct F as (NS & G & F). cbn [construct] in H.
  apply rbind_inv in H as ([t r] & E1 & H). apply rbind_inv in H as ([ts r'] & E2 & H). injection H as <- _.
  destruct (R T (fst fs) (fst Ps) bs t r Hb NS G E1) as [Pt Hr]. split; [exact Pt|]. eapply IH; eassumption.
Qed.
Lemma der_field_gives {T} (f : field T) (P : T -> Prop) bs t rest : bytes_ok bs -> is_skip_deserializing (f_attr f) = false ->
  gives P (field_de f) -> der_field f bs = Ok (t, rest) -> P t /\ bytes_ok rest.
Proof.
  intros Hb NS G H. split; [|eapply der_field_rest; eassumption].
  apply der_field_iff in H as (id & c & I & L & -> & F); [|assumption|assumption]. apply (G id Indefinite c); [|auto].
  apply bytes_ok_app in Hb as [Hb _]. pose proof (tlv_der id c I L) as Dt. now apply (der_tlv_ok _ _ _ Dt).
Qed.
Lemma ber_field_gives {T} (f : field T) (P : T -> Prop) bs t rest : bytes_ok bs -> is_skip_deserializing (f_attr f) = false ->
  gives P (field_de f) -> ber_field f bs = Ok (t, rest) -> P t /\ bytes_ok rest.
Proof.
  intros Hb NS G H. apply ber_field_iff in H as (id & l & c & I & -> & F); [|assumption|assumption].
  apply bytes_ok_app in Hb as [Hb Hr]. split; [|assumption]. apply (G id l c); [|auto].
  apply bytes_ok_app in Hb as [_ Hb]. now apply bytes_ok_app in Hb as [_ Hb].
Qed.
Lemma struct_gives E a Ts (fs : hlist field Ts) Ps : fields_give Ts fs Ps -> gives (tuple_in Ts Ps) (de_struct E {| dc_attr := a; dc_fields := fs |}).
Proof.
  intros F id l c v Hc [H|H]; cbn [from_der from_ber de_struct dc_attr] in H; destruct (negb _) in H; try discriminate.
  - unfold from_der_contents, all_read in H. cbn [dc_fields] in H. apply rbind_inv in H as ([v' r] & E1 & H).
    destruct (nlen r =? 0); [|discriminate]. injection H as <-. eapply construct_gives; [|exact Hc|exact F|exact E1].
    intros. eapply der_field_gives; eassumption.
  - rewrite from_ber_contents_eq in H. apply rbind_inv in H as (c' & Ec & H). apply exclude_eoc_shorter in Ec as [Hc' _]; [|assumption].
    unfold all_read in H. cbn [dc_fields] in H. apply rbind_inv in H as ([v' r] & E1 & H).
    destruct (nlen r =? 0); [|discriminate]. injection H as <-. eapply construct_gives; [|exact Hc'|exact F|exact E1].
    intros. eapply ber_field_gives; eassumption.
Qed.
Fixpoint variants_give (Tss : list (list Type)) : vlist data_container Tss -> vlist (fun Ts => hlist (fun T => T -> Prop) Ts) Tss -> Prop :=
  match Tss with
  | [] => fun _ _ => True
  | Ts :: Tss' => fun vs Ps => fields_give Ts (dc_fields (fst vs)) (fst Ps) /\ variants_give Tss' (snd vs) (snd Ps)
  end.
Fixpoint choice_in (Tss : list (list Type)) : vlist (fun Ts => hlist (fun T => T -> Prop) Ts) Tss -> choice Tss -> Prop :=
  match Tss with
  | [] => fun _ _ => True
  | Ts :: Tss' => fun Ps v => match v with inl t => tuple_in Ts (fst Ps) t | inr v' => choice_in Tss' (snd Ps) v' end
  end.
Lemma enum_gives E Tss : forall vs Ps, variants_give Tss vs Ps -> gives (choice_in Tss Ps) (de_enum E Tss vs).
Proof.
  induction Tss as [|Ts Tss IH]; intros vs Ps F id l c v Hc H; [exact I|]. destruct vs as [[a fs] vs], F as [Fd F]. cbn [fst snd dc_fields] in *.
  rewrite de_enum_der, de_enum_ber in H. destruct (bytes_eqb _ _).
  - assert (exists t, v = inl t /\ (from_der (de_struct E {| dc_attr := a; dc_fields := fs |}) id c = Ok t \/ from_ber (de_struct E {| dc_attr := a; dc_fields := fs |}) id l c = Ok t)) as (t & -> & K).
    { destruct H as [H|H]; apply rbind_inv in H as (t & E1 & H); injection H as <-; eauto. }
    exact (struct_gives E a Ts fs (fst Ps) Fd id l c t Hc K).
  - assert (exists w, v = inr w /\ (from_der (de_enum E Tss vs) id c = Ok w \/ from_ber (de_enum E Tss vs) id l c = Ok w)) as (w & -> & K).
    { destruct H as [H|H]; apply rbind_inv in H as (t & E1 & H); injection H as <-; eauto. }
    exact (IH vs (snd Ps) F id l c w Hc K).
Qed.
Lemma from_gives {T U} (g : U -> T) (P : T -> Prop) (D : deserialize U) : gives (fun u => P (g u)) D ->
  gives P (do_from_deserialize {| sr_ty := U; sr_conv := g; sr_de := D |}).
Proof.
  intros G id l c v Hc [H|H]; cbn in H; apply rbind_inv in H as (u & E1 & H); injection H as <-; apply (G id l c u Hc); auto.
Qed.

(** ** Depth *)
Section Depth.
Context {T : Type} (C : codec_on T) (depth : T -> nat) (FD : deserialize T -> deserialize T).
Lemma stack_gives : deepens depth FD -> forall k, gives (fun v => depth v < k)%nat (on_stack FD k).
Proof.
  intros H. induction k as [|k IH]; [intros id l c v _ [K|K]; discriminate|]. cbn [on_stack]. now apply H.
Qed.
Lemma stack_reads : reads_deeper C depth FD -> forall k, de_law (to_codec (below C depth k)) (on_stack FD k) /\ ber_law (to_codec (below C depth k)) (on_stack FD k).
Proof.
  intros H. induction k as [|k [IH1 IH2]].
  - split; [intros v [_ L]; cbn in L; lia | intros v id l c [_ L]; cbn in L; lia].
  - cbn [on_stack]. now apply H.
Qed.
Lemma stack_cut : aborting FD -> forall k m, (k <= m)%nat -> cut_de (on_stack FD k) (on_stack FD m).
Proof.
  intros H. induction k as [|k IH]; intros m L; [apply overflow_cut|]. destruct m as [|m]; [lia|]. cbn [on_stack]. apply H, IH. lia.
Qed.
Hypothesis HA : aborting FD.
Hypothesis HD : deepens depth FD.
Hypothesis HR : reads_deeper C depth FD.
Hypothesis HS : forall v v', on_wf C v -> on_same C v v' -> depth v' = depth v.
Lemma der_depth k v : on_wf C v -> nlen (on_contents C v) < usize_limit -> bytes_ok (on_contents C v) ->
  ((depth v < k)%nat -> exists v', from_der (on_stack FD k) (on_id C v) (on_contents C v) = Ok v' /\ on_wf C v' /\ on_same C v v') /\
  ((k <= depth v)%nat -> from_der (on_stack FD k) (on_id C v) (on_contents C v) = Panic).
Proof using HA HD HR HS.
  intros W L Hc.
  assert (forall m, (depth v < m)%nat -> exists v', from_der (on_stack FD m) (on_id C v) (on_contents C v) = Ok v' /\ on_wf C v' /\ on_same C v v') as R.
  { intros m Lm. destruct (proj1 (stack_reads HR m) v (conj W Lm) L) as (v' & E1 & [W' _] & Sm). exists v'. auto. }
  split; [apply R|]. intros Lk. destruct (R (S (depth v)) (Nat.lt_succ_diag_r _)) as (v' & E1 & W' & Sm).
  destruct (stack_cut HA k (S (depth v)) ltac:(lia) (on_id C v) Indefinite (on_contents C v)) as [[K|K] _]; [|assumption].
  rewrite E1 in K. pose proof (stack_gives HD k (on_id C v) Indefinite (on_contents C v) v' Hc (or_introl K)) as G. cbn in G.
  rewrite (HS v v' W Sm) in G. lia.
Qed.
Lemma ber_depth k v id l c : on_wf C v -> on_ber C v id l c -> nlen c < usize_limit -> bytes_ok c ->
  ((depth v < k)%nat -> exists v', from_ber (on_stack FD k) id l c = Ok v' /\ on_wf C v' /\ on_same C v v') /\
  ((k <= depth v)%nat -> from_ber (on_stack FD k) id l c = Panic).
Proof using HA HD HR HS.
  intros W B L Hc.
  assert (forall m, (depth v < m)%nat -> exists v', from_ber (on_stack FD m) id l c = Ok v' /\ on_wf C v' /\ on_same C v v') as R.
  { intros m Lm. destruct (proj2 (stack_reads HR m) v id l c (conj W Lm) B L) as (v' & E1 & [W' _] & Sm). exists v'. auto. }
  split; [apply R|]. intros Lk. destruct (R (S (depth v)) (Nat.lt_succ_diag_r _)) as (v' & E1 & W' & Sm).
  destruct (stack_cut HA k (S (depth v)) ltac:(lia) id l c) as [_ [K|K]]; [|assumption].
  rewrite E1 in K. pose proof (stack_gives HD k id l c v' Hc (or_intror K)) as G. cbn in G.
  rewrite (HS v v' W Sm) in G. lia.
Qed.
End Depth.
(** Whatever is decoded: contents of less than [d * k] octets need [k] calls at most. *)
Lemma stack_enough {T} d (FD : deserialize T -> deserialize T) D : spaced d FD -> knot_de FD D -> forall k, same_de (d * k) (on_stack FD k) D.
Proof.
  intros H K. induction k as [|k IH]; [intros id l c _ L; lia|]. cbn [on_stack]. rewrite Nat.mul_succ_r, Nat.add_comm.
  eapply same_de_trans; [apply H, IH | apply same_de_sym, K].
Qed.
Lemma ser_stack_enough {T} (depth : T -> nat) (FS : serialize T -> serialize T) S0 : guarded_ser depth FS -> knot_ser FS S0 ->
  forall k, same_ser (fun v => depth v < k)%nat (ser_on_stack FS k) S0.
Proof.
  intros H K. induction k as [|k IH]; [intros v L; lia|]. cbn [ser_on_stack].
  apply (same_ser_trans _ _ (FS S0)); [now apply H | apply same_ser_sym; intros v _; now apply K].
Qed.
(** At the entry points. *)
Section Entry.
Context {T : Type} (C : codec_on T) (depth : T -> nat) (FD : deserialize T -> deserialize T).
Hypothesis HA : aborting FD.
Hypothesis HD : deepens depth FD.
Hypothesis HR : reads_deeper C depth FD.
Hypothesis HS : forall v v', on_same C v v' <-> v = v'.
Hypothesis CO : codec_ok (to_codec C).
Hypothesis BO : ber_ok (to_codec C).
Lemma parse_der_depth k v rest : on_wf C v -> nlen (der_of (to_codec C) v) <= isize_max -> bytes_ok rest ->
  parse_der (on_stack FD k) (der_of (to_codec C) v ++ rest) = ((if (depth v <? k)%nat then Ok v else Panic), rest).
Proof using HA HD HR HS CO.
  clear BO. intros W L Hr. destruct (CO v W) as [I Hc]. pose proof (tlv_contents_le (on_id C v) (on_contents C v)) as L'. unfold der_of in *. cbn [id_of contents_of to_codec] in *.
  assert (nlen (on_contents C v) < usize_limit) as Lc by (apply isize_lt; lia). specialize (Hc Lc).
  assert (der_tlv (on_id C v) (on_contents C v) (tlv (on_id C v) (on_contents C v))) as Dt by now apply tlv_der.
  rewrite (parse_der_eq _ _ _ _ _ Dt) by (apply bytes_ok_app; split; [now apply tlv_ok | assumption]). f_equal.
  destruct (der_depth C depth FD HA HD HR) with (k := k) (v := v) as [A B]; auto.
  { intros x y _ Sm. apply HS in Sm as ->. reflexivity. }
  destruct (Nat.ltb_spec (depth v) k) as [K|K]; [|now apply B]. destruct (A K) as (v' & Ev & _ & Sm). apply HS in Sm as <-. exact Ev.
Qed.
Lemma parse_ber_depth k v bs rest : on_wf C v -> ber_octets (to_codec C) v bs -> nlen bs < usize_limit -> bytes_ok rest ->
  parse_ber (on_stack FD k) (bs ++ rest) = ((if (depth v <? k)%nat then Ok v else Panic), rest).
Proof using HA HD HR HS BO.
  clear CO. intros W O L Hr. destruct (ber_octets_value (to_codec C) v bs BO W O L) as (id & l & c & B & Eb & Lc & V & _ & Hok & Ds & _).
  rewrite parse_ber_eq by (assumption || now apply bytes_ok_app). f_equal. unfold serde_from_ber. rewrite Ds. cbn [rbind fst snd].
  destruct (ber_depth C depth FD HA HD HR) with (k := k) (v := v) (id := id) (l := l) (c := c) as [A B']; auto.
  { intros x y _ Sm. apply HS in Sm as ->. reflexivity. }
  { now apply (proj1 BO v id l c W B Lc). }
  destruct (Nat.ltb_spec (depth v) k) as [K|K]; [|now apply B']. destruct (A K) as (v' & Ev & _ & Sm). apply HS in Sm as <-. exact Ev.
Qed.
End Entry.
