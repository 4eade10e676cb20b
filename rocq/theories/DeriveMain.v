(** Laws of derived implementations: transparent structs, enums, conversions, and all
    types built with them. *)
From Coq Require Import String Ascii.
From Verif Require Import Base ModelError ModelIo ModelTag ModelContents ModelBuf ModelTlv ModelSerde ModelAttr ModelDerive.
From Verif Require Import Spec SpecSerde SpecAttr SpecDerive.
From Verif Require Import TagProofs IdProofs TagMain ContentsProofs TlvProofs BufProofs TlvMain SerdeOctets SerdeSer SerdeDe SerdeMain SerdeEntry.
From Verif Require Import AttrProofs AttrParse DeriveProofs.

(** ** Transparent structs *)
Fixpoint coded_count (Ts : list Type) : hlist field_spec Ts -> nat :=
  match Ts with
  | [] => fun _ => O
  | T :: Ts' => fun cs => match fst cs with Skipped _ => coded_count Ts' (snd cs) | Coded _ => S (coded_count Ts' (snd cs)) end
  end.
Lemma transparent_count Ts : forall fs cs, fields_rel ser_as Ts fs cs -> length (transparent_fields Ts fs) = coded_count Ts cs.
Proof.
  induction Ts as [|T Ts IH]; intros fs cs R; [reflexivity|]. destruct fs as [f fs], cs as [s cs].
  cbn [fields_rel transparent_fields coded_count fst snd] in *. destruct R as [Rf R], s as [d|c]; cbn [ser_as] in Rf.
  - rewrite Rf, map_length. now apply IH.
  - destruct Rf as [-> _]. cbn [length]. rewrite map_length. f_equal. now apply IH.
Qed.
Lemma deserialized_count Ts : forall fs cs, fields_rel de_as Ts fs cs ->
  length (filter (fun a => negb (is_skip_deserializing a)) (field_attributes Ts fs)) = coded_count Ts cs.
Proof.
  induction Ts as [|T Ts IH]; intros fs cs R; [reflexivity|]. destruct fs as [f fs], cs as [s cs].
  cbn [fields_rel field_attributes coded_count fst snd filter] in *. destruct R as [Rf R], s as [d|c]; cbn [de_as] in Rf.
  - destruct Rf as [-> _]. cbn [negb]. now apply IH.
  - destruct Rf as [-> _]. cbn [negb length]. f_equal. now apply IH.
Qed.
Lemma serialises_converted {T} (t : target T) v id c : serialises (ser_on (tg_conv t) (tg_ser t)) v id c -> serialises (ser_converted t) v id c.
Proof. intros [A B _ _]. split; [exact A | exact B | now left | now left]. Qed.
Lemma ser_field_law {T} (f : field T) c : ser_law (to_codec c) (field_ser f) -> ser_law (to_codec c) (ser_field f).
Proof.
  intros SL v F L. specialize (SL v F L). unfold field_ser in SL. unfold ser_field.
  destruct (a_into (f_attr f)); [now apply serialises_converted|]. destruct (a_to (f_attr f)); [now apply serialises_converted | exact SL].
Qed.
Lemma transparent_ser_law Ts : forall fs cs S, fields_rel ser_as Ts fs cs -> transparent_fields Ts fs = [S] ->
  ser_law (transparent_codec Ts cs) S.
Proof.
  induction Ts as [|T Ts IH]; intros fs cs S R H; [discriminate|]. destruct fs as [f fs], cs as [s cs].
  cbn [fields_rel transparent_fields fst snd] in *. destruct R as [Rf R], s as [d|c]; cbn [ser_as] in Rf.
  - rewrite Rf in H. destruct (transparent_fields Ts fs) as [|s' [|]] eqn:K; try discriminate. injection H as <-.
    intros [x v] [_ F] L. destruct (IH fs cs s' R K v F L) as [A1 A2 A3 A4]. split; assumption.
  - destruct Rf as [NS SL]. rewrite NS in H. destruct (transparent_fields Ts fs); [|discriminate]. injection H as <-.
    intros [x v] [Fx F] L. destruct (ser_field_law f c SL x Fx L) as [A1 A2 A3 A4]. split; assumption.
Qed.
Lemma whole_der_field {T} (f : field T) id c t : is_skip_deserializing (f_attr f) = false ->
  (whole_field 3 (fun _ D => from_der D id c) f = Ok t <-> from_der (field_de f) id c = Ok t).
Proof.
  intros NS. unfold whole_field. rewrite NS, field_de_der. destruct (a_from (f_attr f)) as [ty|]; [|destruct (a_try_from (f_attr f)) as [ty|]].
  - rewrite rbind_ok. setoid_rewrite with_context_ok. split; intros (u & A & B); exists u; split; congruence.
  - rewrite rbind_ok. setoid_rewrite with_context_ok. setoid_rewrite try_convert_ok. reflexivity.
  - now rewrite with_context_ok.
Qed.
Lemma whole_ber_field {T} (f : field T) id l c t : is_skip_deserializing (f_attr f) = false ->
  (whole_field 1 (fun _ D => from_ber D id l c) f = Ok t <-> from_ber (field_de f) id l c = Ok t).
Proof.
  intros NS. unfold whole_field. rewrite NS, field_de_ber. destruct (a_from (f_attr f)) as [ty|]; [|destruct (a_try_from (f_attr f)) as [ty|]].
  - rewrite rbind_ok. setoid_rewrite with_context_ok. split; intros (u & A & B); exists u; split; congruence.
  - rewrite rbind_ok. setoid_rewrite with_context_ok. setoid_rewrite try_convert_ok. reflexivity.
  - now rewrite with_context_ok.
Qed.
Lemma whole_skip {T} (f : field T) kind rd : is_skip_deserializing (f_attr f) = true -> whole_field kind rd f = Ok (default_of f).
Proof. intros H. unfold whole_field. now rewrite H, default_eq. Qed.
Lemma construct_whole_iff kind rd (read : forall T, field T -> T -> Prop) :
  (forall T (f : field T) t, is_skip_deserializing (f_attr f) = false -> (whole_field kind rd f = Ok t <-> read T f t)) ->
  forall Ts fs v, construct_whole kind rd Ts fs = Ok v <-> whole_fields read Ts fs v.
Proof.
  intros H Ts. induction Ts as [|T Ts IH]; intros fs v; cbn [construct_whole whole_fields]; [now destruct v|].
  destruct fs as [f fs], v as [x v]. cbn [fst snd]. rewrite rbind_ok. split.
  - intros (t & A & B). apply rbind_inv in B as (ts & B & [= <- <-]). apply IH in B. split; [|assumption].
    destruct (is_skip_deserializing (f_attr f)) eqn:NS.
    + left. rewrite whole_skip in A by assumption. injection A as <-. split; [now apply skips_de_iff | reflexivity].
    + right. split; [now apply not_skips_de | now apply H].
  - intros [A B]. exists x. rewrite (proj2 (IH fs v) B). split; [|reflexivity]. destruct A as [[SK ->]|[NS A]].
    + apply whole_skip. now apply skips_de_iff.
    + apply not_skips_de in NS. now apply H.
Qed.
Definition de_whole {Ts} (fs : hlist field Ts) : deserialize (tuple Ts) :=
  {| from_ber := fun id length contents => construct_whole 1 (fun _ D => from_ber D id length contents) Ts fs;
     from_der := fun id contents => construct_whole 3 (fun _ D => from_der D id contents) Ts fs |}.
Lemma whole_der_iff Ts (fs : hlist field Ts) id c v :
  from_der (de_whole fs) id c = Ok v <-> whole_fields (fun T f t => from_der (field_de f) id c = Ok t) Ts fs v.
Proof. apply construct_whole_iff. intros. now apply whole_der_field. Qed.
Lemma whole_ber_iff Ts (fs : hlist field Ts) id l c v :
  from_ber (de_whole fs) id l c = Ok v <-> whole_fields (fun T f t => from_ber (field_de f) id l c = Ok t) Ts fs v.
Proof. apply construct_whole_iff. intros. now apply whole_ber_field. Qed.

Lemma all_skipped (read : forall T, field T -> T -> Prop) Ts : forall fs cs v, fields_rel de_as Ts fs cs -> coded_count Ts cs = O ->
  exists v', whole_fields read Ts fs v' /\ fields_wf Ts cs v' /\ fields_same Ts cs v v'.
Proof.
  induction Ts as [|T Ts IH]; intros fs cs v R K; [now exists tt|]. destruct fs as [f fs], cs as [s cs], v as [x v].
  cbn [fields_rel coded_count fst snd whole_fields fields_wf fields_same] in *. destruct R as [Rf R], s as [d|c]; [|discriminate].
  destruct Rf as [SK <-]. destruct (IH fs cs v R K) as (v' & A & B & D). exists (default_of f, v'). cbn [fst snd].
  split; [|auto]. split; [|assumption]. left. split; [now apply skips_de_iff | reflexivity].
Qed.
Lemma transparent_de_law Ts : forall fs cs, fields_rel de_as Ts fs cs -> coded_count Ts cs = 1%nat -> de_law (transparent_codec Ts cs) (de_whole fs).
Proof.
  intros fs cs R K v F L. setoid_rewrite whole_der_iff. cbn [car wf same id_of contents_of transparent_codec] in *. revert fs cs v R K F L.
  induction Ts as [|T Ts IH]; intros fs cs v R K F L; [discriminate|]. destruct fs as [f fs], cs as [s cs], v as [x v].
  cbn [fields_rel coded_count fst snd whole_fields fields_wf fields_same only_field] in *.
  destruct R as [Rf R], F as [Fx F], s as [d|c]; cbn [de_as] in Rf.
  - destruct Rf as [SK <-]. destruct (IH fs cs v R K F L) as (v' & A & B & D). exists (default_of f, v'). cbn [fst snd].
    split; [|auto]. split; [|assumption]. left. split; [now apply skips_de_iff | reflexivity].
  - destruct Rf as (NS & DL & _). destruct (DL x Fx L) as (x' & Ex & Wx & Sx).
    destruct (all_skipped (fun T f t => from_der (field_de f) (on_id c x) (on_contents c x) = Ok t) Ts fs cs v R) as (v' & A & B & D); [lia|].
    exists (x', v'). cbn [fst snd]. split; [|auto]. split; [|assumption]. right. split; [now apply not_skips_de | exact Ex].
Qed.
Lemma transparent_ber_law Ts : forall fs cs, fields_rel de_as Ts fs cs -> coded_count Ts cs = 1%nat -> ber_law (transparent_codec Ts cs) (de_whole fs).
Proof.
  intros fs cs R K v id l c0 F B0 L. setoid_rewrite whole_ber_iff. cbn [car wf same ber_of transparent_codec] in *. revert fs cs v R K F B0.
  induction Ts as [|T Ts IH]; intros fs cs v R K F B0; [discriminate|]. destruct fs as [f fs], cs as [s cs], v as [x v].
  cbn [fields_rel coded_count fst snd whole_fields fields_wf fields_same only_field] in *.
  destruct R as [Rf R], F as [Fx F], s as [d|c]; cbn [de_as] in Rf.
  - destruct Rf as [SK <-]. destruct (IH fs cs v R K F B0) as (v' & A & B & D). exists (default_of f, v'). cbn [fst snd].
    split; [|auto]. split; [|assumption]. left. split; [now apply skips_de_iff | reflexivity].
  - destruct Rf as (NS & _ & BL). destruct (BL x id l c0 Fx B0 L) as (x' & Ex & Wx & Sx).
    destruct (all_skipped (fun T f t => from_ber (field_de f) id l c0 = Ok t) Ts fs cs v R) as (v' & A & B & D); [lia|].
    exists (x', v'). cbn [fst snd]. split; [|auto]. split; [|assumption]. right. split; [now apply not_skips_de | exact Ex].
Qed.
Lemma transparent_codec_ok Ts : forall fs cs, fields_rel spec_ok Ts fs cs -> coded_count Ts cs = 1%nat -> codec_ok (transparent_codec Ts cs).
Proof.
  intros fs cs R K v F. cbn [car wf id_of contents_of transparent_codec] in *. revert fs cs v R K F.
  induction Ts as [|T Ts IH]; intros fs cs v R K F; [discriminate|]. destruct fs as [f fs], cs as [s cs], v as [x v].
  cbn [fields_rel coded_count fst snd fields_wf only_field] in *. destruct R as [Rf R], F as [Fx F], s as [d|c]; [now apply (IH fs)|].
  apply (proj1 Rf x Fx).
Qed.
Lemma transparent_ber_ok Ts : forall fs cs, fields_rel spec_ok Ts fs cs -> coded_count Ts cs = 1%nat -> ber_ok (transparent_codec Ts cs).
Proof.
  intros fs cs R K. split.
  - intros v id l c0. cbn [car wf ber_of transparent_codec] in *. revert fs cs v R K.
    induction Ts as [|T Ts IH]; intros fs cs v R K F B; [discriminate|]. destruct fs as [f fs], cs as [s cs], v as [x v].
    cbn [fields_rel coded_count fst snd fields_wf only_field] in *. destruct R as [Rf R], F as [Fx F], s as [d|c]; [now apply (IH fs cs v)|].
    now apply (proj1 (proj2 Rf) x).
  - intros v. cbn [car wf ber_of id_of contents_of transparent_codec] in *. revert fs cs v R K.
    induction Ts as [|T Ts IH]; intros fs cs v R K F; [discriminate|]. destruct fs as [f fs], cs as [s cs], v as [x v].
    cbn [fields_rel coded_count fst snd fields_wf only_field] in *. destruct R as [Rf R], F as [Fx F], s as [d|c]; [now apply (IH fs cs v)|].
    now apply (proj2 (proj2 Rf) x).
Qed.
Lemma construct_whole_answers kind (rd : forall U, deserialize U -> res U) Ts : forall fs,
  (forall T (f : field T), is_skip_deserializing (f_attr f) = false -> answers (rd T (field_de f)) -> answers (whole_field kind rd f)) ->
  each_field (fun T f => is_skip_deserializing (f_attr f) = false -> answers (rd T (field_de f))) Ts fs ->
  answers (construct_whole kind rd Ts fs).
Proof.
  intros fs H. revert fs. induction Ts as [|T Ts IH]; intros fs F; cbn [construct_whole]; [apply answers_ok|].
  destruct F as [Ff F]. apply answers_bind.
  - destruct (is_skip_deserializing (f_attr (fst fs))) eqn:NS; [rewrite whole_skip by assumption; apply answers_ok | now apply H, Ff].
  - intros t _. apply answers_bind; [now apply IH | intros; apply answers_ok].
Qed.
Lemma each_field_impl (P Q : forall T, field T -> Prop) (H : forall T f, P T f -> Q T f) Ts : forall fs, each_field P Ts fs -> each_field Q Ts fs.
Proof. induction Ts as [|T Ts IH]; intros fs; cbn; [trivial|]. intros [A B]. auto. Qed.
Lemma transparent_der_answers Ts (fs : hlist field Ts) : each_field der_answering Ts fs -> der_answers (de_whole fs).
Proof.
  intros F id c Hc. cbn [from_der de_whole]. apply construct_whole_answers.
  - intros T f NS A. unfold whole_field. rewrite NS. unfold field_de in A. destruct (a_from (f_attr f)).
    + cbn [from_der do_from_deserialize] in A. apply answers_source in A. apply answers_bind; [now apply answers_context | intros; apply answers_ok].
    + destruct (a_try_from (f_attr f)); [|now apply answers_context]. cbn [from_der do_try_from_deserialize] in A. apply answers_source in A.
      apply answers_bind; [now apply answers_context | intros; apply answers_convert].
  - eapply each_field_impl; [|exact F]. intros T f A NS. now apply A.
Qed.
Lemma transparent_ber_answers E Ts (fs : hlist field Ts) : each_field (ber_answering E) Ts fs -> ber_answers E (de_whole fs).
Proof.
  intros F id l c Hc R. cbn [from_ber de_whole]. apply construct_whole_answers.
  - intros T f NS A. unfold whole_field. rewrite NS. unfold field_de in A. destruct (a_from (f_attr f)).
    + cbn [from_ber do_from_deserialize] in A. apply answers_source in A. apply answers_bind; [now apply answers_context | intros; apply answers_ok].
    + destruct (a_try_from (f_attr f)); [|now apply answers_context]. cbn [from_ber do_try_from_deserialize] in A. apply answers_source in A.
      apply answers_bind; [now apply answers_context | intros; apply answers_convert].
  - eapply each_field_impl; [|exact F]. intros T f A NS. now apply A.
Qed.
Lemma whole_skipped_wf (read : forall T, field T -> T -> Prop) Ts : forall fs cs v, fields_rel canonical_as Ts fs cs -> coded_count Ts cs = O ->
  whole_fields read Ts fs v -> fields_wf Ts cs v.
Proof.
  induction Ts as [|T Ts IH]; intros fs cs v R K F; [exact I|]. destruct fs as [f fs], cs as [s cs], v as [x v].
  cbn [fields_rel coded_count fst snd whole_fields fields_wf] in *. destruct R as [Rf R], F as [Fx F], s as [d|c]; [|discriminate].
  split; [exact I | now apply (IH fs)].
Qed.
Lemma transparent_canonical Ts : forall fs cs, fields_rel canonical_as Ts fs cs -> coded_count Ts cs = 1%nat ->
  canonical (transparent_codec Ts cs) (de_whole fs).
Proof.
  intros fs cs R K id c0 v Hc L H. apply whole_der_iff in H. cbn [car wf id_of contents_of transparent_codec] in *. revert fs cs v R K H.
  induction Ts as [|T Ts IH]; intros fs cs v R K F; [discriminate|]. destruct fs as [f fs], cs as [s cs], v as [x v].
  cbn [fields_rel coded_count fst snd whole_fields fields_wf only_field] in *. destruct R as [Rf R], F as [Fx F], s as [d|c]; cbn [canonical_as] in Rf.
  - destruct (IH fs cs v R K F) as (A & B & D). auto.
  - destruct Rf as [NS CC]. destruct Fx as [[SK _]|[_ Fx]]; [apply skips_de_iff in SK; congruence|].
    destruct (CC id c0 x Hc L Fx) as (A & B & D). split; [|auto]. split; [exact A|]. eapply whole_skipped_wf; [exact R | lia | exact F].
Qed.

(** ** Enums *)
Section Sum.
Context {A B : Type} (a : codec_on A) (b : codec_on B).
Lemma sum_codec_ok : codec_ok (to_codec a) -> codec_ok (to_codec b) -> codec_ok (to_codec (sum_on a b)).
Proof. intros Ha Hb [x|y] F; [apply (Ha x F) | apply (Hb y F)]. Qed.
Lemma sum_ber_ok : ber_ok (to_codec a) -> ber_ok (to_codec b) -> ber_ok (to_codec (sum_on a b)).
Proof.
  intros [A1 A2] [B1 B2]. split.
  - intros [x|y] id l c F; [apply (A1 x id l c F) | apply (B1 y id l c F)].
  - intros [x|y] F; [apply (A2 x F) | apply (B2 y F)].
Qed.
Definition ser_sum (S1 : serialize A) (S2 : serialize B) : serialize (A + B) :=
  {| write_id := fun _ W v => match v with inl t => write_id S1 W t | inr v' => write_id S2 W v' end;
     write_der_contents := fun _ W v => match v with inl t => write_der_contents S1 W t | inr v' => write_der_contents S2 W v' end;
     id_len := fun v => match v with inl t => id_len S1 t | inr v' => id_len S2 v' end;
     der_contents_len := fun v => match v with inl t => der_contents_len S1 t | inr v' => der_contents_len S2 v' end |}.
Lemma sum_ser_law S1 S2 : ser_law (to_codec a) S1 -> ser_law (to_codec b) S2 -> ser_law (to_codec (sum_on a b)) (ser_sum S1 S2).
Proof. intros A1 A2 [x|y] F L; [destruct (A1 x F L) | destruct (A2 y F L)]; split; assumption. Qed.
Lemma sum_known S1 S2 : ser_known (to_codec a) S1 -> ser_known (to_codec b) S2 -> ser_known (to_codec (sum_on a b)) (ser_sum S1 S2).
Proof. intros A1 A2 [x|y] F L; [apply (A1 x F L) | apply (A2 y F L)]. Qed.
(** [D] reads [A] if the identifier is [ID], and [B] otherwise. *)
Context (ID : list N) (D1 : deserialize A) (D2 : deserialize B) (D : deserialize (A + B)).
Hypothesis Hder : forall id c, from_der D id c =
  if bytes_eqb id ID then (let! t := from_der D1 id c in Ok (inl t)) else (let! v := from_der D2 id c in Ok (inr v)).
Hypothesis Hber : forall id l c, from_ber D id l c =
  if bytes_eqb id ID then (let! t := from_ber D1 id l c in Ok (inl t)) else (let! v := from_ber D2 id l c in Ok (inr v)).
Lemma differs id : id <> ID -> bytes_eqb id ID = false.
Proof. intros H. destruct (bytes_eqb id ID) eqn:E; [|reflexivity]. apply bytes_eqb_eq in E. congruence. Qed.
Lemma sum_de_law : (forall x, on_wf a x -> on_id a x = ID) -> (forall y, on_wf b y -> on_id b y <> ID) ->
  de_law (to_codec a) D1 -> de_law (to_codec b) D2 -> de_law (to_codec (sum_on a b)) D.
Proof using Hder.
  intros I1 I2 L1 L2 [x|y] F L; cbn in F, L.
  - destruct (L1 x F L) as (x' & E & W & S). exists (inl x'). split; [|split; assumption]. rewrite Hder. cbn in *.
    rewrite (I1 x F) in *. rewrite bytes_eqb_refl, E. reflexivity.
  - destruct (L2 y F L) as (y' & E & W & S). exists (inr y'). split; [|split; assumption]. rewrite Hder. cbn in *.
    rewrite differs by auto. rewrite E. reflexivity.
Qed.
Lemma sum_ber_law : (forall x id l c, on_ber a x id l c -> id = ID) -> (forall y id l c, on_ber b y id l c -> id <> ID) ->
  ber_law (to_codec a) D1 -> ber_law (to_codec b) D2 -> ber_law (to_codec (sum_on a b)) D.
Proof using Hber.
  intros I1 I2 L1 L2 [x|y] id l c F O L; cbn in F, O.
  - destruct (L1 x id l c F O L) as (x' & E & W & S). exists (inl x'). split; [|split; assumption]. rewrite Hber. cbn in *.
    rewrite (I1 _ _ _ _ O) in *. rewrite bytes_eqb_refl, E. reflexivity.
  - destruct (L2 y id l c F O L) as (y' & E & W & S). exists (inr y'). split; [|split; assumption]. rewrite Hber. cbn in *.
    rewrite differs by (eapply I2; eassumption). rewrite E. reflexivity.
Qed.
Lemma sum_der_answers : der_answers D1 -> der_answers D2 -> der_answers D.
Proof using Hder. intros A1 A2 id c Hc. rewrite Hder. apply answers_if; (apply answers_bind; [auto | intros; apply answers_ok]). Qed.
Lemma sum_ber_answers E : ber_answers E D1 -> ber_answers E D2 -> ber_answers E D.
Proof using Hber. intros A1 A2 id l c Hc R. rewrite Hber. apply answers_if; (apply answers_bind; [auto | intros; apply answers_ok]). Qed.
Lemma sum_canonical : canonical (to_codec a) D1 -> canonical (to_codec b) D2 -> canonical (to_codec (sum_on a b)) D.
Proof using Hder.
  intros C1 C2 id c v Hc L H. rewrite Hder in H. destruct (bytes_eqb id ID).
  - apply rbind_inv in H as (t & H & [= <-]). apply (C1 id c t Hc L H).
  - apply rbind_inv in H as (t & H & [= <-]). apply (C2 id c t Hc L H).
Qed.
End Sum.
Definition de_enum (E : env) (Tss : list (list Type)) (vs : vlist data_container Tss) : deserialize (choice Tss) :=
  {| from_ber := fun id length contents =>
       dispatch (fun Ts dc x => from_ber_contents E dc (fst x) (snd x)) Tss vs id (length, contents);
     from_der := fun id contents => dispatch (fun Ts dc x => from_der_contents dc x) Tss vs id contents |}.
Lemma de_enum_der E Ts Tss (dc : data_container Ts) vs id c : from_der (de_enum E (Ts :: Tss) (dc, vs)) id c =
  if bytes_eqb id (id_slice (dc_attr dc)) then (let! t := from_der (de_struct E dc) id c in Ok (inl t))
  else (let! v := from_der (de_enum E Tss vs) id c in Ok (inr v)).
Proof. cbn [from_der de_enum dispatch de_struct fst snd]. destruct (bytes_eqb id (id_slice (dc_attr dc))); reflexivity. Qed.
Lemma de_enum_ber E Ts Tss (dc : data_container Ts) vs id l c : from_ber (de_enum E (Ts :: Tss) (dc, vs)) id l c =
  if bytes_eqb id (id_slice (dc_attr dc)) then (let! t := from_ber (de_struct E dc) id l c in Ok (inl t))
  else (let! v := from_ber (de_enum E Tss vs) id l c in Ok (inr v)).
Proof. cbn [from_ber de_enum dispatch de_struct fst snd]. destruct (bytes_eqb id (id_slice (dc_attr dc))); reflexivity. Qed.
(** Relations variant by variant. *)
Fixpoint variants_rel (R : forall Ts, data_container Ts -> variant_spec Ts -> Prop) (Tss : list (list Type))
  : vlist data_container Tss -> vlist variant_spec Tss -> Prop :=
  match Tss with
  | [] => fun _ _ => True
  | Ts :: Tss' => fun vs ws => R Ts (fst vs) (fst ws) /\ variants_rel R Tss' (snd vs) (snd ws)
  end.
Lemma variants_rel_impl (R R' : forall Ts, data_container Ts -> variant_spec Ts -> Prop) (H : forall Ts dc w, R Ts dc w -> R' Ts dc w) Tss :
  forall vs ws, variants_rel R Tss vs ws -> variants_rel R' Tss vs ws.
Proof. induction Tss as [|T Tss IH]; intros vs ws; cbn; [trivial|]. intros [A B]. auto. Qed.
Lemma enum_ids Tss : forall ws v, In (on_id (enum_on Tss ws) v) (variant_ids Tss ws).
Proof. induction Tss as [|Ts Tss IH]; intros ws v; [destruct v|]. destruct v as [t|v]; [now left | right; apply IH]. Qed.
Lemma enum_ber_ids Tss : forall ws v id l c, on_ber (enum_on Tss ws) v id l c -> In id (variant_ids Tss ws).
Proof.
  induction Tss as [|Ts Tss IH]; intros ws v id l c H; [destruct v|]. destruct v as [t|v]; [left | right; now apply (IH _ v id l c)].
  destruct H as [-> _]. reflexivity.
Qed.
Definition variant_ser (Ts : list Type) (dc : data_container Ts) (w : variant_spec Ts) : Prop :=
  id_slice (dc_attr dc) = fst w /\ fields_rel ser_as Ts (dc_fields dc) (snd w).
Definition variant_known (Ts : list Type) (dc : data_container Ts) (w : variant_spec Ts) : Prop :=
  id_slice (dc_attr dc) = fst w /\ fields_rel known_as Ts (dc_fields dc) (snd w) /\
  existsb converts (field_attributes Ts (dc_fields dc)) = false.
Definition variant_ok (Ts : list Type) (dc : data_container Ts) (w : variant_spec Ts) : Prop :=
  id_slice (dc_attr dc) = fst w /\ is_identifier (fst w) /\ hd 0 (fst w) <> 0 /\ fields_rel spec_ok Ts (dc_fields dc) (snd w).
Definition variant_de (Ts : list Type) (dc : data_container Ts) (w : variant_spec Ts) : Prop :=
  variant_ok Ts dc w /\ fields_rel de_as Ts (dc_fields dc) (snd w).
Definition variant_canonical (Ts : list Type) (dc : data_container Ts) (w : variant_spec Ts) : Prop :=
  id_slice (dc_attr dc) = fst w /\ fields_rel canonical_as Ts (dc_fields dc) (snd w).
Fixpoint each_variant (P : forall T, field T -> Prop) (Tss : list (list Type)) : vlist data_container Tss -> Prop :=
  match Tss with
  | [] => fun _ => True
  | Ts :: Tss' => fun vs => each_field P Ts (dc_fields (fst vs)) /\ each_variant P Tss' (snd vs)
  end.
Lemma enum_codec_ok Tss : forall vs ws, variants_rel variant_ok Tss vs ws -> codec_ok (enum_codec Tss ws).
Proof.
  induction Tss as [|Ts Tss IH]; intros vs ws R; [intros []|]. destruct vs as [dc vs], ws as [[ID cs] ws]. destruct R as [(_ & I & _ & O) R].
  apply (sum_codec_ok (of_codec (struct_codec ID Ts cs))); [|now apply (IH vs)]. now apply (struct_codec_ok ID Ts (dc_fields dc)).
Qed.
Lemma enum_ber_ok Tss : forall vs ws, variants_rel variant_ok Tss vs ws -> ber_ok (enum_codec Tss ws).
Proof.
  induction Tss as [|Ts Tss IH]; intros vs ws R; [split; intros []|]. destruct vs as [dc vs], ws as [[ID cs] ws]. destruct R as [(_ & I & H0 & O) R].
  apply (sum_ber_ok (of_codec (struct_codec ID Ts cs))); [|now apply (IH vs)]. now apply (struct_ber_ok ID Ts (dc_fields dc)).
Qed.
Lemma enum_ser_law E Tss : forall vs ws, variants_rel variant_ser Tss vs ws -> ser_law (enum_codec Tss ws) (ser_variants E Tss vs).
Proof.
  induction Tss as [|Ts Tss IH]; intros vs ws R; [intros []|]. destruct vs as [dc vs], ws as [[ID cs] ws]. destruct R as [(I & O) R].
  apply (sum_ser_law (of_codec (struct_codec ID Ts cs)) (enum_on Tss ws) (ser_fields E dc) (ser_variants E Tss vs)); [|now apply IH].
  cbn [fst snd] in *. subst ID. now apply struct_ser_law.
Qed.
Lemma enum_known E Tss : forall vs ws, variants_rel variant_known Tss vs ws -> ser_known (enum_codec Tss ws) (ser_variants E Tss vs).
Proof.
  induction Tss as [|Ts Tss IH]; intros vs ws R; [intros []|]. destruct vs as [dc vs], ws as [[ID cs] ws]. destruct R as [(I & O & NC) R].
  apply (sum_known (of_codec (struct_codec ID Ts cs)) (enum_on Tss ws) (ser_fields E dc) (ser_variants E Tss vs)); [|now apply IH].
  cbn [fst snd] in *. subst ID. now apply struct_ser_known.
Qed.
Lemma enum_de_law E Tss : forall vs ws, variants_rel variant_de Tss vs ws -> NoDup (variant_ids Tss ws) ->
  de_law (enum_codec Tss ws) (de_enum E Tss vs).
Proof.
  induction Tss as [|Ts Tss IH]; intros vs ws R ND; [intros []|]. destruct vs as [dc vs], ws as [[ID cs] ws].
  destruct R as [[(I & II & H0 & O) Rd] R]. cbn [variant_ids fst snd] in *. inversion ND as [|? ? NI ND']; subst.
  apply (sum_de_law (of_codec (struct_codec _ Ts cs)) (enum_on Tss ws) (id_slice (dc_attr dc)) (de_struct E dc) (de_enum E Tss vs));
    [apply de_enum_der | reflexivity | | | now apply IH].
  - intros y _ H. apply NI. rewrite <- H. apply enum_ids.
  - now apply struct_de_law.
Qed.
Lemma enum_ber_law E Tss : forall vs ws, variants_rel variant_de Tss vs ws -> NoDup (variant_ids Tss ws) ->
  ber_law (enum_codec Tss ws) (de_enum E Tss vs).
Proof.
  induction Tss as [|Ts Tss IH]; intros vs ws R ND; [intros []|]. destruct vs as [dc vs], ws as [[ID cs] ws].
  destruct R as [[(I & II & H0 & O) Rd] R]. cbn [variant_ids fst snd] in *. inversion ND as [|? ? NI ND']; subst.
  apply (sum_ber_law (of_codec (struct_codec _ Ts cs)) (enum_on Tss ws) (id_slice (dc_attr dc)) (de_struct E dc) (de_enum E Tss vs));
    [apply de_enum_ber | now intros x id l c [-> _] | | | now apply IH].
  - intros y id l c H ->. apply NI. eapply enum_ber_ids. exact H.
  - now apply struct_ber_law.
Qed.
Lemma enum_der_answers E Tss : forall vs, each_variant der_answering Tss vs -> der_answers (de_enum E Tss vs).
Proof.
  induction Tss as [|Ts Tss IH]; intros vs F; [intros id c _; apply answers_err|]. destruct vs as [dc vs], F as [Fd F].
  apply (sum_der_answers (id_slice (dc_attr dc)) (de_struct E dc) (de_enum E Tss vs));
    [apply de_enum_der | now apply struct_der_answers | now apply IH].
Qed.
Lemma enum_ber_answers E Tss : forall vs, each_variant (ber_answering E) Tss vs -> ber_answers E (de_enum E Tss vs).
Proof.
  induction Tss as [|Ts Tss IH]; intros vs F; [intros id l c _ _; apply answers_err|]. destruct vs as [dc vs], F as [Fd F].
  apply (sum_ber_answers (id_slice (dc_attr dc)) (de_struct E dc) (de_enum E Tss vs));
    [apply de_enum_ber | now apply struct_ber_answers | now apply IH].
Qed.
Lemma enum_canonical E Tss : forall vs ws, variants_rel variant_canonical Tss vs ws -> canonical (enum_codec Tss ws) (de_enum E Tss vs).
Proof.
  induction Tss as [|Ts Tss IH]; intros vs ws R; [intros id c []|]. destruct vs as [dc vs], ws as [[ID cs] ws]. destruct R as [(I & O) R].
  cbn [fst snd] in *. subst ID.
  apply (sum_canonical (of_codec (struct_codec _ Ts cs)) (enum_on Tss ws) (id_slice (dc_attr dc)) (de_struct E dc) (de_enum E Tss vs));
    [apply de_enum_der | now apply struct_canonical | now apply IH].
Qed.

(** ** Conversions *)
Section Via.
Context (C : codec) {T : Type} (f : T -> car C) (P : T -> Prop) (eqv : T -> T -> Prop).
Let V := to_codec (via C f P eqv).
Lemma via_codec_ok : codec_ok C -> codec_ok V.
Proof. intros O v [_ W]. now apply O. Qed.
Lemma via_ber_ok : ber_ok C -> ber_ok V.
Proof.
  intros [A B]. split; [intros v id l c [_ W] O; now apply (A (f v)) | intros v [_ W]; now apply B].
Qed.
Lemma via_ser_law S0 S : ser_via f S0 S -> ser_law C S0 -> ser_law V S.
Proof.
  intros SV SL v [_ W] L. destruct (SL (f v) W L) as [A1 A2 A3 A4].
  destruct SV; (split; [exact A1 | exact A2 | |]); [exact A3 | exact A4 | now left | now left].
Qed.
Lemma via_known S0 : ser_known C S0 -> ser_known V (ser_on f S0).
Proof. intros K v [_ W] L. now apply (K (f v)). Qed.
Context (g : car C -> T + anyhow) (D0 : deserialize (car C)) (D : deserialize T).
Hypothesis U : undoes C f g P eqv.
Hypothesis DV : de_via D0 g D.
Lemma via_from_der id c v : from_der D id c = Ok v <-> exists u, from_der D0 id c = Ok u /\ g u = inl v.
Proof using DV.
  clear U.  destruct DV; cbn [from_der do_from_deserialize do_try_from_deserialize sr_de sr_conv ts_de ts_conv]; rewrite rbind_ok.
  - split; intros (u & A & B); exists u; (split; [exact A|]); injection B as <-; reflexivity.
  - setoid_rewrite try_convert_ok. reflexivity.
Qed.
Lemma via_from_ber id l c v : from_ber D id l c = Ok v <-> exists u, from_ber D0 id l c = Ok u /\ g u = inl v.
Proof using DV.
  clear U.  destruct DV; cbn [from_ber do_from_deserialize do_try_from_deserialize sr_de sr_conv ts_de ts_conv]; rewrite rbind_ok.
  - split; intros (u & A & B); exists u; (split; [exact A|]); injection B as <-; reflexivity.
  - setoid_rewrite try_convert_ok. reflexivity.
Qed.
Lemma via_de_law : de_law C D0 -> de_law V D.
Proof using U DV.
  intros DL v [Pv W] L. destruct (DL (f v) W L) as (u & E & Wu & S). destruct (U v u Pv W Wu S) as (v' & G & Pv' & W' & Q).
  exists v'. split; [apply via_from_der; eauto | split; [split; assumption | assumption]].
Qed.
Lemma via_ber_law : ber_law C D0 -> ber_law V D.
Proof using U DV.
  intros BL v id l c [Pv W] O L. destruct (BL (f v) id l c W O L) as (u & E & Wu & S). destruct (U v u Pv W Wu S) as (v' & G & Pv' & W' & Q).
  exists v'. split; [apply via_from_ber; eauto | split; [split; assumption | assumption]].
Qed.
Lemma via_der_answers : der_answers D0 -> der_answers D.
Proof using DV.
  clear U.  intros A id c Hc. destruct DV; cbn [from_der do_from_deserialize do_try_from_deserialize sr_de sr_conv ts_de ts_conv];
    (apply answers_bind; [now apply A | intros]); [apply answers_ok | apply answers_convert].
Qed.
Lemma via_ber_answers E : ber_answers E D0 -> ber_answers E D.
Proof using DV.
  clear U.  intros A id l c Hc R. destruct DV; cbn [from_ber do_from_deserialize do_try_from_deserialize sr_de sr_conv ts_de ts_conv];
    (apply answers_bind; [now apply A | intros]); [apply answers_ok | apply answers_convert].
Qed.
End Via.

(** ** What the macros emit *)
Lemma plain_cases a : plain a -> a_into a = None /\ a_to a = None /\ a_from a = None /\ a_try_from a = None /\ a_transparent a = false.
Proof.
  unfold plain. rewrite !has_flag. cbn [flag]. unfold is_some.
  destruct (a_into a), (a_to a), (a_from a), (a_try_from a), (a_transparent a); intuition congruence.
Qed.
Lemma transparent_cases a : sanitize a = true -> has a ATransparent ->
  a_into a = None /\ a_to a = None /\ a_from a = None /\ a_try_from a = None /\ a_transparent a = true.
Proof.
  intros S H. apply sanitize_iff in S. assert (forall x, has a x -> group_of x = GTransparent) as G.
  { intros x Hx. destruct x; try reflexivity; exfalso; apply (S _ _ Hx H); left; discriminate. }
  pose proof (G AInto) as G1. pose proof (G ATo) as G2. pose proof (G AFrom) as G3. pose proof (G ATryFrom) as G4.
  rewrite has_flag in G1, G2, G3, G4, H. cbn [flag group_of] in *. unfold is_some in *.
  destruct (a_into a), (a_to a), (a_from a), (a_try_from a), (a_transparent a);
    try (discriminate G1; reflexivity); try (discriminate G2; reflexivity); try (discriminate G3; reflexivity); try (discriminate G4; reflexivity);
    try discriminate H; auto.
Qed.
Section Emitted.
Context (is_path : string -> bool) (E : env) (attrs : list syn_attribute) (a : attribute).
Hypothesis TF : Attribute_try_from is_path attrs = Some a.
Lemma plain_struct Ts decls fs ps S D : plain a -> try_fields is_path Ts decls = Some fs ->
  (do_serialize is_path E attrs (DStruct Ts decls) ps = Some S -> S = ser_fields E {| dc_attr := a; dc_fields := fs |}) /\
  (do_deserialize is_path E attrs (DStruct Ts decls) ps = Some D -> D = de_struct E {| dc_attr := a; dc_fields := fs |}).
Proof using TF.
  intros P F. destruct (plain_cases a P) as (P1 & P2 & P3 & P4 & P5).
  unfold do_serialize, do_deserialize, do_serialize_struct, do_deserialize_struct, try_struct, sanitize_as_struct.
  rewrite TF, P1, P2, P3, P4, F. destruct (sanitize_as_container a); cbn [negb dc_attr]; [|split; discriminate].
  rewrite P5. split; now intros [= <-].
Qed.
Lemma transparent_struct Ts decls fs ps S D : a_into a = None /\ a_to a = None /\ a_from a = None /\ a_try_from a = None /\ a_transparent a = true ->
  try_fields is_path Ts decls = Some fs ->
  (do_serialize is_path E attrs (DStruct Ts decls) ps = Some S -> transparent_fields Ts fs = [S]) /\
  (do_deserialize is_path E attrs (DStruct Ts decls) ps = Some D -> D = de_whole fs /\
     nlen (filter (fun a => negb (is_skip_deserializing a)) (field_attributes Ts fs)) = 1).
Proof using TF.
  intros (P1 & P2 & P3 & P4 & P5) F.
  unfold do_serialize, do_deserialize, do_serialize_struct, do_deserialize_struct, try_struct, sanitize_as_struct.
  rewrite TF, P1, P2, P3, P4, F. destruct (sanitize_as_container a); cbn [negb dc_attr]; [|split; discriminate].
  rewrite P5. unfold ser_transparent, de_transparent. cbn [dc_fields]. split.
  - destruct (transparent_fields Ts fs) as [|s [|]]; try discriminate. now intros [= <-].
  - destruct (N.eqb_spec (nlen (filter (fun a => negb (is_skip_deserializing a)) (field_attributes Ts fs))) 1); [|discriminate]. now intros [= <-].
Qed.
Lemma plain_enum Tss decls vs ps S D : plain a -> try_variants is_path Tss decls = Some vs ->
  (do_serialize is_path E attrs (DEnum Tss decls) ps = Some S -> S = ser_variants E Tss vs) /\
  (do_deserialize is_path E attrs (DEnum Tss decls) ps = Some D -> D = de_enum E Tss vs).
Proof using TF.
  intros P F. destruct (plain_cases a P) as (P1 & P2 & P3 & P4 & P5).
  unfold do_serialize, do_deserialize, do_serialize_enum, do_deserialize_enum.
  rewrite TF, P1, P2, P3, P4, F. destruct (sanitize_as_container a); cbn [negb]; [|split; discriminate].
  destruct (sanitize_as_enum a); cbn [negb]; [|split; discriminate]. split; now intros [= <-].
Qed.
End Emitted.
Lemma identified_slice is_path attrs a ID : Attribute_try_from is_path attrs = Some a -> identified a ID -> ID = id_slice a.
Proof.
  intros TF [I _]. eapply identifier_fun; [exact I|]. apply id_slice_identifier. eapply try_from_values. exact TF.
Qed.
Lemma identified_is a ID : identified a ID -> is_identifier ID /\ hd 0 ID <> 0.
Proof. intros [I H]. split; [|assumption]. now exists (class_of a), (pc_of a), (number_of a). Qed.

(** ** All supported types *)
Definition field_laws (E : env) (T : Type) (f : field T) (s : field_spec T) : Prop :=
  match s with
  | Skipped d => is_skip_serializing (f_attr f) = true /\ is_skip_deserializing (f_attr f) = true /\ default_of f = d
  | Coded c => is_skip_serializing (f_attr f) = false /\ is_skip_deserializing (f_attr f) = false /\
               laws E (to_codec c) (field_ser f) (field_de f)
  end.
Definition variant_laws (E : env) (Ts : list Type) (dc : data_container Ts) (w : variant_spec Ts) : Prop :=
  identified (dc_attr dc) (fst w) /\ fields_rel (field_laws E) Ts (dc_fields dc) (snd w).
Section FieldLaws.
Context (E : env).
Lemma laws_spec T f s : field_laws E T f s -> spec_ok T f s.
Proof. destruct s; [cbn; tauto|]. intros (_ & _ & L). split; apply L. Qed.
Lemma laws_ser T f s : field_laws E T f s -> ser_as T f s.
Proof. destruct s; [cbn; tauto|]. intros (A & _ & L). split; [exact A | apply L]. Qed.
Lemma laws_de T f s : field_laws E T f s -> de_as T f s.
Proof. destruct s; [cbn; tauto|]. intros (_ & A & L). split; [exact A | split; apply L]. Qed.
Lemma laws_der_answering Ts : forall fs cs, fields_rel (field_laws E) Ts fs cs -> each_field der_answering Ts fs.
Proof.
  induction Ts as [|T Ts IH]; intros fs cs R; [exact I|]. destruct R as [Rf R]. split; [|now apply (IH _ (snd cs))].
  intros NS. destruct (fst cs); cbn in Rf; [destruct Rf as (_ & A & _); congruence|]. apply Rf.
Qed.
Lemma laws_ber_answering Ts : forall fs cs, fields_rel (field_laws E) Ts fs cs -> each_field (ber_answering E) Ts fs.
Proof.
  induction Ts as [|T Ts IH]; intros fs cs R; [exact I|]. destruct R as [Rf R]. split; [|now apply (IH _ (snd cs))].
  intros NS. destruct (fst cs); cbn in Rf; [destruct Rf as (_ & A & _); congruence|]. now apply Rf.
Qed.
Lemma struct_laws Ts (dc : data_container Ts) cs : is_identifier (id_slice (dc_attr dc)) -> hd 0 (id_slice (dc_attr dc)) <> 0 ->
  fields_rel (field_laws E) Ts (dc_fields dc) cs ->
  laws E (struct_codec (id_slice (dc_attr dc)) Ts cs) (ser_fields E dc) (de_struct E dc).
Proof.
  intros I H0 R. pose proof (fields_rel_impl _ _ laws_spec _ _ _ R) as O. pose proof (fields_rel_impl _ _ laws_ser _ _ _ R) as RS.
  pose proof (fields_rel_impl _ _ laws_de _ _ _ R) as RD. split.
  - now apply (struct_codec_ok _ Ts (dc_fields dc)).
  - now apply struct_ser_law.
  - now apply struct_de_law.
  - now apply struct_ber_law.
  - now apply (struct_ber_ok _ Ts (dc_fields dc)).
  - apply struct_der_answers. eapply laws_der_answering. exact R.
  - apply struct_ber_answers. eapply laws_ber_answering. exact R.
Qed.
Lemma transparent_laws Ts fs cs S : fields_rel (field_laws E) Ts fs cs -> transparent_fields Ts fs = [S] ->
  laws E (transparent_codec Ts cs) S (de_whole fs).
Proof.
  intros R TS. pose proof (fields_rel_impl _ _ laws_spec _ _ _ R) as O. pose proof (fields_rel_impl _ _ laws_ser _ _ _ R) as RS.
  pose proof (fields_rel_impl _ _ laws_de _ _ _ R) as RD. pose proof (transparent_count Ts fs cs RS) as K. rewrite TS in K. symmetry in K. split.
  - now apply (transparent_codec_ok Ts fs).
  - now apply (transparent_ser_law Ts fs).
  - now apply transparent_de_law.
  - now apply transparent_ber_law.
  - now apply (transparent_ber_ok Ts fs).
  - apply transparent_der_answers. eapply laws_der_answering. exact R.
  - apply transparent_ber_answers. eapply laws_ber_answering. exact R.
Qed.
Definition variant_ids_laws (Ts : list Type) (dc : data_container Ts) (w : variant_spec Ts) : Prop :=
  id_slice (dc_attr dc) = fst w /\ is_identifier (fst w) /\ hd 0 (fst w) <> 0 /\ fields_rel (field_laws E) Ts (dc_fields dc) (snd w).
Lemma enum_laws Tss vs ws : variants_rel variant_ids_laws Tss vs ws -> NoDup (variant_ids Tss ws) ->
  laws E (enum_codec Tss ws) (ser_variants E Tss vs) (de_enum E Tss vs).
Proof.
  intros R ND.
  assert (variants_rel variant_ok Tss vs ws) as O.
  { eapply variants_rel_impl; [|exact R]. intros Ts dc w (A & B & C & F). repeat split; auto. eapply fields_rel_impl; [apply laws_spec | exact F]. }
  assert (variants_rel variant_de Tss vs ws) as RD.
  { eapply variants_rel_impl; [|exact R]. intros Ts dc w (A & B & C & F).
    repeat split; auto; (eapply fields_rel_impl; [|exact F]); [apply laws_spec | apply laws_de]. }
  split.
  - now apply (enum_codec_ok Tss vs).
  - apply enum_ser_law. eapply variants_rel_impl; [|exact R]. intros Ts dc w (A & _ & _ & F). split; [assumption|].
    eapply fields_rel_impl; [apply laws_ser | exact F].
  - now apply enum_de_law.
  - now apply enum_ber_law.
  - now apply (enum_ber_ok Tss vs).
  - apply enum_der_answers. clear -R. induction Tss as [|Ts Tss IH]; [exact I|]. destruct R as [(_ & _ & _ & F) R].
    split; [eapply laws_der_answering; exact F | now apply (IH _ (snd ws))].
  - apply enum_ber_answers. clear -R. induction Tss as [|Ts Tss IH]; [exact I|]. destruct R as [(_ & _ & _ & F) R].
    split; [eapply laws_ber_answering; exact F | now apply (IH _ (snd ws))].
Qed.
Lemma via_laws C S0 D0 T (f : T -> car C) g P eqv S D : laws E C S0 D0 -> undoes C f g P eqv -> ser_via f S0 S -> de_via D0 g D ->
  laws E (to_codec (via C f P eqv)) S D.
Proof.
  intros [a1 a2 a3 a4 a5 a6 a7] U SV DV. split.
  - now apply via_codec_ok.
  - now apply (via_ser_law C f P eqv S0).
  - now apply (via_de_law C f P eqv g D0).
  - now apply (via_ber_law C f P eqv g D0).
  - now apply via_ber_ok.
  - now apply (via_der_answers C g D0).
  - apply (via_ber_answers C g D0); auto.
Qed.
End FieldLaws.
Lemma try_variants_values is_path Tss : forall decls vs, try_variants is_path Tss decls = Some vs ->
  forall E ws, variants_rel (variant_laws E) Tss vs ws -> variants_rel (variant_ids_laws E) Tss vs ws.
Proof.
  induction Tss as [|Ts Tss IH]; intros decls vs H E ws R; [exact I|]. cbn [try_variants] in H.
  destruct (try_variant is_path Ts (fst decls)) as [v|] eqn:V; [|discriminate].
  destruct (try_variants is_path Tss (snd decls)) as [rest|] eqn:K; [|discriminate]. injection H as <-.
  destruct R as [[I F] R]. cbn [fst snd] in *. split; [|now apply (IH (snd decls))].
  unfold try_variant in V. destruct (Attribute_try_from is_path (vd_attrs (fst decls))) as [a|] eqn:TF; [|discriminate].
  destruct (negb (sanitize_as_variant a)); [discriminate|]. destruct (try_fields is_path Ts (vd_fields (fst decls))); [|discriminate].
  injection V as <-. cbn [dc_attr] in *. split; [symmetry; now apply (identified_slice is_path (vd_attrs (fst decls)))|].
  destruct (identified_is _ _ I) as [I1 I2]. auto.
Qed.
Scheme supported_min := Minimality for supported Sort Prop
  with supported_fields_min := Minimality for supported_fields Sort Prop
  with supported_variants_min := Minimality for supported_variants Sort Prop.
Lemma try_from_sanitized is_path attrs a : Attribute_try_from is_path attrs = Some a -> sanitize a = true.
Proof.
  unfold Attribute_try_from. destruct (one_attribute is_path None attrs) as [[x|]|]; try discriminate.
  - destruct (sanitize x) eqn:S; [|discriminate]. now intros [= <-].
  - now intros [= <-].
Qed.
Lemma supported_laws E C S D : good_env E -> supported E C S D -> laws E C S D.
Proof.
  intros HE. apply (supported_min E (fun C S D => laws E C S D) (fun Ts fs cs => fields_rel (field_laws E) Ts fs cs)
    (fun Tss vs ws => variants_rel (variant_laws E) Tss vs ws)).
  - intros. now apply provided_laws.
  - trivial.
  - intros. now apply seq_laws.
  - intros. now apply seq_laws.
  - intros. now apply seq_laws.
  - intros. now apply btree_set_laws.
  - intros. now apply hash_set_laws.
  - intros. now apply btree_map_laws.
  - intros. now apply hash_map_laws.
  - intros is_path attrs a ID Ts decls fs cs ps S0 D0 TF P ID0 F _ L HS HD.
    destruct (plain_struct is_path E attrs a TF Ts decls fs ps S0 D0 P F) as [KS KD]. rewrite (KS HS), (KD HD). clear KS KD HS HD S0 D0.
    destruct (identified_is _ _ ID0) as [I1 I2]. rewrite (identified_slice _ _ _ _ TF ID0) in *.
    now apply (struct_laws E Ts {| dc_attr := a; dc_fields := fs |} cs).
  - intros is_path attrs a Ts decls fs cs ps S0 D0 TF P F _ L HS HD.
    pose proof (transparent_cases a (try_from_sanitized _ _ _ TF) P) as Pc.
    destruct (transparent_struct is_path E attrs a TF Ts decls fs ps S0 D0 Pc F) as [KS KD]. specialize (KS HS). destruct (KD HD) as [-> _].
    now apply transparent_laws.
  - intros is_path attrs a Tss decls vs ws ps S0 D0 TF P F _ L ND HS HD.
    destruct (plain_enum is_path E attrs a TF Tss decls vs ps S0 D0 P F) as [KS KD]. rewrite (KS HS), (KD HD).
    apply enum_laws; [|assumption]. now apply (try_variants_values is_path Tss decls vs F).
  - intros C0 S0 D0 T f g P eqv S1 D1 _ L U SV DV. now apply (via_laws E C0 S0 D0 T f g).
  - exact I.
  - intros T Ts f fs cs S1 S2 _ R. split; [|exact R]. apply skips_ser_iff in S1. apply skips_de_iff in S2. cbn. auto.
  - intros T Ts f c fs cs S1 S2 _ L _ R. split; [|exact R]. apply not_skips_ser in S1. apply not_skips_de in S2. cbn. auto.
  - exact I.
  - intros Ts Tss dc ID cs vs ws I0 _ R _ L. split; [|exact L]. split; assumption.
Qed.

Lemma supported_fields_laws E Ts fs cs : good_env E -> supported_fields E Ts fs cs -> fields_rel (field_laws E) Ts fs cs.
Proof.
  intros HE H. induction H as [|T Ts f fs cs S1 S2 _ R|T Ts f c fs cs S1 S2 L _ R]; [exact I | |]; (split; [|exact R]).
  - apply skips_ser_iff in S1. apply skips_de_iff in S2. cbn. auto.
  - apply not_skips_ser in S1. apply not_skips_de in S2. cbn. split; [assumption|]. split; [assumption|]. now apply supported_laws.
Qed.

(** ** Types without conversions *)
Lemma unconverted_eq a : unconverted a -> a_into a = None /\ a_to a = None /\ a_from a = None /\ a_try_from a = None.
Proof.
  unfold unconverted. rewrite !has_flag. cbn [flag]. unfold is_some.
  destruct (a_into a), (a_to a), (a_from a), (a_try_from a); intuition congruence.
Qed.
Lemma unconverted_field {T} (f : field T) : unconverted (f_attr f) -> field_ser f = n_ser (f_names f) /\ field_de f = n_de (f_names f).
Proof. intros U. destruct (unconverted_eq _ U) as (A & B & C & D). unfold field_ser, field_de. rewrite A, B, C, D. auto. Qed.
Definition direct_known (Ts : list Type) (fs : hlist field Ts) (cs : hlist field_spec Ts) : Prop :=
  fields_rel known_as Ts fs cs /\ existsb converts (field_attributes Ts fs) = false.
Lemma transparent_known Ts : forall fs cs S, direct_known Ts fs cs -> transparent_fields Ts fs = [S] ->
  ser_known (transparent_codec Ts cs) S.
Proof.
  induction Ts as [|T Ts IH]; intros fs cs S [R NC] H; [discriminate|]. destruct fs as [f fs], cs as [s cs].
  cbn [fields_rel transparent_fields field_attributes existsb fst snd] in *. apply Bool.orb_false_iff in NC as [NF NC].
  destruct R as [Rf R], s as [d|c]; cbn [known_as] in Rf.
  - rewrite Rf in H. destruct (transparent_fields Ts fs) as [|s' [|]] eqn:K; try discriminate. injection H as <-.
    intros [x v] [_ F] L. exact (IH fs cs s' (conj R NC) K v F L).
  - destruct Rf as [NS SK]. rewrite NS in H. destruct (transparent_fields Ts fs); [|discriminate]. injection H as <-.
    unfold converts in NF. apply Bool.orb_false_iff in NF as [N1 N2].
    intros [x v] [Fx F] L. specialize (SK x Fx L). unfold field_ser in SK. unfold ser_field, ser_on.
    destruct (a_into (f_attr f)); [discriminate|]. destruct (a_to (f_attr f)); [discriminate|]. exact SK.
Qed.
Definition variant_direct (Ts : list Type) (dc : data_container Ts) (w : variant_spec Ts) : Prop :=
  identified (dc_attr dc) (fst w) /\ direct_known Ts (dc_fields dc) (snd w).
Lemma try_variants_ids is_path Tss : forall decls vs, try_variants is_path Tss decls = Some vs ->
  forall ws (P Q : forall Ts, data_container Ts -> variant_spec Ts -> Prop),
  (forall Ts dc w, P Ts dc w -> identified (dc_attr dc) (fst w) /\ (id_slice (dc_attr dc) = fst w -> Q Ts dc w)) ->
  variants_rel P Tss vs ws -> variants_rel Q Tss vs ws.
Proof.
  induction Tss as [|Ts Tss IH]; intros decls vs H ws P Q PQ R; [exact I|]. cbn [try_variants] in H.
  destruct (try_variant is_path Ts (fst decls)) as [v|] eqn:V; [|discriminate].
  destruct (try_variants is_path Tss (snd decls)) as [rest|] eqn:K; [|discriminate]. injection H as <-.
  destruct R as [R1 R]. cbn [fst snd] in *. split; [|now apply (IH (snd decls) rest K (snd ws) P)].
  destruct (PQ _ _ _ R1) as [I F]. apply F.
  unfold try_variant in V. destruct (Attribute_try_from is_path (vd_attrs (fst decls))) as [a|] eqn:TF; [|discriminate].
  destruct (negb (sanitize_as_variant a)); [discriminate|]. destruct (try_fields is_path Ts (vd_fields (fst decls))); [|discriminate].
  injection V as <-. cbn [dc_attr] in *. symmetry. now apply (identified_slice is_path (vd_attrs (fst decls))).
Qed.
Scheme direct_min := Minimality for direct Sort Prop
  with direct_fields_min := Minimality for direct_fields Sort Prop
  with direct_variants_min := Minimality for direct_variants Sort Prop.
Lemma direct_all E sets C S D : good_env E -> direct E sets C S D -> supported E C S D /\ ser_known C S.
Proof.
  intros HE. apply (direct_min E sets (fun C S D => supported E C S D /\ ser_known C S)
    (fun Ts fs cs => supported_fields E Ts fs cs /\ direct_known Ts fs cs)
    (fun Tss vs ws => supported_variants E Tss vs ws /\ variants_rel variant_direct Tss vs ws)).
  - intros C0 S0 D0 SQ. apply sequential_provided in SQ. split; [now constructor | now apply (provided_known E C0 S0 D0)].
  - intros C0 S0 D0 _ P. split; [now constructor | now apply (provided_known E C0 S0 D0)].
  - intros C0 S0 D0 _ [P K]. split; [now constructor | now apply ser_items_known].
  - intros C0 S0 D0 _ [P K]. split; [now constructor | now apply ser_items_known].
  - intros C0 S0 D0 _ [P K]. split; [now constructor | now apply ser_items_known].
  - intros C0 S0 D0 cmp _ _ [P K] O. split; [now constructor | now apply with_values_known, ser_items_known].
  - intros C0 S0 D0 eqb _ _ [P K] O. split; [now constructor | now apply with_values_known, ser_items_known].
  - intros CK SK DK CV SV DV cmp _ _ [P1 K1] _ [P2 K2] O. split; [now constructor | ].
    apply ser_btree_map_known; first [assumption | apply (l_ser _ _ _ _ (supported_laws E _ _ _ HE P1)) | apply (l_ser _ _ _ _ (supported_laws E _ _ _ HE P2))].
  - intros CK SK DK CV SV DV eqb _ _ [P1 K1] _ [P2 K2] O. split; [now constructor | ].
    apply ser_hash_map_known; first [assumption | apply (l_ser _ _ _ _ (supported_laws E _ _ _ HE P1)) | apply (l_ser _ _ _ _ (supported_laws E _ _ _ HE P2))].
  - intros is_path attrs a ID Ts decls fs cs ps S0 D0 TF P ID0 F _ [L [K NC]] HS HD. split; [now apply (sp_struct E is_path attrs a ID Ts decls fs cs ps)|].
    destruct (plain_struct is_path E attrs a TF Ts decls fs ps S0 D0 P F) as [KS _]. rewrite (KS HS).
    rewrite (identified_slice _ _ _ _ TF ID0). now apply (struct_ser_known E Ts {| dc_attr := a; dc_fields := fs |}).
  - intros is_path attrs a Ts decls fs cs ps S0 D0 TF P F _ [L K] HS HD. split; [now apply (sp_transparent E is_path attrs a Ts decls fs cs ps)|].
    pose proof (transparent_cases a (try_from_sanitized _ _ _ TF) P) as Pc.
    destruct (transparent_struct is_path E attrs a TF Ts decls fs ps S0 D0 Pc F) as [KS _]. now apply (transparent_known Ts fs cs S0 K), KS.
  - intros is_path attrs a Tss decls vs ws ps S0 D0 TF P F _ [L K] ND HS HD. split; [now apply (sp_enum E is_path attrs a Tss decls vs ws ps)|].
    destruct (plain_enum is_path E attrs a TF Tss decls vs ps S0 D0 P F) as [KS _]. rewrite (KS HS). apply enum_known.
    eapply try_variants_ids; [exact F | | exact K]. intros Ts dc w [A [B1 B2]]. split; [assumption|]. intros I. now split.
  - repeat constructor.
  - intros T Ts f fs cs S1 S2 U _ [L [K NC]]. destruct (unconverted_eq _ U) as (U1 & U2 & _ & _).
    split; [now constructor|]. split; [split; [now apply skips_ser_iff | exact K]|].
    cbn [field_attributes existsb fst snd]. unfold converts at 1. now rewrite U1, U2.
  - intros T Ts f c fs cs S1 S2 U _ [L1 K1] _ [L [K NC]]. destruct (unconverted_eq _ U) as (U1 & U2 & _ & _).
    destruct (unconverted_field f U) as [Fs Fd]. split; [constructor; auto; now rewrite Fs, Fd|].
    split; [split; [split; [now apply not_skips_ser | cbn [fst]; now rewrite Fs] | exact K]|].
    cbn [field_attributes existsb fst snd]. unfold converts at 1. now rewrite U1, U2.
  - repeat constructor.
  - intros Ts Tss dc ID cs vs ws I0 _ [R K] _ [L M]. split; [now constructor|]. split; [|exact M]. split; assumption.
Qed.
Lemma direct_canonical E C S D : direct E false C S D -> canonical C D.
Proof.
  apply (direct_min E false (fun C S D => canonical C D) (fun Ts fs cs => fields_rel canonical_as Ts fs cs)
    (fun Tss vs ws => variants_rel (fun Ts dc w => identified (dc_attr dc) (fst w) /\ fields_rel canonical_as Ts (dc_fields dc) (snd w)) Tss vs ws)).
  - intros C0 S0 D0 SQ. now apply (sequential_canonical E C0 S0).
  - discriminate.
  - intros. now apply vec_canonical.
  - intros. now apply vec_canonical.
  - intros. now apply vec_canonical.
  - discriminate.
  - discriminate.
  - discriminate.
  - discriminate.
  - intros is_path attrs a ID Ts decls fs cs ps S0 D0 TF P ID0 F _ L HS HD.
    destruct (plain_struct is_path E attrs a TF Ts decls fs ps S0 D0 P F) as [_ KD]. rewrite (KD HD), (identified_slice _ _ _ _ TF ID0).
    now apply (struct_canonical E {| dc_attr := a; dc_fields := fs |}).
  - intros is_path attrs a Ts decls fs cs ps S0 D0 TF P F _ L HS HD.
    pose proof (transparent_cases a (try_from_sanitized _ _ _ TF) P) as Pc.
    destruct (transparent_struct is_path E attrs a TF Ts decls fs ps S0 D0 Pc F) as [_ KD]. destruct (KD HD) as [-> K].
    apply transparent_canonical; [assumption|]. rewrite nlen_length in K.
    assert (length (filter (fun a => negb (is_skip_deserializing a)) (field_attributes Ts fs)) = coded_count Ts cs) as <-; [|lia].
    clear -L. revert fs cs L. induction Ts as [|T Ts IH]; intros fs cs R; [reflexivity|]. destruct fs as [f fs], cs as [s cs].
    cbn [fields_rel field_attributes coded_count fst snd filter] in *. destruct R as [Rf R], s as [d|c]; cbn [canonical_as] in Rf.
    + rewrite Rf. now apply IH.
    + destruct Rf as [-> _]. cbn [negb length]. f_equal. now apply IH.
  - intros is_path attrs a Tss decls vs ws ps S0 D0 TF P F _ L ND HS HD.
    destruct (plain_enum is_path E attrs a TF Tss decls vs ps S0 D0 P F) as [_ KD]. rewrite (KD HD). apply enum_canonical.
    eapply try_variants_ids; [exact F | | exact L]. intros Ts dc w [A B]. split; [assumption|]. intros I. now split.
  - exact I.
  - intros T Ts f fs cs S1 S2 U _ L. split; [|exact L]. apply skips_de_iff in S2. cbn. auto.
  - intros T Ts f c fs cs S1 S2 U _ L1 _ L. split; [|exact L]. split; [now apply not_skips_de|].
    cbn [fst]. now rewrite (proj2 (unconverted_field f U)).
  - exact I.
  - intros Ts Tss dc ID cs vs ws I0 _ R _ L. split; [|exact L]. split; assumption.
Qed.

(** ** What is accepted *)
Lemma exclude_eoc_iff E c bs : exclude_eoc E Indefinite c = Ok bs <-> c = bs ++ [0; 0].
Proof.
  split; [|intros ->; apply exclude_eoc_both]. cbn [exclude_eoc]. destruct (ends_with c EOC) eqn:W; [|discriminate]. intros [= <-].
  unfold ends_with in W. apply Bool.andb_true_iff in W as [W1 W2]. apply bytes_eqb_eq in W2. change EOC with [0; 0] in *.
  rewrite <- W2 at 2. symmetry. apply take_drop.
Qed.
Section Accepts.
Context (is_path : string -> bool) (E : env) (attrs : list syn_attribute) (a : attribute).
Hypothesis TF : Attribute_try_from is_path attrs = Some a.
Lemma struct_accepts ID Ts decls fs ps D : plain a -> identifier (class_of a) (pc_of a) (number_of a) ID ->
  try_fields is_path Ts decls = Some fs -> do_deserialize is_path E attrs (DStruct Ts decls) ps = Some D ->
  (forall id c v, bytes_ok c -> (from_der D id c = Ok v <-> id = ID /\ der_fields Ts fs c v)) /\
  (forall id c v, bytes_ok c -> (from_ber D id (Definite (nlen c)) c = Ok v <-> id = ID /\ ber_fields Ts fs c v)) /\
  (forall id c v, bytes_ok c -> (from_ber D id Indefinite c = Ok v <-> id = ID /\ exists bs, c = bs ++ [0; 0] /\ ber_fields Ts fs bs v)).
Proof using TF.
  intros P I F HD. rewrite (proj2 (plain_struct is_path E attrs a TF Ts decls fs ps (ser_fields E {| dc_attr := a; dc_fields := fs |}) D P F) HD).
  assert (ID = id_slice a) as -> by (eapply identifier_fun; [exact I | apply id_slice_identifier; eapply try_from_values; exact TF]).
  split; [|split]; intros id c v Hc.
  - exact (de_struct_der_iff E Ts {| dc_attr := a; dc_fields := fs |} id c v Hc).
  - rewrite (de_struct_ber_iff E Ts {| dc_attr := a; dc_fields := fs |} id _ c v Hc). rewrite (proj2 (exclude_eoc_both E c)). cbn [dc_attr dc_fields].
    split; [intros (-> & bs & [= <-] & B); auto | intros [-> B]; eauto].
  - rewrite (de_struct_ber_iff E Ts {| dc_attr := a; dc_fields := fs |} id _ c v Hc). now setoid_rewrite exclude_eoc_iff.
Qed.
Lemma struct_rejects ID Ts decls fs ps D : plain a -> identifier (class_of a) (pc_of a) (number_of a) ID ->
  try_fields is_path Ts decls = Some fs -> do_deserialize is_path E attrs (DStruct Ts decls) ps = Some D ->
  (forall id l c, id <> ID -> from_der D id c = Err UnmatchedId /\ from_ber D id l c = Err UnmatchedId) /\
  (forall c x v, bytes_ok (c ++ x) -> x <> [] -> der_fields Ts fs c v -> from_der D ID (c ++ x) = Err ExtraContentsOctet) /\
  (forall c x v, bytes_ok (c ++ x) -> x <> [] -> ber_fields Ts fs c v ->
     from_ber D ID (Definite (nlen (c ++ x))) (c ++ x) = Err ExtraContentsOctet /\
     from_ber D ID Indefinite (c ++ x ++ [0; 0]) = Err ExtraContentsOctet).
Proof using TF.
  intros P I F HD. rewrite (proj2 (plain_struct is_path E attrs a TF Ts decls fs ps (ser_fields E {| dc_attr := a; dc_fields := fs |}) D P F) HD).
  assert (ID = id_slice a) as -> by (eapply identifier_fun; [exact I | apply id_slice_identifier; eapply try_from_values; exact TF]).
  split; [|split].
  - intros id l c H. cbn [from_der from_ber de_struct dc_attr]. now rewrite (differs (id_slice a) id H).
  - intros c x v Hok Hx Fd. cbn [from_der de_struct dc_attr]. rewrite bytes_eqb_refl. cbn [negb].
    exact (from_der_contents_extra Ts {| dc_attr := a; dc_fields := fs |} c x v Hok Hx Fd).
  - intros c x v Hok Hx Fb. cbn [from_ber de_struct dc_attr]. rewrite bytes_eqb_refl. cbn [negb]. rewrite !from_ber_contents_eq.
    rewrite (proj2 (exclude_eoc_both E (c ++ x))), app_assoc, (proj1 (exclude_eoc_both E (c ++ x))). cbn [rbind dc_fields].
    rewrite (proj2 (construct_ber_iff Ts fs (c ++ x) v x Hok)) by eauto. now rewrite all_read_extra.
Qed.
Lemma transparent_accepts Ts decls fs ps D : has a ATransparent -> try_fields is_path Ts decls = Some fs ->
  do_deserialize is_path E attrs (DStruct Ts decls) ps = Some D ->
  (forall id c v, from_der D id c = Ok v <-> whole_fields (fun T f t => from_der (field_de f) id c = Ok t) Ts fs v) /\
  (forall id l c v, from_ber D id l c = Ok v <-> whole_fields (fun T f t => from_ber (field_de f) id l c = Ok t) Ts fs v).
Proof using TF.
  intros P F HD. pose proof (transparent_cases a (try_from_sanitized _ _ _ TF) P) as Pc.
  destruct (proj2 (transparent_struct is_path E attrs a TF Ts decls fs ps (ser_fields E {| dc_attr := a; dc_fields := fs |}) D Pc F) HD) as [-> _].
  split; intros; [apply whole_der_iff | apply whole_ber_iff].
Qed.
Lemma variant_values Tss : forall decls vs, try_variants is_path Tss decls = Some vs ->
  (forall id, match Tss as Tss return vlist data_container Tss -> Prop with
    | [] => fun _ => True
    | Ts :: _ => fun vs => bytes_eqb id (id_slice (dc_attr (fst vs))) = true <->
        let b := dc_attr (fst vs) in identifier (class_of b) (pc_of b) (number_of b) id
    end vs).
Proof using.
  intros decls vs H id. destruct Tss as [|Ts Tss]; [exact I|]. cbn [try_variants] in H.
  destruct (try_variant is_path Ts (fst decls)) as [v|] eqn:V; [|discriminate].
  destruct (try_variants is_path Tss (snd decls)) as [rest|] eqn:K; [|discriminate]. injection H as <-. cbn [fst].
  unfold try_variant in V. destruct (Attribute_try_from is_path (vd_attrs (fst decls))) as [b|] eqn:TF0; [|discriminate].
  destruct (negb (sanitize_as_variant b)); [discriminate|]. destruct (try_fields is_path Ts (vd_fields (fst decls))); [|discriminate].
  injection V as <-. cbn [dc_attr]. apply try_from_values, id_slice_identifier in TF0. rewrite bytes_eqb_eq. split; [now intros ->|].
  intros J. eapply identifier_fun; eassumption.
Qed.
Lemma dispatch_iff {X} (rd : forall Ts, data_container Ts -> X -> res (tuple Ts)) (read : forall Ts, hlist field Ts -> tuple Ts -> Prop) x :
  (forall Ts dc t, rd Ts dc x = Ok t <-> read Ts (dc_fields dc) t) ->
  forall Tss decls vs, try_variants is_path Tss decls = Some vs -> forall id v,
  dispatch rd Tss vs id x = Ok v <-> variant_reads read id Tss vs v.
Proof using.
  intros HR Tss. induction Tss as [|Ts Tss IH]; intros decls vs H id v; [destruct v|].
  pose proof (variant_values (Ts :: Tss) decls vs H id) as V. cbn [dispatch variant_reads].
  cbn [try_variants] in H. destruct (try_variant is_path Ts (fst decls)) as [w|]; [|discriminate].
  destruct (try_variants is_path Tss (snd decls)) as [rest|] eqn:K; [|discriminate]. injection H as <-. cbn [fst snd] in *.
  destruct (bytes_eqb id (id_slice (dc_attr w))).
  - pose proof (proj1 V eq_refl) as Here. rewrite rbind_ok. split.
    + intros (t & A & [= <-]). split; [exact Here | now apply HR].
    + destruct v as [t|v']; [|tauto]. intros [_ A]. exists t. split; [now apply HR | reflexivity].
  - assert (~ let b := dc_attr w in identifier (class_of b) (pc_of b) (number_of b) id) as Not by (intros A; apply V in A; discriminate).
    rewrite rbind_ok. split.
    + intros (t & A & [= <-]). split; [exact Not|]. now apply (IH (snd decls) rest K).
    + destruct v as [t|v']; [tauto|]. intros [_ A]. exists v'. split; [now apply (IH (snd decls) rest K) | reflexivity].
Qed.
Lemma dispatch_unknown {X} (rd : forall Ts, data_container Ts -> X -> res (tuple Ts)) x id Tss : forall decls vs,
  try_variants is_path Tss decls = Some vs -> unknown_id id Tss vs -> dispatch rd Tss vs id x = Err UnmatchedId.
Proof using.
  induction Tss as [|Ts Tss IH]; intros decls vs H U; [reflexivity|].
  pose proof (variant_values (Ts :: Tss) decls vs H id) as V. cbn [dispatch unknown_id] in *.
  cbn [try_variants] in H. destruct (try_variant is_path Ts (fst decls)) as [w|]; [|discriminate].
  destruct (try_variants is_path Tss (snd decls)) as [rest|] eqn:K; [|discriminate]. injection H as <-. cbn [fst snd] in *.
  destruct U as [U1 U]. destruct (bytes_eqb id (id_slice (dc_attr w))); [exfalso; now apply U1, V|].
  now rewrite (IH (snd decls) rest K U).
Qed.
Lemma enum_accepts Tss decls vs ps D : plain a -> try_variants is_path Tss decls = Some vs ->
  do_deserialize is_path E attrs (DEnum Tss decls) ps = Some D ->
  (forall id c v, bytes_ok c -> (from_der D id c = Ok v <-> variant_reads (fun Ts fs t => der_fields Ts fs c t) id Tss vs v)) /\
  (forall id c v, bytes_ok c -> (from_ber D id (Definite (nlen c)) c = Ok v <-> variant_reads (fun Ts fs t => ber_fields Ts fs c t) id Tss vs v)) /\
  (forall id c v, bytes_ok c -> (from_ber D id Indefinite c = Ok v <->
     variant_reads (fun Ts fs t => exists bs, c = bs ++ [0; 0] /\ ber_fields Ts fs bs t) id Tss vs v)).
Proof using TF.
  intros P F HD. rewrite (proj2 (plain_enum is_path E attrs a TF Tss decls vs ps (ser_variants E Tss vs) D P F) HD).
  split; [|split]; intros id c v Hc; cbn [from_der from_ber de_enum]; (eapply dispatch_iff; [|exact F]); intros Ts dc t; cbn [fst snd].
  - now apply from_der_contents_iff.
  - pose proof (de_struct_ber_iff E Ts dc (id_slice (dc_attr dc)) (Definite (nlen c)) c t Hc) as K.
    cbn [from_ber de_struct] in K. rewrite bytes_eqb_refl in K. cbn [negb] in K. rewrite K, (proj2 (exclude_eoc_both E c)).
    split; [intros (_ & bs & [= <-] & B); exact B | eauto].
  - pose proof (de_struct_ber_iff E Ts dc (id_slice (dc_attr dc)) Indefinite c t Hc) as K.
    cbn [from_ber de_struct] in K. rewrite bytes_eqb_refl in K. cbn [negb] in K. rewrite K. setoid_rewrite exclude_eoc_iff. intuition.
Qed.
Lemma enum_unknown Tss decls vs ps D : plain a -> try_variants is_path Tss decls = Some vs ->
  do_deserialize is_path E attrs (DEnum Tss decls) ps = Some D ->
  forall id l c, unknown_id id Tss vs -> from_der D id c = Err UnmatchedId /\ from_ber D id l c = Err UnmatchedId.
Proof using TF.
  intros P F HD id l c U. rewrite (proj2 (plain_enum is_path E attrs a TF Tss decls vs ps (ser_variants E Tss vs) D P F) HD).
  split; cbn [from_der from_ber de_enum]; now apply (dispatch_unknown _ _ id Tss decls vs).
Qed.
End Accepts.
