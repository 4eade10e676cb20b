(** Laws of derived implementations. *)
From Coq Require Import String Ascii.
From Verif Require Import Base ModelError ModelIo ModelTag ModelContents ModelBuf ModelTlv ModelSerde ModelAttr ModelDerive.
From Verif Require Import Spec SpecSerde SpecAttr SpecDerive.
From Verif Require Import TagProofs IdProofs TagMain ContentsProofs TlvProofs BufProofs TlvMain SerdeOctets SerdeSer SerdeDe SerdeMain AttrProofs AttrParse.

(** ** Attributes of fields *)
Lemma skips_ser_iff a : skips_ser a <-> is_skip_serializing a = true.
Proof.
  unfold skips_ser, is_skip_serializing. rewrite !has_flag. cbn [flag]. rewrite Bool.orb_true_iff. reflexivity.
Qed.
Lemma skips_de_iff a : skips_de a <-> is_skip_deserializing a = true.
Proof.
  unfold skips_de, is_skip_deserializing. rewrite !has_flag. cbn [flag]. rewrite Bool.orb_true_iff. reflexivity.
Qed.
Lemma not_skips_ser a : ~ skips_ser a <-> is_skip_serializing a = false.
Proof. rewrite skips_ser_iff. now destruct (is_skip_serializing a). Qed.
Lemma not_skips_de a : ~ skips_de a <-> is_skip_deserializing a = false.
Proof. rewrite skips_de_iff. now destruct (is_skip_deserializing a). Qed.
Lemma default_eq {T} (f : field T) : n_default (f_names f) (default_path (f_attr f)) = default_of f.
Proof. unfold default_of, default_path, or_else. reflexivity. Qed.
Lemma converts_false {T} (f : field T) : converts (f_attr f) = false -> field_ser f = n_ser (f_names f).
Proof.
  unfold converts, field_ser, is_some. destruct (a_into (f_attr f)); [discriminate|]. destruct (a_to (f_attr f)); [discriminate|]. reflexivity.
Qed.

(** ** Relations field by field *)
Fixpoint fields_rel (R : forall T, field T -> field_spec T -> Prop) (Ts : list Type) : hlist field Ts -> hlist field_spec Ts -> Prop :=
  match Ts with
  | [] => fun _ _ => True
  | T :: Ts' => fun fs cs => R T (fst fs) (fst cs) /\ fields_rel R Ts' (snd fs) (snd cs)
  end.
Lemma fields_rel_impl (R R' : forall T, field T -> field_spec T -> Prop) (H : forall T f s, R T f s -> R' T f s) Ts :
  forall fs cs, fields_rel R Ts fs cs -> fields_rel R' Ts fs cs.
Proof. induction Ts as [|T Ts IH]; intros fs cs; cbn; [trivial|]. intros [A B]. auto. Qed.
(** The codecs alone. *)
Definition spec_ok (T : Type) (f : field T) (s : field_spec T) : Prop :=
  match s with Skipped _ => True | Coded c => codec_ok (to_codec c) /\ ber_ok (to_codec c) end.
Definition ser_as (T : Type) (f : field T) (s : field_spec T) : Prop :=
  match s with
  | Skipped _ => is_skip_serializing (f_attr f) = true
  | Coded c => is_skip_serializing (f_attr f) = false /\ ser_law (to_codec c) (field_ser f)
  end.
Definition known_as (T : Type) (f : field T) (s : field_spec T) : Prop :=
  match s with
  | Skipped _ => is_skip_serializing (f_attr f) = true
  | Coded c => is_skip_serializing (f_attr f) = false /\ ser_known (to_codec c) (field_ser f)
  end.
Definition de_as (T : Type) (f : field T) (s : field_spec T) : Prop :=
  match s with
  | Skipped d => is_skip_deserializing (f_attr f) = true /\ default_of f = d
  | Coded c => is_skip_deserializing (f_attr f) = false /\ de_law (to_codec c) (field_de f) /\ ber_law (to_codec c) (field_de f)
  end.
Definition canonical_as (T : Type) (f : field T) (s : field_spec T) : Prop :=
  match s with
  | Skipped d => is_skip_deserializing (f_attr f) = true
  | Coded c => is_skip_deserializing (f_attr f) = false /\ canonical (to_codec c) (field_de f)
  end.
(** On the fields alone. *)
Fixpoint each_field (P : forall T, field T -> Prop) (Ts : list Type) : hlist field Ts -> Prop :=
  match Ts with
  | [] => fun _ => True
  | T :: Ts' => fun fs => P T (fst fs) /\ each_field P Ts' (snd fs)
  end.
Definition der_answering (T : Type) (f : field T) : Prop := is_skip_deserializing (f_attr f) = false -> der_answers (field_de f).
Definition ber_answering (E : env) (T : Type) (f : field T) : Prop := is_skip_deserializing (f_attr f) = false -> ber_answers E (field_de f).

(** ** Serialisation *)
Section Ser.
Context (E : env).
Lemma field_write {T} (f : field T) {S} (W : writer S) v :
  match a_into (f_attr f) with
  | Some ty => write_der E (tg_ser (p_into (n_paths (f_names f)) ty)) W (tg_conv (p_into (n_paths (f_names f)) ty) v)
  | None =>
      match a_to (f_attr f) with
      | Some path => write_der E (tg_ser (p_to (n_paths (f_names f)) path)) W (tg_conv (p_to (n_paths (f_names f)) path) v)
      | None => write_der E (n_ser (f_names f)) W v
      end
  end = write_der E (field_ser f) W v.
Proof. unfold field_ser. destruct (a_into (f_attr f)); [reflexivity|]. destruct (a_to (f_attr f)); reflexivity. Qed.
Lemma write_fields_emits Ts : forall fs cs v, fields_rel ser_as Ts fs cs -> fields_wf Ts cs v ->
  nlen (concat (fields_der Ts cs v)) <= isize_max ->
  emits (fun _ W => write_fields E W Ts fs v) (concat (fields_der Ts cs v)).
Proof.
  induction Ts as [|T Ts IH]; intros fs cs v R F L; cbn [write_fields fields_der concat]; [apply emits_ret|].
  destruct fs as [f fs], cs as [s cs], v as [x v]. cbn [fst snd fields_rel fields_wf fields_der] in *.
  destruct R as [Rf R], F as [Fx F]. destruct s as [d|c]; cbn [ser_as] in Rf.
  - rewrite Rf. now apply IH.
  - destruct Rf as [-> SL]. cbn [concat] in *. rewrite nlen_app in L.
    pose proof (tlv_contents_le (on_id c x) (on_contents c x)). unfold der_of in *. cbn [id_of contents_of to_codec] in *.
    eapply emits_ext.
    { intros S W s. apply wbind_ext; [|intros a s'; reflexivity]. now rewrite field_write. }
    apply emits_bind; [|apply IH; auto; lia].
    apply write_der_emits; [|lia]. apply (SL x Fx). cbn. lia.
Qed.
Lemma fields_len_ok Ts : forall fs cs v acc, fields_rel ser_as Ts fs cs -> existsb converts (field_attributes Ts fs) = false ->
  fields_wf Ts cs v -> acc + nlen (concat (fields_der Ts cs v)) <= isize_max ->
  fields_len Ts fs acc v = Ok None \/ fields_len Ts fs acc v = Ok (Some (acc + nlen (concat (fields_der Ts cs v)))).
Proof.
  induction Ts as [|T Ts IH]; intros fs cs v acc R NC F L; cbn [fields_len fields_der concat].
  { right. do 2 f_equal. change (nlen (@nil N)) with 0. lia. }
  destruct fs as [f fs], cs as [s cs], v as [x v]. cbn [fst snd fields_rel fields_wf fields_der field_attributes existsb] in *.
  apply Bool.orb_false_iff in NC as [NCf NC]. destruct R as [Rf R], F as [Fx F]. destruct s as [d|c]; cbn [ser_as] in Rf.
  - rewrite Rf. now apply IH.
  - destruct Rf as [-> SL]. cbn [concat] in *. rewrite nlen_app in *. unfold der_of in *. cbn [id_of contents_of to_codec] in *.
    rewrite tlv_len in *. rewrite <- (converts_false f NCf). pose proof (isize_lt _ L).
    assert (nlen (on_contents c x) < 2 ^ 64) as LL by (unfold usize_limit in *; lia).
    rewrite length_octets_len in * by assumption.
    destruct (SL x Fx) as [_ _ AI AC]; [cbn; lia|]. cbn [car id_of contents_of to_codec] in AI, AC.
    destruct AC as [->| ->]; cbn [rbind]; [now left|]. destruct AI as [->| ->]; cbn [rbind]; [now left|].
    do 3 (rewrite add_usize_ok by lia; cbn [rbind]).
    match goal with |- fields_len _ _ ?a _ = _ \/ _ => destruct (IH fs cs v a R NC F) as [->| ->] end; [lia | now left|].
    right. do 2 f_equal. lia.
Qed.
Lemma fields_len_known Ts : forall fs cs v acc, fields_rel known_as Ts fs cs -> existsb converts (field_attributes Ts fs) = false ->
  fields_wf Ts cs v -> acc + nlen (concat (fields_der Ts cs v)) <= isize_max ->
  fields_len Ts fs acc v = Ok (Some (acc + nlen (concat (fields_der Ts cs v)))).
Proof.
  induction Ts as [|T Ts IH]; intros fs cs v acc R NC F L; cbn [fields_len fields_der concat].
  { do 2 f_equal. change (nlen (@nil N)) with 0. lia. }
  destruct fs as [f fs], cs as [s cs], v as [x v]. cbn [fst snd fields_rel fields_wf fields_der field_attributes existsb] in *.
  apply Bool.orb_false_iff in NC as [NCf NC]. destruct R as [Rf R], F as [Fx F]. destruct s as [d|c]; cbn [known_as] in Rf.
  - rewrite Rf. now apply IH.
  - destruct Rf as [-> SL]. cbn [concat] in *. rewrite nlen_app in *. unfold der_of in *. cbn [id_of contents_of to_codec] in *.
    rewrite tlv_len in *. rewrite <- (converts_false f NCf). pose proof (isize_lt _ L).
    assert (nlen (on_contents c x) < 2 ^ 64) as LL by (unfold usize_limit in *; lia).
    rewrite length_octets_len in * by assumption.
    destruct (SL x Fx) as [AI AC]; [cbn; lia|]. cbn [car id_of contents_of to_codec] in AI, AC.
    rewrite AI, AC. cbn [rbind].
    do 3 (rewrite add_usize_ok by lia; cbn [rbind]).
    rewrite (IH fs cs v) by (assumption || lia). do 2 f_equal. lia.
Qed.
Lemma struct_ser_law Ts (dc : data_container Ts) cs : fields_rel ser_as Ts (dc_fields dc) cs ->
  ser_law (struct_codec (id_slice (dc_attr dc)) Ts cs) (ser_fields E dc).
Proof.
  intros R v F L. cbn in F, L. split; cbn [write_id write_der_contents id_len der_contents_len ser_fields id_of contents_of struct_codec].
  - apply emits_write_all.
  - now apply write_fields_emits.
  - now right.
  - destruct (existsb converts _) eqn:NC; [now left|]. unfold announces. now apply (fields_len_ok Ts (dc_fields dc) cs v 0).
Qed.
Lemma struct_ser_known Ts (dc : data_container Ts) cs : fields_rel known_as Ts (dc_fields dc) cs ->
  existsb converts (field_attributes Ts (dc_fields dc)) = false ->
  ser_known (struct_codec (id_slice (dc_attr dc)) Ts cs) (ser_fields E dc).
Proof.
  intros R NC v F L. cbn in F, L. split; cbn [id_len der_contents_len ser_fields id_of contents_of struct_codec]; [reflexivity|].
  rewrite NC. now apply (fields_len_known Ts (dc_fields dc) cs v 0).
Qed.
End Ser.

(** ** Codecs of structs *)
Lemma struct_codec_ok ID Ts fs cs : is_identifier ID -> fields_rel spec_ok Ts fs cs -> codec_ok (struct_codec ID Ts cs).
Proof.
  intros I R v F. cbn in F. split; [exact I|]. cbn [contents_of struct_codec].
  revert fs cs v R F. induction Ts as [|T Ts IH]; intros fs cs v R F L; cbn [fields_der concat]; [constructor|].
  destruct fs as [f fs], cs as [s cs], v as [x v]. cbn [fst snd fields_rel fields_wf fields_der] in *.
  destruct R as [Rf R], F as [Fx F]. destruct s as [d|c]; cbn [spec_ok] in Rf; [now apply (IH fs)|].
  cbn [concat] in *. rewrite nlen_app in L. apply bytes_ok_app. split; [|apply (IH fs); auto; lia].
  destruct Rf as [CO _]. destruct (CO x Fx) as [Ix Hc]. unfold der_of in *.
  pose proof (tlv_contents_le (id_of (to_codec c) x) (contents_of (to_codec c) x)).
  apply tlv_ok; [assumption | change (2 ^ 64) with usize_limit; lia | apply Hc; lia].
Qed.
Lemma fields_ber_items Ts : forall fs cs v items, fields_rel spec_ok Ts fs cs -> fields_wf Ts cs v -> fields_ber Ts cs v items ->
  nlen (concat items) < usize_limit -> bytes_ok (concat items) /\ ber_items (concat items).
Proof.
  induction Ts as [|T Ts IH]; intros fs cs v items R F B L; cbn [fields_ber] in *.
  { subst. split; constructor. }
  destruct fs as [f fs], cs as [s cs], v as [x v]. cbn [fst snd fields_rel fields_wf] in *.
  destruct R as [Rf R], F as [Fx F]. destruct s as [d|c]; cbn [spec_ok] in Rf; [now apply (IH fs cs v)|].
  destruct B as (b & items' & -> & Bx & B). cbn [concat] in *. rewrite nlen_app in L. destruct Rf as [_ BO].
  destruct (ber_octets_value (to_codec c) x b BO Fx Bx) as (id & l & cc & _ & _ & _ & V & N0 & Hb & _); [lia|].
  destruct (IH fs cs v items' R F B) as [A1 A2]; [lia|]. split; [now apply bytes_ok_app | now constructor].
Qed.
Lemma fields_der_ber Ts : forall fs cs v, fields_rel spec_ok Ts fs cs -> fields_wf Ts cs v -> fields_ber Ts cs v (fields_der Ts cs v).
Proof.
  induction Ts as [|T Ts IH]; intros fs cs v R F; cbn [fields_ber fields_der]; [reflexivity|].
  destruct fs as [f fs], cs as [s cs], v as [x v]. cbn [fst snd fields_rel fields_wf] in *.
  destruct R as [Rf R], F as [Fx F]. destruct s as [d|c]; cbn [spec_ok] in Rf; [now apply (IH fs)|].
  exists (der_of (to_codec c) x), (fields_der Ts cs v). split; [reflexivity|]. split; [|now apply (IH fs)].
  exists (on_id c x), (Definite (nlen (on_contents c x))), (on_contents c x). split; [now apply Rf | reflexivity].
Qed.
Lemma struct_ber_ok ID Ts fs cs : is_identifier ID -> hd 0 ID <> 0 -> fields_rel spec_ok Ts fs cs -> ber_ok (struct_codec ID Ts cs).
Proof.
  intros I H0 R. split.
  - intros v id l c F (-> & items & B & K) L. cbn in F. pose proof (constructed_len _ _ _ K).
    destruct (fields_ber_items Ts fs cs v items R F B) as [A1 A2]; [lia|]. split; [assumption|]. split; [assumption|].
    destruct K; (split; [|eauto]); [assumption|]. apply bytes_ok_app. split; [assumption | repeat constructor; reflexivity].
  - intros v F. cbn in F. split; [reflexivity|]. exists (fields_der Ts cs v). split; [now apply (fields_der_ber Ts fs) | constructor].
Qed.

(** ** What a field reads *)
Lemma with_context_ok {A} k n (r : res A) a : with_context k n r = Ok a <-> r = Ok a.
Proof. destruct r; cbn; split; congruence. Qed.
Lemma answers_context {A} k n (r : res A) : answers r -> answers (with_context k n r).
Proof. intros [[a ->]|[e ->]]; [apply answers_ok | apply answers_err]. Qed.
Lemma try_convert_ok {T} k n (r : T + anyhow) t : try_convert k n r = Ok t <-> r = inl t.
Proof. destruct r as [x|e]; cbn; split; congruence. Qed.
Lemma answers_convert {T} k n (r : T + anyhow) : answers (try_convert k n r).
Proof. destruct r; [apply answers_ok | apply answers_err]. Qed.
Lemma rbind_ok {A B} (r : res A) (k : A -> res B) b : rbind r k = Ok b <-> exists a, r = Ok a /\ k a = Ok b.
Proof. split; [apply rbind_inv|]. intros (a & -> & H). exact H. Qed.

Lemma der_value_iff {T} n (D : deserialize T) bs t rest : bytes_ok bs ->
  (der_value_of n D bs = Ok (t, rest) <->
   exists id c, is_identifier id /\ nlen c < usize_limit /\ bs = tlv id c ++ rest /\ from_der D id c = Ok t).
Proof.
  intros Hok. unfold der_value_of. split.
  - intros H. apply rbind_inv in H as ([v r] & E & H). apply with_context_ok in E.
    apply parsed_der_inv in E as (id & c & Dt & -> & Ds & _ & _ & Hc & -> & Hr); auto.
    rewrite Ds in H. cbn [rbind fst] in H. apply rbind_inv in H as (x & E & H). apply with_context_ok in E.
    injection H as -> ->. exists id, c. split; [apply (der_tlv_id _ _ _ Dt)|]. split; [apply (der_tlv_lt _ _ _ Dt) | auto].
  - intros (id & c & I & L & -> & E). pose proof (tlv_der id c I L) as Dt.
    rewrite (parsed_der id c _ _ Dt Hok). cbn [with_context rmap_err rbind].
    destruct (der_tlv_disassemble _ _ _ Dt) as (_ & _ & _ & ->). cbn [rbind fst]. rewrite E. reflexivity.
Qed.
Definition ber_parts (id : list N) (l : Length) (c : list N) : Prop :=
  ber_value (id ++ length_of l ++ c) /\ is_identifier id /\
  match l with Definite n => n = nlen c /\ nlen c < usize_limit | Indefinite => exists items, ber_items items /\ c = items ++ [0; 0] end.
Lemma ber_parts_disassemble id l c : ber_parts id l c -> disassemble (id ++ length_of l ++ c) = Ok (id, l, c).
Proof.
  intros (V & I & M). destruct l as [|n].
  - destruct M as (items & B & ->). cbn [length_of app]. now destruct (tlv_parts_indefinite id (items ++ [0; 0]) I) as (_ & _ & _ & D).
  - destruct M as [-> L]. cbn [length_of]. pose proof (tlv_der id c I L) as Dt. now destruct (der_tlv_disassemble _ _ _ Dt) as (_ & _ & _ & D).
Qed.
Lemma ber_value_iff {T} n (D : deserialize T) bs t rest : bytes_ok bs ->
  (ber_value_of n D bs = Ok (t, rest) <->
   exists id l c, ber_parts id l c /\ bs = (id ++ length_of l ++ c) ++ rest /\ from_ber D id l c = Ok t).
Proof.
  intros Hok. unfold ber_value_of. split.
  - intros H. apply rbind_inv in H as ([v r] & E & H). apply with_context_ok in E.
    apply parsed_ber_inv in E as (V & -> & Hr & id & l & c & Ds & _ & _ & Hc & I & -> & M); auto.
    rewrite Ds in H. cbn [rbind fst snd] in H. apply rbind_inv in H as (x & E & H). apply with_context_ok in E.
    injection H as -> ->. exists id, l, c. split; [split; [assumption | split; assumption] | auto].
  - intros (id & l & c & P & -> & E). pose proof (proj1 P) as V.
    rewrite (parsed_ber _ _ V Hok). cbn [with_context rmap_err rbind].
    rewrite (ber_parts_disassemble id l c P). cbn [rbind fst snd]. rewrite E. reflexivity.
Qed.
Lemma der_field_skip {T} (f : field T) bs : is_skip_deserializing (f_attr f) = true -> der_field f bs = Ok (default_of f, bs).
Proof. intros H. unfold der_field. now rewrite H, default_eq. Qed.
Lemma ber_field_skip {T} (f : field T) bs : is_skip_deserializing (f_attr f) = true -> ber_field f bs = Ok (default_of f, bs).
Proof. intros H. unfold ber_field. now rewrite H, default_eq. Qed.
Lemma field_de_der {T} (f : field T) id c t :
  from_der (field_de f) id c = Ok t <->
  match a_from (f_attr f) with
  | Some ty => exists u, from_der (sr_de (p_from (n_paths (f_names f)) ty)) id c = Ok u /\ t = sr_conv (p_from (n_paths (f_names f)) ty) u
  | None =>
      match a_try_from (f_attr f) with
      | Some ty => exists u, from_der (ts_de (p_try_from (n_paths (f_names f)) ty)) id c = Ok u /\
                             ts_conv (p_try_from (n_paths (f_names f)) ty) u = inl t
      | None => from_der (n_de (f_names f)) id c = Ok t
      end
  end.
Proof.
  unfold field_de. destruct (a_from (f_attr f)) as [ty|]; [|destruct (a_try_from (f_attr f)) as [ty|]; [|reflexivity]].
  - cbn [from_der do_from_deserialize]. rewrite rbind_ok. split; intros (u & A & B); exists u; split; congruence.
  - cbn [from_der do_try_from_deserialize]. rewrite rbind_ok. split; intros (u & A & B); exists u; (split; [assumption|]); now apply try_convert_ok in B || apply try_convert_ok.
Qed.
Lemma field_de_ber {T} (f : field T) id l c t :
  from_ber (field_de f) id l c = Ok t <->
  match a_from (f_attr f) with
  | Some ty => exists u, from_ber (sr_de (p_from (n_paths (f_names f)) ty)) id l c = Ok u /\ t = sr_conv (p_from (n_paths (f_names f)) ty) u
  | None =>
      match a_try_from (f_attr f) with
      | Some ty => exists u, from_ber (ts_de (p_try_from (n_paths (f_names f)) ty)) id l c = Ok u /\
                             ts_conv (p_try_from (n_paths (f_names f)) ty) u = inl t
      | None => from_ber (n_de (f_names f)) id l c = Ok t
      end
  end.
Proof.
  unfold field_de. destruct (a_from (f_attr f)) as [ty|]; [|destruct (a_try_from (f_attr f)) as [ty|]; [|reflexivity]].
  - cbn [from_ber do_from_deserialize]. rewrite rbind_ok. split; intros (u & A & B); exists u; split; congruence.
  - cbn [from_ber do_try_from_deserialize]. rewrite rbind_ok. split; intros (u & A & B); exists u; (split; [assumption|]); now apply try_convert_ok in B || apply try_convert_ok.
Qed.
Lemma der_field_iff {T} (f : field T) bs t rest : bytes_ok bs -> is_skip_deserializing (f_attr f) = false ->
  (der_field f bs = Ok (t, rest) <->
   exists id c, is_identifier id /\ nlen c < usize_limit /\ bs = tlv id c ++ rest /\ from_der (field_de f) id c = Ok t).
Proof.
  intros Hok NS. unfold der_field. rewrite NS. setoid_rewrite field_de_der.
  destruct (a_from (f_attr f)) as [ty|]; [|destruct (a_try_from (f_attr f)) as [ty|]; [|now apply der_value_iff]].
  - rewrite rbind_ok. split.
    + intros ([u r] & A & [= <- <-]). apply der_value_iff in A as (id & c & I & L & Eb & F); [|assumption]. exists id, c. eauto 6.
    + intros (id & c & I & L & Eb & u & F & ->). exists (u, rest). split; [|reflexivity]. apply der_value_iff; [assumption|]. eauto 6.
  - rewrite rbind_ok. split.
    + intros ([u r] & A & B). apply rbind_inv in B as (x & B & [= -> <-]). apply try_convert_ok in B.
      apply der_value_iff in A as (id & c & I & L & Eb & F); [|assumption]. exists id, c. eauto 7.
    + intros (id & c & I & L & Eb & u & F & G). exists (u, rest). split; [apply der_value_iff; [assumption|]; eauto 6|].
      rewrite G. reflexivity.
Qed.
Lemma ber_field_iff {T} (f : field T) bs t rest : bytes_ok bs -> is_skip_deserializing (f_attr f) = false ->
  (ber_field f bs = Ok (t, rest) <->
   exists id l c, ber_parts id l c /\ bs = (id ++ length_of l ++ c) ++ rest /\ from_ber (field_de f) id l c = Ok t).
Proof.
  intros Hok NS. unfold ber_field. rewrite NS. setoid_rewrite field_de_ber.
  destruct (a_from (f_attr f)) as [ty|]; [|destruct (a_try_from (f_attr f)) as [ty|]; [|now apply ber_value_iff]].
  - rewrite rbind_ok. split.
    + intros ([u r] & A & [= <- <-]). apply ber_value_iff in A as (id & l & c & P & Eb & F); [|assumption]. exists id, l, c. eauto 6.
    + intros (id & l & c & P & Eb & u & F & ->). exists (u, rest). split; [|reflexivity]. apply ber_value_iff; [assumption|]. eauto 6.
  - rewrite rbind_ok. split.
    + intros ([u r] & A & B). apply rbind_inv in B as (x & B & [= -> <-]). apply try_convert_ok in B.
      apply ber_value_iff in A as (id & l & c & P & Eb & F); [|assumption]. exists id, l, c. eauto 7.
    + intros (id & l & c & P & Eb & u & F & G). exists (u, rest). split; [apply ber_value_iff; [assumption|]; eauto 6|].
      rewrite G. reflexivity.
Qed.
Lemma der_value_answers {T} n (D : deserialize T) bs : bytes_ok bs -> (forall id c, bytes_ok c -> answers (from_der D id c)) ->
  answers (der_value_of n D bs).
Proof.
  intros Hok A. unfold der_value_of. apply answers_bind; [now apply answers_context, parsed_der_answers|].
  intros [v r] E. apply with_context_ok in E. apply parsed_der_inv in E as (id & c & Dt & _ & Ds & _ & _ & Hc & _); auto.
  rewrite Ds. cbn [rbind fst]. apply answers_bind; [apply answers_context; auto|]. intros. apply answers_ok.
Qed.
Lemma ber_value_answers E {T} n (D : deserialize T) bs : settled E bs -> ber_answers E D -> answers (ber_value_of n D bs).
Proof.
  intros Hs A. unfold ber_value_of. apply answers_bind; [now apply answers_context, parsed_ber_answers, Hs|].
  intros [v r] Er. apply with_context_ok in Er. apply (settled_step E) in Er as (_ & id & l & c & Ds & _ & _ & _ & _ & _ & An); auto.
  rewrite Ds. cbn [rbind fst snd]. apply answers_bind; [apply answers_context; auto|]. intros. apply answers_ok.
Qed.
Lemma answers_unbind {A B} (r : res A) (k : A -> res B) : answers (rbind r k) -> answers r \/ exists a, r = Ok a.
Proof. intros [[b H]|[e H]]; destruct r; cbn in H; try discriminate; [left; apply answers_ok | left; apply answers_ok | left; apply answers_err]. Qed.
Lemma answers_source {A B} (r : res A) (k : A -> res B) : answers (rbind r k) -> answers r.
Proof. intros H. destruct (answers_unbind r k H) as [|[a ->]]; [assumption | apply answers_ok]. Qed.
Lemma der_field_answers {T} (f : field T) bs : bytes_ok bs -> der_answering T f -> answers (der_field f bs).
Proof.
  intros Hok A. unfold der_field. destruct (is_skip_deserializing (f_attr f)) eqn:NS; [apply answers_ok|].
  specialize (A NS). unfold field_de in A. destruct (a_from (f_attr f)) as [ty|].
  - apply answers_bind; [|intros [u r] _; apply answers_ok]. apply der_value_answers; [assumption|].
    intros id c Hc. specialize (A id c Hc). cbn [from_der do_from_deserialize] in A. now apply answers_source in A.
  - destruct (a_try_from (f_attr f)) as [ty|]; [|now apply der_value_answers].
    apply answers_bind; [|intros [u r] _; apply answers_bind; [apply answers_convert | intros; apply answers_ok]].
    apply der_value_answers; [assumption|].
    intros id c Hc. specialize (A id c Hc). cbn [from_der do_try_from_deserialize] in A. now apply answers_source in A.
Qed.
Lemma ber_field_answers E {T} (f : field T) bs : settled E bs -> ber_answering E T f -> answers (ber_field f bs).
Proof.
  intros Hok A. unfold ber_field. destruct (is_skip_deserializing (f_attr f)) eqn:NS; [apply answers_ok|].
  specialize (A NS). unfold field_de in A. destruct (a_from (f_attr f)) as [ty|].
  - apply answers_bind; [|intros [u r] _; apply answers_ok]. apply (ber_value_answers E); [assumption|].
    intros id l c Hc R. specialize (A id l c Hc R). cbn [from_ber do_from_deserialize] in A. now apply answers_source in A.
  - destruct (a_try_from (f_attr f)) as [ty|]; [|now apply (ber_value_answers E)].
    apply answers_bind; [|intros [u r] _; apply answers_bind; [apply answers_convert | intros; apply answers_ok]].
    apply (ber_value_answers E); [assumption|].
    intros id l c Hc R. specialize (A id l c Hc R). cbn [from_ber do_try_from_deserialize] in A. now apply answers_source in A.
Qed.

(** ** What a struct reads *)
Lemma construct_der_iff Ts : forall fs bs v rest, bytes_ok bs ->
  (construct (@der_field) Ts fs bs = Ok (v, rest) <-> exists pre, bs = pre ++ rest /\ der_fields Ts fs pre v).
Proof.
  induction Ts as [|T Ts IH]; intros fs bs v rest Hok; cbn [construct der_fields].
  { destruct v. split; [intros [= <-]; exists []; auto | intros (pre & -> & ->); reflexivity]. }
  destruct fs as [f fs], v as [x v]. cbn [fst snd]. rewrite rbind_ok. split.
  - intros ([t r] & A & B). apply rbind_inv in B as ([ts r'] & B & [= <- <- <-]).
    destruct (is_skip_deserializing (f_attr f)) eqn:NS.
    + rewrite der_field_skip in A by assumption. injection A as <- <-. apply IH in B as (pre & -> & F); [|assumption].
      exists pre. split; [reflexivity|]. left. split; [now apply skips_de_iff | auto].
    + apply der_field_iff in A as (id & c & I & L & -> & G); [|assumption|assumption]. apply bytes_ok_app in Hok as [_ Hr].
      apply IH in B as (pre & -> & F); [|assumption]. exists (tlv id c ++ pre). split; [apply app_assoc|]. right.
      split; [now apply not_skips_de|]. exists id, c, pre. auto 6.
  - intros (pre & -> & [(SK & -> & F)|(NS & id & c & r & I & L & -> & G & F)]).
    + apply skips_de_iff in SK. exists (default_of f, pre ++ rest). split; [now apply der_field_skip|].
      rewrite (proj2 (IH fs (pre ++ rest) v rest Hok)); [reflexivity | eauto].
    + apply not_skips_de in NS. rewrite <- app_assoc in *. exists (x, r ++ rest). split.
      * apply der_field_iff; [assumption | assumption|]. exists id, c. auto.
      * apply bytes_ok_app in Hok as [_ Hr]. rewrite (proj2 (IH fs (r ++ rest) v rest Hr)); [reflexivity | eauto].
Qed.
Lemma construct_ber_iff Ts : forall fs bs v rest, bytes_ok bs ->
  (construct (@ber_field) Ts fs bs = Ok (v, rest) <-> exists pre, bs = pre ++ rest /\ ber_fields Ts fs pre v).
Proof.
  induction Ts as [|T Ts IH]; intros fs bs v rest Hok; cbn [construct ber_fields].
  { destruct v. split; [intros [= <-]; exists []; auto | intros (pre & -> & ->); reflexivity]. }
  destruct fs as [f fs], v as [x v]. cbn [fst snd]. rewrite rbind_ok. split.
  - intros ([t r] & A & B). apply rbind_inv in B as ([ts r'] & B & [= <- <- <-]).
    destruct (is_skip_deserializing (f_attr f)) eqn:NS.
    + rewrite ber_field_skip in A by assumption. injection A as <- <-. apply IH in B as (pre & -> & F); [|assumption].
      exists pre. split; [reflexivity|]. left. split; [now apply skips_de_iff | auto].
    + apply ber_field_iff in A as (id & l & c & (P1 & P2 & P3) & -> & G); [|assumption|assumption]. apply bytes_ok_app in Hok as [_ Hr].
      apply IH in B as (pre & -> & F); [|assumption]. exists ((id ++ length_of l ++ c) ++ pre). split; [apply app_assoc|]. right.
      split; [now apply not_skips_de|]. exists id, l, c, pre. auto 7.
  - intros (pre & -> & [(SK & -> & F)|(NS & id & l & c & r & P1 & P2 & P3 & -> & G & F)]).
    + apply skips_de_iff in SK. exists (default_of f, pre ++ rest). split; [now apply ber_field_skip|].
      rewrite (proj2 (IH fs (pre ++ rest) v rest Hok)); [reflexivity | eauto].
    + apply not_skips_de in NS. rewrite <- app_assoc in *. exists (x, r ++ rest). split.
      * apply ber_field_iff; [assumption | assumption|]. exists id, l, c. split; [split; [assumption | split; assumption] | auto].
      * apply bytes_ok_app in Hok as [_ Hr]. rewrite (proj2 (IH fs (r ++ rest) v rest Hr)); [reflexivity | eauto].
Qed.
Lemma all_read_ok {A} (r : res (A * list N)) v : all_read r = Ok v <-> r = Ok (v, []).
Proof.
  unfold all_read. rewrite rbind_ok. split.
  - intros ([a bs] & -> & H). destruct (N.eqb_spec (nlen bs) 0) as [Z|]; [|discriminate]. injection H as ->.
    destruct bs; [reflexivity | rewrite nlen_cons in Z; lia].
  - intros ->. exists (v, []). split; reflexivity.
Qed.
Lemma all_read_extra {A} (v : A) bs : bs <> [] -> all_read (Ok (v, bs)) = Err ExtraContentsOctet.
Proof.
  intros H. unfold all_read. cbn [rbind]. destruct (N.eqb_spec (nlen bs) 0) as [Z|]; [|reflexivity].
  destruct bs; [congruence | rewrite nlen_cons in Z; lia].
Qed.
Lemma from_der_contents_iff Ts (dc : data_container Ts) c v : bytes_ok c ->
  (from_der_contents dc c = Ok v <-> der_fields Ts (dc_fields dc) c v).
Proof.
  intros Hok. unfold from_der_contents. rewrite all_read_ok, construct_der_iff by assumption. split.
  - intros (pre & -> & F). now rewrite app_nil_r.
  - intros F. exists c. now rewrite app_nil_r.
Qed.
Lemma from_der_contents_extra Ts (dc : data_container Ts) c x v : bytes_ok (c ++ x) -> x <> [] -> der_fields Ts (dc_fields dc) c v ->
  from_der_contents dc (c ++ x) = Err ExtraContentsOctet.
Proof.
  intros Hok N0 F. unfold from_der_contents. rewrite (proj2 (construct_der_iff Ts (dc_fields dc) (c ++ x) v x Hok)) by eauto.
  now apply all_read_extra.
Qed.
Lemma from_ber_contents_eq E Ts (dc : data_container Ts) l c :
  from_ber_contents E dc l c = let! bs := exclude_eoc E l c in all_read (construct (@ber_field) Ts (dc_fields dc) bs).
Proof. reflexivity. Qed.
Lemma construct_answers (rd : forall T, field T -> list N -> res (T * list N)) (P : forall T, field T -> Prop) (Q : list N -> Prop) :
  (forall T f bs, Q bs -> P T f -> answers (rd T f bs)) ->
  (forall T f bs t rest, Q bs -> rd T f bs = Ok (t, rest) -> Q rest) ->
  forall Ts fs bs, Q bs -> each_field P Ts fs -> answers (construct rd Ts fs bs).
Proof.
  intros A O Ts. induction Ts as [|T Ts IH]; intros fs bs Hok F; cbn [construct]; [apply answers_ok|].
  destruct F as [Ff F]. apply answers_bind; [now apply A|]. intros [t r] Er.
  apply answers_bind; [apply IH; [now apply (O _ _ _ _ _ Hok Er) | assumption] | intros [ts r'] _; apply answers_ok].
Qed.
Lemma der_field_rest {T} (f : field T) bs t rest : bytes_ok bs -> der_field f bs = Ok (t, rest) -> bytes_ok rest.
Proof.
  intros Hok H. destruct (is_skip_deserializing (f_attr f)) eqn:NS.
  - rewrite der_field_skip in H by assumption. now injection H as _ <-.
  - apply der_field_iff in H as (id & c & _ & _ & -> & _); auto. now apply bytes_ok_app in Hok.
Qed.
Lemma ber_field_rest E {T} (f : field T) bs t rest : settled E bs -> ber_field f bs = Ok (t, rest) -> settled E rest.
Proof.
  intros Hs H. destruct (is_skip_deserializing (f_attr f)) eqn:NS.
  - rewrite ber_field_skip in H by assumption. now injection H as _ <-.
  - apply ber_field_iff in H as (id & l & c & P & -> & _); auto; [|apply Hs].
    apply (settled_step E _ (id ++ length_of l ++ c) rest Hs). apply parsed_ber; [apply P | apply Hs].
Qed.
Lemma answers_all_read {A} (r : res (A * list N)) : answers r -> answers (all_read r).
Proof. intros H. apply answers_bind; [assumption|]. intros [a bs] _. apply answers_if; [apply answers_ok | apply answers_err]. Qed.
Lemma from_der_contents_answers Ts (dc : data_container Ts) c : bytes_ok c -> each_field der_answering Ts (dc_fields dc) ->
  answers (from_der_contents dc c).
Proof.
  intros Hok F. apply answers_all_read. apply (construct_answers (@der_field) der_answering bytes_ok); auto.
  - intros. now apply der_field_answers.
  - intros. eapply der_field_rest; eassumption.
Qed.
Lemma from_ber_contents_answers E Ts (dc : data_container Ts) l c : bytes_ok c -> e_debug E = false \/ l = Definite (nlen c) /\ quiet c ->
  each_field (ber_answering E) Ts (dc_fields dc) -> answers (from_ber_contents E dc l c).
Proof.
  intros Hok R F. rewrite from_ber_contents_eq. destruct (exclude_eoc_answers E l c Hok R) as [AE OE].
  apply answers_bind; [assumption|]. intros bs Eb. apply answers_all_read.
  apply (construct_answers (@ber_field) (ber_answering E) (settled E)); auto.
  - intros. now apply (ber_field_answers E).
  - intros. eapply ber_field_rest; eassumption.
Qed.

(** ** Reading back *)
Lemma fields_read_der Ts : forall fs cs v, fields_rel spec_ok Ts fs cs -> fields_rel de_as Ts fs cs -> fields_wf Ts cs v ->
  nlen (concat (fields_der Ts cs v)) < usize_limit ->
  exists v', der_fields Ts fs (concat (fields_der Ts cs v)) v' /\ fields_wf Ts cs v' /\ fields_same Ts cs v v'.
Proof.
  induction Ts as [|T Ts IH]; intros fs cs v O R F L; cbn [der_fields fields_wf fields_same fields_der concat]; [now exists tt|].
  destruct fs as [f fs], cs as [s cs], v as [x v]. cbn [fst snd fields_rel fields_wf fields_der] in *.
  destruct O as [Of O], R as [Rf R], F as [Fx F]. destruct s as [d|c]; cbn [de_as spec_ok] in Rf, Of.
  - destruct Rf as [SK <-]. destruct (IH fs cs v O R F L) as (v' & A & W & S). exists (default_of f, v'). cbn [fst snd].
    split; [left; split; [now apply skips_de_iff | auto] | auto].
  - destruct Rf as (NS & DL & _), Of as [CO _]. cbn [concat] in *. rewrite nlen_app in L. unfold der_of in *.
    pose proof (tlv_contents_le (on_id c x) (on_contents c x)). cbn [id_of contents_of to_codec] in *.
    destruct (DL x Fx) as (x' & Ex & Wx & Sx); [cbn; lia|].
    destruct (IH fs cs v O R F) as (v' & A & W & S); [lia|]. exists (x', v'). cbn [fst snd].
    split; [|auto]. right. split; [now apply not_skips_de|]. exists (on_id c x), (on_contents c x), (concat (fields_der Ts cs v)).
    split; [now apply (CO x Fx)|]. split; [lia | auto].
Qed.
Lemma fields_read_ber Ts : forall fs cs v items, fields_rel spec_ok Ts fs cs -> fields_rel de_as Ts fs cs -> fields_wf Ts cs v ->
  fields_ber Ts cs v items -> nlen (concat items) < usize_limit ->
  exists v', ber_fields Ts fs (concat items) v' /\ fields_wf Ts cs v' /\ fields_same Ts cs v v'.
Proof.
  induction Ts as [|T Ts IH]; intros fs cs v items O R F B L; cbn [ber_fields fields_wf fields_same fields_ber concat] in *; [subst; now exists tt|].
  destruct fs as [f fs], cs as [s cs], v as [x v]. cbn [fst snd fields_rel] in *.
  destruct O as [Of O], R as [Rf R], F as [Fx F]. destruct s as [d|c]; cbn [de_as spec_ok] in Rf, Of.
  - destruct Rf as [SK <-]. destruct (IH fs cs v items O R F B L) as (v' & A & W & S). exists (default_of f, v'). cbn [fst snd].
    split; [left; split; [now apply skips_de_iff | auto] | auto].
  - destruct Rf as (NS & _ & BL), Of as [_ BO]. destruct B as (b & items' & -> & Bx & B). cbn [concat] in *. rewrite nlen_app in L.
    destruct (ber_octets_value (to_codec c) x b BO Fx Bx) as (id & l & cc & Bo & -> & Lc & V & N0 & Hb & Ds & _); [lia|].
    destruct (BL x id l cc Fx Bo Lc) as (x' & Ex & Wx & Sx). destruct (proj1 BO x id l cc Fx Bo Lc) as (I & _ & _ & M).
    destruct (IH fs cs v items' O R F B) as (v' & A & W & S); [lia|]. exists (x', v'). cbn [fst snd].
    split; [|auto]. right. split; [now apply not_skips_de|]. exists id, l, cc, (concat items').
    repeat (split; [assumption|]). split; [|auto]. destruct l; [assumption | auto].
Qed.

(** ** The Deserialize of a struct *)
Definition de_struct (E : env) {Ts} (dc : data_container Ts) : deserialize (tuple Ts) :=
  {| from_ber := fun id length contents =>
       if negb (bytes_eqb id (id_slice (dc_attr dc))) then Err UnmatchedId else from_ber_contents E dc length contents;
     from_der := fun id contents =>
       if negb (bytes_eqb id (id_slice (dc_attr dc))) then Err UnmatchedId else from_der_contents dc contents |}.
Lemma de_struct_der_iff E Ts (dc : data_container Ts) id c v : bytes_ok c ->
  (from_der (de_struct E dc) id c = Ok v <-> id = id_slice (dc_attr dc) /\ der_fields Ts (dc_fields dc) c v).
Proof.
  intros Hok. cbn [from_der de_struct]. destruct (bytes_eqb id (id_slice (dc_attr dc))) eqn:Ei; cbn [negb].
  - apply bytes_eqb_eq in Ei. rewrite from_der_contents_iff by assumption. intuition.
  - split; [discriminate|]. intros [-> _]. now rewrite bytes_eqb_refl in Ei.
Qed.
Lemma de_struct_ber_iff E Ts (dc : data_container Ts) id l c v : bytes_ok c ->
  (from_ber (de_struct E dc) id l c = Ok v <->
   id = id_slice (dc_attr dc) /\ exists bs, exclude_eoc E l c = Ok bs /\ ber_fields Ts (dc_fields dc) bs v).
Proof.
  intros Hok. cbn [from_ber de_struct]. destruct (bytes_eqb id (id_slice (dc_attr dc))) eqn:Ei; cbn [negb].
  - apply bytes_eqb_eq in Ei. rewrite from_ber_contents_eq, rbind_ok. split.
    + intros (bs & A & B). split; [assumption|]. exists bs. split; [assumption|].
      assert (bytes_ok bs) as Hb.
      { destruct l as [|n]; cbn [exclude_eoc] in A; [destruct (ends_with c EOC); [injection A as <-; now apply bytes_ok_take | discriminate]|].
        apply rbind_inv in A as ([] & _ & [= <-]). assumption. }
      apply all_read_ok, construct_ber_iff in B as (pre & -> & F); [|assumption]. now rewrite app_nil_r.
    + intros (_ & bs & A & B). exists bs. split; [assumption|]. apply all_read_ok.
      assert (bytes_ok bs) as Hb.
      { destruct l as [|n]; cbn [exclude_eoc] in A; [destruct (ends_with c EOC); [injection A as <-; now apply bytes_ok_take | discriminate]|].
        apply rbind_inv in A as ([] & _ & [= <-]). assumption. }
      apply construct_ber_iff; [assumption|]. exists bs. now rewrite app_nil_r.
  - split; [discriminate|]. intros [-> _]. now rewrite bytes_eqb_refl in Ei.
Qed.
Lemma fields_canonical Ts : forall fs cs c v, bytes_ok c -> nlen c < usize_limit -> fields_rel canonical_as Ts fs cs ->
  der_fields Ts fs c v -> fields_wf Ts cs v /\ c = concat (fields_der Ts cs v).
Proof.
  induction Ts as [|T Ts IH]; intros fs cs c v Hc L R F; cbn [der_fields fields_wf fields_der] in *; [auto|].
  destruct fs as [f fs], cs as [s cs], v as [x v]. cbn [fst snd fields_rel] in *. destruct R as [Rf R].
  destruct F as [(SK & -> & F)|(NS & id & cc & rest & Ii & Lc & -> & G & F)].
  - apply skips_de_iff in SK. destruct s as [d|c0]; cbn [canonical_as] in Rf; [|destruct Rf; congruence].
    destruct (IH fs cs c v Hc L R F). auto.
  - apply not_skips_de in NS. destruct s as [d|c0]; cbn [canonical_as] in Rf; [congruence|]. destruct Rf as [_ CC].
    apply bytes_ok_app in Hc as [Ht Hr]. rewrite nlen_app in L.
    destruct (CC id cc x) as (W & -> & ->); [|assumption|assumption|].
    { pose proof (tlv_der id cc Ii Lc) as Dt. now apply (der_tlv_ok _ _ _ Dt). }
    destruct (IH fs cs rest v Hr) as [W' ->]; auto; lia.
Qed.
Section StructDe.
Context (E : env) {Ts : list Type} (dc : data_container Ts) (cs : hlist field_spec Ts).
Let C := struct_codec (id_slice (dc_attr dc)) Ts cs.
Hypothesis I : is_identifier (id_slice (dc_attr dc)).
Hypothesis O : fields_rel spec_ok Ts (dc_fields dc) cs.
Lemma struct_de_law : fields_rel de_as Ts (dc_fields dc) cs -> de_law C (de_struct E dc).
Proof using I O.
  intros R v F L. cbn in F, L. destruct (fields_read_der Ts (dc_fields dc) cs v O R F L) as (v' & A & W & S).
  exists v'. split; [|auto]. apply de_struct_der_iff; [|now split].
  now apply (struct_codec_ok (id_slice (dc_attr dc)) Ts (dc_fields dc) cs I O v F).
Qed.
Lemma struct_ber_law : hd 0 (id_slice (dc_attr dc)) <> 0 -> fields_rel de_as Ts (dc_fields dc) cs -> ber_law C (de_struct E dc).
Proof using I O.
  intros H0 R v id l c F B L. pose proof (proj1 (struct_ber_ok _ Ts (dc_fields dc) cs I H0 O) v id l c F B L) as (_ & _ & Hc & _).
  destruct B as (-> & items & B & K). cbn in F. pose proof (constructed_len _ _ _ K).
  destruct (fields_read_ber Ts (dc_fields dc) cs v items O R F B) as (v' & A & W & S); [lia|].
  exists v'. split; [|auto]. apply de_struct_ber_iff; [assumption|]. split; [reflexivity|].
  exists (concat items). split; [|assumption]. now apply exclude_eoc_ok.
Qed.
Lemma struct_der_answers : each_field der_answering Ts (dc_fields dc) -> der_answers (de_struct E dc).
Proof using. intros F id c Hc. cbn [from_der de_struct]. apply answers_if; [apply answers_err | now apply from_der_contents_answers]. Qed.
Lemma struct_ber_answers : each_field (ber_answering E) Ts (dc_fields dc) -> ber_answers E (de_struct E dc).
Proof using. intros F id l c Hc R. cbn [from_ber de_struct]. apply answers_if; [apply answers_err | now apply from_ber_contents_answers]. Qed.
Lemma struct_canonical : fields_rel canonical_as Ts (dc_fields dc) cs -> canonical C (de_struct E dc).
Proof using.
  intros R id c v Hc L H. apply de_struct_der_iff in H as [-> F]; [|assumption].
  destruct (fields_canonical Ts (dc_fields dc) cs c v Hc L R F). cbn. auto.
Qed.
End StructDe.
