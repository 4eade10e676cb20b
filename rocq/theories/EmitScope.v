(** Proofs about the names in the emitted code. *)
From Coq Require Import String Ascii.
From Verif Require Import Base ModelError ModelIo ModelTag ModelContents ModelBuf ModelTlv ModelSerde ModelAttr ModelDerive ModelRust ModelEmit SpecEmit EmitProofs EmitDe.
Local Open Scope string_scope.
Local Open Scope N_scope.

Section Scope.
Context (P : program) (is_path : string -> bool).
Lemma not_exists_flat {A} (types : list string) (f : A -> list use) l :
  ~ Exists (taken P types) (flat_map f l) <-> Forall (fun a => ~ Exists (taken P types) (f a)) l.
Proof.
  induction l as [|a l IH]; cbn [flat_map]; [split; [constructor|intros _ H; inversion H]|].
  rewrite Exists_app, Forall_cons_iff, <- IH. tauto.
Qed.
Lemma not_exists_app types l1 l2 :
  ~ Exists (taken P types) (l1 ++ l2) <-> ~ Exists (taken P types) l1 /\ ~ Exists (taken P types) l2.
Proof. rewrite Exists_app. tauto. Qed.
Lemma not_exists_one types u : ~ Exists (taken P types) [u] <-> ~ taken P types u.
Proof. split; intros H X; apply H; [now constructor|]. inversion_clear X as [? ? Y|? ? Y]; [assumption|inversion Y]. Qed.
Lemma not_exists_nil types : ~ Exists (taken P types) [].
Proof. intros H. inversion H. Qed.
Lemma one_of_same xs ys path : (forall x, In x xs <-> In x ys) -> one_of P xs path <-> one_of P ys path.
Proof. intros H. split; intros (x & E & Hx); exists x; split; auto; now apply H. Qed.

(** What the code for a field takes. *)
Definition converted_uses (scope : list string) (a : attribute) : list use :=
  match a_into a, a_to a with
  | Some ty, _ => [Written ty]
  | None, Some path => [Called path scope]
  | None, None => []
  end.
Definition field_uses (scope : list string) (a : attribute) : list use :=
  if is_skip_serializing a then [] else converted_uses scope a.
Definition plain_var (e : expr) : Prop := forall scope, uses scope e = [].
Lemma write_fields_uses scope : forall vas, Forall (fun va => plain_var (fst va)) vas ->
  uses scope (emit_write_fields vas (XPath "buffer")) = flat_map (fun va => field_uses scope (snd va)) vas.
Proof.
  induction vas as [|[e a] vas IH]; intros F; [reflexivity|]. inversion_clear F as [|? ? F1 F2]. cbn [fst] in F1.
  cbn [emit_write_fields flat_map snd]. unfold field_uses at 1. destruct (is_skip_serializing a); [now apply IH|].
  cbn [uses]. rewrite IH by assumption. f_equal. unfold converted_uses.
  destruct (a_into a); [|destruct (a_to a)]; cbn [uses type_use app]; rewrite F1; reflexivity.
Qed.
Lemma field_acc_uses scope : forall vas, Forall (fun va => plain_var (fst va)) vas -> uses scope (emit_field_acc vas) = [].
Proof.
  induction vas as [|[e a] vas IH]; intros F; [reflexivity|]. inversion_clear F as [|? ? F1 F2]. cbn [fst] in F1.
  cbn [emit_field_acc]. destruct (is_skip_serializing a); [now apply IH|].
  cbn [uses type_use app]. rewrite !F1, IH by assumption. reflexivity.
Qed.
Lemma plain_combine es (attrs : list attribute) : Forall plain_var es -> Forall (fun va => plain_var (fst va)) (combine es attrs).
Proof.
  rewrite !Forall_forall. intros H [e a] Hi. apply in_combine_l in Hi. now apply H.
Qed.
Lemma flat_map_combine {B} (f : attribute -> list B) : forall (es : list expr) attrs, length es = length attrs ->
  flat_map (fun va => f (snd va)) (combine es attrs) = flat_map f attrs.
Proof.
  induction es as [|e es IH]; intros [|a attrs] H; try discriminate; [reflexivity|]. cbn. f_equal. apply IH. now injection H.
Qed.
Lemma converted_free scope variables a : (forall x, In x scope <-> In x variables) ->
  ~ Exists (taken P ["W"]) (converted_uses scope a) <->
  match a_into a, a_to a with
  | Some ty, _ => ~ one_of P ["W"] ty
  | None, Some path => ~ one_of P variables path
  | None, None => True
  end.
Proof.
  intros H. unfold converted_uses. destruct (a_into a); [|destruct (a_to a)].
  - apply not_exists_one.
  - rewrite not_exists_one. cbn [taken]. now rewrite (one_of_same scope variables).
  - split; [trivial|]. intros _. apply not_exists_nil.
Qed.
Lemma field_free scope variables a : (forall x, In x scope <-> In x variables) ->
  ~ Exists (taken P ["W"]) (field_uses scope a) <-> ser_free P variables a.
Proof.
  intros H. unfold field_uses, ser_free. destruct (is_skip_serializing a).
  - split; [discriminate|]. intros _. apply not_exists_nil.
  - rewrite (converted_free scope variables a H). split; [intros H2 _; exact H2|intros H2; exact (H2 eq_refl)].
Qed.
Lemma parse_fields_hold Q : forall ms attrs, parse_fields is_path (map snd ms) = Some attrs ->
  (Forall (fun m : string * sfield => attrs_hold is_path Q (sf_attrs (snd m))) ms <-> Forall Q attrs).
Proof.
  induction ms as [|[m f] ms IH]; intros attrs H; cbn [map parse_fields snd] in H.
  { injection H as <-. split; constructor. }
  destruct (Attribute_try_from is_path (sf_attrs f)) as [a|] eqn:Ea; [|discriminate].
  destruct (negb _); [discriminate|]. destruct (parse_fields is_path (map snd ms)) as [rest|]; [|discriminate].
  injection H as <-. rewrite !Forall_cons_iff, (IH rest eq_refl). cbn [snd].
  assert (H2 : attrs_hold is_path Q (sf_attrs f) <-> Q a); [|tauto].
  unfold attrs_hold. rewrite Ea. split; [intros H; now apply H|]. intros H a' [= <-]. assumption.
Qed.
Lemma parse_fields_length : forall ms attrs, parse_fields is_path (map snd ms) = Some attrs ->
  length attrs = length (ms : list (string * sfield)).
Proof.
  induction ms as [|[m f] ms IH]; intros attrs H; cbn [map parse_fields snd] in H; [now injection H as <-|].
  destruct (Attribute_try_from is_path (sf_attrs f)) as [a|] eqn:Ea; [|discriminate].
  destruct (negb _); [discriminate|]. destruct (parse_fields is_path (map snd ms)) as [rest|]; [|discriminate].
  injection H as <-. cbn. f_equal. now apply IH.
Qed.
Lemma self_fields_plain l : Forall plain_var (map XSelfField l).
Proof. rewrite Forall_forall. intros e He. apply in_map_iff in He. destruct He as (m & <- & _). now intros scope. Qed.
Lemma paths_plain l : Forall plain_var (map XPath l).
Proof. rewrite Forall_forall. intros e He. apply in_map_iff in He. destruct He as (m & <- & _). now intros scope. Qed.
Lemma filter_free variables : forall es attrs e b, length es = length attrs ->
  filter (fun va : expr * attribute => negb (is_skip_serializing (snd va))) (combine es attrs) = [(e, b)] ->
  (Forall (ser_free P variables) attrs <-> ser_free P variables b) /\ is_skip_serializing b = false /\ In e es.
Proof.
  induction es as [|e0 es IH]; intros [|a attrs] e b Hl Hf; try discriminate. cbn [combine filter snd] in Hf.
  rewrite Forall_cons_iff. destruct (is_skip_serializing a) eqn:Es; cbn [negb] in Hf.
  - destruct (IH attrs e b ltac:(now injection Hl) Hf) as (H1 & H2 & H3). rewrite H1.
    assert (ser_free P variables a) by (intros H; congruence). split; [tauto|]. split; [assumption|now right].
  - injection Hf as -> -> Hf. split; [|split; [assumption|now left]].
    assert (F : Forall (ser_free P variables) attrs); [|tauto].
    rewrite Forall_forall. intros a' Ha Hs. exfalso.
    assert (Hx : exists e', In (e', a') (combine es attrs)).
    { clear - Hl Ha. injection Hl as Hl. revert attrs Hl Ha. induction es as [|e1 es IH]; intros [|a0 attrs] Hl Ha; try discriminate; [inversion Ha|].
      destruct Ha as [->|Ha]; [exists e1; now left|]. destruct (IH attrs ltac:(now injection Hl) Ha) as [e' He]. exists e'. now right. }
    destruct Hx as [e' Hx].
    assert (Hin : In (e', a') (filter (fun va : expr * attribute => negb (is_skip_serializing (snd va))) (combine es attrs))).
    { apply filter_In. split; [assumption|]. cbn. now rewrite Hs. }
    rewrite Hf in Hin. inversion Hin.
Qed.
Lemma transparent_free variables a : is_skip_serializing a = false ->
  ser_free P variables a <->
  match a_into a, a_to a with
  | Some ty, _ => ~ one_of P ["W"] ty
  | None, Some path => ~ one_of P variables path
  | None, None => True
  end.
Proof. intros H. unfold ser_free. rewrite H. split; [intros H2; exact (H2 eq_refl)|intros H2 _; exact H2]. Qed.
Lemma ser_scope x : In x ["buffer"; "self"] <-> In x ser_variables.
Proof. unfold ser_variables. cbn [In]. tauto. Qed.
Lemma captures_struct a name fs code : emit_serialize_struct is_path a name fs = Some code ->
  fields_hold is_path (ser_free P ser_variables) fs <-> ~ captures_ser P code.
Proof.
  intros Hc. unfold emit_serialize_struct in Hc. rewrite emit_struct_inv in Hc.
  destruct (sanitize_as_struct a); [|discriminate]. cbn [negb] in Hc.
  destruct (parse_fields is_path (map snd (members fs))) as [attrs|] eqn:Ep; [|discriminate].
  unfold fields_hold. rewrite (parse_fields_hold _ _ _ Ep). pose proof (parse_fields_length _ _ Ep) as Hl.
  set (es := map XSelfField (map fst (members fs))).
  assert (Hle : length es = length attrs) by (unfold es; rewrite !map_length; auto).
  cbn [c_attribute] in Hc. unfold captures_ser, captures. destruct (a_transparent a) eqn:Et.
  - unfold emit_write_id_transparent, emit_id_len_transparent, emit_der_contents_len_transparent, emit_write_der_contents_transparent in Hc.
    pose proof (transparent_field_struct a name fs attrs) as Etf. fold es in Etf.
    destruct (filter _ (combine es attrs)) as [|[e b] [|]] eqn:Ef; rewrite Etf in Hc; try discriminate Hc.
    destruct (filter_free ser_variables es attrs e b Hle Ef) as (H1 & H2 & H3). rewrite H1, transparent_free by assumption.
    rewrite <- (converted_free ["buffer"; "self"] ser_variables b ser_scope). unfold converted_uses, converts in *.
    assert (Pe : plain_var e) by (pose proof (self_fields_plain (map fst (members fs))) as F; rewrite Forall_forall in F; now apply F).
    destruct (a_into b); [|destruct (a_to b)]; cbn [is_some orb] in Hc; injection Hc as <-;
      cbn [code_write_id code_write_der_contents code_id_len code_der_contents_len uses type_use app]; rewrite !Pe;
      cbn [app]; pose proof (not_exists_nil ["W"]); pose proof (not_exists_nil []); tauto.
  - unfold emit_der_contents_len, emit_write_der_contents, field_vars in Hc. cbn [c_name c_field_attributes] in Hc.
    rewrite field_idents_members in Hc. cbn [c_fields] in Hc. fold es in Hc.
    assert (Hu : uses ["buffer"; "self"] (emit_write_fields (combine es attrs) (XPath "buffer")) =
                 flat_map (field_uses ["buffer"; "self"]) attrs).
    { rewrite write_fields_uses by (apply plain_combine, self_fields_plain). now apply flat_map_combine. }
    assert (Hf : Forall (ser_free P ser_variables) attrs <->
                 ~ Exists (taken P ["W"]) (flat_map (field_uses ["buffer"; "self"]) attrs)).
    { rewrite not_exists_flat, !Forall_forall. split; intros H a0 Ha; apply (field_free _ _ a0 ser_scope); now apply H. }
    rewrite Hf. pose proof (not_exists_nil ["W"]) as X1. pose proof (not_exists_nil []) as X2.
    destruct (existsb converts attrs); injection Hc as <-;
      cbn [code_write_id code_write_der_contents code_id_len code_der_contents_len uses type_use app emit_write_id emit_id_len];
      rewrite Hu, ?field_acc_uses by (apply plain_combine, self_fields_plain); tauto.
Qed.

(** Enums *)
Lemma containers_variants name : forall vs cs, containers is_path name vs = Some cs ->
  Forall2 (fun w c => is_variant c /\ c_fields c = sv_fields w /\
     parse_fields is_path (map snd (members (sv_fields w))) = Some (c_field_attributes c)) vs cs.
Proof.
  unfold containers. induction vs as [|w vs IH]; intros cs H; cbn [map all_some] in H; [injection H as <-; constructor|].
  unfold container_of_variant at 1 in H. destruct (Attribute_try_from is_path (sv_attrs w)) as [a|]; [|discriminate].
  destruct (negb _); [discriminate|]. rewrite fields_iter_members in H.
  destruct (parse_fields is_path (map snd (members (sv_fields w)))) as [attrs|] eqn:Ep; [|discriminate].
  destruct (all_some (map (container_of_variant is_path name) vs)) as [cs'|]; [|discriminate]. injection H as <-.
  constructor; [|now apply IH]. cbn. split; [eexists _, _; reflexivity|auto].
Qed.
Lemma variant_scope ms x : In x (map snd (combine (map fst (ms : list (string * sfield)))
    (map (fun m => (field_prefix ++ "_" ++ m)%string) (map fst ms))) ++ ["buffer"; "self"])%list <->
  In x (variant_variables (map fst ms)).
Proof.
  unfold variant_variables, ser_variables.
  replace (map snd (combine (map fst ms) (map (fun m => field_prefix ++ "_" ++ m) (map fst ms))))
    with (map (fun m => "bsn1_macro_field_1701146321_" ++ m) (map fst ms)).
  - rewrite !in_app_iff. cbn [In]. tauto.
  - induction ms as [|m ms IH]; [reflexivity|]. cbn [map combine snd]. rewrite <- IH. now rewrite prefix_text.
Qed.
Lemma captures_enum a name vs code : emit_serialize_enum is_path a name vs = Some code ->
  Forall (fun v => fields_hold is_path (ser_free P (variant_variables (map fst (members (sv_fields v))))) (sv_fields v)) vs <->
  ~ captures_ser P code.
Proof.
  intros Hc. pose proof Hc as Hc0. unfold emit_serialize_enum in Hc0.
  destruct (sanitize_as_enum a) eqn:Sa; [|discriminate]. cbn [negb] in Hc0.
  destruct (containers is_path name vs) as [cs|] eqn:Ec; [|discriminate]. clear Hc0.
  pose proof (containers_variants name vs cs Ec) as F2.
  assert (Fc : Forall (fun c => is_variant c /\ no_raw (c_fields c)) cs).
  { assert (Hv : forall c, In c cs -> is_variant c).
    { clear - F2. induction F2 as [|? ? ? ? [H _]]; [intros c []|]. intros c [->|Hi]; auto. }
    rewrite Forall_forall. intros c Hi. split; [auto|].
    unfold no_raw. rewrite Forall_forall. intros m Hm Hr.
    rewrite (enum_code_raw is_path name a vs cs Ec) in Hc; [discriminate|]. apply Exists_exists. exists c. split; [assumption|].
    split; [auto|]. unfold no_raw. rewrite Forall_forall. intros H. apply (H m Hm Hr). }
  rewrite (enum_code_ok is_path name a vs cs Sa Ec Fc) in Hc. injection Hc as <-.
  unfold captures_ser, captures, enum_code.
  cbn [code_write_id code_write_der_contents code_id_len code_der_contents_len].
  assert (K : forall types scope body, (forall c sc, In c cs -> uses sc (body c) = []) ->
     ~ Exists (taken P types) (uses scope (XMatchSelf (map (fun c => (arm_of_container c, body c)) cs)))).
  { intros types scope body Hb. cbn [uses]. rewrite not_exists_flat, Forall_forall. intros arm Ha.
    apply in_map_iff in Ha. destruct Ha as (c & <- & Hi). cbn [snd]. rewrite Hb by assumption. apply not_exists_nil. }
  pose proof (K ["W"] ["buffer"; "self"] (fun c => emit_write_id c (XPath "buffer")) ltac:(reflexivity)) as K1.
  pose proof (K [] ["self"] emit_id_len ltac:(reflexivity)) as K2.
  assert (K3 : ~ Exists (taken P []) (uses ["self"] (XMatchSelf (map (fun c => (arm_of_container c, len_of c)) cs)))).
  { apply K. intros c sc _. unfold len_of. destruct (existsb converts _); [reflexivity|]. cbn [uses type_use app].
    apply field_acc_uses, plain_combine, paths_plain. }
  assert (K4 : Forall (fun v => fields_hold is_path (ser_free P (variant_variables (map fst (members (sv_fields v))))) (sv_fields v)) vs <->
     ~ Exists (taken P ["W"]) (uses ["buffer"; "self"] (XMatchSelf (map (fun c => (arm_of_container c, contents_of c)) cs)))).
  2:{ rewrite K4. tauto. }
  clear - F2. cbn [uses]. rewrite not_exists_flat. induction F2 as [|w c vs cs (Hv & Hf & Hp) _ IH]; [split; constructor|].
  cbn [map]. rewrite !Forall_cons_iff, IH. cbn [fst snd arm_of_container].
  assert (H : fields_hold is_path (ser_free P (variant_variables (map fst (members (sv_fields w))))) (sv_fields w) <->
     ~ Exists (taken P ["W"])
       (uses (map snd (combine (map fst (members (c_fields c))) (map (fun m => (field_prefix ++ "_" ++ m)%string) (map fst (members (c_fields c))))) ++
              ["buffer"; "self"])%list (contents_of c))); [|tauto].
  unfold fields_hold. rewrite (parse_fields_hold _ _ _ Hp). unfold contents_of, vars_of.
  rewrite write_fields_uses by apply plain_combine, paths_plain.
  rewrite flat_map_combine by (rewrite !map_length, Hf, (parse_fields_length _ _ Hp); reflexivity).
  rewrite Hf, not_exists_flat, !Forall_forall.
  split; intros H a0 Ha; apply (field_free _ _ a0 (variant_scope (members (sv_fields w)))); now apply H.
Qed.
Theorem captures_serialize attrs name d code : emit_serialize is_path attrs name d = Some code ->
  ser_hygienic P is_path attrs d <-> ~ captures_ser P code.
Proof.
  intros Hc. unfold emit_serialize in Hc. unfold ser_hygienic, attrs_hold.
  destruct (Attribute_try_from is_path attrs) as [a|]; [|discriminate].
  assert (Q : forall Q : attribute -> Prop, (forall a', Some a = Some a' -> Q a') <-> Q a).
  { intros Q. split; [intros H; now apply H|]. intros H a' [= <-]. assumption. }
  rewrite Q. destruct (negb _); [discriminate|].
  pose proof (not_exists_nil ["W"]) as X1. pose proof (not_exists_nil []) as X2.
  destruct (a_into a) as [ty|].
  { injection Hc as <-. unfold captures_ser, captures. cbn. rewrite <- (not_exists_one ["W"] (Written ty)). tauto. }
  destruct (a_to a) as [f|].
  { injection Hc as <-. unfold captures_ser, captures. cbn. rewrite <- (one_of_same _ _ f ser_scope).
    pose proof (not_exists_one ["W"] (Called f ["buffer"; "self"])) as X. cbn [taken] in X. tauto. }
  destruct d as [fs|vs|u]; [| |discriminate].
  - eapply captures_struct; eassumption.
  - eapply captures_enum; eassumption.
Qed.

(** Deserialize *)
Lemma types_not_taken (ty : option string) : ~ Exists (taken P []) (type_use ty).
Proof.
  destruct ty as [ty|]; cbn [type_use]; [|apply not_exists_nil]. rewrite not_exists_one. intros (x & _ & H). inversion H.
Qed.
Definition plain_val (tmp_val : string -> expr) : Prop := forall text, plain_var (tmp_val text).
Lemma field_de_free tmp_val scope text a : plain_val tmp_val ->
  ~ Exists (taken P []) (uses scope (emit_field tmp_val text a)) <-> de_free P scope a.
Proof.
  intros Hp. unfold emit_field, de_free. destruct (is_skip_deserializing a).
  { cbn [uses]. rewrite not_exists_one. cbn [taken]. split; [intros H _; exact H|intros H; exact (H eq_refl)]. }
  split; [discriminate|]. intros _. destruct (a_from a) as [ty|]; [|destruct (a_try_from a) as [ty|]]; cbn [uses]; rewrite Hp, ?app_nil_r.
  - apply types_not_taken.
  - apply types_not_taken.
  - apply not_exists_nil.
Qed.
Lemma de_free_same xs ys a : (forall x, In x xs <-> In x ys) -> de_free P xs a <-> de_free P ys a.
Proof. intros H. unfold de_free. now rewrite (one_of_same xs ys). Qed.
Lemma de_free_incl xs ys a : incl xs ys -> de_free P ys a -> de_free P xs a.
Proof. intros H F Hs X. apply (F Hs). eapply one_of_incl; eauto. Qed.
Lemma constructor_free tmp_val scope c : plain_val tmp_val -> length (c_field_attributes c) = length (members (c_fields c)) ->
  ~ Exists (taken P []) (uses scope (emit_constructor tmp_val c)) <-> Forall (de_free P scope) (c_field_attributes c).
Proof.
  intros Hp Hl.
  assert (H : Forall (fun e => ~ Exists (taken P []) (uses scope e)) (emit_fields tmp_val c) <->
              Forall (de_free P scope) (c_field_attributes c)).
  { unfold emit_fields. rewrite field_idents_members. revert Hl. generalize (members (c_fields c)) as ms.
    induction (c_field_attributes c) as [|a attrs IH]; intros [|m ms] Hl; try discriminate; [split; constructor|].
    cbn [map combine fst snd]. rewrite !Forall_cons_iff. rewrite (IH ms) by now injection Hl.
    rewrite field_de_free by assumption. tauto. }
  rewrite <- H. unfold emit_constructor.
  assert (Hle : length (field_idents c) = length (emit_fields tmp_val c)).
  { unfold emit_fields. rewrite map_length, combine_length, field_idents_members, map_length. lia. }
  destruct (c_fields c) as [fs|fs|] eqn:Ef; cbn [uses].
  - rewrite not_exists_flat. revert Hle. generalize (field_idents c) as ns. generalize (emit_fields tmp_val c) as es. clear.
    induction es as [|e es IH]; intros [|n ns] Hl; try discriminate; [split; constructor|].
    cbn [combine]. rewrite !Forall_cons_iff. cbn [snd]. rewrite (IH ns) by now injection Hl. tauto.
  - now rewrite not_exists_flat.
  - cbn [members length] in Hl. unfold emit_fields. destruct (c_field_attributes c); [|discriminate].
    cbn. split; [constructor|]. intros _. apply not_exists_nil.
Qed.
Lemma ber_val_plain : plain_val emit_ber_val. Proof. intros text scope. reflexivity. Qed.
Lemma der_val_plain : plain_val emit_der_val. Proof. intros text scope. reflexivity. Qed.
Lemma all_read_uses scope tmp_val c :
  uses scope (emit_all_read c tmp_val) = uses (contents_bytes :: scope) (emit_constructor tmp_val c).
Proof. unfold emit_all_read. cbn [uses type_use app]. now rewrite app_nil_r. Qed.
Lemma from_ber_uses scope c :
  uses scope (emit_from_ber_contents c (XPath "length") (XPath "contents")) =
  uses (contents_bytes :: contents_bytes :: scope) (emit_constructor emit_ber_val c).
Proof. unfold emit_from_ber_contents. cbn [uses type_use app]. now rewrite all_read_uses. Qed.
Lemma from_der_uses scope c :
  uses scope (emit_from_der_contents c (XPath "contents")) =
  uses (contents_bytes :: contents_bytes :: scope) (emit_constructor emit_der_val c).
Proof. unfold emit_from_der_contents. cbn [uses type_use app]. now rewrite all_read_uses. Qed.
Definition container_free (c : container) : Prop := Forall (de_free P de_variables_fields) (c_field_attributes c).
Lemma ber_contents_free c : length (c_field_attributes c) = length (members (c_fields c)) ->
  ~ Exists (taken P []) (uses ["contents"; "length"; "id"] (emit_from_ber_contents c (XPath "length") (XPath "contents"))) <->
  container_free c.
Proof.
  intros Hl. rewrite from_ber_uses, constructor_free by (assumption || apply ber_val_plain). unfold container_free.
  assert (Hs : forall x, In x (contents_bytes :: contents_bytes :: ["contents"; "length"; "id"]) <-> In x de_variables_fields).
  { intros x. unfold de_variables_fields, de_variables, contents_bytes. cbn [In]. tauto. }
  rewrite !Forall_forall. split; intros H a Ha; apply (de_free_same _ _ a Hs); now apply H.
Qed.
Lemma der_contents_free c : length (c_field_attributes c) = length (members (c_fields c)) -> container_free c ->
  ~ Exists (taken P []) (uses ["contents"; "id"] (emit_from_der_contents c (XPath "contents"))).
Proof.
  intros Hl F. rewrite from_der_uses, constructor_free by (assumption || apply der_val_plain).
  eapply Forall_impl; [|exact F]. intros a Ha. eapply de_free_incl; [|exact Ha].
  intros x. unfold de_variables_fields, de_variables, contents_bytes. cbn [In]. tauto.
Qed.
Lemma captures_de_struct a name fs code : emit_deserialize_struct is_path a name fs = Some code ->
  fields_hold is_path (de_free P (if a_transparent a then de_variables else de_variables_fields)) fs <-> ~ captures_de P code.
Proof.
  intros Hc. unfold emit_deserialize_struct in Hc. rewrite emit_struct_inv in Hc.
  destruct (sanitize_as_struct a); [|discriminate]. cbn [negb] in Hc.
  destruct (parse_fields is_path (map snd (members fs))) as [attrs|] eqn:Ep; [|discriminate].
  unfold fields_hold. rewrite (parse_fields_hold _ _ _ Ep). pose proof (parse_fields_length _ _ Ep) as Hl.
  cbn [c_attribute] in Hc. unfold captures_de, captures.
  set (c := {| c_name := CStruct name; c_attribute := a; c_field_attributes := attrs; c_fields := fs |}) in *.
  destruct (a_transparent a) eqn:Et.
  - unfold emit_from_ber_transparent, emit_from_der_transparent, emit_transparent in Hc. cbn [c c_field_attributes] in Hc. fold c in Hc.
    destruct (_ =? 1); [|discriminate]. injection Hc as <-. cbn [code_from_ber code_from_der uses].
    set (fb := fun text : string => XTry (XMapErr (MField 1 text) _)).
    set (fd := fun text : string => XTry (XMapErr (MField 3 text) _)).
    pose proof (constructor_free fb ["contents"; "length"; "id"] c ltac:(intros text scope; reflexivity) Hl) as H1.
    pose proof (constructor_free fd ["contents"; "id"] c ltac:(intros text scope; reflexivity) Hl) as H2.
    cbn [c c_field_attributes] in H1, H2. fold c in H1, H2.
    assert (H3 : Forall (de_free P de_variables) attrs <-> Forall (de_free P ["contents"; "length"; "id"]) attrs).
    { rewrite !Forall_forall. split; intros H b Hb; (eapply de_free_incl; [|exact (H b Hb)]);
        intros x; unfold de_variables; cbn [In]; tauto. }
    assert (H4 : Forall (de_free P de_variables) attrs -> Forall (de_free P ["contents"; "id"]) attrs).
    { intros H. eapply Forall_impl; [|exact H]. intros b Hb. eapply de_free_incl; [|exact Hb].
      intros x; unfold de_variables; cbn [In]; tauto. }
    tauto.
  - injection Hc as <-. cbn [code_from_ber code_from_der uses app].
    change (Forall (de_free P de_variables_fields) attrs) with (container_free c). rewrite <- (ber_contents_free c Hl).
    pose proof (der_contents_free c Hl) as Hd. rewrite <- (ber_contents_free c Hl) in Hd. tauto.
Qed.
Lemma dispatch_free types scope from : forall cs, 
  ~ Exists (taken P types) (uses scope (emit_dispatch from cs)) <->
  Forall (fun c => ~ Exists (taken P types) (uses scope (from c))) cs.
Proof.
  induction cs as [|c cs IH]; cbn [emit_dispatch uses app]; [split; [constructor|intros _; apply not_exists_nil]|].
  now rewrite not_exists_app, Forall_cons_iff, IH.
Qed.
Lemma captures_de_enum a name vs code : emit_deserialize_enum is_path a name vs = Some code ->
  Forall (fun v => fields_hold is_path (de_free P de_variables_fields) (sv_fields v)) vs <-> ~ captures_de P code.
Proof.
  intros Hc. unfold emit_deserialize_enum in Hc.
  destruct (sanitize_as_enum a) eqn:Sa; [|discriminate]. cbn [negb] in Hc.
  destruct (containers is_path name vs) as [cs|] eqn:Ec; [|discriminate]. injection Hc as <-.
  pose proof (containers_variants name vs cs Ec) as F2.
  unfold captures_de, captures. cbn [code_from_ber code_from_der].
  assert (K : Forall (fun v => fields_hold is_path (de_free P de_variables_fields) (sv_fields v)) vs <-> Forall container_free cs).
  { clear - F2. induction F2 as [|w c vs cs (_ & Hf & Hp) _ IH]; [split; constructor|]. rewrite !Forall_cons_iff, IH.
    unfold fields_hold. rewrite (parse_fields_hold _ _ _ Hp). unfold container_free. tauto. }
  assert (L : forall c, In c cs -> length (c_field_attributes c) = length (members (c_fields c))).
  { clear - F2. induction F2 as [|w c vs cs (_ & Hf & Hp) _ IH]; [intros c []|]. intros c' [<-|Hi]; [|auto].
    rewrite Hf. eapply parse_fields_length; exact Hp. }
  pose proof (dispatch_free [] ["contents"; "length"; "id"]
                (fun c => emit_from_ber_contents c (XPath "length") (XPath "contents")) cs) as H1.
  pose proof (dispatch_free [] ["contents"; "id"] (fun c => emit_from_der_contents c (XPath "contents")) cs) as H2.
  rewrite K. rewrite Forall_forall in *. split.
  - intros H [X|X]; revert X; [apply H1|apply H2]; intros c Hi.
    + apply ber_contents_free; auto.
    + apply der_contents_free; auto.
  - intros H c Hi. apply ber_contents_free; [auto|]. apply H1; [|assumption]. tauto.
Qed.
Theorem captures_deserialize attrs name d code : emit_deserialize is_path attrs name d = Some code ->
  de_hygienic P is_path attrs d <-> ~ captures_de P code.
Proof.
  intros Hc. unfold emit_deserialize in Hc. unfold de_hygienic, attrs_hold.
  destruct (Attribute_try_from is_path attrs) as [a|]; [|discriminate].
  assert (Q : forall Q : attribute -> Prop, (forall a', Some a = Some a' -> Q a') <-> Q a).
  { intros Q. split; [intros H; now apply H|]. intros H a' [= <-]. assumption. }
  rewrite Q. destruct (negb _); [discriminate|].
  assert (X : forall ty, ~ Exists (taken P []) (type_use (Some ty) ++ [] ++ [])).
  { intros ty. rewrite app_nil_r. apply types_not_taken. }
  destruct (a_from a) as [ty|].
  { injection Hc as <-. unfold captures_de, captures. pose proof (X ty) as Y. cbn in *. tauto. }
  destruct (a_try_from a) as [f|].
  { injection Hc as <-. unfold captures_de, captures. pose proof (X f) as Y. cbn in *. tauto. }
  destruct d as [fs|vs|u]; [| |discriminate].
  - eapply captures_de_struct; eassumption.
  - eapply captures_de_enum; eassumption.
Qed.
End Scope.
