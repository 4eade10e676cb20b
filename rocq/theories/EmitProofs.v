(** Proofs about the code the derive macros emit. *)
From Coq Require Import String Ascii DecimalString DecimalNat.
From Verif Require Import Base ModelError ModelIo ModelTag ModelContents ModelBuf ModelTlv ModelSerde ModelAttr ModelDerive ModelRust ModelEmit SpecEmit.
Local Open Scope string_scope.
Local Open Scope N_scope.

(** ** Declarations *)
Section Decl.
Context (P : program) (is_path : string -> bool).

(** The fields with their attributes parsed. *)
Fixpoint matches (c : cname) (ms : list (string * sfield)) : hlist field (types_of P ms) -> list attribute -> Prop :=
  match ms with
  | [] => fun _ attrs => attrs = []
  | (m, f) :: ms' => fun fs attrs =>
      exists a attrs', attrs = a :: attrs' /\
        fst fs = {| f_attr := a; f_names := names_of P (sf_ty f) (text_of c ++ "." ++ m) |} /\
        Attribute_try_from is_path (sf_attrs f) = Some a /\
        matches c ms' (snd fs) attrs'
  end.
Lemma parse_fields_ok c ms :
  match parse_fields is_path (map snd ms) with
  | Some attrs => exists fs, try_fields is_path (types_of P ms) (decls_of P c ms) = Some fs /\ matches c ms fs attrs
  | None => try_fields is_path (types_of P ms) (decls_of P c ms) = None
  end.
Proof.
  induction ms as [|[m f] ms IH]; cbn; [exists tt; auto|].
  destruct (Attribute_try_from is_path (sf_attrs f)) as [a|] eqn:Ea; [|reflexivity].
  destruct (sanitize_as_field a); cbn; [|reflexivity]. fold (types_of P ms).
  destruct (parse_fields is_path (map snd ms)) as [attrs|] eqn:Ef.
  - destruct IH as (fs & E1 & M). rewrite E1. eexists. split; [reflexivity|].
    exists a, attrs. repeat split; auto.
  - rewrite IH. reflexivity.
Qed.
Lemma matches_attributes c ms : forall fs attrs, matches c ms fs attrs -> field_attributes (types_of P ms) fs = attrs.
Proof.
  induction ms as [|[m f] ms IH]; intros fs attrs M; [cbn in *; auto|].
  destruct fs as [f0 fs]. destruct M as (a & attrs' & -> & E1 & _ & M). cbn in E1. subst f0. cbn. f_equal. apply IH, M.
Qed.
Lemma matches_length c ms : forall fs attrs, matches c ms fs attrs -> length attrs = length ms.
Proof.
  induction ms as [|[m f] ms IH]; cbn; intros fs attrs M; [subst; auto|].
  destruct M as (a & attrs' & -> & E1 & _ & M). cbn. f_equal. eauto.
Qed.
End Decl.

Lemma numbered_snd {A} (l : list A) : forall i, map snd (numbered i l) = l.
Proof. induction l; cbn; intros; f_equal; auto. Qed.
Lemma fields_iter_members fs : fields_iter fs = map snd (members fs).
Proof. destruct fs; cbn; auto. now rewrite numbered_snd. Qed.
Lemma field_idents_members c : field_idents c = map fst (members (c_fields c)).
Proof. unfold field_idents. destruct (c_fields c); reflexivity. Qed.
Lemma to_uint_nonnil i : Nat.to_uint i <> Decimal.Nil.
Proof.
  intros E1. pose proof (DecimalNat.Unsigned.of_to i) as H. rewrite E1 in H. cbn in H. subst i. discriminate.
Qed.
Lemma index_text_inj i j : index_text i = index_text j -> i = j.
Proof.
  unfold index_text. intros E1.
  assert (E2 : NilZero.uint_of_string (NilZero.string_of_uint (Nat.to_uint i)) =
               NilZero.uint_of_string (NilZero.string_of_uint (Nat.to_uint j))) by now rewrite E1.
  rewrite !NilZero.usu in E2.
  - injection E2 as E2. now apply DecimalNat.Unsigned.to_uint_inj in E2.
  - apply to_uint_nonnil.
  - apply to_uint_nonnil.
Qed.
Lemma numbered_not_in {A} (l : list A) : forall i j, (j < i)%nat -> ~ In (index_text j) (map fst (numbered i l)).
Proof.
  induction l as [|a l IH]; cbn; intros i j Hj; [auto|]. intros [E1|H1].
  - apply index_text_inj in E1. lia.
  - apply (IH (S i) j); [lia|assumption].
Qed.
Lemma numbered_NoDup {A} (l : list A) : forall i, NoDup (map fst (numbered i l)).
Proof.
  induction l as [|a l IH]; cbn; intros i; constructor; auto.
  apply numbered_not_in. lia.
Qed.

(** ** Serialize *)
Lemma prefix_text m : field_prefix ++ "_" ++ m = "bsn1_macro_field_1701146321_" ++ m.
Proof. reflexivity. Qed.
Section Ser.
Context (P : program) (E : env) {T : Type} (ST : self_type P T) {S : Type} (W : writer S) (types : list string).
Notation run := (eval P T E ST types W).
Notation vs := (vars P T).

(** Expressions for a field, in any scope that has not taken the names. *)
Definition reads (en : vs) (e : expr) (d : dyn P) : Prop :=
  match e with
  | XSelfField m => exists v, local P T "self" en = Some (VSelfRef v) /\ assoc m (snd (st_open P T ST v)) = Some d
  | XPath x => local P T x en = Some (VRef d) /\ exists m, x = "bsn1_macro_field_1701146321_" ++ m
  | _ => False
  end.
Lemma reads_eval en e d ex s : reads en e d -> run e ex en s = Next (VRef d) en s.
Proof.
  destruct e; cbn [reads]; try tauto.
  - intros [H _]. cbn [eval]. now rewrite H.
  - intros (v & H1 & H2). cbn [eval]. now rewrite H1, H2.
Qed.
Definition internal (y : string) : Prop := y <> "self" /\ y <> "buffer" /\ forall m, y <> "bsn1_macro_field_1701146321_" ++ m.
Lemma local_cons x y w (en : vs) : x <> y -> local P T x ((y, w) :: en) = local P T x en.
Proof. intros H. cbn [local]. destruct (String.eqb_spec x y); [contradiction|reflexivity]. Qed.
Lemma local_same x w (en : vs) : local P T x ((x, w) :: en) = Some w.
Proof. cbn [local]. now rewrite String.eqb_refl. Qed.
Lemma reads_cons y w en e d : internal y -> reads en e d -> reads ((y, w) :: en) e d.
Proof.
  intros (H1 & _ & H2). destruct e; cbn [reads]; try tauto.
  - intros [H3 (m & ->)]. split; [|eauto]. rewrite local_cons; [assumption|]. intros H4. apply (H2 m). auto.
  - intros (v & H3 & H4). exists v. split; [|assumption]. rewrite local_cons; [assumption|]. auto.
Qed.
Ltac internal := unfold internal; cbn; repeat split; try intros m; discriminate.
Lemma buffer_cons y w en : internal y -> local P T "buffer" en = Some VBuffer -> local P T "buffer" ((y, w) :: en) = Some VBuffer.
Proof. intros (_ & H & _) Hb. rewrite local_cons; auto. Qed.

(** The expressions of fields with the fields and their values. *)
Fixpoint linked (en : vs) (ms : list (string * sfield)) : tuple (types_of P ms) -> list expr -> Prop :=
  match ms with
  | [] => fun _ es => es = []
  | (m, f) :: ms' => fun v es =>
      exists e es', es = e :: es' /\ reads en e (existT _ (sf_ty f) (fst v)) /\ linked en ms' (snd v) es'
  end.
Lemma linked_cons y w en : internal y -> forall ms v es, linked en ms v es -> linked ((y, w) :: en) ms v es.
Proof.
  intros Hy. induction ms as [|[m f] ms IH]; cbn [linked]; intros v es L; [assumption|].
  destruct L as (e & es' & -> & R & L). exists e, es'. repeat split; auto using reads_cons.
Qed.

Definition wout (r : res unit * S) (en : vs) : out P T S :=
  match r with
  | (Ok _, s) => Next (VOk VUnit) en s
  | (Err e, s) => Return (VErr e) s
  | (Panic, s) => Fault Panic s
  | (NoFuel, s) => Fault NoFuel s
  end.
Lemma finish_wout r en : finish P T (as_unit P T) (wout r en) = Some r.
Proof. destruct r as [[[]| | |] s]; reflexivity. Qed.
Lemma finish_returned (r : res unit * S) en : finish P T (as_unit P T) (returned P T (fun _ => VUnit) r en) = Some r.
Proof. destruct r as [[[]| | |] s]; reflexivity. Qed.

(** The names in the attribute of a field mean what the user meant. *)
Definition uncaptured (en : vs) (a : attribute) : Prop :=
  is_skip_serializing a = false ->
  match a_into a, a_to a with
  | Some ty, _ => is_param P types ty = false
  | None, Some path => is_local P T path en = false
  | None, None => True
  end.

Lemma write_fields_eval c is_path en : local P T "buffer" en = Some VBuffer ->
  forall ms fs attrs v es s, matches P is_path c ms fs attrs -> linked en ms v es -> Forall (uncaptured en) attrs ->
  forall ex,
  run (emit_write_fields (combine es attrs) (XPath "buffer")) ex en s = wout (write_fields E W (types_of P ms) fs v s) en.
Proof.
  intros Hb. induction ms as [|[m f] ms IH]; intros fs attrs v es s M L F ex.
  { cbn in M, L. subst. reflexivity. }
  destruct fs as [f0 fs], v as [v0 v]. destruct M as (a & attrs' & -> & E1 & _ & M). cbn in E1. subst f0.
  destruct L as (e & es' & -> & R & L). cbn [fst snd] in *.
  inversion_clear F as [|? ? Ua F']. specialize (IH fs attrs' v es').
  cbn [combine emit_write_fields write_fields types_of map snd fst f_attr f_names].
  fold (types_of P ms). destruct (is_skip_serializing a) eqn:Sk; [apply IH; auto|].
  specialize (Ua Sk).
  assert (If : internal field_ref) by internal.
  destruct (a_into a) as [ty|] eqn:Ei; [|destruct (a_to a) as [path|] eqn:Et].
  - cbn [eval annotated obind leave]. rewrite Ua. cbn [obind].
    rewrite (reads_eval _ _ _ _ _ R). cbn [obind leave]. rewrite local_same. cbn [obind leave].
    rewrite local_same. cbn [obind leave].
    rewrite !buffer_cons by auto. cbn [obind projT1 projT2]. unfold wbind.
    cbn [n_paths names_of p_into tg_ser tg_conv].
    destruct (write_der _ _ _ _ _) as [[]]; cbn; auto.
  - cbn [eval annotated obind leave]. rewrite Ua. cbn [obind].
    rewrite (reads_eval _ _ _ _ _ R). cbn [obind leave]. rewrite local_same. cbn [obind leave].
    rewrite local_same. cbn [obind leave].
    rewrite !buffer_cons by auto. cbn [obind projT1 projT2]. unfold wbind.
    cbn [n_paths names_of p_to tg_ser tg_conv].
    destruct (write_der _ _ _ _ _) as [[]]; cbn; auto.
  - cbn [eval annotated obind leave].
    rewrite (reads_eval _ _ _ _ _ R). cbn [obind leave]. rewrite local_same. cbn [obind leave].
    rewrite !buffer_cons by auto. cbn [obind projT1 projT2]. unfold wbind.
    cbn [n_ser names_of].
    destruct (write_der _ _ _ _ _) as [[]]; cbn; auto.
Qed.

(** Lengths. *)
Definition lout (r : res (option N)) (en : vs) (s : S) : out P T S :=
  match r with
  | Ok (Some n) => Next (VOk (VSome (VNum n))) ((len_ret, VNum n) :: en) s
  | Ok None => Return (VOk VNone) s
  | Err e => Return (VErr e) s
  | Panic => Fault Panic s
  | NoFuel => Fault NoFuel s
  end.
Lemma fields_len_eval c is_path en :
  forall ms fs attrs v es s n, matches P is_path c ms fs attrs -> linked en ms v es ->
  forall ex,
  run (emit_field_acc (combine es attrs)) ex ((len_ret, VNum n) :: en) s = lout (fields_len (types_of P ms) fs n v) en s.
Proof.
  induction ms as [|[m f] ms IH]; intros fs attrs v es s n M L ex.
  { cbn in M, L. subst. reflexivity. }
  destruct fs as [f0 fs], v as [v0 v]. destruct M as (a & attrs' & -> & E1 & _ & M). cbn in E1. subst f0.
  destruct L as (e & es' & -> & R & L). cbn [fst snd] in *.
  specialize (IH fs attrs' v es').
  cbn [combine emit_field_acc fields_len types_of map snd fst f_attr f_names].
  fold (types_of P ms). destruct (is_skip_serializing a) eqn:Sk; [apply IH; auto|].
  assert (I1 : internal len_ret) by internal. assert (I2 : internal len_contents) by internal.
  assert (I3 : internal len_id) by internal. assert (I4 : internal len_length) by internal.
  assert (R1 : reads ((len_ret, VNum n) :: en) e (existT _ (sf_ty f) v0)) by auto using reads_cons.
  cbn [eval obind].
  rewrite (reads_eval _ _ _ _ _ R1). cbn [rbind obind projT1 projT2 n_ser names_of returned].
  destruct (der_contents_len _ _) as [[cl|]| | |]; cbn [rbind obind returned leave]; try reflexivity.
  assert (R2 : reads ((len_contents, VNum cl) :: (len_ret, VNum n) :: en) e (existT _ (sf_ty f) v0))
    by auto using reads_cons.
  rewrite (reads_eval _ _ _ _ _ R2). cbn [rbind obind projT1 projT2 n_ser names_of returned].
  destruct (id_len _ _) as [[il|]| | |]; cbn [rbind obind returned leave annotated]; try reflexivity.
  rewrite (local_cons len_contents) by discriminate. rewrite local_same. cbn [obind leave rbind].
  rewrite (local_cons len_id) by discriminate. rewrite local_same. cbn [obind leave rbind].
  rewrite local_same. cbn [obind leave rbind]. unfold add_usize. cbn [rbind].
  destruct (il + Length_len (Definite cl) <? usize_limit); cbn [obind leave rbind]; [|reflexivity].
  rewrite (local_cons len_contents) by discriminate. rewrite (local_cons len_contents) by discriminate.
  rewrite local_same. cbn [obind leave rbind].
  destruct (il + Length_len (Definite cl) + cl <? usize_limit); cbn [obind leave rbind]; [|reflexivity].
  rewrite (local_cons len_ret) by discriminate. rewrite (local_cons len_ret) by discriminate.
  rewrite (local_cons len_ret) by discriminate. rewrite local_same.
  replace (level P T len_ret _) with (Some (length en)) by reflexivity.
  destruct (n + (il + Length_len (Definite cl) + cl) <? usize_limit); cbn [obind leave rbind]; [|reflexivity].
  cbn [set_level length]. rewrite Nat.eqb_refl.
  replace (Nat.eqb (length en) (Datatypes.S (Datatypes.S (Datatypes.S (length en))))) with false
    by (symmetry; apply Nat.eqb_neq; lia).
  replace (Nat.eqb (length en) (Datatypes.S (Datatypes.S (length en)))) with false
    by (symmetry; apply Nat.eqb_neq; lia).
  replace (Nat.eqb (length en) (Datatypes.S (length en))) with false
    by (symmetry; apply Nat.eqb_neq; lia).
  cbn [skipn]. apply IH; auto.
Qed.
Lemma finish_lout r en (s : S) : finish P T (as_len P T) (leave P T 1 (lout r en s)) = Some (r, s).
Proof. destruct r as [[]| | |]; reflexivity. Qed.
Lemma finish_len (r : res (option N)) en (s : S) :
  finish P T (as_len P T)
    (returned P T (fun o => match o with Some n => VSome (VNum n) | None => VNone end) (r, s) en) = Some (r, s).
Proof. destruct r as [[]| | |]; reflexivity. Qed.

(** The field of a transparent struct. *)
Definition acts (en : vs) {A : Type} (v : A) (ea : expr * attribute) (D : serialize A) : Prop :=
  exists c (t : den P c) text,
    reads en (fst ea) (existT _ c t) /\
    let f := {| f_attr := snd ea; f_names := names_of P c text |} in
    (forall S' (W' : writer S'), write_id D W' v = write_id (ser_field f) W' t) /\
    (forall S' (W' : writer S'), write_der_contents D W' v = write_der_contents (ser_field f) W' t) /\
    id_len D v = id_len (ser_field f) t /\
    der_contents_len D v = der_contents_len (ser_field f) t.
Lemma transparent_acts c is_path en : forall ms fs attrs v es, matches P is_path c ms fs attrs -> linked en ms v es ->
  Forall2 (acts en v) (filter (fun va => negb (is_skip_serializing (snd va))) (combine es attrs))
    (transparent_fields (types_of P ms) fs).
Proof.
  induction ms as [|[m f] ms IH]; intros fs attrs v es M L.
  { cbn in M, L. subst. constructor. }
  destruct fs as [f0 fs], v as [v0 v]. destruct M as (a & attrs' & -> & E1 & _ & M). cbn in E1. subst f0.
  destruct L as (e & es' & -> & R & L). cbn [fst snd] in *.
  specialize (IH fs attrs' v es' M L).
  assert (H : Forall2 (acts en (v0, v)) (filter (fun va => negb (is_skip_serializing (snd va))) (combine es' attrs'))
                (map (ser_on snd) (transparent_fields (types_of P ms) fs))).
  { clear - IH. induction IH as [|x y l l' Hxy _ IH2]; cbn [map]; constructor; auto. }
  cbn [combine filter transparent_fields types_of map snd fst f_attr f_names].
  fold (types_of P ms). destruct (is_skip_serializing a) eqn:Sk; cbn [negb]; [assumption|].
  constructor; [|assumption].
  exists (sf_ty f), v0, (text_of c ++ "." ++ m). split; [assumption|]. cbn. auto.
Qed.
Lemma transparent_length c is_path : forall ms fs attrs (es : list expr), matches P is_path c ms fs attrs -> length es = length ms ->
  length (filter (fun va => negb (is_skip_serializing (snd va))) (combine es attrs)) =
  length (transparent_fields (types_of P ms) fs).
Proof.
  induction ms as [|[m f] ms IH]; intros fs attrs es M L.
  { cbn in M, L. subst. destruct es; reflexivity. }
  destruct fs as [f0 fs]. destruct M as (a & attrs' & -> & E1 & _ & M). cbn in E1. subst f0.
  destruct es as [|e es']; [discriminate|]. cbn in L. injection L as L.
  specialize (IH fs attrs' es' M L).
  cbn [combine filter transparent_fields types_of map snd fst f_attr f_names].
  fold (types_of P ms). destruct (is_skip_serializing a) eqn:Sk; cbn [negb length]; rewrite map_length; auto.
Qed.
Lemma write_id_transparent_eval en {A} (v : A) e a D s : local P T "buffer" en = Some VBuffer ->
  acts en v (e, a) D -> (is_skip_serializing a = false) -> uncaptured en a ->
  forall body c, transparent_field c = Some (e, a) -> emit_write_id_transparent c (XPath "buffer") = Some body ->
  finish P T (as_unit P T) (run body Any en s) = Some (write_id D W v s).
Proof.
  intros Hb (k & t & text & R & H1 & _) Sk U body c Ec Eb. specialize (U Sk). cbn [fst snd] in *.
  unfold emit_write_id_transparent in Eb. rewrite Ec in Eb. rewrite H1. unfold ser_field. cbn [f_attr f_names n_paths names_of].
  destruct (a_into a) as [ty|]; [|destruct (a_to a) as [path|]]; injection Eb as <-.
  - assert (I1 : internal "bsn1_macro_1704044765_this") by internal.
    cbn [eval annotated obind leave]. rewrite (reads_eval _ _ _ _ _ R). cbn [obind leave]. rewrite U.
    rewrite local_same. cbn [obind leave]. rewrite local_same. cbn [obind leave].
    rewrite !buffer_cons by auto. cbn [obind projT1 projT2 ser_converted write_id p_into tg_ser tg_conv].
    destruct (write_id _ _ _ _) as [[[]| | |] ?]; reflexivity.
  - assert (I1 : internal "bsn1_macro_1706411411_this") by internal.
    cbn [eval annotated obind leave]. rewrite U. rewrite (reads_eval _ _ _ _ _ R). cbn [obind leave].
    rewrite local_same. cbn [obind leave].
    rewrite !buffer_cons by auto. cbn [obind projT1 projT2 ser_converted write_id p_to tg_ser tg_conv].
    destruct (write_id _ _ _ _) as [[[]| | |] ?]; reflexivity.
  - cbn [eval]. rewrite (reads_eval _ _ _ _ _ R). cbn [obind leave]. rewrite Hb. cbn [obind projT1 projT2 n_ser].
    apply finish_returned.
Qed.
Lemma write_contents_transparent_eval en {A} (v : A) e a D s : local P T "buffer" en = Some VBuffer ->
  acts en v (e, a) D -> (is_skip_serializing a = false) -> uncaptured en a ->
  forall body c, transparent_field c = Some (e, a) -> emit_write_der_contents_transparent c (XPath "buffer") = Some body ->
  finish P T (as_unit P T) (run body Any en s) = Some (write_der_contents D W v s).
Proof.
  intros Hb (k & t & text & R & _ & H1 & _) Sk U body c Ec Eb. specialize (U Sk). cbn [fst snd] in *.
  unfold emit_write_der_contents_transparent in Eb. rewrite Ec in Eb. rewrite H1. unfold ser_field. cbn [f_attr f_names n_paths names_of].
  destruct (a_into a) as [ty|]; [|destruct (a_to a) as [path|]]; injection Eb as <-.
  - assert (I1 : internal "bsn1_macro_1704044765_this") by internal.
    cbn [eval annotated obind leave]. rewrite (reads_eval _ _ _ _ _ R). cbn [obind leave]. rewrite U.
    rewrite local_same. cbn [obind leave]. rewrite local_same. cbn [obind leave].
    rewrite !buffer_cons by auto. cbn [obind projT1 projT2 ser_converted write_der_contents p_into tg_ser tg_conv].
    destruct (write_der_contents _ _ _ _) as [[[]| | |] ?]; reflexivity.
  - assert (I1 : internal "bsn1_macro_1705721776_this") by internal.
    cbn [eval annotated obind leave]. rewrite U. rewrite (reads_eval _ _ _ _ _ R). cbn [obind leave].
    rewrite local_same. cbn [obind leave].
    rewrite !buffer_cons by auto. cbn [obind projT1 projT2 ser_converted write_der_contents p_to tg_ser tg_conv].
    destruct (write_der_contents _ _ _ _) as [[[]| | |] ?]; reflexivity.
  - cbn [eval]. rewrite (reads_eval _ _ _ _ _ R). cbn [obind leave]. rewrite Hb. cbn [obind projT1 projT2 n_ser].
    apply finish_returned.
Qed.
Lemma len_transparent_eval en {A} (v : A) e a D (s : S) :
  acts en v (e, a) D ->
  forall c, transparent_field c = Some (e, a) ->
  (forall body, emit_id_len_transparent c = Some body ->
     finish P T (as_len P T) (run body Any en s) = Some (id_len D v, s)) /\
  (forall body, emit_der_contents_len_transparent c = Some body ->
     finish P T (as_len P T) (run body Any en s) = Some (der_contents_len D v, s)).
Proof.
  intros (k & t & text & R & _ & _ & H1 & H2) c Ec. cbn [fst snd] in *.
  unfold emit_id_len_transparent, emit_der_contents_len_transparent. rewrite Ec, H1, H2.
  unfold ser_field, converts. cbn [f_attr f_names n_paths names_of].
  split; intros body Eb; (destruct (a_into a) as [ty|]; [|destruct (a_to a) as [path|]]); cbn in Eb; injection Eb as <-; try reflexivity.
  all: cbn [eval]; rewrite (reads_eval _ _ _ _ _ R); cbn [obind projT1 projT2]; apply finish_len.
Qed.
End Ser.

(** ** Scopes *)
Section Scope.
Context (P : program) {T : Type}.
Lemma local_in x (en : vars P T) : is_some (local P T x en) = true <-> In x (map fst en).
Proof.
  induction en as [|[y w] en IH]; cbn; [split; [discriminate|tauto]|].
  destruct (String.eqb_spec x y) as [->|N0]; cbn; [tauto|]. rewrite IH. intuition congruence.
Qed.
Lemma is_local_free en path : ~ one_of P (map fst en) path -> is_local P T path en = false.
Proof.
  unfold is_local, one_of. intros H. destruct (path_ident P path) as [x|]; [|reflexivity].
  destruct (is_some (local P T x en)) eqn:Ex; [|reflexivity]. exfalso. apply H. exists x. split; [reflexivity|].
  now apply local_in.
Qed.
Lemma is_param_free types ty : ~ one_of P types ty -> is_param P types ty = false.
Proof.
  unfold is_param, one_of. intros H. destruct (path_ident P ty) as [x|]; [|reflexivity].
  destruct (existsb (String.eqb x) types) eqn:Ex; [|reflexivity]. exfalso. apply H. exists x. split; [reflexivity|].
  apply existsb_exists in Ex. destruct Ex as (y & Hy & Exy). apply String.eqb_eq in Exy. now subst.
Qed.
Lemma one_of_incl xs ys path : incl xs ys -> one_of P xs path -> one_of P ys path.
Proof. intros H (x & E1 & H1). exists x. split; auto. Qed.
Lemma ser_free_uncaptured (en : vars P T) variables a : incl (map fst en) variables ->
  ser_free P variables a -> uncaptured P ["W"] en a.
Proof.
  intros Hi Hf Sk. specialize (Hf Sk). destruct (a_into a) as [ty|]; [apply is_param_free, Hf|].
  destruct (a_to a) as [path|]; [|exact Logic.I]. apply is_local_free. intros H. apply Hf. eapply one_of_incl; eauto.
Qed.
Lemma local_app_not x (en en' : vars P T) : ~ In x (map fst en) -> local P T x (en ++ en')%list = local P T x en'.
Proof.
  induction en as [|[y w] en IH]; cbn; intros H; [reflexivity|].
  destruct (String.eqb_spec x y) as [->|]; [tauto|]. apply IH. tauto.
Qed.
Lemma local_app_in x w (en en' : vars P T) : NoDup (map fst en) -> In (x, w) en -> local P T x (en ++ en')%list = Some w.
Proof.
  induction en as [|[y w'] en IH]; cbn; intros N0 H; [tauto|]. inversion_clear N0 as [|? ? N1 N2].
  destruct H as [[= -> ->]|H]; [now rewrite String.eqb_refl|].
  destruct (String.eqb_spec x y) as [->|]; [|auto]. exfalso. apply N1. apply in_map_iff. exists (y, w). auto.
Qed.
Lemma assoc_in {A} m (a : A) l : NoDup (map fst l) -> In (m, a) l -> assoc m l = Some a.
Proof.
  induction l as [|[y w'] en IH]; cbn; intros N0 H; [tauto|]. inversion_clear N0 as [|? ? N1 N2].
  destruct H as [[= -> ->]|H]; [now rewrite String.eqb_refl|].
  destruct (String.eqb_spec m y) as [->|]; [|auto]. exfalso. apply N1. apply in_map_iff. exists (y, a). auto.
Qed.
Lemma fields_out_names ms v : map fst (fields_out P ms v) = map fst ms.
Proof. revert v. induction ms as [|[m f] ms IH]; intros v; [reflexivity|]. cbn. f_equal. apply IH. Qed.
Lemma fields_out_length ms v : length (fields_out P ms v) = length ms.
Proof. revert v. induction ms as [|[m f] ms IH]; intros v; [reflexivity|]. cbn. f_equal. apply IH. Qed.
End Scope.

(** The fields of [self]. *)
Lemma linked_self P {T} (ST : self_type P T) en (v : T) :
  local P T "self" en = Some (VSelfRef v) ->
  forall ms w, (forall m d, In (m, d) (fields_out P ms w) -> assoc m (snd (st_open P T ST v)) = Some d) ->
  linked P ST en ms w (map XSelfField (map fst ms)).
Proof.
  intros Hs. induction ms as [|[m f] ms IH]; intros w H; [reflexivity|].
  cbn [map fst linked]. eexists _, _. split; [reflexivity|]. split.
  - exists v. split; [assumption|]. apply H. cbn. auto.
  - apply IH. intros m' d' Hi. apply H. cbn. auto.
Qed.
(** The variables of an arm. *)
Definition arm_vars P {T} (ms : list (string * sfield)) (v : tuple (types_of P ms)) : vars P T :=
  map (fun md => (field_prefix ++ "_" ++ fst md, VRef (snd md)))%string (fields_out P ms v).
Lemma linked_arm P {T} (ST : self_type P T) en :
  forall ms w, (forall m d, In (m, d) (fields_out P ms w) -> local P T (field_prefix ++ "_" ++ m) en = Some (VRef d)) ->
  linked P ST en ms w (map XPath (map (fun m => field_prefix ++ "_" ++ m) (map fst ms))).
Proof.
  induction ms as [|[m f] ms IH]; intros w H; [reflexivity|].
  cbn [map fst linked]. eexists _, _. split; [reflexivity|]. split.
  - split; [apply H; cbn; auto|]. exists m. reflexivity.
  - apply IH. intros m' d' Hi. apply H. cbn. auto.
Qed.
Lemma append_inj_l p : forall x y : string, p ++ x = p ++ y -> x = y.
Proof. induction p; cbn; intros x y H; [assumption|]. injection H as H. auto. Qed.
Lemma prefix_inj x y : field_prefix ++ "_" ++ x = field_prefix ++ "_" ++ y -> x = y.
Proof. intros H. apply append_inj_l in H. now injection H. Qed.
Lemma arm_vars_names P T ms v : map fst (arm_vars P (T := T) ms v) = map (fun m => field_prefix ++ "_" ++ m) (map fst ms).
Proof.
  unfold arm_vars. rewrite map_map. cbn [fst]. rewrite <- (fields_out_names P ms v), map_map. reflexivity.
Qed.
Lemma arm_vars_NoDup P T ms v : NoDup (map fst ms) -> NoDup (map fst (arm_vars P (T := T) ms v)).
Proof.
  rewrite arm_vars_names. induction (map fst ms) as [|m l IH]; cbn [map]; intros H; [constructor|].
  inversion_clear H as [|? ? N1 N2]. constructor; auto. intros Hi. apply in_map_iff in Hi. destruct Hi as (m' & E1 & Hi).
  apply prefix_inj in E1. now subst.
Qed.
(** What a pattern binds. *)
Lemma bind_named_ok P T (ds : list (string * dyn P)) : forall ms (w : tuple (types_of P ms)),
  (forall m d, In (m, d) (fields_out P ms w) -> assoc m ds = Some d) ->
  bind_named P T (combine (map fst ms) (map (fun m => field_prefix ++ "_" ++ m) (map fst ms))) ds = Some (arm_vars P ms w).
Proof.
  induction ms as [|[m f] ms IH]; intros w H; [reflexivity|].
  cbn [map fst combine bind_named]. erewrite H by (cbn; left; reflexivity).
  rewrite (IH (snd w)); [reflexivity|]. intros m' d' Hi. apply H. cbn. auto.
Qed.
Lemma bind_tuple_ok P T : forall ms (w : tuple (types_of P ms)),
  bind_tuple P T (combine (map fst ms) (map (fun m => field_prefix ++ "_" ++ m) (map fst ms))) (fields_out P ms w) =
  Some (arm_vars P ms w).
Proof.
  induction ms as [|[m f] ms IH]; intros w; [reflexivity|].
  cbn [map fst combine fields_out bind_tuple]. rewrite (IH (snd w)). reflexivity.
Qed.
Lemma bind_pattern_ok P T fs (w : tuple (types_of P (members fs))) : NoDup (map fst (members fs)) ->
  bind_pattern P T (shape_of fs)
    (combine (map fst (members fs)) (map (fun m => field_prefix ++ "_" ++ m) (map fst (members fs))))
    (fields_out P (members fs) w) = Some (arm_vars P (members fs) w).
Proof.
  intros N0. destruct fs as [fs|fs|]; cbn [shape_of bind_pattern members] in *.
  - rewrite combine_length, map_length, map_length, map_length, Nat.min_id, fields_out_length, Nat.eqb_refl.
    apply bind_named_ok. intros m d Hi. apply assoc_in; [|assumption]. now rewrite fields_out_names.
  - apply bind_tuple_ok.
  - reflexivity.
Qed.

Lemma all_some_map {A B} (f : A -> option B) (g : A -> B) l :
  (forall a, In a l -> f a = Some (g a)) -> all_some (map f l) = Some (map g l).
Proof.
  induction l as [|a l IH]; intros H; [reflexivity|]. cbn. rewrite H by (left; reflexivity).
  rewrite IH; [reflexivity|]. intros; apply H; right; assumption.
Qed.
Lemma all_some_none {A B} (f : A -> option B) l : all_some (map f l) = None <-> Exists (fun a => f a = None) l.
Proof.
  induction l as [|a l IH]; cbn; [split; [discriminate|intros H; inversion H]|].
  destruct (f a) eqn:Ea.
  - destruct (all_some (map f l)); split; try discriminate.
    + intros H. inversion_clear H as [? ? H1|? ? H1]; [congruence|]. apply IH in H1. discriminate.
    + intros _. right. apply IH. reflexivity.
    + reflexivity.
  - split; [left; assumption|reflexivity].
Qed.
Lemma raw_prefix s : raw s <-> String.prefix "r#" s = true.
Proof.
  unfold raw. split.
  - intros (rest & ->). cbn. destruct rest; reflexivity.
  - destruct s as [|a s]; [discriminate|]. destruct s as [|b s].
    + cbn [String.prefix]. intros H. destruct (ascii_dec "r" a); discriminate H.
    + cbn [String.prefix]. destruct (ascii_dec "r" a); [|discriminate]. destruct (ascii_dec "#" b); [|discriminate].
      subst. intros _. exists s. reflexivity.
Qed.
Definition no_raw (fs : sfields) : Prop := Forall (fun m => ~ raw (fst m)) (members fs).
Lemma format_all l : Forall (fun m => ~ raw m) l ->
  all_some (map (format_ident field_prefix) l) = Some (map (fun m => field_prefix ++ "_" ++ m) l).
Proof.
  intros F. apply all_some_map. intros m Hm. rewrite Forall_forall in F. specialize (F m Hm).
  unfold format_ident. destruct (String.prefix "r#" m) eqn:Ep; [|reflexivity]. exfalso. apply F. now apply raw_prefix.
Qed.
Lemma format_none l : all_some (map (format_ident field_prefix) l) = None <-> Exists raw l.
Proof.
  rewrite all_some_none. split; intros H; (eapply Exists_impl; [|exact H]); cbn; intros m Hm.
  - unfold format_ident in Hm. destruct (String.prefix "r#" m) eqn:Ep; [|discriminate]. now apply raw_prefix.
  - unfold format_ident. apply raw_prefix in Hm. now rewrite Hm.
Qed.

(** ** Structs *)
Definition write_scope P {T} (v : T) : vars P T := [("buffer", VBuffer); ("self", VSelfRef v)].
Definition len_scope P {T} (v : T) : vars P T := [("self", VSelfRef v)].
Section Structs.
Context (P : program) (is_path : string -> bool) (E : env).
Lemma matches_hold c (Q : attribute -> Prop) : forall ms fs attrs, matches P is_path c ms fs attrs ->
  Forall (fun m => attrs_hold is_path Q (sf_attrs (snd m))) ms -> Forall Q attrs.
Proof.
  induction ms as [|[m f] ms IH]; intros fs attrs M F; [cbn in M; subst; constructor|].
  destruct fs as [f0 fs]. destruct M as (a & attrs' & -> & E1 & Ea & M). inversion_clear F as [|? ? F1 F2].
  constructor; [exact (F1 a Ea)|]. eapply IH; eauto.
Qed.
Lemma emit_struct_inv a name fs : container_of_struct is_path a name fs =
  (if negb (sanitize_as_struct a) then None else
   get attrs := parse_fields is_path (map snd (members fs)) in
   Some {| c_name := CStruct name; c_attribute := a; c_field_attributes := attrs; c_fields := fs |}).
Proof. unfold container_of_struct. now rewrite fields_iter_members. Qed.
Lemma transparent_field_struct a name fs attrs :
  transparent_field {| c_name := CStruct name; c_attribute := a; c_field_attributes := attrs; c_fields := fs |} =
  match filter (fun va => negb (is_skip_serializing (snd va)))
          (combine (map XSelfField (map fst (members fs))) attrs) with
  | [va] => Some va
  | _ => None
  end.
Proof. unfold transparent_field, field_vars. rewrite field_idents_members. reflexivity. Qed.

Lemma struct_ser a name fs I code :
  NoDup (map fst (members fs)) -> fields_hold is_path (ser_free P ser_variables) fs ->
  emit_serialize_struct is_path a name fs = Some code ->
  exists D, do_serialize_struct is_path E a (types_of P (members fs)) (decls_of P (CStruct name) (members fs)) = Some D /\
            means_ser P E (self_of P name (SStruct fs) I) code D.
Proof.
  intros N0 F Hc. unfold emit_serialize_struct in Hc. rewrite emit_struct_inv in Hc.
  unfold do_serialize_struct, try_struct. destruct (sanitize_as_struct a); [|discriminate]. cbn [negb] in *.
  pose proof (parse_fields_ok P is_path (CStruct name) (members fs)) as Hp.
  destruct (parse_fields is_path (map snd (members fs))) as [attrs|]; [|discriminate].
  destruct Hp as (ffs & E1 & M). rewrite E1. cbn [dc_attr dc_fields].
  pose proof (matches_hold _ _ _ _ _ M F) as Fa.
  set (ST := self_of P name (SStruct fs) I).
  set (Tv := value (data_of P name (SStruct fs))) in *.
  set (es := map XSelfField (map fst (members fs))).
  assert (Lk : forall v en, local P Tv "self" en = Some (VSelfRef v) -> linked P ST en (members fs) v es).
  { intros v en Hs. apply (linked_self P ST en v); [assumption|]. intros m d Hi. cbn [ST self_of st_open snd].
    apply assoc_in; [|assumption]. now rewrite fields_out_names. }
  assert (Un : forall en : vars P Tv, incl (map fst en) ser_variables -> Forall (uncaptured P ["W"] en) attrs).
  { intros en Hi. eapply Forall_impl; [|exact Fa]. intros a0 Ha. eapply ser_free_uncaptured; eauto. }
  set (wen := write_scope P (T := Tv)). set (len := len_scope P (T := Tv)).
  assert (Uw : forall v, Forall (uncaptured P ["W"] (wen v)) attrs).
  { intros v. apply Un. intros x; cbn. tauto. }
  cbn [c_attribute] in Hc. destruct (a_transparent a) eqn:Et.
  - pose proof (transparent_field_struct a name fs attrs) as Etf.
    pose proof (transparent_length P _ _ _ _ _ es M ltac:(unfold es; now rewrite !map_length)) as Hl.
    fold es in Etf. unfold ser_transparent. cbn [dc_fields].
    destruct (filter _ (combine es attrs)) as [|[e b] [|]] eqn:Ef;
      [unfold emit_write_id_transparent in Hc; rewrite Etf in Hc; discriminate| |
       unfold emit_write_id_transparent in Hc; rewrite Etf in Hc; discriminate].
    destruct (transparent_fields (types_of P (members fs)) ffs) as [|D [|]] eqn:Es; try discriminate Hl.
    exists D. split; [reflexivity|].
    assert (Hin : In (e, b) (filter (fun va : expr * attribute => negb (is_skip_serializing (snd va))) (combine es attrs)))
      by (rewrite Ef; left; reflexivity).
    apply filter_In in Hin. destruct Hin as [Hin Sk]. cbn in Sk. apply Bool.negb_true_iff in Sk.
    apply in_combine_r in Hin.
    assert (Ac : forall v en, local P Tv "self" en = Some (VSelfRef v) -> acts P ST en v (e, b) D).
    { intros v en Hs. pose proof (transparent_acts P ST _ _ en _ _ _ v es M (Lk v en Hs)) as H2.
      rewrite Ef, Es in H2. now inversion_clear H2. }
    set (c := {| c_name := CStruct name; c_attribute := a; c_field_attributes := attrs; c_fields := fs |}) in *.
    destruct (emit_write_id_transparent c (XPath "buffer")) as [w1|] eqn:E2; [|discriminate].
    destruct (emit_id_len_transparent c) as [w2|] eqn:E3; [|discriminate].
    destruct (emit_der_contents_len_transparent c) as [w3|] eqn:E4; [|discriminate].
    destruct (emit_write_der_contents_transparent c (XPath "buffer")) as [w4|] eqn:E5; [|discriminate].
    injection Hc as <-. intros v. cbn [code_write_id code_write_der_contents code_id_len code_der_contents_len].
    assert (Ub : uncaptured P ["W"] (wen v) b).
    { pose proof (Uw v) as H2. rewrite Forall_forall in H2. apply H2. assumption. }
    split; [|split; [|split]].
    + intros S W s. unfold run_write. change ([("buffer", VBuffer); ("self", VSelfRef v)]) with (wen v).
      eapply write_id_transparent_eval; eauto; reflexivity.
    + intros S W s. unfold run_write. change ([("buffer", VBuffer); ("self", VSelfRef v)]) with (wen v).
      eapply write_contents_transparent_eval; eauto; reflexivity.
    + unfold run_len. change ([("self", VSelfRef v)]) with (len v).
      destruct (len_transparent_eval P E ST no_writer [] (len v) v e b D tt (Ac v (len v) eq_refl) c Etf) as [H2 _].
      rewrite (H2 w2 E3). reflexivity.
    + unfold run_len. change ([("self", VSelfRef v)]) with (len v).
      destruct (len_transparent_eval P E ST no_writer [] (len v) v e b D tt (Ac v (len v) eq_refl) c Etf) as [_ H2].
      rewrite (H2 w3 E4). reflexivity.
  - set (c := {| c_name := CStruct name; c_attribute := a; c_field_attributes := attrs; c_fields := fs |}) in *.
    assert (Ev : field_vars c = Some es).
    { unfold field_vars. cbn [c_name c]. rewrite field_idents_members. reflexivity. }
    unfold emit_der_contents_len, emit_write_der_contents in Hc. rewrite Ev in Hc. cbn [c_field_attributes c] in Hc.
    exists (ser_fields E {| dc_attr := a; dc_fields := ffs |}). split; [reflexivity|].
    assert (Hcode : exists l, code = {| code_write_id := emit_write_id c (XPath "buffer");
        code_write_der_contents := emit_write_fields (combine es attrs) (XPath "buffer");
        code_id_len := emit_id_len c; code_der_contents_len := l |} /\
        l = if existsb converts attrs then XOk XNone else XLet len_ret None XZero (emit_field_acc (combine es attrs))).
    { destruct (existsb converts attrs); injection Hc as <-; eauto. }
    destruct Hcode as (l & -> & El). clear Hc.
    intros v. cbn [code_write_id code_write_der_contents code_id_len code_der_contents_len].
    split; [|split; [|split]].
    + intros S W s. unfold run_write, emit_write_id. cbn. apply finish_returned.
    + intros S W s. unfold run_write. change ([("buffer", VBuffer); ("self", VSelfRef v)]) with (wen v).
      rewrite (write_fields_eval P E ST W ["W"] (CStruct name) is_path (wen v) eq_refl (members fs) ffs attrs v es s M
                 (Lk v (wen v) eq_refl) (Uw v)). apply finish_wout.
    + reflexivity.
    + unfold run_len. change ([("self", VSelfRef v)]) with (len v). cbn [ser_fields der_contents_len dc_fields].
      rewrite (matches_attributes _ _ _ _ _ _ M). subst l. destruct (existsb converts attrs); [reflexivity|].
      cbn [eval annotated obind].
      rewrite (fields_len_eval P E ST no_writer [] (CStruct name) is_path (len v) (members fs) ffs attrs v es tt 0 M
                 (Lk v (len v) eq_refl)). rewrite finish_lout. reflexivity.
Qed.
Lemma struct_ser_none a name fs : emit_serialize_struct is_path a name fs = None ->
  do_serialize_struct is_path E a (types_of P (members fs)) (decls_of P (CStruct name) (members fs)) = None.
Proof.
  intros Hc. unfold emit_serialize_struct in Hc. rewrite emit_struct_inv in Hc.
  unfold do_serialize_struct, try_struct. destruct (sanitize_as_struct a); [|reflexivity]. cbn [negb] in *.
  pose proof (parse_fields_ok P is_path (CStruct name) (members fs)) as Hp.
  destruct (parse_fields is_path (map snd (members fs))) as [attrs|]; [|now rewrite Hp].
  destruct Hp as (ffs & E1 & M). rewrite E1. cbn [dc_attr dc_fields c_attribute] in *.
  set (es := map XSelfField (map fst (members fs))).
  destruct (a_transparent a) eqn:Et.
  - unfold emit_write_id_transparent, emit_id_len_transparent, emit_der_contents_len_transparent, emit_write_der_contents_transparent in Hc.
    pose proof (transparent_field_struct a name fs attrs) as Etf.
    pose proof (transparent_length P _ _ _ _ _ es M ltac:(unfold es; now rewrite !map_length)) as Hl.
    fold es in Etf. unfold ser_transparent. cbn [dc_fields].
    destruct (filter _ (combine es attrs)) as [|[e b] [|]] eqn:Ef;
      destruct (transparent_fields (types_of P (members fs)) ffs) as [|D [|]] eqn:Es; try discriminate Hl; try reflexivity.
    rewrite Etf in Hc. exfalso. unfold converts in Hc.
    destruct (a_into b); [discriminate|]. destruct (a_to b); discriminate.
  - set (c := {| c_name := CStruct name; c_attribute := a; c_field_attributes := attrs; c_fields := fs |}) in *.
    assert (Ev : field_vars c = Some es).
    { unfold field_vars. cbn [c_name c]. rewrite field_idents_members. reflexivity. }
    unfold emit_der_contents_len, emit_write_der_contents in Hc. rewrite Ev in Hc.
    destruct (existsb converts _); discriminate.
Qed.
End Structs.

(** ** Enums *)
Section Arms.
Context (P : program) (E : env) {T : Type} (ST : self_type P T) {S : Type} (W : writer S) (types : list string).
Notation run := (eval P T E ST types W).
Lemma finish_leave {A} (f : val P T -> option A) n (o : out P T S) : finish P T f (leave P T n o) = finish P T f o.
Proof. destruct o; reflexivity. Qed.
Lemma match_self_cons v0 n name sh ds name' sh' binds body arms ex en s :
  local P T "self" en = Some (VSelfRef v0) -> st_open P T ST v0 = (CVariant n name, sh, ds) ->
  run (XMatchSelf ((name', sh', binds, body) :: arms)) ex en s =
  if String.eqb name name' then
    if shape_eqb sh sh' then
      match bind_pattern P T sh' binds ds with
      | Some vs => leave P T (length vs) (run body ex (rev vs ++ en)%list s)
      | None => Stuck
      end
    else Stuck
  else run (XMatchSelf arms) ex en s.
Proof. intros H1 H2. cbn [eval]. rewrite H1, H2. reflexivity. Qed.
Definition arm_of (w : svariant) : string * shape * list (string * string) :=
  (sv_ident w, shape_of (sv_fields w),
   combine (map fst (members (sv_fields w))) (map (fun m => field_prefix ++ "_" ++ m) (map fst (members (sv_fields w))))).
Context (name : string) {A : Type} (f : val P T -> option A) (en : vars P T) (s : S).
Fixpoint arms_ok (vs : list svariant) (arms : list (string * shape * list (string * string) * expr))
  : (choice (variant_types P vs) -> res A * S) -> Prop :=
  match vs with
  | [] => fun _ => True
  | w :: vs' => fun sem =>
      exists body arms', arms = (arm_of w, body) :: arms' /\
        (forall t, finish P T f (run body Any (rev (arm_vars P (members (sv_fields w)) t) ++ en)%list s) = Some (sem (inl t))) /\
        arms_ok vs' arms' (fun v => sem (inr v))
  end.
Lemma variant_out_name vs : forall v, exists w sh ds,
  variant_out P name vs v = (CVariant name w, sh, ds) /\ In w (map sv_ident vs).
Proof.
  induction vs as [|w vs IH]; [intros []|]. intros [t|v]; cbn [variant_out].
  - eexists _, _, _. split; [reflexivity|]. left. reflexivity.
  - destruct (IH v) as (x & sh & ds & E1 & H). rewrite E1. eexists _, _, _. split; [reflexivity|]. right. assumption.
Qed.
Lemma match_self_eval v0 : local P T "self" en = Some (VSelfRef v0) ->
  forall vs arms sem v, NoDup (map sv_ident vs) -> Forall (fun w => NoDup (map fst (members (sv_fields w)))) vs ->
  arms_ok vs arms sem -> st_open P T ST v0 = variant_out P name vs v ->
  finish P T f (run (XMatchSelf arms) Any en s) = Some (sem v).
Proof.
  intros Hs. induction vs as [|w vs IH]; intros arms sem v N0 F O Ho; [destruct v|].
  destruct O as (body & arms' & -> & O1 & O2). inversion_clear N0 as [|? ? N1 N2]. inversion_clear F as [|? ? F1 F2].
  destruct v as [t|v]; cbn [variant_out] in Ho.
  - unfold arm_of. rewrite (match_self_cons _ _ _ _ _ _ _ _ _ _ _ _ _ Hs Ho).
    rewrite String.eqb_refl. destruct (shape_of (sv_fields w)) eqn:Esh; cbn [shape_eqb]; rewrite <- Esh, bind_pattern_ok by assumption;
      rewrite finish_leave; apply O1.
  - destruct (variant_out_name vs v) as (x & sh & ds & E1 & Hx). rewrite E1 in Ho.
    unfold arm_of. rewrite (match_self_cons _ _ _ _ _ _ _ _ _ _ _ _ _ Hs Ho).
    destruct (String.eqb_spec x (sv_ident w)) as [->|_]; [contradiction|].
    apply (IH arms' (fun v => sem (inr v))); auto. now rewrite E1.
Qed.
End Arms.

Section Enums.
Context (P : program) (is_path : string -> bool) (E : env) (name : string).
Fixpoint cmatches (vs : list svariant) : vlist data_container (variant_types P vs) -> list container -> Prop :=
  match vs with
  | [] => fun _ cs => cs = []
  | w :: vs' => fun dcs cs =>
      exists c cs', cs = c :: cs' /\ c_name c = CVariant name (sv_ident w) /\ c_fields c = sv_fields w /\
        c_attribute c = dc_attr (fst dcs) /\
        matches P is_path (CVariant name (sv_ident w)) (members (sv_fields w)) (dc_fields (fst dcs)) (c_field_attributes c) /\
        cmatches vs' (snd dcs) cs'
  end.
Lemma containers_ok vs :
  match containers is_path name vs with
  | Some cs => exists dcs, try_variants is_path (variant_types P vs) (variants_of P name vs) = Some dcs /\ cmatches vs dcs cs
  | None => try_variants is_path (variant_types P vs) (variants_of P name vs) = None
  end.
Proof.
  unfold containers. induction vs as [|w vs IH]; [exists tt; split; reflexivity|].
  cbn [map all_some variant_types variants_of try_variants]. fold (variant_types P vs).
  unfold container_of_variant at 1, try_variant. cbn [fst snd vd_attrs vd_fields].
  destruct (Attribute_try_from is_path (sv_attrs w)) as [a|]; [|reflexivity].
  destruct (sanitize_as_variant a); cbn [negb]; [|reflexivity].
  rewrite fields_iter_members.
  pose proof (parse_fields_ok P is_path (CVariant name (sv_ident w)) (members (sv_fields w))) as Hp.
  destruct (parse_fields is_path (map snd (members (sv_fields w)))) as [attrs|]; [|now rewrite Hp].
  destruct Hp as (ffs & E1 & M). rewrite E1.
  destruct (all_some (map (container_of_variant is_path name) vs)) as [cs|].
  - destruct IH as (dcs & E2 & C). rewrite E2. eexists. split; [reflexivity|].
    eexists _, _. split; [reflexivity|]. cbn. repeat split; auto.
  - rewrite IH. reflexivity.
Qed.

(** The parts of the code of a variant. *)
Definition arm_of_container (c : container) : string * shape * list (string * string) :=
  (match c_name c with CVariant _ v => v | CStruct _ => "" end, shape_of (c_fields c),
   combine (map fst (members (c_fields c))) (map (fun m => field_prefix ++ "_" ++ m) (map fst (members (c_fields c))))).
Definition vars_of (c : container) : list expr :=
  map XPath (map (fun m => field_prefix ++ "_" ++ m) (map fst (members (c_fields c)))).
Definition contents_of (c : container) : expr :=
  emit_write_fields (combine (vars_of c) (c_field_attributes c)) (XPath "buffer").
Definition len_of (c : container) : expr :=
  if existsb converts (c_field_attributes c) then XOk XNone
  else XLet len_ret None XZero (emit_field_acc (combine (vars_of c) (c_field_attributes c))).
Definition enum_code (cs : list container) : ser_code :=
  {| code_write_id := XMatchSelf (map (fun c => (arm_of_container c, emit_write_id c (XPath "buffer"))) cs);
     code_write_der_contents := XMatchSelf (map (fun c => (arm_of_container c, contents_of c)) cs);
     code_id_len := XMatchSelf (map (fun c => (arm_of_container c, emit_id_len c)) cs);
     code_der_contents_len := XMatchSelf (map (fun c => (arm_of_container c, len_of c)) cs) |}.
Definition is_variant (c : container) : Prop := exists e v, c_name c = CVariant e v.
Lemma combine_map {A B C} (f : A -> B) (g : A -> C) l : combine (map f l) (map g l) = map (fun a => (f a, g a)) l.
Proof. induction l; cbn; f_equal; auto. Qed.
Lemma enum_code_ok a vs cs : sanitize_as_enum a = true -> containers is_path name vs = Some cs ->
  Forall (fun c => is_variant c /\ no_raw (c_fields c)) cs ->
  emit_serialize_enum is_path a name vs = Some (enum_code cs).
Proof.
  intros Sa Ec F. unfold emit_serialize_enum. rewrite Sa, Ec. cbn [negb]. rewrite Forall_forall in F.
  assert (Fmt : forall c, In c cs ->
     all_some (map (format_ident field_prefix) (map fst (members (c_fields c)))) =
     Some (map (fun m => field_prefix ++ "_" ++ m) (map fst (members (c_fields c))))).
  { intros c Hc. apply format_all. destruct (F c Hc) as [_ H]. unfold no_raw in H.
    rewrite Forall_forall in *. intros m Hm. apply in_map_iff in Hm. destruct Hm as (x & <- & Hx). now apply H. }
  rewrite (all_some_map to_match_arm arm_of_container cs).
  2:{ intros c Hc. unfold to_match_arm, arm_of_container. destruct (F c Hc) as [(e & v & Ev) _]. rewrite Ev.
      rewrite field_idents_members, (Fmt c Hc). reflexivity. }
  rewrite (all_some_map emit_der_contents_len len_of cs).
  2:{ intros c Hc. unfold emit_der_contents_len, len_of. destruct (existsb converts _); [reflexivity|].
      unfold field_vars. destruct (F c Hc) as [(e & v & Ev) _]. rewrite Ev.
      rewrite field_idents_members, (Fmt c Hc). reflexivity. }
  rewrite (all_some_map (fun c => emit_write_der_contents c (XPath "buffer")) contents_of cs).
  2:{ intros c Hc. unfold emit_write_der_contents, contents_of.
      unfold field_vars. destruct (F c Hc) as [(e & v & Ev) _]. rewrite Ev.
      rewrite field_idents_members, (Fmt c Hc). reflexivity. }
  unfold enum_code. now rewrite !combine_map.
Qed.
Lemma enum_code_raw a vs cs : containers is_path name vs = Some cs ->
  Exists (fun c => is_variant c /\ ~ no_raw (c_fields c)) cs ->
  emit_serialize_enum is_path a name vs = None.
Proof.
  intros Ec X. unfold emit_serialize_enum. destruct (sanitize_as_enum a); [|reflexivity]. cbn [negb]. rewrite Ec.
  assert (H : all_some (map to_match_arm cs) = None); [|now rewrite H].
  apply all_some_none. eapply Exists_impl; [|exact X]. intros c [(e & v & Ev) H]. unfold to_match_arm. rewrite Ev.
  rewrite field_idents_members.
  assert (H2 : all_some (map (format_ident field_prefix) (map fst (members (c_fields c)))) = None); [|now rewrite H2].
  apply format_none. unfold no_raw in H. clear - H. induction (members (c_fields c)) as [|m l IH]; [exfalso; apply H; constructor|].
  cbn [map]. destruct (String.prefix "r#" (fst m)) eqn:Ep; [left; now apply raw_prefix|].
  right. apply IH. intros F. apply H. constructor; [|assumption]. intros R. apply raw_prefix in R. congruence.
Qed.
Lemma cmatches_variants vs : forall dcs cs, cmatches vs dcs cs -> Forall2 (fun w c => is_variant c /\ c_fields c = sv_fields w) vs cs.
Proof.
  induction vs as [|w vs IH]; intros dcs cs C; [cbn in C; subst; constructor|].
  destruct C as (c & cs' & -> & H1 & H2 & _ & _ & C). constructor; [|eauto]. split; [|assumption]. red. eauto.
Qed.

Section Sem.
Context {T : Type} (ST : self_type P T).
Lemma arm_scope v0 ms (t : tuple (types_of P ms)) en : NoDup (map fst ms) ->
  (local P T "buffer" en = Some (VBuffer (P := P) (Self := T)) ->
   local P T "buffer" (rev (arm_vars P ms t) ++ en)%list = Some VBuffer) /\
  (local P T "self" en = Some (VSelfRef v0) -> local P T "self" (rev (arm_vars P ms t) ++ en)%list = Some (VSelfRef v0)) /\
  linked P ST (rev (arm_vars P ms t) ++ en)%list ms t (map XPath (map (fun m => field_prefix ++ "_" ++ m) (map fst ms))) /\
  map fst (rev (arm_vars P ms t) ++ en)%list = (rev (map (fun m => field_prefix ++ "_" ++ m)%string (map fst ms)) ++ map fst en)%list.
Proof.
  intros N0.
  assert (Hn : forall x, (forall m, x <> field_prefix ++ "_" ++ m) -> ~ In x (map fst (rev (arm_vars P (T := T) ms t)))).
  { intros x Hx Hi. rewrite map_rev, <- in_rev, arm_vars_names in Hi. apply in_map_iff in Hi.
    destruct Hi as (m & E1 & _). now apply (Hx m). }
  split; [|split; [|split]].
  - intros Hb. rewrite local_app_not; [assumption|]. apply Hn. intros m; discriminate.
  - intros Hb. rewrite local_app_not; [assumption|]. apply Hn. intros m; discriminate.
  - apply linked_arm. intros m d Hi. apply local_app_in.
    + rewrite map_rev. apply NoDup_rev, arm_vars_NoDup, N0.
    + rewrite <- in_rev. unfold arm_vars. apply in_map_iff. exists (m, d). auto.
  - rewrite map_app, map_rev, arm_vars_names. reflexivity.
Qed.
Definition variant_free (w : svariant) : Prop :=
  fields_hold is_path (ser_free P (variant_variables (map fst (members (sv_fields w))))) (sv_fields w).
Lemma arm_uncaptured w (t : tuple (types_of P (members (sv_fields w)))) ffs attrs v0 : variant_free w ->
  matches P is_path (CVariant name (sv_ident w)) (members (sv_fields w)) ffs attrs ->
  Forall (uncaptured P ["W"] (rev (arm_vars P (members (sv_fields w)) t) ++ write_scope P (v0 : T))%list) attrs.
Proof.
  intros F M. pose proof (matches_hold P is_path _ _ _ _ _ M F) as Fa.
  eapply Forall_impl; [|exact Fa]. intros a Ha. eapply ser_free_uncaptured; [|exact Ha].
  rewrite map_app, map_rev, arm_vars_names. intros x Hx. unfold variant_variables, ser_variables.
  apply in_app_iff in Hx. apply in_app_iff. destruct Hx as [Hx|Hx].
  - right. rewrite <- in_rev in Hx. exact Hx.
  - left. cbn in *. tauto.
Qed.

(** Each code against its method; [D] is only used at the value. *)
Lemma arms_write_id v0 {S} (W : writer S) s : forall vs dcs cs, cmatches vs dcs cs ->
  arms_ok P E ST W ["W"] (as_unit P T) (write_scope P v0) s vs
    (map (fun c => (arm_of_container c, emit_write_id c (XPath "buffer"))) cs)
    (fun v => write_id (ser_variants E (variant_types P vs) dcs) W v s).
Proof.
  induction vs as [|w vs IH]; intros dcs cs C; [exact Logic.I|].
  destruct dcs as [dc dcs]. destruct C as (c & cs' & -> & H1 & H2 & H3 & M & C). cbn [fst snd] in *.
  cbn [map arms_ok]. eexists _, _. split; [unfold arm_of_container, arm_of; rewrite H1, H2; reflexivity|]. split.
  - intros t. unfold emit_write_id. cbn [eval].
    rewrite local_app_not.
    2:{ rewrite map_rev, <- in_rev, arm_vars_names. intros Hi. apply in_map_iff in Hi. destruct Hi as (m & E1 & _). discriminate. }
    cbn [local write_scope String.eqb Ascii.eqb Bool.eqb obind]. rewrite finish_returned.
    cbn [ser_variants variant_types map fst write_id ser_fields]. rewrite H3. reflexivity.
  - apply (IH dcs cs' C).
Qed.
Lemma arms_contents v0 {S} (W : writer S) s : forall vs dcs cs, cmatches vs dcs cs ->
  Forall (fun w => NoDup (map fst (members (sv_fields w)))) vs -> Forall variant_free vs ->
  arms_ok P E ST W ["W"] (as_unit P T) (write_scope P v0) s vs
    (map (fun c => (arm_of_container c, contents_of c)) cs)
    (fun v => write_der_contents (ser_variants E (variant_types P vs) dcs) W v s).
Proof.
  induction vs as [|w vs IH]; intros dcs cs C N0 F; [exact Logic.I|].
  destruct dcs as [dc dcs]. destruct C as (c & cs' & -> & H1 & H2 & H3 & M & C). cbn [fst snd] in *.
  inversion_clear N0 as [|? ? N1 N2]. inversion_clear F as [|? ? F1 F2].
  cbn [map arms_ok]. eexists _, _. split; [unfold arm_of_container, arm_of; rewrite H1, H2; reflexivity|]. split.
  - intros t. unfold contents_of, vars_of. rewrite H2.
    destruct (arm_scope v0 (members (sv_fields w)) t (write_scope P v0) N1) as (Hb & _ & Lk & _).
    rewrite (write_fields_eval P E ST W ["W"] _ is_path _ (Hb eq_refl) _ _ _ t _ s M Lk (arm_uncaptured w t _ _ v0 F1 M)).
    rewrite finish_wout. reflexivity.
  - apply (IH dcs cs' C N2 F2).
Qed.
Lemma arms_id_len v0 {S} (W : writer S) (s : S) : forall vs dcs cs, cmatches vs dcs cs ->
  arms_ok P E ST W [] (as_len P T) (len_scope P v0) s vs
    (map (fun c => (arm_of_container c, emit_id_len c)) cs)
    (fun v => (id_len (ser_variants E (variant_types P vs) dcs) v, s)).
Proof.
  induction vs as [|w vs IH]; intros dcs cs C; [exact Logic.I|].
  destruct dcs as [dc dcs]. destruct C as (c & cs' & -> & H1 & H2 & H3 & M & C). cbn [fst snd] in *.
  cbn [map arms_ok]. eexists _, _. split; [unfold arm_of_container, arm_of; rewrite H1, H2; reflexivity|]. split.
  - intros t. unfold emit_id_len. cbn. rewrite H3. reflexivity.
  - apply (IH dcs cs' C).
Qed.
Lemma arms_len v0 {S} (W : writer S) (s : S) : forall vs dcs cs, cmatches vs dcs cs ->
  Forall (fun w => NoDup (map fst (members (sv_fields w)))) vs ->
  arms_ok P E ST W [] (as_len P T) (len_scope P v0) s vs
    (map (fun c => (arm_of_container c, len_of c)) cs)
    (fun v => (der_contents_len (ser_variants E (variant_types P vs) dcs) v, s)).
Proof.
  induction vs as [|w vs IH]; intros dcs cs C N0; [exact Logic.I|].
  destruct dcs as [dc dcs]. destruct C as (c & cs' & -> & H1 & H2 & H3 & M & C). cbn [fst snd] in *.
  inversion_clear N0 as [|? ? N1 N2].
  cbn [map arms_ok]. eexists _, _. split; [unfold arm_of_container, arm_of; rewrite H1, H2; reflexivity|]. split.
  - intros t. unfold len_of, vars_of. rewrite H2.
    cbn [ser_variants variant_types map fst der_contents_len ser_fields].
    rewrite (matches_attributes _ _ _ _ _ _ M). destruct (existsb converts _); [reflexivity|].
    destruct (arm_scope v0 (members (sv_fields w)) t (len_scope P v0) N1) as (_ & _ & Lk & _).
    cbn [eval annotated obind].
    rewrite (fields_len_eval P E ST W [] _ is_path _ _ _ _ t _ s 0 M Lk). rewrite finish_lout. reflexivity.
  - apply (IH dcs cs' C N2).
Qed.
End Sem.

Lemma enum_ser a vs I code :
  NoDup (map sv_ident vs) -> Forall (fun w => NoDup (map fst (members (sv_fields w)))) vs -> Forall variant_free vs ->
  emit_serialize_enum is_path a name vs = Some code ->
  exists D, do_serialize_enum is_path E a (variant_types P vs) (variants_of P name vs) = Some D /\
            means_ser P E (self_of P name (SEnum vs) I) code D.
Proof.
  intros N1 N2 F Hc. pose proof Hc as Hc0. unfold emit_serialize_enum in Hc0. unfold do_serialize_enum.
  destruct (sanitize_as_enum a) eqn:Sa; [|discriminate]. cbn [negb] in *.
  pose proof (containers_ok vs) as Hp. destruct (containers is_path name vs) as [cs|] eqn:Ec; [|discriminate].
  clear Hc0. destruct Hp as (dcs & E1 & C). rewrite E1. eexists. split; [reflexivity|].
  assert (Fc : Forall (fun c => is_variant c /\ no_raw (c_fields c)) cs).
  { rewrite Forall_forall. intros c Hi. split.
    - pose proof (cmatches_variants _ _ _ C) as F2. clear - F2 Hi. induction F2 as [|? ? ? ? [H _]]; [inversion Hi|].
      destruct Hi as [->|Hi]; auto.
    - unfold no_raw. rewrite Forall_forall. intros m Hm Hr.
      rewrite (enum_code_raw a vs cs Ec) in Hc; [discriminate|]. apply Exists_exists. exists c. split; [assumption|].
      split.
      + pose proof (cmatches_variants _ _ _ C) as F2. clear - F2 Hi. induction F2 as [|? ? ? ? [H _]]; [inversion Hi|].
        destruct Hi as [->|Hi]; auto.
      + unfold no_raw. rewrite Forall_forall. intros H. apply (H m Hm Hr). }
  rewrite (enum_code_ok a vs cs Sa Ec Fc) in Hc. injection Hc as <-.
  intros v. cbn [enum_code code_write_id code_write_der_contents code_id_len code_der_contents_len].
  set (ST := self_of P name (SEnum vs) I). set (Tv := value (data_of P name (SEnum vs))) in *.
  split; [|split; [|split]].
  - intros S W s. unfold run_write. change ([("buffer", VBuffer); ("self", VSelfRef v)]) with (write_scope P (T := Tv) v).
    apply (match_self_eval P E ST W ["W"] name (as_unit P Tv) (write_scope P v) s v eq_refl vs _ _ v N1 N2
             (arms_write_id ST v W s vs dcs cs C) eq_refl).
  - intros S W s. unfold run_write. change ([("buffer", VBuffer); ("self", VSelfRef v)]) with (write_scope P (T := Tv) v).
    apply (match_self_eval P E ST W ["W"] name (as_unit P Tv) (write_scope P v) s v eq_refl vs _ _ v N1 N2
             (arms_contents ST v W s vs dcs cs C N2 F) eq_refl).
  - unfold run_len. change ([("self", VSelfRef v)]) with (len_scope P (T := Tv) v).
    rewrite (match_self_eval P E ST no_writer [] name (as_len P Tv) (len_scope P v) tt v eq_refl vs _ _ v N1 N2
             (arms_id_len ST v no_writer tt vs dcs cs C) eq_refl). reflexivity.
  - unfold run_len. change ([("self", VSelfRef v)]) with (len_scope P (T := Tv) v).
    rewrite (match_self_eval P E ST no_writer [] name (as_len P Tv) (len_scope P v) tt v eq_refl vs _ _ v N1 N2
             (arms_len ST v no_writer tt vs dcs cs C N2) eq_refl). reflexivity.
Qed.
Lemma enum_ser_none a vs : emit_serialize_enum is_path a name vs = None <->
  do_serialize_enum is_path E a (variant_types P vs) (variants_of P name vs) = None \/ raw_in_variant (SEnum vs).
Proof.
  unfold do_serialize_enum.
  destruct (sanitize_as_enum a) eqn:Sa; cbn [negb]; [|unfold emit_serialize_enum; rewrite Sa; cbn [negb]; tauto].
  pose proof (containers_ok vs) as Hp. destruct (containers is_path name vs) as [cs|] eqn:Ec.
  - destruct Hp as (dcs & E1 & C). rewrite E1. pose proof (cmatches_variants _ _ _ C) as F2.
    assert (Hv : Forall is_variant cs) by (clear - F2; induction F2 as [|? ? ? ? [H _]]; constructor; auto).
    assert (Hr : raw_in_variant (SEnum vs) <-> Exists (fun c => Exists (fun m => raw (fst m)) (members (c_fields c))) cs).
    { cbn [raw_in_variant]. clear - F2. induction F2 as [|w c vs cs [_ H] _ IH]; [split; intros X; inversion X|].
      rewrite !Exists_cons, IH, H. tauto. }
    rewrite Hr. split.
    + intros Hn. right.
      assert (Dec : forall c : container, {Exists (fun m => raw (fst m)) (members (c_fields c))} + {~ Exists (fun m => raw (fst m)) (members (c_fields c))}).
      { intros c. apply Exists_dec. intros m. destruct (String.prefix "r#" (fst m)) eqn:Ep.
        - left. now apply raw_prefix.
        - right. intros R. apply raw_prefix in R. congruence. }
      destruct (Exists_dec _ cs Dec) as [X|X]; [assumption|]. exfalso.
      rewrite (enum_code_ok a vs cs Sa Ec) in Hn; [discriminate|].
      rewrite Forall_forall in *. intros c Hi. split; [auto|]. unfold no_raw. rewrite Forall_forall. intros m Hm R.
      apply X. apply Exists_exists. exists c. split; [assumption|]. apply Exists_exists. eauto.
    + intros [H|X]; [discriminate|]. apply (enum_code_raw a vs cs Ec). rewrite Forall_forall in Hv.
      apply Exists_exists in X. destruct X as (c & Hi & X). apply Exists_exists. exists c. split; [assumption|].
      split; [auto|]. unfold no_raw. rewrite Forall_forall. intros H. apply Exists_exists in X. destruct X as (m & Hm & R).
      apply (H m Hm R).
  - rewrite Hp. unfold emit_serialize_enum. rewrite Sa, Ec. cbn. tauto.
Qed.
End Enums.
