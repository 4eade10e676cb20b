(** Proofs about the code emitted for Deserialize. *)
From Coq Require Import String Ascii Eqdep_dec.
From Verif Require Import Base ModelError ModelIo ModelTag ModelContents ModelBuf ModelTlv ModelSerde ModelAttr ModelDerive ModelRust ModelEmit SpecEmit EmitProofs.
Local Open Scope string_scope.
Local Open Scope N_scope.

Lemma id_scan_no_err e : forall bs i, id_scan bs i <> Err e.
Proof.
  induction bs as [|b bs IH]; intros i H; cbn [id_scan] in H; [discriminate|].
  match type of H with context [if ?c then _ else _] => destruct c end; [|discriminate || now apply IH in H].
  discriminate || now apply IH in H.
Qed.
(** Taking octets apart is not refused. *)
Lemma disassemble_no_err bs e : disassemble bs <> Err e.
Proof.
  unfold disassemble. intros H.
  destruct (parse_id_unchecked bs) as [[id bs1]| | |] eqn:Ei; cbn [rbind] in H; try discriminate.
  - destruct (parse_length_unchecked bs1) as [[l c]| | |] eqn:El; cbn [rbind] in H; try discriminate.
    unfold parse_length_unchecked in El. destruct bs1; [discriminate|].
    repeat match type of El with context [if ?c then _ else _] => destruct c end; discriminate.
  - unfold parse_id_unchecked in Ei. destruct bs as [|b bs]; [discriminate|].
    destruct (negb _); [discriminate|]. destruct (id_scan bs 1) eqn:Es; try discriminate.
    now apply id_scan_no_err in Es.
Qed.

Section De.
Context (P : program) (E : env) {T : Type} (ST : self_type P T) {S : Type} (W : writer S).
Notation run := (eval P T E ST [] W).
Notation vs := (vars P T).

(** What reading a value comes to. *)
Definition rout {A X} (f : A -> val P T) (env : X -> vs) (r : res (A * X)) (s : S) : out P T S :=
  match r with
  | Ok (a, x) => Next (f a) (env x) s
  | Err e => Return (VErr e) s
  | Panic => Fault Panic s
  | NoFuel => Fault NoFuel s
  end.

(** ** Constructors *)
Section Go.
Context (ms : list (string * N)).
Fixpoint go_named (fs : list (string * expr))
    (k : list (string * dyn P) -> vs -> S -> out P T S) (en : vs) (s : S) : out P T S :=
  match fs with
  | [] => k [] en s
  | (m, e) :: fs' =>
      match assoc m ms with
      | Some t =>
          obind P T (run e (Ty t) en s) (fun v en s =>
            match v with
            | VOwn d => go_named fs' (fun ds => k ((m, d) :: ds)) en s
            | _ => Stuck
            end)
      | None => Stuck
      end
  end.
End Go.
Fixpoint go_tuple (es : list expr) (ms : list (string * N))
    (k : list (string * dyn P) -> vs -> S -> out P T S) (en : vs) (s : S) : out P T S :=
  match es, ms with
  | [], [] => k [] en s
  | e :: es', (m, t) :: ms' =>
      obind P T (run e (Ty t) en s) (fun v en s =>
        match v with
        | VOwn d => go_tuple es' ms' (fun ds => k ((m, d) :: ds)) en s
        | _ => Stuck
        end)
  | _, _ => Stuck
  end.
Definition made (c : cname) (ds : list (string * dyn P)) (en : vs) (s : S) : out P T S :=
  match st_make P T ST c ds with Some v => Next (VSelf v) en s | None => Stuck end.
Lemma eval_named c fs ex en s : run (XNamed c fs) ex en s =
  match st_members P T ST c with
  | Some (Named, ms) => if Nat.eqb (length fs) (length ms) then go_named ms fs (made c) en s else Stuck
  | _ => Stuck
  end.
Proof. reflexivity. Qed.
Lemma eval_tuple c es ex en s : run (XTuple c es) ex en s =
  match st_members P T ST c with
  | Some (Unnamed, ms) => go_tuple es ms (made c) en s
  | _ => Stuck
  end.
Proof. reflexivity. Qed.

Section Construct.
Context {X : Type} (env : X -> vs) (rd : forall A, field A -> X -> res (A * X)) (tmp_val : string -> expr)
        (is_path : string -> bool) (c : cname).
(** Reading one field, whatever has been read. *)
Definition field_reads (a : attribute) : Prop :=
  forall text t x s, run (emit_field tmp_val text a) (Ty t) (env x) s =
    rout (fun v => VOwn (existT _ t v)) env (rd _ {| f_attr := a; f_names := names_of P t text |} x) s.
Fixpoint construct_x (Ts : list Type) : hlist field Ts -> X -> res (tuple Ts * X) :=
  match Ts with
  | [] => fun _ x => Ok (tt, x)
  | A :: Ts' => fun fs x =>
      let! (t, x) := rd A (fst fs) x in
      let! (ts, x) := construct_x Ts' (snd fs) x in
      Ok ((t, ts), x)
  end.
Definition exprs (c : cname) (attrs : list attribute) (ms : list (string * sfield)) : list expr :=
  map (fun af => emit_field tmp_val (text_of c ++ "." ++ snd af) (fst af)) (combine attrs (map fst ms)).
Lemma go_named_eval all : forall ms fs attrs, matches P is_path c ms fs attrs -> Forall field_reads attrs ->
  (forall m f, In (m, f) ms -> assoc m all = Some (sf_ty f)) ->
  forall k x s,
  go_named all (combine (map fst ms) (exprs c attrs ms)) k (env x) s =
  match construct_x (types_of P ms) fs x with
  | Ok (ts, x) => k (fields_out P ms ts) (env x) s
  | Err e => Return (VErr e) s
  | Panic => Fault Panic s
  | NoFuel => Fault NoFuel s
  end.
Proof.
  induction ms as [|[m f] ms IH]; intros fs attrs M F Hm k x s.
  { cbn in M. subst. reflexivity. }
  destruct fs as [f0 fs]. destruct M as (a & attrs' & -> & E1 & _ & M). cbn in E1. subst f0.
  inversion_clear F as [|? ? F1 F2]. cbn [snd fst] in M.
  cbn [map fst combine exprs snd go_named]. rewrite (Hm m f) by (left; reflexivity).
  rewrite F1. cbn [types_of map construct_x fst snd]. fold (types_of P ms).
  destruct (rd _ _ x) as [[t x']| | |]; cbn [rout obind rbind]; try reflexivity.
  fold (exprs c attrs' ms).
  rewrite (IH fs attrs' M F2) by (intros; apply Hm; right; assumption).
  destruct (construct_x (types_of P ms) fs x') as [[ts x'']| | |]; reflexivity.
Qed.
Lemma go_tuple_eval : forall ms fs attrs, matches P is_path c ms fs attrs -> Forall field_reads attrs ->
  forall k x s,
  go_tuple (exprs c attrs ms) (map (fun m => (fst m, sf_ty (snd m))) ms) k (env x) s =
  match construct_x (types_of P ms) fs x with
  | Ok (ts, x) => k (fields_out P ms ts) (env x) s
  | Err e => Return (VErr e) s
  | Panic => Fault Panic s
  | NoFuel => Fault NoFuel s
  end.
Proof.
  induction ms as [|[m f] ms IH]; intros fs attrs M F k x s.
  { cbn in M. subst. reflexivity. }
  destruct fs as [f0 fs]. destruct M as (a & attrs' & -> & E1 & _ & M). cbn in E1. subst f0.
  inversion_clear F as [|? ? F1 F2]. cbn [snd fst] in M.
  cbn [map fst combine exprs snd go_tuple].
  rewrite F1. cbn [types_of map construct_x fst snd]. fold (types_of P ms).
  destruct (rd _ _ x) as [[t x']| | |]; cbn [rout obind rbind]; try reflexivity.
  fold (exprs c attrs' ms).
  rewrite (IH fs attrs' M F2).
  destruct (construct_x (types_of P ms) fs x') as [[ts x'']| | |]; reflexivity.
Qed.
Lemma constructor_eval fs ffs attrs inj : NoDup (map fst (members fs)) ->
  matches P is_path c (members fs) ffs attrs -> Forall field_reads attrs ->
  st_members P T ST c = Some (shape_of fs, member_types fs) ->
  (forall ts, st_make P T ST c (fields_out P (members fs) ts) = Some (inj ts)) ->
  forall a ex x s,
  run (emit_constructor tmp_val {| c_name := c; c_attribute := a; c_field_attributes := attrs; c_fields := fs |}) ex (env x) s =
  rout (fun ts => VSelf (inj ts)) env (construct_x (types_of P (members fs)) ffs x) s.
Proof.
  intros N0 M F Hm Hk a ex x s. unfold emit_constructor, emit_fields, field_text, ty_text.
  rewrite field_idents_members. cbn [c_fields c_name c_field_attributes]. fold (text_of c). fold (exprs c attrs (members fs)).
  assert (Fin : forall r : res (tuple (types_of P (members fs)) * X),
     match r with
     | Ok (ts, x) => made c (fields_out P (members fs) ts) (env x) s
     | Err e => Return (VErr e) s
     | Panic => Fault Panic s
     | NoFuel => Fault NoFuel s
     end = rout (fun ts => VSelf (inj ts)) env r s).
  { intros [[ts x']| | |]; try reflexivity. unfold made. rewrite Hk. reflexivity. }
  destruct fs as [fs|fs|].
  - rewrite eval_named, Hm. cbn [shape_of].
    replace (Nat.eqb _ _) with true.
    2:{ symmetry. apply Nat.eqb_eq. unfold member_types. rewrite combine_length, !map_length. unfold exprs.
        rewrite map_length, combine_length, map_length, (matches_length _ _ _ _ _ _ M). lia. }
    rewrite (go_named_eval (member_types (FNamed fs)) (members (FNamed fs)) ffs attrs M F); [apply Fin|].
    intros m f Hi. apply assoc_in.
    + unfold member_types. rewrite map_map. exact N0.
    + unfold member_types. apply in_map_iff. exists (m, f). auto.
  - rewrite eval_tuple, Hm. cbn [shape_of]. unfold member_types.
    rewrite (go_tuple_eval (members (FUnnamed fs)) ffs attrs M F). apply Fin.
  - cbn [eval]. rewrite Hm. cbn [shape_of]. change (@nil (string * dyn P)) with (fields_out P (members FUnit) tt).
    rewrite Hk. reflexivity.
Qed.
End Construct.

(** ** Fields *)
Lemma set_level_top i v x w y u (en : vs) : i = length en ->
  set_level P T i v ((x, w) :: (y, u) :: en) = (x, w) :: (y, v) :: en.
Proof.
  intros ->. cbn [set_level length]. rewrite Nat.eqb_refl.
  replace (Nat.eqb (length en) (Datatypes.S (length en))) with false by (symmetry; apply Nat.eqb_neq; lia).
  reflexivity.
Qed.
Lemma at_level_top i x w y u (en : vs) : i = length en -> at_level P T i ((x, w) :: (y, u) :: en) = Some u.
Proof.
  intros ->. cbn [at_level length]. rewrite Nat.eqb_refl.
  replace (Nat.eqb (length en) (Datatypes.S (length en))) with false by (symmetry; apply Nat.eqb_neq; lia).
  reflexivity.
Qed.
(** The variables while the fields are read. *)
Definition reading (en : vs) (bs : list N) : vs :=
  (contents_bytes, VMut (length en)) :: (contents_bytes, VOctets KOctets bs) :: en.

Lemma ber_val_eval en text t bs s :
  run (emit_ber_val text) (Ty t) (reading en bs) s =
  rout (fun v => VOwn (existT _ t v)) (reading en) (ber_value_of (describe P text) (impl_de P t) bs) s.
Proof.
  unfold emit_ber_val, ber_value_of, reading. cbn [eval annotated obind leave].
  rewrite local_same. cbn [obind]. rewrite at_level_top by reflexivity.
  rewrite set_level_top by reflexivity.
  destruct (BerRef_parse bs) as [[ber| e | |] rest]; cbn [fst snd parsed rbind returned obind with_context rmap_err message_number rout];
    try reflexivity.
  rewrite local_same. cbn [obind]. pose proof (disassemble_no_err ber) as Hn. destruct (disassemble ber) as [[[i l] ct]| e | |]; cbn [obind rbind leave fst snd rout]; try reflexivity; [|destruct (Hn e eq_refl)].
  cbn [local String.eqb Ascii.eqb Bool.eqb obind].
  destruct (from_ber (impl_de P t) i l ct); cbn [returned obind rbind with_context rmap_err message_number rout leave skipn]; reflexivity.
Qed.
Lemma der_val_eval en text t bs s :
  run (emit_der_val text) (Ty t) (reading en bs) s =
  rout (fun v => VOwn (existT _ t v)) (reading en) (der_value_of (describe P text) (impl_de P t) bs) s.
Proof.
  unfold emit_der_val, der_value_of, reading. cbn [eval annotated obind leave].
  rewrite local_same. cbn [obind]. rewrite at_level_top by reflexivity.
  rewrite set_level_top by reflexivity.
  destruct (DerRef_parse bs) as [[der| e | |] rest]; cbn [fst snd parsed rbind returned obind with_context rmap_err message_number rout];
    try reflexivity.
  rewrite local_same. cbn [obind]. pose proof (disassemble_no_err der) as Hn. destruct (disassemble der) as [[[i l] ct]| e | |]; cbn [obind rbind leave fst snd rout]; try reflexivity; [|destruct (Hn e eq_refl)].
  cbn [local String.eqb Ascii.eqb Bool.eqb obind].
  destruct (from_der (impl_de P t) i ct); cbn [returned obind rbind with_context rmap_err message_number rout leave skipn]; reflexivity.
Qed.
Definition default_free (en : vs) (a : attribute) : Prop :=
  is_skip_deserializing a = true -> is_local P T (default_path a) en = false.
Lemma ber_field_eval en a : (forall bs, default_free (reading en bs) a) ->
  field_reads (reading en) (@ber_field) emit_ber_val a.
Proof.
  intros Hd text t bs s. unfold emit_field, ber_field. cbn [f_attr f_names].
  destruct (is_skip_deserializing a) eqn:Sk.
  { cbn [eval]. rewrite (Hd bs Sk). reflexivity. }
  destruct (a_from a) as [ty|]; [|destruct (a_try_from a) as [ty|]].
  - cbn [eval annotated is_param existsb].
    replace (is_param P [] ty) with false by (unfold is_param; destruct (path_ident P ty); reflexivity).
    rewrite ber_val_eval. cbn [n_paths names_of p_from sr_de n_field].
    destruct (ber_value_of _ _ bs) as [[u rest]| | |]; reflexivity.
  - cbn [eval annotated is_param existsb].
    replace (is_param P [] ty) with false by (unfold is_param; destruct (path_ident P ty); reflexivity).
    rewrite ber_val_eval. cbn [n_paths names_of p_try_from ts_de n_field].
    destruct (ber_value_of _ _ bs) as [[u rest]| | |]; cbn [rout obind rbind projT1 projT2]; try reflexivity.
    cbn [ts_conv]. destruct (impl_try_from P (type_named P ty) t u); reflexivity.
  - apply ber_val_eval.
Qed.
Lemma der_field_eval en a : (forall bs, default_free (reading en bs) a) ->
  field_reads (reading en) (@der_field) emit_der_val a.
Proof.
  intros Hd text t bs s. unfold emit_field, der_field. cbn [f_attr f_names].
  destruct (is_skip_deserializing a) eqn:Sk.
  { cbn [eval]. rewrite (Hd bs Sk). reflexivity. }
  destruct (a_from a) as [ty|]; [|destruct (a_try_from a) as [ty|]].
  - cbn [eval annotated is_param existsb].
    replace (is_param P [] ty) with false by (unfold is_param; destruct (path_ident P ty); reflexivity).
    rewrite der_val_eval. cbn [n_paths names_of p_from sr_de n_field].
    destruct (der_value_of _ _ bs) as [[u rest]| | |]; reflexivity.
  - cbn [eval annotated is_param existsb].
    replace (is_param P [] ty) with false by (unfold is_param; destruct (path_ident P ty); reflexivity).
    rewrite der_val_eval. cbn [n_paths names_of p_try_from ts_de n_field].
    destruct (der_value_of _ _ bs) as [[u rest]| | |]; cbn [rout obind rbind projT1 projT2]; try reflexivity.
    cbn [ts_conv]. destruct (impl_try_from P (type_named P ty) t u); reflexivity.
  - apply der_val_eval.
Qed.
Lemma construct_x_construct rd : forall Ts fs bs, construct_x rd Ts fs bs = construct rd Ts fs bs.
Proof.
  induction Ts as [|A Ts IH]; intros fs bs; [reflexivity|]. cbn.
  destruct (rd A (fst fs) bs) as [[t bs']| | |]; cbn; try reflexivity. rewrite IH. reflexivity.
Qed.

(** A field of a transparent struct. *)
Definition whole (kd : N) (rd : forall U, deserialize U -> res U) (A : Type) (f : field A) (x : unit) : res (A * unit) :=
  let! t := whole_field kd rd f in Ok (t, tt).
Lemma construct_x_whole kd rd : forall Ts fs, construct_x (whole kd rd) Ts fs tt =
  let! ts := construct_whole kd rd Ts fs in Ok (ts, tt).
Proof.
  induction Ts as [|A Ts IH]; intros fs; [reflexivity|]. cbn. unfold whole at 1.
  destruct (whole_field kd rd (fst fs)) as [t| | |]; cbn; try reflexivity. rewrite IH.
  destruct (construct_whole kd rd Ts (snd fs)); reflexivity.
Qed.
Lemma whole_field_eval en a kd (rd : forall U, deserialize U -> res U) tmp_val : default_free en a ->
  (forall text t s, run (tmp_val text) (Ty t) en s =
     rout (fun v => VOwn (existT _ t v)) (fun _ : unit => en)
       (let! v := with_context kd (describe P text) (rd _ (impl_de P t)) in Ok (v, tt)) s) ->
  field_reads (fun _ : unit => en) (whole kd rd) tmp_val a.
Proof.
  intros Hd Hv text t [] s. unfold emit_field, whole, whole_field. cbn [f_attr f_names].
  destruct (is_skip_deserializing a) eqn:Sk.
  { cbn [eval]. rewrite (Hd Sk). reflexivity. }
  destruct (a_from a) as [ty|]; [|destruct (a_try_from a) as [ty|]].
  - cbn [eval annotated is_param existsb].
    replace (is_param P [] ty) with false by (unfold is_param; destruct (path_ident P ty); reflexivity).
    rewrite Hv. cbn [n_paths names_of p_from sr_de n_field].
    destruct (with_context _ _ _) as [u| | |]; reflexivity.
  - cbn [eval annotated is_param existsb].
    replace (is_param P [] ty) with false by (unfold is_param; destruct (path_ident P ty); reflexivity).
    rewrite Hv. cbn [n_paths names_of p_try_from ts_de n_field].
    destruct (with_context _ _ _) as [u| | |]; cbn [rout obind rbind projT1 projT2]; try reflexivity.
    cbn [ts_conv]. destruct (impl_try_from P (type_named P ty) t u); reflexivity.
  - rewrite Hv. destruct (with_context _ _ _) as [u| | |]; reflexivity.
Qed.

(** ** Contents *)
Section Contents.
Context (is_path : string -> bool) (c : cname) (fs : sfields) (ffs : hlist field (types_of P (members fs)))
        (attrs : list attribute) (inj : tuple (types_of P (members fs)) -> T) (a : attribute).
Context (N0 : NoDup (map fst (members fs))) (M : matches P is_path c (members fs) ffs attrs)
        (Hm : st_members P T ST c = Some (shape_of fs, member_types fs))
        (Hk : forall ts, st_make P T ST c (fields_out P (members fs) ts) = Some (inj ts)).
Let k := {| c_name := c; c_attribute := a; c_field_attributes := attrs; c_fields := fs |}.
Lemma all_read_eval en bs tmp_val rd s : Forall (field_reads (reading en) rd tmp_val) attrs ->
  finish P T (as_self P T) (run (emit_all_read k tmp_val) TheSelf ((contents_bytes, VOctets KOctets bs) :: en) s) =
  Some (let! ts := all_read (construct rd (types_of P (members fs)) ffs bs) in Ok (inj ts), s).
Proof.
  intros F. unfold emit_all_read. cbn [eval annotated obind]. 
  replace (level P T contents_bytes ((contents_bytes, VOctets KOctets bs) :: en)) with (Some (length en)) by reflexivity.
  cbn [obind]. fold (reading en bs). rewrite finish_leave.
  unfold k. rewrite (constructor_eval (reading en) rd tmp_val is_path c fs ffs attrs inj N0 M F Hm Hk a Any bs s).
  rewrite construct_x_construct. unfold all_read.
  destruct (construct rd (types_of P (members fs)) ffs bs) as [[ts bs']| | |]; cbn [rout obind rbind]; try reflexivity.
  rewrite finish_leave. unfold reading at 1. 
  rewrite local_cons by discriminate. rewrite local_same. cbn [obind].
  unfold reading. replace (at_level P T _ _) with (Some (VOctets (P := P) (Self := T) KOctets bs')).
  2:{ cbn [at_level length]. rewrite Nat.eqb_refl.
      replace (Nat.eqb (length en) (Datatypes.S (Datatypes.S (length en)))) with false by (symmetry; apply Nat.eqb_neq; lia).
      replace (Nat.eqb (length en) (Datatypes.S (length en))) with false by (symmetry; apply Nat.eqb_neq; lia).
      reflexivity. }
  cbn [obind]. destruct (nlen bs' =? 0); reflexivity.
Qed.
(** The parameters of the methods. *)
Definition ber_scope (id : list N) (len : Length) (contents : list N) : vs :=
  [("contents", VOctets KContents contents); ("length", VLength len); ("id", VOctets KId id)].
Definition der_scope (id contents : list N) : vs :=
  [("contents", VOctets KContents contents); ("id", VOctets KId id)].
Lemma contents_bytes_scope (en : vs) x v : x <> contents_bytes -> local P T x en = Some v ->
  forall w, local P T x ((contents_bytes, w) :: en) = Some v.
Proof. intros H1 H2 w. rewrite local_cons; auto. Qed.
Lemma from_ber_contents_eval id len contents s : Forall (fun b => forall bs, default_free (reading (ber_scope id len contents) bs) b) attrs ->
  finish P T (as_self P T) (run (emit_from_ber_contents k (XPath "length") (XPath "contents")) TheSelf (ber_scope id len contents) s) =
  Some (let! ts := from_ber_contents E {| dc_attr := a; dc_fields := ffs |} len contents in Ok (inj ts), s).
Proof.
  intros F.
  assert (F2 : Forall (field_reads (reading (ber_scope id len contents)) (@ber_field) emit_ber_val) attrs)
    by (eapply Forall_impl; [|exact F]; intros; now apply ber_field_eval).
  pose proof (fun bs => all_read_eval (ber_scope id len contents) bs emit_ber_val (@ber_field) s F2) as H.
  set (en := ber_scope id len contents) in *.
  unfold emit_from_ber_contents, from_ber_contents. cbn [eval annotated obind].
  replace (local P T "length" en) with (Some (VLength (P := P) (Self := T) len)) by reflexivity. cbn [obind].
  destruct len as [|n]; cbn [dc_fields].
  - replace (local P T "contents" en) with (Some (VOctets (P := P) (Self := T) KContents contents)) by reflexivity. cbn [obind].
    rewrite local_cons by discriminate. rewrite local_same. cbn [obind]. rewrite local_same. cbn [obind].
    destruct (ends_with contents EOC) eqn:Ee; cbn [obind leave rbind]; [|reflexivity].
    assert (Hle : nlen EOC <= nlen contents).
    { unfold ends_with in Ee. apply andb_true_iff in Ee. destruct Ee as [Ee _]. now apply N.leb_le in Ee. }
    repeat (rewrite local_cons by discriminate; rewrite ?local_same; cbn [obind]; rewrite ?local_same; cbn [obind]).
    rewrite (proj2 (N.leb_le _ _) Hle). cbn [obind].
    replace (nlen contents - nlen EOC <=? nlen contents) with true by (symmetry; apply N.leb_le; lia).
    cbn [obind leave skipn]. rewrite finish_leave. apply H.
  - rewrite local_same. cbn [obind].
    replace (local P T "contents" ((_, VNum n) :: en)) with (Some (VOctets (P := P) (Self := T) KContents contents)) by reflexivity.
    cbn [obind]. unfold debug_assert. destruct (e_debug E && negb (n =? nlen contents)) eqn:Ed; cbn [obind leave rbind]; [reflexivity|].
    replace (local P T "contents" ((_, VNum n) :: en)) with (Some (VOctets (P := P) (Self := T) KContents contents)) by reflexivity.
    cbn [obind leave skipn]. rewrite finish_leave. apply H.
Qed.
Lemma from_der_contents_eval id contents s : Forall (fun b => forall bs, default_free (reading (der_scope id contents) bs) b) attrs ->
  finish P T (as_self P T) (run (emit_from_der_contents k (XPath "contents")) TheSelf (der_scope id contents) s) =
  Some (let! ts := from_der_contents {| dc_attr := a; dc_fields := ffs |} contents in Ok (inj ts), s).
Proof.
  intros F.
  assert (F2 : Forall (field_reads (reading (der_scope id contents)) (@der_field) emit_der_val) attrs)
    by (eapply Forall_impl; [|exact F]; intros; now apply der_field_eval).
  pose proof (fun bs => all_read_eval (der_scope id contents) bs emit_der_val (@der_field) s F2) as H.
  unfold emit_from_der_contents, from_der_contents. cbn [eval annotated obind].
  replace (local P T "contents" _) with (Some (VOctets (P := P) (Self := T) KContents contents)) by reflexivity.
  cbn [obind]. rewrite finish_leave. apply H.
Qed.
End Contents.
End De.

(** ** Whole declarations *)
Lemma cast_same P t (v : den P t) : cast P t (existT _ t v) = Some v.
Proof.
  unfold cast. cbn [projT1 projT2]. destruct (N.eq_dec t t) as [e|n]; [|congruence].
  now rewrite (UIP_dec N.eq_dec e eq_refl).
Qed.
Lemma fields_in_assoc P (ds : list (string * dyn P)) : NoDup (map fst ds) ->
  forall ms (ts : tuple (types_of P ms)), incl (fields_out P ms ts) ds -> fields_in P ms ds = Some ts.
Proof.
  intros N0. induction ms as [|[m f] ms IH]; intros ts Hi; [destruct ts; reflexivity|].
  destruct ts as [t ts]. cbn [fields_in fields_out fst snd] in *.
  rewrite (assoc_in (A := dyn P) m (existT _ (sf_ty f) t) ds N0) by (apply Hi; left; reflexivity).
  rewrite cast_same. rewrite (IH ts) by (intros x Hx; apply Hi; right; exact Hx). reflexivity.
Qed.
Lemma fields_in_out P ms (ts : tuple (types_of P ms)) : NoDup (map fst ms) -> fields_in P ms (fields_out P ms ts) = Some ts.
Proof. intros N0. apply fields_in_assoc; [now rewrite fields_out_names|]. intros x Hx. exact Hx. Qed.

Section Scopes.
Context (P : program) {T : Type}.
Lemma de_free_default (en : vars P T) variables a : incl (map fst en) variables ->
  de_free P variables a -> default_free P en a.
Proof.
  intros Hi Hf Hs. apply is_local_free. intros H. apply (Hf Hs). eapply one_of_incl; eauto.
Qed.
Lemma ber_scope_names id len contents : incl (map fst (ber_scope P (T := T) id len contents)) de_variables.
Proof. intros x. cbn. tauto. Qed.
Lemma der_scope_names id contents : incl (map fst (der_scope P (T := T) id contents)) de_variables.
Proof. intros x. cbn. tauto. Qed.
Lemma reading_names (en : vars P T) bs : incl (map fst en) de_variables -> incl (map fst (reading P en bs)) de_variables_fields.
Proof. intros H x [Hx|[Hx|Hx]]; [now left|now left|right; now apply H]. Qed.
End Scopes.

Lemma finish_rout P {T S A X} (inj : A -> T) (env : X -> vars P T) (r : res (A * X)) (s : S) :
  finish P T (as_self P T) (obind P T (rout P (fun a => VSelf (inj a)) env r s) (fun v en s => Next (VOk v) en s)) =
  Some (let! (a, _) := r in Ok (inj a), s).
Proof. destruct r as [[a x]| | |]; reflexivity. Qed.

Section StructDe.
Context (P : program) (E : env) (is_path : string -> bool).
Lemma struct_de a name fs I code :
  NoDup (map fst (members fs)) ->
  fields_hold is_path (de_free P (if a_transparent a then de_variables else de_variables_fields)) fs ->
  emit_deserialize_struct is_path a name fs = Some code ->
  exists D, do_deserialize_struct is_path E a (types_of P (members fs)) (decls_of P (CStruct name) (members fs)) = Some D /\
            means_de P E (self_of P name (SStruct fs) I) code D.
Proof.
  intros N0 F Hc. unfold emit_deserialize_struct in Hc. rewrite emit_struct_inv in Hc.
  unfold do_deserialize_struct, try_struct. destruct (sanitize_as_struct a); [|discriminate]. cbn [negb] in *.
  pose proof (parse_fields_ok P is_path (CStruct name) (members fs)) as Hp.
  destruct (parse_fields is_path (map snd (members fs))) as [attrs|]; [|discriminate].
  destruct Hp as (ffs & E1 & M). rewrite E1. cbn [dc_attr dc_fields].
  pose proof (matches_hold _ _ _ _ _ _ _ M F) as Fa.
  set (ST := self_of P name (SStruct fs) I).
  set (Tv := value (data_of P name (SStruct fs))) in *.
  assert (Hm : st_members P Tv ST (CStruct name) = Some (shape_of fs, member_types fs)).
  { cbn [ST self_of st_members]. unfold cname_eqb. now rewrite String.eqb_refl. }
  assert (Hk : forall ts, st_make P Tv ST (CStruct name) (fields_out P (members fs) ts) = Some ts).
  { intros ts. cbn [ST self_of st_make]. unfold cname_eqb. rewrite String.eqb_refl. now apply fields_in_out. }
  cbn [c_attribute] in Hc. destruct (a_transparent a) eqn:Et.
  - unfold emit_from_ber_transparent, emit_from_der_transparent, emit_transparent in Hc. cbn [c_field_attributes] in Hc.
    unfold de_transparent. cbn [dc_fields]. rewrite (matches_attributes _ _ _ _ _ _ M).
    destruct (_ =? 1); [|discriminate]. injection Hc as <-. eexists. split; [reflexivity|].
    intros id contents. cbn [code_from_ber code_from_der from_ber from_der]. split.
    + intros len. unfold run_from_ber.
      change ([("contents", VOctets KContents contents); ("length", VLength len); ("id", VOctets KId id)])
        with ((fun _ : unit => ber_scope P (T := Tv) id len contents) tt).
      cbn [eval annotated].
      assert (Fr : Forall (field_reads P E ST no_writer (fun _ : unit => ber_scope P (T := Tv) id len contents)
                             (whole 1 (fun _ D => from_ber D id len contents)) (fun text => XTry (XMapErr (MField 1 text) (XFromBer (XPath "id") (XPath "length") (XPath "contents"))))) attrs).
      { eapply Forall_impl; [|exact Fa]. intros b Hb. apply whole_field_eval.
        { eapply de_free_default; [apply ber_scope_names|exact Hb]. }
        intros text t s. cbn [eval annotated].
        replace (local P Tv "id" _) with (Some (VOctets (P := P) (Self := Tv) KId id)) by reflexivity. cbn [obind].
        replace (local P Tv "length" _) with (Some (VLength (P := P) (Self := Tv) len)) by reflexivity. cbn [obind].
        replace (local P Tv "contents" _) with (Some (VOctets (P := P) (Self := Tv) KContents contents)) by reflexivity. cbn [obind].
        destruct (from_ber (impl_de P t) id len contents); reflexivity.
      }
      rewrite (constructor_eval P E ST no_writer (fun _ : unit => ber_scope P (T := Tv) id len contents)
                 _ _ is_path (CStruct name) fs ffs attrs (fun ts => ts)
                 N0 M Fr Hm Hk a TheSelf tt tt).
      rewrite construct_x_whole. rewrite (finish_rout P (fun ts => ts)).
      destruct (construct_whole _ _ _ _); reflexivity.
    + unfold run_from_der.
      change ([("contents", VOctets KContents contents); ("id", VOctets KId id)])
        with ((fun _ : unit => der_scope P (T := Tv) id contents) tt).
      cbn [eval annotated].
      assert (Fr : Forall (field_reads P E ST no_writer (fun _ : unit => der_scope P (T := Tv) id contents)
                             (whole 3 (fun _ D => from_der D id contents)) (fun text => XTry (XMapErr (MField 3 text) (XFromDer (XPath "id") (XPath "contents"))))) attrs).
      { eapply Forall_impl; [|exact Fa]. intros b Hb. apply whole_field_eval.
        { eapply de_free_default; [apply der_scope_names|exact Hb]. }
        intros text t s. cbn [eval annotated].
        replace (local P Tv "id" _) with (Some (VOctets (P := P) (Self := Tv) KId id)) by reflexivity. cbn [obind].
        replace (local P Tv "contents" _) with (Some (VOctets (P := P) (Self := Tv) KContents contents)) by reflexivity. cbn [obind].
        destruct (from_der (impl_de P t) id contents); reflexivity.
      }
      rewrite (constructor_eval P E ST no_writer (fun _ : unit => der_scope P (T := Tv) id contents)
                 _ _ is_path (CStruct name) fs ffs attrs (fun ts => ts)
                 N0 M Fr Hm Hk a TheSelf tt tt).
      rewrite construct_x_whole. rewrite (finish_rout P (fun ts => ts)).
      destruct (construct_whole _ _ _ _); reflexivity.
  - injection Hc as <-. eexists. split; [reflexivity|]. intros id contents. cbn [code_from_ber code_from_der from_ber from_der]. split.
    + intros len. unfold run_from_ber.
      change ([("contents", VOctets KContents contents); ("length", VLength len); ("id", VOctets KId id)])
        with (ber_scope P (T := Tv) id len contents).
      assert (Fd : Forall (fun b => forall bs, default_free P (reading P (ber_scope P (T := Tv) id len contents) bs) b) attrs).
      { eapply Forall_impl; [|exact Fa]. intros b Hb bs. eapply de_free_default; [|exact Hb].
        apply reading_names, ber_scope_names. }
      pose proof (from_ber_contents_eval P E ST no_writer is_path (CStruct name) fs ffs attrs (fun ts => ts) a N0 M Hm Hk
                    id len contents tt Fd) as H.
      cbn [eval annotated].
      replace (local P Tv "id" _) with (Some (VOctets (P := P) (Self := Tv) KId id)) by reflexivity. cbn [obind].
      destruct (bytes_eqb id (id_slice a)); cbn [negb obind]; [|reflexivity].
      rewrite H. destruct (from_ber_contents _ _ _ _); reflexivity.
    + unfold run_from_der.
      change ([("contents", VOctets KContents contents); ("id", VOctets KId id)])
        with (der_scope P (T := Tv) id contents).
      assert (Fd : Forall (fun b => forall bs, default_free P (reading P (der_scope P (T := Tv) id contents) bs) b) attrs).
      { eapply Forall_impl; [|exact Fa]. intros b Hb bs. eapply de_free_default; [|exact Hb].
        apply reading_names, der_scope_names. }
      pose proof (from_der_contents_eval P E ST no_writer is_path (CStruct name) fs ffs attrs (fun ts => ts) a N0 M Hm Hk
                    id contents tt Fd) as H.
      cbn [eval annotated].
      replace (local P Tv "id" _) with (Some (VOctets (P := P) (Self := Tv) KId id)) by reflexivity. cbn [obind].
      destruct (bytes_eqb id (id_slice a)); cbn [negb obind]; [|reflexivity].
      rewrite H. destruct (from_der_contents _ _); reflexivity.
Qed.
Lemma struct_de_none a name fs : emit_deserialize_struct is_path a name fs = None ->
  do_deserialize_struct is_path E a (types_of P (members fs)) (decls_of P (CStruct name) (members fs)) = None.
Proof.
  intros Hc. unfold emit_deserialize_struct in Hc. rewrite emit_struct_inv in Hc.
  unfold do_deserialize_struct, try_struct. destruct (sanitize_as_struct a); [|reflexivity]. cbn [negb] in *.
  pose proof (parse_fields_ok P is_path (CStruct name) (members fs)) as Hp.
  destruct (parse_fields is_path (map snd (members fs))) as [attrs|]; [|now rewrite Hp].
  destruct Hp as (ffs & E1 & M). rewrite E1. cbn [dc_attr dc_fields c_attribute] in *.
  destruct (a_transparent a) eqn:Et; [|discriminate].
  unfold emit_from_ber_transparent, emit_from_der_transparent, emit_transparent in Hc. cbn [c_field_attributes] in Hc.
  unfold de_transparent. cbn [dc_fields]. rewrite (matches_attributes _ _ _ _ _ _ M).
  destruct (_ =? 1); [discriminate|reflexivity].
Qed.
End StructDe.

Section EnumDe.
Context (P : program) (is_path : string -> bool) (E : env) (name : string).
Section Dispatch.
Context {T : Type} (ST : self_type P T).
Fixpoint makes (vs : list svariant) : (choice (variant_types P vs) -> T) -> Prop :=
  match vs with
  | [] => fun _ => True
  | w :: vs' => fun inj =>
      st_members P T ST (CVariant name (sv_ident w)) = Some (shape_of (sv_fields w), member_types (sv_fields w)) /\
      (forall ts, st_make P T ST (CVariant name (sv_ident w)) (fields_out P (members (sv_fields w)) ts) = Some (inj (inl ts))) /\
      makes vs' (fun v => inj (inr v))
  end.
Definition variant_de_free (w : svariant) : Prop := fields_hold is_path (de_free P de_variables_fields) (sv_fields w).
Lemma id_test_eval en id bs (a b : expr) ex : local P T "id" en = Some (VOctets KId id) ->
  eval P T E ST [] no_writer (XIf (XEq (XAsRef (XPath "id")) (XOctets bs)) a b) ex en tt =
  eval P T E ST [] no_writer (if bytes_eqb id bs then a else b) ex en tt.
Proof. intros H. cbn [eval]. rewrite H. cbn [obind]. now destruct (bytes_eqb id bs). Qed.
Lemma container_eta c : c = {| c_name := c_name c; c_attribute := c_attribute c; c_field_attributes := c_field_attributes c; c_fields := c_fields c |}.
Proof. now destruct c. Qed.
Lemma dispatch_ber_eval id len contents : forall vs dcs cs inj, cmatches P is_path name vs dcs cs -> makes vs inj ->
  Forall (fun w => NoDup (map fst (members (sv_fields w)))) vs -> Forall variant_de_free vs ->
  finish P T (as_self P T)
    (eval P T E ST [] no_writer (emit_dispatch (fun c => emit_from_ber_contents c (XPath "length") (XPath "contents")) cs)
       TheSelf (ber_scope P id len contents) tt) =
  Some (let! v := dispatch (fun Ts dc x => from_ber_contents E dc (fst x) (snd x)) (variant_types P vs) dcs id (len, contents) in
        Ok (inj v), tt).
Proof.
  induction vs as [|w vs IH]; intros dcs cs inj C Mk N0 F.
  { cbn in C. subst. reflexivity. }
  destruct dcs as [dc dcs]. destruct C as (c & cs' & -> & En & Ef & Ea & M & C). destruct Mk as (Hm & Hk & Mk).
  inversion_clear N0 as [|? ? N1 N2]. inversion_clear F as [|? ? F1 F2]. cbn [fst snd] in *.
  cbn [emit_dispatch]. rewrite (id_test_eval _ id) by reflexivity. cbn [variant_types map dispatch fst snd]. fold (variant_types P vs).
  rewrite Ea. destruct (bytes_eqb id (id_slice (dc_attr dc))).
  - rewrite (container_eta c), En, Ef, Ea. destruct dc as [a ffs]. cbn [dc_attr dc_fields] in *.
    rewrite (from_ber_contents_eval P E ST no_writer is_path (CVariant name (sv_ident w)) (sv_fields w) ffs
               (c_field_attributes c) (fun ts => inj (inl ts)) a N1 M Hm Hk id len contents tt).
    + destruct (from_ber_contents E _ len contents); reflexivity.
    + pose proof (matches_hold _ _ _ _ _ _ _ M F1) as Fa. eapply Forall_impl; [|exact Fa].
      intros b Hb bs. eapply de_free_default; [|exact Hb]. apply reading_names, ber_scope_names.
  - rewrite (IH dcs cs' (fun v => inj (inr v)) C Mk N2 F2).
    destruct (dispatch _ (variant_types P vs) dcs id (len, contents)); reflexivity.
Qed.
Lemma dispatch_der_eval id contents : forall vs dcs cs inj, cmatches P is_path name vs dcs cs -> makes vs inj ->
  Forall (fun w => NoDup (map fst (members (sv_fields w)))) vs -> Forall variant_de_free vs ->
  finish P T (as_self P T)
    (eval P T E ST [] no_writer (emit_dispatch (fun c => emit_from_der_contents c (XPath "contents")) cs)
       TheSelf (der_scope P id contents) tt) =
  Some (let! v := dispatch (fun Ts dc x => from_der_contents dc x) (variant_types P vs) dcs id contents in
        Ok (inj v), tt).
Proof.
  induction vs as [|w vs IH]; intros dcs cs inj C Mk N0 F.
  { cbn in C. subst. reflexivity. }
  destruct dcs as [dc dcs]. destruct C as (c & cs' & -> & En & Ef & Ea & M & C). destruct Mk as (Hm & Hk & Mk).
  inversion_clear N0 as [|? ? N1 N2]. inversion_clear F as [|? ? F1 F2]. cbn [fst snd] in *.
  cbn [emit_dispatch]. rewrite (id_test_eval _ id) by reflexivity. cbn [variant_types map dispatch fst snd]. fold (variant_types P vs).
  rewrite Ea. destruct (bytes_eqb id (id_slice (dc_attr dc))).
  - rewrite (container_eta c), En, Ef, Ea. destruct dc as [a ffs]. cbn [dc_attr dc_fields] in *.
    rewrite (from_der_contents_eval P E ST no_writer is_path (CVariant name (sv_ident w)) (sv_fields w) ffs
               (c_field_attributes c) (fun ts => inj (inl ts)) a N1 M Hm Hk id contents tt).
    + destruct (from_der_contents _ contents); reflexivity.
    + pose proof (matches_hold _ _ _ _ _ _ _ M F1) as Fa. eapply Forall_impl; [|exact Fa].
      intros b Hb bs. eapply de_free_default; [|exact Hb]. apply reading_names, der_scope_names.
  - rewrite (IH dcs cs' (fun v => inj (inr v)) C Mk N2 F2).
    destruct (dispatch _ (variant_types P vs) dcs id contents); reflexivity.
Qed.
End Dispatch.

Lemma cname_variant x y : cname_eqb (CVariant name x) (CVariant name y) = String.eqb x y.
Proof. cbn [cname_eqb]. now rewrite String.eqb_refl. Qed.
(** Constructors of an enum make the variants. *)
Lemma makes_enum {T} (ST : self_type P T) : forall vs (inj : choice (variant_types P vs) -> T),
  NoDup (map sv_ident vs) -> Forall (fun w => NoDup (map fst (members (sv_fields w)))) vs ->
  (forall w, In w vs -> st_members P T ST (CVariant name (sv_ident w)) = variant_members name vs (CVariant name (sv_ident w))) ->
  (forall w ds, In w vs -> st_make P T ST (CVariant name (sv_ident w)) ds =
     get v := variant_in P name vs (CVariant name (sv_ident w)) ds in Some (inj v)) ->
  makes ST vs inj.
Proof.
  induction vs as [|w vs IH]; intros inj N1 N2 H1 H2; [exact Logic.I|].
  inversion_clear N1 as [|? ? Nw N1']. inversion_clear N2 as [|? ? Nf N2']. cbn [makes].
  split; [|split].
  - rewrite (H1 w) by (left; reflexivity). cbn [variant_members]. now rewrite cname_variant, String.eqb_refl.
  - intros ts. rewrite (H2 w) by (left; reflexivity). cbn [variant_in]. rewrite cname_variant, String.eqb_refl.
    rewrite fields_in_out by assumption. reflexivity.
  - assert (Ne : forall w', In w' vs -> String.eqb (sv_ident w') (sv_ident w) = false).
    { intros w' Hw. apply String.eqb_neq. intros Eq. apply Nw. rewrite <- Eq. now apply in_map. }
    apply IH; try assumption.
    + intros w' Hw. rewrite (H1 w') by (right; assumption). cbn [variant_members]. now rewrite cname_variant, Ne.
    + intros w' ds Hw. rewrite (H2 w') by (right; assumption). cbn [variant_in]. rewrite cname_variant, Ne by assumption.
      now destruct (variant_in P name vs _ ds).
Qed.
Lemma enum_de a vs I code :
  NoDup (map sv_ident vs) -> Forall (fun w => NoDup (map fst (members (sv_fields w)))) vs -> Forall variant_de_free vs ->
  emit_deserialize_enum is_path a name vs = Some code ->
  exists D, do_deserialize_enum is_path E a (variant_types P vs) (variants_of P name vs) = Some D /\
            means_de P E (self_of P name (SEnum vs) I) code D.
Proof.
  intros N1 N2 F Hc. unfold emit_deserialize_enum in Hc. unfold do_deserialize_enum.
  destruct (sanitize_as_enum a) eqn:Sa; [|discriminate]. cbn [negb] in *.
  pose proof (containers_ok P is_path name vs) as Hp. destruct (containers is_path name vs) as [cs|] eqn:Ec; [|discriminate].
  destruct Hp as (dcs & E1 & C). rewrite E1. injection Hc as <-. eexists. split; [reflexivity|].
  set (ST := self_of P name (SEnum vs) I). set (Tv := value (data_of P name (SEnum vs))) in *.
  assert (Mk : makes ST vs (fun v => v)).
  { apply makes_enum; try assumption; [reflexivity|]. intros w ds _. cbn [ST self_of st_make].
    now destruct (variant_in P name vs _ ds). }
  intros id contents. cbn [code_from_ber code_from_der from_ber from_der]. split.
  - intros len. unfold run_from_ber.
    change ([("contents", VOctets KContents contents); ("length", VLength len); ("id", VOctets KId id)])
      with (ber_scope P (T := Tv) id len contents).
    rewrite (dispatch_ber_eval ST id len contents vs dcs cs (fun v => v) C Mk N2 F).
    destruct (dispatch _ _ _ _ _); reflexivity.
  - unfold run_from_der.
    change ([("contents", VOctets KContents contents); ("id", VOctets KId id)])
      with (der_scope P (T := Tv) id contents).
    rewrite (dispatch_der_eval ST id contents vs dcs cs (fun v => v) C Mk N2 F).
    destruct (dispatch _ _ _ _ _); reflexivity.
Qed.
Lemma enum_de_none a vs : emit_deserialize_enum is_path a name vs = None ->
  do_deserialize_enum is_path E a (variant_types P vs) (variants_of P name vs) = None.
Proof.
  unfold emit_deserialize_enum, do_deserialize_enum. destruct (sanitize_as_enum a); cbn [negb]; [|reflexivity].
  pose proof (containers_ok P is_path name vs) as Hp. destruct (containers is_path name vs); [discriminate|]. now rewrite Hp.
Qed.
End EnumDe.

(** ** The macros *)
Section Macros.
Context (P : program) (E : env) (is_path : string -> bool) (attrs : list syn_attribute) (name : string) (d : sdata)
        (I : self_impls P (value (data_of P name d))).
Let ST := self_of P name d I.
Lemma st_into_of b v : st_into P _ ST b v = si_into P _ I b v.
Proof. unfold ST. destruct d; reflexivity. Qed.
Lemma st_to_of f : st_to P _ ST f = si_to P _ I f.
Proof. unfold ST. destruct d; reflexivity. Qed.
Lemma st_from_of a v : st_from P _ ST a v = si_from P _ I a v.
Proof. unfold ST. destruct d; reflexivity. Qed.
Lemma st_try_from_of a v : st_try_from P _ ST a v = si_try_from P _ I a v.
Proof. unfold ST. destruct d; reflexivity. Qed.
Lemma into_means ty : ~ one_of P ["W"] ty ->
  means_ser P E ST (emit_into_serialize ty) (ser_converted (p_into (paths_of P I) ty)).
Proof.
  intros H v. cbn [emit_into_serialize code_write_id code_write_der_contents code_id_len code_der_contents_len
                   ser_converted write_id write_der_contents id_len der_contents_len p_into paths_of tg_ser tg_conv].
  pose proof (is_param_free P ["W"] ty H) as Hp.
  split; [|split; [|split]]; try reflexivity; intros S W s; unfold run_write; cbn -[is_param type_named];
    rewrite Hp; cbn; rewrite st_into_of;
    [destruct (write_id _ W _ s) as [[[]| | |] s1]|destruct (write_der_contents _ W _ s) as [[[]| | |] s1]]; reflexivity.
Qed.
Lemma to_means f : ~ one_of P ser_variables f ->
  means_ser P E ST (emit_to_serialize f) (ser_converted (p_to (paths_of P I) f)).
Proof.
  intros H v. cbn [emit_to_serialize code_write_id code_write_der_contents code_id_len code_der_contents_len
                   ser_converted write_id write_der_contents id_len der_contents_len p_to paths_of tg_ser tg_conv].
  assert (Hp : is_local P _ f (write_scope P v) = false).
  { apply is_local_free. intros X. apply H. eapply one_of_incl; [|exact X]. intros x; cbn; tauto. }
  unfold write_scope in Hp.
  split; [|split; [|split]]; try reflexivity; intros S W s; unfold run_write; cbn -[is_local];
    rewrite Hp; cbn; rewrite st_to_of;
    [destruct (write_id _ W _ s) as [[[]| | |] s1]|destruct (write_der_contents _ W _ s) as [[[]| | |] s1]]; reflexivity.
Qed.
Lemma from_means ty : means_de P E ST (emit_from_deserialize ty) (do_from_deserialize (p_from (paths_of P I) ty)).
Proof.
  intros id contents. 
  assert (Hp : is_param P [] ty = false) by (unfold is_param; destruct (path_ident P ty); reflexivity).
  split; [intros len|]; unfold run_from_ber, run_from_der; cbn -[is_param type_named]; rewrite Hp; cbn;
    [destruct (from_ber _ id len contents)|destruct (from_der _ id contents)]; cbn; try reflexivity;
    now rewrite st_from_of.
Qed.
Lemma try_from_means ty : means_de P E ST (emit_try_from_deserialize ty) (do_try_from_deserialize (p_try_from (paths_of P I) ty)).
Proof.
  intros id contents. 
  assert (Hp : is_param P [] ty = false) by (unfold is_param; destruct (path_ident P ty); reflexivity).
  split; [intros len|]; unfold run_from_ber, run_from_der; cbn -[is_param type_named]; rewrite Hp; cbn;
    [destruct (from_ber _ id len contents)|destruct (from_der _ id contents)]; cbn; try reflexivity;
    rewrite st_try_from_of; destruct (si_try_from P _ I _ _); reflexivity.
Qed.
End Macros.

Theorem emitted_serialize P E is_path attrs name d I code :
  distinct d -> ser_hygienic P is_path attrs d -> emit_serialize is_path attrs name d = Some code ->
  exists D, do_serialize is_path E attrs (data_of P name d) (paths_of P I) = Some D /\
            means_ser P E (self_of P name d I) code D.
Proof.
  intros Hd Hh Hc. unfold emit_serialize in Hc. unfold do_serialize.
  unfold ser_hygienic, attrs_hold in Hh.
  destruct (Attribute_try_from is_path attrs) as [a|]; [|discriminate]. specialize (Hh a eq_refl).
  destruct (sanitize_as_container a); cbn [negb] in *; [|discriminate].
  destruct (a_into a) as [ty|].
  { injection Hc as <-. eexists. split; [reflexivity|]. now apply into_means. }
  destruct (a_to a) as [f|].
  { injection Hc as <-. eexists. split; [reflexivity|]. now apply to_means. }
  destruct d as [fs|vs|u]; [| |discriminate].
  - now apply struct_ser.
  - destruct Hd as [N1 N2]. now apply enum_ser.
Qed.
Theorem emitted_deserialize P E is_path attrs name d I code :
  distinct d -> de_hygienic P is_path attrs d -> emit_deserialize is_path attrs name d = Some code ->
  exists D, do_deserialize is_path E attrs (data_of P name d) (paths_of P I) = Some D /\
            means_de P E (self_of P name d I) code D.
Proof.
  intros Hd Hh Hc. unfold emit_deserialize in Hc. unfold do_deserialize.
  unfold de_hygienic, attrs_hold in Hh.
  destruct (Attribute_try_from is_path attrs) as [a|]; [|discriminate]. specialize (Hh a eq_refl).
  destruct (sanitize_as_container a); cbn [negb] in *; [|discriminate].
  destruct (a_from a) as [ty|].
  { injection Hc as <-. eexists. split; [reflexivity|]. apply from_means. }
  destruct (a_try_from a) as [f|].
  { injection Hc as <-. eexists. split; [reflexivity|]. apply try_from_means. }
  destruct d as [fs|vs|u]; [| |discriminate].
  - now apply struct_de.
  - destruct Hd as [N1 N2]. now apply enum_de.
Qed.

(** ** When nothing is emitted *)
Lemma struct_ser_some P E is_path a name fs code : emit_serialize_struct is_path a name fs = Some code ->
  do_serialize_struct is_path E a (types_of P (members fs)) (decls_of P (CStruct name) (members fs)) <> None.
Proof.
  intros Hc. unfold emit_serialize_struct in Hc. rewrite emit_struct_inv in Hc.
  unfold do_serialize_struct, try_struct. destruct (sanitize_as_struct a); [|discriminate]. cbn [negb] in *.
  pose proof (parse_fields_ok P is_path (CStruct name) (members fs)) as Hp.
  destruct (parse_fields is_path (map snd (members fs))) as [attrs|]; [|discriminate].
  destruct Hp as (ffs & E1 & M). rewrite E1. cbn [dc_attr dc_fields c_attribute] in *.
  destruct (a_transparent a) eqn:Et; [|discriminate].
  set (es := map XSelfField (map fst (members fs))).
  unfold emit_write_id_transparent in Hc.
  pose proof (transparent_field_struct a name fs attrs) as Etf.
  pose proof (transparent_length P _ _ _ _ _ es M ltac:(unfold es; now rewrite !map_length)) as Hl.
  fold es in Etf. unfold ser_transparent. cbn [dc_fields].
  destruct (filter _ (combine es attrs)) as [|[e b] [|]] eqn:Ef; rewrite Etf in Hc; try discriminate Hc.
  destruct (transparent_fields (types_of P (members fs)) ffs) as [|D [|]]; try discriminate Hl. discriminate.
Qed.
Theorem emitted_serialize_none P E is_path attrs name d I :
  emit_serialize is_path attrs name d = None <->
  do_serialize is_path E attrs (data_of P name d) (paths_of P I) = None \/
  raw_in_variant d /\ exists a, Attribute_try_from is_path attrs = Some a /\ a_into a = None /\ a_to a = None.
Proof.
  unfold emit_serialize, do_serialize.
  destruct (Attribute_try_from is_path attrs) as [a|]; [|tauto].
  destruct (sanitize_as_container a); cbn [negb]; [|tauto].
  destruct (a_into a) as [ty|] eqn:Ei.
  { split; [discriminate|]. intros [H|(_ & a' & [= <-] & H & _)]; [discriminate|congruence]. }
  destruct (a_to a) as [f|] eqn:Et.
  { split; [discriminate|]. intros [H|(_ & a' & [= <-] & _ & H)]; [discriminate|congruence]. }
  destruct d as [fs|vs|u].
  - split; [intros H; left; eapply struct_ser_none; exact H|].
    intros [H|[H _]]; [|destruct H].
    destruct (emit_serialize_struct is_path a name fs) as [code|] eqn:Ec; [|reflexivity].
    exfalso. now apply (struct_ser_some P E _ _ _ _ _ Ec).
  - rewrite (enum_ser_none P is_path E name a vs). split; [|tauto].
    intros [H|H]; [left; exact H|right; split; [exact H|]]. exists a. auto.
  - split; [left; reflexivity|reflexivity].
Qed.
Lemma struct_de_some P E is_path a name fs code : emit_deserialize_struct is_path a name fs = Some code ->
  do_deserialize_struct is_path E a (types_of P (members fs)) (decls_of P (CStruct name) (members fs)) <> None.
Proof.
  intros Hc. unfold emit_deserialize_struct in Hc. rewrite emit_struct_inv in Hc.
  unfold do_deserialize_struct, try_struct. destruct (sanitize_as_struct a); [|discriminate]. cbn [negb] in *.
  pose proof (parse_fields_ok P is_path (CStruct name) (members fs)) as Hp.
  destruct (parse_fields is_path (map snd (members fs))) as [attrs|]; [|discriminate].
  destruct Hp as (ffs & E1 & M). rewrite E1. cbn [dc_attr dc_fields c_attribute] in *.
  destruct (a_transparent a) eqn:Et; [|discriminate].
  unfold emit_from_ber_transparent, emit_from_der_transparent, emit_transparent in Hc. cbn [c_field_attributes] in Hc.
  unfold de_transparent. cbn [dc_fields]. rewrite (matches_attributes _ _ _ _ _ _ M).
  destruct (_ =? 1); discriminate.
Qed.
Theorem emitted_deserialize_none P E is_path attrs name d I :
  emit_deserialize is_path attrs name d = None <->
  do_deserialize is_path E attrs (data_of P name d) (paths_of P I) = None.
Proof.
  unfold emit_deserialize, do_deserialize.
  destruct (Attribute_try_from is_path attrs) as [a|]; [|tauto].
  destruct (sanitize_as_container a); cbn [negb]; [|tauto].
  destruct (a_from a) as [ty|]; [split; discriminate|].
  destruct (a_try_from a) as [f|]; [split; discriminate|].
  destruct d as [fs|vs|u].
  - split; [intros H; eapply struct_de_none; exact H|].
    intros H. destruct (emit_deserialize_struct is_path a name fs) as [code|] eqn:Ec; [|reflexivity].
    exfalso. now apply (struct_de_some P E _ _ _ _ _ Ec).
  - split; [intros H; eapply enum_de_none; exact H|].
    unfold emit_deserialize_enum. cbn [data_of]. unfold do_deserialize_enum. destruct (sanitize_as_enum a); cbn [negb]; [|reflexivity].
    pose proof (containers_ok P is_path name vs) as Hp. destruct (containers is_path name vs); [|reflexivity].
    destruct Hp as (dcs & E1 & _). rewrite E1. discriminate.
  - split; reflexivity.
Qed.
