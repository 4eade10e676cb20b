(** What the emitted code may not be asked to do: names that the user gave and the
    macros took. *)
From Coq Require Import String.
From Verif Require Import Base ModelAttr ModelRust ModelEmit.
Local Open Scope string_scope.

(** The path is just one identifier, and that one of [xs]. *)
Definition one_of (P : program) (xs : list string) (path : string) : Prop :=
  exists x, path_ident P path = Some x /\ In x xs.

(** A field that is serialised: the type of [into] is not [W], the type parameter of the
    method; the function of [to] is not a variable of the method. *)
Definition ser_free (P : program) (variables : list string) (a : attribute) : Prop :=
  is_skip_serializing a = false ->
  match a_into a, a_to a with
  | Some ty, _ => ~ one_of P ["W"] ty
  | None, Some path => ~ one_of P variables path
  | None, None => True
  end.
(** A field that is not deserialised: its default is not a variable of the method. *)
Definition de_free (P : program) (variables : list string) (a : attribute) : Prop :=
  is_skip_deserializing a = true -> ~ one_of P variables (default_path a).

(** Variables of the methods. *)
Definition ser_variables : list string := ["self"; "buffer"].
Definition variant_variables (members : list string) : list string :=
  ser_variables ++ map (fun m => "bsn1_macro_field_1701146321_" ++ m)%string members.
Definition de_variables : list string := ["id"; "length"; "contents"].
Definition de_variables_fields : list string := "bsn1_macro_1704080283_contents_bytes" :: de_variables.

(** The attributes as they are parsed. *)
Definition attrs_hold (is_path : string -> bool) (Q : attribute -> Prop) (attrs : list syn_attribute) : Prop :=
  forall a, Attribute_try_from is_path attrs = Some a -> Q a.
Definition fields_hold (is_path : string -> bool) (Q : attribute -> Prop) (fs : sfields) : Prop :=
  Forall (fun m => attrs_hold is_path Q (sf_attrs (snd m))) (members fs).

(** No name that the user gave is taken by the code emitted for Serialize. *)
Definition ser_hygienic (P : program) (is_path : string -> bool) (attrs : list syn_attribute) (d : sdata) : Prop :=
  attrs_hold is_path (fun a =>
    match a_into a, a_to a with
    | Some ty, _ => ~ one_of P ["W"] ty
    | None, Some path => ~ one_of P ser_variables path
    | None, None =>
        match d with
        | SStruct fs => fields_hold is_path (ser_free P ser_variables) fs
        | SEnum vs =>
            Forall (fun v => fields_hold is_path (ser_free P (variant_variables (map fst (members (sv_fields v)))))
                                         (sv_fields v)) vs
        | SUnion _ => True
        end
    end) attrs.
(** The same for Deserialize. *)
Definition de_hygienic (P : program) (is_path : string -> bool) (attrs : list syn_attribute) (d : sdata) : Prop :=
  attrs_hold is_path (fun a =>
    match a_from a, a_try_from a with
    | None, None =>
        match d with
        | SStruct fs =>
            fields_hold is_path
              (de_free P (if a_transparent a then de_variables else de_variables_fields)) fs
        | SEnum vs => Forall (fun v => fields_hold is_path (de_free P de_variables_fields) (sv_fields v)) vs
        | SUnion _ => True
        end
    | _, _ => True
    end) attrs.

(** What the compiler asks of a declaration: names of fields and of variants are
    different. *)
Definition distinct (d : sdata) : Prop :=
  match d with
  | SStruct fs => NoDup (map fst (members fs))
  | SEnum vs =>
      NoDup (map sv_ident vs) /\ Forall (fun v => NoDup (map fst (members (sv_fields v)))) vs
  | SUnion _ => True
  end.
(** A raw identifier. *)
Definition raw (ident : string) : Prop := exists rest, ident = ("r#" ++ rest)%string.
(** A variant has a field whose name is a raw identifier. *)
Definition raw_in_variant (d : sdata) : Prop :=
  match d with
  | SEnum vs => Exists (fun v => Exists (fun m => raw (fst m)) (members (sv_fields v))) vs
  | _ => False
  end.

(** The code does what the implementation [D] does, whatever the value and the writer. *)
Definition means_ser (P : program) (E : ModelSerde.env) {T} (ST : self_type P T) (code : ser_code) (D : ModelSerde.serialize T) : Prop :=
  forall v,
    (forall S (W : ModelSerde.writer S) s,
       run_write P E ST (code_write_id code) W v s = Some (ModelSerde.write_id D W v s)) /\
    (forall S (W : ModelSerde.writer S) s,
       run_write P E ST (code_write_der_contents code) W v s = Some (ModelSerde.write_der_contents D W v s)) /\
    run_len P E ST (code_id_len code) v = Some (ModelSerde.id_len D v) /\
    run_len P E ST (code_der_contents_len code) v = Some (ModelSerde.der_contents_len D v).
Definition means_de (P : program) (E : ModelSerde.env) {T} (ST : self_type P T) (code : de_code) (D : ModelSerde.deserialize T) : Prop :=
  forall id contents,
    (forall length, run_from_ber P E ST (code_from_ber code) id length contents =
                    Some (ModelSerde.from_ber D id length contents)) /\
    run_from_der P E ST (code_from_der code) id contents = Some (ModelSerde.from_der D id contents).

(** ** Which names the code takes from the user, before it is run *)
(** A path of the user that is called, with the variables that are in scope there; a type
    of the user. *)
Inductive use := Called (path : string) (scope : list string) | Written (ty : string).
Definition type_use (ty : option string) : list use := match ty with Some t => [Written t] | None => [] end.
Fixpoint uses (scope : list string) (e : expr) : list use :=
  match e with
  | XPath _ | XSelfField _ | XRefMut _ | XOctets _ | XZero | XUnit | XErr _ | XNone | XEoc | XUnitCtor _ => []
  | XCallTo path e => Called path scope :: uses scope e
  | XCallDefault path => [Called path scope]
  | XFrom ty e | XTryFrom ty e => type_use ty ++ uses scope e
  | XRef e | XOk e | XSome e | XClone e | XInto e | XWriteAll e _ | XIdLen e | XContentsLen e | XLengthLen e
  | XAddAssign _ e | XParseBer e | XParseDer e | XDisassemble e | XAsRef e | XLen e | XNot e | XMapErr _ e
  | XMapAnyhow _ e | XTry e | XReturn e => uses scope e
  | XWriteDer a b | XWriteId a b | XWriteContents a b | XAdd a b | XSub a b | XFromDer a b | XEndsWith a b
  | XPrefix a b | XEq a b | XDebugAssertEq a b | XSeq a b => uses scope a ++ uses scope b
  | XFromBer a b c | XIf a b c => uses scope a ++ uses scope b ++ uses scope c
  | XLet x ty e body => type_use ty ++ uses scope e ++ uses (x :: scope) body
  | XLetSelf x e body => uses scope e ++ uses (x :: scope) body
  | XLet3 x y z e body =>
      uses scope e ++ uses (z :: match y with Some y => y :: x :: scope | None => x :: scope end) body
  | XIfSome x e a b | XMatchLength e x a b => uses scope e ++ uses (x :: scope) a ++ uses scope b
  | XMatchSelf arms => flat_map (fun arm => uses (map snd (snd (fst arm)) ++ scope) (snd arm)) arms
  | XNamed _ fs => flat_map (fun f => uses scope (snd f)) fs
  | XTuple _ es => flat_map (fun e => uses scope e) es
  end.
(** A path that is one identifier means the variable; a type that is one identifier, the
    type parameter of the method.  Neither is what the user asked for. *)
Definition taken (P : program) (types : list string) (u : use) : Prop :=
  match u with Called path scope => one_of P scope path | Written ty => one_of P types ty end.
Definition captures (P : program) (types scope : list string) (e : expr) : Prop := Exists (taken P types) (uses scope e).
Definition captures_ser (P : program) (code : ser_code) : Prop :=
  captures P ["W"] ["buffer"; "self"] (code_write_id code) \/
  captures P ["W"] ["buffer"; "self"] (code_write_der_contents code) \/
  captures P [] ["self"] (code_id_len code) \/
  captures P [] ["self"] (code_der_contents_len code).
Definition captures_de (P : program) (code : de_code) : Prop :=
  captures P [] ["contents"; "length"; "id"] (code_from_ber code) \/
  captures P [] ["contents"; "id"] (code_from_der code).
