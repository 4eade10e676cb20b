(** The code the derive macros emit:
    bsn1_serde_macros/src/{data_container,generics,ser/mod,de/mod}.rs, function by
    function.  A [quote!] is the expression it spells; [None] is a compile error or a
    panic of the macro. *)
From Coq Require Import String Ascii.
From Verif Require Import Base ModelError ModelIo ModelTag ModelContents ModelBuf ModelTlv ModelSerde ModelAttr ModelDerive ModelRust.
Local Open Scope string_scope.
Local Open Scope N_scope.

(** ** Containers *)
(** data_container.rs:23-36 *)
Record container := {
  c_name : cname; c_attribute : attribute; c_field_attributes : list attribute; c_fields : sfields }.

Section Emit.
Context (is_path : string -> bool).

(** [fields.iter()] *)
Definition fields_iter (fs : sfields) : list sfield :=
  match fs with
  | FNamed fs => map snd fs
  | FUnnamed fs => fs
  | FUnit => []
  end.
(** data_container.rs:47-52, 69-74 *)
Fixpoint parse_fields (fs : list sfield) : option (list attribute) :=
  match fs with
  | [] => Some []
  | f :: fs' =>
      get a := Attribute_try_from is_path (sf_attrs f) in
      if negb (sanitize_as_field a) then None else
      get rest := parse_fields fs' in
      Some (a :: rest)
  end.
(** data_container.rs:41-60 *)
Definition container_of_struct (a : attribute) (struct_name : string) (fs : sfields) : option container :=
  if negb (sanitize_as_struct a) then None else
  get field_attributes := parse_fields (fields_iter fs) in
  Some {| c_name := CStruct struct_name; c_attribute := a; c_field_attributes := field_attributes; c_fields := fs |}.
(** data_container.rs:65-83 *)
Definition container_of_variant (enum_name : string) (v : svariant) : option container :=
  get a := Attribute_try_from is_path (sv_attrs v) in
  if negb (sanitize_as_variant a) then None else
  get field_attributes := parse_fields (fields_iter (sv_fields v)) in
  Some {| c_name := CVariant enum_name (sv_ident v); c_attribute := a;
          c_field_attributes := field_attributes; c_fields := sv_fields v |}.

(** data_container.rs:720-733 *)
Definition field_idents (c : container) : list string :=
  match c_fields c with
  | FNamed fs => map fst fs
  | FUnnamed fs => map fst (numbered 0 fs)
  | FUnit => []
  end.
(** [format_ident!] (quote) panics when the text is no identifier: one that starts with
    [r#] is none after the prefix. *)
Definition format_ident (prefix ident : string) : option string :=
  if String.prefix "r#" ident then None else Some (prefix ++ "_" ++ ident).
Fixpoint all_some {A} (l : list (option A)) : option (list A) :=
  match l with
  | [] => Some []
  | x :: l' => get a := x in get rest := all_some l' in Some (a :: rest)
  end.
(** data_container.rs:737 *)
Definition field_prefix : string := "bsn1_macro_field_1701146321".
(** data_container.rs:734-751 *)
Definition field_vars (c : container) : option (list expr) :=
  match c_name c with
  | CVariant _ _ => get vs := all_some (map (format_ident field_prefix) (field_idents c)) in Some (map XPath vs)
  | CStruct _ => Some (map XSelfField (field_idents c))
  end.
(** data_container.rs:697-708, ty, as text for messages *)
Definition ty_text (c : container) : string :=
  match c_name c with
  | CStruct name => name
  | CVariant enum_name variant_name => enum_name ++ "::" ++ variant_name
  end.
(** data_container.rs:88-106, to_match_arm *)
Definition to_match_arm (c : container) : option (string * shape * list (string * string)) :=
  match c_name c with
  | CVariant _ ident =>
      get vars := all_some (map (format_ident field_prefix) (field_idents c)) in
      Some (ident, shape_of (c_fields c), combine (field_idents c) vars)
  | CStruct _ => None
  end.
(** data_container.rs:753-779 and 792-814: the field of a transparent struct that is
    not skipped, and its attribute. *)
Definition transparent_field (c : container) : option (expr * attribute) :=
  get vars := field_vars c in
  match filter (fun va => negb (is_skip_serializing (snd va))) (combine vars (c_field_attributes c)) with
  | [va] => Some va
  | _ => None
  end.

(** ** Serialize *)
(** data_container.rs:109-115 *)
Definition emit_write_id (c : container) (buffer : expr) : expr := XWriteAll buffer (id_slice (c_attribute c)).
(** data_container.rs:118-145 *)
Definition emit_write_id_transparent (c : container) (buffer : expr) : option expr :=
  get (field, field_attribute) := transparent_field c in
  match a_into field_attribute with
  | Some into_ty =>
      let this := "bsn1_macro_1704044765_this" in
      Some (XLet this None (XClone field) (XLet this (Some into_ty) (XInto (XPath this))
           (XWriteId (XRef (XPath this)) buffer)))
  | None =>
      match a_to field_attribute with
      | Some path =>
          let this := "bsn1_macro_1706411411_this" in
          Some (XLet this None (XCallTo path field) (XWriteId (XRef (XPath this)) buffer))
      | None => Some (XWriteId field buffer)
      end
  end.
(** data_container.rs:148-154 *)
Definition emit_id_len (c : container) : expr := XOk (XSome (XLen (XOctets (id_slice (c_attribute c))))).
(** data_container.rs:157-171 *)
Definition emit_id_len_transparent (c : container) : option expr :=
  get (field, field_attribute) := transparent_field c in
  if converts field_attribute then Some (XOk XNone) else Some (XIdLen field).
(** data_container.rs:184-231: the code for the fields, then [rest]. *)
Definition field_ref : string := "bsn1_macro_1711342495_field_ref".
Fixpoint emit_write_fields (vas : list (expr * attribute)) (buffer : expr) : expr :=
  match vas with
  | [] => XOk XUnit
  | (field, attr) :: vas' =>
      let write := XSeq (XTry (XWriteDer (XPath field_ref) buffer)) XUnit in
      if is_skip_serializing attr then emit_write_fields vas' buffer
      else
        XSeq
          (match a_into attr with
           | Some into_ty =>
               XLet field_ref (Some into_ty) (XInto (XClone field)) (XLet field_ref None (XRef (XPath field_ref)) write)
           | None =>
               match a_to attr with
               | Some to_path =>
                   XLet field_ref None (XCallTo to_path field) (XLet field_ref None (XRef (XPath field_ref)) write)
               | None => XLet field_ref None field write
               end
           end)
          (emit_write_fields vas' buffer)
  end.
Definition emit_write_der_contents (c : container) (buffer : expr) : option expr :=
  get vars := field_vars c in
  Some (emit_write_fields (combine vars (c_field_attributes c)) buffer).
(** data_container.rs:234-261 *)
Definition emit_write_der_contents_transparent (c : container) (buffer : expr) : option expr :=
  get (field, field_attribute) := transparent_field c in
  match a_into field_attribute with
  | Some into_ty =>
      let this := "bsn1_macro_1704044765_this" in
      Some (XLet this None (XClone field) (XLet this (Some into_ty) (XInto (XPath this))
           (XWriteContents (XRef (XPath this)) buffer)))
  | None =>
      match a_to field_attribute with
      | Some to_path =>
          let this := "bsn1_macro_1705721776_this" in
          Some (XLet this None (XCallTo to_path field) (XWriteContents (XRef (XPath this)) buffer))
      | None => Some (XWriteContents field buffer)
      end
  end.
(** data_container.rs:264-316 *)
Definition len_ret : string := "bsn1_macro_1704043457_ret".
Definition len_id : string := "bsn1_macro_1711551123_contents_len".
Definition len_contents : string := "bsn1_macro_1704043457_contents_len".
Definition len_length : string := "bsn1_macro_1704043457_length_len".
Fixpoint emit_field_acc (vas : list (expr * attribute)) : expr :=
  match vas with
  | [] => XOk (XSome (XPath len_ret))
  | (field, attr) :: vas' =>
      if is_skip_serializing attr then emit_field_acc vas'
      else
        XSeq
          (XIfSome len_contents (XTry (XContentsLen field))
            (XIfSome len_id (XTry (XIdLen field))
              (XLet len_length None (XLengthLen (XPath len_contents))
                (XAddAssign len_ret (XAdd (XAdd (XPath len_id) (XPath len_length)) (XPath len_contents))))
              (XReturn (XOk XNone)))
            (XReturn (XOk XNone)))
          (emit_field_acc vas')
  end.
Definition emit_der_contents_len (c : container) : option expr :=
  if existsb converts (c_field_attributes c) then Some (XOk XNone)
  else
    get vars := field_vars c in
    Some (XLet len_ret None XZero (emit_field_acc (combine vars (c_field_attributes c)))).
(** data_container.rs:319-333 *)
Definition emit_der_contents_len_transparent (c : container) : option expr :=
  get (field, field_attribute) := transparent_field c in
  if converts field_attribute then Some (XOk XNone) else Some (XContentsLen field).

(** The bodies of the four methods. *)
Record ser_code := {
  code_write_id : expr; code_write_der_contents : expr; code_id_len : expr; code_der_contents_len : expr }.
(** ser/mod.rs:59-89 *)
Definition emit_into_serialize (ty : string) : ser_code :=
  let body m := XLetSelf "this" (XClone (XPath "self")) (XLet "this" (Some ty) (XInto (XPath "this")) m) in
  {| code_write_id := body (XWriteId (XRef (XPath "this")) (XPath "buffer"));
     code_write_der_contents := body (XWriteContents (XRef (XPath "this")) (XPath "buffer"));
     code_id_len := XOk XNone;
     code_der_contents_len := XOk XNone |}.
(** ser/mod.rs:92-118 *)
Definition emit_to_serialize (to_fn : string) : ser_code :=
  let body m := XLet "this" None (XCallTo to_fn (XPath "self")) m in
  {| code_write_id := body (XWriteId (XRef (XPath "this")) (XPath "buffer"));
     code_write_der_contents := body (XWriteContents (XRef (XPath "this")) (XPath "buffer"));
     code_id_len := XOk XNone;
     code_der_contents_len := XOk XNone |}.
(** ser/mod.rs:121-168 *)
Definition emit_serialize_struct (a : attribute) (struct_name : string) (fs : sfields) : option ser_code :=
  get c := container_of_struct a struct_name fs in
  let buffer := XPath "buffer" in
  if a_transparent (c_attribute c) then
    get write_id := emit_write_id_transparent c buffer in
    get id_len := emit_id_len_transparent c in
    get der_contents_len := emit_der_contents_len_transparent c in
    get write_der_contents := emit_write_der_contents_transparent c buffer in
    Some {| code_write_id := write_id; code_write_der_contents := write_der_contents;
            code_id_len := id_len; code_der_contents_len := der_contents_len |}
  else
    get der_contents_len := emit_der_contents_len c in
    get write_der_contents := emit_write_der_contents c buffer in
    Some {| code_write_id := emit_write_id c buffer; code_write_der_contents := write_der_contents;
            code_id_len := emit_id_len c; code_der_contents_len := der_contents_len |}.
(** ser/mod.rs:183-186 *)
Definition containers (enum_name : string) (vs : list svariant) : option (list container) :=
  all_some (map (container_of_variant enum_name) vs).
(** ser/mod.rs:171-228 *)
Definition emit_serialize_enum (a : attribute) (enum_name : string) (vs : list svariant) : option ser_code :=
  if negb (sanitize_as_enum a) then None else
  get variants := containers enum_name vs in
  let buffer := XPath "buffer" in
  get arms := all_some (map to_match_arm variants) in
  get der_contents_lens := all_some (map emit_der_contents_len variants) in
  get write_der_contentses := all_some (map (fun c => emit_write_der_contents c buffer) variants) in
  Some {| code_write_id := XMatchSelf (combine arms (map (fun c => emit_write_id c buffer) variants));
          code_write_der_contents := XMatchSelf (combine arms write_der_contentses);
          code_id_len := XMatchSelf (combine arms (map emit_id_len variants));
          code_der_contents_len := XMatchSelf (combine arms der_contents_lens) |}.
(** ser/mod.rs:22-56 *)
Definition emit_serialize (attrs : list syn_attribute) (name : string) (d : sdata) : option ser_code :=
  get a := Attribute_try_from is_path attrs in
  if negb (sanitize_as_container a) then None else
  match a_into a with
  | Some ty => Some (emit_into_serialize ty)
  | None =>
      match a_to a with
      | Some to_fn => Some (emit_to_serialize to_fn)
      | None =>
          match d with
          | SStruct fs => emit_serialize_struct a name fs
          | SEnum vs => emit_serialize_enum a name vs
          | SUnion _ => None
          end
      end
  end.

(** ** Deserialize *)
Definition contents_bytes : string := "bsn1_macro_1704080283_contents_bytes".
Definition field_text (c : container) (field_ident : string) : string := ty_text c ++ "." ++ field_ident.
(** data_container.rs:360-378 *)
Definition emit_ber_val (text : string) : expr :=
  let tmp_ber := "bsn1_macro_1704080283_tmp_ber" in
  let tmp_id := "bsn1_macro_1704080283_tmp_id" in
  let tmp_length := "bsn1_macro_1704080283_tmp_length" in
  let tmp_contents := "bsn1_macro_1704080283_tmp_contents" in
  XLet tmp_ber None (XTry (XMapErr (MField 0 text) (XParseBer (XPath contents_bytes))))
  (XLet3 tmp_id (Some tmp_length) tmp_contents (XDisassemble (XPath tmp_ber))
  (XTry (XMapErr (MField 1 text) (XFromBer (XPath tmp_id) (XPath tmp_length) (XPath tmp_contents))))).
(** data_container.rs:546-563 *)
Definition emit_der_val (text : string) : expr :=
  let tmp_der := "bsn1_macro_1704080283_tmp_der" in
  let tmp_id := "bsn1_macro_1704080283_tmp_id" in
  let tmp_contents := "bsn1_macro_1704080283_tmp_contents" in
  XLet tmp_der None (XTry (XMapErr (MField 2 text) (XParseDer (XPath contents_bytes))))
  (XLet3 tmp_id None tmp_contents (XDisassemble (XPath tmp_der))
  (XTry (XMapErr (MField 3 text) (XFromDer (XPath tmp_id) (XPath tmp_contents))))).
(** data_container.rs:380-402, 481-506, 565-587, 648-673: a field, from the value read. *)
Definition emit_field (tmp_val : string -> expr) (text : string) (attr : attribute) : expr :=
  if is_skip_deserializing attr then XCallDefault (default_path attr)
  else
    match a_from attr with
    | Some from_ty => XFrom (Some from_ty) (tmp_val text)
    | None =>
        match a_try_from attr with
        | Some try_from_ty => XTry (XMapAnyhow (MField 4 text) (XTryFrom (Some try_from_ty) (tmp_val text)))
        | None => tmp_val text
        end
    end.
(** data_container.rs:352-355, 539-541, 465-470, 633-638 *)
Definition emit_fields (tmp_val : string -> expr) (c : container) : list expr :=
  map (fun af => emit_field tmp_val (field_text c (snd af)) (fst af)) (combine (c_field_attributes c) (field_idents c)).
(** data_container.rs:406-413, 509-515, 591-598, 676-682 *)
Definition emit_constructor (tmp_val : string -> expr) (c : container) : expr :=
  match c_fields c with
  | FNamed _ => XNamed (c_name c) (combine (field_idents c) (emit_fields tmp_val c))
  | FUnnamed _ => XTuple (c_name c) (emit_fields tmp_val c)
  | FUnit => XUnitCtor (c_name c)
  end.
(** data_container.rs:435-442, 603-611 *)
Definition emit_all_read (c : container) (tmp_val : string -> expr) : expr :=
  let ret := "bsn1_macro_1704080283_ret" in
  XLet contents_bytes None (XRefMut contents_bytes)
  (XLet ret None (emit_constructor tmp_val c)
  (XIf (XEq (XLen (XPath contents_bytes)) XZero) (XOk (XPath ret)) (XReturn (XErr ExtraContentsOctet)))).
(** data_container.rs:336-444 *)
Definition emit_from_ber_contents (c : container) (length contents : expr) : expr :=
  let eoc := "bsn1_macro_1704080283_eoc" in
  let contents_length := "bsn1_macro_1704080283_length" in
  XLet contents_bytes None
    (XMatchLength length contents_length
       (XSeq (XDebugAssertEq (XPath contents_length) (XLen contents)) (XAsRef contents))
       (XLet contents_bytes None (XAsRef contents)
       (XLet eoc None (XAsRef XEoc)
       (XIf (XEndsWith (XPath contents_bytes) (XPath eoc))
          (XPrefix (XPath contents_bytes) (XSub (XLen (XPath contents_bytes)) (XLen (XPath eoc))))
          (XReturn (XErr UnterminatedBytes))))))
    (emit_all_read c emit_ber_val).
(** data_container.rs:528-613 *)
Definition emit_from_der_contents (c : container) (contents : expr) : expr :=
  XLet contents_bytes None (XAsRef contents) (emit_all_read c emit_der_val).
(** data_container.rs:447-525, 616-692: the count of fields, and the constructor. *)
Definition emit_transparent (c : container) (tmp_val : string -> expr) : option expr :=
  let deserialized_fields := nlen (filter (fun a => negb (is_skip_deserializing a)) (c_field_attributes c)) in
  if deserialized_fields =? 1 then Some (XOk (emit_constructor tmp_val c)) else None.
Definition emit_from_ber_transparent (c : container) (id length contents : expr) : option expr :=
  emit_transparent c (fun text => XTry (XMapErr (MField 1 text) (XFromBer id length contents))).
Definition emit_from_der_transparent (c : container) (id contents : expr) : option expr :=
  emit_transparent c (fun text => XTry (XMapErr (MField 3 text) (XFromDer id contents))).

(** The bodies of the two methods. *)
Record de_code := { code_from_ber : expr; code_from_der : expr }.
(** de/mod.rs:61-83 *)
Definition emit_from_deserialize (ty : string) : de_code :=
  {| code_from_ber :=
       XLet "val" (Some ty) (XTry (XFromBer (XPath "id") (XPath "length") (XPath "contents")))
       (XOk (XFrom None (XPath "val")));
     code_from_der :=
       XLet "val" (Some ty) (XTry (XFromDer (XPath "id") (XPath "contents"))) (XOk (XFrom None (XPath "val"))) |}.
(** de/mod.rs:86-115 *)
Definition emit_try_from_deserialize (ty : string) : de_code :=
  {| code_from_ber :=
       XLet "val" (Some ty) (XTry (XFromBer (XPath "id") (XPath "length") (XPath "contents")))
       (XMapAnyhow MContainer (XTryFrom None (XPath "val")));
     code_from_der :=
       XLet "val" (Some ty) (XTry (XFromDer (XPath "id") (XPath "contents")))
       (XMapAnyhow MContainer (XTryFrom None (XPath "val"))) |}.
(** de/mod.rs:118-171 *)
Definition emit_deserialize_struct (a : attribute) (struct_name : string) (fs : sfields) : option de_code :=
  get c := container_of_struct a struct_name fs in
  let id := XPath "id" in
  let length := XPath "length" in
  let contents := XPath "contents" in
  if a_transparent (c_attribute c) then
    get from_ber := emit_from_ber_transparent c id length contents in
    get from_der := emit_from_der_transparent c id contents in
    Some {| code_from_ber := from_ber; code_from_der := from_der |}
  else
    let checked body :=
      XSeq (XIf (XNot (XEq (XAsRef id) (XOctets (id_slice (c_attribute c))))) (XReturn (XErr UnmatchedId)) XUnit) body in
    Some {| code_from_ber := checked (emit_from_ber_contents c length contents);
            code_from_der := checked (emit_from_der_contents c contents) |}.
(** de/mod.rs:207-224 *)
Fixpoint emit_dispatch (from : container -> expr) (vs : list container) : expr :=
  match vs with
  | [] => XErr UnmatchedId
  | c :: vs' =>
      XIf (XEq (XAsRef (XPath "id")) (XOctets (id_slice (c_attribute c)))) (from c) (emit_dispatch from vs')
  end.
(** de/mod.rs:174-225 *)
Definition emit_deserialize_enum (a : attribute) (enum_name : string) (vs : list svariant) : option de_code :=
  if negb (sanitize_as_enum a) then None else
  get variants := containers enum_name vs in
  Some {| code_from_ber := emit_dispatch (fun c => emit_from_ber_contents c (XPath "length") (XPath "contents")) variants;
          code_from_der := emit_dispatch (fun c => emit_from_der_contents c (XPath "contents")) variants |}.
(** de/mod.rs:22-58 *)
Definition emit_deserialize (attrs : list syn_attribute) (name : string) (d : sdata) : option de_code :=
  get a := Attribute_try_from is_path attrs in
  if negb (sanitize_as_container a) then None else
  match a_from a with
  | Some ty => Some (emit_from_deserialize ty)
  | None =>
      match a_try_from a with
      | Some ty => Some (emit_try_from_deserialize ty)
      | None =>
          match d with
          | SStruct fs => emit_deserialize_struct a name fs
          | SEnum vs => emit_deserialize_enum a name vs
          | SUnion _ => None
          end
      end
  end.
End Emit.

(** ** The impl *)
(** [syn::GenericParam]: bounds and types are texts; defaults are left out by the code. *)
Inductive generic_param :=
| GLifetime (name bounds : string)
| GType (name bounds : string) (default : option string)
| GConst (name ty : string) (default : option string).
(** What stands between the angle brackets of [impl<..>]: the same without defaults. *)
Inductive impl_param := ILifetime (name bounds : string) | IType (name bounds : string) | IConst (name ty : string).
(** generics.rs:28-50 *)
Definition ident_bounds (params : list generic_param) : list impl_param :=
  map (fun param =>
         match param with
         | GLifetime name bounds => ILifetime name bounds
         | GType name bounds _ => IType name bounds
         | GConst name ty _ => IConst name ty
         end) params.
(** generics.rs:52-63 *)
Definition idents (params : list generic_param) : list string :=
  map (fun param =>
         match param with
         | GLifetime name _ => name
         | GType name _ _ => name
         | GConst name _ _ => name
         end) params.
(** ser/mod.rs:48-55, de/mod.rs:50-57: [impl<..> Trait for Name<..> where ..]. *)
Record impl_header := {
  ih_params : list impl_param; ih_name : string; ih_args : list string; ih_where : option string }.
Definition emit_header (name : string) (params : list generic_param) (where_clause : option string) : impl_header :=
  {| ih_params := ident_bounds params; ih_name := name; ih_args := idents params; ih_where := where_clause |}.

(** ** What the compiler makes of the declaration *)
Section Declared.
Context (P : program) (name : string).
(** The values of fields, and the fields and variants as ModelDerive takes them. *)
Definition types_of (ms : list (string * sfield)) : list Type := map (fun m => den P (sf_ty (snd m))) ms.
Definition names_of (c : N) (text : string) : names (den P c) :=
  {| n_ser := impl_ser P c; n_de := impl_de P c; n_default := fun path => fn_default P path c;
     n_paths :=
       {| p_into := fun ty =>
            {| tg_ty := den P (type_named P ty); tg_conv := impl_into P c (type_named P ty);
               tg_ser := impl_ser P (type_named P ty) |};
          p_to := fun path =>
            {| tg_ty := den P (projT1 (fn_to P path c)); tg_conv := projT2 (fn_to P path c);
               tg_ser := impl_ser P (projT1 (fn_to P path c)) |};
          p_from := fun ty =>
            {| sr_ty := den P (type_named P ty); sr_conv := impl_from P (type_named P ty) c;
               sr_de := impl_de P (type_named P ty) |};
          p_try_from := fun ty =>
            {| ts_ty := den P (type_named P ty); ts_conv := impl_try_from P (type_named P ty) c;
               ts_de := impl_de P (type_named P ty) |} |};
     n_field := describe P text |}.
Definition text_of (c : cname) : string :=
  match c with CStruct n => n | CVariant e v => e ++ "::" ++ v end.
Fixpoint decls_of (c : cname) (ms : list (string * sfield)) : hlist field_decl (types_of ms) :=
  match ms with
  | [] => tt
  | (m, f) :: ms' =>
      ({| fd_attrs := sf_attrs f; fd_names := names_of (sf_ty f) (text_of c ++ "." ++ m) |}, decls_of c ms')
  end.
Definition variant_types (vs : list svariant) : list (list Type) := map (fun v => types_of (members (sv_fields v))) vs.
Fixpoint variants_of (vs : list svariant) : vlist variant_decl (variant_types vs) :=
  match vs with
  | [] => tt
  | v :: vs' =>
      ({| vd_attrs := sv_attrs v; vd_fields := decls_of (CVariant name (sv_ident v)) (members (sv_fields v)) |},
       variants_of vs')
  end.
Definition data_of (d : sdata) : data :=
  match d with
  | SStruct fs => DStruct (types_of (members fs)) (decls_of (CStruct name) (members fs))
  | SEnum vs => DEnum (variant_types vs) (variants_of vs)
  | SUnion c => DUnion (den P c)
  end.

(** Taking values apart and putting them together. *)
Fixpoint fields_out (ms : list (string * sfield)) : tuple (types_of ms) -> list (string * dyn P) :=
  match ms with
  | [] => fun _ => []
  | (m, f) :: ms' => fun v => (m, existT _ (sf_ty f) (fst v)) :: fields_out ms' (snd v)
  end.
Fixpoint fields_in (ms : list (string * sfield)) (ds : list (string * dyn P)) : option (tuple (types_of ms)) :=
  match ms with
  | [] => Some tt
  | (m, f) :: ms' =>
      get d := assoc m ds in
      get v := cast P (sf_ty f) d in
      get vs := fields_in ms' ds in
      Some (v, vs)
  end.
Definition member_types (fs : sfields) : list (string * N) := map (fun m => (fst m, sf_ty (snd m))) (members fs).
Fixpoint variant_out (vs : list svariant) : choice (variant_types vs) -> cname * shape * list (string * dyn P) :=
  match vs with
  | [] => fun v : Empty_set => match v with end
  | w :: vs' => fun v =>
      match v with
      | inl t => (CVariant name (sv_ident w), shape_of (sv_fields w), fields_out (members (sv_fields w)) t)
      | inr v' => variant_out vs' v'
      end
  end.
Fixpoint variant_in (vs : list svariant) (c : cname) (ds : list (string * dyn P)) : option (choice (variant_types vs)) :=
  match vs with
  | [] => None
  | w :: vs' =>
      if cname_eqb c (CVariant name (sv_ident w)) then get t := fields_in (members (sv_fields w)) ds in Some (inl t)
      else get v := variant_in vs' c ds in Some (inr v)
  end.
Fixpoint variant_members (vs : list svariant) (c : cname) : option (shape * list (string * N)) :=
  match vs with
  | [] => None
  | w :: vs' =>
      if cname_eqb c (CVariant name (sv_ident w)) then Some (shape_of (sv_fields w), member_types (sv_fields w))
      else variant_members vs' c
  end.

(** The conversions and functions on the type itself. *)
Record self_impls (T : Type) := {
  si_into : forall b, T -> den P b;
  si_from : forall a, den P a -> T;
  si_try_from : forall a, den P a -> T + anyhow;
  si_to : string -> { b : N & T -> den P b } }.
Arguments si_into {T}. Arguments si_from {T}. Arguments si_try_from {T}. Arguments si_to {T}.
Definition paths_of {T} (I : self_impls T) : paths T :=
  {| p_into := fun ty =>
       {| tg_ty := den P (type_named P ty); tg_conv := si_into I (type_named P ty); tg_ser := impl_ser P (type_named P ty) |};
     p_to := fun path =>
       {| tg_ty := den P (projT1 (si_to I path)); tg_conv := projT2 (si_to I path);
          tg_ser := impl_ser P (projT1 (si_to I path)) |};
     p_from := fun ty =>
       {| sr_ty := den P (type_named P ty); sr_conv := si_from I (type_named P ty); sr_de := impl_de P (type_named P ty) |};
     p_try_from := fun ty =>
       {| ts_ty := den P (type_named P ty); ts_conv := si_try_from I (type_named P ty);
          ts_de := impl_de P (type_named P ty) |} |}.
Definition self_of (d : sdata) : self_impls (value (data_of d)) -> self_type P (value (data_of d)) :=
  match d return self_impls (value (data_of d)) -> self_type P (value (data_of d)) with
  | SStruct fs => fun I =>
      {| st_members := fun c => if cname_eqb c (CStruct name) then Some (shape_of fs, member_types fs) else None;
         st_open := fun v => (CStruct name, shape_of fs, fields_out (members fs) v);
         st_make := fun c ds => if cname_eqb c (CStruct name) then fields_in (members fs) ds else None;
         st_into := si_into I; st_from := si_from I; st_try_from := si_try_from I; st_to := si_to I |}
  | SEnum vs => fun I =>
      {| st_members := variant_members vs;
         st_open := variant_out vs;
         st_make := variant_in vs;
         st_into := si_into I; st_from := si_from I; st_try_from := si_try_from I; st_to := si_to I |}
  | SUnion c => fun I =>
      {| st_members := fun _ => None;
         st_open := fun v => (CStruct name, Unit, []);
         st_make := fun _ _ => None;
         st_into := si_into I; st_from := si_from I; st_try_from := si_try_from I; st_to := si_to I |}
  end.

(** ** Calling the methods *)
(** ser/mod.rs:150-166, 202-227: the parameters of the methods. *)
Definition run_write (E : env) {T} (ST : self_type P T) (code : expr) {S} (W : writer S) (v : T) (s : S)
  : option (res unit * S) :=
  finish P T (as_unit P T)
    (eval P T E ST ["W"] W code Any [("buffer", VBuffer); ("self", VSelfRef v)] s).
(** The other methods use no writer. *)
Definition no_writer : writer unit := {| wr_write := fun s _ => (WrPanic, s); wr_fuel := 0 |}.
Definition run_len (E : env) {T} (ST : self_type P T) (code : expr) (v : T) : option (res (option N)) :=
  get r := finish P T (as_len P T) (eval P T E ST [] no_writer code Any [("self", VSelfRef v)] tt) in Some (fst r).
(** de/mod.rs:161-170, 205-224 *)
Definition run_from_ber (E : env) {T} (ST : self_type P T) (code : expr) (id : list N) (length : Length)
    (contents : list N) : option (res T) :=
  get r := finish P T (as_self P T)
    (eval P T E ST [] no_writer code TheSelf
       [("contents", VOctets KContents contents); ("length", VLength length); ("id", VOctets KId id)] tt) in
  Some (fst r).
Definition run_from_der (E : env) {T} (ST : self_type P T) (code : expr) (id contents : list N) : option (res T) :=
  get r := finish P T (as_self P T)
    (eval P T E ST [] no_writer code TheSelf
       [("contents", VOctets KContents contents); ("id", VOctets KId id)] tt) in
  Some (fst r).
End Declared.
