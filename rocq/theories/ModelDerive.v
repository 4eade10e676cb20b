(** The derive macros: bsn1_serde_macros/src/{data_container,ser/mod,de/mod}.rs.
    A macro is modelled by what the code it emits does; [None] is a compile error. *)
From Coq Require Import String Ascii.
From Verif Require Import Base ModelError ModelIo ModelTag ModelContents ModelBuf ModelTlv ModelSerde ModelAttr.

(** ** Declarations *)
(** The values of a list of fields, and of a list of variants. *)
Fixpoint tuple (Ts : list Type) : Type :=
  match Ts with
  | [] => unit
  | T :: Ts' => T * tuple Ts'
  end%type.
Fixpoint choice (Tss : list (list Type)) : Type :=
  match Tss with
  | [] => Empty_set
  | Ts :: Tss' => tuple Ts + choice Tss'
  end%type.
(** One [F T] for each type. *)
Fixpoint hlist (F : Type -> Type) (Ts : list Type) : Type :=
  match Ts with
  | [] => unit
  | T :: Ts' => F T * hlist F Ts'
  end%type.
Fixpoint vlist (F : list Type -> Type) (Tss : list (list Type)) : Type :=
  match Tss with
  | [] => unit
  | Ts :: Tss' => F Ts * vlist F Tss'
  end%type.

(** What the paths in attributes stand for.  [into]: a type, the conversion, and its
    Serialize; [to]: a function, likewise; [from]: a type, its Deserialize, and the
    conversion; [try_from]: the error is given as [anyhow::Error::new] makes it.
    Conversions and defaults are functions: they return, and return the same each time. *)
Record target (T : Type) := { tg_ty : Type; tg_conv : T -> tg_ty; tg_ser : serialize tg_ty }.
Record source (T : Type) := { sr_ty : Type; sr_conv : sr_ty -> T; sr_de : deserialize sr_ty }.
Record try_source (T : Type) := { ts_ty : Type; ts_conv : ts_ty -> T + anyhow; ts_de : deserialize ts_ty }.
Arguments tg_ty {T} t. Arguments tg_conv {T} t. Arguments tg_ser {T} t.
Arguments sr_ty {T} s. Arguments sr_conv {T} s. Arguments sr_de {T} s.
Arguments ts_ty {T} t. Arguments ts_conv {T} t. Arguments ts_de {T} t.
Record paths (T : Type) := {
  p_into : string -> target T; p_to : string -> target T;
  p_from : string -> source T; p_try_from : string -> try_source T }.
Arguments p_into {T} p. Arguments p_to {T} p. Arguments p_from {T} p. Arguments p_try_from {T} p.
(** What the compiler finds for a field of type [T].  What the emitted code does not
    use need not exist and may be anything here. *)
Record names (T : Type) := {
  n_ser : serialize T; n_de : deserialize T; n_default : string -> T; n_paths : paths T;
  (** for the messages of errors *)
  n_field : N }.
Arguments n_ser {T} n. Arguments n_de {T} n. Arguments n_default {T} n. Arguments n_paths {T} n. Arguments n_field {T} n.
(** A field as declared, and with its attribute parsed (data_container.rs:27, 34). *)
Record field_decl (T : Type) := { fd_attrs : list syn_attribute; fd_names : names T }.
Arguments fd_attrs {T} f. Arguments fd_names {T} f.
Record field (T : Type) := { f_attr : attribute; f_names : names T }.
Arguments f_attr {T} f. Arguments f_names {T} f.
(** data_container.rs:23-36; [DataStruct] and [Variant] alike. *)
Record data_container (Ts : list Type) := { dc_attr : attribute; dc_fields : hlist field Ts }.
Arguments dc_attr {Ts} d. Arguments dc_fields {Ts} d.
Record variant_decl (Ts : list Type) := { vd_attrs : list syn_attribute; vd_fields : hlist field_decl Ts }.
Arguments vd_attrs {Ts} v. Arguments vd_fields {Ts} v.
(** [syn::Data] *)
Inductive data :=
| DStruct (Ts : list Type) (fields : hlist field_decl Ts)
| DEnum (Tss : list (list Type)) (variants : vlist variant_decl Tss)
| DUnion (T : Type).
Definition value (d : data) : Type :=
  match d with
  | DStruct Ts _ => tuple Ts
  | DEnum Tss _ => choice Tss
  | DUnion T => T
  end.

Section Derive.
Context (is_path : string -> bool) (E : env).

(** data_container.rs:48-52 and 70-74: attributes of fields. *)
Fixpoint try_fields (Ts : list Type) : hlist field_decl Ts -> option (hlist field Ts) :=
  match Ts with
  | [] => fun _ => Some tt
  | T :: Ts' => fun fs =>
      get a := Attribute_try_from is_path (fd_attrs (fst fs)) in
      if negb (sanitize_as_field a) then None else
      get rest := try_fields Ts' (snd fs) in
      Some ({| f_attr := a; f_names := fd_names (fst fs) |}, rest)
  end.
(** data_container.rs:41-60 *)
Definition try_struct (a : attribute) (Ts : list Type) (fs : hlist field_decl Ts) : option (data_container Ts) :=
  if negb (sanitize_as_struct a) then None else
  get fields := try_fields Ts fs in
  Some {| dc_attr := a; dc_fields := fields |}.
(** data_container.rs:65-83 *)
Definition try_variant (Ts : list Type) (v : variant_decl Ts) : option (data_container Ts) :=
  get a := Attribute_try_from is_path (vd_attrs v) in
  if negb (sanitize_as_variant a) then None else
  get fields := try_fields Ts (vd_fields v) in
  Some {| dc_attr := a; dc_fields := fields |}.
(** ser/mod.rs:183-186, de/mod.rs:195-196 *)
Fixpoint try_variants (Tss : list (list Type)) : vlist variant_decl Tss -> option (vlist data_container Tss) :=
  match Tss with
  | [] => fun _ => Some tt
  | Ts :: Tss' => fun vs =>
      get v := try_variant Ts (fst vs) in
      get rest := try_variants Tss' (snd vs) in
      Some (v, rest)
  end.
Fixpoint field_attributes (Ts : list Type) : hlist field Ts -> list attribute :=
  match Ts with
  | [] => fun _ => []
  | T :: Ts' => fun fs => f_attr (fst fs) :: field_attributes Ts' (snd fs)
  end.

(** ** Serialize *)
(** data_container.rs:184-231, write_der_contents *)
Fixpoint write_fields {S} (W : writer S) (Ts : list Type) : hlist field Ts -> tuple Ts -> wr S unit :=
  match Ts with
  | [] => fun _ _ => wret tt
  | T :: Ts' => fun fs v =>
      let attr := f_attr (fst fs) in
      let ps := n_paths (f_names (fst fs)) in
      if is_skip_serializing attr then write_fields W Ts' (snd fs) (snd v)
      else
        do! _ :=
          match a_into attr with
          | Some ty => write_der E (tg_ser (p_into ps ty)) W (tg_conv (p_into ps ty) (fst v))
          | None =>
              match a_to attr with
              | Some path => write_der E (tg_ser (p_to ps path)) W (tg_conv (p_to ps path) (fst v))
              | None => write_der E (n_ser (f_names (fst fs))) W (fst v)
              end
          end in
        write_fields W Ts' (snd fs) (snd v)
  end.
(** data_container.rs:285-315: the emitted statements; [ret] is the running sum. *)
Fixpoint fields_len (Ts : list Type) : hlist field Ts -> N -> tuple Ts -> res (option N) :=
  match Ts with
  | [] => fun _ ret _ => Ok (Some ret)
  | T :: Ts' => fun fs ret v =>
      if is_skip_serializing (f_attr (fst fs)) then fields_len Ts' (snd fs) ret (snd v)
      else
        let! c := der_contents_len (n_ser (f_names (fst fs))) (fst v) in
        match c with
        | Some contents_len =>
            let! i := id_len (n_ser (f_names (fst fs))) (fst v) in
            match i with
            | Some id_len =>
                let length_len := Length_len (Definite contents_len) in
                let! t := add_usize id_len length_len in
                let! t := add_usize t contents_len in
                let! ret := add_usize ret t in
                fields_len Ts' (snd fs) ret (snd v)
            | None => Ok None
            end
        | None => Ok None
        end
  end.
(** data_container.rs:265-275: whether some field has [into] or [to]. *)
Definition converts (a : attribute) : bool := is_some (a_into a) || is_some (a_to a).
(** data_container.rs:109-115, 148-154, 183-231, 264-316: the four methods of a struct
    that is not transparent, or of a variant. *)
Definition ser_fields {Ts} (dc : data_container Ts) : serialize (tuple Ts) :=
  {| write_id := fun _ W _ => write_all W (id_slice (dc_attr dc));
     write_der_contents := fun _ W v => write_fields W Ts (dc_fields dc) v;
     id_len := fun _ => Ok (Some (nlen (id_slice (dc_attr dc))));
     der_contents_len := fun v =>
       if existsb converts (field_attributes Ts (dc_fields dc)) then Ok None
       else fields_len Ts (dc_fields dc) 0 v |}.

(** Serialising a part of, or a value made from, an [A]. *)
Definition ser_on {A T} (f : A -> T) (D : serialize T) : serialize A :=
  {| write_id := fun _ W v => write_id D W (f v);
     write_der_contents := fun _ W v => write_der_contents D W (f v);
     id_len := fun v => id_len D (f v);
     der_contents_len := fun v => der_contents_len D (f v) |}.
(** ser/mod.rs:59-89 and 92-118; data_container.rs:126-135, 136-142, 242-258, and 157-171,
    319-333 for [into] and [to]: lengths are never announced. *)
Definition ser_converted {T} (t : target T) : serialize T :=
  {| write_id := fun _ W v => write_id (tg_ser t) W (tg_conv t v);
     write_der_contents := fun _ W v => write_der_contents (tg_ser t) W (tg_conv t v);
     id_len := fun _ => Ok None;
     der_contents_len := fun _ => Ok None |}.
(** data_container.rs:118-145, 157-171, 234-261, 319-333: the four methods on the field. *)
Definition ser_field {T} (f : field T) : serialize T :=
  let ps := n_paths (f_names f) in
  match a_into (f_attr f) with
  | Some ty => ser_converted (p_into ps ty)
  | None =>
      match a_to (f_attr f) with
      | Some path => ser_converted (p_to ps path)
      | None => n_ser (f_names f)
      end
  end.
(** data_container.rs:753-779, 792-814: the fields that are not skipped. *)
Fixpoint transparent_fields (Ts : list Type) : hlist field Ts -> list (serialize (tuple Ts)) :=
  match Ts with
  | [] => fun _ => []
  | T :: Ts' => fun fs =>
      let rest := map (ser_on snd) (transparent_fields Ts' (snd fs)) in
      if is_skip_serializing (f_attr (fst fs)) then rest else ser_on fst (ser_field (fst fs)) :: rest
  end.
Definition ser_transparent {Ts} (dc : data_container Ts) : option (serialize (tuple Ts)) :=
  match transparent_fields Ts (dc_fields dc) with
  | [s] => Some s
  | _ => None
  end.
(** ser/mod.rs:121-168 *)
Definition do_serialize_struct (a : attribute) (Ts : list Type) (fs : hlist field_decl Ts) : option (serialize (tuple Ts)) :=
  get dc := try_struct a Ts fs in
  if a_transparent (dc_attr dc) then ser_transparent dc else Some (ser_fields dc).
(** ser/mod.rs:203-227: [match self { arms }] *)
Fixpoint ser_variants (Tss : list (list Type)) : vlist data_container Tss -> serialize (choice Tss) :=
  match Tss with
  | [] => fun _ =>
      {| write_id := fun _ _ (v : Empty_set) => match v with end;
         write_der_contents := fun _ _ (v : Empty_set) => match v with end;
         id_len := fun v : Empty_set => match v with end;
         der_contents_len := fun v : Empty_set => match v with end |}
  | Ts :: Tss' => fun vs =>
      let arm := ser_fields (fst vs) in
      let arms := ser_variants Tss' (snd vs) in
      {| write_id := fun _ W v => match v with inl t => write_id arm W t | inr v' => write_id arms W v' end;
         write_der_contents := fun _ W v =>
           match v with inl t => write_der_contents arm W t | inr v' => write_der_contents arms W v' end;
         id_len := fun v => match v with inl t => id_len arm t | inr v' => id_len arms v' end;
         der_contents_len := fun v =>
           match v with inl t => der_contents_len arm t | inr v' => der_contents_len arms v' end |}
  end.
(** ser/mod.rs:171-228 *)
Definition do_serialize_enum (a : attribute) (Tss : list (list Type)) (vs : vlist variant_decl Tss)
  : option (serialize (choice Tss)) :=
  if negb (sanitize_as_enum a) then None else
  get variants := try_variants Tss vs in
  Some (ser_variants Tss variants).
(** ser/mod.rs:22-56 *)
Definition do_serialize (attrs : list syn_attribute) (d : data) (ps : paths (value d)) : option (serialize (value d)) :=
  get a := Attribute_try_from is_path attrs in
  if negb (sanitize_as_container a) then None else
  match a_into a with
  | Some ty => Some (ser_converted (p_into ps ty))
  | None =>
      match a_to a with
      | Some to_fn => Some (ser_converted (p_to ps to_fn))
      | None =>
          match d return option (serialize (value d)) with
          | DStruct Ts fs => do_serialize_struct a Ts fs
          | DEnum Tss vs => do_serialize_enum a Tss vs
          | DUnion _ => None
          end
      end
  end.

(** ** Deserialize *)
(** Contexts of errors (the odd numbers): a kind and the name of the field (or, for a container, of the
    type it is converted from). *)
Definition field_ctx (kind name : N) : N := 2 * (kind + 8 * name) + 1.
Definition with_context {A} (kind name : N) (r : res A) : res A :=
  rmap_err (fun e => Error_context (field_ctx kind name) e) r.
(** [TryFrom::try_from(val).map_err(...)]: data_container.rs:389-398, de/mod.rs:103-105. *)
Definition try_convert {T} (kind name : N) (r : T + anyhow) : res T :=
  match r with
  | inl t => Ok t
  | inr err => with_context kind name (Err (Anyhow err))
  end.

(** data_container.rs:360-378: parse a BER from the rest of the contents, and decode. *)
Definition ber_value_of {T} (name : N) (D : deserialize T) (contents_bytes : list N) : res (T * list N) :=
  let! (ber, rest) := with_context 0 name (parsed (BerRef_parse contents_bytes)) in
  let! (p, c) := disassemble ber in
  let! v := with_context 1 name (from_ber D (fst p) (snd p) c) in
  Ok (v, rest).
(** data_container.rs:546-563 *)
Definition der_value_of {T} (name : N) (D : deserialize T) (contents_bytes : list N) : res (T * list N) :=
  let! (der, rest) := with_context 2 name (parsed (DerRef_parse contents_bytes)) in
  let! (p, c) := disassemble der in
  let! v := with_context 3 name (from_der D (fst p) c) in
  Ok (v, rest).
(** data_container.rs:380-402: what a field is made of.  Takes the contents that are
    left and returns them. *)
Definition ber_field {T} (f : field T) (contents_bytes : list N) : res (T * list N) :=
  let attr := f_attr f in
  let ns := f_names f in
  if is_skip_deserializing attr then Ok (n_default ns (default_path attr), contents_bytes)
  else
    match a_from attr with
    | Some ty =>
        let s := p_from (n_paths ns) ty in
        let! (u, rest) := ber_value_of (n_field ns) (sr_de s) contents_bytes in
        Ok (sr_conv s u, rest)
    | None =>
        match a_try_from attr with
        | Some ty =>
            let s := p_try_from (n_paths ns) ty in
            let! (u, rest) := ber_value_of (n_field ns) (ts_de s) contents_bytes in
            let! t := try_convert 4 (n_field ns) (ts_conv s u) in
            Ok (t, rest)
        | None => ber_value_of (n_field ns) (n_de ns) contents_bytes
        end
    end.
(** data_container.rs:565-587 *)
Definition der_field {T} (f : field T) (contents_bytes : list N) : res (T * list N) :=
  let attr := f_attr f in
  let ns := f_names f in
  if is_skip_deserializing attr then Ok (n_default ns (default_path attr), contents_bytes)
  else
    match a_from attr with
    | Some ty =>
        let s := p_from (n_paths ns) ty in
        let! (u, rest) := der_value_of (n_field ns) (sr_de s) contents_bytes in
        Ok (sr_conv s u, rest)
    | None =>
        match a_try_from attr with
        | Some ty =>
            let s := p_try_from (n_paths ns) ty in
            let! (u, rest) := der_value_of (n_field ns) (ts_de s) contents_bytes in
            let! t := try_convert 4 (n_field ns) (ts_conv s u) in
            Ok (t, rest)
        | None => der_value_of (n_field ns) (n_de ns) contents_bytes
        end
    end.
(** data_container.rs:406-413, 591-598: the constructor, its fields in order. *)
Fixpoint construct (rd : forall T, field T -> list N -> res (T * list N)) (Ts : list Type)
  : hlist field Ts -> list N -> res (tuple Ts * list N) :=
  match Ts with
  | [] => fun _ contents_bytes => Ok (tt, contents_bytes)
  | T :: Ts' => fun fs contents_bytes =>
      let! (t, contents_bytes) := rd T (fst fs) contents_bytes in
      let! (ts, contents_bytes) := construct rd Ts' (snd fs) contents_bytes in
      Ok ((t, ts), contents_bytes)
  end.
(** data_container.rs:438-442, 607-611 *)
Definition all_read {A} (r : res (A * list N)) : res A :=
  let! (ret, contents_bytes) := r in
  if nlen contents_bytes =? 0 then Ok ret else Err ExtraContentsOctet.
(** data_container.rs:336-444, from_ber_contents *)
Definition from_ber_contents {Ts} (dc : data_container Ts) (length : Length) (contents : list N) : res (tuple Ts) :=
  let! contents_bytes :=
    match length with
    | Definite contents_length =>
        let! _ := debug_assert E (contents_length =? nlen contents) in Ok contents
    | Indefinite =>
        if ends_with contents EOC then Ok (take (nlen contents - nlen EOC) contents)
        else Err UnterminatedBytes
    end in
  all_read (construct (@ber_field) Ts (dc_fields dc) contents_bytes).
(** data_container.rs:528-613, from_der_contents *)
Definition from_der_contents {Ts} (dc : data_container Ts) (contents : list N) : res (tuple Ts) :=
  all_read (construct (@der_field) Ts (dc_fields dc) contents).

(** data_container.rs:461-507 and 629-674: a field of a transparent struct; [rd] is
    [from_ber] or [from_der] on what was given to the struct. *)
Definition whole_field {T} (kind : N) (rd : forall U, deserialize U -> res U) (f : field T) : res T :=
  let attr := f_attr f in
  let ns := f_names f in
  if is_skip_deserializing attr then Ok (n_default ns (default_path attr))
  else
    match a_from attr with
    | Some ty =>
        let s := p_from (n_paths ns) ty in
        let! u := with_context kind (n_field ns) (rd _ (sr_de s)) in Ok (sr_conv s u)
    | None =>
        match a_try_from attr with
        | Some ty =>
            let s := p_try_from (n_paths ns) ty in
            let! u := with_context kind (n_field ns) (rd _ (ts_de s)) in
            try_convert 4 (n_field ns) (ts_conv s u)
        | None => with_context kind (n_field ns) (rd _ (n_de ns))
        end
    end.
(** data_container.rs:509-515, 676-682 *)
Fixpoint construct_whole (kind : N) (rd : forall U, deserialize U -> res U) (Ts : list Type) : hlist field Ts -> res (tuple Ts) :=
  match Ts with
  | [] => fun _ => Ok tt
  | T :: Ts' => fun fs =>
      let! t := whole_field kind rd (fst fs) in
      let! ts := construct_whole kind rd Ts' (snd fs) in
      Ok (t, ts)
  end.
(** data_container.rs:447-525, from_ber_transparent, and 616-692, from_der_transparent:
    exactly one field is not skipped, or it is a compile error. *)
Definition de_transparent {Ts} (dc : data_container Ts) : option (deserialize (tuple Ts)) :=
  let deserialized_fields :=
    nlen (filter (fun a => negb (is_skip_deserializing a)) (field_attributes Ts (dc_fields dc))) in
  if deserialized_fields =? 1 then
    Some {| from_ber := fun id length contents =>
              construct_whole 1 (fun _ D => from_ber D id length contents) Ts (dc_fields dc);
            from_der := fun id contents =>
              construct_whole 3 (fun _ D => from_der D id contents) Ts (dc_fields dc) |}
  else None.
(** de/mod.rs:118-171 *)
Definition do_deserialize_struct (a : attribute) (Ts : list Type) (fs : hlist field_decl Ts) : option (deserialize (tuple Ts)) :=
  get dc := try_struct a Ts fs in
  if a_transparent (dc_attr dc) then de_transparent dc
  else
    Some {| from_ber := fun id length contents =>
              if negb (bytes_eqb id (id_slice (dc_attr dc))) then Err UnmatchedId
              else from_ber_contents dc length contents;
            from_der := fun id contents =>
              if negb (bytes_eqb id (id_slice (dc_attr dc))) then Err UnmatchedId
              else from_der_contents dc contents |}.
(** de/mod.rs:207-224: the chain of [if]s. *)
Fixpoint dispatch {X} (rd : forall Ts, data_container Ts -> X -> res (tuple Ts)) (Tss : list (list Type))
  : vlist data_container Tss -> list N -> X -> res (choice Tss) :=
  match Tss with
  | [] => fun _ _ _ => Err UnmatchedId
  | Ts :: Tss' => fun vs id x =>
      if bytes_eqb id (id_slice (dc_attr (fst vs))) then let! t := rd Ts (fst vs) x in Ok (inl t)
      else let! v := dispatch rd Tss' (snd vs) id x in Ok (inr v)
  end.
(** de/mod.rs:174-225 *)
Definition do_deserialize_enum (a : attribute) (Tss : list (list Type)) (vs : vlist variant_decl Tss)
  : option (deserialize (choice Tss)) :=
  if negb (sanitize_as_enum a) then None else
  get variants := try_variants Tss vs in
  Some {| from_ber := fun id length contents =>
            dispatch (fun Ts dc x => from_ber_contents dc (fst x) (snd x)) Tss variants id (length, contents);
          from_der := fun id contents => dispatch (fun Ts dc x => from_der_contents dc x) Tss variants id contents |}.
(** de/mod.rs:61-83 *)
Definition do_from_deserialize {T} (s : source T) : deserialize T :=
  {| from_ber := fun id length contents => let! val := from_ber (sr_de s) id length contents in Ok (sr_conv s val);
     from_der := fun id contents => let! val := from_der (sr_de s) id contents in Ok (sr_conv s val) |}.
(** de/mod.rs:86-115 *)
Definition do_try_from_deserialize {T} (s : try_source T) : deserialize T :=
  {| from_ber := fun id length contents =>
       let! val := from_ber (ts_de s) id length contents in try_convert 5 0 (ts_conv s val);
     from_der := fun id contents =>
       let! val := from_der (ts_de s) id contents in try_convert 5 0 (ts_conv s val) |}.
(** de/mod.rs:22-58 *)
Definition do_deserialize (attrs : list syn_attribute) (d : data) (ps : paths (value d)) : option (deserialize (value d)) :=
  get a := Attribute_try_from is_path attrs in
  if negb (sanitize_as_container a) then None else
  match a_from a with
  | Some ty => Some (do_from_deserialize (p_from ps ty))
  | None =>
      match a_try_from a with
      | Some ty => Some (do_try_from_deserialize (p_try_from ps ty))
      | None =>
          match d return option (deserialize (value d)) with
          | DStruct Ts fs => do_deserialize_struct a Ts fs
          | DEnum Tss vs => do_deserialize_enum a Tss vs
          | DUnion _ => None
          end
      end
  end.
End Derive.
