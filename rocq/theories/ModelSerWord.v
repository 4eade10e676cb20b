(** Serialisation on a machine whose usize has [w] octets, in the dev profile and in the release profile ([rel]):
    the definitions of ModelSerde.v and ModelDerive.v, same lines, with the functions of ModelWord.v and ModelWordTlv.v.
    A sum of usize that overflows panics in the dev profile and wraps around in the release profile.  What has no
    sums and no lengths ([ser_converted], [ser_field], transparent structs) is as it is there. *)
From Coq Require Import String Ascii.
From Verif Require Import Base ModelError ModelIo ModelTag ModelContents ModelBuf ModelTlv ModelSerde ModelAttr ModelDerive ModelWord ModelWordTlv.

Section WORD.
Context (w : N) (rel : bool).

(** [x + y] on usize *)
Definition x_add (x y : N) : res N := if rel then Ok ((x + y) mod word_limit w) else w_add_usize w x y.
(** bsn1/src/buffer/mod.rs:201-211, [impl Write for Buffer].  The sum in [reserve] does not overflow: a buffer and a
    slice have at most isize::MAX octets each. *)
Definition x_bf_io_write (cfg : bufcfg) (bs : list N) (b : buf) : res buf :=
  let! b1 := w_bf_reserve w cfg (nlen bs) b in bf_extend bs b1.
Definition x_buf_writer (cfg : bufcfg) : writer buf :=
  {| wr_write := fun b bs =>
       match x_bf_io_write cfg bs b with
       | Ok b' => (WrOk (nlen bs), b')
       | _ => (WrPanic, b)
       end;
     wr_fuel := 1 |}.

Section Entry.
Context (E : env) {T : Type} (D : serialize T).
Let cfg := e_cfg E.
(** bsn1_serde/src/lib.rs:36-43 and 85-92 *)
Definition x_contents_or_len (v : T) : res (N * option buf) :=
  let! l := der_contents_len D v in
  match l with
  | Some len => Ok (len, None)
  | None =>
      let! contents := in_buffer (write_der_contents D (x_buf_writer cfg) v (bf_new cfg)) in
      Ok (b_len contents, Some contents)
  end.
(** bsn1_serde/src/lib.rs:32-63, to_der *)
Definition x_to_der (v : T) : res buf :=
  let! (contents_len, contents) := x_contents_or_len v in
  let! length := w_Length_to_bytes w (Definite contents_len) in
  let buffer := bf_new cfg in
  let! il := id_len D v in
  let! buffer :=
    match il with
    | Some id_len =>
        let! t := x_add id_len (nlen length) in
        let! der_len := x_add t contents_len in
        w_bf_reserve w cfg der_len buffer
    | None => Ok buffer
    end in
  let! buffer := in_buffer (write_id D (x_buf_writer cfg) v buffer) in
  let! buffer := unwrap_unit (in_buffer (write_all (x_buf_writer cfg) length buffer)) in
  match contents with
  | Some contents => unwrap_unit (in_buffer (write_all (x_buf_writer cfg) (bf_slice contents) buffer))
  | None => in_buffer (write_der_contents D (x_buf_writer cfg) v buffer)
  end.
(** bsn1_serde/src/lib.rs:80-106, write_der *)
Definition x_write_der {S} (W : writer S) (v : T) : wr S unit :=
  do! p := wlift (x_contents_or_len v) in
  do! length := wlift (w_Length_to_bytes w (Definite (fst p))) in
  do! _ := write_id D W v in
  do! _ := write_all W length in
  match snd p with
  | Some contents => write_all W (bf_slice contents)
  | None => write_der_contents D W v
  end.
(** bsn1_serde/src/ser/mod.rs:663-675, der_len *)
Definition x_der_len (v : T) : res (option N) :=
  let! c := der_contents_len D v in
  match c with
  | Some contents_len =>
      let! i := id_len D v in
      match i with
      | Some id_len =>
          let! t := x_add id_len (w_Length_len w (Definite contents_len)) in
          let! r := x_add t contents_len in
          Ok (Some r)
      | None => Ok None
      end
  | None => Ok None
  end.
(** bsn1_serde/src/ser/mod.rs:677-691 *)
Fixpoint x_der_contents_len_from (ret : N) (it : list T) : res (option N) :=
  match it with
  | [] => Ok (Some ret)
  | t :: it' =>
      let! l := x_der_len t in
      match l with
      | Some len => let! ret' := x_add ret len in x_der_contents_len_from ret' it'
      | None => Ok None
      end
  end.
(** ser/mod.rs:401-403 *)
Fixpoint x_write_ders {S} (W : writer S) (it : list T) : wr S unit :=
  match it with
  | [] => wret tt
  | t :: it' => do! _ := x_write_der W t in x_write_ders W it'
  end.
End Entry.

(** ** usize and isize *)
(** The integers of the size of a word: of 1, 2, 4 or 8 octets, the type with the same memory. *)
Definition word_ty (signed : bool) : int_ty :=
  if w =? 1 then if signed then I8 else U8
  else if w =? 2 then if signed then I16 else U16
  else if w =? 4 then if signed then I32 else U32
  else if signed then I64 else U64.
(** ser/mod.rs:321-368, [Serialize for isize] and [for usize] *)
Definition x_word_len (signed : bool) (v : Z) : N :=
  let size := N.size (Z.to_N (if signed && (v <? 0)%Z then - v - 1 else v)%Z) in
  (8 * w + 8 - (8 * w - size)) / 8.
Definition x_ser_word (signed : bool) : serialize Z :=
  {| write_id := fun _ W _ => write_all W ID_INTEGER;
     write_der_contents := fun _ W v =>
       do! contents := wlift (Contents_from_int (word_ty signed) v) in write_all W contents;
     id_len := fun _ => Ok (Some 1);
     der_contents_len := fun v => Ok (Some (x_word_len signed v)) |}.

(** ** Collections: bsn1_serde/src/ser/mod.rs:390-493, 568-590 *)
Definition x_ser_items {T} (E : env) (ID : list N) (D : serialize T) : serialize (list T) :=
  {| write_id := fun _ W _ => write_all W ID;
     write_der_contents := fun _ W v => x_write_ders E D W v;
     id_len := fun _ => Ok (Some 1);
     der_contents_len := fun v => x_der_contents_len_from D 0 v |}.

Section Maps.
Context (E : env) {K V : Type} (DK : serialize K) (DV : serialize V).
(** ser/mod.rs:508-515, 516-523 and 603-610, 611-618 *)
Definition x_der_or_len {T} (D : serialize T) (t : T) : res (N * option buf) :=
  let! l := x_der_len D t in
  match l with
  | Some len => Ok (len, None)
  | None => let! d := x_to_der E D t in Ok (nlen (bf_slice d), Some d)
  end.
Definition x_write_der_or {T S} (D : serialize T) (W : writer S) (t : T) (d : option buf) : wr S unit :=
  match d with
  | Some d => write_all W (bf_slice d)
  | None => x_write_der E D W t
  end.
(** ser/mod.rs:506-542 (BTreeMap) and 602-640 (HashMap), the body of the loop. *)
Definition x_write_entry {S} (W : writer S) (k : K) (v : V) : wr S unit :=
  do! pk := wlift (x_der_or_len DK k) in
  do! pv := wlift (x_der_or_len DV v) in
  do! content_len := wlift (x_add (fst pk) (fst pv)) in
  do! length := wlift (w_Length_to_bytes w (Definite content_len)) in
  do! _ := write_all W ID_SEQUENCE in
  do! _ := write_all W length in
  do! _ := x_write_der_or DK W k (snd pk) in
  x_write_der_or DV W v (snd pv).
Fixpoint x_write_entries {S} (W : writer S) (it : list (K * V)) : wr S unit :=
  match it with
  | [] => wret tt
  | (k, v) :: it' => do! _ := x_write_entry W k v in x_write_entries W it'
  end.
(** ser/mod.rs:549-565 *)
Fixpoint x_btree_map_len (ret : N) (it : list (K * V)) : res (option N) :=
  match it with
  | [] => Ok (Some ret)
  | (k, v) :: it' =>
      let! kl := x_der_len DK k in
      match kl with
      | Some k_len =>
          let! vl := x_der_len DV v in
          match vl with
          | Some v_len =>
              let! content_len := x_add k_len v_len in
              let! t := x_add (nlen ID_SEQUENCE) (w_Length_len w (Definite content_len)) in
              let! t := x_add t content_len in
              let! ret' := x_add ret t in
              x_btree_map_len ret' it'
          | None => Ok None
          end
      | None => Ok None
      end
  end.
(** ser/mod.rs:646-660 *)
Fixpoint x_hash_map_len (ret : N) (it : list (K * V)) : res (option N) :=
  match it with
  | [] => Ok (Some ret)
  | (k, v) :: it' =>
      let! kl := x_der_len DK k in
      match kl with
      | Some k_len =>
          let! vl := x_der_len DV v in
          match vl with
          | Some v_len =>
              let! content_len := x_add k_len v_len in
              let! t := x_add (nlen ID_SEQUENCE) (w_Length_len w (Definite content_len)) in
              let! t := x_add t content_len in
              let! ret' := x_add ret t in
              x_hash_map_len ret' it'
          | None => Ok None
          end
      | None => x_hash_map_len ret it'
      end
  end.
(** ser/mod.rs:495-566 *)
Definition x_ser_btree_map : serialize (list (K * V)) :=
  {| write_id := fun _ W _ => write_all W ID_SEQUENCE;
     write_der_contents := fun _ W v => x_write_entries W v;
     id_len := fun _ => Ok (Some 1);
     der_contents_len := x_btree_map_len 0 |}.
(** ser/mod.rs:592-661 *)
Definition x_ser_hash_map : serialize (list (K * V)) :=
  {| write_id := fun _ W _ => write_all W ID_SET;
     write_der_contents := fun _ W v => x_write_entries W v;
     id_len := fun _ => Ok (Some 1);
     der_contents_len := x_hash_map_len 0 |}.
End Maps.

(** ** Derived implementations: bsn1_serde_macros/src *)
Section Derive.
Context (is_path : string -> bool) (E : env).
(** data_container.rs:184-231, write_der_contents *)
Fixpoint x_write_fields {S} (W : writer S) (Ts : list Type) : hlist field Ts -> tuple Ts -> wr S unit :=
  match Ts with
  | [] => fun _ _ => wret tt
  | T :: Ts' => fun fs v =>
      let attr := f_attr (fst fs) in
      let ps := n_paths (f_names (fst fs)) in
      if is_skip_serializing attr then x_write_fields W Ts' (snd fs) (snd v)
      else
        do! _ :=
          match a_into attr with
          | Some ty => x_write_der E (tg_ser (p_into ps ty)) W (tg_conv (p_into ps ty) (fst v))
          | None =>
              match a_to attr with
              | Some path => x_write_der E (tg_ser (p_to ps path)) W (tg_conv (p_to ps path) (fst v))
              | None => x_write_der E (n_ser (f_names (fst fs))) W (fst v)
              end
          end in
        x_write_fields W Ts' (snd fs) (snd v)
  end.
(** data_container.rs:285-315 *)
Fixpoint x_fields_len (Ts : list Type) : hlist field Ts -> N -> tuple Ts -> res (option N) :=
  match Ts with
  | [] => fun _ ret _ => Ok (Some ret)
  | T :: Ts' => fun fs ret v =>
      if is_skip_serializing (f_attr (fst fs)) then x_fields_len Ts' (snd fs) ret (snd v)
      else
        let! c := der_contents_len (n_ser (f_names (fst fs))) (fst v) in
        match c with
        | Some contents_len =>
            let! i := id_len (n_ser (f_names (fst fs))) (fst v) in
            match i with
            | Some id_len =>
                let length_len := w_Length_len w (Definite contents_len) in
                let! t := x_add id_len length_len in
                let! t := x_add t contents_len in
                let! ret := x_add ret t in
                x_fields_len Ts' (snd fs) ret (snd v)
            | None => Ok None
            end
        | None => Ok None
        end
  end.
(** data_container.rs:109-115, 148-154, 183-231, 264-316 *)
Definition x_ser_fields {Ts} (dc : data_container Ts) : serialize (tuple Ts) :=
  {| write_id := fun _ W _ => write_all W (id_slice (dc_attr dc));
     write_der_contents := fun _ W v => x_write_fields W Ts (dc_fields dc) v;
     id_len := fun _ => Ok (Some (nlen (id_slice (dc_attr dc))));
     der_contents_len := fun v =>
       if existsb converts (field_attributes Ts (dc_fields dc)) then Ok None
       else x_fields_len Ts (dc_fields dc) 0 v |}.
(** ser/mod.rs:121-168 *)
Definition x_do_serialize_struct (a : attribute) (Ts : list Type) (fs : hlist field_decl Ts) : option (serialize (tuple Ts)) :=
  get dc := try_struct is_path a Ts fs in
  if a_transparent (dc_attr dc) then ser_transparent dc else Some (x_ser_fields dc).
(** ser/mod.rs:203-227 *)
Fixpoint x_ser_variants (Tss : list (list Type)) : vlist data_container Tss -> serialize (choice Tss) :=
  match Tss with
  | [] => fun _ =>
      {| write_id := fun _ _ (v : Empty_set) => match v with end;
         write_der_contents := fun _ _ (v : Empty_set) => match v with end;
         id_len := fun v : Empty_set => match v with end;
         der_contents_len := fun v : Empty_set => match v with end |}
  | Ts :: Tss' => fun vs =>
      let arm := x_ser_fields (fst vs) in
      let arms := x_ser_variants Tss' (snd vs) in
      {| write_id := fun _ W v => match v with inl t => write_id arm W t | inr v' => write_id arms W v' end;
         write_der_contents := fun _ W v =>
           match v with inl t => write_der_contents arm W t | inr v' => write_der_contents arms W v' end;
         id_len := fun v => match v with inl t => id_len arm t | inr v' => id_len arms v' end;
         der_contents_len := fun v =>
           match v with inl t => der_contents_len arm t | inr v' => der_contents_len arms v' end |}
  end.
(** ser/mod.rs:171-228 *)
Definition x_do_serialize_enum (a : attribute) (Tss : list (list Type)) (vs : vlist variant_decl Tss)
  : option (serialize (choice Tss)) :=
  if negb (sanitize_as_enum a) then None else
  get variants := try_variants is_path Tss vs in
  Some (x_ser_variants Tss variants).
(** ser/mod.rs:22-56 *)
Definition x_do_serialize (attrs : list syn_attribute) (d : data) (ps : paths (value d)) : option (serialize (value d)) :=
  get a := Attribute_try_from is_path attrs in
  if negb (sanitize_as_container a) then None else
  match a_into a with
  | Some ty => Some (ser_converted (p_into ps ty))
  | None =>
      match a_to a with
      | Some to_fn => Some (ser_converted (p_to ps to_fn))
      | None =>
          match d return option (serialize (value d)) with
          | DStruct Ts fs => x_do_serialize_struct a Ts fs
          | DEnum Tss vs => x_do_serialize_enum a Tss vs
          | DUnion _ => None
          end
      end
  end.
End Derive.
End WORD.
