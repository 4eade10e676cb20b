(** C71: the code that the derive macros emit. *)
From Coq Require Import String Ascii.
From Verif Require Import Base ModelError ModelIo ModelTag ModelContents ModelBuf ModelTlv ModelSerde ModelAttr ModelDerive ModelRust ModelEmit.
From Verif Require Import Spec SpecIo SpecSerde SpecEmit EmitProofs EmitDe EmitScope PropsDerive.
Local Open Scope string_scope.
Local Open Scope N_scope.

(** ** A program for the examples *)
(** Type 1 is bool, any other i32. *)
Definition ex_den (c : N) : Type := match c with 1 => bool | _ => Z end.
Definition ex_to_z (c : N) : ex_den c -> Z :=
  match c return ex_den c -> Z with 1 => fun b => (if b then 1 else 0)%Z | _ => fun z => z end.
Definition ex_of_z (c : N) : Z -> ex_den c :=
  match c return Z -> ex_den c with 1 => fun z => negb (Z.eqb z 0) | _ => fun z => z end.
Definition ex_program : program :=
  {| den := ex_den;
     type_named := fun s => if String.eqb s "bool" then 1 else 0;
     path_ident := fun s => if String.prefix "::" s then None else Some s;
     impl_ser := fun c => match c return serialize (ex_den c) with 1 => ser_bool | _ => ser_int I32 end;
     impl_de := fun c => match c return deserialize (ex_den c) with 1 => de_bool (ex_env true) | _ => de_int (ex_env true) I32 end;
     impl_into := fun a b v => ex_of_z b (ex_to_z a v);
     impl_from := fun a b v => ex_of_z b (ex_to_z a v);
     impl_try_from := fun a b v => if Z.ltb (ex_to_z a v) 10 then inl (ex_of_z b (ex_to_z a v)) else inr (AnForeign (FLeaf 5));
     fn_to := fun _ a => existT (fun b => ex_den a -> ex_den b) 0 (fun v => (ex_to_z a v + 1)%Z);
     fn_default := fun _ b => ex_of_z b 7;
     describe := fun s => N.of_nat (String.length s) |}.

(** [enum Shape {
       #[bsn1_serde(tag_class = APPLICATION, tag_num = 1)] Dot,
       #[bsn1_serde(tag_class = APPLICATION, tag_num = 2)]
       Line { x: i32, #[bsn1_serde(skip, default = "new")] seen: bool, #[bsn1_serde(to = "next")] y: i32 },
       #[bsn1_serde(tag_class = APPLICATION, tag_num = 3)]
       Pair(i32, #[bsn1_serde(into = "bool", from = "bool")] i32) }] *)
Definition lit_arg (x y : string) : list token := [TIdent x; TPunct "="; TLiteral y].
Definition fld (ty : N) (attrs : list syn_attribute) : sfield := {| sf_ty := ty; sf_attrs := attrs |}.
Definition shape_decl : sdata :=
  SEnum [ {| sv_ident := "Dot"; sv_attrs := tagged "1"; sv_fields := FUnit |};
          {| sv_ident := "Line"; sv_attrs := tagged "2";
             sv_fields := FNamed [("x", fld 0 []); ("seen", fld 1 [Some (TIdent "skip" :: and_ ++ lit_arg "default" """new""")%list]);
                                  ("y", fld 0 [Some (lit_arg "to" """next""")])] |};
          {| sv_ident := "Pair"; sv_attrs := tagged "3";
             sv_fields := FUnnamed [fld 0 []; fld 0 [Some (lit_arg "into" """bool""" ++ and_ ++ lit_arg "from" """bool""")%list]] |} ].
Definition any_impls {T} (t : T) : self_impls ex_program T :=
  Build_self_impls ex_program T (fun b _ => ex_of_z b 0) (fun _ _ => t) (fun _ _ => inl t)
    (fun _ => existT (fun b => T -> den ex_program b) 0 (fun _ => 0%Z)).
Definition Shape_ : Type := value (data_of ex_program "Shape" shape_decl).
Definition shape_impls : self_impls ex_program Shape_ := any_impls (inl tt).
Definition shape_self := self_of ex_program "Shape" shape_decl shape_impls.
Definition shape_line : Shape_ := inr (inl (1%Z, (true, (2%Z, tt)))).
Definition shape_pair : Shape_ := inr (inr (inl (4%Z, (9%Z, tt)))).

(** ** Serialize *)
Theorem C71_serialize : forall P E is_path attrs name d I code,
  distinct d -> ser_hygienic P is_path attrs d -> emit_serialize is_path attrs name d = Some code ->
  exists D, do_serialize is_path E attrs (data_of P name d) (paths_of P I) = Some D /\
            means_ser P E (self_of P name d I) code D.
Proof. exact emitted_serialize. Qed.
Print Assumptions C71_serialize.
Ltac no_name := intros (x & H & Hx); cbn in H; injection H as <-; cbn in Hx; intuition discriminate.
Ltac one_attribute := let a := fresh in let H := fresh in intros a H; injection H as <-; cbn.
Example C71_serialize_ex : exists code, distinct shape_decl /\ ser_hygienic ex_program any_path [] shape_decl /\
  emit_serialize any_path [] "Shape" shape_decl = Some code /\
  run_write ex_program (ex_env true) shape_self (code_write_der_contents code) (limited 100 2 (OtherIo 5)) shape_line [] =
    Some (Ok tt, [2; 1; 1; 2; 1; 3]) /\
  run_write ex_program (ex_env true) shape_self (code_write_der_contents code) (limited 100 2 (OtherIo 5)) shape_pair [] =
    Some (Ok tt, [2; 1; 4; 1; 1; 255]) /\
  run_write ex_program (ex_env true) shape_self (code_write_id code) (limited 100 2 (OtherIo 5)) shape_pair [] =
    Some (Ok tt, [0x63]) /\
  run_len ex_program (ex_env true) shape_self (code_der_contents_len code) shape_line = Some (Ok None) /\
  run_len ex_program (ex_env true) shape_self (code_der_contents_len code) (inl tt) = Some (Ok (Some 0)).
Proof.
  eexists. split; [|split; [|split; [vm_compute; reflexivity|]]].
  - split; [|repeat constructor; cbn; intuition discriminate]. repeat constructor; cbn; intuition discriminate.
  - one_attribute. repeat constructor; cbn; try one_attribute; try (intros _; exact Logic.I); try (intros H; discriminate H);
      intros _; no_name.
  - repeat split; vm_compute; reflexivity.
Qed.

(** ** Deserialize *)
Theorem C71_deserialize : forall P E is_path attrs name d I code,
  distinct d -> de_hygienic P is_path attrs d -> emit_deserialize is_path attrs name d = Some code ->
  exists D, do_deserialize is_path E attrs (data_of P name d) (paths_of P I) = Some D /\
            means_de P E (self_of P name d I) code D.
Proof. exact emitted_deserialize. Qed.
Print Assumptions C71_deserialize.
Example C71_deserialize_ex : exists code, distinct shape_decl /\ de_hygienic ex_program any_path [] shape_decl /\
  emit_deserialize any_path [] "Shape" shape_decl = Some code /\
  run_from_ber ex_program (ex_env true) shape_self (code_from_ber code) [0x62] (Definite 6) [2; 1; 1; 2; 1; 3] =
    Some (Ok (inr (inl (1%Z, (true, (3%Z, tt)))))) /\
  run_from_ber ex_program (ex_env true) shape_self (code_from_ber code) [0x62] Indefinite [2; 1; 1; 2; 1; 3; 0; 0] =
    Some (Ok (inr (inl (1%Z, (true, (3%Z, tt)))))) /\
  run_from_ber ex_program (ex_env true) shape_self (code_from_ber code) [0x62] Indefinite [2; 1; 1; 2; 1; 3] =
    Some (Err UnterminatedBytes) /\
  run_from_der ex_program (ex_env true) shape_self (code_from_der code) [0x63] [2; 1; 4; 1; 1; 255] =
    Some (Ok (inr (inr (inl (4%Z, (1%Z, tt)))))) /\
  run_from_der ex_program (ex_env true) shape_self (code_from_der code) [0x63] [2; 1; 4; 1; 1; 255; 0] =
    Some (Err ExtraContentsOctet) /\
  run_from_der ex_program (ex_env true) shape_self (code_from_der code) [0x64] [] = Some (Err UnmatchedId) /\
  run_from_der ex_program (ex_env true) shape_self (code_from_der code) [0x63] [] =
    Some (Err (Error_context (field_ctx 2 13) UnterminatedBytes)).
Proof.
  eexists. split; [|split; [|split; [vm_compute; reflexivity|]]].
  - split; [|repeat constructor; cbn; intuition discriminate]. repeat constructor; cbn; intuition discriminate.
  - one_attribute. repeat constructor; cbn; try one_attribute; try (intros H; discriminate H); intros _; no_name.
  - repeat split; vm_compute; reflexivity.
Qed.

(** ** Names of the user that the code takes *)
Theorem C71_serialize_captures : forall P is_path attrs name d code,
  emit_serialize is_path attrs name d = Some code -> ser_hygienic P is_path attrs d <-> ~ captures_ser P code.
Proof. exact captures_serialize. Qed.
Print Assumptions C71_serialize_captures.
Theorem C71_deserialize_captures : forall P is_path attrs name d code,
  emit_deserialize is_path attrs name d = Some code -> de_hygienic P is_path attrs d <-> ~ captures_de P code.
Proof. exact captures_deserialize. Qed.
Print Assumptions C71_deserialize_captures.
(** Without the condition on names the theorems are false: [struct S { #[bsn1_serde(to = "buffer")] x: i32 }],
    with a function [buffer] beside it, is accepted by the macro, and the code calls the parameter
    [buffer] of the method. *)
Definition named_buffer : sdata := SStruct (FNamed [("x", fld 0 [Some (lit_arg "to" """buffer""")])]).
Theorem C71_serialize_needed : exists P E is_path attrs name d I code D W (s : list N) v,
  distinct d /\ emit_serialize is_path attrs name d = Some code /\
  do_serialize is_path E attrs (data_of P name d) (paths_of P I) = Some D /\
  write_der_contents D W v s = (Ok tt, s ++ [2; 1; 8])%list /\
  run_write P E (self_of P name d I) (code_write_der_contents code) W v s = None /\
  captures_ser P code.
Proof.
  exists ex_program, (ex_env true), any_path, (tagged "1"), "S", named_buffer, (any_impls (0%Z, tt)).
  do 2 eexists. exists (limited 100 2 (OtherIo 5)), [], (7%Z, tt).
  split; [repeat constructor; cbn; tauto|]. split; [vm_compute; reflexivity|]. split; [reflexivity|].
  split; [vm_compute; reflexivity|]. split; [vm_compute; reflexivity|].
  right. left. constructor. exists "buffer". split; [reflexivity|]. left. reflexivity.
Qed.
Print Assumptions C71_serialize_needed.
(** The same for types: [struct S { #[bsn1_serde(into = "W")] x: i32 }], with a type [W] beside it, where the type parameter [W] of
    the method is meant instead. *)
Definition into_w : sdata := SStruct (FNamed [("x", fld 0 [Some (lit_arg "into" """W""")])]).
Theorem C71_serialize_types_needed : exists P E is_path attrs name d I code D W (s : list N) v,
  distinct d /\ emit_serialize is_path attrs name d = Some code /\
  do_serialize is_path E attrs (data_of P name d) (paths_of P I) = Some D /\
  write_der_contents D W v s = (Ok tt, s ++ [2; 1; 7])%list /\
  run_write P E (self_of P name d I) (code_write_der_contents code) W v s = None /\
  captures_ser P code.
Proof.
  exists ex_program, (ex_env true), any_path, (tagged "1"), "S", into_w, (any_impls (0%Z, tt)).
  do 2 eexists. exists (limited 100 2 (OtherIo 5)), [], (7%Z, tt).
  split; [repeat constructor; cbn; tauto|]. split; [vm_compute; reflexivity|]. split; [reflexivity|].
  split; [vm_compute; reflexivity|]. split; [vm_compute; reflexivity|].
  right. left. constructor. exists "W". split; [reflexivity|]. left. reflexivity.
Qed.
Print Assumptions C71_serialize_types_needed.
(** [struct S { #[bsn1_serde(skip, default = "id")] x: i32 }] *)
Definition named_id : sdata := SStruct (FNamed [("x", fld 0 [Some (TIdent "skip" :: and_ ++ lit_arg "default" """id""")%list])]).
Theorem C71_deserialize_needed : exists P E is_path attrs name d I code D id,
  distinct d /\ emit_deserialize is_path attrs name d = Some code /\
  do_deserialize is_path E attrs (data_of P name d) (paths_of P I) = Some D /\
  (exists v, from_der D id [] = Ok v) /\
  run_from_der P E (self_of P name d I) (code_from_der code) id [] = None /\
  captures_de P code.
Proof.
  exists ex_program, (ex_env true), any_path, (tagged "1"), "S", named_id, (any_impls (0%Z, tt)).
  do 2 eexists. exists [0x61].
  split; [repeat constructor; cbn; tauto|]. split; [vm_compute; reflexivity|]. split; [reflexivity|].
  split; [eexists; vm_compute; reflexivity|]. split; [vm_compute; reflexivity|].
  left. constructor. exists "id". split; [reflexivity|]. cbn. tauto.
Qed.
Print Assumptions C71_deserialize_needed.
(** The example from above takes none; with [to = "bsn1_macro_field_1701146321_x"] it would. *)
Example C71_captures_ex :
  (forall code, emit_serialize any_path [] "Shape" shape_decl = Some code -> ~ captures_ser ex_program code) /\
  (exists code,
     emit_serialize any_path [] "E"
       (SEnum [{| sv_ident := "V"; sv_attrs := tagged "1";
                  sv_fields := FNamed [("x", fld 0 []); ("y", fld 0 [Some (lit_arg "to" """bsn1_macro_field_1701146321_x""")])] |}])
     = Some code /\ captures_ser ex_program code).
Proof.
  split.
  - intros code Hc. apply (C71_serialize_captures _ _ _ _ _ _ Hc).
    one_attribute. repeat constructor; cbn; try one_attribute; try (intros _; exact Logic.I); try (intros H; discriminate H);
      intros _; no_name.
  - eexists. split; [vm_compute; reflexivity|]. right. left. constructor.
    exists "bsn1_macro_field_1701146321_x". split; [reflexivity|]. cbn. tauto.
Qed.

(** ** When the macros do not expand *)
Theorem C71_serialize_none : forall P E is_path attrs name d I,
  emit_serialize is_path attrs name d = None <->
  do_serialize is_path E attrs (data_of P name d) (paths_of P I) = None \/
  raw_in_variant d /\ exists a, Attribute_try_from is_path attrs = Some a /\ a_into a = None /\ a_to a = None.
Proof. exact emitted_serialize_none. Qed.
Print Assumptions C71_serialize_none.
Theorem C71_deserialize_none : forall P E is_path attrs name d I,
  emit_deserialize is_path attrs name d = None <->
  do_deserialize is_path E attrs (data_of P name d) (paths_of P I) = None.
Proof. exact emitted_deserialize_none. Qed.
Print Assumptions C71_deserialize_none.
(** [enum E { #[bsn1_serde(tag_class = APPLICATION, tag_num = 1)] V { r#type: i32 } }]: the
    derive of Serialize panics, the one of Deserialize does not; nor does either for the same
    fields in a struct. *)
Definition raw_fields : sfields := FNamed [("r#type", fld 0 [])].
Example C71_none_ex : let d := SEnum [{| sv_ident := "V"; sv_attrs := tagged "1"; sv_fields := raw_fields |}] in
  raw_in_variant d /\ emit_serialize any_path [] "E" d = None /\
  is_some (do_serialize any_path (ex_env true) [] (data_of ex_program "E" d) (paths_of ex_program (any_impls (inl (0%Z, tt))))) = true /\
  is_some (emit_deserialize any_path [] "E" d) = true /\
  is_some (emit_serialize any_path (tagged "1") "S" (SStruct raw_fields)) = true.
Proof.
  split; [|repeat split; vm_compute; reflexivity]. constructor. constructor. exists "type". reflexivity.
Qed.

(** ** The header of the impl *)
(** The impl has the parameters of the type with their bounds and without defaults, and is
    for the type with these parameters, in order. *)
Definition param_name (p : impl_param) : string :=
  match p with ILifetime n _ | IType n _ | IConst n _ => n end.
Definition declares (g : generic_param) (p : impl_param) : Prop :=
  match g, p with
  | GLifetime n b, ILifetime n' b' | GType n b _, IType n' b' | GConst n b _, IConst n' b' => n = n' /\ b = b'
  | _, _ => False
  end.
Theorem C71_header : forall name params where_clause, let h := emit_header name params where_clause in
  ih_name h = name /\ ih_where h = where_clause /\ Forall2 declares params (ih_params h) /\
  ih_args h = map param_name (ih_params h).
Proof.
  intros name params wc. cbn [emit_header ih_name ih_where ih_params ih_args]. split; [reflexivity|]. split; [reflexivity|].
  induction params as [|p params [IH1 IH2]]; [split; constructor|]. split.
  - constructor; [destruct p; cbn; auto|assumption].
  - unfold idents, ident_bounds in *. cbn [map]. rewrite IH2. destruct p; reflexivity.
Qed.
Print Assumptions C71_header.
Example C71_header_ex :
  emit_header "S" [GLifetime "'a" ""; GType "T" "Clone" (Some "u8"); GConst "N" "usize" None] (Some "T: Copy") =
  {| ih_params := [ILifetime "'a" ""; IType "T" "Clone"; IConst "N" "usize"]; ih_name := "S";
     ih_args := ["'a"; "T"; "N"]; ih_where := Some "T: Copy" |}.
Proof. reflexivity. Qed.

(** The evaluator rejects a pattern of another shape than the variant has ([V(x)] for [V { x }]), as the compiler does. *)
Theorem C71_pattern_shapes : forall P E T (ST : self_type P T) S (W : writer S) types v n name sh ds sh' binds body arms ex en s,
  local P T "self" en = Some (VSelfRef v) -> st_open P T ST v = (CVariant n name, sh, ds) -> sh <> sh' ->
  eval P T E ST types W (XMatchSelf ((name, sh', binds, body) :: arms)) ex en s = Stuck.
Proof.
  intros P E T ST S W types v n name sh ds sh' binds body arms ex en s H1 H2 H3.
  rewrite (match_self_cons P E ST W types _ _ _ _ _ _ _ _ _ _ _ _ _ H1 H2), String.eqb_refl. destruct sh, sh'; try reflexivity; congruence.
Qed.
Print Assumptions C71_pattern_shapes.
(** Only its own constructors make and match values of a type: a struct has one of its name, an enum those of its variants. *)
Theorem C71_constructors : forall P name d I c ds,
  (match d with SStruct _ => c = CStruct name | SEnum vs => exists w, In w vs /\ c = CVariant name (sv_ident w) | SUnion _ => False end) \/
  st_members P _ (self_of P name d I) c = None /\ st_make P _ (self_of P name d I) c ds = None.
Proof.
  intros P name [fs|vs|u] I c ds; cbn [self_of st_members st_make].
  - destruct c as [x|x y]; cbn [cname_eqb]; [|auto]. destruct (String.eqb_spec x name) as [->|]; auto.
  - revert c ds. clear I. intros c ds. induction vs as [|w vs IH]; [right; split; reflexivity|]. cbn [variant_members variant_in].
    destruct c as [x|x y]; cbn [cname_eqb].
    + destruct IH as [(u & Iu & Hu)|[-> ->]]; [discriminate Hu | right; split; reflexivity].
    + destruct (String.eqb_spec x name) as [->|N]; [destruct (String.eqb_spec y (sv_ident w)) as [->|N]|]; cbn [andb].
      * left. exists w. split; [now left | reflexivity].
      * destruct IH as [(u & Iu & Hu)|[-> ->]]; [left; exists u; split; [now right | assumption] | right; split; reflexivity].
      * destruct IH as [(u & Iu & Hu)|[-> ->]]; [left; exists u; split; [now right | assumption] | right; split; reflexivity].
  - auto.
Qed.
Print Assumptions C71_constructors.
Example C71_constructors_ex : st_make ex_program _ shape_self (CStruct "Shape") [] = None /\
  st_members ex_program _ shape_self (CVariant "Shape" "Square") = None.
Proof. split; reflexivity. Qed.
