(** Attributes of the derive macros (C32, C35, C50). *)
From Coq Require Import String Ascii.
From Verif Require Import Base ModelTag ModelAttr Spec SpecAttr IdProofs TagMain AttrProofs AttrParse.

Definition any_path (s : string) : bool := negb (String.eqb s "").

(** C32: the identifier of a struct or variant is the one of its class, p/c and number. *)
Theorem C32_identifier : forall is_path attrs a, Attribute_try_from is_path attrs = Some a ->
  identifier (class_of a) (pc_of a) (number_of a) (id_slice a) /\ number_of a < 2 ^ 128 /\
  exists c p, class_num c = class_of a /\ pc_num p = pc_of a /\ Id_new c p (number_of a) = Ok (id_slice a).
Proof. exact derived_identifier. Qed.
Print Assumptions C32_identifier.
(** The components are those that are given, else those of [id], else those of SEQUENCE. *)
Theorem C32_components : forall is_path attrs a, Attribute_try_from is_path attrs = Some a ->
  (forall c, a_tag_class a = Some (c * 64) -> class_of a = c) /\
  (forall p, a_tag_pc a = Some (p * 32) -> pc_of a = p) /\
  (forall n, a_tag_num a = Some n -> number_of a = n) /\
  (forall name c p n, a_id a = Some (c * 64 + p * 32 + n) -> In (name, (c, p, n)) documented_ids ->
     (a_tag_class a = None -> class_of a = c) /\ (a_tag_pc a = None -> pc_of a = p) /\ (a_tag_num a = None -> number_of a = n)) /\
  (a_id a = None ->
     (a_tag_class a = None -> class_of a = 0) /\ (a_tag_pc a = None -> pc_of a = 1) /\ (a_tag_num a = None -> number_of a = 16)).
Proof. intros is_path attrs a H. exact (class_of_given a (try_from_values is_path attrs a H)). Qed.
Print Assumptions C32_components.
(** [id = UTF8String, tag_class = APPLICATION, tag_num = 0x12c] *)
Definition ex_tokens : list token :=
  [TIdent "id"; TPunct "="; TIdent "UTF8String"; TPunct ","; TIdent "tag_class"; TPunct "="; TIdent "APPLICATION"; TPunct ",";
   TIdent "tag_num"; TPunct "="; TLiteral "0x12c"]%string.
Definition ex_attribute : attribute :=
  {| a_id := Some 0x0c; a_tag_class := Some 0x40; a_tag_pc := None; a_tag_num := Some 300;
     a_skip_serializing := false; a_skip_deserializing := false; a_default := None; a_skip := false;
     a_into := None; a_from := None; a_to := None; a_try_from := None; a_transparent := false |}.
Example C32_ex :
  Attribute_try_from any_path [None; Some ex_tokens] = Some ex_attribute /\
  class_of ex_attribute = 1 /\ pc_of ex_attribute = 0 /\ number_of ex_attribute = 300 /\
  id_slice ex_attribute = [0x5f; 0x82; 0x2c] /\ Id_new Application Primitive 300 = Ok [0x5f; 0x82; 0x2c].
Proof. repeat split. Qed.

(** C35: an attribute is accepted at a position exactly when each of its arguments may be
    given there and no two of them are in conflict. *)
Theorem C35_accepted : forall p a, accepted p a = true <-> (forall x, has a x -> allowed p x) /\ compatible a.
Proof. exact accepted_iff. Qed.
Print Assumptions C35_accepted.
(** And it is rejected already when it is parsed if two are in conflict. *)
Theorem C35_conflict : forall is_path ts, 
  (Attribute_try_from is_path [Some ts] <> None <-> exists a, Attribute_parse is_path ts = Some a /\ compatible a).
Proof. exact try_from_one. Qed.
Print Assumptions C35_conflict.
Example C35_ex :
  accepted PStruct ex_attribute = true /\ accepted PVariant ex_attribute = true /\
  accepted PField ex_attribute = false /\ has ex_attribute AId /\ ~ allowed PField AId /\
  conflict AFrom ATryFrom /\ ~ conflict AFrom AInto /\ conflict ASkip AInto /\
  Attribute_try_from any_path [Some [TIdent "id"; TPunct "="; TIdent "Set"; TPunct ","; TIdent "transparent"]%string] = None.
Proof.
  repeat split.
  - exists (VNum 12), 12. split; reflexivity.
  - intros H. exact H.
  - right. left. split; reflexivity.
  - unfold conflict. cbn. intros [H|[[_ H]|[H _]]]; congruence.
  - left. discriminate.
Qed.

(** C50: parsing.  The tokens are accepted exactly when they are arguments, each given at
    most once, and the attribute then says what they say. *)
Theorem C50_parse : forall is_path ts a, Attribute_parse is_path ts = Some a <->
  exists xs, arguments is_path ts xs /\ NoDup (map fst xs) /\ forall x v, says a x v <-> In (x, v) xs.
Proof. exact attribute_parse_iff. Qed.
Print Assumptions C50_parse.
Theorem C50_attributes : forall is_path attrs a, Attribute_try_from is_path attrs = Some a <->
  (a = no_attribute /\ forall t, ~ In (Some t) attrs) \/
  exists pre ts post, attrs = pre ++ Some ts :: post /\ (forall t, ~ In (Some t) (pre ++ post)) /\
    Attribute_parse is_path ts = Some a /\ compatible a.
Proof. exact try_from_iff. Qed.
Print Assumptions C50_attributes.
(** A number is read as the specification says, in each notation. *)
Theorem C50_number : forall text n, parse_tag_num_value (TLiteral text) = Some n <-> number_literal text n /\ n < 2 ^ 128.
Proof. exact number_iff. Qed.
Print Assumptions C50_number.
Example C50_ex :
  arguments any_path ex_tokens [(AId, VNum 12); (ATagClass, VNum 64); (ATagNum, VNum 300)] /\
  number_literal "0x12c"%string 300 /\
  Attribute_parse any_path ex_tokens = Some ex_attribute /\
  Attribute_parse any_path (ex_tokens ++ [TPunct ","; TIdent "tag_num"; TPunct "="; TLiteral "5"]%string) = None /\
  parse_tag_num_value (TLiteral "0o17"%string) = Some 15 /\ parse_tag_num_value (TLiteral "0o18"%string) = None /\
  parse_tag_num_value (TLiteral "340282366920938463463374607431768211456"%string) = None.
Proof.
  assert (number_literal "0x12c"%string 300) as NL.
  { apply C50_number. reflexivity. }
  split; [|repeat split; assumption || reflexivity].
  unfold ex_tokens. apply (ar_value any_path AId); [reflexivity | | apply ar_comma; apply (ar_value any_path ATagClass); [reflexivity | | apply ar_comma; apply (ar_value any_path ATagNum); [reflexivity | | constructor]]].
  - exists "UTF8String"%string, 0, 0, 12. repeat split. cbn. tauto.
  - exists "APPLICATION"%string, 1. repeat split. cbn. tauto.
  - exists "0x12c"%string, 300. repeat split. assumption.
Qed.
