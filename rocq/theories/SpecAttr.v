(** Specification of the attribute [bsn1_serde], from its documentation
    (bsn1_serde_macros/annotation_bsn1_serde.md). *)
From Coq Require Import String Ascii.
From Verif Require Import Base ModelAttr Spec.

(** ** Arguments *)
Inductive arg :=
| AId | ATagClass | ATagPc | ATagNum | ASkipSerializing | ASkipDeserializing | ADefault | ASkip
| AInto | AFrom | ATo | ATryFrom | ATransparent.
(** What follows the name. *)
Inductive arg_value := VNone | VNum (n : N) | VPath (s : string).
Definition arg_name (x : arg) : string :=
  match x with
  | AId => "id" | ATagClass => "tag_class" | ATagPc => "tag_pc" | ATagNum => "tag_num"
  | ASkipSerializing => "skip_serializing" | ASkipDeserializing => "skip_deserializing"
  | ADefault => "default" | ASkip => "skip"
  | AInto => "into" | AFrom => "from" | ATo => "to" | ATryFrom => "try_from" | ATransparent => "transparent"
  end%string.
(** Documented values of [id]: class, p/c and number. *)
Definition documented_ids : list (string * (N * N * N)) :=
  [("EOC", (0, 0, 0)); ("Boolean", (0, 0, 1)); ("Integer", (0, 0, 2)); ("BitString", (0, 0, 3));
   ("OctetString", (0, 0, 4)); ("Null", (0, 0, 5)); ("Real", (0, 0, 9)); ("UTF8String", (0, 0, 12));
   ("Sequence", (0, 1, 16)); ("Set", (0, 1, 17))]%string.
Definition documented_classes : list (string * N) :=
  [("UNIVERSAL", 0); ("APPLICATION", 1); ("CONTEXT_SPECIFIC", 2); ("PRIVATE", 3)]%string.
Definition documented_pcs : list (string * N) := [("PRIMITIVE", 0); ("CONSTRUCTED", 1)]%string.

(** The value of a digit, and of a string of digits. *)
Definition digit_value (c : ascii) : option N :=
  match index 0 (String c EmptyString) "0123456789abcdefghijklmnopqrstuvwxyz"%string with
  | Some i => Some (N.of_nat i)
  | None =>
      match index 0 (String c EmptyString) "ABCDEFGHIJKLMNOPQRSTUVWXYZ"%string with
      | Some i => Some (10 + N.of_nat i)
      | None => None
      end
  end.
Inductive number_text (radix : N) : N -> string -> N -> Prop :=
| nt_nil acc : number_text radix acc EmptyString acc
| nt_cons acc c d s n : digit_value c = Some d -> d < radix -> number_text radix (acc * radix + d) s n ->
    number_text radix acc (String c s) n.
(** A literal that is a number: decimal, or with a prefix that says the radix. *)
Definition radix_of (prefix : string) (radix : N) : Prop :=
  (prefix = ""%string /\ radix = 10) \/ ((prefix = "0b"%string \/ prefix = "0B"%string) /\ radix = 2) \/
  ((prefix = "0o"%string \/ prefix = "0O"%string) /\ radix = 8) \/ ((prefix = "0x"%string \/ prefix = "0X"%string) /\ radix = 16).
Definition sign (s : string) : Prop := s = ""%string \/ s = "+"%string.
Definition number_literal (text : string) (n : N) : Prop :=
  exists s1 prefix s2 digits radix, sign s1 /\ sign s2 /\ radix_of prefix radix /\ digits <> EmptyString /\
    text = (s1 ++ prefix ++ s2 ++ digits)%string /\ number_text radix 0 digits n.
(** A literal that is a path between quotation marks. *)
Fixpoint quotes (k : nat) : string := match k with O => EmptyString | S k' => String quote_char (quotes k') end.
Definition path_literal (is_path : string -> bool) (text path : string) : Prop :=
  exists i j, text = (quotes i ++ path ++ quotes j)%string /\ is_path path = true /\
    (forall s, path <> String quote_char s) /\ (forall s, path <> (s ++ String quote_char EmptyString)%string).
(** The token [t] is a value of argument [x], and says [v]. *)
Definition value_says (is_path : string -> bool) (x : arg) (t : token) (v : arg_value) : Prop :=
  match x with
  | AId => exists name cls pc num, t = TIdent name /\ In (name, (cls, pc, num)) documented_ids /\ v = VNum (cls * 64 + pc * 32 + num)
  | ATagClass => exists name cls, t = TIdent name /\ In (name, cls) documented_classes /\ v = VNum (cls * 64)
  | ATagPc => exists name pc, t = TIdent name /\ In (name, pc) documented_pcs /\ v = VNum (pc * 32)
  | ATagNum => exists text n, t = TLiteral text /\ number_literal text n /\ n < 2 ^ 128 /\ v = VNum n
  | ADefault | AInto | AFrom | ATo | ATryFrom => exists text path, t = TLiteral text /\ path_literal is_path text path /\ v = VPath path
  | ASkipSerializing | ASkipDeserializing | ASkip | ATransparent => False
  end.
Definition takes_value (x : arg) : bool :=
  match x with ASkipSerializing | ASkipDeserializing | ASkip | ATransparent => false | _ => true end.
(** The tokens of a list of arguments.  Commas may be anywhere between arguments. *)
Inductive arguments (is_path : string -> bool) : list token -> list (arg * arg_value) -> Prop :=
| ar_nil : arguments is_path [] []
| ar_comma ts xs : arguments is_path ts xs -> arguments is_path (TPunct "," :: ts) xs
| ar_flag x ts xs : takes_value x = false -> arguments is_path ts xs ->
    arguments is_path (TIdent (arg_name x) :: ts) ((x, VNone) :: xs)
| ar_value x t v ts xs : takes_value x = true -> value_says is_path x t v -> arguments is_path ts xs ->
    arguments is_path (TIdent (arg_name x) :: TPunct "=" :: t :: ts) ((x, v) :: xs).
(** What an attribute says about an argument. *)
Definition says (a : attribute) (x : arg) (v : arg_value) : Prop :=
  match x with
  | AId => exists n, a_id a = Some n /\ v = VNum n
  | ATagClass => exists n, a_tag_class a = Some n /\ v = VNum n
  | ATagPc => exists n, a_tag_pc a = Some n /\ v = VNum n
  | ATagNum => exists n, a_tag_num a = Some n /\ v = VNum n
  | ASkipSerializing => a_skip_serializing a = true /\ v = VNone
  | ASkipDeserializing => a_skip_deserializing a = true /\ v = VNone
  | ADefault => exists p, a_default a = Some p /\ v = VPath p
  | ASkip => a_skip a = true /\ v = VNone
  | AInto => exists p, a_into a = Some p /\ v = VPath p
  | AFrom => exists p, a_from a = Some p /\ v = VPath p
  | ATo => exists p, a_to a = Some p /\ v = VPath p
  | ATryFrom => exists p, a_try_from a = Some p /\ v = VPath p
  | ATransparent => a_transparent a = true /\ v = VNone
  end.
Definition has (a : attribute) (x : arg) : Prop := exists v, says a x v.

(** ** Which arguments go together *)
Inductive group := GId | GSkip | GConversion | GTransparent.
Definition group_of (x : arg) : group :=
  match x with
  | AId | ATagClass | ATagPc | ATagNum => GId
  | ASkipSerializing | ASkipDeserializing | ADefault | ASkip => GSkip
  | AInto | AFrom | ATo | ATryFrom => GConversion
  | ATransparent => GTransparent
  end.
Definition conflict (x y : arg) : Prop :=
  group_of x <> group_of y \/ (x = AFrom /\ y = ATryFrom) \/ (x = AInto /\ y = ATo).
Definition compatible (a : attribute) : Prop := forall x y, has a x -> has a y -> ~ conflict x y.
(** Where an argument may be given. *)
Inductive position := PContainer | PStruct | PEnum | PVariant | PField.
Definition allowed (p : position) (x : arg) : Prop :=
  match p, group_of x with
  | (PContainer | PStruct), (GId | GConversion | GTransparent) => True
  | PEnum, GConversion => True
  | PVariant, GId => True
  | PField, (GSkip | GConversion) => True
  | _, _ => False
  end.
Definition accepted (p : position) (a : attribute) : bool :=
  match p with
  | PContainer => sanitize_as_container a
  | PStruct => sanitize_as_struct a
  | PEnum => sanitize_as_enum a
  | PVariant => sanitize_as_variant a
  | PField => sanitize_as_field a
  end.

(** ** Identifiers *)
(** Class, p/c and number an attribute asks for: those of [id] (SEQUENCE if not given),
    with what is given overwritten. *)
Definition or_else {A} (o : option A) (a : A) : A := match o with Some x => x | None => a end.
Definition class_of (a : attribute) : N := or_else (a_tag_class a) (or_else (a_id a) 0x30) / 64.
Definition pc_of (a : attribute) : N := or_else (a_tag_pc a) (or_else (a_id a) 0x30) / 32 mod 2.
Definition number_of (a : attribute) : N := or_else (a_tag_num a) (or_else (a_id a) 0x30 mod 32).
(** The values an attribute can have. *)
Definition values_ok (a : attribute) : Prop :=
  (forall n, a_id a = Some n -> exists name cls pc num, In (name, (cls, pc, num)) documented_ids /\ n = cls * 64 + pc * 32 + num) /\
  (forall n, a_tag_class a = Some n -> exists name cls, In (name, cls) documented_classes /\ n = cls * 64) /\
  (forall n, a_tag_pc a = Some n -> exists name pc, In (name, pc) documented_pcs /\ n = pc * 32) /\
  (forall n, a_tag_num a = Some n -> n < 2 ^ 128).

