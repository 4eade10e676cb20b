(** Attributes of the derive macros: bsn1_serde_macros/src/attribute.rs.
    Text is a string of octets.  A compile error is [None] (its message is not modelled). *)
From Coq Require Import String Ascii.
From Verif Require Import Base.

(** proc_macro2::TokenTree, as far as the code looks at it. *)
Inductive token := TIdent (s : string) | TPunct (c : ascii) | TLiteral (text : string) | TGroup.

(** attribute.rs:26-54.  The identifiers kept for messages are left out, so that an
    argument without a value is only there or not; a path is its text. *)
Record attribute := {
  a_id : option N; a_tag_class : option N; a_tag_pc : option N; a_tag_num : option N;
  a_skip_serializing : bool; a_skip_deserializing : bool; a_default : option string; a_skip : bool;
  a_into : option string; a_from : option string; a_to : option string; a_try_from : option string;
  a_transparent : bool }.
(** [Attribute::default()] *)
Definition no_attribute : attribute :=
  {| a_id := None; a_tag_class := None; a_tag_pc := None; a_tag_num := None;
     a_skip_serializing := false; a_skip_deserializing := false; a_default := None; a_skip := false;
     a_into := None; a_from := None; a_to := None; a_try_from := None; a_transparent := false |}.
Definition is_some {A} (o : option A) : bool := match o with Some _ => true | None => false end.
(** [?] on a [syn::Result] *)
Notation "'get' x := m 'in' k" := (match m with Some x => k | None => None end)
  (at level 200, x pattern, m at level 100, k at level 200, right associativity).

(** ** Values of arguments *)
(** [ident == s] for the first [s] of the table. *)
Fixpoint lookup (values : list (string * N)) (ident : string) : option N :=
  match values with
  | [] => None
  | (s, v) :: values' => if String.eqb ident s then Some v else lookup values' ident
  end.
Definition parse_keyword (values : list (string * N)) (value : token) : option N :=
  match value with
  | TIdent ident => lookup values ident
  | _ => None
  end.
(** attribute.rs:482-514 *)
Definition id_values : list (string * N) :=
  [("EOC", 0x00); ("Boolean", 0x01); ("Integer", 0x02); ("BitString", 0x03); ("OctetString", 0x04);
   ("Null", 0x05); ("Real", 0x09); ("UTF8String", 0x0c); ("Sequence", 0x30); ("Set", 0x31)]%string.
Definition parse_id_value : token -> option N := parse_keyword id_values.
(** attribute.rs:516-540 *)
Definition tag_class_values : list (string * N) :=
  [("UNIVERSAL", 0x00); ("APPLICATION", 0x40); ("CONTEXT_SPECIFIC", 0x80); ("PRIVATE", 0xc0)]%string.
Definition parse_tag_class_value : token -> option N := parse_keyword tag_class_values.
(** attribute.rs:542-561 *)
Definition tag_pc_values : list (string * N) := [("PRIMITIVE", 0x00); ("CONSTRUCTED", 0x20)]%string.
Definition parse_tag_pc_value : token -> option N := parse_keyword tag_pc_values.

(** [char::to_digit] (std) on an octet. *)
Definition to_digit (radix : N) (c : ascii) : option N :=
  let n := N_of_ascii c in
  let d := if (48 <=? n) && (n <=? 57) then Some (n - 48)
           else if (97 <=? n) && (n <=? 122) then Some (n - 87)
           else if (65 <=? n) && (n <=? 90) then Some (n - 55)
           else None in
  match d with
  | Some d => if d <? radix then Some d else None
  | None => None
  end.
(** [u128::from_str_radix] (std): one leading [+] is allowed, at least one digit is
    needed, and the value must fit. *)
Fixpoint radix_digits (radix acc : N) (s : string) : option N :=
  match s with
  | EmptyString => Some acc
  | String c s' =>
      match to_digit radix c with
      | Some d =>
          let acc' := acc * radix + d in
          if acc' <? 2 ^ 128 then radix_digits radix acc' s' else None
      | None => None
      end
  end.
Definition from_str_radix (s : string) (radix : N) : option N :=
  match s with
  | EmptyString => None
  | String c s' =>
      if Ascii.eqb c "+" then match s' with EmptyString => None | _ => radix_digits radix 0 s' end
      else radix_digits radix 0 s
  end.
(** [str::starts_with] and slicing the prefix off. *)
Fixpoint strip_prefix (prefix s : string) : option string :=
  match prefix, s with
  | EmptyString, _ => Some s
  | String p prefix', String c s' => if Ascii.eqb p c then strip_prefix prefix' s' else None
  | String _ _, EmptyString => None
  end.
(** attribute.rs:573-581 *)
Definition radix_prefixes : list (string * N) :=
  [("0b", 2); ("0B", 2); ("0o", 8); ("0O", 8); ("0x", 16); ("0X", 16); ("", 10)]%string.
(** attribute.rs:582-591; the last prefix always fits. *)
Fixpoint parse_prefixed (prefixes : list (string * N)) (val : string) : option N :=
  match prefixes with
  | [] => None
  | (prefix, radix) :: prefixes' =>
      match strip_prefix prefix val with
      | Some val => from_str_radix val radix
      | None => parse_prefixed prefixes' val
      end
  end.
(** attribute.rs:563-598 *)
Definition parse_tag_num_value (value : token) : option N :=
  match value with
  | TLiteral val =>
      let val := match strip_prefix "+" val with Some v => v | None => val end in
      parse_prefixed radix_prefixes val
  | _ => None
  end.

(** [str::trim_matches] of the double quote *)
Definition quote_char : ascii := ascii_of_N 34.
Fixpoint trim_start (s : string) : string :=
  match s with
  | String c s' => if Ascii.eqb c quote_char then trim_start s' else s
  | EmptyString => EmptyString
  end.
Fixpoint rev_string (s acc : string) : string :=
  match s with EmptyString => acc | String c s' => rev_string s' (String c acc) end.
Definition trim_quotes (s : string) : string :=
  rev_string (trim_start (rev_string (trim_start s) EmptyString)) EmptyString.

Section Parse.
(** Which texts [syn::parse_str::<syn::Path>] takes. *)
Context (is_path : string -> bool).

(** attribute.rs:600-612 *)
Definition parse_path (value : token) : option string :=
  match value with
  | TLiteral text => let path := trim_quotes text in if is_path path then Some path else None
  | _ => None
  end.

(** attribute.rs:466-480: the two tokens after the name of an argument. *)
Definition take_value (eq val : option token) : option token :=
  match eq with
  | Some (TPunct c) => if Ascii.eqb c "=" then val else None
  | _ => None
  end.
(** [it.next()] *)
Definition next_token (it : list token) : option token * list token :=
  match it with
  | [] => (None, [])
  | t :: it' => (Some t, it')
  end.
(** [take_value(&ident, it.next(), it.next())?] and parsing it. *)
Definition argument {A} (parse : token -> option A) (it : list token) : option (A * list token) :=
  let (eq, it) := next_token it in
  let (val, it) := next_token it in
  get value := take_value eq val in
  get a := parse value in
  Some (a, it).

(** The arms of attribute.rs:90-207: what an argument does to the attribute so far.
    [None]: a compile error. *)
Definition set_argument (ident : string) (ret : attribute) (it : list token) : option (attribute * list token) :=
  if String.eqb ident "id" then
    if is_some (a_id ret) then None else
    get (v, it) := argument parse_id_value it in
    Some ({| a_id := Some v; a_tag_class := a_tag_class ret; a_tag_pc := a_tag_pc ret; a_tag_num := a_tag_num ret;
             a_skip_serializing := a_skip_serializing ret; a_skip_deserializing := a_skip_deserializing ret;
             a_default := a_default ret; a_skip := a_skip ret; a_into := a_into ret; a_from := a_from ret;
             a_to := a_to ret; a_try_from := a_try_from ret; a_transparent := a_transparent ret |}, it)
  else if String.eqb ident "tag_class" then
    if is_some (a_tag_class ret) then None else
    get (v, it) := argument parse_tag_class_value it in
    Some ({| a_id := a_id ret; a_tag_class := Some v; a_tag_pc := a_tag_pc ret; a_tag_num := a_tag_num ret;
             a_skip_serializing := a_skip_serializing ret; a_skip_deserializing := a_skip_deserializing ret;
             a_default := a_default ret; a_skip := a_skip ret; a_into := a_into ret; a_from := a_from ret;
             a_to := a_to ret; a_try_from := a_try_from ret; a_transparent := a_transparent ret |}, it)
  else if String.eqb ident "tag_pc" then
    if is_some (a_tag_pc ret) then None else
    get (v, it) := argument parse_tag_pc_value it in
    Some ({| a_id := a_id ret; a_tag_class := a_tag_class ret; a_tag_pc := Some v; a_tag_num := a_tag_num ret;
             a_skip_serializing := a_skip_serializing ret; a_skip_deserializing := a_skip_deserializing ret;
             a_default := a_default ret; a_skip := a_skip ret; a_into := a_into ret; a_from := a_from ret;
             a_to := a_to ret; a_try_from := a_try_from ret; a_transparent := a_transparent ret |}, it)
  else if String.eqb ident "tag_num" then
    if is_some (a_tag_num ret) then None else
    get (v, it) := argument parse_tag_num_value it in
    Some ({| a_id := a_id ret; a_tag_class := a_tag_class ret; a_tag_pc := a_tag_pc ret; a_tag_num := Some v;
             a_skip_serializing := a_skip_serializing ret; a_skip_deserializing := a_skip_deserializing ret;
             a_default := a_default ret; a_skip := a_skip ret; a_into := a_into ret; a_from := a_from ret;
             a_to := a_to ret; a_try_from := a_try_from ret; a_transparent := a_transparent ret |}, it)
  else if String.eqb ident "skip_serializing" then
    if a_skip_serializing ret then None else
    Some ({| a_id := a_id ret; a_tag_class := a_tag_class ret; a_tag_pc := a_tag_pc ret; a_tag_num := a_tag_num ret;
             a_skip_serializing := true; a_skip_deserializing := a_skip_deserializing ret;
             a_default := a_default ret; a_skip := a_skip ret; a_into := a_into ret; a_from := a_from ret;
             a_to := a_to ret; a_try_from := a_try_from ret; a_transparent := a_transparent ret |}, it)
  else if String.eqb ident "skip_deserializing" then
    if a_skip_deserializing ret then None else
    Some ({| a_id := a_id ret; a_tag_class := a_tag_class ret; a_tag_pc := a_tag_pc ret; a_tag_num := a_tag_num ret;
             a_skip_serializing := a_skip_serializing ret; a_skip_deserializing := true;
             a_default := a_default ret; a_skip := a_skip ret; a_into := a_into ret; a_from := a_from ret;
             a_to := a_to ret; a_try_from := a_try_from ret; a_transparent := a_transparent ret |}, it)
  else if String.eqb ident "default" then
    if is_some (a_default ret) then None else
    get (v, it) := argument parse_path it in
    Some ({| a_id := a_id ret; a_tag_class := a_tag_class ret; a_tag_pc := a_tag_pc ret; a_tag_num := a_tag_num ret;
             a_skip_serializing := a_skip_serializing ret; a_skip_deserializing := a_skip_deserializing ret;
             a_default := Some v; a_skip := a_skip ret; a_into := a_into ret; a_from := a_from ret;
             a_to := a_to ret; a_try_from := a_try_from ret; a_transparent := a_transparent ret |}, it)
  else if String.eqb ident "skip" then
    if a_skip ret then None else
    Some ({| a_id := a_id ret; a_tag_class := a_tag_class ret; a_tag_pc := a_tag_pc ret; a_tag_num := a_tag_num ret;
             a_skip_serializing := a_skip_serializing ret; a_skip_deserializing := a_skip_deserializing ret;
             a_default := a_default ret; a_skip := true; a_into := a_into ret; a_from := a_from ret;
             a_to := a_to ret; a_try_from := a_try_from ret; a_transparent := a_transparent ret |}, it)
  else if String.eqb ident "into" then
    if is_some (a_into ret) then None else
    get (v, it) := argument parse_path it in
    Some ({| a_id := a_id ret; a_tag_class := a_tag_class ret; a_tag_pc := a_tag_pc ret; a_tag_num := a_tag_num ret;
             a_skip_serializing := a_skip_serializing ret; a_skip_deserializing := a_skip_deserializing ret;
             a_default := a_default ret; a_skip := a_skip ret; a_into := Some v; a_from := a_from ret;
             a_to := a_to ret; a_try_from := a_try_from ret; a_transparent := a_transparent ret |}, it)
  else if String.eqb ident "from" then
    if is_some (a_from ret) then None else
    get (v, it) := argument parse_path it in
    Some ({| a_id := a_id ret; a_tag_class := a_tag_class ret; a_tag_pc := a_tag_pc ret; a_tag_num := a_tag_num ret;
             a_skip_serializing := a_skip_serializing ret; a_skip_deserializing := a_skip_deserializing ret;
             a_default := a_default ret; a_skip := a_skip ret; a_into := a_into ret; a_from := Some v;
             a_to := a_to ret; a_try_from := a_try_from ret; a_transparent := a_transparent ret |}, it)
  else if String.eqb ident "to" then
    if is_some (a_to ret) then None else
    get (v, it) := argument parse_path it in
    Some ({| a_id := a_id ret; a_tag_class := a_tag_class ret; a_tag_pc := a_tag_pc ret; a_tag_num := a_tag_num ret;
             a_skip_serializing := a_skip_serializing ret; a_skip_deserializing := a_skip_deserializing ret;
             a_default := a_default ret; a_skip := a_skip ret; a_into := a_into ret; a_from := a_from ret;
             a_to := Some v; a_try_from := a_try_from ret; a_transparent := a_transparent ret |}, it)
  else if String.eqb ident "try_from" then
    if is_some (a_try_from ret) then None else
    get (v, it) := argument parse_path it in
    Some ({| a_id := a_id ret; a_tag_class := a_tag_class ret; a_tag_pc := a_tag_pc ret; a_tag_num := a_tag_num ret;
             a_skip_serializing := a_skip_serializing ret; a_skip_deserializing := a_skip_deserializing ret;
             a_default := a_default ret; a_skip := a_skip ret; a_into := a_into ret; a_from := a_from ret;
             a_to := a_to ret; a_try_from := Some v; a_transparent := a_transparent ret |}, it)
  else if String.eqb ident "transparent" then
    if a_transparent ret then None else
    Some ({| a_id := a_id ret; a_tag_class := a_tag_class ret; a_tag_pc := a_tag_pc ret; a_tag_num := a_tag_num ret;
             a_skip_serializing := a_skip_serializing ret; a_skip_deserializing := a_skip_deserializing ret;
             a_default := a_default ret; a_skip := a_skip ret; a_into := a_into ret; a_from := a_from ret;
             a_to := a_to ret; a_try_from := a_try_from ret; a_transparent := true |}, it)
  else None.
(** attribute.rs:89-210, the loop.  Every round takes at least one token. *)
Fixpoint parse_loop (fuel : nat) (ret : attribute) (it : list token) : option attribute :=
  match fuel with
  | O => None
  | S fuel' =>
      match it with
      | [] => Some ret
      | TIdent ident :: it' => get (ret, it) := set_argument ident ret it' in parse_loop fuel' ret it
      | TPunct c :: it' => if Ascii.eqb c "," then parse_loop fuel' ret it' else None
      | _ => None
      end
  end.
(** attribute.rs:79-211 *)
Definition Attribute_parse (tokens : list token) : option attribute :=
  parse_loop (S (length tokens)) no_attribute tokens.

(** ** Consistency *)
(** attribute.rs:214-228: the two arguments may not both be there. *)
Definition exclusive (a b : bool) : bool := negb (a && b).
(** attribute.rs:230-242 *)
Definition loop_exclusive (xs ys : list bool) : bool := forallb (fun a => forallb (exclusive a) ys) xs.
Definition ids (a : attribute) : list bool :=
  [is_some (a_id a); is_some (a_tag_class a); is_some (a_tag_pc a); is_some (a_tag_num a)].
Definition skips (a : attribute) : list bool :=
  [a_skip_serializing a; a_skip_deserializing a; a_skip a; is_some (a_default a)].
Definition conversions (a : attribute) : list bool :=
  [is_some (a_into a); is_some (a_from a); is_some (a_to a); is_some (a_try_from a)].
(** attribute.rs:213-268; [true] when accepted. *)
Definition sanitize (a : attribute) : bool :=
  loop_exclusive (ids a) (skips a)
  && loop_exclusive (ids a) (conversions a)
  && loop_exclusive (skips a) (conversions a)
  && exclusive (is_some (a_from a)) (is_some (a_try_from a))
  && exclusive (is_some (a_into a)) (is_some (a_to a))
  && loop_exclusive (ids a) [a_transparent a]
  && loop_exclusive (skips a) [a_transparent a]
  && loop_exclusive (conversions a) [a_transparent a].
(** [not_allowed!(...)] *)
Definition not_allowed (xs : list bool) : bool := forallb negb xs.
(** attribute.rs:272-293 *)
Definition sanitize_as_container (a : attribute) : bool := not_allowed (skips a) && sanitize a.
(** attribute.rs:295-297 *)
Definition sanitize_as_struct (a : attribute) : bool := sanitize_as_container a.
(** attribute.rs:299-319 *)
Definition sanitize_as_enum (a : attribute) : bool :=
  not_allowed (ids a) && not_allowed [a_transparent a] && sanitize_as_container a.
(** attribute.rs:321-346 *)
Definition sanitize_as_variant (a : attribute) : bool :=
  not_allowed (skips a) && not_allowed (conversions a) && not_allowed [a_transparent a] && sanitize a.
(** attribute.rs:348-368 *)
Definition sanitize_as_field (a : attribute) : bool :=
  not_allowed (ids a) && not_allowed [a_transparent a] && sanitize a.

(** A [syn::Attribute]: [Some] its tokens if it is [#[bsn1_serde(...)]]. *)
Definition syn_attribute : Type := option (list token).
(** attribute.rs:62-69 *)
Fixpoint one_attribute (ret : option attribute) (attrs : list syn_attribute) : option (option attribute) :=
  match attrs with
  | [] => Some ret
  | None :: attrs' => one_attribute ret attrs'
  | Some tokens :: attrs' =>
      get a := Attribute_parse tokens in
      match ret with
      | None => one_attribute (Some a) attrs'
      | Some _ => None
      end
  end.
(** attribute.rs:59-75 *)
Definition Attribute_try_from (attrs : list syn_attribute) : option attribute :=
  get ret := one_attribute None attrs in
  match ret with
  | Some a => if sanitize a then Some a else None
  | None => Some no_attribute
  end.
End Parse.

(** ** Use *)
(** attribute.rs:406-409: the digits, least significant first. *)
Fixpoint tag_digits (fuel : nat) (tag_num : N) : list N :=
  match fuel with
  | O => []
  | S fuel' => if 0 <? tag_num then tag_num mod 0x80 :: tag_digits fuel' (tag_num / 0x80) else []
  end.
(** attribute.rs:411-413: [octets[i] |= 0x80] from index 2 on; the argument is [octets[1..]]. *)
Definition set_more (ds : list N) : list N :=
  match ds with
  | [] => []
  | d :: ds' => d :: map (fun o => N.lor o 0x80) ds'
  end.
(** attribute.rs:370-420, id: the octets of the array that is emitted. *)
Definition Attribute_id (default_id : N) (a : attribute) : option (list N) :=
  if negb (is_some (a_id a)) && negb (is_some (a_tag_class a))
     && negb (is_some (a_tag_pc a)) && negb (is_some (a_tag_num a)) then None
  else
    let o := match a_id a with Some v => v | None => default_id end in
    let o := match a_tag_class a with Some v => N.lor (N.land o 0x3f) v | None => o end in
    let o := match a_tag_pc a with Some v => N.lor (N.land o 0xdf) v | None => o end in
    Some match a_tag_num a with
         | Some tag_num =>
             if tag_num <? 0x1f then [N.lor (N.land o 0xe0) tag_num]
             else N.lor o 0x1f :: rev (set_more (tag_digits (N.size_nat tag_num) tag_num))
         | None => [o]
         end.
(** data_container.rs:173-180, id_slice *)
Definition id_slice (a : attribute) : list N :=
  match Attribute_id 0x30 a with Some id => id | None => [0x30] end.
(** attribute.rs:422-428 *)
Definition is_skip_serializing (a : attribute) : bool := a_skip a || a_skip_serializing a.
Definition is_skip_deserializing (a : attribute) : bool := a_skip a || a_skip_deserializing a.
(** attribute.rs:430-435 *)
Definition default_path (a : attribute) : string :=
  match a_default a with Some p => p | None => "Default::default"%string end.
