(** The names the integration tests of bsn1_serde use (bsn1_serde/tests), and what each
    test runs.  See RepoTestsSer and RepoTestsDe. *)
From Coq Require Import String Ascii Decimal DecimalString.
From Verif Require Import Base ModelError ModelIo ModelTag ModelContents ModelBuf ModelTlv ModelSerde ModelAttr ModelDerive.

(** A debug build, as cargo test makes. *)
Definition test_env : env :=
  {| e_cfg := {| init_cap := 16; junk := fun i => 7 * i |}; e_debug := true; e_place := fun _ x l => x :: l |}.
Definition test_path (s : string) : bool := negb (String.eqb s "").

(** The octets of a string, and [ToString] of an integer *)
Definition octets_of (s : string) : list N := map N_of_ascii (list_ascii_of_string s).
Definition to_string (z : Z) : list N := octets_of (NilEmpty.string_of_int (Z.to_int z)).

(** A type seen as another one that has the implementation. *)
Definition ser_as {T U} (f : T -> U) (s : serialize U) : serialize T :=
  {| write_id := fun _ W v => write_id s W (f v);
     write_der_contents := fun _ W v => write_der_contents s W (f v);
     id_len := fun v => id_len s (f v);
     der_contents_len := fun v => der_contents_len s (f v) |}.
Definition de_as {T U} (f : U -> T) (d : deserialize U) : deserialize T :=
  {| from_ber := fun id length contents => let! u := from_ber d id length contents in Ok (f u);
     from_der := fun id contents => let! u := from_der d id contents in Ok (f u) |}.
(** tests/ser/non_length.rs:20-145 *)
Definition no_contents_len {T} (s : serialize T) : serialize T :=
  {| write_id := fun _ W v => write_id s W v; write_der_contents := fun _ W v => write_der_contents s W v;
     id_len := id_len s; der_contents_len := fun _ => Ok None |}.
Definition no_id_len {T} (s : serialize T) : serialize T :=
  {| write_id := fun _ W v => write_id s W v; write_der_contents := fun _ W v => write_der_contents s W v;
     id_len := fun _ => Ok None; der_contents_len := der_contents_len s |}.

(** ** What the names of the attributes stand for *)
(** [i32], or the wrapper of one (tests/ser/into_field.rs:20-27); the values of [default]
    are those of tests/de/default.rs:18-24. *)
Definition target_of {T} (U : Type) (f : T -> U) (s : serialize U) : target T := {| tg_ty := U; tg_conv := f; tg_ser := s |}.
Definition int_paths (t : int_ty) : paths Z :=
  {| p_into := fun s => if String.eqb s "String" then target_of (list N) to_string ser_string
                        else target_of Z (fun z => z) (ser_int t);
     p_to := fun _ => target_of (list N) to_string ser_string;
     p_from := fun _ => {| sr_ty := Z; sr_conv := fun z => z; sr_de := de_int test_env t |};
     p_try_from := fun _ => {| ts_ty := Z; ts_conv := fun z => inl z; ts_de := de_int test_env t |} |}.
Definition two_or_default (s : string) : Z := if String.eqb s "two" then 2%Z else 0%Z.
Definition int_n (t : int_ty) (i : N) : names Z :=
  {| n_ser := ser_int t; n_de := de_int test_env t; n_default := two_or_default; n_paths := int_paths t; n_field := i |}.
Definition len_n (s : serialize Z) (i : N) : names Z :=
  {| n_ser := s; n_de := de_int test_env I64; n_default := two_or_default; n_paths := int_paths I64; n_field := i |}.
Definition octets_paths {T} (f : T -> list N) (g : list N -> T) (valid : list N -> bool) : paths T :=
  {| p_into := fun s => target_of (list N) f ser_octets;
     p_to := fun _ => target_of (list N) f ser_octets;
     p_from := fun _ => {| sr_ty := list N; sr_conv := g; sr_de := de_octets |};
     p_try_from := fun _ => {| ts_ty := list N;
       ts_conv := fun o => if valid o then inl (g o) else inr (AnForeign (FLeaf 0)); ts_de := de_octets |} |}.
Definition bool_n (i : N) : names bool :=
  {| n_ser := ser_bool; n_de := de_bool test_env; n_default := fun _ => false;
     n_paths := octets_paths (fun _ => []) (fun _ => false) (fun _ => false); n_field := i |}.
(** [String], from and into [OctetString] *)
Definition string_n (i : N) : names (list N) :=
  {| n_ser := ser_string; n_de := de_string test_env;
     n_default := fun s => if String.eqb s "bar" then octets_of "bar" else [];
     n_paths := octets_paths (fun v => v) (fun o => o) utf8_valid; n_field := i |}.
(** [Vec<u8>], from and into [OctetString] *)
Definition bytes_n (i : N) : names (list N) :=
  {| n_ser := ser_as (map Z.of_N) (ser_vec test_env (ser_int U8));
     n_de := de_as (map Z.to_N) (de_vec test_env (de_int test_env U8));
     n_default := fun _ => [];
     n_paths := octets_paths (fun v => v) (fun o => o) (fun _ => true); n_field := i |}.
Definition fld {T} (attrs : list syn_attribute) (n : N -> names T) (i : N) : field_decl T :=
  {| fd_attrs := attrs; fd_names := n i |}.
(** Containers converted as a whole; one of no use when there is no conversion. *)
Definition whole_paths {T} (f : T -> list N) (g : list N -> T) (s : serialize (list N)) (d : deserialize (list N)) : paths T :=
  {| p_into := fun _ => target_of (list N) f s; p_to := fun _ => target_of (list N) f s;
     p_from := fun _ => {| sr_ty := list N; sr_conv := g; sr_de := d |};
     p_try_from := fun _ => {| ts_ty := list N;
       ts_conv := fun o => if utf8_valid o then inl (g o) else inr (AnForeign (FLeaf 0)); ts_de := d |} |}.
Definition no_de (T : Type) : deserialize T := {| from_ber := fun _ _ _ => Err UnmatchedId; from_der := fun _ _ => Err UnmatchedId |}.
Definition via_paths {T U} (f : T -> U) (s : serialize U) : paths T :=
  {| p_into := fun _ => target_of U f s; p_to := fun _ => target_of U f s;
     p_from := fun _ => {| sr_ty := T; sr_conv := fun v => v; sr_de := no_de T |};
     p_try_from := fun _ => {| ts_ty := T; ts_conv := fun v => inl v; ts_de := no_de T |} |}.
Definition no_paths (T : Type) : paths T :=
  via_paths (fun v => v)
    {| write_id := fun _ _ _ => wlift (Err UnmatchedId); write_der_contents := fun _ _ _ => wlift (Err UnmatchedId);
       id_len := fun _ => Err UnmatchedId; der_contents_len := fun _ => Err UnmatchedId |}.

(** ** What the tests run: [None] if the declaration does not compile. *)
Definition omap {A B} (f : A -> B) (o : option A) : option B := match o with Some a => Some (f a) | None => None end.
(** the octets of [to_der(&val)], [val.id_len()] and [val.der_contents_len()] *)
Definition test_der (attrs : list syn_attribute) (d : data) (ps : paths (value d)) (v : value d) : option (res (list N)) :=
  omap (fun s => let! b := to_der test_env s v in Ok (bf_slice b)) (do_serialize test_path test_env attrs d ps).
Definition test_id_len (attrs : list syn_attribute) (d : data) (ps : paths (value d)) (v : value d) : option (res (option N)) :=
  omap (fun s => id_len s v) (do_serialize test_path test_env attrs d ps).
Definition test_contents_len (attrs : list syn_attribute) (d : data) (ps : paths (value d)) (v : value d) : option (res (option N)) :=
  omap (fun s => der_contents_len s v) (do_serialize test_path test_env attrs d ps).
(** [from_der(bs)] and [from_ber(bs)] *)
Definition test_from_der (attrs : list syn_attribute) (d : data) (ps : paths (value d)) (bs : list N) : option (res (value d)) :=
  omap (fun D => serde_from_der D bs) (do_deserialize test_path test_env attrs d ps).
Definition test_from_ber (attrs : list syn_attribute) (d : data) (ps : paths (value d)) (bs : list N) : option (res (value d)) :=
  omap (fun D => serde_from_ber D bs) (do_deserialize test_path test_env attrs d ps).
(** [from_der(&to_der(&val))] and [from_ber(&to_ber(&val))] *)
Definition test_der_back (attrs : list syn_attribute) (d : data) (ps : paths (value d)) (v : value d) : option (res (value d)) :=
  match do_serialize test_path test_env attrs d ps with
  | Some s => omap (fun D => let! b := to_der test_env s v in serde_from_der D (bf_slice b)) (do_deserialize test_path test_env attrs d ps)
  | None => None
  end.
Definition test_ber_back (attrs : list syn_attribute) (d : data) (ps : paths (value d)) (v : value d) : option (res (value d)) :=
  match do_serialize test_path test_env attrs d ps with
  | Some s => omap (fun D => let! b := to_ber test_env s v in serde_from_ber D (bf_slice b)) (do_deserialize test_path test_env attrs d ps)
  | None => None
  end.
Ltac conforms := repeat split; vm_compute; reflexivity.
