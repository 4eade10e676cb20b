(** The fragment of Rust in which the derive macros write, and what it does.

    Texts are strings, as in ModelAttr.  A program that the compiler rejects for a name
    that means something else, or for a value of the wrong kind, is [Stuck].  What the
    compiler rejects for want of an implementation is not modelled: [program] has all of
    them, and what the emitted code does not use may be anything. *)
From Coq Require Import String Ascii Decimal DecimalString.
From Verif Require Import Base ModelError ModelIo ModelTag ModelContents ModelBuf ModelTlv ModelSerde ModelAttr ModelDerive.

(** ** What the emitted code finds around it *)
(** Types are numbered, [den] is the set of the values of a type.  [path_ident]: the
    identifier that a path in an attribute consists of, if it is just one.  [describe]
    numbers the texts of error messages. *)
Record program := {
  den : N -> Type;
  type_named : string -> N;
  path_ident : string -> option string;
  impl_ser : forall c, serialize (den c);
  impl_de : forall c, deserialize (den c);
  impl_into : forall a b, den a -> den b;
  impl_from : forall a b, den a -> den b;
  impl_try_from : forall a b, den a -> den b + anyhow;
  fn_to : string -> forall a, { b : N & den a -> den b };
  fn_default : string -> forall b, den b;
  describe : string -> N }.
Arguments path_ident p s : rename.

(** ** Declarations, as [syn] gives them *)
(** [syn::Field] without its name, and [syn::Fields] *)
Record sfield := { sf_ty : N; sf_attrs : list syn_attribute }.
Inductive sfields := FNamed (fs : list (string * sfield)) | FUnnamed (fs : list sfield) | FUnit.
(** [syn::Variant], [syn::Data] *)
Record svariant := { sv_ident : string; sv_attrs : list syn_attribute; sv_fields : sfields }.
Inductive sdata := SStruct (fs : sfields) | SEnum (vs : list svariant) | SUnion (c : N).
(** The name of a constructor: of a struct, or of a variant of an enum. *)
Inductive cname := CStruct (name : string) | CVariant (enum_name variant_name : string).
Definition cname_eqb (a b : cname) : bool :=
  match a, b with
  | CStruct x, CStruct y => String.eqb x y
  | CVariant x u, CVariant y v => String.eqb x y && String.eqb u v
  | _, _ => false
  end.
(** [syn::Index] as text *)
Definition index_text (i : nat) : string := NilZero.string_of_uint (Nat.to_uint i).
Fixpoint numbered {A} (i : nat) (l : list A) : list (string * A) :=
  match l with
  | [] => []
  | a :: l' => (index_text i, a) :: numbered (S i) l'
  end.
(** The fields with the names by which they are accessed. *)
Definition members (fs : sfields) : list (string * sfield) :=
  match fs with
  | FNamed fs => fs
  | FUnnamed fs => numbered 0 fs
  | FUnit => []
  end.
Inductive shape := Named | Unnamed | Unit.
Definition shape_of (fs : sfields) : shape :=
  match fs with FNamed _ => Named | FUnnamed _ => Unnamed | FUnit => Unit end.
Definition shape_eqb (a b : shape) : bool :=
  match a, b with Named, Named | Unnamed, Unnamed | Unit, Unit => true | _, _ => false end.

(** ** Expressions *)
(** Where a message of an error comes from: a kind and a description of the field, or
    the conversion of a container. *)
Inductive message := MField (kind : N) (field : string) | MContainer.
Inductive expr :=
| XPath (x : string)                                  (** a name on its own *)
| XSelfField (m : string)                             (** [&self.m] *)
| XRef (e : expr)                                     (** [&e] *)
| XRefMut (x : string)                                (** [&mut x] *)
| XOctets (bs : list N)                               (** [[..]] *)
| XZero
| XUnit | XOk (e : expr) | XErr (er : error) | XSome (e : expr) | XNone
| XCallTo (path : string) (e : expr)                  (** [path(e)] *)
| XCallDefault (path : string)                        (** [path()] *)
| XClone (e : expr)                                   (** [Clone::clone(e)] *)
| XInto (e : expr)                                    (** [Into::into(e)] *)
| XFrom (ty : option string) (e : expr)               (** [From::<ty>::from(e)], [From::from(e)] *)
| XTryFrom (ty : option string) (e : expr)
| XWriteAll (buffer : expr) (bs : list N)             (** [Write::write_all(buffer, &bs).map_err(Error::from)] *)
| XWriteDer (e buffer : expr)                         (** [::bsn1_serde::write_der(e, buffer)] *)
| XWriteId (e buffer : expr) | XWriteContents (e buffer : expr)
| XIdLen (e : expr) | XContentsLen (e : expr)         (** [Serialize::id_len(e)] ... *)
| XLengthLen (e : expr)                               (** [Length::Definite(e).len()] *)
| XAdd (a b : expr) | XAddAssign (x : string) (e : expr) | XSub (a b : expr)
| XFromBer (id length contents : expr) | XFromDer (id contents : expr)
| XParseBer (e : expr) | XParseDer (e : expr)         (** [BerRef::parse(e)] ... *)
| XDisassemble (e : expr)
| XAsRef (e : expr)                                   (** [e.as_ref()] *)
| XLen (e : expr) | XEoc | XEndsWith (a b : expr) | XPrefix (a n : expr)
| XEq (a b : expr) | XNot (e : expr)
| XDebugAssertEq (a b : expr)
| XMapErr (m : message) (e : expr)                    (** [e.map_err(|err| err.context(m))] *)
| XMapAnyhow (m : message) (e : expr)
    (** [e.map_err(|err| Error::from(::anyhow::Error::new(err)).context(m))] *)
| XTry (e : expr)                                     (** [e?] *)
| XReturn (e : expr)
| XLet (x : string) (ty : option string) (e body : expr)  (** [let x: ty = e; body] *)
| XLetSelf (x : string) (e body : expr)                    (** [let x: Self = e; body] *)
| XLet3 (x : string) (y : option string) (z : string) (e body : expr) (** [let (x, y, z) = e; body] *)
| XSeq (a b : expr)                                   (** [a; b], or [{ a } b] *)
| XIf (c a b : expr)
| XIfSome (x : string) (e a b : expr)                 (** [if let Some(x) = e { a } else { b }] *)
| XMatchLength (e : expr) (x : string) (a b : expr)   (** [match e { Definite(x) => a, Indefinite => b }] *)
| XMatchSelf (arms : list (string * shape * list (string * string) * expr))
    (** [match self { Self::V { m: x, .. } => { e } .. }]; the names of members are only
        written for named fields *)
| XNamed (c : cname) (fs : list (string * expr))      (** [c { m: e, .. }] *)
| XTuple (c : cname) (es : list expr)                 (** [c ( e, .. )] *)
| XUnitCtor (c : cname).

(** ** Values *)
Section Values.
Context (P : program) (Self : Type).
Definition dyn : Type := { c : N & den P c }.
(** What octets are: an identifier, contents, a whole BER or DER, or just octets. *)
Inductive kind := KId | KContents | KTlv | KOctets.
Inductive val :=
| VUnit | VBool (b : bool) | VNum (n : N) | VOctets (k : kind) (bs : list N) | VLength (l : Length)
| VBuffer                                        (** the writer *)
| VOwn (d : dyn) | VRef (d : dyn)                (** a value, and a reference to one *)
| VSelf (v : Self) | VSelfRef (v : Self)
| VTriple (a b c : val)
| VOk (v : val) | VErr (e : error) | VErrUser (a : anyhow) | VSome (v : val) | VNone
| VMut (level : nat).                            (** [&mut] of the variable at that level *)

(** Variables, the last declared first. *)
Definition vars : Type := list (string * val).
Fixpoint local (x : string) (en : vars) : option val :=
  match en with
  | [] => None
  | (y, v) :: en' => if String.eqb x y then Some v else local x en'
  end.
(** The level of a variable: how many were declared before it. *)
Fixpoint level (x : string) (en : vars) : option nat :=
  match en with
  | [] => None
  | (y, _) :: en' => if String.eqb x y then Some (length en') else level x en'
  end.
Fixpoint at_level (i : nat) (en : vars) : option val :=
  match en with
  | [] => None
  | (_, v) :: en' => if Nat.eqb i (length en') then Some v else at_level i en'
  end.
Fixpoint set_level (i : nat) (v : val) (en : vars) : vars :=
  match en with
  | [] => []
  | (y, w) :: en' => if Nat.eqb i (length en') then (y, v) :: en' else (y, w) :: set_level i v en'
  end.

(** What an expression comes to: a value; a [return] from the method; a panic (or no
    fuel); or it means nothing. *)
Inductive out (S : Type) :=
| Next (v : val) (en : vars) (s : S)
| Return (v : val) (s : S)
| Fault (r : res Empty_set) (s : S)
| Stuck.
Arguments Next {S}. Arguments Return {S}. Arguments Fault {S}. Arguments Stuck {S}.
Definition obind {S} (o : out S) (k : val -> vars -> S -> out S) : out S :=
  match o with
  | Next v en s => k v en s
  | Return v s => Return v s
  | Fault r s => Fault r s
  | Stuck => Stuck
  end.
(** End of the scope of [n] variables. *)
Definition leave {S} (n : nat) (o : out S) : out S :=
  obind o (fun v en s => Next v (skipn n en) s).
(** The result of a function of the library. *)
Definition returned {S A} (f : A -> val) (r : res A * S) (en : vars) : out S :=
  match r with
  | (Ok a, s) => Next (VOk (f a)) en s
  | (Err e, s) => Next (VErr e) en s
  | (Panic, s) => Fault Panic s
  | (NoFuel, s) => Fault NoFuel s
  end.

(** What the declaration says about the type: its constructors with the names and types
    of their members, taking a value apart, and putting one together. *)
Record self_type := {
  st_members : cname -> option (shape * list (string * N));
  st_open : Self -> cname * shape * list (string * dyn);
  st_make : cname -> list (string * dyn) -> option Self;
  (** for [Into], [From] and functions, on the type itself *)
  st_into : forall b, Self -> den P b;
  st_from : forall a, den P a -> Self;
  st_try_from : forall a, den P a -> Self + anyhow;
  st_to : string -> { b : N & Self -> den P b } }.

Definition cast (c : N) (d : dyn) : option (den P c) :=
  match N.eq_dec (projT1 d) c with
  | left e => Some (eq_rect _ (den P) (projT2 d) _ e)
  | right _ => None
  end.

(** ** Evaluation *)
(** The type that is expected of an expression, or of its success. *)
Inductive expect := Any | TheSelf | Ty (c : N).
Fixpoint assoc {A} (m : string) (l : list (string * A)) : option A :=
  match l with
  | [] => None
  | (n, a) :: l' => if String.eqb m n then Some a else assoc m l'
  end.
(** The variables of a pattern. *)
Fixpoint bind_named (binds : list (string * string)) (ds : list (string * dyn)) : option vars :=
  match binds with
  | [] => Some []
  | (m, x) :: binds' =>
      get d := assoc m ds in
      get rest := bind_named binds' ds in
      Some ((x, VRef d) :: rest)
  end.
Fixpoint bind_tuple (binds : list (string * string)) (ds : list (string * dyn)) : option vars :=
  match binds, ds with
  | [], [] => Some []
  | (_, x) :: binds', (_, d) :: ds' =>
      get rest := bind_tuple binds' ds' in Some ((x, VRef d) :: rest)
  | _, _ => None
  end.
Definition bind_pattern (sh : shape) (binds : list (string * string)) (ds : list (string * dyn)) : option vars :=
  match sh with
  | Named => if Nat.eqb (length binds) (length ds) then bind_named binds ds else None
  | Unnamed => bind_tuple binds ds
  | Unit => Some []
  end.

Context (E : env) (ST : self_type).
(** [types]: the type parameters of the method. *)
Context (types : list string).
Context {S : Type} (W : writer S).

(** A path of an attribute is what the user meant unless it is one identifier that the
    emitted code has declared. *)
Definition is_local (path : string) (en : vars) : bool :=
  match path_ident P path with
  | Some x => is_some (local x en)
  | None => false
  end.
Definition is_param (path : string) : bool :=
  match path_ident P path with
  | Some x => existsb (String.eqb x) types
  | None => false
  end.
(** The type an annotation means. *)
Definition annotated (ty : option string) : option expect :=
  match ty with
  | None => Some Any
  | Some t => if is_param t then None else Some (Ty (type_named P t))
  end.
Definition message_number (m : message) : N :=
  match m with
  | MField k f => field_ctx k (describe P f)
  | MContainer => field_ctx 5 0
  end.

Fixpoint eval (e : expr) (ex : expect) (en : vars) (s : S) {struct e} : out S :=
  match e with
  | XPath x => match local x en with Some v => Next v en s | None => Stuck end
  | XSelfField m =>
      match local "self" en with
      | Some (VSelfRef v) =>
          match assoc m (snd (st_open ST v)) with
          | Some d => Next (VRef d) en s
          | None => Stuck
          end
      | _ => Stuck
      end
  | XRef e =>
      obind (eval e Any en s) (fun v en s =>
        match v with
        | VOwn d => Next (VRef d) en s
        | VSelf v => Next (VSelfRef v) en s
        | _ => Stuck
        end)
  | XRefMut x => match level x en with Some i => Next (VMut i) en s | None => Stuck end
  | XOctets bs => Next (VOctets KOctets bs) en s
  | XZero => Next (VNum 0) en s
  | XUnit => Next VUnit en s
  | XOk e => obind (eval e ex en s) (fun v en s => Next (VOk v) en s)
  | XErr er => Next (VErr er) en s
  | XSome e => obind (eval e Any en s) (fun v en s => Next (VSome v) en s)
  | XNone => Next VNone en s
  | XCallTo path e =>
      if is_local path en then Stuck else
      obind (eval e Any en s) (fun v en s =>
        match v with
        | VRef d => let f := fn_to P path (projT1 d) in Next (VOwn (existT _ (projT1 f) (projT2 f (projT2 d)))) en s
        | VSelfRef v => let f := st_to ST path in Next (VOwn (existT _ (projT1 f) (projT2 f v))) en s
        | _ => Stuck
        end)
  | XCallDefault path =>
      if is_local path en then Stuck else
      match ex with
      | Ty c => Next (VOwn (existT _ c (fn_default P path c))) en s
      | _ => Stuck
      end
  | XClone e =>
      obind (eval e Any en s) (fun v en s =>
        match v with
        | VRef d => Next (VOwn d) en s
        | VSelfRef v => Next (VSelf v) en s
        | _ => Stuck
        end)
  | XInto e =>
      obind (eval e Any en s) (fun v en s =>
        match v, ex with
        | VOwn d, Ty b => Next (VOwn (existT _ b (impl_into P (projT1 d) b (projT2 d)))) en s
        | VSelf v, Ty b => Next (VOwn (existT _ b (st_into ST b v))) en s
        | _, _ => Stuck
        end)
  | XFrom ty e =>
      match annotated ty with
      | None => Stuck
      | Some ex' =>
          obind (eval e ex' en s) (fun v en s =>
            match v, ex with
            | VOwn d, Ty b => Next (VOwn (existT _ b (impl_from P (projT1 d) b (projT2 d)))) en s
            | VOwn d, TheSelf => Next (VSelf (st_from ST (projT1 d) (projT2 d))) en s
            | _, _ => Stuck
            end)
      end
  | XTryFrom ty e =>
      match annotated ty with
      | None => Stuck
      | Some ex' =>
          obind (eval e ex' en s) (fun v en s =>
            match v, ex with
            | VOwn d, Ty b =>
                match impl_try_from P (projT1 d) b (projT2 d) with
                | inl t => Next (VOk (VOwn (existT _ b t))) en s
                | inr a => Next (VErrUser a) en s
                end
            | VOwn d, TheSelf =>
                match st_try_from ST (projT1 d) (projT2 d) with
                | inl t => Next (VOk (VSelf t)) en s
                | inr a => Next (VErrUser a) en s
                end
            | _, _ => Stuck
            end)
      end
  | XWriteAll b bs =>
      obind (eval b Any en s) (fun b en s =>
        match b with
        | VBuffer => returned (fun _ => VUnit) (write_all W bs s) en
        | _ => Stuck
        end)
  | XWriteDer e b =>
      obind (eval e Any en s) (fun v en s =>
      obind (eval b Any en s) (fun b en s =>
        match v, b with
        | VRef d, VBuffer => returned (fun _ => VUnit) (write_der E (impl_ser P (projT1 d)) W (projT2 d) s) en
        | _, _ => Stuck
        end))
  | XWriteId e b =>
      obind (eval e Any en s) (fun v en s =>
      obind (eval b Any en s) (fun b en s =>
        match v, b with
        | VRef d, VBuffer => returned (fun _ => VUnit) (write_id (impl_ser P (projT1 d)) W (projT2 d) s) en
        | _, _ => Stuck
        end))
  | XWriteContents e b =>
      obind (eval e Any en s) (fun v en s =>
      obind (eval b Any en s) (fun b en s =>
        match v, b with
        | VRef d, VBuffer => returned (fun _ => VUnit) (write_der_contents (impl_ser P (projT1 d)) W (projT2 d) s) en
        | _, _ => Stuck
        end))
  | XIdLen e =>
      obind (eval e Any en s) (fun v en s =>
        match v with
        | VRef d =>
            returned (fun o => match o with Some n => VSome (VNum n) | None => VNone end)
                     (id_len (impl_ser P (projT1 d)) (projT2 d), s) en
        | _ => Stuck
        end)
  | XContentsLen e =>
      obind (eval e Any en s) (fun v en s =>
        match v with
        | VRef d =>
            returned (fun o => match o with Some n => VSome (VNum n) | None => VNone end)
                     (der_contents_len (impl_ser P (projT1 d)) (projT2 d), s) en
        | _ => Stuck
        end)
  | XLengthLen e =>
      obind (eval e Any en s) (fun v en s =>
        match v with
        | VNum n => Next (VNum (Length_len (Definite n))) en s
        | _ => Stuck
        end)
  | XAdd a b =>
      obind (eval a Any en s) (fun a en s =>
      obind (eval b Any en s) (fun b en s =>
        match a, b with
        | VNum m, VNum n => if m + n <? usize_limit then Next (VNum (m + n)) en s else Fault Panic s
        | _, _ => Stuck
        end))
  | XAddAssign x e =>
      obind (eval e Any en s) (fun v en s =>
        match local x en, level x en, v with
        | Some (VNum m), Some i, VNum n =>
            if m + n <? usize_limit then Next VUnit (set_level i (VNum (m + n)) en) s else Fault Panic s
        | _, _, _ => Stuck
        end)
  | XSub a b =>
      obind (eval a Any en s) (fun a en s =>
      obind (eval b Any en s) (fun b en s =>
        match a, b with
        | VNum m, VNum n => if n <=? m then Next (VNum (m - n)) en s else Fault Panic s
        | _, _ => Stuck
        end))
  | XFromBer i l c =>
      obind (eval i Any en s) (fun i en s =>
      obind (eval l Any en s) (fun l en s =>
      obind (eval c Any en s) (fun c en s =>
        match i, l, c, ex with
        | VOctets KId i, VLength l, VOctets KContents c, Ty t =>
            returned (fun v => VOwn (existT _ t v)) (from_ber (impl_de P t) i l c, s) en
        | _, _, _, _ => Stuck
        end)))
  | XFromDer i c =>
      obind (eval i Any en s) (fun i en s =>
      obind (eval c Any en s) (fun c en s =>
        match i, c, ex with
        | VOctets KId i, VOctets KContents c, Ty t =>
            returned (fun v => VOwn (existT _ t v)) (from_der (impl_de P t) i c, s) en
        | _, _, _ => Stuck
        end))
  | XParseBer e =>
      obind (eval e Any en s) (fun v en s =>
        match v with
        | VMut i =>
            match at_level i en with
            | Some (VOctets KOctets bs) =>
                let p := BerRef_parse bs in
                returned (VOctets KTlv) (fst p, s) (set_level i (VOctets KOctets (snd p)) en)
            | _ => Stuck
            end
        | _ => Stuck
        end)
  | XParseDer e =>
      obind (eval e Any en s) (fun v en s =>
        match v with
        | VMut i =>
            match at_level i en with
            | Some (VOctets KOctets bs) =>
                let p := DerRef_parse bs in
                returned (VOctets KTlv) (fst p, s) (set_level i (VOctets KOctets (snd p)) en)
            | _ => Stuck
            end
        | _ => Stuck
        end)
  | XDisassemble e =>
      obind (eval e Any en s) (fun v en s =>
        match v with
        | VOctets KTlv bs =>
            match disassemble bs with
            | Ok (p, c) => Next (VTriple (VOctets KId (fst p)) (VLength (snd p)) (VOctets KContents c)) en s
            | Err e => Fault (Err e) s
            | Panic => Fault Panic s
            | NoFuel => Fault NoFuel s
            end
        | _ => Stuck
        end)
  | XAsRef e =>
      obind (eval e Any en s) (fun v en s =>
        match v with
        | VOctets _ bs => Next (VOctets KOctets bs) en s
        | _ => Stuck
        end)
  | XLen e =>
      obind (eval e Any en s) (fun v en s =>
        match v with
        | VOctets _ bs => Next (VNum (nlen bs)) en s
        | VMut i => match at_level i en with Some (VOctets _ bs) => Next (VNum (nlen bs)) en s | _ => Stuck end
        | _ => Stuck
        end)
  | XEoc => Next (VOctets KTlv EOC) en s
  | XEndsWith a b =>
      obind (eval a Any en s) (fun a en s =>
      obind (eval b Any en s) (fun b en s =>
        match a, b with
        | VOctets KOctets l, VOctets KOctets t => Next (VBool (ends_with l t)) en s
        | _, _ => Stuck
        end))
  | XPrefix a n =>
      obind (eval a Any en s) (fun a en s =>
      obind (eval n Any en s) (fun n en s =>
        match a, n with
        | VOctets KOctets l, VNum n => if n <=? nlen l then Next (VOctets KOctets (take n l)) en s else Fault Panic s
        | _, _ => Stuck
        end))
  | XEq a b =>
      obind (eval a Any en s) (fun a en s =>
      obind (eval b Any en s) (fun b en s =>
        match a, b with
        | VOctets KOctets l, VOctets KOctets t => Next (VBool (bytes_eqb l t)) en s
        | VNum m, VNum n => Next (VBool (m =? n)) en s
        | _, _ => Stuck
        end))
  | XNot e =>
      obind (eval e Any en s) (fun v en s =>
        match v with
        | VBool b => Next (VBool (negb b)) en s
        | _ => Stuck
        end)
  | XDebugAssertEq a b =>
      obind (eval a Any en s) (fun a en s =>
      obind (eval b Any en s) (fun b en s =>
        match a, b with
        | VNum m, VNum n => if e_debug E && negb (m =? n) then Fault Panic s else Next VUnit en s
        | _, _ => Stuck
        end))
  | XMapErr m e =>
      obind (eval e ex en s) (fun v en s =>
        match v with
        | VErr er => Next (VErr (Error_context (message_number m) er)) en s
        | VOk _ => Next v en s
        | _ => Stuck
        end)
  | XMapAnyhow m e =>
      obind (eval e ex en s) (fun v en s =>
        match v with
        | VErrUser a => Next (VErr (Error_context (message_number m) (Anyhow a))) en s
        | VOk _ => Next v en s
        | _ => Stuck
        end)
  | XTry e =>
      obind (eval e ex en s) (fun v en s =>
        match v with
        | VOk v => Next v en s
        | VErr er => Return (VErr er) s
        | _ => Stuck
        end)
  | XReturn e => obind (eval e TheSelf en s) (fun v _ s => Return v s)
  | XLet x ty e body =>
      match annotated ty with
      | None => Stuck
      | Some ex' => obind (eval e ex' en s) (fun v en s => leave 1 (eval body ex ((x, v) :: en) s))
      end
  | XLetSelf x e body =>
      obind (eval e TheSelf en s) (fun v en s => leave 1 (eval body ex ((x, v) :: en) s))
  | XLet3 x y z e body =>
      obind (eval e Any en s) (fun v en s =>
        match v with
        | VTriple a b c =>
            match y with
            | Some y => leave 3 (eval body ex ((z, c) :: (y, b) :: (x, a) :: en) s)
            | None => leave 2 (eval body ex ((z, c) :: (x, a) :: en) s)
            end
        | _ => Stuck
        end)
  | XSeq a b => obind (eval a Any en s) (fun _ en s => eval b ex en s)
  | XIf c a b =>
      obind (eval c Any en s) (fun v en s =>
        match v with
        | VBool true => eval a ex en s
        | VBool false => eval b ex en s
        | _ => Stuck
        end)
  | XIfSome x e a b =>
      obind (eval e Any en s) (fun v en s =>
        match v with
        | VSome v => leave 1 (eval a ex ((x, v) :: en) s)
        | VNone => eval b ex en s
        | _ => Stuck
        end)
  | XMatchLength e x a b =>
      obind (eval e Any en s) (fun v en s =>
        match v with
        | VLength (Definite n) => leave 1 (eval a ex ((x, VNum n) :: en) s)
        | VLength Indefinite => eval b ex en s
        | _ => Stuck
        end)
  | XMatchSelf arms =>
      match local "self" en with
      | Some (VSelfRef v) =>
          match st_open ST v with
          | (CVariant _ name, sh, ds) =>
              (fix pick arms :=
                 match arms with
                 | [] => Stuck
                 | (name', sh', binds, body) :: arms' =>
                     if String.eqb name name' then
                       if shape_eqb sh sh' then
                         match bind_pattern sh' binds ds with
                         | Some vs => leave (length vs) (eval body ex (rev vs ++ en) s)
                         | None => Stuck
                         end
                       else Stuck
                     else pick arms'
                 end) arms
          | _ => Stuck
          end
      | _ => Stuck
      end
  | XNamed c fs =>
      match st_members ST c with
      | Some (Named, ms) =>
          if Nat.eqb (length fs) (length ms) then
          (fix go fs (k : list (string * dyn) -> vars -> S -> out S) en s :=
             match fs with
             | [] => k [] en s
             | (m, e) :: fs' =>
                 match assoc m ms with
                 | Some t =>
                     obind (eval e (Ty t) en s) (fun v en s =>
                       match v with
                       | VOwn d => go fs' (fun ds => k ((m, d) :: ds)) en s
                       | _ => Stuck
                       end)
                 | None => Stuck
                 end
             end) fs
            (fun ds en s => match st_make ST c ds with Some v => Next (VSelf v) en s | None => Stuck end) en s
          else Stuck
      | _ => Stuck
      end
  | XTuple c es =>
      match st_members ST c with
      | Some (Unnamed, ms) =>
          (fix go es ms (k : list (string * dyn) -> vars -> S -> out S) en s :=
             match es, ms with
             | [], [] => k [] en s
             | e :: es', (m, t) :: ms' =>
                 obind (eval e (Ty t) en s) (fun v en s =>
                   match v with
                   | VOwn d => go es' ms' (fun ds => k ((m, d) :: ds)) en s
                   | _ => Stuck
                   end)
             | _, _ => Stuck
             end) es ms
            (fun ds en s => match st_make ST c ds with Some v => Next (VSelf v) en s | None => Stuck end) en s
      | _ => Stuck
      end
  | XUnitCtor c =>
      match st_members ST c with
      | Some (Unit, _) => match st_make ST c [] with Some v => Next (VSelf v) en s | None => Stuck end
      | _ => Stuck
      end
  end.

(** The result of a method. *)
Definition finish {A} (f : val -> option A) (o : out S) : option (res A * S) :=
  let result v s :=
    match v with
    | VOk v => get a := f v in Some (Ok a, s)
    | VErr e => Some (Err e, s)
    | _ => None
    end in
  match o with
  | Next v _ s => result v s
  | Return v s => result v s
  | Fault Panic s => Some (Panic, s)
  | Fault NoFuel s => Some (NoFuel, s)
  | Fault (Ok a) s => match a : Empty_set with end
  | Fault (Err e) s => Some (Err e, s)
  | Stuck => None
  end.
Definition as_unit (v : val) : option unit := match v with VUnit => Some tt | _ => None end.
Definition as_len (v : val) : option (option N) :=
  match v with
  | VSome (VNum n) => Some (Some n)
  | VNone => Some None
  | _ => None
  end.
Definition as_self (v : val) : option Self := match v with VSelf v => Some v | _ => None end.
End Values.
Arguments VUnit {P Self}. Arguments VBool {P Self}. Arguments VNum {P Self}. Arguments VOctets {P Self}.
Arguments VLength {P Self}. Arguments VBuffer {P Self}. Arguments VOwn {P Self}. Arguments VRef {P Self}.
Arguments VSelf {P Self}. Arguments VSelfRef {P Self}. Arguments VTriple {P Self}. Arguments VOk {P Self}.
Arguments VErr {P Self}. Arguments VErrUser {P Self}. Arguments VSome {P Self}. Arguments VNone {P Self}.
Arguments VMut {P Self}.
Arguments Next {P Self S}. Arguments Return {P Self S}. Arguments Fault {P Self S}. Arguments Stuck {P Self S}.
