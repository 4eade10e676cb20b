(** Operations of the error type: bsn1/src/lib.rs *)
From Verif Require Import Base.

(** bsn1/src/lib.rs:111-128, PartialEq::eq *)
Definition Error_eqb (self other : error) : bool :=
  match self with
  | UnterminatedBytes => match other with UnterminatedBytes => true | _ => false end
  | RedundantBytes => match other with RedundantBytes => true | _ => false end
  | OverFlow => match other with OverFlow => true | _ => false end
  | IndefiniteLength => match other with IndefiniteLength => true | _ => false end
  | BadEoc => match other with BadEoc => true | _ => false end
  | ExtraContentsOctet => match other with ExtraContentsOctet => true | _ => false end
  | UnmatchedId => match other with UnmatchedId => true | _ => false end
  | InvalidUtf8 => match other with InvalidUtf8 => true | _ => false end
  | InvalidDerBooleanContents => match other with InvalidDerBooleanContents => true | _ => false end
  | InvalidKeyValuePair => match other with InvalidKeyValuePair => true | _ => false end
  | Io _ => false
  | Anyhow _ => false
  end.

(** bsn1/src/lib.rs:147-152, into_anyhow *)
Definition into_anyhow (self : error) : anyhow :=
  match self with
  | Anyhow err => err
  | _ => AnNew self
  end.
(** bsn1/src/lib.rs:156-161, as_anyhow *)
Definition as_anyhow (self : error) : option anyhow :=
  match self with
  | Anyhow err => Some err
  | _ => None
  end.
(** bsn1/src/lib.rs:164-169, context *)
Definition Error_context (context : N) (self : error) : error := Anyhow (AnContext context (into_anyhow self)).

(** What one step of [anyhow::Error::chain] yields, as far as [downcast_ref::<Error>]
    can tell: a crate error, or an object of another type (a foreign error, or the
    object anyhow makes for a context, whose type is private to anyhow). *)
Inductive cause := CLib (e : error) | CForeign (code : N) | CContext (ctx : N).
(** The chain of a foreign error, from it through its sources. *)
Fixpoint foreign_chain (f : foreign) : list cause :=
  match f with
  | FLeaf c => [CForeign c]
  | FOver c f' => CForeign c :: foreign_chain f'
  | FLib c e => [CForeign c; CLib e]
  end.
(** anyhow::Error::chain: the source of a context object is the error it was given to. *)
Fixpoint chain (a : anyhow) : list cause :=
  match a with
  | AnNew e => [CLib e]
  | AnForeign f => foreign_chain f
  | AnContext c a' => CContext c :: chain a'
  end.
(** bsn1/src/lib.rs:173-188, root_cause; the loop with its [break]. *)
Fixpoint root_loop (ret : error) (causes : list cause) : error :=
  match causes with
  | CLib e :: causes' => root_loop e causes'
  | _ => ret
  end.
Definition root_cause (self : error) : error :=
  match self with
  | Anyhow err => root_loop self (chain err)
  | _ => self
  end.
