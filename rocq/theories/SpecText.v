(** What the texts of errors are to tell. *)
From Coq Require Import String Ascii.
From Verif Require Import Base ModelError ModelSerde ModelDerive.
Open Scope N_scope.

(** [x] occurs in the text. *)
Fixpoint occurs (x : ascii) (s : string) : Prop :=
  match s with EmptyString => False | String c s' => c = x \/ occurs x s' end.
(** The contexts that the crates add: one of sixteen messages on the element at an
    index; one of five on a field; one on a container. *)
Definition library_context (c : N) : Prop :=
  (exists m i, m < 16 /\ c = ctx m i) \/ (exists k n, k < 5 /\ c = field_ctx k n) \/ c = field_ctx 5 0.
(** Fields with different numbers have different names, and no name has a backquote in it. *)
Definition proper_names (field_text : N -> string) : Prop :=
  (forall n m, field_text n = field_text m -> n = m) /\ (forall n, ~ occurs "`" (field_text n)).
(** The texts, outermost first, with a colon and a space between. *)
Fixpoint trail (texts : list string) (last : string) : string :=
  match texts with
  | [] => last
  | t :: texts' => (t ++ ": " ++ trail texts' last)%string
  end.
(** The texts that users see: those of lib.rs:86-107. *)
Definition published : list (error * string) :=
  [(UnterminatedBytes, "The bytes finish before the last octet.");
   (RedundantBytes, "The bytes include some redundant octet(s).");
   (OverFlow, "Over flow is occurred to parse bytes as a number.");
   (IndefiniteLength, "'Indefinite Length' is used where not allowed.");
   (BadEoc, "'Indefinite Length BER' includes a bad 'EOC.'");
   (ExtraContentsOctet, "Contents include (an) invlid octet(s) at the end.");
   (UnmatchedId, "The identifier does not match to that of data type.");
   (InvalidUtf8, "Invalid as UTF-8.");
   (InvalidDerBooleanContents, "The contents of DER BOOLEAN must be 0x00 or 0xFF.");
   (InvalidKeyValuePair, "SEQUENCE of key-value pair is required.")]%string.
