(** How much stack decoding takes.  An implementation that refers to itself is what [FD]
    makes of itself (SpecRec.v).  On a stack with room for [k] nested calls of the
    implementation, the call that does not fit aborts the program. *)
From Verif Require Import Base ModelError ModelTag ModelContents ModelTlv ModelSerde ModelDerive.
From Verif Require Import Spec SpecSerde SpecDerive SpecRec.

(** No room is left. *)
Definition overflow {T} : deserialize T := {| from_ber := fun _ _ _ => Panic; from_der := fun _ _ => Panic |}.
(** Room for [k] nested calls. *)
Fixpoint on_stack {T} (FD : deserialize T -> deserialize T) (k : nat) : deserialize T :=
  match k with O => overflow | S k' => FD (on_stack FD k') end.
(** The same, or aborted. *)
Definition cut {A} (r r' : res A) : Prop := r = r' \/ r = Panic.
Definition cut_de {T} (D D' : deserialize T) : Prop :=
  forall id l c, cut (from_der D id c) (from_der D' id c) /\ cut (from_ber D id l c) (from_ber D' id l c).
(** When a call inside aborts, all is aborted. *)
Definition aborting {T} (FD : deserialize T -> deserialize T) : Prop := forall D D', cut_de D D' -> cut_de (FD D) (FD D').
(** All values decoded are in [P]. *)
Definition gives {T} (P : T -> Prop) (D : deserialize T) : Prop :=
  forall id l c v, bytes_ok c -> from_der D id c = Ok v \/ from_ber D id l c = Ok v -> P v.
(** A value is at most one level deeper than what is decoded inside. *)
Definition deepens {T} (depth : T -> nat) (FD : deserialize T -> deserialize T) : Prop :=
  forall n D, gives (fun v => depth v < n)%nat D -> gives (fun v => depth v < S n)%nat (FD D).
(** Reads the encodings of values one level deeper than what is read inside. *)
Definition reads_deeper {T} (C : codec_on T) (depth : T -> nat) (FD : deserialize T -> deserialize T) : Prop :=
  forall n D, let Cn := to_codec (below C depth n) in let Cn' := to_codec (below C depth (S n)) in
    de_law Cn D -> ber_law Cn D -> de_law Cn' (FD D) /\ ber_law Cn' (FD D).
(** Calls inside get contents that are at least [d] octets shorter. *)
Definition spaced {T} (d : nat) (FD : deserialize T -> deserialize T) : Prop :=
  forall n D D', same_de n D D' -> same_de (d + n) (FD D) (FD D').

(** ** Serialising *)
Definition ser_overflow {T} : serialize T :=
  {| write_id := fun _ _ _ s => (Panic, s); write_der_contents := fun _ _ _ s => (Panic, s);
     id_len := fun _ => Panic; der_contents_len := fun _ => Panic |}.
Fixpoint ser_on_stack {T} (FS : serialize T -> serialize T) (k : nat) : serialize T :=
  match k with O => ser_overflow | S k' => FS (ser_on_stack FS k') end.

(** A tree of [n] levels without branches. *)
Fixpoint chain (n : nat) : tree := Node 0 (match n with O => [] | S n' => [chain n'] end).
