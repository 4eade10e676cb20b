(** What is demanded of readers, and what their states stand for. *)
From Verif Require Import Base ModelIo.

(** ** Kinds of readers.  [content s] are the octets the reader in state [s] will still deliver. *)
(** Octets are delivered in order, at most as many as asked for; failing calls deliver none. *)
Definition honest {S} (R : reader S) (content : S -> list N) : Prop :=
  forall s n, match rd_read R s n with
              | (IoOk c, s') => content s = c ++ content s' /\ nlen c <= n
              | (IoErr _, s') => content s = content s'
              end.
(** From states satisfying [inv], calls do not fail and read zero octets only at the end. *)
Definition steady {S} (R : reader S) (content : S -> list N) (inv : S -> Prop) : Prop :=
  forall s n, inv s -> exists c s', rd_read R s n = (IoOk c, s') /\ inv s' /\
    content s = c ++ content s' /\ nlen c <= n /\ (0 < n -> c = [] -> content s = []).
(** A call delivers all that is asked for if it is there. *)
Definition greedy {S} (R : reader S) (content : S -> list N) (inv : S -> Prop) : Prop :=
  forall s n, inv s -> exists s', rd_read R s n = (IoOk (take n (content s)), s') /\ inv s' /\
    content s' = drop n (content s).

(** The octets of a schedule. *)
Fixpoint delivered (s : list event) : list N :=
  match s with [] => [] | Chunk c :: s' => c ++ delivered s' | Fault _ :: s' => delivered s' end.
Definition no_faults (s : list event) : Prop := Forall (fun e => match e with Chunk [] => False | Chunk _ => True | Fault _ => False end) s.

(** [faults s] lists the failures reported up to state [s], oldest first. *)
Definition logs {S} (R : reader S) (faults : S -> list io_kind) : Prop :=
  forall s n, match rd_read R s n with
              | (IoOk _, s') => faults s' = faults s
              | (IoErr k, s') => faults s' = faults s ++ [k]
              end.
(** [ks]: the failures reported during the run.  [Interrupted] may have been retried
    (when [retry]); any other failure ended the run with that error. *)
Definition reports {A} (retry : bool) (r : res A) (ks : list io_kind) : Prop :=
  exists is, (forall k, In k is -> retry = true /\ k = Interrupted) /\
    ((ks = is /\ forall k, r = Err (Io k) -> retry = true /\ k = UnexpectedEof) \/
     exists k, ks = is ++ [k] /\ r = Err (Io k)).

(** [n] values read one after the other. *)
Fixpoint read_all {S A} (parse : S -> res A * S) (n : nat) (s : S) : res (list A) * S :=
  match n with
  | O => (Ok [], s)
  | Datatypes.S n' =>
      match parse s with
      | (Ok v, s1) => match read_all parse n' s1 with (Ok vs, s2) => (Ok (v :: vs), s2) | x => x end
      | (Err e, s1) => (Err e, s1)
      | (Panic, s1) => (Panic, s1)
      | (NoFuel, s1) => (NoFuel, s1)
      end
  end.
