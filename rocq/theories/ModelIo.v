(** Readers and the writers used while parsing. *)
From Verif Require Import Base.

(** Result of one [std::io::Read::read] call: the octets that were put in the
    buffer, or an error. *)
Inductive io_res := IoOk (bs : list N) | IoErr (k : io_kind).

(** [impl std::io::Read]: one call of [read] with a buffer of [n] octets
    returns what was read and the reader's next state.
    A contract-abiding reader returns at most [n] octets. *)
Record reader (S : Type) := { rd_read : S -> N -> io_res * S }.
Arguments rd_read {S} r s n.

(** [impl Read for &[u8]] (std): copies min(n, remaining) octets. *)
Definition slice_reader : reader (list N) :=
  {| rd_read := fun s n => (IoOk (take n s), drop n s) |}.

(** A reader with an arbitrary schedule: the list says what the next reads
    deliver.  [Chunk c]: at most [c] is available for one [read] call (what does
    not fit stays for the next call; [Chunk []] is a zero-length read);
    [Fault k]: the call fails.  The exhausted schedule reads zero octets (EOF). *)
Inductive event := Chunk (c : list N) | Fault (k : io_kind).
Definition sched_reader : reader (list event) :=
  {| rd_read := fun s n =>
       match s with
       | [] => (IoOk [], [])
       | Chunk c :: s' =>
           if nlen c <=? n then (IoOk c, s') else (IoOk (take n c), Chunk (drop n c) :: s')
       | Fault k :: s' => (IoErr k, s')
       end |}.

(** State of a parser: the reader's state and the octets written so far to the
    (infallible) writer, which is [std::io::sink()] or a [Buffer]. *)
Definition pst (S : Type) : Type := S * list N.
(** A parser: outcome and next state (the state also advances on errors, as in
    Rust). *)
Definition parser (S A : Type) : Type := pst S -> res A * pst S.

Definition pret {S A} (a : A) : parser S A := fun st => (Ok a, st).
Definition pfail {S A} (e : error) : parser S A := fun st => (Err e, st).
Definition ppanic {S A} : parser S A := fun st => (Panic, st).
Definition pbind {S A B} (m : parser S A) (k : A -> parser S B) : parser S B :=
  fun st =>
    let (r, st') := m st in
    match r with
    | Ok a => k a st'
    | Err e => (Err e, st')
    | Panic => (Panic, st')
    | NoFuel => (NoFuel, st')
    end.
Notation "x <- m ;; k" := (pbind m (fun x => k))
  (at level 61, m at next level, right associativity).
Notation "m ;;; k" := (pbind m (fun _ => k)) (at level 61, right associativity).

(** bsn1/src/misc.rs:21-32, read_u8.  A reader that returns more than one octet
    for a one-octet buffer hits [unreachable!()]. *)
Definition read_u8 {S} (R : reader S) : parser S N := fun st =>
  let (s, w) := st in
  match rd_read R s 1 with
  | (IoErr k, s') => (Err (Io k), (s', w))
  | (IoOk [], s') => (Err UnterminatedBytes, (s', w))
  | (IoOk [b], s') => (Ok b, (s', w))
  | (IoOk _, s') => (Panic, (s', w))
  end.

(** bsn1/src/misc.rs:40-50, write_u8.  The writer is a sink or a [Buffer]
    (buffer/mod.rs:201-211), both always accept the octet. *)
Definition write_u8 {S} (b : N) : parser S unit := fun st =>
  let (s, w) := st in (Ok tt, (s, w ++ [b])).

(** std::io::Read::read_exact (default implementation): reads until [n] octets
    have been delivered; retries on Interrupted; a zero-length read gives
    UnexpectedEof.  [fuel] bounds the number of calls.  Slices override
    it with the same outcome (what is left of the slice after a failure depends on
    the version of std and is not used). *)
Fixpoint read_exact {S} (R : reader S) (fuel : nat) (n : N) : parser S unit := fun st =>
  let (s, w) := st in
  match fuel with
  | O => (NoFuel, st)
  | Datatypes.S fuel' =>
      if n =? 0 then (Ok tt, st) else
      match rd_read R s n with
      | (IoErr Interrupted, s') => read_exact R fuel' n (s', w)
      | (IoErr k, s') => (Err (Io k), (s', w))
      | (IoOk [], s') => (Err (Io UnexpectedEof), (s', w))
      | (IoOk bs, s') =>
          if nlen bs <=? n then read_exact R fuel' (n - nlen bs) (s', w ++ bs)
          else (Panic, (s', w))
      end
  end.
