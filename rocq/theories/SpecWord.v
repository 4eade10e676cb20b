(** What the machines of other word sizes are asked to do. *)
From Verif Require Import Base ModelIo ModelBuf ModelHeap ModelWord Spec SpecBuf.

(** The allocator of a machine with [w] octets to a word: its addresses fit one. *)
Definition word_allocator (w : N) (al : allocator) : Prop :=
  good_allocator al /\ forall h n a, al_pick al h n = Some a -> a < word_limit w.
(** How many octets of storage a step asks for. *)
Definition asks (o : bop) (e : env evar) : N :=
  let after i k := match e i with EBuf _ len => len + k | _ => 0 end in
  match o with
  | OWithCapacity _ k => k
  | OFromSlice _ bs => nlen bs
  | OVec _ bs spare => nlen bs + spare
  | OReserve i k => after i k
  | OWrite i bs => after i (nlen bs)
  | _ => 0
  end.
(** No step of the history asks for more than [m]. *)
Fixpoint asks_within (m ic : N) (os : list bop) (e : env evar) : Prop :=
  match os with
  | [] => True
  | o :: os' => asks o e <= m /\ match estep ic o e with Some e' => asks_within m ic os' e' | None => True end
  end.
(** The allocator refused a request of at most [m] octets. *)
Definition refuses_within (m : N) (al : allocator) : Prop :=
  exists h n, 0 < n /\ n <= m /\ al_pick al h n = None.
(** From the state [s0] on, the reader delivers octets. *)
Definition octets_from {S} (R : reader S) (s0 : S) : Prop :=
  exists P : S -> Prop, P s0 /\
  forall s n, P s -> match rd_read R s n with (IoOk bs, s') => bytes_ok bs /\ P s' | (IoErr _, s') => P s' end.
