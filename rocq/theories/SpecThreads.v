(** Threads that use buffers: what they do, and what must come of it. *)
From Verif Require Import Base ModelBuf ModelHeap SpecBuf ModelThreads.

(** What happens next.  Threads have variables of their own; shared variables are read
    by all of them.  [Tick t] lets thread [t] make one memory access. *)
Inductive act :=
| Start (t : nat) (o : bop)        (** thread t begins an operation on its variables *)
| StartClone (t k j : nat)         (** thread t begins: var j = shared k .clone() *)
| StartRead (t k : nat)            (** thread t begins to read the octets of shared k *)
| Tick (t : nat)
| Finish (t : nat)                 (** the operation of thread t returns *)
| Send (t i u j : nat)             (** var i of thread t becomes var j of thread u *)
| Share (t i k : nat)              (** var i of thread t becomes shared k *)
| Unshare (k t i : nat).           (** and back *)

(** ** the specification: no memory, no accesses *)
(** [st_busy]: within an operation, and the shared variable it reads. *)
Record sthread := { st_vars : env evar; st_seen : list (list (option N)); st_busy : option (option nat) }.
Record smachine := { s_threads : env sthread; s_shared : env evar }.
Definition sempty : smachine := {| s_threads := fun _ => {| st_vars := eempty; st_seen := []; st_busy := None |}; s_shared := eempty |}.
Definition s_put (t : nat) (x : sthread) (s : smachine) : smachine := {| s_threads := upd t x (s_threads s); s_shared := s_shared s |}.
Definition s_idle (t : nat) (s : smachine) : bool := match st_busy (s_threads s t) with None => true | Some _ => false end.
Definition s_set_var (t i : nat) (x : evar) (s : smachine) : smachine :=
  let th := s_threads s t in s_put t {| st_vars := upd i x (st_vars th); st_seen := st_seen th; st_busy := st_busy th |} s.
Definition s_set_shared (k : nat) (x : evar) (s : smachine) : smachine := {| s_threads := s_threads s; s_shared := upd k x (s_shared s) |}.
Definition no_var (x : evar) : bool := match x with EEmpty => true | _ => false end.
(** [None]: what Rust does not let a program do, or against the contract of an operation.
    There are [n] threads.  A shared variable is taken back when nobody reads it. *)
Definition sstep (n : nat) (ic : N) (a : act) (s : smachine) : option smachine :=
  match a with
  | Start t o =>
      let th := s_threads s t in
      guard ((t <? n)%nat && s_idle t s)
        (match estep ic o (st_vars th) with
         | Some e => Some (s_put t {| st_vars := e; st_seen := st_seen th; st_busy := Some None |} s)
         | None => None
         end)
  | StartClone t k j =>
      let th := s_threads s t in
      match s_shared s k with
      | EBuf cells len =>
          guard ((t <? n)%nat && s_idle t s && no_var (st_vars th j))
            (Some (s_put t {| st_vars := upd j (EBuf (take len cells ++ unknown (ic - len)) len) (st_vars th); st_seen := st_seen th;
                              st_busy := Some (Some k) |} s))
      | _ => None
      end
  | StartRead t k =>
      let th := s_threads s t in
      match s_shared s k with
      | EBuf cells len =>
          guard ((t <? n)%nat && s_idle t s)
            (Some (s_put t {| st_vars := st_vars th; st_seen := take len cells :: st_seen th; st_busy := Some (Some k) |} s))
      | _ => None
      end
  | Tick _ => Some s
  | Finish t =>
      let th := s_threads s t in
      Some (s_put t {| st_vars := st_vars th; st_seen := st_seen th; st_busy := None |} s)
  | Send t i u j =>
      guard (negb (Nat.eqb t u) && s_idle t s && s_idle u s && no_var (st_vars (s_threads s u) j))
        (Some (s_set_var u j (st_vars (s_threads s t) i) (s_set_var t i EEmpty s)))
  | Share t i k =>
      guard (s_idle t s && no_var (s_shared s k))
        (Some (s_set_shared k (st_vars (s_threads s t) i) (s_set_var t i EEmpty s)))
  | Unshare k t i =>
      guard (s_idle t s && no_var (st_vars (s_threads s t) i) &&
             forallb (fun u => match st_busy (s_threads s u) with Some (Some k') => negb (Nat.eqb k' k) | _ => true end) (seq 0 n))
        (Some (s_set_var t i (s_shared s k) (s_set_shared k EEmpty s)))
  end.
Fixpoint srun (n : nat) (ic : N) (acts : list act) (s : smachine) : option smachine :=
  match acts with [] => Some s | a :: acts' => match sstep n ic a s with Some s' => srun n ic acts' s' | None => None end end.

(** ** the same on a layout in raw memory *)
Section Machine.
Context (L : layout) (P : programs (L_raw L)) (al : allocator).
Definition vars := env (var (L_raw L)).
(** [t_busy]: the accesses that remain of the operation the thread is in. *)
Record thread := { t_vars : vars; t_seen : list (list N); t_busy : option (prog (vars * list (list N))) }.
Record machine := { m_heap : heap; m_threads : env thread; m_shared : vars }.
Definition m_put (t : nat) (x : thread) (m : machine) : machine :=
  {| m_heap := m_heap m; m_threads := upd t x (m_threads m); m_shared := m_shared m |}.
Definition m_set_var (t i : nat) (x : var (L_raw L)) (m : machine) : machine :=
  let th := m_threads m t in m_put t {| t_vars := upd i x (t_vars th); t_seen := t_seen th; t_busy := t_busy th |} m.
Definition m_set_shared (k : nat) (x : var (L_raw L)) (m : machine) : machine :=
  {| m_heap := m_heap m; m_threads := m_threads m; m_shared := upd k x (m_shared m) |}.
(** [Early]: a thread was to return before its last access or to go on after it, or to
    begin before it returned; no run does that. *)
Inductive ran := Ran (m : machine) | Refused | Crashed | Undefined | Early.
Definition begins (t : nat) (p : prog (vars * list (list N))) (m : machine) : ran :=
  let th := m_threads m t in
  match t_busy th with
  | None => Ran (m_put t {| t_vars := t_vars th; t_seen := t_seen th; t_busy := Some p |} m)
  | Some _ => Early
  end.
Definition mstep (a : act) (m : machine) : ran :=
  match a with
  | Start t o => let th := m_threads m t in begins t (v <~ pstep L P o (t_vars th) ; PRet (v, t_seen th)) m
  | StartClone t k j =>
      let th := m_threads m t in
      match m_shared m k with
      | VBuf r => begins t (r' <~ P_clone P r ; PRet (upd j (VBuf r') (t_vars th), t_seen th)) m
      | _ => Undefined
      end
  | StartRead t k =>
      let th := m_threads m t in
      match m_shared m k with
      | VBuf r => begins t (bs <~ P_load P 0 (L_len L r) r ; PRet (t_vars th, bs :: t_seen th)) m
      | _ => Undefined
      end
  | Tick t =>
      let th := m_threads m t in
      match t_busy th with
      | Some (PRet _) | None => Early
      | Some p =>
          match access al p (m_heap m) with
          | Done p' h' => Ran {| m_heap := h'; m_threads := upd t {| t_vars := t_vars th; t_seen := t_seen th; t_busy := Some p' |} (m_threads m);
                                 m_shared := m_shared m |}
          | Abort => Refused
          | Crash => Crashed
          | UB => Undefined
          end
      end
  | Finish t =>
      match t_busy (m_threads m t) with
      | Some (PRet (v, seen)) => Ran (m_put t {| t_vars := v; t_seen := seen; t_busy := None |} m)
      | _ => Early
      end
  | Send t i u j => Ran (m_set_var u j (t_vars (m_threads m t) i) (m_set_var t i VEmpty m))
  | Share t i k => Ran (m_set_shared k (t_vars (m_threads m t) i) (m_set_var t i VEmpty m))
  | Unshare k t i => Ran (m_set_var t i (m_shared m k) (m_set_shared k VEmpty m))
  end.
Fixpoint mrun (acts : list act) (m : machine) : ran :=
  match acts with [] => Ran m | a :: acts' => match mstep a m with Ran m' => mrun acts' m' | r => r end end.
Definition mempty (h : heap) : machine :=
  {| m_heap := h; m_threads := fun _ => {| t_vars := vempty; t_seen := []; t_busy := None |}; m_shared := vempty |}.

(** Two threads are about to access the same block, and one of them writes. *)
Definition race (m : machine) : Prop :=
  exists t u p q b, t <> u /\ t_busy (m_threads m t) = Some p /\ t_busy (m_threads m u) = Some q /\
    writes_block p = Some b /\ (writes_block q = Some b \/ reads_block q = Some b).
(** Every idle thread has what the specification says, and has read it; so have the
    shared variables; nothing else was touched, and nothing remains in the end. *)
Definition agrees (h0 : heap) (m : machine) (s : smachine) : Prop :=
  (forall t, st_busy (s_threads s t) = None ->
     (forall i, shows L (m_heap m) (t_vars (m_threads m t) i) (st_vars (s_threads s t) i)) /\
     Forall2 (fun cells bs => fits cells bs /\ nlen bs = nlen cells) (st_seen (s_threads s t)) (t_seen (m_threads m t))) /\
  (forall k, shows L (m_heap m) (m_shared m k) (s_shared s k)) /\
  (forall a c, h_get a h0 = Some c -> h_get a (m_heap m) = Some c) /\
  ((forall t, st_busy (s_threads s t) = None) -> (forall t i, st_vars (s_threads s t) i = EEmpty) -> (forall k, s_shared s k = EEmpty) ->
     forall a, h_get a (m_heap m) = h_get a h0).
End Machine.
Arguments Ran {L} m.
Arguments Refused {L}.
Arguments Crashed {L}.
Arguments Undefined {L}.
Arguments Early {L}.
Arguments m_heap {L} m.
Arguments m_threads {L} m.
Arguments m_shared {L} m.
Arguments t_vars {L} t.
Arguments t_seen {L} t.
Arguments t_busy {L} t.
