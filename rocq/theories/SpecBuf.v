(** What a growable byte buffer must do, as a machine over plain lists, and the
    same histories run on a buffer layout in raw memory. *)
From Verif Require Import Base ModelBuf ModelHeap.

(** One program step using buffers and vectors kept in numbered variables. *)
Inductive bop :=
| ONew (i : nat)                          (** var i = Buffer::new() *)
| OWithCapacity (i : nat) (k : N)         (** var i = Buffer::with_capacity(k) *)
| OFromSlice (i : nat) (bs : list N)      (** var i = Buffer::from(&bs) *)
| OVec (i : nat) (bs : list N) (spare : N)(** var i = a Vec with these contents and spare capacity *)
| OFromVec (i : nat)                      (** var i = Buffer::from(var i) *)
| OIntoVec (i : nat)                      (** var i = var i .into_vec() *)
| OClone (i j : nat)                      (** var j = var i .clone() *)
| ODrop (i : nat)                         (** drop(var i) *)
| OReserve (i : nat) (k : N)
| OPush (i : nat) (v : N)
| OExtend (i : nat) (bs : list N)
| OSetLen (i : nat) (n : N)
| OStore (i : nat) (off : N) (bs : list N)(** as_mut_ptr().add(off).copy_from(bs) *)
| OMove (i : nat) (src dst n : N)         (** as_ptr().add(src).copy_to(as_mut_ptr().add(dst), n) *)
| OWrite (i : nat) (bs : list N).         (** io::Write::write *)

(** ** the specification *)
(** Known octets ([None]: unspecified) of the capacity asked for so far, and how many
    of them are contents. *)
Inductive evar := EEmpty | EBuf (cells : list (option N)) (len : N) | EVec (cells : list (option N)) (len : N).
Definition env (A : Type) := nat -> A.
Definition upd {A} (i : nat) (x : A) (e : env A) : env A := fun j => if Nat.eqb j i then x else e j.
Definition unknown (k : N) : list (option N) := repeat None (N.to_nat k).
Definition overwrite (off : N) (new cells : list (option N)) : list (option N) :=
  take off cells ++ new ++ drop (off + nlen new) cells.
Definition octets (bs : list N) : bool := forallb (fun b => b <? 256) bs.
Definition guard {A} (c : bool) (x : option A) : option A := if c then x else None.

(** reserve *)
Definition e_reserve (k : N) (cells : list (option N)) (len : N) : list (option N) :=
  if len + k <=? nlen cells then cells else take len cells ++ unknown k.
(** One step, [None] if the program breaks the contract of the operation: writing or
    setting the length beyond the capacity asked for, more than isize::MAX octets.
    [ic] octets of capacity come for free. *)
Definition estep (ic : N) (o : bop) (e : env evar) : option (env evar) :=
  match o with
  | ONew i => match e i with EEmpty => Some (upd i (EBuf (unknown ic) 0) e) | _ => None end
  | OWithCapacity i k =>
      match e i with
      | EEmpty => guard (k <=? isize_max) (Some (upd i (EBuf (unknown (N.max ic k)) 0) e))
      | _ => None
      end
  | OFromSlice i bs =>
      match e i with
      | EEmpty => guard ((nlen bs <=? isize_max) && octets bs)
                    (Some (upd i (EBuf (map Some bs ++ unknown (ic - nlen bs)) (nlen bs)) e))
      | _ => None
      end
  | OVec i bs spare =>
      match e i with
      | EEmpty => guard ((nlen bs + spare <=? isize_max) && octets bs)
                    (Some (upd i (EVec (map Some bs ++ unknown spare) (nlen bs)) e))
      | _ => None
      end
  | OFromVec i => match e i with EVec cells len => Some (upd i (EBuf cells len) e) | _ => None end
  | OIntoVec i => match e i with EBuf cells len => Some (upd i (EVec (take len cells) len) e) | _ => None end
  | OClone i j =>
      match e i, e j with
      | EBuf cells len, EEmpty => Some (upd j (EBuf (take len cells ++ unknown (ic - len)) len) e)
      | _, _ => None
      end
  | ODrop i => Some (upd i EEmpty e)
  | OReserve i k =>
      match e i with
      | EBuf cells len => guard (len + k <=? isize_max) (Some (upd i (EBuf (e_reserve k cells len) len) e))
      | _ => None
      end
  | OPush i v =>
      match e i with
      | EBuf cells len => guard ((len <? nlen cells) && (v <? 256)) (Some (upd i (EBuf (overwrite len [Some v] cells) (len + 1)) e))
      | _ => None
      end
  | OExtend i bs =>
      match e i with
      | EBuf cells len => guard ((len + nlen bs <=? nlen cells) && octets bs)
                            (Some (upd i (EBuf (overwrite len (map Some bs) cells) (len + nlen bs)) e))
      | _ => None
      end
  | OSetLen i n =>
      match e i with
      | EBuf cells len => guard (n <=? nlen cells) (Some (upd i (EBuf cells n) e))
      | _ => None
      end
  | OStore i off bs =>
      match e i with
      | EBuf cells len => guard ((off + nlen bs <=? nlen cells) && octets bs)
                            (Some (upd i (EBuf (overwrite off (map Some bs) cells) len) e))
      | _ => None
      end
  | OMove i src dst n =>
      match e i with
      | EBuf cells len => guard ((src + n <=? nlen cells) && (dst + n <=? nlen cells))
                            (Some (upd i (EBuf (overwrite dst (take n (drop src cells)) cells) len) e))
      | _ => None
      end
  | OWrite i bs =>
      match e i with
      | EBuf cells len => guard ((len + nlen bs <=? isize_max) && octets bs)
                            (Some (upd i (EBuf (overwrite len (map Some bs) (e_reserve (nlen bs) cells len)) (len + nlen bs)) e))
      | _ => None
      end
  end.
Fixpoint erun (ic : N) (os : list bop) (e : env evar) : option (env evar) :=
  match os with [] => Some e | o :: os' => match estep ic o e with Some e' => erun ic os' e' | None => None end end.
Definition eempty : env evar := fun _ => EEmpty.

(** Octets agreeing with what is known. *)
Fixpoint fits (cells : list (option N)) (mem : list N) : Prop :=
  match cells, mem with
  | [], _ => True
  | c :: cells', m :: mem' => match c with Some v => m = v | None => True end /\ fits cells' mem'
  | _ :: _, [] => False
  end.

(** ** the same history on a layout *)
Inductive var (R : Type) := VEmpty | VBuf (r : R) | VVec (v : vec).
Arguments VEmpty {R}.
Arguments VBuf {R} r.
Arguments VVec {R} v.
Definition vempty {R} : env (var R) := fun _ => VEmpty.
(** A use of a variable of another kind would not compile; it counts as undefined. *)
Definition rstep (L : layout) (al : allocator) (o : bop) (v : env (var (L_raw L))) : M (env (var (L_raw L))) :=
  let put i (m : M (L_raw L)) := (r <-- m ; mret (upd i (VBuf r) v)) in
  let on_buf i (f : L_raw L -> M (L_raw L)) := match v i with VBuf r => put i (f r) | _ => mub end in
  match o with
  | ONew i => put i (mret (L_new L))
  | OWithCapacity i k => put i (L_with_capacity L al k)
  | OFromSlice i bs => put i (L_from_slice L al bs)
  | OVec i bs spare => (x <-- vec_make al bs spare ; mret (upd i (VVec x) v))
  | OFromVec i => match v i with VVec x => put i (L_from_vec L x) | _ => mub end
  | OIntoVec i => match v i with VBuf r => (x <-- L_into_vec L al r ; mret (upd i (VVec x) v)) | _ => mub end
  | OClone i j => match v i with VBuf r => put j (L_clone L al r) | _ => mub end
  | ODrop i =>
      match v i with
      | VBuf r => (_ <-- L_drop L r ; mret (upd i VEmpty v))
      | VVec x => (_ <-- vec_drop x ; mret (upd i VEmpty v))
      | VEmpty => mret (upd i VEmpty v)
      end
  | OReserve i k => on_buf i (L_reserve L al k)
  | OPush i x => on_buf i (L_push L x)
  | OExtend i bs => on_buf i (L_extend L bs)
  | OSetLen i n => on_buf i (L_set_len_checked L n)
  | OStore i off bs => on_buf i (L_store L off bs)
  | OMove i src dst n => on_buf i (fun r => bs <-- L_load L src n r ; L_store L dst bs r)
  | OWrite i bs => on_buf i (L_io_write L al bs)
  end.
Fixpoint rrun (L : layout) (al : allocator) (os : list bop) (v : env (var (L_raw L))) : M (env (var (L_raw L))) :=
  match os with [] => mret v | o :: os' => (v' <-- rstep L al o v ; rrun L al os' v') end.

(** A variable shows what the specification says: length, capacity, the whole memory
    asked for, the contents. *)
Definition shows (L : layout) (h : heap) (x : var (L_raw L)) (e : evar) : Prop :=
  match x, e with
  | VEmpty, EEmpty => True
  | VBuf r, EBuf cells len =>
      L_len L r = len /\ len <= L_capacity L r /\ nlen cells <= L_capacity L r /\
      (exists mem, L_load L 0 (nlen cells) r h = Done mem h /\ fits cells mem) /\
      (exists bs, L_slice L r h = Done bs h /\ nlen bs = len /\ fits (take len cells) bs)
  | VVec v, EVec cells len =>
      v_len v = len /\ len <= v_cap v /\ nlen cells <= v_cap v /\
      (exists bs, vec_slice v h = Done bs h /\ nlen bs = len /\ fits (take len cells) bs)
  | _, _ => False
  end.
(** The allocator refused a request it may refuse only for want of memory. *)
Definition out_of_memory (al : allocator) : Prop :=
  exists h n, 0 < n /\ n <= isize_max /\ al_pick al h n = None.

(** ** a layout refines the buffer of ModelBuf.v *)
(** From a value owning block [own] to one owning [own']: other blocks are untouched, a
    block acquired was free, a block given up is gone. *)
Definition frame (own own' : option N) (h h' : heap) : Prop :=
  (forall a, own <> Some a -> own' <> Some a -> h_get a h' = h_get a h) /\
  (forall a, own' = Some a -> own = Some a \/ h_get a h = None) /\
  (forall a, own = Some a -> own' <> Some a -> h_get a h' = None).
(** It ends well or runs out of memory. *)
Definition meets {A} (al : allocator) (o : outcome A) (Q : A -> heap -> Prop) : Prop :=
  match o with Done a h => Q a h | Abort => out_of_memory al | Crash | UB => False end.
(** A vector with contents [bs] and spare octets [spare]. *)
Definition vec_is (v : vec) (h : heap) (bs spare : list N) (own : option N) : Prop :=
  v_len v = nlen bs /\ v_cap v = nlen (bs ++ spare) /\ v_cap v <= isize_max /\ bytes_ok (bs ++ spare) /\
  own = (if v_cap v =? 0 then None else Some (v_ptr v)) /\
  (v_cap v <> 0 -> h_get (v_ptr v) h = Some (bs ++ spare) /\ 0 < v_ptr v /\ v_ptr v < usize_limit).
(** [Rep r h b own]: the raw value [r] in memory [h], owning block [own], stands for [b].
    Whenever the operation on [b] succeeds, so does the one on [r], with the
    corresponding result. *)
Record buffer_refines (L : layout) (al : allocator) (Rep : L_raw L -> heap -> buf -> option N -> Prop) : Prop := {
  br_observe : forall r h b own, Rep r h b own ->
    L_len L r = b_len b /\ L_capacity L r = bf_cap b /\ b_len b <= bf_cap b /\ bf_cap b <= isize_max /\
    bytes_ok (b_mem b) /\
    L_slice L r h = Done (bf_slice b) h;
  br_owned : forall r h b a, Rep r h b (Some a) -> h_get a h = Some (b_mem b);
  br_frame : forall r h h' b own, Rep r h b own -> (forall a, own = Some a -> h_get a h' = h_get a h) -> Rep r h' b own;
  br_new : forall h j, Rep (L_new L) h (bf_new {| init_cap := L_init_cap L; junk := j |}) None;
  br_with_capacity : forall h k, k <= isize_max ->
    meets al (L_with_capacity L al k h) (fun r' h' => exists j b' own', Rep r' h' b' own' /\ frame None own' h h' /\
      bf_with_capacity {| init_cap := L_init_cap L; junk := j |} k = Ok b');
  br_reserve : forall r h b own k, Rep r h b own -> b_len b + k <= isize_max ->
    meets al (L_reserve L al k r h) (fun r' h' => exists j b' own', Rep r' h' b' own' /\ frame own own' h h' /\
      bf_reserve {| init_cap := L_init_cap L; junk := j |} k b = Ok b');
  br_load : forall r h b own off n x, Rep r h b own -> mem_read off n (b_mem b) = Ok x -> L_load L off n r h = Done x h;
  br_store : forall r h b own off src b', Rep r h b own -> bytes_ok src -> bf_write off src b = Ok b' ->
    exists r' h', L_store L off src r h = Done r' h' /\ Rep r' h' b' own /\ frame own own h h';
  br_set_len : forall r h b own n b', Rep r h b own -> bf_set_len n b = Ok b' ->
    exists r', L_set_len L n r h = Done r' h /\ Rep r' h b' own;
  br_push : forall r h b own v b', Rep r h b own -> v < 256 -> bf_push v b = Ok b' ->
    exists r' h', L_push L v r h = Done r' h' /\ Rep r' h' b' own /\ frame own own h h';
  br_extend : forall r h b own bs b', Rep r h b own -> bytes_ok bs -> bf_extend bs b = Ok b' ->
    exists r' h', L_extend L bs r h = Done r' h' /\ Rep r' h' b' own /\ frame own own h h';
  br_clone : forall r h b own, Rep r h b own ->
    meets al (L_clone L al r h) (fun r' h' => exists j b' own', Rep r' h' b' own' /\ frame None own' h h' /\
      bf_clone {| init_cap := L_init_cap L; junk := j |} b = Ok b');
  br_from_vec : forall v h bs spare own, vec_is v h bs spare own ->
    exists r', L_from_vec L v h = Done r' h /\
      forall j, Rep r' h (bf_from_vec {| init_cap := L_init_cap L; junk := j |} bs spare) own;
  br_into_vec : forall r h b own, Rep r h b own ->
    meets al (L_into_vec L al r h) (fun v h' => exists spare own', vec_is v h' (bf_into_vec b) spare own' /\ frame own own' h h');
  br_drop : forall r h b own, Rep r h b own ->
    exists h', L_drop L r h = Done tt h' /\ frame own None h h'
}.
