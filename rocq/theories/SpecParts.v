(** What a program using Id, Contents and vectors must see, as a machine over identifiers
    and octets, and the same program run on a buffer layout in raw memory. *)
From Verif Require Import Base ModelTag ModelContents ModelBuf ModelHeap ModelPartsRaw Spec SpecBuf IdProofs.

(** What a variable holds: an identifier with class, flag and number, contents octets, a
    vector. *)
Inductive pvar := PEmpty | PId (cls pc num : N) | PContents (bs : list N) | PVec (bs : list N).
Definition pencodes (t : pvar) (bs : list N) : Prop :=
  match t with
  | PEmpty => False
  | PId c p n => identifier c p n bs
  | PContents v | PVec v => bs = v /\ bytes_ok v
  end.
Definition in_buffer (t : pvar) : Prop := match t with PId _ _ _ | PContents _ => True | _ => False end.

(** One program step. *)
Inductive pop :=
| PIdNew (i : nat) (c : class_tag) (p : pc_tag) (n : N)   (** var i = Id::new(c, p, n) *)
| PIdOwn (i : nat) (cls pc num : N) (bs : list N)         (** var i = Id::from(&IdRef); its octets are bs *)
| PIdSetClass (i : nat) (c : class_tag)
| PIdSetPc (i : nat) (p : pc_tag)
| PIdSetNumber (i : nat) (n : N)
| PInt (i : nat) (t : int_ty) (v : Z) (bs : list N)       (** var i = Contents::from(v); its octets are bs *)
| PBool (i : nat) (b : bool)                              (** var i = Contents::from(b) *)
| PBytes (i : nat) (bs : list N)                          (** var i = Contents::from(&bs) *)
| PEdit (i : nat) (f : list N -> list N)                  (** in place, through as_mut *)
| PVecNew (i : nat) (bs : list N) (spare : N)             (** var i = a Vec with spare capacity *)
| PFromVec (i : nat)                                      (** var i = Contents::from(var i) *)
| PClone (i j : nat)                                      (** var j = var i .clone() *)
| PDrop (i : nat).

Definition pstep (o : pop) (e : env pvar) : env pvar :=
  match o with
  | PIdNew i c p n => upd i (PId (class_num c) (pc_num p) n) e
  | PIdOwn i c p n _ => upd i (PId c p n) e
  | PIdSetClass i c => upd i (match e i with PId _ p n => PId (class_num c) p n | t => t end) e
  | PIdSetPc i p => upd i (match e i with PId c _ n => PId c (pc_num p) n | t => t end) e
  | PIdSetNumber i n => upd i (match e i with PId c p _ => PId c p n | t => t end) e
  | PInt i _ _ bs | PBytes i bs => upd i (PContents bs) e
  | PBool i b => upd i (PContents [if b then 0xff else 0x00]) e
  | PEdit i f => upd i (match e i with PContents bs => PContents (f bs) | t => t end) e
  | PVecNew i bs _ => upd i (PVec bs) e
  | PFromVec i => upd i (match e i with PVec bs => PContents bs | t => t end) e
  | PClone i j => upd j (e i) e
  | PDrop i => upd i PEmpty e
  end.
(** The program compiles, its integers are of the types it uses, the octets an operation
    names are the ones X.690 says, and it stays within the address space. *)
Definition plegal (o : pop) (e : env pvar) : Prop :=
  match o with
  | PIdNew i _ _ n => e i = PEmpty /\ n < 2 ^ 128
  | PIdOwn i c p n bs => e i = PEmpty /\ identifier c p n bs /\ nlen bs <= isize_max
  | PIdSetClass i _ | PIdSetPc i _ => match e i with PId _ _ _ => True | _ => False end
  | PIdSetNumber i n => match e i with PId _ _ _ => n < 2 ^ 128 | _ => False end
  | PInt i t v bs => e i = PEmpty /\ in_range t v /\ bytes_ok bs /\ shortest_twos bs /\ twos_value bs = v
  | PBool i _ => e i = PEmpty
  | PBytes i bs => e i = PEmpty /\ bytes_ok bs /\ nlen bs <= isize_max
  | PEdit i f => match e i with PContents bs => nlen (f bs) = nlen bs /\ bytes_ok (f bs) | _ => False end
  | PVecNew i bs spare => e i = PEmpty /\ bytes_ok bs /\ nlen bs + spare <= isize_max
  | PFromVec i => match e i with PVec _ => True | _ => False end
  | PClone i j => in_buffer (e i) /\ e j = PEmpty
  | PDrop i => True
  end.
Fixpoint psteps (os : list pop) (e : env pvar) : env pvar :=
  match os with [] => e | o :: os' => psteps os' (pstep o e) end.
Fixpoint all_plegal (os : list pop) (e : env pvar) : Prop :=
  match os with [] => True | o :: os' => plegal o e /\ all_plegal os' (pstep o e) end.
Definition pempty : env pvar := fun _ => PEmpty.

(** ** the same program on a layout *)
Definition praw (L : layout) (al : allocator) (o : pop) (v : env (var (L_raw L))) : M (env (var (L_raw L))) :=
  let put i (m : M (L_raw L)) := (r <-- m ; mret (upd i (VBuf r) v)) in
  let on_buf i (f : L_raw L -> M (L_raw L)) := match v i with VBuf r => put i (f r) | _ => mub end in
  match o with
  | PIdNew i c p n => put i (raw_Id_new L al c p n)
  | PIdOwn i _ _ _ bs | PBytes i bs => put i (L_from_slice L al bs)
  | PIdSetClass i c => on_buf i (raw_Id_set_class L c)
  | PIdSetPc i p => on_buf i (raw_Id_set_pc L p)
  | PIdSetNumber i n => on_buf i (raw_Id_set_number L al n)
  | PInt i t v0 _ => put i (raw_Contents_from_int L al t v0)
  | PBool i b => put i (raw_Contents_from_bool L al b)
  | PEdit i f => on_buf i (raw_Contents_edit L f)
  | PVecNew i bs spare => (x <-- vec_make al bs spare ; mret (upd i (VVec x) v))
  | PFromVec i => match v i with VVec x => put i (L_from_vec L x) | _ => mub end
  | PClone i j => match v i with VBuf r => put j (L_clone L al r) | _ => mub end
  | PDrop i =>
      match v i with
      | VBuf r => (_ <-- L_drop L r ; mret (upd i VEmpty v))
      | VVec x => (_ <-- vec_drop x ; mret (upd i VEmpty v))
      | VEmpty => mret (upd i VEmpty v)
      end
  end.
Fixpoint praws (L : layout) (al : allocator) (os : list pop) (v : env (var (L_raw L))) : M (env (var (L_raw L))) :=
  match os with [] => mret v | o :: os' => (v' <-- praw L al o v ; praws L al os' v') end.

(** The variable shows the octets of what it should hold. *)
Definition pshows (L : layout) (h : heap) (x : var (L_raw L)) (t : pvar) : Prop :=
  match x, t with
  | VEmpty, PEmpty => True
  | VBuf r, PId _ _ _ | VBuf r, PContents _ => exists bs, pencodes t bs /\ L_slice L r h = Done bs h /\ L_len L r = nlen bs
  | VVec x, PVec bs => vec_slice x h = Done bs h /\ v_len x = nlen bs
  | _, _ => False
  end.
