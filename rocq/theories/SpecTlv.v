(** What a program using Der, Ber and vectors must see, as a machine over identifiers and
    contents, and the same program run on a buffer layout in raw memory. *)
From Verif Require Import Base ModelTag ModelBuf ModelTlv ModelHeap ModelTlvRaw Spec SpecBuf.

(** What a variable holds. *)
Inductive tvar :=
| TEmpty
| TDer (id c : list N)
| TBer (indefinite : bool) (id c : list N)
| TVec (bs : list N).
(** Its octets. *)
Definition encodes (t : tvar) (bs : list N) : Prop :=
  match t with
  | TEmpty => False
  | TDer id c | TBer false id c => der_tlv id c bs /\ bytes_ok c
  | TBer true id c => bs = id ++ 0x80 :: c /\ is_identifier id /\ bytes_ok c
  | TVec v => bs = v /\ bytes_ok v
  end.
(** It can exist: it consists of octets and fits in memory. *)
Definition possible (t : tvar) : Prop := exists bs, encodes t bs /\ nlen bs <= isize_max.
Definition on_contents (g : list N -> list N) (t : tvar) : tvar :=
  match t with TDer id c => TDer id (g c) | TBer i id c => TBer i id (g c) | _ => t end.
(** The static type of a TLV variable. *)
Inductive tlv_ty := TyDer | TyBer.
Definition has_ty (y : tlv_ty) (t : tvar) : Prop :=
  match y, t with TyDer, TDer _ _ => True | TyBer, TBer _ _ _ => True | _, _ => False end.
Definition is_tlv (t : tvar) : Prop := match t with TDer _ _ | TBer _ _ _ => True | _ => False end.

(** One program step. *)
Inductive vop :=
| VNew (i : nat) (t : tvar)               (** var i = Der::new / Ber::new / Ber::new_indefinite *)
| VIter (i : nat) (t : tvar) (items : list (list N)) (** the same by from_id_iterator(_indefinite) *)
| VOwn (i : nat) (t : tvar) (bs : list N) (** var i = Der::from(&DerRef) / Ber::from(&BerRef); its octets are bs *)
| VExtend (y : tlv_ty) (i : nat) (bs : list N)
| VPush (y : tlv_ty) (i : nat) (v : N)
| VTruncate (y : tlv_ty) (i : nat) (n : N)
| VEdit (i : nat) (f : list N -> list N)  (** in place, through mut_contents *)
| VClone (i j : nat)                      (** var j = var i .clone() *)
| VIntoBer (i : nat)                      (** var i = Ber::from(var i) *)
| VIntoVec (i : nat) (bs : list N)        (** var i = var i .into_vec(); its octets are bs *)
| VVecNew (i : nat) (bs : list N) (spare : N) (** var i = a Vec with spare capacity *)
| VFromVec (i : nat) (t : tvar)           (** var i = unsafe { Der/Ber::from_vec_unchecked(var i) } *)
| VDrop (i : nat).

Definition vstep (o : vop) (e : env tvar) : env tvar :=
  match o with
  | VNew i t | VIter i t _ | VOwn i t _ | VFromVec i t => upd i t e
  | VExtend _ i bs => upd i (on_contents (fun c => c ++ bs) (e i)) e
  | VPush _ i v => upd i (on_contents (fun c => c ++ [v]) (e i)) e
  | VTruncate _ i n => upd i (on_contents (take n) (e i)) e
  | VEdit i f => upd i (on_contents f (e i)) e
  | VClone i j => upd j (e i) e
  | VIntoBer i => upd i (match e i with TDer id c => TBer false id c | t => t end) e
  | VIntoVec i bs | VVecNew i bs _ => upd i (TVec bs) e
  | VDrop i => upd i TEmpty e
  end.
(** The program compiles, meets the contract of the unsafe functions, its iterators yield
    the same items again when cloned, and it stays within the address space. *)
Definition legal (o : vop) (e : env tvar) : Prop :=
  match o with
  | VNew i t => e i = TEmpty /\ is_tlv t /\ possible t
  | VIter i t items =>
      e i = TEmpty /\ possible t /\ match t with TDer _ c | TBer _ _ c => c = concat items | _ => False end
  | VOwn i t bs => e i = TEmpty /\ is_tlv t /\ encodes t bs /\ nlen bs <= isize_max
  | VExtend y i _ | VPush y i _ => has_ty y (e i) /\ possible (vstep o e i)
  | VTruncate y i n => has_ty y (e i) /\ n < usize_limit
  | VEdit i f =>
      match e i with TDer _ c | TBer _ _ c => nlen (f c) = nlen c /\ bytes_ok (f c) | _ => False end
  | VClone i j => is_tlv (e i) /\ e j = TEmpty
  | VIntoBer i => has_ty TyDer (e i)
  | VIntoVec i bs => is_tlv (e i) /\ encodes (e i) bs
  | VVecNew i bs spare => e i = TEmpty /\ bytes_ok bs /\ nlen bs + spare <= isize_max
  | VFromVec i t => is_tlv t /\ match e i with TVec bs => encodes t bs | _ => False end
  | VDrop i => True
  end.
Fixpoint vsteps (os : list vop) (e : env tvar) : env tvar :=
  match os with [] => e | o :: os' => vsteps os' (vstep o e) end.
Fixpoint all_legal (os : list vop) (e : env tvar) : Prop :=
  match os with [] => True | o :: os' => legal o e /\ all_legal os' (vstep o e) end.
Definition tempty : env tvar := fun _ => TEmpty.

(** ** the same program on a layout *)
(** A use of a variable of another kind would not compile; it counts as undefined. *)
Definition vraw (L : layout) (al : allocator) (o : vop) (v : env (var (L_raw L))) : M (env (var (L_raw L))) :=
  let put i (m : M (L_raw L)) := (r <-- m ; mret (upd i (VBuf r) v)) in
  let on_buf i (f : L_raw L -> M (L_raw L)) := match v i with VBuf r => put i (f r) | _ => mub end in
  match o with
  | VNew i (TDer id c) | VNew i (TBer false id c) => put i (raw_new L al id c)
  | VNew i (TBer true id c) => put i (raw_new_indefinite L al id c)
  | VNew _ _ => mub
  | VIter i (TDer id _) items | VIter i (TBer false id _) items => put i (raw_Der_from_id_iterator L al id items items)
  | VIter i (TBer true id _) items => put i (raw_Ber_from_id_iterator_indefinite L al id items items)
  | VIter _ _ _ => mub
  | VOwn i _ bs => put i (L_from_slice L al bs)
  | VExtend TyDer i bs => on_buf i (raw_Der_extend L al bs)
  | VExtend TyBer i bs => on_buf i (raw_Ber_extend L al bs)
  | VPush TyDer i b => on_buf i (raw_Der_extend L al [b])
  | VPush TyBer i b => on_buf i (raw_Ber_extend L al [b])
  | VTruncate TyDer i n => on_buf i (raw_Der_truncate L n)
  | VTruncate TyBer i n => on_buf i (raw_Ber_truncate L n)
  | VEdit i f => on_buf i (raw_edit L f)
  | VClone i j => match v i with VBuf r => put j (L_clone L al r) | _ => mub end
  | VIntoBer i => on_buf i (fun r => mret r)
  | VIntoVec i _ => match v i with VBuf r => (x <-- L_into_vec L al r ; mret (upd i (VVec x) v)) | _ => mub end
  | VVecNew i bs spare => (x <-- vec_make al bs spare ; mret (upd i (VVec x) v))
  | VFromVec i _ => match v i with VVec x => put i (L_from_vec L x) | _ => mub end
  | VDrop i =>
      match v i with
      | VBuf r => (_ <-- L_drop L r ; mret (upd i VEmpty v))
      | VVec x => (_ <-- vec_drop x ; mret (upd i VEmpty v))
      | VEmpty => mret (upd i VEmpty v)
      end
  end.
Fixpoint vraws (L : layout) (al : allocator) (os : list vop) (v : env (var (L_raw L))) : M (env (var (L_raw L))) :=
  match os with [] => mret v | o :: os' => (v' <-- vraw L al o v ; vraws L al os' v') end.

(** The variable shows the octets of what it should hold. *)
Definition tshows (L : layout) (h : heap) (x : var (L_raw L)) (t : tvar) : Prop :=
  match x, t with
  | VEmpty, TEmpty => True
  | VBuf r, TDer _ _ | VBuf r, TBer _ _ _ => exists bs, encodes t bs /\ L_slice L r h = Done bs h /\ L_len L r = nlen bs
  | VVec x, TVec bs => vec_slice x h = Done bs h /\ v_len x = nlen bs
  | _, _ => False
  end.
