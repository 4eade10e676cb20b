(** What it means to keep to the aliasing models, for sequences of calls on a buffer. *)
From Verif Require Import Base ModelBorrow.

(** No octet of any object is accessed in a way that the model forbids. *)
Definition stacked (h : list (N * list event)) : Prop := forall obj o, sb_runs obj o h sb_new <> None.
Definition tree (h : list (N * list event)) : Prop := forall obj o, tb_runs obj o h tb_new <> None.
Definition stacked1 (es : list event) : Prop := stacked [(1, es)].
Definition tree1 (es : list event) : Prop := tree [(1, es)].
(** Nor when the references that functions get as arguments are protected. *)
Definition stacked_args (h : list (N * list event)) : Prop := forall obj o, sb_guard_runs obj o h sb_new <> None.
Definition tree_args (h : list (N * list event)) : Prop := forall obj o, tb_guard_runs obj o h tb_new <> None.
Definition stacked_args1 (es : list event) : Prop := stacked_args [(1, es)].
Definition tree_args1 (es : list event) : Prop := tree_args [(1, es)].

(** A buffer that can exist: object 0 is its structure, object 1 the caller's octets. *)
Definition view_ok (init : N) (v : view) : Prop :=
  v_len v <= v_cap v /\ (if v_inline v then v_cap v = init else True) /\ 1 < v_block v /\ v_block v < v_next v.
(** The room that the callers of the unsafe functions have to provide; the calls of [Der] and [Ber] are made on a value of
    [id] identifier octets, [old_l] length octets and [count] contents octets. *)
Definition call_ok (c : bcall) (v : view) : Prop :=
  match c with
  | CLen | CSlice | CClone | CReserve _ | CBerExtend _ => True
  | CPush => v_len v < v_cap v
  | CExtend n => v_len v + n <= v_cap v
  | CSetLen n => n <= v_cap v
  | CMutSlice lo n => lo + n <= v_len v
  | CDerExtend id old_l new_l count n => v_len v = id + old_l + count /\ 0 < old_l <= new_l
  | CDerTruncate id old_l new_l n => id + old_l + n <= v_len v /\ 0 < new_l <= old_l
  end.
Definition view_after (c : bcall) (v v' : view) : Prop :=
  v_len v' = match c with
             | CPush => v_len v + 1
             | CExtend n | CBerExtend n => v_len v + n
             | CSetLen n => n
             | CDerExtend id old_l new_l count n => id + new_l + count + n
             | CDerTruncate id old_l new_l n => id + new_l + n
             | _ => v_len v
             end.
Section Calls.
  Context (A : borrows).
  Fixpoint calls_ok (cs : list bcall) (v : view) : Prop :=
    match cs with [] => True | c :: cs' => call_ok c v /\ calls_ok cs' (fst (fst (do_call A c v 1%nat))) end.
  (** Some call of the sequence is one that [breaks] tells of. *)
  Fixpoint some_call (breaks : bcall -> view -> bool) (cs : list bcall) (v : view) : bool :=
    match cs with [] => false | c :: cs' => breaks c v || some_call breaks cs' (fst (fst (do_call A c v 1%nat))) end.
  (** All that happens to a buffer: calls, and its end. *)
  Definition life (cs : list bcall) (e : bend) (v : view) : list (N * list event) :=
    fst (history A cs v 1) ++ [(1 + nlen cs, do_end A e (snd (history A cs v 1)))].
End Calls.
(** Little endian: the call writes an octet that is inside of the structure (its own or, for [clone], that of the copy) through a
    pointer. *)
Definition writes_inside (c : bcall) (v : view) : bool :=
  match c with
  | CLen | CSlice | CReserve _ | CSetLen _ => false
  | CPush | CDerTruncate _ _ _ _ => v_inline v
  | CExtend n | CMutSlice _ n => v_inline v && (0 <? n)
  | CClone => (0 <? v_len v) && (v_len v <=? 23)
  | CDerExtend _ old_l new_l _ n => v_inline v && (v_len v + (n + new_l - old_l) <=? v_cap v)
  | CBerExtend n => v_inline v && (0 <? n) && (v_len v + n <=? v_cap v)
  end.
(** The same for Stacked Borrows, where making a mutable slice is a write. *)
Definition claims_inside (c : bcall) (v : view) : bool :=
  match c with CMutSlice _ _ => v_inline v && (0 <? v_len v) | _ => writes_inside c v end.

(** Use of two references: through the second or the first, a write or a read, of which octets. *)
Record use := { u_second : bool; u_write : bool; u_lo : N; u_n : N }.
Definition use_of (r : ptr * ptr) (u : use) : event :=
  let p := if u_second u then snd r else fst r in
  if u_write u then Write (p_obj p) (p_tag p) (p_off p + u_lo u) (u_n u) else Read (p_obj p) (p_tag p) (p_off p + u_lo u) (u_n u).
(** The first is to [a] octets, the second to [b]. *)
Definition use_ok (a b : N) (u : use) : Prop := u_lo u + u_n u <= if u_second u then b else a.
(** A caller has a mutable slice to the object 0, gets two references and uses them. *)
Definition session (total : N) (f : ptr -> tr (ptr * ptr)) (us : list use) : list event :=
  let '(r, _, es) := tbind (retag KMut (owner 0) total) f 1%nat in es ++ map (use_of r) us.
Definition is_write (u : use) : bool := u_write u && (0 <? u_n u).

(** ** The rules of the models, as relations *)

(** Stacked Borrows.  A usable item of the tag with nothing usable of the tag above it. *)
Definition topmost (usable : perm -> Prop) (t : tag) (above : list item) (p : perm) : Prop :=
  usable p /\ Forall (fun x => ~ (fst x = t /\ usable (snd x))) above.
Definition may_read (p : perm) : Prop := p <> Disabled.
Definition may_write (p : perm) : Prop := p = Unique \/ p = SharedRW.
(** Above a read, [Unique] items become disabled, others stay. *)
Definition disabled (x y : item) : Prop := fst y = fst x /\ (snd x = Unique -> snd y = Disabled) /\ (snd x <> Unique -> snd y = snd x).
Definition reads (t : tag) (s s' : list item) : Prop :=
  exists above p below above', s = above ++ (t, p) :: below /\ topmost may_read t above p /\ Forall2 disabled above above' /\ s' = above' ++ (t, p) :: below.
(** Above a write, all items go, but for the [SharedRW] ones next to the item written through if it is [SharedRW] too. *)
Definition writes (t : tag) (s s' : list item) : Prop :=
  exists gone stay p below, s = gone ++ stay ++ (t, p) :: below /\ topmost may_write t (gone ++ stay) p /\
    Forall (fun x => snd x = SharedRW) stay /\ (p = Unique -> stay = []) /\
    (p = SharedRW -> forall a x, gone = a ++ [x] -> snd x <> SharedRW) /\ s' = stay ++ (t, p) :: below.

(** A new item of a [*mut] is put right above that of the reference. *)
Definition puts (t new : tag) (s s' : list item) : Prop :=
  exists above p below, s = above ++ (t, p) :: below /\ topmost may_write t above p /\ s' = above ++ (new, SharedRW) :: (t, p) :: below.

(** Tree Borrows.  A read and a write through a reference or one made from it; there is no step for what is not allowed. *)
Inductive own : bool -> state -> state -> Prop :=
| own_alias w : own w Alias Alias
| own_active w : own w Active Active
| own_frozen : own false Frozen Frozen
| own_reserved : own false Reserved Reserved
| own_first : own true Reserved Active.
(** A read and a write through another one. *)
Inductive other : bool -> state -> state -> Prop :=
| other_alias w : other w Alias Alias
| other_dead w : other w Dead Dead
| other_read_active : other false Active Frozen
| other_read_frozen : other false Frozen Frozen
| other_read_reserved : other false Reserved Reserved
| other_write s : s <> Alias -> other true s Dead.
(** [x] is [t] or a reference that [t] comes from. *)
Inductive comes_from (nodes : list node) : tag -> tag -> Prop :=
| from_self t : comes_from nodes t t
| from_parent t par s x : In (t, par, s) nodes -> comes_from nodes par x -> comes_from nodes t x.
(** References are older than those made from them and have different tags. *)
Fixpoint grown (nodes : list node) : Prop :=
  match nodes with
  | [] => True
  | (x, par, _) :: rest => Forall (fun n => fst (fst n) <> x /\ snd (fst n) <> x) rest /\ (par <> x \/ rest = []) /\ grown rest
  end.
Definition accessed (w : bool) (nodes : list node) (t : tag) (n n' : node) : Prop :=
  fst n' = fst n /\
  (comes_from nodes t (fst (fst n)) -> own w (snd n) (snd n')) /\
  (~ comes_from nodes t (fst (fst n)) -> other w (snd n) (snd n')).

(** ** Where the accesses are *)

(** The fields of the structure: pointer, capacity and len_ are words; the portable layout has a union of the first two and the array. *)
Definition field (portable : bool) (lo n : N) : Prop :=
  n = 8 /\ (lo = 0 \/ lo = 8 \/ lo = 16) \/ portable = true /\ lo = 0 /\ n = 16.
(** In the octets of the buffer, when they are at the object [obj]. *)
Definition octets_at (v : view) (obj : N) : Prop := if v_inline v then obj = 0 else obj = v_block v.
(** An access of a call from [v] to [v']: a field, octets of the buffer, the caller's octets (which are read only), or the copy that [clone] makes. *)
Definition access_ok (portable clones : bool) (v v' : view) (write : bool) (obj lo n : N) : Prop :=
  obj = 0 /\ field portable lo n \/
  octets_at v obj /\ lo + n <= v_cap v /\ (write = true -> v_inline v = true -> v_inline v' = true) \/
  octets_at v' obj /\ lo + n <= v_cap v' /\ v_inline v' = false \/
  write = false /\ obj = 1 \/
  clones = true /\ (obj = v_next v \/ obj = v_next v + 1).
Definition placed (portable clones : bool) (v v' : view) (e : event) : Prop :=
  match e with
  | Retag _ obj _ _ lo n =>
      obj = 0 /\ lo = 0 /\ (n = 24 \/ portable = true /\ n = 16) \/
      (octets_at v obj \/ octets_at v' obj) /\ lo = 0 /\ (n = v_len v \/ n = v_len v') \/
      clones = true /\ (obj = v_next v \/ obj = v_next v + 1)
  | Read obj _ lo n => access_ok portable clones v v' false obj lo n
  | Write obj _ lo n => access_ok portable clones v v' true obj lo n
  | Enter _ | Leave _ => True
  end.
Definition is_clone (c : bcall) : bool := match c with CClone => true | _ => false end.
(** The copies of an integer of [size] octets end with its last octet; the new buffer is the object 2. *)
Definition int_placed (init from size : N) (v : view) (e : event) : Prop :=
  match e with
  | Read obj _ lo n => obj = 1 -> (lo = from \/ lo + n = from + size) /\ lo + n <= from + size
  | Write obj _ lo n => obj <> 1 /\ (octets_at v 0 -> obj = 2 -> lo + n <= 24) /\ (octets_at v 3 -> obj = 3 -> lo = 0 /\ n = v_len v)
  | Retag _ _ _ _ _ _ | Enter _ | Leave _ => True
  end.
