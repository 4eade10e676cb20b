(** References and pointers of the unsafe code, and the two proposed aliasing models of Rust: Stacked Borrows
    (Jung et al., POPL 2020) and Tree Borrows (Villani et al., PLDI 2025).  The functions that make raw
    pointers are transcribed as the reborrows and accesses they perform; what they read and write is in the other models. *)
From Verif Require Import Base.

(** ** Reborrows and accesses *)

(** [&mut], [&], a [&mut] cast to [*mut], a [&] cast to [*const]. *)
Inductive kind := KMut | KShr | KRawMut | KRawConst.
(** On [n] octets from [lo] of the object [obj]; number 0 is the name of the object itself (a local variable, or the
    pointer from the allocator), other numbers are those of references and pointers made meanwhile. *)
Inductive event :=
| Retag (k : kind) (obj : N) (parent child : nat) (lo n : N)
| Read (obj : N) (t : nat) (lo n : N)
| Write (obj : N) (t : nat) (lo n : N)
(** A function that has the reference as an argument begins, and returns. *)
| Enter (t : nat)
| Leave (t : nat).
(** A reference or pointer: to which object, by which number, from which octet. *)
Record ptr := { p_obj : N; p_tag : nat; p_off : N }.
Definition owner (obj : N) : ptr := {| p_obj := obj; p_tag := 0; p_off := 0 |}.
(** [ptr.add(n)] *)
Definition p_add (p : ptr) (n : N) : ptr := {| p_obj := p_obj p; p_tag := p_tag p; p_off := p_off p + n |}.

(** What a function does: the number of the next reference in, its result, the next number and the events out. *)
Definition tr (A : Type) := nat -> A * nat * list event.
Definition tret {A} (a : A) : tr A := fun k => (a, k, []).
Definition tbind {A B} (m : tr A) (f : A -> tr B) : tr B := fun k =>
  let '(a, k1, e1) := m k in let '(b, k2, e2) := f a k1 in (b, k2, e1 ++ e2).
Notation "x <~ m ;; k" := (tbind m (fun x => k)) (at level 61, m at next level, right associativity).
Notation "m ;; k" := (tbind m (fun _ => k)) (at level 61, right associativity).
Definition retag (kd : kind) (p : ptr) (n : N) : tr ptr := fun k =>
  ({| p_obj := p_obj p; p_tag := k; p_off := p_off p |}, S k, [Retag kd (p_obj p) (p_tag p) k (p_off p) n]).
Definition rd (p : ptr) (n : N) : tr unit := fun k => (tt, k, [Read (p_obj p) (p_tag p) (p_off p) n]).
Definition wr (p : ptr) (n : N) : tr unit := fun k => (tt, k, [Write (p_obj p) (p_tag p) (p_off p) n]).

(** A function with a reference as its argument: what it does with it, until it returns. *)
Definition in_call {B} (m : tr ptr) (f : ptr -> tr B) : tr B := fun k =>
  let '(p, k1, e1) := m k in let '(b, k2, e2) := f p k1 in (b, k2, e1 ++ Enter (p_tag p) :: e2 ++ [Leave (p_tag p)]).
Notation "x <@ m ;; k" := (in_call m (fun x => k)) (at level 61, m at next level, right associativity).

(** ** Stacked Borrows: a stack of items for each octet *)
Inductive perm := Unique | SharedRW | SharedRO | Disabled.
(** The call during which a reference was made, and its number there; number 0 is the object's. *)
Definition tag := (N * nat)%type.
Definition stamp (call : N) (j : nat) : tag := (match j with O => 0 | _ => call end, j).
Definition tag_eqb (a b : tag) : bool := Nat.eqb (snd a) (snd b) && (fst a =? fst b).
Definition item := (tag * perm)%type.
(** Reading: the topmost item of the tag that is not disabled; the [Unique] items above it become disabled. *)
Fixpoint sb_read (t : tag) (s : list item) : option (list item) :=
  match s with
  | [] => None
  | (x, p) :: s' =>
      if tag_eqb x t && match p with Disabled => false | _ => true end then Some s
      else match sb_read t s' with
           | Some r => Some ((x, match p with Unique => Disabled | _ => p end) :: r)
           | None => None
           end
  end.
(** Writing: the topmost item of the tag that may write; the items above it are removed, but for
    [SharedRW] ones right above a [SharedRW] one. *)
Fixpoint sb_write_ (t : tag) (s : list item) : option (bool * list item) :=
  match s with
  | [] => None
  | (x, p) :: s' =>
      if tag_eqb x t && match p with Unique | SharedRW => true | _ => false end
      then Some (match p with SharedRW => true | _ => false end, s)
      else match sb_write_ t s' with
           | Some (adjacent, r) =>
               if adjacent && match p with SharedRW => true | _ => false end then Some (true, (x, p) :: r) else Some (false, r)
           | None => None
           end
  end.
Definition sb_write (t : tag) (s : list item) : option (list item) :=
  match sb_write_ t s with Some (_, r) => Some r | None => None end.
(** A [*mut] made from a reference that may write: right above it, without an access. *)
Fixpoint sb_raw (t new : tag) (s : list item) : option (list item) :=
  match s with
  | [] => None
  | (x, p) :: s' =>
      if tag_eqb x t && match p with Unique | SharedRW => true | _ => false end then Some ((new, SharedRW) :: s)
      else match sb_raw t new s' with Some r => Some ((x, p) :: r) | None => None end
  end.
Definition sb_retag (k : kind) (t new : tag) (s : list item) : option (list item) :=
  match k with
  | KMut => match sb_write t s with Some r => Some ((new, Unique) :: r) | None => None end
  | KShr | KRawConst => match sb_read t s with Some r => Some ((new, SharedRO) :: r) | None => None end
  | KRawMut => sb_raw t new s
  end.

(** ** Tree Borrows: a tree of references for each octet *)

(** [Alias]: a raw pointer, which is the same as the reference it was made from. *)
Inductive state := Reserved | Active | Frozen | Dead | Alias.
(** A reference, the one it was made from, and its state; the newest first. *)
Definition node := (tag * tag * state)%type.
(** What an access through the reference or one made from it does to its state. *)
Definition tb_local (w : bool) (s : state) : option state :=
  match s with
  | Alias => Some Alias
  | Dead => None
  | Frozen => if w then None else Some Frozen
  | Active => Some Active
  | Reserved => Some (if w then Active else Reserved)
  end.
(** What any other access does to it. *)
Definition tb_foreign (w : bool) (s : state) : state :=
  match s with
  | Alias => Alias
  | Dead => Dead
  | Frozen => if w then Dead else Frozen
  | Active => if w then Dead else Frozen
  | Reserved => if w then Dead else Reserved
  end.
Fixpoint tb_access (w : bool) (t : tag) (nodes : list node) : option (list node) :=
  match nodes with
  | [] => Some []
  | (x, par, s) :: rest =>
      if tag_eqb x t then
        match tb_local w s, tb_access w par rest with
        | Some s', Some r => Some ((x, par, s') :: r)
        | _, _ => None
        end
      else match tb_access w t rest with Some r => Some ((x, par, tb_foreign w s) :: r) | None => None end
  end.
(** A reference is made for the whole object; the octets it is made for are read. *)
Definition tb_retag (inside : bool) (k : kind) (t new : tag) (nodes : list node) : option (list node) :=
  match k with
  | KRawMut | KRawConst => Some ((new, t, Alias) :: nodes)
  | KMut | KShr =>
      match (if inside then tb_access false t nodes else Some nodes) with
      | Some r => Some ((new, t, match k with KMut => Reserved | _ => Frozen end) :: r)
      | None => None
      end
  end.

(** ** Running the events of a call on one octet *)
Definition inside (lo n o : N) : bool := (lo <=? o) && (o <? lo + n).
Definition sb_step (call obj o : N) (e : event) (s : list item) : option (list item) :=
  match e with
  | Retag k ob t new lo n => if (ob =? obj) && inside lo n o then sb_retag k (stamp call t) (stamp call new) s else Some s
  | Read ob t lo n => if (ob =? obj) && inside lo n o then sb_read (stamp call t) s else Some s
  | Write ob t lo n => if (ob =? obj) && inside lo n o then sb_write (stamp call t) s else Some s
  | Enter _ | Leave _ => Some s
  end.
Definition tb_step (call obj o : N) (e : event) (s : list node) : option (list node) :=
  match e with
  | Retag k ob t new lo n => if ob =? obj then tb_retag (inside lo n o) k (stamp call t) (stamp call new) s else Some s
  | Read ob t lo n => if (ob =? obj) && inside lo n o then tb_access false (stamp call t) s else Some s
  | Write ob t lo n => if (ob =? obj) && inside lo n o then tb_access true (stamp call t) s else Some s
  | Enter _ | Leave _ => Some s
  end.
Fixpoint sb_run (call obj o : N) (es : list event) (s : list item) : option (list item) :=
  match es with [] => Some s | e :: es' => match sb_step call obj o e s with Some s' => sb_run call obj o es' s' | None => None end end.
Fixpoint tb_run (call obj o : N) (es : list event) (s : list node) : option (list node) :=
  match es with [] => Some s | e :: es' => match tb_step call obj o e s with Some s' => tb_run call obj o es' s' | None => None end end.
(** An object before its first use. *)
Definition sb_new : list item := [(stamp 0 0, Unique)].
Definition tb_new : list node := [(stamp 0 0, stamp 0 0, Active)].

(** ** Protectors: the references that functions have as arguments, until the functions return *)
Definition guarded (call : N) (act : list nat) (t : tag) : bool := existsb (fun j => tag_eqb t (stamp call j)) act.
Definition perm_eqb (a b : perm) : bool :=
  match a, b with Unique, Unique | SharedRW, SharedRW | SharedRO, SharedRO | Disabled, Disabled => true | _, _ => false end.
Definition item_eqb (a b : item) : bool := tag_eqb (fst a) (fst b) && perm_eqb (snd a) (snd b).
(** Stacked Borrows: the item of a protected reference is neither removed nor disabled. *)
Definition sb_kept (call : N) (act : list nat) (s s' : list item) : bool :=
  forallb (fun x => negb (guarded call act (fst x) && negb (perm_eqb (snd x) Disabled)) || existsb (item_eqb x) s') s.
(** Tree Borrows: what any other access does to the state of a protected reference.  A write that ends it is not allowed, nor a read
    when it was written through; after a read it is not written through any more. *)
Definition tb_guard (w : bool) (s : state) : option state :=
  match s with
  | Alias => Some Alias
  | Dead => Some Dead
  | Frozen => if w then None else Some Frozen
  | Active => None
  | Reserved => if w then None else Some Frozen
  end.
Fixpoint tb_guard_access (g : tag -> bool) (w : bool) (t : tag) (nodes : list node) : option (list node) :=
  match nodes with
  | [] => Some []
  | (x, par, s) :: rest =>
      if tag_eqb x t then
        match tb_local w s, tb_guard_access g w par rest with
        | Some s', Some r => Some ((x, par, s') :: r)
        | _, _ => None
        end
      else
        match (if g x then tb_guard w s else Some (tb_foreign w s)), tb_guard_access g w t rest with
        | Some s', Some r => Some ((x, par, s') :: r)
        | _, _ => None
        end
  end.
Definition tb_guard_retag (g : tag -> bool) (inside : bool) (k : kind) (t new : tag) (nodes : list node) : option (list node) :=
  match k with
  | KRawMut | KRawConst => Some ((new, t, Alias) :: nodes)
  | KMut | KShr =>
      match (if inside then tb_guard_access g false t nodes else Some nodes) with
      | Some r => Some ((new, t, match k with KMut => Reserved | _ => Frozen end) :: r)
      | None => None
      end
  end.
Definition tb_guard_step (g : tag -> bool) (call obj o : N) (e : event) (s : list node) : option (list node) :=
  match e with
  | Retag k ob t new lo n => if ob =? obj then tb_guard_retag g (inside lo n o) k (stamp call t) (stamp call new) s else Some s
  | Read ob t lo n => if (ob =? obj) && inside lo n o then tb_guard_access g false (stamp call t) s else Some s
  | Write ob t lo n => if (ob =? obj) && inside lo n o then tb_guard_access g true (stamp call t) s else Some s
  | Enter _ | Leave _ => Some s
  end.
(** [act]: the numbers of the references that are arguments of functions that have not returned. *)
Definition act_step (e : event) (act : list nat) : list nat :=
  match e with Enter t => t :: act | Leave t => remove Nat.eq_dec t act | _ => act end.
Fixpoint sb_guard_run (call obj o : N) (es : list event) (act : list nat) (s : list item) : option (list item) :=
  match es with
  | [] => Some s
  | e :: es' =>
      match sb_step call obj o e s with
      | Some s' => if sb_kept call act s s' then sb_guard_run call obj o es' (act_step e act) s' else None
      | None => None
      end
  end.
Fixpoint tb_guard_run (call obj o : N) (es : list event) (act : list nat) (s : list node) : option (list node) :=
  match es with
  | [] => Some s
  | e :: es' =>
      match tb_guard_step (guarded call act) call obj o e s with
      | Some s' => tb_guard_run call obj o es' (act_step e act) s'
      | None => None
      end
  end.

(** ** Buffers *)

(** Where the octets of a buffer are: in the structure or in a block, of which number. *)
Record view := { v_inline : bool; v_len : N; v_cap : N; v_block : N; v_next : N }.
Definition set_v_len (n : N) (v : view) : view :=
  {| v_inline := v_inline v; v_len := n; v_cap := v_cap v; v_block := v_block v; v_next := v_next v |}.
(** A reference argument is reborrowed for the call. *)
Definition call_mut (p : ptr) (n : N) : tr ptr := retag KMut p n.
Definition call_shr (p : ptr) (n : N) : tr ptr := retag KShr p n.
(** The octets of the structure: 24 in both layouts; the last eight are len_. *)
Definition SIZE : N := 24.

(** What differs between the layouts.  [s] is the reference that the caller has. *)
Record borrows := {
  A_init : N;
  A_len : ptr -> view -> tr unit;
  A_capacity : ptr -> view -> tr unit;
  A_as_ptr : ptr -> view -> tr ptr;
  A_as_mut_ptr : ptr -> view -> tr ptr;
  A_set_len : N -> ptr -> view -> tr view;
  A_reserve : N -> ptr -> view -> tr view;
  A_drop : ptr -> view -> tr unit;
  A_into_raw : ptr -> view -> tr ptr }.

(** *** buffer/little_endian/mod.rs *)

(** 183-185 *)
Definition ale_is_stack (s : ptr) : tr unit := t <@ call_shr s SIZE ;; rd (p_add t 16) 8.
(** 109-115 *)
Definition ale_len (s : ptr) (v : view) : tr unit := t <@ call_shr s SIZE ;; ale_is_stack t ;; rd (p_add t 16) 8.
(** 117-123 *)
Definition ale_capacity (s : ptr) (v : view) : tr unit :=
  t <@ call_shr s SIZE ;; ale_is_stack t ;; if v_inline v then tret tt else rd (p_add t 8) 8.
(** 169-176 *)
Definition ale_as_ptr (s : ptr) (v : view) : tr ptr :=
  t <@ call_shr s SIZE ;; ale_is_stack t ;;
  if v_inline v then retag KRawConst t SIZE else (rd t 8 ;; tret (owner (v_block v))).
(** 178-181: through [as_ptr], which takes [&self] *)
Definition ale_as_mut_ptr (s : ptr) (v : view) : tr ptr := t <@ call_mut s SIZE ;; ale_as_ptr t v.
(** 159-167 *)
Definition ale_set_len (len : N) (s : ptr) (v : view) : tr view :=
  t <@ call_mut s SIZE ;; ale_is_stack t ;;
  (if v_inline v then rd (p_add t 16) 8 ;; wr (p_add t 16) 8 ;; rd (p_add t 16) 8 ;; wr (p_add t 16) 8 else wr (p_add t 16) 8) ;;
  tret (set_v_len len v).
(** 125-157 *)
Definition ale_reserve (additional : N) (s : ptr) (v : view) : tr view :=
  t <@ call_mut s SIZE ;; ale_len t v ;; ale_capacity t v ;;
  if v_len v + additional <=? v_cap v then tret v
  else
    let v' := {| v_inline := false; v_len := v_len v; v_cap := v_len v + additional; v_block := v_next v; v_next := v_next v + 1 |} in
    ale_is_stack t ;;
    (if v_inline v then
       p <~ ale_as_ptr t v ;; ale_len t v ;; rd p (v_len v) ;; wr (owner (v_next v)) (v_len v) ;;
       wr t 8 ;; wr (p_add t 8) 8 ;; ale_len t v' ;; wr (p_add t 16) 8
     else
       ale_capacity t v ;; rd t 8 ;; wr (owner (v_block v)) (v_cap v) ;; wr (owner (v_next v)) (v_cap v) ;;
       wr t 8 ;; wr (p_add t 8) 8) ;;
    tret v'.
(** 37-48 *)
Definition ale_drop (s : ptr) (v : view) : tr unit :=
  t <@ call_mut s SIZE ;; ale_is_stack t ;;
  if v_inline v then tret tt else (rd (p_add t 8) 8 ;; rd t 8 ;; wr (owner (v_block v)) (v_cap v)).
(** 199-203: of a buffer with a block, [self] is the local variable *)
Definition ale_into_raw (s : ptr) (v : view) : tr ptr := rd s 8 ;; ale_len s v ;; rd (p_add s 8) 8 ;; tret (owner (v_block v)).
Definition ALE : borrows := {| A_init := 23; A_len := ale_len; A_capacity := ale_capacity; A_as_ptr := ale_as_ptr;
  A_as_mut_ptr := ale_as_mut_ptr; A_set_len := ale_set_len; A_reserve := ale_reserve; A_drop := ale_drop; A_into_raw := ale_into_raw |}.

(** *** buffer/universal_endian/mod.rs: the union is put first, 16 octets *)

(** 277-279 *)
Definition aue_is_stack (s : ptr) : tr unit := t <@ call_shr s SIZE ;; rd (p_add t 16) 8.
(** 219-221 *)
Definition aue_len (s : ptr) (v : view) : tr unit := t <@ call_shr s SIZE ;; rd (p_add t 16) 8.
(** 223-229, 60-62 *)
Definition aue_capacity (s : ptr) (v : view) : tr unit :=
  t <@ call_shr s SIZE ;; aue_is_stack t ;; if v_inline v then tret tt else (h <@ call_shr t 16 ;; rd (p_add h 8) 8).
(** 231-239, 78-80, 102-104 (and the slice of the array) *)
Definition aue_as_ptr (s : ptr) (v : view) : tr ptr :=
  t <@ call_shr s SIZE ;; aue_is_stack t ;;
  if v_inline v then (u <@ call_shr t 16 ;; a <@ call_shr u 16 ;; retag KRawConst a 16)
  else (h <@ call_shr t 16 ;; rd h 8 ;; tret (owner (v_block v))).
(** 267-275, 82-84, 106-108 *)
Definition aue_as_mut_ptr (s : ptr) (v : view) : tr ptr :=
  t <@ call_mut s SIZE ;; aue_is_stack t ;;
  if v_inline v then (u <@ call_mut t 16 ;; a <@ call_mut u 16 ;; retag KRawMut a 16)
  else (h <@ call_mut t 16 ;; rd h 8 ;; tret (owner (v_block v))).
(** 261-265 *)
Definition aue_set_len (len : N) (s : ptr) (v : view) : tr view :=
  t <@ call_mut s SIZE ;; aue_capacity t v ;;
  rd (p_add t 16) 8 ;; wr (p_add t 16) 8 ;; rd (p_add t 16) 8 ;; wr (p_add t 16) 8 ;; tret (set_v_len len v).
(** 241-259, 64-76 *)
Definition aue_reserve (additional : N) (s : ptr) (v : view) : tr view :=
  t <@ call_mut s SIZE ;; aue_len t v ;; aue_capacity t v ;;
  if v_len v + additional <=? v_cap v then tret v
  else
    let v' := {| v_inline := false; v_len := v_len v; v_cap := v_len v + additional; v_block := v_next v; v_next := v_next v + 1 |} in
    aue_is_stack t ;;
    (if v_inline v then
       p <~ aue_as_ptr t v ;; aue_len t v ;; rd p (v_len v) ;; wr (owner (v_next v)) (v_len v) ;;
       wr t 16 ;; rd (p_add t 16) 8 ;; wr (p_add t 16) 8
     else
       h <@ call_mut t 16 ;; (c <@ call_shr h 16 ;; rd (p_add c 8) 8) ;;
       rd h 8 ;; wr (owner (v_block v)) (v_cap v) ;; wr (owner (v_next v)) (v_cap v) ;; wr h 8 ;; wr (p_add h 8) 8) ;;
    tret v'.
(** 136-148, 27-33 *)
Definition aue_drop (s : ptr) (v : view) : tr unit :=
  t <@ call_mut s SIZE ;; aue_is_stack t ;; h <@ call_mut t 16 ;;
  if v_inline v then tret tt else (g <@ call_mut h 16 ;; rd (p_add g 8) 8 ;; rd g 8 ;; wr (owner (v_block v)) (v_cap v)).
(** 285-289 *)
Definition aue_into_raw (s : ptr) (v : view) : tr ptr := p <~ aue_as_mut_ptr s v ;; aue_len s v ;; aue_capacity s v ;; tret p.
Definition AUE : borrows := {| A_init := 16; A_len := aue_len; A_capacity := aue_capacity; A_as_ptr := aue_as_ptr;
  A_as_mut_ptr := aue_as_mut_ptr; A_set_len := aue_set_len; A_reserve := aue_reserve; A_drop := aue_drop; A_into_raw := aue_into_raw |}.

(** *** What both layouts write alike *)
Section Functions.
  Context (A : borrows).

  (** little_endian 187-189, universal_endian 293-295 *)
  Definition b_as_slice (s : ptr) (v : view) : tr ptr :=
    t <@ call_shr s SIZE ;; p <~ A_as_ptr A t v ;; A_len A t v ;; retag KShr p (v_len v).
  (** 191-193, 297-299 *)
  Definition b_as_mut_slice (s : ptr) (v : view) : tr ptr :=
    t <@ call_mut s SIZE ;; p <~ A_as_mut_ptr A t v ;; A_len A t v ;; retag KMut p (v_len v).
  (** 92-98, 202-208 *)
  Definition b_push (s : ptr) (v : view) : tr view :=
    t <@ call_mut s SIZE ;; A_len A t v ;; A_capacity A t v ;;
    v1 <~ A_set_len A (v_len v + 1) t v ;;
    sl <~ b_as_mut_slice t v1 ;; wr (p_add sl (v_len v)) 1 ;; tret v1.
  (** 103-107, 213-217; [n] octets from [src] *)
  Definition b_extend (src : ptr) (n : N) (s : ptr) (v : view) : tr view :=
    t <@ call_mut s SIZE ;; p <~ A_as_mut_ptr A t v ;; A_len A t v ;;
    rd src n ;; wr (p_add p (v_len v)) n ;;
    A_len A t v ;; A_set_len A (v_len v + n) t v.
  (** Buffer::with_capacity (67-71, 168-179): a new structure; a block is taken if there is not enough room
      inside.  The new structure is moved out, so what happened to it before does not matter. *)
  Definition b_fresh (cap next : N) : view :=
    {| v_inline := cap <=? A_init A; v_len := 0; v_cap := if cap <=? A_init A then A_init A else cap; v_block := next; v_next := next + 1 |}.
  (** 50-56, 150-156: into the new structure [v_next v] *)
  Definition b_clone (s : ptr) (v : view) : tr view :=
    t <@ call_shr s SIZE ;; A_len A t v ;;
    let w := b_fresh (v_len v) (v_next v + 1) in
    sl <~ b_as_slice t v ;; b_extend sl (v_len v) (owner (v_next v)) w ;;
    tret {| v_inline := v_inline v; v_len := v_len v; v_cap := v_cap v; v_block := v_block v; v_next := v_next w |}.

  (** 195-206, 281-291 *)
  Definition b_into_vec (v : view) : tr unit :=
    if v_inline v then (sl <~ b_as_slice (owner 0) v ;; rd sl (v_len v) ;; A_drop A (owner 0) v)
    else (p <~ A_into_raw A (owner 0) v ;; rd p (v_len v) ;; wr p (v_cap v)).

  (** *** buffer/mod.rs:79-121: the wrapper reborrows its only field *)
  Definition m_len (s : ptr) (v : view) : tr unit := t <@ call_shr s SIZE ;; A_len A t v.
  Definition m_as_ptr (s : ptr) (v : view) : tr ptr := t <@ call_shr s SIZE ;; A_as_ptr A t v.
  Definition m_as_mut_ptr (s : ptr) (v : view) : tr ptr := t <@ call_mut s SIZE ;; A_as_mut_ptr A t v.
  Definition m_as_slice (s : ptr) (v : view) : tr ptr := t <@ call_shr s SIZE ;; b_as_slice t v.
  Definition m_as_mut_slice (s : ptr) (v : view) : tr ptr := t <@ call_mut s SIZE ;; b_as_mut_slice t v.
  Definition m_set_len (n : N) (s : ptr) (v : view) : tr view :=
    t <@ call_mut s SIZE ;; (c <@ call_shr t SIZE ;; A_capacity A c v) ;; A_set_len A n t v.
  Definition m_reserve (n : N) (s : ptr) (v : view) : tr view := t <@ call_mut s SIZE ;; A_reserve A n t v.
  Definition m_push (s : ptr) (v : view) : tr view := t <@ call_mut s SIZE ;; b_push t v.
  Definition m_extend (src : ptr) (n : N) (s : ptr) (v : view) : tr view := t <@ call_mut s SIZE ;; b_extend src n t v.

  (** *** contents.rs *)

  (** 54-86, from_positive: a value of [size] octets with [z] leading zero octets; [high]: the next octet has its
      high bit set.  The array [vals] is the object 1. *)
  Definition sb_from_positive (size z : N) (high : bool) : tr view :=
    r <~ retag KShr (p_add (owner 1) size) size ;; src0 <~ retag KRawConst r size ;;
    rd src0 (z + 1) ;;
    let len := if high then size - z + 1 else size - z in
    let src := {| p_obj := 1; p_tag := p_tag src0; p_off := if high then size + z - 1 else size + z |} in
    let v := b_fresh len 3 in
    dst <~ m_as_mut_ptr (owner 2) v ;;
    v1 <~ m_set_len len (owner 2) v ;;
    rd src len ;; wr dst len ;; tret v1.
  (** 88-121, from_negative: [z] leading octets 0xff that are skipped; [low]: the next octet has its high bit clear. *)
  Definition sb_from_negative (size z : N) (low : bool) : tr view :=
    r <~ retag KShr (owner 1) size ;; src0 <~ retag KRawConst r size ;;
    rd src0 (z + 1) ;;
    let len := if low then size - z + 1 else size - z in
    let src := {| p_obj := 1; p_tag := p_tag src0; p_off := if low then z - 1 else z |} in
    let v := b_fresh len 3 in
    dst <~ m_as_mut_ptr (owner 2) v ;;
    v1 <~ m_set_len len (owner 2) v ;;
    rd src len ;; wr dst len ;; tret v1.

  (** *** der.rs *)

  (** [self.id()], [self.length()], [self.contents()]: Deref (der.rs:642-644) and disassemble (der_ref.rs:353-361) *)
  Definition d_look (s : ptr) (v : view) : tr unit :=
    t <@ call_shr s SIZE ;; sl <~ m_as_slice t v ;; rd sl (v_len v).
  (** der.rs:102-119: a new value of [id] identifier octets, [l] length octets and [n] octets more; octets from the object 1 *)
  Definition d_with_id_length (id l n : N) (next : N) : tr view :=
    let v := b_fresh (id + l + n) (next + 1) in
    dst <~ m_as_mut_ptr (owner next) v ;;
    rd (owner 1) id ;; wr dst id ;; rd (owner 1) l ;; wr (p_add dst id) l ;;
    m_set_len (id + l + n) (owner next) v.
  (** der.rs:375-431 *)
  Definition d_extend (id old_l new_l count n : N) (s : ptr) (v : view) : tr view :=
    t <@ call_mut s SIZE ;; d_look t v ;; d_look t v ;;
    let offset := n + new_l - old_l in
    v1 <~ m_reserve offset t v ;;
    m_len t v1 ;;
    v2 <~ m_set_len (v_len v1 + offset) t v1 ;;
    dest0 <~ m_as_mut_ptr t v2 ;;
    let dest := p_add dest0 (id + new_l) in
    src0 <~ m_as_ptr t v2 ;;
    let src := p_add src0 (id + old_l) in
    (if old_l =? new_l then tret tt else (rd src count ;; wr dest count)) ;;
    rd (owner 1) n ;; wr (p_add dest count) n ;;
    m_as_ptr t v2 ;; m_len t v2 ;;
    dest1 <~ m_as_mut_ptr t v2 ;;
    rd (owner 1) new_l ;; wr (p_add dest1 id) new_l ;;
    tret v2.
  (** der.rs:463-492 *)
  Definition d_truncate (id old_l new_l n : N) (s : ptr) (v : view) : tr view :=
    t <@ call_mut s SIZE ;; d_look t v ;; d_look t v ;;
    dest0 <~ m_as_mut_ptr t v ;;
    let dest := p_add dest0 id in
    rd (owner 1) new_l ;; wr dest new_l ;;
    (if new_l <? old_l then (rd (p_add dest old_l) n ;; wr (p_add dest new_l) n) else tret tt) ;;
    m_set_len (id + new_l + n) t v.
  (** ber.rs:601-624, indefinite length *)
  Definition d_extend_indefinite (n : N) (s : ptr) (v : view) : tr view :=
    t <@ call_mut s SIZE ;; d_look t v ;;
    v1 <~ m_reserve n t v ;;
    p <~ m_as_mut_ptr t v1 ;; m_len t v1 ;;
    rd (owner 1) n ;; wr (p_add p (v_len v1)) n ;;
    m_len t v1 ;; m_set_len (v_len v1 + n) t v1.

  (** *** Calls on one buffer, the object 0 *)
  Inductive bcall :=
  | CLen | CSlice
  | CPush | CExtend (n : N) | CReserve (n : N) | CSetLen (n : N)
  | CMutSlice (lo n : N)                      (** as_mut_slice, and a write of n octets through it *)
  | CClone
  | CDerExtend (id old_l new_l count n : N) | CDerTruncate (id old_l new_l n : N) | CBerExtend (n : N).
  Definition do_call (c : bcall) (v : view) : tr view :=
    let s := owner 0 in
    match c with
    | CLen => m_len s v ;; tret v
    | CSlice => sl <~ m_as_slice s v ;; rd sl (v_len v) ;; tret v
    | CPush => m_push s v
    | CExtend n => m_extend (owner 1) n s v
    | CReserve n => m_reserve n s v
    | CSetLen n => m_set_len n s v
    | CMutSlice lo n => sl <~ m_as_mut_slice s v ;; wr (p_add sl lo) n ;; tret v
    | CClone => t <@ call_shr s SIZE ;; b_clone t v
    | CDerExtend id old_l new_l count n => d_extend id old_l new_l count n s v
    | CDerTruncate id old_l new_l n => d_truncate id old_l new_l n s v
    | CBerExtend n => d_extend_indefinite n s v
    end.
  (** The events of a sequence of calls, which are numbered from [i], and the buffer afterwards. *)
  Fixpoint history (cs : list bcall) (v : view) (i : N) : list (N * list event) * view :=
    match cs with
    | [] => ([], v)
    | c :: cs' =>
        let '(v1, _, es) := do_call c v 1%nat in
        let '(h, v2) := history cs' v1 (i + 1) in ((i, es) :: h, v2)
    end.
  (** The end of a buffer: it is dropped, or becomes a vector that is dropped. *)
  Inductive bend := EDrop | EVec.
  Definition do_end (e : bend) (v : view) : list event :=
    match e with EDrop => snd (A_drop A (owner 0) v 1%nat) | EVec => snd (b_into_vec v 1%nat) end.
End Functions.
Fixpoint sb_runs (obj o : N) (h : list (N * list event)) (s : list item) : option (list item) :=
  match h with [] => Some s | (i, es) :: h' => match sb_run i obj o es s with Some s' => sb_runs obj o h' s' | None => None end end.
Fixpoint tb_runs (obj o : N) (h : list (N * list event)) (s : list node) : option (list node) :=
  match h with [] => Some s | (i, es) :: h' => match tb_run i obj o es s with Some s' => tb_runs obj o h' s' | None => None end end.
(** With protectors; when a call begins, none is left of earlier ones. *)
Fixpoint sb_guard_runs (obj o : N) (h : list (N * list event)) (s : list item) : option (list item) :=
  match h with [] => Some s | (i, es) :: h' => match sb_guard_run i obj o es [] s with Some s' => sb_guard_runs obj o h' s' | None => None end end.
Fixpoint tb_guard_runs (obj o : N) (h : list (N * list event)) (s : list node) : option (list node) :=
  match h with [] => Some s | (i, es) :: h' => match tb_guard_run i obj o es [] s with Some s' => tb_guard_runs obj o h' s' | None => None end end.

(** *** Mutable views: der_ref.rs, ber_ref.rs, identifier_ref.rs *)

(** der_ref.rs:149-165, ber_ref.rs:139-160, identifier_ref.rs:132-146, parse_mut: [bytes] is the caller's [&mut \[u8\]] of
    [total] octets, [used] of which are the value.  The value, and what is left in [bytes]. *)
Definition d_parse_mut (total used : N) (bytes : ptr) : tr (ptr * ptr) :=
  readable <~ retag KShr bytes total ;; rd readable used ;;
  init <~ (t <@ call_mut bytes total ;; retag KRawMut t total) ;;
  left <~ retag KMut (p_add init used) (total - used) ;;
  read <~ retag KMut init used ;;
  tret (read, left).
(** der_ref.rs:382-391, ber_ref.rs:383-392, disassemble_mut: [self] has [id] identifier octets, [l] length octets and [n] contents
    octets.  The identifier and the contents. *)
Definition d_disassemble_mut (id l n : N) (self : ptr) : tr (ptr * ptr) :=
  r <~ (t <@ call_shr self (id + l + n) ;; rd t (id + l) ;;
        i <~ retag KShr t id ;; c <~ retag KShr (p_add t (id + l)) n ;; tret (i, c)) ;;
  ip <~ retag KRawConst (fst r) id ;; cp <~ retag KRawConst (snd r) n ;;
  im <~ retag KMut ip id ;; cm <~ retag KMut cp n ;;
  tret (im, cm).

(** der.rs:59-67, 102-119, 647-651 and der_ref.rs:333-335, Der::new (and ber.rs:141-148, 234-250, Ber::new_indefinite): the new value
    is object 2, the octets come from object 1. *)
Definition d_new (A : borrows) (id l n : N) : tr view :=
  v <~ d_with_id_length A id l n 2 ;;
  sl <~ (s <@ call_mut (owner 2) SIZE ;; m_as_mut_slice A s v) ;;
  r <~ (self <@ call_mut sl (id + l + n) ;; d_disassemble_mut id l n self) ;;
  rd (owner 1) n ;; wr (snd r) n ;; tret v.
(** contents_ref.rs:144-166, to_integer_unchecked: the integer [be] of [size] octets is the object 0, the [n] octets taken are in the
    object 1. *)
Definition c_to_integer (size n : N) : tr unit :=
  p <~ (a <@ call_mut (owner 0) size ;; retag KRawMut a size) ;; wr p size ;;
  q <~ (b <@ call_mut (owner 0) size ;; retag KRawMut b size) ;;
  r <~ retag KShr (owner 1) n ;; src <~ retag KRawConst r n ;;
  rd src n ;; wr (p_add q (size - n)) n ;; rd (owner 0) size.

(** *** length.rs:95-126, Length::to_bytes, long form of [n] octets: the LengthBuffer is the object 0, nine octets and len_;
    [val] is the object 1 (length_buffer.rs:40-81) *)
Definition l_to_bytes (n : N) : tr unit :=
  (a <@ call_mut (owner 0) 10 ;; wr (p_add a 9) 1) ;;
  ib <~ (i <@ call_mut (owner 0) 10 ;; retag KMut i 9) ;; wr ib 1 ;;
  r <~ retag KShr (owner 1) 8 ;; src <~ retag KRawConst r 8 ;;
  dst <~ (b <@ call_mut (owner 0) 10 ;; bb <@ call_mut b 9 ;; retag KRawMut bb 9) ;;
  rd (p_add src (8 - n)) n ;; wr (p_add dst 1) n.
