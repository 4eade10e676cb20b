From Verif Require Import Base ModelTag ModelBuf ModelHeap ModelBufLE ModelBufUE SpecBuf ModelThreads SpecThreads.
From Verif Require Import BufProofs RawProofs RawMain.

(** ** Programs are the functions of the layouts *)
Lemma exec_bind al {A B} (m : prog A) (k : A -> prog B) h :
  exec al (pbind m k) h = mbind (exec al m) (fun a => exec al (k a)) h.
Proof.
  revert h. induction m as [a|n c IH|p size c IH|p old new c IH|p off n c IH|p off src c IH| |]; intros h; cbn [pbind exec]; unfold mbind in *.
  - reflexivity.
  - destruct (alloc al n h); auto.
  - destruct (dealloc p size h); auto.
  - destruct (realloc al p old new h); auto.
  - destruct (load p off n h); auto.
  - destruct (store p off src h); auto.
  - reflexivity.
  - reflexivity.
Qed.
Definition same {A} (al : allocator) (m : prog A) (f : M A) : Prop := forall h, exec al m h = f h.
Lemma same_bind al {A B} (m : prog A) (f : M A) (k : A -> prog B) g :
  same al m f -> (forall a, same al (k a) (g a)) -> same al (pbind m k) (mbind f g).
Proof. intros Hm Hk h. rewrite exec_bind. unfold mbind. rewrite Hm. destruct (f h); auto. apply Hk. Qed.
Lemma same_ret al {A} (a : A) : same al (PRet a) (mret a).
Proof. intros h. reflexivity. Qed.
Lemma same_prim {A} (f : M A) h : mbind f (fun a => mret a) h = f h.
Proof. unfold mbind, mret. now destruct (f h). Qed.
Lemma same_alloc al n : same al (p_alloc n) (alloc al n).
Proof. intros h. apply same_prim. Qed.
Lemma same_realloc al p o n : same al (p_realloc p o n) (realloc al p o n).
Proof. intros h. apply same_prim. Qed.
Lemma same_load al p o n : same al (p_load p o n) (load p o n).
Proof. intros h. apply same_prim. Qed.
Lemma same_dealloc al p n : same al (p_dealloc p n) (dealloc p n).
Proof. intros h. cbn [exec p_dealloc]. unfold mbind, mret. destruct (dealloc p n h) as [[]| | |]; reflexivity. Qed.
Lemma same_store al p o bs : same al (p_store p o bs) (store p o bs).
Proof. intros h. cbn [exec p_store]. unfold mbind, mret. destruct (store p o bs h) as [[]| | |]; reflexivity. Qed.
Lemma same_crash al {A} : same al (@PCrash A) mcrash.
Proof. intros h. reflexivity. Qed.
Lemma same_ub al {A} : same al (@PUB A) mub.
Proof. intros h. reflexivity. Qed.
Lemma same_if al {A} (c : bool) (m m' : prog A) f f' : same al m f -> same al m' f' -> same al (if c then m else m') (if c then f else f').
Proof. now destruct c. Qed.
Ltac sames := repeat first [apply same_if | apply same_ret | apply same_crash | apply same_ub | apply same_alloc | apply same_realloc | apply same_load
  | apply same_dealloc | apply same_store | assumption | apply same_bind; [|intros ?]].

Record implements (L : layout) (P : programs (L_raw L)) (al : allocator) : Prop := {
  im_with_capacity : forall k, same al (P_with_capacity P k) (L_with_capacity L al k);
  im_from_vec : forall v, same al (P_from_vec P v) (L_from_vec L v);
  im_reserve : forall k r, same al (P_reserve P k r) (L_reserve L al k r);
  im_set_len : forall n r, same al (P_set_len P n r) (L_set_len L n r);
  im_push : forall v r, same al (P_push P v r) (L_push L v r);
  im_extend : forall bs r, same al (P_extend P bs r) (L_extend L bs r);
  im_load : forall off n r, same al (P_load P off n r) (L_load L off n r);
  im_store : forall off bs r, same al (P_store P off bs r) (L_store L off bs r);
  im_clone : forall r, same al (P_clone P r) (L_clone L al r);
  im_into_vec : forall r, same al (P_into_vec P r) (L_into_vec L al r);
  im_drop : forall r, same al (P_drop P r) (L_drop L r)
}.
Lemma same_vec_from_slice al bs : same al (p_vec_from_slice bs) (vec_from_slice al bs).
Proof. unfold p_vec_from_slice, vec_from_slice. sames. Qed.
Lemma same_vec_make al bs spare : same al (p_vec_make bs spare) (vec_make al bs spare).
Proof. unfold p_vec_make, vec_make. sames. Qed.
Lemma same_vec_drop al v : same al (p_vec_drop v) (vec_drop v).
Proof. unfold p_vec_drop, vec_drop. sames. Qed.

Lemma LE_implements al : implements LE PLE al.
Proof.
  assert (LD : forall off n r, same al (ple_load off n r) (le_load off n r)) by (intros; unfold ple_load, le_load; sames).
  assert (ST : forall off bs r, same al (ple_store off bs r) (le_store off bs r)) by (intros; unfold ple_store, le_store; sames).
  assert (SL : forall n r, same al (ple_set_len n r) (le_set_len n r)) by (intros; unfold ple_set_len, le_set_len; sames).
  assert (RS : forall k r, same al (ple_reserve k r) (le_reserve al k r)) by (intros; unfold ple_reserve, le_reserve; cbv zeta; sames; auto using LD).
  assert (EX : forall bs r, same al (ple_extend bs r) (le_extend bs r)) by (intros; unfold ple_extend, le_extend; sames; auto using ST, SL).
  assert (DR : forall r, same al (ple_drop r) (le_drop r)) by (intros; unfold ple_drop, le_drop; sames).
  constructor; cbn [PLE LE P_with_capacity P_from_vec P_reserve P_set_len P_push P_extend P_load P_store P_clone P_into_vec P_drop
    L_with_capacity L_from_vec L_reserve L_set_len L_push L_extend L_load L_store L_clone L_into_vec L_drop L_raw]; auto.
  - intros k. apply RS.
  - intros v. unfold ple_from_vec, le_from_vec. sames; auto using same_vec_drop.
  - intros v r. unfold ple_push, le_push. cbv zeta. sames; auto using SL, ST.
  - intros r. unfold ple_clone, le_clone. sames; auto using RS, LD, EX.
  - intros r. unfold ple_into_vec, le_into_vec. sames; auto using LD, same_vec_from_slice, DR.
Qed.
Lemma UE_implements al : implements UE PUE al.
Proof.
  assert (LD : forall off n r, same al (pue_load off n r) (ue_load off n r)) by (intros; unfold pue_load, ue_load; sames).
  assert (ST : forall off bs r, same al (pue_store off bs r) (ue_store off bs r)) by (intros; unfold pue_store, ue_store; sames).
  assert (SL : forall n r, same al (pue_set_len n r) (ue_set_len n r)) by (intros; unfold pue_set_len, ue_set_len; sames).
  assert (HN : forall k, same al (pue_heap_new k) (ue_heap_new al k)) by (intros; unfold pue_heap_new, ue_heap_new; sames).
  assert (RS : forall k r, same al (pue_reserve k r) (ue_reserve al k r)) by (intros; unfold pue_reserve, ue_reserve; cbv zeta; sames; auto using HN, LD).
  assert (EX : forall bs r, same al (pue_extend bs r) (ue_extend bs r)) by (intros; unfold pue_extend, ue_extend; sames; auto using ST, SL).
  assert (DR : forall r, same al (pue_drop r) (ue_drop r)) by (intros; unfold pue_drop, ue_drop; sames).
  assert (WC : forall k, same al (pue_with_capacity k) (ue_with_capacity al k)) by (intros; unfold pue_with_capacity, ue_with_capacity; sames; auto using HN).
  constructor; cbn [PUE UE P_with_capacity P_from_vec P_reserve P_set_len P_push P_extend P_load P_store P_clone P_into_vec P_drop
    L_with_capacity L_from_vec L_reserve L_set_len L_push L_extend L_load L_store L_clone L_into_vec L_drop L_raw]; auto.
  - intros v. unfold pue_from_vec, ue_from_vec. sames; auto using same_vec_drop.
  - intros v r. unfold pue_push, ue_push. cbv zeta. sames; auto using SL, ST.
  - intros r. unfold pue_clone, ue_clone. sames; auto using WC, LD, EX.
  - intros r. unfold pue_into_vec, ue_into_vec. sames; auto using LD, same_vec_from_slice, DR.
Qed.
Lemma same_pstep L P al o v : implements L P al -> same al (pstep L P o v) (rstep L al o v).
Proof.
  intros I. unfold pstep, rstep. destruct o; cbv zeta;
    try (destruct (v i); [apply same_ub || apply same_ret | | ]; try apply same_ub);
    unfold L_from_slice, L_set_len_checked, L_io_write; sames;
    first [apply (im_with_capacity _ _ _ I) | apply (im_from_vec _ _ _ I) | apply (im_reserve _ _ _ I) | apply (im_set_len _ _ _ I)
      | apply (im_push _ _ _ I) | apply (im_extend _ _ _ I) | apply (im_load _ _ _ I) | apply (im_store _ _ _ I) | apply (im_clone _ _ _ I)
      | apply (im_into_vec _ _ _ I) | apply (im_drop _ _ _ I) | apply same_vec_make | apply same_vec_drop].
Qed.

(** ** Operations allocate at most once *)
Fixpoint none {A} (m : prog A) : Prop :=
  match m with
  | PRet _ | PCrash | PUB => True
  | PAlloc _ _ | PRealloc _ _ _ _ => False
  | PDealloc _ _ c | PStore _ _ _ c => none c
  | PLoad _ _ _ c => forall bs, none (c bs)
  end.
Fixpoint once {A} (m : prog A) : Prop :=
  match m with
  | PRet _ | PCrash | PUB => True
  | PAlloc _ c | PRealloc _ _ _ c => forall a, none (c a)
  | PDealloc _ _ c | PStore _ _ _ c => once c
  | PLoad _ _ _ c => forall bs, once (c bs)
  end.
(** Loads only *)
Fixpoint reads {A} (m : prog A) : Prop :=
  match m with
  | PRet _ | PCrash | PUB => True
  | PLoad _ _ _ c => forall bs, reads (c bs)
  | _ => False
  end.
Lemma none_once {A} (m : prog A) : none m -> once m.
Proof. induction m; cbn; auto; contradiction. Qed.
Lemma none_bind {A B} (m : prog A) (k : A -> prog B) : none m -> (forall a, none (k a)) -> none (pbind m k).
Proof. induction m; cbn; auto. Qed.
Lemma once_bind {A B} (m : prog A) (k : A -> prog B) : once m -> (forall a, none (k a)) -> once (pbind m k).
Proof.
  intros H K. induction m; cbn in *; auto using none_once, none_bind.
Qed.
Lemma once_bind_r {A B} (m : prog A) (k : A -> prog B) : none m -> (forall a, once (k a)) -> once (pbind m k).
Proof. induction m; cbn; auto; contradiction. Qed.
Lemma none_if {A} (c : bool) (m m' : prog A) : none m -> none m' -> none (if c then m else m').
Proof. now destruct c. Qed.
Lemma once_if {A} (c : bool) (m m' : prog A) : once m -> once m' -> once (if c then m else m').
Proof. now destruct c. Qed.

(** [light L P]: which operations do not allocate, which do once, which only load. *)
Record light {R} (P : programs R) : Prop := {
  li_with_capacity : forall k, once (P_with_capacity P k);
  li_from_vec : forall v, none (P_from_vec P v);
  li_reserve : forall k r, once (P_reserve P k r);
  li_set_len : forall n r, none (P_set_len P n r);
  li_push : forall v r, none (P_push P v r);
  li_extend : forall bs r, none (P_extend P bs r);
  li_load : forall off n r, none (P_load P off n r) /\ reads (P_load P off n r);
  li_store : forall off bs r, none (P_store P off bs r);
  li_into_vec : forall r, once (P_into_vec P r);
  li_drop : forall r, none (P_drop P r);
  li_clone : forall r, once (P_clone P r)
}.
Ltac nones := repeat first [exact I | apply none_if | apply none_bind; [|intros ?] | intros ? | assumption | progress cbn [none once p_dealloc p_store p_load p_alloc p_realloc]].
Lemma none_vec_drop v : none (p_vec_drop v).
Proof. unfold p_vec_drop. nones. Qed.
Lemma once_vec_from_slice bs : once (p_vec_from_slice bs).
Proof. unfold p_vec_from_slice. apply once_if; [exact I|]. apply once_bind; [cbn; auto|]. intros p. nones. Qed.
Lemma once_vec_make bs n : once (p_vec_make bs n).
Proof. unfold p_vec_make. apply once_if; [exact I|]. apply once_bind; [cbn; auto|]. intros p. nones. Qed.
Lemma PLE_light : light PLE.
Proof.
  assert (LD : forall off n r, none (ple_load off n r)) by (intros; unfold ple_load; nones).
  assert (ST : forall off bs r, none (ple_store off bs r)) by (intros; unfold ple_store; nones).
  assert (SL : forall n r, none (ple_set_len n r)) by (intros; unfold ple_set_len; nones).
  assert (EX : forall bs r, none (ple_extend bs r)) by (intros; unfold ple_extend; apply none_bind; auto).
  assert (DR : forall r, none (ple_drop r)) by (intros; unfold ple_drop; nones).
  assert (RS : forall k r, once (ple_reserve k r)).
  { intros. unfold ple_reserve. cbv zeta. repeat (apply once_if; [exact I|]). apply once_if.
    - apply once_bind; [cbn; auto|]. intros p. apply none_bind; [apply LD|]. intros. nones.
    - apply once_bind; [cbn; auto|]. intros p. exact I. }
  constructor; cbn [PLE P_with_capacity P_from_vec P_reserve P_set_len P_push P_extend P_load P_store P_clone P_into_vec P_drop]; auto.
  - intros k. apply RS.
  - intros v. unfold ple_from_vec. apply none_if; [|exact I]. apply none_bind; [apply none_vec_drop | intros; exact I].
  - intros v r. unfold ple_push. apply none_if; [|exact I]. apply none_bind; [apply SL|]. intros. apply none_if; [apply ST | exact I].
  - intros off n r. split; [apply LD|]. unfold ple_load. destruct (le_is_stack r); [destruct (nlen r <? off + n)|]; cbn; auto.
  - intros r. unfold ple_into_vec. apply once_if; [|exact I]. apply once_bind_r; [apply LD|]. intros. apply once_bind; [apply once_vec_from_slice|].
    intros. apply none_bind; [apply DR | intros; exact I].
  - intros r. unfold ple_clone. apply once_bind; [apply RS|]. intros. apply none_bind; auto.
Qed.
Lemma PUE_light : light PUE.
Proof.
  assert (LD : forall off n r, none (pue_load off n r)) by (intros; unfold pue_load; nones).
  assert (ST : forall off bs r, none (pue_store off bs r)) by (intros; unfold pue_store; nones).
  assert (SL : forall n r, none (pue_set_len n r)) by (intros; unfold pue_set_len; nones).
  assert (EX : forall bs r, none (pue_extend bs r)) by (intros; unfold pue_extend; apply none_bind; auto).
  assert (DR : forall r, none (pue_drop r)) by (intros; unfold pue_drop; nones).
  assert (HN : forall k, once (pue_heap_new k)).
  { intros. unfold pue_heap_new. apply once_if; [exact I|]. apply once_bind; [cbn; auto|]. intros. exact I. }
  assert (RS : forall k r, once (pue_reserve k r)).
  { intros. unfold pue_reserve. cbv zeta. repeat (apply once_if; [exact I|]). apply once_if.
    - apply once_bind; [apply HN|]. intros p. apply none_bind; [apply LD|]. intros. nones.
    - apply once_bind; [cbn; auto|]. intros p. exact I. }
  assert (WC : forall k, once (pue_with_capacity k)).
  { intros. unfold pue_with_capacity. apply once_if; [exact I|]. apply once_bind; [apply HN|]. intros. exact I. }
  constructor; cbn [PUE P_with_capacity P_from_vec P_reserve P_set_len P_push P_extend P_load P_store P_clone P_into_vec P_drop]; auto.
  - intros v. unfold pue_from_vec. apply none_if; [|exact I]. apply none_bind; [apply none_vec_drop | intros; exact I].
  - intros v r. unfold pue_push. apply none_if; [|exact I]. apply none_bind; [apply SL|]. intros. apply none_if; [apply ST | exact I].
  - intros off n r. split; [apply LD|]. unfold pue_load. destruct (ue_is_stack r); [destruct (nlen (u_union r) <? off + n)|]; cbn; auto.
  - intros r. unfold pue_into_vec. apply once_if; [|exact I]. apply once_bind_r; [apply LD|]. intros. apply once_bind; [apply once_vec_from_slice|].
    intros. apply none_bind; [apply DR | intros; exact I].
  - intros r. unfold pue_clone. apply once_bind; [apply WC|]. intros. apply none_bind; auto.
Qed.
Lemma once_pstep L P o v : light P -> once (pstep L P o v).
Proof.
  intros Li. unfold pstep. destruct o; cbv zeta;
    try (destruct (v i); [exact I | | ]; try exact I).
  all: apply once_bind; [|intros; exact I].
  all: try first [exact I | apply (li_with_capacity _ Li) | apply none_once, (li_from_vec _ Li) | apply (li_reserve _ Li) | apply none_once, (li_push _ Li)
      | apply none_once, (li_extend _ Li) | apply none_once, (li_store _ Li) | apply (li_clone _ Li) | apply (li_into_vec _ Li) | apply none_once, (li_drop _ Li)
      | apply once_vec_make | apply none_once, none_vec_drop].
  - apply once_bind; [apply (li_with_capacity _ Li) | intros; apply (li_extend _ Li)].
  - apply once_if; [exact I | apply none_once, (li_set_len _ Li)].
  - apply once_bind; [apply none_once, (li_load _ Li) | intros; apply (li_store _ Li)].
  - apply once_bind; [apply (li_reserve _ Li) | intros; apply (li_extend _ Li)].
Qed.

(** ** Running on one's own blocks *)
(** The program, owning the blocks [h] and allowed to read [ro], does nothing undefined
    whatever blocks the allocator hands out, and ends in [Q]. *)
Fixpoint safe (ro : heap) {A} (m : prog A) (Q : A -> heap -> Prop) (h : heap) : Prop :=
  match m with
  | PRet a => Q a h
  | PAlloc n k => 0 < n /\ n <= isize_max /\
      forall a c, h_get a h = None -> 0 < a -> a < usize_limit -> nlen c = n -> bytes_ok c -> safe ro (k a) Q (h_set a c h)
  | PDealloc p size k => exists c, h_get p h = Some c /\ nlen c = size /\ safe ro k Q (h_del p h)
  | PRealloc p old new k => exists c, h_get p h = Some c /\ nlen c = old /\ old <= isize_max /\ 0 < new /\ new <= isize_max /\
      forall a d, h_get a (h_del p h) = None -> 0 < a -> a < usize_limit -> nlen d = new - nlen c -> bytes_ok d ->
        safe ro (k a) Q (h_set a (take new c ++ d) (h_del p h))
  | PLoad p off n k => exists c, (h_get p h = Some c \/ h_get p ro = Some c) /\ off + n <= nlen c /\ safe ro (k (take n (drop off c))) Q h
  | PStore p off src k => exists c, h_get p h = Some c /\ off + nlen src <= nlen c /\
      safe ro k Q (h_set p (take off c ++ src ++ drop (off + nlen src) c) h)
  | PCrash | PUB => False
  end.
Lemma safe_mono ro {A} (m : prog A) (Q Q' : A -> heap -> Prop) : (forall a h, Q a h -> Q' a h) -> forall h, safe ro m Q h -> safe ro m Q' h.
Proof.
  intros HQ. induction m as [a|n c IH|p size c IH|p old new c IH|p off n c IH|p off src c IH| |]; intros h; cbn [safe]; auto.
  - intros (A1 & A2 & A3). repeat split; auto.
  - intros (x & A1 & A2 & A3). exists x. auto.
  - intros (x & A1 & A2 & A3 & A4 & A5 & A6). exists x. repeat split; auto.
  - intros (x & A1 & A2 & A3). exists x. auto.
  - intros (x & A1 & A2 & A3). exists x. auto.
Qed.
Lemma safe_ro {A} (m : prog A) Q ro : forall h, safe [] m Q h -> safe ro m Q h.
Proof.
  induction m as [a|n c IH|p size c IH|p old new c IH|p off n c IH|p off src c IH| |]; intros h; cbn [safe]; auto.
  - intros (A1 & A2 & A3). repeat split; auto.
  - intros (x & A1 & A2 & A3). exists x. auto.
  - intros (x & A1 & A2 & A3 & A4 & A5 & A6). exists x. repeat split; auto.
  - intros (x & [A1|A1] & A2 & A3); [|discriminate A1]. exists x. auto.
  - intros (x & A1 & A2 & A3). exists x. auto.
Qed.
Lemma safe_bind ro {A B} (m : prog A) (k : A -> prog B) Q : forall h, safe ro m (fun a h' => safe ro (k a) Q h') h -> safe ro (pbind m k) Q h.
Proof.
  induction m as [a|n c IH|p size c IH|p old new c IH|p off n c IH|p off src c IH| |]; intros h; cbn [safe pbind]; auto.
  - intros (A1 & A2 & A3). repeat split; auto.
  - intros (x & A1 & A2 & A3). exists x. auto.
  - intros (x & A1 & A2 & A3 & A4 & A5 & A6). exists x. repeat split; auto.
  - intros (x & A1 & A2 & A3). exists x. auto.
  - intros (x & A1 & A2 & A3). exists x. auto.
Qed.
(** An allocator that has this block only. *)
Definition only (a : N) (c : list N) : allocator :=
  {| al_pick := fun h _ => match h_get a h with None => Some a | Some _ => None end; al_junk := fun _ _ i => nth (N.to_nat i) c 0 |}.
Lemma only_good a c : 0 < a -> a < usize_limit -> good_allocator (only a c).
Proof. intros A B h n x. cbn [only al_pick]. destruct (h_get a h) eqn:E; [discriminate|]. intros [= <-]. auto. Qed.
Lemma junk_is (c : list N) : bytes_ok c -> forall (pre : list N), junk_from (fun i => nth (N.to_nat i) (pre ++ c) 0) (nlen pre) (length c) = c.
Proof.
  induction c as [|b c IH]; intros Hok pre; [reflexivity|]. cbn [length junk_from]. inversion Hok; subst. f_equal.
  - rewrite nlen_length, Nat2N.id. rewrite app_nth2, Nat.sub_diag by lia. cbn [nth]. now apply N.mod_small.
  - specialize (IH H2 (pre ++ [b])). rewrite nlen_app in IH. change (nlen [b]) with 1 in IH.
    rewrite <- app_assoc in IH. exact IH.
Qed.
Lemma only_junk a c h x : bytes_ok c -> new_octets (only a c) h x (nlen c) = c.
Proof. intros H. unfold new_octets. cbn [only al_junk]. rewrite nlen_length, Nat2N.id. exact (junk_is c H []). Qed.
(** Without allocations, the allocator does not matter. *)
Lemma none_safe {A} (m : prog A) Q al : none m -> forall h, meets al (exec al m h) Q -> safe [] m Q h.
Proof.
  induction m as [a|n c IH|p size c IH|p old new c IH|p off n c IH|p off src c IH| |]; intros N h; cbn [exec none safe] in *; auto; try contradiction; unfold mbind.
  - unfold dealloc. destruct (h_get p h) as [x|]; [|contradiction]. destruct (N.eqb_spec (nlen x) size); [|contradiction]. intros H. exists x. auto.
  - unfold load. destruct (h_get p h) as [x|]; [|contradiction]. destruct (N.ltb_spec (nlen x) (off + n)); [contradiction|]. intros H1. exists x. auto.
  - unfold store. destruct (h_get p h) as [x|]; [|contradiction]. destruct (N.ltb_spec (nlen x) (off + nlen src)); [contradiction|]. intros H1. exists x. auto.
Qed.
Lemma once_safe {A} (m : prog A) Q : once m -> forall h, (forall al, good_allocator al -> meets al (exec al m h) Q) -> safe [] m Q h.
Proof.
  induction m as [a|n c IH|p size c IH|p old new c IH|p off n c IH|p off src c IH| |]; intros O h; cbn [exec once safe] in *; unfold mbind; intros H.
  - apply (H bump bump_good).
  - assert (0 < n /\ n <= isize_max) as [B1 B2].
    { specialize (H bump bump_good). unfold alloc in H. destruct (N.ltb_spec isize_max n); [contradiction|]. destruct (N.eqb_spec n 0); [contradiction|]. lia. }
    repeat split; auto. intros a x Ha P1 P2 Hl Hok. apply (none_safe _ _ (only a x)); [apply O|].
    specialize (H (only a x) (only_good a x P1 P2)). unfold alloc in H.
    destruct (N.ltb_spec isize_max n); [contradiction|]. destruct (N.eqb_spec n 0); [contradiction|]. cbn [only al_pick] in H. rewrite Ha in H.
    fold (only a x) in H. rewrite <- Hl, only_junk in H by assumption. exact H.
  - pose proof (H bump bump_good) as B. unfold dealloc in *. destruct (h_get p h) as [x|]; [|contradiction]. destruct (N.eqb_spec (nlen x) size); [|contradiction].
    exists x. auto.
  - pose proof (H bump bump_good) as B. unfold realloc in *. destruct (N.ltb_spec isize_max old); [contradiction|].
    destruct (h_get p h) as [x|]; [|contradiction]. destruct (N.eqb_spec (nlen x) old); cbn [negb] in *; [|contradiction].
    destruct (N.eqb_spec new 0); cbn [orb] in *; [contradiction|]. destruct (N.ltb_spec isize_max new); [contradiction|].
    exists x. repeat split; auto; try lia. intros a d Ha P1 P2 Hl Hok. apply (none_safe _ _ (only a d)); [apply O|].
    specialize (H (only a d) (only_good a d P1 P2)). cbn [only al_pick] in H. rewrite Ha in H. fold (only a d) in H.
    rewrite <- Hl, only_junk in H by assumption. exact H.
  - pose proof (H bump bump_good) as B. unfold load in *. destruct (h_get p h) as [x|]; [|contradiction].
    destruct (N.ltb_spec (nlen x) (off + n)); [contradiction|]. exists x. auto.
  - pose proof (H bump bump_good) as B. unfold store in *. destruct (h_get p h) as [x|]; [|contradiction].
    destruct (N.ltb_spec (nlen x) (off + nlen src)); [contradiction|]. exists x. auto.
  - apply (H bump bump_good).
  - apply (H bump bump_good).
Qed.
(** Loads from what may be read. *)
Lemma reads_safe {A} (m : prog A) al ro x : reads m -> exec al m ro = Done x ro -> forall h, safe ro m (fun y h' => y = x /\ h' = h) h.
Proof.
  intros R E h. induction m as [a|n c IH|p size c IH|p old new c IH|p off n c IH|p off src c IH| |]; cbn [exec reads safe] in *; try contradiction; try discriminate E; unfold mbind in E.
  - now injection E.
  - unfold load in E. destruct (h_get p ro) as [y|] eqn:G; [|discriminate]. destruct (N.ltb_spec (nlen y) (off + n)); [discriminate|].
    exists y. repeat split; auto.
Qed.

(** ** One access among others *)
(** What the access did to the blocks [h] of the program and to the whole memory [H]. *)
Definition moved (h H h' H' : heap) : Prop :=
  (forall a c, h_get a h' = Some c -> h_get a H' = Some c) /\
  (forall a, h_get a h = None -> h_get a h' = None -> h_get a H' = h_get a H) /\
  (forall a, h_get a h' <> None -> h_get a h <> None \/ h_get a H = None) /\
  (forall a, h_get a h <> None -> h_get a h' = None -> h_get a H' = None).
Definition within (h H : heap) : Prop := forall a c, h_get a h = Some c -> h_get a H = Some c.
Lemma moved_refl h H : within h H -> moved h H h H.
Proof. intros W. split; [exact W|]. repeat split; auto; try tauto. Qed.
Lemma moved_set h H p c : within h H -> h_get p h <> None \/ h_get p H = None -> moved h H (h_set p c h) (h_set p c H).
Proof.
  intros W F. repeat split.
  - intros a x. rewrite !get_set. destruct (p =? a); auto.
  - intros a. rewrite !get_set. destruct (p =? a); [discriminate|auto].
  - intros a. rewrite get_set. destruct (N.eqb_spec p a) as [<-|]; auto.
  - intros a. rewrite !get_set. destruct (p =? a); [discriminate|tauto].
Qed.
Lemma moved_del h H p : within h H -> h_get p h <> None -> moved h H (h_del p h) (h_del p H).
Proof.
  intros W F. repeat split.
  - intros a x. rewrite !get_del. destruct (p =? a); auto.
  - intros a. rewrite !get_del. destruct (N.eqb_spec p a) as [<-|]; auto. tauto.
  - intros a. rewrite get_del. destruct (N.eqb_spec p a) as [<-|]; auto.
  - intros a. rewrite !get_del. destruct (p =? a); [reflexivity|tauto].
Qed.
Lemma moved_within h H h' H' : moved h H h' H' -> within h' H'.
Proof. now intros (A & _). Qed.
Lemma moved_trans h H h1 H1 h2 H2 : within h H -> moved h H h1 H1 -> moved h1 H1 h2 H2 -> moved h H h2 H2.
Proof.
  intros W (A1 & A2 & A3 & A4) (B1 & B2 & B3 & B4). repeat split; auto.
  - intros a E E2. destruct (h_get a h1) as [c|] eqn:E1.
    + rewrite B4 by congruence. destruct (A3 a ltac:(congruence)) as [X|X]; congruence.
    + rewrite B2 by assumption. now apply A2.
  - intros a E2. destruct (B3 a E2) as [X|X]; [now apply A3|].
    destruct (h_get a h) as [c|] eqn:E; [left; discriminate|]. right. destruct (h_get a h1) as [c|] eqn:E1; [apply A1 in E1; congruence|].
    rewrite <- (A2 a); auto.
  - intros a E E2. destruct (h_get a h1) as [c|] eqn:E1; [apply B4; congruence|]. rewrite B2 by assumption. now apply A4.
Qed.
Lemma safe_access al ro {A} (m : prog A) Q h H : good_allocator al -> within h H -> within ro H -> safe ro m Q h ->
  match access al m H with
  | Done m' H' => exists h', safe ro m' Q h' /\ moved h H h' H'
  | Abort => out_of_memory al
  | Crash | UB => False
  end.
Proof.
  intros G W WR S. destruct m as [a|n c|p size c|p old new c|p off n c|p off src c| |]; cbn [safe access] in *; unfold mbind, mret.
  - exists h. split; [exact S | now apply moved_refl].
  - destruct S as (A1 & A2 & A3). unfold alloc. destruct (N.ltb_spec isize_max n); [lia|]. destruct (N.eqb_spec n 0); [lia|].
    destruct (al_pick al H n) as [a|] eqn:E; [|exists H, n; auto]. destruct (G _ _ _ E) as (F & P1 & P2).
    exists (h_set a (new_octets al H a n) h). split.
    + apply A3; auto; [|apply new_octets_len | apply new_octets_ok]. destruct (h_get a h) eqn:Q'; [apply W in Q'; congruence | reflexivity].
    + apply moved_set; auto.
  - destruct S as (x & A1 & A2 & A3). unfold dealloc. rewrite (W _ _ A1). destruct (N.eqb_spec (nlen x) size); [|contradiction].
    exists (h_del p h). split; [exact A3|]. apply moved_del; [exact W | congruence].
  - destruct S as (x & A1 & A2 & A3 & A4 & A5 & A6). unfold realloc. destruct (N.ltb_spec isize_max old); [lia|]. rewrite (W _ _ A1).
    destruct (N.eqb_spec (nlen x) old); cbn [negb]; [|contradiction]. destruct (N.eqb_spec new 0); [lia|]. cbn [orb].
    destruct (N.ltb_spec isize_max new); [lia|].
    destruct (al_pick al (h_del p H) new) as [a|] eqn:E; [|exists (h_del p H), new; repeat split; auto]. destruct (G _ _ _ E) as (F & P1 & P2).
    assert (moved h H (h_del p h) (h_del p H)) as MV by (apply moved_del; [exact W | congruence]).
    exists (h_set a (take new x ++ new_octets al (h_del p H) a (new - nlen x)) (h_del p h)). split.
    + apply A6; auto; [|apply new_octets_len | apply new_octets_ok]. destruct (h_get a (h_del p h)) eqn:Q'; [|reflexivity].
      apply (proj1 MV) in Q'. congruence.
    + eapply moved_trans; [exact W | exact MV|]. apply moved_set; [now apply moved_within in MV | now right].
  - destruct S as (x & A1 & A2 & A3). unfold load. assert (h_get p H = Some x) as -> by (destruct A1; auto).
    destruct (N.ltb_spec (nlen x) (off + n)); [lia|]. exists h. split; [exact A3 | now apply moved_refl].
  - destruct S as (x & A1 & A2 & A3). unfold store. rewrite (W _ _ A1). destruct (N.ltb_spec (nlen x) (off + nlen src)); [lia|].
    eexists. split; [exact A3|]. apply moved_set; [exact W | left; congruence].
  - contradiction.
  - contradiction.
Qed.
Lemma safe_writes ro {A} (m : prog A) Q h b : safe ro m Q h -> writes_block m = Some b -> h_get b h <> None.
Proof. destruct m; cbn; try discriminate; intros (x & A1 & _) [= <-]; congruence. Qed.
Lemma safe_reads ro {A} (m : prog A) Q h b : safe ro m Q h -> reads_block m = Some b -> h_get b h <> None \/ h_get b ro <> None.
Proof. destruct m; cbn; try discriminate. intros (x & [A1|A1] & _) [= <-]; [left|right]; congruence. Qed.

(** ** The memory in parts: one for each thread, one for the shared variables *)
Definition party := option nat.
Definition party_eqb (w w' : party) : bool :=
  match w, w' with None, None => true | Some t, Some u => Nat.eqb t u | _, _ => false end.
Lemma party_spec w w' : reflect (w = w') (party_eqb w w').
Proof.
  destruct w as [t|], w' as [u|]; cbn; try (constructor; congruence). destruct (Nat.eqb_spec t u); constructor; congruence.
Qed.
Definition setp (w : party) (h : heap) (hs : party -> heap) : party -> heap := fun w' => if party_eqb w' w then h else hs w'.
Lemma setp_eq w h hs : setp w h hs w = h.
Proof. unfold setp. destruct (party_spec w w); congruence. Qed.
Lemma setp_neq w w' h hs : w' <> w -> setp w h hs w' = hs w'.
Proof. unfold setp. destruct (party_spec w' w); congruence. Qed.
Definition parts (hs : party -> heap) (H h0 : heap) : Prop :=
  (forall w, within (hs w) H) /\
  (forall w w' a, h_get a (hs w) <> None -> h_get a (hs w') <> None -> w = w') /\
  (forall w a, h_get a (hs w) <> None -> h_get a h0 = None) /\
  (forall a, (forall w, h_get a (hs w) = None) -> h_get a H = h_get a h0).
Lemma parts_step hs H h0 w h' H' : parts hs H h0 -> moved (hs w) H h' H' -> parts (setp w h' hs) H' h0.
Proof.
  intros (P1 & P2 & P3 & P4) (M1 & M2 & M3 & M4).
  assert (NEW : forall a, h_get a h' <> None -> forall w', w' <> w -> h_get a (hs w') = None).
  { intros a Ha w' N. destruct (h_get a (hs w')) as [c|] eqn:E; [|reflexivity]. exfalso. destruct (M3 a Ha) as [X|X].
    - apply N. apply (P2 w' w a); congruence.
    - apply P1 in E. congruence. }
  assert (P3' : forall a, h_get a h' <> None -> h_get a h0 = None).
  { intros a Ha. destruct (M3 a Ha) as [X|X]; [now apply (P3 w)|].
    destruct (h_get a h0) as [c|] eqn:E0; [|reflexivity]. exfalso. rewrite P4 in X; [congruence|].
    intros w'. destruct (h_get a (hs w')) eqn:E; [apply P1 in E; congruence | reflexivity]. }
  repeat split.
  - intros w'. destruct (party_spec w' w) as [->|N]; [now rewrite setp_eq|]. rewrite setp_neq by assumption.
    intros a c E. rewrite M2; [now apply (P1 w')| |].
    + destruct (h_get a (hs w)) eqn:E'; [|reflexivity]. elim N. apply (P2 w' w a); congruence.
    + destruct (h_get a h') eqn:E'; [|reflexivity]. rewrite (NEW a) in E; congruence.
  - intros w1 w2 a. destruct (party_spec w1 w) as [->|N1], (party_spec w2 w) as [->|N2]; rewrite ?setp_eq, ?setp_neq by assumption; auto; intros X Y.
    + exfalso. apply Y. now apply NEW.
    + exfalso. apply X. now apply NEW.
    + now apply (P2 w1 w2 a).
  - intros w' a. destruct (party_spec w' w) as [->|N]; rewrite ?setp_eq, ?setp_neq by assumption; [apply P3' | apply P3].
  - intros a Ha. pose proof (Ha w) as Hw. rewrite setp_eq in Hw.
    assert (Ho : forall w', w' <> w -> h_get a (hs w') = None) by (intros w' N; specialize (Ha w'); now rewrite setp_neq in Ha).
    destruct (h_get a (hs w)) as [c|] eqn:E.
    + rewrite M4 by congruence. symmetry. apply (P3 w). congruence.
    + rewrite M2 by assumption. apply P4. intros w'. destruct (party_spec w' w) as [->|N]; auto.
Qed.
(** A variable and its block go from one to another. *)
Definition give (o : option N) (h : heap) : heap := match o with Some a => h_del a h | None => h end.
Definition gain (o : option N) (src h : heap) : heap :=
  match o with Some a => match h_get a src with Some c => h_set a c h | None => h end | None => h end.
Lemma parts_move hs H h0 w1 w2 o : parts hs H h0 -> w1 <> w2 -> parts (setp w2 (gain o (hs w1) (hs w2)) (setp w1 (give o (hs w1)) hs)) H h0.
Proof.
  intros PT NE. destruct o as [a|]; cbn [give gain].
  2: { destruct PT as (P1 & P2 & P3 & P4).
       assert (forall w, setp w2 (hs w2) (setp w1 (hs w1) hs) w = hs w) as X.
       { intros w. unfold setp. destruct (party_spec w w2) as [->|]; auto. destruct (party_spec w w1) as [->|]; auto. }
       repeat split; intros; rewrite ?X in *; eauto. apply P4. intros w. rewrite <- (X w). auto. }
  destruct (h_get a (hs w1)) as [c|] eqn:E.
  2: { assert (forall x, h_get x (h_del a (hs w1)) = h_get x (hs w1)) as Q by (intros x; rewrite get_del; destruct (N.eqb_spec a x) as [->|]; congruence).
       destruct PT as (P1 & P2 & P3 & P4).
       assert (forall w x, h_get x (setp w2 (hs w2) (setp w1 (h_del a (hs w1)) hs) w) = h_get x (hs w)) as X.
       { intros w x. unfold setp. destruct (party_spec w w2) as [->|]; auto. destruct (party_spec w w1) as [->|]; auto. }
       repeat split.
       - intros w x d. rewrite X. apply P1.
       - intros w w' x. rewrite !X. apply P2.
       - intros w x. rewrite X. apply P3.
       - intros x Hx. apply P4. intros w. rewrite <- (X w x). apply Hx. }
  destruct PT as (P1 & P2 & P3 & P4).
  assert (ON : forall w, w <> w1 -> h_get a (hs w) = None).
  { intros w N. destruct (h_get a (hs w)) eqn:E'; [|reflexivity]. elim N. apply (P2 w w1 a); congruence. }
  set (hs' := setp w2 (h_set a c (hs w2)) (setp w1 (h_del a (hs w1)) hs)).
  assert (GA : forall w, h_get a (hs' w) = if party_eqb w w2 then Some c else None).
  { intros w. unfold hs'. destruct (party_spec w w2) as [->|N]; [now rewrite setp_eq, get_set_eq|]. rewrite setp_neq by assumption.
    destruct (party_spec w w1) as [->|N']; [rewrite setp_eq, get_del, N.eqb_refl; reflexivity | rewrite setp_neq by assumption; auto]. }
  assert (GO : forall w x, x <> a -> h_get x (hs' w) = h_get x (hs w)).
  { intros w x Nx. unfold hs'. destruct (party_spec w w2) as [->|N].
    - rewrite setp_eq, get_set. destruct (N.eqb_spec a x); congruence.
    - rewrite setp_neq by assumption. destruct (party_spec w w1) as [->|N'].
      + rewrite setp_eq, get_del. destruct (N.eqb_spec a x); congruence.
      + now rewrite setp_neq. }
  repeat split.
  - intros w x d. destruct (N.eq_dec x a) as [->|Nx].
    + rewrite GA. destruct (party_eqb w w2); [|discriminate]. intros [= <-]. now apply (P1 w1).
    + rewrite GO by assumption. apply P1.
  - intros w w' x. destruct (N.eq_dec x a) as [->|Nx].
    + rewrite !GA. destruct (party_spec w w2), (party_spec w' w2); congruence.
    + rewrite !GO by assumption. apply P2.
  - intros w x. destruct (N.eq_dec x a) as [->|Nx].
    + intros _. apply (P3 w1). congruence.
    + rewrite GO by assumption. apply P3.
  - intros x Hx. destruct (N.eq_dec x a) as [->|Nx].
    + specialize (Hx w2). rewrite GA in Hx. destruct (party_spec w2 w2); congruence.
    + apply P4. intros w. rewrite <- (GO w x Nx). apply Hx.
Qed.
