(** C78: the buffers of the aliasing models are those in raw memory. *)
From Verif Require Import Base ModelBuf ModelHeap ModelBufLE ModelBufUE Spec SpecBuf RawProofs RawMain PropsBuf.
From Verif Require Import ModelBorrow SpecBorrow SpecLink BorrowHist BorrowLink.

(** Where the octets of a buffer in memory are, its length and its capacity are what the views tell, after any program
    and then any number of calls; programs that keep the contracts of the operations make only calls that the theorems on views allow. *)
Theorem C78_views :
  (forall al before os cs e e' i r w v h v' h' h0, good_allocator al ->
    erun 23 before eempty = Some e -> rrun LE al before vempty h0 = Done v h -> v i = VBuf r ->
    erun 23 os e = Some e' -> rrun LE al os v h = Done v' h' -> Forall2 (made i) os cs -> seen LE le_is_stack r w ->
    calls_ok ALE cs w /\ exists r', v' i = VBuf r' /\ seen LE le_is_stack r' (snd (ModelBorrow.history ALE cs w 1))) /\
  (forall al before os cs e e' i r w v h v' h' h0, good_allocator al ->
    erun 16 before eempty = Some e -> rrun UE al before vempty h0 = Done v h -> v i = VBuf r ->
    erun 16 os e = Some e' -> rrun UE al os v h = Done v' h' -> Forall2 (made i) os cs -> seen UE ue_is_stack r w ->
    calls_ok AUE cs w /\ exists r', v' i = VBuf r' /\ seen UE ue_is_stack r' (snd (ModelBorrow.history AUE cs w 1))).
Proof.
  split; intros al before os cs e e' i r w v h v' h' h0 G.
  - exact (link LE al G _ (C19_refines al G) le_is_stack le_inline ALE ale_changes before os cs e e' i r w v h v' h' h0).
  - exact (link UE al G _ (C20_refines al G) ue_is_stack ue_inline AUE aue_changes before os cs e e' i r w v h v' h' h0).
Qed.
Print Assumptions C78_views.

(** New buffers are seen as [b_fresh] tells. *)
Theorem C78_new_views :
  (forall al k h r h' next, good_allocator al -> k <= isize_max -> L_with_capacity LE al k h = Done r h' -> seen LE le_is_stack r (b_fresh ALE k next)) /\
  (forall al k h r h' next, good_allocator al -> k <= isize_max -> L_with_capacity UE al k h = Done r h' -> seen UE ue_is_stack r (b_fresh AUE k next)) /\
  (forall al bs h r h' next, good_allocator al -> nlen bs <= isize_max -> bytes_ok bs -> L_from_slice LE al bs h = Done r h' ->
     seen LE le_is_stack r (set_v_len (nlen bs) (b_fresh ALE (nlen bs) next))) /\
  (forall al bs h r h' next, good_allocator al -> nlen bs <= isize_max -> bytes_ok bs -> L_from_slice UE al bs h = Done r h' ->
     seen UE ue_is_stack r (set_v_len (nlen bs) (b_fresh AUE (nlen bs) next))).
Proof.
  split; [|split; [|split]]; intros al x h r h' next G.
  - exact (fresh_seen LE al _ (C19_refines al G) le_is_stack le_inline ALE eq_refl x h r h' next).
  - exact (fresh_seen UE al _ (C20_refines al G) ue_is_stack ue_inline AUE eq_refl x h r h' next).
  - exact (fresh_filled LE al _ (C19_refines al G) le_is_stack le_inline ALE eq_refl x h r h' next).
  - exact (fresh_filled UE al _ (C20_refines al G) ue_is_stack ue_inline AUE eq_refl x h r h' next).
Qed.
Print Assumptions C78_new_views.

(** A program with the portable layout: whatever came before, what a buffer goes through from then on keeps to both models. *)
Theorem C78_programs : forall al before os cs e e' i r v h v' h' h0 fin, good_allocator al ->
  erun 16 before eempty = Some e -> rrun UE al before vempty h0 = Done v h -> v i = VBuf r ->
  erun 16 os e = Some e' -> rrun UE al os v h = Done v' h' -> Forall2 (made i) os cs ->
  exists w, seen UE ue_is_stack r w /\ (stacked (life AUE cs fin w) /\ tree (life AUE cs fin w)) /\ stacked_args (life AUE cs fin w) /\ tree_args (life AUE cs fin w).
Proof.
  intros al before os cs e e' i r v h v' h' h0 fin G E1 R1 Vi E2 R2 M.
  destruct (link_view UE al G _ (C20_refines al G) ue_is_stack before e i r v h h0 3 E1 R1 Vi ltac:(lia) (ue_inline_cap r)) as (w & S & W & _).
  destruct (proj2 C78_views al before os cs e e' i r w v h v' h' h0 G E1 R1 Vi E2 R2 M S) as (C & _).
  exists w. split; [exact S|]. split; [exact (ue_life cs w fin W C) | exact (ue_args cs w fin W C)].
Qed.
Print Assumptions C78_programs.
(** And with the little endian layout: exactly the programs that write inside of a structure do not. *)
Theorem C78_programs_little_endian : forall al before os cs e e' i r v h v' h' h0 fin, good_allocator al ->
  erun 23 before eempty = Some e -> rrun LE al before vempty h0 = Done v h -> v i = VBuf r ->
  erun 23 os e = Some e' -> rrun LE al os v h = Done v' h' -> Forall2 (made i) os cs ->
  exists w, seen LE le_is_stack r w /\
    (stacked (life ALE cs fin w) <-> some_call ALE claims_inside cs w = false) /\
    (tree (life ALE cs fin w) <-> some_call ALE writes_inside cs w = false) /\
    (stacked_args (life ALE cs fin w) <-> some_call ALE claims_inside cs w = false) /\
    (tree_args (life ALE cs fin w) <-> some_call ALE writes_inside cs w = false).
Proof.
  intros al before os cs e e' i r v h v' h' h0 fin G E1 R1 Vi E2 R2 M.
  destruct (link_view LE al G _ (C19_refines al G) le_is_stack before e i r v h h0 3 E1 R1 Vi ltac:(lia) (le_inline_cap r)) as (w & S & W & _).
  destruct (proj1 C78_views al before os cs e e' i r w v h v' h' h0 G E1 R1 Vi E2 R2 M S) as (C & _).
  exists w. split; [exact S|].
  repeat split; [apply (le_life_sb cs w fin W C) | apply (le_life_sb cs w fin W C) | apply (le_life_tb cs w fin W C) | apply (le_life_tb cs w fin W C)
    | apply (le_args_sb cs w fin W C) | apply (le_args_sb cs w fin W C) | apply (le_args_tb cs w fin W C) | apply (le_args_tb cs w fin W C)].
Qed.
Print Assumptions C78_programs_little_endian.
(** A program that goes on after [sample_history]: pushes inside, grows, writes in a block. *)
Definition more_steps : list bop := [OPush 4 1; OClone 4 6; OExtend 4 [2; 3]; OReserve 4 60; OSetLen 4 2; OPush 4 9].
Example C78_views_ex : good_allocator bump /\
  Forall2 (made 4) more_steps [CPush; CClone; CExtend 2; CReserve 60; CSetLen 2; CPush] /\
  (match erun 16 sample_history eempty with Some e => match erun 16 more_steps e with Some _ => True | None => False end | None => False end) /\
  match rrun UE bump sample_history vempty [] with
  | Done v h =>
      match v 4%nat, rrun UE bump more_steps v h with
      | VBuf r, Done v' h' =>
          seen UE ue_is_stack r {| v_inline := false; v_len := 0; v_cap := 40; v_block := 2; v_next := 3 |} /\
          match v' 4%nat with VBuf r' => seen UE ue_is_stack r' {| v_inline := false; v_len := 3; v_cap := 63; v_block := 2; v_next := 3 |} | _ => False end
      | _, _ => False
      end
  | _ => False
  end.
Proof.
  split; [exact bump_good|]. split; [|vm_compute; repeat split].
  unfold more_steps. repeat constructor.
Qed.
