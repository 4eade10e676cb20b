(** Several threads using buffers (C77): what [unsafe impl Send for Buffer] and [unsafe impl Sync for Buffer] promise. *)
From Verif Require Import Base ModelBuf ModelHeap ModelBufLE ModelBufUE SpecBuf ModelThreads SpecThreads RawProofs RawMain ThreadProofs ThreadMain.

(** ** The programs are the functions of the layouts, access by access *)
Theorem C77_le_programs : forall al o v h, exec al (pstep LE PLE o v) h = rstep LE al o v h.
Proof. intros al o v. apply same_pstep. apply LE_implements. Qed.
Print Assumptions C77_le_programs.
Theorem C77_ue_programs : forall al o v h, exec al (pstep UE PUE o v) h = rstep UE al o v h.
Proof. intros al o v. apply same_pstep. apply UE_implements. Qed.
Print Assumptions C77_ue_programs.

(** What a race is: a block that an access is not said to write stays as it is, and an
    access that is not said to read or write a block does the same whatever the block holds. *)
Theorem C77_writes : forall al A (m : prog A) h m' h' b c, good_allocator al -> access al m h = Done m' h' ->
  h_get b h = Some c -> writes_block m <> Some b -> h_get b h' = Some c.
Proof. exact @access_writes. Qed.
Print Assumptions C77_writes.
Theorem C77_reads : forall al A (m : prog A) h b c1 c2, (forall n k, m <> PAlloc n k) ->
  reads_block m <> Some b -> writes_block m <> Some b ->
  (forall p old new k, m <> PRealloc p old new k) ->
  match access al m (h_set b c1 h), access al m (h_set b c2 h) with
  | Done m1 _, Done m2 _ => m1 = m2
  | Abort, Abort | Crash, Crash | UB, UB => True
  | _, _ => False
  end.
Proof. exact @access_reads. Qed.
Print Assumptions C77_reads.
Example C77_access_ex : let m := PDealloc 5 1 (PRet tt) in
  writes_block m = Some 5 /\ access bump m [(5, [1]); (9, [2])] = Done (PRet tt) [(9, [2])] /\
  access bump (PLoad 9 0 1 PRet) [(5, [1]); (9, [2])] = Done (PRet [2]) [(5, [1]); (9, [2])].
Proof. repeat split. Qed.

(** ** Any number of threads, any order of their accesses *)
Theorem C77_le : forall n al acts s h0, good_allocator al -> srun n 23 acts sempty = Some s ->
  match mrun LE PLE al acts (mempty LE h0) with
  | Ran m => ~ race LE m /\ agrees LE h0 m s
  | Refused => out_of_memory al
  | Early => True
  | Crashed | Undefined => False
  end.
Proof. intros n al acts s h0. exact (threads_run LE PLE (Rep LE le_view) LE_all LE_implements PLE_light LE_clone n al acts s h0). Qed.
Print Assumptions C77_le.
Theorem C77_ue : forall n al acts s h0, good_allocator al -> srun n 16 acts sempty = Some s ->
  match mrun UE PUE al acts (mempty UE h0) with
  | Ran m => ~ race UE m /\ agrees UE h0 m s
  | Refused => out_of_memory al
  | Early => True
  | Crashed | Undefined => False
  end.
Proof. intros n al acts s h0. exact (threads_run UE PUE (Rep UE ue_view) UE_all UE_implements PUE_light UE_clone n al acts s h0). Qed.
Print Assumptions C77_ue.

(** An operation that has begun returns after some accesses, whatever the others have
    done so far, unless the allocator refuses. *)
Theorem C77_le_progress : forall n al acts s h0 m t, good_allocator al -> srun n 23 acts sempty = Some s ->
  mrun LE PLE al acts (mempty LE h0) = Ran m -> t_busy (m_threads m t) <> None ->
  exists k, match mrun LE PLE al (repeat (Tick t) k ++ [Finish t]) m with Ran _ => True | Refused => out_of_memory al | _ => False end.
Proof. intros n al acts s h0 m t. exact (threads_progress LE PLE (Rep LE le_view) LE_all LE_implements PLE_light LE_clone n al acts s h0 m t). Qed.
Print Assumptions C77_le_progress.
Theorem C77_ue_progress : forall n al acts s h0 m t, good_allocator al -> srun n 16 acts sempty = Some s ->
  mrun UE PUE al acts (mempty UE h0) = Ran m -> t_busy (m_threads m t) <> None ->
  exists k, match mrun UE PUE al (repeat (Tick t) k ++ [Finish t]) m with Ran _ => True | Refused => out_of_memory al | _ => False end.
Proof. intros n al acts s h0 m t. exact (threads_progress UE PUE (Rep UE ue_view) UE_all UE_implements PUE_light UE_clone n al acts s h0 m t). Qed.
Print Assumptions C77_ue_progress.

(** Two threads fill a buffer each at the same time; the first is shared, both clone and
    read it at the same time; it goes back and away; a clone is sent over. *)
Definition long1 : list N := [1; 2; 3; 4; 5; 6; 7; 8; 9; 10; 11; 12; 13; 14; 15; 16; 17; 18; 19; 20; 21; 22; 23; 24; 25].
Definition long2 : list N := [101; 2; 3; 4; 5; 6; 7; 8; 9; 10; 11; 12; 13; 14; 15; 16; 17; 18; 19; 20; 21; 22; 23; 24; 125].
(** [e]: accesses that the little-endian layout makes more (it copies the contents, none so far, of the new buffer to the new block). *)
Definition sample_acts (e : nat) : list act :=
  [Start 0 (OFromSlice 0 long1); Start 1 (OFromSlice 0 long2); Tick 0; Tick 1] ++ repeat (Tick 0) e ++ repeat (Tick 1) e ++
  [Tick 1; Tick 0; Finish 1; Finish 0; Share 0 0 0; StartClone 0 0 1; StartClone 1 0 1; Tick 1; Tick 0] ++ repeat (Tick 1) e ++ repeat (Tick 0) e ++
  [Tick 0; Tick 1; Tick 0; Tick 1; Finish 0; StartRead 0 0; Finish 1; Tick 0; Finish 0;
   Unshare 0 1 2; Start 1 (ODrop 2); Start 0 (OWrite 1 [26]); Tick 0; Tick 1; Tick 0; Finish 0; Finish 1; Send 1 1 0 2; Start 1 (ODrop 0); Tick 1].
Example C77_le_ex : good_allocator bump /\
  match srun 2 23 (sample_acts 1) sempty with
  | Some s => st_seen (s_threads s 0%nat) = [map Some long1] /\ st_busy (s_threads s 1%nat) = Some None /\
      st_vars (s_threads s 0%nat) 2%nat = EBuf (map Some long1) 25
  | None => False
  end /\
  match mrun LE PLE bump (sample_acts 1) (mempty LE []) with
  | Ran m => t_seen (m_threads m 0%nat) = [long1] /\ nlen (m_heap m) = 2 /\
      match t_vars (m_threads m 0%nat) 1%nat with VBuf r => L_slice LE r (m_heap m) = Done (long1 ++ [26]) (m_heap m) | _ => False end
  | _ => False
  end.
Proof.
  split; [exact bump_good|]. split; vm_compute; auto.
Qed.
Example C77_ue_ex : good_allocator bump /\
  match srun 2 16 (sample_acts 0) sempty with Some s => st_seen (s_threads s 0%nat) = [map Some long1] | None => False end /\
  match mrun UE PUE bump (sample_acts 0) (mempty UE []) with
  | Ran m => t_seen (m_threads m 0%nat) = [long1] /\ nlen (m_heap m) = 2 /\
      match t_vars (m_threads m 0%nat) 1%nat with VBuf r => L_slice UE r (m_heap m) = Done (long1 ++ [26]) (m_heap m) | _ => False end
  | _ => False
  end.
Proof.
  split; [exact bump_good|]. split; vm_compute; auto.
Qed.
(** A shared buffer taken back while it is read: what Rust forbids does race. *)
Definition taken_too_early : list act :=
  [Start 0 (OFromSlice 0 long1); Tick 0; Tick 0; Tick 0; Finish 0; Share 0 0 0; StartRead 1 0; Unshare 0 0 0; Start 0 (ODrop 0)].
Definition clash (t u : nat) (m : machine LE) : bool :=
  match t_busy (m_threads m t), t_busy (m_threads m u) with
  | Some p, Some q => match writes_block p, reads_block q with Some b, Some b' => b =? b' | _, _ => false end
  | _, _ => false
  end.
Lemma clash_race t u m : t <> u -> clash t u m = true -> race LE m.
Proof.
  intros Ne. unfold clash. destruct (t_busy (m_threads m t)) as [p|] eqn:A; [|discriminate]. destruct (t_busy (m_threads m u)) as [q|] eqn:B; [|discriminate].
  destruct (writes_block p) as [b|] eqn:W; [|discriminate]. destruct (reads_block q) as [b'|] eqn:R; [|discriminate]. intros E%N.eqb_eq. subst b'.
  exists t, u, p, q, b. repeat split; auto.
Qed.
Example C77_race_ex : srun 2 23 taken_too_early sempty = None /\
  match mrun LE PLE bump taken_too_early (mempty LE []) with Ran m => race LE m | _ => False end.
Proof.
  split; [vm_compute; reflexivity|].
  assert (match mrun LE PLE bump taken_too_early (mempty LE []) with Ran m => clash 0 1 m | _ => false end = true) as E by (vm_compute; reflexivity).
  destruct (mrun LE PLE bump taken_too_early (mempty LE [])); try discriminate E. apply (clash_race 0 1); [discriminate | exact E].
Qed.
