(** Properties of the small-buffer storage (C19, C20, C48). *)
From Verif Require Import Base ModelBuf ModelHeap ModelBufLE ModelBufUE SpecBuf RawProofs RawMain.

(** A history touching everything: inline storage, growth, a move over the inline
    buffer, clones on both sides of the switch, vectors in and out. *)
Definition sample_history : list bop :=
  [ONew 0; OWrite 0 [1; 2; 3]; OPush 0 4; OClone 0 1; OMove 0 0 10 4; OSetLen 0 14; OStore 0 4 [9; 9; 9; 9; 9; 9];
   OReserve 0 30; OExtend 0 [5; 6]; OPush 0 7; OClone 0 2; OReserve 0 100; OSetLen 0 2; OWrite 0 [8];
   OVec 3 [11; 12] 1; OFromVec 3; OPush 3 13; OIntoVec 3; OFromVec 3; OWrite 3 [14];
   OIntoVec 1; OWithCapacity 4 40; OFromSlice 5 [1; 2; 3; 4; 5; 6; 7; 8; 9; 10; 11; 12; 13; 14; 15; 16; 17; 18; 19; 20; 21; 22; 23]; ODrop 2].

(** ** C19: the little-endian layout behaves as a byte vector *)
Theorem C19_history : forall al os e h0, good_allocator al ->
  erun 23 os eempty = Some e ->
  match rrun LE al os vempty h0 with
  | Done v h =>
      (forall i, shows LE h (v i) (e i)) /\
      (forall a c, h_get a h0 = Some c -> h_get a h = Some c) /\
      ((forall i, e i = EEmpty) -> forall a, h_get a h = h_get a h0)
  | Abort => out_of_memory al
  | Crash | UB => False
  end.
Proof.
  intros al os e h0 G. apply (history LE al G (Rep LE le_view)).
  apply (follows_refines good_allocator); [assumption | assumption | discriminate | exact LE_follows].
Qed.
Print Assumptions C19_history.
Theorem C19_refines : forall al, good_allocator al -> buffer_refines LE al (Rep LE le_view).
Proof. intros al G. apply (follows_refines good_allocator); [assumption | assumption | discriminate | exact LE_follows]. Qed.
Print Assumptions C19_refines.
Example C19_ex : good_allocator bump /\
  match erun 23 sample_history eempty with
  | Some e => e 0%nat = EBuf (map Some [1; 2; 8; 4; 9; 9; 9; 9; 9; 9; 1; 2; 3; 4; 5; 6; 7] ++ unknown 100) 3 /\ e 3%nat = EBuf (map Some [11; 12; 13; 14]) 4 /\
              e 1%nat = EVec (map Some [1; 2; 3; 4]) 4
  | None => False
  end /\
  match rrun LE bump sample_history vempty [] with
  | Done v h => match v 0%nat, v 3%nat with
                | VBuf r, VBuf q => L_slice LE r h = Done [1; 2; 8] h /\ L_capacity LE r = 117 /\ L_slice LE q h = Done [11; 12; 13; 14] h
                | _, _ => False
                end /\ length h = 4%nat
  | _ => False
  end.
Proof. split; [exact bump_good|]. vm_compute. repeat split; reflexivity. Qed.

(** ** C20: so does the portable layout *)
Theorem C20_history : forall al os e h0, good_allocator al ->
  erun 16 os eempty = Some e ->
  match rrun UE al os vempty h0 with
  | Done v h =>
      (forall i, shows UE h (v i) (e i)) /\
      (forall a c, h_get a h0 = Some c -> h_get a h = Some c) /\
      ((forall i, e i = EEmpty) -> forall a, h_get a h = h_get a h0)
  | Abort => out_of_memory al
  | Crash | UB => False
  end.
Proof.
  intros al os e h0 G. apply (history UE al G (Rep UE ue_view)).
  apply (follows_refines good_allocator); [assumption | assumption | discriminate | exact UE_follows].
Qed.
Print Assumptions C20_history.
Theorem C20_refines : forall al, good_allocator al -> buffer_refines UE al (Rep UE ue_view).
Proof. intros al G. apply (follows_refines good_allocator); [assumption | assumption | discriminate | exact UE_follows]. Qed.
Print Assumptions C20_refines.
Example C20_ex : good_allocator bump /\
  match erun 16 sample_history eempty with
  | Some e => e 0%nat = EBuf (map Some [1; 2; 8; 4; 9; 9; 9; 9; 9; 9; 1; 2; 3; 4; 5; 6; 7] ++ unknown 100) 3
  | None => False
  end /\
  match rrun UE bump sample_history vempty [] with
  | Done v h => match v 0%nat, v 3%nat with
                | VBuf r, VBuf q => L_slice UE r h = Done [1; 2; 8] h /\ L_capacity UE r = 117 /\ L_slice UE q h = Done [11; 12; 13; 14] h
                | _, _ => False
                end /\ length h = 5%nat
  | _ => False
  end.
Proof. split; [exact bump_good|]. vm_compute. repeat split; reflexivity. Qed.

(** ** C48: reserve keeps the allocator's contract whatever it is asked for *)
(** It does not: on a buffer already on the heap, a request above isize::MAX reaches
    [realloc], whose contract forbids it. *)
Theorem C48_le_refuted : exists al, good_allocator al /\
  rrun LE al [OVec 0 [1] 0; OFromVec 0; OReserve 0 isize_max] vempty [] = UB.
Proof. exists bump. split; [exact bump_good | vm_compute; reflexivity]. Qed.
Print Assumptions C48_le_refuted.
Theorem C48_ue_refuted : exists al, good_allocator al /\
  rrun UE al [OVec 0 [1] 0; OFromVec 0; OReserve 0 isize_max] vempty [] = UB.
Proof. exists bump. split; [exact bump_good | vm_compute; reflexivity]. Qed.
Print Assumptions C48_ue_refuted.
(** It does from inline storage, and for requests within isize::MAX. *)
Theorem C48_le_partial : forall al r h b own k, good_allocator al -> Rep LE le_view r h b own ->
  own = None \/ b_len b + k <= isize_max -> L_reserve LE al k r h <> UB.
Proof.
  intros al r h b own k G R [->|H].
  - now apply le_reserve_stack with b.
  - pose proof (br_reserve _ _ _ (C19_refines al G) _ _ _ _ k R H) as K. destruct (L_reserve LE al k r h); try discriminate. contradiction.
Qed.
Print Assumptions C48_le_partial.
Theorem C48_ue_partial : forall al r h b own k, good_allocator al -> Rep UE ue_view r h b own ->
  own = None \/ b_len b + k <= isize_max -> L_reserve UE al k r h <> UB.
Proof.
  intros al r h b own k G R [->|H].
  - now apply ue_reserve_stack with b.
  - pose proof (br_reserve _ _ _ (C20_refines al G) _ _ _ _ k R H) as K. destruct (L_reserve UE al k r h); try discriminate. contradiction.
Qed.
Print Assumptions C48_ue_partial.
Example C48_ex :
  Rep LE le_view (L_new LE) [] (bf_new {| init_cap := 23; junk := fun _ => 0 |}) None /\
  L_reserve LE bump (isize_max + 1) (L_new LE) [] = Crash /\ L_reserve UE bump (isize_max + 1) (L_new UE) [] = Crash.
Proof. split; [exact (br_new _ _ _ (C19_refines bump bump_good) [] (fun _ => 0)) | vm_compute; auto]. Qed.
