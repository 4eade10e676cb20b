(** C88: values made of octets that nobody has checked. *)
From Coq Require Import Lia.
From Verif Require Import Base ModelIo ModelTag ModelContents ModelBuf ModelTlv ModelHeap ModelBufLE ModelBufUE ModelTlvRaw ModelRelease ModelLoose ModelSerde
  Spec SpecIo SpecBuf SpecTlv SpecLoose BufProofs RawProofs RawMain RawTlv RawLimits RelProofs LooseProofs LooseOver SerdeSer PropsBuf PropsUnwind PropsRelease.


(** Octets that claim no more than they are can be made a value of, and be edited, without harm. *)
Definition C88_statement (checked : list N -> Prop) : Prop :=
  forall y L ops Rp al bs es h, profiles L ops Rp -> good_allocator al -> bytes_ok bs -> checked bs -> Forall edit_ok es -> most es (nlen bs) <= isize_max ->
  let L' := released L ops in
  match made_of L al (edit_raw L al y) bs es h with
  | Done r h' => exists bs', L_slice L r h' = Done bs' h' /\ bytes_ok bs' /\ ~ overruns bs' /\ nlen bs' <= most es (nlen bs)
  | Abort => out_of_memory al | Crash => True | UB => False
  end /\
  match made_of L' al (edit_rel L' al y) bs es h with
  | Done r h' => exists bs', L_slice L' r h' = Done bs' h' /\ bytes_ok bs' /\ ~ overruns bs' /\ nlen bs' <= most es (nlen bs)
  | Abort => out_of_memory al | Crash => True | UB => False
  end.
Theorem C88_partial : C88_statement (fun bs => ~ overruns bs).
Proof.
  intros y L ops Rp al bs es h P G B O He Hm L'. apply fits_iff in O; [|assumption].
  destruct (profiles_facts al L ops Rp G P) as (HL & RO). destruct (layouts_facts al L Rp G HL) as (BR & _). pose proof (released_refines L al Rp BR ops RO) as BR'.
  assert (K : forall LL (RR : L_raw LL -> heap -> buf -> option N -> Prop) step, buffer_refines LL al RR ->
    (forall e r h b own, RR r h b own -> fits_in (bf_slice b) -> edit_ok e -> b_len b + more e <= isize_max -> calm al (step e r h) (owns LL RR own h fits_in (b_len b + more e))) ->
    match made_of LL al step bs es h with
    | Done r h' => exists bs', L_slice LL r h' = Done bs' h' /\ bytes_ok bs' /\ ~ overruns bs' /\ nlen bs' <= most es (nlen bs)
    | Abort => out_of_memory al | Crash => True | UB => False
    end).
  { intros LL RR step BB S. pose proof (made_calm LL al RR BB step bs es h S B O He Hm) as C. unfold calm in C. destruct (made_of LL al step bs es h) as [r h'| | |]; try assumption.
    destruct C as (b & own & R & _ & F & Ln). destruct (rp_holds LL al RR BB _ _ _ _ R) as (_ & Bs & Ls & _). exists (bf_slice b). split; [exact (rp_slice LL al RR BB _ _ _ _ R)|].
    split; [assumption|]. split; [now apply fits_iff | lia]. }
  split; eapply K; try eassumption; intros; eapply step_calm; eassumption.
Qed.
Print Assumptions C88_partial.
Example C88_ex_partial : profiles LE le_ops (Rep LE le_view) /\ good_allocator bump /\ ~ overruns [4; 2; 7; 8] /\ Forall edit_ok [Extend [1; 2; 3]; Truncate 4; Write (fun c => rev c)] /\
  match made_of LE bump (edit_raw LE bump TyDer) [4; 2; 7; 8] [Extend [1; 2; 3]; Truncate 4; Write (fun c => rev c)] [],
        made_of LE bump (edit_rel LE bump TyBer) [4; 2; 7; 8] [Extend [1; 2; 3]; Truncate 4; Write (fun c => rev c)] [] with
  | Done r h, Done q k => L_slice LE r h = Done [4; 4; 2; 1; 8; 7] h /\ L_slice LE q k = Done [4; 4; 2; 1; 8; 7] k
  | _, _ => False
  end.
Proof.
  split; [constructor|]. split; [apply bump_good|]. split.
  - apply fits_iff; [now repeat constructor|]. intros id n c E. vm_compute in E. injection E as <- <- <-. now vm_compute.
  - split; [|now vm_compute]. repeat constructor. cbn [edit_ok]. intros c Hc. now apply Forall_rev.
Qed.

(** Of any octets it does not hold: a value of two octets that claims to have 127 more is extended by one. *)
Theorem C88_refuted : ~ C88_statement (fun _ => True).
Proof.
  intros H. destruct (H TyDer LE le_ops (Rep LE le_view) bump [4; 127] [Extend [1]] [] prof_le bump_good) as (A & _); [now repeat constructor | exact I | now repeat constructor | now vm_compute |].
  vm_compute in A. exact A.
Qed.
Print Assumptions C88_refuted.
Example C88_ex_refuted : overruns [4; 127] /\
  (forall y, made_of LE bump (edit_raw LE bump y) [4; 127] [Extend [1]] [] = UB /\ made_of UE bump (edit_raw UE bump y) [4; 127] [Extend [1]] [] = UB /\
     made_of LE_release bump (edit_rel LE_release bump y) [4; 127] [Extend [1]] [] = UB /\ made_of UE_release bump (edit_rel UE_release bump y) [4; 127] [Extend [1]] [] = UB).
Proof.
  split; [|intros []; now vm_compute]. exists 129. split; [|reflexivity]. exists [4], 127, [127]. split; [exists [127], []; split; [reflexivity|]; split; [now constructor | now constructor]|].
  split; [now constructor | reflexivity].
Qed.

(** Cutting such a value is stopped by a check in the development profile, but goes through in the release
    profile.  What is left cannot be read without leaving the memory. *)
Theorem C88_truncate_refuted : exists bs n, overruns bs /\ made_of LE bump (edit_raw LE bump TyDer) bs [Truncate n] [] = Crash /\
  exists r h, made_of LE_release bump (edit_rel LE_release bump TyDer) bs [Truncate n] [] = Done r h /\ L_slice LE_release r h = UB.
Proof.
  exists [4; 127], 126. split; [apply C88_ex_refuted|]. split; [now vm_compute|]. eexists. eexists. split; [vm_compute; reflexivity | now vm_compute].
Qed.
Print Assumptions C88_truncate_refuted.

(** Every such value: the octets of a value that claims [total] octets and has fewer, with one octet or more to add,
    where that is not within the 24 octets of the buffer itself. *)
Theorem C88_overruns : forall y L ops Rp al bs total w h, profiles L ops Rp -> good_allocator al -> bytes_ok bs -> bytes_ok w ->
  claims bs total -> nlen bs < total -> w <> [] -> 24 < total + nlen w -> total + nlen w < 2 ^ 64 -> nlen bs + nlen w + 8 <= isize_max ->
  let L' := released L ops in
  ends al (made_of L al (edit_raw L al y) bs [Extend w] h) UB /\ ends al (made_of L' al (edit_rel L' al y) bs [Extend w] h) UB.
Proof.
  intros y L ops Rp al bs total w h P G B Bw C O W0 Hx Hu Hm L'.
  destruct (profiles_facts al L ops Rp G P) as (HL & RO). destruct (layouts_facts al L Rp G HL) as (BR & _). pose proof (released_refines L al Rp BR ops RO) as BR'.
  assert (S : L_init_cap L <= 24) by (destruct P; discriminate).
  assert (Y : forall r h b own off n, Rp r h b own -> bf_cap b < off + n -> 24 < off + n -> L_load L off n r h = UB /\ forall w, nlen w = n -> L_store L off w r h = UB).
  { destruct P; intros; [eapply le_beyond | eapply ue_beyond]; eassumption. }
  split.
  - exact (proj1 (over_made L al Rp BR S Y y bs w h total B Bw W0 C O Hx Hu Hm)).
  - exact (proj2 (over_made L' al Rp BR' S Y y bs w h total B Bw W0 C O Hx Hu Hm)).
Qed.
Print Assumptions C88_overruns.
Example C88_ex_overruns : claims [36; 130; 1; 0; 9] 260 /\
  ends bump (made_of UE bump (edit_raw UE bump TyDer) [36; 130; 1; 0; 9] [Extend [1; 2]] []) UB.
Proof.
  split; [|now left; vm_compute]. exists [36], 256, [130; 1; 0]. split; [exists [130; 1; 0], [9]; split; [reflexivity|]; split; [now constructor|]|].
  - now apply (lo_long [1; 0]).
  - split; [|reflexivity]. apply (ml_long 256 1 [0]); try discriminate; try reflexivity. now repeat constructor.
Qed.

(** What extending leaves, where nothing is overrun.  [total] octets are claimed, and the ones behind them stay as
    many: the release profile does not write them, and the development profile panics unless there are none.
    Where the length octets were not minimal, the contents are taken from where minimal ones would end. *)
Theorem C88_extend : forall L ops Rp al r h b own w id n len len', profiles L ops Rp -> good_allocator al -> Rp r h b own -> bytes_ok w ->
  reads_as (bf_slice b) id (Some n) -> minimal_length n len -> minimal_length (n + nlen w) len' ->
  nlen id + nlen len + n <= b_len b -> b_len b + nlen w + 8 <= isize_max ->
  let L' := released L ops in
  let spare := b_len b - (nlen id + nlen len + n) in
  let octets z := id ++ len' ++ take n (drop (nlen id + nlen len) (bf_slice b)) ++ w ++ z in
  meets al (rel_Der_extend L' al w r h) (fun r' h' => exists z, nlen z = spare /\ L_slice L' r' h' = Done (octets z) h') /\
  (spare = 0 -> meets al (raw_Der_extend L al w r h) (fun r' h' => L_slice L r' h' = Done (octets []) h')) /\
  (spare <> 0 -> ends al (raw_Der_extend L al w r h) Crash).
Proof.
  intros L ops Rp al r h b own w id n len len' P G R Hw D M M' Hn Hm L'.
  destruct (profiles_facts al L ops Rp G P) as (HL & RO). destruct (layouts_facts al L Rp G HL) as (BR & _). pose proof (released_refines L al Rp BR ops RO) as BR'.
  destruct (rp_reads L al Rp BR r h b own id n R D) as (c & D' & Hs). assert (Hw' : n + nlen w < 2 ^ 64) by (assert (Hz : isize_max < 2 ^ 64) by reflexivity; lia).
  rewrite (minimal_is_to_bytes n len Hs M) in *. rewrite (minimal_is_to_bytes _ len' Hw' M') in *. rewrite !len_len in * by assumption.
  intros t o. split; [|split].
  - destruct (extend_at L' al Rp BR' r h b own w id n c R Hw D' Hn Hm) as (A & _). eapply meets_mono; [exact A|]. cbv beta.
    intros r' h' (b' & own' & z & R' & _ & S & Z). exists z. split; [assumption|]. rewrite (rp_slice L' al Rp BR' _ _ _ _ R'), S. reflexivity.
  - intros T. destruct (extend_at L al Rp BR r h b own w id n c R Hw D' Hn Hm) as (_ & A & _). specialize (A T). eapply meets_mono; [exact A|]. cbv beta.
    intros r' h' (b' & own' & R' & _ & S). rewrite (rp_slice L al Rp BR _ _ _ _ R'), S. reflexivity.
  - intros T. destruct (extend_at L al Rp BR r h b own w id n c R Hw D' Hn Hm) as (_ & _ & A). specialize (A T). unfold ends.
    destruct (raw_Der_extend L al w r h); cbn [meets] in A; try contradiction; auto.
Qed.
Print Assumptions C88_extend.
Example C88_ex_extend :
  match made_of LE_release bump (edit_rel LE_release bump TyDer) [4; 1; 7; 8; 9] [Extend [5]] [] with
  | Done r h => L_slice LE_release r h = Done [4; 2; 7; 5; 9; 0] h | _ => False end /\
  made_of LE bump (edit_raw LE bump TyDer) [4; 1; 7; 8; 9] [Extend [5]] [] = Crash.
Proof. now vm_compute. Qed.

(** What cutting leaves: nothing is left behind the contents. *)
Theorem C88_truncate : forall L ops Rp al r h b own m id n len len', profiles L ops Rp -> good_allocator al -> Rp r h b own ->
  reads_as (bf_slice b) id (Some n) -> minimal_length n len -> minimal_length m len' -> nlen id + nlen len + n <= b_len b -> m < n ->
  let L' := released L ops in
  let octets := id ++ len' ++ take m (drop (nlen id + nlen len) (bf_slice b)) in
  (exists r' h', raw_Der_truncate L m r h = Done r' h' /\ L_slice L r' h' = Done octets h') /\
  (exists r' h', rel_Der_truncate L' m r h = Done r' h' /\ L_slice L' r' h' = Done octets h').
Proof.
  intros L ops Rp al r h b own m id n len len' P G R D M M' Hn Hm L'.
  destruct (profiles_facts al L ops Rp G P) as (HL & RO). destruct (layouts_facts al L Rp G HL) as (BR & _). pose proof (released_refines L al Rp BR ops RO) as BR'.
  destruct (rp_reads L al Rp BR r h b own id n R D) as (c & D' & Hs).
  rewrite (minimal_is_to_bytes n len Hs M) in *. rewrite (minimal_is_to_bytes m len' ltac:(lia) M') in *. rewrite len_len in * by assumption.
  destruct (truncate_at L al Rp BR r h b own m id n c R D' Hn Hm) as (r1 & h1 & b1 & E1 & _ & R1 & _ & S1 & _).
  destruct (truncate_at L' al Rp BR' r h b own m id n c R D' Hn Hm) as (r2 & h2 & b2 & _ & E2 & R2 & _ & S2 & _).
  intros o. split; [exists r1, h1; split; [assumption|] | exists r2, h2; split; [assumption|]].
  - rewrite (rp_slice L al Rp BR _ _ _ _ R1), S1. reflexivity.
  - rewrite (rp_slice L' al Rp BR' _ _ _ _ R2), S2. reflexivity.
Qed.
Print Assumptions C88_truncate.
Example C88_ex_truncate :
  match made_of LE bump (edit_raw LE bump TyDer) [4; 2; 7; 8; 9] [Truncate 1] [], made_of UE_release bump (edit_rel UE_release bump TyDer) [4; 129; 3; 7; 8; 9] [Truncate 2] [] with
  | Done r h, Done q k => L_slice LE r h = Done [4; 1; 7] h /\ L_slice UE_release q k = Done [4; 2; 3; 7] k | _, _ => False end.
Proof. now vm_compute. Qed.

(** [to_der] hands such octets out for an implementation of Serialize that is wrong about its length. *)
Theorem C88_to_der : forall E id n c, n < 2 ^ 64 -> nlen (id ++ Length_to_bytes (Definite n) ++ c) <= isize_max ->
  exists S : serialize unit, exists b, to_der E S tt = Ok b /\ bf_slice b = id ++ Length_to_bytes (Definite n) ++ c.
Proof. intros E id n c Hn H. exists (says id n c). now apply says_der. Qed.
Print Assumptions C88_to_der.
Example C88_ex_to_der : exists S : serialize unit, exists b, to_der {| e_cfg := {| init_cap := 23; junk := fun _ => 0 |}; e_debug := true; e_place := fun A x l => x :: l |} S tt = Ok b /\
  bf_slice b = [4; 127] /\ overruns (bf_slice b).
Proof. destruct (C88_to_der {| e_cfg := {| init_cap := 23; junk := fun _ => 0 |}; e_debug := true; e_place := fun A x l => x :: l |} [4] 127 []) as (S & b & E & F); [reflexivity | now vm_compute |].
  exists S, b. split; [exact E|]. rewrite F. split; [reflexivity | apply C88_ex_refuted]. Qed.
