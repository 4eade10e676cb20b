(** C78, with protectors: while a function runs, the references that it has as arguments may not be invalidated. *)
From Verif Require Import Base ModelBorrow SpecBorrow SpecGuard BorrowProofs BorrowMain BorrowMore BorrowGuard BorrowHist BorrowUse BorrowRules BorrowGuardRules BorrowNest BorrowArgs PropsBorrow.

(** ** The rules *)
Theorem C78_rules_protectors : forall call open s s',
  (forall t, guarded call open t = true <-> protects call open t) /\
  (sb_kept call open s s' = true <-> stay call open s s') /\
  (forall g w nodes, grown nodes -> forall t r, tb_guard_access g w t nodes = Some r <-> Forall2 (accessed_protected g w nodes t) nodes r).
Proof. intros. split; [intros; apply guarded_rule|]. split; [apply kept_rule|]. intros. now apply access_rule_g. Qed.
Print Assumptions C78_rules_protectors.
(** A mutable reference is written through, and then the object is read while the function with the reference runs; after it has returned
    that is right.  A shared reference, and the object is written.  Protectors make no difference to a function that does not do such things. *)
Example C78_protectors_ex :
  let es := [Retag KMut 0 0 1 0 4; Enter 1; Write 0 1 0 4; Read 0 0 0 4; Leave 1] in
  let fs := [Retag KMut 0 0 1 0 4; Enter 1; Write 0 1 0 4; Leave 1; Read 0 0 0 4] in
  let gs := [Retag KShr 0 0 1 0 4; Enter 1; Write 0 0 0 4; Leave 1] in
  let hs := [Retag KMut 0 0 1 0 4; Enter 1; Read 0 0 0 4; Write 0 1 0 4; Leave 1] in
  (sb_run 1 0 0 es sb_new <> None /\ sb_guard_run 1 0 0 es [] sb_new = None /\ tb_run 1 0 0 es tb_new <> None /\ tb_guard_run 1 0 0 es [] tb_new = None) /\
  (sb_guard_run 1 0 0 fs [] sb_new <> None /\ tb_guard_run 1 0 0 fs [] tb_new <> None) /\
  (sb_run 1 0 0 gs sb_new <> None /\ sb_guard_run 1 0 0 gs [] sb_new = None /\ tb_run 1 0 0 gs tb_new <> None /\ tb_guard_run 1 0 0 gs [] tb_new = None) /\
  (tb_run 1 0 0 hs tb_new <> None /\ tb_guard_run 1 0 0 hs [] tb_new = None).
Proof. vm_compute. repeat split; discriminate. Qed.
(** What is right with protectors is right without. *)
Theorem C78_protectors_forbid : forall h, (stacked_args h -> stacked h) /\ (tree_args h -> tree h).
Proof. intros h. split; [apply stacked_weaken | apply tree_weaken]. Qed.
Print Assumptions C78_protectors_forbid.

(** ** Functions begin and return in order, and references to the structure of a buffer are arguments of functions *)
Theorem C78_scopes : forall c v e,
  (nested (snd (do_call ALE c v 1%nat)) [] /\ nested (do_end ALE e v) [] /\ nested (snd (do_call AUE c v 1%nat)) [] /\ nested (do_end AUE e v) []) /\
  (view_ok 23 v -> call_ok c v -> arguments (snd (do_call ALE c v 1%nat)) /\ arguments (do_end ALE e v)) /\
  (view_ok 16 v -> call_ok c v -> arguments (snd (do_call AUE c v 1%nat)) /\ arguments (do_end AUE e v)).
Proof.
  intros c v e. split; [|split].
  - repeat split; [apply le_nested | apply end_nested | apply ue_nested | apply end_nested].
  - intros V C. split; [now apply le_arguments | now apply end_arguments].
  - intros V C. split; [now apply ue_arguments | now apply end_arguments].
Qed.
Print Assumptions C78_scopes.
Example C78_scopes_ex : snd (do_call AUE CLen empty16 1%nat) = [Retag KShr 0 0 1 0 24; Enter 1; Retag KShr 0 1 2 0 24; Enter 2; Read 0 2 16 8; Leave 2; Leave 1].
Proof. reflexivity. Qed.

(** ** Buffers: protectors forbid nothing that the functions do but what is forbidden anyway *)
Theorem C78_portable_args : forall cs v e, view_ok 16 v -> calls_ok AUE cs v -> stacked_args (life AUE cs e v) /\ tree_args (life AUE cs e v).
Proof. exact ue_args. Qed.
Print Assumptions C78_portable_args.
Theorem C78_little_endian_args : forall cs v e, view_ok 23 v -> calls_ok ALE cs v ->
  (stacked_args (life ALE cs e v) <-> some_call ALE claims_inside cs v = false) /\
  (tree_args (life ALE cs e v) <-> some_call ALE writes_inside cs v = false).
Proof. intros cs v e V C. split; [now apply le_args_sb | now apply le_args_tb]. Qed.
Print Assumptions C78_little_endian_args.
Example C78_args_ex : view_ok 16 empty16 /\ calls_ok AUE some_calls empty16 /\
  view_ok 23 empty23 /\ calls_ok ALE [CReserve 30; CPush; CClone; CExtend 20; CMutSlice 3 4] empty23 /\
  some_call ALE claims_inside [CReserve 30; CPush; CExtend 20; CMutSlice 3 4] empty23 = false /\ some_call ALE writes_inside some_calls empty23 = true.
Proof. vm_compute. repeat split; try discriminate. Qed.

(** ** The other functions *)
Theorem C78_others_args : forall size z extra n id l,
  (0 < size <= 16 -> z < size -> tree_args1 (snd (sb_from_positive AUE size z extra 1%nat)) /\
    ((extra = true -> 0 < z) -> tree_args1 (snd (sb_from_negative AUE size z extra 1%nat)))) /\
  (n <= size -> stacked_args1 (snd (c_to_integer size n 1%nat)) /\ tree_args1 (snd (c_to_integer size n 1%nat))) /\
  (n <= 8 -> stacked_args1 (snd (l_to_bytes n 1%nat)) /\ tree_args1 (snd (l_to_bytes n 1%nat))) /\
  (stacked_args1 (snd (d_with_id_length AUE id l n 2 1%nat)) /\ tree_args1 (snd (d_with_id_length AUE id l n 2 1%nat))) /\
  (23 < id + l + n -> stacked_args1 (snd (d_with_id_length ALE id l n 2 1%nat)) /\ tree_args1 (snd (d_with_id_length ALE id l n 2 1%nat))).
Proof.
  intros. repeat apply conj.
  - intros H Z. split; [now apply ue_positive_args | intros E; now apply ue_negative_args].
  - intros H. now apply fine_args_all, to_integer_fine.
  - intros H. now apply fine_args_all, to_bytes_fine.
  - apply fine_args_all, ue_with_id_length.
  - apply fine_args_all, ue_with_id_length.
  - intros H. now apply fine_args_all, le_with_id_length_heap.
Qed.
Print Assumptions C78_others_args.
Theorem C78_parse_mut_args : forall total used us, used <= total -> Forall (use_ok used (total - used)) us ->
  stacked_args1 (session total (d_parse_mut total used) us) /\ tree_args1 (session total (d_parse_mut total used) us).
Proof. exact parse_mut_args. Qed.
Print Assumptions C78_parse_mut_args.
Theorem C78_disassemble_mut_args : forall id l n us,
  tree_args1 (session (id + l + n) (d_disassemble_mut id l n) us) <-> forallb (fun u => negb (is_write u)) us = true.
Proof. exact disassemble_mut_args. Qed.
Print Assumptions C78_disassemble_mut_args.
Example C78_views_args_ex : nlen (snd (d_with_id_length AUE 1 1 3 2 1%nat)) = 48 /\
  (let us := [{| u_second := false; u_write := false; u_lo := 0; u_n := 5 |}; {| u_second := true; u_write := false; u_lo := 1; u_n := 2 |}] in
   Forall (use_ok 5 7) us /\ forallb (fun u => negb (is_write u)) us = true).
Proof. split; [vm_compute; reflexivity|]. split; [|reflexivity]. repeat constructor; unfold use_ok; cbn; lia. Qed.
