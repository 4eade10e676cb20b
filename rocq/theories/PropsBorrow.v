(** C78: the unsafe code under the aliasing models Stacked Borrows and Tree Borrows. *)
From Verif Require Import Base ModelBorrow SpecBorrow BorrowProofs BorrowMain BorrowUe BorrowLe BorrowBad BorrowHist BorrowMore BorrowUse BorrowRules BorrowPlace.

(** ** The models are the ones of the literature *)
Theorem C78_rules_stacks : forall t new s s',
  (sb_read t s = Some s' <-> reads t s s') /\
  (sb_write t s = Some s' <-> writes t s s') /\
  (sb_retag KMut t new s = Some s' <-> exists r, writes t s r /\ s' = (new, Unique) :: r) /\
  (sb_retag KShr t new s = Some s' <-> exists r, reads t s r /\ s' = (new, SharedRO) :: r) /\
  (sb_retag KRawConst t new s = Some s' <-> exists r, reads t s r /\ s' = (new, SharedRO) :: r) /\
  (sb_retag KRawMut t new s = Some s' <-> puts t new s s').
Proof.
  intros t new s s'.
  assert (forall q, (match sb_read t s with Some r => Some ((new, q) :: r) | None => None end = Some s' <-> exists r, reads t s r /\ s' = (new, q) :: r)) as R.
  { intros q. split.
    - destruct (sb_read t s) as [r|] eqn:E; [|discriminate]. intros H. inversion H. exists r. split; [now apply read_rule | reflexivity].
    - intros (r & H & ->). apply read_rule in H. now rewrite H. }
  split; [apply read_rule|]. split; [apply write_rule|]. split; [|split; [apply R | split; [apply R | apply raw_rule]]].
  cbn [sb_retag]. split.
  - destruct (sb_write t s) as [r|] eqn:E; [|discriminate]. intros H. inversion H. exists r. split; [now apply write_rule | reflexivity].
  - intros (r & H & ->). apply write_rule in H. now rewrite H.
Qed.
Print Assumptions C78_rules_stacks.
(** A pointer is used, its reference is written through, the pointer is used again. *)
Example C78_rules_stacks_ex :
  sb_run 1 0 0 [Retag KMut 0 0 1 0 4; Retag KRawMut 0 1 2 0 4; Write 0 2 0 4; Write 0 1 0 1] sb_new = Some [(stamp 1 1, Unique); (stamp 0 0, Unique)] /\
  sb_run 1 0 0 [Retag KMut 0 0 1 0 4; Retag KRawMut 0 1 2 0 4; Write 0 2 0 4; Write 0 1 0 1; Read 0 2 0 4] sb_new = None /\
  sb_run 1 0 3 [Retag KMut 0 0 1 0 4; Retag KRawMut 0 1 2 0 4; Write 0 2 0 4; Write 0 1 0 1; Read 0 2 0 4] sb_new <> None /\
  sb_run 1 0 0 [Retag KShr 0 0 1 0 4; Retag KRawConst 0 1 2 0 4; Write 0 2 0 4] sb_new = None.
Proof. repeat split; discriminate. Qed.

Theorem C78_rules_trees : forall w nodes, grown nodes -> forall t r,
  tb_access w t nodes = Some r <-> Forall2 (accessed w nodes t) nodes r.
Proof. exact access_rule. Qed.
Print Assumptions C78_rules_trees.
Theorem C78_rules_tree_retag : forall b t new nodes,
  tb_retag b KMut t new nodes = (match (if b then tb_access false t nodes else Some nodes) with Some r => Some ((new, t, Reserved) :: r) | None => None end) /\
  tb_retag b KShr t new nodes = (match (if b then tb_access false t nodes else Some nodes) with Some r => Some ((new, t, Frozen) :: r) | None => None end) /\
  tb_retag b KRawMut t new nodes = Some ((new, t, Alias) :: nodes) /\ tb_retag b KRawConst t new nodes = Some ((new, t, Alias) :: nodes).
Proof. intros. repeat split. Qed.
Print Assumptions C78_rules_tree_retag.
(** A new mutable reference survives a read of its parent, but not after it was written through. *)
Example C78_rules_trees_ex :
  grown [((1, 1%nat), (0, 0%nat), Reserved); ((0, 0%nat), (0, 0%nat), Active)] /\
  tb_run 1 0 0 [Retag KMut 0 0 1 0 4; Read 0 0 0 4; Write 0 1 0 4] tb_new <> None /\
  tb_run 1 0 0 [Retag KMut 0 0 1 0 4; Write 0 1 0 4; Read 0 0 0 4; Read 0 1 0 4] tb_new <> None /\
  tb_run 1 0 0 [Retag KMut 0 0 1 0 4; Write 0 1 0 4; Read 0 0 0 4; Write 0 1 0 4] tb_new = None /\
  tb_run 1 0 0 [Retag KMut 0 0 1 0 4; Write 0 0 0 4; Read 0 1 0 4] tb_new = None.
Proof.
  split; [|repeat split; discriminate]. cbn. split; [|split; [left; discriminate|split; [constructor | split; [right; reflexivity | exact I]]]].
  constructor; [split; discriminate | constructor].
Qed.

(** ** What the calls do to a buffer *)
Theorem C78_calls : forall c v,
  (view_ok 23 v -> call_ok c v -> view_ok 23 (fst (fst (do_call ALE c v 1%nat))) /\ view_after c v (fst (fst (do_call ALE c v 1%nat)))) /\
  (view_ok 16 v -> call_ok c v -> view_ok 16 (fst (fst (do_call AUE c v 1%nat))) /\ view_after c v (fst (fst (do_call AUE c v 1%nat)))).
Proof. intros c v. split; [apply le_after | apply ue_after]. Qed.
Print Assumptions C78_calls.

(** ** Buffers of the portable layout keep to both models, whatever is called and however long *)
Theorem C78_portable : forall cs v e, view_ok 16 v -> calls_ok AUE cs v -> stacked (life AUE cs e v) /\ tree (life AUE cs e v).
Proof. exact ue_life. Qed.
Print Assumptions C78_portable.
Definition empty16 : view := {| v_inline := true; v_len := 0; v_cap := 16; v_block := 2; v_next := 3 |}.
Definition empty23 : view := {| v_inline := true; v_len := 0; v_cap := 23; v_block := 2; v_next := 3 |}.
Definition some_calls : list bcall :=
  [CPush; CReserve 10; CMutSlice 0 1; CClone; CReserve 30; CExtend 20; CMutSlice 3 4; CClone; CDerExtend 1 1 2 19 200; CDerTruncate 1 2 1 5; CBerExtend 3; CSetLen 2; CSlice].
Example C78_portable_ex : view_ok 16 empty16 /\ calls_ok AUE some_calls empty16 /\
  snd (history AUE some_calls empty16 1) = {| v_inline := false; v_len := 2; v_cap := 222; v_block := 8; v_next := 9 |}.
Proof. vm_compute. repeat split; try discriminate. Qed.

(** ** Buffers of the little endian layout do not: [as_mut_ptr] makes its pointer from a shared reference *)
Theorem C78_little_endian_refuted :
  ~ (forall cs v e, view_ok 23 v -> calls_ok ALE cs v -> stacked (life ALE cs e v)) /\
  ~ (forall cs v e, view_ok 23 v -> calls_ok ALE cs v -> tree (life ALE cs e v)).
Proof.
  assert (view_ok 23 empty23) as V by (vm_compute; repeat split; discriminate). assert (calls_ok ALE [CPush] empty23) as C by (vm_compute; repeat split). split; intros H.
  - specialize (H [CPush] empty23 EDrop V C 0 0). apply H. vm_compute. reflexivity.
  - specialize (H [CPush] empty23 EDrop V C 0 0). apply H. vm_compute. reflexivity.
Qed.
Print Assumptions C78_little_endian_refuted.
(** Exactly the sequences are bad that write to octets inside of a structure (or, for stacks, make a mutable slice of some). *)
Theorem C78_little_endian_stacks : forall cs v e, view_ok 23 v -> calls_ok ALE cs v ->
  (stacked (life ALE cs e v) <-> some_call ALE claims_inside cs v = false).
Proof. exact le_life_sb. Qed.
Print Assumptions C78_little_endian_stacks.
Theorem C78_little_endian_trees : forall cs v e, view_ok 23 v -> calls_ok ALE cs v ->
  (tree (life ALE cs e v) <-> some_call ALE writes_inside cs v = false).
Proof. exact le_life_tb. Qed.
Print Assumptions C78_little_endian_trees.
Example C78_little_endian_ex : view_ok 23 empty23 /\
  calls_ok ALE [CReserve 30; CPush; CExtend 20; CMutSlice 3 4] empty23 /\ some_call ALE claims_inside [CReserve 30; CPush; CExtend 20; CMutSlice 3 4] empty23 = false /\
  calls_ok ALE some_calls empty23 /\ some_call ALE writes_inside some_calls empty23 = true.
Proof. vm_compute. repeat split; try discriminate. Qed.

(** ** Every access is in place *)
(** Whole fields of the structure, or octets of the buffer within its capacity before or after the call; the caller's octets are only read.
    Octets inside the structure are not written by a call after which they are in a block. *)
Theorem C78_places : forall c v,
  (view_ok 23 v -> call_ok c v -> Forall (placed false (is_clone c) v (fst (fst (do_call ALE c v 1%nat)))) (snd (do_call ALE c v 1%nat))) /\
  (view_ok 16 v -> call_ok c v -> Forall (placed true (is_clone c) v (fst (fst (do_call AUE c v 1%nat)))) (snd (do_call AUE c v 1%nat))).
Proof. intros c v. split; [apply le_place | apply ue_place]. Qed.
Print Assumptions C78_places.
Theorem C78_places_end : forall e v,
  (view_ok 23 v -> Forall (placed false false v v) (do_end ALE e v)) /\ (view_ok 16 v -> Forall (placed true false v v) (do_end AUE e v)).
Proof. intros e v. split; [apply le_end_place | apply ue_end_place]. Qed.
Print Assumptions C78_places_end.
(** The copies of from_positive and from_negative. *)
Theorem C78_places_integers : forall A size z extra, A = ALE \/ A = AUE -> 0 < size <= 16 -> z < size -> (extra = true -> 0 < z) ->
  let v := fst (fst (sb_from_positive A size z extra 1%nat)) in let w := fst (fst (sb_from_negative A size z extra 1%nat)) in
  (v_len v = (if extra then size - z + 1 else size - z) /\ Forall (int_placed (A_init A) size size v) (snd (sb_from_positive A size z extra 1%nat))) /\
  (v_len w = (if extra then size - z + 1 else size - z) /\ Forall (int_placed (A_init A) 0 size w) (snd (sb_from_negative A size z extra 1%nat))).
Proof. exact int_place. Qed.
Print Assumptions C78_places_integers.
(** A buffer that moves to the heap in extend_from_slice; an integer of which one octet is needed. *)
Example C78_places_ex : let v := {| v_inline := true; v_len := 10; v_cap := 23; v_block := 2; v_next := 3 |} in
  view_ok 23 v /\ call_ok (CDerExtend 1 1 2 8 200) v /\
  fst (fst (do_call ALE (CDerExtend 1 1 2 8 200) v 1%nat)) = {| v_inline := false; v_len := 211; v_cap := 211; v_block := 3; v_next := 4 |} /\
  v_len (fst (fst (sb_from_negative ALE 16 15 false 1%nat))) = 1.
Proof. vm_compute. repeat split; try discriminate. Qed.

(** ** Contents of integers: a value of [size] octets, of which the first [z] are not needed *)
Definition ints (f : borrows -> N -> N -> bool -> tr view) (A : borrows) (size z : N) (extra : bool) : list event := snd (f A size z extra 1%nat).
Theorem C78_integers_refuted :
  ~ (forall size z high, 0 < size <= 16 -> z < size -> stacked1 (ints sb_from_positive AUE size z high)) /\
  ~ (forall size z high, 0 < size <= 16 -> z < size -> tree1 (ints sb_from_positive ALE size z high)).
Proof.
  split; intros H.
  - apply (ue_positive_sb 4 3 false); [lia | lia | apply H; lia].
  - apply (le_positive_tb 4 3 false); [lia | lia | apply H; lia].
Qed.
Print Assumptions C78_integers_refuted.
(** Writing through a pointer that was made before [set_len]: never right in stacks; in trees right on the portable layout, where no
    shared reference is involved. *)
Theorem C78_integers : forall size z extra, 0 < size <= 16 -> z < size ->
  (~ stacked1 (ints sb_from_positive ALE size z extra) /\ ~ tree1 (ints sb_from_positive ALE size z extra) /\
   ~ stacked1 (ints sb_from_positive AUE size z extra) /\ tree1 (ints sb_from_positive AUE size z extra)) /\
  ((extra = true -> 0 < z) ->
   ~ stacked1 (ints sb_from_negative ALE size z extra) /\ ~ tree1 (ints sb_from_negative ALE size z extra) /\
   ~ stacked1 (ints sb_from_negative AUE size z extra) /\ tree1 (ints sb_from_negative AUE size z extra)).
Proof.
  intros size z extra S Z. unfold ints. split; [|intros E]; repeat split.
  - now apply le_positive_sb.
  - now apply le_positive_tb.
  - now apply ue_positive_sb.
  - now apply ue_positive_tb.
  - now apply le_negative_sb.
  - now apply le_negative_tb.
  - now apply ue_negative_sb.
  - now apply ue_negative_tb.
Qed.
Print Assumptions C78_integers.
(** Reading integers and writing lengths is right. *)
Theorem C78_octets : forall size n,
  (n <= size -> stacked1 (snd (c_to_integer size n 1%nat)) /\ tree1 (snd (c_to_integer size n 1%nat))) /\
  (n <= 8 -> stacked1 (snd (l_to_bytes n 1%nat)) /\ tree1 (snd (l_to_bytes n 1%nat))).
Proof. intros size n. split; intros H; apply fine_stacked; [now apply to_integer_fine | now apply to_bytes_fine]. Qed.
Print Assumptions C78_octets.

(** ** Constructors of values *)
Theorem C78_with_id_length : forall id l n,
  let ue := snd (d_with_id_length AUE id l n 2 1%nat) in let le := snd (d_with_id_length ALE id l n 2 1%nat) in
  (stacked1 ue /\ tree1 ue) /\ (0 < id -> (stacked1 le <-> 23 < id + l + n) /\ (tree1 le <-> 23 < id + l + n)).
Proof.
  intros id l n ue le. split; [apply fine_stacked, ue_with_id_length|]. intros I. split; (split; [intros H|intros H; now apply fine_stacked, le_with_id_length_heap]).
  - destruct (N.ltb_spec 23 (id + l + n)) as [L|L]; [exact L|]. exfalso. revert H. now apply le_with_id_length_sb.
  - destruct (N.ltb_spec 23 (id + l + n)) as [L|L]; [exact L|]. exfalso. revert H. now apply le_with_id_length_tb.
Qed.
Print Assumptions C78_with_id_length.
Theorem C78_with_id_length_view : forall A id l n next, A = ALE \/ A = AUE -> v_len (fst (fst (d_with_id_length A id l n next 1%nat))) = id + l + n.
Proof. intros A id l n next [-> | ->]; unfold d_with_id_length, b_fresh; cbn [A_init ALE AUE]; destruct (_ <=? _); reflexivity. Qed.
Print Assumptions C78_with_id_length_view.
(** [Der::new] copies the contents through [mut_contents]. *)
Theorem C78_new_refuted :
  ~ (forall id l n, 0 < id -> 0 < l -> stacked1 (snd (d_new AUE id l n 1%nat))) /\ ~ (forall id l n, 0 < id -> 0 < l -> tree1 (snd (d_new AUE id l n 1%nat))).
Proof.
  split; intros H.
  - apply (ue_new_sb 1 1 5); [lia | lia | apply H; lia].
  - apply (ue_new_tb 1 1 5); [lia | lia | lia | apply H; lia].
Qed.
Print Assumptions C78_new_refuted.
Theorem C78_new : forall id l n, 0 < id -> 0 < l ->
  ~ stacked1 (snd (d_new AUE id l n 1%nat)) /\ ~ stacked1 (snd (d_new ALE id l n 1%nat)) /\
  (0 < n -> ~ tree1 (snd (d_new AUE id l n 1%nat)) /\ ~ tree1 (snd (d_new ALE id l n 1%nat))).
Proof.
  intros id l n I L. split; [now apply ue_new_sb|]. split; [now apply le_new_sb|]. intros P. split; [now apply ue_new_tb | now apply le_new_tb].
Qed.
Print Assumptions C78_new.

(** ** Mutable views *)

(** parse_mut: whatever is then read and written through the value and the rest. *)
Theorem C78_parse_mut : forall total used us, used <= total -> Forall (use_ok used (total - used)) us ->
  stacked1 (session total (d_parse_mut total used) us) /\ tree1 (session total (d_parse_mut total used) us).
Proof. exact parse_mut_ok. Qed.
Print Assumptions C78_parse_mut.
Example C78_parse_mut_ex :
  Forall (use_ok 5 7) [{| u_second := false; u_write := true; u_lo := 2; u_n := 3 |}; {| u_second := true; u_write := true; u_lo := 0; u_n := 7 |};
                       {| u_second := false; u_write := false; u_lo := 0; u_n := 5 |}] /\
  nlen (session 12 (d_parse_mut 12 5) [{| u_second := false; u_write := true; u_lo := 2; u_n := 3 |}]) = 10.
Proof. split; [|reflexivity]. repeat constructor; unfold use_ok; cbn; lia. Qed.
(** disassemble_mut (and so mut_id and mut_contents) makes mutable references from shared ones. *)
Theorem C78_disassemble_mut_refuted :
  ~ (forall id l n us, Forall (use_ok id n) us -> stacked1 (session (id + l + n) (d_disassemble_mut id l n) us)) /\
  ~ (forall id l n us, Forall (use_ok id n) us -> tree1 (session (id + l + n) (d_disassemble_mut id l n) us)).
Proof.
  split; intros H.
  - apply (disassemble_mut_sb 1 1 3 []); [lia|]. apply H. constructor.
  - specialize (H 1 1 3 [{| u_second := true; u_write := true; u_lo := 0; u_n := 1 |}]). apply disassemble_mut_tb in H; [discriminate|].
    constructor; [|constructor]. unfold use_ok. cbn. lia.
Qed.
Print Assumptions C78_disassemble_mut_refuted.
(** In stacks that is never right; in trees it is unless something is written. *)
Theorem C78_disassemble_mut : forall id l n us,
  (0 < id -> ~ stacked1 (session (id + l + n) (d_disassemble_mut id l n) us)) /\
  (tree1 (session (id + l + n) (d_disassemble_mut id l n) us) <-> forallb (fun u => negb (is_write u)) us = true).
Proof. intros id l n us. split; [apply disassemble_mut_sb | apply disassemble_mut_tb]. Qed.
Print Assumptions C78_disassemble_mut.
