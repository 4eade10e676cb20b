(** The other functions that use pointers: constructors, mutable views, integers and lengths. *)
From Verif Require Import Base ModelBorrow SpecBorrow BorrowProofs BorrowMain BorrowBad.

Definition all_fine (es : list event) : Prop := forall obj o, fine (proj obj o es) = true.
Lemma fine_stacked es : all_fine es -> stacked1 es /\ tree1 es.
Proof.
  intros F. split; intros obj o; specialize (F obj o); unfold fine, fine0 in F; apply andb_prop in F; destruct F as [F _];
    apply andb_prop in F; destruct F as [F1 F2]; cbn [sb_runs tb_runs].
  - rewrite psb_ok. destruct (psb _ _); [discriminate | discriminate F1].
  - rewrite ptb_ok. destruct (ptb _ _); [discriminate | discriminate F2].
Qed.
Lemma sb_not es obj o : psb (proj obj o es) sb_new = None -> ~ stacked1 es.
Proof. intros E S. apply (S obj o). cbn [sb_runs]. now rewrite psb_ok, E. Qed.
Lemma tb_not es obj o : ptb (proj obj o es) tb_new = None -> ~ tree1 es.
Proof. intros E S. apply (S obj o). cbn [tb_runs]. now rewrite ptb_ok, E. Qed.
Lemma tb_is es : (forall obj o, ptb (proj obj o es) tb_new <> None) -> tree1 es.
Proof. intros F obj o. cbn [tb_runs]. rewrite ptb_ok. specialize (F obj o). destruct (ptb _ _); [discriminate | congruence]. Qed.
Ltac boxed := cbn [proj proj1]; objects; cbn [app]; octets; first [ vm_compute; first [ reflexivity | discriminate ] | exfalso; unfold inside in *; lia ].
Ltac split_at o := assert (o < 8 \/ 8 <= o < 16 \/ 16 <= o < 24 \/ 24 <= o) as [?|[?|[?|?]]] by lia.

(** ** Integers *)
Lemma le_positive_sb size z high : 0 < size <= 16 -> z < size -> ~ stacked1 (snd (sb_from_positive ALE size z high 1%nat)).
Proof. intros H Z. apply (sb_not _ 2 0). destruct high; events'; conds; try (exfalso; lia); boxed. Qed.
Lemma le_positive_tb size z high : 0 < size <= 16 -> z < size -> ~ tree1 (snd (sb_from_positive ALE size z high 1%nat)).
Proof. intros H Z. apply (tb_not _ 2 0). destruct high; events'; conds; try (exfalso; lia); boxed. Qed.
Lemma le_negative_sb size z low : 0 < size <= 16 -> z < size -> (low = true -> 0 < z) -> ~ stacked1 (snd (sb_from_negative ALE size z low 1%nat)).
Proof. intros H Z L. apply (sb_not _ 2 0). destruct low; [specialize (L eq_refl)|]; events'; conds; try (exfalso; lia); boxed. Qed.
Lemma le_negative_tb size z low : 0 < size <= 16 -> z < size -> (low = true -> 0 < z) -> ~ tree1 (snd (sb_from_negative ALE size z low 1%nat)).
Proof. intros H Z L. apply (tb_not _ 2 0). destruct low; [specialize (L eq_refl)|]; events'; conds; try (exfalso; lia); boxed. Qed.
Lemma ue_positive_sb size z high : 0 < size <= 16 -> z < size -> ~ stacked1 (snd (sb_from_positive AUE size z high 1%nat)).
Proof.
  intros H Z. destruct high.
  - destruct (N.leb_spec (size - z + 1) 16).
    + apply (sb_not _ 2 0). events'. conds; try (exfalso; lia); boxed.
    + assert (size = 16) by lia. assert (z = 0) by lia. subst. apply (sb_not _ 1 15). vm_compute. reflexivity.
  - apply (sb_not _ 2 0). events'; conds; try (exfalso; lia); boxed.
Qed.
Lemma ue_negative_sb size z low : 0 < size <= 16 -> z < size -> (low = true -> 0 < z) -> ~ stacked1 (snd (sb_from_negative AUE size z low 1%nat)).
Proof. intros H Z L. apply (sb_not _ 2 0). destruct low; [specialize (L eq_refl)|]; events'; conds; try (exfalso; lia); boxed. Qed.
Lemma ue_positive_tb size z high : 0 < size <= 16 -> z < size -> tree1 (snd (sb_from_positive AUE size z high 1%nat)).
Proof. intros H Z. apply tb_is. intros obj o. split_at o; destruct high; events'; conds; try (exfalso; lia); boxed. Qed.
Lemma ue_negative_tb size z low : 0 < size <= 16 -> z < size -> (low = true -> 0 < z) -> tree1 (snd (sb_from_negative AUE size z low 1%nat)).
Proof. intros H Z L. apply tb_is. intros obj o. split_at o; destruct low; [specialize (L eq_refl)| |specialize (L eq_refl)| |specialize (L eq_refl)| |specialize (L eq_refl)|]; events'; conds; try (exfalso; lia); boxed. Qed.
Lemma to_integer_fine size n : n <= size -> all_fine (snd (c_to_integer size n 1%nat)).
Proof. intros H obj o. events. boxed. Qed.
Lemma to_bytes_fine n : n <= 8 -> all_fine (snd (l_to_bytes n 1%nat)).
Proof. intros H obj o. events. boxed. Qed.

(** ** Constructors *)
Lemma ue_with_id_length id l n : all_fine (snd (d_with_id_length AUE id l n 2 1%nat)).
Proof. intros obj o. events; conds; one. Qed.
Lemma le_with_id_length_heap id l n : 23 < id + l + n -> all_fine (snd (d_with_id_length ALE id l n 2 1%nat)).
Proof. intros H obj o. events; conds; [exfalso; lia|]. one. Qed.
Lemma le_with_id_length_sb id l n : 0 < id -> id + l + n <= 23 -> ~ stacked1 (snd (d_with_id_length ALE id l n 2 1%nat)).
Proof. intros I H. apply (sb_not _ 2 0). events'. conds; try (exfalso; lia); boxed. Qed.
Lemma le_with_id_length_tb id l n : 0 < id -> id + l + n <= 23 -> ~ tree1 (snd (d_with_id_length ALE id l n 2 1%nat)).
Proof. intros I H. apply (tb_not _ 2 0). events'. conds; try (exfalso; lia); boxed. Qed.
(** The object of the octets of the new value. *)
Definition home (inline : bool) : N := if inline then 2 else 3.
Lemma ue_new_sb id l n : 0 < id -> 0 < l -> ~ stacked1 (snd (d_new AUE id l n 1%nat)).
Proof. intros I L. apply (sb_not _ (home (id + l + n <=? 16)) 0). unfold home. events'. conds; try (exfalso; lia); boxed. Qed.
Lemma le_new_sb id l n : 0 < id -> 0 < l -> ~ stacked1 (snd (d_new ALE id l n 1%nat)).
Proof. intros I L. apply (sb_not _ (home (id + l + n <=? 23)) 0). unfold home. events'. conds; try (exfalso; lia); boxed. Qed.
Lemma ue_new_tb id l n : 0 < id -> 0 < l -> 0 < n -> ~ tree1 (snd (d_new AUE id l n 1%nat)).
Proof. intros I L P. apply (tb_not _ (home (id + l + n <=? 16)) (id + l)). unfold home. events'. conds; try (exfalso; lia); boxed. Qed.
Lemma le_new_tb id l n : 0 < id -> 0 < l -> 0 < n -> ~ tree1 (snd (d_new ALE id l n 1%nat)).
Proof. intros I L P. destruct (N.leb_spec (id + l + n) 23).
  - apply (tb_not _ 2 0). events'. conds; try (exfalso; lia); boxed.
  - apply (tb_not _ 3 (id + l)). events'. conds; try (exfalso; lia); boxed.
Qed.
