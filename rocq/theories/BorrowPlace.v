(** The accesses of the calls stay in fields and octets of the buffer. *)
From Coq Require Import Lia.
From Verif Require Import Base ModelBorrow SpecBorrow.

Ltac cases := repeat match goal with |- context [?a <=? ?b] => destruct (N.leb_spec a b); cbn | |- context [?a =? ?b] => destruct (N.eqb_spec a b); cbn | |- context [?a <? ?b] => destruct (N.ltb_spec a b); cbn end.
Ltac place := repeat match goal with
  | |- Forall _ [] => constructor
  | |- Forall _ (_ :: _) => constructor
  | |- placed _ _ _ _ _ => unfold placed, access_ok, field, octets_at; cbn
  end.
Ltac opened := unfold do_call, do_end, b_into_vec, b_clone, b_fresh, d_extend, d_extend_indefinite, m_reserve; cbn [A_reserve ALE AUE]; unfold ale_reserve, aue_reserve; cbn [v_len v_cap v_inline].
Ltac done := try (intuition (first [lia | discriminate]); fail).
Lemma le_place c v : view_ok 23 v -> call_ok c v -> Forall (placed false (is_clone c) v (fst (fst (do_call ALE c v 1%nat)))) (snd (do_call ALE c v 1%nat)).
Proof.
  intros (V1 & V2 & V3 & V4) H. destruct v as [i len cap blk nxt]. cbn in V1, V2, V3, V4.
  destruct c; cbn in H; opened; destruct i; cases; cbn; cases; subst; place; done.
Qed.
Lemma ue_place c v : view_ok 16 v -> call_ok c v -> Forall (placed true (is_clone c) v (fst (fst (do_call AUE c v 1%nat)))) (snd (do_call AUE c v 1%nat)).
Proof.
  intros (V1 & V2 & V3 & V4) H. destruct v as [i len cap blk nxt]. cbn in V1, V2, V3, V4.
  destruct c; cbn in H; opened; destruct i; cases; cbn; cases; subst; place; done.
Qed.
Lemma le_end_place e v : view_ok 23 v -> Forall (placed false false v v) (do_end ALE e v).
Proof.
  intros (V1 & V2 & V3 & V4). destruct v as [i len cap blk nxt]. cbn in V1, V2, V3, V4. destruct e; opened; destruct i; cbn; subst; place; done.
Qed.
Lemma ue_end_place e v : view_ok 16 v -> Forall (placed true false v v) (do_end AUE e v).
Proof.
  intros (V1 & V2 & V3 & V4). destruct v as [i len cap blk nxt]. cbn in V1, V2, V3, V4. destruct e; opened; destruct i; cbn; subst; place; done.
Qed.
Ltac iplace := repeat match goal with
  | |- Forall _ [] => constructor
  | |- Forall _ (_ :: _) => constructor
  | |- int_placed _ _ _ _ _ => unfold int_placed, octets_at; cbn
  end.
Lemma int_place (A : borrows) size z extra : A = ALE \/ A = AUE -> 0 < size <= 16 -> z < size -> (extra = true -> 0 < z) ->
  let v := fst (fst (sb_from_positive A size z extra 1%nat)) in let w := fst (fst (sb_from_negative A size z extra 1%nat)) in
  (v_len v = (if extra then size - z + 1 else size - z) /\ Forall (int_placed (A_init A) size size v) (snd (sb_from_positive A size z extra 1%nat))) /\
  (v_len w = (if extra then size - z + 1 else size - z) /\ Forall (int_placed (A_init A) 0 size w) (snd (sb_from_negative A size z extra 1%nat))).
Proof.
  intros [-> | ->] S Z E; unfold sb_from_positive, sb_from_negative, b_fresh; cbn [A_init ALE AUE]; (destruct extra; [specialize (E eq_refl)|]); cbn; cases; (split; split; [reflexivity| |reflexivity|]); iplace; done.
Qed.
