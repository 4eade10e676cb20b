(** Where functions begin and return. *)
From Verif Require Import Base ModelBorrow SpecBorrow SpecGuard BorrowProofs BorrowMain.

Ltac nest := match goal with v : view |- _ => destruct v as [[] ? ? ? ?] end; cbv -[N.add N.sub N.leb N.ltb N.eqb nested]; conds; cbn; repeat split; auto.
Lemma le_nested c v : nested (snd (do_call ALE c v 1%nat)) [].
Proof. destruct c. all: nest. Qed.
Lemma ue_nested c v : nested (snd (do_call AUE c v 1%nat)) [].
Proof. destruct c. all: nest. Qed.
Lemma end_nested e v : nested (do_end ALE e v) [] /\ nested (do_end AUE e v) [].
Proof. split; destruct e; nest. Qed.
Ltac argue := match goal with v : view |- _ => destruct v end; unfold view_ok, call_ok in *; cbn in *;
  repeat match goal with H : _ /\ _ |- _ => destruct H end; match goal with b : bool |- _ => destruct b end;
  cbv -[N.add N.sub N.leb N.ltb N.eqb arguments]; conds; cbn [arguments];
  repeat match goal with |- _ /\ _ => split | |- True => exact I | |- _ -> _ => intro end; first [ reflexivity | exfalso; intuition (first [lia | discriminate]) ].
Lemma le_arguments c v : view_ok 23 v -> call_ok c v -> arguments (snd (do_call ALE c v 1%nat)).
Proof. intros V C. destruct c. all: argue. Qed.
Lemma ue_arguments c v : view_ok 16 v -> call_ok c v -> arguments (snd (do_call AUE c v 1%nat)).
Proof. intros V C. destruct c. all: argue. Qed.
Lemma end_arguments e v : (view_ok 23 v -> arguments (do_end ALE e v)) /\ (view_ok 16 v -> arguments (do_end AUE e v)).
Proof. split; intros V; destruct e; argue. Qed.
