(** Every call on a buffer of the portable layout, octet by octet. *)
From Verif Require Import Base ModelBorrow SpecBorrow BorrowProofs BorrowMain.

Lemma ue_good c v : view_ok 16 v -> call_ok c v -> good AUE c v.
Proof.
  intros V C. destruct c as [| | |n|n|n|lo n| |id old_l new_l count n|id old_l new_l n|n].
  all: call.
Qed.
