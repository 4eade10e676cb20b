(** Every call on a buffer of the little endian layout, octet by octet. *)
From Verif Require Import Base ModelBorrow SpecBorrow BorrowProofs BorrowMain.

Lemma le_good c v : view_ok 23 v -> call_ok c v -> claims_inside c v = false -> good ALE c v.
Proof.
  intros V C H. destruct c as [| | |n|n|n|lo n| |id old_l new_l count n|id old_l new_l n|n]; cbn [claims_inside writes_inside] in H.
  all: call.
Qed.
