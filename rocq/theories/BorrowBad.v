(** The calls of the little endian layout that break the rules. *)
From Verif Require Import Base ModelBorrow SpecBorrow BorrowProofs BorrowMain.

Definition sb_bad (A : borrows) (c : bcall) (v : view) : Prop := exists obj o, sb_run 1 obj o (snd (do_call A c v 1%nat)) sb_new = None.
Definition tb_bad (A : borrows) (c : bcall) (v : view) : Prop := exists obj o, tb_run 1 obj o (snd (do_call A c v 1%nat)) tb_new = None.

(** An octet that the call writes through the wrong pointer. *)
Definition victim (c : bcall) (v : view) : N * N :=
  match c with
  | CClone => (v_next v, 0)
  | CMutSlice lo n => (0, if 0 <? n then lo else 0)
  | CDerExtend id _ _ _ _ | CDerTruncate id _ _ _ => (0, id)
  | _ => (0, v_len v)
  end.
Ltac events' := cbv -[N.add N.sub N.leb N.ltb N.eqb inside proj psb ptb sb_new tb_new forallb plain].
Ltac bad_one :=
  cbn [proj proj1]; objects; cbn [app]; octets; first [ vm_compute; reflexivity | exfalso; unfold inside in *; lia ].
Ltac bad :=
  match goal with v : view |- _ => destruct v end;
  unfold view_ok, call_ok in *; cbn in *;
  repeat match goal with H : _ /\ _ |- _ => destruct H end;
  match goal with b : bool |- _ => destruct b end; cbn [andb] in *; try discriminate;
  try (exfalso; lia);
  (events'; conds; try (exfalso; lia); bad_one).
Lemma le_bad_sb c v : view_ok 23 v -> call_ok c v -> claims_inside c v = true -> sb_bad ALE c v.
Proof.
  intros V C H. exists (fst (victim c v)), (snd (victim c v)). rewrite psb_ok.
  destruct c as [| | |n|n|n|lo n| |id old_l new_l count n|id old_l new_l n|n]; cbn [claims_inside writes_inside victim fst snd] in *; try discriminate H.
  all: bad.
Qed.
Lemma le_bad_tb c v : view_ok 23 v -> call_ok c v -> writes_inside c v = true -> tb_bad ALE c v.
Proof.
  intros V C H. exists (fst (victim c v)), (snd (victim c v)). rewrite ptb_ok.
  destruct c as [| | |n|n|n|lo n| |id old_l new_l count n|id old_l new_l n|n]; cbn [claims_inside writes_inside victim fst snd] in *; try discriminate H.
  all: bad.
Qed.
