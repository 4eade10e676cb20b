(** Sequences of calls on a buffer. *)
From Verif Require Import Base ModelBorrow SpecBorrow BorrowProofs BorrowMain BorrowUe BorrowLe BorrowBad BorrowGuard.

(** ** The buffer after a call *)
Ltac after :=
  match goal with v : view |- _ => destruct v end;
  unfold view_ok, call_ok, view_after in *; cbn in *;
  repeat match goal with H : _ /\ _ |- _ => destruct H end;
  match goal with b : bool |- _ => destruct b end;
  cbv -[N.add N.sub N.leb N.ltb N.eqb N.le N.lt]; conds; repeat split; lia.
Lemma le_after c v : view_ok 23 v -> call_ok c v -> view_ok 23 (fst (fst (do_call ALE c v 1%nat))) /\ view_after c v (fst (fst (do_call ALE c v 1%nat))).
Proof. intros V C. destruct c. all: after. Qed.
Lemma ue_after c v : view_ok 16 v -> call_ok c v -> view_ok 16 (fst (fst (do_call AUE c v 1%nat))) /\ view_after c v (fst (fst (do_call AUE c v 1%nat))).
Proof. intros V C. destruct c. all: after. Qed.

(** ** All events are plain *)
Ltac plainly :=
  match goal with v : view |- _ => destruct v as [[] ? ? ? ?] end; cbv -[N.add N.sub N.leb N.ltb N.eqb forallb plain]; conds; reflexivity.
Lemma le_plain c v : forallb plain (snd (do_call ALE c v 1%nat)) = true.
Proof. destruct c. all: plainly. Qed.
Lemma ue_plain c v : forallb plain (snd (do_call AUE c v 1%nat)) = true.
Proof. destruct c. all: plainly. Qed.
Lemma le_end_plain e v : forallb plain (do_end ALE e v) = true.
Proof. destruct e; plainly. Qed.
Lemma ue_end_plain e v : forallb plain (do_end AUE e v) = true.
Proof. destruct e; plainly. Qed.

(** ** The end of a buffer *)
Ltac ending :=
  match goal with v : view |- _ => destruct v end;
  unfold view_ok in *; cbn in *;
  repeat match goal with H : _ /\ _ |- _ => destruct H end;
  match goal with b : bool |- _ => destruct b end;
  let obj := fresh "obj" in let o := fresh "o" in intros obj o; events; conds; one.
Lemma ue_end e v : view_ok 16 v -> forall obj o, fine (proj obj o (do_end AUE e v)) = true.
Proof. intros V. destruct e; ending. Qed.
Lemma le_end e v : view_ok 23 v -> forall obj o, fine (proj obj o (do_end ALE e v)) = true.
Proof. intros V. destruct e; ending. Qed.

(** ** A mutable slice that is not written through, in trees *)
Definition tb_fine (A : borrows) (c : bcall) (v : view) : Prop := forall obj o, tree_end (tb_run 1 obj o (snd (do_call A c v 1%nat)) tb_new) = true.
Definition sb_fine (A : borrows) (c : bcall) (v : view) : Prop := forall obj o, sb_run 1 obj o (snd (do_call A c v 1%nat)) sb_new <> None.
Definition tb_args (A : borrows) (c : bcall) (v : view) : Prop := forall obj o, tree_end (tb_guard_run 1 obj o (snd (do_call A c v 1%nat)) [] tb_new) = true.
Definition sb_args (A : borrows) (c : bcall) (v : view) : Prop := forall obj o, sb_guard_run 1 obj o (snd (do_call A c v 1%nat)) [] sb_new <> None.
Lemma fine_all obj o es : fine (proj obj o es) = true ->
  (sb_run 1 obj o es sb_new <> None /\ tree_end (tb_run 1 obj o es tb_new) = true) /\
  sb_guard_run 1 obj o es [] sb_new <> None /\ tree_end (tb_guard_run 1 obj o es [] tb_new) = true.
Proof.
  intros F. unfold fine, fine0, fine_args in F. apply andb_prop in F. destruct F as [F G]. apply andb_prop in F. apply andb_prop in G.
  destruct F as [F1 F2], G as [G1 G2]. rewrite psb_ok, ptb_ok, pgsb_ok, pgtb_ok. repeat split; try assumption.
  - destruct (psb _ _); [discriminate | discriminate F1].
  - destruct (pgsb _ _ _); [discriminate | discriminate G1].
Qed.
Lemma good_fine A c v : good A c v -> sb_fine A c v /\ tb_fine A c v.
Proof. intros [_ G]. split; intros obj o; now apply fine_all. Qed.
Lemma good_args A c v : good A c v -> sb_args A c v /\ tb_args A c v.
Proof. intros [_ G]. split; intros obj o; now apply fine_all. Qed.
Ltac events_tb := cbv -[N.add N.sub N.leb N.ltb N.eqb inside proj tree_end ptb pgtb tb_new].
Lemma le_tb_fine c v : view_ok 23 v -> call_ok c v -> writes_inside c v = false -> tb_fine ALE c v.
Proof.
  intros V C W. destruct (claims_inside c v) eqn:K; [|now apply good_fine, le_good].
  destruct c; cbn [claims_inside] in K; try congruence.
  intros obj o. rewrite ptb_ok. destruct v as [[] len cap block next]; [|discriminate]. cbn in W, K. unfold view_ok, call_ok in *. cbn in V, C.
  assert (n = 0) by lia. subst. events_tb. one.
Qed.

Lemma le_tb_args c v : view_ok 23 v -> call_ok c v -> writes_inside c v = false -> tb_args ALE c v.
Proof.
  intros V C W. destruct (claims_inside c v) eqn:K; [|now apply good_args, le_good].
  destruct c; cbn [claims_inside] in K; try congruence.
  intros obj o. rewrite pgtb_ok. destruct v as [[] len cap block next]; [|discriminate]. cbn in W, K. unfold view_ok, call_ok in *. cbn in V, C.
  assert (n = 0) by lia. subst. events_tb. one.
Qed.

(** ** Sequences *)
Section Sequences.
  Context (A : borrows) (init : N).
  Context (after : forall c v, view_ok init v -> call_ok c v -> view_ok init (fst (fst (do_call A c v 1%nat)))).
  Context (pl : forall c v, forallb plain (snd (do_call A c v 1%nat)) = true).

  Fixpoint view_end (cs : list bcall) (v : view) : view :=
    match cs with [] => v | c :: cs' => view_end cs' (fst (fst (do_call A c v 1%nat))) end.
  Lemma history_cons c cs v i : history A (c :: cs) v i =
    ((i, snd (do_call A c v 1%nat)) :: fst (history A cs (fst (fst (do_call A c v 1%nat))) (i + 1)),
     snd (history A cs (fst (fst (do_call A c v 1%nat))) (i + 1))).
  Proof. cbn [history]. destruct (do_call A c v 1%nat) as [[v1 k] es]. cbn [fst snd]. now destruct (history A cs v1 (i + 1)). Qed.
  Lemma history_view cs : forall v i, snd (history A cs v i) = view_end cs v.
  Proof. induction cs as [|c cs IH]; intros v i; [reflexivity|]. rewrite history_cons. cbn [snd view_end]. apply IH. Qed.
  Lemma view_end_ok cs : forall v, view_ok init v -> calls_ok A cs v -> view_ok init (view_end cs v).
  Proof. induction cs as [|c cs IH]; intros v V C; [exact V|]. destruct C as [C1 C2]. apply IH; [now apply after | exact C2]. Qed.

  Section Stacks.
    Context (breaks : bcall -> view -> bool).
    Context (sb_pos : forall c v, view_ok init v -> call_ok c v -> breaks c v = false -> sb_fine A c v).
    Context (sb_neg : forall c v, view_ok init v -> call_ok c v -> breaks c v = true -> sb_bad A c v).
    Lemma sb_history_pos obj o cs : forall v i g, view_ok init v -> calls_ok A cs v -> some_call A breaks cs v = false -> old i g ->
      exists g' j, old j g' /\ j = i + nlen cs /\ sb_runs obj o (fst (history A cs v i)) (g ++ sb_new) = Some (g' ++ sb_new).
    Proof.
      clear sb_neg.
      induction cs as [|c cs IH]; intros v i g V C B G.
      - exists g, i. split; [exact G|]. split; [rewrite nlen_nil; lia | reflexivity].
      - destruct C as [C1 C2]. cbn [some_call] in B. apply orb_false_elim in B. destruct B as [B1 B2]. rewrite history_cons. cbn [fst sb_runs].
        destruct (sb_call i obj o _ g (pl c v) G (sb_pos c v V C1 B1 obj o)) as (g1 & G1 & ->).
        destruct (IH _ _ g1 (after c v V C1) C2 B2 G1) as (g2 & j & G2 & J & E). exists g2, j. split; [exact G2|]. split; [|exact E].
        rewrite J, nlen_cons. lia.
    Qed.
    Lemma sb_history_neg cs : forall v i, view_ok init v -> calls_ok A cs v -> some_call A breaks cs v = true ->
      exists obj o, forall g, old i g -> sb_runs obj o (fst (history A cs v i)) (g ++ sb_new) = None.
    Proof.
      induction cs as [|c cs IH]; intros v i V C B; [discriminate|]. destruct C as [C1 C2]. cbn [some_call] in B. rewrite history_cons.
      destruct (breaks c v) eqn:K.
      - destruct (sb_neg c v V C1 K) as (obj & o & E). exists obj, o. intros g G. cbn [fst sb_runs]. now rewrite (sb_call_none i obj o _ g (pl c v) G E).
      - destruct (IH _ (i + 1) (after c v V C1) C2 B) as (obj & o & E). exists obj, o. intros g G. cbn [fst sb_runs].
        destruct (sb_call i obj o _ g (pl c v) G (sb_pos c v V C1 K obj o)) as (g1 & G1 & ->). now apply E.
    Qed.
  End Stacks.
  Section Trees.
    Context (breaks : bcall -> view -> bool).
    Context (tb_pos : forall c v, view_ok init v -> call_ok c v -> breaks c v = false -> tb_fine A c v).
    Context (tb_neg : forall c v, view_ok init v -> call_ok c v -> breaks c v = true -> tb_bad A c v).
    Lemma tb_history_pos obj o cs : forall v i g, view_ok init v -> calls_ok A cs v -> some_call A breaks cs v = false -> told i g ->
      exists g' j, told j g' /\ j = i + nlen cs /\ tb_runs obj o (fst (history A cs v i)) (g ++ tb_new) = Some (g' ++ tb_new).
    Proof.
      clear tb_neg.
      induction cs as [|c cs IH]; intros v i g V C B G.
      - exists g, i. split; [exact G|]. split; [rewrite nlen_nil; lia | reflexivity].
      - destruct C as [C1 C2]. cbn [some_call] in B. apply orb_false_elim in B. destruct B as [B1 B2]. rewrite history_cons. cbn [fst tb_runs].
        destruct (tb_call i obj o _ g (pl c v) G (tb_pos c v V C1 B1 obj o)) as (g1 & G1 & ->).
        destruct (IH _ _ g1 (after c v V C1) C2 B2 G1) as (g2 & j & G2 & J & E). exists g2, j. split; [exact G2|]. split; [|exact E].
        rewrite J, nlen_cons. lia.
    Qed.
    Lemma tb_history_neg cs : forall v i, view_ok init v -> calls_ok A cs v -> some_call A breaks cs v = true ->
      exists obj o, forall g, told i g -> tb_runs obj o (fst (history A cs v i)) (g ++ tb_new) = None.
    Proof.
      induction cs as [|c cs IH]; intros v i V C B; [discriminate|]. destruct C as [C1 C2]. cbn [some_call] in B. rewrite history_cons.
      destruct (breaks c v) eqn:K.
      - destruct (tb_neg c v V C1 K) as (obj & o & E). exists obj, o. intros g G. cbn [fst tb_runs]. now rewrite (tb_call_none i obj o _ g (pl c v) G E).
      - destruct (IH _ (i + 1) (after c v V C1) C2 B) as (obj & o & E). exists obj, o. intros g G. cbn [fst tb_runs].
        destruct (tb_call i obj o _ g (pl c v) G (tb_pos c v V C1 K obj o)) as (g1 & G1 & ->). now apply E.
    Qed.
  End Trees.
  (** With protectors. *)
  Section Args.
    Context (breaks : bcall -> view -> bool).
    Lemma sb_args_history (pos : forall c v, view_ok init v -> call_ok c v -> breaks c v = false -> sb_args A c v) obj o cs :
      forall v i g, view_ok init v -> calls_ok A cs v -> some_call A breaks cs v = false -> old i g ->
      exists g' j, old j g' /\ j = i + nlen cs /\ sb_guard_runs obj o (fst (history A cs v i)) (g ++ sb_new) = Some (g' ++ sb_new).
    Proof.
      induction cs as [|c cs IH]; intros v i g V C B G.
      - exists g, i. split; [exact G|]. split; [rewrite nlen_nil; lia | reflexivity].
      - destruct C as [C1 C2]. cbn [some_call] in B. apply orb_false_elim in B. destruct B as [B1 B2]. rewrite history_cons. cbn [fst sb_guard_runs].
        destruct (sb_guard_call i obj o _ g (pl c v) G (pos c v V C1 B1 obj o)) as (g1 & G1 & ->).
        destruct (IH _ _ g1 (after c v V C1) C2 B2 G1) as (g2 & j & G2 & J & E). exists g2, j. split; [exact G2|]. split; [|exact E].
        rewrite J, nlen_cons. lia.
    Qed.
    Lemma tb_args_history (pos : forall c v, view_ok init v -> call_ok c v -> breaks c v = false -> tb_args A c v) obj o cs :
      forall v i g, view_ok init v -> calls_ok A cs v -> some_call A breaks cs v = false -> told i g ->
      exists g' j, told j g' /\ j = i + nlen cs /\ tb_guard_runs obj o (fst (history A cs v i)) (g ++ tb_new) = Some (g' ++ tb_new).
    Proof.
      induction cs as [|c cs IH]; intros v i g V C B G.
      - exists g, i. split; [exact G|]. split; [rewrite nlen_nil; lia | reflexivity].
      - destruct C as [C1 C2]. cbn [some_call] in B. apply orb_false_elim in B. destruct B as [B1 B2]. rewrite history_cons. cbn [fst tb_guard_runs].
        destruct (tb_guard_call i obj o _ g (pl c v) G (pos c v V C1 B1 obj o)) as (g1 & G1 & ->).
        destruct (IH _ _ g1 (after c v V C1) C2 B2 G1) as (g2 & j & G2 & J & E). exists g2, j. split; [exact G2|]. split; [|exact E].
        rewrite J, nlen_cons. lia.
    Qed.
  End Args.
End Sequences.

Lemma sb_runs_app obj o h1 : forall h2 s, sb_runs obj o (h1 ++ h2) s = match sb_runs obj o h1 s with Some s' => sb_runs obj o h2 s' | None => None end.
Proof. induction h1 as [|[i es] h1 IH]; intros h2 s; [reflexivity|]. cbn [app sb_runs]. destruct (sb_run i obj o es s); [apply IH | reflexivity]. Qed.
Lemma tb_runs_app obj o h1 : forall h2 s, tb_runs obj o (h1 ++ h2) s = match tb_runs obj o h1 s with Some s' => tb_runs obj o h2 s' | None => None end.
Proof. induction h1 as [|[i es] h1 IH]; intros h2 s; [reflexivity|]. cbn [app tb_runs]. destruct (tb_run i obj o es s); [apply IH | reflexivity]. Qed.

Lemma sb_guard_runs_app obj o h1 : forall h2 s, sb_guard_runs obj o (h1 ++ h2) s = match sb_guard_runs obj o h1 s with Some s' => sb_guard_runs obj o h2 s' | None => None end.
Proof. induction h1 as [|[i es] h1 IH]; intros h2 s; [reflexivity|]. cbn [app sb_guard_runs]. destruct (sb_guard_run i obj o es [] s); [apply IH | reflexivity]. Qed.
Lemma tb_guard_runs_app obj o h1 : forall h2 s, tb_guard_runs obj o (h1 ++ h2) s = match tb_guard_runs obj o h1 s with Some s' => tb_guard_runs obj o h2 s' | None => None end.
Proof. induction h1 as [|[i es] h1 IH]; intros h2 s; [reflexivity|]. cbn [app tb_guard_runs]. destruct (tb_guard_run i obj o es [] s); [apply IH | reflexivity]. Qed.

(** ** The whole life of a buffer *)
Section Lives.
  Context (A : borrows) (init : N) (sb_breaks tb_breaks : bcall -> view -> bool).
  Context (after : forall c v, view_ok init v -> call_ok c v -> view_ok init (fst (fst (do_call A c v 1%nat)))).
  Context (pl : forall c v, forallb plain (snd (do_call A c v 1%nat)) = true).
  Context (pl_end : forall e v, forallb plain (do_end A e v) = true).
  Context (fine_end : forall e v, view_ok init v -> forall obj o, fine (proj obj o (do_end A e v)) = true).
  Context (sb_pos : forall c v, view_ok init v -> call_ok c v -> sb_breaks c v = false -> sb_fine A c v).
  Context (sb_neg : forall c v, view_ok init v -> call_ok c v -> sb_breaks c v = true -> sb_bad A c v).
  Context (tb_pos : forall c v, view_ok init v -> call_ok c v -> tb_breaks c v = false -> tb_fine A c v).
  Context (tb_neg : forall c v, view_ok init v -> call_ok c v -> tb_breaks c v = true -> tb_bad A c v).

  Lemma sb_life cs v e : view_ok init v -> calls_ok A cs v -> (stacked (life A cs e v) <-> some_call A sb_breaks cs v = false).
  Proof.
    intros V C. unfold life. rewrite history_view. split.
    - intros S. destruct (some_call A sb_breaks cs v) eqn:B; [|reflexivity]. exfalso.
      destruct (sb_history_neg A init after pl sb_breaks sb_pos sb_neg cs v 1 V C B) as (obj & o & E). apply (S obj o).
      rewrite sb_runs_app. pose proof (E [] (Forall_nil _)) as E0. cbn [app] in E0. now rewrite E0.
    - intros B obj o. rewrite sb_runs_app.
      destruct (sb_history_pos A init after pl sb_breaks sb_pos obj o cs v 1 [] V C B (Forall_nil _)) as (g & j & G & J & E). cbn [app] in E. rewrite E.
      cbn [sb_runs]. assert (sb_run 1 obj o (do_end A e (view_end A cs v)) sb_new <> None) as F.
      { now apply fine_all, fine_end, (view_end_ok A init after). }
      rewrite <- J. destruct (sb_call j obj o _ g (pl_end e _) G F) as (g1 & _ & ->). discriminate.
  Qed.
  Lemma tb_life cs v e : view_ok init v -> calls_ok A cs v -> (tree (life A cs e v) <-> some_call A tb_breaks cs v = false).
  Proof.
    intros V C. unfold life. rewrite history_view. split.
    - intros S. destruct (some_call A tb_breaks cs v) eqn:B; [|reflexivity]. exfalso.
      destruct (tb_history_neg A init after pl tb_breaks tb_pos tb_neg cs v 1 V C B) as (obj & o & E). apply (S obj o).
      rewrite tb_runs_app. pose proof (E [] (Forall_nil _)) as E0. cbn [app] in E0. now rewrite E0.
    - intros B obj o. rewrite tb_runs_app.
      destruct (tb_history_pos A init after pl tb_breaks tb_pos obj o cs v 1 [] V C B (Forall_nil _)) as (g & j & G & J & E). cbn [app] in E. rewrite E.
      cbn [tb_runs]. assert (tree_end (tb_run 1 obj o (do_end A e (view_end A cs v)) tb_new) = true) as F.
      { now apply fine_all, fine_end, (view_end_ok A init after). }
      rewrite <- J. destruct (tb_call j obj o _ g (pl_end e _) G F) as (g1 & _ & ->). discriminate.
  Qed.
  Lemma sb_args_life (pos : forall c v, view_ok init v -> call_ok c v -> sb_breaks c v = false -> sb_args A c v) cs v e :
    view_ok init v -> calls_ok A cs v -> (stacked_args (life A cs e v) <-> some_call A sb_breaks cs v = false).
  Proof.
    intros V C. split; [intros S; apply (sb_life cs v e V C); now apply stacked_weaken|]. intros B obj o. unfold life. rewrite history_view, sb_guard_runs_app.
    destruct (sb_args_history A init after pl sb_breaks pos obj o cs v 1 [] V C B (Forall_nil _)) as (g & j & G & J & E). cbn [app] in E. rewrite E.
    cbn [sb_guard_runs]. assert (sb_guard_run 1 obj o (do_end A e (view_end A cs v)) [] sb_new <> None) as F
      by (now apply fine_all, fine_end, (view_end_ok A init after)).
    rewrite <- J. destruct (sb_guard_call j obj o _ g (pl_end e _) G F) as (g1 & _ & ->). discriminate.
  Qed.
  Lemma tb_args_life (pos : forall c v, view_ok init v -> call_ok c v -> tb_breaks c v = false -> tb_args A c v) cs v e :
    view_ok init v -> calls_ok A cs v -> (tree_args (life A cs e v) <-> some_call A tb_breaks cs v = false).
  Proof.
    intros V C. split; [intros S; apply (tb_life cs v e V C); now apply tree_weaken|]. intros B obj o. unfold life. rewrite history_view, tb_guard_runs_app.
    destruct (tb_args_history A init after pl tb_breaks pos obj o cs v 1 [] V C B (Forall_nil _)) as (g & j & G & J & E). cbn [app] in E. rewrite E.
    cbn [tb_guard_runs]. assert (tree_end (tb_guard_run 1 obj o (do_end A e (view_end A cs v)) [] tb_new) = true) as F
      by (now apply fine_all, fine_end, (view_end_ok A init after)).
    rewrite <- J. destruct (tb_guard_call j obj o _ g (pl_end e _) G F) as (g1 & _ & ->). discriminate.
  Qed.
End Lives.

Definition never (_ : bcall) (_ : view) : bool := false.
Lemma some_never A cs : forall v, some_call A never cs v = false.
Proof. induction cs as [|c cs IH]; intros v; [reflexivity|]. cbn [some_call never orb]. apply IH. Qed.
Lemma ue_life cs v e : view_ok 16 v -> calls_ok AUE cs v -> stacked (life AUE cs e v) /\ tree (life AUE cs e v).
Proof.
  intros V C. split.
  - apply (sb_life AUE 16 never); try assumption.
    + intros. now apply ue_after.
    + exact ue_plain.
    + exact ue_end_plain.
    + exact ue_end.
    + intros. now apply good_fine, ue_good.
    + discriminate.
    + apply some_never.
  - apply (tb_life AUE 16 never); try assumption.
    + intros. now apply ue_after.
    + exact ue_plain.
    + exact ue_end_plain.
    + exact ue_end.
    + intros. now apply good_fine, ue_good.
    + discriminate.
    + apply some_never.
Qed.
Lemma le_life_sb cs v e : view_ok 23 v -> calls_ok ALE cs v -> (stacked (life ALE cs e v) <-> some_call ALE claims_inside cs v = false).
Proof.
  apply sb_life.
  - intros. now apply le_after.
  - exact le_plain.
  - exact le_end_plain.
  - exact le_end.
  - intros. now apply good_fine, le_good.
  - apply le_bad_sb.
Qed.
Lemma le_life_tb cs v e : view_ok 23 v -> calls_ok ALE cs v -> (tree (life ALE cs e v) <-> some_call ALE writes_inside cs v = false).
Proof.
  apply tb_life.
  - intros. now apply le_after.
  - exact le_plain.
  - exact le_end_plain.
  - exact le_end.
  - apply le_tb_fine.
  - apply le_bad_tb.
Qed.

Lemma ue_args cs v e : view_ok 16 v -> calls_ok AUE cs v -> stacked_args (life AUE cs e v) /\ tree_args (life AUE cs e v).
Proof.
  intros V C. split.
  - apply (sb_args_life AUE 16 never); try assumption.
    + intros. now apply ue_after.
    + exact ue_plain.
    + exact ue_end_plain.
    + exact ue_end.
    + intros. now apply good_fine, ue_good.
    + discriminate.
    + intros. now apply good_args, ue_good.
    + apply some_never.
  - apply (tb_args_life AUE 16 never); try assumption.
    + intros. now apply ue_after.
    + exact ue_plain.
    + exact ue_end_plain.
    + exact ue_end.
    + intros. now apply good_fine, ue_good.
    + discriminate.
    + intros. now apply good_args, ue_good.
    + apply some_never.
Qed.
Lemma le_args_sb cs v e : view_ok 23 v -> calls_ok ALE cs v -> (stacked_args (life ALE cs e v) <-> some_call ALE claims_inside cs v = false).
Proof.
  apply sb_args_life.
  - intros. now apply le_after.
  - exact le_plain.
  - exact le_end_plain.
  - exact le_end.
  - intros. now apply good_fine, le_good.
  - apply le_bad_sb.
  - intros. now apply good_args, le_good.
Qed.
Lemma le_args_tb cs v e : view_ok 23 v -> calls_ok ALE cs v -> (tree_args (life ALE cs e v) <-> some_call ALE writes_inside cs v = false).
Proof.
  apply tb_args_life.
  - intros. now apply le_after.
  - exact le_plain.
  - exact le_end_plain.
  - exact le_end.
  - apply le_tb_fine.
  - apply le_bad_tb.
  - apply le_tb_args.
Qed.
