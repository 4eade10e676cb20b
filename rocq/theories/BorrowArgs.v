(** Protectors in the other functions, and where functions begin and return. *)
From Verif Require Import Base ModelBorrow SpecBorrow SpecGuard BorrowProofs BorrowMain BorrowBad BorrowMore BorrowGuard BorrowHist BorrowUse.

Lemma fine_args_all es : all_fine es -> stacked_args1 es /\ tree_args1 es.
Proof.
  intros F. split; intros obj o; destruct (fine_all obj o es (F obj o)) as [_ [F1 F2]]; cbn [sb_guard_runs tb_guard_runs].
  - destruct (sb_guard_run 1 obj o es [] sb_new); [discriminate | congruence].
  - destruct (tb_guard_run 1 obj o es [] tb_new); [discriminate | discriminate F2].
Qed.
Lemma tb_args_is es : (forall obj o, pgtb (proj obj o es) [] tb_new <> None) -> tree_args1 es.
Proof. intros F obj o. cbn [tb_guard_runs]. rewrite pgtb_ok. specialize (F obj o). destruct (pgtb _ _ _); [discriminate | congruence]. Qed.
Ltac events_g := cbv -[N.add N.sub N.leb N.ltb N.eqb inside proj pgtb tb_new forallb plain].
Lemma ue_positive_args size z high : 0 < size <= 16 -> z < size -> tree_args1 (snd (sb_from_positive AUE size z high 1%nat)).
Proof. intros H Z. apply tb_args_is. intros obj o. split_at o; destruct high; events_g; conds; try (exfalso; lia); boxed. Qed.
Lemma ue_negative_args size z low : 0 < size <= 16 -> z < size -> (low = true -> 0 < z) -> tree_args1 (snd (sb_from_negative AUE size z low 1%nat)).
Proof. intros H Z L. apply tb_args_is. intros obj o. split_at o; destruct low; [specialize (L eq_refl)| |specialize (L eq_refl)| |specialize (L eq_refl)| |specialize (L eq_refl)|]; events_g; conds; try (exfalso; lia); boxed. Qed.

(** ** After the functions have returned *)
Lemma sb_kept_none c s s' : sb_kept c [] s s' = true.
Proof. unfold sb_kept. apply forallb_forall. reflexivity. Qed.
Lemma tb_access_none c w s : forall t, tb_guard_access (guarded c []) w t s = tb_access w t s.
Proof.
  induction s as [|[[x par] q] s IH]; intros t; [reflexivity|]. cbn [tb_guard_access tb_access]. rewrite !IH. destruct (tag_eqb x t); [reflexivity|].
  cbn [guarded existsb]. now destruct (tb_access w t s).
Qed.
Definition is_access (e : event) : bool := match e with Read _ _ _ _ | Write _ _ _ _ => true | _ => false end.
Lemma sb_accesses c obj o es : forallb is_access es = true -> forall s, sb_guard_run c obj o es [] s = sb_run c obj o es s.
Proof.
  induction es as [|e es IH]; cbn [forallb sb_guard_run sb_run]; intros P s; [reflexivity|]. apply andb_prop in P. destruct P as [P1 P2].
  destruct (sb_step c obj o e s) as [s'|]; [|reflexivity]. rewrite sb_kept_none. destruct e; try discriminate; now apply IH.
Qed.
Lemma tb_accesses c obj o es : forallb is_access es = true -> forall s, tb_guard_run c obj o es [] s = tb_run c obj o es s.
Proof.
  induction es as [|e es IH]; cbn [forallb tb_guard_run tb_run]; intros P s; [reflexivity|]. apply andb_prop in P. destruct P as [P1 P2].
  assert (tb_guard_step (guarded c []) c obj o e s = tb_step c obj o e s) as ->
    by (destruct e; try discriminate; cbn [tb_guard_step tb_step]; now rewrite tb_access_none).
  destruct (tb_step c obj o e s) as [s'|]; [|reflexivity]. destruct e; try discriminate; now apply IH.
Qed.
Lemma uses_access r us : forallb is_access (map (use_of r) us) = true.
Proof. induction us as [|u us IH]; [reflexivity|]. cbn [map forallb]. rewrite IH. unfold use_of. now destruct (u_write u). Qed.
Definition acts (es : list event) (act : list nat) : list nat := fold_left (fun a e => act_step e a) es act.
Lemma sb_guard_app c obj o a b : forall act s, sb_guard_run c obj o (a ++ b) act s =
  match sb_guard_run c obj o a act s with Some s' => sb_guard_run c obj o b (acts a act) s' | None => None end.
Proof.
  induction a as [|e a IH]; intros act s; [reflexivity|]. cbn [app sb_guard_run acts fold_left]. destruct (sb_step c obj o e s) as [s'|]; [|reflexivity].
  destruct (sb_kept c act s s'); [apply IH | reflexivity].
Qed.
Lemma tb_guard_app c obj o a b : forall act s, tb_guard_run c obj o (a ++ b) act s =
  match tb_guard_run c obj o a act s with Some s' => tb_guard_run c obj o b (acts a act) s' | None => None end.
Proof.
  induction a as [|e a IH]; intros act s; [reflexivity|]. cbn [app tb_guard_run acts fold_left]. destruct (tb_guard_step _ c obj o e s) as [s'|]; [apply IH | reflexivity].
Qed.
(** If protectors change nothing before the functions return, they change nothing. *)
Lemma session_args es r us : acts es [] = [] ->
  (forall obj o, sb_guard_run 1 obj o es [] sb_new = sb_run 1 obj o es sb_new) -> stacked1 (es ++ map (use_of r) us) -> stacked_args1 (es ++ map (use_of r) us).
Proof.
  intros A F S obj o. specialize (S obj o). cbn [sb_runs sb_guard_runs] in *. rewrite sb_run_app in S. rewrite sb_guard_app, F, A.
  destruct (sb_run 1 obj o es sb_new) as [s|]; [|exact S]. now rewrite sb_accesses by apply uses_access.
Qed.
Lemma tsession_args es r us : acts es [] = [] ->
  (forall obj o, tb_guard_run 1 obj o es [] tb_new = tb_run 1 obj o es tb_new) -> tree1 (es ++ map (use_of r) us) -> tree_args1 (es ++ map (use_of r) us).
Proof.
  intros A F S obj o. specialize (S obj o). cbn [tb_runs tb_guard_runs] in *. rewrite tb_run_app in S. rewrite tb_guard_app, F, A.
  destruct (tb_run 1 obj o es tb_new) as [s|]; [|exact S]. now rewrite tb_accesses by apply uses_access.
Qed.
Ltac same := cbn [proj proj1]; objects; cbn [app]; octets; vm_compute; reflexivity.
Lemma parse_mut_args total used us : used <= total -> Forall (use_ok used (total - used)) us ->
  stacked_args1 (session total (d_parse_mut total used) us) /\ tree_args1 (session total (d_parse_mut total used) us).
Proof.
  intros U F. destruct (parse_mut_ok total used us U F) as [S T]. rewrite pm_session in *. split.
  - apply session_args; [reflexivity | | exact S]. intros obj o. rewrite psb_ok, pgsb_ok. unfold pm_events. same.
  - apply tsession_args; [reflexivity | | exact T]. intros obj o. rewrite ptb_ok, pgtb_ok. unfold pm_events. same.
Qed.
Lemma disassemble_mut_args id l n us :
  (tree_args1 (session (id + l + n) (d_disassemble_mut id l n) us) <-> forallb (fun u => negb (is_write u)) us = true).
Proof.
  split.
  - intros T. apply (disassemble_mut_tb id l n us). apply tree_weaken. exact T.
  - intros W. apply (disassemble_mut_tb id l n us) in W. rewrite dm_session in *. apply tsession_args; [reflexivity | | exact W].
    intros obj o. rewrite ptb_ok, pgtb_ok. unfold dm_events. same.
Qed.

