(** What can be done with the two references that parse_mut and disassemble_mut give. *)
From Verif Require Import Base ModelBorrow SpecBorrow BorrowProofs BorrowMain BorrowMore.

Lemma sb_run_app c obj o a : forall b s, sb_run c obj o (a ++ b) s = match sb_run c obj o a s with Some s' => sb_run c obj o b s' | None => None end.
Proof. induction a as [|e a IH]; intros b s; [reflexivity|]. cbn [app sb_run]. destruct (sb_step c obj o e s); [apply IH | reflexivity]. Qed.
Lemma tb_run_app c obj o a : forall b s, tb_run c obj o (a ++ b) s = match tb_run c obj o a s with Some s' => tb_run c obj o b s' | None => None end.
Proof. induction a as [|e a IH]; intros b s; [reflexivity|]. cbn [app tb_run]. destruct (tb_step c obj o e s); [apply IH | reflexivity]. Qed.
(** Uses that keep a set of states. *)
Lemma sb_uses r obj o us (ok : use -> Prop) (I : list item -> Prop) : Forall ok us ->
  (forall u s, ok u -> I s -> exists s', sb_step 1 obj o (use_of r u) s = Some s' /\ I s') ->
  forall s, I s -> sb_run 1 obj o (map (use_of r) us) s <> None.
Proof.
  intros F K. induction F as [|u us U _ IH]; intros s S; cbn [map sb_run]; [discriminate|]. destruct (K u s U S) as (s' & -> & S'). now apply IH.
Qed.
Lemma tb_uses r obj o us (ok : use -> Prop) (I : list node -> Prop) : Forall ok us ->
  (forall u s, ok u -> I s -> exists s', tb_step 1 obj o (use_of r u) s = Some s' /\ I s') ->
  forall s, I s -> tb_run 1 obj o (map (use_of r) us) s <> None.
Proof.
  intros F K. induction F as [|u us U _ IH]; intros s S; cbn [map tb_run]; [discriminate|]. destruct (K u s U S) as (s' & -> & S'). now apply IH.
Qed.

(** ** parse_mut *)
Definition pm_events (total used : N) : list event :=
  [Retag KMut 0 0 1 0 total; Retag KShr 0 1 2 0 total; Read 0 2 0 used; Retag KMut 0 1 3 0 total; Enter 3; Retag KRawMut 0 3 4 0 total; Leave 3;
   Retag KMut 0 4 5 used (total - used); Retag KMut 0 4 6 0 used].
Definition pm_refs (used : N) : ptr * ptr := ({| p_obj := 0; p_tag := 6; p_off := 0 |}, {| p_obj := 0; p_tag := 5; p_off := used |}).
Lemma pm_session total used us : session total (d_parse_mut total used) us = pm_events total used ++ map (use_of (pm_refs used)) us.
Proof. unfold session, pm_events, pm_refs. cbv -[N.add N.sub map app use_of]. reflexivity. Qed.

(** The stack and the trees of an octet of the value (or of the rest). *)
Definition pm_stack (k : nat) : list item := [(1, k, Unique); (1, 4%nat, SharedRW); (1, 3%nat, Unique); (1, 1%nat, Unique); (0, 0%nat, Unique)].
Definition act (w : bool) := if w then Active else Reserved.
Definition pm_tree (s2 s5 s6 : state) (w : bool) : list node :=
  [((1, 6%nat), (1, 4%nat), s6); ((1, 5%nat), (1, 4%nat), s5); ((1, 4%nat), (1, 3%nat), Alias); ((1, 3%nat), (1, 1%nat), act w); ((1, 2%nat), (1, 1%nat), s2);
   ((1, 1%nat), (0, 0%nat), act w); ((0, 0%nat), (0, 0%nat), Active)].
Definition pm_first (w : bool) := pm_tree (if w then Dead else Frozen) (if w then Dead else Reserved) (act w) w.
Definition pm_second (w : bool) := pm_tree (if w then Dead else Frozen) (act w) (if w then Dead else Reserved) w.

Ltac at_octet := cbn [sb_run tb_run sb_step tb_step N.eqb andb]; repeat match goal with
  | |- context [inside ?a ?b ?o] => first [ replace (inside a b o) with true by (unfold inside; lia) | replace (inside a b o) with false by (unfold inside; lia) ] end.
Lemma parse_mut_ok total used us : used <= total -> Forall (use_ok used (total - used)) us ->
  stacked1 (session total (d_parse_mut total used) us) /\ tree1 (session total (d_parse_mut total used) us).
Proof.
  intros T F. rewrite pm_session. split; intros obj o.
  - cbn [sb_runs]. enough (sb_run 1 obj o (pm_events total used ++ map (use_of (pm_refs used)) us) sb_new <> None) by (destruct (sb_run _ _ _ _ _); congruence).
    rewrite sb_run_app. destruct (N.eqb_spec obj 0) as [->|NE].
    2:{ assert (forall es s, (forall e, In e es -> sb_step 1 obj o e s = Some s) -> sb_run 1 obj o es s = Some s) as Q.
        { induction es as [|e es IH]; intros s H; [reflexivity|]. cbn [sb_run]. rewrite H by now left. apply IH. intros. apply H. now right. }
        rewrite Q.
        - rewrite Q; [discriminate|]. intros e H. apply in_map_iff in H. destruct H as (u & <- & _). unfold use_of, pm_refs.
          destruct (u_second u), (u_write u); cbn [sb_step fst snd p_obj]; (destruct (N.eqb_spec 0 obj); [congruence | reflexivity]).
        - intros e H. unfold pm_events in H. cbn [In] in H.
          repeat (destruct H as [<-|H]; [cbn [sb_step]; destruct (N.eqb_spec 0 obj); [congruence | reflexivity]|]). contradiction. }
    assert (o < used \/ used <= o < total \/ total <= o) as [L|[L|L]] by lia.
    + assert (sb_run 1 0 o (pm_events total used) sb_new = Some (pm_stack 6)) as -> by (unfold pm_events; at_octet; vm_compute; reflexivity).
      apply (sb_uses _ _ _ _ (use_ok used (total - used)) (fun s => s = pm_stack 6) F); [|reflexivity].
      intros u s U ->. unfold use_ok in U. unfold use_of, pm_refs. exists (pm_stack 6). split; [|reflexivity].
      destruct (u_second u), (u_write u); cbn [fst snd p_obj p_tag p_off sb_step N.eqb andb].
      * replace (inside _ _ o) with false by (unfold inside; lia). reflexivity.
      * replace (inside _ _ o) with false by (unfold inside; lia). reflexivity.
      * destruct (inside _ _ o); reflexivity.
      * destruct (inside _ _ o); reflexivity.
    + assert (sb_run 1 0 o (pm_events total used) sb_new = Some (pm_stack 5)) as -> by (unfold pm_events; at_octet; vm_compute; reflexivity).
      apply (sb_uses _ _ _ _ (use_ok used (total - used)) (fun s => s = pm_stack 5) F); [|reflexivity].
      intros u s U ->. unfold use_ok in U. unfold use_of, pm_refs. exists (pm_stack 5). split; [|reflexivity].
      destruct (u_second u), (u_write u); cbn [fst snd p_obj p_tag p_off sb_step N.eqb andb].
      * destruct (inside _ _ o); reflexivity.
      * destruct (inside _ _ o); reflexivity.
      * replace (inside _ _ o) with false by (unfold inside; lia). reflexivity.
      * replace (inside _ _ o) with false by (unfold inside; lia). reflexivity.
    + assert (sb_run 1 0 o (pm_events total used) sb_new = Some sb_new) as -> by (unfold pm_events; at_octet; vm_compute; reflexivity).
      apply (sb_uses _ _ _ _ (use_ok used (total - used)) (fun s => s = sb_new) F); [|reflexivity].
      intros u s U ->. unfold use_ok in U. unfold use_of, pm_refs. exists sb_new. split; [|reflexivity].
      destruct (u_second u), (u_write u); cbn [fst snd p_obj p_tag p_off sb_step N.eqb andb];
        (replace (inside _ _ o) with false by (unfold inside; lia); reflexivity).
  - cbn [tb_runs]. enough (tb_run 1 obj o (pm_events total used ++ map (use_of (pm_refs used)) us) tb_new <> None) by (destruct (tb_run _ _ _ _ _); congruence).
    rewrite tb_run_app. destruct (N.eqb_spec obj 0) as [->|NE].
    2:{ assert (forall es s, (forall e, In e es -> tb_step 1 obj o e s = Some s) -> tb_run 1 obj o es s = Some s) as Q.
        { induction es as [|e es IH]; intros s H; [reflexivity|]. cbn [tb_run]. rewrite H by now left. apply IH. intros. apply H. now right. }
        rewrite Q.
        - rewrite Q; [discriminate|]. intros e H. apply in_map_iff in H. destruct H as (u & <- & _). unfold use_of, pm_refs.
          destruct (u_second u), (u_write u); cbn [tb_step fst snd p_obj]; (destruct (N.eqb_spec 0 obj); [congruence | reflexivity]).
        - intros e H. unfold pm_events in H. cbn [In] in H.
          repeat (destruct H as [<-|H]; [cbn [tb_step]; destruct (N.eqb_spec 0 obj); [congruence | reflexivity]|]). contradiction. }
    assert (o < used \/ used <= o < total \/ total <= o) as [L|[L|L]] by lia.
    + assert (tb_run 1 0 o (pm_events total used) tb_new = Some (pm_first false)) as -> by (unfold pm_events; at_octet; vm_compute; reflexivity).
      apply (tb_uses _ _ _ _ (use_ok used (total - used)) (fun s => exists w, s = pm_first w) F); [|now exists false].
      intros u s U [w ->]. unfold use_ok in U. unfold use_of, pm_refs.
      destruct (u_second u) eqn:US, (u_write u); cbn [fst snd p_obj p_tag p_off tb_step N.eqb andb].
      * replace (inside _ _ o) with false by (unfold inside; lia). exists (pm_first w). split; [reflexivity | now exists w].
      * replace (inside _ _ o) with false by (unfold inside; lia). exists (pm_first w). split; [reflexivity | now exists w].
      * destruct (inside _ _ o); [exists (pm_first true); split; [destruct w; reflexivity | now exists true] | exists (pm_first w); split; [reflexivity | now exists w]].
      * exists (pm_first w). split; [destruct (inside _ _ o), w; reflexivity | now exists w].
    + assert (tb_run 1 0 o (pm_events total used) tb_new = Some (pm_second false)) as -> by (unfold pm_events; at_octet; vm_compute; reflexivity).
      apply (tb_uses _ _ _ _ (use_ok used (total - used)) (fun s => exists w, s = pm_second w) F); [|now exists false].
      intros u s U [w ->]. unfold use_ok in U. unfold use_of, pm_refs.
      destruct (u_second u) eqn:US, (u_write u); cbn [fst snd p_obj p_tag p_off tb_step N.eqb andb].
      * destruct (inside _ _ o); [exists (pm_second true); split; [destruct w; reflexivity | now exists true] | exists (pm_second w); split; [reflexivity | now exists w]].
      * exists (pm_second w). split; [destruct (inside _ _ o), w; reflexivity | now exists w].
      * replace (inside _ _ o) with false by (unfold inside; lia). exists (pm_second w). split; [reflexivity | now exists w].
      * replace (inside _ _ o) with false by (unfold inside; lia). exists (pm_second w). split; [reflexivity | now exists w].
    + assert (tb_run 1 0 o (pm_events total used) tb_new <> None) as H by (unfold pm_events; at_octet; vm_compute; discriminate).
      destruct (tb_run 1 0 o (pm_events total used) tb_new) as [s0|]; [|congruence].
      apply (tb_uses _ _ _ _ (use_ok used (total - used)) (fun s => s = s0) F); [|reflexivity].
      intros u s U ->. unfold use_ok in U. unfold use_of, pm_refs. exists s0. split; [|reflexivity].
      destruct (u_second u), (u_write u); cbn [fst snd p_obj p_tag p_off tb_step N.eqb andb];
        (replace (inside _ _ o) with false by (unfold inside; lia); reflexivity).
Qed.

(** ** disassemble_mut *)
Definition dm_events (id l n : N) : list event :=
  [Retag KMut 0 0 1 0 (id + l + n); Retag KShr 0 1 2 0 (id + l + n); Enter 2; Read 0 2 0 (id + l);
   Retag KShr 0 2 3 0 id; Retag KShr 0 2 4 (id + l) n; Leave 2; Retag KRawConst 0 3 5 0 id; Retag KRawConst 0 4 6 (id + l) n;
   Retag KMut 0 5 7 0 id; Retag KMut 0 6 8 (id + l) n].
Definition dm_refs (id l : N) : ptr * ptr := ({| p_obj := 0; p_tag := 7; p_off := 0 |}, {| p_obj := 0; p_tag := 8; p_off := id + l |}).
Lemma dm_session id l n us : session (id + l + n) (d_disassemble_mut id l n) us = dm_events id l n ++ map (use_of (dm_refs id l)) us.
Proof. unfold session, dm_events, dm_refs. cbv -[N.add N.sub map app use_of]. reflexivity. Qed.
Lemma disassemble_mut_sb id l n us : 0 < id -> ~ stacked1 (session (id + l + n) (d_disassemble_mut id l n) us).
Proof.
  intros I S. apply (S 0 0). rewrite dm_session. cbn [sb_runs]. rewrite sb_run_app.
  assert (sb_run 1 0 0 (dm_events id l n) sb_new = None) as ->; [|reflexivity].
  unfold dm_events. cbn [sb_run sb_step N.eqb andb]. replace (inside 0 id 0) with true by (unfold inside; lia).
  replace (inside 0 (id + l) 0) with true by (unfold inside; lia). replace (inside 0 (id + l + n) 0) with true by (unfold inside; lia).
  replace (inside (id + l) n 0) with false by (unfold inside; lia). vm_compute. reflexivity.
Qed.
Definition dm_tree : list node :=
  [((1, 8%nat), (1, 6%nat), Reserved); ((1, 7%nat), (1, 5%nat), Reserved); ((1, 6%nat), (1, 4%nat), Alias); ((1, 5%nat), (1, 3%nat), Alias);
   ((1, 4%nat), (1, 2%nat), Frozen); ((1, 3%nat), (1, 2%nat), Frozen); ((1, 2%nat), (1, 1%nat), Frozen); ((1, 1%nat), (0, 0%nat), Reserved); ((0, 0%nat), (0, 0%nat), Active)].
Lemma dm_run id l n o : tb_run 1 0 o (dm_events id l n) tb_new = Some dm_tree.
Proof.
  unfold dm_events. cbn [tb_run tb_step N.eqb andb]. 
  destruct (inside 0 (id + l + n) o), (inside 0 (id + l) o), (inside 0 id o), (inside (id + l) n o); vm_compute; reflexivity.
Qed.
Lemma dm_use id l o u : tb_step 1 0 o (use_of (dm_refs id l) u) dm_tree =
  if u_write u && inside ((if u_second u then id + l else 0) + u_lo u) (u_n u) o then None else Some dm_tree.
Proof.
  unfold use_of, dm_refs. destruct (u_second u), (u_write u); cbn [fst snd p_obj p_tag p_off tb_step N.eqb andb]; destruct (inside _ _ o); reflexivity.
Qed.
Lemma disassemble_mut_tb id l n us :
  (tree1 (session (id + l + n) (d_disassemble_mut id l n) us) <-> forallb (fun u => negb (is_write u)) us = true).
Proof.
  rewrite dm_session. split.
  - intros T. destruct (forallb _ us) eqn:E; [reflexivity|]. exfalso.
    assert (exists u, In u us /\ is_write u = true) as (u & U & W).
    { clear T. induction us as [|u us IH]; [discriminate|]. cbn [forallb] in E. destruct (is_write u) eqn:W.
      - exists u. split; [now left | assumption].
      - destruct (IH E) as (x & X & Y). exists x. split; [now right | assumption]. }
    set (o := (if u_second u then id + l else 0) + u_lo u). apply (T 0 o). cbn [tb_runs]. rewrite tb_run_app, dm_run. clear T E.
    enough (tb_run 1 0 o (map (use_of (dm_refs id l)) us) dm_tree = None) as -> by reflexivity.
    induction us as [|x us IH]; [contradiction|]. cbn [map tb_run]. rewrite dm_use. destruct U as [->|U].
    + unfold is_write in W. apply andb_prop in W. destruct W as [W1 W2]. rewrite W1. fold o.
      replace (inside o (u_n u) o) with true by (unfold inside; lia). reflexivity.
    + destruct (u_write x && _); [reflexivity | now apply IH].
  - intros F obj o. cbn [tb_runs].
    enough (tb_run 1 obj o (dm_events id l n ++ map (use_of (dm_refs id l)) us) tb_new <> None) by (destruct (tb_run _ _ _ _ _); congruence).
    rewrite tb_run_app. destruct (N.eqb_spec obj 0) as [->|NE].
    + rewrite dm_run. induction us as [|x us IH]; [discriminate|]. cbn [forallb map tb_run] in *. apply andb_prop in F. destruct F as [F1 F2].
      rewrite dm_use. unfold is_write in F1.
      replace (u_write x && inside _ (u_n x) o) with false; [now apply IH|].
      destruct (u_write x); [|reflexivity]. cbn [andb] in *. symmetry. unfold inside. destruct (N.ltb_spec 0 (u_n x)); [discriminate | lia].
    + assert (forall es s, (forall e, In e es -> tb_step 1 obj o e s = Some s) -> tb_run 1 obj o es s = Some s) as Q.
      { induction es as [|e es IH]; intros s H; [reflexivity|]. cbn [tb_run]. rewrite H by now left. apply IH. intros. apply H. now right. }
      rewrite Q.
      * rewrite Q; [discriminate|]. intros e H. apply in_map_iff in H. destruct H as (u & <- & _). unfold use_of, dm_refs.
        destruct (u_second u), (u_write u); cbn [tb_step fst snd p_obj]; (destruct (N.eqb_spec 0 obj); [congruence | reflexivity]).
      * intros e H. unfold dm_events in H. cbn [In] in H.
        repeat (destruct H as [<-|H]; [cbn [tb_step]; destruct (N.eqb_spec 0 obj); [congruence | reflexivity]|]). contradiction.
Qed.
