(** Protectors: a call that keeps to the models on new objects keeps to them on used ones. *)
From Verif Require Import Base ModelBorrow SpecBorrow BorrowProofs BorrowMain.

Definition numbered (act : list nat) : Prop := Forall (fun j => j <> O) act.
Lemma act_numbered e act : plain e = true -> numbered act -> numbered (act_step e act).
Proof.
  intros P Z. destruct e; cbn [act_step plain] in *; try exact Z.
  - constructor; [destruct t; [discriminate | congruence] | exact Z].
  - unfold numbered in *. rewrite Forall_forall in *. intros j I. apply Z. now apply in_remove in I.
Qed.
Lemma guarded_stamp c act i : guarded c act (stamp c i) = existsb (Nat.eqb i) act.
Proof. unfold guarded. induction act as [|j act IH]; [reflexivity|]. cbn [existsb]. now rewrite stamp_eqb, IH. Qed.
Lemma guarded_old c act x : snd x <> O -> fst x < c -> guarded c act x = false.
Proof. intros H1 H2. unfold guarded. induction act as [|j act IH]; [reflexivity|]. cbn [existsb]. now rewrite old_eqb, IH. Qed.
Lemma guarded_base c act : numbered act -> guarded c act base = false.
Proof.
  induction 1 as [|j act J _ IH]; [reflexivity|]. unfold guarded in *. cbn [existsb]. rewrite IH. destruct j; [contradiction | reflexivity].
Qed.
Lemma tag_eqb_sym a b : tag_eqb a b = tag_eqb b a.
Proof. unfold tag_eqb. now rewrite Nat.eqb_sym, N.eqb_sym. Qed.

(** ** Stacked Borrows *)
Definition seen_in (i : nat) (p : perm) (top : list (nat * perm)) : bool := existsb (fun y => Nat.eqb i (fst y) && perm_eqb p (snd y)) top.
Lemma seen_inst c i p top : existsb (item_eqb (stamp c i, p)) (inst c top) = seen_in i p top.
Proof.
  induction top as [|[j q] top IH]; [reflexivity|]. cbn [inst map existsb seen_in]. fold (inst c top). fold (seen_in i p top). rewrite IH.
  unfold item_eqb. cbn [fst snd]. now rewrite stamp_eqb.
Qed.
Lemma seen_old c i p g : old c g -> existsb (item_eqb (stamp c i, p)) g = false.
Proof.
  induction 1 as [|[x q] g [H1 H2] _ IH]; [reflexivity|]. cbn [existsb]. rewrite IH. unfold item_eqb. cbn [fst snd] in *.
  now rewrite tag_eqb_sym, old_eqb.
Qed.
Lemma seen_new c i p : i <> O -> existsb (item_eqb (stamp c i, p)) sb_new = false.
Proof. intros I. destruct i; [contradiction | reflexivity]. Qed.
Definition kept_top (act : list nat) (top top' : list (nat * perm)) : bool :=
  forallb (fun x => negb (existsb (Nat.eqb (fst x)) act && negb (perm_eqb (snd x) Disabled)) || seen_in (fst x) (snd x) top') top.
Lemma kept_inst c act top top' g' : nonzero top -> old c g' ->
  forallb (fun x => negb (guarded c act (fst x) && negb (perm_eqb (snd x) Disabled)) || existsb (item_eqb x) (inst c top' ++ g' ++ sb_new)) (inst c top) = kept_top act top top'.
Proof.
  intros Z G. induction Z as [|[i p] top I Z IH]; [reflexivity|]. cbn [inst map forallb kept_top]. fold (inst c top). fold (kept_top act top top').
  rewrite IH. f_equal. cbn [fst snd] in *. rewrite guarded_stamp, !existsb_app, seen_inst, seen_old, seen_new by assumption. now rewrite !orb_false_r.
Qed.
Lemma kept_sim c act top top' g g' : numbered act -> nonzero top -> old c g -> old c g' ->
  sb_kept c act (inst c top ++ g ++ sb_new) (inst c top' ++ g' ++ sb_new) = kept_top act top top'.
Proof.
  intros A Z G G'. unfold sb_kept. rewrite !forallb_app, kept_inst by assumption.
  match goal with |- _ && (?a && ?b) = _ => assert (a = true) as ->; [|assert (b = true) as ->; [|now rewrite !andb_true_r]] end.
  - clear - G. apply forallb_forall. intros x I. unfold old in G. rewrite Forall_forall in G. destruct (G x I) as [H1 H2]. now rewrite guarded_old.
  - cbn [forallb sb_new fst snd]. change (stamp 0 0) with base. now rewrite guarded_base.
Qed.
Lemma guard_sim c obj o es : forallb plain es = true -> forall act top g r, numbered act -> old c g -> nonzero top ->
  sb_guard_run 1 obj o es act (inst 1 top ++ sb_new) = Some r ->
  exists top' g', nonzero top' /\ old c g' /\ sb_guard_run c obj o es act (inst c top ++ g ++ sb_new) = Some (inst c top' ++ g' ++ sb_new).
Proof.
  induction es as [|e es IH]; cbn [forallb sb_guard_run]; intros P act top g r A G Z E.
  - exists top, g. auto.
  - apply andb_prop in P. destruct P as [P1 P2]. destruct (sb_step 1 obj o e (inst 1 top ++ sb_new)) as [s|] eqn:E1; [|discriminate].
    destruct (step_sim c obj o e top g s P1 G Z E1) as (top' & g' & Z' & G' & -> & ->).
    rewrite (kept_sim c) by assumption.
    pose proof (kept_sim 1 act top top' [] [] A Z (Forall_nil _) (Forall_nil _)) as K. cbn [app] in K. rewrite K in E.
    destruct (kept_top act top top'); [|discriminate]. exact (IH P2 _ _ _ _ (act_numbered e act P1 A) G' Z' E).
Qed.
Lemma sb_guard_call c obj o es g : forallb plain es = true -> old c g -> sb_guard_run 1 obj o es [] sb_new <> None ->
  exists g', old (c + 1) g' /\ sb_guard_run c obj o es [] (g ++ sb_new) = Some (g' ++ sb_new).
Proof.
  intros P G E. destruct (sb_guard_run 1 obj o es [] sb_new) as [r|] eqn:E1; [|congruence].
  destruct (guard_sim c obj o es P [] [] g r (Forall_nil _) G (Forall_nil _) E1) as (top & g' & Z & O' & E2). exists (inst c top ++ g').
  rewrite <- app_assoc. split; [|exact E2]. apply Forall_app. split; [apply inst_old; [lia | assumption] | apply (old_mono c); [lia | assumption]].
Qed.

(** ** Tree Borrows *)
Lemma guard_foreign c act w j g b : numbered act -> told c g ->
  match tb_guard_access (guarded c act) w (stamp c j) (root b) with
  | None => True
  | Some r => exists b' g', r = root b' /\ told c g' /\ tb_guard_access (guarded c act) w (stamp c j) (g ++ root b) = Some (g' ++ root b')
  end.
Proof.
  intros A. induction 1 as [|[[x par] s] g [H1 H2] OG IH].
  - cbn [app]. unfold root. cbn [tb_guard_access]. destruct (tag_eqb base (stamp c j)).
    + destruct (tb_local w b) as [b'|]; [|exact I]. exists b', []. repeat split. constructor.
    + rewrite guarded_base by assumption. exists (tb_foreign w b), []. repeat split. constructor.
  - cbn [app tb_guard_access]. cbn [fst snd] in *. rewrite old_eqb, guarded_old by assumption.
    destruct (tb_guard_access (guarded c act) w (stamp c j) (root b)) as [r|]; [|exact I].
    destruct IH as (b' & g' & -> & O' & E). rewrite E. eexists b', ((x, par, _) :: g'). repeat split. constructor; [split; assumption | exact O'].
Qed.
Lemma guard_root c d act w j b : numbered act ->
  tb_guard_access (guarded c act) w (stamp c j) (root b) = tb_guard_access (guarded d act) w (stamp d j) (root b).
Proof. intros A. unfold root. cbn [tb_guard_access]. rewrite !guarded_base by assumption. destruct j; reflexivity. Qed.
Lemma guard_access_sim c act w top : numbered act -> tnonzero top -> forall j g b r, told c g ->
  tb_guard_access (guarded 1 act) w (stamp 1 j) (tinst 1 top ++ root b) = Some r ->
  exists top' g' b', tnonzero top' /\ told c g' /\ r = tinst 1 top' ++ root b' /\
    tb_guard_access (guarded c act) w (stamp c j) (tinst c top ++ g ++ root b) = Some (tinst c top' ++ g' ++ root b').
Proof.
  intros A. induction 1 as [|[[i p] s] top Hi Z IH]; intros j g b r OG E; cbn [tinst map app fst snd] in *.
  - pose proof (guard_foreign c act w j g b A OG) as F. rewrite (guard_root c 1) in F by assumption. rewrite E in F.
    destruct F as (b' & g' & -> & O' & E'). exists [], g', b'. repeat split; [constructor | assumption | exact E'].
  - fold (tinst 1 top) in *. fold (tinst c top). cbn [tb_guard_access] in *. rewrite !stamp_eqb, !guarded_stamp in *. destruct (Nat.eqb i j).
    + destruct (tb_local w s) as [s'|]; [|discriminate].
      destruct (tb_guard_access (guarded 1 act) w (stamp 1 p) (tinst 1 top ++ root b)) as [r'|] eqn:E1; [|discriminate].
      inversion E. subst. destruct (IH _ _ _ _ OG E1) as (top' & g' & b' & Z' & O' & -> & E2). rewrite E2.
      exists ((i, p, s') :: top'), g', b'. repeat split; [constructor; assumption | assumption].
    + destruct (if existsb (Nat.eqb i) act then tb_guard w s else Some (tb_foreign w s)) as [s'|]; [|discriminate].
      destruct (tb_guard_access (guarded 1 act) w (stamp 1 j) (tinst 1 top ++ root b)) as [r'|] eqn:E1; [|discriminate].
      inversion E. subst. destruct (IH _ _ _ _ OG E1) as (top' & g' & b' & Z' & O' & -> & E2). rewrite E2.
      exists ((i, p, s') :: top'), g', b'. repeat split; [constructor; assumption | assumption].
Qed.
Lemma tguard_step_sim c act obj o e top g b r : plain e = true -> numbered act -> told c g -> tnonzero top ->
  tb_guard_step (guarded 1 act) 1 obj o e (tinst 1 top ++ root b) = Some r ->
  exists top' g' b', tnonzero top' /\ told c g' /\ r = tinst 1 top' ++ root b' /\
    tb_guard_step (guarded c act) c obj o e (tinst c top ++ g ++ root b) = Some (tinst c top' ++ g' ++ root b').
Proof.
  intros P A OG Z E. destruct e as [k ob t new lo n|ob t lo n|ob t lo n|t|t]; cbn [tb_guard_step plain] in *;
    try (inversion E; subst; exists top, g, b; now auto).
  - apply andb_prop in P. destruct P as [P1 _]. assert (new <> O) as N0 by (destruct new; [discriminate | congruence]).
    destruct (ob =? obj); [|inversion E; subst; exists top, g, b; now auto].
    assert (forall q, match (if inside lo n o then tb_guard_access (guarded 1 act) false (stamp 1 t) (tinst 1 top ++ root b) else Some (tinst 1 top ++ root b)) with
                | Some r0 => Some ((stamp 1 new, stamp 1 t, q) :: r0) | None => None end = Some r ->
      exists top' g' b', tnonzero top' /\ told c g' /\ r = tinst 1 top' ++ root b' /\
        match (if inside lo n o then tb_guard_access (guarded c act) false (stamp c t) (tinst c top ++ g ++ root b) else Some (tinst c top ++ g ++ root b)) with
        | Some r0 => Some ((stamp c new, stamp c t, q) :: r0) | None => None end = Some (tinst c top' ++ g' ++ root b')) as X.
    { intros q E1. destruct (inside lo n o).
      - destruct (tb_guard_access (guarded 1 act) false (stamp 1 t) (tinst 1 top ++ root b)) as [r0|] eqn:E2; [|discriminate]. inversion E1. subst.
        destruct (guard_access_sim c act false top A Z t g b r0 OG E2) as (top' & g' & b' & Z' & O' & -> & ->).
        exists ((new, t, q) :: top'), g', b'. repeat split; [constructor; assumption | assumption].
      - inversion E1. subst. exists ((new, t, q) :: top), g, b. repeat split; [constructor; assumption | assumption]. }
    destruct k; cbn [tb_guard_retag] in *; try (apply X; assumption);
      (inversion E; subst; exists ((new, t, Alias) :: top), g, b; repeat split; [constructor; assumption | assumption]).
  - destruct ((ob =? obj) && inside lo n o); [now apply guard_access_sim | inversion E; subst; exists top, g, b; now auto].
  - destruct ((ob =? obj) && inside lo n o); [now apply guard_access_sim | inversion E; subst; exists top, g, b; now auto].
Qed.
Lemma tguard_sim c obj o es : forallb plain es = true -> forall act top g b r, numbered act -> told c g -> tnonzero top ->
  tb_guard_run 1 obj o es act (tinst 1 top ++ root b) = Some r ->
  exists top' g' b', tnonzero top' /\ told c g' /\ r = tinst 1 top' ++ root b' /\
    tb_guard_run c obj o es act (tinst c top ++ g ++ root b) = Some (tinst c top' ++ g' ++ root b').
Proof.
  induction es as [|e es IH]; cbn [forallb tb_guard_run]; intros P act top g b r A OG Z E.
  - inversion E. subst. exists top, g, b. auto.
  - apply andb_prop in P. destruct P as [P1 P2]. destruct (tb_guard_step _ 1 obj o e (tinst 1 top ++ root b)) as [s|] eqn:E1; [|discriminate].
    destruct (tguard_step_sim c act obj o e top g b s P1 A OG Z E1) as (top' & g' & b' & Z' & O' & -> & ->).
    exact (IH P2 _ _ _ _ _ (act_numbered e act P1 A) O' Z' E).
Qed.
Lemma tb_guard_call c obj o es g : forallb plain es = true -> told c g -> tree_end (tb_guard_run 1 obj o es [] tb_new) = true ->
  exists g', told (c + 1) g' /\ tb_guard_run c obj o es [] (g ++ tb_new) = Some (g' ++ tb_new).
Proof.
  intros P OG E. destruct (tb_guard_run 1 obj o es [] tb_new) as [r|] eqn:E1; [|discriminate].
  destruct (tguard_sim c obj o es P [] [] g Active r (Forall_nil _) OG (Forall_nil _) E1) as (top & g' & b & Z & O' & -> & E2).
  cbn [tree_end] in E. unfold root in E. rewrite last_last in E. destruct b; try discriminate.
  exists (tinst c top ++ g'). rewrite <- app_assoc. split; [|exact E2]. apply Forall_app. split.
  - clear E E1 E2 O'. induction Z as [|[[i p] s] top Hi Z IH]; cbn; [constructor|]. constructor; [|exact IH]. cbn [fst snd] in *. unfold stamp.
    destruct i; [contradiction|]. cbn. split; [discriminate | lia].
  - revert O'. apply Forall_impl. intros x [H1 H2]. split; [assumption | lia].
Qed.

(** ** What is allowed with protectors is allowed without *)
Lemma sb_guard_weaken c obj o es : forall act s r, sb_guard_run c obj o es act s = Some r -> sb_run c obj o es s = Some r.
Proof.
  induction es as [|e es IH]; cbn [sb_guard_run sb_run]; intros act s r E; [exact E|].
  destruct (sb_step c obj o e s) as [s'|]; [|discriminate]. destruct (sb_kept c act s s'); [exact (IH _ _ _ E) | discriminate].
Qed.
Lemma stacked_weaken h : stacked_args h -> stacked h.
Proof.
  intros S obj o. specialize (S obj o). revert S. generalize sb_new. induction h as [|[i es] h IH]; intros s; cbn [sb_guard_runs sb_runs]; [auto|].
  destruct (sb_guard_run i obj o es [] s) as [s'|] eqn:E; [|congruence]. rewrite (sb_guard_weaken _ _ _ _ _ _ _ E). apply IH.
Qed.
(** Protected references may be frozen where they would be reserved. *)
Definition below (s s' : state) : Prop := s = s' \/ s = Frozen /\ s' = Reserved.
Definition node_below (n n' : node) : Prop := fst n = fst n' /\ below (snd n) (snd n').
Lemma below_local w s s' r : below s s' -> tb_local w s = Some r -> exists r', tb_local w s' = Some r' /\ below r r'.
Proof. intros [-> | [-> ->]] E; [exists r; split; [exact E | now left]|]. destruct w; inversion E. eexists. split; [reflexivity | now right]. Qed.
Lemma below_foreign (b w : bool) s s' r : below s s' -> (if b then tb_guard w s else Some (tb_foreign w s)) = Some r -> below r (tb_foreign w s').
Proof. intros [-> | [-> ->]] E; destruct b, w; cbn in E; try (destruct s'; cbn in E); inversion E; subst; cbn; unfold below; auto. Qed.
Lemma below_access g w s : forall s' t r, Forall2 node_below s s' -> tb_guard_access g w t s = Some r -> exists r', tb_access w t s' = Some r' /\ Forall2 node_below r r'.
Proof.
  induction s as [|[[x par] q] s IH]; intros s' t r F E; inversion F as [|? [[x' par'] q'] ? s1 [B1 B2] F1]; subst.
  - inversion E. subst. exists []. split; [reflexivity | constructor].
  - cbn [fst snd] in *. inversion B1. subst x' par'. cbn [tb_guard_access tb_access] in *. destruct (tag_eqb x t).
    + destruct (tb_local w q) as [u|] eqn:E1; [|discriminate]. destruct (tb_guard_access g w par s) as [v|] eqn:E2; [|discriminate]. inversion E. subst.
      destruct (below_local w q q' u B2 E1) as (u' & -> & U). destruct (IH _ _ _ F1 E2) as (v' & -> & V). eexists. split; [reflexivity|].
      constructor; [split; [reflexivity | exact U] | exact V].
    + destruct (if g x then _ else _) as [u|] eqn:E1; [|discriminate]. destruct (tb_guard_access g w t s) as [v|] eqn:E2; [|discriminate]. inversion E. subst.
      pose proof (below_foreign (g x) w q q' u B2 E1) as U. destruct (IH _ _ _ F1 E2) as (v' & -> & V). eexists. split; [reflexivity|].
      constructor; [split; [reflexivity | exact U] | exact V].
Qed.
Lemma below_step g c obj o e s s' r : Forall2 node_below s s' -> tb_guard_step g c obj o e s = Some r -> exists r', tb_step c obj o e s' = Some r' /\ Forall2 node_below r r'.
Proof.
  intros F E. destruct e as [k ob t new lo n|ob t lo n|ob t lo n|t|t]; cbn [tb_guard_step tb_step] in *;
    try (inversion E; subst; exists s'; split; [reflexivity | exact F]).
  - destruct (ob =? obj); [|inversion E; subst; exists s'; split; [reflexivity | exact F]].
    assert (forall q, match (if inside lo n o then tb_guard_access g false (stamp c t) s else Some s) with
                      | Some r0 => Some ((stamp c new, stamp c t, q) :: r0) | None => None end = Some r ->
      exists r', match (if inside lo n o then tb_access false (stamp c t) s' else Some s') with
                 | Some r0 => Some ((stamp c new, stamp c t, q) :: r0) | None => None end = Some r' /\ Forall2 node_below r r') as X.
    { intros q E1. destruct (inside lo n o).
      - destruct (tb_guard_access g false (stamp c t) s) as [u|] eqn:E2; [|discriminate]. inversion E1. subst.
        destruct (below_access g false s s' _ u F E2) as (u' & -> & U). eexists. split; [reflexivity|]. constructor; [split; [reflexivity | now left] | exact U].
      - inversion E1. subst. eexists. split; [reflexivity|]. constructor; [split; [reflexivity | now left] | exact F]. }
    destruct k; cbn [tb_guard_retag tb_retag] in *; try (apply X; exact E);
      (inversion E; subst; eexists; split; [reflexivity|]; constructor; [split; [reflexivity | now left] | exact F]).
  - destruct ((ob =? obj) && inside lo n o); [exact (below_access _ _ _ _ _ _ F E)|]. inversion E; subst. exists s'. split; [reflexivity | exact F].
  - destruct ((ob =? obj) && inside lo n o); [exact (below_access _ _ _ _ _ _ F E)|]. inversion E; subst. exists s'. split; [reflexivity | exact F].
Qed.
Lemma below_run c obj o es : forall act s s' r, Forall2 node_below s s' -> tb_guard_run c obj o es act s = Some r ->
  exists r', tb_run c obj o es s' = Some r' /\ Forall2 node_below r r'.
Proof.
  induction es as [|e es IH]; cbn [tb_guard_run tb_run]; intros act s s' r F E; [inversion E; subst; exists s'; split; [reflexivity | exact F]|].
  destruct (tb_guard_step _ c obj o e s) as [u|] eqn:E1; [|discriminate]. destruct (below_step _ _ _ _ _ _ _ _ F E1) as (u' & -> & U). exact (IH _ _ _ _ U E).
Qed.
Lemma tree_weaken h : tree_args h -> tree h.
Proof.
  intros S obj o. specialize (S obj o). revert S.
  assert (Forall2 node_below tb_new tb_new) as F by (constructor; [split; [reflexivity | now left] | constructor]). revert F. generalize tb_new at 2 4. generalize tb_new.
  induction h as [|[i es] h IH]; intros s s' F; cbn [tb_guard_runs tb_runs]; [discriminate|].
  destruct (tb_guard_run i obj o es [] s) as [u|] eqn:E; [|congruence]. destruct (below_run _ _ _ _ _ _ _ _ F E) as (u' & -> & U). exact (IH _ _ U).
Qed.
