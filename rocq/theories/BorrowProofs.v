(** Proofs about the aliasing models: one call at a time is enough, on the octets it can tell apart. *)
From Verif Require Import Base ModelBorrow SpecBorrow.

(** ** One call at a time *)
Definition base : tag := (0, O).
Definition inst (c : N) (top : list (nat * perm)) : list item := map (fun x => (stamp c (fst x), snd x)) top.
Definition nonzero (top : list (nat * perm)) : Prop := Forall (fun x => fst x <> O) top.
(** Items of earlier calls. *)
Definition old (c : N) (g : list item) : Prop := Forall (fun x => snd (fst x) <> O /\ fst (fst x) < c) g.

Lemma tag_eqb_refl t : tag_eqb t t = true.
Proof. unfold tag_eqb. now rewrite Nat.eqb_refl, N.eqb_refl. Qed.
Lemma stamp_eqb c i j : tag_eqb (stamp c i) (stamp c j) = Nat.eqb i j.
Proof.
  unfold tag_eqb, stamp. cbn [fst snd]. destruct (Nat.eqb_spec i j) as [->|]; [|reflexivity]. cbn. destruct j; apply N.eqb_refl.
Qed.
Lemma old_eqb c x j : snd x <> O -> fst x < c -> tag_eqb x (stamp c j) = false.
Proof.
  intros H1 H2. unfold tag_eqb, stamp. cbn [fst snd]. destruct (Nat.eqb_spec (snd x) j) as [E|]; [|reflexivity].
  cbn. destruct j; [congruence|]. apply N.eqb_neq. lia.
Qed.
Lemma old_mono c d g : c <= d -> old c g -> old d g.
Proof. intros H. apply Forall_impl. intros x [H1 H2]. split; [assumption | lia]. Qed.
Lemma inst_old c d top : c < d -> nonzero top -> old d (inst c top).
Proof.
  intros H. induction 1 as [|[j p] top Hj _ IH]; cbn; [constructor|]. constructor; [|exact IH]. cbn. unfold stamp.
  destruct j; [contradiction|]. split; [discriminate | assumption].
Qed.

Lemma read_base c g : old c g -> exists g', old c g' /\ sb_read base (g ++ sb_new) = Some (g' ++ sb_new).
Proof.
  induction 1 as [|[x p] g [H1 H2] _ (g' & OG & E)]; [exists []; split; [constructor | reflexivity]|]. cbn [app sb_read].
  assert (tag_eqb x base = false) as -> by (unfold tag_eqb, base; cbn [snd fst] in *; destruct (snd x); [contradiction | reflexivity]).
  cbn [andb]. rewrite E. eexists ((x, _) :: g'). split; [constructor; [split; assumption | exact OG] | reflexivity].
Qed.
Lemma write_base c g : old c g -> exists b, sb_write_ base (g ++ sb_new) = Some (b, sb_new) /\ b = false.
Proof.
  induction 1 as [|[x p] g [H1 H2] _ (b & E & B)]; [now exists false|]. cbn [app sb_write_].
  assert (tag_eqb x base = false) as -> by (unfold tag_eqb, base; cbn [snd fst] in *; destruct (snd x); [contradiction | reflexivity]).
  cbn [andb]. rewrite E, B. now exists false.
Qed.
Lemma read_sim c j top g r : old c g -> nonzero top -> sb_read (stamp 1 j) (inst 1 top ++ sb_new) = Some r ->
  exists top' g', nonzero top' /\ old c g' /\ r = inst 1 top' ++ sb_new /\ sb_read (stamp c j) (inst c top ++ g ++ sb_new) = Some (inst c top' ++ g' ++ sb_new).
Proof.
  intros OG Z. revert r. induction Z as [|[i p] top Hi Z IH]; intros r E; cbn [inst map app fst snd] in *.
  - destruct j as [|j]; [|discriminate]. cbn in E. inversion E. subst. destruct (read_base c g OG) as (g' & O' & E').
    exists [], g'. repeat split; [constructor | assumption | exact E'].
  - fold (inst 1 top) in *. fold (inst c top). cbn [sb_read] in *. rewrite !stamp_eqb in *.
    destruct (Nat.eqb i j && _).
    + inversion E. subst. exists ((i, p) :: top), g. repeat split; [constructor; assumption | assumption].
    + destruct (sb_read (stamp 1 j) (inst 1 top ++ sb_new)) as [r'|] eqn:E'; [|discriminate]. inversion E. subst.
      destruct (IH _ eq_refl) as (top' & g' & Z' & O' & -> & E2). rewrite E2. eexists ((i, _) :: top'), g'.
      repeat split; [constructor; assumption | assumption].
Qed.
Lemma write_sim_ c j top g b r : old c g -> nonzero top -> sb_write_ (stamp 1 j) (inst 1 top ++ sb_new) = Some (b, r) ->
  exists top' g', nonzero top' /\ old c g' /\ r = inst 1 top' ++ sb_new /\ sb_write_ (stamp c j) (inst c top ++ g ++ sb_new) = Some (b, inst c top' ++ g' ++ sb_new).
Proof.
  intros OG Z. revert b r. induction Z as [|[i p] top Hi Z IH]; intros b r E; cbn [inst map app fst snd] in *.
  - destruct j as [|j]; [|discriminate]. cbn in E. inversion E. subst. destruct (write_base c g OG) as (b & E' & ->).
    exists [], []. repeat split; [constructor | constructor | exact E'].
  - fold (inst 1 top) in *. fold (inst c top). cbn [sb_write_] in *. rewrite !stamp_eqb in *.
    destruct (Nat.eqb i j && _).
    + inversion E. subst. exists ((i, p) :: top), g. repeat split; [constructor; assumption | assumption].
    + destruct (sb_write_ (stamp 1 j) (inst 1 top ++ sb_new)) as [[b' r']|] eqn:E'; [|discriminate].
      destruct (IH _ _ eq_refl) as (top' & g' & Z' & O' & -> & E2). rewrite E2.
      destruct (b' && _); inversion E; subst; [exists ((i, p) :: top'), g' | exists top', g']; repeat split; try assumption.
      constructor; assumption.
Qed.
Lemma write_sim c j top g r : old c g -> nonzero top -> sb_write (stamp 1 j) (inst 1 top ++ sb_new) = Some r ->
  exists top' g', nonzero top' /\ old c g' /\ r = inst 1 top' ++ sb_new /\ sb_write (stamp c j) (inst c top ++ g ++ sb_new) = Some (inst c top' ++ g' ++ sb_new).
Proof.
  unfold sb_write. intros OG Z E. destruct (sb_write_ (stamp 1 j) _) as [[b s]|] eqn:E1; [|discriminate]. inversion E. subst.
  destruct (write_sim_ c j top g b r OG Z E1) as (top' & g' & Z' & O' & -> & ->). exists top', g'. auto.
Qed.
Lemma raw_sim c j k top g r : j <> O -> k <> O -> nonzero top -> sb_raw (stamp 1 j) (stamp 1 k) (inst 1 top ++ sb_new) = Some r ->
  exists top', nonzero top' /\ r = inst 1 top' ++ sb_new /\ sb_raw (stamp c j) (stamp c k) (inst c top ++ g ++ sb_new) = Some (inst c top' ++ g ++ sb_new).
Proof.
  intros J K Z. revert r. induction Z as [|[i p] top Hi Z IH]; intros r E; cbn [inst map app fst snd] in *.
  - destruct j; [contradiction | discriminate].
  - fold (inst 1 top) in *. fold (inst c top). cbn [sb_raw] in *. rewrite !stamp_eqb in *.
    destruct (Nat.eqb i j && _).
    + inversion E. subst. exists ((k, SharedRW) :: (i, p) :: top). repeat split. constructor; [exact K | constructor; assumption].
    + destruct (sb_raw (stamp 1 j) (stamp 1 k) (inst 1 top ++ sb_new)) as [r'|] eqn:E'; [|discriminate]. inversion E. subst.
      destruct (IH _ eq_refl) as (top' & Z' & -> & E2). rewrite E2. exists ((i, p) :: top').
      repeat split. constructor; assumption.
Qed.
(** New references have numbers, and no [*mut] is made from the object itself. *)
Definition plain (e : event) : bool :=
  match e with
  | Retag k _ t new _ _ => negb (Nat.eqb new O) && match k with KRawMut => negb (Nat.eqb t O) | _ => true end
  | Enter t => negb (Nat.eqb t O)
  | _ => true
  end.
Lemma step_sim c obj o e top g r : plain e = true -> old c g -> nonzero top -> sb_step 1 obj o e (inst 1 top ++ sb_new) = Some r ->
  exists top' g', nonzero top' /\ old c g' /\ r = inst 1 top' ++ sb_new /\ sb_step c obj o e (inst c top ++ g ++ sb_new) = Some (inst c top' ++ g' ++ sb_new).
Proof.
  intros P OG Z E. destruct e as [k ob t new lo n|ob t lo n|ob t lo n|t|t]; cbn [sb_step plain] in *; try destruct ((ob =? obj) && inside lo n o);
    try (inversion E; subst; exists top, g; now auto).
  - apply andb_prop in P. destruct P as [P1 P2]. assert (new <> O) by (destruct new; [discriminate | congruence]).
    assert (forall q top', nonzero top' -> nonzero ((new, q) :: top')) as NZ by (intros; constructor; assumption).
    destruct k; cbn [sb_retag] in *.
    + destruct (sb_write (stamp 1 t) (inst 1 top ++ sb_new)) as [s|] eqn:E1; [|discriminate]. inversion E. subst.
      destruct (write_sim c t top g s OG Z E1) as (top' & g' & Z' & O' & -> & ->). exists ((new, Unique) :: top'), g'. auto.
    + destruct (sb_read (stamp 1 t) (inst 1 top ++ sb_new)) as [s|] eqn:E1; [|discriminate]. inversion E. subst.
      destruct (read_sim c t top g s OG Z E1) as (top' & g' & Z' & O' & -> & ->). exists ((new, SharedRO) :: top'), g'. auto.
    + assert (t <> O) by (destruct t; [discriminate | congruence]).
      destruct (raw_sim c t new top g r H0 H Z E) as (top' & Z' & -> & ->). exists top', g. auto.
    + destruct (sb_read (stamp 1 t) (inst 1 top ++ sb_new)) as [s|] eqn:E1; [|discriminate]. inversion E. subst.
      destruct (read_sim c t top g s OG Z E1) as (top' & g' & Z' & O' & -> & ->). exists ((new, SharedRO) :: top'), g'. auto.
  - now apply read_sim.
  - now apply write_sim.
Qed.
Lemma run_sim c obj o es : forallb plain es = true -> forall top g r, old c g -> nonzero top -> sb_run 1 obj o es (inst 1 top ++ sb_new) = Some r ->
  exists top' g', nonzero top' /\ old c g' /\ r = inst 1 top' ++ sb_new /\ sb_run c obj o es (inst c top ++ g ++ sb_new) = Some (inst c top' ++ g' ++ sb_new).
Proof.
  induction es as [|e es IH]; cbn [forallb sb_run]; intros P top g r OG Z E.
  - inversion E. subst. exists top, g. auto.
  - apply andb_prop in P. destruct P as [P1 P2]. destruct (sb_step 1 obj o e (inst 1 top ++ sb_new)) as [s|] eqn:E1; [|discriminate].
    destruct (step_sim c obj o e top g s P1 OG Z E1) as (top' & g' & Z' & O' & -> & ->). now apply IH.
Qed.
(** A call that keeps to the model on new objects keeps to it on used ones. *)
Lemma sb_call c obj o es g : forallb plain es = true -> old c g -> sb_run 1 obj o es sb_new <> None ->
  exists g', old (c + 1) g' /\ sb_run c obj o es (g ++ sb_new) = Some (g' ++ sb_new).
Proof.
  intros P OG E. destruct (sb_run 1 obj o es sb_new) as [r|] eqn:E1; [|congruence].
  destruct (run_sim c obj o es P [] g r OG (Forall_nil _) E1) as (top & g' & Z & O' & _ & E2). exists (inst c top ++ g').
  rewrite <- app_assoc. split; [|exact E2]. apply Forall_app. split; [apply inst_old; [lia | assumption] | apply (old_mono c); [lia | assumption]].
Qed.

(** *** The same for trees *)
Definition tinst (c : N) (top : list (nat * nat * state)) : list node := map (fun x => (stamp c (fst (fst x)), stamp c (snd (fst x)), snd x)) top.
Definition tnonzero (top : list (nat * nat * state)) : Prop := Forall (fun x => fst (fst x) <> O) top.
Definition told (c : N) (g : list node) : Prop := Forall (fun x => snd (fst (fst x)) <> O /\ fst (fst (fst x)) < c) g.
Definition root (b : state) : list node := [(base, base, b)].

Lemma foreign_old c w j g b : told c g ->
  match tb_access w (stamp c j) (root b) with
  | None => tb_access w (stamp c j) (g ++ root b) = None
  | Some r => exists b' g', r = root b' /\ told c g' /\ tb_access w (stamp c j) (g ++ root b) = Some (g' ++ root b')
  end.
Proof.
  induction 1 as [|[[x par] s] g [H1 H2] OG IH].
  - cbn [app]. unfold root. cbn [tb_access]. destruct (tag_eqb base (stamp c j)).
    + destruct (tb_local w b) as [b'|]; [|reflexivity]. exists b', []. repeat split. constructor.
    + exists (tb_foreign w b), []. repeat split. constructor.
  - cbn [app tb_access]. cbn [fst snd] in *. rewrite old_eqb by assumption.
    destruct (tb_access w (stamp c j) (root b)) as [r|].
    + destruct IH as (b' & g' & -> & O' & E). rewrite E. eexists b', ((x, par, _) :: g'). repeat split. constructor; [split; assumption | exact O'].
    + now rewrite IH.
Qed.
Lemma root_same c d w j b : tb_access w (stamp c j) (root b) = tb_access w (stamp d j) (root b).
Proof. unfold root. cbn [tb_access]. destruct j; reflexivity. Qed.
Lemma access_sim c w top : tnonzero top -> forall j g b r, told c g -> tb_access w (stamp 1 j) (tinst 1 top ++ root b) = Some r ->
  exists top' g' b', tnonzero top' /\ told c g' /\ r = tinst 1 top' ++ root b' /\ tb_access w (stamp c j) (tinst c top ++ g ++ root b) = Some (tinst c top' ++ g' ++ root b').
Proof.
  induction 1 as [|[[i p] s] top Hi Z IH]; intros j g b r OG E; cbn [tinst map app fst snd] in *.
  - pose proof (foreign_old c w j g b OG) as F. rewrite (root_same c 1) in F. rewrite E in F. destruct F as (b' & g' & -> & O' & E').
    exists [], g', b'. repeat split; [constructor | assumption | exact E'].
  - fold (tinst 1 top) in *. fold (tinst c top). cbn [tb_access] in *. rewrite !stamp_eqb in *. destruct (Nat.eqb i j).
    + destruct (tb_local w s) as [s'|]; [|discriminate]. destruct (tb_access w (stamp 1 p) (tinst 1 top ++ root b)) as [r'|] eqn:E1; [|discriminate].
      inversion E. subst. destruct (IH _ _ _ _ OG E1) as (top' & g' & b' & Z' & O' & -> & E2). rewrite E2.
      exists ((i, p, s') :: top'), g', b'. repeat split; [constructor; assumption | assumption].
    + destruct (tb_access w (stamp 1 j) (tinst 1 top ++ root b)) as [r'|] eqn:E1; [|discriminate].
      inversion E. subst. destruct (IH _ _ _ _ OG E1) as (top' & g' & b' & Z' & O' & -> & E2). rewrite E2.
      exists ((i, p, tb_foreign w s) :: top'), g', b'. repeat split; [constructor; assumption | assumption].
Qed.
Lemma tstep_sim c obj o e top g b r : plain e = true -> told c g -> tnonzero top -> tb_step 1 obj o e (tinst 1 top ++ root b) = Some r ->
  exists top' g' b', tnonzero top' /\ told c g' /\ r = tinst 1 top' ++ root b' /\ tb_step c obj o e (tinst c top ++ g ++ root b) = Some (tinst c top' ++ g' ++ root b').
Proof.
  intros P OG Z E. destruct e as [k ob t new lo n|ob t lo n|ob t lo n|t|t]; cbn [tb_step plain] in *;
    try (inversion E; subst; exists top, g, b; now auto).
  - apply andb_prop in P. destruct P as [P1 _]. assert (new <> O) as N0 by (destruct new; [discriminate | congruence]).
    destruct (ob =? obj); [|inversion E; subst; exists top, g, b; now auto].
    assert (tb_retag (inside lo n o) k (stamp 1 t) (stamp 1 new) (tinst 1 top ++ root b) = Some r ->
      forall q, match (if inside lo n o then tb_access false (stamp 1 t) (tinst 1 top ++ root b) else Some (tinst 1 top ++ root b)) with
                | Some r0 => Some ((stamp 1 new, stamp 1 t, q) :: r0) | None => None end = Some r ->
      exists top' g' b', tnonzero top' /\ told c g' /\ r = tinst 1 top' ++ root b' /\
        match (if inside lo n o then tb_access false (stamp c t) (tinst c top ++ g ++ root b) else Some (tinst c top ++ g ++ root b)) with
        | Some r0 => Some ((stamp c new, stamp c t, q) :: r0) | None => None end = Some (tinst c top' ++ g' ++ root b')) as X.
    { intros _ q E1. destruct (inside lo n o).
      - destruct (tb_access false (stamp 1 t) (tinst 1 top ++ root b)) as [r0|] eqn:E2; [|discriminate]. inversion E1. subst.
        destruct (access_sim c false top Z t g b r0 OG E2) as (top' & g' & b' & Z' & O' & -> & ->).
        exists ((new, t, q) :: top'), g', b'. repeat split; [constructor; assumption | assumption].
      - inversion E1. subst. exists ((new, t, q) :: top), g, b. repeat split; [constructor; assumption | assumption]. }
    destruct k; cbn [tb_retag] in *; try (apply X; assumption);
      (inversion E; subst; exists ((new, t, Alias) :: top), g, b; repeat split; [constructor; assumption | assumption]).
  - destruct ((ob =? obj) && inside lo n o); [now apply access_sim | inversion E; subst; exists top, g, b; now auto].
  - destruct ((ob =? obj) && inside lo n o); [now apply access_sim | inversion E; subst; exists top, g, b; now auto].
Qed.
Lemma trun_sim c obj o es : forallb plain es = true -> forall top g b r, told c g -> tnonzero top -> tb_run 1 obj o es (tinst 1 top ++ root b) = Some r ->
  exists top' g' b', tnonzero top' /\ told c g' /\ r = tinst 1 top' ++ root b' /\ tb_run c obj o es (tinst c top ++ g ++ root b) = Some (tinst c top' ++ g' ++ root b').
Proof.
  induction es as [|e es IH]; cbn [forallb tb_run]; intros P top g b r OG Z E.
  - inversion E. subst. exists top, g, b. auto.
  - apply andb_prop in P. destruct P as [P1 P2]. destruct (tb_step 1 obj o e (tinst 1 top ++ root b)) as [s|] eqn:E1; [|discriminate].
    destruct (tstep_sim c obj o e top g b s P1 OG Z E1) as (top' & g' & b' & Z' & O' & -> & ->). now apply IH.
Qed.
(** The object itself stays active. *)
Definition tree_end (r : option (list node)) : bool :=
  match r with Some s => match last s (base, base, Dead) with (_, _, Active) => true | _ => false end | None => false end.
Lemma tb_call c obj o es g : forallb plain es = true -> told c g -> tree_end (tb_run 1 obj o es tb_new) = true ->
  exists g', told (c + 1) g' /\ tb_run c obj o es (g ++ tb_new) = Some (g' ++ tb_new).
Proof.
  intros P OG E. destruct (tb_run 1 obj o es tb_new) as [r|] eqn:E1; [|discriminate].
  destruct (trun_sim c obj o es P [] g Active r OG (Forall_nil _) E1) as (top & g' & b & Z & O' & -> & E2).
  cbn [tree_end] in E. unfold root in E. rewrite last_last in E. destruct b; try discriminate.
  exists (tinst c top ++ g'). rewrite <- app_assoc. split; [|exact E2]. apply Forall_app. split.
  - clear E E1 E2 O'. induction Z as [|[[i p] s] top Hi Z IH]; cbn; [constructor|]. constructor; [|exact IH]. cbn [fst snd] in *. unfold stamp.
    destruct i; [contradiction|]. cbn. split; [discriminate | lia].
  - revert O'. apply Forall_impl. intros x [H1 H2]. split; [assumption | lia].
Qed.

(** ** A call that breaks the rules on new objects breaks them on used ones *)
Lemma new_read c j : sb_read (stamp c j) sb_new = match j with O => Some sb_new | _ => None end.
Proof. destruct j; reflexivity. Qed.
Lemma old_read c j g : old c g -> j <> O -> sb_read (stamp c j) (g ++ sb_new) = None.
Proof.
  intros G J. induction G as [|[x p] g [H1 H2] _ IH]; cbn [app sb_read].
  - rewrite new_read. destruct j; [contradiction | reflexivity].
  - cbn [fst snd] in *. rewrite old_eqb by assumption. cbn [andb]. now rewrite IH.
Qed.
Lemma old_write c j g : old c g -> j <> O -> sb_write_ (stamp c j) (g ++ sb_new) = None.
Proof.
  intros G J. induction G as [|[x p] g [H1 H2] _ IH]; cbn [app sb_write_].
  - destruct j; [contradiction | reflexivity].
  - cbn [fst snd] in *. rewrite old_eqb by assumption. cbn [andb]. now rewrite IH.
Qed.
Lemma old_raw c j k g : old c g -> j <> O -> sb_raw (stamp c j) (stamp c k) (g ++ sb_new) = None.
Proof.
  intros G J. induction G as [|[x p] g [H1 H2] _ IH]; cbn [app sb_raw].
  - destruct j; [contradiction | reflexivity].
  - cbn [fst snd] in *. rewrite old_eqb by assumption. cbn [andb]. now rewrite IH.
Qed.
Lemma read_none c j top g : old c g -> sb_read (stamp 1 j) (inst 1 top ++ sb_new) = None -> sb_read (stamp c j) (inst c top ++ g ++ sb_new) = None.
Proof.
  intros G. induction top as [|[i p] top IH]; cbn [inst map app fst snd].
  - rewrite new_read. destruct j; [discriminate|]. intros _. apply old_read; [assumption | discriminate].
  - fold (inst 1 top). fold (inst c top). cbn [sb_read]. rewrite !stamp_eqb. destruct (Nat.eqb i j && _); [discriminate|].
    destruct (sb_read (stamp 1 j) (inst 1 top ++ sb_new)); [discriminate|]. intros _. now rewrite IH.
Qed.
Lemma write_none c j top g : old c g -> sb_write (stamp 1 j) (inst 1 top ++ sb_new) = None -> sb_write (stamp c j) (inst c top ++ g ++ sb_new) = None.
Proof.
  intros G. unfold sb_write. intros E. assert (sb_write_ (stamp 1 j) (inst 1 top ++ sb_new) = None) as E1 by (destruct (sb_write_ _ _) as [[]|]; [discriminate | reflexivity]).
  enough (sb_write_ (stamp c j) (inst c top ++ g ++ sb_new) = None) as -> by reflexivity. clear E.
  induction top as [|[i p] top IH]; cbn [inst map app fst snd] in *.
  - destruct j; [discriminate|]. apply old_write; [assumption | discriminate].
  - fold (inst 1 top) in *. fold (inst c top). cbn [sb_write_] in *. rewrite !stamp_eqb in *. destruct (Nat.eqb i j && _); [discriminate|].
    destruct (sb_write_ (stamp 1 j) (inst 1 top ++ sb_new)) as [[b r]|]; [destruct (b && _); discriminate|]. now rewrite IH.
Qed.
Lemma raw_none c j k top g : old c g -> j <> O -> sb_raw (stamp 1 j) (stamp 1 k) (inst 1 top ++ sb_new) = None ->
  sb_raw (stamp c j) (stamp c k) (inst c top ++ g ++ sb_new) = None.
Proof.
  intros G J. induction top as [|[i p] top IH]; cbn [inst map app fst snd].
  - intros _. now apply old_raw.
  - fold (inst 1 top). fold (inst c top). cbn [sb_raw]. rewrite !stamp_eqb. destruct (Nat.eqb i j && _); [discriminate|].
    destruct (sb_raw (stamp 1 j) (stamp 1 k) (inst 1 top ++ sb_new)); [discriminate|]. intros _. now rewrite IH.
Qed.
Lemma step_none c obj o e top g : plain e = true -> old c g -> sb_step 1 obj o e (inst 1 top ++ sb_new) = None ->
  sb_step c obj o e (inst c top ++ g ++ sb_new) = None.
Proof.
  intros P G E. destruct e as [k ob t new lo n|ob t lo n|ob t lo n|t|t]; cbn [sb_step plain] in *; try destruct ((ob =? obj) && inside lo n o); try discriminate E.
  - apply andb_prop in P. destruct P as [_ P2]. destruct k; cbn [sb_retag] in *.
    + destruct (sb_write (stamp 1 t) (inst 1 top ++ sb_new)) eqn:E1; [discriminate|]. now rewrite write_none.
    + destruct (sb_read (stamp 1 t) (inst 1 top ++ sb_new)) eqn:E1; [discriminate|]. now rewrite read_none.
    + apply raw_none; [assumption | destruct t; [discriminate | congruence] | assumption].
    + destruct (sb_read (stamp 1 t) (inst 1 top ++ sb_new)) eqn:E1; [discriminate|]. now rewrite read_none.
  - now apply read_none.
  - now apply write_none.
Qed.
Lemma run_none c obj o es : forallb plain es = true -> forall top g, old c g -> nonzero top -> sb_run 1 obj o es (inst 1 top ++ sb_new) = None ->
  sb_run c obj o es (inst c top ++ g ++ sb_new) = None.
Proof.
  induction es as [|e es IH]; cbn [forallb sb_run]; intros P top g G Z E; [discriminate|].
  apply andb_prop in P. destruct P as [P1 P2]. destruct (sb_step 1 obj o e (inst 1 top ++ sb_new)) as [s|] eqn:E1.
  - destruct (step_sim c obj o e top g s P1 G Z E1) as (top' & g' & Z' & G' & -> & ->). now apply IH.
  - now rewrite (step_none c obj o e top g P1 G E1).
Qed.
Lemma sb_call_none c obj o es g : forallb plain es = true -> old c g -> sb_run 1 obj o es sb_new = None -> sb_run c obj o es (g ++ sb_new) = None.
Proof. intros P G E. exact (run_none c obj o es P [] g G (Forall_nil _) E). Qed.

Lemma access_none c w top : forall j g b, told c g -> tb_access w (stamp 1 j) (tinst 1 top ++ root b) = None ->
  tb_access w (stamp c j) (tinst c top ++ g ++ root b) = None.
Proof.
  induction top as [|[[i p] s] top IH]; intros j g b G E; cbn [tinst map app fst snd] in *.
  - pose proof (foreign_old c w j g b G) as F. rewrite (root_same c 1), E in F. exact F.
  - fold (tinst 1 top) in *. fold (tinst c top). cbn [tb_access] in *. rewrite !stamp_eqb in *. destruct (Nat.eqb i j).
    + destruct (tb_local w s); [|reflexivity]. destruct (tb_access w (stamp 1 p) (tinst 1 top ++ root b)) eqn:E1; [discriminate|]. now rewrite IH.
    + destruct (tb_access w (stamp 1 j) (tinst 1 top ++ root b)) eqn:E1; [discriminate|]. now rewrite IH.
Qed.
Lemma tstep_none c obj o e top g b : told c g -> tb_step 1 obj o e (tinst 1 top ++ root b) = None ->
  tb_step c obj o e (tinst c top ++ g ++ root b) = None.
Proof.
  intros G E. destruct e as [k ob t new lo n|ob t lo n|ob t lo n|t|t]; cbn [tb_step] in *; try discriminate E.
  - destruct (ob =? obj); [|discriminate]. destruct k; cbn [tb_retag] in *; try discriminate;
      (destruct (inside lo n o); [|discriminate]; destruct (tb_access false (stamp 1 t) (tinst 1 top ++ root b)) eqn:E1; [discriminate|]; now rewrite access_none).
  - destruct ((ob =? obj) && inside lo n o); [now apply access_none | discriminate].
  - destruct ((ob =? obj) && inside lo n o); [now apply access_none | discriminate].
Qed.
Lemma trun_none c obj o es : forallb plain es = true -> forall top g b, told c g -> tnonzero top -> tb_run 1 obj o es (tinst 1 top ++ root b) = None ->
  tb_run c obj o es (tinst c top ++ g ++ root b) = None.
Proof.
  induction es as [|e es IH]; cbn [forallb tb_run]; intros P top g b G Z E; [discriminate|].
  apply andb_prop in P. destruct P as [P1 P2]. destruct (tb_step 1 obj o e (tinst 1 top ++ root b)) as [s|] eqn:E1.
  - destruct (tstep_sim c obj o e top g b s P1 G Z E1) as (top' & g' & b' & Z' & G' & -> & ->). now apply IH.
  - now rewrite (tstep_none c obj o e top g b G E1).
Qed.
Lemma tb_call_none c obj o es g : forallb plain es = true -> told c g -> tb_run 1 obj o es tb_new = None -> tb_run c obj o es (g ++ tb_new) = None.
Proof. intros P G E. exact (trun_none c obj o es P [] g Active G (Forall_nil _) E). Qed.
