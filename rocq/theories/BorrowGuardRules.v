(** The rules of protectors. *)
From Verif Require Import Base ModelBorrow SpecBorrow SpecGuard BorrowProofs BorrowRules.

Lemma guarded_rule c act t : guarded c act t = true <-> protects c act t.
Proof.
  unfold guarded, protects. rewrite existsb_exists. split; intros (j & I & E); exists j; (split; [exact I|]).
  - now destruct (tag_eqb_spec t (stamp c j)).
  - rewrite E. apply tag_eqb_refl.
Qed.
Lemma item_eqb_spec x y : item_eqb x y = true <-> x = y.
Proof.
  destruct x as [t p], y as [u q]. unfold item_eqb. cbn [fst snd]. destruct (tag_eqb_spec t u) as [->|NE]; cbn [andb].
  - destruct p, q; cbn; split; intros H; try reflexivity; try discriminate; inversion H.
  - split; [discriminate|]. intros H. inversion H. contradiction.
Qed.
Lemma kept_rule c act s s' : sb_kept c act s s' = true <-> stay c act s s'.
Proof.
  unfold sb_kept, stay. rewrite forallb_forall. split.
  - intros H t p I P D. specialize (H _ I). cbn [fst snd] in H. apply guarded_rule in P. rewrite P in H.
    assert (perm_eqb p Disabled = false) as E by (destruct p; try reflexivity; congruence). rewrite E in H. cbn in H. apply existsb_exists in H.
    destruct H as (y & Y & E1). apply item_eqb_spec in E1. now subst.
  - intros H [t p] I. cbn [fst snd]. destruct (guarded c act t) eqn:G; [|reflexivity]. destruct (perm_eqb p Disabled) eqn:E; [reflexivity|]. cbn [negb andb orb].
    apply existsb_exists. exists (t, p). split; [|now apply item_eqb_spec]. apply H; [exact I | now apply guarded_rule | intros ->; discriminate].
Qed.
Lemma other_rule_g (b w : bool) s s' : (if b then tb_guard w s else Some (tb_foreign w s)) = Some s' <-> (if b then other_protected w s s' else other w s s').
Proof.
  destruct b.
  - split.
    + destruct s, w; cbn; intros H; inversion H; constructor.
    + intros []; try reflexivity; destruct w0; reflexivity.
  - rewrite <- other_rule. split; intros H; [now inversion H | now subst].
Qed.
Lemma accessed_ext_g g w a b t u rest rest' : (forall n, In n rest -> (comes_from a t (fst (fst n)) <-> comes_from b u (fst (fst n)))) ->
  Forall2 (accessed_protected g w a t) rest rest' -> Forall2 (accessed_protected g w b u) rest rest'.
Proof.
  intros E F. induction F as [|n n' rest rest' [A [B C]] F IH]; constructor.
  - pose proof (E n (or_introl eq_refl)) as En. repeat split; [assumption | |]; intros H; [apply B, En, H | apply C; intros H'; apply H, En, H'].
  - apply IH. intros m M. apply E. now right.
Qed.
Lemma access_rule_g g w nodes : grown nodes -> forall t r, tb_guard_access g w t nodes = Some r <-> Forall2 (accessed_protected g w nodes t) nodes r.
Proof.
  induction nodes as [|[[x par] s] rest IH]; intros G t r.
  - cbn. split; intros H; [inversion H; constructor | inversion H; reflexivity].
  - destruct G as (G1 & G2 & G3). specialize (IH G3). cbn [tb_guard_access].
    assert (forall u v, u <> x -> (comes_from ((x, par, s) :: rest) u v <-> comes_from rest u v)) as OLD by (intros u v U; now apply from_older).
    assert (forall n, In n rest -> fst (fst n) <> x) as DIFF by (intros n I; now apply (proj1 (Forall_forall _ _) G1 n I)).
    destruct (tag_eqb_spec x t) as [->|NE].
    + (* the node itself *)
      assert (forall n, In n rest -> (comes_from rest par (fst (fst n)) <-> comes_from ((t, par, s) :: rest) t (fst (fst n)))) as EQ.
      { intros n I. destruct G2 as [P| ->]; [|contradiction]. rewrite <- (OLD par _ P). split; intros H.
        - eapply from_parent; [left; reflexivity | exact H].
        - inversion H as [|? par' s' ? I' H']; subst; [exfalso; now apply (DIFF n I)|]. destruct I' as [E|I']; [inversion E; subst; exact H'|].
          exfalso. now apply (DIFF _ I'). }
      split.
      * destruct (tb_local w s) as [s'|] eqn:L; [|discriminate]. destruct (tb_guard_access g w par rest) as [r'|] eqn:A; [|discriminate].
        intros E. inversion E. subst. constructor.
        -- split; [reflexivity|]. split; [intros _; now apply own_rule|]. intros H. exfalso. apply H. constructor.
        -- apply (accessed_ext_g g w rest _ par _ _ _ EQ). now apply IH.
      * intros F. inversion F as [|? n' ? rest' [E [B _]] F']. subst. destruct n' as [xp s']. cbn [fst snd] in *. subst xp.
        rewrite (proj2 (own_rule w s s') (B (from_self _ _))). rewrite (proj2 (IH par rest')); [reflexivity|]. refine (accessed_ext_g g w _ rest t par _ _ _ F').
        intros n I. symmetry. now apply EQ.
    + assert (forall n, In n rest -> (comes_from rest t (fst (fst n)) <-> comes_from ((x, par, s) :: rest) t (fst (fst n)))) as EQ.
      { intros n I. symmetry. apply OLD. congruence. }
      assert (~ comes_from ((x, par, s) :: rest) t x) as NC.
      { intros H. apply OLD in H; [|congruence]. destruct (from_in rest t x H) as [->|(m & M & P)]; [congruence|].
        now apply (proj1 (Forall_forall _ _) G1 m M). }
      split.
      * destruct (if g x then tb_guard w s else Some (tb_foreign w s)) as [s'|] eqn:O; [|discriminate].
        destruct (tb_guard_access g w t rest) as [r'|] eqn:A; [|discriminate]. intros E. inversion E. subst. constructor.
        -- split; [reflexivity|]. split; [intros H; now apply NC in H | intros _; now apply other_rule_g].
        -- apply (accessed_ext_g g w rest _ t _ _ _ EQ). now apply IH.
      * intros F. inversion F as [|? n' ? rest' [E [_ C]] F']. subst. destruct n' as [xp s']. cbn [fst snd] in *. subst xp.
        rewrite (proj2 (other_rule_g (g x) w s s') (C NC)). rewrite (proj2 (IH t rest')); [reflexivity|]. refine (accessed_ext_g g w _ rest t t _ _ _ F').
        intros n I. symmetry. now apply EQ.
Qed.
