(** The functions of the models do what the rules say. *)
From Verif Require Import Base ModelBorrow SpecBorrow BorrowProofs.

Lemma tag_eqb_spec a b : reflect (a = b) (tag_eqb a b).
Proof.
  unfold tag_eqb. destruct a as [c i], b as [d j]. cbn [fst snd]. destruct (Nat.eqb_spec i j); cbn [andb].
  - destruct (N.eqb_spec c d); constructor; congruence.
  - constructor. congruence.
Qed.
Lemma readable p : may_read p <-> match p with Disabled => false | _ => true end = true.
Proof. destruct p; split; intros H; try reflexivity; try discriminate; exfalso; apply H; reflexivity. Qed.
Lemma writable p : may_write p <-> match p with Unique | SharedRW => true | _ => false end = true.
Proof. destruct p; split; intros H; try reflexivity; try discriminate; try (now left); try (now right); destruct H; discriminate. Qed.
Lemma read_rule t s : forall s', sb_read t s = Some s' <-> reads t s s'.
Proof.
  induction s as [|[x p] s IH]; intros s'.
  - split; [discriminate|]. intros (a & p & b & a' & E & _). destruct a; discriminate.
  - cbn [sb_read]. destruct (tag_eqb_spec x t) as [->|NE].
    + destruct (match p with Disabled => false | _ => true end) eqn:P; cbn [andb].
      * split.
        -- intros E. inversion E. exists [], p, s, []. repeat split; [now apply readable | constructor | constructor].
        -- intros (a & q & b & a' & E & [U T] & D & ->). destruct a as [|y a].
           ++ inversion D. subst. inversion E. subst. reflexivity.
           ++ inversion E. subst. inversion T as [|? ? T1 T2]. subst. exfalso. apply T1. split; [reflexivity | now apply readable].
      * split.
        -- destruct (sb_read t s) as [r|] eqn:R; [|discriminate]. intros E. inversion E. subst. destruct (proj1 (IH r) eq_refl) as (a & q & b & a' & -> & [U T] & D & ->).
           exists ((t, p) :: a), q, b, ((t, match p with Unique => Disabled | _ => p end) :: a'). repeat split; [assumption | | ].
           ++ constructor; [|assumption]. cbn. intros [_ H]. apply readable in H. congruence.
           ++ constructor; [|assumption]. destruct p; repeat split; cbn; congruence.
        -- intros (a & q & b & a' & E & [U T] & D & ->). destruct a as [|y a].
           ++ inversion E. subst. apply readable in U. congruence.
           ++ inversion E. subst. inversion D as [|? y' ? a1 D1 D2]. subst. inversion T as [|? ? T1 T2]. subst.
              rewrite (proj2 (IH (a1 ++ (t, q) :: b))). 2:{ exists a, q, b, a1. repeat split; assumption. }
              destruct y' as [y1 y2]. destruct D1 as (D1 & D3 & D4). cbn [fst snd] in *. subst. destruct p; first [rewrite D3 by reflexivity | rewrite D4 by discriminate]; reflexivity.
    + cbn [andb]. split.
      * destruct (sb_read t s) as [r|] eqn:R; [|discriminate]. intros E. inversion E. subst. destruct (proj1 (IH r) eq_refl) as (a & q & b & a' & -> & [U T] & D & ->).
        exists ((x, p) :: a), q, b, ((x, match p with Unique => Disabled | _ => p end) :: a'). repeat split; [assumption | | ].
        -- constructor; [|assumption]. cbn. intros [H _]. congruence.
        -- constructor; [|assumption]. destruct p; repeat split; cbn; congruence.
      * intros (a & q & b & a' & E & [U T] & D & ->). destruct a as [|y a].
        -- inversion E. subst. congruence.
        -- inversion E. subst. inversion D as [|? y' ? a1 D1 D2]. subst. inversion T as [|? ? T1 T2]. subst.
           rewrite (proj2 (IH (a1 ++ (t, q) :: b))). 2:{ exists a, q, b, a1. repeat split; assumption. }
           destruct y' as [y1 y2]. destruct D1 as (D1 & D3 & D4). cbn [fst snd] in *. subst. destruct p; first [rewrite D3 by reflexivity | rewrite D4 by discriminate]; reflexivity.
Qed.
(** Above a write, with whether the kept items reach the top. *)
Definition writes_ (t : tag) (s : list item) (adj : bool) (s' : list item) : Prop :=
  exists gone stay p below, s = gone ++ stay ++ (t, p) :: below /\ topmost may_write t (gone ++ stay) p /\
    Forall (fun x => snd x = SharedRW) stay /\ (p = Unique -> stay = []) /\
    (p = SharedRW -> forall a x, gone = a ++ [x] -> snd x <> SharedRW) /\ s' = stay ++ (t, p) :: below /\
    (adj = true <-> p = SharedRW /\ gone = []).
Lemma write_rule_ t s : forall adj s', sb_write_ t s = Some (adj, s') <-> writes_ t s adj s'.
Proof.
  induction s as [|[x p] s IH]; intros adj s'.
  - split; [discriminate|]. intros (g & k & p & b & E & _). destruct g; [destruct k|]; discriminate.
  - cbn [sb_write_]. destruct (tag_eqb x t && match p with Unique | SharedRW => true | _ => false end) eqn:B.
    + apply andb_prop in B. destruct B as [B1 B2]. destruct (tag_eqb_spec x t) as [->|]; [|discriminate]. split.
      * intros E. inversion E. subst. exists [], [], p, s. split; [reflexivity|]. split; [split; [now apply writable | constructor]|].
        split; [constructor|]. split; [reflexivity|]. split; [intros _ a y H; destruct a; discriminate|]. split; [reflexivity|].
        destruct p; split; try discriminate; try (intros [H _]; discriminate); auto.
      * intros (g & k & q & b & E & [U T] & S & S1 & S2 & -> & J).
        assert (g ++ k = []) as Z.
        { destruct (g ++ k) as [|y a] eqn:GK; [reflexivity|]. exfalso. rewrite app_assoc, GK in E. inversion E. subst.
          inversion T as [|? ? T1 _]. subst. apply T1. split; [reflexivity | now apply writable]. }
        apply app_eq_nil in Z. destruct Z as [-> ->]. cbn [app] in *. inversion E. subst. f_equal. f_equal.
        destruct q; destruct adj; try reflexivity; try discriminate B2.
        -- destruct J as [J _]. destruct (J eq_refl). discriminate.
        -- destruct J as [_ J]. symmetry. now apply J.
    + assert (~ (x = t /\ may_write p)) as NU.
      { intros [-> H]. apply writable in H. rewrite tag_eqb_refl in B. cbn [andb] in B. congruence. }
      split.
      * destruct (sb_write_ t s) as [[a0 r]|] eqn:R; [|discriminate]. destruct (proj1 (IH a0 r) eq_refl) as (g & k & q & b & -> & [U T] & S & S1 & S2 & -> & J).
        destruct (a0 && match p with SharedRW => true | _ => false end) eqn:A; intros E; inversion E; subst.
        -- apply andb_prop in A. destruct A as [-> A2]. destruct J as [J _]. destruct (J eq_refl) as [-> ->]. cbn [app] in *.
           destruct p; try discriminate A2. exists [], ((x, SharedRW) :: k), SharedRW, b. split; [reflexivity|].
           split; [split; [assumption | constructor; assumption]|]. split; [constructor; [reflexivity | assumption]|].
           split; [discriminate|]. split; [intros _ a y H; destruct a; discriminate|]. split; [reflexivity|]. split; auto.
        -- exists ((x, p) :: g), k, q, b. split; [reflexivity|]. split; [split; [assumption | constructor; assumption]|].
           split; [assumption|]. split; [assumption|]. split.
           ++ intros Q a y H. destruct g as [|y0 g].
              ** destruct J as [_ J]. rewrite J in A by auto. cbn [andb] in A. destruct a as [|? a]; [inversion H; subst; cbn; destruct p; congruence|].
                 destruct a; discriminate.
              ** destruct a as [|z a]; [discriminate|]. inversion H. subst. now apply (S2 eq_refl a y).
           ++ split; [reflexivity|]. split; [discriminate|]. intros [_ H]. discriminate.
      * intros (g & k & q & b & E & [U T] & S & S1 & S2 & -> & J).
        destruct g as [|y g].
        -- destruct k as [|y k].
           ++ cbn [app] in E. inversion E. subst. exfalso. now apply NU.
           ++ cbn [app] in E. inversion E. subst. inversion S as [|? ? S3 S4]. subst. cbn [snd] in S3. subst p.
              assert (q = SharedRW) as -> by (destruct U as [->| ->]; [specialize (S1 eq_refl); discriminate | reflexivity]).
              rewrite (proj2 (IH true (k ++ (t, SharedRW) :: b))).
              ** cbn [andb app]. f_equal. f_equal. destruct adj; [reflexivity|]. destruct J as [_ J]. symmetry. now apply J.
              ** cbn [app] in T. inversion T. subst. exists [], k, SharedRW, b. repeat split; try assumption; try discriminate.
                 all: intros _ a z Hz; destruct a; discriminate.
        -- cbn [app] in E. inversion E. subst. cbn [app] in T. inversion T as [|? ? T1 T2]. subst.
           destruct (bool_dec (match q with SharedRW => true | _ => false end && match g with [] => true | _ => false end) true) as [D|D].
           ++ apply andb_prop in D. destruct D as [D1 D2]. destruct q; try discriminate. destruct g; [|discriminate].
              rewrite (proj2 (IH true (k ++ (t, SharedRW) :: b))).
              ** pose proof (S2 eq_refl [] (x, p) eq_refl) as NP. cbn [snd] in NP. destruct p; try congruence; cbn [andb]; f_equal; f_equal; destruct adj; try reflexivity;
                   destruct J as [J _]; destruct (J eq_refl); discriminate.
              ** exists [], k, SharedRW, b. repeat split; try assumption; try discriminate. all: intros _ a z Hz; destruct a; discriminate.
           ++ rewrite (proj2 (IH false (k ++ (t, q) :: b))).
              ** cbn [andb]. f_equal. f_equal. destruct adj; [|reflexivity]. destruct J as [J _]. destruct (J eq_refl) as [_ H]. discriminate.
              ** exists g, k, q, b. split; [reflexivity|]. split; [split; assumption|]. split; [assumption|]. split; [assumption|]. split.
                 { intros Q a z Hz. apply (S2 Q ((x, p) :: a) z). now rewrite Hz. }
                 split; [reflexivity|]. split; [discriminate|]. intros [-> ->]. exfalso. now apply D.
Qed.
Lemma write_rule t s s' : sb_write t s = Some s' <-> writes t s s'.
Proof.
  unfold sb_write. split.
  - destruct (sb_write_ t s) as [[adj r]|] eqn:E; [|discriminate]. intros H. inversion H. subst. apply write_rule_ in E.
    destruct E as (g & k & p & b & E & T & S & S1 & S2 & -> & _). exists g, k, p, b. auto 10.
  - intros (g & k & p & b & E & T & S & S1 & S2 & R).
    rewrite (proj2 (write_rule_ t s (match p with SharedRW => true | _ => false end && match g with [] => true | _ => false end) s')); [reflexivity|].
    exists g, k, p, b. split; [exact E|]. split; [exact T|]. split; [exact S|]. split; [exact S1|]. split; [exact S2|]. split; [exact R|].
    destruct p, g; cbn [andb]; split; intros H; try discriminate H; try (destruct H; discriminate); split; reflexivity.
Qed.

Lemma raw_rule t new s : forall s', sb_raw t new s = Some s' <-> puts t new s s'.
Proof.
  induction s as [|[x p] s IH]; intros s'.
  - split; [discriminate|]. intros (a & p & b & E & _). destruct a; discriminate.
  - cbn [sb_raw]. destruct (tag_eqb x t && match p with Unique | SharedRW => true | _ => false end) eqn:B.
    + apply andb_prop in B. destruct B as [B1 B2]. destruct (tag_eqb_spec x t) as [->|]; [|discriminate]. split.
      * intros E. inversion E. exists [], p, s. repeat split; [now apply writable | constructor].
      * intros (a & q & b & E & [U T] & ->). destruct a as [|y a]; [inversion E; reflexivity|]. inversion E. subst. inversion T as [|? ? T1 _]. subst.
        exfalso. apply T1. split; [reflexivity | now apply writable].
    + assert (~ (x = t /\ may_write p)) as NU.
      { intros [-> H]. apply writable in H. rewrite tag_eqb_refl in B. cbn [andb] in B. congruence. }
      split.
      * destruct (sb_raw t new s) as [r|] eqn:R; [|discriminate]. intros E. inversion E. subst. destruct (proj1 (IH r) eq_refl) as (a & q & b & -> & [U T] & ->).
        exists ((x, p) :: a), q, b. repeat split; [assumption|]. constructor; assumption.
      * intros (a & q & b & E & [U T] & ->). destruct a as [|y a]; [inversion E; subst; exfalso; now apply NU|]. inversion E. subst. inversion T. subst.
        rewrite (proj2 (IH (a ++ (new, SharedRW) :: (t, q) :: b))); [reflexivity|]. exists a, q, b. repeat split; assumption.
Qed.

(** ** Trees *)
Lemma own_rule w s s' : tb_local w s = Some s' <-> own w s s'.
Proof.
  split.
  - destruct s, w; cbn; intros H; inversion H; constructor.
  - intros []; try reflexivity; destruct w0; reflexivity.
Qed.
Lemma other_rule w s s' : tb_foreign w s = s' <-> other w s s'.
Proof.
  split.
  - intros <-. destruct s, w; cbn; constructor; discriminate.
  - intros []; try reflexivity; try (destruct w0; reflexivity). destruct s0; try reflexivity. congruence.
Qed.
Lemma from_older n rest t x : Forall (fun m => fst (fst m) <> fst (fst n) /\ snd (fst m) <> fst (fst n)) rest -> t <> fst (fst n) ->
  (comes_from (n :: rest) t x <-> comes_from rest t x).
Proof.
  intros F NE. split; intros H.
  - revert NE. induction H as [t|t par s x I _ IH]; intros NE; [constructor|]. destruct I as [->|I]; [cbn in NE; congruence|].
    pose proof (proj1 (Forall_forall _ _) F _ I) as [_ P]. cbn [fst snd] in P. econstructor; [exact I | now apply IH].
  - clear NE. induction H as [t|t par s x I _ IH]; [constructor|]. econstructor; [right; exact I | exact IH].
Qed.
Lemma from_in rest t x : comes_from rest t x -> t = x \/ exists m, In m rest /\ snd (fst m) = x.
Proof.
  induction 1 as [t|t par s x I H IH]; [now left|]. right. destruct IH as [->|IH]; [|exact IH]. exists (t, x, s). split; [exact I | reflexivity].
Qed.
Lemma accessed_ext w a b t u rest rest' : (forall n, In n rest -> (comes_from a t (fst (fst n)) <-> comes_from b u (fst (fst n)))) ->
  Forall2 (accessed w a t) rest rest' -> Forall2 (accessed w b u) rest rest'.
Proof.
  intros E F. induction F as [|n n' rest rest' [A [B C]] F IH]; constructor.
  - pose proof (E n (or_introl eq_refl)) as En. repeat split; [assumption | |]; intros H; [apply B, En, H | apply C; intros H'; apply H, En, H'].
  - apply IH. intros m M. apply E. now right.
Qed.
Lemma access_rule w nodes : grown nodes -> forall t r, tb_access w t nodes = Some r <-> Forall2 (accessed w nodes t) nodes r.
Proof.
  induction nodes as [|[[x par] s] rest IH]; intros G t r.
  - cbn. split; intros H; [inversion H; constructor | inversion H; reflexivity].
  - destruct G as (G1 & G2 & G3). specialize (IH G3). cbn [tb_access].
    assert (forall u v, u <> x -> (comes_from ((x, par, s) :: rest) u v <-> comes_from rest u v)) as OLD by (intros u v U; now apply from_older).
    assert (forall n, In n rest -> fst (fst n) <> x) as DIFF by (intros n I; now apply (proj1 (Forall_forall _ _) G1 n I)).
    destruct (tag_eqb_spec x t) as [->|NE].
    + (* the node itself *)
      assert (forall n, In n rest -> (comes_from rest par (fst (fst n)) <-> comes_from ((t, par, s) :: rest) t (fst (fst n)))) as EQ.
      { intros n I. destruct G2 as [P| ->]; [|contradiction]. rewrite <- (OLD par _ P). split; intros H.
        - eapply from_parent; [left; reflexivity | exact H].
        - inversion H as [|? par' s' ? I' H']; subst; [exfalso; now apply (DIFF n I)|]. destruct I' as [E|I']; [inversion E; subst; exact H'|].
          exfalso. now apply (DIFF _ I'). }
      split.
      * destruct (tb_local w s) as [s'|] eqn:L; [|discriminate]. destruct (tb_access w par rest) as [r'|] eqn:A; [|discriminate].
        intros E. inversion E. subst. constructor.
        -- split; [reflexivity|]. split; [intros _; now apply own_rule|]. intros H. exfalso. apply H. constructor.
        -- apply (accessed_ext w rest _ par _ _ _ EQ). now apply IH.
      * intros F. inversion F as [|? n' ? rest' [E [B _]] F']. subst. destruct n' as [xp s']. cbn [fst snd] in *. subst xp.
        rewrite (proj2 (own_rule w s s') (B (from_self _ _))). rewrite (proj2 (IH par rest')); [reflexivity|]. refine (accessed_ext w _ rest t par _ _ _ F').
        intros n I. symmetry. now apply EQ.
    + assert (forall n, In n rest -> (comes_from rest t (fst (fst n)) <-> comes_from ((x, par, s) :: rest) t (fst (fst n)))) as EQ.
      { intros n I. symmetry. apply OLD. congruence. }
      assert (~ comes_from ((x, par, s) :: rest) t x) as NC.
      { intros H. apply OLD in H; [|congruence]. destruct (from_in rest t x H) as [->|(m & M & P)]; [congruence|].
        now apply (proj1 (Forall_forall _ _) G1 m M). }
      split.
      * destruct (tb_access w t rest) as [r'|] eqn:A; [|discriminate]. intros E. inversion E. subst. constructor.
        -- split; [reflexivity|]. split; [intros H; now apply NC in H | intros _; now apply other_rule].
        -- apply (accessed_ext w rest _ t _ _ _ EQ). now apply IH.
      * intros F. inversion F as [|? n' ? rest' [E [_ C]] F']. subst. destruct n' as [xp s']. cbn [fst snd] in *. subst xp.
        rewrite (proj2 (other_rule w s s') (C NC)). rewrite (proj2 (IH t rest')); [reflexivity|]. refine (accessed_ext w _ rest t t _ _ _ F').
        intros n I. symmetry. now apply EQ.
Qed.
