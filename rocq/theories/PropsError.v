(** C37, C38: the error type. *)
From Verif Require Import Base ModelError.

(** The kinds that can be compared. *)
Definition plain (e : error) : Prop := match e with Io _ | Anyhow _ => False | _ => True end.

Theorem C37_error_eq : forall a b, Error_eqb a b = true <-> a = b /\ plain a.
Proof.
  intros a b. split.
  - intros H. destruct a, b; cbn in *; try discriminate; auto.
  - intros [<- H]. destruct a; cbn in *; tauto.
Qed.
Print Assumptions C37_error_eq.
Theorem C37_error_eq_laws : forall a b c,
  Error_eqb a b = Error_eqb b a /\
  (Error_eqb a b = true -> Error_eqb b c = true -> Error_eqb a c = true) /\
  (Error_eqb a a = true <-> plain a) /\
  (forall k, Error_eqb (Io k) b = false /\ Error_eqb b (Io k) = false) /\
  (forall w, Error_eqb (Anyhow w) b = false /\ Error_eqb b (Anyhow w) = false).
Proof.
  intros a b c. repeat split.
  - destruct a, b; reflexivity.
  - rewrite !C37_error_eq. intros [-> H] [-> _]. auto.
  - rewrite C37_error_eq. tauto.
  - rewrite C37_error_eq. tauto.
  - destruct b; reflexivity.
  - destruct b; reflexivity.
Qed.
Print Assumptions C37_error_eq_laws.
Example C37_ex : Error_eqb OverFlow OverFlow = true /\ Error_eqb OverFlow BadEoc = false /\
  Error_eqb (Error_context 3 OverFlow) (Error_context 3 OverFlow) = false.
Proof. repeat split. Qed.

(** Giving context [cs], innermost first. *)
Definition wrapped (e : error) (cs : list N) : error := fold_left (fun e c => Error_context c e) cs e.
(** The first crate error in the chain. *)
Fixpoint first_lib (causes : list cause) : option error :=
  match causes with
  | [] => None
  | CLib e :: _ => Some e
  | _ :: causes' => first_lib causes'
  end.
(** The chain of an error with context: the contexts from the outside in, then the
    error itself. *)
Lemma chain_wrapped e cs : plain e \/ (exists k, e = Io k) -> cs <> [] ->
  exists a, wrapped e cs = Anyhow a /\ chain a = map CContext (rev cs) ++ [CLib e].
Proof.
  intros He. induction cs as [|c cs IH] using rev_ind; [congruence|]. intros _.
  assert (Ew : wrapped e (cs ++ [c]) = Anyhow (AnContext c (into_anyhow (wrapped e cs)))).
  { unfold wrapped. now rewrite fold_left_app. }
  rewrite Ew. eexists. split; [reflexivity|]. rewrite rev_app_distr. cbn [chain rev app map]. f_equal.
  destruct cs as [|c' cs]; [destruct e; try reflexivity; destruct He as [[]|[k H]]; discriminate|].
  destruct IH as (a & Ea & Eb); [discriminate|]. rewrite Ea. exact Eb.
Qed.

(** With context, root_cause does not reach the library error. *)
Theorem C38_root_cause_refuted :
  ~ (forall e cs, plain e -> root_cause (wrapped e cs) = e).
Proof. intros H. specialize (H OverFlow [7] I). discriminate. Qed.
Print Assumptions C38_root_cause_refuted.
(** Not for any error or any (non-empty) contexts: it always returns the wrapper, although
    the library error is in the chain. *)
Theorem C38_root_cause_stops : forall e cs, plain e \/ (exists k, e = Io k) -> cs <> [] ->
  root_cause (wrapped e cs) = wrapped e cs /\
  (exists a, as_anyhow (wrapped e cs) = Some a /\ first_lib (chain a) = Some e) /\
  ~ plain (root_cause (wrapped e cs)).
Proof.
  intros e cs He Hc. destruct (chain_wrapped e cs He Hc) as (a & E & C). rewrite E.
  assert (R : root_cause (Anyhow a) = Anyhow a).
  { unfold root_cause. rewrite C. destruct cs as [|c cs _] using rev_ind; [congruence|].
    rewrite rev_app_distr. reflexivity. }
  rewrite R. repeat split; [|intros []]. exists a. split; [reflexivity|]. rewrite C.
  clear. induction (rev cs); [reflexivity | assumption].
Qed.
Print Assumptions C38_root_cause_stops.
(** What holds: without context, or wrapped without context, the error is found. *)
Theorem C38_root_cause_partial : forall e,
  (plain e \/ (exists k, e = Io k) -> root_cause e = e /\ as_anyhow e = None) /\
  root_cause (Anyhow (AnNew e)) = e /\
  into_anyhow (Anyhow (into_anyhow e)) = into_anyhow e.
Proof.
  intros e. repeat split; destruct e; cbn; auto; destruct H as [[]|[k H]]; discriminate.
Qed.
Print Assumptions C38_root_cause_partial.
Example C38_ex : plain OverFlow /\ wrapped OverFlow [7; 8] = Anyhow (AnContext 8 (AnContext 7 (AnNew OverFlow))) /\
  root_cause (wrapped OverFlow [7; 8]) = wrapped OverFlow [7; 8] /\ root_cause (Anyhow (AnNew OverFlow)) = OverFlow.
Proof. repeat split. Qed.

(** Errors of other crates: their sources are in the chain, down to a library error or the last foreign one; root_cause does not
    follow them either. *)
Definition foreign_over (codes : list N) (f : foreign) : foreign := fold_right FOver f codes.
Theorem C38_foreign : forall codes c e cs,
  chain (AnForeign (foreign_over codes (FLeaf c))) = map CForeign (codes ++ [c]) /\
  chain (AnForeign (foreign_over codes (FLib c e))) = map CForeign (codes ++ [c]) ++ [CLib e] /\
  first_lib (chain (AnForeign (foreign_over codes (FLib c e)))) = Some e /\
  first_lib (chain (AnForeign (foreign_over codes (FLeaf c)))) = None /\
  root_cause (wrapped (Anyhow (AnForeign (foreign_over codes (FLib c e)))) cs) = wrapped (Anyhow (AnForeign (foreign_over codes (FLib c e)))) cs.
Proof.
  intros codes c e cs.
  assert (H1 : chain (AnForeign (foreign_over codes (FLeaf c))) = map CForeign (codes ++ [c])).
  { induction codes as [|d codes IH]; [reflexivity|]. cbn [foreign_over fold_right chain foreign_chain app map]. f_equal. exact IH. }
  assert (H2 : chain (AnForeign (foreign_over codes (FLib c e))) = map CForeign (codes ++ [c]) ++ [CLib e]).
  { clear H1. induction codes as [|d codes IH]; [reflexivity|]. cbn [foreign_over fold_right chain foreign_chain app map]. f_equal. exact IH. }
  repeat split; [exact H1 | exact H2 | | |].
  - rewrite H2. clear. induction (codes ++ [c]); [reflexivity | assumption].
  - rewrite H1. clear. induction (codes ++ [c]); [reflexivity | assumption].
  - assert (N0 : exists d r, chain (AnForeign (foreign_over codes (FLib c e))) = CForeign d :: r).
    { rewrite H2. destruct codes; cbn; eauto. }
    clear H1 H2. destruct cs as [|k cs _] using rev_ind.
    + cbn [wrapped fold_left root_cause]. destruct N0 as (d & r & ->). reflexivity.
    + unfold wrapped. rewrite fold_left_app. reflexivity.
Qed.
Print Assumptions C38_foreign.
(** Exactly: root_cause opens one wrapper made by [anyhow::Error::new], and gives back any
    other error as it is.  So it finds the library error in a wrapper only if that is all
    there is in it: no context, no error of another crate. *)
Fixpoint error_size (e : error) : nat := match e with Anyhow a => S (anyhow_size a) | _ => 0 end
with anyhow_size (a : anyhow) : nat := match a with AnNew e => S (error_size e) | AnForeign f => S (foreign_size f) | AnContext _ a' => S (anyhow_size a') end
with foreign_size (f : foreign) : nat := match f with FLeaf _ => 0 | FOver _ f' => S (foreign_size f') | FLib _ e => S (error_size e) end.
Lemma first_lib_smaller a : forall e, first_lib (chain a) = Some e -> (error_size e < anyhow_size a)%nat.
Proof.
  assert (F : forall f e, first_lib (foreign_chain f) = Some e -> (error_size e < foreign_size f)%nat).
  { fix IH 1. intros [c|c f|c e0] e; cbn [foreign_chain first_lib foreign_size]; [discriminate | | intros [= ->]; lia].
    intros H. apply IH in H. lia. }
  revert a. fix IH 1. intros [e0|f|c a] e; cbn [chain first_lib anyhow_size].
  - intros [= ->]. lia.
  - intros H. apply F in H. lia.
  - intros H. apply IH in H. lia.
Qed.
Theorem C38_exact : forall e,
  (forall r, root_cause e = r <-> e = Anyhow (AnNew r) \/ (r = e /\ forall r', e <> Anyhow (AnNew r'))) /\
  (forall a x, e = Anyhow a -> first_lib (chain a) = Some x -> (root_cause e = x <-> a = AnNew x)).
Proof.
  assert (R : forall e, root_cause e = match e with Anyhow (AnNew r) => r | _ => e end).
  { intros [| | | | | | | | | |k|[e0|[c|c f|c e0]|c a]]; reflexivity. }
  intros e. split.
  - intros r. rewrite R. split.
    + intros H. destruct e as [| | | | | | | | | |k|[e0|f|c a]]; try (right; split; [now symmetry | discriminate]). left. now subst.
    + intros [->|[-> N]]; [reflexivity|]. destruct e as [| | | | | | | | | |k|[e0|f|c a]]; try reflexivity. now destruct (N e0).
  - intros a x -> F. rewrite R. pose proof (first_lib_smaller a x F) as L. split.
    + destruct a as [e0|f|c a]; [now intros -> | |]; intros <-; cbn [error_size] in L; lia.
    + now intros ->.
Qed.
Print Assumptions C38_exact.
Example C38_exact_ex : root_cause (Anyhow (AnNew OverFlow)) = OverFlow /\
  root_cause (Anyhow (AnNew (Anyhow (AnNew OverFlow)))) = Anyhow (AnNew OverFlow) /\
  first_lib (chain (AnContext 3 (AnNew OverFlow))) = Some OverFlow /\
  root_cause (Anyhow (AnContext 3 (AnNew OverFlow))) = Anyhow (AnContext 3 (AnNew OverFlow)).
Proof. repeat split. Qed.
Example C38_foreign_ex :
  first_lib (chain (AnContext 9 (AnForeign (FOver 3 (FLib 4 OverFlow))))) = Some OverFlow /\
  root_cause (Anyhow (AnForeign (FOver 3 (FLib 4 OverFlow)))) = Anyhow (AnForeign (FOver 3 (FLib 4 OverFlow))).
Proof. split; reflexivity. Qed.
