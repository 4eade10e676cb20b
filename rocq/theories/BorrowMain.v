(** Tactics for the calls on a buffer, octet by octet. *)
From Verif Require Import Base ModelBorrow SpecBorrow BorrowProofs.

(** What a call does to one octet: the events on its object, and whether they are on this octet. *)
Inductive shape := SRetag (k : kind) (t new : nat) | SRead (t : nat) | SWrite (t : nat) | SEnter (t : nat) | SLeave (t : nat).
Definition proj1 (obj o : N) (e : event) : list (shape * bool) :=
  match e with
  | Retag k ob t new lo n => if ob =? obj then [(SRetag k t new, inside lo n o)] else []
  | Read ob t lo n => if ob =? obj then [(SRead t, inside lo n o)] else []
  | Write ob t lo n => if ob =? obj then [(SWrite t, inside lo n o)] else []
  | Enter t => [(SEnter t, true)]
  | Leave t => [(SLeave t, true)]
  end.
Fixpoint proj (obj o : N) (es : list event) : list (shape * bool) :=
  match es with [] => [] | e :: es' => proj1 obj o e ++ proj obj o es' end.
Fixpoint psb (p : list (shape * bool)) (s : list item) : option (list item) :=
  match p with
  | [] => Some s
  | (_, false) :: p' => psb p' s
  | (SRetag k t new, true) :: p' => match sb_retag k (stamp 1 t) (stamp 1 new) s with Some s' => psb p' s' | None => None end
  | (SRead t, true) :: p' => match sb_read (stamp 1 t) s with Some s' => psb p' s' | None => None end
  | (SWrite t, true) :: p' => match sb_write (stamp 1 t) s with Some s' => psb p' s' | None => None end
  | (_, true) :: p' => psb p' s
  end.
Fixpoint ptb (p : list (shape * bool)) (s : list node) : option (list node) :=
  match p with
  | [] => Some s
  | (SRetag k t new, b) :: p' => match tb_retag b k (stamp 1 t) (stamp 1 new) s with Some s' => ptb p' s' | None => None end
  | (_, false) :: p' => ptb p' s
  | (SRead t, true) :: p' => match tb_access false (stamp 1 t) s with Some s' => ptb p' s' | None => None end
  | (SWrite t, true) :: p' => match tb_access true (stamp 1 t) s with Some s' => ptb p' s' | None => None end
  | (_, true) :: p' => ptb p' s
  end.
Lemma psb_ok obj o es s : sb_run 1 obj o es s = psb (proj obj o es) s.
Proof.
  revert s. induction es as [|e es IH]; intros s; [reflexivity|]. cbn [sb_run proj].
  destruct e as [k ob t new lo n|ob t lo n|ob t lo n|t|t]; cbn [sb_step proj1]; try destruct (ob =? obj); cbn [andb app]; try apply IH;
    try destruct (inside lo n o); cbn [psb]; try apply IH.
  - destruct (sb_retag k (stamp 1 t) (stamp 1 new) s); [apply IH | reflexivity].
  - destruct (sb_read (stamp 1 t) s); [apply IH | reflexivity].
  - destruct (sb_write (stamp 1 t) s); [apply IH | reflexivity].
Qed.
Lemma ptb_ok obj o es s : tb_run 1 obj o es s = ptb (proj obj o es) s.
Proof.
  revert s. induction es as [|e es IH]; intros s; [reflexivity|]. cbn [tb_run proj].
  destruct e as [k ob t new lo n|ob t lo n|ob t lo n|t|t]; cbn [tb_step proj1]; try destruct (ob =? obj); cbn [andb app]; try apply IH.
  - cbn [ptb]. destruct (tb_retag (inside lo n o) k (stamp 1 t) (stamp 1 new) s); [apply IH | reflexivity].
  - destruct (inside lo n o); cbn [ptb]; [destruct (tb_access false (stamp 1 t) s); [apply IH | reflexivity] | apply IH].
  - destruct (inside lo n o); cbn [ptb]; [destruct (tb_access true (stamp 1 t) s); [apply IH | reflexivity] | apply IH].
Qed.
(** With protectors. *)
Definition shape_sb (x : shape) (s : list item) : option (list item) :=
  match x with
  | SRetag k t new => sb_retag k (stamp 1 t) (stamp 1 new) s
  | SRead t => sb_read (stamp 1 t) s
  | SWrite t => sb_write (stamp 1 t) s
  | _ => Some s
  end.
Definition shape_act (x : shape) (act : list nat) : list nat :=
  match x with SEnter t => t :: act | SLeave t => remove Nat.eq_dec t act | _ => act end.
Definition shape_tb (g : tag -> bool) (x : shape) (b : bool) (s : list node) : option (list node) :=
  match x with
  | SRetag k t new => tb_guard_retag g b k (stamp 1 t) (stamp 1 new) s
  | SRead t => if b then tb_guard_access g false (stamp 1 t) s else Some s
  | SWrite t => if b then tb_guard_access g true (stamp 1 t) s else Some s
  | _ => Some s
  end.
Fixpoint pgsb (p : list (shape * bool)) (act : list nat) (s : list item) : option (list item) :=
  match p with
  | [] => Some s
  | (x, b) :: p' =>
      match (if b then shape_sb x s else Some s) with
      | Some s' => if negb b || sb_kept 1 act s s' then pgsb p' (shape_act x act) s' else None
      | None => None
      end
  end.
Fixpoint pgtb (p : list (shape * bool)) (act : list nat) (s : list node) : option (list node) :=
  match p with
  | [] => Some s
  | (x, b) :: p' => match shape_tb (guarded 1 act) x b s with Some s' => pgtb p' (shape_act x act) s' | None => None end
  end.
Lemma item_eqb_refl x : item_eqb x x = true.
Proof. unfold item_eqb. rewrite tag_eqb_refl. destruct x as [t []]; reflexivity. Qed.
Lemma sb_kept_refl c act s : sb_kept c act s s = true.
Proof.
  unfold sb_kept. apply forallb_forall. intros x I. apply orb_true_intro. right. apply existsb_exists. exists x. split; [exact I | apply item_eqb_refl].
Qed.
Lemma pgsb_ok obj o es : forall act s, sb_guard_run 1 obj o es act s = pgsb (proj obj o es) act s.
Proof.
  induction es as [|e es IH]; intros act s; [reflexivity|]. cbn [sb_guard_run proj].
  destruct e as [k ob t new lo n|ob t lo n|ob t lo n|t|t]; cbn [sb_step proj1 act_step]; try destruct (ob =? obj); cbn [andb app pgsb shape_act shape_sb];
    try (rewrite sb_kept_refl; cbn [negb orb]; apply IH);
    destruct (inside lo n o); cbn [negb orb]; try (rewrite sb_kept_refl; apply IH).
  - destruct (sb_retag k (stamp 1 t) (stamp 1 new) s); [|reflexivity]. now rewrite IH.
  - destruct (sb_read (stamp 1 t) s); [|reflexivity]. now rewrite IH.
  - destruct (sb_write (stamp 1 t) s); [|reflexivity]. now rewrite IH.
Qed.
Lemma pgtb_ok obj o es : forall act s, tb_guard_run 1 obj o es act s = pgtb (proj obj o es) act s.
Proof.
  induction es as [|e es IH]; intros act s; [reflexivity|]. cbn [tb_guard_run proj].
  destruct e as [k ob t new lo n|ob t lo n|ob t lo n|t|t]; cbn [tb_guard_step proj1 act_step]; try destruct (ob =? obj); cbn [andb app pgtb shape_act shape_tb];
    try apply IH.
  - destruct (tb_guard_retag _ (inside lo n o) k (stamp 1 t) (stamp 1 new) s); [apply IH | reflexivity].
  - destruct (inside lo n o); [|apply IH]. destruct (tb_guard_access _ false (stamp 1 t) s); [apply IH | reflexivity].
  - destruct (inside lo n o); [|apply IH]. destruct (tb_guard_access _ true (stamp 1 t) s); [apply IH | reflexivity].
Qed.
Definition fine0 (p : list (shape * bool)) : bool :=
  match psb p sb_new with Some _ => true | None => false end && tree_end (ptb p tb_new).
Definition fine_args (p : list (shape * bool)) : bool :=
  match pgsb p [] sb_new with Some _ => true | None => false end && tree_end (pgtb p [] tb_new).
Definition fine (p : list (shape * bool)) : bool := fine0 p && fine_args p.

Ltac objects :=
  repeat match goal with
  | |- context [?a =? ?b] => first [ replace (a =? b) with true by lia | replace (a =? b) with false by lia | destruct (a =? b) eqn:? ]
  end.
Ltac octets :=
  repeat match goal with
  | |- context [inside ?a ?b ?o] =>
      first [ replace (inside a b o) with true by (unfold inside; lia) | replace (inside a b o) with false by (unfold inside; lia)
            | let E := fresh "E" in destruct (inside a b o) eqn:E; unfold inside in E ]
  end.
Ltac events := cbv -[N.add N.sub N.leb N.ltb N.eqb inside proj fine forallb plain].
Definition good (A : borrows) (c : bcall) (v : view) : Prop :=
  forallb plain (snd (do_call A c v 1%nat)) = true /\ forall obj o, fine (proj obj o (snd (do_call A c v 1%nat))) = true.


Ltac one :=
  cbn [proj proj1]; objects; cbn [app];
  lazymatch goal with
  | |- context [inside _ _ ?o] =>
    assert (o < 8 \/ 8 <= o < 16 \/ 16 <= o < 24 \/ 24 <= o) as [?|[?|[?|?]]] by lia; octets; first [ vm_compute; reflexivity | exfalso; unfold inside in *; lia ]
  | _ => vm_compute; reflexivity
  end.
Ltac conds := repeat match goal with |- context [if (?a <=? ?b) then _ else _] => destruct (N.leb_spec a b) | |- context [if (?a <? ?b) then _ else _] => destruct (N.ltb_spec a b) | |- context [if (?a =? ?b) then _ else _] => destruct (N.eqb_spec a b) end.
Ltac call :=
  match goal with |- good _ _ ?v => destruct v end;
  unfold view_ok, call_ok in *; cbn in *;
  repeat match goal with H : _ /\ _ |- _ => destruct H end;
  match goal with b : bool |- _ => destruct b end; cbn [andb] in *; try discriminate;
  (split; [events; conds; reflexivity | let obj := fresh "obj" in let o := fresh "o" in intros obj o; events; conds; one]).
