(** Lemmas about the calls of writers. *)
From Verif Require Import Base ModelError ModelIo ModelTag ModelContents ModelBuf ModelTlv ModelSerde Spec SpecSerde SpecWrites.

Lemma taken_app l l' : taken (l ++ l') = taken l ++ taken l'.
Proof. unfold taken. now rewrite map_app, concat_app. Qed.
Lemma taken_one c : taken [c] = took c.
Proof. unfold taken. cbn [map concat]. now rewrite app_nil_r. Qed.
Definition went {A} (bs : list N) (r : res A) (l : list offer) : Prop :=
  in_turn bs l /\ match r with Ok _ => Forall goes_on l /\ taken l = bs | _ => True end.
Lemma in_turn_app b1 b2 l1 l2 : in_turn b1 l1 -> Forall goes_on l1 -> taken l1 = b1 -> in_turn b2 l2 -> in_turn (b1 ++ b2) (l1 ++ l2).
Proof.
  intros I1 G1 T1 I2 pre c post E. destruct (app_eq_app _ _ _ _ E) as (m & [[-> E2]|[-> E2]]).
  - destruct m as [|x m]; cbn [app] in E2.
    + rewrite app_nil_r in *. destruct (I2 [] c post (eq_sym E2)) as (A & (q & B) & _). split; [exact A|]. split; [|exact G1]. exists q. change (taken []) with (@nil N) in B. cbn [app] in B. now rewrite T1, B.
    + injection E2 as -> ->. destruct (I1 pre x m eq_refl) as (A & (q & B) & C). split; [exact A|]. split; [|exact C]. exists (q ++ b2). now rewrite B, <- !app_assoc.
  - destruct (I2 m c post E2) as (A & (q & B) & C). split; [exact A|]. split; [|now apply Forall_app]. exists q. now rewrite taken_app, T1, B, <- !app_assoc.
Qed.
Lemma in_turn_one bs a : bs <> [] -> in_turn bs [(bs, a)].
Proof.
  intros H pre c post E. destruct pre as [|x pre]; [|destruct pre; discriminate]. injection E as <- _. split; [exact H|]. split; [|constructor]. exists []. cbn. now rewrite app_nil_r.
Qed.
Lemma in_turn_again bs a l : bs <> [] -> goes_on (bs, a) -> in_turn (drop (nlen (took (bs, a))) bs) l -> took (bs, a) ++ drop (nlen (took (bs, a))) bs = bs -> in_turn bs ((bs, a) :: l).
Proof.
  intros H G I T pre c post E. destruct pre as [|x pre]; injection E as <- E.
  - split; [exact H|]. split; [|constructor]. exists []. cbn. now rewrite app_nil_r.
  - destruct (I pre c post E) as (A & (q & B) & C). split; [exact A|]. split; [|now constructor]. exists q. change ((bs, a) :: pre) with ([(bs, a)] ++ pre). rewrite taken_app, taken_one, <- app_assoc, <- B. now symmetry.
Qed.
Lemma all_listed {S} (W : writer S) fuel : forall bs s log, exists l, write_all_loop (listed W) fuel bs (s, log) = (fst (write_all_loop W fuel bs s), (snd (write_all_loop W fuel bs s), log ++ l)) /\
  went bs (fst (write_all_loop W fuel bs s)) l.
Proof.
  assert (NIL : forall log : list offer, log = log ++ []) by (intros; now rewrite app_nil_r).
  assert (I0 : forall bs, in_turn bs []) by (intros bs [|x pre] c post X; discriminate X).
  induction fuel as [|fuel IH]; intros [|b bs] s log; cbn [write_all_loop]; try (exists []; rewrite <- NIL; split; [reflexivity|]; split; [apply I0|]; cbn; auto; fail).
  set (o := b :: bs). assert (Ho : o <> []) by discriminate.
  change (wr_write (listed W) (s, log) o) with (let (a, s') := wr_write W s o in (a, (s', log ++ [(o, a)]))). destruct (wr_write W s o) as [a s1]. cbv beta iota zeta.
  assert (END : forall (r : res unit), (forall x, r <> Ok x) -> exists l, (r, (s1, log ++ [(o, a)])) = (fst (r, s1), (snd (r, s1), log ++ l)) /\ went o (fst (r, s1)) l).
  { intros r Hr. exists [(o, a)]. split; [reflexivity|]. split; [now apply in_turn_one|]. cbn [fst]. destruct r; auto. now destruct (Hr a0). }
  assert (REC : goes_on (o, a) -> forall rest, took (o, a) ++ rest = o -> exists l,
    write_all_loop (listed W) fuel rest (s1, log ++ [(o, a)]) = (fst (write_all_loop W fuel rest s1), (snd (write_all_loop W fuel rest s1), log ++ l)) /\ went o (fst (write_all_loop W fuel rest s1)) l).
  { intros G rest T. destruct (IH rest s1 (log ++ [(o, a)])) as (l & E & (I1 & K)). exists ((o, a) :: l). rewrite E, <- app_assoc. split; [reflexivity|].
    assert (X : drop (nlen (took (o, a))) o = rest) by (rewrite <- T at 2; apply drop_app_exact). split.
    - apply in_turn_again; [exact Ho | exact G | now rewrite X | now rewrite X].
    - destruct (fst (write_all_loop W fuel rest s1)); auto. destruct K as [F TK]. split; [now constructor|]. change ((o, a) :: l) with ([(o, a)] ++ l). now rewrite taken_app, taken_one, TK. }
  destruct a as [n|k|].
  - destruct (N.eqb_spec n 0); [now apply END|]. destruct (N.ltb_spec (nlen o) n); [now apply END|]. apply REC; [cbn; lia | cbn; apply take_drop].
  - destruct (match k with Interrupted => true | _ => false end) eqn:EK; [destruct k; try discriminate; now apply REC | destruct k; try discriminate; now apply END].
  - now apply END.
Qed.
Lemma chunks_listed {S} (W : writer S) cs : forall s log, exists l, write_chunks (listed W) cs (s, log) = (fst (write_chunks W cs s), (snd (write_chunks W cs s), log ++ l)) /\
  went (concat cs) (fst (write_chunks W cs s)) l.
Proof.
  induction cs as [|c cs IH]; intros s log; cbn [write_chunks concat].
  - exists []. rewrite app_nil_r. split; [reflexivity|]. split; [intros [|x pre] d post X; discriminate X | now split].
  - unfold wbind, write_all. change (wr_fuel (listed W)) with (wr_fuel W). destruct (all_listed W (wr_fuel W) c s log) as (l & -> & I1 & K).
    destruct (write_all_loop W (wr_fuel W) c s) as [r s1]. cbn [fst snd] in *.
    assert (X : in_turn (c ++ concat cs) l).
    { intros pre d post E. destruct (I1 pre d post E) as (A & (q & B) & C). split; [exact A|]. split; [|exact C]. exists (q ++ concat cs). now rewrite B, <- !app_assoc. }
    destruct r as [[]|e| |]; try (exists l; split; [reflexivity | now split]).
    destruct K as [G T]. destruct (IH s1 (log ++ l)) as (l2 & -> & I2 & K2). exists (l ++ l2). rewrite <- app_assoc. split; [reflexivity|]. split; [now apply in_turn_app|].
    destruct (fst (write_chunks W cs s1)); auto. destruct K2 as [G2 T2]. split; [now apply Forall_app | now rewrite taken_app, T, T2].
Qed.
Lemma emits_listed f bs : emits f bs -> forall S (W : writer S) s, exists l, f _ (listed W) (s, []) = (fst (f S W s), (snd (f S W s), l)) /\ went bs (fst (f S W s)) l.
Proof.
  intros (cs & <- & E) S W s. destruct (chunks_listed W cs s []) as (l & E1 & K). exists l. rewrite !E. now split.
Qed.
Lemma goes_count l : Forall goes_on l -> nlen l <= nlen (taken l) + nlen (filter asked_again l).
Proof.
  induction 1 as [|c l U _ IH]; [discriminate|]. change (c :: l) with ([c] ++ l) at 2. rewrite taken_app, taken_one, nlen_app, nlen_cons. cbn [filter].
  destruct c as [o [n|k|]]; unfold goes_on, asked_again, took in *; cbn [fst snd] in *; [| |contradiction].
  - rewrite nlen_take. lia.
  - subst k. rewrite nlen_cons, nlen_nil. lia.
Qed.
Lemma in_turn_count bs l : in_turn bs l -> nlen l <= nlen bs + nlen (filter asked_again l).
Proof.
  intros I. destruct l as [|x l] using rev_ind; [rewrite nlen_nil; lia|]. clear IHl. destruct (I l x [] eq_refl) as (A & (q & B) & C). apply goes_count in C.
  rewrite B, !nlen_app, filter_app, nlen_app, nlen_cons, nlen_nil. destruct (fst x) as [|y ys]; [congruence|]. rewrite nlen_cons. lia.
Qed.
