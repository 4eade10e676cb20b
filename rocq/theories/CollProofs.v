(** Decoded collections and what they hold. *)
From Verif Require Import Base ModelError ModelIo ModelTag ModelContents ModelBuf ModelTlv ModelSerde Spec SpecIo SpecSerde.
From Verif Require Import ModelAttr ModelDerive SpecAttr SpecDerive SpecColl.
From Verif Require Import TagProofs IdProofs TagMain ContentsProofs TlvProofs BufProofs TlvMain StreamProofs StreamMain.
From Verif Require Import SerdeOctets SerdeSer SerdeDe SerdeMain SerdeEntry.
From Coq Require Import Permutation Sorted.

(** ** Lists without equal elements *)
Section Dup.
Context {T : Type} (P : T -> Prop) (eqv : T -> T -> Prop) (dec : forall x y, {eqv x y} + {~ eqv x y}).
Hypothesis refl : forall x, P x -> eqv x x.
Hypothesis sym : forall x y, P x -> P y -> eqv x y -> eqv y x.
Hypothesis trans : forall x y z, P x -> P y -> P z -> eqv x y -> eqv y z -> eqv x z.
Lemma first_in_In xs y : first_in eqv xs y -> In y xs.
Proof using. intros (l1 & l2 & -> & _). apply in_or_app. right. now left. Qed.
Lemma first_in_snoc xs x y : first_in eqv (xs ++ [x]) y <-> first_in eqv xs y \/ (y = x /\ Forall (fun z => ~ eqv z x) xs).
Proof using.
  split.
  - intros (l1 & l2 & E & F). destruct l2 as [|z l2 _] using rev_ind.
    + apply app_inj_tail in E as [-> ->]. right. auto.
    + rewrite app_comm_cons, app_assoc in E. apply app_inj_tail in E as [-> _]. left. exists l1, l2. auto.
  - intros [(l1 & l2 & -> & F)|[-> F]].
    + exists l1, (l2 ++ [x]). split; [now rewrite <- app_assoc | assumption].
    + exists xs, []. auto.
Qed.
(** Every element has an equal among the first ones. *)
Lemma first_in_covers xs : Forall P xs -> forall x, In x xs -> exists y, first_in eqv xs y /\ eqv x y.
Proof using dec refl sym trans.
  induction xs as [|z xs IH] using rev_ind; intros F x I; [destruct I|].
  apply Forall_app in F as [F Fz]. inversion Fz as [|? ? Pz _]; subst.
  apply in_app_or in I as [I|[->|[]]].
  - destruct (IH F x I) as (y & Y & Q). exists y. split; [|assumption]. apply first_in_snoc. now left.
  - destruct (Exists_dec (fun y => eqv y x) xs (fun y => dec y x)) as [H|H].
    + apply Exists_exists in H as (w & Iw & Q). destruct (IH F w Iw) as (y & Y & Q').
      exists y. split; [apply first_in_snoc; now left|].
      assert (P w) by (rewrite Forall_forall in F; auto).
      assert (P y) by (apply first_in_In in Y; rewrite Forall_forall in F; auto).
      apply trans with w; auto.
    + exists x. split; [|auto]. apply first_in_snoc. right. split; [reflexivity|].
      apply Forall_forall. intros w Iw Q. apply H, Exists_exists. eauto.
Qed.
Lemma set_of_none xs l x : Forall P xs -> P x -> set_of eqv xs l ->
  ((forall z, In z l -> ~ eqv x z) <-> Forall (fun z => ~ eqv z x) xs).
Proof using dec refl sym trans.
  intros F Px S. rewrite Forall_forall. rewrite Forall_forall in F. split; intros H z Iz Q.
  - destruct (first_in_covers xs (proj2 (Forall_forall _ _) F) z Iz) as (y & Y & Q').
    assert (P y) by (apply first_in_In in Y; auto). apply (H y); [now apply S|]. apply trans with z; auto.
  - apply S, first_in_In in Iz. apply (H z Iz). apply sym; auto.
Qed.
Lemma set_of_snoc xs l l' x : Forall P xs -> P x -> set_of eqv xs l ->
  (forall y, In y l' <-> In y l \/ (y = x /\ forall z, In z l -> ~ eqv x z)) -> set_of eqv (xs ++ [x]) l'.
Proof using dec refl sym trans.
  intros F Px S H y. rewrite H, first_in_snoc, (S y), (set_of_none xs l x F Px S). reflexivity.
Qed.

Context {V : Type}.
Lemma last_value_snoc (kvs : list (T * V)) a b k v :
  last_value eqv (kvs ++ [(a, b)]) k v <-> (eqv a k /\ v = b) \/ (~ eqv a k /\ last_value eqv kvs k v).
Proof using.
  split.
  - intros (l1 & k' & l2 & E & Q & F). destruct l2 as [|z l2 _] using rev_ind.
    + apply app_inj_tail in E as [-> [= -> ->]]. left. auto.
    + rewrite app_comm_cons, app_assoc in E. apply app_inj_tail in E as [-> <-]. apply Forall_app in F as [F Fz].
      inversion Fz; subst. right. split; [assumption|]. exists l1, k', l2. auto.
  - intros [[Q ->]|[Q (l1 & k' & l2 & -> & Q' & F)]].
    + exists kvs, a, []. auto.
    + exists l1, k', (l2 ++ [(a, b)]). split; [now rewrite <- app_assoc|]. split; [assumption|].
      apply Forall_app. split; [assumption|]. constructor; auto.
Qed.
Lemma last_value_some (kvs : list (T * V)) k : P k -> In k (map fst kvs) -> exists v, last_value eqv kvs k v.
Proof using dec refl.
  intros Pk. induction kvs as [|[a b] kvs IH] using rev_ind; [intros []|]. intros I. rewrite map_app in I.
  destruct (dec a k) as [Q|Q].
  - exists b. apply last_value_snoc. left. auto.
  - apply in_app_or in I as [I|[<-|[]]].
    + destruct (IH I) as [v L]. exists v. apply last_value_snoc. right. auto.
    + destruct Q. now apply refl.
Qed.
Lemma map_of_keys (kvs l : list (T * V)) : Forall P (map fst kvs) -> map_of eqv kvs l -> set_of eqv (map fst kvs) (map fst l).
Proof using dec refl.
  intros F M k. rewrite in_map_iff. split.
  - intros ([k' v] & <- & I). now apply M in I.
  - intros Y. destruct (last_value_some kvs k) as [v L].
    + apply first_in_In in Y. rewrite Forall_forall in F. auto.
    + now apply first_in_In.
    + exists (k, v). split; [reflexivity|]. apply M. auto.
Qed.
Lemma map_of_snoc (kvs l l' : list (T * V)) a b : Forall P (map fst kvs) -> P a -> map_of eqv kvs l ->
  (forall k v, In (k, v) l' <-> (In (k, v) l /\ ~ eqv a k) \/ (eqv a k /\ v = b /\ In k (map fst l)) \/
     (k = a /\ v = b /\ forall z, In z (map fst l) -> ~ eqv a z)) -> map_of eqv (kvs ++ [(a, b)]) l'.
Proof using dec refl sym trans.
  intros F Pa M H k v. pose proof (map_of_keys kvs l F M) as S.
  rewrite H, map_app. cbn [map fst]. rewrite first_in_snoc, last_value_snoc, (M k v), (S k), (set_of_none _ _ a F Pa S).
  split.
  - intros [[[A B] C]|[(A & B & C)|(-> & -> & C)]].
    + split; [now left|]. right. auto.
    + split; [now left|]. left. auto.
    + split; [right; auto|]. left. auto.
  - intros [[A|[-> A]] [[B ->]|[B C]]].
    + right. left. auto.
    + left. auto.
    + right. right. auto.
    + destruct B. auto.
Qed.
End Dup.

(** ** Trees *)
Section Btree.
Context {T : Type} (P : T -> Prop) (cmp : T -> T -> comparison) (TO : total_order P cmp).
Lemma cmp_refl x : P x -> cmp x x = Eq.
Proof using TO. intros Px. pose proof (proj1 TO x x Px Px) as H. destruct (cmp x x); now auto. Qed.
Lemma cmp_sym x y : P x -> P y -> equal_by cmp x y -> equal_by cmp y x.
Proof using TO. unfold equal_by. intros Px Py H. rewrite (proj1 TO x y Px Py), H. reflexivity. Qed.
Lemma cmp_trans x y z : P x -> P y -> P z -> equal_by cmp x y -> equal_by cmp y z -> equal_by cmp x z.
Proof using TO. unfold equal_by. intros Px Py Pz H1 H2. now rewrite (proj2 (proj2 TO) x y z Px Py Pz H1). Qed.
Lemma equal_by_dec (x y : T) : {equal_by cmp x y} + {~ equal_by cmp x y}.
Proof using. unfold equal_by. destruct (cmp x y); [now left | now right | now right]. Defined.
Lemma btree_insert_Forall (Q : T -> Prop) x l : Q x -> Forall Q l -> Forall Q (btree_insert cmp x l).
Proof using. intros Qx F. induction F as [|y l Qy F IH]; cbn [btree_insert]; [auto|]. destruct (cmp x y); auto. Qed.
Lemma btree_insert_sorted x l : P x -> Forall P l -> sorted cmp l ->
  sorted cmp (btree_insert cmp x l) /\
  (forall y, In y (btree_insert cmp x l) <-> In y l \/ (y = x /\ forall z, In z l -> ~ equal_by cmp x z)).
Proof using TO.
  intros Px F S. induction S as [|y l S IH L]; cbn [btree_insert].
  - split; [repeat constructor|]. intros y. cbn [In]. split; [intros [->|[]]; right; split; [reflexivity|intros ? []] | intros [[]|[-> _]]; now left].
  - inversion F as [|? ? Py Fl]; subst. specialize (IH Fl). destruct IH as [IS II]. destruct (cmp x y) eqn:E.
    + split; [now constructor|]. intros w. split; [auto|]. intros [H|[-> H]]; [assumption|]. destruct (H y); [now left | exact E].
    + split.
      * constructor; [now constructor|]. constructor; [assumption|]. rewrite Forall_forall in *. intros z Iz. apply (proj1 (proj2 TO)) with y; auto.
      * intros w. cbn [In]. split; [|intros [H|[-> _]]; auto]. intros [<-|H]; [right|auto]. split; [reflexivity|]. intros z [<-|Iz]; unfold equal_by; [congruence|].
        rewrite Forall_forall in *. rewrite (proj1 (proj2 TO) x y z); auto. discriminate.
    + assert (cmp y x = Lt) as E' by (rewrite (proj1 TO x y), E; auto). split.
      * constructor; [assumption|]. apply Forall_forall. intros z Iz. apply II in Iz as [Iz|[-> _]]; [|assumption]. rewrite Forall_forall in L. auto.
      * intros w. cbn [In]. rewrite II. split.
        -- intros [<-|[H|[-> H]]]; [auto|auto|]. right. split; [reflexivity|]. intros z [<-|Iz]; [unfold equal_by; congruence | auto].
        -- intros [[<-|H]|[-> H]]; [auto | auto | right; right; split; [reflexivity | auto]].
Qed.
Lemma btree_insert_le x l : (length (btree_insert cmp x l) <= S (length l))%nat.
Proof using. induction l as [|y l IH]; cbn [btree_insert length]; [lia|]. destruct (cmp x y); cbn [length]; lia. Qed.
Lemma inserted_snoc {X C} (insert : X -> C -> C) xs x ret : inserted insert (xs ++ [x]) ret = insert x (inserted insert xs ret).
Proof using. unfold inserted. now rewrite fold_left_app. Qed.
Lemma btree_set_of xs : Forall P xs ->
  let l := inserted (btree_insert cmp) xs [] in Forall P l /\ sorted cmp l /\ set_of (equal_by cmp) xs l.
Proof using TO.
  induction xs as [|x xs IH] using rev_ind; intros F.
  - split; [constructor|]. split; [constructor|]. intros y. split; [intros [] | intros ([|? ?] & l2 & E & _); discriminate].
  - apply Forall_app in F as [F Fx]. inversion Fx as [|? ? Px _]; subst. destruct (IH F) as (IF & IS & IO). clear IH.
    rewrite inserted_snoc. destruct (btree_insert_sorted x _ Px IF IS) as [S' I']. split; [now apply btree_insert_Forall|]. split; [assumption|].
    apply (set_of_snoc P (equal_by cmp) equal_by_dec (fun x Px => cmp_refl x Px) cmp_sym cmp_trans _ _ _ _ F Px IO). exact I'.
Qed.
Context {V : Type}.
Lemma btree_map_keys kv (l : list (T * V)) : map fst (btree_map_insert cmp kv l) = btree_insert cmp (fst kv) (map fst l).
Proof using. induction l as [|[k v] l IH]; cbn [btree_map_insert btree_insert map fst]; [reflexivity|]. destruct (cmp (fst kv) k); cbn [map fst]; [reflexivity..|]. now rewrite IH. Qed.
Lemma btree_map_in a b (l : list (T * V)) : P a -> Forall P (map fst l) -> sorted cmp (map fst l) -> forall k v,
  In (k, v) (btree_map_insert cmp (a, b) l) <-> (In (k, v) l /\ ~ equal_by cmp a k) \/ (equal_by cmp a k /\ v = b /\ In k (map fst l)) \/
     (k = a /\ v = b /\ forall z, In z (map fst l) -> ~ equal_by cmp a z).
Proof using TO.
  intros Pa. induction l as [|[k' v'] l IH]; cbn [btree_map_insert map fst snd]; intros F S k v.
  - cbn [In]. split; [intros [[= <- <-]|[]]; right; right; auto | intros [[[] _]|[(_ & _ & [])|(-> & -> & _)]]; now left].
  - inversion F as [|? ? Pk' Fl]; subst. inversion S as [|? ? Sl L]; subst. specialize (IH Fl Sl k v).
    assert (forall z, In z (map fst l) -> cmp k' z = Lt /\ P z) as K by (rewrite Forall_forall in L, Fl; auto).
    destruct (cmp a k') eqn:E.
    + assert (forall z, In z (map fst l) -> cmp a z = Lt) as K'.
      { intros z Iz. rewrite (proj2 (proj2 TO) a k' z Pa Pk' (proj2 (K z Iz)) E). now apply K. }
      cbn [In]. split.
      * intros [[= <- <-]|I].
        -- right. left. auto.
        -- left. split; [auto|]. unfold equal_by. rewrite (K' k); [discriminate|]. now apply (in_map fst) in I.
      * intros [[[[= <- <-]|I] N]|[(Q & -> & [<-|I])|(-> & -> & H)]].
        -- now destruct N.
        -- now right.
        -- now left.
        -- unfold equal_by in Q. rewrite (K' k I) in Q. discriminate.
        -- destruct (H k'); [now left | exact E].
    + assert (forall z, In z (map fst l) -> cmp a z = Lt) as K'.
      { intros z Iz. apply (proj1 (proj2 TO)) with k'; auto; now apply K. }
      cbn [In]. split.
      * intros [[= <- <-]|[[= <- <-]|I]].
        -- right. right. repeat split. unfold equal_by. intros z [<-|Iz]; [congruence|]. rewrite (K' z Iz). discriminate.
        -- left. split; [auto|]. unfold equal_by. congruence.
        -- left. split; [auto|]. unfold equal_by. rewrite (K' k); [discriminate|]. now apply (in_map fst) in I.
      * intros [[I _]|[(Q & -> & [<-|I])|(-> & -> & _)]]; [auto | unfold equal_by in Q; congruence | | now left].
        unfold equal_by in Q. rewrite (K' k I) in Q. discriminate.
    + cbn [In]. rewrite IH. split.
      * intros [[= <- <-]|[[I N]|[(Q & -> & I)|(-> & -> & H)]]].
        -- left. split; [auto|]. unfold equal_by. congruence.
        -- left. auto.
        -- right. left. auto.
        -- right. right. repeat split. intros z [<-|Iz]; [unfold equal_by; congruence | auto].
      * intros [[[[= <- <-]|I] N]|[(Q & -> & [<-|I])|(-> & -> & H)]]; [now left | auto | unfold equal_by in Q; congruence | auto 6 | auto 9].
Qed.
Lemma btree_map_of (xs : list (T * V)) : Forall P (map fst xs) ->
  let l := inserted (btree_map_insert cmp) xs [] in Forall P (map fst l) /\ sorted cmp (map fst l) /\ map_of (equal_by cmp) xs l.
Proof using TO.
  induction xs as [|[a b] xs IH] using rev_ind; intros F.
  - split; [constructor|]. split; [constructor|]. intros k v. split; [intros [] | intros [([|? ?] & l2 & E & _) _]; discriminate].
  - rewrite map_app in F. apply Forall_app in F as [F Fx]. inversion Fx as [|? ? Px _]; subst. destruct (IH F) as (IF & IS & IO). clear IH.
    rewrite inserted_snoc. cbn zeta. rewrite btree_map_keys. destruct (btree_insert_sorted a _ Px IF IS) as [S' _].
    split; [now apply btree_insert_Forall|]. split; [exact S'|].
    apply (map_of_snoc P (equal_by cmp) equal_by_dec (fun x Px => cmp_refl x Px) cmp_sym cmp_trans _ _ _ _ _ F Px IO).
    now apply btree_map_in.
Qed.
(** Nothing else is so. *)
Lemma sorted_unique {A} (R : A -> A -> Prop) (l l' : list A) : (forall x, In x l -> ~ R x x) ->
  (forall x y z, In x l -> In y l -> In z l -> R x y -> R y z -> R x z) ->
  StronglySorted R l -> StronglySorted R l' -> (forall x, In x l <-> In x l') -> l = l'.
Proof using.
  intros Ir Tr S. revert l' Ir Tr. induction S as [|x l S IH L]; intros l' Ir Tr S' H.
  - destruct l' as [|y l']; [reflexivity|]. destruct (proj2 (H y)). now left.
  - destruct S' as [|y l' S' L']; [destruct (proj1 (H x)); now left|]. rewrite Forall_forall in L, L'.
    assert (x = y) as <-.
    { destruct (proj1 (H x)) as [->|Ix]; [now left | reflexivity|]. destruct (proj2 (H y)) as [->|Iy]; [now left | reflexivity|].
      destruct (Ir x); [now left|]. apply Tr with y; [now left | now right | now left | auto | auto]. }
    f_equal. apply IH; [intros z I; apply Ir; now right | intros a b c Ia Ib Ic; apply Tr; now right | assumption|]. intros z. pose proof (H z) as Hz. cbn [In] in Hz. split; intros Iz.
    + destruct (proj1 Hz) as [->|]; [now right | | assumption]. destruct (Ir z); [now left | auto].
    + destruct (proj2 Hz) as [->|]; [now right | | assumption]. destruct (Ir z); [now left | auto].
Qed.
Lemma btree_set_unique xs l : Forall P xs -> sorted cmp l -> set_of (equal_by cmp) xs l -> l = inserted (btree_insert cmp) xs [].
Proof using TO.
  intros F S O. destruct (btree_set_of xs F) as (F' & S' & O'). symmetry. apply sorted_unique with (R := fun x y => cmp x y = Lt); try assumption.
  - rewrite Forall_forall in F'. intros x I. rewrite cmp_refl by auto. discriminate.
  - rewrite Forall_forall in F'. intros x y z Ix Iy Iz. apply (proj1 (proj2 TO)); auto.
  - intros y. now rewrite (O y), (O' y).
Qed.
Lemma sorted_fst {A} (l : list (T * A)) : sorted cmp (map fst l) -> StronglySorted (fun p q => cmp (fst p) (fst q) = Lt) l.
Proof using.
  induction l as [|p l IH]; cbn [map]; intros S; [constructor|]. inversion S as [|? ? S' L]; subst. constructor; [auto|].
  rewrite Forall_forall in *. intros q I. apply L. now apply in_map.
Qed.
Lemma btree_map_unique (xs l : list (T * V)) : Forall P (map fst xs) -> sorted cmp (map fst l) -> map_of (equal_by cmp) xs l ->
  l = inserted (btree_map_insert cmp) xs [].
Proof using TO.
  intros F S O. destruct (btree_map_of xs F) as (F' & S' & O'). symmetry. apply sorted_unique with (R := fun p q => cmp (fst p) (fst q) = Lt).
  - rewrite Forall_forall in F'. intros x I. rewrite cmp_refl; [discriminate|]. apply F'. now apply in_map.
  - rewrite Forall_forall in F'. intros x y z Ix Iy Iz. apply (proj1 (proj2 TO)); apply F'; now apply in_map.
  - now apply sorted_fst.
  - now apply sorted_fst.
  - intros [k v]. now rewrite (O k v), (O' k v).
Qed.
End Btree.

(** ** Hash tables *)
Section Hash.
Context {T : Type} (P : T -> Prop) (eqb : T -> T -> bool) (EQ : equivalence P eqb) (E : env) (HE : good_env E).
Lemma equal_if_dec (x y : T) : {equal_if eqb x y} + {~ equal_if eqb x y}.
Proof using. unfold equal_if. destruct (eqb x y); [now left | now right]. Defined.
Lemma eqb_refl x : P x -> equal_if eqb x x.
Proof using EQ. apply EQ. Qed.
Lemma eqb_sym x y : P x -> P y -> equal_if eqb x y -> equal_if eqb y x.
Proof using EQ. unfold equal_if. intros Px Py H. now rewrite (proj1 (proj2 EQ) y x). Qed.
Lemma eqb_trans x y z : P x -> P y -> P z -> equal_if eqb x y -> equal_if eqb y z -> equal_if eqb x z.
Proof using EQ. apply EQ. Qed.
Lemma existsb_false x l : existsb (eqb x) l = false <-> forall z, In z l -> ~ equal_if eqb x z.
Proof using.
  unfold equal_if. split.
  - intros H z I Q. enough (existsb (eqb x) l = true) by congruence. apply existsb_exists. eauto.
  - intros H. destruct (existsb (eqb x) l) eqn:X; [|reflexivity]. apply existsb_exists in X as (z & I & Q). now destruct (H z I).
Qed.
Lemma distinct_placed x l : P x -> Forall P l -> distinct eqb l -> existsb (eqb x) l = false -> forall l', Permutation l' (x :: l) -> distinct eqb l'.
Proof using EQ.
  intros Px F S X l' Pm. apply pairs_perm with (x :: l); [tauto | now symmetry|].
  constructor; [|assumption]. apply Forall_forall. intros z I. pose proof (proj1 (existsb_false x l) X z I) as N. unfold equal_if in N.
  assert (eqb x z = false) by now destruct (eqb x z). split; [assumption|]. rewrite (proj1 (proj2 EQ) z x); auto. rewrite Forall_forall in F. auto.
Qed.
Lemma hash_insert_distinct x l : P x -> Forall P l -> distinct eqb l ->
  distinct eqb (hash_insert E eqb x l) /\ Forall P (hash_insert E eqb x l) /\
  (forall y, In y (hash_insert E eqb x l) <-> In y l \/ (y = x /\ forall z, In z l -> ~ equal_if eqb x z)).
Proof using EQ HE.
  intros Px F S. unfold hash_insert. destruct (existsb (eqb x) l) eqn:X.
  - split; [assumption|]. split; [assumption|]. intros y. split; [auto|]. intros [I|[-> H]]; [assumption|].
    apply existsb_false in H. congruence.
  - pose proof (HE _ x l) as Pm. split; [now apply distinct_placed with x l|]. split.
    + apply (Permutation_Forall (Permutation_sym Pm)). now constructor.
    + intros y. pose proof (proj1 (existsb_false x l) X) as N. split.
      * intros I. apply (Permutation_in _ Pm) in I as [<-|I]; auto.
      * intros H. apply (Permutation_in _ (Permutation_sym Pm)). destruct H as [I|[-> _]]; [now right | now left].
Qed.
Lemma hash_set_of xs : Forall P xs ->
  let l := inserted (hash_insert E eqb) xs [] in Forall P l /\ distinct eqb l /\ set_of (equal_if eqb) xs l.
Proof using EQ HE.
  induction xs as [|x xs IH] using rev_ind; intros F.
  - split; [constructor|]. split; [constructor|]. intros y. split; [intros [] | intros ([|? ?] & l2 & E' & _); discriminate].
  - apply Forall_app in F as [F Fx]. inversion Fx as [|? ? Px _]; subst. destruct (IH F) as (IF & IS & IO). clear IH.
    rewrite inserted_snoc. destruct (hash_insert_distinct x _ Px IF IS) as (S' & F' & I'). split; [assumption|]. split; [assumption|].
    apply (set_of_snoc P (equal_if eqb) equal_if_dec eqb_refl eqb_sym eqb_trans _ _ _ _ F Px IO). exact I'.
Qed.
Context {V : Type}.
Lemma existsb_fst a (l : list (T * V)) : existsb (fun p => eqb a (fst p)) l = existsb (eqb a) (map fst l).
Proof using. induction l as [|p l IH]; cbn [existsb map]; [reflexivity | now rewrite IH]. Qed.
Lemma replace_value_keys kv (l : list (T * V)) : map fst (replace_value eqb kv l) = map fst l.
Proof using. induction l as [|[k v] l IH]; cbn [replace_value map fst]; [reflexivity|]. destruct (eqb (fst kv) k); cbn [map fst]; [reflexivity | now rewrite IH]. Qed.
Lemma replace_value_in a b (l : list (T * V)) : P a -> Forall P (map fst l) -> distinct eqb (map fst l) -> forall k v,
  In (k, v) (replace_value eqb (a, b) l) <-> (In (k, v) l /\ ~ equal_if eqb a k) \/ (equal_if eqb a k /\ v = b /\ In k (map fst l)).
Proof using EQ.
  intros Pa. induction l as [|[k' v'] l IH]; cbn [replace_value map fst snd]; intros F S k v.
  - cbn [In]. tauto.
  - inversion F as [|? ? Pk' Fl]; subst. inversion S as [|? ? L Sl]; subst. specialize (IH Fl Sl k v).
    rewrite Forall_forall in L, Fl. destruct (eqb a k') eqn:X.
    + assert (forall z, In z (map fst l) -> ~ equal_if eqb a z) as K.
      { intros z Iz Q. destruct (L z Iz) as [L1 _]. assert (eqb k' z = true) by (apply (proj2 (proj2 EQ)) with a; auto; rewrite (proj1 (proj2 EQ)); auto). congruence. }
      cbn [In]. split.
      * intros [[= <- <-]|I]; [right; auto|]. left. split; [auto|]. apply K. now apply (in_map fst) in I.
      * intros [[[[= <- <-]|I] N]|(Q & -> & [<-|I])]; [now destruct N | auto | auto | now destruct (K k I)].
    + cbn [In]. rewrite IH. unfold equal_if in *. split.
      * intros [[= <- <-]|[[I N]|(Q & -> & I)]]; [left; split; [auto | congruence] | auto | auto 6].
      * intros [[[[= <- <-]|I] N]|(Q & -> & [<-|I])]; [auto | auto | congruence | auto 6].
Qed.
Lemma hash_map_of (xs : list (T * V)) : Forall P (map fst xs) ->
  let l := inserted (hash_map_insert E eqb) xs [] in Forall P (map fst l) /\ distinct eqb (map fst l) /\ map_of (equal_if eqb) xs l.
Proof using EQ HE.
  induction xs as [|[a b] xs IH] using rev_ind; intros F.
  - split; [constructor|]. split; [constructor|]. intros k v. split; [intros [] | intros [([|? ?] & l2 & X & _) _]; discriminate].
  - rewrite map_app in F. apply Forall_app in F as [F Fx]. inversion Fx as [|? ? Px _]; subst. destruct (IH F) as (IF & IS & IO). clear IH.
    rewrite inserted_snoc. cbn zeta. set (l := inserted _ xs []) in *. unfold hash_map_insert. cbn [fst]. rewrite existsb_fst.
    destruct (existsb (eqb a) (map fst l)) eqn:X.
    + rewrite replace_value_keys. split; [assumption|]. split; [assumption|].
      apply (map_of_snoc P (equal_if eqb) equal_if_dec eqb_refl eqb_sym eqb_trans _ _ _ _ _ F Px IO). intros k v.
      rewrite replace_value_in by assumption. split; [tauto|]. intros [H|[H|(_ & _ & H)]]; [auto | auto|]. apply existsb_false in H. congruence.
    + pose proof (HE _ (a, b) l) as Pm. pose proof (Permutation_map fst Pm) as Pk. cbn [map fst] in Pk. split; [|split].
      * apply (Permutation_Forall (Permutation_sym Pk)). now constructor.
      * now apply distinct_placed with a (map fst l).
      * apply (map_of_snoc P (equal_if eqb) equal_if_dec eqb_refl eqb_sym eqb_trans _ _ _ _ _ F Px IO). intros k v.
        pose proof (proj1 (existsb_false a _) X) as N. split.
        -- intros I. apply (Permutation_in _ Pm) in I as [[= <- <-]|I]; [right; right; auto|]. left. split; [assumption|]. apply N. now apply (in_map fst) in I.
        -- intros H. apply (Permutation_in _ (Permutation_sym Pm)). destruct H as [[I _]|[(Q & _ & I)|(-> & -> & _)]]; [now right | now destruct (N k I) | now left].
Qed.
End Hash.

(** ** Collections decode item by item *)
Lemma der_item_reads {T} (D : deserialize T) b x : der_item D b x -> reads (der_to_val D) b x.
Proof.
  intros ((id & c & Tb) & Ed). rewrite (serde_der_eq D _ _ _ Tb) in Ed. split; [now apply (der_tlv_nonempty _ _ _ Tb)|]. intros rest i Hok.
  rewrite der_to_val_cons by (apply app_nonempty; now apply (der_tlv_nonempty _ _ _ Tb)).
  rewrite (parsed_der _ _ _ _ Tb Hok). cbn [with_ctx rmap_err rbind].
  destruct (der_tlv_disassemble _ _ _ Tb) as (_ & _ & _ & ->). cbn [rbind fst]. rewrite Ed. reflexivity.
Qed.
Lemma der_item_next {T} (D : deserialize T) bs i x rest j : bytes_ok bs -> der_to_val D (bs, i) = Ok (Some (x, (rest, j))) ->
  exists b, bs = b ++ rest /\ b <> [] /\ der_item D b x.
Proof.
  intros Hok H. destruct bs as [|o bs]; [discriminate|]. rewrite der_to_val_cons in H by discriminate.
  apply rbind_inv in H as ([v r] & E & H). apply with_ctx_ok in E.
  apply parsed_der_inv in E as (id & c & Dt & -> & Ds & _); auto.
  rewrite Ds in H. cbn [rbind fst] in H. apply rbind_inv in H as (val & E & H). apply with_ctx_ok in E.
  injection H as -> -> _. exists v. split; [reflexivity|]. split; [now apply (der_tlv_nonempty _ _ _ Dt)|].
  split; [eauto|]. now rewrite (serde_der_eq D _ _ _ Dt).
Qed.
Lemma ber_item_reads {T} (D : deserialize T) b x : ber_item D b x -> reads (ber_to_val D) b x.
Proof.
  intros (Vb & Ed). split; [now apply ber_value_nonempty|]. intros rest i Hok.
  rewrite ber_to_val_cons by (apply app_nonempty; now apply ber_value_nonempty).
  rewrite (parsed_ber _ _ Vb Hok). cbn [with_ctx rmap_err rbind]. unfold serde_from_ber in Ed.
  apply rbind_inv in Ed as ([[id l] c] & Ds & Ed). rewrite Ds. cbn [rbind fst snd] in *. rewrite Ed. reflexivity.
Qed.
Lemma ber_item_next {T} (D : deserialize T) bs i x rest j : bytes_ok bs -> ber_to_val D (bs, i) = Ok (Some (x, (rest, j))) ->
  exists b, bs = b ++ rest /\ b <> [] /\ ber_item D b x.
Proof.
  intros Hok H. destruct bs as [|o bs]; [discriminate|]. rewrite ber_to_val_cons in H by discriminate.
  apply rbind_inv in H as ([v r] & E & H). apply with_ctx_ok in E.
  apply parsed_ber_inv in E as (Vb & -> & _); auto. apply rbind_inv in H as ([[id l] c] & Ds & H). cbn [fst snd] in H.
  apply rbind_inv in H as (val & E & H). apply with_ctx_ok in E. injection H as -> -> _.
  exists v. split; [reflexivity|]. split; [now apply ber_value_nonempty|]. split; [assumption|].
  unfold serde_from_ber. rewrite Ds. exact E.
Qed.
Lemma entry_next_der {K V} (DK : deserialize K) (DV : deserialize V) bs i x rest j : bytes_ok bs -> der_to_key_val DK DV (bs, i) = Ok (Some (x, (rest, j))) ->
  exists b, bs = b ++ rest /\ b <> [] /\ der_entry DK DV b x.
Proof.
  intros Hb H1. destruct (proj1 (der_entry_iff DK DV bs i x rest Hb) (ex_intro _ j H1)) as (b & -> & EB).
  exists b. split; [reflexivity|]. split; [|assumption]. apply (der_entry_reads' _ _ _ _ EB).
Qed.
Lemma entry_next_ber {K V} (DK : deserialize K) (DV : deserialize V) bs i x rest j : bytes_ok bs -> ber_to_key_val DK DV (bs, i) = Ok (Some (x, (rest, j))) ->
  exists b, bs = b ++ rest /\ b <> [] /\ ber_entry DK DV b x.
Proof.
  intros Hb H1. destruct (proj1 (ber_entry_iff DK DV bs i x rest Hb) (ex_intro _ j H1)) as (b & -> & EB).
  exists b. split; [reflexivity|]. split; [|assumption]. apply (ber_entry_reads' _ _ _ _ EB).
Qed.
Section Coll.
Context {X : Type} (E : env) (ID : list N) (insert : X -> list X -> list X) (bnext dnext : helper -> res (option (X * helper))).
Context (PB PD : list N -> X -> Prop).
Hypothesis b_some : forall bs i x rest j, bytes_ok bs -> bnext (bs, i) = Ok (Some (x, (rest, j))) -> exists b, bs = b ++ rest /\ b <> [] /\ PB b x.
Hypothesis d_some : forall bs i x rest j, bytes_ok bs -> dnext (bs, i) = Ok (Some (x, (rest, j))) -> exists b, bs = b ++ rest /\ b <> [] /\ PD b x.
Hypothesis b_none : forall bs i, bnext (bs, i) = Ok None -> bs = [].
Hypothesis d_none : forall bs i, dnext (bs, i) = Ok None -> bs = [].
Hypothesis b_nil : forall i, bnext ([], i) = Ok None.
Hypothesis d_nil : forall i, dnext ([], i) = Ok None.
Hypothesis b_reads : forall b x, PB b x -> reads bnext b x.
Hypothesis d_reads : forall b x, PD b x -> reads dnext b x.
Let D := de_collection E ID [] insert bnext dnext.
Lemma der_coll_iff id c m : bytes_ok c ->
  (from_der D id c = Ok m <-> id = ID /\ exists bs xs, c = concat bs /\ Forall2 PD bs xs /\ m = inserted insert xs []).
Proof using d_some d_none d_nil d_reads.
  intros Hok. cbn [from_der D de_collection]. split.
  - destruct (bytes_eqb id ID) eqn:EI; [|discriminate]. apply bytes_eqb_eq in EI as ->. cbn [negb]. intros H. split; [reflexivity|].
    exact (collect_inv dnext insert PD d_some d_none _ _ _ _ _ Hok H).
  - intros (-> & bs & xs & -> & F & ->). rewrite ids_differ_refl.
    apply (collect_all dnext insert); [exact d_nil | | assumption | apply Nat.lt_succ_diag_r].
    clear -F d_reads. induction F; constructor; auto.
Qed.
Lemma exclude_eoc_inv l c c' : exclude_eoc E l c = Ok c' ->
  match l with Indefinite => c = c' ++ [0; 0] | Definite _ => c = c' end.
Proof using.
  intros Ec. destruct l; cbn [exclude_eoc] in Ec.
  - destruct (ends_with c EOC) eqn:W; [|discriminate]. injection Ec as <-. unfold ends_with in W. apply andb_prop in W as [W1 W2].
    apply bytes_eqb_eq in W2. change (nlen EOC) with 2 in W2. rewrite <- (take_drop (nlen c - 2) c) at 1. f_equal. rewrite W2. reflexivity.
  - apply rbind_inv in Ec as (u & _ & Ec). now injection Ec.
Qed.
Lemma exclude_eoc_right l c items : constructed items l c -> exclude_eoc E l c = Ok (concat items).
Proof using. intros K. destruct K; apply exclude_eoc_both. Qed.
Lemma ber_coll_sound id l c m : bytes_ok c -> from_ber D id l c = Ok m ->
  id = ID /\ exists bs xs, match l with Indefinite => c = concat bs ++ [0; 0] | Definite _ => c = concat bs end /\
    Forall2 PB bs xs /\ m = inserted insert xs [].
Proof using b_some b_none.
  intros Hok. cbn [from_ber D de_collection]. destruct (bytes_eqb id ID) eqn:EI; [|discriminate]. apply bytes_eqb_eq in EI as ->. cbn [negb]. intros H.
  split; [reflexivity|]. apply rbind_inv in H as (c' & Ec & H). apply exclude_eoc_inv in Ec.
  assert (bytes_ok c') as Hc' by (destruct l; subst; [now apply bytes_ok_app in Hok | assumption]).
  destruct (collect_inv bnext insert PB b_some b_none _ _ _ _ _ Hc' H) as (bs & xs & -> & F & ->). eauto.
Qed.
Lemma ber_coll_iff id l c m : bytes_ok c -> right_length l c ->
  (from_ber D id l c = Ok m <-> id = ID /\ exists bs xs, constructed bs l c /\ Forall2 PB bs xs /\ m = inserted insert xs []).
Proof using b_some b_none b_nil b_reads.
  intros Hok RL. split.
  - intros H. destruct (ber_coll_sound id l c m Hok H) as (-> & bs & xs & Ec & F & ->). split; [reflexivity|]. exists bs, xs. split; [|auto].
    destruct l; cbn [right_length] in RL; subst; constructor.
  - intros (-> & bs & xs & K & F & ->). cbn [from_ber D de_collection]. rewrite ids_differ_refl, (exclude_eoc_right _ _ _ K). cbn [rbind].
    apply (collect_all bnext insert); [exact b_nil | | | apply Nat.lt_succ_diag_r].
    + clear -F b_reads. induction F; constructor; auto.
    + destruct K; [assumption | now apply bytes_ok_app in Hok].
Qed.
End Coll.
