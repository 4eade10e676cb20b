(** Lemmas about comparison, hashing and conversion. *)
From Verif Require Import Base ModelTag ModelBuf ModelTlv ModelSerde ModelCmp Spec SpecSerde SpecCmp TagProofs IdProofs TagMain BufProofs SerdeOctets.

Lemma slice_cmp_cons x a y b : slice_cmp (x :: a) (y :: b) = match x ?= y with Eq => slice_cmp a b | c => c end.
Proof.
  unfold slice_cmp. cbn [length Nat.min memcmp]. rewrite !nlen_cons. destruct (x ?= y); try reflexivity.
  destruct (memcmp _ a b); try reflexivity. destruct (N.compare_spec (nlen a) (nlen b)), (N.compare_spec (1 + nlen a) (1 + nlen b)); lia || reflexivity.
Qed.
Lemma slice_cmp_nil_l b : slice_cmp [] b = match b with [] => Eq | _ => Lt end.
Proof.
  destruct b as [|y b]; [reflexivity|]. unfold slice_cmp. cbn [length Nat.min memcmp]. rewrite nlen_cons.
  pose proof (@nlen_nil N). destruct (N.compare_spec (nlen (@nil N)) (1 + nlen b)); lia || reflexivity.
Qed.
Lemma slice_cmp_nil_r a : slice_cmp a [] = match a with [] => Eq | _ => Gt end.
Proof.
  destruct a as [|y b]; [reflexivity|]. unfold slice_cmp. cbn [length Nat.min memcmp]. rewrite nlen_cons.
  pose proof (@nlen_nil N). destruct (N.compare_spec (1 + nlen b) (nlen (@nil N))); lia || reflexivity.
Qed.
Lemma before_cons x a b : before a b -> before (x :: a) (x :: b).
Proof. intros [c y t|p y z s t H]; [apply (lt_prefix (x :: c)) | now apply (lt_differ (x :: p))]. Qed.
Lemma cmp_ordered a : forall b, ordered a b (slice_cmp a b).
Proof.
  induction a as [|x a IH]; intros [|y b].
  - reflexivity.
  - rewrite slice_cmp_nil_l. exact (lt_prefix [] y b).
  - rewrite slice_cmp_nil_r. exact (lt_prefix [] x a).
  - rewrite slice_cmp_cons. destruct (N.compare_spec x y) as [->|H|H].
    + specialize (IH b). destruct (slice_cmp a b); cbn [ordered] in *; [now subst | now apply before_cons | now apply before_cons].
    + now apply (lt_differ []).
    + now apply (lt_differ []).
Qed.
Lemma before_cmp a b : before a b -> slice_cmp a b = Lt.
Proof.
  assert (P : forall p a b, slice_cmp (p ++ a) (p ++ b) = slice_cmp a b).
  { induction p as [|x p IH]; intros; [reflexivity|]. cbn [app]. now rewrite slice_cmp_cons, N.compare_refl. }
  intros [c x t|p x y s t H].
  - rewrite <- (app_nil_r c) at 1. now rewrite P, slice_cmp_nil_l.
  - rewrite P, slice_cmp_cons. apply N.compare_lt_iff in H. now rewrite H.
Qed.
Lemma slice_cmp_refl a : slice_cmp a a = Eq.
Proof. induction a as [|x a IH]; [reflexivity|]. now rewrite slice_cmp_cons, N.compare_refl. Qed.
Lemma slice_cmp_opp a : forall b, slice_cmp b a = CompOpp (slice_cmp a b).
Proof.
  induction a as [|x a IH]; intros [|y b]; try reflexivity.
  rewrite !slice_cmp_cons, (N.compare_antisym x y). destruct (x ?= y); cbn [CompOpp]; [apply IH | reflexivity | reflexivity].
Qed.
Lemma cmp_iff a b c : slice_cmp a b = c <-> ordered a b c.
Proof.
  split; [intros <-; apply cmp_ordered|]. destruct c; cbn [ordered]; intros H.
  - subst. apply slice_cmp_refl.
  - now apply before_cmp.
  - rewrite slice_cmp_opp, (before_cmp _ _ H). reflexivity.
Qed.
Lemma cmp_trans a : forall b d, slice_cmp a b = Lt -> slice_cmp b d = Lt -> slice_cmp a d = Lt.
Proof.
  induction a as [|x a IH]; intros [|y b] [|z d]; rewrite ?slice_cmp_nil_l, ?slice_cmp_nil_r, ?slice_cmp_cons; try congruence.
  destruct (N.compare_spec x y), (N.compare_spec y z), (N.compare_spec x z); try congruence; try lia; eauto.
Qed.
Lemma slice_hash_inj a b : slice_hash a = slice_hash b <-> a = b.
Proof. split; [now intros [= _ H] | now intros ->]. Qed.
Lemma bytes_eqb_cmp a b : bytes_eqb a b = true <-> slice_cmp a b = Eq.
Proof. rewrite cmp_iff. cbn [ordered]. apply bytes_eqb_eq. Qed.

(** ** identifiers *)
Lemma digits_cmp ds : forall es, digits_ok ds -> digits_ok es -> length ds = length es ->
  slice_cmp ds es = (b128_value ds ?= b128_value es).
Proof.
  induction ds as [|d ds IH]; intros [|e es] Hd He L; try discriminate; [reflexivity|].
  inversion Hd as [|? ? D1 D2]; inversion He as [|? ? E1 E2]; subst. injection L as L.
  rewrite slice_cmp_cons, !b128_value_cons, (IH es) by assumption.
  assert (NL : nlen ds = nlen es) by (rewrite !nlen_length; now f_equal). rewrite NL.
  pose proof (b128_value_bound _ D2) as B1. pose proof (b128_value_bound _ E2) as B2. rewrite NL in B1.
  set (k := 128 ^ nlen es) in *. symmetry.
  destruct (N.compare_spec d e) as [->|H|H].
  - destruct (N.compare_spec (b128_value ds) (b128_value es)) as [->|Q|Q].
    + apply N.compare_refl.
    + apply N.compare_lt_iff. lia.
    + apply N.compare_gt_iff. lia.
  - apply N.compare_lt_iff. nia.
  - apply N.compare_gt_iff. nia.
Qed.
Lemma groups_cmp hi : forall lo hi' lo', digits_ok (hi ++ [lo]) -> digits_ok (hi' ++ [lo']) -> length hi = length hi' ->
  slice_cmp (map (fun d => 128 + d) hi ++ [lo]) (map (fun d => 128 + d) hi' ++ [lo']) = slice_cmp (hi ++ [lo]) (hi' ++ [lo']).
Proof.
  induction hi as [|d hi IH]; intros lo [|e hi'] lo' Hd He L; try discriminate; [reflexivity|].
  cbn [map app] in *. inversion Hd; inversion He; subst. injection L as L. rewrite !slice_cmp_cons, IH by assumption.
  replace (128 + d ?= 128 + e) with (d ?= e); [reflexivity|].
  destruct (N.compare_spec d e), (N.compare_spec (128 + d) (128 + e)); lia || reflexivity.
Qed.
Lemma identifier_head c p n id : identifier c p n id -> exists rest, id = c * 64 + p * 32 + N.min n 31 :: rest /\ c < 4 /\ p < 2.
Proof.
  intros [Hc Hp Hn|hi lo Hc Hp Hn Hd Hh Hv]; eexists; (split; [f_equal; lia | auto]).
Qed.
Lemma identifier_order c p n id c' p' n' id' : identifier c p n id -> identifier c' p' n' id' ->
  (2 * c + p < 2 * c' + p' -> slice_cmp id id' = Lt) /\
  (c = c' -> p = p' -> nlen id = nlen id' \/ n < 31 \/ n' < 31 -> slice_cmp id id' = (n ?= n')) /\
  (slice_cmp id id' = Eq <-> c = c' /\ p = p' /\ n = n').
Proof.
  intros H H'. split; [|split].
  - intros L. destruct (identifier_head _ _ _ _ H) as (r & -> & ? & ?). destruct (identifier_head _ _ _ _ H') as (r' & -> & ? & ?).
    rewrite slice_cmp_cons. replace (_ ?= _) with Lt; [reflexivity|]. symmetry. apply N.compare_lt_iff. lia.
  - intros <- <- K.
    destruct H as [Hc Hp Hn|hi lo Hc Hp Hn Hd Hh Hv]; destruct H' as [Hc' Hp' Hn'|hi' lo' Hc' Hp' Hn' Hd' Hh' Hv'].
    + rewrite slice_cmp_cons. destruct (N.compare_spec n n') as [->|L|L].
      * now rewrite N.compare_refl.
      * replace (_ ?= _) with Lt; [reflexivity|]. symmetry. apply N.compare_lt_iff. lia.
      * replace (_ ?= _) with Gt; [reflexivity|]. symmetry. apply N.compare_gt_iff. lia.
    + rewrite slice_cmp_cons. assert (E : n ?= n' = Lt) by (apply N.compare_lt_iff; lia). rewrite E.
      assert (E' : c * 64 + p * 32 + n ?= c * 64 + p * 32 + 31 = Lt) by (apply N.compare_lt_iff; lia). now rewrite E'.
    + rewrite slice_cmp_cons. assert (E : n ?= n' = Gt) by (apply N.compare_gt_iff; lia). rewrite E.
      assert (E' : c * 64 + p * 32 + 31 ?= c * 64 + p * 32 + n' = Gt) by (apply N.compare_gt_iff; lia). now rewrite E'.
    + rewrite slice_cmp_cons, N.compare_refl. destruct K as [K|K]; [|lia].
      assert (L : length hi = length hi').
      { rewrite !nlen_length in K. cbn [length] in K. rewrite !app_length, !map_length in K. cbn [length] in K. lia. }
      rewrite groups_cmp by assumption. rewrite digits_cmp; [now rewrite Hv, Hv' | assumption | assumption | rewrite !app_length; cbn; lia].
  - rewrite cmp_iff. cbn [ordered]. split.
    + intros <-. now apply (identifier_inj c p n c' p' n' id).
    + intros (-> & -> & ->). now apply (identifier_fun c' p' n').
Qed.
Lemma id_predicates c p n id : identifier (class_num c) (pc_num p) n id ->
  (forall c', exists b, id_class_is c' id = Ok b /\ (b = true <-> c' = c)) /\
  (forall p', exists b, IdRef_is_pc p' id = Ok b /\ (b = true <-> p' = p)) /\
  IdRef_class id = Ok c /\ IdRef_pc id = Ok p.
Proof.
  intros H. destruct (identifier_head _ _ _ _ H) as (r & -> & Hc & Hp). cbn [id_class_is IdRef_is_pc].
  assert (F : class_num c * 64 + pc_num p * 32 + N.min n 31 < 256) by lia.
  unfold IdRef_class, IdRef_pc, id_class_is, IdRef_is_pc, CLASS_MASK, PC_MASK, rbind. rewrite land_c0, land_20 by assumption.
  set (f := class_num c * 64 + pc_num p * 32 + N.min n 31) in *.
  assert (A : f / 64 = class_num c) by (subst f; lia). assert (B : f / 32 mod 2 = pc_num p) by (subst f; lia).
  rewrite A, B. repeat split; intros; try (eexists; split; [reflexivity|]); destruct c, p; try reflexivity;
    repeat match goal with x : class_tag |- _ => destruct x | x : pc_tag |- _ => destruct x end; vm_compute; split; congruence.
Qed.
Lemma octet_string_conversions v :
  (forall o, In o [OctetString_new v; OctetString_from_vec v; OctetString_from_slice v; OctetString_from_string v; OctetString_from_str v] ->
     OctetString_as_ref o = v /\ OctetString_into_vec o = v /\ Vec_from_OctetString o = v) /\
  (forall o, String_try_from_OctetString o = Some v <-> OctetString_as_ref o = v /\ is_utf8 v) /\
  (forall o, String_try_from_OctetString o = None <-> ~ is_utf8 (OctetString_as_ref o)).
Proof.
  split; [|split].
  - intros o H. repeat (destruct H as [<-|H]; [repeat split|]). destruct H.
  - intros o. assert (E : OctetString_into_vec o = OctetString_as_ref o) by now destruct o.
    unfold String_try_from_OctetString. rewrite E. destruct (utf8_valid (OctetString_as_ref o)) eqn:U.
    + apply utf8_valid_iff in U. split; [intros [= <-]; auto | intros (-> & _); reflexivity].
    + split; [discriminate|]. intros (<- & H). apply utf8_valid_iff in H. congruence.
  - intros o. assert (E : OctetString_into_vec o = OctetString_as_ref o) by now destruct o.
    unfold String_try_from_OctetString. rewrite E, <- utf8_valid_iff. destruct (utf8_valid _); split; congruence.
Qed.
