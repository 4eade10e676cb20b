(** Properties of comparison, hashing and conversion (C55 to C58). *)
From Verif Require Import Base ModelTag ModelBuf ModelTlv ModelSerde ModelCmp Spec SpecSerde SpecCmp TagProofs IdProofs TagMain BufProofs SerdeOctets CmpProofs.

(** ** C55: owned and borrowed values compare and hash by their octets *)
(** Whatever spare memory a buffer has and wherever it is stored. *)
Theorem C55_equality : forall a x b y, holds a x -> holds b y ->
  (owned_eq_any a (Own b) = true <-> x = y) /\ (owned_eq_any a (Ref y) = true <-> x = y) /\
  (ref_eq_any x (Own b) = true <-> x = y) /\ (ref_eq_any x (Ref y) = true <-> x = y) /\
  (ref_eq x y = true <-> x = y) /\ (Buffer_eq a y = true <-> x = y).
Proof.
  intros a x b y Ha Hb. unfold owned_eq_any, ref_eq_any, ref_eq, Buffer_eq, borrow.
  rewrite (holds_slice _ _ Ha), (holds_slice _ _ Hb). repeat split; apply bytes_eqb_eq.
Qed.
Print Assumptions C55_equality.
(** [Borrow] asks for equal hashes of the owned and the borrowed form; equal values have
    equal hashes, and the hasher sees different input for different values. *)
Theorem C55_hash : forall a x b y, holds a x -> holds b y ->
  owned_hash a = ref_hash x /\ Buffer_hash a = ref_hash x /\ (owned_hash a = owned_hash b <-> x = y) /\ (ref_hash x = ref_hash y <-> x = y).
Proof.
  intros a x b y Ha Hb. unfold owned_hash, Buffer_hash, ref_hash.
  rewrite (holds_slice _ _ Ha), (holds_slice _ _ Hb). repeat split; apply slice_hash_inj.
Qed.
Print Assumptions C55_hash.
(** The four comparisons of identifiers are the dictionary order of the octets. *)
Theorem C55_order : forall a x b y c, holds a x -> holds b y ->
  (Id_cmp a b = c <-> ordered x y c) /\ (IdRef_cmp x y = c <-> ordered x y c) /\
  (Id_partial_cmp_any a (Own b) = Some c <-> ordered x y c) /\ (Id_partial_cmp_any a (Ref y) = Some c <-> ordered x y c) /\
  (IdRef_partial_cmp_any x (Own b) = Some c <-> ordered x y c) /\ (IdRef_partial_cmp_any x (Ref y) = Some c <-> ordered x y c) /\
  (IdRef_partial_cmp x y = Some c <-> ordered x y c) /\ (Buffer_partial_cmp a y = Some c <-> ordered x y c).
Proof.
  intros a x b y c Ha Hb. unfold Id_cmp, Buffer_cmp, IdRef_cmp, Id_partial_cmp_any, IdRef_partial_cmp_any, IdRef_partial_cmp, Buffer_partial_cmp, borrow.
  rewrite (holds_slice _ _ Ha), (holds_slice _ _ Hb).
  assert (K : Some (slice_cmp x y) = Some c <-> ordered x y c).
  { rewrite <- cmp_iff. split; [now intros [=] | now intros ->]. }
  pose proof (cmp_iff x y c). tauto.
Qed.
Print Assumptions C55_order.
(** It is a total order, consistent with equality. *)
Theorem C55_total : forall x y z,
  IdRef_cmp x x = Eq /\ (IdRef_cmp x y = Eq -> x = y) /\ IdRef_cmp y x = CompOpp (IdRef_cmp x y) /\
  (IdRef_cmp x y = Lt -> IdRef_cmp y z = Lt -> IdRef_cmp x z = Lt).
Proof.
  intros x y z. split; [apply slice_cmp_refl|]. split; [intros H; now apply (cmp_iff x y Eq)|]. split; [apply slice_cmp_opp | apply cmp_trans].
Qed.
Print Assumptions C55_total.
Example C55_ex :
  let a := {| b_mem := [0x1f; 0x82; 0x2c; 9; 9]; b_len := 3; b_heap := false |} in
  let b := {| b_mem := [0x1f; 0x82; 0x2c]; b_len := 3; b_heap := true |} in
  holds a [0x1f; 0x82; 0x2c] /\ holds b [0x1f; 0x82; 0x2c] /\ a <> b /\ owned_eq_any a (Own b) = true /\ owned_hash a = owned_hash b /\
  Id_cmp a b = Eq /\ IdRef_cmp [0x1f; 0x82; 0x2c] [0x1f; 0x82; 0x2d] = Lt /\ IdRef_cmp [0x30] [0x1f; 0x82] = Gt /\ IdRef_cmp [0x1f] [0x1f; 0x82] = Lt.
Proof.
  split; [exists [9; 9]; repeat split; repeat constructor|]. split; [exists []; repeat split; constructor|]. split; [discriminate|].
  vm_compute. repeat split; reflexivity.
Qed.

(** ** C56: the order of identifiers and the order of their components *)
(** Identifiers of one class and kind are not ordered by number. *)
Theorem C56_number_refuted : ~ (forall c p n id n' id', identifier c p n id -> identifier c p n' id' ->
  n < n' -> IdRef_cmp id id' = Lt).
Proof.
  intros H. specialize (H 0 0 16383 [0x1f; 0xff; 0x7f] 16384 [0x1f; 0x81; 0x80; 0x00]).
  assert (IdRef_cmp [0x1f; 0xff; 0x7f] [0x1f; 0x81; 0x80; 0x00] = Lt) as E.
  { apply H; [| |reflexivity].
    - apply (id_long 0 0 16383 [127] 127); try lia; try discriminate; [repeat constructor | reflexivity].
    - apply (id_long 0 0 16384 [1; 0] 0); try lia; try discriminate; [repeat constructor | reflexivity]. }
  vm_compute in E. discriminate.
Qed.
Print Assumptions C56_number_refuted.
(** By class first, primitive before constructed second, and by number among identifiers
    of as many octets or with a number below 31. *)
Theorem C56_partial : forall c p n id c' p' n' id', identifier c p n id -> identifier c' p' n' id' ->
  (c < c' -> IdRef_cmp id id' = Lt) /\ (c = c' -> p < p' -> IdRef_cmp id id' = Lt) /\
  (c = c' -> p = p' -> nlen id = nlen id' \/ n < 31 \/ n' < 31 -> IdRef_cmp id id' = (n ?= n')) /\
  (IdRef_cmp id id' = Eq <-> c = c' /\ p = p' /\ n = n').
Proof.
  intros c p n id c' p' n' id' H H'. destruct (identifier_order _ _ _ _ _ _ _ _ H H') as (A & B & C).
  assert (p < 2 /\ p' < 2) as [P P'] by (destruct H, H'; auto).
  split; [intros; apply A; lia|]. split; [intros; apply A; lia|]. auto.
Qed.
Print Assumptions C56_partial.
(** Exactly: of two numbers in the long form the shorter has its last digit dropped and is
    compared with the digits of the longer that stand over it; if they agree it comes first. *)
Lemma groups_cmp_shorter hi : forall lo h1 h2 lo', digits_ok (hi ++ [lo]) -> digits_ok h1 -> h2 <> [] -> length hi = length h1 ->
  slice_cmp (map (fun d => 128 + d) hi ++ [lo]) (map (fun d => 128 + d) (h1 ++ h2) ++ [lo']) =
  match slice_cmp hi h1 with Eq => Lt | c => c end.
Proof.
  induction hi as [|d hi IH]; intros lo [|e h1] h2 lo' D D1 H2 L; try discriminate; cbn [map app] in *.
  - destruct h2 as [|x h2]; [congruence|]. cbn [map app]. rewrite slice_cmp_cons. inversion D.
    assert (lo ?= 128 + x = Lt) as -> by (apply N.compare_lt_iff; lia). reflexivity.
  - inversion D; inversion D1; subst. injection L as L. rewrite !slice_cmp_cons, IH by assumption.
    replace (128 + d ?= 128 + e) with (d ?= e); [now destruct (d ?= e)|].
    destruct (N.compare_spec d e), (N.compare_spec (128 + d) (128 + e)); lia || reflexivity.
Qed.
Theorem C56_exact_partial : forall c p n id n' id', identifier c p n id -> identifier c p n' id' -> 31 <= n -> nlen id < nlen id' ->
  IdRef_cmp id id' = match n / 128 ?= n' / 128 ^ (nlen id' - nlen id + 1) with Eq => Lt | o => o end.
Proof.
  intros c p n id n' id' H H' Hn L. destruct H as [Hc Hp Hs|hi lo Hc Hp _ Hd Hh Hv]; [lia|].
  destruct H' as [Hc' Hp' Hs'|hi' lo' Hc' Hp' Hn' Hd' Hh' Hv'].
  { rewrite !nlen_length in L. cbn [length] in L. rewrite app_length in L. cbn [length] in L. lia. }
  assert (Lm : forall (l : list N) x, nlen (c * 64 + p * 32 + 31 :: map (fun d => 128 + d) l ++ [x]) = nlen l + 2).
  { intros. rewrite nlen_cons, nlen_app, nlen_map, nlen_cons, nlen_nil. lia. }
  rewrite !Lm in L. rewrite !Lm. unfold IdRef_cmp. rewrite slice_cmp_cons, N.compare_refl.
  remember (firstn (length hi) hi') as h1 eqn:E1. remember (skipn (length hi) hi') as h2 eqn:E2.
  assert (length hi < length hi')%nat as Ll by (rewrite !nlen_length in L; lia).
  assert (hi' = h1 ++ h2) as E by (subst; now rewrite firstn_skipn).
  assert (length h1 = length hi) as L1 by (subst h1; apply firstn_length_le; lia).
  assert (length h2 = length hi' - length hi)%nat as L2 by (subst h2; apply skipn_length).
  subst hi'. clear E1 E2. apply Forall_app in Hd' as [Hd1 Hd2]. apply Forall_app in Hd1 as [Hd1 Hd3].
  rewrite groups_cmp_shorter; [|assumption|assumption|intros ->; cbn in L2; rewrite app_nil_r in *; lia|now symmetry].
  apply Forall_app in Hd as [Hd Hlo]. inversion Hlo; subst. inversion Hd2; subst.
  rewrite (digits_cmp hi h1) by (assumption || now symmetry).
  assert (b128_value (hi ++ [lo]) / 128 = b128_value hi) as ->.
  { rewrite b128_value_snoc, N.add_comm, N.div_add by lia. now rewrite N.div_small. }
  assert (b128_value ((h1 ++ h2) ++ [lo']) / 128 ^ (nlen (h1 ++ h2) + 2 - (nlen hi + 2) + 1) = b128_value h1) as ->.
  { replace (nlen (h1 ++ h2) + 2 - (nlen hi + 2) + 1) with (nlen (h2 ++ [lo'])).
    2:{ rewrite !nlen_length, !app_length. rewrite app_length in L2. cbn [length]. lia. }
    rewrite <- app_assoc. unfold b128_value at 1. rewrite fold_left_app. change (fold_left _ h1 0) with (b128_value h1). rewrite b128_value_acc.
    rewrite N.add_comm, N.div_add by (apply N.pow_nonzero; lia). rewrite N.div_small; [reflexivity|].
    apply b128_value_bound. apply Forall_app. auto. }
  reflexivity.
Qed.
Print Assumptions C56_exact_partial.
Example C56_exact_ex : identifier 0 0 16384 [0x1f; 0x81; 0x80; 0x00] /\ identifier 0 0 16383 [0x1f; 0xff; 0x7f] /\ identifier 0 0 130 [0x1f; 0x81; 0x02] /\
  IdRef_cmp [0x1f; 0xff; 0x7f] [0x1f; 0x81; 0x80; 0x00] = Gt /\ IdRef_cmp [0x1f; 0x81; 0x02] [0x1f; 0x81; 0x80; 0x00] = Lt.
Proof.
  split; [|split; [|split; [|vm_compute; auto]]].
  - apply (id_long 0 0 16384 [1; 0] 0); try lia; try discriminate; [repeat constructor | reflexivity].
  - apply (id_long 0 0 16383 [127] 127); try lia; try discriminate; [repeat constructor | reflexivity].
  - apply (id_long 0 0 130 [1] 2); try lia; try discriminate; [repeat constructor | reflexivity].
Qed.
(** Every pair, in one formula. *)
Definition shorter_first (n n' d : N) : comparison := match n / 128 ?= n' / 128 ^ (d + 1) with Eq => Lt | o => o end.
Definition identifier_cmp (c p n k c' p' n' k' : N) : comparison :=
  match c ?= c' with
  | Eq => match p ?= p' with
          | Eq => if (n <? 31) || (n' <? 31) || (k =? k') then n ?= n'
                  else if k <? k' then shorter_first n n' (k' - k) else CompOpp (shorter_first n' n (k - k'))
          | o => o
          end
  | o => o
  end.
Theorem C56_exact : forall c p n id c' p' n' id', identifier c p n id -> identifier c' p' n' id' ->
  IdRef_cmp id id' = identifier_cmp c p n (nlen id) c' p' n' (nlen id').
Proof.
  intros c p n id c' p' n' id' H H'.
  destruct (C56_partial _ _ _ _ _ _ _ _ H H') as (A & B & C & _). destruct (C56_partial _ _ _ _ _ _ _ _ H' H) as (A' & B' & _).
  unfold identifier_cmp. destruct (N.compare_spec c c') as [E|L|L]; [|now apply A|].
  2:{ unfold IdRef_cmp in *. rewrite slice_cmp_opp, A' by assumption. reflexivity. }
  destruct (N.compare_spec p p') as [Ep|L|L]; [|now apply B|].
  2:{ unfold IdRef_cmp in *. rewrite slice_cmp_opp, B' by auto. reflexivity. }
  destruct (N.ltb_spec n 31); [cbn [orb]; apply C; auto|]. destruct (N.ltb_spec n' 31); [cbn [orb]; apply C; auto|].
  destruct (N.eqb_spec (nlen id) (nlen id')); [cbn [orb]; apply C; auto|]. cbn [orb]. subst c' p'.
  destruct (N.ltb_spec (nlen id) (nlen id')).
  - now apply (C56_exact_partial c p).
  - unfold IdRef_cmp. rewrite slice_cmp_opp. f_equal. apply (C56_exact_partial c p); auto; lia.
Qed.
Print Assumptions C56_exact.
Example C56_all_ex : identifier_cmp 0 0 16384 4 0 0 16383 3 = Lt /\ identifier_cmp 0 0 16384 4 0 0 130 3 = Gt /\ identifier_cmp 0 1 3 1 1 0 2 1 = Lt.
Proof. repeat split. Qed.
Example C56_ex : identifier 2 1 300 [0xbf; 0x82; 0x2c] /\ identifier 2 1 301 [0xbf; 0x82; 0x2d] /\
  IdRef_cmp [0xbf; 0x82; 0x2c] [0xbf; 0x82; 0x2d] = Lt /\ IdRef_cmp [0xa1] [0xbf; 0x82; 0x2d] = Lt /\ IdRef_cmp [0xdf; 0x82; 0x2c] [0xbf; 0x82; 0x2d] = Gt.
Proof.
  split; [|split; [|vm_compute; auto]].
  - apply (id_long 2 1 300 [2] 44); try lia; try discriminate; [repeat constructor | reflexivity].
  - apply (id_long 2 1 301 [2] 45); try lia; try discriminate; [repeat constructor | reflexivity].
Qed.

(** ** C57: the well-known identifiers and the class and kind predicates *)
Theorem C57_universal : forall id p n, In (id, (p, n)) universal_tags ->
  Id_new Universal p n = Ok id /\ identifier 0 (pc_num p) n id /\
  IdRef_class id = Ok Universal /\ IdRef_pc id = Ok p /\ IdRef_number id = Ok n.
Proof.
  intros id p n H. assert (n < 2 ^ 128 /\ Id_new Universal p n = Ok id) as [L E].
  { unfold universal_tags in H. repeat (destruct H as [[= <- <- <-]|H]; [split; reflexivity|]). destruct H. }
  destruct (id_new_reads_back Universal p n L) as (bs & E' & I). rewrite E in E'. injection E' as <-. split; [exact E | exact I].
Qed.
Print Assumptions C57_universal.
Theorem C57_predicates : forall c p n id, identifier (class_num c) (pc_num p) n id ->
  (forall c', exists b, id_class_is c' id = Ok b /\ (b = true <-> c' = c)) /\
  (forall p', exists b, IdRef_is_pc p' id = Ok b /\ (b = true <-> p' = p)) /\
  IdRef_class id = Ok c /\ IdRef_pc id = Ok p.
Proof. exact id_predicates. Qed.
Print Assumptions C57_predicates.
Example C57_ex : identifier (class_num ContextSpecific) (pc_num Constructed) 300 [0xbf; 0x82; 0x2c] /\
  id_class_is ContextSpecific [0xbf; 0x82; 0x2c] = Ok true /\ id_class_is Private [0xbf; 0x82; 0x2c] = Ok false /\
  IdRef_is_pc Constructed [0xbf; 0x82; 0x2c] = Ok true /\ In (ID_SET, (Constructed, 17)) universal_tags.
Proof.
  split; [apply (id_long 2 1 300 [2] 44); try lia; try discriminate; [repeat constructor | reflexivity]|].
  repeat split; cbn; tauto.
Qed.

(** ** C58: conversions of OctetString *)
Theorem C58_conversions : forall v,
  (forall o, In o [OctetString_new v; OctetString_from_vec v; OctetString_from_slice v; OctetString_from_string v; OctetString_from_str v] ->
     OctetString_as_ref o = v /\ OctetString_into_vec o = v /\ Vec_from_OctetString o = v) /\
  (forall o, String_try_from_OctetString o = Some v <-> OctetString_as_ref o = v /\ is_utf8 v) /\
  (forall o, String_try_from_OctetString o = None <-> ~ is_utf8 (OctetString_as_ref o)).
Proof. exact octet_string_conversions. Qed.
Print Assumptions C58_conversions.
(** A string survives the way through an OctetString. *)
Theorem C58_string : forall s, is_utf8 s ->
  String_try_from_OctetString (OctetString_from_string s) = Some s /\ String_try_from_OctetString (OctetString_from_str s) = Some s.
Proof. intros s H. destruct (C58_conversions s) as (_ & A & _). split; apply A; auto. Qed.
Print Assumptions C58_string.
(** Comparison and hash do not see whether the octets are borrowed. *)
Theorem C58_compare : forall a b c,
  (OctetString_eq a b = true <-> OctetString_as_ref a = OctetString_as_ref b) /\
  (OctetString_cmp a b = c <-> ordered (OctetString_as_ref a) (OctetString_as_ref b) c) /\
  (OctetString_hash a = OctetString_hash b <-> OctetString_as_ref a = OctetString_as_ref b).
Proof. intros a b c. split; [apply bytes_eqb_eq|]. split; [apply cmp_iff | apply slice_hash_inj]. Qed.
Print Assumptions C58_compare.
Example C58_ex : is_utf8 [0x61; 0xc3; 0xa9] /\ String_try_from_OctetString (Borrowed [0x61; 0xc3; 0xa9]) = Some [0x61; 0xc3; 0xa9] /\
  String_try_from_OctetString (Owned [0xc3]) = None /\ OctetString_eq (Borrowed [1; 2]) (Owned [1; 2]) = true.
Proof. split; [apply utf8_valid_iff; reflexivity | vm_compute; auto]. Qed.
