(** Where a failing slice parser leaves the slice: the octets taken decide the outcome. *)
From Verif Require Import Base ModelIo ModelTag ModelContents ModelTlv Spec SpecLeft TagProofs IdProofs TlvProofs TlvMain.

Definition local {A} (m : parser (list N) A) : Prop :=
  forall s w r s' w', m (s, w) = (r, (s', w')) ->
    exists p, s = p ++ s' /\ ((r = Err UnterminatedBytes /\ s' = []) \/ (r <> Err UnterminatedBytes /\ forall t, m (p ++ t, w) = (r, (t, w')))).
Lemma lc_ret {A} (a : A) : local (pret a).
Proof. intros s w r s' w' [= <- <- <-]. exists []. split; [reflexivity|]. right. split; [discriminate | reflexivity]. Qed.
Lemma lc_fail {A} e : e <> UnterminatedBytes -> local (A := A) (pfail e).
Proof. intros Ne s w r s' w' [= <- <- <-]. exists []. split; [reflexivity|]. right. split; [congruence | reflexivity]. Qed.
Lemma lc_panic {A} : local (A := A) ppanic.
Proof. intros s w r s' w' [= <- <- <-]. exists []. split; [reflexivity|]. right. split; [discriminate | reflexivity]. Qed.
Lemma lc_write b : local (write_u8 b).
Proof. intros s w r s' w' [= <- <- <-]. exists []. split; [reflexivity|]. right. split; [discriminate | reflexivity]. Qed.
Lemma lc_read : local (read_u8 slice_reader).
Proof.
  intros s w r s' w' H. destruct s as [|b s].
  - rewrite read_u8_nil in H. injection H as <- <- <-. exists []. split; [reflexivity|]. now left.
  - rewrite read_u8_cons in H. injection H as <- <- <-. exists [b]. split; [reflexivity|]. right. split; [discriminate|]. intros t. apply read_u8_cons.
Qed.
Lemma lc_bind {A B} (m : parser (list N) A) (k : A -> parser (list N) B) :
  local m -> (forall a, local (k a)) -> local (pbind m k).
Proof.
  intros Hm Hk s w r s' w' H. unfold pbind in H. destruct (m (s, w)) as [x [s1 w1]] eqn:E.
  destruct (Hm _ _ _ _ _ E) as (p & -> & [[-> ->]|[Nx C]]).
  - injection H as <- <- <-. exists p. split; [reflexivity|]. now left.
  - destruct x as [a|e| |].
    + destruct (Hk _ _ _ _ _ _ H) as (p2 & -> & D). exists (p ++ p2). split; [apply app_assoc|].
      destruct D as [D|[Nr D]]; [now left|]. right. split; [assumption|]. intros t. unfold pbind. rewrite <- app_assoc, C. apply D.
    + injection H as <- <- <-. exists p. split; [reflexivity|]. right. split; [congruence|]. intros t. unfold pbind. now rewrite C.
    + injection H as <- <- <-. exists p. split; [reflexivity|]. right. split; [congruence|]. intros t. unfold pbind. now rewrite C.
    + injection H as <- <- <-. exists p. split; [reflexivity|]. right. split; [congruence|]. intros t. unfold pbind. now rewrite C.
Qed.
Ltac lc := repeat first [ apply lc_ret | (apply lc_fail; discriminate) | apply lc_write | apply lc_read | apply lc_panic
  | apply lc_bind; [|intros ?] | match goal with |- local (if ?b then _ else _) => destruct b end | progress cbv zeta ].
Lemma lc_id_loop fuel : forall i o, local (parse_id_loop slice_reader fuel i o).
Proof.
  induction fuel as [|fuel IH]; intros i o; cbn [parse_id_loop].
  - intros s w r s' w' [= <- <- <-]. exists []. split; [reflexivity|]. right. split; [discriminate | reflexivity].
  - lc. apply IH.
Qed.
Lemma lc_parse_id fuel : local (parse_id slice_reader fuel).
Proof. unfold parse_id. lc. apply lc_id_loop. Qed.
Lemma lc_len_loop k : forall len, local (parse_length_loop slice_reader k len).
Proof. induction k as [|k IH]; intros len; cbn [parse_length_loop]; lc. apply IH. Qed.
Lemma lc_parse_length : local (parse_length slice_reader).
Proof. unfold parse_length. lc. apply lc_len_loop. Qed.
Lemma lc_header fuel : local (parse_id_length slice_reader fuel).
Proof. unfold parse_id_length. apply lc_bind; [apply lc_parse_id|]. intros _. apply lc_parse_length. Qed.

(** fuel *)
Lemma id_loop_fuel f1 : forall f2 i o s w, (length s < f1)%nat -> (length s < f2)%nat ->
  parse_id_loop slice_reader f1 i o (s, w) = parse_id_loop slice_reader f2 i o (s, w).
Proof.
  induction f1 as [|f1 IH]; intros f2 i o s w H1 H2; [lia|]. destruct f2 as [|f2]; [lia|]. cbn [parse_id_loop].
  unfold pbind, write_u8. destruct (negb _); [reflexivity|]. destruct s as [|b s].
  - rewrite read_u8_nil. reflexivity.
  - rewrite read_u8_cons. cbn [length] in *. apply IH; lia.
Qed.
Lemma parse_id_fuel f1 f2 s w : (length s < f1)%nat -> (length s < f2)%nat ->
  parse_id slice_reader f1 (s, w) = parse_id slice_reader f2 (s, w).
Proof.
  intros H1 H2. unfold parse_id, pbind. destruct s as [|b s].
  - rewrite read_u8_nil. reflexivity.
  - rewrite read_u8_cons. unfold write_u8. cbn [length] in *. destruct (negb _); [reflexivity|]. destruct s as [|c s].
    + rewrite read_u8_nil. reflexivity.
    + rewrite read_u8_cons. cbn [length] in *. destruct (c <=? ID_MAX_SHORT); [reflexivity|]. destruct (c =? MORE_FLAG); [reflexivity|].
      apply id_loop_fuel; lia.
Qed.
Lemma header_fuel f s w : (length s < f)%nat -> parse_id_length slice_reader f (s, w) = parse_id_length slice_reader (slice_fuel s) (s, w).
Proof.
  intros H. unfold parse_id_length, pbind. rewrite (parse_id_fuel f (slice_fuel s)); [reflexivity | assumption | unfold slice_fuel; lia].
Qed.
Lemma header_short x : exists w, header_slice [x] = (Err UnterminatedBytes, ([], w)).
Proof.
  unfold header_slice, parse_id_length, parse_id, pbind. rewrite read_u8_cons. unfold write_u8. destruct (negb _).
  - unfold pret, parse_length, pbind. rewrite read_u8_nil. eexists. reflexivity.
  - rewrite read_u8_nil. eexists. reflexivity.
Qed.
Lemma header_none : exists w, header_slice [] = (Err UnterminatedBytes, ([], w)).
Proof. unfold header_slice, parse_id_length, parse_id, pbind. rewrite read_u8_nil. eexists. reflexivity. Qed.
Lemma header_local bs r s' w : header_slice bs = (r, (s', w)) ->
  exists p, bs = p ++ s' /\ ((r = Err UnterminatedBytes /\ s' = []) \/
    (r <> Err UnterminatedBytes /\ (2 <= length p)%nat /\ forall t, header_slice (p ++ t) = (r, (t, w)))).
Proof.
  intros H. destruct (lc_header _ _ _ _ _ _ H) as (p & E & [D|[Nr _]]); exists p; (split; [assumption|]); [now left|]. right.
  split; [assumption|].
  assert (K : forall t, header_slice (p ++ t) = (r, (t, w))).
  { intros t. set (f := (slice_fuel bs + slice_fuel (p ++ t))%nat).
    assert (parse_id_length slice_reader f (bs, []) = (r, (s', w))) as Hf
      by (rewrite header_fuel; [exact H | unfold f, slice_fuel; lia]).
    destruct (lc_header _ _ _ _ _ _ Hf) as (q & Eq & [[D _]|[_ D]]); [contradiction|].
    assert (q = p) as -> by (rewrite E in Eq; now apply app_inv_tail in Eq).
    unfold header_slice. rewrite <- (header_fuel f); [apply D | unfold f, slice_fuel; lia]. }
  split; [|assumption]. destruct p as [|x [|y p]]; cbn [length]; try lia; specialize (K []); cbn [app] in K.
  - destruct header_none as [w0 E0]. congruence.
  - destruct (header_short x) as [w0 E0]. congruence.
Qed.

(** ** what a failure leaves *)
Lemma der_stuck bs e rest : DerRef_parse bs = (Err e, rest) -> exists p, bs = p ++ rest /\ stuck DerRef_parse p e rest.
Proof.
  intros H. unfold DerRef_parse in H. rewrite DerRef_do_parse_eq in H. destruct (header_slice bs) as [h [s w]] eqn:E.
  destruct (header_local _ _ _ _ E) as (p & -> & C). exists p.
  assert (F : forall t, header_slice (p ++ t) = (h, (t, w)) -> DerRef_parse (p ++ t) =
    match h with
    | Ok Indefinite => (Err IndefiniteLength, t)
    | Ok (Definite n) => if nlen t <? n then (Err UnterminatedBytes, t) else (Ok (take (nlen (p ++ t) - nlen (drop n t)) (p ++ t)), drop n t)
    | Err e => (Err e, t) | Panic => (Panic, t) | NoFuel => (NoFuel, t)
    end).
  { intros t Ht. unfold DerRef_parse. rewrite DerRef_do_parse_eq, Ht. destruct h as [[|n]| | |]; try reflexivity. now destruct (nlen t <? n). }
  destruct h as [[|n]|e0| |].
  - injection H as <- <-. split; [reflexivity|]. destruct C as [[[=] _]|(_ & _ & C)]. left. split; [discriminate|]. intros t. now rewrite F.
  - destruct C as [[[=] _]|(_ & _ & C)]. destruct (N.ltb_spec (nlen s) n) as [L|L]; [|discriminate]. injection H as <- <-.
    split; [reflexivity|]. right. split; [reflexivity|]. exists n. split; [assumption|]. intros t Lt. rewrite F by apply C.
    destruct (N.ltb_spec (nlen t) n); [reflexivity | lia].
  - injection H as <- <-. split; [reflexivity|]. destruct C as [[[= ->] ->]|(Ne & _ & C)].
    + right. split; [reflexivity|]. exists 1. split; [rewrite nlen_nil; lia|]. intros t Lt. assert (t = []) as -> by (apply nlen_zero; lia). now rewrite F.
    + left. split; [congruence|]. intros t. now rewrite F.
  - discriminate.
  - discriminate.
Qed.

Definition do_stuck (p : list N) (r : res Z) (rest : list N) : Prop :=
  (r <> Err UnterminatedBytes /\ forall t, BerRef_do_parse (p ++ t) = (r, t)) \/
  (r = Err UnterminatedBytes /\ exists n, nlen rest < n /\ forall t, nlen t < n -> BerRef_do_parse (p ++ t) = (r, t)).
Lemma starts_eoc (p t s : list N) : (2 <= length p)%nat -> starts_with (p ++ t) EOC = starts_with (p ++ s) EOC.
Proof. destruct p as [|x [|y p]]; cbn [length]; try lia. reflexivity. Qed.
Lemma do_left bs r rest : BerRef_do_parse bs = (r, rest) -> exists p, bs = p ++ rest /\ do_stuck p r rest /\ (r <> Err UnterminatedBytes -> (2 <= length p)%nat).
Proof.
  intros H. destruct (starts_with bs EOC) eqn:S.
  - apply starts_with_spec in S as (t & ->). rewrite do_parse_eoc in H. injection H as <- <-. exists EOC. split; [reflexivity|].
    split; [|cbn; lia]. left. split; [discriminate|]. exact do_parse_eoc.
  - rewrite do_parse_header in H by assumption. destruct (header_slice bs) as [h [s w]] eqn:E.
    destruct (header_local _ _ _ _ E) as (p & -> & C).
    destruct C as [[-> ->]|(Nh & Lp & C)].
    + injection H as <- <-. exists p. split; [reflexivity|]. split; [|congruence]. right. split; [reflexivity|]. exists 1.
      split; [rewrite nlen_nil; lia|]. intros t Lt. assert (t = []) as -> by (apply nlen_zero; lia).
      rewrite do_parse_header by assumption. now rewrite E.
    + assert (F : forall t, BerRef_do_parse (p ++ t) =
        match h with
        | Ok (Definite n) => if nlen t <? n then (Err UnterminatedBytes, t) else (Ok 0%Z, drop n t)
        | Ok Indefinite => (Ok 1%Z, t)
        | Err e => (Err e, t) | Panic => (Panic, t) | NoFuel => (NoFuel, t)
        end).
      { intros t. rewrite do_parse_header by (rewrite (starts_eoc p t s) by assumption; assumption). rewrite C. now destruct h as [[|n]| | |]. }
      destruct h as [[|n]|e0| |].
      * injection H as <- <-. exists p. split; [reflexivity|]. split; [|auto]. left. split; [discriminate|]. exact F.
      * destruct (N.ltb_spec (nlen s) n) as [L|L]; injection H as <- <-.
        -- exists p. split; [reflexivity|]. split; [|congruence]. right. split; [reflexivity|]. exists n. split; [assumption|].
           intros t Lt. rewrite F. destruct (N.ltb_spec (nlen t) n); [reflexivity | lia].
        -- exists (p ++ take n s). split; [now rewrite <- app_assoc, take_drop|]. split; [|rewrite app_length; lia].
           left. split; [discriminate|]. intros t. rewrite <- app_assoc, F.
           destruct (N.ltb_spec (nlen (take n s ++ t)) n) as [K|K]; [rewrite nlen_app, nlen_take in K; lia|]. f_equal.
           rewrite drop_app_ge by (rewrite nlen_take; lia). rewrite nlen_take. replace (n - N.min n (nlen s)) with 0 by lia. apply drop_0.
      * injection H as <- <-. exists p. split; [reflexivity|]. split; [|auto]. left. split; [congruence|]. exact F.
      * injection H as <- <-. exists p. split; [reflexivity|]. split; [|auto]. left. split; [discriminate|]. exact F.
      * injection H as <- <-. exists p. split; [reflexivity|]. split; [|auto]. left. split; [discriminate|]. exact F.
Qed.
Lemma do_short x t : (nlen t = 0) -> BerRef_do_parse (x :: t) = (Err UnterminatedBytes, []).
Proof.
  intros Z. apply nlen_zero in Z. subst t. rewrite do_parse_header by (cbn; now destruct (x =? 0)). destruct (header_short x) as [w ->]. reflexivity.
Qed.
Definition loop_stuck (d : Z) (p : list N) (r : res unit) (rest : list N) : Prop :=
  (r <> Err UnterminatedBytes /\ forall t f, (length (p ++ t) < f)%nat -> BerRef_loop f d (p ++ t) = (r, t)) \/
  (r = Err UnterminatedBytes /\ exists n, nlen rest < n /\
     forall t f, nlen t < n -> (length (p ++ t) < f)%nat -> BerRef_loop f d (p ++ t) = (r, t)).
Lemma loop_left f : forall d bs r rest, (length bs < f)%nat -> BerRef_loop f d bs = (r, rest) -> exists p, bs = p ++ rest /\ loop_stuck d p r rest.
Proof.
  induction f as [|f IH]; intros d bs r rest Lb H; [lia|]. cbn [BerRef_loop] in H.
  destruct (BerRef_do_parse bs) as [x s] eqn:E. destruct (do_left _ _ _ E) as (p & -> & C & Lp). rewrite app_length in Lb.
  destruct x as [z|e| |].
  - destruct C as [[_ C]|[[=] _]]. specialize (Lp ltac:(discriminate)). cbv zeta in H. destruct (0 <? d + z)%Z eqn:D.
    + assert (length s < f)%nat as Ls by lia; destruct (IH _ _ _ _ Ls H) as (p2 & -> & K). exists (p ++ p2). split; [apply app_assoc|].
      destruct K as [[Nr K]|[-> (n & L & K)]]; [left | right]; (split; [assumption || reflexivity|]).
      * intros t [|g] Lg; [lia|]. rewrite <- app_assoc, app_length in Lg. cbn [BerRef_loop]. rewrite <- app_assoc, C. cbv zeta. rewrite D. apply K. lia.
      * exists n. split; [assumption|]. intros t [|g] Lt Lg; [lia|]. rewrite <- app_assoc, app_length in Lg.
        cbn [BerRef_loop]. rewrite <- app_assoc, C. cbv zeta. rewrite D. apply K; [assumption | lia].
    + injection H as <- <-. exists p. split; [reflexivity|]. left. split; [discriminate|]. intros t [|g] Lg; [lia|]. cbn [BerRef_loop]. rewrite C. cbv zeta. now rewrite D.
  - injection H as <- <-. exists p. split; [reflexivity|]. destruct C as [[Nr C]|[[= ->] (n & L & C)]].
    + left. split; [congruence|]. intros t [|g] Lg; [lia|]. cbn [BerRef_loop]. now rewrite C.
    + right. split; [reflexivity|]. exists n. split; [assumption|]. intros t [|g] Lt Lg; [lia|]. cbn [BerRef_loop]. now rewrite C.
  - injection H as <- <-. exists p. split; [reflexivity|]. destruct C as [[_ C]|[[=] _]]. left. split; [discriminate|]. intros t [|g] Lg; [lia|]. cbn [BerRef_loop]. now rewrite C.
  - injection H as <- <-. exists p. split; [reflexivity|]. destruct C as [[_ C]|[[=] _]]. left. split; [discriminate|]. intros t [|g] Lg; [lia|]. cbn [BerRef_loop]. now rewrite C.
Qed.
Lemma ber_stuck bs e rest : BerRef_parse bs = (Err e, rest) -> exists p, bs = p ++ rest /\ stuck BerRef_parse p e rest.
Proof.
  intros H. unfold BerRef_parse in H. destruct (BerRef_loop (slice_fuel bs) 0 bs) as [x s] eqn:E. destruct x as [[]|e0| |]; try discriminate.
  injection H as -> ->. destruct (loop_left _ _ _ _ _ (Nat.lt_succ_diag_r (length bs)) E) as (p & Ep & C). exists p. split; [assumption|].
  destruct C as [[Ne C]|[[= ->] (n & L & C)]].
  - left. split; [congruence|]. intros t. unfold BerRef_parse. rewrite C by (unfold slice_fuel; lia). reflexivity.
  - right. split; [reflexivity|]. exists n. split; [assumption|]. intros t Lt. unfold BerRef_parse. rewrite C by (assumption || (unfold slice_fuel; lia)). reflexivity.
Qed.

(** Nothing is taken only if there is nothing. *)
Lemma der_single x : DerRef_parse [x] = (Err UnterminatedBytes, []).
Proof. unfold DerRef_parse. rewrite DerRef_do_parse_eq. destruct (header_short x) as [w ->]. reflexivity. Qed.
Lemma ber_single x : BerRef_parse [x] = (Err UnterminatedBytes, []).
Proof. unfold BerRef_parse, slice_fuel. cbn [length BerRef_loop]. rewrite do_short by reflexivity. reflexivity. Qed.
Lemma stuck_moved parse p e rest : (forall x, parse [x] = (Err UnterminatedBytes, [])) -> stuck parse p e rest -> p = [] -> rest = [].
Proof.
  intros P C ->. destruct rest as [|x rest]; [reflexivity|]. destruct C as [[_ C]|[-> (n & L & C)]].
  - specialize (C [x]). cbn [app] in C. rewrite P in C. discriminate.
  - specialize (C [x]). cbn [app] in C. rewrite nlen_cons in L, C. rewrite nlen_nil in C. rewrite P in C. specialize (C ltac:(lia)). discriminate.
Qed.
