(** Conversions keep the octets; indices select the positions they stand for. *)
From Verif Require Import Base ModelError ModelTag ModelContents ModelBuf ModelTlv ModelConv Spec SpecConv TagProofs BufProofs TlvMain.

Lemma from_slice_holds cfg bs : nlen bs <= isize_max -> exists b, bf_from_slice cfg bs = Ok b /\ holds b bs.
Proof.
  intros L. unfold bf_from_slice.
  destruct (with_capacity_ok cfg _ L) as (b1 & -> & L1 & Hc & Hok). cbn [rbind].
  destruct (extend_ok b1 [] (b_mem b1) bs) as (b2 & s2 & E & M2 & L2 & _ & Hs2); auto.
  exists b2. split; [exact E|]. exists s2. auto.
Qed.
Lemma from_slice_own cfg s bs : nlen bs <= isize_max -> exists v', rmap (VOwn s) (bf_from_slice cfg bs) = Ok v' /\ shows v' bs.
Proof. intros L. destruct (from_slice_holds cfg bs L) as (b & -> & H). exists (VOwn s b). auto. Qed.

Lemma convert cfg v r bs : converts cfg v r -> shows v bs -> nlen bs <= isize_max -> exists v', r = Ok v' /\ shows v' bs.
Proof.
  intros C S L. destruct C; cbn [shows] in S;
    try (subst; eexists; split; [reflexivity | cbn [shows]; reflexivity]);
    try (subst; now apply from_slice_own);
    try (eexists; split; [reflexivity | cbn [shows]; exact S]);
    try (destruct S as [<- S]; eexists; split; [reflexivity | cbn [shows]; now apply from_vec_holds]);
    try (eexists; split; [reflexivity | cbn [shows]; now apply holds_slice]);
    try (eexists; split; [reflexivity | cbn [shows]; split; [now apply holds_slice | assumption]]).
Qed.
Lemma converts_chain cfg v v' : chain cfg v v' -> forall bs, shows v bs -> nlen bs <= isize_max -> shows v' bs.
Proof.
  induction 1 as [v|v r v1 v2 C E _ IH]; intros bs S L; [assumption|].
  destruct (convert _ _ _ _ C S L) as (v1' & E' & S'). rewrite E in E'. injection E' as <-. now apply IH.
Qed.

Lemma mut_ok f b bs : holds b bs -> nlen (f bs) = nlen bs ->
  exists b', through_mut f b = Ok b' /\ bf_slice b' = f bs /\ bf_cap b' = bf_cap b /\ b_heap b' = b_heap b /\
    drop (b_len b') (b_mem b') = drop (b_len b) (b_mem b) /\ holds b' (f bs).
Proof.
  intros H L. unfold through_mut. rewrite (holds_slice _ _ H), L, N.eqb_refl.
  destruct H as (sp & E & Lb & Hs).
  rewrite (bf_write_at [] bs sp (f bs) 0 b) by auto. eexists. split; [reflexivity|].
  assert (H' : holds {| b_mem := [] ++ f bs ++ sp; b_len := b_len b; b_heap := b_heap b |} (f bs)).
  { exists sp. cbn [b_mem b_len app]. rewrite Lb, L. auto. }
  split; [now apply holds_slice|]. unfold bf_cap. cbn [b_mem b_len b_heap app]. rewrite E, !nlen_app, L.
  repeat split; auto. rewrite Lb. rewrite drop_app_exact. rewrite <- L. now rewrite drop_app_exact.
Qed.

Lemma select_spec len i : len < usize_limit ->
  (in_range_index len i <-> exists n, select len i = Ok (first_selected i, n)) /\
  (~ in_range_index len i <-> select len i = Panic) /\
  (forall off n, select len i = Ok (off, n) -> off = first_selected i /\ off + n <= len /\ forall k, selected len i k <-> off <= k < off + n).
Proof.
  intros Hl. assert (U : usize_limit = 2 ^ 64) by reflexivity. rewrite U in *.
  unfold select, select_range; rewrite ?U; destruct i; cbn [in_range_index first_selected selected];
    repeat match goal with |- context [?a <? ?b] => destruct (N.ltb_spec a b) | |- context [?a <=? ?b] => destruct (N.leb_spec a b)
                          | |- context [?a =? ?b] => destruct (N.eqb_spec a b) end; cbn [andb];
    (split; [|split]); try (split; intros X; try discriminate X; try lia; try (eexists; reflexivity); try reflexivity; try (destruct X; discriminate); try (intros []; lia); fail);
    intros off' n' X; first [discriminate X | injection X as <- <-; split; [reflexivity|]; split; [lia|]; intros k'; lia].
Qed.


Lemma octet_some bs k : k < nlen bs <-> exists o, octet bs k = Some o.
Proof.
  unfold octet. rewrite nlen_length. split; intros H.
  - destruct (nth_error bs (N.to_nat k)) as [o|] eqn:E; [now exists o|]. apply nth_error_None in E. lia.
  - destruct H as [o H]. assert (H' : nth_error bs (N.to_nat k) <> None) by congruence. apply nth_error_Some in H'. lia.
Qed.
Lemma octet_none bs k : nlen bs <= k -> octet bs k = None.
Proof. intros H. unfold octet. apply nth_error_None. rewrite nlen_length in H. lia. Qed.
Lemma octet_app1 a b k : k < nlen a -> octet (a ++ b) k = octet a k.
Proof. intros H. unfold octet. rewrite nlen_length in H. apply nth_error_app1. lia. Qed.
Lemma octet_app2 a b k : nlen a <= k -> octet (a ++ b) k = octet b (k - nlen a).
Proof. intros H. unfold octet. rewrite nlen_length in *. rewrite nth_error_app2 by lia. f_equal. lia. Qed.
Lemma cut (bs : list N) off n : off + n <= nlen bs -> exists a m z, bs = a ++ m ++ z /\ nlen a = off /\ nlen m = n.
Proof.
  intros H. destruct (split_at off bs) as (a & r & -> & La); [lia|]. rewrite nlen_app in H.
  destruct (split_at n r) as (m & z & -> & Lm); [lia|]. now exists a, m, z.
Qed.

Lemma index_ok c i : nlen c <= isize_max ->
  (in_range_index (nlen c) i ->
   exists out, ContentsRef_index c i = Ok out /\
     forall k o, octet out k = Some o <-> selected (nlen c) i (first_selected i + k) /\ octet c (first_selected i + k) = Some o) /\
  (~ in_range_index (nlen c) i -> ContentsRef_index c i = Panic).
Proof.
  intros L. assert (U : nlen c < usize_limit) by (unfold isize_max, usize_limit in *; lia).
  destruct (select_spec _ i U) as (A & B & C). unfold ContentsRef_index, ContentsRef_as_ref. split; intros H.
  - apply A in H as [n E]. rewrite E. cbn [rbind]. destruct (C _ _ E) as (_ & Hn & S). eexists. split; [reflexivity|].
    intros k o. rewrite S. destruct (cut _ _ _ Hn) as (a & m & z & Ec & La & Lm). rewrite Ec, <- La, drop_app_exact, <- Lm, take_app_exact.
    rewrite octet_app2 by lia. replace (nlen a + k - nlen a) with k by lia. split.
    + intros X. assert (k < nlen m) by (apply octet_some; eauto). split; [lia|]. now rewrite octet_app1.
    + intros [X Y]. now rewrite octet_app1 in Y by lia.
  - apply B in H. now rewrite H.
Qed.
Lemma index_mut_ok c i f : nlen c <= isize_max -> (forall bs, nlen (f bs) = nlen bs) ->
  (in_range_index (nlen c) i ->
   exists old out, ContentsRef_index c i = Ok old /\ ContentsRef_index_mut c i f = Ok out /\ nlen out = nlen c /\
     ContentsRef_index out i = Ok (f old) /\ forall k, ~ selected (nlen c) i k -> octet out k = octet c k) /\
  (~ in_range_index (nlen c) i -> ContentsRef_index_mut c i f = Panic).
Proof.
  intros L F. assert (U : nlen c < usize_limit) by (unfold isize_max, usize_limit in *; lia).
  destruct (select_spec _ i U) as (A & B & C). unfold ContentsRef_index_mut, ContentsRef_index, ContentsRef_as_ref. split; intros H.
  - apply A in H as [n E]. destruct (C _ _ E) as (_ & Hn & S).
    destruct (cut _ _ _ Hn) as (a & m & z & Ec & La & Lm). exists m, (a ++ f m ++ z).
    assert (E0 : take n (drop (first_selected i) c) = m) by now rewrite Ec, <- La, drop_app_exact, <- Lm, take_app_exact.
    assert (L0 : nlen (a ++ f m ++ z) = nlen c) by now rewrite Ec, !nlen_app, F.
    rewrite L0, E. cbn [rbind]. rewrite E0, F, N.eqb_refl. repeat split.
    + f_equal. f_equal; [now rewrite Ec, <- La, take_app_exact|]. f_equal. rewrite Ec, app_assoc.
      replace (first_selected i + n) with (nlen (a ++ m)) by (rewrite nlen_app; lia). apply drop_app_exact.
    + f_equal. rewrite <- La, drop_app_exact, <- Lm, <- (F m). apply take_app_exact.
    + intros k Hk. rewrite S in Hk. rewrite Ec. destruct (N.ltb_spec k (nlen a)) as [K|K]; [now rewrite !octet_app1|].
      rewrite !(octet_app2 a) by assumption. rewrite !octet_app2 by (rewrite ?F; lia). now rewrite F.
  - apply B in H. now rewrite H.
Qed.

Lemma tag_numbers n m : n < 2 ^ 128 -> m < 2 ^ 128 ->
  TagNumber_get (TagNumber_from n) = n /\ (TagNumber_from n = TagNumber_from m -> n = m).
Proof. intros H H'. unfold TagNumber_get, TagNumber_from. rewrite !N.mod_small by assumption. auto. Qed.

Lemma ber_as_der :
  (forall cfg v, Ber_from_bool cfg v = Der_from_bool cfg v) /\ (forall cfg t v, Ber_from_int cfg t v = Der_from_int cfg t v) /\
  (forall cfg s, Ber_from_str cfg s = Der_from_str cfg s) /\ (forall cfg s, Ber_from_bytes cfg s = Der_from_bytes cfg s).
Proof.
  unfold Ber_from_bool, Ber_from_int, Ber_from_str, Ber_from_bytes, Ber_from_Der, disassemble_der.
  repeat split; intros; match goal with |- rbind ?r _ = _ => now destruct r end.
Qed.
Lemma ber_from cfg :
  (forall v, exists b, Ber_from_bool cfg v = Ok b /\ bf_slice b = [0x01; 0x01; if v then 0xff else 0x00] /\ ber_value (bf_slice b)) /\
  (forall t v, in_range t v -> exists b c, Ber_from_int cfg t v = Ok b /\ der_tlv [0x02] c (bf_slice b) /\ twos_value c = v /\ shortest_twos c /\ ber_value (bf_slice b)) /\
  (forall s, nlen s <= isize_max - 64 -> exists b, Ber_from_str cfg s = Ok b /\ der_tlv [0x0c] s (bf_slice b) /\ ber_value (bf_slice b)) /\
  (forall s, nlen s <= isize_max - 64 -> exists b, Ber_from_bytes cfg s = Ok b /\ der_tlv [0x04] s (bf_slice b) /\ ber_value (bf_slice b)).
Proof.
  destruct ber_as_der as (A & B & C & D). repeat split; intros.
  - rewrite A. destruct (der_from_bool cfg v) as (b & E & S & _ & T). exists b. repeat split; auto. eapply bv_definite; exact T.
  - rewrite B. destruct (der_from_int cfg t v H) as (b & c & E & T & X & Y & _). exists b, c. split; [assumption|]. split; [assumption|]. split; [assumption|]. split; [assumption|]. eapply bv_definite; exact T.
  - rewrite C. destruct (der_from_bytes cfg s H) as ((b & E & T) & _). exists b. repeat split; auto. eapply bv_definite; exact T.
  - rewrite D. destruct (der_from_bytes cfg s H) as (_ & (b & E & T)). exists b. repeat split; auto. eapply bv_definite; exact T.
Qed.
Lemma lens (c : list N) : ContentsRef_len c = nlen c /\ (ContentsRef_is_empty c = true <-> c = []) /\ IdRef_len c = nlen c.
Proof.
  split; [reflexivity|]. split; [|reflexivity]. unfold ContentsRef_is_empty, ContentsRef_len. rewrite N.eqb_eq. split.
  - apply nlen_zero.
  - now intros ->.
Qed.
Lemma bools cfg v : ContentsRef_from_bool v = [if v then 0xff else 0x00] /\
  exists b, Contents_from_bool_buf cfg v = Ok b /\ holds b [if v then 0xff else 0x00].
Proof.
  split; [now destruct v|]. unfold Contents_from_bool_buf.
  assert (L : forall x : N, nlen [x] <= isize_max) by (intros x; rewrite nlen_cons, nlen_nil; unfold isize_max; lia).
  destruct v; now apply from_slice_holds.
Qed.
