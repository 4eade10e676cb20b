(** The parsers against the whole grammar of X.690. *)
From Verif Require Import Base ModelIo ModelTag ModelContents ModelTlv Spec SpecX690 TagProofs IdProofs TlvProofs.

Scheme x690_value_mind := Minimality for x690_value Sort Prop
  with x690_values_mind := Minimality for x690_values Sort Prop.
Combined Scheme x690_both from x690_value_mind, x690_values_mind.

Lemma x690_length_cases n len : n < 2 ^ 64 -> x690_length n len ->
  minimal_length n len \/ forall rest, length_error (len ++ rest) RedundantBytes.
Proof.
  intros Hn [m Hm|m ds Hok Hnil Hlen Hv]; [left; now constructor|].
  destruct ds as [|d ds]; [congruence|]. rewrite !nlen_length in *. cbn [length] in *.
  destruct (N.eqb_spec d 0) as [->|Hd].
  - right. intros rest. cbn [app]. apply le_leading_zero. lia.
  - destruct (N.ltb_spec m 128) as [Lm|Lm].
    + right. intros rest. rewrite be_value_cons in Hv. assert (nlen ds = 0) as Z.
      { destruct (N.eq_dec (nlen ds) 0) as [|Z]; [assumption|]. exfalso.
        assert (256 ^ 1 <= 256 ^ nlen ds) by (apply N.pow_le_mono_r; lia). change (256 ^ 1) with 256 in *. nia. }
      rewrite nlen_length in Z. destruct ds as [|d2 ds]; [|exfalso; cbn [length] in Z; lia]. cbn [app length].
      apply le_short_would_do; [reflexivity | rewrite N.mul_1_r in Hv; unfold be_value in Hv; cbn [fold_left] in Hv; lia].
    + left. replace (N.of_nat (S (length ds))) with (nlen (d :: ds)) by (rewrite nlen_length; reflexivity).
      constructor; auto.
Qed.

Lemma x690_not_eoc L indef v : x690_value L indef v -> v <> [0; 0].
Proof.
  intros H E. destruct H as [cls num id len c I Z| cls num id len c I|cls num id c _ I]; subst;
    apply identifier_first in I as (C & _ & b0 & t & -> & Eb & _); cbn in E; injection E as E _.
  - cbn in Z. lia.
  - lia.
  - lia.
Qed.

(** ** BER *)
Definition refused (v : list N) (e : error) : Prop := forall rest, ber_error (v ++ rest) e.
Lemma x690_ber_cases :
  (forall v, x690_value x690_length true v -> nlen v < 2 ^ 64 -> ber_value v \/ refused v RedundantBytes) /\
  (forall c, x690_values x690_length true c -> nlen c < 2 ^ 64 ->
     ber_items c \/ exists items t, c = items ++ t /\ ber_items items /\ refused t RedundantBytes).
Proof.
  assert (forall id len c cls pc num, identifier cls pc num id -> x690_length (nlen c) len ->
    nlen (id ++ len ++ c) < 2 ^ 64 -> ber_value (id ++ len ++ c) \/ refused (id ++ len ++ c) RedundantBytes) as D.
  { intros id len c cls pc num I X B. assert (nlen c < 2 ^ 64) as Hc by (rewrite !nlen_app in B; lia).
    assert (is_identifier id) as J by (now exists cls, pc, num).
    destruct (x690_length_cases _ _ Hc X) as [M|R].
    - left. apply (bv_definite id c). now constructor.
    - right. intros rest. rewrite <- !app_assoc. apply bre_length; [assumption | apply R]. }
  apply x690_both.
  - intros cls num id len c I _ X _ B. eapply D; eassumption.
  - intros cls num id len c I X _ _ B. eapply D; eassumption.
  - intros cls num id c _ I _ IH B. assert (is_identifier id) as J by (now exists cls, 1, num).
    assert (nlen c < 2 ^ 64) as Hc by (rewrite !nlen_app in B; lia).
    destruct (IH Hc) as [K|(items & t & -> & K & R)]; [left; now constructor|].
    right. intros rest. rewrite <- !app_assoc. apply bre_inside; auto.
  - left. constructor.
  - intros v c V IHv _ IHc B. rewrite nlen_app in B.
    destruct IHv as [K|R]; [lia| |].
    + destruct IHc as [M|(items & t & -> & M & R)]; [lia| |].
      * left. constructor; auto. eapply x690_not_eoc, V.
      * right. exists (v ++ items), t. rewrite app_assoc. split; [reflexivity|]. split; [|assumption].
        constructor; auto. eapply x690_not_eoc, V.
    + right. exists [], (v ++ c). split; [reflexivity|]. split; [constructor|]. intros rest. rewrite <- app_assoc. apply R.
Qed.
Lemma x690_ber_parse v rest : x690_ber v -> nlen v < 2 ^ 64 -> bytes_ok (v ++ rest) ->
  BerRef_parse (v ++ rest) = (Ok v, rest) \/ fst (BerRef_parse (v ++ rest)) = Err RedundantBytes.
Proof.
  intros X B O. destruct (proj1 x690_ber_cases v X B) as [V|R].
  - left. now apply ber_parse_iff.
  - right. now apply ber_err_iff.
Qed.
Lemma x690_short_both :
  (forall v, x690_value minimal_length true v -> nlen v < 2 ^ 64 -> ber_value v) /\
  (forall c, x690_values minimal_length true c -> nlen c < 2 ^ 64 -> ber_items c).
Proof.
  assert (forall id len c cls pc num, identifier cls pc num id -> minimal_length (nlen c) len ->
    nlen (id ++ len ++ c) < 2 ^ 64 -> ber_value (id ++ len ++ c)) as D.
  { intros id len c cls pc num I X B. assert (nlen c < 2 ^ 64) as Hc by (rewrite !nlen_app in B; lia).
    apply (bv_definite id c). constructor; auto. now exists cls, pc, num. }
  apply x690_both.
  - intros cls num id len c I _ X _ B. eapply D; eassumption.
  - intros cls num id len c I X _ _ B. eapply D; eassumption.
  - intros cls num id c _ I _ IH B. constructor; [now exists cls, 1, num|]. apply IH. rewrite !nlen_app in B. lia.
  - constructor.
  - intros v c V IHv _ IHc B. rewrite nlen_app in B. constructor; [apply IHv; lia| |apply IHc; lia].
    eapply x690_not_eoc, V.
Qed.
Lemma x690_short_parse v rest : x690_short_ber v -> nlen v < 2 ^ 64 -> bytes_ok (v ++ rest) ->
  BerRef_parse (v ++ rest) = (Ok v, rest).
Proof. intros X B O. apply ber_parse_iff; [assumption|]. split; [|reflexivity]. now apply x690_short_both. Qed.
(** ** DER *)
Lemma x690_der_parse v rest : x690_der v -> nlen v < 2 ^ 64 -> bytes_ok (v ++ rest) -> DerRef_parse (v ++ rest) = (Ok v, rest).
Proof.
  intros X B O. apply der_parse_iff; [assumption|]. split; [|reflexivity].
  assert (forall id len c, is_identifier id -> minimal_length (nlen c) len -> nlen (id ++ len ++ c) < 2 ^ 64 ->
    exists id0 c0, der_tlv id0 c0 (id ++ len ++ c)) as D.
  { intros id len c I M L. exists id, c. constructor; auto. rewrite !nlen_app in L. lia. }
  destruct X as [cls num id len c I _ M _|cls num id len c I M _|cls num id c F]; [| |discriminate F].
  - apply D; auto. now exists cls, 0, num.
  - apply D; auto. now exists cls, 1, num.
Qed.

(** ** What is not BER *)
Lemma short_identifier cls pc num id r b r' : identifier cls pc num id -> id ++ r = b :: r' -> b mod 32 <> 31 ->
  id = [b] /\ r = r' /\ pc = b / 32 mod 2.
Proof.
  intros [C P N|hi lo C P N _ _ _] E M; cbn in E; injection E as <- E.
  - split; [reflexivity|]. split; [exact E|]. lia.
  - exfalso. lia.
Qed.
Lemma x690_shape L indef b r : x690_value L indef (b :: r) -> b mod 32 <> 31 -> b <> 0 /\
  ((exists len c, r = len ++ c /\ L (nlen c) len /\ (b / 32 mod 2 = 1 -> x690_values L indef c)) \/
   (b / 32 mod 2 = 1 /\ exists c, r = 0x80 :: c ++ [0; 0] /\ x690_values L indef c)).
Proof.
  intros H M. remember (b :: r) as v eqn:E. destruct H as [cls num id len c I Z X O| cls num id len c I X V|cls num id c _ I V].
  - apply (short_identifier _ _ _ _ _ _ _ I) in E as (-> & <- & P); [|assumption]. cbn in Z. split; [assumption|]. left.
    exists len, c. split; [reflexivity|]. split; [assumption|]. rewrite <- P. discriminate.
  - apply (short_identifier _ _ _ _ _ _ _ I) in E as (-> & <- & P); [|assumption]. split; [intros ->; discriminate P|]. left.
    exists len, c. auto.
  - apply (short_identifier _ _ _ _ _ _ _ I) in E as (-> & <- & P); [|assumption]. split; [intros ->; discriminate P|]. right.
    split; [auto|]. exists c. split; [reflexivity | assumption].
Qed.
Lemma x690_values_cons L indef b r : x690_values L indef (b :: r) -> exists v c, b :: r = v ++ c /\ x690_value L indef v.
Proof. intros H. inversion H as [|v c V C E]. exists v, c. auto. Qed.
