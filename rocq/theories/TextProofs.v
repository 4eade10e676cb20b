From Coq Require Import String Ascii Decimal DecimalString DecimalFacts DecimalN.
From Verif Require Import Base ModelError ModelTag ModelSerde ModelDerive ModelText SpecText.
Open Scope string_scope.
Open Scope N_scope.

(** ** Strings *)
Lemma sapp_nil s : (s ++ "")%string = s.
Proof. induction s; cbn; congruence. Qed.
Lemma sapp_assoc a b c : ((a ++ b) ++ c)%string = (a ++ (b ++ c))%string.
Proof. induction a; cbn; congruence. Qed.
Lemma sapp_inv_l a b c : (a ++ b)%string = (a ++ c)%string -> b = c.
Proof. induction a; cbn; [auto|]. intros [= H]. auto. Qed.
Lemma slen_app a b : String.length (a ++ b) = (String.length a + String.length b)%nat.
Proof. induction a; cbn; congruence. Qed.
Lemma sapp_inv_r a b c : (a ++ c)%string = (b ++ c)%string -> a = b.
Proof.
  revert b. induction a as [|x a IH]; intros [|y b] H; cbn in H; auto.
  - apply (f_equal String.length) in H. cbn in H. rewrite slen_app in H. lia.
  - apply (f_equal String.length) in H. cbn in H. rewrite slen_app in H. lia.
  - injection H as -> H. f_equal. auto.
Qed.
Lemma occurs_app x a b : occurs x (a ++ b) <-> occurs x a \/ occurs x b.
Proof. induction a; cbn; tauto. Qed.
(** What stands behind the last [x]. *)
Lemma last_part x a b a' b' : ~ occurs x b -> ~ occurs x b' -> (a ++ String x b)%string = (a' ++ String x b')%string -> b = b'.
Proof.
  intros N N'. revert a'. induction a as [|c a IH]; intros [|c' a'] H; cbn in H.
  - now injection H.
  - injection H as -> ->. exfalso. apply N. apply occurs_app. right. now left.
  - injection H as -> <-. exfalso. apply N'. apply occurs_app. right. now left.
  - injection H as -> H. eauto.
Qed.
Lemma to_uint_not_nil n : N.to_uint n <> Nil.
Proof. destruct n; [discriminate|]. apply DecimalPos.Unsigned.to_uint_nonnil. Qed.
Lemma decimal_inj n m : decimal n = decimal m -> n = m.
Proof.
  intros H. unfold decimal in H. apply (f_equal NilZero.uint_of_string) in H.
  rewrite !NilZero.usu in H by apply to_uint_not_nil. injection H as H. now apply Unsigned.to_uint_inj in H.
Qed.

(** ** Contexts *)
Local Opaque decimal.

Lemma small16 m : m < 16 -> m = 0 \/ m = 1 \/ m = 2 \/ m = 3 \/ m = 4 \/ m = 5 \/ m = 6 \/ m = 7 \/ m = 8 \/ m = 9 \/ m = 10 \/ m = 11 \/ m = 12 \/ m = 13 \/ m = 14 \/ m = 15.
Proof. lia. Qed.
Lemma small5 m : m < 5 -> m = 0 \/ m = 1 \/ m = 2 \/ m = 3 \/ m = 4.
Proof. lia. Qed.
Lemma helper_text_inj m i m' i' : m < 16 -> m' < 16 -> helper_text m i = helper_text m' i' -> m = m' /\ i = i'.
Proof.
  intros H H' E. apply small16 in H, H'.
  repeat (destruct H as [->|H]); subst; repeat (destruct H' as [->|H']); subst; cbn in E;
    try discriminate E; (split; [reflexivity|]); repeat (injection E as E); apply decimal_inj; try exact E; try now apply sapp_inv_r in E.
Qed.

Section Named.
Context (field_text try_text : N -> string) (container_text : string).
Let derive := derive_text field_text try_text container_text.
Let ctext := context_text field_text try_text container_text.

Lemma context_helper m i : m < 16 -> ctext (ctx m i) = helper_text m i.
Proof.
  intros H. unfold ctext, context_text, ctx.
  replace (N.odd (2 * (m + 16 * i))) with false by (symmetry; rewrite <- N.negb_even; apply negb_false_iff, N.even_spec; eexists; reflexivity).
  replace (2 * (m + 16 * i) / 2) with (m + i * 16) by (apply (N.div_unique _ 2 _ 0); lia).
  rewrite N.mod_add by lia. rewrite N.mod_small by exact H. rewrite N.div_add by lia. rewrite N.div_small by exact H. reflexivity.
Qed.
Lemma context_derive k n : k < 8 -> ctext (field_ctx k n) = derive k n.
Proof.
  intros H. unfold ctext, context_text, field_ctx.
  replace (N.odd (2 * (k + 8 * n) + 1)) with true by (symmetry; apply N.odd_spec; eexists; reflexivity).
  replace ((2 * (k + 8 * n) + 1) / 2) with (k + n * 8) by (apply (N.div_unique _ 2 _ 1); lia).
  rewrite N.mod_add by lia. rewrite N.mod_small by exact H. rewrite N.div_add by lia. rewrite N.div_small by exact H. reflexivity.
Qed.
Context (names : proper_names field_text).
Lemma derive_text_inj k n k' n' : k < 5 -> k' < 5 -> derive k n = derive k' n' -> k = k' /\ n = n'.
Proof using names.
  destruct names as [I T]. intros H H' E. unfold derive in E. apply small5 in H, H'.
  repeat (destruct H as [->|H]); subst; repeat (destruct H' as [->|H']); subst; cbn in E;
    try discriminate E; (split; [reflexivity|]); repeat (injection E as E);
    try (now apply sapp_inv_r, I in E).
  assert (forall a b, (a ++ String "`" (String " " (String "i" (String "n" (String "t" (String "o" (String " " (String "`" (b ++ "`")))))))))%string
    = (((a ++ "` into ") ++ String "`" b) ++ "`")%string) as Q by (intros; rewrite !sapp_assoc; reflexivity).
  rewrite !Q in E. apply sapp_inv_r in E. apply last_part in E; auto.
Qed.
Lemma derive_not_container k n : k < 5 -> derive k n <> derive 5 0.
Proof using.
  intros H E. unfold derive in E. apply small5 in H. repeat (destruct H as [->|H]); subst; discriminate E.
Qed.
Lemma helper_not_derive m i k n : m < 16 -> k < 6 -> helper_text m i <> derive k n.
Proof using.
  intros H K E. unfold derive in E. apply small16 in H. assert (k = 5 \/ k < 5) as [->|K'] by lia.
  - repeat (destruct H as [->|H]); subst; discriminate E.
  - apply small5 in K'. repeat (destruct H as [->|H]); subst; repeat (destruct K' as [->|K']); subst; discriminate E.
Qed.
Lemma context_inj c c' : library_context c -> library_context c' -> ctext c = ctext c' -> c = c'.
Proof using names.
  intros L L' E.
  assert (forall m i k n, m < 16 -> k < 6 -> ctext (ctx m i) = ctext (field_ctx k n) -> False) as X.
  { intros m i k n H K Q. rewrite context_helper, context_derive in Q by lia. exact (helper_not_derive m i k n H K Q). }
  destruct L as [(m & i & H & ->)|[(k & n & H & ->)| ->]]; destruct L' as [(m' & i' & H' & ->)|[(k' & n' & H' & ->)| ->]];
    try (exfalso; now eapply X; [ | | eassumption]; lia); try (exfalso; now eapply X; [ | | symmetry; eassumption]; lia).
  - rewrite !context_helper in E by assumption. now apply helper_text_inj in E as [-> ->].
  - rewrite !context_derive in E by lia. now apply derive_text_inj in E as [-> ->].
  - rewrite !context_derive in E by lia. now apply derive_not_container in E.
  - rewrite !context_derive in E by lia. symmetry in E. now apply derive_not_container in E.
  - reflexivity.
Qed.
End Named.

(** ** Errors *)
Section Displayed.
Context (io_text : io_kind -> string) (foreign_text : N -> string).
Context (field_text try_text : N -> string) (container_text : string).
Let disp := display io_text foreign_text field_text try_text container_text.
Let alt := display_alternate io_text foreign_text field_text try_text container_text.
Let ctext := context_text field_text try_text container_text.
Let cause := cause_text io_text foreign_text field_text try_text container_text.

Lemma disp_context c e : disp (Error_context c e) = ctext c.
Proof. reflexivity. Qed.
Lemma foreign_chain_cons f : exists c r, foreign_chain f = c :: r.
Proof. destruct f; cbn; eauto. Qed.
Lemma chain_cons a : exists c r, chain a = c :: r.
Proof. destruct a; cbn; eauto. apply foreign_chain_cons. Qed.
Lemma concat_cons sep x y r : String.concat sep (x :: y :: r) = (x ++ sep ++ String.concat sep (y :: r))%string.
Proof. reflexivity. Qed.
Lemma alt_context c e : alt (Error_context c e) = (ctext c ++ ": " ++ alt e)%string.
Proof.
  assert (forall a, alt (Anyhow (AnContext c a)) = (ctext c ++ ": " ++ alt (Anyhow a))%string) as W.
  { intros a. unfold alt, display_alternate. cbn [chain map]. destruct (chain_cons a) as (x & r & ->). cbn [map]. now rewrite concat_cons. }
  unfold Error_context. rewrite W. destruct e; cbn [into_anyhow]; reflexivity.
Qed.
Lemma disp_first a : disp (Anyhow a) = cause (hd (CForeign 0) (chain a)).
Proof. destruct a as [e|[| |]|]; reflexivity. Qed.
Lemma alt_starts e : exists r, alt e = (disp e ++ r)%string /\ ((forall a, e <> Anyhow a) -> r = ""%string).
Proof.
  destruct e; try (exists ""%string; split; [unfold alt, display_alternate; now rewrite sapp_nil | reflexivity]).
  fold disp. unfold alt, display_alternate. rewrite disp_first. destruct (chain_cons a) as (x & r & ->). cbn [hd map].
  destruct r as [|y r]; cbn [map].
  - exists ""%string. split; [now rewrite sapp_nil | reflexivity].
  - rewrite concat_cons. eexists. split; [reflexivity|]. intros H. now elim (H a).
Qed.
End Displayed.

(** ** Debug *)
Lemma first_part x a b a' b' : ~ occurs x a -> ~ occurs x a' -> (a ++ String x b)%string = (a' ++ String x b')%string -> a = a' /\ b = b'.
Proof.
  revert a'. induction a as [|c a IH]; intros [|c' a'] N N' H; cbn in H.
  - injection H as <-. auto.
  - injection H as <- H. exfalso. apply N'. now left.
  - injection H as -> H. exfalso. apply N. now left.
  - injection H as -> H. apply IH in H as [-> ->]; [auto | |]; cbn in *; tauto.
Qed.
Local Transparent decimal.
Lemma digits_only x d : x = ","%char \/ x = "]"%char -> ~ occurs x (NilEmpty.string_of_uint d).
Proof. intros X. induction d; cbn; [tauto|..]; (intros [H|H]; [destruct X; subst; discriminate | tauto]). Qed.
Lemma decimal_digits x n : x = ","%char \/ x = "]"%char -> ~ occurs x (decimal n).
Proof.
  intros X. unfold decimal. pose proof (digits_only x (N.to_uint n) X) as H. pose proof (to_uint_not_nil n) as Z.
  destruct (N.to_uint n); [congruence|exact H..].
Qed.
Lemma decimal_not_empty n : decimal n <> ""%string.
Proof. unfold decimal. pose proof (to_uint_not_nil n) as Z. destruct (N.to_uint n); [congruence|discriminate..]. Qed.
Local Opaque decimal.
Lemma commas_inj l l' : String.concat ", " (map decimal l) = String.concat ", " (map decimal l') -> l = l'.
Proof.
  assert (forall a b, (a ++ ", " ++ b)%string = (a ++ String "," (String " " b))%string) as Q by reflexivity.
  assert (forall n a b, decimal n = (a ++ String "," b)%string -> False) as X.
  { intros n a b E. apply (decimal_digits "," n); [now left|]. rewrite E. apply occurs_app. right. now left. }
  revert l'. induction l as [|x l IH]; intros [|x' l'] E.
  - reflexivity.
  - exfalso. destruct l'; cbn [map] in E; [now apply (decimal_not_empty x'); symmetry|]. rewrite concat_cons in E. destruct (decimal x') eqn:D; [exact (decimal_not_empty _ D)|discriminate].
  - exfalso. destruct l; cbn [map] in E; [now apply (decimal_not_empty x)|]. rewrite concat_cons in E. destruct (decimal x) eqn:D; [exact (decimal_not_empty _ D)|discriminate].
  - destruct l as [|y l], l' as [|y' l']; cbn [map] in E; [| | |].
    + cbn in E. now apply decimal_inj in E as ->.
    + rewrite concat_cons, Q in E. cbn in E. now apply X in E.
    + rewrite concat_cons, Q in E. cbn in E. symmetry in E. now apply X in E.
    + rewrite !concat_cons, !Q in E. apply first_part in E as [D E]; try (apply decimal_digits; now left).
      apply decimal_inj in D as ->. injection E as E. f_equal. now apply IH.
Qed.
Lemma debug_slice_inj l l' : debug_slice l = debug_slice l' -> l = l'.
Proof. unfold debug_slice. intros E. apply sapp_inv_l, sapp_inv_r in E. now apply commas_inj. Qed.
Lemma debug_inj h l h' l' : debug h l = debug h' l' -> h = h' /\ l = l'.
Proof.
  intros E. destruct h, h'; cbn [debug] in E; try discriminate E; split; try reflexivity;
    apply sapp_inv_l, sapp_inv_r in E; first [now apply debug_slice_inj in E | unfold debug_buffer in E; apply sapp_inv_l, sapp_inv_r in E; now apply debug_slice_inj].
Qed.
Lemma debug_length_inj l l' : debug_length l = debug_length l' -> l = l'.
Proof.
  intros E. destruct l, l'; cbn [debug_length] in E; try discriminate E; [reflexivity|].
  apply sapp_inv_l, sapp_inv_r, decimal_inj in E. now subst.
Qed.
