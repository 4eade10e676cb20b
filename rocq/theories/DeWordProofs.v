(** Deserialisation on a machine whose usize has [w] octets. *)
From Coq Require Import String Ascii.
From Verif Require Import Base ModelError ModelIo ModelTag ModelContents ModelBuf ModelTlv ModelSerde ModelAttr ModelDerive ModelWord ModelWordTlv ModelSerWord ModelDeWord.
From Verif Require Import Spec SpecIo SpecWord SpecDeWord.
From Verif Require Import TagProofs IdProofs TagMain ContentsProofs TlvProofs BufProofs TlvMain WordProofs WordTlvProofs StreamProofs.

Lemma alike_refl {A} (r : res A) : alike r r.
Proof. now left. Qed.
Lemma alike_err {A} e e' : error_alike e e' -> alike (Err e : res A) (Err e').
Proof. intros H. right. eauto. Qed.
Lemma alike_bind {A B} (r r' : res A) (k k' : A -> res B) : alike r r' -> (forall a, r = Ok a -> alike (k a) (k' a)) -> alike (rbind r k) (rbind r' k').
Proof.
  intros [->|(e & e' & -> & -> & H)] K; [|cbn [rbind]; now apply alike_err]. destruct r as [a|e| |]; cbn [rbind]; try apply alike_refl. now apply K.
Qed.
Lemma alike_context {A} c (r r' : res A) : alike r r' -> alike (rmap_err (Error_context c) r) (rmap_err (Error_context c) r').
Proof. intros [->|(e & e' & -> & -> & H)]; [apply alike_refl|]. cbn [rmap_err]. apply alike_err. now constructor. Qed.
Lemma ctx_ok {A} m i (r : res A) a : with_ctx m i r = Ok a -> r = Ok a.
Proof. destruct r; cbn; congruence. Qed.
Lemma context_ok {A} m i (r : res A) a : with_context m i r = Ok a -> r = Ok a.
Proof. destruct r; cbn; congruence. Qed.

Section MACHINE.
Context (w : N).
Hypothesis H1 : 1 <= w.
Hypothesis H8 : w <= 8.
Notation Max := (2 ^ (8 * w - 1) - 1).
Definition fine (bs : list N) : Prop := bytes_ok bs /\ nlen bs <= Max.
Lemma fine_app a b : fine (a ++ b) -> fine a /\ fine b.
Proof.
  clear. intros [B L]. apply Forall_app in B. rewrite nlen_app in L. unfold fine, bytes_ok. destruct B. repeat split; try assumption; lia.
Qed.
(** A value that was parsed, taken apart. *)
Definition apart (v : list N) : Prop := w_disassemble w v = disassemble v /\ exists id l c, disassemble v = Ok ((id, l), c) /\ fine c.
Lemma der_apart id c v : der_tlv id c v -> fine v -> apart v.
Proof.
  intros D [B L]. pose proof (max_limit w H1 H8) as ML. unfold word_max in ML. destruct D as [len Hi Hm Hn].
  pose proof (fine_app _ _ (conj B L)) as [_ F]. apply fine_app in F as [_ F]. split.
  - apply (w_disassemble_definite w H1 H8 id (nlen c)); auto; [|apply F]. destruct F as [_ F]. lia.
  - exists id, (Definite (nlen c)), c. split; [|exact F]. destruct (der_tlv_disassemble _ _ _ (dt_intro id c len Hi Hm Hn)) as (_ & _ & _ & T). exact T.
Qed.
Lemma ber_apart v : ber_value v -> fine v -> apart v.
Proof.
  intros V F. destruct V as [id c bs D|id items Hi _]; [now apply (der_apart id c)|]. cbn [app] in *.
  pose proof (fine_app _ _ F) as [_ F1]. change (0x80 :: items ++ [0; 0]) with ([0x80] ++ (items ++ [0; 0]))%list in F1. apply fine_app in F1 as [_ F1]. split.
  - apply (w_disassemble_indefinite w H1 H8); [assumption | apply F1].
  - exists id, Indefinite, (items ++ [0; 0])%list. split; [|exact F1]. now apply tlv_parts_indefinite.
Qed.
Lemma der_parsed bs : fine bs -> alike (parsed (DerRef_parse bs)) (parsed (w_DerRef_parse w bs)) /\
  forall v rest, parsed (DerRef_parse bs) = Ok (v, rest) -> apart v /\ fine rest /\ exists id c, der_tlv id c v.
Proof.
  intros [B L]. split.
  - destruct (w_der_slice w H1 H8 bs B L) as [[->|[P Q]] _]; [apply alike_refl|]. unfold parsed. rewrite P, Q. cbn [rbind]. apply alike_err. constructor.
  - intros v rest H. unfold parsed in H. destruct (DerRef_parse bs) as [r s] eqn:P. cbn [fst snd] in H. destruct r as [x|e| |]; cbn [rbind] in H; try discriminate H.
    injection H as -> ->. apply der_parse_iff in P as [(id & c & D) E]; [|assumption]. assert (fine v /\ fine rest) as [Fv Fr] by (apply fine_app; rewrite <- E; split; assumption).
    split; [now apply (der_apart id c)|]. split; [assumption|]. eauto.
Qed.
Lemma ber_parsed bs : fine bs -> alike (parsed (BerRef_parse bs)) (parsed (w_BerRef_parse w bs)) /\
  forall v rest, parsed (BerRef_parse bs) = Ok (v, rest) -> apart v /\ fine rest /\ ber_value v.
Proof.
  intros [B L]. split.
  - destruct (w_ber_slice w H1 H8 bs B L) as [[->|[P Q]] _]; [apply alike_refl|]. unfold parsed. rewrite P, Q. cbn [rbind]. apply alike_err. constructor.
  - intros v rest H. unfold parsed in H. destruct (BerRef_parse bs) as [r s] eqn:P. cbn [fst snd] in H. destruct r as [x|e| |]; cbn [rbind] in H; try discriminate H.
    injection H as -> ->. apply ber_parse_iff in P as [D E]; [|assumption]. assert (fine v /\ fine rest) as [Fv Fr] by (apply fine_app; rewrite <- E; split; assumption).
    split; [now apply ber_apart|]. split; assumption.
Qed.
Lemma apart_tlv {B} v (k k' : list N * Length * list N -> res B) : apart v -> (forall id l c, fine c -> alike (k (id, l, c)) (k' (id, l, c))) ->
  alike (rbind (disassemble v) k) (rbind (w_disassemble w v) k').
Proof. intros [-> (id & l & c & E & F)] K. rewrite E. cbn [rbind]. now apply K. Qed.
Lemma apart_contents {B} v (k k' : list N -> res B) : apart v -> (forall c, fine c -> alike (k c) (k' c)) ->
  alike (rbind (tlv_contents v) k) (rbind (w_tlv_contents w v) k').
Proof. intros [E (id & l & c & E' & F)] K. destruct (w_tlv_length_eq w v E) as [_ ->]. unfold tlv_contents. rewrite E'. cbn [rbind]. now apply K. Qed.

(** ** Entry points *)
Section ENTRY.
Context {T : Type} (D D' : deserialize T).
Hypothesis A : agrees w D D'.
Lemma from_ber_alike v : apart v -> alike (serde_from_ber D v) (x_serde_from_ber w D' v).
Proof. intros Ap. apply apart_tlv; [exact Ap|]. intros id l c [B L]. cbn [fst snd]. now apply A. Qed.
Lemma from_der_alike v : apart v -> alike (serde_from_der D v) (x_serde_from_der w D' v).
Proof. intros Ap. apply apart_tlv; [exact Ap|]. intros id l c [B L]. cbn [fst snd]. now apply (A id l c). Qed.
Lemma parse_ber_alike bs : fine bs -> alike (fst (parse_ber D bs)) (fst (x_parse_ber w D' bs)) /\
  ((exists v, fst (parse_ber D bs) = Ok v) -> snd (x_parse_ber w D' bs) = snd (parse_ber D bs)).
Proof.
  intros F. destruct (ber_parsed bs F) as [_ P]. destruct F as [B L]. unfold parse_ber, x_parse_ber.
  destruct (w_ber_slice w H1 H8 bs B L) as [[->|[X Y]] _].
  - destruct (BerRef_parse bs) as [[v|e| |] rest]; cbn [fst snd]; (split; [|reflexivity]); try apply alike_refl.
    apply from_ber_alike. now destruct (P v rest eq_refl).
  - destruct (BerRef_parse bs) as [r rest], (w_BerRef_parse w bs) as [r' rest']. cbn [fst] in X, Y. subst r r'. cbn [fst snd].
    split; [apply alike_err; constructor | now intros [v [=]]].
Qed.
Lemma parse_der_alike bs : fine bs -> alike (fst (parse_der D bs)) (fst (x_parse_der w D' bs)) /\
  ((exists v, fst (parse_der D bs) = Ok v) -> snd (x_parse_der w D' bs) = snd (parse_der D bs)).
Proof.
  intros F. destruct (der_parsed bs F) as [_ P]. destruct F as [B L]. unfold parse_der, x_parse_der.
  destruct (w_der_slice w H1 H8 bs B L) as [[->|[X Y]] _].
  - destruct (DerRef_parse bs) as [[v|e| |] rest]; cbn [fst snd]; (split; [|reflexivity]); try apply alike_refl.
    apply from_der_alike. now destruct (P v rest eq_refl).
  - destruct (DerRef_parse bs) as [r rest], (w_DerRef_parse w bs) as [r' rest']. cbn [fst] in X, Y. subst r r'. cbn [fst snd].
    split; [apply alike_err; constructor | now intros [v [=]]].
Qed.
End ENTRY.

(** ** Collections *)
(** A loop over the contents: each round leaves contents that are fine. *)
Definition steps_alike {X} (next next' : helper -> res (option (X * helper))) : Prop :=
  forall h, fine (fst h) -> alike (next h) (next' h) /\ forall x h', next h = Ok (Some (x, h')) -> fine (fst h').
Lemma collect_alike {X C} (next next' : helper -> res (option (X * helper))) (insert : X -> C -> C) : steps_alike next next' ->
  forall fuel h ret, fine (fst h) -> alike (collect next insert fuel h ret) (collect next' insert fuel h ret).
Proof.
  intros S. induction fuel as [|fuel IH]; intros h ret F; cbn [collect]; [apply alike_refl|]. destruct (S h F) as [Al Nx].
  apply alike_bind; [exact Al|]. intros [[x h']|] E; [|apply alike_refl]. apply IH. now apply (Nx x h').
Qed.
Lemma exclude_fine E l c c' : fine c -> exclude_eoc E l c = Ok c' -> fine c'.
Proof.
  intros F. unfold exclude_eoc. destruct l as [|n].
  - destruct (ends_with c EOC); [|discriminate]. intros [= <-]. rewrite <- (take_drop (nlen c - nlen EOC) c) in F. now apply fine_app in F.
  - destruct (debug_assert E (n =? nlen c)); cbn [rbind]; congruence.
Qed.
Lemma collection_agrees {X C} E ID (empty : C) (insert : X -> C -> C) bnext dnext bnext' dnext' :
  steps_alike bnext bnext' -> steps_alike dnext dnext' ->
  agrees w (de_collection E ID empty insert bnext dnext) (de_collection E ID empty insert bnext' dnext').
Proof.
  intros SB SD id l c B L. cbn [de_collection from_der from_ber]. destruct (negb (bytes_eqb id ID)); [split; apply alike_refl|].
  split; [apply collect_alike; [assumption | split; assumption]|]. apply alike_bind; [apply alike_refl|]. intros c' Ec.
  apply collect_alike; [assumption|]. exact (exclude_fine E l c c' (conj B L) Ec).
Qed.
(** Alike, and what is returned has a property. *)
Definition alike_to {A} (Q : A -> Prop) (r r' : res A) : Prop := alike r r' /\ forall a, r = Ok a -> Q a.
Lemma to_bind {A B} (P : A -> Prop) (Q : B -> Prop) (r r' : res A) (k k' : A -> res B) :
  alike_to P r r' -> (forall a, P a -> alike_to Q (k a) (k' a)) -> alike_to Q (rbind r k) (rbind r' k').
Proof.
  intros [Al Po] K. split.
  - apply alike_bind; [exact Al|]. intros a Ea. apply K. now apply Po.
  - intros b Eb. destruct r as [a|e| |]; cbn [rbind] in Eb; try discriminate Eb. apply (K a (Po a eq_refl)). exact Eb.
Qed.
Lemma to_context {A} c (Q : A -> Prop) r r' : alike_to Q r r' -> alike_to Q (rmap_err (Error_context c) r) (rmap_err (Error_context c) r').
Proof. intros [Al Po]. split; [now apply alike_context|]. intros a Ea. apply Po. destruct r; cbn in Ea; congruence. Qed.
Lemma to_any {A} (r r' : res A) : alike r r' -> alike_to (fun _ => True) r r'.
Proof. intros Al. split; auto. Qed.
Lemma to_same {A} (r : res A) : alike_to (fun _ => True) r r.
Proof. apply to_any, alike_refl. Qed.
Lemma to_ok {A} (Q : A -> Prop) a : Q a -> alike_to Q (Ok a) (Ok a).
Proof. intros H. split; [apply alike_refl|]. congruence. Qed.
Lemma to_err {A} (Q : A -> Prop) e : alike_to Q (Err e) (Err e).
Proof. split; [apply alike_refl | discriminate]. Qed.
Lemma to_der bs : fine bs -> alike_to (fun p => apart (fst p) /\ fine (snd p)) (parsed (DerRef_parse bs)) (parsed (w_DerRef_parse w bs)).
Proof. intros F. destruct (der_parsed bs F) as [Al P]. split; [exact Al|]. intros [v rest] E. destruct (P v rest E) as (Q1 & Q2 & _). auto. Qed.
Lemma to_ber bs : fine bs -> alike_to (fun p => apart (fst p) /\ fine (snd p)) (parsed (BerRef_parse bs)) (parsed (w_BerRef_parse w bs)).
Proof. intros F. destruct (ber_parsed bs F) as [Al P]. split; [exact Al|]. intros [v rest] E. destruct (P v rest E) as (Q1 & Q2 & _). auto. Qed.
Lemma to_apart v : apart v -> alike_to (fun q => fine (snd q)) (disassemble v) (w_disassemble w v).
Proof. intros [-> (id & l & c & -> & F)]. now apply to_ok. Qed.
Lemma to_contents v : apart v -> alike_to fine (tlv_contents v) (w_tlv_contents w v).
Proof. intros [E (id & l & c & E' & F)]. destruct (w_tlv_length_eq w v E) as [_ ->]. unfold tlv_contents. rewrite E'. now apply to_ok. Qed.
Lemma to_steps {X} (next next' : helper -> res (option (X * helper))) :
  (forall contents index, fine contents ->
    alike_to (fun o => match o with Some (_, h) => fine (fst h) | None => True end) (next (contents, index)) (next' (contents, index))) -> steps_alike next next'.
Proof. intros H [contents index] F. destruct (H contents index F) as [Al Po]. split; [exact Al|]. intros x h' E. exact (Po _ E). Qed.
Section VALS.
Context {T : Type} (D D' : deserialize T).
Hypothesis A : agrees w D D'.
Lemma to_from_der id c : fine c -> alike_to (fun _ => True) (from_der D id c) (from_der D' id c).
Proof. intros [B L]. apply to_any. now apply (A id Indefinite c). Qed.
Lemma to_from_ber id l c : fine c -> alike_to (fun _ => True) (from_ber D id l c) (from_ber D' id l c).
Proof. intros [B L]. apply to_any. now apply (A id l c). Qed.
Lemma der_to_val_alike : steps_alike (der_to_val D) (x_der_to_val w D').
Proof.
  apply to_steps. intros contents index F. cbn [der_to_val x_der_to_val]. destruct contents as [|b cs]; [now apply to_ok|].
  eapply to_bind; [apply to_context, to_der, F|]. intros [v rest] [Ap Fr]. cbn [fst snd] in *.
  eapply to_bind; [apply to_apart, Ap|]. intros [p c] Fc. cbn [fst snd] in *.
  eapply to_bind; [apply to_context, to_from_der, Fc|]. intros x _. now apply to_ok.
Qed.
Lemma ber_to_val_alike : steps_alike (ber_to_val D) (x_ber_to_val w D').
Proof.
  apply to_steps. intros contents index F. cbn [ber_to_val x_ber_to_val]. destruct contents as [|b cs]; [now apply to_ok|].
  eapply to_bind; [apply to_context, to_ber, F|]. intros [v rest] [Ap Fr]. cbn [fst snd] in *.
  eapply to_bind; [apply to_apart, Ap|]. intros [p c] Fc. cbn [fst snd] in *.
  eapply to_bind; [apply to_context, to_from_ber, Fc|]. intros x _. now apply to_ok.
Qed.
Lemma der_value_alike name cs : fine cs -> alike_to (fun q => fine (snd q)) (der_value_of name D cs) (x_der_value_of w name D' cs).
Proof.
  intros F. unfold der_value_of, x_der_value_of. eapply to_bind; [apply to_context, to_der, F|]. intros [v rest] [Ap Fr]. cbn [fst snd] in *.
  eapply to_bind; [apply to_apart, Ap|]. intros [p c] Fc. cbn [fst snd] in *.
  eapply to_bind; [apply to_context, to_from_der, Fc|]. intros x _. now apply to_ok.
Qed.
Lemma ber_value_alike name cs : fine cs -> alike_to (fun q => fine (snd q)) (ber_value_of name D cs) (x_ber_value_of w name D' cs).
Proof.
  intros F. unfold ber_value_of, x_ber_value_of. eapply to_bind; [apply to_context, to_ber, F|]. intros [v rest] [Ap Fr]. cbn [fst snd] in *.
  eapply to_bind; [apply to_apart, Ap|]. intros [p c] Fc. cbn [fst snd] in *.
  eapply to_bind; [apply to_context, to_from_ber, Fc|]. intros x _. now apply to_ok.
Qed.
End VALS.
Section MAPS.
Context {K V : Type} (DK DK' : deserialize K) (DV DV' : deserialize V).
Hypothesis AK : agrees w DK DK'.
Hypothesis AV : agrees w DV DV'.
Lemma der_to_key_val_alike : steps_alike (der_to_key_val DK DV) (x_der_to_key_val w DK' DV').
Proof.
  apply to_steps. intros contents index F. cbn [der_to_key_val x_der_to_key_val]. destruct contents as [|b cs]; [now apply to_ok|].
  eapply to_bind; [apply to_context, to_der, F|]. intros [pair rest] [Ap Fr]. cbn [fst snd] in *.
  eapply to_bind; [apply to_same|]. intros pid _. destruct (negb _); [apply to_err|].
  eapply to_bind; [apply to_contents, Ap|]. intros pc Fp.
  eapply to_bind; [apply to_context, to_der, Fp|]. intros [key pc1] [Ak F1]. cbn [fst snd] in *.
  eapply to_bind; [apply to_context, to_der, F1|]. intros [val pc2] [Av F2]. cbn [fst snd] in *. destruct pc2; [|apply to_err].
  eapply to_bind; [apply to_apart, Ak|]. intros [p c] Fc. cbn [fst snd] in *. eapply to_bind; [apply to_context, (to_from_der _ _ AK), Fc|]. intros k _.
  eapply to_bind; [apply to_apart, Av|]. intros [p' c'] Fc'. cbn [fst snd] in *. eapply to_bind; [apply to_context, (to_from_der _ _ AV), Fc'|]. intros v _.
  now apply to_ok.
Qed.
Lemma ber_to_key_val_alike : steps_alike (ber_to_key_val DK DV) (x_ber_to_key_val w DK' DV').
Proof.
  apply to_steps. intros contents index F. cbn [ber_to_key_val x_ber_to_key_val]. destruct contents as [|b cs]; [now apply to_ok|].
  eapply to_bind; [apply to_context, to_ber, F|]. intros [pair rest] [Ap Fr]. cbn [fst snd] in *.
  eapply to_bind; [apply to_same|]. intros pid _. destruct (negb _); [apply to_err|].
  eapply to_bind; [apply to_contents, Ap|]. intros pc Fp.
  eapply to_bind; [apply to_context, to_ber, Fp|]. intros [key pc1] [Ak F1]. cbn [fst snd] in *.
  eapply to_bind; [apply to_context, to_ber, F1|]. intros [val pc2] [Av F2]. cbn [fst snd] in *. destruct pc2; [|apply to_err].
  eapply to_bind; [apply to_apart, Ak|]. intros [p c] Fc. cbn [fst snd] in *. eapply to_bind; [apply to_context, (to_from_ber _ _ AK), Fc|]. intros k _.
  eapply to_bind; [apply to_apart, Av|]. intros [p' c'] Fc'. cbn [fst snd] in *. eapply to_bind; [apply to_context, (to_from_ber _ _ AV), Fc'|]. intros v _.
  now apply to_ok.
Qed.
Theorem btree_map_agrees E cmp : agrees w (de_btree_map E cmp DK DV) (x_de_btree_map w E cmp DK' DV').
Proof. apply collection_agrees; [apply ber_to_key_val_alike | apply der_to_key_val_alike]. Qed.
Theorem hash_map_agrees E eqb : agrees w (de_hash_map E eqb DK DV) (x_de_hash_map w E eqb DK' DV').
Proof. apply collection_agrees; [apply ber_to_key_val_alike | apply der_to_key_val_alike]. Qed.
End MAPS.
Section COLLECTIONS.
Context {T : Type} (D D' : deserialize T).
Hypothesis A : agrees w D D'.
Theorem vec_agrees E : agrees w (de_vec E D) (x_de_vec w E D') /\ agrees w (de_linked_list E D) (x_de_vec w E D') /\ agrees w (de_vec_deque E D) (x_de_vec w E D').
Proof. split; [|split]; apply collection_agrees; (now apply ber_to_val_alike) || (now apply der_to_val_alike). Qed.
Theorem btree_set_agrees E cmp : agrees w (de_btree_set E cmp D) (x_de_btree_set w E cmp D').
Proof. apply collection_agrees; (now apply ber_to_val_alike) || (now apply der_to_val_alike). Qed.
Theorem hash_set_agrees E eqb : agrees w (de_hash_set E eqb D) (x_de_hash_set w E eqb D').
Proof. apply collection_agrees; (now apply ber_to_val_alike) || (now apply der_to_val_alike). Qed.
End COLLECTIONS.

(** ** Derived implementations *)
Section FIELDS.
Context {T : Type} (f f' : field T).
Hypothesis A : field_agrees w f f'.
Lemma der_field_alike cs : fine cs -> alike_to (fun q => fine (snd q)) (der_field f cs) (x_der_field w f' cs).
Proof.
  intros F. destruct A as [Ea En Ed Es]. unfold der_field, x_der_field. rewrite Ea, En. destruct (is_skip_deserializing (f_attr f)).
  - rewrite Ed. now apply to_ok.
  - destruct Es as [Es|Es]; [discriminate Es|]. destruct (a_from (f_attr f)) as [ty|].
    + destruct Es as [U conv D D' Ag]. cbn [sr_de sr_conv]. eapply to_bind; [now apply der_value_alike|]. intros [u rest] Fr. now apply to_ok.
    + destruct (a_try_from (f_attr f)) as [ty|]; [|now apply der_value_alike]. destruct Es as [U conv D D' Ag]. cbn [ts_de ts_conv].
      eapply to_bind; [now apply der_value_alike|]. intros [u rest] Fr. eapply to_bind; [apply to_same|]. intros t _. now apply to_ok.
Qed.
Lemma ber_field_alike cs : fine cs -> alike_to (fun q => fine (snd q)) (ber_field f cs) (x_ber_field w f' cs).
Proof.
  intros F. destruct A as [Ea En Ed Es]. unfold ber_field, x_ber_field. rewrite Ea, En. destruct (is_skip_deserializing (f_attr f)).
  - rewrite Ed. now apply to_ok.
  - destruct Es as [Es|Es]; [discriminate Es|]. destruct (a_from (f_attr f)) as [ty|].
    + destruct Es as [U conv D D' Ag]. cbn [sr_de sr_conv]. eapply to_bind; [now apply ber_value_alike|]. intros [u rest] Fr. now apply to_ok.
    + destruct (a_try_from (f_attr f)) as [ty|]; [|now apply ber_value_alike]. destruct Es as [U conv D D' Ag]. cbn [ts_de ts_conv].
      eapply to_bind; [now apply ber_value_alike|]. intros [u rest] Fr. eapply to_bind; [apply to_same|]. intros t _. now apply to_ok.
Qed.
Lemma whole_field_alike kind (rd : forall U, deserialize U -> res U) (rd' : forall U, deserialize U -> res U) :
  (forall U (D D' : deserialize U), agrees w D D' -> alike (rd U D) (rd' U D')) -> alike (whole_field kind rd f) (whole_field kind rd' f').
Proof.
  intros R. destruct A as [Ea En Ed Es]. unfold whole_field. rewrite Ea, En. destruct (is_skip_deserializing (f_attr f)).
  - rewrite Ed. apply alike_refl.
  - destruct Es as [Es|Es]; [discriminate Es|]. destruct (a_from (f_attr f)) as [ty|].
    + destruct Es as [U conv D D' Ag]. cbn [sr_de sr_conv]. apply alike_bind; [apply alike_context, R, Ag|]. intros u _. apply alike_refl.
    + destruct (a_try_from (f_attr f)) as [ty|]; [|now apply alike_context, R]. destruct Es as [U conv D D' Ag]. cbn [ts_de ts_conv].
      apply alike_bind; [apply alike_context, R, Ag|]. intros u _. apply alike_refl.
Qed.
End FIELDS.
Lemma construct_alike (rd rd' : forall T, field T -> list N -> res (T * list N)) :
  (forall T (f f' : field T) cs, field_agrees w f f' -> fine cs -> alike_to (fun q => fine (snd q)) (rd T f cs) (rd' T f' cs)) ->
  forall Ts (fs fs' : hlist field Ts) cs, fields_agree w Ts fs fs' -> fine cs ->
    alike_to (fun q => fine (snd q)) (construct rd Ts fs cs) (construct rd' Ts fs' cs).
Proof.
  intros R. induction Ts as [|T Ts IH]; intros fs fs' cs Ag F; cbn [construct]; [now apply to_ok|]. destruct Ag as [Af Ag].
  eapply to_bind; [now apply R|]. intros [t c1] F1. eapply to_bind; [now apply IH|]. intros [ts c2] F2. now apply to_ok.
Qed.
Lemma all_read_alike {A} (r r' : res (A * list N)) : alike r r' -> alike (all_read r) (all_read r').
Proof. intros Al. apply alike_bind; [exact Al|]. intros [a cs] _. apply alike_refl. Qed.
Lemma der_contents_alike Ts (dc dc' : data_container Ts) c : fields_agree w Ts (dc_fields dc) (dc_fields dc') -> fine c ->
  alike (from_der_contents dc c) (x_from_der_contents w dc' c).
Proof. intros Ag F. apply all_read_alike. apply (construct_alike (@der_field) (@x_der_field w)); auto. intros T f f' cs A G. now apply der_field_alike. Qed.
Lemma ber_contents_alike E Ts (dc dc' : data_container Ts) l c : fields_agree w Ts (dc_fields dc) (dc_fields dc') -> fine c ->
  alike (from_ber_contents E dc l c) (x_from_ber_contents w E dc' l c).
Proof.
  intros Ag F. apply (alike_bind (exclude_eoc E l c) (exclude_eoc E l c)); [apply alike_refl|]. intros c' Ec. apply all_read_alike.
  apply (construct_alike (@ber_field) (@x_ber_field w)); auto; [|exact (exclude_fine E l c c' F Ec)]. intros T f f' cs A G. now apply ber_field_alike.
Qed.
Lemma construct_whole_alike kind (rd rd' : forall U, deserialize U -> res U) :
  (forall U (D D' : deserialize U), agrees w D D' -> alike (rd U D) (rd' U D')) ->
  forall Ts (fs fs' : hlist field Ts), fields_agree w Ts fs fs' -> alike (construct_whole kind rd Ts fs) (construct_whole kind rd' Ts fs').
Proof.
  intros R. induction Ts as [|T Ts IH]; intros fs fs' Ag; cbn [construct_whole]; [apply alike_refl|]. destruct Ag as [Af Ag].
  apply alike_bind; [now apply whole_field_alike|]. intros t _. apply alike_bind; [now apply IH|]. intros ts _. apply alike_refl.
Qed.
Lemma attributes_same Ts : forall fs fs' : hlist field Ts, fields_agree w Ts fs fs' -> field_attributes Ts fs' = field_attributes Ts fs.
Proof. induction Ts as [|T Ts IH]; intros fs fs' Ag; cbn [field_attributes]; [reflexivity|]. destruct Ag as [Af Ag]. now rewrite (fa_attr _ _ _ Af), (IH _ _ Ag). Qed.
Lemma transparent_agrees Ts (dc dc' : data_container Ts) D : fields_agree w Ts (dc_fields dc) (dc_fields dc') -> de_transparent dc = Some D ->
  exists D', de_transparent dc' = Some D' /\ agrees w D D'.
Proof.
  intros Ag. unfold de_transparent. rewrite (attributes_same _ _ _ Ag). destruct (_ =? 1); [|discriminate]. intros [= <-]. eexists. split; [reflexivity|].
  intros id l c B L. split; apply construct_whole_alike; auto; intros U D D' A; now apply (A id l c).
Qed.
Lemma dispatch_alike {X} (rd rd' : forall Ts, data_container Ts -> X -> res (tuple Ts)) x :
  (forall Ts (dc dc' : data_container Ts), fields_agree w Ts (dc_fields dc) (dc_fields dc') -> alike (rd Ts dc x) (rd' Ts dc' x)) ->
  forall Tss (vs vs' : vlist data_container Tss) id, variants_agree w Tss vs vs' -> alike (dispatch rd Tss vs id x) (dispatch rd' Tss vs' id x).
Proof.
  intros R. induction Tss as [|Ts Tss IH]; intros vs vs' id Ag; cbn [dispatch]; [apply alike_refl|]. destruct Ag as (Ea & Af & Ag). rewrite Ea.
  destruct (bytes_eqb id _); (apply alike_bind; [|intros t _; apply alike_refl]); [now apply R | now apply IH].
Qed.
Section DERIVE.
Context (is_path : string -> bool) (E : env).
Theorem from_agrees {T} (s s' : source T) : source_agrees w s s' -> agrees w (do_from_deserialize s) (do_from_deserialize s').
Proof.
  intros [U conv D D' A] id l c B L. cbn [from_der from_ber do_from_deserialize sr_de sr_conv].
  split; (apply alike_bind; [now apply (A id l c) | intros u _; apply alike_refl]).
Qed.
Theorem try_from_agrees {T} (s s' : try_source T) : try_source_agrees w s s' -> agrees w (do_try_from_deserialize s) (do_try_from_deserialize s').
Proof.
  intros [U conv D D' A] id l c B L. cbn [from_der from_ber do_try_from_deserialize ts_de ts_conv].
  split; (apply alike_bind; [now apply (A id l c) | intros u _; apply alike_refl]).
Qed.
Theorem struct_agrees a Ts decls decls' fs fs' D :
  try_fields is_path Ts decls = Some fs -> try_fields is_path Ts decls' = Some fs' -> fields_agree w Ts fs fs' ->
  do_deserialize_struct is_path E a Ts decls = Some D ->
  exists D', x_do_deserialize_struct w is_path E a Ts decls' = Some D' /\ agrees w D D'.
Proof.
  intros T1 T2 Ag. unfold do_deserialize_struct, x_do_deserialize_struct, try_struct. rewrite T1, T2.
  destruct (sanitize_as_struct a); cbn [negb dc_attr]; [|discriminate]. destruct (a_transparent a).
  - apply transparent_agrees. exact Ag.
  - intros [= <-]. eexists. split; [reflexivity|]. intros id l c B L. cbn [from_der from_ber].
    destruct (negb _); [split; apply alike_refl|]. split; [apply der_contents_alike | apply ber_contents_alike]; try exact Ag; now split.
Qed.
Theorem enum_agrees a Tss decls decls' vs vs' D :
  try_variants is_path Tss decls = Some vs -> try_variants is_path Tss decls' = Some vs' -> variants_agree w Tss vs vs' ->
  do_deserialize_enum is_path E a Tss decls = Some D ->
  exists D', x_do_deserialize_enum w is_path E a Tss decls' = Some D' /\ agrees w D D'.
Proof.
  intros T1 T2 Ag. unfold do_deserialize_enum, x_do_deserialize_enum. rewrite T1, T2. destruct (sanitize_as_enum a); cbn [negb]; [|discriminate].
  intros [= <-]. eexists. split; [reflexivity|]. intros id l c B L. cbn [from_der from_ber]. assert (F : fine c) by now split.
  split; apply dispatch_alike; try exact Ag; intros Ts dc dc' A'; [apply der_contents_alike | apply ber_contents_alike]; assumption.
Qed.
Theorem derived_struct attrs a Ts decls decls' fs fs' ps ps' D :
  Attribute_try_from is_path attrs = Some a -> a_from a = None -> a_try_from a = None ->
  try_fields is_path Ts decls = Some fs -> try_fields is_path Ts decls' = Some fs' -> fields_agree w Ts fs fs' ->
  do_deserialize is_path E attrs (DStruct Ts decls) ps = Some D ->
  exists D', x_do_deserialize w is_path E attrs (DStruct Ts decls') ps' = Some D' /\ agrees w D D'.
Proof.
  intros Ha N1 N2 T1 T2 Ag. unfold do_deserialize, x_do_deserialize. rewrite Ha, N1, N2. destruct (negb _); [discriminate|].
  eapply struct_agrees; eassumption.
Qed.
Theorem derived_enum attrs a Tss decls decls' vs vs' ps ps' D :
  Attribute_try_from is_path attrs = Some a -> a_from a = None -> a_try_from a = None ->
  try_variants is_path Tss decls = Some vs -> try_variants is_path Tss decls' = Some vs' -> variants_agree w Tss vs vs' ->
  do_deserialize is_path E attrs (DEnum Tss decls) ps = Some D ->
  exists D', x_do_deserialize w is_path E attrs (DEnum Tss decls') ps' = Some D' /\ agrees w D D'.
Proof.
  intros Ha N1 N2 T1 T2 Ag. unfold do_deserialize, x_do_deserialize. rewrite Ha, N1, N2. destruct (negb _); [discriminate|].
  eapply enum_agrees; eassumption.
Qed.
Theorem derived_from attrs a d (ps ps' : paths (value d)) D :
  Attribute_try_from is_path attrs = Some a ->
  match a_from a with
  | Some ty => source_agrees w (p_from ps ty) (p_from ps' ty)
  | None => match a_try_from a with Some ty => try_source_agrees w (p_try_from ps ty) (p_try_from ps' ty) | None => False end
  end ->
  do_deserialize is_path E attrs d ps = Some D ->
  exists D', x_do_deserialize w is_path E attrs d ps' = Some D' /\ agrees w D D'.
Proof.
  intros Ha Ag. unfold do_deserialize, x_do_deserialize. rewrite Ha. destruct (negb _); [discriminate|].
  destruct (a_from a) as [ty|]; [|destruct (a_try_from a) as [ty|]; [|contradiction]]; intros [= <-]; eexists; (split; [reflexivity|]).
  - now apply from_agrees.
  - now apply try_from_agrees.
Qed.
(** Whether the derivation is accepted does not depend on the machine. *)
Theorem derived_accepted attrs d (ps : paths (value d)) :
  do_deserialize is_path E attrs d ps = None <-> x_do_deserialize w is_path E attrs d ps = None.
Proof.
  unfold do_deserialize, x_do_deserialize. destruct (Attribute_try_from is_path attrs) as [a|]; [|tauto]. destruct (negb _); [tauto|].
  destruct (a_from a); [split; discriminate|]. destruct (a_try_from a); [split; discriminate|]. destruct d as [Ts decls|Tss decls|T]; [| |tauto].
  - unfold do_deserialize_struct, x_do_deserialize_struct. destruct (try_struct _ _ _ _) as [dc|]; [|tauto]. destruct (a_transparent _); [tauto|]. split; discriminate.
  - unfold do_deserialize_enum, x_do_deserialize_enum. destruct (negb _); [tauto|]. destruct (try_variants _ _ _) as [vs|]; [|tauto]. split; discriminate.
Qed.
End DERIVE.

(** ** Streams *)
Lemma read_exact_size {S} (R : reader S) fuel : forall n st st', read_exact R fuel n st = (Ok tt, st') -> nlen (snd st') = nlen (snd st) + n.
Proof.
  induction fuel as [|fuel IH]; intros n [s o] [s' o'] H; cbn [read_exact] in H; [discriminate H|].
  destruct (N.eqb_spec n 0) as [->|N0]; [injection H as <- <-; cbn [snd]; lia|].
  destruct (rd_read R s n) as [[bs|k] s1]; [|destruct k; try discriminate H; now apply IH in H].
  destruct bs as [|b bs]; [discriminate H|]. destruct (N.leb_spec (nlen (b :: bs)) n) as [L|L]; [|discriminate H].
  apply IH in H. cbn [snd] in *. rewrite nlen_app in H. lia.
Qed.
Lemma w_der_size {S} (R : reader S) fuel s v s' : w_Der_parse w R fuel s = (Ok v, s') -> nlen v <= word_max w.
Proof.
  unfold w_Der_parse. destruct (w_parse_id_length w R fuel (s, [])) as [[[|n]|e| |] [s1 o]]; try discriminate.
  destruct (N.ltb_spec (word_max w) (nlen o + n)) as [L|L]; [discriminate|]. destruct (rd_read R s1 n) as [[bs|k] s2]; [|discriminate].
  destruct (n <? nlen bs) eqn:A; [discriminate|]. destruct (nlen bs <? n) eqn:B; [discriminate|]. intros [= <- <-].
  apply N.ltb_ge in A, B. rewrite nlen_app. lia.
Qed.
Lemma w_do_size {S} (R : reader S) fuel st z st' : w_Ber_do_parse w R fuel st = (Ok z, st') -> z = 1%Z \/ nlen (snd st') <= word_max w.
Proof.
  unfold w_Ber_do_parse, pbind. destruct (w_parse_id_length w R fuel st) as [[[|n]|e| |] st1]; try discriminate.
  - intros [= <- <-]. now left.
  - destruct (N.ltb_spec (word_max w) (nlen (snd st1) + n)) as [L|L]; [discriminate|].
    destruct (read_exact R fuel n st1) as [[[]|e| |] st2] eqn:X; try discriminate. intros [= <- <-]. right. apply read_exact_size in X. lia.
Qed.
Lemma w_loop_size {S} (R : reader S) ifuel fuel : forall d st st', (0 <= d)%Z -> w_Ber_loop w R ifuel fuel d st = (Ok tt, st') -> nlen (snd st') <= word_max w.
Proof.
  induction fuel as [|fuel IH]; intros d st st' P H; cbn [w_Ber_loop] in H; [discriminate H|]. unfold pbind at 1 in H.
  destruct (w_Ber_do_parse w R ifuel st) as [[z|e| |] st1] eqn:X; try discriminate H. cbv zeta in H.
  destruct (Z.ltb_spec 0 (d + z)) as [L|L]; [apply (IH (d + z)%Z st1); [lia | exact H]|].
  injection H as <-. apply w_do_size in X as [->|X]; [lia | exact X].
Qed.
Lemma w_ber_size {S} (R : reader S) fuel s v s' : w_Ber_parse w R fuel s = (Ok v, s') -> nlen v <= word_max w.
Proof.
  unfold w_Ber_parse. destruct (w_Ber_loop w R fuel fuel 0 (s, [])) as [[[]|e| |] [s1 o]] eqn:X; try discriminate. intros [= <- <-].
  apply w_loop_size in X; [exact X | lia].
Qed.
Lemma honest_octets {S} (R : reader S) content s : honest R content -> bytes_ok (content s) -> octets_from R s.
Proof.
  intros Hh B. exists (fun s => bytes_ok (content s)). split; [exact B|]. intros s1 n B1. specialize (Hh s1 n). destruct (rd_read R s1 n) as [[bs|k] s2].
  - destruct Hh as [Eq _]. rewrite Eq in B1. now apply bytes_ok_app in B1.
  - now rewrite <- Hh.
Qed.
Section STREAMS.
Context {T St : Type} (D D' : deserialize T) (R : reader St) (content : St -> list N).
Hypothesis A : agrees w D D'.
Hypothesis Hh : honest R content.
Theorem read_der_alike fuel s : bytes_ok (content s) ->
  (alike (fst (read_der D R fuel s)) (fst (x_read_der w D' R fuel s)) /\ snd (x_read_der w D' R fuel s) = snd (read_der D R fuel s)) \/
  (refused (fst (x_read_der w D' R fuel s)) /\ forall v, fst (Der_parse R fuel s) = Ok v -> word_max w < nlen v).
Proof.
  intros B. unfold read_der, x_read_der. destruct (w_der_stream w H1 H8 R fuel s (honest_octets R content s Hh B)) as [Eq|[Rf G]].
  - left. pose proof (w_der_size R fuel s) as Z. rewrite Eq in Z |- *. destruct (Der_parse R fuel s) as [[v|e| |] s'] eqn:P; cbn [fst snd];
      (split; [|reflexivity]); try apply alike_refl. specialize (Z v s' eq_refl).
    apply exact_der with (content := content) in P as [(id & c & V) Ec]; [|assumption..]. rewrite Ec in B. apply bytes_ok_app in B as [B _].
    apply from_der_alike; [exact A|]. apply (der_apart id c); [exact V | now split].
  - right. split; [|exact G]. destruct (w_Der_parse w R fuel s) as [r s']. cbn [fst] in Rf. destruct Rf as [-> | ->]; [now left | now right].
Qed.
Theorem read_ber_alike fuel s : bytes_ok (content s) ->
  (alike (fst (read_ber D R fuel s)) (fst (x_read_ber w D' R fuel s)) /\ snd (x_read_ber w D' R fuel s) = snd (read_ber D R fuel s)) \/
  (refused (fst (x_read_ber w D' R fuel s)) /\ forall v, fst (Ber_parse R fuel s) = Ok v -> word_max w < nlen v).
Proof.
  intros B. unfold read_ber, x_read_ber. destruct (w_ber_stream w H1 H8 R fuel s (honest_octets R content s Hh B)) as [Eq|[Rf G]].
  - left. pose proof (w_ber_size R fuel s) as Z. rewrite Eq in Z |- *. destruct (Ber_parse R fuel s) as [[v|e| |] s'] eqn:P; cbn [fst snd];
      (split; [|reflexivity]); try apply alike_refl. specialize (Z v s' eq_refl).
    apply exact_ber with (content := content) in P as [V Ec]; [|assumption..]. rewrite Ec in B. apply bytes_ok_app in B as [B _].
    apply from_ber_alike; [exact A|]. apply ber_apart; [exact V | now split].
  - right. split; [|exact G]. destruct (w_Ber_parse w R fuel s) as [r s']. cbn [fst] in Rf. destruct Rf as [-> | ->]; [now left | now right].
Qed.
End STREAMS.
End MACHINE.

(** ** With eight octets, the definitions used elsewhere *)
Lemma bind_ext {A B} (r r' : res A) (k k' : A -> res B) : r' = r -> (forall a, k' a = k a) -> rbind r' k' = rbind r k.
Proof. intros -> H. destruct r; cbn [rbind]; auto. Qed.
Lemma eight_contents v : w_tlv_contents 8 v = tlv_contents v.
Proof. apply (w_tlv_length_eq 8 v). apply eight_tlv. Qed.
Lemma eight_entry {T} (D : deserialize T) :
  (forall bs, x_serde_from_ber 8 D bs = serde_from_ber D bs) /\ (forall bs, x_serde_from_der 8 D bs = serde_from_der D bs) /\
  (forall bs, x_parse_ber 8 D bs = parse_ber D bs) /\ (forall bs, x_parse_der 8 D bs = parse_der D bs) /\
  (forall S (R : reader S) fuel s, x_read_ber 8 D R fuel s = read_ber D R fuel s) /\
  (forall S (R : reader S) fuel s, x_read_der 8 D R fuel s = read_der D R fuel s).
Proof.
  destruct eight_tlv as (P1 & P2 & P3 & P4 & P5).
  assert (B : forall bs, x_serde_from_ber 8 D bs = serde_from_ber D bs) by (intros bs; unfold x_serde_from_ber; now rewrite P3).
  assert (F : forall bs, x_serde_from_der 8 D bs = serde_from_der D bs) by (intros bs; unfold x_serde_from_der; now rewrite P3).
  split; [exact B|]. split; [exact F|]. split; [|split; [|split]].
  - intros bs. unfold x_parse_ber, parse_ber. rewrite P2. destruct (BerRef_parse bs) as [[v| | |] rest]; [now rewrite B | reflexivity..].
  - intros bs. unfold x_parse_der, parse_der. rewrite P1. destruct (DerRef_parse bs) as [[v| | |] rest]; [now rewrite F | reflexivity..].
  - intros S R fuel s. unfold x_read_ber, read_ber. rewrite P5. destruct (Ber_parse R fuel s) as [[v| | |] rest]; [now rewrite B | reflexivity..].
  - intros S R fuel s. unfold x_read_der, read_der. rewrite P4. destruct (Der_parse R fuel s) as [[v| | |] rest]; [now rewrite F | reflexivity..].
Qed.
Ltac eight P1 P2 P3 :=
  repeat first
    [ reflexivity
    | rewrite eight_contents | rewrite P3 | rewrite P2 | rewrite P1
    | apply bind_ext; [|intros]
    | match goal with
      | p : (_ * _)%type |- _ => destruct p
      | |- context [if ?b then _ else _] => destruct b
      | |- context [match ?l with [] => _ | _ => _ end] => destruct l
      end ].
Lemma eight_vals {T} (D : deserialize T) h : x_der_to_val 8 D h = der_to_val D h /\ x_ber_to_val 8 D h = ber_to_val D h.
Proof.
  destruct eight_tlv as (P1 & P2 & P3 & _). destruct h as [[|b c] i]; [now split|].
  split; cbn [x_der_to_val der_to_val x_ber_to_val ber_to_val]; eight P1 P2 P3.
Qed.
Lemma eight_key_vals {K V} (DK : deserialize K) (DV : deserialize V) h :
  x_der_to_key_val 8 DK DV h = der_to_key_val DK DV h /\ x_ber_to_key_val 8 DK DV h = ber_to_key_val DK DV h.
Proof.
  destruct eight_tlv as (P1 & P2 & P3 & _). destruct h as [[|b c] i]; [now split|].
  split; cbn [x_der_to_key_val der_to_key_val x_ber_to_key_val ber_to_key_val]; eight P1 P2 P3.
Qed.
Lemma collect_ext {X C} (next next' : helper -> res (option (X * helper))) (insert : X -> C -> C) : (forall h, next' h = next h) ->
  forall fuel h ret, collect next' insert fuel h ret = collect next insert fuel h ret.
Proof. intros H. induction fuel as [|fuel IH]; intros h ret; cbn [collect]; [reflexivity|]. apply bind_ext; [apply H|]. intros [[x h']|]; [apply IH | reflexivity]. Qed.
Definition same_de {T} (D D' : deserialize T) : Prop := forall id l c, from_der D' id c = from_der D id c /\ from_ber D' id l c = from_ber D id l c.
Lemma collection_ext {X C} E ID (empty : C) (insert : X -> C -> C) bnext dnext bnext' dnext' :
  (forall h, bnext' h = bnext h) -> (forall h, dnext' h = dnext h) ->
  same_de (de_collection E ID empty insert bnext dnext) (de_collection E ID empty insert bnext' dnext').
Proof.
  intros Hb Hd id l c. cbn [from_der from_ber de_collection]. destruct (negb _); [now split|]. split; [now apply collect_ext|].
  apply bind_ext; [reflexivity|]. intros c'. now apply collect_ext.
Qed.
Lemma eight_fields {T} (f : field T) cs : x_der_field 8 f cs = der_field f cs /\ x_ber_field 8 f cs = ber_field f cs.
Proof.
  destruct eight_tlv as (P1 & P2 & P3 & _).
  split; [unfold x_der_field, der_field | unfold x_ber_field, ber_field]; (destruct (is_skip_deserializing _); [reflexivity|]);
    (destruct (a_from _); [|destruct (a_try_from _)]); unfold x_der_value_of, der_value_of, x_ber_value_of, ber_value_of; eight P1 P2 P3.
Qed.
Lemma construct_ext (rd rd' : forall T, field T -> list N -> res (T * list N)) : (forall T (f : field T) cs, rd' T f cs = rd T f cs) ->
  forall Ts (fs : hlist field Ts) cs, construct rd' Ts fs cs = construct rd Ts fs cs.
Proof.
  intros R. induction Ts as [|T Ts IH]; intros fs cs; cbn [construct]; [reflexivity|]. apply bind_ext; [apply R|]. intros [t c1].
  apply bind_ext; [apply IH|]. intros [ts c2]. reflexivity.
Qed.
Lemma eight_containers E Ts (dc : data_container Ts) : (forall c, x_from_der_contents 8 dc c = from_der_contents dc c) /\
  (forall l c, x_from_ber_contents 8 E dc l c = from_ber_contents E dc l c).
Proof.
  split.
  - intros c. apply bind_ext; [|intros [t r]; reflexivity]. apply construct_ext. intros T f cs. apply eight_fields.
  - intros l c. apply bind_ext; [reflexivity|]. intros c'. apply bind_ext; [|intros [t r]; reflexivity]. apply construct_ext. intros T f cs. apply eight_fields.
Qed.
Lemma dispatch_ext {X} (rd rd' : forall Ts, data_container Ts -> X -> res (tuple Ts)) x : (forall Ts (dc : data_container Ts), rd' Ts dc x = rd Ts dc x) ->
  forall Tss (vs : vlist data_container Tss) id, dispatch rd' Tss vs id x = dispatch rd Tss vs id x.
Proof.
  intros R. induction Tss as [|Ts Tss IH]; intros vs id; cbn [dispatch]; [reflexivity|].
  destruct (bytes_eqb id _); (apply bind_ext; [|reflexivity]); [apply R | apply IH].
Qed.
Lemma same_refl {T} (D : deserialize T) : same_de D D.
Proof. intros id l c. now split. Qed.
Theorem eight_derived is_path E attrs d (ps : paths (value d)) :
  match do_deserialize is_path E attrs d ps, x_do_deserialize 8 is_path E attrs d ps with
  | Some D, Some D' => same_de D D'
  | None, None => True
  | _, _ => False
  end.
Proof.
  unfold do_deserialize, x_do_deserialize. destruct (Attribute_try_from is_path attrs) as [a|]; [|exact I]. destruct (negb _); [exact I|].
  destruct (a_from a); [apply same_refl|]. destruct (a_try_from a); [apply same_refl|]. destruct d as [Ts decls|Tss decls|T]; [| |exact I].
  - unfold do_deserialize_struct, x_do_deserialize_struct. destruct (try_struct _ _ _ _) as [dc|]; [|exact I]. destruct (a_transparent _).
    + destruct (de_transparent dc); [apply same_refl | exact I].
    + intros id l c. cbn [from_der from_ber]. destruct (negb _); [now split|]. split; apply (eight_containers E).
  - unfold do_deserialize_enum, x_do_deserialize_enum. destruct (negb _); [exact I|]. destruct (try_variants _ _ _) as [vs|]; [|exact I].
    intros id l c. cbn [from_der from_ber]. split; apply dispatch_ext; intros Ts dc; apply (eight_containers E).
Qed.
