(** Laws of the provided implementations. *)
From Verif Require Import Base ModelError ModelIo ModelTag ModelContents ModelBuf ModelTlv ModelSerde Spec SpecSerde.
From Verif Require Import TagProofs IdProofs TagMain ContentsProofs TlvProofs BufProofs TlvMain SerdeOctets SerdeSer SerdeDe.
From Coq Require Import Sorting.Sorted Sorting.Permutation.

(** ** Primitive types *)
Lemma small_identifier n : n < 31 -> is_identifier [n] /\ is_identifier [32 + n].
Proof.
  intros H. split; [exists 0, 0, n | exists 0, 1, n].
  - replace [n] with [0 * 64 + 0 * 32 + n] by (f_equal; lia). now constructor.
  - replace [32 + n] with [0 * 64 + 1 * 32 + n] by (f_equal; lia). now constructor.
Qed.
Lemma assert_length_same E c : assert_length E (Definite (nlen c)) c = Ok tt.
Proof. unfold assert_length, debug_assert. cbn [Length_definite option_N_eqb]. rewrite N.eqb_refl. now destruct (e_debug E). Qed.
Lemma release_assert E b : e_debug E = false -> debug_assert E b = Ok tt.
Proof. intros H. unfold debug_assert. now rewrite H. Qed.

Lemma assert_length_handed E l c : e_debug E = false \/ l = Definite (nlen c) /\ quiet c -> assert_length E l c = Ok tt.
Proof.
  intros [R|[-> _]]; [|apply assert_length_same]. unfold assert_length. now rewrite release_assert.
Qed.
Lemma bool_laws E : codec_ok bool_codec /\ de_law bool_codec (de_bool E) /\ ber_law bool_codec (de_bool E) /\
  ber_ok bool_codec /\ canonical bool_codec (de_bool E) /\ der_answers (de_bool E) /\ ber_answers E (de_bool E).
Proof.
  conj.
  - intros v _. split; [apply (small_identifier 1); lia|]. intros _. cbn. destruct v; repeat constructor; cbv; reflexivity.
  - intros v _ _. exists v. cbn. destruct v; repeat split.
  - intros v id l c _ (o & -> & -> & -> & Ho & B) _. exists v. split; [|split; [exact I|reflexivity]].
    cbn [from_ber de_bool]. change (negb (bytes_eqb [0x01] ID_BOOLEAN)) with false. cbv iota.
    change (Length_eqb (Definite 1) Indefinite) with false. cbv iota.
    change 1 with (nlen [o]) at 1. rewrite assert_length_same. cbn [rbind].
    apply bool_ber; [repeat constructor; assumption | eauto].
  - split.
    + intros v id l c _ (o & -> & -> & -> & Ho & B) _. split; [apply (small_identifier 1); lia|].
      split; [discriminate|]. split; [repeat constructor; assumption | reflexivity].
    + intros v _. exists (if v then 0xff else 0). cbn. destruct v; repeat split; intros; try lia; discriminate.
  - intros id c v Hc _ H. cbn [from_der de_bool] in H. destruct (bytes_eqb id ID_BOOLEAN) eqn:E1; [|discriminate].
    apply bytes_eqb_eq in E1 as ->. apply bool_der in H as ->. split; [exact I|]. split; [reflexivity|]. now destruct v.
  - intros id c Hc. cbn [from_der de_bool]. apply answers_if; [apply answers_err|]. unfold to_bool_der.
    destruct c as [|o [|]]; try apply answers_err. do 2 (destruct (_ =? _); [apply answers_ok|]). apply answers_err.
  - intros id l c Hc R. cbn [from_ber de_bool]. do 2 (apply answers_if; [apply answers_err|]).
    rewrite assert_length_handed by assumption. cbn [rbind]. unfold to_bool_ber.
    destruct c as [|o [|]]; try apply answers_err. destruct (_ =? _); apply answers_ok.
Qed.
Lemma int_laws E t : codec_ok (int_codec t) /\ de_law (int_codec t) (de_int E t) /\ ber_law (int_codec t) (de_int E t) /\
  ber_ok (int_codec t) /\ canonical (int_codec t) (de_int E t) /\ der_answers (de_int E t) /\ ber_answers E (de_int E t).
Proof.
  assert (forall id c, bytes_ok c -> answers (int_from_der t id c)) as A.
  { intros id c Hc. unfold int_from_der. apply answers_if; [apply answers_err|].
    destruct (to_integer_no_panic t c Hc) as [P F]. destruct (to_integer t c); [apply answers_ok | apply answers_err | congruence | congruence]. }
  conj.
  - intros v _. split; [apply (small_identifier 2); lia|]. intros _. apply int_octets_ok.
  - intros v R _. exists v. cbn in R. split; [|split; [assumption|reflexivity]].
    cbn [from_der de_int id_of contents_of int_codec]. unfold int_from_der.
    change (negb (bytes_eqb [0x02] ID_INTEGER)) with false. cbv iota. now apply to_integer_octets.
  - intros v id l c R (-> & -> & ->) _. exists v. split; [|split; [assumption|reflexivity]]. cbn [from_ber de_int].
    change (Length_eqb (Definite (nlen (int_octets v))) Indefinite) with false. cbv iota.
    rewrite assert_length_same. cbn [rbind]. unfold int_from_der.
    change (negb (bytes_eqb [0x02] ID_INTEGER)) with false. cbv iota. now apply to_integer_octets.
  - split.
    + intros v id l c _ (-> & -> & ->) _. split; [apply (small_identifier 2); lia|].
      split; [discriminate|]. split; [apply int_octets_ok | reflexivity].
    + intros v _. cbn. auto.
  - intros id c v Hc _ H. cbn [from_der de_int] in H. unfold int_from_der in H.
    destruct (bytes_eqb id ID_INTEGER) eqn:E1; [|discriminate]. apply bytes_eqb_eq in E1 as ->. cbn [negb] in H.
    apply to_integer_iff in H as (S & V & R); [|assumption]. split; [exact R|]. split; [reflexivity|].
    cbn. rewrite <- V. now apply int_octets_unique.
  - intros id c Hc. now apply A.
  - intros id l c Hc R. cbn [from_ber de_int]. apply answers_if; [apply answers_err|].
    rewrite assert_length_handed by assumption. cbn [rbind]. now apply A.
Qed.
Lemma string_laws E : codec_ok string_codec /\ de_law string_codec (de_string E) /\ ber_law string_codec (de_string E) /\
  ber_ok string_codec /\ canonical string_codec (de_string E) /\ der_answers (de_string E) /\ ber_answers E (de_string E).
Proof.
  assert (forall c, answers (str_from_utf8 c)) as A by (intros c; apply answers_if; [apply answers_ok | apply answers_err]).
  assert (forall c, is_utf8 c -> str_from_utf8 c = Ok c) as G
    by (intros c U; unfold str_from_utf8; now rewrite (proj2 (utf8_valid_iff c) U)).
  conj.
  - intros v U. split; [apply (small_identifier 12); lia|]. intros _. now apply is_utf8_ok.
  - intros v U _. exists v. split; [|split; [assumption|reflexivity]]. now apply G.
  - intros v id l c U (I & -> & ->) _. exists v. split; [|split; [assumption|reflexivity]]. cbn [from_ber de_string].
    replace (negb (bytes_eqb id ID_UTF8_STRING) && negb (bytes_eqb id ID_UTF8_STRING_CONSTRUCTED)) with false
      by (rewrite I; reflexivity). cbv iota.
    change (Length_eqb (Definite (nlen v)) Indefinite) with false. cbv iota. rewrite assert_length_same. now apply G.
  - split.
    + intros v id l c U (I & -> & ->) _.
      split; [rewrite I; apply (small_identifier 12); lia|].
      split; [rewrite I; discriminate|]. split; [now apply is_utf8_ok | reflexivity].
    + intros v _. cbn. auto.
  - intros id c v Hc _ H. cbn [from_der de_string] in H. destruct (bytes_eqb id ID_UTF8_STRING) eqn:E1; [|discriminate].
    apply bytes_eqb_eq in E1 as ->. cbn [negb] in H. unfold str_from_utf8 in H. destruct (utf8_valid c) eqn:U; [|discriminate].
    injection H as ->. apply utf8_valid_iff in U. split; [assumption | split; reflexivity].
  - intros id c Hc. cbn [from_der de_string]. apply answers_if; [apply answers_err | apply A].
  - intros id l c Hc R. cbn [from_ber de_string]. do 2 (apply answers_if; [apply answers_err|]).
    rewrite assert_length_handed by assumption. apply A.
Qed.
Lemma octets_laws E : codec_ok octets_codec /\ de_law octets_codec de_octets /\ ber_law octets_codec de_octets /\
  ber_ok octets_codec /\ canonical octets_codec de_octets /\ der_answers de_octets /\ ber_answers E de_octets.
Proof.
  conj.
  - intros v U. split; [apply (small_identifier 4); lia|]. intros _. exact U.
  - intros v U _. exists v. split; [|split; [assumption|reflexivity]]. reflexivity.
  - intros v id l c U (I & -> & ->) _. exists v. split; [|split; [assumption|reflexivity]].
    rewrite I; reflexivity.
  - split.
    + intros v id l c U (I & -> & ->) _.
      split; [rewrite I; apply (small_identifier 4); lia|].
      split; [rewrite I; discriminate|]. split; [exact U | reflexivity].
    + intros v _. cbn. auto.
  - intros id c v Hc _ H. cbn [from_der de_octets] in H. destruct (bytes_eqb id ID_OCTET_STRING) eqn:E1; [|discriminate].
    apply bytes_eqb_eq in E1 as ->. injection H as ->. split; [exact Hc | split; reflexivity].
  - intros id c Hc. cbn [from_der de_octets]. apply answers_if; [apply answers_err | apply answers_ok].
  - intros id l c Hc _. cbn [from_ber de_octets]. do 2 (apply answers_if; [apply answers_err|]). apply answers_ok.
Qed.

(** ** Ordered pairs of list elements *)
Lemma sorted_pairs {T} (R : T -> T -> Prop) l : StronglySorted R l <-> ForallOrdPairs R l.
Proof. split; induction 1; constructor; assumption. Qed.
Lemma pairs_along {A B} (R : A -> A -> Prop) (R' : B -> B -> Prop) (P : A -> B -> Prop) l l' :
  Forall2 P l l' -> (forall x y x' y', P x x' -> P y y' -> R x y -> R' x' y') -> ForallOrdPairs R l -> ForallOrdPairs R' l'.
Proof.
  intros F H. induction F as [|x x' l l' Px F IH]; intros O; [constructor|]. inversion O as [|a b Fx O']; subst.
  constructor; [|now apply IH]. clear -F H Px Fx. induction F as [|y y' l l' Py F IH]; constructor.
  - inversion Fx; subst. eapply H; eassumption.
  - inversion Fx; subst. now apply IH.
Qed.
Lemma pairs_map {A B} (f : A -> B) (R : B -> B -> Prop) l :
  ForallOrdPairs R (map f l) <-> ForallOrdPairs (fun x y => R (f x) (f y)) l.
Proof.
  induction l as [|x l IH]; cbn [map]; [split; constructor|].
  split; intros H; inversion H as [|a b Fx Hl]; subst; (constructor; [|now apply IH]).
  - rewrite Forall_map in Fx. exact Fx.
  - rewrite Forall_map. exact Fx.
Qed.
Lemma pairs_perm {A} (R : A -> A -> Prop) l l' : (forall x y, R x y -> R y x) -> Permutation l l' -> ForallOrdPairs R l -> ForallOrdPairs R l'.
Proof.
  intros S P. induction P as [|x l l' P IH|x y l|]; intros H; auto.
  - inversion H; subst. constructor; [|auto]. now apply (Permutation_Forall P).
  - inversion H as [|a b Fy Hx]; subst. inversion Hx; subst. inversion Fy; subst. constructor; [constructor; auto | constructor; auto].
Qed.
Lemma pairs_app_cons {A} (R : A -> A -> Prop) l x r : ForallOrdPairs R (l ++ x :: r) -> Forall (fun y => R y x) l.
Proof.
  induction l as [|y l IH]; cbn [app]; intros H; constructor; inversion H; subst.
  - apply Forall_app in H2 as [_ H2]. now inversion H2.
  - now apply IH.
Qed.

(** ** What insertion makes of the elements *)
Lemma inserted_push {T} xs : forall ret : list T, inserted push_back xs ret = ret ++ xs.
Proof.
  induction xs as [|x xs IH]; intros ret; cbn; [now rewrite app_nil_r|]. unfold inserted in IH. rewrite IH.
  unfold push_back. now rewrite <- app_assoc.
Qed.
Lemma inserted_btree {T} cmp xs : forall ret : list T, ForallOrdPairs (fun x y => cmp y x = Gt) (ret ++ xs) ->
  inserted (btree_insert cmp) xs ret = ret ++ xs.
Proof.
  induction xs as [|x xs IH]; intros ret H; [cbn; now rewrite app_nil_r|].
  change (inserted (btree_insert cmp) (x :: xs) ret) with (inserted (btree_insert cmp) xs (btree_insert cmp x ret)).
  assert (btree_insert cmp x ret = ret ++ [x]) as ->.
  { apply pairs_app_cons in H. induction H as [|y l G _ IHl]; [reflexivity|]. cbn. now rewrite G, IHl. }
  rewrite IH; rewrite <- app_assoc; [reflexivity | assumption].
Qed.
Lemma inserted_btree_map {K V} cmp xs : forall ret : list (K * V), ForallOrdPairs (fun x y => cmp (fst y) (fst x) = Gt) (ret ++ xs) ->
  inserted (btree_map_insert cmp) xs ret = ret ++ xs.
Proof.
  induction xs as [|x xs IH]; intros ret H; [cbn; now rewrite app_nil_r|].
  change (inserted (btree_map_insert cmp) (x :: xs) ret) with (inserted (btree_map_insert cmp) xs (btree_map_insert cmp x ret)).
  assert (btree_map_insert cmp x ret = ret ++ [x]) as ->.
  { apply pairs_app_cons in H. induction H as [|[k v] l G _ IHl]; [reflexivity|]. cbn in *. now rewrite G, IHl. }
  rewrite IH; rewrite <- app_assoc; [reflexivity | assumption].
Qed.
Lemma existsb_none {T} (f : T -> bool) l : Forall (fun y => f y = false) l -> existsb f l = false.
Proof. induction 1 as [|y l H _ IH]; [reflexivity|]. cbn. now rewrite H, IH. Qed.
Lemma inserted_hash {T} E eqb (HE : good_env E) xs : forall ret : list T, ForallOrdPairs (fun x y => eqb x y = false /\ eqb y x = false) (ret ++ xs) ->
  Permutation (inserted (hash_insert E eqb) xs ret) (ret ++ xs).
Proof.
  induction xs as [|x xs IH]; intros ret H; [cbn; now rewrite app_nil_r|].
  change (inserted (hash_insert E eqb) (x :: xs) ret) with (inserted (hash_insert E eqb) xs (hash_insert E eqb x ret)).
  assert (hash_insert E eqb x ret = e_place E x ret) as ->.
  { unfold hash_insert. rewrite existsb_none; [reflexivity|]. apply pairs_app_cons in H. eapply Forall_impl; [|exact H]. intros y [_ G]. exact G. }
  assert (Permutation (ret ++ x :: xs) (e_place E x ret ++ xs)) as P.
  { rewrite (HE T x ret). rewrite <- Permutation_middle. reflexivity. }
  rewrite P. apply IH. eapply pairs_perm; [|exact P|exact H]. intros a b [A B]. auto.
Qed.
Lemma inserted_hash_map {K V} E eqb (HE : good_env E) xs : forall ret : list (K * V),
  ForallOrdPairs (fun x y => eqb (fst x) (fst y) = false /\ eqb (fst y) (fst x) = false) (ret ++ xs) ->
  Permutation (inserted (hash_map_insert E eqb) xs ret) (ret ++ xs).
Proof.
  induction xs as [|x xs IH]; intros ret H; [cbn; now rewrite app_nil_r|].
  change (inserted (hash_map_insert E eqb) (x :: xs) ret) with (inserted (hash_map_insert E eqb) xs (hash_map_insert E eqb x ret)).
  assert (hash_map_insert E eqb x ret = e_place E x ret) as ->.
  { unfold hash_map_insert. rewrite existsb_none; [reflexivity|]. apply pairs_app_cons in H. eapply Forall_impl; [|exact H]. intros y [_ G]. exact G. }
  assert (Permutation (ret ++ x :: xs) (e_place E x ret ++ xs)) as P.
  { rewrite (HE _ x ret). rewrite <- Permutation_middle. reflexivity. }
  rewrite P. apply IH. eapply pairs_perm; [|exact P|exact H]. intros a b [A B]. auto.
Qed.

(** ** Lists of items *)
(** The value [x'] read for [x]. *)
Definition read_as (C : codec) (x x' : car C) : Prop := wf C x /\ wf C x' /\ same C x x'.
Lemma tlv_le id c : nlen c <= nlen (tlv id c).
Proof. apply tlv_contents_le. Qed.
Lemma concat_le {A} (l : list (list A)) x : In x l -> nlen x <= nlen (concat l).
Proof. induction l as [|y l IH]; cbn [In concat]; [easy|]. rewrite nlen_app. intros [->|H]; [lia|]. specialize (IH H). lia. Qed.
Lemma Forall2_exists {A B P} (f : A -> list N) (l : list A) (Q : list N -> B -> Prop) :
  (forall x, In x l -> exists y : B, Q (f x) y /\ P x y) -> exists l', Forall2 Q (map f l) l' /\ Forall2 P l l'.
Proof.
  induction l as [|x l IH]; intros H; [exists []; split; constructor|].
  destruct (H x (or_introl eq_refl)) as (y & Qy & Py). destruct IH as (l' & FQ & FP); [intros; apply H; now right|].
  exists (y :: l'). split; constructor; assumption.
Qed.
Lemma items_codec_ok ID C : is_identifier ID -> codec_ok C -> codec_ok (items_codec ID C).
Proof.
  intros I CO vs F. cbn in F. split; [exact I|]. cbn [contents_of items_codec]. intros L.
  induction F as [|v vs Hv F IH]; [constructor|]. cbn [map concat] in *. rewrite nlen_app in L. apply bytes_ok_app. split; [|apply IH; lia].
  destruct (CO v Hv) as [Iv Hc]. pose proof (tlv_le (id_of C v) (contents_of C v)). unfold der_of in *.
  apply tlv_ok; [assumption | change (2 ^ 64) with usize_limit; lia | apply Hc; lia].
Qed.
Lemma der_items_read C D vs : codec_ok C -> de_law C D -> Forall (wf C) vs -> nlen (concat (map (der_of C) vs)) < usize_limit ->
  exists vs', Forall2 (reads (der_to_val D)) (map (der_of C) vs) vs' /\ Forall2 (read_as C) vs vs'.
Proof.
  intros CO DL F L. apply Forall2_exists. intros v Hin. rewrite Forall_forall in F. pose proof (F v Hin) as Hv.
  assert (nlen (contents_of C v) < usize_limit) as Lv.
  { pose proof (concat_le _ _ (in_map (der_of C) _ _ Hin)). unfold der_of at 1 in H.
    pose proof (tlv_le (id_of C v) (contents_of C v)). lia. }
  destruct (DL v Hv Lv) as (v' & E & W & S). exists v'. split; [now apply der_reads | repeat split; assumption].
Qed.
Lemma ber_items_read C D vs items : ber_ok C -> ber_law C D -> Forall (wf C) vs -> Forall2 (ber_octets C) vs items ->
  nlen (concat items) < usize_limit ->
  exists vs', Forall2 (reads (ber_to_val D)) items vs' /\ Forall2 (read_as C) vs vs'.
Proof.
  intros BO BL F FI. revert F. induction FI as [|v b vs items O FI IH]; intros F L; [exists []; split; constructor|].
  inversion F; subst. cbn [concat] in L. rewrite nlen_app in L.
  destruct (ber_reads C D v b BO BL H1 O) as (v' & R & W & S); [lia|].
  destruct (IH H2) as (vs' & FR & FP); [lia|]. exists (v' :: vs'). split; constructor; auto. repeat split; assumption.
Qed.
Lemma items_concat_ok C vs items : ber_ok C -> Forall (wf C) vs -> Forall2 (ber_octets C) vs items ->
  nlen (concat items) < usize_limit -> bytes_ok (concat items) /\ ber_items (concat items).
Proof.
  intros BO F FI. revert F. induction FI as [|v b vs items O FI IH]; intros F L; [split; constructor|].
  inversion F; subst. cbn [concat] in *. rewrite nlen_app in L.
  destruct (ber_octets_value C v b BO H1 O) as (id & l & c & _ & _ & _ & V & N0 & Hb & _); [lia|].
  destruct (IH H2) as [A B]; [lia|]. split; [now apply bytes_ok_app | now constructor].
Qed.
Lemma constructed_len items l c : constructed items l c -> nlen (concat items) <= nlen c.
Proof. intros []; [lia | rewrite nlen_app; lia]. Qed.
Lemma exclude_eoc_ok E items l c : constructed items l c -> exclude_eoc E l c = Ok (concat items).
Proof.
  intros []; cbn [exclude_eoc].
  - unfold debug_assert. rewrite N.eqb_refl. now destruct (e_debug E).
  - unfold ends_with. change (nlen EOC) with 2. rewrite nlen_app. change (nlen [0; 0]) with 2.
    rewrite (proj2 (N.leb_le _ _)) by lia. replace (nlen (concat items) + 2 - 2) with (nlen (concat items)) by lia.
    rewrite drop_app_exact, take_app_exact. reflexivity.
Qed.
Lemma items_ber_ok ID C : is_identifier ID -> hd 0 ID <> 0 -> ber_ok C -> ber_ok (items_codec ID C).
Proof.
  intros I H0 BO. split.
  - intros vs id l c F (-> & items & FI & K) L. cbn in F. pose proof (constructed_len _ _ _ K).
    destruct (items_concat_ok C vs items BO F FI) as [A B]; [lia|]. split; [assumption|]. split; [assumption|].
    destruct K; (split; [|eauto]); [assumption|]. apply bytes_ok_app. split; [assumption | repeat constructor; reflexivity].
  - intros vs F. cbn in F. split; [reflexivity|]. exists (map (der_of C) vs). split; [|constructor].
    induction F as [|v vs Hv F IH]; cbn [map]; constructor; [|assumption].
    exists (id_of C v), (Definite (nlen (contents_of C v))), (contents_of C v). split; [now apply BO | reflexivity].
Qed.

(** ** Collections in general *)
Section Collection.
Context (E : env) (ID : list N) {X Y : Type} (empty : Y) (insert : X -> Y -> Y).
Context (bnext dnext : helper -> res (option (X * helper))).
Let D := de_collection E ID empty insert bnext dnext.
Lemma collection_der bss xs : (forall i, dnext ([], i) = Ok None) -> Forall2 (reads dnext) bss xs -> bytes_ok (concat bss) ->
  from_der D ID (concat bss) = Ok (inserted insert xs empty).
Proof.
  intros N0 F Hok. cbn [from_der D de_collection]. rewrite ids_differ_refl. apply collect_all; auto.
Qed.
Lemma collection_ber items xs l c : (forall i, bnext ([], i) = Ok None) -> Forall2 (reads bnext) items xs -> bytes_ok (concat items) ->
  constructed items l c -> from_ber D ID l c = Ok (inserted insert xs empty).
Proof.
  intros N0 F Hok K. cbn [from_ber D de_collection]. rewrite ids_differ_refl, (exclude_eoc_ok E items l c K). cbn [rbind].
  apply collect_all; auto.
Qed.
Lemma collection_der_answers P :
  (forall bs i x rest j, bytes_ok bs -> dnext (bs, i) = Ok (Some (x, (rest, j))) -> exists b, bs = b ++ rest /\ b <> [] /\ P b x) ->
  (forall bs i, bytes_ok bs -> answers (dnext (bs, i))) -> der_answers D.
Proof.
  intros S A id c Hc. cbn [from_der D de_collection]. apply answers_if; [apply answers_err|].
  apply (collect_answers dnext insert P S bytes_ok); [auto | | assumption | assumption | lia].
  intros bs i x rest j Hb H. destruct (S _ _ _ _ _ Hb H) as (b & -> & _). now apply bytes_ok_app in Hb.
Qed.
Lemma exclude_eoc_answers l c : bytes_ok c -> e_debug E = false \/ l = Definite (nlen c) /\ quiet c ->
  answers (exclude_eoc E l c) /\ forall c', exclude_eoc E l c = Ok c' -> settled E c'.
Proof.
  intros Hc R. destruct l as [|n]; cbn [exclude_eoc].
  - destruct R as [R|[? _]]; [|discriminate]. destruct (ends_with c EOC).
    + split; [apply answers_ok|]. intros c' [= <-]. split; [now apply bytes_ok_take | now left].
    + split; [apply answers_err | discriminate].
  - assert (debug_assert E (n =? nlen c) = Ok tt) as ->.
    { destruct R as [R|[[= ->] _]]; [now apply release_assert|]. unfold debug_assert. rewrite N.eqb_refl. now destruct (e_debug E). }
    cbn [rbind]. split; [apply answers_ok|]. intros c' [= <-]. split; [assumption|]. destruct R as [R|[_ Q]]; auto.
Qed.
Lemma collection_ber_answers P :
  (forall bs i x rest j, bytes_ok bs -> bnext (bs, i) = Ok (Some (x, (rest, j))) -> exists b, bs = b ++ rest /\ b <> [] /\ P b x) ->
  (forall bs i x rest j, settled E bs -> bnext (bs, i) = Ok (Some (x, (rest, j))) -> settled E rest) ->
  (forall bs i, settled E bs -> answers (bnext (bs, i))) -> ber_answers E D.
Proof.
  intros S K A id l c Hc R. cbn [from_ber D de_collection]. apply answers_if; [apply answers_err|].
  destruct (exclude_eoc_answers l c Hc R) as [AE OE]. apply answers_bind; [assumption|]. intros c' Ec.
  apply (collect_answers bnext insert P S (settled E)); [now intros bs [] | assumption | assumption | auto | lia].
Qed.
End Collection.

(** ** Sequences *)
Section Seq.
Context (E : env) (C : codec) (D : deserialize (car C)).
Lemma id_30 : is_identifier [0x30].
Proof. apply (small_identifier 16). lia. Qed.
Lemma id_31 : is_identifier [0x31].
Proof. apply (small_identifier 17). lia. Qed.
Lemma read_as_split vs vs' : Forall2 (read_as C) vs vs' -> Forall (wf C) vs' /\ Forall2 (same C) vs vs'.
Proof. induction 1 as [|x x' l l' (A & B & S) F [IH1 IH2]]; split; constructor; assumption. Qed.
Lemma vec_de : codec_ok C -> de_law C D -> de_law (seq_codec C) (de_vec E D).
Proof.
  intros CO DL vs F L. cbn in F, L. destruct (der_items_read C D vs CO DL F L) as (vs' & R & P).
  exists vs'. split; [|now apply read_as_split].
  pose proof (collection_der E [0x30] [] push_back (ber_to_val D) (der_to_val D) _ _ (der_to_val_nil D) R) as Q.
  rewrite inserted_push in Q. cbn [app] in Q. apply Q. now apply (items_codec_ok [0x30] C id_30 CO vs F).
Qed.
Lemma vec_ber : ber_ok C -> ber_law C D -> ber_law (seq_codec C) (de_vec E D).
Proof.
  intros BO BL vs id l c F (-> & items & FI & K) L. cbn in F. pose proof (constructed_len _ _ _ K).
  destruct (ber_items_read C D vs items BO BL F FI) as (vs' & R & P); [lia|].
  exists vs'. split; [|now apply read_as_split].
  pose proof (collection_ber E [0x30] [] push_back (ber_to_val D) (der_to_val D) _ _ l c (ber_to_val_nil D) R) as Q.
  rewrite inserted_push in Q. cbn [app] in Q. apply Q; [|assumption]. apply (items_concat_ok C vs items BO F FI). lia.
Qed.
Lemma vec_canonical : canonical C D -> canonical (seq_codec C) (de_vec E D).
Proof.
  intros CC id c vs Hc L H. cbn [from_der de_vec de_collection] in H.
  destruct (bytes_eqb id ID_SEQUENCE) eqn:E1; [|discriminate]. apply bytes_eqb_eq in E1 as ->. cbn [negb] in H.
  destruct (collect_inv (der_to_val D) push_back _ (der_next_some D) (der_next_none D) _ _ _ _ _ Hc H) as (bss & xs & -> & F & ->).
  rewrite inserted_push. cbn [app]. clear H.
  assert (Forall (wf C) xs /\ bss = map (der_of C) xs) as [W ->]; [|split; [exact W | split; reflexivity]].
  induction F as [|b x bss xs (i & cc & -> & Hcc & Lc & Ex) F IH]; [split; constructor|].
  cbn [concat] in Hc, L. apply bytes_ok_app in Hc as [_ Hc]. rewrite nlen_app in L.
  destruct IH as [W ->]; [lia | assumption|]. destruct (CC i cc x Hcc Lc Ex) as (Wx & -> & ->).
  split; [now constructor | reflexivity].
Qed.
Lemma vec_der_answers : der_answers D -> der_answers (de_vec E D).
Proof. intros A. eapply collection_der_answers; [apply der_next_some | now apply der_next_answers]. Qed.
Lemma vec_ber_answers : ber_answers E D -> ber_answers E (de_vec E D).
Proof. intros A. eapply collection_ber_answers; [apply ber_next_some | apply ber_next_keeps | now apply ber_next_answers]. Qed.

(** ** Sets *)
Lemma btree_vs cmp vs vs' : order_ok C cmp -> Forall2 (read_as C) vs vs' -> sorted cmp vs ->
  sorted cmp vs' /\ inserted (btree_insert cmp) vs' [] = vs'.
Proof.
  intros [OA OC] P S. apply sorted_pairs in S. assert (ForallOrdPairs (fun x y => cmp x y = Lt) vs') as S'.
  { eapply (pairs_along _ _ _ _ _ P); [|exact S]. intros x y x' y' (Wx & Wx' & Sx) (Wy & Wy' & Sy) R.
    rewrite <- R. symmetry. now apply OC. }
  split; [now apply sorted_pairs|]. rewrite inserted_btree; [reflexivity|]. cbn [app].
  assert (Forall2 (fun x y => x = y /\ wf C x) vs' vs') as P'.
  { apply read_as_split in P as [W _]. induction W; constructor; auto. inversion S'; auto. }
  eapply (pairs_along _ _ _ _ _ P'); [|exact S']. intros x y x' y' [<- Wx] [<- Wy] R. now rewrite OA, R.
Qed.
Lemma btree_set_de cmp : order_ok C cmp -> codec_ok C -> de_law C D -> de_law (btree_set_codec C cmp) (de_btree_set E cmp D).
Proof.
  intros O CO DL vs [F S] L. cbn in F, L. destruct (der_items_read C D vs CO DL F L) as (vs' & R & P).
  destruct (btree_vs cmp vs vs' O P S) as [S' I]. exists vs'. destruct (read_as_split _ _ P) as [W Sm]. split; [|repeat split; assumption].
  pose proof (collection_der E [0x30] [] (btree_insert cmp) (ber_to_val D) (der_to_val D) _ _ (der_to_val_nil D) R) as Q.
  rewrite I in Q. apply Q. now apply (items_codec_ok [0x30] C id_30 CO vs F).
Qed.
Lemma btree_set_ber cmp : order_ok C cmp -> ber_ok C -> ber_law C D -> ber_law (btree_set_codec C cmp) (de_btree_set E cmp D).
Proof.
  intros O BO BL vs id l c [F S] (-> & items & FI & K) L. cbn in F. pose proof (constructed_len _ _ _ K).
  destruct (ber_items_read C D vs items BO BL F FI) as (vs' & R & P); [lia|].
  destruct (btree_vs cmp vs vs' O P S) as [S' I]. exists vs'. destruct (read_as_split _ _ P) as [W Sm]. split; [|repeat split; assumption].
  pose proof (collection_ber E [0x30] [] (btree_insert cmp) (ber_to_val D) (der_to_val D) _ _ l c (ber_to_val_nil D) R) as Q.
  rewrite I in Q. apply Q; [|assumption]. apply (items_concat_ok C vs items BO F FI). lia.
Qed.
Lemma hash_vs eqb vs vs' : good_env E -> eqb_ok C eqb -> Forall2 (read_as C) vs vs' -> distinct eqb vs ->
  let r := inserted (hash_insert E eqb) vs' [] in Forall (wf C) r /\ distinct eqb r /\ same_unordered (same C) vs r.
Proof.
  intros HE EO P S r. assert (ForallOrdPairs (fun x y => eqb x y = false /\ eqb y x = false) vs') as S'.
  { eapply (pairs_along _ _ _ _ _ P); [|exact S]. intros x y x' y' (Wx & Wx' & Sx) (Wy & Wy' & Sy) [R1 R2].
    split; [rewrite <- R1 | rewrite <- R2]; symmetry; now apply EO. }
  pose proof (inserted_hash E eqb HE vs' [] S') as Pm. cbn [app] in Pm. fold r in Pm.
  destruct (read_as_split _ _ P) as [W Sm]. split; [apply (Permutation_Forall (Permutation_sym Pm) W)|].
  split; [eapply pairs_perm; [|apply Permutation_sym, Pm|exact S']; intros a b [A B]; auto|].
  clear -Pm Sm. apply Permutation_sym in Pm. destruct (Permutation_Forall2 (P := fun y x => same C x y) (l2 := vs) Pm) as (a' & Pa & Fa).
  { clear -Sm. induction Sm; constructor; assumption. }
  exists a'. split; [assumption|]. clear -Fa. induction Fa; constructor; assumption.
Qed.
Lemma hash_set_de eqb : good_env E -> eqb_ok C eqb -> codec_ok C -> de_law C D -> de_law (hash_set_codec C eqb) (de_hash_set E eqb D).
Proof.
  intros HE O CO DL vs [F S] L. cbn in F, L. destruct (der_items_read C D vs CO DL F L) as (vs' & R & P).
  destruct (hash_vs eqb vs vs' HE O P S) as (W & S' & Sm). eexists. split; [|split; [split; [exact W | exact S'] | exact Sm]].
  apply (collection_der E [0x31] [] (hash_insert E eqb) (ber_to_val D) (der_to_val D) _ _ (der_to_val_nil D) R).
  now apply (items_codec_ok [0x31] C id_31 CO vs F).
Qed.
Lemma hash_set_ber eqb : good_env E -> eqb_ok C eqb -> ber_ok C -> ber_law C D -> ber_law (hash_set_codec C eqb) (de_hash_set E eqb D).
Proof.
  intros HE O BO BL vs id l c [F S] (-> & items & FI & K) L. cbn in F. pose proof (constructed_len _ _ _ K).
  destruct (ber_items_read C D vs items BO BL F FI) as (vs' & R & P); [lia|].
  destruct (hash_vs eqb vs vs' HE O P S) as (W & S' & Sm). eexists. split; [|split; [split; [exact W | exact S'] | exact Sm]].
  apply (collection_ber E [0x31] [] (hash_insert E eqb) (ber_to_val D) (der_to_val D) _ _ l c (ber_to_val_nil D) R); [|assumption].
  apply (items_concat_ok C vs items BO F FI). lia.
Qed.
Lemma btree_set_answers cmp : der_answers D -> der_answers (de_btree_set E cmp D).
Proof. intros A. eapply collection_der_answers; [apply der_next_some | now apply der_next_answers]. Qed.
Lemma btree_set_ber_answers cmp : ber_answers E D -> ber_answers E (de_btree_set E cmp D).
Proof. intros A. eapply collection_ber_answers; [apply ber_next_some | apply ber_next_keeps | now apply ber_next_answers]. Qed.
Lemma hash_set_answers eqb : der_answers D -> der_answers (de_hash_set E eqb D).
Proof. intros A. eapply collection_der_answers; [apply der_next_some | now apply der_next_answers]. Qed.
Lemma hash_set_ber_answers eqb : ber_answers E D -> ber_answers E (de_hash_set E eqb D).
Proof. intros A. eapply collection_ber_answers; [apply ber_next_some | apply ber_next_keeps | now apply ber_next_answers]. Qed.
End Seq.

(** ** Maps *)
Section Map.
Context (E : env) (CK CV : codec) (DK : deserialize (car CK)) (DV : deserialize (car CV)).
Let CE := entry_codec CK CV.
Lemma entry_codec_ok : codec_ok CK -> codec_ok CV -> codec_ok CE.
Proof.
  intros OK OV [k v] [Wk Wv]. split; [apply id_30|]. cbn [contents_of CE entry_codec fst snd] in *. intros L.
  rewrite nlen_app in L. unfold der_of in *. cbn [fst snd] in Wk, Wv.
  pose proof (tlv_le (id_of CK k) (contents_of CK k)). pose proof (tlv_le (id_of CV v) (contents_of CV v)).
  destruct (OK k Wk) as [Ik Hk]. destruct (OV v Wv) as [Iv Hv].
  apply bytes_ok_app; split; (apply tlv_ok; [assumption | change (2 ^ 64) with usize_limit; lia | ]); [apply Hk | apply Hv]; lia.
Qed.
Lemma entry_ber_ok : ber_ok CK -> ber_ok CV -> ber_ok CE.
Proof.
  intros BK BV. split.
  - intros [k v] id l c [Wk Wv] (-> & kb & vb & Ok & Ov & -> & ->) L. cbn [fst snd] in *. rewrite nlen_app in L.
    split; [apply id_30|]. split; [discriminate|]. split; [|reflexivity].
    destruct (ber_octets_value CK k kb BK Wk Ok) as (? & ? & ? & _ & _ & _ & _ & _ & Hk & _); [lia|].
    destruct (ber_octets_value CV v vb BV Wv Ov) as (? & ? & ? & _ & _ & _ & _ & _ & Hv & _); [lia|].
    now apply bytes_ok_app.
  - intros [k v] [Wk Wv]. split; [reflexivity|]. cbn [fst snd] in *. exists (der_of CK k), (der_of CV v).
    conj; try reflexivity.
    + exists (id_of CK k), (Definite (nlen (contents_of CK k))), (contents_of CK k). split; [now apply BK | reflexivity].
    + exists (id_of CV v), (Definite (nlen (contents_of CV v))), (contents_of CV v). split; [now apply BV | reflexivity].
Qed.
Lemma der_entries_read vs : codec_ok CK -> codec_ok CV -> de_law CK DK -> de_law CV DV -> Forall (wf CE) vs ->
  nlen (concat (map (der_of CE) vs)) < usize_limit ->
  exists vs', Forall2 (reads (der_to_key_val DK DV)) (map (der_of CE) vs) vs' /\ Forall2 (read_as CE) vs vs'.
Proof.
  intros OK OV LK LV F L. apply Forall2_exists. intros [k v] Hin. rewrite Forall_forall in F. pose proof (F _ Hin) as [Wk Wv].
  cbn [fst snd] in Wk, Wv. pose proof (concat_le _ _ (in_map (der_of CE) _ _ Hin)) as Le.
  change (der_of CE (k, v)) with (tlv [0x30] (der_of CK k ++ der_of CV v)) in *.
  pose proof (tlv_le [0x30] (der_of CK k ++ der_of CV v)) as L1. rewrite nlen_app in L1. unfold der_of in *.
  pose proof (tlv_le (id_of CK k) (contents_of CK k)). pose proof (tlv_le (id_of CV v) (contents_of CV v)).
  destruct (LK k Wk) as (k' & Ek & Wk' & Sk); [lia|]. destruct (LV v Wv) as (v' & Ev & Wv' & Sv); [lia|].
  exists (k', v'). split; [|repeat split; assumption].
  apply der_entry_reads; [now apply OK | now apply OV | rewrite nlen_app; lia | assumption | assumption].
Qed.
Lemma ber_entries_read vs items : ber_ok CK -> ber_ok CV -> ber_law CK DK -> ber_law CV DV -> Forall (wf CE) vs ->
  Forall2 (ber_octets CE) vs items -> nlen (concat items) < usize_limit ->
  exists vs', Forall2 (reads (ber_to_key_val DK DV)) items vs' /\ Forall2 (read_as CE) vs vs'.
Proof.
  intros OK OV LK LV F FI. revert F. induction FI as [|[k v] b vs items O FI IH]; intros F L; [exists []; split; constructor|].
  inversion F as [|a a' [Wk Wv] F']; subst. cbn [concat] in L. rewrite nlen_app in L. cbn [fst snd] in Wk, Wv.
  destruct (IH F') as (vs' & FR & FP); [lia|].
  destruct O as (id & l & c & (-> & kb & vb & Ok & Ov & -> & ->) & ->). cbn [fst snd length_of] in *.
  change ([0x30] ++ length_octets (nlen (kb ++ vb)) ++ kb ++ vb) with (tlv [0x30] (kb ++ vb)) in *.
  pose proof (tlv_le [0x30] (kb ++ vb)) as L1. pose proof (nlen_app kb vb) as L2.
  destruct (ber_octets_value CK k kb OK Wk Ok) as (idk & lk & ck & Bk & _ & Lck & Vk & _ & _ & Dk & _); [lia|].
  destruct (ber_octets_value CV v vb OV Wv Ov) as (idv & lv & cv & Bv & _ & Lcv & Vv & _ & _ & Dv & _); [lia|].
  destruct (LK k idk lk ck Wk Bk Lck) as (k' & Ek & Wk' & Sk). destruct (LV v idv lv cv Wv Bv Lcv) as (v' & Ev & Wv' & Sv).
  exists ((k', v') :: vs'). split; constructor; auto; [|repeat split; assumption].
  eapply ber_entry_reads; eauto. lia.
Qed.
Lemma btree_map_vs cmp vs vs' : order_ok CK cmp -> Forall2 (read_as CE) vs vs' -> sorted cmp (map fst vs) ->
  sorted cmp (map fst vs') /\ inserted (btree_map_insert cmp) vs' [] = vs'.
Proof.
  intros [OA OC] P S. apply sorted_pairs, (pairs_map (B := car CK)) in S.
  assert (ForallOrdPairs (fun x y => cmp (fst x) (fst y) = Lt) vs') as S'.
  { eapply (pairs_along _ _ _ _ _ P); [|exact S]. intros [x ?] [y ?] [x' ?] [y' ?] ([Wx _] & [Wx' _] & [Sx _]) ([Wy _] & [Wy' _] & [Sy _]) R.
    cbn [fst snd] in *. rewrite <- R. symmetry. now apply OC. }
  split; [now apply sorted_pairs, (pairs_map (B := car CK))|]. rewrite inserted_btree_map; [reflexivity|]. cbn [app].
  assert (Forall2 (fun x y => x = y /\ wf CE x) vs' vs') as P'.
  { apply read_as_split in P as [W _]. clear S'. induction W; constructor; auto. }
  eapply (pairs_along _ _ _ _ _ P'); [|exact S']. intros x y x' y' [<- [Wx _]] [<- [Wy _]] R. now rewrite OA, R.
Qed.
Lemma btree_map_de cmp : order_ok CK cmp -> codec_ok CK -> codec_ok CV -> de_law CK DK -> de_law CV DV ->
  de_law (btree_map_codec CK CV cmp) (de_btree_map E cmp DK DV).
Proof.
  intros O OK OV LK LV vs [F S] L. cbn in F, L. destruct (der_entries_read vs OK OV LK LV F L) as (vs' & R & P).
  destruct (btree_map_vs cmp vs vs' O P S) as [S' I]. exists vs'. destruct (read_as_split _ _ _ P) as [W Sm].
  split; [|split; [split; assumption | exact Sm]].
  pose proof (collection_der E [0x30] [] (btree_map_insert cmp) (ber_to_key_val DK DV) (der_to_key_val DK DV) _ _ (fun _ => eq_refl) R) as Q.
  rewrite I in Q. apply Q. now apply (items_codec_ok [0x30] CE id_30 (entry_codec_ok OK OV) vs F).
Qed.
Lemma btree_map_ber cmp : order_ok CK cmp -> ber_ok CK -> ber_ok CV -> ber_law CK DK -> ber_law CV DV ->
  ber_law (btree_map_codec CK CV cmp) (de_btree_map E cmp DK DV).
Proof.
  intros O OK OV LK LV vs id l c [F S] (-> & items & FI & K) L. cbn in F. pose proof (constructed_len _ _ _ K).
  destruct (ber_entries_read vs items OK OV LK LV F FI) as (vs' & R & P); [lia|].
  destruct (btree_map_vs cmp vs vs' O P S) as [S' I]. exists vs'. destruct (read_as_split _ _ _ P) as [W Sm].
  split; [|split; [split; assumption | exact Sm]].
  pose proof (collection_ber E [0x30] [] (btree_map_insert cmp) (ber_to_key_val DK DV) (der_to_key_val DK DV) _ _ l c (fun _ => eq_refl) R) as Q.
  rewrite I in Q. apply Q; [|assumption]. apply (items_concat_ok CE vs items (entry_ber_ok OK OV) F FI). lia.
Qed.
Lemma hash_map_vs eqb vs vs' : good_env E -> eqb_ok CK eqb -> Forall2 (read_as CE) vs vs' -> distinct eqb (map fst vs) ->
  let r := inserted (hash_map_insert E eqb) vs' [] in
  Forall (wf CE) r /\ distinct eqb (map fst r) /\ same_unordered (same CE) vs r.
Proof.
  intros HE EO P S r. apply (pairs_map (B := car CK)) in S.
  assert (ForallOrdPairs (fun x y => eqb (fst x) (fst y) = false /\ eqb (fst y) (fst x) = false) vs') as S'.
  { eapply (pairs_along _ _ _ _ _ P); [|exact S].
    intros [x ?] [y ?] [x' ?] [y' ?] ([Wx _] & [Wx' _] & [Sx _]) ([Wy _] & [Wy' _] & [Sy _]) [R1 R2]. cbn [fst snd] in *.
    split; [rewrite <- R1 | rewrite <- R2]; symmetry; now apply EO. }
  pose proof (inserted_hash_map E eqb HE vs' [] S') as Pm. cbn [app] in Pm. fold r in Pm.
  destruct (read_as_split _ _ _ P) as [W Sm]. split; [apply (Permutation_Forall (Permutation_sym Pm) W)|].
  split; [apply (pairs_map (B := car CK)); eapply pairs_perm; [|apply Permutation_sym, Pm|exact S']; intros a b [A B]; auto|].
  clear -Pm Sm. apply Permutation_sym in Pm. destruct (Permutation_Forall2 (P := fun y x => same CE x y) (l2 := vs) Pm) as (a' & Pa & Fa).
  { clear -Sm. induction Sm; constructor; assumption. }
  exists a'. split; [assumption|]. clear -Fa. induction Fa; constructor; assumption.
Qed.
Lemma hash_map_de eqb : good_env E -> eqb_ok CK eqb -> codec_ok CK -> codec_ok CV -> de_law CK DK -> de_law CV DV ->
  de_law (hash_map_codec CK CV eqb) (de_hash_map E eqb DK DV).
Proof.
  intros HE O OK OV LK LV vs [F S] L. cbn in F, L. destruct (der_entries_read vs OK OV LK LV F L) as (vs' & R & P).
  destruct (hash_map_vs eqb vs vs' HE O P S) as (W & S' & Sm). eexists. split; [|split; [split; [exact W | exact S'] | exact Sm]].
  apply (collection_der E [0x31] [] (hash_map_insert E eqb) (ber_to_key_val DK DV) (der_to_key_val DK DV) _ _ (fun _ => eq_refl) R).
  now apply (items_codec_ok [0x31] CE id_31 (entry_codec_ok OK OV) vs F).
Qed.
Lemma hash_map_ber eqb : good_env E -> eqb_ok CK eqb -> ber_ok CK -> ber_ok CV -> ber_law CK DK -> ber_law CV DV ->
  ber_law (hash_map_codec CK CV eqb) (de_hash_map E eqb DK DV).
Proof.
  intros HE O OK OV LK LV vs id l c [F S] (-> & items & FI & K) L. cbn in F. pose proof (constructed_len _ _ _ K).
  destruct (ber_entries_read vs items OK OV LK LV F FI) as (vs' & R & P); [lia|].
  destruct (hash_map_vs eqb vs vs' HE O P S) as (W & S' & Sm). eexists. split; [|split; [split; [exact W | exact S'] | exact Sm]].
  apply (collection_ber E [0x31] [] (hash_map_insert E eqb) (ber_to_key_val DK DV) (der_to_key_val DK DV) _ _ l c (fun _ => eq_refl) R); [|assumption].
  apply (items_concat_ok CE vs items (entry_ber_ok OK OV) F FI). lia.
Qed.
Lemma map_der_answers ID insert : der_answers DK -> der_answers DV ->
  der_answers (de_collection (C := list (car CK * car CV)) E ID [] insert (ber_to_key_val DK DV) (der_to_key_val DK DV)).
Proof.
  intros AK AV. apply (collection_der_answers E ID [] insert _ _ (fun _ _ => True)); [|now apply der_kv_answers].
  intros bs i [k v] rest j Hb H. destruct (der_kv_some DK DV bs i k v rest j Hb H) as (b & -> & N0 & _). eauto.
Qed.
Lemma map_ber_answers ID insert : ber_answers E DK -> ber_answers E DV ->
  ber_answers E (de_collection (C := list (car CK * car CV)) E ID [] insert (ber_to_key_val DK DV) (der_to_key_val DK DV)).
Proof.
  intros AK AV. apply (collection_ber_answers E ID [] insert _ _ (fun _ _ => True)); [|apply ber_kv_keeps |now apply ber_kv_answers].
  intros bs i [k v] rest j Hb H. destruct (ber_kv_some DK DV bs i k v rest j Hb H) as (b & -> & N0 & _). eauto.
Qed.
End Map.

(** ** All provided types *)
Lemma with_values_codec_ok C P e : codec_ok C -> codec_ok (with_values C P e).
Proof. intros O v [W _]. now apply O. Qed.
Lemma with_values_ber_ok C P e : ber_ok C -> ber_ok (with_values C P e).
Proof. intros [A B]. split; [intros v id l c [W _]; now apply A | intros v [W _]; now apply B]. Qed.
Lemma seq_laws E C S D : laws E C S D -> laws E (seq_codec C) (ser_vec E S) (de_vec E D).
Proof.
  intros []. split.
  - now apply items_codec_ok; [apply id_30|].
  - now apply ser_items_law.
  - now apply vec_de.
  - now apply vec_ber.
  - apply items_ber_ok; [apply id_30 | discriminate | assumption].
  - now apply vec_der_answers.
  - apply vec_ber_answers; auto.
Qed.
Lemma btree_set_laws E C S D cmp : laws E C S D -> order_ok C cmp -> laws E (btree_set_codec C cmp) (ser_btree_set E S) (de_btree_set E cmp D).
Proof.
  intros [] O. split.
  - apply with_values_codec_ok. now apply items_codec_ok; [apply id_30|].
  - apply with_values_law. now apply ser_items_law.
  - now apply btree_set_de.
  - now apply btree_set_ber.
  - apply with_values_ber_ok. apply items_ber_ok; [apply id_30 | discriminate | assumption].
  - now apply btree_set_answers.
  - apply btree_set_ber_answers; auto.
Qed.
Lemma hash_set_laws E C S D eqb : good_env E -> laws E C S D -> eqb_ok C eqb -> laws E (hash_set_codec C eqb) (ser_hash_set E S) (de_hash_set E eqb D).
Proof.
  intros HE [] O. split.
  - apply with_values_codec_ok. now apply items_codec_ok; [apply id_31|].
  - apply with_values_law. now apply ser_items_law.
  - now apply hash_set_de.
  - now apply hash_set_ber.
  - apply with_values_ber_ok. apply items_ber_ok; [apply id_31 | discriminate | assumption].
  - now apply hash_set_answers.
  - apply hash_set_ber_answers; auto.
Qed.
Lemma btree_map_laws E CK SK DK CV SV DV cmp : laws E CK SK DK -> laws E CV SV DV -> order_ok CK cmp ->
  laws E (btree_map_codec CK CV cmp) (ser_btree_map E SK SV) (de_btree_map E cmp DK DV).
Proof.
  intros [a1 a2 a4 a5 a6 a7 a8] [b1 b2 b4 b5 b6 b7 b8] O. split.
  - apply with_values_codec_ok. apply items_codec_ok; [apply id_30 | now apply entry_codec_ok].
  - now apply ser_btree_map_law.
  - now apply btree_map_de.
  - now apply btree_map_ber.
  - apply with_values_ber_ok. apply items_ber_ok; [apply id_30 | discriminate | now apply entry_ber_ok].
  - now apply map_der_answers.
  - apply map_ber_answers; auto.
Qed.
Lemma hash_map_laws E CK SK DK CV SV DV eqb : good_env E -> laws E CK SK DK -> ser_known CK SK -> laws E CV SV DV -> eqb_ok CK eqb ->
  laws E (hash_map_codec CK CV eqb) (ser_hash_map E SK SV) (de_hash_map E eqb DK DV).
Proof.
  intros HE [a1 a2 a4 a5 a6 a7 a8] KN [b1 b2 b4 b5 b6 b7 b8] O. split.
  - apply with_values_codec_ok. apply items_codec_ok; [apply id_31 | now apply entry_codec_ok].
  - now apply ser_hash_map_law.
  - now apply hash_map_de.
  - now apply hash_map_ber.
  - apply with_values_ber_ok. apply items_ber_ok; [apply id_31 | discriminate | now apply entry_ber_ok].
  - now apply map_der_answers.
  - apply map_ber_answers; auto.
Qed.
Lemma bool_all_laws E : laws E bool_codec ser_bool (de_bool E).
Proof. destruct (bool_laws E) as (A1 & A2 & A3 & A4 & A5 & A6 & A7). destruct ser_bool_law. now split. Qed.
Lemma int_all_laws E t : laws E (int_codec t) (ser_int t) (de_int E t).
Proof. destruct (int_laws E t) as (A1 & A2 & A3 & A4 & A5 & A6 & A7). destruct (ser_int_law t). now split. Qed.
Lemma string_all_laws E : laws E string_codec ser_string (de_string E).
Proof. destruct (string_laws E) as (A1 & A2 & A3 & A4 & A5 & A6 & A7). destruct ser_string_law. now split. Qed.
Lemma octets_all_laws E : laws E octets_codec ser_octets de_octets.
Proof. destruct (octets_laws E) as (A1 & A2 & A3 & A4 & A5 & A6 & A7). destruct ser_octets_law. now split. Qed.
Lemma provided_all E C S D : good_env E -> provided E C S D -> laws E C S D /\ ser_known C S.
Proof.
  intros HE. induction 1 as [| | | |C S D P [L K]|C S D P [L K]|C S D P [L K]|C S D cmp P [L K] O|C S D eqb P [L K] O
    |CK SK DK CV SV DV cmp P1 [L1 K1] P2 [L2 K2] O|CK SK DK CV SV DV eqb P1 [L1 K1] P2 [L2 K2] O].
  - split; [apply bool_all_laws | apply ser_bool_law].
  - split; [apply int_all_laws | apply ser_int_law].
  - split; [apply string_all_laws | apply ser_string_law].
  - split; [apply octets_all_laws | apply ser_octets_law].
  - split; [now apply seq_laws | now apply ser_items_known].
  - split; [now apply seq_laws | now apply ser_items_known].
  - split; [now apply seq_laws | now apply ser_items_known].
  - split; [now apply btree_set_laws | now apply with_values_known, ser_items_known].
  - split; [now apply hash_set_laws | now apply with_values_known, ser_items_known].
  - split; [now apply btree_map_laws|]. apply ser_btree_map_known; first [assumption | apply L1 | apply L2].
  - split; [now apply hash_map_laws|]. apply ser_hash_map_known; first [assumption | apply L1 | apply L2].
Qed.
Lemma provided_laws E C S D : good_env E -> provided E C S D -> laws E C S D.
Proof. intros HE P. now apply provided_all. Qed.
Lemma provided_known E C S D : good_env E -> provided E C S D -> ser_known C S.
Proof. intros HE P. now apply (provided_all E C S D). Qed.
Lemma sequential_provided E C S D : sequential E C S D -> provided E C S D.
Proof. induction 1; constructor; assumption. Qed.
Lemma sequential_canonical E C S D : sequential E C S D -> canonical C D.
Proof.
  induction 1; try (now apply vec_canonical).
  - apply bool_laws.
  - apply int_laws.
  - apply string_laws.
  - apply (octets_laws E).
Qed.
(** Equality is equality, but for the order of hash tables. *)
Lemma Forall2_eq_iff {A} (R : A -> A -> Prop) : (forall x y, R x y <-> x = y) -> forall a b, Forall2 R a b <-> a = b.
Proof.
  intros H a b. split.
  - induction 1 as [|x y a b R1 F ->]; [reflexivity|]. f_equal. now apply H.
  - intros <-. induction a; constructor; [now apply H | assumption].
Qed.
Lemma sequential_same E C S D : sequential E C S D -> forall x y, same C x y <-> x = y.
Proof. induction 1; intros x y; try reflexivity; now apply Forall2_eq_iff. Qed.
