(** Proofs of the statements of PropsTag.v from the lemmas of TagProofs.v and
    IdProofs.v. *)
From Verif Require Import Base ModelIo ModelTag Spec TagProofs IdProofs.

Lemma Length_parse_slice_eq bs : Length_parse_slice bs =
  (fst (parse_length slice_reader (bs, [])), fst (snd (parse_length slice_reader (bs, [])))).
Proof. unfold Length_parse_slice. now destruct (parse_length slice_reader (bs, [])). Qed.

Lemma length_accepts_all_minimal n l rest : n < 2 ^ 64 -> minimal_length n l -> bytes_ok (l ++ rest) ->
  Length_parse_slice (l ++ rest) = (Ok (Definite n), rest).
Proof.
  intros Hn H Hok. unfold Length_parse_slice. rewrite (parse_length_definite n l rest []); auto.
Qed.

Lemma length_round_trip n rest : n < 2 ^ 64 -> bytes_ok rest ->
  Length_parse_slice (Length_to_bytes (Definite n) ++ rest) = (Ok (Definite n), rest) /\
  Length_parse_slice (Length_to_bytes Indefinite ++ rest) = (Ok Indefinite, rest).
Proof.
  intros Hn Hr. split; [|reflexivity].
  pose proof (Length_to_bytes_minimal n Hn) as H.
  apply length_accepts_all_minimal; auto. apply bytes_ok_app. split; [|assumption].
  now apply minimal_length_ok with n.
Qed.

Lemma length_accepts_minimal bs len rest : bytes_ok bs ->
  Length_parse_slice bs = (Ok len, rest) ->
  exists l, bs = l ++ rest /\ l = Length_to_bytes len /\ nlen l = Length_len len /\
    match len with
    | Definite n => n < 2 ^ 64 /\ minimal_length n l
    | Indefinite => l = [0x80]
    end.
Proof.
  intros Hok H. destruct (length_total bs Hok) as [(r & ->)|[(n & l & r & Hm & Hn & ->)|(e & He)]].
  - rewrite (proj2 (length_round_trip 0 r ltac:(lia) (proj2 (proj1 (bytes_ok_cons _ _) Hok)))) in H
      || (unfold Length_parse_slice in H; rewrite parse_length_indefinite in H; simpl in H).
    injection H as <- <-. exists [0x80]. auto.
  - rewrite length_accepts_all_minimal with (n := n) in H by auto. injection H as <- <-.
    assert (E : l = Length_to_bytes (Definite n)).
    { apply minimal_length_fun with n; auto. now apply Length_to_bytes_minimal. }
    exists l. repeat split; auto. rewrite E. apply Length_to_bytes_len. intros; congruence.
  - unfold Length_parse_slice in H. destruct (parse_length_error bs e [] Hok He) as (st & E). rewrite E in H. discriminate.
Qed.

Lemma minimal_is_shortest n l l' : minimal_length n l -> x690_length n l' -> nlen l <= nlen l'.
Proof.
  intros H H'. destruct H as [n Hn|n d ds Hn Hok Hd Hv Hl].
  - inversion H'; subst; rewrite !nlen_cons, ?nlen_nil; lia.
  - inversion H' as [? Hn'|? ds' Hok' Hne' Hl' Hv']; subst; [lia|].
    rewrite !(nlen_cons (128 + _)).
    destruct (N.le_gt_cases (nlen (d :: ds)) (nlen ds')) as [|G]; [lia|exfalso].
    pose proof (be_value_bound ds' Hok') as B. rewrite Hv' in B. rewrite be_value_cons in B.
    rewrite nlen_cons in G.
    assert (256 ^ nlen ds' <= 256 ^ nlen ds) by (apply N.pow_le_mono_r; lia).
    assert (0 < 256 ^ nlen ds) by (apply N.neq_0_lt_0, N.pow_nonzero; lia). nia.
Qed.

Lemma length_unique bs bs' len : bytes_ok bs -> bytes_ok bs' ->
  Length_parse_slice bs = (Ok len, []) -> Length_parse_slice bs' = (Ok len, []) -> bs = bs'.
Proof.
  intros Hok Hok' H H'. apply length_accepts_minimal in H as (l & -> & -> & _); auto.
  apply length_accepts_minimal in H' as (l' & -> & -> & _); auto.
Qed.

Lemma length_errors bs e : bytes_ok bs -> (fst (Length_parse_slice bs) = Err e <-> length_error bs e).
Proof.
  intros Hok. split.
  - intros H. destruct (length_total bs Hok) as [(r & ->)|[(n & l & r & Hm & Hn & ->)|(e' & He)]].
    + unfold Length_parse_slice in H. rewrite parse_length_indefinite in H. discriminate.
    + rewrite length_accepts_all_minimal with (n := n) in H by auto. discriminate.
    + unfold Length_parse_slice in H. destruct (parse_length_error bs e' [] Hok He) as (st & E). rewrite E in H.
      simpl in H. injection H as <-. assumption.
  - intros He. unfold Length_parse_slice. destruct (parse_length_error bs e [] Hok He) as (st & E). now rewrite E.
Qed.

Lemma length_error_kind bs e : length_error bs e -> e = UnterminatedBytes \/ e = RedundantBytes \/ e = OverFlow.
Proof. destruct 1; auto. Qed.

Lemma length_no_panic bs : bytes_ok bs ->
  exists r, fst (Length_parse_slice bs) = r /\ r <> Panic /\ r <> NoFuel /\
    (forall e, r = Err e -> e = UnterminatedBytes \/ e = RedundantBytes \/ e = OverFlow).
Proof.
  intros Hok. eexists. split; [reflexivity|].
  destruct (length_total bs Hok) as [(r & ->)|[(n & l & r & Hm & Hn & ->)|(e' & He)]].
  - unfold Length_parse_slice. rewrite parse_length_indefinite. simpl. repeat split; intros; discriminate.
  - rewrite length_accepts_all_minimal with (n := n) by auto. simpl. repeat split; intros; discriminate.
  - apply length_errors in He as H; [|assumption]. rewrite H. repeat split; try discriminate.
    intros e E. injection E as <-. eapply length_error_kind; eassumption.
Qed.

(** ** Identifiers *)
Lemma id_new_reads_back c p n : n < 2 ^ 128 ->
  exists bs, Id_new c p n = Ok bs /\ identifier (class_num c) (pc_num p) n bs /\
    IdRef_class bs = Ok c /\ IdRef_pc bs = Ok p /\ IdRef_number bs = Ok n.
Proof.
  intros Hn. destruct (Id_new_ok c p n) as (bs & E & H). exists bs. repeat split; auto.
  - eapply IdRef_class_ok; eassumption.
  - eapply IdRef_pc_ok; eassumption.
  - rewrite (IdRef_number_spec _ _ _ _ H). unfold u128_limit. destruct (N.ltb_spec n (2 ^ 128)); [reflexivity | lia].
Qed.

Lemma b128_value_lt ds : Forall (fun d => d < 128) ds -> b128_value ds < 128 ^ nlen ds.
Proof. exact (b128_value_bound ds). Qed.
Lemma b128_value_ge d ds : d <> 0 -> 128 ^ nlen ds <= b128_value (d :: ds).
Proof. intros Hd. rewrite b128_value_cons. nia. Qed.

Lemma identifier_shortest c p n bs bs' : identifier c p n bs -> x690_identifier c p n bs' -> nlen bs <= nlen bs'.
Proof.
  intros H H'. destruct H as [Hc Hp Hn|hi lo Hc Hp Hn Hd Hh Hv].
  - inversion H'; subst; rewrite !nlen_cons, ?nlen_nil; lia.
  - inversion H' as [Hc' Hp' Hn'|hi' lo' Hc' Hp' Hd' Hv']; [lia|].
    rewrite !nlen_cons, !nlen_app, !nlen_map, !nlen_cons.
    destruct (N.le_gt_cases (nlen hi) (nlen hi')) as [|G]; [lia|exfalso].
    apply b128_value_lt in Hd'. rewrite nlen_app, nlen_cons, nlen_nil in Hd'. rewrite Hv' in Hd'.
    destruct hi as [|d hi]; [rewrite nlen_nil in G; lia|].
    cbn [hd app] in *. pose proof (b128_value_ge d (hi ++ [lo]) Hh) as B. rewrite Hv in B.
    rewrite nlen_app, !nlen_cons, nlen_nil in *.
    assert (128 ^ (nlen hi' + (1 + 0)) <= 128 ^ (nlen hi + (1 + 0))) by (apply N.pow_le_mono_r; lia). lia.
Qed.

Lemma id_accepts id rest : is_identifier id -> bytes_ok rest ->
  IdRef_parse (id ++ rest) = (Ok id, rest) /\ IdRef_parse_mut (id ++ rest) = (Ok id, rest).
Proof.
  intros H Hr. unfold IdRef_parse, IdRef_parse_mut.
  rewrite (parse_id_ok id rest [] (slice_fuel (id ++ rest))) by (auto; unfold slice_fuel; lia).
  destruct (N.ltb_spec (nlen (id ++ rest)) (nlen id)) as [L|L]; [rewrite nlen_app in L; lia|].
  now rewrite take_app_exact, drop_app_exact.
Qed.

Lemma id_parse_err bs e : bytes_ok bs -> identifier_error bs e ->
  IdRef_parse bs = (Err e, bs) /\ IdRef_parse_mut bs = (Err e, bs).
Proof.
  intros Hok He. unfold IdRef_parse, IdRef_parse_mut.
  destruct (parse_id_error bs e [] (slice_fuel bs) Hok) as (st & E); auto.
  { unfold slice_fuel; lia. }
  rewrite E. auto.
Qed.

Lemma id_accepts_only bs id rest : bytes_ok bs ->
  IdRef_parse bs = (Ok id, rest) -> is_identifier id /\ bs = id ++ rest.
Proof.
  intros Hok H. destruct (identifier_total bs Hok) as [(id' & r & Hi & ->)|(e & He)].
  - apply bytes_ok_app in Hok as [_ Hr].
    rewrite (proj1 (id_accepts id' r Hi Hr)) in H. injection H as <- <-. auto.
  - rewrite (proj1 (id_parse_err bs e Hok He)) in H. discriminate.
Qed.

Lemma id_errors bs e : bytes_ok bs ->
  (IdRef_parse bs = (Err e, bs) <-> identifier_error bs e) /\
  (fst (IdRef_parse bs) = Err e -> IdRef_parse bs = (Err e, bs)) /\
  IdRef_parse_mut bs = IdRef_parse bs.
Proof.
  intros Hok. destruct (identifier_total bs Hok) as [(id' & r & Hi & ->)|(e' & He)].
  - pose proof Hok as Hok'. apply bytes_ok_app in Hok as [_ Hr].
    destruct (id_accepts id' r Hi Hr) as [-> ->]. repeat split; try discriminate.
    intros HE. exfalso. eapply identifier_not_error; eassumption.
  - destruct (id_parse_err bs e' Hok He) as [-> ->]. repeat split.
    + intros H. injection H as <-. assumption.
    + intros H. f_equal. f_equal. eapply identifier_error_fun; eassumption.
    + simpl. intros H. congruence.
Qed.

Lemma identifier_error_kind bs e : identifier_error bs e -> e = UnterminatedBytes \/ e = RedundantBytes.
Proof. destruct 1; auto. Qed.

Lemma id_no_panic bs : bytes_ok bs ->
  fst (IdRef_parse bs) <> Panic /\ fst (IdRef_parse bs) <> NoFuel /\
  (forall e, fst (IdRef_parse bs) = Err e -> e = UnterminatedBytes \/ e = RedundantBytes).
Proof.
  intros Hok. destruct (identifier_total bs Hok) as [(id' & r & Hi & ->)|(e' & He)].
  - apply bytes_ok_app in Hok as [_ Hr]. rewrite (proj1 (id_accepts id' r Hi Hr)). repeat split; intros; discriminate.
  - rewrite (proj1 (id_parse_err bs e' Hok He)). repeat split; try discriminate.
    simpl. intros e E. injection E as <-. eapply identifier_error_kind; eassumption.
Qed.

Lemma setters_ok cls pc n id : identifier cls pc n id ->
  (forall c, exists id', IdRef_set_class c id = Ok id' /\ identifier (class_num c) pc n id') /\
  (forall p, exists id', IdRef_set_pc p id = Ok id' /\ identifier cls (pc_num p) n id') /\
  (forall m, m < 2 ^ 128 -> exists id', Id_set_number m id = Ok id' /\ identifier cls pc m id').
Proof.
  intros H. repeat split.
  - intros c. eapply set_class_ok; eassumption.
  - intros p. eapply set_pc_ok; eassumption.
  - intros m _. destruct (identifier_first _ _ _ _ H) as (Hc & Hp & _).
    destruct (class_num_surj cls Hc) as (c & <-). destruct (pc_num_surj pc Hp) as (p & <-).
    eapply Id_set_number_ok; eassumption.
Qed.

Lemma accessors c p n id : identifier (class_num c) (pc_num p) n id -> n < 2 ^ 128 ->
  IdRef_class id = Ok c /\ IdRef_pc id = Ok p /\ IdRef_number id = Ok n.
Proof.
  intros H Hn. repeat split.
  - eapply IdRef_class_ok; eassumption.
  - eapply IdRef_pc_ok; eassumption.
  - rewrite (IdRef_number_spec _ _ _ _ H). unfold u128_limit. destruct (N.ltb_spec n (2 ^ 128)); [reflexivity | lia].
Qed.

Lemma setters_read_back c p n id : identifier (class_num c) (pc_num p) n id -> n < 2 ^ 128 ->
  (forall c', exists id', IdRef_set_class c' id = Ok id' /\ IdRef_class id' = Ok c' /\ IdRef_pc id' = Ok p /\ IdRef_number id' = Ok n) /\
  (forall p', exists id', IdRef_set_pc p' id = Ok id' /\ IdRef_class id' = Ok c /\ IdRef_pc id' = Ok p' /\ IdRef_number id' = Ok n) /\
  (forall m, m < 2 ^ 128 -> exists id', Id_set_number m id = Ok id' /\ IdRef_class id' = Ok c /\ IdRef_pc id' = Ok p /\ IdRef_number id' = Ok m).
Proof.
  intros H Hn. destruct (setters_ok _ _ _ _ H) as (S1 & S2 & S3). repeat split.
  - intros c'. destruct (S1 c') as (id' & E & H'). exists id'. split; [assumption | now apply accessors].
  - intros p'. destruct (S2 p') as (id' & E & H'). exists id'. split; [assumption | now apply accessors].
  - intros m Hm. destruct (S3 m Hm) as (id' & E & H'). exists id'. split; [assumption | now apply accessors].
Qed.

(** ** Length comparison *)
Lemma length_order a b c :
  (Length_eqb a b = true <-> exists n, a = Definite n /\ b = Definite n) /\
  (Length_eqb a b = true <-> Length_partial_cmp a b = Some Eq) /\
  (Length_partial_cmp a b = Some Lt <-> exists x y, a = Definite x /\ b = Definite y /\ x < y) /\
  (Length_partial_cmp a b = Some Gt <-> Length_partial_cmp b a = Some Lt) /\
  (Length_partial_cmp a b = None <-> a = Indefinite \/ b = Indefinite) /\
  (Length_partial_cmp a b = Some Lt -> Length_partial_cmp b c = Some Lt -> Length_partial_cmp a c = Some Lt) /\
  (Length_eqb a b = true -> Length_eqb b c = true -> Length_eqb a c = true) /\
  Length_eqb a b = Length_eqb b a.
Proof.
  unfold Length_eqb, Length_partial_cmp. destruct a as [|x], b as [|y]; cbn [Length_is_definite Length_definite option_N_eqb andb].
  1-3: repeat split; try discriminate; auto; try (intros (?&?&?); discriminate); try (intros (?&?&?&?&?); discriminate);
    try (intros [|]; discriminate).
  assert (EQ : (x =? y) = true <-> (x ?= y) = Eq) by (rewrite N.eqb_eq, N.compare_eq_iff; reflexivity).
  repeat split; try discriminate.
  - intros E. apply N.eqb_eq in E. exists x. split; congruence.
  - intros (n & E1 & E2). apply N.eqb_eq. congruence.
  - intros E. f_equal. now apply EQ.
  - intros E. apply EQ. congruence.
  - intros E. assert ((x ?= y) = Lt) by congruence. exists x, y. auto.
  - intros (x' & y' & E1 & E2 & L). assert (x = x') by congruence. assert (y = y') by congruence. subst. f_equal. exact L.
  - intros E. f_equal. rewrite N.compare_antisym. assert ((x ?= y) = Gt) as -> by congruence. reflexivity.
  - intros E. f_equal. rewrite N.compare_antisym. assert ((y ?= x) = Lt) as -> by congruence. reflexivity.
  - intros [|]; discriminate.
  - destruct c as [|z]; cbn [Length_definite]; [discriminate|]. intros E1 E2.
    assert (x < y) by (unfold N.lt; congruence). assert (y < z) by (unfold N.lt; congruence).
    f_equal. change (x < z). lia.
  - destruct c as [|z]; cbn [Length_definite option_N_eqb]; [discriminate|]. lia.
  - apply N.eqb_sym.
Qed.
