(** Lemmas about the TLV slice parsers. *)
From Verif Require Import Base ModelIo ModelTag ModelBuf ModelTlv Spec TagProofs IdProofs TagMain.

(** ** header *)
Lemma pbind_ok {S A B} (m : parser S A) (k : A -> parser S B) st a st' :
  m st = (Ok a, st') -> pbind m k st = k a st'.
Proof. intros H. unfold pbind. now rewrite H. Qed.
Lemma pbind_err {S A B} (m : parser S A) (k : A -> parser S B) st e st' :
  m st = (Err e, st') -> pbind m k st = (Err e, st').
Proof. intros H. unfold pbind. now rewrite H. Qed.

Definition header_slice (bs : list N) := parse_id_length slice_reader (slice_fuel bs) (bs, []).

Lemma header_definite id n len rest :
  is_identifier id -> minimal_length n len -> n < 2 ^ 64 -> bytes_ok rest ->
  header_slice (id ++ len ++ rest) = (Ok (Definite n), (rest, id ++ len)).
Proof.
  intros Hi Hm Hn Hr. pose proof (minimal_length_ok _ _ Hm) as Hml.
  assert (bytes_ok (len ++ rest)) by (apply bytes_ok_app; auto).
  unfold header_slice, parse_id_length. erewrite pbind_ok.
  2:{ apply parse_id_ok; auto. unfold slice_fuel. lia. }
  rewrite (parse_length_definite n); auto.
Qed.
Lemma header_indefinite id rest :
  is_identifier id -> bytes_ok rest ->
  header_slice (id ++ 0x80 :: rest) = (Ok Indefinite, (rest, id ++ [0x80])).
Proof.
  intros Hi Hr. unfold header_slice, parse_id_length. erewrite pbind_ok.
  2:{ apply parse_id_ok; auto. { apply bytes_ok_cons; split; [lia | assumption]. } unfold slice_fuel. lia. }
  rewrite parse_length_indefinite. reflexivity.
Qed.
Lemma header_id_error bs e : bytes_ok bs -> identifier_error bs e ->
  exists st, header_slice bs = (Err e, st).
Proof.
  intros Hok He. unfold header_slice, parse_id_length.
  destruct (parse_id_error bs e [] (slice_fuel bs) Hok) as (st & E); auto.
  { unfold slice_fuel; lia. }
  exists st. now apply pbind_err.
Qed.
Lemma header_length_error id t e : is_identifier id -> bytes_ok t -> length_error t e ->
  exists st, header_slice (id ++ t) = (Err e, st).
Proof.
  intros Hi Ht He. unfold header_slice, parse_id_length.
  erewrite pbind_ok. 2:{ apply parse_id_ok; auto. unfold slice_fuel. lia. }
  apply parse_length_error; auto.
Qed.

(** Every string of octets starts with a header, or is wrong in one way. *)
Inductive header_case (bs : list N) : Prop :=
| hc_definite id n len rest :
    bs = id ++ len ++ rest -> is_identifier id -> minimal_length n len -> n < 2 ^ 64 -> bytes_ok rest -> header_case bs
| hc_indefinite id rest : bs = id ++ 0x80 :: rest -> is_identifier id -> bytes_ok rest -> header_case bs
| hc_id e : identifier_error bs e -> header_case bs
| hc_len id t e : bs = id ++ t -> is_identifier id -> length_error t e -> bytes_ok t -> header_case bs.
Lemma header_total bs : bytes_ok bs -> header_case bs.
Proof.
  intros Hok. destruct (identifier_total bs Hok) as [(id & t & Hi & ->)|(e & He)]; [|eapply hc_id; eassumption].
  apply bytes_ok_app in Hok as [_ Ht].
  destruct (length_total t Ht) as [(r & ->)|[(n & l & r & Hm & Hn & ->)|(e & He)]].
  - apply bytes_ok_cons in Ht as [_ Hr]. eapply hc_indefinite; eauto.
  - apply bytes_ok_app in Ht as [_ Hr]. eapply hc_definite; eauto.
  - eapply hc_len; eauto.
Qed.

(** ** DER *)
Lemma DerRef_do_parse_eq bs : DerRef_do_parse bs =
  match header_slice bs with
  | (Ok Indefinite, (readable, _)) => (Err IndefiniteLength, readable)
  | (Ok (Definite length), (readable, _)) =>
      if nlen readable <? length then (Err UnterminatedBytes, readable)
      else (Ok tt, drop length readable)
  | (Err e, (readable, _)) => (Err e, readable)
  | (Panic, (readable, _)) => (Panic, readable)
  | (NoFuel, (readable, _)) => (NoFuel, readable)
  end.
Proof. reflexivity. Qed.

Lemma tlv_len_split {A} (v rest : list A) : nlen (v ++ rest) - nlen rest = nlen v.
Proof. rewrite nlen_app. lia. Qed.

Lemma der_tlv_parts id c bs : der_tlv id c bs ->
  exists len, bs = id ++ len ++ c /\ is_identifier id /\ minimal_length (nlen c) len /\ nlen c < 2 ^ 64.
Proof. intros [len Hi Hm Hn]. eauto 10. Qed.

Lemma der_accepts id c v rest : der_tlv id c v -> bytes_ok (v ++ rest) ->
  DerRef_do_parse (v ++ rest) = (Ok tt, rest).
Proof.
  intros H Hok. apply der_tlv_parts in H as (len & -> & Hi & Hm & Hn).
  rewrite DerRef_do_parse_eq. rewrite <- !app_assoc in *.
  apply bytes_ok_app in Hok as [_ Hok]. apply bytes_ok_app in Hok as [_ Hok].
  rewrite (header_definite id (nlen c) len (c ++ rest)); auto.
  rewrite drop_app_exact. destruct (N.ltb_spec (nlen (c ++ rest)) (nlen c)) as [L|L]; [|reflexivity].
  rewrite nlen_app in L. lia.
Qed.
Lemma der_rejects bs e : bytes_ok bs -> der_error bs e -> exists rest, DerRef_do_parse bs = (Err e, rest).
Proof.
  intros Hok He. rewrite DerRef_do_parse_eq. destruct He as [bs e He|id t e Hi He|id t Hi|id n len t Hi Hm Hn Hl].
  - destruct (header_id_error bs e Hok He) as ((r & w) & ->). eauto.
  - apply bytes_ok_app in Hok as [_ Hok]. destruct (header_length_error id t e Hi Hok He) as ((r & w) & ->). eauto.
  - apply bytes_ok_app in Hok as [_ Hok]. apply bytes_ok_cons in Hok as [_ Hok].
    rewrite header_indefinite by auto. eauto.
  - apply bytes_ok_app in Hok as [_ Hok]. apply bytes_ok_app in Hok as [_ Hok].
    rewrite (header_definite id n len t) by auto.
    destruct (N.ltb_spec (nlen t) n); [eauto | lia].
Qed.
(** Acceptance and the errors cover everything. *)
Lemma der_total bs : bytes_ok bs ->
  (exists id c v rest, der_tlv id c v /\ bs = v ++ rest) \/ (exists e, der_error bs e).
Proof.
  intros Hok. destruct (header_total bs Hok) as [id n len rest -> Hi Hm Hn Hr|id rest -> Hi Hr|e He|id t e -> Hi He Ht].
  - destruct (N.le_gt_cases n (nlen rest)) as [L|L].
    + left. exists id, (take n rest), (id ++ len ++ take n rest), (drop n rest).
      assert (nlen (take n rest) = n) by (rewrite nlen_take; lia).
      split.
      * constructor; rewrite ?H; auto.
      * rewrite <- !app_assoc, take_drop. reflexivity.
    + right. exists UnterminatedBytes. eapply de_truncated; eauto.
  - right. eexists. apply de_indefinite. assumption.
  - right. eexists. apply de_id. eassumption.
  - right. eexists. apply de_length; eassumption.
Qed.

Lemma DerRef_parse_ok id c v rest : der_tlv id c v -> bytes_ok (v ++ rest) ->
  DerRef_parse (v ++ rest) = (Ok v, rest) /\ DerRef_parse_mut (v ++ rest) = (Ok v, rest).
Proof.
  intros H Hok. unfold DerRef_parse, DerRef_parse_mut. rewrite (der_accepts id c v rest H Hok).
  rewrite tlv_len_split, take_app_exact, drop_app_exact. auto.
Qed.
Lemma DerRef_parse_err bs e : bytes_ok bs -> der_error bs e ->
  fst (DerRef_parse bs) = Err e /\ DerRef_parse_mut bs = (Err e, bs).
Proof.
  intros Hok He. unfold DerRef_parse, DerRef_parse_mut.
  destruct (der_rejects bs e Hok He) as (r & ->). auto.
Qed.

Lemma der_parse_iff bs v rest : bytes_ok bs ->
  (DerRef_parse bs = (Ok v, rest) <-> (exists id c, der_tlv id c v) /\ bs = v ++ rest).
Proof.
  intros Hok. split.
  - intros H. destruct (der_total bs Hok) as [(id & c & v' & r & Hd & ->)|(e & He)].
    + rewrite (proj1 (DerRef_parse_ok id c v' r Hd Hok)) in H. injection H as <- <-. eauto.
    + destruct (DerRef_parse_err bs e Hok He) as [E _]. rewrite H in E. discriminate.
  - intros [(id & c & Hd) ->]. now apply (DerRef_parse_ok id c v rest).
Qed.
Lemma der_err_iff bs e : bytes_ok bs -> (fst (DerRef_parse bs) = Err e <-> der_error bs e).
Proof.
  intros Hok. split.
  - intros H. destruct (der_total bs Hok) as [(id & c & v' & r & Hd & ->)|(e' & He)].
    + rewrite (proj1 (DerRef_parse_ok id c v' r Hd Hok)) in H. discriminate.
    + destruct (DerRef_parse_err bs e' Hok He) as [E _]. rewrite H in E. now injection E as ->.
  - intros He. now apply DerRef_parse_err.
Qed.
Lemma der_no_panic bs : bytes_ok bs -> fst (DerRef_parse bs) <> Panic /\ fst (DerRef_parse bs) <> NoFuel.
Proof.
  intros Hok. destruct (der_total bs Hok) as [(id & c & v' & r & Hd & ->)|(e' & He)].
  - rewrite (proj1 (DerRef_parse_ok id c v' r Hd Hok)). split; discriminate.
  - destruct (DerRef_parse_err bs e' Hok He) as [-> _]. split; discriminate.
Qed.
Lemma der_parse_mut_same bs : bytes_ok bs ->
  fst (DerRef_parse_mut bs) = fst (DerRef_parse bs) /\
  (forall v rest, DerRef_parse_mut bs = (Ok v, rest) <-> DerRef_parse bs = (Ok v, rest)) /\
  (forall e, fst (DerRef_parse_mut bs) = Err e -> snd (DerRef_parse_mut bs) = bs).
Proof.
  intros Hok. destruct (der_total bs Hok) as [(id & c & v' & r & Hd & ->)|(e' & He)].
  - destruct (DerRef_parse_ok id c v' r Hd Hok) as [-> ->]. repeat split; intros; auto; discriminate.
  - destruct (DerRef_parse_err bs e' Hok He) as [E ->]. rewrite E. repeat split; auto.
    + intros; discriminate.
    + intros H. rewrite H in E. discriminate.
Qed.

Lemma der_tlv_prefix id c v id' c' v' r r' :
  der_tlv id c v -> der_tlv id' c' v' -> v ++ r = v' ++ r' -> id = id' /\ c = c' /\ v = v' /\ r = r'.
Proof.
  intros H H' E. apply der_tlv_parts in H as (len & -> & Hi & Hm & Hn). apply der_tlv_parts in H' as (len' & -> & Hi' & Hm' & Hn').
  rewrite <- !app_assoc in E.
  destruct (is_identifier_prefix _ _ _ _ Hi Hi' E) as [-> E2].
  destruct (minimal_length_prefix _ _ _ _ _ _ Hm Hm' E2) as (En & -> & E3).
  destruct (app_len_inj _ _ _ _ En E3) as [-> ->]. auto.
Qed.

Lemma der_tlv_ok id c v : der_tlv id c v -> (bytes_ok v <-> bytes_ok c).
Proof.
  intros H. apply der_tlv_parts in H as (len & -> & Hi & Hm & Hn).
  rewrite !bytes_ok_app. split; [tauto|]. intros. repeat split; auto.
  - now apply is_identifier_ok.
  - now apply minimal_length_ok with (nlen c).
Qed.
Lemma der_tlv_nonempty id c v : der_tlv id c v -> v <> [].
Proof.
  intros H. apply der_tlv_parts in H as (len & -> & Hi & Hm & Hn).
  pose proof (is_identifier_nonempty _ Hi). destruct id; [congruence | discriminate].
Qed.

(** ** BER grammar facts *)
Lemma eoc_tlv : der_tlv [0] [] [0; 0].
Proof.
  change [0; 0] with ([0] ++ [0] ++ []). constructor.
  - exists 0, 0, 0. change [0] with [0 * 64 + 0 * 32 + 0]. constructor; lia.
  - rewrite nlen_nil. constructor. lia.
  - rewrite nlen_nil. lia.
Qed.
Lemma zero_identifier t bs r : is_identifier t -> t ++ r = 0 :: bs -> t = [0] /\ r = bs.
Proof.
  intros H E. apply is_identifier_cases in H as [(f & Hf & Hm & ->)|(f & hi & lo & (Hf & Hm & _) & ->)];
    cbn [app] in E; apply cons_inj in E as [-> E].
  - auto.
  - exfalso. revert Hm. vm_compute. discriminate.
Qed.
Lemma zero_length n len bs r : minimal_length n len -> len ++ r = 0 :: bs -> n = 0 /\ len = [0] /\ r = bs.
Proof.
  intros H E. destruct H as [n Hn|n d ds Hn Hok Hd Hv Hl]; cbn [app] in E; apply cons_inj in E as [E1 E].
  - subst. auto.
  - rewrite nlen_cons in E1. lia.
Qed.
Lemma der_starts_eoc id c v r : der_tlv id c v -> starts_with (v ++ r) EOC = true -> v = [0; 0].
Proof.
  intros H S. apply starts_with_spec in S as (t & E). unfold EOC in E. cbn [app] in E.
  apply der_tlv_parts in H as (len & -> & Hi & Hm & Hn). rewrite <- !app_assoc in E.
  apply (zero_identifier id) in E as [-> E]; auto.
  apply (zero_length (nlen c) len) in E as (E0 & -> & _); auto.
  apply nlen_zero in E0. now subst.
Qed.
Lemma indef_not_eoc id r : is_identifier id -> starts_with (id ++ 0x80 :: r) EOC = false.
Proof.
  intros H. destruct (starts_with (id ++ 0x80 :: r) EOC) eqn:S; [|reflexivity].
  apply starts_with_spec in S as (t & E). unfold EOC in E. cbn [app] in E.
  apply (zero_identifier id) in E as [_ E]; auto. apply cons_inj in E as [E _]. discriminate.
Qed.
Lemma ber_error_not_eoc bs e : ber_error bs e -> starts_with bs EOC = false.
Proof.
  intros H. destruct (starts_with bs EOC) eqn:S; [exfalso|reflexivity].
  apply starts_with_spec in S as (t & E). unfold EOC in E. cbn [app] in E.
  destruct H as [bs e He|id t' e Hi He|id n len t' Hi Hm Hn Hl|id items t' e Hi Hit He].
  - subst bs. apply (identifier_not_error [0] (0 :: t) e); [|exact He].
    exists 0, 0, 0. change [0] with [0 * 64 + 0 * 32 + 0]. constructor; lia.
  - apply (zero_identifier id) in E as [_ ->]; auto. inversion He; subst; lia.
  - apply (zero_identifier id) in E as [_ E]; auto.
    apply (zero_length n len) in E as (-> & _); auto. lia.
  - apply (zero_identifier id) in E as [_ E]; auto. apply cons_inj in E as [E _]. discriminate.
Qed.

Lemma ber_value_nonempty v : ber_value v -> v <> [].
Proof.
  intros [id c bs H|id items H _].
  - eapply der_tlv_nonempty; eassumption.
  - pose proof (is_identifier_nonempty _ H). destruct id; [congruence | discriminate].
Qed.
Lemma ber_value_starts_eoc v r : ber_value v -> starts_with (v ++ r) EOC = true -> v = [0; 0].
Proof.
  intros [id c bs H|id items H _] S.
  - eapply der_starts_eoc; eassumption.
  - rewrite <- !app_assoc in S. cbn [app] in S. rewrite indef_not_eoc in S by assumption. discriminate.
Qed.

Scheme ber_value_mind := Induction for ber_value Sort Prop
  with ber_items_mind := Induction for ber_items Sort Prop.
Combined Scheme ber_mutind from ber_value_mind, ber_items_mind.

(** ** the loop *)
Lemma do_parse_eoc r : BerRef_do_parse (EOC ++ r) = (Ok (-1)%Z, r).
Proof. reflexivity. Qed.
Lemma do_parse_header bs : starts_with bs EOC = false -> BerRef_do_parse bs =
  match header_slice bs with
  | (Ok (Definite contents_len), (readable, _)) =>
      if nlen readable <? contents_len then (Err UnterminatedBytes, readable)
      else (Ok 0%Z, drop contents_len readable)
  | (Ok Indefinite, (readable, _)) => (Ok 1%Z, readable)
  | (Err e, (readable, _)) => (Err e, readable)
  | (Panic, (readable, _)) => (Panic, readable)
  | (NoFuel, (readable, _)) => (NoFuel, readable)
  end.
Proof. intros H. unfold BerRef_do_parse. now rewrite H. Qed.
Lemma do_parse_definite id c v r : der_tlv id c v -> v <> [0; 0] -> bytes_ok (v ++ r) ->
  BerRef_do_parse (v ++ r) = (Ok 0%Z, r).
Proof.
  intros H NE Hok. rewrite do_parse_header.
  2:{ destruct (starts_with (v ++ r) EOC) eqn:S; [|reflexivity]. exfalso. apply NE. eapply der_starts_eoc; eassumption. }
  apply der_tlv_parts in H as (len & -> & Hi & Hm & Hn). rewrite <- !app_assoc in *.
  apply bytes_ok_app in Hok as [_ Hok]. apply bytes_ok_app in Hok as [_ Hok].
  rewrite (header_definite id (nlen c) len (c ++ r)) by auto.
  rewrite drop_app_exact. destruct (N.ltb_spec (nlen (c ++ r)) (nlen c)) as [L|L]; [|reflexivity].
  rewrite nlen_app in L. lia.
Qed.
Lemma do_parse_indefinite id r : is_identifier id -> bytes_ok r ->
  BerRef_do_parse (id ++ 0x80 :: r) = (Ok 1%Z, r).
Proof.
  intros H Hr. rewrite do_parse_header by (now apply indef_not_eoc). now rewrite header_indefinite.
Qed.

(** One iteration, by cases on the input. *)
Inductive step_case (bs : list N) : Prop :=
| sc_eoc r : bs = EOC ++ r -> bytes_ok r -> step_case bs
| sc_definite id c v r : bs = v ++ r -> der_tlv id c v -> v <> [0; 0] -> bytes_ok r -> step_case bs
| sc_indefinite id r : bs = id ++ 0x80 :: r -> is_identifier id -> bytes_ok r -> step_case bs
| sc_error e r : BerRef_do_parse bs = (Err e, r) -> ber_error bs e -> step_case bs.
Lemma step_total bs : bytes_ok bs -> step_case bs.
Proof.
  intros Hok. destruct (starts_with bs EOC) eqn:S.
  { apply starts_with_spec in S as (r & ->). apply bytes_ok_app in Hok as [_ Hr]. now apply sc_eoc with r. }
  destruct (header_total bs Hok) as [id n len rest -> Hi Hm Hn Hr|id rest -> Hi Hr|e He|id t e -> Hi He Ht].
  - destruct (N.le_gt_cases n (nlen rest)) as [L|L].
    + assert (E : nlen (take n rest) = n) by (rewrite nlen_take; lia).
      assert (D : der_tlv id (take n rest) (id ++ len ++ take n rest)) by (constructor; rewrite ?E; auto).
      apply sc_definite with id (take n rest) (id ++ len ++ take n rest) (drop n rest); auto.
      * rewrite <- !app_assoc, take_drop. reflexivity.
      * intros E0. assert (Hs : starts_with ((id ++ len ++ take n rest) ++ drop n rest) EOC = true) by (rewrite E0; reflexivity).
        rewrite <- !app_assoc, take_drop in Hs. congruence.
      * now apply bytes_ok_drop.
    + assert (He : ber_error (id ++ len ++ rest) UnterminatedBytes) by (eapply bre_truncated; eauto).
      eapply sc_error; [|exact He]. rewrite do_parse_header by assumption.
      rewrite (header_definite id n len rest) by auto. destruct (N.ltb_spec (nlen rest) n); [reflexivity | lia].
  - now apply sc_indefinite with id rest.
  - destruct (header_id_error bs e Hok He) as ((r & w) & E).
    apply sc_error with e r; [|now apply bre_id]. rewrite do_parse_header, E by assumption. reflexivity.
  - destruct (header_length_error id t e Hi Ht He) as ((r & w) & E).
    apply sc_error with e r; [|now apply bre_length]. rewrite do_parse_header, E by assumption. reflexivity.
Qed.

(** What the loop has to find at depth [d]: [d] closings, each after items. *)
Inductive closes : nat -> list N -> Prop :=
| cl_0 : closes 0 []
| cl_S d items tl : ber_items items -> closes d tl -> closes (S d) (items ++ [0; 0] ++ tl).

(** Loop at depth >= 1: sound, and errors are explained by [open_error]. *)
Inductive open_error : nat -> list N -> error -> Prop :=
| oe_here d items t e : ber_items items -> ber_error t e -> open_error (S d) (items ++ t) e
| oe_close d items t e : ber_items items -> open_error (S d) t e -> open_error (S (S d)) (items ++ [0; 0] ++ t) e.

Lemma closes_item d v body : ber_value v -> v <> [0; 0] -> closes (S d) body -> closes (S d) (v ++ body).
Proof.
  intros Hv NE H. inversion H as [|d' items tl Hi Ht]; subst. rewrite app_assoc.
  apply cl_S; [|assumption]. now apply bi_cons.
Qed.
Lemma closes_open d id body : is_identifier id -> closes (S (S d)) body -> closes (S d) (id ++ 0x80 :: body).
Proof.
  intros Hi H. inversion H as [|d' items tl Hit Ht]; subst. inversion Ht as [|d'' items2 tl2 Hit2 Ht2]; subst.
  replace (id ++ 0x80 :: items ++ [0; 0] ++ items2 ++ [0; 0] ++ tl2)
    with ((id ++ [0x80] ++ items ++ [0; 0]) ++ items2 ++ [0; 0] ++ tl2)
    by (rewrite <- !app_assoc; reflexivity).
  apply closes_item.
  - now apply bv_indefinite.
  - intros E. pose proof (indef_not_eoc id (items ++ [0; 0]) Hi) as NE.
    change (0x80 :: items ++ [0; 0]) with ([0x80] ++ items ++ [0; 0]) in NE. rewrite E in NE. discriminate.
  - now apply cl_S.
Qed.
Lemma open_error_item d v t e : ber_value v -> v <> [0; 0] -> open_error (S d) t e -> open_error (S d) (v ++ t) e.
Proof.
  intros Hv NE H. inversion H as [d' items t' e' Hi He|d' items t' e' Hi He]; subst; rewrite app_assoc.
  - apply oe_here; [now apply bi_cons | assumption].
  - apply oe_close; [now apply bi_cons | assumption].
Qed.
Lemma open_error_open d id t e : is_identifier id -> open_error (S (S d)) t e -> open_error (S d) (id ++ 0x80 :: t) e.
Proof.
  intros Hid H. inversion H as [d' items t' e' Hi He|d' items t' e' Hi He]; subst.
  - apply (oe_here d [] _ e bi_nil).
    change (id ++ 0x80 :: items ++ t') with (id ++ [0x80] ++ items ++ t'). now apply bre_inside.
  - replace (id ++ 0x80 :: items ++ [0; 0] ++ t') with ((id ++ [0x80] ++ items ++ [0; 0]) ++ t')
      by (rewrite <- !app_assoc; reflexivity).
    apply open_error_item.
    + now apply bv_indefinite.
    + intros E. pose proof (indef_not_eoc id (items ++ [0; 0]) Hid) as NE.
      change (0x80 :: items ++ [0; 0]) with ([0x80] ++ items ++ [0; 0]) in NE. rewrite E in NE. discriminate.
    + assumption.
Qed.

Lemma id_len_pos id : is_identifier id -> (1 <= length id)%nat.
Proof. intros H. pose proof (is_identifier_nonempty _ H). destruct id; [congruence | simpl; lia]. Qed.
Lemma v_len_pos v : v <> [] -> (1 <= @length N v)%nat.
Proof. destruct v; [congruence | simpl; lia]. Qed.

Lemma loop_sound fuel : forall d bs, bytes_ok bs -> (length bs < fuel)%nat ->
  (exists body rest, BerRef_loop fuel (Z.of_nat (S d)) bs = (Ok tt, rest) /\ bs = body ++ rest /\ closes (S d) body) \/
  (exists e rest, BerRef_loop fuel (Z.of_nat (S d)) bs = (Err e, rest) /\ open_error (S d) bs e).
Proof.
  induction fuel as [|fuel IH]; intros d bs Hok Hf; [lia|].
  cbn [BerRef_loop].
  destruct (step_total bs Hok) as [r -> Hr|id c v r -> Hd NE Hr|id r -> Hi Hr|e r E He].
  - rewrite do_parse_eoc. rewrite app_length in Hf. simpl in Hf.
    replace (Z.of_nat (S d) + -1)%Z with (Z.of_nat d) by lia.
    destruct d as [|d].
    + left. exists [0; 0], r. split; [reflexivity|]. split; [reflexivity|].
      apply (cl_S 0 [] []); constructor.
    + destruct (Z.ltb_spec 0 (Z.of_nat (S d))); [|lia].
      destruct (IH d r Hr ltac:(lia)) as [(body & rest & E & -> & C)|(e & rest & E & O)].
      * left. exists (EOC ++ body), rest. rewrite E. split; [reflexivity|]. split; [now rewrite app_assoc|].
        apply (cl_S (S d) [] body); [constructor | assumption].
      * right. exists e, rest. rewrite E. split; [reflexivity|]. apply (oe_close d [] r e); [constructor | assumption].
  - rewrite (do_parse_definite id c v r) by auto. rewrite app_length in Hf.
    pose proof (v_len_pos v (der_tlv_nonempty _ _ _ Hd)).
    rewrite Z.add_0_r. destruct (Z.ltb_spec 0 (Z.of_nat (S d))); [|lia].
    destruct (IH d r Hr ltac:(lia)) as [(body & rest & E & -> & C)|(e & rest & E & O)].
    * left. exists (v ++ body), rest. rewrite E. split; [reflexivity|]. split; [now rewrite app_assoc|].
      apply closes_item; auto. now apply bv_definite with id c.
    * right. exists e, rest. rewrite E. split; [reflexivity|]. apply open_error_item; auto. now apply bv_definite with id c.
  - rewrite do_parse_indefinite by auto. rewrite app_length in Hf. simpl in Hf.
    replace (Z.of_nat (S d) + 1)%Z with (Z.of_nat (S (S d))) by lia.
    destruct (Z.ltb_spec 0 (Z.of_nat (S (S d)))); [|lia].
    destruct (IH (S d) r Hr ltac:(lia)) as [(body & rest & E & -> & C)|(e & rest & E & O)].
    * left. exists (id ++ 0x80 :: body), rest. rewrite E. split; [reflexivity|].
      split; [now rewrite <- app_assoc|]. now apply closes_open.
    * right. exists e, rest. rewrite E. split; [reflexivity|]. now apply open_error_open.
  - rewrite E. right. exists e, r. split; [reflexivity|].
    apply (oe_here d [] bs e); [constructor | assumption].
Qed.

(** Completeness: the loop runs over values and items. *)
Lemma loop_complete :
  (forall v, ber_value v -> v <> [0; 0] -> forall d r fuel, bytes_ok (v ++ r) -> (length (v ++ r) < fuel)%nat ->
     exists fuel', (length r < fuel')%nat /\
       BerRef_loop fuel (Z.of_nat (S d)) (v ++ r) = BerRef_loop fuel' (Z.of_nat (S d)) r) /\
  (forall items, ber_items items -> forall d r fuel, bytes_ok (items ++ r) -> (length (items ++ r) < fuel)%nat ->
     exists fuel', (length r < fuel')%nat /\
       BerRef_loop fuel (Z.of_nat (S d)) (items ++ r) = BerRef_loop fuel' (Z.of_nat (S d)) r).
Proof.
  apply ber_mutind.
  - intros id c v Hd NE d r fuel Hok Hf. destruct fuel as [|fuel]; [lia|].
    rewrite app_length in Hf. pose proof (v_len_pos v (der_tlv_nonempty _ _ _ Hd)).
    exists fuel. split; [lia|]. cbn [BerRef_loop]. rewrite (do_parse_definite id c v r) by auto.
    rewrite Z.add_0_r. destruct (Z.ltb_spec 0 (Z.of_nat (S d))); [reflexivity | lia].
  - intros id items Hi Hit IH _ d r fuel Hok Hf. destruct fuel as [|fuel]; [lia|].
    replace ((id ++ [0x80] ++ items ++ [0; 0]) ++ r) with (id ++ 0x80 :: items ++ EOC ++ r) in *
      by (rewrite <- !app_assoc; reflexivity).
    assert (Hok2 : bytes_ok (items ++ EOC ++ r)).
    { apply bytes_ok_app in Hok as [_ Hok]. now apply bytes_ok_cons in Hok as [_ Hok]. }
    rewrite app_length in Hf. cbn [length] in Hf.
    destruct (IH (S d) (EOC ++ r) fuel Hok2 ltac:(lia)) as (f1 & Hf1 & E1).
    rewrite app_length in Hf1. cbn [length EOC] in Hf1. destruct f1 as [|f2]; [lia|].
    exists f2. split; [lia|].
    cbn [BerRef_loop]. rewrite do_parse_indefinite by auto.
    replace (Z.of_nat (S d) + 1)%Z with (Z.of_nat (S (S d))) by lia.
    destruct (Z.ltb_spec 0 (Z.of_nat (S (S d)))); [|lia].
    rewrite E1. cbn [BerRef_loop]. rewrite do_parse_eoc.
    replace (Z.of_nat (S (S d)) + -1)%Z with (Z.of_nat (S d)) by lia.
    destruct (Z.ltb_spec 0 (Z.of_nat (S d))); [reflexivity | lia].
  - intros d r fuel Hok Hf. exists fuel. auto.
  - intros v items Hv IHv NE Hit IHi d r fuel Hok Hf.
    rewrite <- app_assoc in *. destruct (IHv NE d (items ++ r) fuel Hok Hf) as (f1 & Hf1 & ->).
    apply bytes_ok_app in Hok as [_ Hok]. now apply IHi.
Qed.

Lemma loop_error bs e : ber_error bs e -> forall d fuel, bytes_ok bs -> (length bs < fuel)%nat ->
  exists rest, BerRef_loop fuel (Z.of_nat d) bs = (Err e, rest).
Proof.
  induction 1 as [bs e He|id t e Hi He|id n len t Hi Hm Hn Hl|id items t e Hi Hit He IH]; intros d fuel Hok Hf;
    (destruct fuel as [|fuel]; [lia|]); cbn [BerRef_loop].
  - rewrite do_parse_header by (eapply ber_error_not_eoc, bre_id; eassumption).
    destruct (header_id_error bs e Hok He) as ((r & w) & ->). eauto.
  - rewrite do_parse_header by (eapply ber_error_not_eoc, bre_length; eassumption).
    apply bytes_ok_app in Hok as [_ Hok]. destruct (header_length_error id t e Hi Hok He) as ((r & w) & ->). eauto.
  - rewrite do_parse_header by (eapply ber_error_not_eoc, bre_truncated; eassumption).
    apply bytes_ok_app in Hok as [_ Hok]. apply bytes_ok_app in Hok as [_ Hok].
    rewrite (header_definite id n len t) by auto. destruct (N.ltb_spec (nlen t) n); [eauto | lia].
  - change (id ++ [0x80] ++ items ++ t) with (id ++ 0x80 :: items ++ t) in *.
    assert (Hok2 : bytes_ok (items ++ t)).
    { apply bytes_ok_app in Hok as [_ Hok]. now apply bytes_ok_cons in Hok as [_ Hok]. }
    rewrite app_length in Hf. cbn [length] in Hf.
    rewrite do_parse_indefinite by auto.
    replace (Z.of_nat d + 1)%Z with (Z.of_nat (S d)) by lia.
    destruct (Z.ltb_spec 0 (Z.of_nat (S d))); [|lia].
    destruct (proj2 loop_complete items Hit d t fuel Hok2 ltac:(lia)) as (f1 & Hf1 & ->).
    apply bytes_ok_app in Hok2 as [_ Hok2]. now apply IH.
Qed.

(** ** BerRef::parse *)
Lemma ber_loop_accepts v rest fuel : ber_value v -> bytes_ok (v ++ rest) -> (length (v ++ rest) < fuel)%nat ->
  BerRef_loop fuel 0 (v ++ rest) = (Ok tt, rest).
Proof.
  intros Hv Hok Hf. destruct fuel as [|fuel]; [lia|].
  destruct Hv as [id c v Hd|id items Hi Hit]; cbn [BerRef_loop].
  - destruct (list_eq_dec N.eq_dec v [0; 0]) as [->|NE].
    + rewrite do_parse_eoc. reflexivity.
    + rewrite (do_parse_definite id c v rest) by auto. reflexivity.
  - replace ((id ++ [0x80] ++ items ++ [0; 0]) ++ rest) with (id ++ 0x80 :: items ++ EOC ++ rest) in *
      by (rewrite <- !app_assoc; reflexivity).
    assert (Hok2 : bytes_ok (items ++ EOC ++ rest)).
    { apply bytes_ok_app in Hok as [_ Hok]. now apply bytes_ok_cons in Hok as [_ Hok]. }
    rewrite app_length in Hf. cbn [length] in Hf.
    rewrite do_parse_indefinite by auto. change (0 <? 0 + 1)%Z with true. cbv iota.
    change (0 + 1)%Z with (Z.of_nat 1).
    destruct (proj2 loop_complete items Hit 0%nat (EOC ++ rest) fuel Hok2 ltac:(lia)) as (f1 & Hf1 & ->).
    destruct f1 as [|f1]; [rewrite app_length in Hf1; cbn in Hf1; lia|].
    cbn [BerRef_loop]. rewrite do_parse_eoc. reflexivity.
Qed.

Lemma ber_total bs : bytes_ok bs ->
  (exists v rest, ber_value v /\ bs = v ++ rest) \/ (exists e, ber_error bs e).
Proof.
  intros Hok. destruct (step_total bs Hok) as [r -> Hr|id c v r -> Hd NE Hr|id r -> Hi Hr|e r E He].
  - left. exists [0; 0], r. split; [|reflexivity]. apply bv_definite with [0] []. apply eoc_tlv.
  - left. exists v, r. split; [|reflexivity]. now apply bv_definite with id c.
  - destruct (loop_sound (S (length r)) 0 r Hr ltac:(lia)) as [(body & rest & _ & -> & C)|(e & rest & _ & O)].
    + left. inversion C as [|d items tl Hit Ht]; subst. inversion Ht; subst.
      exists (id ++ [0x80] ++ items ++ [0; 0]), rest. split; [now apply bv_indefinite|].
      rewrite <- !app_assoc. reflexivity.
    + right. exists e. inversion O; subst. 
      now apply (bre_inside id items t e).
  - right. eauto.
Qed.

Lemma BerRef_parse_ok v rest : ber_value v -> bytes_ok (v ++ rest) ->
  BerRef_parse (v ++ rest) = (Ok v, rest) /\ BerRef_parse_mut (v ++ rest) = (Ok v, rest).
Proof.
  intros Hv Hok. unfold BerRef_parse, BerRef_parse_mut.
  rewrite ber_loop_accepts by (auto; unfold slice_fuel; lia).
  rewrite tlv_len_split, take_app_exact, drop_app_exact. auto.
Qed.
Lemma BerRef_parse_err bs e : bytes_ok bs -> ber_error bs e ->
  fst (BerRef_parse bs) = Err e /\ BerRef_parse_mut bs = (Err e, bs).
Proof.
  intros Hok He. unfold BerRef_parse, BerRef_parse_mut.
  destruct (loop_error bs e He 0 (slice_fuel bs) Hok) as (r & E); [unfold slice_fuel; lia|].
  change (Z.of_nat 0) with 0%Z in E. rewrite E. auto.
Qed.
Lemma ber_parse_iff bs v rest : bytes_ok bs ->
  (BerRef_parse bs = (Ok v, rest) <-> ber_value v /\ bs = v ++ rest).
Proof.
  intros Hok. split.
  - intros H. destruct (ber_total bs Hok) as [(v' & r & Hv & ->)|(e & He)].
    + rewrite (proj1 (BerRef_parse_ok v' r Hv Hok)) in H. injection H as <- <-. auto.
    + destruct (BerRef_parse_err bs e Hok He) as [E _]. rewrite H in E. discriminate.
  - intros [Hv ->]. now apply BerRef_parse_ok.
Qed.
Lemma ber_err_iff bs e : bytes_ok bs -> (fst (BerRef_parse bs) = Err e <-> ber_error bs e).
Proof.
  intros Hok. split.
  - intros H. destruct (ber_total bs Hok) as [(v' & r & Hv & ->)|(e' & He)].
    + rewrite (proj1 (BerRef_parse_ok v' r Hv Hok)) in H. discriminate.
    + destruct (BerRef_parse_err bs e' Hok He) as [E _]. rewrite H in E. now injection E as ->.
  - intros He. now apply BerRef_parse_err.
Qed.
Lemma ber_no_panic bs : bytes_ok bs -> fst (BerRef_parse bs) <> Panic /\ fst (BerRef_parse bs) <> NoFuel.
Proof.
  intros Hok. destruct (ber_total bs Hok) as [(v' & r & Hv & ->)|(e' & He)].
  - rewrite (proj1 (BerRef_parse_ok v' r Hv Hok)). split; discriminate.
  - destruct (BerRef_parse_err bs e' Hok He) as [-> _]. split; discriminate.
Qed.
Lemma ber_parse_mut_same bs : bytes_ok bs ->
  fst (BerRef_parse_mut bs) = fst (BerRef_parse bs) /\
  (forall v rest, BerRef_parse_mut bs = (Ok v, rest) <-> BerRef_parse bs = (Ok v, rest)) /\
  (forall e, fst (BerRef_parse_mut bs) = Err e -> snd (BerRef_parse_mut bs) = bs).
Proof.
  intros Hok. destruct (ber_total bs Hok) as [(v' & r & Hd & ->)|(e' & He)].
  - destruct (BerRef_parse_ok v' r Hd Hok) as [-> ->]. repeat split; intros; auto; discriminate.
  - destruct (BerRef_parse_err bs e' Hok He) as [E ->]. rewrite E. repeat split; auto.
    + intros; discriminate.
    + intros H. rewrite H in E. discriminate.
Qed.
Lemma ber_value_prefix v v' r r' : bytes_ok (v ++ r) ->
  ber_value v -> ber_value v' -> v ++ r = v' ++ r' -> v = v' /\ r = r'.
Proof.
  intros Hok Hv Hv' E.
  pose proof (proj1 (BerRef_parse_ok v r Hv Hok)) as P. rewrite E in *.
  pose proof (proj1 (BerRef_parse_ok v' r' Hv' Hok)) as P'. rewrite P in P'. now injection P' as -> ->.
Qed.
