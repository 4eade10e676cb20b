(** Entry points of serialisation and deserialisation, map entries, failing writers. *)
From Verif Require Import Base ModelError ModelIo ModelTag ModelContents ModelBuf ModelTlv ModelSerde Spec SpecIo SpecSerde.
From Verif Require Import TagProofs IdProofs TagMain ContentsProofs TlvProofs BufProofs TlvMain StreamProofs StreamMain.
From Verif Require Import SerdeOctets SerdeSer SerdeDe SerdeMain.

(** ** Decoding entry points *)
Lemma serde_der_eq {T} (D : deserialize T) id c bs : der_tlv id c bs -> serde_from_der D bs = from_der D id c.
Proof. intros H. unfold serde_from_der. destruct (der_tlv_disassemble _ _ _ H) as (_ & _ & _ & ->). reflexivity. Qed.
Lemma parse_der_eq {T} (D : deserialize T) id c bs rest : der_tlv id c bs -> bytes_ok (bs ++ rest) ->
  parse_der D (bs ++ rest) = (from_der D id c, rest).
Proof.
  intros H Hok. unfold parse_der. rewrite (proj1 (DerRef_parse_ok _ _ _ _ H Hok)). f_equal. now apply serde_der_eq.
Qed.
Lemma read_der_eq {T} (D : deserialize T) {S} (R : reader S) content inv s fuel id c bs rest :
  greedy R content inv -> inv s -> der_tlv id c bs -> content s = bs ++ rest -> bytes_ok (content s) ->
  nlen (content s) <= isize_max -> (length (content s) <= fuel)%nat ->
  exists s', read_der D R fuel s = (from_der D id c, s') /\ content s' = rest.
Proof.
  intros G I H Ec Hok L F.
  destruct (greedy_chunks_der _ _ R slice_reader content (fun s => s) inv (fun _ => True) fuel s (content s) G slice_greedy I Logic.I eq_refl) as [A B].
  assert (Der_parse slice_reader fuel (content s) = (Ok bs, rest)) as P.
  { apply same_der; [assumption..|]. rewrite Ec in *. now apply (DerRef_parse_ok _ _ _ _ H). }
  rewrite P in A, B. cbn [fst snd] in A, B. unfold read_der. destruct (Der_parse R fuel s) as [r s']. cbn [fst snd] in A, B. subst r.
  exists s'. split; [f_equal; now apply serde_der_eq | assumption].
Qed.
Lemma parse_ber_eq {T} (D : deserialize T) bs rest : ber_value bs -> bytes_ok (bs ++ rest) ->
  parse_ber D (bs ++ rest) = (serde_from_ber D bs, rest).
Proof. intros H Hok. unfold parse_ber. now rewrite (proj1 (BerRef_parse_ok _ _ H Hok)). Qed.
Lemma read_ber_eq {T} (D : deserialize T) {S} (R : reader S) content inv s fuel bs rest :
  steady R content inv -> inv s -> ber_value bs -> content s = bs ++ rest -> bytes_ok (content s) ->
  nlen (content s) <= isize_max -> (length (content s) + 2 <= fuel)%nat ->
  exists s', read_ber D R fuel s = (serde_from_ber D bs, s') /\ content s' = rest.
Proof.
  intros G I H Ec Hok L F.
  destruct (chunks_ber _ _ R slice_reader content (fun s => s) inv (fun _ => True) fuel s (content s) G (greedy_steady _ _ _ slice_greedy) I Logic.I eq_refl F) as [A B].
  assert (Ber_parse slice_reader fuel (content s) = (Ok bs, rest)) as P.
  { apply same_ber; [assumption..|]. rewrite Ec in *. now apply (BerRef_parse_ok _ _ H). }
  rewrite P in A, B. cbn [fst snd] in A, B. unfold read_ber. destruct (Ber_parse R fuel s) as [r s']. cbn [fst snd] in A, B. subst r.
  exists s'. split; [reflexivity | assumption].
Qed.

(** ** Serialising entry points *)
Lemma entry_points E {T} (S : serialize T) v id c : serialises S v id c -> is_identifier id -> bytes_ok c -> nlen (tlv id c) <= isize_max ->
  der_tlv id c (tlv id c) /\
  (exists b, to_der E S v = Ok b /\ to_ber E S v = Ok b /\ holds b (tlv id c)) /\
  emits (fun _ W => write_der E S W v) (tlv id c) /\ emits (fun _ W => write_ber E S W v) (tlv id c) /\
  DerRef_parse (tlv id c) = (Ok (tlv id c), []).
Proof.
  intros SS I Hc L. pose proof (tlv_contents_le id c) as Lc.
  assert (nlen c < 2 ^ 64) as L64 by (unfold isize_max in L; lia).
  pose proof (tlv_der id c I L64) as D. split; [assumption|].
  destruct (to_der_ok E S v id c SS L) as (b & Eb & Hb). split; [exists b; auto|].
  assert (emits (fun _ W => write_der E S W v) (tlv id c)) as W by (apply write_der_emits; [assumption | lia]).
  split; [assumption|]. split; [assumption|].
  rewrite <- (app_nil_r (tlv id c)) at 1. apply (DerRef_parse_ok _ _ _ [] D). rewrite app_nil_r. now apply tlv_ok.
Qed.

(** ** Round trips of lawful types *)
Section RoundTrip.
Context (E : env) (C : codec) (S : serialize (car C)) (D : deserialize (car C)) (L : laws E C S D).
Lemma der_fits v : nlen (der_of C v) <= isize_max -> nlen (contents_of C v) <= isize_max /\ nlen (contents_of C v) < usize_limit.
Proof. intros H. pose proof (tlv_contents_le (id_of C v) (contents_of C v)). unfold der_of in H. split; [lia|]. apply isize_lt. lia. Qed.
Lemma der_of_tlv v : wf C v -> nlen (der_of C v) <= isize_max -> der_tlv (id_of C v) (contents_of C v) (der_of C v) /\ bytes_ok (der_of C v).
Proof.
  intros W H. destruct (der_fits v H) as [H1 H2]. destruct (l_codec _ _ _ _ L v W) as [I Hc]. unfold der_of in *. split.
  - apply tlv_der; [assumption | change (2 ^ 64) with usize_limit; lia].
  - apply tlv_ok; [assumption | change (2 ^ 64) with usize_limit; lia | auto].
Qed.
Lemma to_der_law v : wf C v -> nlen (der_of C v) <= isize_max -> exists b, to_der E S v = Ok b /\ bf_slice b = der_of C v.
Proof.
  intros W H. destruct (der_fits v H) as [H1 H2].
  destruct (to_der_ok E S v _ _ (l_ser _ _ _ _ L v W H1) H) as (b & Eb & Hb). exists b. split; [assumption|]. now apply holds_slice.
Qed.
Lemma round_trip_der v : wf C v -> nlen (der_of C v) <= isize_max -> exists v', wf C v' /\ same C v v' /\
  serde_from_der D (der_of C v) = Ok v' /\
  (forall rest, bytes_ok rest -> parse_der D (der_of C v ++ rest) = (Ok v', rest)) /\
  (forall St (R : reader St) content inv s fuel rest, greedy R content inv -> inv s -> content s = der_of C v ++ rest ->
     bytes_ok rest -> nlen (content s) <= isize_max -> (length (content s) <= fuel)%nat ->
     exists s', read_der D R fuel s = (Ok v', s') /\ content s' = rest).
Proof.
  intros W H. destruct (der_fits v H) as [H1 H2]. destruct (der_of_tlv v W H) as [T Hok].
  destruct (l_de _ _ _ _ L v W H2) as (v' & Ev & W' & Sm). exists v'. split; [assumption|]. split; [assumption|].
  split; [rewrite (serde_der_eq D _ _ _ T); assumption|]. split.
  - intros rest Hr. rewrite (parse_der_eq D _ _ _ _ T) by now apply bytes_ok_app. now rewrite Ev.
  - intros St R content inv s fuel rest G I Ec Hr Lc F. rewrite <- Ev. eapply read_der_eq; eauto. rewrite Ec. now apply bytes_ok_app.
Qed.
Lemma round_trip_ber v bs : wf C v -> ber_octets C v bs -> nlen bs < usize_limit -> exists v', wf C v' /\ same C v v' /\
  ber_value bs /\ serde_from_ber D bs = Ok v' /\
  (forall rest, bytes_ok rest -> parse_ber D (bs ++ rest) = (Ok v', rest)) /\
  (forall St (R : reader St) content inv s fuel rest, steady R content inv -> inv s -> content s = bs ++ rest ->
     bytes_ok rest -> nlen (content s) <= isize_max -> (length (content s) + 2 <= fuel)%nat ->
     exists s', read_ber D R fuel s = (Ok v', s') /\ content s' = rest).
Proof.
  intros W O H. destruct (ber_octets_value C v bs (l_ber_ok _ _ _ _ L) W O H) as (id & l & c & B & Eb & Lc & V & _ & Hok & Ds & _).
  destruct (l_ber _ _ _ _ L v id l c W B Lc) as (v' & Ev & W' & Sm).
  assert (serde_from_ber D bs = Ok v') as Es by (unfold serde_from_ber; rewrite Ds; exact Ev).
  exists v'. do 4 (split; [assumption|]). split.
  - intros rest Hr. rewrite parse_ber_eq by (assumption || now apply bytes_ok_app). now rewrite Es.
  - intros St R content inv s fuel rest G I Ec Hr Ln F. rewrite <- Es. eapply read_ber_eq; eauto. rewrite Ec. now apply bytes_ok_app.
Qed.
Lemma der_is_ber v : wf C v -> ber_octets C v (der_of C v).
Proof.
  intros W. exists (id_of C v), (Definite (nlen (contents_of C v))), (contents_of C v). split; [now apply L | reflexivity].
Qed.
End RoundTrip.
Lemma unhashed_same E C S D : unhashed E C S D -> forall x y, same C x y <-> x = y.
Proof.
  induction 1; intros x y; try (now apply Forall2_eq_iff); [now apply (sequential_same E C S D)|].
  apply Forall2_eq_iff. intros [k v] [k' v']. cbn [same entry_codec fst snd]. rewrite IHunhashed1, IHunhashed2.
  split; [intros [-> ->]; reflexivity | intros [= -> ->]; auto].
Qed.
Lemma unhashed_provided E C S D : unhashed E C S D -> provided E C S D.
Proof. induction 1; try (constructor; assumption). now apply sequential_provided. Qed.

(** ** Canonical decoding *)
Lemma canonical_der C D bs rest v : canonical C D -> bytes_ok bs -> parse_der D bs = (Ok v, rest) ->
  wf C v /\ bs = der_of C v ++ rest /\ der_tlv (id_of C v) (contents_of C v) (der_of C v).
Proof.
  intros CC Hok H. unfold parse_der in H. destruct (DerRef_parse bs) as [r rest'] eqn:P. destruct r as [v0|e| |]; try discriminate.
  apply der_parse_iff in P as ((id & c & T) & ->); auto. injection H as H <-. rewrite (serde_der_eq D _ _ _ T) in H.
  apply bytes_ok_app in Hok as [Hv _]. pose proof (proj1 (der_tlv_ok _ _ _ T) Hv) as Hc. pose proof (der_tlv_lt _ _ _ T).
  destruct (CC id c v Hc H0 H) as (W & -> & ->). split; [assumption|]. pose proof (der_tlv_eq _ _ _ T) as ->. split; [reflexivity|assumption].
Qed.

(** ** Indefinite lengths *)
Lemma exclude_eoc_both E c : exclude_eoc E Indefinite (c ++ [0; 0]) = Ok c /\ exclude_eoc E (Definite (nlen c)) c = Ok c.
Proof.
  pose proof (exclude_eoc_ok E [c]) as H. cbn [concat] in H. rewrite app_nil_r in H. split.
  - apply H. pose proof (con_indefinite [c]) as K. cbn [concat] in K. now rewrite app_nil_r in K.
  - apply H. pose proof (con_definite [c]) as K. cbn [concat] in K. now rewrite app_nil_r in K.
Qed.
Lemma collection_indefinite {X Y} E ID (empty : Y) insert (bnext dnext : helper -> res (option (X * helper))) id c :
  from_ber (de_collection E ID empty insert bnext dnext) id Indefinite (c ++ [0; 0]) =
  from_ber (de_collection E ID empty insert bnext dnext) id (Definite (nlen c)) c.
Proof. cbn [from_ber de_collection]. destruct (exclude_eoc_both E c) as [-> ->]. reflexivity. Qed.
(** Whole values of either form. *)
Lemma parses_indefinite {T} (D : deserialize T) id c rest : is_identifier id -> ber_items c -> bytes_ok c -> bytes_ok rest ->
  parse_ber D ((id ++ 0x80 :: c ++ [0; 0]) ++ rest) = (from_ber D id Indefinite (c ++ [0; 0]), rest).
Proof.
  intros I B Hc Hr. pose proof (is_identifier_ok id I) as Hid. rewrite parse_ber_eq.
  - f_equal. unfold serde_from_ber. destruct (tlv_parts_indefinite id (c ++ [0; 0]) I) as (_ & _ & _ & ->). reflexivity.
  - now apply (bv_indefinite id c).
  - apply bytes_ok_app. split; [|assumption]. apply bytes_ok_app. split; [assumption|]. apply bytes_ok_cons. split; [lia|].
    apply bytes_ok_app. split; [assumption | repeat constructor; reflexivity].
Qed.
Lemma parses_definite {T} (D : deserialize T) id c rest : is_identifier id -> nlen c < usize_limit -> bytes_ok c -> bytes_ok rest ->
  parse_ber D (tlv id c ++ rest) = (from_ber D id (Definite (nlen c)) c, rest).
Proof.
  intros I L Hc Hr. pose proof (is_identifier_ok id I) as Hid. pose proof (tlv_der id c I L) as Tl. rewrite parse_ber_eq.
  - f_equal. unfold serde_from_ber. destruct (der_tlv_disassemble _ _ _ Tl) as (_ & _ & _ & ->). reflexivity.
  - econstructor. eassumption.
  - apply bytes_ok_app. split; [now apply tlv_ok | assumption].
Qed.
(** The same for whole values. *)
Lemma whole_indefinite {T} (D : deserialize T) id c rest1 rest2 :
  from_ber D id Indefinite (c ++ [0; 0]) = from_ber D id (Definite (nlen c)) c ->
  is_identifier id -> ber_items c -> nlen c < usize_limit -> bytes_ok c -> bytes_ok rest1 -> bytes_ok rest2 ->
  parse_ber D ((id ++ 0x80 :: c ++ [0; 0]) ++ rest1) = (from_ber D id (Definite (nlen c)) c, rest1) /\
  parse_ber D (tlv id c ++ rest2) = (from_ber D id (Definite (nlen c)) c, rest2).
Proof. intros EQ I B L Hc H1 H2. rewrite <- EQ at 1. split; [now apply parses_indefinite | now apply parses_definite]. Qed.

(** ** Map entries *)
Section MapEntries.
Context {K V : Type} (DK : deserialize K) (DV : deserialize V).
Lemma der_entry_reads' b p : der_entry DK DV b p -> reads (der_to_key_val DK DV) b p.
Proof.
  destruct p as [k v]. intros (kb & vb & (idk & ck & Tk) & (idv & cv & Tv) & L & -> & Ek & Ev). cbn [fst snd] in *.
  rewrite (serde_der_eq DK _ _ _ Tk) in Ek. rewrite (serde_der_eq DV _ _ _ Tv) in Ev.
  pose proof (der_tlv_eq _ _ _ Tk) as ->. pose proof (der_tlv_eq _ _ _ Tv) as ->.
  apply der_entry_reads; try assumption; [apply (der_tlv_id _ _ _ Tk) | apply (der_tlv_id _ _ _ Tv)].
Qed.
Lemma der_entry_iff bs i p rest : bytes_ok bs ->
  ((exists j, der_to_key_val DK DV (bs, i) = Ok (Some (p, (rest, j)))) <-> exists b, bs = b ++ rest /\ der_entry DK DV b p).
Proof.
  intros Hok. split.
  - intros [j H]. destruct p as [k v]. apply der_kv_some in H as (b & -> & _ & idk & ck & idv & cv & -> & Ik & Iv & Hk & Hv & L & Ek & Ev); auto.
    exists (tlv [0x30] (tlv idk ck ++ tlv idv cv)). split; [reflexivity|]. pose proof (tlv_contents_le idk ck). pose proof (tlv_contents_le idv cv).
    pose proof (nlen_app (tlv idk ck) (tlv idv cv)) as La.
    assert (der_tlv idk ck (tlv idk ck)) as Tk by (apply tlv_der; [assumption | change (2 ^ 64) with usize_limit; lia]).
    assert (der_tlv idv cv (tlv idv cv)) as Tv by (apply tlv_der; [assumption | change (2 ^ 64) with usize_limit; lia]).
    exists (tlv idk ck), (tlv idv cv). cbn [fst snd]. rewrite (serde_der_eq DK _ _ _ Tk), (serde_der_eq DV _ _ _ Tv). eauto 10.
  - intros (b & -> & EB). apply der_entry_reads' in EB as [_ R]. exists (i + 1). now apply R.
Qed.
Lemma ber_entry_reads' b p : ber_entry DK DV b p -> reads (ber_to_key_val DK DV) b p.
Proof.
  destruct p as [k v]. intros (kb & vb & l & Vk & Vv & Vb & Hl & Eb & Ek & Ev). cbn [fst snd] in *.
  assert (tlv_id b = Ok [0x30] /\ tlv_contents b = Ok (kb ++ vb)) as [Ti Tc].
  { rewrite Eb. destruct Hl as [[-> L]| ->].
    - pose proof (tlv_der [0x30] (kb ++ vb) id_30 L) as T. apply der_tlv_disassemble in T. tauto.
    - pose proof (tlv_parts_indefinite [0x30] (kb ++ vb) id_30). tauto. }
  split; [now apply ber_value_nonempty|]. intros rest i Hok.
  rewrite ber_to_key_val_cons by (apply app_nonempty; now apply ber_value_nonempty).
  rewrite (parsed_ber _ _ Vb Hok). cbn [with_ctx rmap_err rbind]. rewrite Ti, Tc. cbn [rbind].
  change (negb (bytes_eqb [0x30] ID_SEQUENCE)) with false. cbv iota.
  apply bytes_ok_app in Hok as [Hok _]. rewrite Eb in Hok. do 2 apply bytes_ok_app in Hok as [_ Hok].
  rewrite (parsed_ber _ _ Vk Hok). cbn [with_ctx rmap_err rbind]. apply bytes_ok_app in Hok as [_ Hok].
  assert (parsed (BerRef_parse vb) = Ok (vb, [])) as P.
  { rewrite <- (app_nil_r vb) at 1. apply (parsed_ber _ _ Vv). now rewrite app_nil_r. }
  rewrite P. cbn [with_ctx rmap_err rbind]. unfold serde_from_ber in Ek, Ev.
  apply rbind_inv in Ek as ([[idk lk] ck] & Dk & Ek). apply rbind_inv in Ev as ([[idv lv] cv] & Dv & Ev).
  rewrite Dk, Dv. cbn [rbind fst snd] in *. rewrite Ek. cbn [with_ctx rmap_err rbind]. rewrite Ev. reflexivity.
Qed.
Lemma ber_entry_iff bs i p rest : bytes_ok bs ->
  ((exists j, ber_to_key_val DK DV (bs, i) = Ok (Some (p, (rest, j)))) <-> exists b, bs = b ++ rest /\ ber_entry DK DV b p).
Proof.
  intros Hok. split.
  - intros [j H]. destruct p as [k v].
    apply ber_kv_some in H as (b & -> & _ & l & c & idk & lk & ck & idv & lv & cv & Eb & -> & Vb & Vk & Vv & _ & _ & Ek & Ev & Dk & Dv & Hl); auto.
    exists b. split; [reflexivity|]. exists (idk ++ length_of lk ++ ck), (idv ++ length_of lv ++ cv), l.
    unfold serde_from_ber. rewrite Dk, Dv. cbn [rbind fst snd]. conj; assumption.
  - intros (b & -> & EB). apply ber_entry_reads' in EB as [_ R]. exists (i + 1). now apply R.
Qed.
(** A map is accepted iff its contents are such entries. *)
Context (E : env) (ID : list N) (insert : K * V -> list (K * V) -> list (K * V)).
Let D := de_collection E ID [] insert (ber_to_key_val DK DV) (der_to_key_val DK DV).
Lemma der_map_iff id c m : bytes_ok c ->
  (from_der D id c = Ok m <-> id = ID /\ exists bs xs, c = concat bs /\ Forall2 (der_entry DK DV) bs xs /\ m = inserted insert xs []).
Proof.
  intros Hok. cbn [from_der D de_collection]. split.
  - destruct (bytes_eqb id ID) eqn:EI; [|discriminate]. apply bytes_eqb_eq in EI as ->. cbn [negb]. intros H. split; [reflexivity|].
    apply (collect_inv (der_to_key_val DK DV) insert (der_entry DK DV)) in H; [exact H | | apply der_kv_none | assumption].
    intros bs i x rest j Hb H1. destruct (proj1 (der_entry_iff bs i x rest Hb) (ex_intro _ j H1)) as (b & -> & EB).
    exists b. split; [reflexivity|]. split; [|assumption]. apply (der_entry_reads' _ _ EB).
  - intros (-> & bs & xs & -> & F & ->). rewrite ids_differ_refl.
    apply (collect_all (der_to_key_val DK DV) insert); [reflexivity | | assumption | lia].
    clear -F. induction F; constructor; [now apply der_entry_reads' | assumption].
Qed.
Lemma ber_map_iff id l c m : bytes_ok c ->
  (from_ber D id l c = Ok m <-> id = ID /\ exists c', exclude_eoc E l c = Ok c' /\
    exists bs xs, c' = concat bs /\ Forall2 (ber_entry DK DV) bs xs /\ m = inserted insert xs []).
Proof.
  intros Hok. cbn [from_ber D de_collection]. split.
  - destruct (bytes_eqb id ID) eqn:EI; [|discriminate]. apply bytes_eqb_eq in EI as ->. cbn [negb]. intros H. split; [reflexivity|].
    apply rbind_inv in H as (c' & Ec & H). exists c'. split; [assumption|].
    assert (bytes_ok c') as Hc'.
    { destruct l; cbn [exclude_eoc] in Ec.
      - destruct (ends_with c EOC); [|discriminate]. injection Ec as <-. now apply bytes_ok_take.
      - apply rbind_inv in Ec as (u & _ & Ec). injection Ec as <-. assumption. }
    apply (collect_inv (ber_to_key_val DK DV) insert (ber_entry DK DV)) in H; [exact H | | apply ber_kv_none | assumption].
    intros bs i x rest j Hb H1. destruct (proj1 (ber_entry_iff bs i x rest Hb) (ex_intro _ j H1)) as (b & -> & EB).
    exists b. split; [reflexivity|]. split; [|assumption]. apply (ber_entry_reads' _ _ EB).
  - intros (-> & c' & Ec & bs & xs & -> & F & ->). rewrite ids_differ_refl, Ec. cbn [rbind].
    apply (collect_all (ber_to_key_val DK DV) insert); [reflexivity | | | lia].
    + clear -F. induction F; constructor; [now apply ber_entry_reads' | assumption].
    + destruct l; cbn [exclude_eoc] in Ec.
      * destruct (ends_with c EOC); [|discriminate]. injection Ec as <-. now apply bytes_ok_take.
      * apply rbind_inv in Ec as (u & _ & Ec). injection Ec as <-. assumption.
Qed.
End MapEntries.

(** ** Failing writers *)
Lemma take_0 {A} (l : list A) : take 0 l = [].
Proof. reflexivity. Qed.
Section Writers.
Context {S : Type} (W : writer S) (log : S -> list N) (HW : honest_writer W log).
Lemma write_all_honest fuel : forall bs s r s', write_all_loop W fuel bs s = (r, s') ->
  exists p q, bs = p ++ q /\ log s' = log s ++ p /\
    match r with
    | Ok _ => q = []
    | Err e => exists k s1, e = Io k /\ q <> [] /\ last_call W s1 q k s'
    | Panic => False
    | NoFuel => True
    end.
Proof.
  induction fuel as [|fuel IH]; intros bs s r s' H; destruct bs as [|x bs]; cbn [write_all_loop] in H.
  - injection H as <- <-. exists [], []. split; [reflexivity|]. split; [now rewrite app_nil_r | easy].
  - injection H as <- <-. exists [], (x :: bs). split; [reflexivity|]. split; [now rewrite app_nil_r | easy].
  - injection H as <- <-. exists [], []. split; [reflexivity|]. split; [now rewrite app_nil_r | easy].
  - pose proof (HW s (x :: bs)) as Hc. destruct (wr_write W s (x :: bs)) as [w s1] eqn:Ew. destruct w as [n|k|]; [| |easy].
    + destruct Hc as [Ln Lg]. destruct (N.eqb_spec n 0) as [->|N0].
      * injection H as <- <-. exists [], (x :: bs). rewrite Lg. repeat split. exists WriteZero, s. repeat split; [discriminate|]. right. auto.
      * destruct (N.ltb_spec (nlen (x :: bs)) n) as [?|_]; [lia|]. apply IH in H as (p & q & Ed & Lp & M).
        exists (take n (x :: bs) ++ p), q. split; [rewrite <- app_assoc, <- Ed; now rewrite take_drop|]. split; [|assumption].
        rewrite Lp, Lg. now rewrite app_assoc.
    + destruct k; try (injection H as <- <-; exists [], (x :: bs); rewrite Hc, app_nil_r; repeat split; eexists _, s; repeat split; [discriminate | left; split; [eassumption | discriminate]]).
      apply IH in H as (p & q & Ed & Lp & M). exists p, q. rewrite Lp, Hc. auto.
Qed.
Lemma write_chunks_honest cs : forall s r s', write_chunks W cs s = (r, s') ->
  exists p q, concat cs = p ++ q /\ log s' = log s ++ p /\
    match r with
    | Ok _ => q = []
    | Err e => exists k s1 q1 q2, e = Io k /\ q = q1 ++ q2 /\ q1 <> [] /\ last_call W s1 q1 k s'
    | Panic => False
    | NoFuel => True
    end.
Proof.
  induction cs as [|c cs IH]; intros s r s' H; cbn [write_chunks concat] in *.
  - injection H as <- <-. exists [], []. split; [reflexivity|]. split; [now rewrite app_nil_r | easy].
  - unfold wbind, write_all in H. destruct (write_all_loop W (wr_fuel W) c s) as [r1 s1] eqn:E1.
    apply write_all_honest in E1 as (p & q & -> & Lp & M). destruct r1 as [u|e| |].
    + subst q. rewrite app_nil_r. apply IH in H as (p' & q' & -> & Lp' & M'). exists (p ++ p'), q'.
      rewrite Lp', Lp, !app_assoc. auto.
    + injection H as <- <-. destruct M as (k & s2 & -> & N0 & LC). exists p, (q ++ concat cs). rewrite app_assoc. repeat split; [assumption|].
      exists k, s2, q, (concat cs). auto.
    + easy.
    + injection H as <- <-. exists p, (q ++ concat cs). rewrite app_assoc. auto.
Qed.
(** Without interruptions the loop comes to an end. *)
Lemma write_all_fuel fuel : (forall s bs s', wr_write W s bs <> (WrErr Interrupted, s')) -> forall bs s,
  (length bs <= fuel)%nat -> fst (write_all_loop W fuel bs s) <> NoFuel.
Proof.
  intros NI. induction fuel as [|fuel IH]; intros bs s L; destruct bs as [|x bs]; cbn [write_all_loop]; try discriminate.
  - cbn in L. lia.
  - destruct (wr_write W s (x :: bs)) as [w s1] eqn:Ew. destruct w as [n|k|]; [|destruct k; try discriminate; now apply NI in Ew | discriminate].
    destruct (N.eqb_spec n 0); [discriminate|]. destruct (N.ltb_spec (nlen (x :: bs)) n); [discriminate|]. apply IH.
    assert (nlen (drop n (x :: bs)) = nlen (x :: bs) - n) as Ld by apply nlen_drop. rewrite !nlen_length in Ld. lia.
Qed.
Lemma write_chunks_fuel cs : (forall s bs s', wr_write W s bs <> (WrErr Interrupted, s')) -> (length (concat cs) <= wr_fuel W)%nat ->
  forall s, fst (write_chunks W cs s) <> NoFuel.
Proof.
  intros NI. induction cs as [|c cs IH]; intros L s; cbn [write_chunks concat] in *; [discriminate|]. rewrite app_length in L.
  unfold wbind, write_all. pose proof (write_all_fuel (wr_fuel W) NI c s ltac:(lia)) as F.
  destruct (write_all_loop W (wr_fuel W) c s) as [[u|e| |] s1]; try discriminate; [apply IH; lia | easy].
Qed.
End Writers.
Lemma failing_writer f bs {S} (W : writer S) log s r s' : emits f bs -> honest_writer W log -> f S W s = (r, s') ->
  exists p q, bs = p ++ q /\ log s' = log s ++ p /\
    match r with
    | Ok _ => q = []
    | Err e => exists k s1 q1 q2, e = Io k /\ q = q1 ++ q2 /\ q1 <> [] /\ last_call W s1 q1 k s'
    | Panic => False
    | NoFuel => True
    end.
Proof. intros (cs & <- & F) HW H. rewrite F in H. now apply (write_chunks_honest W log HW cs). Qed.
Lemma failing_writer_ends f bs {S} (W : writer S) s : emits f bs ->
  (forall s bs s', wr_write W s bs <> (WrErr Interrupted, s')) -> (length bs <= wr_fuel W)%nat -> fst (f S W s) <> NoFuel.
Proof. intros (cs & <- & F) NI L. rewrite F. now apply write_chunks_fuel. Qed.
Lemma limited_honest k step e : honest_writer (limited k step e) (fun s => s).
Proof. intros s bs. cbn [wr_write limited]. destruct (N.leb_spec k (nlen s)); [reflexivity|]. split; [lia | reflexivity]. Qed.
Lemma limited_write_all k step e : 0 < step -> e <> Interrupted -> forall bs fuel s, nlen s <= k -> (N.to_nat (k - nlen s) < fuel)%nat ->
  write_all_loop (limited k step e) fuel bs s =
  if nlen s + nlen bs <=? k then (Ok tt, s ++ bs) else (Err (Io e), take k (s ++ bs)).
Proof.
  intros H0 He bs fuel. revert bs. induction fuel as [|fuel IH]; intros bs s L F; [lia|].
  destruct bs as [|x bs]; cbn [write_all_loop].
  { change (nlen (@nil N)) with 0. rewrite (proj2 (N.leb_le _ _)) by lia. now rewrite app_nil_r. }
  cbn [wr_write limited]. destruct (N.leb_spec k (nlen s)) as [L1|L1].
  - rewrite (proj2 (N.leb_gt _ _)) by (rewrite nlen_cons; lia).
    replace (take k (s ++ x :: bs)) with s by (replace k with (nlen s) by lia; now rewrite take_app_exact).
    destruct e; try reflexivity. congruence.
  - set (n := N.min (nlen (x :: bs)) (N.min step (k - nlen s))).
    assert (1 <= n /\ n <= nlen (x :: bs) /\ n <= k - nlen s) as (N1 & N2 & N3) by (unfold n; rewrite nlen_cons; lia).
    destruct (N.eqb_spec n 0); [lia|]. destruct (N.ltb_spec (nlen (x :: bs)) n); [lia|].
    assert (nlen (s ++ take n (x :: bs)) = nlen s + n) as Ls by (rewrite nlen_app, nlen_take; lia).
    rewrite IH; rewrite ?Ls; [|lia|lia]. rewrite nlen_drop. replace (nlen s + n + (nlen (x :: bs) - n)) with (nlen s + nlen (x :: bs)) by lia.
    rewrite <- app_assoc, take_drop. reflexivity.
Qed.
Lemma limited_chunks k step e cs : 0 < step -> e <> Interrupted -> forall s, nlen s <= k ->
  write_chunks (limited k step e) cs s =
  if nlen s + nlen (concat cs) <=? k then (Ok tt, s ++ concat cs) else (Err (Io e), take k (s ++ concat cs)).
Proof.
  intros H0 He. induction cs as [|c cs IH]; intros s L; cbn [write_chunks concat].
  - change (nlen (@nil N)) with 0. rewrite (proj2 (N.leb_le _ _)) by lia. now rewrite app_nil_r.
  - unfold wbind, write_all. rewrite limited_write_all by (auto; cbn [wr_fuel limited]; lia). rewrite nlen_app.
    destruct (N.leb_spec (nlen s + nlen c) k) as [L1|L1].
    + rewrite IH by (rewrite nlen_app; lia). rewrite nlen_app, <- app_assoc. now rewrite N.add_assoc.
    + rewrite (proj2 (N.leb_gt _ _)) by lia. f_equal. rewrite app_assoc. symmetry. apply take_app_le. rewrite nlen_app. lia.
Qed.
Lemma limited_writer f bs k step e : emits f bs -> 0 < step -> e <> Interrupted ->
  f (list N) (limited k step e) [] = if nlen bs <=? k then (Ok tt, bs) else (Err (Io e), take k bs).
Proof. intros (cs & <- & F) H0 He. rewrite F, limited_chunks; auto. change (nlen (@nil N)) with 0. lia. Qed.

(** ** Entries that are not a key and a value *)
Lemma collect_fails {X C} (next : helper -> res (option (X * helper))) insert bss xs bad e :
  Forall2 (reads next) bss xs -> bytes_ok (concat bss ++ bad) ->
  forall fuel i (ret : C), next (bad, i + nlen bss) = Err e -> (length (concat bss) < fuel)%nat ->
  collect next insert fuel (concat bss ++ bad, i) ret = Err e.
Proof.
  induction 1 as [|b x bss xs [N0 R] F IH]; intros Hok fuel i ret He L; cbn [concat] in *; (destruct fuel as [|fuel]; [lia|]); cbn [collect].
  - cbn [app] in *. change (nlen (@nil (list N))) with 0 in He. rewrite N.add_0_r in He. now rewrite He.
  - rewrite <- app_assoc in *. rewrite R by assumption. cbn [rbind]. apply bytes_ok_app in Hok as [_ Hok]. apply IH; [assumption| |].
    + rewrite nlen_cons in He. now rewrite <- N.add_assoc.
    + rewrite app_length in L. assert (1 <= length b)%nat by (destruct b; cbn; [congruence|lia]). lia.
Qed.
Lemma der_entry_extra {K V} (DK : deserialize K) (DV : deserialize V) kb vb x rest i :
  (exists id c, der_tlv id c kb) -> (exists id c, der_tlv id c vb) -> x <> [] -> nlen (kb ++ vb ++ x) < usize_limit ->
  bytes_ok (tlv [0x30] (kb ++ vb ++ x) ++ rest) ->
  der_to_key_val DK DV (tlv [0x30] (kb ++ vb ++ x) ++ rest, i) = Err (Error_context (ctx 10 i) InvalidKeyValuePair).
Proof.
  intros (idk & ck & Tk) (idv & cv & Tv) Hx L Hok. pose proof (tlv_der [0x30] (kb ++ vb ++ x) id_30 L) as T.
  rewrite der_to_key_val_cons by (apply app_nonempty; now apply (der_tlv_nonempty _ _ _ T)).
  rewrite (parsed_der _ _ _ _ T Hok). cbn [with_ctx rmap_err rbind].
  destruct (der_tlv_disassemble _ _ _ T) as (-> & _ & -> & _). cbn [rbind].
  change (negb (bytes_eqb [0x30] ID_SEQUENCE)) with false. cbv iota.
  apply bytes_ok_app in Hok as [Hok _]. apply (der_tlv_ok _ _ _ T) in Hok.
  rewrite (parsed_der _ _ _ _ Tk Hok). cbn [with_ctx rmap_err rbind]. apply bytes_ok_app in Hok as [_ Hok].
  rewrite (parsed_der _ _ _ _ Tv Hok). cbn [with_ctx rmap_err rbind]. destruct x; [congruence | reflexivity].
Qed.
Lemma der_entry_id {K V} (DK : deserialize K) (DV : deserialize V) id c b rest i :
  der_tlv id c b -> id <> [0x30] -> bytes_ok (b ++ rest) ->
  der_to_key_val DK DV (b ++ rest, i) = Err (Error_context (ctx 5 i) InvalidKeyValuePair).
Proof.
  intros T Hi Hok. rewrite der_to_key_val_cons by (apply app_nonempty; now apply (der_tlv_nonempty _ _ _ T)).
  rewrite (parsed_der _ _ _ _ T Hok). cbn [with_ctx rmap_err rbind].
  destruct (der_tlv_disassemble _ _ _ T) as (-> & _ & _ & _). cbn [rbind].
  destruct (bytes_eqb id ID_SEQUENCE) eqn:E1; [|reflexivity]. apply bytes_eqb_eq in E1. contradiction.
Qed.

(** Slices of octets never make it panic. *)
Lemma laws_parse E C S D bs : laws E C S D -> bytes_ok bs ->
  answers (fst (parse_der D bs)) /\ (e_debug E = false \/ quiet bs -> answers (fst (parse_ber D bs))).
Proof.
  intros LW Hok. destruct (der_no_panic bs Hok) as [P1 F1]. destruct (ber_no_panic bs Hok) as [P2 F2]. split.
  - unfold parse_der. destruct (DerRef_parse bs) as [[v|e| |] rest] eqn:Pd; cbn [fst] in *; try congruence; [|apply answers_err].
    apply der_parse_iff in Pd as ((id & c & T) & ->); auto. rewrite (serde_der_eq D _ _ _ T).
    apply (l_der_answers _ _ _ _ LW). apply bytes_ok_app in Hok as [Hv _]. now apply (der_tlv_ok _ _ _ T).
  - intros R. unfold parse_ber. destruct (BerRef_parse bs) as [[v|e| |] rest] eqn:Pd; cbn [fst] in *; try congruence; [|apply answers_err].
    assert (parsed (BerRef_parse bs) = Ok (v, rest)) as Q by (unfold parsed; rewrite Pd; reflexivity).
    apply (settled_step E) in Q as (_ & id & l & c & Ds & _ & _ & _ & _ & _ & A); [|now split].
    unfold serde_from_ber. rewrite Ds. cbn [rbind fst snd]. apply A, (l_ber_answers _ _ _ _ LW).
Qed.
