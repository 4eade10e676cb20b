(** Statement-level lemmas for C12-C18, C40-C42, C44, C46. *)
From Verif Require Import Base ModelIo ModelTag ModelContents ModelBuf ModelTlv Spec TagProofs IdProofs TagMain ContentsProofs TlvProofs BufProofs.

Ltac conj := repeat match goal with |- _ /\ _ => split end.

(** ** der_tlv and the model's octets *)
Lemma der_tlv_octets id c bs : der_tlv id c bs -> bs = id ++ Length_to_bytes (Definite (nlen c)) ++ c.
Proof.
  intros H. apply der_tlv_parts in H as (len & -> & Hi & Hm & Hn). now rewrite (minimal_is_to_bytes _ _ Hn Hm).
Qed.
Lemma der_tlv_make id c : is_identifier id -> nlen c < 2 ^ 64 -> der_tlv id c (id ++ Length_to_bytes (Definite (nlen c)) ++ c).
Proof. intros Hi Hn. constructor; auto. now apply Length_to_bytes_minimal. Qed.
Lemma der_tlv_id id c bs : der_tlv id c bs -> is_identifier id.
Proof. intros H. apply der_tlv_parts in H as (len & -> & Hi & Hm & Hn). assumption. Qed.
Lemma der_tlv_lt id c bs : der_tlv id c bs -> nlen c < 2 ^ 64.
Proof. intros H. apply der_tlv_parts in H as (len & -> & Hi & Hm & Hn). assumption. Qed.
Lemma der_tlv_fun id c bs bs' : der_tlv id c bs -> der_tlv id c bs' -> bs = bs'.
Proof. intros H H'. now rewrite (der_tlv_octets _ _ _ H), (der_tlv_octets _ _ _ H'). Qed.
Lemma der_tlv_size id c bs : der_tlv id c bs -> nlen bs = nlen id + Length_len (Definite (nlen c)) + nlen c.
Proof.
  intros H. pose proof (der_tlv_lt _ _ _ H). rewrite (der_tlv_octets _ _ _ H), !nlen_app, len_len by assumption. lia.
Qed.
Lemma der_tlv_disassemble id c bs : der_tlv id c bs ->
  tlv_id bs = Ok id /\ tlv_length bs = Ok (Definite (nlen c)) /\ tlv_contents bs = Ok c /\
  disassemble bs = Ok (id, Definite (nlen c), c).
Proof. intros H. apply der_tlv_parts in H as (len & -> & Hi & Hm & Hn). now apply tlv_parts_definite. Qed.

(** ** C12 *)
Lemma der_new_ok cfg id c bs : der_tlv id c bs -> nlen bs <= isize_max ->
  exists b, Der_new cfg id c = Ok b /\ bf_slice b = bs /\ holds b bs.
Proof.
  intros H Hs. rewrite (der_tlv_size _ _ _ H) in Hs.
  destruct (Der_new_ok cfg id c (der_tlv_id _ _ _ H) Hs) as (b & E & Hb).
  rewrite <- (der_tlv_octets _ _ _ H) in Hb. exists b. split; [assumption|]. split; [now apply holds_slice | assumption].
Qed.
Lemma der_new_full cfg id c bs : der_tlv id c bs -> nlen bs <= isize_max -> bytes_ok c ->
  exists b, Der_new cfg id c = Ok b /\ bf_slice b = bs /\
    tlv_id bs = Ok id /\ tlv_length bs = Ok (Definite (nlen c)) /\ tlv_contents bs = Ok c /\
    disassemble bs = Ok (id, Definite (nlen c), c) /\
    forall rest, bytes_ok rest -> DerRef_parse (bs ++ rest) = (Ok bs, rest).
Proof.
  intros H Hs Hc. destruct (der_new_ok cfg id c bs H Hs) as (b & E & Hb & _).
  exists b. destruct (der_tlv_disassemble _ _ _ H) as (A & B & C & D). conj; auto.
  intros rest Hr. apply (DerRef_parse_ok id c); auto. apply bytes_ok_app. split; [|assumption].
  now apply (der_tlv_ok _ _ _ H).
Qed.
Lemma der_exists id c : is_identifier id -> nlen c < 2 ^ 64 -> exists bs, der_tlv id c bs.
Proof. intros. eexists. now apply der_tlv_make. Qed.

(** ** C14: what is left of the caller's slice *)
Definition suffixing {A} (m : parser (list N) A) : Prop :=
  forall s w r s' w', m (s, w) = (r, (s', w')) -> exists p, s = p ++ s'.
Lemma sfx_ret {A} (a : A) : suffixing (pret a).
Proof. intros s w r s' w' [= <- <- <-]. now exists []. Qed.
Lemma sfx_fail {A} e : suffixing (A := A) (pfail e).
Proof. intros s w r s' w' [= <- <- <-]. now exists []. Qed.
Lemma sfx_panic {A} : suffixing (A := A) ppanic.
Proof. intros s w r s' w' [= <- <- <-]. now exists []. Qed.
Lemma sfx_write b : suffixing (write_u8 b).
Proof. intros s w r s' w' [= <- <- <-]. now exists []. Qed.
Lemma sfx_read : suffixing (read_u8 slice_reader).
Proof.
  intros s w r s' w' H. destruct s as [|b s].
  - rewrite read_u8_nil in H. injection H as <- <- <-. now exists [].
  - rewrite read_u8_cons in H. injection H as <- <- <-. now exists [b].
Qed.
Lemma sfx_bind {A B} (m : parser (list N) A) (k : A -> parser (list N) B) :
  suffixing m -> (forall a, suffixing (k a)) -> suffixing (pbind m k).
Proof.
  intros Hm Hk s w r s' w' H. unfold pbind in H. destruct (m (s, w)) as [[a|e| |] [s1 w1]] eqn:E;
    destruct (Hm _ _ _ _ _ E) as (p & ->); try (injection H as <- <- <-; now exists p).
  destruct (Hk _ _ _ _ _ _ H) as (p2 & ->). exists (p ++ p2). now rewrite app_assoc.
Qed.
Lemma sfx_id_loop fuel : forall i o, suffixing (parse_id_loop slice_reader fuel i o).
Proof.
  induction fuel as [|fuel IH]; intros i o; cbn [parse_id_loop].
  - intros s w r s' w' [= <- <- <-]. now exists [].
  - repeat first [ apply sfx_ret | apply sfx_fail | apply sfx_write | apply sfx_read | apply IH
                 | apply sfx_bind; [|intros ?] | match goal with |- suffixing (if ?b then _ else _) => destruct b end ].
Qed.
Lemma sfx_parse_id fuel : suffixing (parse_id slice_reader fuel).
Proof.
  unfold parse_id.
  repeat first [ apply sfx_ret | apply sfx_fail | apply sfx_write | apply sfx_read | apply sfx_id_loop
               | apply sfx_bind; [|intros ?] | match goal with |- suffixing (if ?b then _ else _) => destruct b end ].
Qed.
Lemma sfx_len_loop k : forall len, suffixing (parse_length_loop slice_reader k len).
Proof.
  induction k as [|k IH]; intros len; cbn [parse_length_loop].
  - apply sfx_ret.
  - repeat first [ apply sfx_ret | apply sfx_fail | apply sfx_write | apply sfx_read | apply IH | apply sfx_panic
                 | apply sfx_bind; [|intros ?] | match goal with |- suffixing (if ?b then _ else _) => destruct b end ].
Qed.
Lemma sfx_parse_length : suffixing (parse_length slice_reader).
Proof.
  unfold parse_length.
  repeat first [ apply sfx_ret | apply sfx_fail | apply sfx_write | apply sfx_read | apply sfx_len_loop | apply sfx_panic
               | apply sfx_bind; [|intros ?] | match goal with |- suffixing (if ?b then _ else _) => destruct b end
               | progress cbv zeta ].
Qed.
Lemma header_suffix bs r s w : header_slice bs = (r, (s, w)) -> exists p, bs = p ++ s.
Proof.
  intros H. unfold header_slice, parse_id_length in H.
  eapply sfx_bind in H; [exact H | apply sfx_parse_id |]. intros a. apply sfx_parse_length.
Qed.
Lemma der_parse_suffix bs r rest : DerRef_parse bs = (r, rest) -> exists p, bs = p ++ rest.
Proof.
  intros H. unfold DerRef_parse in H.
  assert (G : snd (DerRef_do_parse bs) = rest) by (destruct (DerRef_do_parse bs) as [[| | |] ?]; cbn; congruence).
  clear H. rewrite DerRef_do_parse_eq in G. destruct (header_slice bs) as [h [s w]] eqn:E.
  destruct (header_suffix _ _ _ _ E) as (p & ->).
  destruct h as [[|n]| | |]; try (exists p; cbn in G; congruence).
  destruct (nlen s <? n); cbn in G; [exists p; congruence|].
  exists (p ++ take n s). subst rest. now rewrite <- app_assoc, take_drop.
Qed.
Lemma ber_do_parse_suffix bs r rest : BerRef_do_parse bs = (r, rest) -> exists p, bs = p ++ rest.
Proof.
  intros H. destruct (starts_with bs EOC) eqn:S.
  - apply starts_with_spec in S as (t & ->). rewrite do_parse_eoc in H. injection H as _ <-. now exists EOC.
  - rewrite do_parse_header in H by assumption. destruct (header_slice bs) as [h [s w]] eqn:E.
    destruct (header_suffix _ _ _ _ E) as (p & ->).
    destruct h as [[|n]| | |]; try (injection H as <- <-; now exists p).
    destruct (nlen s <? n); injection H as <- <-; [now exists p|].
    exists (p ++ take n s). now rewrite <- app_assoc, take_drop.
Qed.
Lemma ber_loop_suffix fuel : forall d bs r rest, BerRef_loop fuel d bs = (r, rest) -> exists p, bs = p ++ rest.
Proof.
  induction fuel as [|fuel IH]; intros d bs r rest H; cbn [BerRef_loop] in H.
  - injection H as <- <-. now exists [].
  - destruct (BerRef_do_parse bs) as [x s] eqn:E. destruct (ber_do_parse_suffix _ _ _ E) as (p & ->).
    destruct x as [z| | |]; try (injection H as <- <-; now exists p).
    cbv zeta in H. destruct (0 <? d + z)%Z; [|injection H as <- <-; now exists p].
    destruct (IH _ _ _ _ H) as (p2 & ->). exists (p ++ p2). now rewrite app_assoc.
Qed.
Lemma ber_parse_suffix bs r rest : BerRef_parse bs = (r, rest) -> exists p, bs = p ++ rest.
Proof.
  intros H. unfold BerRef_parse in H. destruct (BerRef_loop (slice_fuel bs) 0 bs) as [x s] eqn:E.
  destruct (ber_loop_suffix _ _ _ _ _ E) as (p & Ep).
  exists p. rewrite Ep at 1. destruct x; injection H as _ <-; reflexivity.
Qed.

(** ** C16 *)
Lemma ber_extends_der bs v rest : bytes_ok bs -> DerRef_parse bs = (Ok v, rest) -> BerRef_parse bs = (Ok v, rest).
Proof.
  intros Hok H. apply der_parse_iff in H as [(id & c & Hd) ->]; [|assumption].
  apply BerRef_parse_ok; [|assumption]. now apply bv_definite with id c.
Qed.
(** Only indefinite lengths are added. *)
Lemma ber_adds_indefinite bs v rest : bytes_ok bs -> BerRef_parse bs = (Ok v, rest) ->
  DerRef_parse bs = (Ok v, rest) \/ fst (DerRef_parse bs) = Err IndefiniteLength.
Proof.
  intros Hok H. apply ber_parse_iff in H as [Hv ->]; [|assumption].
  destruct Hv as [id c v Hd|id items Hi Hit].
  - left. now apply (DerRef_parse_ok id c).
  - right. apply DerRef_parse_err; [assumption|]. rewrite <- !app_assoc. now apply de_indefinite.
Qed.

(** ** C40 *)
Inductive parses (p : list N -> res (list N) * list N) : list N -> list (list N) -> Prop :=
| ps_nil : parses p [] []
| ps_cons bs v rest vs : p bs = (Ok v, rest) -> parses p rest vs -> parses p bs (v :: vs).
Lemma framing p (good : list N -> Prop)
  (Hg : forall v, good v -> v <> [])
  (Hiff : forall bs v rest, bytes_ok bs -> (p bs = (Ok v, rest) <-> good v /\ bs = v ++ rest)) :
  forall vs us, Forall good vs -> bytes_ok (concat vs) -> (parses p (concat vs) us <-> us = vs).
Proof.
  induction vs as [|v vs IH]; intros us Hv Hb.
  - cbn [concat]. split; [|intros ->; constructor].
    intros H. inversion H as [|bs u rest us' E Hs]; subst; [reflexivity|].
    exfalso. apply Hiff in E as [Hu E]; [|assumption]. symmetry in E. apply app_eq_nil in E as [-> _]. now apply (Hg []).
  - inversion Hv as [|? ? Gv Gvs]; subst. cbn [concat] in *.
    assert (P : p (v ++ concat vs) = (Ok v, concat vs)) by (apply Hiff; auto).
    apply bytes_ok_app in Hb as [Hb1 Hb2]. split.
    + intros H. inversion H as [E0|bs u rest us' E Hs]; subst.
      * exfalso. symmetry in E0. apply app_eq_nil in E0 as [-> _]. now apply (Hg []).
      * rewrite P in E. injection E as <- <-. f_equal. now apply IH.
    + intros ->. econstructor; [exact P|]. now apply IH.
Qed.
Lemma parses_concat p (good : list N -> Prop)
  (Hiff : forall bs v rest, bytes_ok bs -> (p bs = (Ok v, rest) <-> good v /\ bs = v ++ rest)) :
  forall bs vs, bytes_ok bs -> parses p bs vs -> bs = concat vs /\ Forall good vs.
Proof.
  intros bs vs Hok H. induction H as [|bs v rest vs E Hs IH]; [split; [reflexivity|constructor]|].
  apply Hiff in E as [Gv ->]; [|assumption]. apply bytes_ok_app in Hok as [_ Hok].
  destruct (IH Hok) as [-> G]. split; [reflexivity|]. now constructor.
Qed.

(** ** C41 *)
Lemma identifier_error_ext p q e : e <> UnterminatedBytes -> identifier_error p e -> identifier_error (p ++ q) e.
Proof. intros NE H. destruct H; try congruence. cbn [app]. now constructor. Qed.
Lemma length_error_ext p q e : e <> UnterminatedBytes -> length_error p e -> length_error (p ++ q) e.
Proof. intros NE H. destruct H; try congruence; cbn [app]; now constructor. Qed.
Lemma der_error_ext p q e : e <> UnterminatedBytes -> der_error p e -> der_error (p ++ q) e.
Proof.
  intros NE H. destruct H; try congruence.
  - apply de_id. now apply identifier_error_ext.
  - rewrite <- app_assoc. apply de_length; auto. now apply length_error_ext.
  - rewrite <- app_assoc. cbn [app]. now apply de_indefinite.
Qed.
Lemma ber_error_ext p q e : e <> UnterminatedBytes -> ber_error p e -> ber_error (p ++ q) e.
Proof.
  intros NE H. induction H; try congruence.
  - apply bre_id. now apply identifier_error_ext.
  - rewrite <- app_assoc. apply bre_length; auto. now apply length_error_ext.
  - rewrite <- !app_assoc. apply bre_inside; auto.
Qed.
Lemma error_dec_unterminated (e : error) : e = UnterminatedBytes \/ e <> UnterminatedBytes.
Proof. destruct e; (now left) || (right; discriminate). Qed.
Lemma der_prefix id c p q : der_tlv id c (p ++ q) -> bytes_ok (p ++ q) -> q <> [] ->
  fst (DerRef_parse p) = Err UnterminatedBytes.
Proof.
  intros H Hok NE. pose proof (proj1 (bytes_ok_app _ _) Hok) as [Hp Hq].
  destruct (der_total p Hp) as [(id' & c' & v & r & Hd & ->)|(e & He)].
  - exfalso. rewrite <- app_assoc in H.
    assert (E : (v ++ r ++ q) ++ [] = v ++ r ++ q) by apply app_nil_r.
    destruct (der_tlv_prefix _ _ _ _ _ _ _ _ H Hd E) as (_ & _ & _ & E2).
    symmetry in E2. apply app_eq_nil in E2 as [_ ->]. congruence.
  - destruct (error_dec_unterminated e) as [->|NU]; [now apply der_err_iff|].
    exfalso. pose proof (der_error_ext p q e NU He) as He2.
    destruct (der_rejects _ _ Hok He2) as (r & E).
    pose proof (der_accepts id c (p ++ q) [] H) as A. rewrite app_nil_r in A. rewrite A in E by assumption. discriminate.
Qed.
Lemma ber_prefix p q : ber_value (p ++ q) -> bytes_ok (p ++ q) -> q <> [] ->
  fst (BerRef_parse p) = Err UnterminatedBytes.
Proof.
  intros H Hok NE. pose proof (proj1 (bytes_ok_app _ _) Hok) as [Hp Hq].
  destruct (ber_total p Hp) as [(v & r & Hv & ->)|(e & He)].
  - exfalso. rewrite <- app_assoc in *.
    assert (E : (v ++ r ++ q) ++ [] = v ++ r ++ q) by apply app_nil_r.
    destruct (ber_value_prefix (v ++ r ++ q) v [] (r ++ q)) as (_ & E2); auto.
    { now rewrite app_nil_r. }
    symmetry in E2. apply app_eq_nil in E2 as [_ ->]. congruence.
  - destruct (error_dec_unterminated e) as [->|NU]; [now apply ber_err_iff|].
    exfalso. pose proof (ber_error_ext p q e NU He) as He2.
    destruct (BerRef_parse_err _ _ Hok He2) as [E _].
    pose proof (proj1 (BerRef_parse_ok (p ++ q) [] H ltac:(now rewrite app_nil_r))) as A.
    rewrite app_nil_r in A. rewrite A in E. discriminate.
Qed.

(** ** C42 *)
Lemma der_from_iterator cfg id items bs : der_tlv id (concat items) bs -> nlen bs <= isize_max ->
  exists b, Der_from_id_iterator cfg id items = Ok b /\ bf_slice b = bs /\ holds b bs.
Proof.
  intros H Hs. rewrite (der_tlv_octets _ _ _ H) in *.
  destruct (from_iterator_ok cfg id (fun n => Length_to_bytes (Definite n)) items) as (b & E & Hb).
  { rewrite !nlen_app in Hs. lia. }
  exists b. split; [exact E|]. split; [now apply holds_slice | assumption].
Qed.
Lemma ber_from_iterator_indefinite cfg id items : nlen (id ++ 0x80 :: concat items) <= isize_max ->
  exists b, Ber_from_id_iterator_indefinite cfg id items = Ok b /\ bf_slice b = id ++ 0x80 :: concat items /\
    holds b (id ++ 0x80 :: concat items).
Proof.
  intros Hs. destruct (from_iterator_ok cfg id (fun _ => Length_to_bytes Indefinite) items) as (b & E & Hb).
  { rewrite nlen_app, nlen_cons in Hs. change (nlen (Length_to_bytes Indefinite)) with 1. lia. }
  exists b. split; [exact E|]. split; [now apply holds_slice | assumption].
Qed.
Lemma der_with_id_length cfg id n : is_identifier id -> nlen id + nlen (Length_to_bytes (Definite n)) + n <= isize_max ->
  exists b c, Der_with_id_length cfg id n = Ok b /\ nlen c = n /\ bytes_ok c /\ der_tlv id c (bf_slice b) /\ holds b (bf_slice b).
Proof.
  intros Hi Hs. destruct (with_header_ok cfg id _ n Hs) as (b & c & E & Hb & Lc & Hc).
  exists b, c. rewrite (holds_slice _ _ Hb). split; [exact E|]. split; [exact Lc|]. split; [exact Hc|]. split; [|exact Hb].
  rewrite <- Lc. apply der_tlv_make; [assumption|]. pose proof isize_lt. lia.
Qed.
Lemma ber_with_id_length_indefinite cfg id n : nlen id + 1 + n <= isize_max ->
  exists b c, Ber_with_id_length_indefinite cfg id n = Ok b /\ nlen c = n /\ bytes_ok c /\ bf_slice b = id ++ 0x80 :: c /\
    holds b (id ++ 0x80 :: c).
Proof.
  intros Hs. destruct (with_header_ok cfg id (Length_to_bytes Indefinite) n Hs) as (b & c & E & Hb & Lc & Hc).
  exists b, c. rewrite (holds_slice _ _ Hb). conj; auto.
Qed.

(** ** C44 *)
Lemma edit_contents_pre f pre c : tlv_contents (pre ++ c) = Ok c -> nlen (f c) = nlen c ->
  edit_contents f (pre ++ c) = Ok (pre ++ f c).
Proof.
  intros T L. unfold edit_contents. rewrite T. cbn [rbind]. rewrite L, N.eqb_refl.
  pose proof (mem_write_at pre c [] (f c) (nlen (pre ++ c) - nlen c)) as M. rewrite !app_nil_r in M.
  apply M; [rewrite nlen_app; lia | now symmetry].
Qed.
Lemma edit_contents_der f id c bs : der_tlv id c bs -> nlen (f c) = nlen c ->
  exists bs', edit_contents f bs = Ok bs' /\ der_tlv id (f c) bs' /\ nlen bs' = nlen bs.
Proof.
  intros H L. destruct (der_tlv_disassemble _ _ _ H) as (_ & _ & T & _).
  apply der_tlv_parts in H as (len & -> & Hi & Hm & Hn).
  rewrite app_assoc in *. rewrite edit_contents_pre by auto. eexists. split; [reflexivity|].
  rewrite <- app_assoc. split; [|rewrite !nlen_app; lia]. constructor; rewrite ?L; auto.
Qed.
Lemma edit_contents_indefinite f id c : is_identifier id -> nlen (f c) = nlen c ->
  edit_contents f (id ++ 0x80 :: c) = Ok (id ++ 0x80 :: f c).
Proof.
  intros Hi L. destruct (tlv_parts_indefinite id c Hi) as (_ & _ & T & _).
  change (0x80 :: c) with ([0x80] ++ c) in *. rewrite app_assoc in *. rewrite edit_contents_pre by auto.
  now rewrite <- app_assoc.
Qed.
Lemma edit_id_pre f id id' r : tlv_id (id ++ r) = Ok id -> f id = Ok id' -> nlen id' = nlen id ->
  edit_id f (id ++ r) = Ok (id' ++ r).
Proof.
  intros T F L. unfold edit_id. rewrite T. cbn [rbind]. rewrite F. cbn [rbind]. rewrite L, N.eqb_refl.
  now apply (mem_write_at [] id r id' 0).
Qed.
Lemma identifier_len c p n bs c' p' bs' : identifier c p n bs -> identifier c' p' n bs' -> nlen bs = nlen bs'.
Proof.
  intros H H'. destruct H as [H1 H2 H3|hi lo H1 H2 H3 Hd Hh Hv]; destruct H' as [H1' H2' H3'|hi' lo' H1' H2' H3' Hd' Hh' Hv']; try lia.
  - reflexivity.
  - assert (E : hi ++ [lo] = hi' ++ [lo']).
    { apply b128_canon_inj; auto; try congruence; destruct hi, hi'; try assumption; discriminate. }
    rewrite !nlen_cons. f_equal. rewrite !nlen_app, !nlen_map.
    apply (f_equal nlen) in E. rewrite !nlen_app in E. rewrite !nlen_cons, !nlen_nil in *. lia.
Qed.
Lemma edit_class_der k cls pc n id c bs : identifier cls pc n id -> der_tlv id c bs ->
  exists id' bs', edit_id (IdRef_set_class k) bs = Ok bs' /\ identifier (class_num k) pc n id' /\ der_tlv id' c bs' /\ nlen bs' = nlen bs.
Proof.
  intros Hid H. destruct (set_class_ok k cls pc n id Hid) as (id' & E & Hid').
  pose proof (identifier_len _ _ _ _ _ _ _ Hid Hid') as L. destruct (der_tlv_disassemble _ _ _ H) as (T & _ & _ & _).
  apply der_tlv_parts in H as (len & -> & Hi & Hm & Hn).
  exists id', (id' ++ len ++ c). split; [apply edit_id_pre; auto|]. split; [assumption|]. split.
  - constructor; auto. exists (class_num k), pc, n. assumption.
  - rewrite !nlen_app. lia.
Qed.
Lemma edit_pc_der k cls pc n id c bs : identifier cls pc n id -> der_tlv id c bs ->
  exists id' bs', edit_id (IdRef_set_pc k) bs = Ok bs' /\ identifier cls (pc_num k) n id' /\ der_tlv id' c bs' /\ nlen bs' = nlen bs.
Proof.
  intros Hid H. destruct (set_pc_ok k cls pc n id Hid) as (id' & E & Hid').
  pose proof (identifier_len _ _ _ _ _ _ _ Hid Hid') as L. destruct (der_tlv_disassemble _ _ _ H) as (T & _ & _ & _).
  apply der_tlv_parts in H as (len & -> & Hi & Hm & Hn).
  exists id', (id' ++ len ++ c). split; [apply edit_id_pre; auto|]. split; [assumption|]. split.
  - constructor; auto. exists cls, (pc_num k), n. assumption.
  - rewrite !nlen_app. lia.
Qed.
Lemma edit_id_indefinite k k' cls pc n id c : identifier cls pc n id ->
  (exists id', edit_id (IdRef_set_class k) (id ++ 0x80 :: c) = Ok (id' ++ 0x80 :: c) /\ identifier (class_num k) pc n id') /\
  (exists id', edit_id (IdRef_set_pc k') (id ++ 0x80 :: c) = Ok (id' ++ 0x80 :: c) /\ identifier cls (pc_num k') n id').
Proof.
  intros Hid. assert (Hi : is_identifier id) by (exists cls, pc, n; assumption).
  destruct (tlv_parts_indefinite id c Hi) as (T & _). split.
  - destruct (set_class_ok k cls pc n id Hid) as (id' & E & Hid'). exists id'. split; [|assumption].
    apply edit_id_pre; auto. symmetry. eapply identifier_len; eassumption.
  - destruct (set_pc_ok k' cls pc n id Hid) as (id' & E & Hid'). exists id'. split; [|assumption].
    apply edit_id_pre; auto. symmetry. eapply identifier_len; eassumption.
Qed.

(** ** C17, C18: histories *)
Inductive tlv_op :=
| OpPush (b : N) | OpExtend (bs : list N) | OpTruncate (n : N)
| OpEdit (f : list N -> list N) (* in place, through mut_contents *) | OpClone
| OpVec (spare : list N). (* into_vec and from_vec_unchecked; the vector has spare capacity *)
(** The same operations on a byte vector. *)
Definition vec_op (o : tlv_op) (c : list N) : list N :=
  match o with
  | OpPush b => c ++ [b] | OpExtend bs => c ++ bs | OpTruncate n => take n c
  | OpEdit f => f c | OpClone => c | OpVec _ => c
  end.
Definition op_ok (o : tlv_op) (c : list N) : Prop :=
  match o with
  | OpPush b => b < 256 | OpExtend bs => bytes_ok bs | OpTruncate _ => True
  | OpEdit f => nlen (f c) = nlen c /\ bytes_ok (f c) | OpClone => True | OpVec spare => bytes_ok spare
  end.
Definition buf_edit (f : list N -> list N) (b : buf) : res buf :=
  let! c := tlv_contents (bf_slice b) in buf_set_contents (f c) b.
Definition der_op (cfg : bufcfg) (o : tlv_op) (b : buf) : res buf :=
  match o with
  | OpPush v => Der_push cfg v b | OpExtend bs => Der_extend cfg bs b | OpTruncate n => Der_truncate n b
  | OpEdit f => buf_edit f b | OpClone => bf_clone cfg b
  | OpVec spare => Ok (bf_from_vec cfg (bf_into_vec b) spare)
  end.
Definition ber_op (cfg : bufcfg) (o : tlv_op) (b : buf) : res buf :=
  match o with
  | OpPush v => Ber_push cfg v b | OpExtend bs => Ber_extend cfg bs b | OpTruncate n => Ber_truncate n b
  | OpEdit f => buf_edit f b | OpClone => bf_clone cfg b
  | OpVec spare => Ok (bf_from_vec cfg (bf_into_vec b) spare)
  end.
(** Each step has its own fresh memory. *)
Fixpoint run_ops (step : bufcfg -> tlv_op -> buf -> res buf) (cfgs : nat -> bufcfg) (ops : list tlv_op) (b : buf) : res buf :=
  match ops with
  | [] => Ok b
  | o :: ops' => let! b' := step (cfgs O) o b in run_ops step (fun i => cfgs (S i)) ops' b'
  end.
Fixpoint vec_ops (ops : list tlv_op) (c : list N) : list N :=
  match ops with [] => c | o :: ops' => vec_ops ops' (vec_op o c) end.
(** Every operation is legal and every intermediate value fits in memory. *)
Fixpoint history_ok (fits : list N -> Prop) (ops : list tlv_op) (c : list N) : Prop :=
  match ops with
  | [] => True
  | o :: ops' => op_ok o c /\ fits (vec_op o c) /\ history_ok fits ops' (vec_op o c)
  end.
Definition der_fits (id c : list N) : Prop := exists bs, der_tlv id c bs /\ nlen bs <= isize_max.
Definition indef_fits (id c : list N) : Prop := nlen (id ++ 0x80 :: c) <= isize_max.

Lemma der_fits_size id c : der_fits id c -> is_identifier id /\ nlen c < 2 ^ 64 /\ nlen id + Length_len (Definite (nlen c)) + nlen c <= isize_max.
Proof.
  intros (bs & H & L). rewrite (der_tlv_size _ _ _ H) in L.
  split; [eapply der_tlv_id; eassumption|]. split; [eapply der_tlv_lt; eassumption | assumption].
Qed.
Lemma clone_ok cfg b bs : holds b bs -> nlen bs <= isize_max -> exists b', bf_clone cfg b = Ok b' /\ holds b' bs.
Proof.
  intros H L. unfold bf_clone, bf_from_slice. rewrite (holds_slice _ _ H).
  destruct (with_capacity_ok cfg _ L) as (b1 & -> & L1 & Hc & Hok). cbn [rbind].
  destruct (extend_ok b1 [] (b_mem b1) bs) as (b2 & s2 & E & M2 & L2 & _ & Hs2); auto.
  exists b2. split; [exact E|]. exists s2. auto.
Qed.
Lemma from_vec_holds cfg bs spare : bytes_ok spare -> holds (bf_from_vec cfg bs spare) bs.
Proof.
  intros H. unfold bf_from_vec. destruct (N.eqb_spec (nlen (bs ++ spare)) 0) as [E|_].
  - apply nlen_zero in E. apply app_eq_nil in E. destruct E as [-> _]. apply holds_new.
  - exists spare. auto.
Qed.
Lemma vec_op_holds cfg b bs spare : holds b bs -> bytes_ok spare -> holds (bf_from_vec cfg (bf_into_vec b) spare) bs.
Proof. intros H Hs. unfold bf_into_vec. rewrite (holds_slice _ _ H). now apply from_vec_holds. Qed.
Lemma buf_edit_ok b pre c f : holds b (pre ++ c) -> tlv_contents (pre ++ c) = Ok c -> nlen (f c) = nlen c ->
  exists b', buf_edit f b = Ok b' /\ holds b' (pre ++ f c).
Proof.
  intros H T L. unfold buf_edit. rewrite (holds_slice _ _ H), T. cbn [rbind]. now apply (set_contents_ok b pre c).
Qed.

Lemma der_step cfg o b id c bs : bytes_ok c -> der_tlv id c bs -> holds b bs -> der_fits id c ->
  op_ok o c -> der_fits id (vec_op o c) ->
  exists b' bs', der_op cfg o b = Ok b' /\ holds b' bs' /\ der_tlv id (vec_op o c) bs' /\ bytes_ok (vec_op o c).
Proof.
  intros Hc Hd Hb Hf0 Ho Hf. destruct (der_fits_size _ _ Hf) as (Hi & Hlt & Hsz).
  pose proof (der_tlv_octets _ _ _ Hd) as Eb.
  assert (D : der_tlv id (vec_op o c) (id ++ Length_to_bytes (Definite (nlen (vec_op o c))) ++ vec_op o c)) by (now apply der_tlv_make).
  assert (EXT : forall bs', bytes_ok bs' -> nlen id + Length_len (Definite (nlen (c ++ bs'))) + nlen (c ++ bs') <= isize_max ->
    exists b', Der_extend cfg bs' b = Ok b' /\ holds b' (id ++ Length_to_bytes (Definite (nlen (c ++ bs'))) ++ c ++ bs')).
  { intros bs' Hbs' S. rewrite nlen_app in S. apply Der_extend_ok; auto; [now rewrite <- Eb | lia]. }
  destruct o as [v|bs'|n|f| |spare]; cbn [der_op vec_op op_ok] in *.
  - destruct (EXT [v]) as (b' & E & H'); auto; [repeat constructor; assumption|].
    exists b', (id ++ Length_to_bytes (Definite (nlen (c ++ [v]))) ++ c ++ [v]). conj; auto.
    apply bytes_ok_app. split; [assumption | repeat constructor; assumption].
  - destruct (EXT bs') as (b' & E & H'); auto.
    exists b', (id ++ Length_to_bytes (Definite (nlen (c ++ bs'))) ++ c ++ bs'). conj; auto.
    apply bytes_ok_app. auto.
  - destruct (Der_truncate_ok b id c n Hi Hc) as (b' & E & H').
    + now rewrite <- Eb.
    + eapply der_tlv_lt; eassumption.
    + eauto 10 using bytes_ok_take.
  - destruct Ho as [L Hok]. destruct (der_tlv_disassemble _ _ _ Hd) as (_ & _ & T & _).
    rewrite Eb, app_assoc in Hb, T. destruct (buf_edit_ok b _ c f Hb T L) as (b' & E & H').
    exists b', (id ++ Length_to_bytes (Definite (nlen (f c))) ++ f c). rewrite L in D |- *. rewrite <- app_assoc in H'. auto.
  - destruct (clone_ok cfg b bs Hb) as (b' & E & H').
    + destruct Hf0 as (bs0 & D0 & L0). now rewrite (der_tlv_fun _ _ _ _ Hd D0).
    + eauto 10.
  - eexists _, bs. split; [reflexivity|]. split; [now apply vec_op_holds | auto].
Qed.
Lemma der_history ops : forall cfgs id c b bs, bytes_ok c -> der_tlv id c bs -> holds b bs -> nlen bs <= isize_max ->
  history_ok (der_fits id) ops c ->
  exists b' bs', run_ops der_op cfgs ops b = Ok b' /\ bf_slice b' = bs' /\ holds b' bs' /\
    der_tlv id (vec_ops ops c) bs' /\ bytes_ok (vec_ops ops c).
Proof.
  induction ops as [|o ops IH]; intros cfgs id c b bs Hc Hd Hb Hl H; cbn [run_ops vec_ops history_ok] in *.
  - exists b, bs. conj; auto. now apply holds_slice.
  - destruct H as (Ho & Hf & H).
    destruct (der_step (cfgs O) o b id c bs Hc Hd Hb (ex_intro _ bs (conj Hd Hl)) Ho Hf) as (b1 & bs1 & -> & Hb1 & Hd1 & Hc1).
    cbn [rbind]. apply (IH _ id _ b1 bs1); auto.
    destruct Hf as (bs2 & D2 & L2). now rewrite (der_tlv_fun _ _ _ _ Hd1 D2).
Qed.

Lemma ber_step_definite cfg o b id c bs : der_tlv id c bs -> holds b bs -> ber_op cfg o b = der_op cfg o b.
Proof.
  intros Hd Hb. destruct (der_tlv_disassemble _ _ _ Hd) as (_ & T & _ & _).
  destruct o; cbn [ber_op der_op]; try reflexivity;
    unfold Ber_push, Der_push, Ber_extend, Ber_truncate; rewrite (holds_slice _ _ Hb), T; reflexivity.
Qed.
Lemma ber_history_definite ops : forall cfgs id c b bs, bytes_ok c -> der_tlv id c bs -> holds b bs -> nlen bs <= isize_max ->
  history_ok (der_fits id) ops c ->
  exists b' bs', run_ops ber_op cfgs ops b = Ok b' /\ bf_slice b' = bs' /\ holds b' bs' /\
    der_tlv id (vec_ops ops c) bs' /\ bytes_ok (vec_ops ops c).
Proof.
  induction ops as [|o ops IH]; intros cfgs id c b bs Hc Hd Hb Hl H; cbn [run_ops vec_ops history_ok] in *.
  - exists b, bs. conj; auto. now apply holds_slice.
  - destruct H as (Ho & Hf & H). rewrite (ber_step_definite (cfgs O) o b id c bs Hd Hb).
    destruct (der_step (cfgs O) o b id c bs Hc Hd Hb (ex_intro _ bs (conj Hd Hl)) Ho Hf) as (b1 & bs1 & -> & Hb1 & Hd1 & Hc1).
    cbn [rbind]. apply (IH _ id _ b1 bs1); auto.
    destruct Hf as (bs2 & D2 & L2). now rewrite (der_tlv_fun _ _ _ _ Hd1 D2).
Qed.
Lemma ber_history_indefinite ops : forall cfgs id c b, is_identifier id -> bytes_ok c -> holds b (id ++ 0x80 :: c) ->
  indef_fits id c -> history_ok (indef_fits id) ops c ->
  exists b', run_ops ber_op cfgs ops b = Ok b' /\ bf_slice b' = id ++ 0x80 :: vec_ops ops c /\
    holds b' (id ++ 0x80 :: vec_ops ops c) /\ bytes_ok (vec_ops ops c).
Proof.
  unfold indef_fits.
  induction ops as [|o ops IH]; intros cfgs id c b Hi Hc Hb Hl H; cbn [run_ops vec_ops history_ok] in *.
  - exists b. conj; auto. now apply holds_slice.
  - destruct H as (Ho & Hf & H).
    assert (St : exists b1, ber_op (cfgs O) o b = Ok b1 /\ holds b1 (id ++ 0x80 :: vec_op o c) /\ bytes_ok (vec_op o c)).
    { rewrite !nlen_app, !nlen_cons in *.
      destruct o as [v|bs'|n|f| |spare]; cbn [ber_op vec_op op_ok] in *.
      - rewrite nlen_app in Hf. destruct (Ber_extend_indefinite (cfgs O) b id c [v] Hi Hb) as (b1 & E & H1); [lia|].
        exists b1. conj; auto. apply bytes_ok_app. split; [assumption | repeat constructor; assumption].
      - rewrite nlen_app in Hf. destruct (Ber_extend_indefinite (cfgs O) b id c bs' Hi Hb) as (b1 & E & H1); [lia|].
        exists b1. conj; auto. apply bytes_ok_app. auto.
      - destruct (Ber_truncate_indefinite b id c n Hi Hc ltac:(lia) Hb) as (b1 & E & H1).
        exists b1. conj; auto using bytes_ok_take.
      - destruct Ho as [L Hok]. destruct (tlv_parts_indefinite id c Hi) as (_ & _ & T & _).
        change (0x80 :: c) with ([0x80] ++ c) in Hb, T. rewrite app_assoc in Hb, T.
        destruct (buf_edit_ok b _ c f Hb T L) as (b' & E & H'). rewrite <- app_assoc in H'. exists b'. auto.
      - destruct (clone_ok (cfgs O) b _ Hb) as (b' & E & H'); [rewrite nlen_app, nlen_cons; lia|]. exists b'. auto.
      - eexists. split; [reflexivity|]. split; [now apply vec_op_holds | auto]. }
    destruct St as (b1 & -> & Hb1 & Hc1). cbn [rbind]. now apply IH.
Qed.

(** ** C46: From impls *)
Lemma from_int_size t v bs : Contents_from_int t v = Ok bs -> nlen bs <= 32.
Proof.
  assert (S : N.of_nat (int_size t) <= 16) by (destruct t; cbn; lia).
  assert (P : forall w, Contents_from_positive t w = Ok bs -> nlen bs <= 32).
  { intros w. unfold Contents_from_positive.
    destruct (count_leading _ _) as [k|]; [|discriminate]. destruct (nth_byte _ _) as [b|]; [|discriminate].
    destruct (N.land b 0x80 =? 0x80); intros [= <-];
      rewrite nlen_take, nlen_drop, nlen_app, !to_be_mem_len; lia. }
  assert (M : forall w, Contents_from_negative t w = Ok bs -> nlen bs <= 32).
  { intros w. unfold Contents_from_negative. destruct (nth_byte _ _) as [b|]; [|discriminate].
    destruct (N.land b 0x80 =? 0); [destruct (_ =? 0); [discriminate|]|]; intros [= <-];
      rewrite nlen_take, nlen_drop, !to_be_mem_len; lia. }
  unfold Contents_from_int. destruct (int_signed t), (v <? 0)%Z, (v =? 0)%Z; eauto; intros [= <-]; vm_compute; discriminate.
Qed.
Lemma universal_identifier n : n < 31 -> is_identifier [n].
Proof. intros H. exists 0, 0, n. replace n with (0 * 64 + 0 * 32 + n) at 2 by lia. constructor; lia. Qed.
Lemma der_from_small cfg id c : is_identifier id -> nlen id <= 1 -> nlen c <= isize_max - 64 ->
  exists b, Der_new cfg id c = Ok b /\ der_tlv id c (bf_slice b).
Proof.
  intros Hi Hl Hc. assert (EM : isize_max = 2 ^ 63 - 1) by reflexivity.
  assert (Hlt : nlen c < 2 ^ 64) by (change (2 ^ 64) with (2 ^ 63 + 2 ^ 63); lia).
  pose proof (der_tlv_make id c Hi Hlt) as D.
  destruct (der_new_ok cfg id c _ D) as (b & E & Hb & _).
  - rewrite !nlen_app, len_len by assumption. unfold Length_len.
    destruct (N.leb_spec (nlen c) LEN_MAX_SHORT); [lia|].
    assert (byte_len (nlen c) <= 8); [|lia]. apply byte_len_le; [exact Hlt|].
    change LEN_MAX_SHORT with 127 in *. lia.
  - exists b. rewrite Hb. auto.
Qed.
Lemma der_from_int cfg t v : in_range t v ->
  exists b c, Der_from_int cfg t v = Ok b /\ der_tlv [0x02] c (bf_slice b) /\ twos_value c = v /\ shortest_twos c /\ bytes_ok c.
Proof.
  intros H. destruct (from_int_spec t v H) as (c & E & Hok & S & V). unfold Der_from_int. rewrite E. cbn [rbind].
  pose proof (from_int_size t v c E). assert (EM : isize_max = 2 ^ 63 - 1) by reflexivity.
  destruct (der_from_small cfg ID_INTEGER c) as (b & Eb & D).
  - apply universal_identifier. lia.
  - reflexivity.
  - lia.
  - exists b, c. auto.
Qed.
Lemma der_from_bool cfg v : exists b, Der_from_bool cfg v = Ok b /\ bf_slice b = [0x01; 0x01; if v then 0xff else 0x00] /\
  DerRef_boolean v = bf_slice b /\ der_tlv [0x01] [if v then 0xff else 0x00] (bf_slice b).
Proof.
  assert (EM : isize_max = 2 ^ 63 - 1) by reflexivity. unfold Der_from_bool.
  destruct (der_from_small cfg ID_BOOLEAN (Contents_from_bool v)) as (b & E & D).
  - apply universal_identifier. lia.
  - reflexivity.
  - destruct v; vm_compute; discriminate.
  - exists b. split; [exact E|]. pose proof (der_tlv_octets _ _ _ D) as O.
    destruct v; rewrite O in *; auto.
Qed.
Lemma der_from_bytes cfg bs : nlen bs <= isize_max - 64 ->
  (exists b, Der_from_str cfg bs = Ok b /\ der_tlv [0x0c] bs (bf_slice b)) /\
  (exists b, Der_from_bytes cfg bs = Ok b /\ der_tlv [0x04] bs (bf_slice b)).
Proof.
  intros H. split; apply der_from_small; auto; try reflexivity; apply universal_identifier; lia.
Qed.
