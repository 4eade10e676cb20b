(** C29: entries of maps with indefinite length; C59: what strings are decoded to. *)
From Coq Require Import String Ascii.
From Verif Require Import Base ModelError ModelIo ModelTag ModelContents ModelBuf ModelTlv ModelSerde.
From Verif Require Import Spec SpecIo SpecSerde SpecColl SpecFail.
From Verif Require Import TagProofs IdProofs TagMain ContentsProofs TlvProofs BufProofs TlvMain StreamProofs StreamMain.
From Verif Require Import SerdeOctets SerdeSer SerdeDe SerdeMain SerdeEntry PropsSerde CollProofs FailProofs.
Open Scope N_scope.

Section Entry.
Context {K V : Type} (DK : deserialize K) (DV : deserialize V).
Lemma entry_open items : ber_items items -> ber_value ([0x30; 0x80] ++ items ++ [0; 0]).
Proof. intros I. exact (bv_indefinite [0x30] items id_30 I). Qed.
Lemma entry_open_stop items kb vb more rest i : ber_items items -> bytes_ok (items ++ rest) -> items = kb ++ vb ++ more -> ber_value kb -> ber_value vb ->
  ber_entry_stops DK DV i (([0x30; 0x80] ++ items ++ [0; 0]) ++ rest) (Error_context (ctx 10 i) InvalidKeyValuePair).
Proof.
  intros I O E Bk Bv. right. right. exists ([0x30; 0x80] ++ items ++ [0; 0]), rest, (items ++ [0; 0]).
  split; [reflexivity|]. split; [now apply entry_open|]. split; [exists Indefinite; split; [now right | reflexivity]|].
  right. exists kb, (vb ++ more ++ [0; 0]). split; [rewrite E, <- !app_assoc; reflexivity|]. split; [assumption|].
  right. left. exists vb, (more ++ [0; 0]). split; [reflexivity|]. split; [assumption|]. split; [now destruct more | reflexivity].
Qed.
Lemma zeros_value : ber_value [0; 0].
Proof. apply (bv_definite [0] [] [0; 0]). apply (tlv_der [0] []); [apply (small_identifier 0); lia | reflexivity]. Qed.
Lemma two_values items kb vb : ber_items items -> bytes_ok items -> ber_value kb -> ber_value vb -> items ++ [0; 0] = kb ++ vb -> items = kb /\ vb = [0; 0].
Proof.
  intros I O Bk Bv E. assert (O2 : forall l, bytes_ok l -> bytes_ok (l ++ [0; 0])).
  { intros l L. apply bytes_ok_app. split; [assumption|]. now repeat constructor. }
  destruct I as [|v its Vv _ I].
  - destruct (ber_value_prefix [0; 0] kb [] vb) as [_ X]; [now repeat constructor | apply zeros_value | assumption | assumption|].
    subst vb. now apply ber_value_nonempty in Bv.
  - rewrite <- app_assoc in E. apply bytes_ok_app in O as [Ov Oi].
    destruct (ber_value_prefix v kb (its ++ [0; 0]) vb) as [-> E2]; [apply bytes_ok_app; split; [assumption | now apply O2] | assumption..|].
    destruct I as [|v2 its V2 _ I].
    + now rewrite app_nil_r.
    + exfalso. rewrite <- app_assoc in E2. destruct (ber_value_prefix v2 vb (its ++ [0; 0]) []) as [_ X].
      * apply O2 in Oi. now rewrite <- app_assoc in Oi.
      * assumption.
      * assumption.
      * now rewrite app_nil_r.
      * now destruct its.
Qed.
End Entry.

(** The end-of-contents octets stand for the value: an entry of indefinite length is taken
    exactly if there is nothing in it but a key, and the type of the values takes 00 00. *)
Theorem C29_entries_exact : forall K V (DK : deserialize K) (DV : deserialize V) items rest i, ber_items items -> bytes_ok (items ++ rest) ->
  let b := [0x30; 0x80] ++ items ++ [0; 0] in
  (forall k v s, ber_to_key_val DK DV (b ++ rest, i) = Ok (Some ((k, v), s)) <->
     s = (rest, i + 1) /\ ber_value items /\ serde_from_ber DK items = Ok k /\ serde_from_ber DV [0; 0] = Ok v) /\
  (forall kb vb more, items = kb ++ vb ++ more -> ber_value kb -> ber_value vb ->
     ber_to_key_val DK DV (b ++ rest, i) = Err (Error_context (ctx 10 i) InvalidKeyValuePair)).
Proof.
  intros K V DK DV items rest i I O b. pose proof (proj1 (bytes_ok_app _ _) O) as [Oi Or].
  assert (Ob : bytes_ok b). { unfold b. apply bytes_ok_app. split; [now repeat constructor|]. apply bytes_ok_app. split; [assumption | now repeat constructor]. }
  assert (Obr : bytes_ok (b ++ rest)) by (apply bytes_ok_app; now split).
  assert (Vb : ber_value b) by now apply entry_open.
  split.
  - intros k v s. assert (W : forall kb vb, ber_value kb -> ber_value vb -> b = [0x30; 0x80] ++ kb ++ vb -> items = kb /\ vb = [0; 0]).
    { intros kb vb Bk Bv E. unfold b in E. apply app_inv_head in E. now apply two_values. }
    split.
    + intros H. destruct s as [r j]. destruct (entry_next_ber DK DV _ _ _ _ _ Obr H) as (b' & E & _ & kb & vb & l & Bk & Bv & Bb & L & E' & Hk & Hv).
      destruct (ber_value_prefix b b' rest r Obr Vb Bb E) as [Eb <-]. rewrite <- Eb in *. clear b' Eb. cbn [fst snd] in *.
      assert (items = kb /\ vb = [0; 0]) as [-> ->].
      { destruct L as [[-> L]| ->]; [|now apply W].
        exfalso. destruct (der_tlv_disassemble _ _ _ (tlv_der [0x30] (kb ++ vb) id_30 L)) as (_ & A & _).
        destruct (tlv_parts_indefinite [0x30] (items ++ [0; 0]) id_30) as (_ & B & _).
        unfold tlv in A. cbn [length_of] in E'. rewrite <- E' in A. unfold b in A. cbn [app] in A, B. rewrite A in B. discriminate. }
      split; [|auto].
      assert (ber_to_key_val DK DV (b ++ rest, i) = Ok (Some ((k, v), (rest, i + 1)))) as H'.
      { apply (ber_entry_reads' DK DV b (k, v)); [exists kb, [0; 0], Indefinite; repeat (split; [solve [assumption | now right | reflexivity]|]); assumption | assumption]. }
      rewrite H' in H. now injection H as <-.
    + intros (-> & Bk & Hk & Hv). apply (ber_entry_reads' DK DV b (k, v)); [|assumption].
      exists items, [0; 0], Indefinite. split; [assumption|]. split; [apply zeros_value|]. split; [assumption|]. split; [now right|]. now split.
  - intros kb vb more E Bk Bv. apply ber_kv_err; [assumption | discriminate|]. now apply entry_open_stop with kb vb more.
Qed.
Print Assumptions C29_entries_exact.
Example C29_entries_exact_ex : let B := de_bool (ex_env true) in
  ber_items [1; 1; 0xff; 1; 1; 0] /\
  ber_to_key_val B B ([0x30; 0x80; 1; 1; 0xff; 1; 1; 0; 0; 0], 3) = Err (Error_context (ctx 10 3) InvalidKeyValuePair) /\
  ber_to_key_val B B ([0x30; 6; 1; 1; 0xff; 1; 1; 0], 3) = Ok (Some ((true, false), ([], 4))).
Proof.
  assert (V : forall o, ber_value (tlv [1] [o])).
  { intros o. apply (bv_definite [1] [o]), tlv_der; [apply (small_identifier 1); lia | reflexivity]. }
  split; [|split; vm_compute; reflexivity].
  exact (bi_cons _ _ (V 0xff) ltac:(discriminate) (bi_cons _ [] (V 0) ltac:(discriminate) bi_nil)).
Qed.

(** So a map with an entry of indefinite length which has a key and a value is refused,
    whatever the types and whatever comes after. *)
Theorem C29_maps_refused : forall E K V (DK : deserialize K) (DV : deserialize V) cmp eqb good xs kb vb rest,
  Forall2 (ber_entry DK DV) good xs -> ber_value kb -> ber_value vb -> kb <> [0; 0] -> vb <> [0; 0] ->
  let c := concat good ++ ([0x30; 0x80] ++ (kb ++ vb) ++ [0; 0]) ++ rest in
  bytes_ok c ->
  let e := Error_context (ctx 10 (nlen good)) InvalidKeyValuePair in
  from_ber (de_btree_map E cmp DK DV) [0x30] (Definite (nlen c)) c = Err e /\
  from_ber (de_hash_map E eqb DK DV) [0x31] (Definite (nlen c)) c = Err e.
Proof.
  intros E K V DK DV cmp eqb good xs kb vb rest G Bk Bv Nk Nv c O e.
  assert (I : ber_items (kb ++ vb)). { apply bi_cons; [assumption..|]. rewrite <- (app_nil_r vb). apply bi_cons; [assumption.. | constructor]. }
  assert (S : items_stop (ber_entry DK DV) (ber_entry_stops DK DV) c e).
  { exists good, xs, (([0x30; 0x80] ++ (kb ++ vb) ++ [0; 0]) ++ rest). split; [reflexivity|]. split; [discriminate|]. split; [assumption|].
    apply entry_open_stop with kb vb []; [assumption | | now rewrite app_nil_r | assumption..].
    unfold c in O. apply bytes_ok_app in O as [_ O]. apply bytes_ok_app in O as [O R]. apply bytes_ok_app in O as [_ O]. apply bytes_ok_app in O as [O _].
    apply bytes_ok_app. now split. }
  assert (R : right_length (Definite (nlen c)) c) by reflexivity.
  split; [apply (proj2 (entries_err E [0x30] (btree_map_insert cmp) DK DV)) | apply (proj2 (entries_err E [0x31] (hash_map_insert E eqb) DK DV))];
    auto; right; (split; [reflexivity | exact S]).
Qed.
Print Assumptions C29_maps_refused.
Example C29_maps_refused_ex : let E := ex_env true in let B := de_bool E in
  serde_from_ber (de_btree_map E Bool.compare B B) ([0x30; 10] ++ [0x30; 0x80; 1; 1; 0xff; 1; 1; 0; 0; 0]) = Err (Error_context (ctx 10 0) InvalidKeyValuePair) /\
  serde_from_ber (de_btree_map E Bool.compare B B) ([0x30; 0x80] ++ [0x30; 6; 1; 1; 0xff; 1; 1; 0] ++ [0; 0]) = Ok [(true, false)].
Proof. split; vm_compute; reflexivity. Qed.

(** Exactly: the contents octets are the result, primitive or constructed; and a
    constructed UTF8String is refused if its segment headers are not UTF-8. *)
Theorem C59_exact : forall E id l c v,
  (from_ber de_octets id l c = Ok v <-> (id = [0x04] \/ id = [0x24]) /\ l <> Indefinite /\ v = c) /\
  (right_length l c -> l <> Indefinite ->
    (from_ber (de_string E) id l c = Ok v <-> (id = [0x0c] \/ id = [0x2c]) /\ is_utf8 c /\ v = c) /\
    (from_ber (de_string E) id l c = Err InvalidUtf8 <-> (id = [0x0c] \/ id = [0x2c]) /\ ~ is_utf8 c)) /\
  (forall w, ber_string 0x0c w [0x2c] l c -> c <> [] -> l <> Indefinite ->
    (is_utf8 c -> from_ber (de_string E) [0x2c] l c = Ok c /\ c <> w) /\
    (~ is_utf8 c -> from_ber (de_string E) [0x2c] l c = Err InvalidUtf8)).
Proof.
  intros E id l c v.
  assert (I : forall id a b, bytes_eqb id a || bytes_eqb id b = true <-> id = a \/ id = b).
  { intros i a b. rewrite Bool.orb_true_iff, !bytes_eqb_eq. reflexivity. }
  assert (St : forall id, right_length l c -> l <> Indefinite ->
    from_ber (de_string E) id l c = if bytes_eqb id [0x0c] || bytes_eqb id [0x2c] then (if utf8_valid c then Ok c else Err InvalidUtf8) else Err UnmatchedId).
  { intros i R N. cbn [from_ber de_string]. change ID_UTF8_STRING with [0x0c]. change ID_UTF8_STRING_CONSTRUCTED with [0x2c].
    rewrite <- Bool.negb_orb. destruct (bytes_eqb i [0x0c] || bytes_eqb i [0x2c]); cbn [negb]; [|reflexivity].
    destruct l as [|n]; [congruence|]. cbn [right_length] in R. subst n. unfold assert_length, debug_assert, str_from_utf8.
    unfold Length_eqb. cbn [Length_is_definite Length_definite option_N_eqb andb]. rewrite N.eqb_refl, Bool.andb_false_r. reflexivity. }
  assert (U : forall i, right_length l c -> l <> Indefinite ->
    (from_ber (de_string E) i l c = Ok v <-> (i = [0x0c] \/ i = [0x2c]) /\ is_utf8 c /\ v = c) /\
    (from_ber (de_string E) i l c = Err InvalidUtf8 <-> (i = [0x0c] \/ i = [0x2c]) /\ ~ is_utf8 c)).
  { intros i R N. rewrite (St i R N), <- I. pose proof (utf8_valid_iff c) as W.
    destruct (bytes_eqb i [0x0c] || bytes_eqb i [0x2c]); [|split; (split; [discriminate | intros [? _]; discriminate])].
    destruct (utf8_valid c).
    - split; [split; [intros [= <-]; tauto | intros (_ & _ & ->); reflexivity]|]. split; [discriminate | intros [_ Z]; destruct Z; now apply W].
    - split; (split; [discriminate + (intros _; split; [reflexivity | intros Z; apply W in Z; discriminate]) | ]).
      + intros (_ & Z & _). apply W in Z. discriminate.
      + reflexivity. }
  split; [|split].
  - cbn [from_ber de_octets]. change ID_OCTET_STRING with [0x04]. change ID_OCTET_STRING_CONSTRUCTED with [0x24]. rewrite <- Bool.negb_orb, <- I.
    destruct (bytes_eqb id [0x04] || bytes_eqb id [0x24]); cbn [negb]; [|split; [discriminate | intros [? _]; discriminate]].
    destruct l; cbn [Length_is_indefinite]; [split; [discriminate | intros (_ & Z & _); congruence]|]. split; [intros [= <-]; repeat split; discriminate | now intros (_ & _ & ->)].
  - apply U.
  - intros w B N0 N1. assert (R : right_length l c).
    { inversion B as [|tag vs items l' c' _ C]; subst. inversion C; subst; reflexivity || congruence. }
    destruct (U [0x2c] R N1) as [_ U2]. split.
    + intros Y. assert (F : from_ber (de_string E) [0x2c] l c = Ok c).
      { rewrite (St _ R N1). apply utf8_valid_iff in Y. now rewrite Y. }
      split; [exact F|]. intros <-. destruct (C59_constructed_refuted E c l c) as [_ Z]. now destruct (Z B F).
    + intros Y. apply U2. auto.
Qed.
Print Assumptions C59_exact.
Example C59_exact_ex : let s := [0x2c; 0x81; 0x83; 0x04; 0x81; 0x80] ++ repeat 0x61 128 in
  let c := [0x04; 0x81; 0x80] ++ repeat 0x61 128 in
  ~ is_utf8 c /\ parse_ber (de_string (ex_env true)) s = (Err InvalidUtf8, []) /\
  parse_ber de_octets (0x24 :: tl s) = (Ok c, []).
Proof. split; [intros Z; apply utf8_valid_iff in Z; vm_compute in Z; discriminate | split; vm_compute; reflexivity]. Qed.
