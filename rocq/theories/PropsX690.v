(** C60: the parsers against the whole grammar of X.690. *)
From Verif Require Import Base ModelIo ModelTag ModelContents ModelTlv Spec SpecX690 TagProofs IdProofs TlvProofs X690Proofs.

(** ** C60 *)
(** Not every BER value is taken: one whose length octets are more than needed, which
    8.1.3.5 allows, is refused, whatever its identifier and contents. *)
Theorem C60_complete_refuted : forall cls num id c len rest, identifier cls 0 num id -> hd 0 id <> 0 ->
  x690_length (nlen c) len -> ~ minimal_length (nlen c) len -> nlen c < 2 ^ 64 -> bytes_ok ((id ++ len ++ c) ++ rest) ->
  x690_ber (id ++ len ++ c) /\ fst (BerRef_parse ((id ++ len ++ c) ++ rest)) = Err RedundantBytes.
Proof.
  intros cls num id c len rest I Z X M B O. split.
  - eapply xv_primitive; eauto. apply Forall_app in O as [O _]. apply Forall_app in O as [_ O]. now apply Forall_app in O as [_ O].
  - destruct (x690_length_cases _ _ B X) as [K|R]; [contradiction|].
    apply ber_err_iff; [assumption|]. rewrite <- !app_assoc. apply bre_length; [now exists cls, 0, num | apply R].
Qed.
Print Assumptions C60_complete_refuted.
Example C60_complete_ex : x690_ber [0x04; 0x81; 1; 7] /\ fst (BerRef_parse [0x04; 0x81; 1; 7]) = Err RedundantBytes /\
  x690_ber [0x04; 0x83; 0; 0; 1; 7] /\ fst (BerRef_parse [0x04; 0x83; 0; 0; 1; 7]) = Err RedundantBytes.
Proof.
  assert (identifier 0 0 4 [4]) as I by (apply (id_short 0 0 4); lia).
  repeat split; try (vm_compute; reflexivity).
  - apply (xv_primitive _ _ 0 4 [4] [0x81; 1] [7] I); [discriminate| |now repeat constructor].
    apply (xl_long 1 [1]); [now repeat constructor | discriminate | vm_compute; discriminate | reflexivity].
  - apply (xv_primitive _ _ 0 4 [4] [0x83; 0; 0; 1] [7] I); [discriminate| |now repeat constructor].
    apply (xl_long 1 [0; 0; 1]); [now repeat constructor | discriminate | vm_compute; discriminate | reflexivity].
Qed.
(** And more than BER values are taken: a primitive value of indefinite length, which
    8.1.3.2 forbids, a constructed value whose contents are no values (also by
    DerRef::parse), and the end-of-contents octets by themselves. *)
Theorem C60_sound_refuted :
  (BerRef_parse [0x04; 0x80; 0; 0] = (Ok [0x04; 0x80; 0; 0], []) /\ ~ x690_ber [0x04; 0x80; 0; 0]) /\
  (BerRef_parse [0x30; 1; 5] = (Ok [0x30; 1; 5], []) /\ DerRef_parse [0x30; 1; 5] = (Ok [0x30; 1; 5], []) /\ ~ x690_ber [0x30; 1; 5]) /\
  (BerRef_parse [0; 0] = (Ok [0; 0], []) /\ ~ x690_ber [0; 0]).
Proof.
  split; [|split]; [split; [vm_compute; reflexivity|] | split; [|split]; try (vm_compute; reflexivity) | split; [vm_compute; reflexivity|]].
  - intros H. apply x690_shape in H as (_ & [(len & c & E & X & _)|(F & _)]); [|discriminate F | discriminate].
    destruct X as [n Hn|n ds O N]; cbn in E; injection E as E _; [lia|]. destruct ds; [congruence|].
    rewrite nlen_length in E. cbn [length] in E. lia.
  - intros H. apply x690_shape in H as (_ & [(len & c & E & X & V)|(_ & c & E & _)]); [| discriminate E | discriminate].
    specialize (V eq_refl). destruct X as [n Hn|n ds O N]; cbn in E; [|injection E as E _; lia].
    injection E as _ <-. apply x690_values_cons in V as (v & c & E & V).
    destruct V as [cls num id len c' I Z X| cls num id len c' I X|cls num id c' _ I].
    1, 2: rewrite <- !app_assoc in E; symmetry in E; apply (short_identifier _ _ _ _ _ _ _ I) in E as (_ & E & _); [|discriminate];
      destruct X; discriminate E.
    rewrite <- !app_assoc in E. symmetry in E. apply (short_identifier _ _ _ _ _ _ _ I) in E as (_ & E & _); discriminate.
  - intros H. apply x690_shape in H as (F & _); [congruence | discriminate].
Qed.
Print Assumptions C60_sound_refuted.
(** What holds.  Of a BER value, BerRef::parse takes all and exactly that, or refuses it
    as RedundantBytes; if no length octets are wasted, at any depth, it takes it; and a
    DER value is taken by DerRef::parse. *)
Theorem C60_partial : forall v rest, nlen v < 2 ^ 64 -> bytes_ok (v ++ rest) ->
  (x690_ber v -> BerRef_parse (v ++ rest) = (Ok v, rest) \/ fst (BerRef_parse (v ++ rest)) = Err RedundantBytes) /\
  (x690_short_ber v -> BerRef_parse (v ++ rest) = (Ok v, rest)) /\
  (x690_der v -> DerRef_parse (v ++ rest) = (Ok v, rest) /\ BerRef_parse (v ++ rest) = (Ok v, rest)).
Proof.
  intros v rest B O. split; [|split]; intros X.
  - now apply x690_ber_parse.
  - now apply x690_short_parse.
  - apply (x690_der_parse v rest) in X as P; auto. split; [assumption|].
    apply der_parse_iff in P as [(id & c & T) _]; [|assumption].
    apply ber_parse_iff; [assumption|]. split; [now apply (bv_definite id c) | reflexivity].
Qed.
Print Assumptions C60_partial.
(** Exactly: of a BER value, the parser looks at the lengths outside contents of definite
    length, and takes it if these are minimal ([ber_value]). *)
Theorem C60_exact : forall v rest, nlen v < 2 ^ 64 -> bytes_ok (v ++ rest) -> x690_ber v ->
  (BerRef_parse (v ++ rest) = (Ok v, rest) <-> ber_value v) /\
  (fst (BerRef_parse (v ++ rest)) = Err RedundantBytes <-> ~ ber_value v) /\
  (DerRef_parse (v ++ rest) = (Ok v, rest) <-> exists id c, der_tlv id c v).
Proof.
  intros v rest B O X. destruct (C60_partial v rest B O) as (P & _). specialize (P X).
  assert (I : BerRef_parse (v ++ rest) = (Ok v, rest) <-> ber_value v).
  { rewrite ber_parse_iff by assumption. split; [now intros [? _] | now split]. }
  split; [exact I|]. split.
  - split.
    + intros E V. apply I in V. rewrite V in E. discriminate.
    + intros N. destruct P as [P|P]; [|exact P]. apply I in P. contradiction.
  - rewrite der_parse_iff by assumption. split; [now intros [? _] | now split].
Qed.
Print Assumptions C60_exact.
Example C60_exact_ex : x690_ber [0x30; 4; 0x04; 0x81; 1; 7] /\ ber_value [0x30; 4; 0x04; 0x81; 1; 7] /\
  BerRef_parse [0x30; 4; 0x04; 0x81; 1; 7] = (Ok [0x30; 4; 0x04; 0x81; 1; 7], []) /\
  fst (BerRef_parse [0x30; 0x80; 0x04; 0x81; 1; 7; 0; 0]) = Err RedundantBytes.
Proof.
  assert (x690_ber [0x04; 0x81; 1; 7]) as X.
  { apply (xv_primitive _ _ 0 4 [4] [0x81; 1] [7]); [apply (id_short 0 0 4); lia | discriminate | | now repeat constructor].
    apply (xl_long 1 [1]); [now repeat constructor | discriminate | vm_compute; discriminate | reflexivity]. }
  assert (x690_ber [0x30; 4; 0x04; 0x81; 1; 7]) as Y.
  { apply (xv_constructed _ _ 0 16 [0x30] [4] [0x04; 0x81; 1; 7]); [apply (id_short 0 1 16); lia | apply (xl_short 4); lia|].
    exact (xvs_cons _ _ _ [] X (xvs_nil _ _)). }
  split; [exact Y|]. split; [|split; vm_compute; reflexivity].
  apply (proj1 (C60_exact [0x30; 4; 0x04; 0x81; 1; 7] [] ltac:(reflexivity) ltac:(now repeat constructor) Y)). vm_compute. reflexivity.
Qed.
Example C60_ex : x690_short_ber [0x30; 0x80; 0x30; 3; 0x04; 1; 7; 0; 0] /\
  BerRef_parse [0x30; 0x80; 0x30; 3; 0x04; 1; 7; 0; 0; 9] = (Ok [0x30; 0x80; 0x30; 3; 0x04; 1; 7; 0; 0], [9]) /\
  x690_der [0x30; 3; 0x04; 1; 7].
Proof.
  assert (forall indef, x690_value minimal_length indef [0x30; 3; 0x04; 1; 7]) as D.
  { intros indef. apply (xv_constructed _ _ 0 16 [0x30] [3] [0x04; 1; 7]); [apply (id_short 0 1 16); lia | now constructor |].
    apply (xvs_cons _ _ [0x04; 1; 7] []); [|constructor].
    apply (xv_primitive _ _ 0 4 [4] [1] [7]); [apply (id_short 0 0 4); lia | discriminate | now constructor | now repeat constructor]. }
  split; [|split; [vm_compute; reflexivity | apply D]].
  apply (xv_indefinite _ _ 0 16 [0x30] [0x30; 3; 0x04; 1; 7]); [reflexivity | apply (id_short 0 1 16); lia |].
  apply (xvs_cons _ _ [0x30; 3; 0x04; 1; 7] []); [apply D | constructor].
Qed.
