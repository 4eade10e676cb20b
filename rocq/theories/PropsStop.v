(** C93: what a failing stream parser has taken of the stream. *)
From Verif Require Import Base ModelIo ModelTag ModelContents ModelTlv Spec SpecIo SpecLeft SpecStop.
From Verif Require Import TagProofs IdProofs TagMain TlvProofs TlvMain StreamProofs StreamMain LeftProofs StopProofs.
Open Scope N_scope.

(** A prefix is too short, or it decides and something is left. *)
Definition decides (parse : list N -> res (list N) * list N) : Prop := forall q r, bytes_ok (q ++ r) -> r <> [] ->
  fst (parse q) = Err UnterminatedBytes \/ (snd (parse (q ++ r)) <> [] /\ fst (parse (q ++ r)) <> Err UnterminatedBytes).
Lemma more_left (rest r : list N) : r <> [] -> rest ++ r <> [].
Proof. intros N E. apply app_eq_nil in E as [_ ->]. congruence. Qed.
Lemma der_decides : decides DerRef_parse.
Proof.
  intros q r O N. pose proof (proj1 (bytes_ok_app _ _) O) as [Oq _].
  destruct (DerRef_parse q) as [x rest] eqn:E. destruct x as [v|e| |].
  - right. apply der_parse_iff in E as [V ->]; [|assumption]. rewrite <- app_assoc in *.
    assert (DerRef_parse (v ++ rest ++ r) = (Ok v, rest ++ r)) as -> by (apply der_parse_iff; auto).
    split; [now apply more_left | discriminate].
  - destruct (der_stuck _ _ _ E) as (p & -> & [[Ne C]|[-> _]]); [right | left; reflexivity].
    rewrite <- app_assoc, C. split; [now apply more_left | cbn [fst]; congruence].
  - exfalso. destruct (der_total q Oq) as [(id & c & v & r0 & Hd & ->)|(e & He)].
    + assert (DerRef_parse (v ++ r0) = (Ok v, r0)) by (apply der_parse_iff; eauto). congruence.
    + apply der_err_iff in He; [|assumption]. rewrite E in He. discriminate.
  - exfalso. destruct (der_total q Oq) as [(id & c & v & r0 & Hd & ->)|(e & He)].
    + assert (DerRef_parse (v ++ r0) = (Ok v, r0)) by (apply der_parse_iff; eauto). congruence.
    + apply der_err_iff in He; [|assumption]. rewrite E in He. discriminate.
Qed.
Lemma ber_decides : decides BerRef_parse.
Proof.
  intros q r O N. pose proof (proj1 (bytes_ok_app _ _) O) as [Oq _].
  destruct (BerRef_parse q) as [x rest] eqn:E. destruct x as [v|e| |].
  - right. apply ber_parse_iff in E as [V ->]; [|assumption]. rewrite <- app_assoc in *.
    assert (BerRef_parse (v ++ rest ++ r) = (Ok v, rest ++ r)) as -> by (apply ber_parse_iff; auto).
    split; [now apply more_left | discriminate].
  - destruct (ber_stuck _ _ _ E) as (p & -> & [[Ne C]|[-> _]]); [right | left; reflexivity].
    rewrite <- app_assoc, C. split; [now apply more_left | cbn [fst]; congruence].
  - exfalso. destruct (ber_total q Oq) as [(v & r0 & Hd & ->)|(e & He)].
    + assert (BerRef_parse (v ++ r0) = (Ok v, r0)) by (apply ber_parse_iff; eauto). congruence.
    + apply ber_err_iff in He; [|assumption]. rewrite E in He. discriminate.
  - exfalso. destruct (ber_total q Oq) as [(v & r0 & Hd & ->)|(e & He)].
    + assert (BerRef_parse (v ++ r0) = (Ok v, r0)) by (apply ber_parse_iff; eauto). congruence.
    + apply ber_err_iff in He; [|assumption]. rewrite E in He. discriminate.
Qed.
Lemma stopped_least parse p e : decides parse -> bytes_ok p -> stopped parse p e ->
  forall q r, p = q ++ r -> r <> [] -> fst (parse q) = Err UnterminatedBytes.
Proof.
  intros D O C q r -> N. destruct (D q r O N) as [H|[H1 H2]]; [assumption|]. exfalso. unfold stopped in C. destruct (short e).
  - contradiction.
  - specialize (C []). rewrite app_nil_r in C. rewrite C in H1. now apply H1.
Qed.

(** Whatever the reader, as long as it delivers its octets in turn: the octets taken are
    refused by the slice parser whatever comes next, or the stream ended or failed and
    they are too short. *)
Theorem C93_id : forall S (R : reader S) content fuel s e s', honest R content -> Id_parse R fuel s = (Err e, s') ->
  exists p, content s = p ++ content s' /\ stopped (fun bs => Id_parse slice_reader (slice_fuel bs) bs) p e /\
    (if short e then fst (IdRef_parse p) = Err UnterminatedBytes else forall t, fst (IdRef_parse (p ++ t)) = Err e).
Proof. intros S R content fuel s e s' H. exact (id_stop R content H fuel s e s'). Qed.
Print Assumptions C93_id.
Theorem C93_length : forall S (R : reader S) content s e s', honest R content -> Length_parse R s = (Err e, s') ->
  exists p, content s = p ++ content s' /\ stopped Length_parse_slice p e.
Proof. intros S R content s e s' H. exact (length_stop_ R content H s e s'). Qed.
Print Assumptions C93_length.
(** [Der::parse] calls [read] for contents of no octets too, so there the whole value may
    have been taken when the reader fails.  No fewer octets would have told. *)
Theorem C93_der : forall S (R : reader S) content fuel s e s', honest R content -> bytes_ok (content s) -> Der_parse R fuel s = (Err e, s') ->
  exists p, content s = p ++ content s' /\ (stopped DerRef_parse p e \/ exists k id, e = Io k /\ der_tlv id [] p) /\
    (forall q r, p = q ++ r -> r <> [] -> fst (DerRef_parse q) = Err UnterminatedBytes).
Proof.
  intros S R content fuel s e s' H O E. destruct (der_stop R content H fuel s e s' O E) as (p & Ec & C). exists p. split; [assumption|].
  split; [assumption|]. assert (Op : bytes_ok p) by (rewrite Ec in O; now apply bytes_ok_app in O).
  destruct C as [C|(k & id & -> & V)]; [exact (stopped_least _ p e der_decides Op C)|]. intros q r -> N.
  destruct (der_decides q r Op N) as [X|[X _]]; [assumption|]. exfalso. apply X.
  assert (DerRef_parse ((q ++ r) ++ []) = (Ok (q ++ r), [])) as Y by (apply der_parse_iff; [now rewrite app_nil_r | eauto]).
  rewrite app_nil_r in Y. now rewrite Y.
Qed.
Print Assumptions C93_der.
Theorem C93_ber : forall S (R : reader S) content fuel s e s', honest R content -> bytes_ok (content s) -> Ber_parse R fuel s = (Err e, s') ->
  exists p, content s = p ++ content s' /\ stopped BerRef_parse p e /\
    (forall q r, p = q ++ r -> r <> [] -> fst (BerRef_parse q) = Err UnterminatedBytes).
Proof.
  intros S R content fuel s e s' H O E. destruct (ber_stop R content H fuel s e s' O E) as (p & Ec & C). exists p. split; [assumption|].
  split; [assumption|]. apply stopped_least with e; [apply ber_decides | rewrite Ec in O; now apply bytes_ok_app in O | assumption].
Qed.
Print Assumptions C93_ber.
(** So where a refusal leaves the stream does not depend on the reader. *)
Theorem C93_same : forall S1 S2 (R1 : reader S1) (R2 : reader S2) c1 c2 fuel1 fuel2 s1 s2 e1 e2 s1' s2',
  honest R1 c1 -> honest R2 c2 -> bytes_ok (c1 s1) -> c1 s1 = c2 s2 -> short e1 = false -> short e2 = false ->
  (Der_parse R1 fuel1 s1 = (Err e1, s1') -> Der_parse R2 fuel2 s2 = (Err e2, s2') -> e1 = e2 /\ c1 s1' = c2 s2') /\
  (Ber_parse R1 fuel1 s1 = (Err e1, s1') -> Ber_parse R2 fuel2 s2 = (Err e2, s2') -> e1 = e2 /\ c1 s1' = c2 s2').
Proof.
  intros S1 S2 R1 R2 c1 c2 fuel1 fuel2 s1 s2 e1 e2 s1' s2' H1 H2 O E N1 N2.
  assert (O2 : bytes_ok (c2 s2)) by now rewrite <- E. split; intros P1 P2.
  - destruct (C93_der _ R1 c1 _ _ _ _ H1 O P1) as (p1 & E1 & [K1|(k & id & -> & _)] & _); [|discriminate].
    destruct (C93_der _ R2 c2 _ _ _ _ H2 O2 P2) as (p2 & E2 & [K2|(k & id & -> & _)] & _); [|discriminate].
    unfold stopped in K1, K2. rewrite N1 in K1. rewrite N2 in K2. specialize (K1 (c1 s1')). specialize (K2 (c2 s2')).
    rewrite <- E1 in K1. rewrite <- E2, <- E, K1 in K2. injection K2 as -> ->. auto.
  - destruct (C93_ber _ R1 c1 _ _ _ _ H1 O P1) as (p1 & E1 & K1 & _). destruct (C93_ber _ R2 c2 _ _ _ _ H2 O2 P2) as (p2 & E2 & K2 & _).
    unfold stopped in K1, K2. rewrite N1 in K1. rewrite N2 in K2. specialize (K1 (c1 s1')). specialize (K2 (c2 s2')).
    rewrite <- E1 in K1. rewrite <- E2, <- E, K1 in K2. injection K2 as -> ->. auto.
Qed.
Print Assumptions C93_same.
Example C93_ex :
  (** refused at the second octet of the length: the rest stays *)
  Der_parse sched_reader 20 [Chunk [4; 0x81]; Chunk [5; 9; 9]] = (Err RedundantBytes, [Chunk [9; 9]]) /\
  Ber_parse sched_reader 20 [Chunk [0x30; 0x80; 4]; Fault Interrupted; Chunk [1; 7]] = (Err (Io Interrupted), [Chunk [1; 7]]) /\
  Ber_parse sched_reader 20 [Chunk [0x30; 0x80; 4; 1]; Fault Interrupted; Chunk [7; 0x1f]; Chunk [5; 8]] = (Err RedundantBytes, [Chunk [8]]) /\
  (** the reader fails behind a whole value *)
  Der_parse sched_reader 20 [Chunk [5; 0]; Fault Interrupted; Chunk [5; 0]] = (Err (Io Interrupted), [Chunk [5; 0]]) /\
  (** a short read of the contents: the octets read are lost *)
  Der_parse sched_reader 20 [Chunk [4; 2]; Chunk [7]; Chunk [8]] = (Err UnterminatedBytes, [Chunk [8]]).
Proof. repeat split. Qed.
