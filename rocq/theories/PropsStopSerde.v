(** C93 for bsn1_serde: where a failing read_der or read_ber leaves the stream. *)
From Verif Require Import Base ModelError ModelIo ModelTag ModelContents ModelBuf ModelTlv ModelSerde Spec SpecIo SpecSerde SpecLeft SpecStop.
From Verif Require Import TagProofs IdProofs TagMain TlvProofs TlvMain StreamProofs StreamMain LeftProofs PropsSerde PropsStop.
Open Scope N_scope.

(** The parser failed and has taken what C93_der says; or one whole value has been taken, not an
    octet more, and it is none of that type. *)
Theorem C93_read_der : forall T (D : deserialize T) S (R : reader S) content fuel s e s', honest R content -> bytes_ok (content s) ->
  read_der D R fuel s = (Err e, s') -> exists p, content s = p ++ content s' /\
    (((exists id c, der_tlv id c p) /\ serde_from_der D p = Err e) \/
     stopped DerRef_parse p e \/ exists k id, e = Io k /\ der_tlv id [] p) /\
    (forall q r, p = q ++ r -> r <> [] -> fst (DerRef_parse q) = Err UnterminatedBytes).
Proof.
  intros T D S R content fuel s e s' H O E. unfold read_der in E. destruct (Der_parse R fuel s) as [x s1] eqn:P.
  destruct x as [v|e1| |]; injection E as E ->; try discriminate.
  - destruct (exact_der R content H fuel s v s' O P) as [V Ec]. exists v. split; [assumption|]. split; [left; auto|].
    intros q r -> N. assert (Ov : bytes_ok (q ++ r)) by (rewrite Ec in O; now apply bytes_ok_app in O).
    destruct (der_decides q r Ov N) as [X|[X _]]; [assumption|]. exfalso. apply X.
    assert (DerRef_parse ((q ++ r) ++ []) = (Ok (q ++ r), [])) as Y by (apply der_parse_iff; [now rewrite app_nil_r | auto]).
    rewrite app_nil_r in Y. now rewrite Y.
  - subst e1. destruct (C93_der _ R content _ _ _ _ H O P) as (p & Ec & K & L). exists p. auto.
Qed.
Print Assumptions C93_read_der.
Theorem C93_read_ber : forall T (D : deserialize T) S (R : reader S) content fuel s e s', honest R content -> bytes_ok (content s) ->
  read_ber D R fuel s = (Err e, s') -> exists p, content s = p ++ content s' /\
    ((ber_value p /\ serde_from_ber D p = Err e) \/ stopped BerRef_parse p e) /\
    (forall q r, p = q ++ r -> r <> [] -> fst (BerRef_parse q) = Err UnterminatedBytes).
Proof.
  intros T D S R content fuel s e s' H O E. unfold read_ber in E. destruct (Ber_parse R fuel s) as [x s1] eqn:P.
  destruct x as [v|e1| |]; injection E as E ->; try discriminate.
  - destruct (exact_ber R content H fuel s v s' O P) as [V Ec]. exists v. split; [assumption|]. split; [left; auto|].
    intros q r -> N. assert (Ov : bytes_ok (q ++ r)) by (rewrite Ec in O; now apply bytes_ok_app in O).
    destruct (ber_decides q r Ov N) as [X|[X _]]; [assumption|]. exfalso. apply X.
    assert (BerRef_parse ((q ++ r) ++ []) = (Ok (q ++ r), [])) as Y by (apply ber_parse_iff; [now rewrite app_nil_r | auto]).
    rewrite app_nil_r in Y. now rewrite Y.
  - subst e1. destruct (C93_ber _ R content _ _ _ _ H O P) as (p & Ec & K & L). exists p. auto.
Qed.
Print Assumptions C93_read_ber.
(** parse_der and parse_ber, on a slice. *)
Theorem C93_parse : forall T (D : deserialize T) bs e rest, bytes_ok bs ->
  (parse_der D bs = (Err e, rest) -> exists p, bs = p ++ rest /\
     (((exists id c, der_tlv id c p) /\ serde_from_der D p = Err e) \/ stuck DerRef_parse p e rest)) /\
  (parse_ber D bs = (Err e, rest) -> exists p, bs = p ++ rest /\
     ((ber_value p /\ serde_from_ber D p = Err e) \/ stuck BerRef_parse p e rest)).
Proof.
  intros T D bs e rest O. split; intros E.
  - unfold parse_der in E. destruct (DerRef_parse bs) as [x r] eqn:P. destruct x as [v|e1| |]; injection E as E ->; try discriminate.
    + apply der_parse_iff in P as [V ->]; [|assumption]. exists v. auto.
    + subst e1. destruct (der_stuck _ _ _ P) as (p & -> & C). exists p. auto.
  - unfold parse_ber in E. destruct (BerRef_parse bs) as [x r] eqn:P. destruct x as [v|e1| |]; injection E as E ->; try discriminate.
    + apply ber_parse_iff in P as [V ->]; [|assumption]. exists v. auto.
    + subst e1. destruct (ber_stuck _ _ _ P) as (p & -> & C). exists p. auto.
Qed.
Print Assumptions C93_parse.
(** A boolean that is none: the value behind it can still be read.  A redundant length: it cannot. *)
Example C93_read_ex :
  let D := de_bool (ex_env true) in
  read_der D sched_reader 20 [Chunk [2; 1]; Chunk [5; 1; 1; 255]] = (Err UnmatchedId, [Chunk [1; 1; 255]]) /\
  read_der D sched_reader 20 [Chunk [1; 1; 255]] = (Ok true, []) /\
  read_ber D sched_reader 20 [Chunk [1; 0x81]; Chunk [1; 255]; Chunk [1; 1; 255]] = (Err RedundantBytes, [Chunk [255]; Chunk [1; 1; 255]]) /\
  parse_ber D [2; 1; 5; 1; 1; 255] = (Err UnmatchedId, [1; 1; 255]) /\ parse_der D [1; 0x81; 1; 255] = (Err RedundantBytes, [255]).
Proof. vm_compute. repeat split; reflexivity. Qed.
