(** Main lemmas about the streaming parsers. *)
From Verif Require Import Base ModelIo ModelTag ModelContents ModelBuf ModelTlv Spec SpecIo TagProofs IdProofs TagMain TlvProofs BufProofs TlvMain StreamProofs.

(** ** Chunks *)
Lemma chunks_id S1 S2 (R1 : reader S1) (R2 : reader S2) c1 c2 i1 i2 fuel s1 s2 :
  steady R1 c1 i1 -> steady R2 c2 i2 -> i1 s1 -> i2 s2 -> c1 s1 = c2 s2 ->
  fst (Id_parse R1 fuel s1) = fst (Id_parse R2 fuel s2) /\
  c1 (snd (Id_parse R1 fuel s1)) = c2 (snd (Id_parse R2 fuel s2)).
Proof.
  intros H1 H2 I1 I2 E. destruct (steady_id R1 c1 i1 H1 s1 fuel I1) as (t1 & E1 & _ & F1).
  destruct (steady_id R2 c2 i2 H2 s2 fuel I2) as (t2 & E2 & _ & F2). rewrite E1, E2. cbn [fst snd]. now rewrite F1, F2, E.
Qed.
Lemma chunks_length S1 S2 (R1 : reader S1) (R2 : reader S2) c1 c2 i1 i2 s1 s2 :
  steady R1 c1 i1 -> steady R2 c2 i2 -> i1 s1 -> i2 s2 -> c1 s1 = c2 s2 ->
  fst (Length_parse R1 s1) = fst (Length_parse R2 s2) /\
  c1 (snd (Length_parse R1 s1)) = c2 (snd (Length_parse R2 s2)).
Proof.
  intros H1 H2 I1 I2 E. destruct (steady_length R1 c1 i1 H1 s1 I1) as (t1 & E1 & _ & F1).
  destruct (steady_length R2 c2 i2 H2 s2 I2) as (t2 & E2 & _ & F2). rewrite E1, E2. cbn [fst snd]. now rewrite F1, F2, E.
Qed.
Lemma chunks_ber S1 S2 (R1 : reader S1) (R2 : reader S2) c1 c2 i1 i2 fuel s1 s2 :
  steady R1 c1 i1 -> steady R2 c2 i2 -> i1 s1 -> i2 s2 -> c1 s1 = c2 s2 -> (length (c1 s1) + 2 <= fuel)%nat ->
  fst (Ber_parse R1 fuel s1) = fst (Ber_parse R2 fuel s2) /\
  c1 (snd (Ber_parse R1 fuel s1)) = c2 (snd (Ber_parse R2 fuel s2)).
Proof.
  intros H1 H2 I1 I2 E Hf. destruct (steady_ber R1 c1 i1 H1 s1 fuel I1 Hf) as (t1 & E1 & _ & F1).
  rewrite E in Hf. destruct (steady_ber R2 c2 i2 H2 s2 fuel I2 Hf) as (t2 & E2 & _ & F2). rewrite E1, E2. cbn [fst snd]. now rewrite F1, F2, E.
Qed.
Lemma greedy_chunks_der S1 S2 (R1 : reader S1) (R2 : reader S2) c1 c2 i1 i2 fuel s1 s2 :
  greedy R1 c1 i1 -> greedy R2 c2 i2 -> i1 s1 -> i2 s2 -> c1 s1 = c2 s2 ->
  fst (Der_parse R1 fuel s1) = fst (Der_parse R2 fuel s2) /\
  c1 (snd (Der_parse R1 fuel s1)) = c2 (snd (Der_parse R2 fuel s2)).
Proof.
  intros H1 H2 I1 I2 E. destruct (greedy_der R1 c1 i1 (greedy_steady _ _ _ H1) s1 fuel H1 I1) as (t1 & E1 & _ & F1).
  destruct (greedy_der R2 c2 i2 (greedy_steady _ _ _ H2) s2 fuel H2 I2) as (t2 & E2 & _ & F2). rewrite E1, E2. cbn [fst snd]. now rewrite F1, F2, E.
Qed.
Lemma der_chunks_refuted : ~ (forall fuel s1 s2,
  no_faults s1 -> no_faults s2 -> delivered s1 = delivered s2 -> (length (delivered s1) + 2 <= fuel)%nat ->
  fst (Der_parse sched_reader fuel s1) = fst (Der_parse sched_reader fuel s2)).
Proof.
  intros H. specialize (H 20%nat [Chunk [4; 2; 7]; Chunk [8]] [Chunk [4; 2; 7; 8]]).
  assert (F : Err UnterminatedBytes = Ok [4; 2; 7; 8]).
  { apply H; [repeat constructor | repeat constructor | reflexivity | vm_compute; lia]. }
  discriminate.
Qed.

(** ** Slices *)
Lemma same_id bs : bytes_ok bs ->
  fst (Id_parse slice_reader (slice_fuel bs) bs) = fst (IdRef_parse bs) /\
  forall v rest, Id_parse slice_reader (slice_fuel bs) bs = (Ok v, rest) <-> IdRef_parse bs = (Ok v, rest).
Proof.
  intros Hok. destruct (id_stream_cases bs (slice_fuel bs) Hok) as [(id & r & Hi & E & ->)|(e & He & E)].
  - unfold slice_fuel; lia.
  - rewrite E in *. assert (Hr : bytes_ok r) by (now apply bytes_ok_app in Hok as [_ Hr]).
    destruct (id_accepts id r Hi Hr) as [-> _]. split; [reflexivity | tauto].
  - destruct (id_parse_err bs e Hok He) as [E2 _]. rewrite E, E2. split; [reflexivity|].
    intros v rest. split; intros H; [rewrite H in E; discriminate | discriminate].
Qed.
Lemma same_der bs v rest fuel : bytes_ok bs -> nlen bs <= isize_max -> (length bs <= fuel)%nat ->
  (Der_parse slice_reader fuel bs = (Ok v, rest) <-> DerRef_parse bs = (Ok v, rest)).
Proof.
  intros Hok Hm Hf. rewrite der_parse_iff by assumption. split.
  - intros H. eapply der_stream_sound; eassumption.
  - intros [(id & c & Hd) ->]. apply (der_stream_ok id c); auto. rewrite nlen_app in Hm. lia.
Qed.
Lemma same_ber bs v rest fuel : bytes_ok bs -> nlen bs <= isize_max -> (length bs + 2 <= fuel)%nat ->
  (Ber_parse slice_reader fuel bs = (Ok v, rest) <-> BerRef_parse bs = (Ok v, rest)).
Proof.
  intros Hok Hm Hf. rewrite ber_parse_iff by assumption. split.
  - intros H. eapply ber_stream_sound; eassumption.
  - intros [Hv ->]. apply ber_stream_ok; auto. rewrite nlen_app in Hm. lia.
Qed.
Lemma same_der_errors bs e fuel : bytes_ok bs -> (length bs <= fuel)%nat -> fst (DerRef_parse bs) = Err e ->
  fst (Der_parse slice_reader fuel bs) = Err e \/ fst (Der_parse slice_reader fuel bs) = Panic.
Proof.
  intros Hok Hf H. apply der_err_iff in H; [|assumption].
  destruct (der_stream_err bs e fuel Hok H Hf) as [E|[E _]]; auto.
Qed.
Lemma ber_stream_failures bs r fuel : bytes_ok bs -> nlen bs <= isize_max -> (length bs + 2 <= fuel)%nat ->
  (forall v, r <> Ok v) ->
  (fst (Ber_parse slice_reader fuel bs) = r <-> ber_stream_failure isize_max [] bs r).
Proof.
  intros Hok Hm Hf Hr. split; [|now apply ber_stream_fail].
  intros H. destruct (ber_total bs Hok) as [(v & rest & Hv & ->)|(e & He)].
  - rewrite ber_stream_ok in H; auto; [|rewrite nlen_app in Hm; lia]. now elim (Hr v).
  - destruct (failure_of_error (list N) bs e He []) as (r' & Hr').
    rewrite (ber_stream_fail bs r' fuel Hok Hm Hf Hr') in H. now subst.
Qed.
Lemma der_panics_iff bs fuel : bytes_ok bs -> (length bs <= fuel)%nat ->
  (fst (Der_parse slice_reader fuel bs) = Panic <->
   exists id n len t, bs = id ++ len ++ t /\ is_identifier id /\ minimal_length n len /\ n < 2 ^ 64 /\
     isize_max < nlen (id ++ len) + n) /\
  fst (Der_parse slice_reader fuel bs) <> NoFuel.
Proof.
  intros Hok Hf.
  assert (B : forall id n len t, bs = id ++ len ++ t -> is_identifier id -> minimal_length n len -> n < 2 ^ 64 ->
     isize_max < nlen (id ++ len) + n -> fst (Der_parse slice_reader fuel bs) = Panic).
  { intros id n len t -> Hi Hm Hn HM. apply der_stream_huge with n; auto.
    apply bytes_ok_app in Hok as [_ Hok]. now apply bytes_ok_app in Hok as [_ Hok]. }
  destruct (der_total bs Hok) as [(id & c & v & rest & Hd & E)|(e & He)].
  - destruct (N.le_gt_cases (nlen v) isize_max) as [L|L].
    + assert (P : Der_parse slice_reader fuel bs = (Ok v, rest)) by (rewrite E in *; apply (der_stream_ok id c); auto).
      split; [|rewrite P; discriminate]. split; [rewrite P; discriminate|].
      intros (id' & n & len & t & E2 & Hi & Hm & Hn & HM). exact (B id' n len t E2 Hi Hm Hn HM).
    + apply der_tlv_parts in Hd as (len & -> & Hi & Hm & Hn).
      assert (HM : isize_max < nlen (id ++ len) + nlen c) by (rewrite !nlen_app in *; lia).
      rewrite <- !app_assoc in E. pose proof (B id (nlen c) len (c ++ rest) E Hi Hm Hn HM) as P.
      split; [|rewrite P; discriminate]. split; [|auto]. intros _. eauto 10.
  - destruct (der_stream_err bs e fuel Hok He Hf) as [P|(P & id & n & len & t & E & Hi & Hm & Hn & _ & HM)].
    + split; [|rewrite P; discriminate]. split; [rewrite P; discriminate|].
      intros (id' & n & len & t & E2 & Hi & Hm & Hn & HM). exact (B id' n len t E2 Hi Hm Hn HM).
    + split; [|rewrite P; discriminate]. split; [|auto]. intros _. eauto 10.
Qed.
Lemma ber_panics_iff bs fuel : bytes_ok bs -> nlen bs <= isize_max -> (length bs + 2 <= fuel)%nat ->
  (fst (Ber_parse slice_reader fuel bs) = Panic <-> ber_stream_failure (A := list N) isize_max [] bs Panic) /\
  fst (Ber_parse slice_reader fuel bs) <> NoFuel.
Proof.
  intros Hok Hm Hf. split; [apply ber_stream_failures; auto; discriminate|].
  intros H. apply ber_stream_failures in H; auto; [|discriminate].
  destruct (failure_not_ok _ _ _ _ H) as [(e & E)|E]; discriminate.
Qed.
Definition hostile : list N := [4; 0x88; 0xff; 0xff; 0xff; 0xff; 0xff; 0xff; 0xff; 0xff].
Lemma hostile_ok : bytes_ok hostile.
Proof. repeat constructor. Qed.
Lemma der_hostile_refuted : ~ (forall fuel bs, bytes_ok bs -> (length bs + 2 <= fuel)%nat -> fst (Der_parse slice_reader fuel bs) <> Panic).
Proof. intros H. apply (H 20%nat hostile hostile_ok); [cbn; lia | vm_compute; reflexivity]. Qed.
Lemma ber_hostile_refuted : ~ (forall fuel bs, bytes_ok bs -> (length bs + 2 <= fuel)%nat -> fst (Ber_parse slice_reader fuel bs) <> Panic).
Proof. intros H. apply (H 20%nat hostile hostile_ok); [cbn; lia | vm_compute; reflexivity]. Qed.

(** ** Reading values back to back *)
Lemma back_to_back S (R : reader S) content inv vs rest s fuel :
  steady R content inv -> inv s -> Forall ber_value vs -> content s = concat vs ++ rest ->
  bytes_ok (content s) -> nlen (content s) <= isize_max -> (length (content s) + 2 <= fuel)%nat ->
  exists s', read_all (Ber_parse R fuel) (length vs) s = (Ok vs, s') /\ content s' = rest.
Proof.
  intros Hst. revert s. induction vs as [|v vs IH]; intros s Hi Hvs E Hok Hm Hf; cbn [read_all length].
  - exists s. auto.
  - inversion Hvs as [|? ? Hv Hvs2]; subst. cbn [concat] in E. rewrite <- app_assoc in E.
    destruct (steady_ber R content inv Hst s fuel Hi Hf) as (s1 & E1 & Hi1 & C1). rewrite E in *.
    rewrite ber_stream_ok in E1, C1; auto. 2-3: rewrite nlen_app in Hm; lia. cbn [fst snd] in *.
    rewrite E1. apply bytes_ok_app in Hok as [_ Hok]. rewrite nlen_app in Hm. rewrite app_length in Hf.
    destruct (IH s1) as (s2 & E2 & C2); auto; rewrite ?C1; auto; [lia | lia |]. rewrite E2. eauto.
Qed.

(** ** A schedule that remembers its failures *)
Definition logging_reader : reader (list event * list io_kind) :=
  {| rd_read := fun s n => match rd_read sched_reader (fst s) n with
                           | (IoOk c, s') => (IoOk c, (s', snd s))
                           | (IoErr k, s') => (IoErr k, (s', snd s ++ [k]))
                           end |}.
Lemma logging_logs : logs logging_reader snd.
Proof. intros [s f] n. unfold rd_read at 1, logging_reader. cbn [fst snd]. destruct (rd_read sched_reader s n) as [[c|k] s']; reflexivity. Qed.
