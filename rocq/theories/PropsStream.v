(** Streaming parsers: C21-C23, C45, C47. *)
From Verif Require Import Base ModelIo ModelTag ModelContents ModelBuf ModelTlv Spec SpecIo TagProofs TlvProofs StreamProofs StreamMain.

(** ** C21 *)
(** Two readers that deliver the same octets without failing. *)
Theorem C21_id : forall S1 S2 (R1 : reader S1) (R2 : reader S2) c1 c2 i1 i2 fuel s1 s2,
  steady R1 c1 i1 -> steady R2 c2 i2 -> i1 s1 -> i2 s2 -> c1 s1 = c2 s2 ->
  fst (Id_parse R1 fuel s1) = fst (Id_parse R2 fuel s2) /\
  c1 (snd (Id_parse R1 fuel s1)) = c2 (snd (Id_parse R2 fuel s2)).
Proof. exact @chunks_id. Qed.
Print Assumptions C21_id.
Theorem C21_length : forall S1 S2 (R1 : reader S1) (R2 : reader S2) c1 c2 i1 i2 s1 s2,
  steady R1 c1 i1 -> steady R2 c2 i2 -> i1 s1 -> i2 s2 -> c1 s1 = c2 s2 ->
  fst (Length_parse R1 s1) = fst (Length_parse R2 s2) /\
  c1 (snd (Length_parse R1 s1)) = c2 (snd (Length_parse R2 s2)).
Proof. exact @chunks_length. Qed.
Print Assumptions C21_length.
Theorem C21_ber : forall S1 S2 (R1 : reader S1) (R2 : reader S2) c1 c2 i1 i2 fuel s1 s2,
  steady R1 c1 i1 -> steady R2 c2 i2 -> i1 s1 -> i2 s2 -> c1 s1 = c2 s2 -> (length (c1 s1) + 2 <= fuel)%nat ->
  fst (Ber_parse R1 fuel s1) = fst (Ber_parse R2 fuel s2) /\
  c1 (snd (Ber_parse R1 fuel s1)) = c2 (snd (Ber_parse R2 fuel s2)).
Proof. exact @chunks_ber. Qed.
Print Assumptions C21_ber.
(** Schedules of non-empty chunks are such readers. *)
Theorem C21_schedules : steady sched_reader delivered no_faults /\ honest sched_reader delivered.
Proof. exact (conj sched_steady sched_honest). Qed.
Print Assumptions C21_schedules.
(** Der::parse reads the contents with a single [read]. *)
Theorem C21_der_refuted : ~ (forall fuel s1 s2,
  no_faults s1 -> no_faults s2 -> delivered s1 = delivered s2 -> (length (delivered s1) + 2 <= fuel)%nat ->
  fst (Der_parse sched_reader fuel s1) = fst (Der_parse sched_reader fuel s2)).
Proof. exact der_chunks_refuted. Qed.
Print Assumptions C21_der_refuted.
(** What holds of Der::parse: the only dependence on the chunks is a spurious
    UnterminatedBytes in place of a value that is there ... *)
Theorem C21_der_partial : forall S (R : reader S) content inv fuel s,
  steady R content inv -> inv s ->
  (exists s', Der_parse R fuel s = (fst (Der_parse slice_reader fuel (content s)), s') /\
     (forall v, fst (Der_parse slice_reader fuel (content s)) = Ok v -> content s' = snd (Der_parse slice_reader fuel (content s)))) \/
  (fst (Der_parse R fuel s) = Err UnterminatedBytes /\ exists v, fst (Der_parse slice_reader fuel (content s)) = Ok v).
Proof. intros S R content inv fuel s Hst Hi. exact (der_steady_partial R content inv Hst s fuel Hi). Qed.
Print Assumptions C21_der_partial.
(** ... and none for readers that fill the buffer when they can. *)
Theorem C21_der_greedy_partial : forall S1 S2 (R1 : reader S1) (R2 : reader S2) c1 c2 i1 i2 fuel s1 s2,
  greedy R1 c1 i1 -> greedy R2 c2 i2 -> i1 s1 -> i2 s2 -> c1 s1 = c2 s2 ->
  fst (Der_parse R1 fuel s1) = fst (Der_parse R2 fuel s2) /\
  c1 (snd (Der_parse R1 fuel s1)) = c2 (snd (Der_parse R2 fuel s2)).
Proof. exact @greedy_chunks_der. Qed.
Print Assumptions C21_der_greedy_partial.
(** Exactly when Der::parse returns a value that is there: when the reader has all of its
    contents ready at once, at the position after the header. *)
Lemma delivered_app a b : delivered (a ++ b) = delivered a ++ delivered b.
Proof. induction a as [|[c|k] a IH]; cbn [app delivered]; rewrite ?IH, ?app_assoc; reflexivity. Qed.
Definition remains (s0 s : list event) : Prop :=
  no_faults s /\ (s = [] \/ exists s1 x d t, s = Chunk d :: t /\ s0 = s1 ++ Chunk (x ++ d) :: t /\ delivered s0 = delivered s1 ++ x ++ delivered s).
Lemma remains_steady s0 : steady sched_reader delivered (remains s0).
Proof.
  intros s n [H R]. destruct (sched_steady s n H) as (c & s' & E & H' & D & L & Z). exists c, s'. repeat split; try assumption.
  destruct R as [->|(s1 & x & d & t & -> & E0 & D0)].
  - injection E as _ <-. now left.
  - cbn [rd_read sched_reader] in E. destruct (N.leb_spec (nlen d) n) as [Ld|Ld]; injection E as <- <-.
    + destruct t as [|[d'|k] t]; [now left| |inversion H'; contradiction]. right. exists (s1 ++ [Chunk (x ++ d)]), [], d', t.
      split; [reflexivity|]. split; [rewrite <- app_assoc; exact E0|]. rewrite D0. rewrite delivered_app. cbn [delivered app]. now rewrite app_nil_r, <- !app_assoc.
    + right. exists s1, (x ++ take n d), (drop n d), t. split; [reflexivity|]. split.
      * rewrite <- app_assoc, take_drop. exact E0.
      * rewrite D0. cbn [delivered]. rewrite <- app_assoc. do 2 f_equal. now rewrite app_assoc, take_drop.
Qed.
Lemma same_place s1 x c t : forall s1' x' d t', no_faults (s1 ++ Chunk (x ++ c) :: t) -> c <> [] -> d <> [] ->
  s1 ++ Chunk (x ++ c) :: t = s1' ++ Chunk (x' ++ d) :: t' -> delivered s1 ++ x = delivered s1' ++ x' -> c = d.
Proof.
  induction s1 as [|e s1 IH]; intros [|e' s1'] x' d t' F Nc Nd H D; cbn [app] in *.
  - injection H as H _. cbn [delivered app] in D. subst x'. now apply app_inv_head in H.
  - exfalso. injection H as <- H. cbn [delivered app] in D. rewrite <- !app_assoc in D.
    rewrite <- (app_nil_r x) in D at 1. apply app_inv_head in D. destruct c; [congruence | discriminate].
  - exfalso. injection H as -> H. cbn [delivered app] in D. rewrite <- !app_assoc in D.
    rewrite <- (app_nil_r x') in D at 2. apply app_inv_head in D. destruct d; [congruence | discriminate].
  - injection H as <- H. inversion_clear F as [|? ? He F']. apply (IH s1' x' d t'); try assumption.
    destruct e as [b|k]; [|contradiction]. cbn [delivered] in D. rewrite <- !app_assoc in D. now apply app_inv_head in D.
Qed.
Theorem C21_der_exact : forall fuel s id c v rest, no_faults s -> der_tlv id c v -> delivered s = v ++ rest -> bytes_ok (delivered s) ->
  nlen v <= isize_max -> (length (delivered s) <= fuel)%nat ->
  (fst (Der_parse sched_reader fuel s) = Ok v <->
   c = [] \/ exists s1 x y s2, s = s1 ++ Chunk (x ++ c ++ y) :: s2 /\ v = delivered s1 ++ x ++ c) /\
  (fst (Der_parse sched_reader fuel s) = Ok v \/ fst (Der_parse sched_reader fuel s) = Err UnterminatedBytes).
Proof.
  intros fuel s id c v rest F T D Hok L Hf. rewrite D in Hok, Hf.
  pose proof (der_stream_ok id c v rest fuel T Hok L Hf) as SO.
  assert (remains s s) as R0.
  { split; [assumption|]. destruct s as [|[d|k] t]; [now left| |inversion F; contradiction]. right. exists [], [], d, t. auto. }
  split.
  2:{ destruct (C21_der_partial _ _ _ _ fuel s (remains_steady s) R0) as [(s' & E & _)|[E _]]; [|now right].
      left. rewrite E, D, SO. reflexivity. }
  pose proof (sim_parse_id_length sched_reader delivered (remains s) (remains_steady s) (length (delivered s)) fuel s [] R0 (le_n _)) as H.
  apply der_tlv_parts in T as (len & -> & Hi & Hm & Hn). rewrite <- !app_assoc in *.
  assert (bytes_ok (c ++ rest)) as Hr by (apply bytes_ok_app in Hok as [_ Hok]; now apply bytes_ok_app in Hok as [_ Hok]).
  unfold Der_parse. rewrite D, (stream_definite id (nlen c)) in H by auto. cbn [app] in H.
  destruct (parse_id_length sched_reader fuel (s, [])) as [r [s' w]]. destruct H as ([= <- E' <-] & [F' R'] & _).
  assert (nlen (id ++ len) + nlen c = nlen (id ++ len ++ c)) as Ln by (rewrite !nlen_app; lia). rewrite Ln.
  destruct (N.ltb_spec isize_max (nlen (id ++ len ++ c))); [lia|].
  destruct (sched_steady s' (nlen c) F') as (b & s'' & E & _ & Db & Lb & _). rewrite E.
  destruct (N.ltb_spec (nlen c) (nlen b)); [lia|]. rewrite <- E' in Db.
  destruct (N.ltb_spec (nlen b) (nlen c)) as [Lt|Ge]; cbn [fst].
  - split; [discriminate|]. intros [->|(s1 & x & y & s2 & Es & Ev)]; [rewrite nlen_nil in Lt; lia|].
    exfalso. assert (c <> []) as Nc by (intros ->; rewrite nlen_nil in Lt; lia).
    destruct R' as [->|(s1' & x' & d & t & -> & Es' & D')]; [cbn in E'; destruct c; [congruence | discriminate]|].
    assert (c ++ y = d) as <-.
    { apply (same_place s1 x (c ++ y) s2 s1' x' d t).
      - now rewrite <- Es.
      - destruct c; [congruence | discriminate].
      - inversion F' as [|? ? Hd]. destruct d; [contradiction | discriminate].
      - congruence.
      - rewrite D, <- E' in D'. rewrite !app_assoc in D'. rewrite app_assoc in Ev. rewrite app_assoc in Ev.
        apply app_inv_tail in Ev. apply app_inv_tail in D'. apply app_inv_tail in D'. congruence. }
    cbn [rd_read sched_reader] in E. destruct (N.leb_spec (nlen (c ++ y)) (nlen c)) as [Q|Q]; injection E as <- _.
    + rewrite nlen_app in Lt. lia.
    + rewrite take_app_exact in Lt. lia.
  - assert (nlen b = nlen c) as Lb' by lia. destruct (app_len_inj _ _ _ _ (eq_sym Lb') Db) as [<- ->]. split; [|now rewrite <- app_assoc].
    intros _. destruct R' as [->|(s1' & x' & d & t & -> & Es' & D')]; [left; now destruct c|].
    rewrite D, <- E' in D'. cbn [rd_read sched_reader] in E.
    assert (exists y, d = c ++ y) as (y & ->).
    { destruct (N.leb_spec (nlen d) (nlen c)); injection E as E _; [exists []; now rewrite app_nil_r|].
      exists (drop (nlen c) d). rewrite <- E at 1. now rewrite take_drop. }
    right. exists s1', x', y, t. split; [assumption|]. rewrite app_assoc in D'. rewrite (app_assoc (delivered s1')) in D'.
    apply app_inv_tail in D'. rewrite (app_assoc (delivered s1')), <- D'. now rewrite <- app_assoc.
Qed.
Print Assumptions C21_der_exact.
Example C21_exact_ex :
  let s1 := [Chunk [4]; Chunk [3; 7]; Chunk [8; 9]] in let s2 := [Chunk [4]; Chunk [3]; Chunk [7; 8; 9]] in
  der_tlv [4] [7; 8; 9] [4; 3; 7; 8; 9] /\ no_faults s1 /\ delivered s1 = [4; 3; 7; 8; 9] /\
  fst (Der_parse sched_reader 9 s1) = Err UnterminatedBytes /\ fst (Der_parse sched_reader 9 s2) = Ok [4; 3; 7; 8; 9].
Proof.
  cbv zeta. split; [|repeat split; repeat constructor; vm_compute; reflexivity].
  apply (dt_intro [4] [7; 8; 9] [3]); [exists 0, 0, 4; now constructor | apply ml_short; reflexivity | reflexivity].
Qed.
Example C21_ex :
  let s1 := [Chunk [0x30; 0x80; 4]; Chunk [2; 7]; Chunk [8; 0; 0; 9]] in let s2 := [Chunk [0x30; 0x80; 4; 2; 7; 8; 0]; Chunk [0; 9]] in
  no_faults s1 /\ no_faults s2 /\ delivered s1 = delivered s2 /\
  Ber_parse sched_reader 20 s1 = (Ok [0x30; 0x80; 4; 2; 7; 8; 0; 0], [Chunk [9]]) /\
  fst (Ber_parse sched_reader 20 s2) = Ok [0x30; 0x80; 4; 2; 7; 8; 0; 0] /\
  Der_parse sched_reader 20 [Chunk [4]; Chunk [2]; Chunk [7; 8; 9]] = (Ok [4; 2; 7; 8], [Chunk [9]]).
Proof. repeat split; repeat constructor; vm_compute; reflexivity. Qed.

(** ** C22 *)
Theorem C22_id : forall bs, bytes_ok bs ->
  fst (Id_parse slice_reader (slice_fuel bs) bs) = fst (IdRef_parse bs) /\
  forall v rest, Id_parse slice_reader (slice_fuel bs) bs = (Ok v, rest) <-> IdRef_parse bs = (Ok v, rest).
Proof. exact same_id. Qed.
Print Assumptions C22_id.
Theorem C22_der : forall bs v rest fuel, bytes_ok bs -> nlen bs <= isize_max -> (length bs <= fuel)%nat ->
  (Der_parse slice_reader fuel bs = (Ok v, rest) <-> DerRef_parse bs = (Ok v, rest)).
Proof. exact same_der. Qed.
Print Assumptions C22_der.
Theorem C22_ber : forall bs v rest fuel, bytes_ok bs -> nlen bs <= isize_max -> (length bs + 2 <= fuel)%nat ->
  (Ber_parse slice_reader fuel bs = (Ok v, rest) <-> BerRef_parse bs = (Ok v, rest)).
Proof. exact same_ber. Qed.
Print Assumptions C22_ber.
(** The failures: the same errors for DER, unless it is the panic of C45. *)
Theorem C22_der_errors : forall bs e fuel, bytes_ok bs -> (length bs <= fuel)%nat -> fst (DerRef_parse bs) = Err e ->
  fst (Der_parse slice_reader fuel bs) = Err e \/ fst (Der_parse slice_reader fuel bs) = Panic.
Proof. exact same_der_errors. Qed.
Print Assumptions C22_der_errors.
(** For BER the failures are those of [ber_stream_failure]. *)
Theorem C22_ber_errors : forall bs r fuel, bytes_ok bs -> nlen bs <= isize_max -> (length bs + 2 <= fuel)%nat ->
  (forall v, r <> Ok v) ->
  (fst (Ber_parse slice_reader fuel bs) = r <-> ber_stream_failure isize_max [] bs r).
Proof. exact ber_stream_failures. Qed.
Print Assumptions C22_ber_errors.
Example C22_ex : let bs := [0x30; 0x80; 4; 2; 7; 8; 0; 0; 9] in
  Ber_parse slice_reader 20 bs = (Ok [0x30; 0x80; 4; 2; 7; 8; 0; 0], [9]) /\
  BerRef_parse bs = (Ok [0x30; 0x80; 4; 2; 7; 8; 0; 0], [9]) /\
  fst (Ber_parse slice_reader 20 [0x30; 0x80; 4; 2; 7]) = Err (Io UnexpectedEof) /\
  Der_parse slice_reader 20 [4; 2; 7; 8; 9] = (Ok [4; 2; 7; 8], [9]).
Proof. repeat split; vm_compute; reflexivity. Qed.

(** ** C23 *)
(** Any reader that keeps to the contract of [read]; it may fail in between. *)
Theorem C23_id : forall S (R : reader S) content fuel s v s', honest R content -> bytes_ok (content s) ->
  Id_parse R fuel s = (Ok v, s') -> is_identifier v /\ content s = v ++ content s'.
Proof. intros S R content fuel s v s' Hh. exact (exact_id R content Hh fuel s v s'). Qed.
Print Assumptions C23_id.
Theorem C23_length : forall S (R : reader S) content s l s', honest R content -> bytes_ok (content s) ->
  Length_parse R s = (Ok l, s') -> content s = Length_to_bytes l ++ content s'.
Proof. intros S R content s l s' Hh. exact (exact_length R content Hh s l s'). Qed.
Print Assumptions C23_length.
Theorem C23_der : forall S (R : reader S) content fuel s v s', honest R content -> bytes_ok (content s) ->
  Der_parse R fuel s = (Ok v, s') -> (exists id c, der_tlv id c v) /\ content s = v ++ content s'.
Proof. intros S R content fuel s v s' Hh. exact (exact_der R content Hh fuel s v s'). Qed.
Print Assumptions C23_der.
Theorem C23_ber : forall S (R : reader S) content fuel s v s', honest R content -> bytes_ok (content s) ->
  Ber_parse R fuel s = (Ok v, s') -> ber_value v /\ content s = v ++ content s'.
Proof. intros S R content fuel s v s' Hh. exact (exact_ber R content Hh fuel s v s'). Qed.
Print Assumptions C23_ber.
(** Values written back to back are read back one by one. *)
Theorem C23_back_to_back : forall S (R : reader S) content inv vs rest s fuel,
  steady R content inv -> inv s -> Forall ber_value vs -> content s = concat vs ++ rest ->
  bytes_ok (content s) -> nlen (content s) <= isize_max -> (length (content s) + 2 <= fuel)%nat ->
  exists s', read_all (Ber_parse R fuel) (length vs) s = (Ok vs, s') /\ content s' = rest.
Proof. exact @back_to_back. Qed.
Print Assumptions C23_back_to_back.
Example C23_ex :
  Ber_parse sched_reader 20 [Chunk [4; 2]; Fault Interrupted; Chunk [7; 8; 5; 0]] = (Ok [4; 2; 7; 8], [Chunk [5; 0]]) /\
  read_all (Ber_parse sched_reader 20) 2 [Chunk [4; 2; 7]; Chunk [8; 5]; Chunk [0; 1]] = (Ok [[4; 2; 7; 8]; [5; 0]], [Chunk [1]]).
Proof. split; vm_compute; reflexivity. Qed.

(** ** C45 *)
Theorem C45_der_refuted : ~ (forall fuel bs, bytes_ok bs -> (length bs + 2 <= fuel)%nat -> fst (Der_parse slice_reader fuel bs) <> Panic).
Proof. exact der_hostile_refuted. Qed.
Print Assumptions C45_der_refuted.
Theorem C45_ber_refuted : ~ (forall fuel bs, bytes_ok bs -> (length bs + 2 <= fuel)%nat -> fst (Ber_parse slice_reader fuel bs) <> Panic).
Proof. exact ber_hostile_refuted. Qed.
Print Assumptions C45_ber_refuted.
(** Exactly when they panic. *)
Theorem C45_der_partial : forall bs fuel, bytes_ok bs -> (length bs <= fuel)%nat ->
  (fst (Der_parse slice_reader fuel bs) = Panic <->
   exists id n len t, bs = id ++ len ++ t /\ is_identifier id /\ minimal_length n len /\ n < 2 ^ 64 /\
     isize_max < nlen (id ++ len) + n) /\
  fst (Der_parse slice_reader fuel bs) <> NoFuel.
Proof. exact der_panics_iff. Qed.
Print Assumptions C45_der_partial.
Theorem C45_ber_partial : forall bs fuel, bytes_ok bs -> nlen bs <= isize_max -> (length bs + 2 <= fuel)%nat ->
  (fst (Ber_parse slice_reader fuel bs) = Panic <-> ber_stream_failure (A := list N) isize_max [] bs Panic) /\
  fst (Ber_parse slice_reader fuel bs) <> NoFuel.
Proof. exact ber_panics_iff. Qed.
Print Assumptions C45_ber_partial.
Example C45_ex :
  fst (Der_parse slice_reader 20 [4; 0x88; 0x7f; 0xff; 0xff; 0xff; 0xff; 0xff; 0xff; 0; 1]) = Err UnterminatedBytes /\
  fst (Ber_parse slice_reader 20 [4; 0x88; 0x7f; 0xff; 0xff; 0xff; 0xff; 0xff; 0xff; 0; 1]) = Err (Io UnexpectedEof) /\
  fst (Ber_parse slice_reader 20 [4; 0x88; 0xff; 0xff; 0xff; 0xff; 0xff; 0xff; 0xff; 0; 1]) = Panic.
Proof. repeat split; vm_compute; reflexivity. Qed.

(** ** C47 *)
Theorem C47_id : forall S (R : reader S) faults fuel s r s', logs R faults ->
  Id_parse R fuel s = (r, s') -> exists ks, faults s' = faults s ++ ks /\ reports false r ks.
Proof. intros S R faults fuel s r s' Hl. exact (faults_id R faults Hl fuel s r s'). Qed.
Print Assumptions C47_id.
Theorem C47_length : forall S (R : reader S) faults s r s', logs R faults ->
  Length_parse R s = (r, s') -> exists ks, faults s' = faults s ++ ks /\ reports false r ks.
Proof. intros S R faults s r s' Hl. exact (faults_length R faults Hl s r s'). Qed.
Print Assumptions C47_length.
Theorem C47_der : forall S (R : reader S) faults fuel s r s', logs R faults ->
  Der_parse R fuel s = (r, s') -> exists ks, faults s' = faults s ++ ks /\ reports false r ks.
Proof. intros S R faults fuel s r s' Hl. exact (faults_der R faults Hl fuel s r s'). Qed.
Print Assumptions C47_der.
Theorem C47_ber : forall S (R : reader S) faults fuel s r s', logs R faults ->
  Ber_parse R fuel s = (r, s') -> exists ks, faults s' = faults s ++ ks /\ reports true r ks.
Proof. intros S R faults fuel s r s' Hl. exact (faults_ber R faults Hl fuel s r s'). Qed.
Print Assumptions C47_ber.
(** A reader that logs its failures. *)
Example C47_ex : logs logging_reader snd /\
  Der_parse logging_reader 20 ([Chunk [4; 2]; Fault (OtherIo 5); Chunk [7; 8]], []) = (Err (Io (OtherIo 5)), ([Chunk [7; 8]], [OtherIo 5])) /\
  Ber_parse logging_reader 20 ([Chunk [4; 2]; Fault Interrupted; Chunk [7; 8]], []) = (Ok [4; 2; 7; 8], ([], [Interrupted])).
Proof. split; [exact logging_logs|]. split; vm_compute; reflexivity. Qed.
