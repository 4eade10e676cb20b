(** C83: parse_ber and parse_der against read_ber and read_der. *)
From Verif Require Import Base ModelError ModelIo ModelTag ModelContents ModelBuf ModelTlv ModelSerde Spec SpecIo SpecSerde.
From Verif Require Import TagProofs IdProofs TagMain ContentsProofs TlvProofs BufProofs TlvMain StreamProofs StreamMain SerdeOctets SerdeSer SerdeDe SerdeMain SerdeEntry PropsSerde.

(** A header that announces more octets than an allocation can have, with those before it. *)
Definition announces_too_much (bs : list N) : Prop :=
  exists p id n len t, bs = p ++ id ++ len ++ t /\ is_identifier id /\ minimal_length n len /\ n < 2 ^ 64 /\ nlen t < n /\ isize_max < nlen (p ++ id ++ len) + n.

(** ** Where there is a value *)
(** The same result, whatever the type, and what has been read is the value, even if it is none of
    that type. *)
Theorem C83_value : forall T (D : deserialize T) St (R : reader St) content (inv : St -> Prop) s fuel v rest,
  inv s -> content s = v ++ rest -> bytes_ok (content s) -> nlen (content s) <= isize_max -> (length (content s) + 2 <= fuel)%nat ->
  ((exists id c, der_tlv id c v) -> greedy R content inv -> exists s',
     parse_der D (content s) = (serde_from_der D v, rest) /\ read_der D R fuel s = (serde_from_der D v, s') /\ content s' = rest) /\
  (ber_value v -> steady R content inv -> exists s',
     parse_ber D (content s) = (serde_from_ber D v, rest) /\ read_ber D R fuel s = (serde_from_ber D v, s') /\ content s' = rest).
Proof.
  intros T D St R content inv s fuel v rest I Ec Hok L F. split.
  - intros (id & c & H) G. destruct (read_der_eq D R content inv s fuel id c v rest G I H Ec Hok L ltac:(lia)) as (s' & E & Es).
    exists s'. rewrite E, Ec, (serde_der_eq D id c v H). rewrite Ec in Hok. split; [now apply (parse_der_eq D id c v rest)|]. auto.
  - intros H G. destruct (read_ber_eq D R content inv s fuel v rest G I H Ec Hok L F) as (s' & E & Es).
    exists s'. rewrite E, Ec. rewrite Ec in Hok. split; [now apply parse_ber_eq|]. auto.
Qed.
Print Assumptions C83_value.

(** ** Where there is none *)
Lemma failure_kinds A bs e : ber_error bs e -> forall pre, exists r : res A, ber_stream_failure isize_max pre bs r /\
  (r = Err e \/ e = UnterminatedBytes /\ r = Err (Io UnexpectedEof) \/
   e = UnterminatedBytes /\ r = Panic /\ exists p id n len t, bs = p ++ id ++ len ++ t /\ is_identifier id /\ minimal_length n len /\ n < 2 ^ 64 /\ nlen t < n /\
     isize_max < nlen (pre ++ p ++ id ++ len) + n).
Proof.
  induction 1 as [bs e He|id t e Hi He|id n len t Hi Hm Hn Hl|id items t e Hi Hit He IH]; intros pre.
  - eexists. split; [apply bsf_id; eassumption | auto].
  - eexists. split; [apply bsf_length; eassumption | auto].
  - destruct (N.le_gt_cases (nlen (pre ++ id ++ len) + n) isize_max).
    + eexists. split; [eapply bsf_eof; eassumption | auto].
    + eexists. split; [eapply bsf_huge; eassumption|]. right. right. split; [reflexivity|]. split; [reflexivity|]. exists [], id, n, len, t. auto 10.
  - destruct (IH (pre ++ id ++ [0x80] ++ items)) as (r & Hr & K). exists r. split; [now apply bsf_inside|].
    destruct K as [K|[K|(K1 & K2 & p & id' & n & len & t' & -> & A1 & A2 & A3 & A4 & A5)]]; auto.
    right. right. split; [assumption|]. split; [assumption|]. exists (id ++ [0x80] ++ items ++ p), id', n, len, t'. split; [now rewrite <- !app_assoc|].
    do 4 (split; [assumption|]). rewrite <- !app_assoc in *. exact A5.
Qed.
(** parse_der: the same error, unless read_der panics. *)
Theorem C83_der_error : forall T (D : deserialize T) St (R : reader St) content (inv : St -> Prop) s fuel e,
  greedy R content inv -> inv s -> bytes_ok (content s) -> (length (content s) <= fuel)%nat -> der_error (content s) e ->
  fst (parse_der D (content s)) = Err e /\
  (fst (read_der D R fuel s) = Err e \/
   e = UnterminatedBytes /\ fst (read_der D R fuel s) = Panic /\ announces_too_much (content s)).
Proof.
  intros T D St R content inv s fuel e G I Hok F He. split.
  { unfold parse_der. apply der_err_iff in He; [|assumption]. destruct (DerRef_parse (content s)) as [x r]. cbn [fst] in He. now subst x. }
  destruct (greedy_chunks_der _ _ R slice_reader content (fun s => s) inv (fun _ => True) fuel s (content s) G slice_greedy I Logic.I eq_refl) as [A _].
  unfold read_der. destruct (der_stream_err (content s) e fuel Hok He F) as [E|(E & id & n & len & t & Eb & Hi & Hm & Hn & Hl & HM)]; rewrite <- A in E;
    destruct (Der_parse R fuel s) as [x s']; cbn [fst] in E; subst x; [now left|]. right.
  split; [|split; [reflexivity|]; exists [], id, n, len, t; cbn [app]; auto 10].
  rewrite Eb in He, Hok. apply der_err_iff in He; [|assumption].
  assert (X : der_error (id ++ len ++ t) UnterminatedBytes) by (now constructor 4 with n).
  apply der_err_iff in X; [|assumption]. rewrite He in X. now injection X.
Qed.
Print Assumptions C83_der_error.
(** parse_ber: contents cut off are UnterminatedBytes for parse_ber and the end of the file for read_ber. *)
Theorem C83_ber_error : forall T (D : deserialize T) St (R : reader St) content (inv : St -> Prop) s fuel e,
  steady R content inv -> inv s -> bytes_ok (content s) -> nlen (content s) <= isize_max -> (length (content s) + 2 <= fuel)%nat -> ber_error (content s) e ->
  fst (parse_ber D (content s)) = Err e /\
  (fst (read_ber D R fuel s) = Err e \/
   e = UnterminatedBytes /\ fst (read_ber D R fuel s) = Err (Io UnexpectedEof) \/
   e = UnterminatedBytes /\ fst (read_ber D R fuel s) = Panic /\ announces_too_much (content s)).
Proof.
  intros T D St R content inv s fuel e G I Hok L F He. split.
  { unfold parse_ber. apply ber_err_iff in He; [|assumption]. destruct (BerRef_parse (content s)) as [x r]. cbn [fst] in He. now subst x. }
  destruct (chunks_ber _ _ R slice_reader content (fun s => s) inv (fun _ => True) fuel s (content s) G (greedy_steady _ _ _ slice_greedy) I Logic.I eq_refl F) as [A _].
  destruct (failure_kinds (list N) (content s) e He []) as (r & Hr & K). apply (ber_stream_fail (content s) r fuel Hok L F) in Hr. rewrite <- A in Hr.
  unfold read_ber. destruct (Ber_parse R fuel s) as [x s']. cbn [fst] in Hr. subst x.
  destruct K as [->|[[-> ->]|(-> & -> & Q)]]; [now left | now right; left | right; right]. split; [reflexivity|]. split; [reflexivity | exact Q].
Qed.
Print Assumptions C83_ber_error.
(** Every input is one or the other. *)
Theorem C83_cases : forall bs, bytes_ok bs ->
  ((exists id c v rest, der_tlv id c v /\ bs = v ++ rest) \/ exists e, der_error bs e) /\
  ((exists v rest, ber_value v /\ bs = v ++ rest) \/ exists e, ber_error bs e).
Proof. intros bs H. split; [now apply der_total | now apply ber_total]. Qed.
Print Assumptions C83_cases.

(** So the results are not always the same, from a slice either. *)
Definition same_results : Prop := forall T (D : deserialize T) bs fuel, bytes_ok bs -> (length bs + 2 <= fuel)%nat ->
  fst (parse_ber D bs) = fst (read_ber D slice_reader fuel bs) /\ fst (parse_der D bs) = fst (read_der D slice_reader fuel bs).
Theorem C83_refuted : ~ same_results /\
  (let D := de_bool (ex_env true) in
   fst (parse_ber D [1; 1]) = Err UnterminatedBytes /\ fst (read_ber D slice_reader 9 [1; 1]) = Err (Io UnexpectedEof) /\
   fst (parse_der D hostile) = Err UnterminatedBytes /\ fst (read_der D slice_reader 19 hostile) = Panic).
Proof.
  split; [|vm_compute; repeat split; reflexivity].
  intros H. destruct (H bool (de_bool (ex_env true)) [1; 1] 9%nat ltac:(repeat constructor) ltac:(cbn; lia)) as [A _].
  vm_compute in A. discriminate.
Qed.
Print Assumptions C83_refuted.
(** A value of another type is passed over all the same. *)
Example C83_ex :
  let D := de_bool (ex_env true) in let bs := [2; 1; 5; 1; 1; 0xff] in
  parse_der D bs = (Err UnmatchedId, [1; 1; 0xff]) /\ read_der D slice_reader 9 bs = (Err UnmatchedId, [1; 1; 0xff]) /\
  parse_ber D [1; 1; 0xff; 9] = (Ok true, [9]) /\ read_ber D slice_reader 9 [1; 1; 0xff; 9] = (Ok true, [9]) /\
  ber_error [0x30; 0x80; 1; 1] UnterminatedBytes /\
  fst (parse_ber D [0x30; 0x80; 1; 1]) = Err UnterminatedBytes /\ fst (read_ber D slice_reader 9 [0x30; 0x80; 1; 1]) = Err (Io UnexpectedEof).
Proof.
  cbv zeta. split; [vm_compute; reflexivity|]. split; [vm_compute; reflexivity|]. split; [vm_compute; reflexivity|]. split; [vm_compute; reflexivity|].
  split; [|split; vm_compute; reflexivity]. apply ber_err_iff; [repeat constructor | vm_compute; reflexivity].
Qed.
