(** C68: how much memory the stream parsers ask for. *)
From Verif Require Import SpecSerde SerdeOctets.
From Verif Require Import Base ModelIo ModelTag ModelContents ModelBuf ModelTlv ModelHeap ModelBufLE ModelBufUE ModelTlvRaw
  Spec SpecIo SpecBuf SpecTlv SpecMem TagProofs IdProofs BufProofs TlvMain StreamProofs StreamMain RawProofs RawMain RawTlv RawStream RawEdges PropsBuf PropsRaw MemProofs.

Definition whole_read {S} (R : reader S) (s : S) (n : N) : io_claim * S := let (x, s') := rd_read R s n in (claim_of x, s').
(** The full statement: from a stream of octets [bs] the parsers ask for [c * |bs| + d]
    octets at most. *)
Definition der_in_proportion (L : layout) (fuel : nat) (c d : N) : Prop := forall al al' bs h0, good_allocator al -> good_allocator al' ->
  bytes_ok bs -> agree_upto (c * nlen bs + d) al al' ->
  raw_Der_parse L al slice_reader (whole_read slice_reader) fuel bs h0 = raw_Der_parse L al' slice_reader (whole_read slice_reader) fuel bs h0.
Definition ber_in_proportion (L : layout) (fuel : nat) (c d : N) : Prop := forall al al' bs h0, good_allocator al -> good_allocator al' ->
  bytes_ok bs -> agree_upto (c * nlen bs + d) al al' ->
  raw_Ber_parse L al slice_reader fuel bs h0 = raw_Ber_parse L al' slice_reader fuel bs h0.

(** A header of ten octets or fewer. *)
Lemma short_header n fuel : (40 <= fuel)%nat -> n < 2 ^ 64 -> exists len, minimal_length n len /\ bytes_ok (4 :: len) /\ nlen (4 :: len) <= 10 /\
  parse_id_length slice_reader fuel (4 :: len, []) = (Ok (Definite n), ([], 4 :: len)).
Proof.
  intros Hf H. pose proof (Length_to_bytes_minimal n H) as M. exists (Length_to_bytes (Definite n)). split; [assumption|].
  pose proof (minimal_length_ok _ _ M) as O. split; [constructor; [reflexivity | assumption]|].
  assert (nlen (Length_to_bytes (Definite n)) <= 9) as B by (rewrite length_octets_eq by assumption; now apply length_octets_small).
  rewrite nlen_cons. split; [lia|].
  pose proof (stream_definite [4] n _ [] [] fuel sample_id4 M H ltac:(constructor)) as E. rewrite app_nil_r in E. apply E.
  cbn [app length]. rewrite nlen_length in B. lia.
Qed.
Lemma bump_serves m : al_pick bump [] m <> None.
Proof. vm_compute. discriminate. Qed.
Lemma inline_caps : L_init_cap LE <= isize_max /\ L_init_cap UE <= isize_max.
Proof. split; discriminate. Qed.

(** It is false whatever the constants, short of those that allow everything: ten octets
    announce any length, and that much is asked for at once, before any of it is read. *)
Theorem C68_le_der_refuted : forall fuel c d, (40 <= fuel)%nat -> c * 10 + d + 1000 <= isize_max -> ~ der_in_proportion LE fuel c d.
Proof.
  intros fuel c d F B H. set (n := c * 10 + d + 200). assert (n < 2 ^ 64) as N1 by (pose proof isize_lt; subst n; lia).
  destruct (short_header n fuel F N1) as (len & M & O & L & E). set (k := c * nlen (4 :: len) + d).
  assert (k <= c * 10 + d) as K by (subst k; nia). assert (fuel <> 0)%nat as HF by lia.
  specialize (H bump (capped k bump) (4 :: len) [] bump_good (capped_good k bump bump_good) O (capped_agrees k bump)).
  pose proof (C19_refines (capped k bump) (capped_good k bump bump_good)) as BR. assert (L_init_cap LE = 23) as I by reflexivity.
  pose proof (der_parse_asks LE bump k _ BR (rep_inline LE le_view) (le_asks bump k) slice_reader (fun s => s) (whole_read slice_reader) fuel (4 :: len) [] (4 :: len) n [] slice_honest O E) as A.
  rewrite I in A. specialize (A ltac:(lia) ltac:(discriminate) ltac:(subst n; lia) ltac:(subst n; lia) ltac:(subst n; lia)).
  apply (fun P => P (eq_trans H A)).
  apply (der_parse_noabort LE bump _ (C19_refines bump bump_good) (rep_inline LE le_view) (le_noalloc bump) le_calm (le_served bump) slice_reader (fun s => s) (whole_read slice_reader) fuel (4 :: len) (4 :: len) n [] slice_honest O E).
  - rewrite I. lia.
  - apply inline_caps.
  - apply bump_serves.
Qed.
Print Assumptions C68_le_der_refuted.
Theorem C68_ue_der_refuted : forall fuel c d, (40 <= fuel)%nat -> c * 10 + d + 1000 <= isize_max -> ~ der_in_proportion UE fuel c d.
Proof.
  intros fuel c d F B H. set (n := c * 10 + d + 200). assert (n < 2 ^ 64) as N1 by (pose proof isize_lt; subst n; lia).
  destruct (short_header n fuel F N1) as (len & M & O & L & E). set (k := c * nlen (4 :: len) + d).
  assert (k <= c * 10 + d) as K by (subst k; nia). assert (fuel <> 0)%nat as HF by lia.
  specialize (H bump (capped k bump) (4 :: len) [] bump_good (capped_good k bump bump_good) O (capped_agrees k bump)).
  pose proof (C20_refines (capped k bump) (capped_good k bump bump_good)) as BR. assert (L_init_cap UE = 16) as I by reflexivity.
  pose proof (der_parse_asks UE bump k _ BR (rep_inline UE ue_view) (ue_asks bump k) slice_reader (fun s => s) (whole_read slice_reader) fuel (4 :: len) [] (4 :: len) n [] slice_honest O E) as A.
  rewrite I in A. specialize (A ltac:(lia) ltac:(discriminate) ltac:(subst n; lia) ltac:(subst n; lia) ltac:(subst n; lia)).
  apply (fun P => P (eq_trans H A)).
  apply (der_parse_noabort UE bump _ (C20_refines bump bump_good) (rep_inline UE ue_view) (ue_noalloc bump) ue_calm (ue_served bump) slice_reader (fun s => s) (whole_read slice_reader) fuel (4 :: len) (4 :: len) n [] slice_honest O E).
  - rewrite I. lia.
  - apply inline_caps.
  - apply bump_serves.
Qed.
Print Assumptions C68_ue_der_refuted.
Theorem C68_le_ber_refuted : forall fuel c d, (40 <= fuel)%nat -> c * 10 + d + 1000 <= isize_max -> ~ ber_in_proportion LE fuel c d.
Proof.
  intros fuel c d F B H. set (n := c * 10 + d + 200). assert (n < 2 ^ 64) as N1 by (pose proof isize_lt; subst n; lia).
  destruct (short_header n fuel F N1) as (len & M & O & L & E). set (k := c * nlen (4 :: len) + d).
  assert (k <= c * 10 + d) as K by (subst k; nia). assert (fuel <> 0)%nat as HF by lia.
  specialize (H bump (capped k bump) (4 :: len) [] bump_good (capped_good k bump bump_good) O (capped_agrees k bump)).
  pose proof (C19_refines (capped k bump) (capped_good k bump bump_good)) as BR. assert (L_init_cap LE = 23) as I by reflexivity.
  pose proof (ber_parse_asks LE bump k _ BR (rep_inline LE le_view) (le_asks bump k) slice_reader (fun s => s) fuel (4 :: len) [] (4 :: len) n [] slice_honest O HF E) as A.
  rewrite I in A. specialize (A ltac:(lia) ltac:(discriminate) ltac:(subst n; lia) ltac:(subst n; lia) ltac:(subst n; lia)).
  apply (fun P => P (eq_trans H A)).
  apply (ber_parse_noabort LE bump _ (C19_refines bump bump_good) (rep_inline LE le_view) (le_noalloc bump) le_calm (le_served bump) slice_reader (fun s => s) fuel (4 :: len) (4 :: len) n [] slice_honest O E).
  - rewrite read_exact_slice by lia. rewrite nlen_nil. destruct (N.leb_spec n 0); [subst n; lia | discriminate].
  - rewrite I. lia.
  - apply inline_caps.
  - apply bump_serves.
Qed.
Print Assumptions C68_le_ber_refuted.
Theorem C68_ue_ber_refuted : forall fuel c d, (40 <= fuel)%nat -> c * 10 + d + 1000 <= isize_max -> ~ ber_in_proportion UE fuel c d.
Proof.
  intros fuel c d F B H. set (n := c * 10 + d + 200). assert (n < 2 ^ 64) as N1 by (pose proof isize_lt; subst n; lia).
  destruct (short_header n fuel F N1) as (len & M & O & L & E). set (k := c * nlen (4 :: len) + d).
  assert (k <= c * 10 + d) as K by (subst k; nia). assert (fuel <> 0)%nat as HF by lia.
  specialize (H bump (capped k bump) (4 :: len) [] bump_good (capped_good k bump bump_good) O (capped_agrees k bump)).
  pose proof (C20_refines (capped k bump) (capped_good k bump bump_good)) as BR. assert (L_init_cap UE = 16) as I by reflexivity.
  pose proof (ber_parse_asks UE bump k _ BR (rep_inline UE ue_view) (ue_asks bump k) slice_reader (fun s => s) fuel (4 :: len) [] (4 :: len) n [] slice_honest O HF E) as A.
  rewrite I in A. specialize (A ltac:(lia) ltac:(discriminate) ltac:(subst n; lia) ltac:(subst n; lia) ltac:(subst n; lia)).
  apply (fun P => P (eq_trans H A)).
  apply (ber_parse_noabort UE bump _ (C20_refines bump bump_good) (rep_inline UE ue_view) (ue_noalloc bump) ue_calm (ue_served bump) slice_reader (fun s => s) fuel (4 :: len) (4 :: len) n [] slice_honest O E).
  - rewrite read_exact_slice by lia. rewrite nlen_nil. destruct (N.leb_spec n 0); [subst n; lia | discriminate].
  - rewrite I. lia.
  - apply inline_caps.
  - apply bump_serves.
Qed.
Print Assumptions C68_ue_ber_refuted.

(** What is asked for at most: what the stream holds, or a header with the length it
    announces, whatever the reader does when asked for the contents. *)
Theorem C68_der_partial : forall al al' k S (R : reader S) content C fuel s h0, good_allocator al -> agree_upto k al al' -> honest R content ->
  bytes_ok (content s) -> nlen (content s) <= isize_max -> nlen (content s) <= k ->
  (forall i n, header_at (content s) [] i n -> i + n <= k) ->
  raw_Der_parse LE al R C fuel s h0 = raw_Der_parse LE al' R C fuel s h0 /\
  raw_Der_parse UE al R C fuel s h0 = raw_Der_parse UE al' R C fuel s h0.
Proof.
  intros al al' k S R content C fuel s h0 G A HR Hok Hn Hk HD. split.
  - apply (der_parse_bound LE al al' k A _ (C19_refines al G) (fun n r h => le_reserve_same k al al' n r h A) R content HR); assumption.
  - apply (der_parse_bound UE al al' k A _ (C20_refines al G) (fun n r h => ue_reserve_same k al al' n r h A) R content HR); assumption.
Qed.
Print Assumptions C68_der_partial.
Theorem C68_ber_partial : forall al al' k S (R : reader S) content fuel s h0, good_allocator al -> agree_upto k al al' -> honest R content ->
  bytes_ok (content s) -> nlen (content s) <= isize_max -> nlen (content s) <= k ->
  (forall p i n, header_at (content s) p i n -> i + n <= k) -> fst (Ber_parse R fuel s) <> Panic ->
  raw_Ber_parse LE al R fuel s h0 = raw_Ber_parse LE al' R fuel s h0 /\
  raw_Ber_parse UE al R fuel s h0 = raw_Ber_parse UE al' R fuel s h0.
Proof.
  intros al al' k S R content fuel s h0 G A HR Hok Hn Hk HD HP. split.
  - apply (ber_parse_bound LE al al' k A _ (C19_refines al G) (fun n r h => le_reserve_same k al al' n r h A) R content HR); assumption.
  - apply (ber_parse_bound UE al al' k A _ (C20_refines al G) (fun n r h => ue_reserve_same k al al' n r h A) R content HR); assumption.
Qed.
Print Assumptions C68_ber_partial.
(** For a value that is there: no more than the value. *)
Theorem C68_ber_value_partial : forall al al' S (R : reader S) content fuel s h0 v, good_allocator al -> agree_upto (nlen v) al al' -> honest R content ->
  bytes_ok (content s) -> nlen (content s) <= isize_max -> fst (Ber_parse R fuel s) = Ok v ->
  raw_Ber_parse LE al R fuel s h0 = raw_Ber_parse LE al' R fuel s h0 /\
  raw_Ber_parse UE al R fuel s h0 = raw_Ber_parse UE al' R fuel s h0.
Proof.
  intros al al' S R content fuel s h0 v G A HR Hok Hn E. split.
  - apply (ber_parse_same LE al al' (nlen v) A _ (C19_refines al G) (fun n r h => le_reserve_same _ al al' n r h A) R content HR _ _ _ v); auto. lia.
  - apply (ber_parse_same UE al al' (nlen v) A _ (C20_refines al G) (fun n r h => ue_reserve_same _ al al' n r h A) R content HR _ _ _ v); auto. lia.
Qed.
Print Assumptions C68_ber_value_partial.
(** 30 octets of contents: an allocator with 32 octets will do, one with 31 will not. *)
Example C68_ex : let bs := 4 :: 30 :: repeat 7 30 in
  fst (Ber_parse slice_reader 50 bs) = Ok bs /\ agree_upto 32 bump (capped 32 bump) /\
  raw_Ber_parse LE (capped 32 bump) slice_reader 50 bs [] = raw_Ber_parse LE bump slice_reader 50 bs [] /\
  raw_Ber_parse LE (capped 31 bump) slice_reader 50 bs [] = Abort /\
  match raw_Ber_parse LE bump slice_reader 50 bs [] with Done (Ok _, []) _ => True | _ => False end.
Proof. cbv zeta. split; [vm_compute; reflexivity|]. split; [apply capped_agrees|]. vm_compute. auto. Qed.
(** A header in the middle of a stream, and one announcing 300 octets. *)
Example C68_headers_ex : header_at [0x30; 0x80; 4; 2; 7; 7; 0; 0] [0x30; 0x80] 4 2 /\ header_at [4; 0x82; 1; 44; 9] [] 4 300.
Proof.
  split.
  - apply (ha_intro _ [0x30; 0x80] [4] [2] [7; 7; 0; 0]); [reflexivity | exact sample_id4 | now constructor].
  - apply (ha_intro _ [] [4] [0x82; 1; 44] [9]); [reflexivity | exact sample_id4|]. apply (ml_long 300 1 [44]); try discriminate; try reflexivity. now apply octets_ok.
Qed.
