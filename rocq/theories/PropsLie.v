(** C90: values read from a reader that may do anything. *)
From Verif Require Import Base ModelIo ModelTag ModelContents ModelBuf ModelTlv ModelHeap ModelBufLE ModelBufUE ModelTlvRaw ModelUnwind ModelRelease ModelSerde ModelReadRaw
  Spec SpecIo SpecBuf SpecTlv SpecUnwind SpecRelease SpecReadRaw BufProofs RawProofs RawMain RawTlv RawStream UnwindProofs RelProofs UseRelease LieProofs PropsBuf PropsUnwind PropsRelease.

(** ** The parsers *)
(** Der::parse and Ber::parse return a value of the format, whatever the reader wrote, reported or
    left in the buffer; in both profiles. *)
Theorem C90_der : forall L ops Rp al S (R : user_reader S) fuel s h0, profiles L ops Rp -> good_allocator al -> writes_octets R ->
  reads L al h0 der_value (u_Der_parse L al R fuel s h0) /\
  reads (released L ops) al h0 der_value (rel_Der_parse (released L ops) al R fuel s h0).
Proof.
  intros L ops Rp al S R fuel s h0 P G W. destruct (profiles_facts al L ops Rp G P) as (HL & RO). destruct (layouts_facts al L Rp G HL) as (BR & big & _).
  pose proof (rep_der L al Rp BR big R W fuel s h0) as K. split; [exact (rep_reads L al Rp BR der_value h0 _ K)|].
  exact (rep_reads (released L ops) al Rp (released_refines L al Rp BR ops RO) der_value h0 _ (rep_agree L al Rp BR der_value h0 _ _ (C73_der_parse L ops Rp al S R fuel s h0 P G W) K)).
Qed.
Print Assumptions C90_der.
Theorem C90_ber : forall L ops Rp al S (R : user_reader S) fuel s h0, profiles L ops Rp -> good_allocator al -> writes_octets R ->
  reads L al h0 ber_value (u_Ber_parse L al R fuel s h0) /\
  reads (released L ops) al h0 ber_value (rel_Ber_parse (released L ops) al R fuel s h0).
Proof.
  intros L ops Rp al S R fuel s h0 P G W. destruct (profiles_facts al L ops Rp G P) as (HL & RO). destruct (layouts_facts al L Rp G HL) as (BR & big & _).
  pose proof (rep_ber L al Rp BR big R W fuel s h0) as K. split; [exact (rep_reads L al Rp BR ber_value h0 _ K)|].
  exact (rep_reads (released L ops) al Rp (released_refines L al Rp BR ops RO) ber_value h0 _ (rep_agree L al Rp BR ber_value h0 _ _ (C73_ber_parse L ops Rp al S R fuel s h0 P G W) K)).
Qed.
Print Assumptions C90_ber.
(** The low octets. *)
Definition low (s : list N) : list N := map (fun b => b mod 256) s.
(** A reader that leaves the buffer alone and reports that it has filled it. *)
Definition idle : user_reader (list N) := {|
  u_read := fun s n => if n =? 1 then (low (take 1 s), Returns 1, drop 1 s) else ([], Returns n, s);
  u_read_exact := fun s n => ([], Returns n, s) |}.
(** One that reports more than it was asked for. *)
Definition eager : user_reader (list N) := {|
  u_read := fun s n => if n =? 1 then (low (take 1 s), Returns 1, drop 1 s) else (low (take n s), Returns (n + 5), drop n s);
  u_read_exact := fun s n => (low (take n s), Returns (n + 5), drop n s) |}.
Lemma low_ok s : bytes_ok (low s).
Proof. unfold low. apply Forall_forall. intros x H. apply in_map_iff in H as (y & <- & _). now apply N.mod_lt. Qed.
Lemma idle_ok : writes_octets idle.
Proof. intros s n. cbn. destruct (n =? 1); split; try apply low_ok; constructor. Qed.
Lemma eager_ok : writes_octets eager.
Proof. intros s n. cbn. destruct (n =? 1); split; apply low_ok. Qed.
(** The contents of the first are what the allocator left there (C91). *)
Example C90_ex_parse :
  exists al, good_allocator al /\
  (match u_Der_parse LE al idle 5 (4 :: 40 :: repeat 7 40) [] with
   | Ends (Ok b) _ h => match L_slice LE b h with Done bs _ => take 3 bs = [4; 40; 179] /\ nlen bs = 42 | _ => False end | _ => False end) /\
  (match u_Der_parse UE al eager 5 (4 :: 40 :: repeat 7 20) [] with
   | Ends (Ok b) _ h => match L_slice UE b h with Done bs _ => take 23 bs = 4 :: 40 :: repeat 7 20 ++ [199] /\ nlen bs = 42 | _ => False end | _ => False end) /\
  (match rel_Ber_parse (released LE le_ops) al idle 9 [0x24; 0x80; 4; 3; 4; 2; 0; 0] [] with
   | Ends (Ok b) _ h => L_slice LE b h = Done [0x24; 0x80; 4; 3; 0; 0; 0; 4; 2; 0; 0; 0; 0] h | _ => False end).
Proof. exists bump. split; [exact bump_good|]. vm_compute. repeat split; reflexivity. Qed.

(** ** Decoding *)
(** [read_der] and [read_ber] hand to the Deserialize, which may be any, only parts of a value of the
    format.  The value is dropped, whether decoding succeeds, fails or panics. *)
Theorem C90_read_der : forall L ops Rp al S T (D : deserialize T) (R : user_reader S) fuel s h0, profiles L ops Rp -> good_allocator al -> writes_octets R ->
  let decoded bs r := exists id c, der_tlv id c bs /\ r = from_der D id c in
  decodes L al h0 decoded (u_Der_parse L al R fuel s h0) (u_read_der L al D R fuel s h0) /\
  decodes (released L ops) al h0 decoded (rel_Der_parse (released L ops) al R fuel s h0) (rel_read_der (released L ops) al D R fuel s h0) /\
  agree (u_read_der L al D R fuel s h0) (rel_read_der (released L ops) al D R fuel s h0).
Proof.
  intros L ops Rp al S T D R fuel s h0 P G W decoded. destruct (C90_der L ops Rp al S R fuel s h0 P G W) as (K & Kr).
  destruct (profiles_facts al L ops Rp G P) as (HL & RO). destruct (layouts_facts al L Rp G HL) as (BR & big & _).
  split; [|split].
  - apply (finish_decodes L al der_value); [exact K | apply der_finish].
  - apply (finish_decodes (released L ops) al der_value); [exact Kr | apply der_finish].
  - exact (finish_agree L al Rp BR der_value (serde_from_der D) h0 _ _ ops (C73_der_parse L ops Rp al S R fuel s h0 P G W) (rep_der L al Rp BR big R W fuel s h0)).
Qed.
Print Assumptions C90_read_der.
Theorem C90_read_ber : forall L ops Rp al S T (D : deserialize T) (R : user_reader S) fuel s h0, profiles L ops Rp -> good_allocator al -> writes_octets R ->
  let decoded bs r := exists id l c, good_parts bs id l c /\ r = from_ber D id l c in
  decodes L al h0 decoded (u_Ber_parse L al R fuel s h0) (u_read_ber L al D R fuel s h0) /\
  decodes (released L ops) al h0 decoded (rel_Ber_parse (released L ops) al R fuel s h0) (rel_read_ber (released L ops) al D R fuel s h0) /\
  agree (u_read_ber L al D R fuel s h0) (rel_read_ber (released L ops) al D R fuel s h0).
Proof.
  intros L ops Rp al S T D R fuel s h0 P G W decoded. destruct (C90_ber L ops Rp al S R fuel s h0 P G W) as (K & Kr).
  destruct (profiles_facts al L ops Rp G P) as (HL & RO). destruct (layouts_facts al L Rp G HL) as (BR & big & _).
  split; [|split].
  - apply (finish_decodes L al ber_value); [exact K | apply ber_finish].
  - apply (finish_decodes (released L ops) al ber_value); [exact Kr | apply ber_finish].
  - exact (finish_agree L al Rp BR ber_value (serde_from_ber D) h0 _ _ ops (C73_ber_parse L ops Rp al S R fuel s h0 P G W) (rep_ber L al Rp BR big R W fuel s h0)).
Qed.
Print Assumptions C90_read_ber.
(** A Deserialize that fails on one identifier, panics on another and counts the contents of the rest. *)
Definition picky : deserialize N := {|
  from_ber := fun id l c => match id with [5] => Err InvalidKeyValuePair | [2] => Panic | _ => match l with Indefinite => Ok (1000 + nlen c) | _ => Ok (nlen c) end end;
  from_der := fun id c => match id with [5] => Err InvalidKeyValuePair | [2] => Panic | _ => Ok (nlen c) end |}.
Example C90_ex_read :
  exists al, good_allocator al /\
  u_read_der LE al picky idle 5 (4 :: 40 :: repeat 7 3) [] = Ends (Ok 40) (repeat 7 3) [] /\
  u_read_der UE al picky idle 5 [2; 40] [] = Ends Panic [] [] /\
  u_read_ber LE al picky idle 9 [5; 40] [] = Ends (Err InvalidKeyValuePair) [] [] /\
  u_read_ber UE al picky bomb 9 (4 :: 40 :: repeat 7 20) [] = Ends Panic [] [] /\
  rel_read_ber (released LE le_ops) al picky idle 9 [0x24; 0x80; 4; 3; 4; 2; 0; 0] [] = Ends (Ok 1011) [] [].
Proof. exists bump. split; [exact bump_good|]. vm_compute. repeat split; reflexivity. Qed.
(** With the readers of C31 they end as [read_der] and [read_ber] on octets do. *)
Theorem C90_honest : forall L Rp al S T (D : deserialize T) (R : reader S) content fuel s h0, layouts L Rp -> good_allocator al -> honest R content ->
  bytes_ok (content s) -> nlen (content s) <= isize_max ->
  reads_as al h0 (fst (Der_parse R fuel s) = Panic) (read_der D R fuel s) (u_read_der L al D (user_of R fuel) fuel s h0) /\
  reads_as al h0 (fst (Ber_parse R fuel s) = Panic) (read_ber D R fuel s) (u_read_ber L al D (user_of R fuel) fuel s h0).
Proof.
  intros L Rp al S T D R content fuel s h0 HL G HR Hb Hn. split.
  - apply (finish_as L al (serde_from_der D)), (C72_der_parse_ends L Rp al S R content); assumption.
  - apply (finish_as L al (serde_from_ber D)), (C72_ber_parse_ends L Rp al S R content); assumption.
Qed.
Print Assumptions C90_honest.
