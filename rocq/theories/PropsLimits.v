(** C48, C52, C53, C54, C68: what exactly happens to lengths no allocation can hold, and to
    iterators and readers that contradict themselves. *)
From Verif Require Import SerdeOctets.
From Verif Require Import Base ModelIo ModelTag ModelContents ModelBuf ModelTlv ModelHeap ModelBufLE ModelBufUE ModelTlvRaw
  Spec SpecIo SpecBuf SpecTlv SpecMem SpecLimits TagProofs IdProofs BufProofs TlvMain StreamProofs StreamMain RawProofs RawMain RawTlv RawStream RawEdges MemProofs
  PropsBuf PropsRaw PropsMem RawLimits.

(** ** C48: reserve, asked for whatever *)
(** What a call comes to, for every buffer and every number: beyond isize::MAX a panic from
    inline storage, and from the heap undefined behaviour unless the sum overflows a usize;
    within it the buffer with the room asked for. *)
Theorem C48_le_exact : forall al r h b own k, good_allocator al -> Rep LE le_view r h b own -> isize_max < b_len b + k ->
  L_reserve LE al k r h = match own with Some _ => if b_len b + k <? 2 ^ 64 then UB else Crash | None => Crash end.
Proof.
  intros al r h b own k G R H. rewrite (le_over al r h b own k R H). unfold too_much. rewrite (rep_own _ _ _ _ _ _ R). now destruct own.
Qed.
Print Assumptions C48_le_exact.
Theorem C48_ue_exact : forall al r h b own k, good_allocator al -> Rep UE ue_view r h b own -> isize_max < b_len b + k ->
  L_reserve UE al k r h = match own with Some _ => if b_len b + k <? 2 ^ 64 then UB else Crash | None => Crash end.
Proof.
  intros al r h b own k G R H. rewrite (ue_over al r h b own k R H). unfold too_much. rewrite (rep_own _ _ _ _ _ _ R). now destruct own.
Qed.
Print Assumptions C48_ue_exact.
(** From the heap, with the sum in range and with the sum out of it. *)
Example C48_exact_ex :
  match rrun LE bump [OVec 0 [1] 0; OFromVec 0] vempty [] with
  | Done v h => match v 0%nat with
                | VBuf r => L_reserve LE bump isize_max r h = UB /\ L_reserve LE bump (2 ^ 64 - 1) r h = Crash
                | _ => False
                end
  | _ => False
  end.
Proof. vm_compute. split; reflexivity. Qed.

(** ** C52: the stream parsers *)
(** [o] is [x], unless memory runs out before. *)
Definition comes_to {A} (al : allocator) (o x : outcome A) : Prop :=
  match o with Abort => out_of_memory al | _ => o = x end.
Lemma ends_comes {A} al (o x : outcome A) : ends al o x -> x <> Abort -> comes_to al o x.
Proof. intros [->|[-> H]] N; [destruct x; try reflexivity; congruence | exact H]. Qed.
Lemma beyond_no_abort {A} i l n : beyond (A := A) i l n <> Abort.
Proof. unfold beyond. now destruct (_ && _). Qed.
(** Der::parse read the header [w] and its length is [n]. *)
Theorem C52_le_der_exact : forall al S (R : reader S) content C fuel s h0 w n s', good_allocator al -> honest R content ->
  bytes_ok (content s) -> nlen (content s) <= isize_max -> parse_id_length R fuel (s, []) = (Ok (Definite n), (s', w)) ->
  isize_max < nlen w + n -> comes_to al (raw_Der_parse LE al R C fuel s h0) (beyond 23 (nlen w) n).
Proof.
  intros al S R content C fuel s h0 w n s' G HR H1 H2 H3 H4. apply ends_comes; [|apply beyond_no_abort].
  exact (der_parse_beyond LE al _ (C19_refines al G) (rep_inline LE le_view) (le_over al) R content HR C fuel s h0 w n s' H1 H2 H3 H4).
Qed.
Print Assumptions C52_le_der_exact.
Theorem C52_ue_der_exact : forall al S (R : reader S) content C fuel s h0 w n s', good_allocator al -> honest R content ->
  bytes_ok (content s) -> nlen (content s) <= isize_max -> parse_id_length R fuel (s, []) = (Ok (Definite n), (s', w)) ->
  isize_max < nlen w + n -> comes_to al (raw_Der_parse UE al R C fuel s h0) (beyond 16 (nlen w) n).
Proof.
  intros al S R content C fuel s h0 w n s' G HR H1 H2 H3 H4. apply ends_comes; [|apply beyond_no_abort].
  exact (der_parse_beyond UE al _ (C20_refines al G) (rep_inline UE ue_view) (ue_over al) R content HR C fuel s h0 w n s' H1 H2 H3 H4).
Qed.
Print Assumptions C52_ue_der_exact.
(** Ber::parse fails where a header stands that announces too much, in the middle of
    whatever indefinite-length values are open. *)
Theorem C52_le_ber_exact : forall al S (R : reader S) content fuel s h0, good_allocator al -> honest R content ->
  bytes_ok (content s) -> nlen (content s) <= isize_max -> fst (Ber_parse R fuel s) = Panic ->
  exists d p id len n t, content s = p ++ id ++ len ++ t /\ open_at d p /\ is_identifier id /\ minimal_length n len /\
    isize_max < nlen (p ++ id ++ len) + n /\ comes_to al (raw_Ber_parse LE al R fuel s h0) (beyond 23 (nlen (p ++ id ++ len)) n).
Proof.
  intros al S R content fuel s h0 G HR H1 H2 H3.
  destruct (ber_parse_beyond LE al _ (C19_refines al G) (rep_inline LE le_view) (le_over al) R content HR fuel s h0 H1 H2 H3) as (d & p & id & len & n & t & Q1 & Q2 & Q3 & Q4 & Q5 & Q6).
  exists d, p, id, len, n, t. do 5 (split; [assumption|]). apply ends_comes; [exact Q6 | apply beyond_no_abort].
Qed.
Print Assumptions C52_le_ber_exact.
Theorem C52_ue_ber_exact : forall al S (R : reader S) content fuel s h0, good_allocator al -> honest R content ->
  bytes_ok (content s) -> nlen (content s) <= isize_max -> fst (Ber_parse R fuel s) = Panic ->
  exists d p id len n t, content s = p ++ id ++ len ++ t /\ open_at d p /\ is_identifier id /\ minimal_length n len /\
    isize_max < nlen (p ++ id ++ len) + n /\ comes_to al (raw_Ber_parse UE al R fuel s h0) (beyond 16 (nlen (p ++ id ++ len)) n).
Proof.
  intros al S R content fuel s h0 G HR H1 H2 H3.
  destruct (ber_parse_beyond UE al _ (C20_refines al G) (rep_inline UE ue_view) (ue_over al) R content HR fuel s h0 H1 H2 H3) as (d & p & id & len & n & t & Q1 & Q2 & Q3 & Q4 & Q5 & Q6).
  exists d, p, id, len, n, t. do 5 (split; [assumption|]). apply ends_comes; [exact Q6 | apply beyond_no_abort].
Qed.
Print Assumptions C52_ue_ber_exact.
(** Such a header is unique, so the theorems pin the outcome down: what comes before a
    header that announces more than there is cannot be read past. *)
Theorem C52_unique : forall bs d p id len n t d' p' id' len' n' t', nlen bs <= isize_max ->
  bs = p ++ id ++ len ++ t -> open_at d p -> is_identifier id -> minimal_length n len -> isize_max < nlen (p ++ id ++ len) + n ->
  bs = p' ++ id' ++ len' ++ t' -> open_at d' p' -> is_identifier id' -> minimal_length n' len' -> isize_max < nlen (p' ++ id' ++ len') + n' ->
  p = p' /\ id = id' /\ len = len' /\ n = n'.
Proof. exact too_long_unique. Qed.
Print Assumptions C52_unique.
(** Two values open, an element of 23 octets closed, then the header of isize::MAX octets:
    undefined behaviour; with one element less before it, a panic; and with 2^64 - 1 octets,
    a panic as well. *)
Example C52_exact_ex :
  let p := [0x30; 0x80; 0x30; 0x80] ++ 0x04 :: 21 :: repeat 7 21 in
  let huge := [0x04; 0x88; 0x7f; 0xff; 0xff; 0xff; 0xff; 0xff; 0xff; 0xff] in
  let most := [0x04; 0x88; 0xff; 0xff; 0xff; 0xff; 0xff; 0xff; 0xff; 0xff] in
  open_at 2 p /\ fst (Ber_parse slice_reader 80 (p ++ huge)) = Panic /\
  raw_Ber_parse LE bump slice_reader 80 (p ++ huge) [] = UB /\
  raw_Ber_parse LE bump slice_reader 80 ([0x30; 0x80; 0x30; 0x80] ++ huge) [] = Crash /\
  raw_Ber_parse LE bump slice_reader 80 (p ++ most) [] = Crash.
Proof.
  cbv zeta. split.
  - change (open_at 2 (((([] ++ [0x30] ++ [0x80]) ++ [0x30] ++ [0x80])) ++ ([0x04] ++ [21] ++ repeat 7 21))).
    eapply oa_element; [|apply (dt_intro [0x04] (repeat 7 21)); [exact sample_id4 | now constructor | reflexivity] | discriminate].
    apply oa_open; [|exact sample_id48]. apply oa_open; [constructor | exact sample_id48].
  - vm_compute. auto.
Qed.
(** An identifier of 24 octets, then the length. *)
Example C52_der_exact_ex :
  parse_id_length slice_reader 40 (long_header, []) = (Ok (Definite (isize_max)), ([], long_header)) /\ nlen long_header = 33 /\
  raw_Der_parse LE bump slice_reader (fun s n => let (x, s') := rd_read slice_reader s n in (claim_of x, s')) 40 long_header [] = UB.
Proof. vm_compute. auto. Qed.

(** ** C53: iterators yielding more than their clones *)
(** The room made is the inline storage or what the clone called for.  What fits is written
    after the header; the first item that does not fit is written past the end of the memory. *)
Theorem C53_le_exact : forall al id counted items hdr h0, good_allocator al -> is_identifier id -> Forall bytes_ok items ->
  der_tlv id (concat counted) (hdr ++ concat counted) -> nlen (hdr ++ concat counted) <= isize_max ->
  (nlen (hdr ++ concat items) <= new_room 23 (nlen (hdr ++ concat counted)) ->
   match raw_Der_from_id_iterator LE al id counted items h0 with
   | Done r h => L_slice LE r h = Done (hdr ++ concat items) h /\ (forall a c, h_get a h0 = Some c -> h_get a h = Some c)
   | Abort => out_of_memory al
   | Crash | UB => False
   end) /\
  (forall before i after, items = before ++ i :: after -> nlen (hdr ++ concat before) <= new_room 23 (nlen (hdr ++ concat counted)) ->
   new_room 23 (nlen (hdr ++ concat counted)) < nlen (hdr ++ concat before) + nlen i -> (23 < nlen (hdr ++ concat counted) \/ nlen (hdr ++ concat before) + nlen i <> 24) ->
   comes_to al (raw_Der_from_id_iterator LE al id counted items h0) UB).
Proof.
  intros al id counted items hdr h0 G Hi Hs Hd Hn. apply der_tlv_octets in Hd. rewrite app_assoc in Hd. apply app_inv_tail in Hd. subst hdr.
  assert (Hl : forall n, n < usize_limit -> bytes_ok (Length_to_bytes (Definite n))) by (intros n; apply len_bytes_ok).
  rewrite !nlen_app in Hn. split.
  - intros Hf. change (meets al (raw_Der_from_id_iterator LE al id counted items h0) (fun r h => L_slice LE r h = Done ((id ++ Length_to_bytes (Definite (nlen (concat counted)))) ++ concat items) h /\
      (forall a c, h_get a h0 = Some c -> h_get a h = Some c))).
    eapply meets_mono; [apply (iterator_fits LE al _ (C19_refines al G) id (fun n => Length_to_bytes (Definite n)) counted items h0); auto|].
    + now apply is_identifier_ok.
    + unfold new_room, cap_for in *. rewrite !nlen_app in Hf. exact Hf.
    + intros r h (b & o & R & F & H). split.
      * rewrite (rp_slice LE al _ (C19_refines al G) _ _ _ _ R), (holds_slice _ _ H), <- app_assoc. reflexivity.
      * intros y c Hc. destruct F as (F1 & F2 & _). rewrite F1; [assumption | discriminate |].
        intros ->. destruct (F2 y eq_refl) as [[=]|Z]. congruence.
  - intros before i after -> Hb Hx Hc. rewrite Forall_app in Hs. apply ends_comes; [|discriminate]. rewrite !nlen_app in *.
    apply (iterator_outside LE al _ (C19_refines al G) (fun n => n =? 24)); auto.
    + intros r h b own w R Q [K|K]; apply (le_outside r h b own w R Q); auto. right. now apply N.eqb_neq.
    + now apply is_identifier_ok.
    + apply Hs.
    + destruct Hc; [now left | right; now apply N.eqb_neq].
Qed.
Print Assumptions C53_le_exact.
Theorem C53_ue_exact : forall al id counted items hdr h0, good_allocator al -> is_identifier id -> Forall bytes_ok items ->
  der_tlv id (concat counted) (hdr ++ concat counted) -> nlen (hdr ++ concat counted) <= isize_max ->
  (nlen (hdr ++ concat items) <= new_room 16 (nlen (hdr ++ concat counted)) ->
   match raw_Der_from_id_iterator UE al id counted items h0 with
   | Done r h => L_slice UE r h = Done (hdr ++ concat items) h /\ (forall a c, h_get a h0 = Some c -> h_get a h = Some c)
   | Abort => out_of_memory al
   | Crash | UB => False
   end) /\
  (forall before i after, items = before ++ i :: after -> nlen (hdr ++ concat before) <= new_room 16 (nlen (hdr ++ concat counted)) ->
   new_room 16 (nlen (hdr ++ concat counted)) < nlen (hdr ++ concat before) + nlen i ->
   comes_to al (raw_Der_from_id_iterator UE al id counted items h0) UB).
Proof.
  intros al id counted items hdr h0 G Hi Hs Hd Hn. apply der_tlv_octets in Hd. rewrite app_assoc in Hd. apply app_inv_tail in Hd. subst hdr.
  assert (Hl : forall n, n < usize_limit -> bytes_ok (Length_to_bytes (Definite n))) by (intros n; apply len_bytes_ok).
  rewrite !nlen_app in Hn. split.
  - intros Hf. change (meets al (raw_Der_from_id_iterator UE al id counted items h0) (fun r h => L_slice UE r h = Done ((id ++ Length_to_bytes (Definite (nlen (concat counted)))) ++ concat items) h /\
      (forall a c, h_get a h0 = Some c -> h_get a h = Some c))).
    eapply meets_mono; [apply (iterator_fits UE al _ (C20_refines al G) id (fun n => Length_to_bytes (Definite n)) counted items h0); auto|].
    + now apply is_identifier_ok.
    + unfold new_room, cap_for in *. rewrite !nlen_app in Hf. exact Hf.
    + intros r h (b & o & R & F & H). split.
      * rewrite (rp_slice UE al _ (C20_refines al G) _ _ _ _ R), (holds_slice _ _ H), <- app_assoc. reflexivity.
      * intros y c Hc. destruct F as (F1 & F2 & _). rewrite F1; [assumption | discriminate |].
        intros ->. destruct (F2 y eq_refl) as [[=]|Z]. congruence.
  - intros before i after -> Hb Hx. rewrite Forall_app in Hs. apply ends_comes; [|discriminate]. rewrite !nlen_app in *.
    apply (iterator_outside UE al _ (C20_refines al G) (fun _ => false)); auto.
    + intros r h b own w R Q _. exact (ue_outside r h b own w R Q).
    + now apply is_identifier_ok.
    + apply Hs.
Qed.
Print Assumptions C53_ue_exact.
(** The same for Ber::from_id_iterator_indefinite, whose header is the identifier and 0x80. *)
Theorem C53_le_indefinite_exact : forall al id counted items h0, good_allocator al -> is_identifier id -> Forall bytes_ok items ->
  nlen ((id ++ [0x80]) ++ concat counted) <= isize_max ->
  (nlen ((id ++ [0x80]) ++ concat items) <= new_room 23 (nlen ((id ++ [0x80]) ++ concat counted)) ->
   match raw_Ber_from_id_iterator_indefinite LE al id counted items h0 with
   | Done r h => L_slice LE r h = Done ((id ++ [0x80]) ++ concat items) h /\ (forall a c, h_get a h0 = Some c -> h_get a h = Some c)
   | Abort => out_of_memory al
   | Crash | UB => False
   end) /\
  (forall before i after, items = before ++ i :: after -> nlen ((id ++ [0x80]) ++ concat before) <= new_room 23 (nlen ((id ++ [0x80]) ++ concat counted)) ->
   new_room 23 (nlen ((id ++ [0x80]) ++ concat counted)) < nlen ((id ++ [0x80]) ++ concat before) + nlen i -> (23 < nlen ((id ++ [0x80]) ++ concat counted) \/ nlen ((id ++ [0x80]) ++ concat before) + nlen i <> 24) ->
   comes_to al (raw_Ber_from_id_iterator_indefinite LE al id counted items h0) UB).
Proof.
  intros al id counted items h0 G Hi Hs Hn.
  assert (Hl : forall n, n < usize_limit -> bytes_ok (Length_to_bytes Indefinite)) by (intros n _; now apply octets_ok).
  rewrite !nlen_app in Hn. split.
  - intros Hf. change (meets al (raw_Ber_from_id_iterator_indefinite LE al id counted items h0) (fun r h => L_slice LE r h = Done ((id ++ [0x80]) ++ concat items) h /\
      (forall a c, h_get a h0 = Some c -> h_get a h = Some c))).
    eapply meets_mono; [apply (iterator_fits LE al _ (C19_refines al G) id (fun _ => Length_to_bytes Indefinite) counted items h0); auto|].
    + now apply is_identifier_ok.
    + unfold new_room, cap_for in *. rewrite !nlen_app in Hf. exact Hf.
    + intros r h (b & o & R & F & H). split.
      * rewrite (rp_slice LE al _ (C19_refines al G) _ _ _ _ R), (holds_slice _ _ H), <- app_assoc. reflexivity.
      * intros y c Hc. destruct F as (F1 & F2 & _). rewrite F1; [assumption | discriminate |].
        intros ->. destruct (F2 y eq_refl) as [[=]|Z]. congruence.
  - intros before i after -> Hb Hx Hc. rewrite Forall_app in Hs. apply ends_comes; [|discriminate]. rewrite !nlen_app in *.
    apply (iterator_outside LE al _ (C19_refines al G) (fun n => n =? 24)); auto.
    + intros r h b own w R Q [K|K]; apply (le_outside r h b own w R Q); auto. right. now apply N.eqb_neq.
    + now apply is_identifier_ok.
    + apply Hs.
    + destruct Hc; [now left | right; now apply N.eqb_neq].
Qed.
Print Assumptions C53_le_indefinite_exact.
Theorem C53_ue_indefinite_exact : forall al id counted items h0, good_allocator al -> is_identifier id -> Forall bytes_ok items ->
  nlen ((id ++ [0x80]) ++ concat counted) <= isize_max ->
  (nlen ((id ++ [0x80]) ++ concat items) <= new_room 16 (nlen ((id ++ [0x80]) ++ concat counted)) ->
   match raw_Ber_from_id_iterator_indefinite UE al id counted items h0 with
   | Done r h => L_slice UE r h = Done ((id ++ [0x80]) ++ concat items) h /\ (forall a c, h_get a h0 = Some c -> h_get a h = Some c)
   | Abort => out_of_memory al
   | Crash | UB => False
   end) /\
  (forall before i after, items = before ++ i :: after -> nlen ((id ++ [0x80]) ++ concat before) <= new_room 16 (nlen ((id ++ [0x80]) ++ concat counted)) ->
   new_room 16 (nlen ((id ++ [0x80]) ++ concat counted)) < nlen ((id ++ [0x80]) ++ concat before) + nlen i ->
   comes_to al (raw_Ber_from_id_iterator_indefinite UE al id counted items h0) UB).
Proof.
  intros al id counted items h0 G Hi Hs Hn.
  assert (Hl : forall n, n < usize_limit -> bytes_ok (Length_to_bytes Indefinite)) by (intros n _; now apply octets_ok).
  rewrite !nlen_app in Hn. split.
  - intros Hf. change (meets al (raw_Ber_from_id_iterator_indefinite UE al id counted items h0) (fun r h => L_slice UE r h = Done ((id ++ [0x80]) ++ concat items) h /\
      (forall a c, h_get a h0 = Some c -> h_get a h = Some c))).
    eapply meets_mono; [apply (iterator_fits UE al _ (C20_refines al G) id (fun _ => Length_to_bytes Indefinite) counted items h0); auto|].
    + now apply is_identifier_ok.
    + unfold new_room, cap_for in *. rewrite !nlen_app in Hf. exact Hf.
    + intros r h (b & o & R & F & H). split.
      * rewrite (rp_slice UE al _ (C20_refines al G) _ _ _ _ R), (holds_slice _ _ H), <- app_assoc. reflexivity.
      * intros y c Hc. destruct F as (F1 & F2 & _). rewrite F1; [assumption | discriminate |].
        intros ->. destruct (F2 y eq_refl) as [[=]|Z]. congruence.
  - intros before i after -> Hb Hx. rewrite Forall_app in Hs. apply ends_comes; [|discriminate]. rewrite !nlen_app in *.
    apply (iterator_outside UE al _ (C20_refines al G) (fun _ => false)); auto.
    + intros r h b own w R Q _. exact (ue_outside r h b own w R Q).
    + now apply is_identifier_ok.
    + apply Hs.
Qed.
Print Assumptions C53_ue_indefinite_exact.
(** The case left out for LE: the last octet of a value of 24 octets lands on the length
    octet, inside the buffer itself.  A value with its high bit set makes the buffer point to
    wherever its first octets say. *)
Example C53_le_24_ex :
  match raw_Der_from_id_iterator LE bump [4] [] [repeat 1 22; [7]] [], raw_Der_from_id_iterator LE bump [4] [] [repeat 1 21 ++ [0xf0]] [] with
  | Done r h, Done r' h' =>
      L_slice LE r h = Done ([4; 0] ++ repeat 1 6) h /\ le_is_stack r' = false /\ le_data r' = 0x0101010101010004 /\ L_slice LE r' h' = UB
  | _, _ => False
  end.
Proof. vm_compute. repeat split; reflexivity. Qed.
Example C53_exact_ex :
  nlen ([4; 0] ++ concat [repeat 1 10; repeat 2 10]) <= new_room 23 (nlen ([4; 0] ++ concat [])) /\
  match raw_Der_from_id_iterator LE bump [4] [] [repeat 1 10; repeat 2 10] [] with
  | Done r h => L_slice LE r h = Done ([4; 0] ++ repeat 1 10 ++ repeat 2 10) h /\ h = []
  | _ => False
  end /\
  new_room 16 (nlen ([4; 0] ++ concat [])) < nlen ([4; 0] ++ concat [repeat 1 10]) + nlen (repeat 2 10) /\
  raw_Der_from_id_iterator UE bump [4] [] [repeat 1 10; repeat 2 10; [3]] [] = UB.
Proof. vm_compute. repeat split; discriminate. Qed.

(** ** C54: whatever number Read::read reports *)
(** A call that writes [got] and reports [k] octets: an error if [k] is too small; otherwise a
    value of the right length that begins with the header and [got].  The rest is what memory
    held before: nothing else goes wrong. *)
Theorem C54_le_any : forall al S (R : reader S) content C fuel s h0 w n s1 k got s2, good_allocator al -> honest R content ->
  bytes_ok (content s) -> nlen (content s) <= isize_max -> parse_id_length R fuel (s, []) = (Ok (Definite n), (s1, w)) ->
  nlen w + n <= isize_max -> C s1 n = (ClaimOk k got, s2) -> bytes_ok got -> nlen got <= n ->
  match raw_Der_parse LE al R C fuel s h0 with
  | Done (Ok b, s') h => s' = s2 /\ n <= k /\ (exists residue, nlen residue = n - nlen got /\ L_slice LE b h = Done (w ++ got ++ residue) h) /\
      (forall a c, h_get a h0 = Some c -> h_get a h = Some c)
  | Done (Err e, s') h => s' = s2 /\ k < n /\ e = UnterminatedBytes /\ (forall a, h_get a h = h_get a h0)
  | Abort => out_of_memory al
  | Done _ _ | Crash | UB => False
  end.
Proof.
  intros al S R content C fuel s h0 w n s1 k got s2 G HR H1 H2 H3 H4 H5 H6 H7.
  pose proof (der_parse_claims LE al _ (C19_refines al G) R content HR C fuel s h0 w n s1 _ s2 H1 H2 H3 H4 H5) as K.
  assert (A : forall k' got', ClaimOk k got = ClaimOk k' got' -> bytes_ok got' /\ nlen got' <= n) by (intros k' got' [= <- <-]; auto).
  specialize (K A). destruct (raw_Der_parse LE al R C fuel s h0) as [[[b|e| |] s'] h| | |]; cbn [meets fst snd] in K; try exact K; try solve [destruct K as [_ []]].
  - destruct K as (-> & Hk & x & (b' & o & Q & F & Hh) & Hx). split; [reflexivity|]. split; [assumption|]. split.
    + exists x. split; [lia|]. now rewrite (rp_slice LE al _ (C19_refines al G) _ _ _ _ Q), (holds_slice _ _ Hh).
    + intros y c Hc. destruct F as (F1 & F2 & _). rewrite F1; [assumption | discriminate |].
      intros ->. destruct (F2 y eq_refl) as [[=]|Z]. congruence.
  - destruct K as (-> & Hk & -> & F). repeat split; auto. now apply frame_none.
Qed.
Print Assumptions C54_le_any.
Theorem C54_ue_any : forall al S (R : reader S) content C fuel s h0 w n s1 k got s2, good_allocator al -> honest R content ->
  bytes_ok (content s) -> nlen (content s) <= isize_max -> parse_id_length R fuel (s, []) = (Ok (Definite n), (s1, w)) ->
  nlen w + n <= isize_max -> C s1 n = (ClaimOk k got, s2) -> bytes_ok got -> nlen got <= n ->
  match raw_Der_parse UE al R C fuel s h0 with
  | Done (Ok b, s') h => s' = s2 /\ n <= k /\ (exists residue, nlen residue = n - nlen got /\ L_slice UE b h = Done (w ++ got ++ residue) h) /\
      (forall a c, h_get a h0 = Some c -> h_get a h = Some c)
  | Done (Err e, s') h => s' = s2 /\ k < n /\ e = UnterminatedBytes /\ (forall a, h_get a h = h_get a h0)
  | Abort => out_of_memory al
  | Done _ _ | Crash | UB => False
  end.
Proof.
  intros al S R content C fuel s h0 w n s1 k got s2 G HR H1 H2 H3 H4 H5 H6 H7.
  pose proof (der_parse_claims UE al _ (C20_refines al G) R content HR C fuel s h0 w n s1 _ s2 H1 H2 H3 H4 H5) as K.
  assert (A : forall k' got', ClaimOk k got = ClaimOk k' got' -> bytes_ok got' /\ nlen got' <= n) by (intros k' got' [= <- <-]; auto).
  specialize (K A). destruct (raw_Der_parse UE al R C fuel s h0) as [[[b|e| |] s'] h| | |]; cbn [meets fst snd] in K; try exact K; try solve [destruct K as [_ []]].
  - destruct K as (-> & Hk & x & (b' & o & Q & F & Hh) & Hx). split; [reflexivity|]. split; [assumption|]. split.
    + exists x. split; [lia|]. now rewrite (rp_slice UE al _ (C20_refines al G) _ _ _ _ Q), (holds_slice _ _ Hh).
    + intros y c Hc. destruct F as (F1 & F2 & _). rewrite F1; [assumption | discriminate |].
      intros ->. destruct (F2 y eq_refl) as [[=]|Z]. congruence.
  - destruct K as (-> & Hk & -> & F). repeat split; auto. now apply frame_none.
Qed.
Print Assumptions C54_ue_any.
(** Thirty octets announced, three written, thirty reported. *)
Example C54_any_ex :
  let C := fun (s : list N) (n : N) => (ClaimOk n [7; 7; 7], s) in
  parse_id_length slice_reader 10 ([4; 30], []) = (Ok (Definite 30), ([], [4; 30])) /\
  match raw_Der_parse LE bump_zero slice_reader C 10 [4; 30] [] with
  | Done (Ok b, _) h => L_slice LE b h = Done ([4; 30] ++ [7; 7; 7] ++ repeat 0 27) h
  | _ => False
  end.
Proof. vm_compute. repeat split; reflexivity. Qed.

(** ** C68: every stream *)
(** Headers that announce more than isize::MAX do not count: nothing is asked for on their
    account, whether the parser panics or worse. *)
Theorem C68_der_all_partial : forall al al' k S (R : reader S) content C fuel s h0, good_allocator al -> agree_upto k al al' -> honest R content ->
  bytes_ok (content s) -> nlen (content s) <= isize_max -> nlen (content s) <= k ->
  (forall i n, header_at (content s) [] i n -> i + n <= isize_max -> i + n <= k) ->
  raw_Der_parse LE al R C fuel s h0 = raw_Der_parse LE al' R C fuel s h0 /\
  raw_Der_parse UE al R C fuel s h0 = raw_Der_parse UE al' R C fuel s h0.
Proof.
  intros al al' k S R content C fuel s h0 G A HR Hok Hn Hk HD. split.
  - apply (der_parse_asked LE al al' k A _ (C19_refines al G) (fun n r h => le_reserve_same k al al' n r h A) (rep_inline LE le_view) (le_over al) (le_over al') R content HR); assumption.
  - apply (der_parse_asked UE al al' k A _ (C20_refines al G) (fun n r h => ue_reserve_same k al al' n r h A) (rep_inline UE ue_view) (ue_over al) (ue_over al') R content HR); assumption.
Qed.
Print Assumptions C68_der_all_partial.
Theorem C68_ber_all_partial : forall al al' k S (R : reader S) content fuel s h0, good_allocator al -> agree_upto k al al' -> honest R content ->
  bytes_ok (content s) -> nlen (content s) <= isize_max -> nlen (content s) <= k ->
  (forall p i n, header_at (content s) p i n -> i + n <= isize_max -> i + n <= k) ->
  raw_Ber_parse LE al R fuel s h0 = raw_Ber_parse LE al' R fuel s h0 /\
  raw_Ber_parse UE al R fuel s h0 = raw_Ber_parse UE al' R fuel s h0.
Proof.
  intros al al' k S R content fuel s h0 G A HR Hok Hn Hk HD. split.
  - apply (ber_parse_asked LE al al' k A _ (C19_refines al G) (fun n r h => le_reserve_same k al al' n r h A) (rep_inline LE le_view) (le_over al) (le_over al') R content HR); assumption.
  - apply (ber_parse_asked UE al al' k A _ (C20_refines al G) (fun n r h => ue_reserve_same k al al' n r h A) (rep_inline UE ue_view) (ue_over al) (ue_over al') R content HR); assumption.
Qed.
Print Assumptions C68_ber_all_partial.
(** The header of isize::MAX octets, and an allocator that has 35 octets. *)
Example C68_all_ex :
  let bs := [0x30; 0x80; 0x04; 21] ++ repeat 7 21 ++ [0x04; 0x88; 0x7f; 0xff; 0xff; 0xff; 0xff; 0xff; 0xff; 0xff] in
  nlen bs = 35 /\ raw_Ber_parse LE (capped 35 bump) slice_reader 80 bs [] = raw_Ber_parse LE bump slice_reader 80 bs [].
Proof. vm_compute. auto. Qed.
