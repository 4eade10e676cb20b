(** Properties of machines of either byte order (C92). *)
From Verif Require Import Base ModelIo ModelTag ModelContents ModelBuf ModelTlv ModelHeap ModelBufLE ModelBufUE ModelEndian ModelTlvRaw
  Spec SpecIo SpecBuf SpecTlv TagProofs BufProofs RawProofs RawMain RawTlv RawStream EndianProofs PropsBuf PropsRaw.

(** ** C92: the byte order of the machine does not matter *)
(** Lengths and integers are written and read alike: these are the functions that the
    other properties are about. *)
Theorem C92_numbers : forall o t v bs l, bytes_ok bs -> (forall n, l = Definite n -> n < usize_limit) ->
  on_Length_to_bytes o l = Length_to_bytes l /\
  on_Contents_from_int o t v = Contents_from_int t v /\
  on_to_integer_unchecked o t bs = to_integer_unchecked t bs /\
  on_to_integer o t bs = to_integer t bs.
Proof.
  intros o t v bs l H L. split; [now apply on_length|]. split; [apply on_from_int|]. split; [now apply on_unchecked | now apply on_to_int].
Qed.
Print Assumptions C92_numbers.
(** Under it: what [to_be] leaves in memory is big endian, and [from_be] undoes it, for
    words of any width. *)
Theorem C92_to_be : forall o k n, n < 256 ^ N.of_nat k ->
  mem_of o k (be_swap o k n) = be_tail k n /\ be_swap o k (be_swap o k n) = n /\ word_of o (mem_of o k n) = n.
Proof.
  intros o k n H. split; [apply mem_swap|]. split; [|now apply word_mem].
  pose proof (mem_swap o k n) as M. pose proof (swap_lt o k n H) as L. pose proof (word_mem o k (be_swap o k n) L) as W. rewrite M in W.
  pose proof (swap_word o (be_tail k n) (be_tail_ok k n)) as S. rewrite length_be in S. rewrite <- W at 1. rewrite S.
  exact (word_mem Big k n H).
Qed.
Print Assumptions C92_to_be.
Example C92_numbers_ex :
  on_Length_to_bytes Little (Definite 0x1234) = [0x82; 0x12; 0x34] /\ on_Length_to_bytes Big (Definite 0x1234) = [0x82; 0x12; 0x34] /\
  int_to_be Little I32 0x12345678 = 0x78563412%Z /\
  int_mem Little I32 0x12345678 = [0x78; 0x56; 0x34; 0x12] /\
  (forall o, on_Contents_from_int o I32 (-129) = Ok [0xff; 0x7f]) /\
  (forall o, on_to_integer o I32 [0xff; 0x7f] = Ok (-129)%Z).
Proof. split; [reflexivity|]. split; [reflexivity|]. split; [reflexivity|]. split; [reflexivity|]. split; intros []; vm_compute; reflexivity. Qed.

(** The portable layout is a byte vector on machines of both orders and with the fields of
    the struct in either order. *)
Theorem C92_portable_refines : forall o first al, good_allocator al ->
  buffer_refines (UE_on o first) al (Rep (UE_on o first) (mue_view o first)).
Proof. intros o first al G. apply (follows_refines good_allocator); [assumption | assumption | discriminate | exact (mUE_follows o first)]. Qed.
Print Assumptions C92_portable_refines.
Theorem C92_portable : forall o first al os e h0, good_allocator al ->
  erun 16 os eempty = Some e ->
  match rrun (UE_on o first) al os vempty h0 with
  | Done v h =>
      (forall i, shows (UE_on o first) h (v i) (e i)) /\
      (forall a c, h_get a h0 = Some c -> h_get a h = Some c) /\
      ((forall i, e i = EEmpty) -> forall a, h_get a h = h_get a h0)
  | Abort => out_of_memory al
  | Crash | UB => False
  end.
Proof. intros o first al os e h0 G. exact (history (UE_on o first) al G _ (C92_portable_refines o first al G) os e h0). Qed.
Print Assumptions C92_portable.

(** The layout that is compiled for a machine is a byte vector on it. *)
Definition inline_room (o : order) : N := match o with Little => 23 | Big => 16 end.
Lemma chosen_refines o first al : good_allocator al -> exists Rp, buffer_refines (chosen o first) al Rp.
Proof.
  intros G. destruct o.
  - eexists. exact (C92_portable_refines Big first al G).
  - eexists. exact (C19_refines al G).
Qed.
Theorem C92_chosen : forall o first al os e h0, good_allocator al ->
  erun (inline_room o) os eempty = Some e ->
  match rrun (chosen o first) al os vempty h0 with
  | Done v h =>
      (forall i, shows (chosen o first) h (v i) (e i)) /\
      (forall a c, h_get a h0 = Some c -> h_get a h = Some c) /\
      ((forall i, e i = EEmpty) -> forall a, h_get a h = h_get a h0)
  | Abort => out_of_memory al
  | Crash | UB => False
  end.
Proof.
  intros o first al os e h0 G. destruct o.
  - exact (C92_portable Big first al os e h0 G).
  - exact (C19_history al os e h0 G).
Qed.
Print Assumptions C92_chosen.
(** Programs with Der, Ber and vectors show the same values on every machine. *)
Theorem C92_programs : forall o first al os h0, good_allocator al -> all_legal os tempty ->
  match vraws (chosen o first) al os vempty h0 with
  | Done v h =>
      (forall i, tshows (chosen o first) h (v i) (vsteps os tempty i)) /\
      (forall a c, h_get a h0 = Some c -> h_get a h = Some c) /\
      ((forall i, vsteps os tempty i = TEmpty) -> forall a, h_get a h = h_get a h0)
  | Abort => out_of_memory al
  | Crash | UB => False
  end.
Proof.
  intros o first al os h0 G. destruct (chosen_refines o first al G) as [Rp BR].
  exact (tlv_program (chosen o first) al G Rp BR os h0).
Qed.
Print Assumptions C92_programs.
(** So do the parsers, for any reader that hands out its octets. *)
Theorem C92_parse : forall o first al S (R : reader S) content fuel s h0, good_allocator al -> honest R content ->
  bytes_ok (content s) -> nlen (content s) <= isize_max ->
  (fst (Der_parse R fuel s) <> Panic ->
   match raw_Der_parse (chosen o first) al R (fun s n => let (x, s') := rd_read R s n in (claim_of x, s')) fuel s h0 with
   | Done x h => leaves (chosen o first) h0 (fst (Der_parse R fuel s)) (snd (Der_parse R fuel s)) x h
   | Abort => out_of_memory al
   | Crash | UB => False
   end) /\
  (fst (Ber_parse R fuel s) <> Panic ->
   match raw_Ber_parse (chosen o first) al R fuel s h0 with
   | Done x h => leaves (chosen o first) h0 (fst (Ber_parse R fuel s)) (snd (Ber_parse R fuel s)) x h
   | Abort => out_of_memory al
   | Crash | UB => False
   end).
Proof.
  intros o first al S R content fuel s h0 G HR H1 H2. destruct (chosen_refines o first al G) as [Rp BR]. split; intros H3.
  - eapply (meets_mono al); [exact (der_parse_raw (chosen o first) al Rp BR R content HR fuel s h0 H1 H2 H3)|].
    intros x h. apply (parsed_leaves (chosen o first) al Rp BR).
  - eapply (meets_mono al); [exact (ber_parse_raw (chosen o first) al Rp BR R content HR fuel s h0 H1 H2 H3)|].
    intros x h. apply (parsed_leaves (chosen o first) al Rp BR).
Qed.
Print Assumptions C92_parse.
Example C92_ex :
  match rrun (UE_on Little false) bump sample_history vempty [] with
  | Done v h => match v 0%nat with
                | VBuf r => L_slice (UE_on Little false) r h = Done [1; 2; 8] h /\
                            u_union r = le_octets 8 117 ++ le_octets 8 (mue_data Little false r)
                | _ => False
                end
  | _ => False
  end /\
  match rrun (chosen Big true) bump sample_history vempty [] with
  | Done v h => match v 0%nat with
                | VBuf r => L_slice (chosen Big true) r h = Done [1; 2; 8] h
                | _ => False
                end
  | _ => False
  end /\ chosen Little true = LE /\ chosen Big true = UE.
Proof. split; [vm_compute; split; reflexivity|]. split; [vm_compute; reflexivity|]. split; reflexivity. Qed.

(** The little-endian layout must not be compiled for a big-endian machine: the length of
    contents in the buffer itself would be where their 17th octet is. *)
Theorem C92_layouts_differ : exists al os e, good_allocator al /\ erun 23 os eempty = Some e /\
  (exists bs, e 0%nat = EBuf (map Some bs ++ unknown (23 - nlen bs)) 17 /\ nlen bs = 17 /\
   exists v h r, rrun (LE_on Big) al os vempty [] = Done v h /\ v 0%nat = VBuf r /\ L_slice (LE_on Big) r h = UB).
Proof.
  exists bump, [ONew 0; OWrite 0 [1; 2; 3; 4; 5; 6; 7; 8; 9; 10; 11; 12; 13; 14; 15; 16; 0x80]]. eexists. split; [exact bump_good|].
  split; [vm_compute; reflexivity|]. exists [1; 2; 3; 4; 5; 6; 7; 8; 9; 10; 11; 12; 13; 14; 15; 16; 0x80].
  split; [vm_compute; reflexivity|]. split; [reflexivity|]. do 3 eexists. split; [vm_compute; reflexivity|]. split; [reflexivity|]. vm_compute. reflexivity.
Qed.
Print Assumptions C92_layouts_differ.
