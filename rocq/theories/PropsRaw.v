(** Der and Ber in raw memory (C51 to C54). *)
From Verif Require Import Base ModelIo ModelTag ModelContents ModelBuf ModelTlv ModelHeap ModelBufLE ModelBufUE ModelTlvRaw
  Spec SpecIo SpecBuf SpecTlv TagProofs IdProofs BufProofs TlvMain StreamProofs RawProofs RawMain RawTlv RawStream RawEdges PropsBuf.

(** ** C51: a program using Der, Ber and vectors *)
Theorem C51_le : forall al os h0, good_allocator al -> all_legal os tempty ->
  match vraws LE al os vempty h0 with
  | Done v h =>
      (forall i, tshows LE h (v i) (vsteps os tempty i)) /\
      (forall a c, h_get a h0 = Some c -> h_get a h = Some c) /\
      ((forall i, vsteps os tempty i = TEmpty) -> forall a, h_get a h = h_get a h0)
  | Abort => out_of_memory al
  | Crash | UB => False
  end.
Proof. intros al os h0 G. exact (tlv_program LE al G _ (C19_refines al G) os h0). Qed.
Print Assumptions C51_le.
Theorem C51_ue : forall al os h0, good_allocator al -> all_legal os tempty ->
  match vraws UE al os vempty h0 with
  | Done v h =>
      (forall i, tshows UE h (v i) (vsteps os tempty i)) /\
      (forall a c, h_get a h0 = Some c -> h_get a h = Some c) /\
      ((forall i, vsteps os tempty i = TEmpty) -> forall a, h_get a h = h_get a h0)
  | Abort => out_of_memory al
  | Crash | UB => False
  end.
Proof. intros al os h0 G. exact (tlv_program UE al G _ (C20_refines al G) os h0). Qed.
Print Assumptions C51_ue.
(** Contents growing over the inline storage and over the one-octet length and back, a
    clone, a Der turned into a Ber and into a vector and back, in-place edits. *)
Definition sample_program : list vop :=
  [VNew 0 (TDer [4] [1; 2; 3]); VExtend TyDer 0 (repeat 7 20); VPush TyDer 0 8; VClone 0 1; VExtend TyDer 0 (repeat 9 110);
   VTruncate TyDer 0 5; VIntoBer 0; VExtend TyBer 0 [6]; VEdit 0 (@rev N);
   VNew 2 (TBer true [48] [1]); VExtend TyBer 2 [2; 3]; VTruncate TyBer 2 2;
   VIter 3 (TDer [0x1f; 0x81; 0x23] [10; 11; 12]) [[10]; []; [11; 12]];
   VIntoVec 0 [4; 6; 6; 7; 7; 3; 2; 1]; VFromVec 0 (TDer [4] [6; 7; 7; 3; 2; 1]); VPush TyDer 0 5; VDrop 1].
Lemma sample_possible t :
  match t with
  | TDer id c | TBer _ id c => is_identifier id /\ (octets c && (nlen id + nlen (Length_to_bytes (Definite (nlen c))) + 1 + nlen c <=? isize_max))%bool = true
  | _ => False
  end -> possible t.
Proof.
  assert (K : forall id c, is_identifier id -> (octets c && (nlen id + nlen (Length_to_bytes (Definite (nlen c))) + 1 + nlen c <=? isize_max))%bool = true ->
    bytes_ok c /\ nlen c < 2 ^ 64 /\ nlen id + nlen (Length_to_bytes (Definite (nlen c))) + 1 + nlen c <= isize_max).
  { intros id c _ H. apply andb_prop in H as [H1 H2]. apply N.leb_le in H2. pose proof isize_lt. split; [now apply octets_ok | lia]. }
  assert (D : forall id c, is_identifier id -> (octets c && (nlen id + nlen (Length_to_bytes (Definite (nlen c))) + 1 + nlen c <=? isize_max))%bool = true ->
    exists bs, (der_tlv id c bs /\ bytes_ok c) /\ nlen bs <= isize_max).
  { intros id c Hi H. destruct (K id c Hi H) as (H1 & H2 & H3). eexists. split; [split; [now apply der_tlv_make | assumption]|].
    rewrite !nlen_app. lia. }
  destruct t as [|id c|[|] id c|]; try contradiction; intros [Hi H].
  - now apply D.
  - destruct (K id c Hi H) as (H1 & H2 & H3). eexists. split; [split; [reflexivity | auto]|]. rewrite nlen_app, nlen_cons. lia.
  - now apply D.
Qed.
Lemma sample_id4 : is_identifier [4].
Proof. exists 0, 0, 4. exact (id_short 0 0 4 eq_refl eq_refl eq_refl). Qed.
Lemma sample_id48 : is_identifier [48].
Proof. exists 0, 1, 16. exact (id_short 0 1 16 eq_refl eq_refl eq_refl). Qed.
Lemma sample_id163 : is_identifier [0x1f; 0x81; 0x23].
Proof. exists 0, 0, 163. apply (id_long 0 0 163 [1] 35); try lia; try discriminate; [repeat constructor | reflexivity]. Qed.
Example C51_ex : all_legal sample_program tempty /\ good_allocator bump /\
  vsteps sample_program tempty 0%nat = TDer [4] [6; 7; 7; 3; 2; 1; 5] /\
  vsteps sample_program tempty 2%nat = TBer true [48] [1; 2] /\
  match vraws LE bump sample_program vempty [], vraws UE bump sample_program vempty [] with
  | Done v h, Done v' h' =>
      match v 0%nat, v 2%nat, v 3%nat, v' 0%nat with
      | VBuf a, VBuf b, VBuf c, VBuf a' =>
          L_slice LE a h = Done [4; 7; 6; 7; 7; 3; 2; 1; 5] h /\ L_slice LE b h = Done [48; 0x80; 1; 2] h /\
          L_slice LE c h = Done [0x1f; 0x81; 0x23; 3; 10; 11; 12] h /\ L_slice UE a' h' = Done [4; 7; 6; 7; 7; 3; 2; 1; 5] h'
      | _, _, _, _ => False
      end
  | _, _ => False
  end.
Proof.
  split; [|split; [exact bump_good | vm_compute; repeat split; reflexivity]].
  assert (E : encodes (TDer [4] [6; 7; 7; 3; 2; 1]) [4; 6; 6; 7; 7; 3; 2; 1]).
  { split; [apply (dt_intro [4] [6; 7; 7; 3; 2; 1] [6] sample_id4); [constructor; reflexivity | reflexivity] | now apply octets_ok]. }
  repeat (split; [try (split; [reflexivity || exact I|]) | ]).
  all: try exact I; try reflexivity; try (apply sample_possible; split; [first [exact sample_id4 | exact sample_id48 | exact sample_id163] | vm_compute; reflexivity]).
  all: try (split; [exact I | apply sample_possible; split; [first [exact sample_id4 | exact sample_id48 | exact sample_id163] | vm_compute; reflexivity]]).
  all: try (split; [apply sample_possible; split; [exact sample_id163 | vm_compute; reflexivity] | reflexivity]).
  all: try exact E; try exact (proj1 E); try (now apply octets_ok).
Qed.

(** ** C52: parsing from a stream *)
(** The full statement: no stream makes the parsers break the rules of raw memory. *)
Definition never_undefined (L : layout) : Prop := forall al S (R : reader S) content fuel s h0,
  good_allocator al -> honest R content -> bytes_ok (content s) -> nlen (content s) <= isize_max ->
  raw_Der_parse L al R (fun s n => let (x, s') := rd_read R s n in (claim_of x, s')) fuel s h0 <> UB /\
  raw_Ber_parse L al R fuel s h0 <> UB.
(** An identifier of 24 octets puts the header on the heap; a length of isize::MAX then
    reaches [realloc] with a size its contract forbids. *)
Definition long_header : list N := 0x1f :: repeat 0x81 22 ++ [0x01] ++ [0x88; 0x7f; 0xff; 0xff; 0xff; 0xff; 0xff; 0xff; 0xff].
Theorem C52_le_refuted : ~ never_undefined LE.
Proof.
  intros H. destruct (H bump (list N) slice_reader (fun s => s) 40%nat long_header [] bump_good slice_honest) as [K _].
  - now apply octets_ok.
  - vm_compute. discriminate.
  - apply K. vm_compute. reflexivity.
Qed.
Print Assumptions C52_le_refuted.
Theorem C52_ue_refuted : ~ never_undefined UE.
Proof.
  intros H. destruct (H bump (list N) slice_reader (fun s => s) 40%nat long_header [] bump_good slice_honest) as [K _].
  - now apply octets_ok.
  - vm_compute. discriminate.
  - apply K. vm_compute. reflexivity.
Qed.
Print Assumptions C52_ue_refuted.
(** Ber::parse is reached with short identifiers too: the first element of an indefinite
    length value puts the buffer on the heap. *)
Theorem C52_ber_refuted : exists bs, bytes_ok bs /\
  raw_Ber_parse LE bump slice_reader 80 bs [] = UB /\ raw_Ber_parse UE bump slice_reader 80 bs [] = UB /\
  exists n, bs = 0x30 :: 0x80 :: 0x04 :: 21 :: repeat 0 21 ++ [0x04; 0x88; 0x7f; 0xff; 0xff; 0xff; 0xff; 0xff; 0xff; n].
Proof. eexists. split; [|split; [|split; [|exists 0xff; reflexivity]]]; [now apply octets_ok | vm_compute; reflexivity | vm_compute; reflexivity]. Qed.
Print Assumptions C52_ber_refuted.
(** Unless a length no allocation can hold is declared, for every reader: the same value
    or error as the octet-level parser, nothing else in memory touched, nothing leaked. *)
Theorem C52_le_der_partial : forall al S (R : reader S) content fuel s h0, good_allocator al -> honest R content ->
  bytes_ok (content s) -> nlen (content s) <= isize_max -> fst (Der_parse R fuel s) <> Panic ->
  match raw_Der_parse LE al R (fun s n => let (x, s') := rd_read R s n in (claim_of x, s')) fuel s h0 with
  | Done x h => leaves LE h0 (fst (Der_parse R fuel s)) (snd (Der_parse R fuel s)) x h
  | Abort => out_of_memory al
  | Crash | UB => False
  end.
Proof.
  intros al S R content fuel s h0 G HR H1 H2 H3.
  eapply (meets_mono al); [exact (der_parse_raw LE al _ (C19_refines al G) R content HR fuel s h0 H1 H2 H3)|].
  intros x h. apply (parsed_leaves LE al _ (C19_refines al G)).
Qed.
Print Assumptions C52_le_der_partial.
Theorem C52_ue_der_partial : forall al S (R : reader S) content fuel s h0, good_allocator al -> honest R content ->
  bytes_ok (content s) -> nlen (content s) <= isize_max -> fst (Der_parse R fuel s) <> Panic ->
  match raw_Der_parse UE al R (fun s n => let (x, s') := rd_read R s n in (claim_of x, s')) fuel s h0 with
  | Done x h => leaves UE h0 (fst (Der_parse R fuel s)) (snd (Der_parse R fuel s)) x h
  | Abort => out_of_memory al
  | Crash | UB => False
  end.
Proof.
  intros al S R content fuel s h0 G HR H1 H2 H3.
  eapply (meets_mono al); [exact (der_parse_raw UE al _ (C20_refines al G) R content HR fuel s h0 H1 H2 H3)|].
  intros x h. apply (parsed_leaves UE al _ (C20_refines al G)).
Qed.
Print Assumptions C52_ue_der_partial.
Theorem C52_le_ber_partial : forall al S (R : reader S) content fuel s h0, good_allocator al -> honest R content ->
  bytes_ok (content s) -> nlen (content s) <= isize_max -> fst (Ber_parse R fuel s) <> Panic ->
  match raw_Ber_parse LE al R fuel s h0 with
  | Done x h => leaves LE h0 (fst (Ber_parse R fuel s)) (snd (Ber_parse R fuel s)) x h
  | Abort => out_of_memory al
  | Crash | UB => False
  end.
Proof.
  intros al S R content fuel s h0 G HR H1 H2 H3.
  eapply (meets_mono al); [exact (ber_parse_raw LE al _ (C19_refines al G) R content HR fuel s h0 H1 H2 H3)|].
  intros x h. apply (parsed_leaves LE al _ (C19_refines al G)).
Qed.
Print Assumptions C52_le_ber_partial.
Theorem C52_ue_ber_partial : forall al S (R : reader S) content fuel s h0, good_allocator al -> honest R content ->
  bytes_ok (content s) -> nlen (content s) <= isize_max -> fst (Ber_parse R fuel s) <> Panic ->
  match raw_Ber_parse UE al R fuel s h0 with
  | Done x h => leaves UE h0 (fst (Ber_parse R fuel s)) (snd (Ber_parse R fuel s)) x h
  | Abort => out_of_memory al
  | Crash | UB => False
  end.
Proof.
  intros al S R content fuel s h0 G HR H1 H2 H3.
  eapply (meets_mono al); [exact (ber_parse_raw UE al _ (C20_refines al G) R content HR fuel s h0 H1 H2 H3)|].
  intros x h. apply (parsed_leaves UE al _ (C20_refines al G)).
Qed.
Print Assumptions C52_ue_ber_partial.
(** While the header fits in the inline storage such a length is a panic. *)
Theorem C52_le_inline_partial : forall al S (R : reader S) content C fuel s h0 w n s', good_allocator al -> honest R content ->
  bytes_ok (content s) -> parse_id_length R fuel (s, []) = (Ok (Definite n), (s', w)) ->
  nlen w <= 23 -> isize_max < nlen w + n ->
  match raw_Der_parse LE al R C fuel s h0 with Crash => True | Abort => out_of_memory al | Done _ _ | UB => False end.
Proof.
  intros al S R content C fuel s h0 w n s' G HR H1 H2 H3 H4.
  destruct (der_parse_inline LE al _ (C19_refines al G) (rep_inline LE le_view) (le_inline_crash al) R content C fuel s h0 w n s' HR H1 H2 H3) as [->|[-> H]];
    [discriminate | assumption | exact I | exact H].
Qed.
Print Assumptions C52_le_inline_partial.
Theorem C52_ue_inline_partial : forall al S (R : reader S) content C fuel s h0 w n s', good_allocator al -> honest R content ->
  bytes_ok (content s) -> parse_id_length R fuel (s, []) = (Ok (Definite n), (s', w)) ->
  nlen w <= 16 -> isize_max < nlen w + n ->
  match raw_Der_parse UE al R C fuel s h0 with Crash => True | Abort => out_of_memory al | Done _ _ | UB => False end.
Proof.
  intros al S R content C fuel s h0 w n s' G HR H1 H2 H3 H4.
  destruct (der_parse_inline UE al _ (C20_refines al G) (rep_inline UE ue_view) (ue_inline_crash al) R content C fuel s h0 w n s' HR H1 H2 H3) as [->|[-> H]];
    [discriminate | assumption | exact I | exact H].
Qed.
Print Assumptions C52_ue_inline_partial.
(** An indefinite length value over 23 octets, delivered in pieces with an interruption. *)
Example C52_ex :
  let s := [Chunk [0x30]; Chunk []; Fault Interrupted; Chunk [0x80; 0x04]] in
  let t := [Chunk [0x30; 0x80; 0x04]; Chunk (25 :: repeat 7 20); Fault Interrupted; Chunk (repeat 8 5 ++ [0]); Chunk [0; 9]] in
  honest sched_reader delivered /\ delivered t = 0x30 :: 0x80 :: 0x04 :: 25 :: repeat 7 20 ++ repeat 8 5 ++ [0; 0; 9] /\
  fst (Ber_parse sched_reader 50 t) = Ok (0x30 :: 0x80 :: 0x04 :: 25 :: repeat 7 20 ++ repeat 8 5 ++ [0; 0]) /\
  match raw_Ber_parse LE bump sched_reader 50 t [], raw_Ber_parse LE bump sched_reader 50 s [] with
  | Done (Ok b, s') h, Done (Err e, _) h' =>
      L_slice LE b h = Done (0x30 :: 0x80 :: 0x04 :: 25 :: repeat 7 20 ++ repeat 8 5 ++ [0; 0]) h /\
      delivered s' = [9] /\ length h = 1%nat /\ h' = []
  | _, _ => False
  end.
Proof. split; [exact sched_honest|]. vm_compute. repeat split; reflexivity. Qed.
Example C52_inline_ex :
  parse_id_length slice_reader 40 ([0x04; 0x88; 0x7f; 0xff; 0xff; 0xff; 0xff; 0xff; 0xff; 0xff], []) =
    (Ok (Definite isize_max), ([], [0x04; 0x88; 0x7f; 0xff; 0xff; 0xff; 0xff; 0xff; 0xff; 0xff])).
Proof. vm_compute. reflexivity. Qed.

(** ** C53: values built from iterators *)
(** The full statement, for whatever the clone of the iterator yields. *)
Definition iterator_safe (L : layout) : Prop := forall al id counted items h0,
  good_allocator al -> is_identifier id -> Forall bytes_ok items -> nlen (concat counted) + nlen (concat items) <= 1000 ->
  raw_Der_from_id_iterator L al id counted items h0 <> UB.
Theorem C53_le_refuted : ~ iterator_safe LE.
Proof.
  intros H. apply (H bump [4] [] [repeat 1 30] [] bump_good sample_id4); [|vm_compute; discriminate | vm_compute; reflexivity].
  constructor; [now apply octets_ok | constructor].
Qed.
Print Assumptions C53_le_refuted.
Theorem C53_ue_refuted : ~ iterator_safe UE.
Proof.
  intros H. apply (H bump [4] [] [repeat 1 30] [] bump_good sample_id4); [|vm_compute; discriminate | vm_compute; reflexivity].
  constructor; [now apply octets_ok | constructor].
Qed.
Print Assumptions C53_ue_refuted.
(** An iterator yielding less than its clone writes what it yields after the header the
    clone called for: safe, and a TLV exactly when the totals agree. *)
Theorem C53_le_partial : forall al id counted items hdr h0, good_allocator al -> is_identifier id -> Forall bytes_ok items ->
  der_tlv id (concat counted) (hdr ++ concat counted) -> nlen (hdr ++ concat counted) <= isize_max ->
  nlen (concat items) <= nlen (concat counted) ->
  match raw_Der_from_id_iterator LE al id counted items h0 with
  | Done r h => L_slice LE r h = Done (hdr ++ concat items) h /\ (forall a c, h_get a h0 = Some c -> h_get a h = Some c)
  | Abort => out_of_memory al
  | Crash | UB => False
  end.
Proof. intros al id counted items hdr h0 G. exact (iterator_header LE al _ (C19_refines al G) id counted items hdr h0). Qed.
Print Assumptions C53_le_partial.
Theorem C53_ue_partial : forall al id counted items hdr h0, good_allocator al -> is_identifier id -> Forall bytes_ok items ->
  der_tlv id (concat counted) (hdr ++ concat counted) -> nlen (hdr ++ concat counted) <= isize_max ->
  nlen (concat items) <= nlen (concat counted) ->
  match raw_Der_from_id_iterator UE al id counted items h0 with
  | Done r h => L_slice UE r h = Done (hdr ++ concat items) h /\ (forall a c, h_get a h0 = Some c -> h_get a h = Some c)
  | Abort => out_of_memory al
  | Crash | UB => False
  end.
Proof. intros al id counted items hdr h0 G. exact (iterator_header UE al _ (C20_refines al G) id counted items hdr h0). Qed.
Print Assumptions C53_ue_partial.
Example C53_ex :
  der_tlv [4] (concat [[1; 2]; [3]]) ([4; 3] ++ concat [[1; 2]; [3]]) /\
  match raw_Der_from_id_iterator LE bump [4] [[1; 2]; [3]] [[5]] [] with
  | Done r h => L_slice LE r h = Done [4; 3; 5] h /\ fst (DerRef_parse [4; 3; 5]) = Err UnterminatedBytes
  | _ => False
  end.
Proof. split; [apply (dt_intro [4] [1; 2; 3] [3] sample_id4); [constructor; reflexivity | reflexivity] | vm_compute; auto]. Qed.

(** ** C54: the octets of a parsed value come from the stream *)
(** The full statement: whatever [Read::read] reports, the value does not depend on what
    the allocator left in memory. *)
Definition no_residue (L : layout) : Prop := forall al al' S (R : reader S) C fuel s h0,
  good_allocator al -> good_allocator al' -> al_pick al = al_pick al' ->
  match raw_Der_parse L al R C fuel s h0, raw_Der_parse L al' R C fuel s h0 with
  | Done (Ok b, _) h, Done (Ok b', _) h' => exists v, L_slice L b h = Done v h /\ L_slice L b' h' = Done v h'
  | _, _ => True
  end.
(** [bump] handing out zeroed memory. *)
Definition bump_zero : allocator := {| al_pick := al_pick bump; al_junk := fun _ _ _ => 0 |}.
(** A reader that reports [n] octets and writes none. *)
Definition idle (s : list N) (n : N) : io_claim * list N := (ClaimOk n [], s).
Theorem C54_le_refuted : ~ no_residue LE.
Proof.
  intros H. specialize (H bump bump_zero (list N) slice_reader idle 10%nat [4; 30] [] bump_good bump_good eq_refl).
  vm_compute in H. destruct H as (v & H1 & H2). congruence.
Qed.
Print Assumptions C54_le_refuted.
Theorem C54_ue_refuted : ~ no_residue UE.
Proof.
  intros H. specialize (H bump bump_zero (list N) slice_reader idle 10%nat [4; 30] [] bump_good bump_good eq_refl).
  vm_compute in H. destruct H as (v & H1 & H2). congruence.
Qed.
Print Assumptions C54_ue_refuted.
(** A reader that reports what it wrote leaves no residue. *)
Theorem C54_le_partial : forall al S (R : reader S) content fuel s h0 b s' h, good_allocator al -> honest R content ->
  bytes_ok (content s) -> nlen (content s) <= isize_max -> (length (content s) <= fuel)%nat -> fst (Der_parse R fuel s) <> Panic ->
  raw_Der_parse LE al R (fun s n => let (x, s') := rd_read R s n in (claim_of x, s')) fuel s h0 = Done (Ok b, s') h ->
  exists v, L_slice LE b h = Done v h /\ content s = v ++ content s'.
Proof.
  intros al S R content fuel s h0 b s' h G HR H1 H2 HF H3 E. apply (parsed_from_stream LE R content HR fuel s h0 b s' h H1 H2 HF).
  pose proof (C52_le_der_partial al S R content fuel s h0 G HR H1 H2 H3) as K. rewrite E in K. exact K.
Qed.
Print Assumptions C54_le_partial.
Theorem C54_ue_partial : forall al S (R : reader S) content fuel s h0 b s' h, good_allocator al -> honest R content ->
  bytes_ok (content s) -> nlen (content s) <= isize_max -> (length (content s) <= fuel)%nat -> fst (Der_parse R fuel s) <> Panic ->
  raw_Der_parse UE al R (fun s n => let (x, s') := rd_read R s n in (claim_of x, s')) fuel s h0 = Done (Ok b, s') h ->
  exists v, L_slice UE b h = Done v h /\ content s = v ++ content s'.
Proof.
  intros al S R content fuel s h0 b s' h G HR H1 H2 HF H3 E. apply (parsed_from_stream UE R content HR fuel s h0 b s' h H1 H2 HF).
  pose proof (C52_ue_der_partial al S R content fuel s h0 G HR H1 H2 H3) as K. rewrite E in K. exact K.
Qed.
Print Assumptions C54_ue_partial.
Example C54_ex :
  let t := [Chunk [4]; Chunk [30]; Chunk (repeat 7 30 ++ [1])] in
  match raw_Der_parse LE bump sched_reader (fun s n => let (x, s') := rd_read sched_reader s n in (claim_of x, s')) 10 t [],
        raw_Der_parse LE bump_zero sched_reader (fun s n => let (x, s') := rd_read sched_reader s n in (claim_of x, s')) 10 t [] with
  | Done (Ok b, s) h, Done (Ok b', s') h' =>
      L_slice LE b h = Done (4 :: 30 :: repeat 7 30) h /\ L_slice LE b' h' = Done (4 :: 30 :: repeat 7 30) h' /\ s = [Chunk [1]]
  | Done (Err e, s) h, _ => False
  | _, _ => False
  end.
Proof. vm_compute. auto. Qed.
