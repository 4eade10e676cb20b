(** C84: what the allocator left in memory is not seen. *)
From Verif Require Import Base ModelIo ModelTag ModelContents ModelBuf ModelTlv ModelHeap ModelBufLE ModelBufUE ModelTlvRaw ModelUnwind ModelRelease
  Spec SpecIo SpecBuf SpecTlv SpecUnwind SpecRelease SpecCreate SpecInit TagProofs IdProofs TagMain ContentsProofs BufProofs TlvProofs TlvMain RawProofs RawMain RawTlv RelProofs CreateProofs
  PropsBuf PropsRaw PropsUnwind PropsRelease PropsCreate.

Lemma shows_same L L' h h' x x' t : tshows L h x t -> tshows L' h' x' t -> seen L h x = seen L' h' x'.
Proof.
  destruct x as [|r|x], t as [|id c|i id c|v]; cbn [tshows seen]; try contradiction; destruct x' as [|r'|x']; cbn [tshows seen]; try contradiction; try reflexivity.
  - intros (bs & E & -> & _) (bs' & E' & -> & _). f_equal. eapply encodes_fun; eassumption.
  - intros (bs & E & -> & _) (bs' & E' & -> & _). f_equal. eapply encodes_fun; eassumption.
  - now intros (-> & _) (-> & _).
Qed.
Lemma creates_same L L' al al' h h' o o' w n w' n' : creates L al h o w n -> creates L' al' h' o' w' n' ->
  (forall bs bs', w bs -> w' bs' -> bs = bs') -> same_octets L L' o o'.
Proof.
  intros [_ A] [_ B] U. destruct o as [b k| | |], o' as [b' k'| | |]; try exact I. destruct A as (bs & W & A & _), B as (bs' & W' & B & _).
  exists bs. split; [exact A|]. now rewrite (U bs bs' W W').
Qed.

(** ** Programs *)
(** Whatever the layouts, the allocators, the memory at the start and the profiles: the variables
    of a program show the same octets. *)
Theorem C84_program : forall L Rp L' Rp' al al' os h h', layouts L Rp -> layouts L' Rp' -> good_allocator al -> good_allocator al' -> all_legal os tempty ->
  same_variables L L' (vraws L al os vempty h) (vraws L' al' os vempty h').
Proof.
  intros L Rp L' Rp' al al' os h h' HL HL' G G' E. destruct (layouts_facts al L Rp G HL) as (BR & _), (layouts_facts al' L' Rp' G' HL') as (BR' & _).
  pose proof (tlv_program L al G Rp BR os h E) as A. pose proof (tlv_program L' al' G' Rp' BR' os h' E) as B.
  unfold same_variables. unfold meets in A, B. destruct (vraws L al os vempty h) as [v k| | |], (vraws L' al' os vempty h') as [v' k'| | |]; try exact I.
  intros i. eapply shows_same; [apply A | apply B].
Qed.
Print Assumptions C84_program.
Theorem C84_profiles : forall L ops Rp L' Rp' al al' os h h', profiles L ops Rp -> layouts L' Rp' -> good_allocator al -> good_allocator al' -> all_legal os tempty ->
  same_variables L L' (rel_vraws (released L ops) al os vempty h) (vraws L' al' os vempty h').
Proof.
  intros L ops Rp L' Rp' al al' os h h' P HL' G G' E. destruct (layouts_facts al' L' Rp' G' HL') as (BR' & _).
  pose proof (C73_program L ops Rp al os h P G E) as A. pose proof (tlv_program L' al' G' Rp' BR' os h' E) as B.
  unfold same_variables. unfold meets in B.
  destruct (rel_vraws (released L ops) al os vempty h) as [v k| | |], (vraws L' al' os vempty h') as [v' k'| | |]; try exact I.
  intros i. eapply shows_same; [apply A | apply B].
Qed.
Print Assumptions C84_profiles.
Example C84_ex_program : all_legal sample_program tempty /\
  match rel_vraws UE_release bump_zero sample_program vempty [], vraws LE bump sample_program vempty [] with
  | Done v h, Done w k => seen UE h (v 3%nat) = Some [0x1f; 0x81; 0x23; 3; 10; 11; 12] /\ seen LE k (w 3%nat) = Some [0x1f; 0x81; 0x23; 3; 10; 11; 12]
  | _, _ => False
  end.
Proof. split; [exact (proj1 C51_ex)|]. vm_compute. split; reflexivity. Qed.

(** ** Single constructors, also where they panic *)
Theorem C84_new : forall L Rp L' Rp' al al' id c h h', layouts L Rp -> layouts L' Rp' -> good_allocator al -> good_allocator al' -> is_identifier id -> bytes_ok c ->
  same_octets L L' (raw_new L al id c h) (raw_new L' al' id c h') /\
  same_octets L L' (raw_new_indefinite L al id c h) (raw_new_indefinite L' al' id c h').
Proof.
  intros L Rp L' Rp' al al' id c h h' HL HL' G G' Hi Hc.
  destruct (C82_new L Rp al id c h HL G Hi Hc) as [A B], (C82_new L' Rp' al' id c h' HL' G' Hi Hc) as [A' B'].
  split; [apply (creates_same _ _ _ _ _ _ _ _ _ _ _ _ A A') | apply (creates_same _ _ _ _ _ _ _ _ _ _ _ _ B B')]; cbv beta; congruence.
Qed.
Print Assumptions C84_new.
Theorem C84_iterator : forall L Rp L' Rp' al al' id items h h', layouts L Rp -> layouts L' Rp' -> good_allocator al -> good_allocator al' -> is_identifier id -> Forall bytes_ok items ->
  same_octets L L' (raw_Der_from_id_iterator L al id items items h) (raw_Der_from_id_iterator L' al' id items items h') /\
  same_octets L L' (raw_Ber_from_id_iterator_indefinite L al id items items h) (raw_Ber_from_id_iterator_indefinite L' al' id items items h').
Proof.
  intros L Rp L' Rp' al al' id items h h' HL HL' G G' Hi Hs.
  destruct (C82_iterator L Rp al id items h HL G Hi Hs) as [A B], (C82_iterator L' Rp' al' id items h' HL' G' Hi Hs) as [A' B'].
  split; [apply (creates_same _ _ _ _ _ _ _ _ _ _ _ _ A A') | apply (creates_same _ _ _ _ _ _ _ _ _ _ _ _ B B')]; cbv beta; congruence.
Qed.
Print Assumptions C84_iterator.

(** ** Parsing from an honest reader *)
Definition same_end {S} (L L' : layout) (x : ends S (L_raw L)) (x' : ends S (L_raw L')) : Prop :=
  match x, x' with
  | Ends (Ok b) s h, Ends (Ok b') s' h' => s = s' /\ exists bs, L_slice L b h = Done bs h /\ L_slice L' b' h' = Done bs h'
  | Ends (Err e) s _, Ends (Err e') s' _ => s = s' /\ e = e'
  | Ends Panic s _, Ends Panic s' _ => s = s'
  | Ends NoFuel s _, Ends NoFuel s' _ => s = s'
  | Ends Panic _ _, EOversize | EOversize, Ends Panic _ _ | EOversize, EOversize => True
  | EAbort, _ | _, EAbort => True
  | _, _ => False
  end.
Lemma ends_same {S} L L' al al' h h' (p : res (list N) * S) x x' : ends_as L al h p x -> ends_as L' al' h' p x' -> same_end L L' x x'.
Proof.
  unfold ends_as, same_end. destruct x as [r s k| | |]; try contradiction; try (intros; exact I).
  - intros [-> A]. destruct x' as [r' s' k'| | |]; try contradiction.
    + intros [-> B]. destruct (fst p) as [v|e| |], r as [b|e1| |]; try contradiction; destruct r' as [b'|e2| |]; try contradiction; try reflexivity.
      * split; [reflexivity|]. destruct A as (A & _), B as (B & _). eauto.
      * destruct A as [-> _], B as [-> _]. auto.
    + intros _. destruct r; exact I.
    + intros E. rewrite E in A. destruct r; try contradiction. exact I.
  - intros E. destruct x' as [r' s' k'| | |]; try contradiction; try (intros; exact I).
    intros [_ B]. rewrite E in B. destruct r'; try contradiction. exact I.
Qed.
(** The value, the error and what is left of the stream are the same. *)
Theorem C84_parse : forall L Rp L' Rp' al al' S (R : reader S) content fuel s h h', layouts L Rp -> layouts L' Rp' -> good_allocator al -> good_allocator al' -> honest R content ->
  bytes_ok (content s) -> nlen (content s) <= isize_max ->
  same_end L L' (u_Der_parse L al (user_of R fuel) fuel s h) (u_Der_parse L' al' (user_of R fuel) fuel s h') /\
  same_end L L' (u_Ber_parse L al (user_of R fuel) fuel s h) (u_Ber_parse L' al' (user_of R fuel) fuel s h').
Proof.
  intros L Rp L' Rp' al al' S R content fuel s h h' HL HL' G G' HR Hb Hn. split.
  - exact (ends_same _ _ _ _ _ _ _ _ _ (C72_der_parse_ends L Rp al S R content fuel s h HL G HR Hb Hn) (C72_der_parse_ends L' Rp' al' S R content fuel s h' HL' G' HR Hb Hn)).
  - exact (ends_same _ _ _ _ _ _ _ _ _ (C72_ber_parse_ends L Rp al S R content fuel s h HL G HR Hb Hn) (C72_ber_parse_ends L' Rp' al' S R content fuel s h' HL' G' HR Hb Hn)).
Qed.
Print Assumptions C84_parse.

(** ** with_id_length *)
(** The full statement for with_id_length, which leaves the contents unwritten. *)
Definition nothing_left (L : layout) : Prop := forall al al' id n h, good_allocator al -> good_allocator al' -> al_pick al = al_pick al' -> is_identifier id -> n < 2 ^ 64 ->
  let length_ := Length_to_bytes (Definite n) in
  same_octets L L (raw_with_header L al id length_ n h) (raw_with_header L al' id length_ n h).
(** It is false: the contents of a value too long for the buffer itself are whatever was in
    memory before. *)
Theorem C84_refuted : ~ nothing_left LE /\ ~ nothing_left UE.
Proof.
  assert (I4 : is_identifier [4]) by (exists 0, 0, 4; constructor; reflexivity).
  split; intros H; specialize (H bump bump_zero [4] 30 [] bump_good bump_good eq_refl I4 eq_refl); vm_compute in H; destruct H as (v & H1 & H2); congruence.
Qed.
Print Assumptions C84_refuted.
(** Missing: the contents.  The number of octets, the identifier and the length do not depend
    on it. *)
Theorem C84_with_id_length_partial : forall L Rp L' Rp' al al' id n h h', layouts L Rp -> layouts L' Rp' -> good_allocator al -> good_allocator al' -> is_identifier id -> n < 2 ^ 64 ->
  let length_ := Length_to_bytes (Definite n) in
  match raw_with_header L al id length_ n h, raw_with_header L' al' id length_ n h' with
  | Done b k, Done b' k' => exists c c', nlen c = n /\ nlen c' = n /\ L_slice L b k = Done (id ++ length_ ++ c) k /\ L_slice L' b' k' = Done (id ++ length_ ++ c') k'
  | Abort, _ => out_of_memory al
  | _, Abort => out_of_memory al'
  | Crash, Crash => isize_max < nlen id + nlen length_ + n
  | _, _ => False
  end.
Proof.
  intros L Rp L' Rp' al al' id n h h' HL HL' G G' Hi Hn length_. destruct (layouts_facts al L Rp G HL) as (BR & _ & cb), (layouts_facts al' L' Rp' G' HL') as (BR' & _ & cb').
  apply is_identifier_ok in Hi.
  destruct (create_header L al Rp BR cb id length_ n h Hi (len_bytes_ok n Hn)) as [A1 A], (create_header L' al' Rp' BR' cb' id length_ n h' Hi (len_bytes_ok n Hn)) as [B1 B].
  destruct (raw_with_header L al id length_ n h) as [b k| | |]; try contradiction; try exact A;
    destruct (raw_with_header L' al' id length_ n h') as [b' k'| | |]; try contradiction; try exact B.
  - destruct A as (bs & (c & -> & Lc & _) & A & _), B as (bs' & (c' & -> & Lc' & _) & B & _). eauto 10.
  - assert (isize_max < nlen id + nlen length_ + n) as K by now apply B1. apply A1 in K. discriminate.
  - assert (isize_max < nlen id + nlen length_ + n) as K by now apply A1. apply B1 in K. discriminate.
  - now apply A1.
Qed.
Print Assumptions C84_with_id_length_partial.
(** Once the contents are written through mut_contents, as in the example of the documentation,
    nothing of it is left. *)
Theorem C84_filled : forall L Rp L' Rp' al al' id c h h', layouts L Rp -> layouts L' Rp' -> good_allocator al -> good_allocator al' -> is_identifier id -> bytes_ok c ->
  let length_ := Length_to_bytes (Definite (nlen c)) in
  same_octets L L' (mbind (raw_with_header L al id length_ (nlen c)) (raw_set_contents L c) h) (mbind (raw_with_header L' al' id length_ (nlen c)) (raw_set_contents L' c) h').
Proof. intros L Rp L' Rp' al al' id c h h' HL HL' G G' Hi Hc. exact (proj1 (C84_new L Rp L' Rp' al al' id c h h' HL HL' G G' Hi Hc)). Qed.
Print Assumptions C84_filled.
Example C84_ex :
  match raw_with_header LE bump [4] [30] 30 [], raw_with_header LE bump_zero [4] [30] 30 [] with
  | Done b h, Done c k => L_slice LE c k = Done (4 :: 30 :: repeat 0 30) k /\ L_slice LE b h <> Done (4 :: 30 :: repeat 0 30) h
  | _, _ => False
  end /\
  match mbind (raw_with_header LE bump [4] [30] 30) (raw_set_contents LE (repeat 7 30)) [], mbind (raw_with_header UE bump_zero [4] [30] 30) (raw_set_contents UE (repeat 7 30)) [] with
  | Done b h, Done c k => L_slice LE b h = Done (4 :: 30 :: repeat 7 30) h /\ L_slice UE c k = Done (4 :: 30 :: repeat 7 30) k
  | _, _ => False
  end /\
  match u_Der_parse LE bump (user_of slice_reader 9) 9 [4; 1; 5; 6] [], u_Der_parse UE bump_zero (user_of slice_reader 9) 9 [4; 1; 5; 6] [] with
  | Ends (Ok b) s h, Ends (Ok c) t k => L_slice LE b h = Done [4; 1; 5] h /\ L_slice UE c k = Done [4; 1; 5] k /\ s = [6] /\ t = [6]
  | _, _ => False
  end.
Proof. vm_compute. repeat split; try reflexivity; discriminate. Qed.
