(** C85: values that were read from streams are used like any others. *)
From Verif Require Import Base ModelIo ModelTag ModelContents ModelBuf ModelTlv ModelHeap ModelBufLE ModelBufUE ModelTlvRaw ModelUnwind ModelRelease ModelUse
  Spec SpecIo SpecBuf SpecTlv SpecUnwind SpecRelease SpecInit SpecUse TagProofs IdProofs TagMain ContentsProofs BufProofs TlvProofs TlvMain StreamProofs StreamMain RawProofs RawMain RawTlv RawStream RelProofs UseProofs UseRelease
  PropsBuf PropsRaw PropsUnwind PropsRelease PropsInit.

(** As C51, of programs that also read values and set classes and kinds of identifiers in place. *)
Theorem C85_program : forall L Rp al os h0, layouts L Rp -> good_allocator al -> all_wlegal os tempty ->
  match wraws L al os vempty h0 with
  | Done v h =>
      (forall i, tshows L h (v i) (wsteps os tempty i)) /\
      (forall a c, h_get a h0 = Some c -> h_get a h = Some c) /\
      ((forall i, wsteps os tempty i = TEmpty) -> forall a, h_get a h = h_get a h0)
  | Abort => out_of_memory al
  | Crash | UB => False
  end.
Proof.
  intros L Rp al os h0 HL G E. destruct (layouts_facts al L Rp G HL) as (BR & _). exact (use_program L al G Rp BR os h0 E).
Qed.
Print Assumptions C85_program.
(** Whatever an honest reader has, if a value is read from it then it is one that programs have, so
    the step is legal with it. *)
Theorem C85_read : forall y S (R : reader S) content fuel s bs, honest R content -> bytes_ok (content s) -> stream_value y R fuel s = Ok bs ->
  exists t, has_ty y t /\ encodes t bs.
Proof. intros y S R content fuel s bs. apply read_value. Qed.
Print Assumptions C85_read.
(** As C84. *)
Theorem C85_same : forall L Rp L' Rp' al al' os h h', layouts L Rp -> layouts L' Rp' -> good_allocator al -> good_allocator al' -> all_wlegal os tempty ->
  same_variables L L' (wraws L al os vempty h) (wraws L' al' os vempty h').
Proof.
  intros L Rp L' Rp' al al' os h h' HL HL' G G' E.
  pose proof (C85_program L Rp al os h HL G E) as A. pose proof (C85_program L' Rp' al' os h' HL' G' E) as B.
  unfold same_variables. destruct (wraws L al os vempty h) as [v k| | |], (wraws L' al' os vempty h') as [v' k'| | |]; try exact I.
  intros i. eapply shows_same; [apply A | apply B].
Qed.
Print Assumptions C85_same.
(** The release profile: the same, and what is shown is what the dev profile shows. *)
Theorem C85_release : forall L ops Rp al os h0, profiles L ops Rp -> good_allocator al -> all_wlegal os tempty -> octet_readers os ->
  match rel_wraws (released L ops) al os vempty h0 with
  | Done v h =>
      (forall i, tshows L h (v i) (wsteps os tempty i)) /\
      (forall a c, h_get a h0 = Some c -> h_get a h = Some c) /\
      ((forall i, wsteps os tempty i = TEmpty) -> forall a, h_get a h = h_get a h0)
  | Abort => out_of_memory al
  | Crash | UB => False
  end.
Proof.
  intros L ops Rp al os h0 P G E O. destruct (profiles_facts al L ops Rp G P) as (HL & RO). destruct (layouts_facts al L Rp G HL) as (BR & big & _).
  exact (rel_use_program L al G Rp BR big ops RO os h0 E O).
Qed.
Print Assumptions C85_release.
Theorem C85_profiles : forall L ops Rp L' Rp' al al' os h h', profiles L ops Rp -> layouts L' Rp' -> good_allocator al -> good_allocator al' -> all_wlegal os tempty -> octet_readers os ->
  same_variables L L' (rel_wraws (released L ops) al os vempty h) (wraws L' al' os vempty h').
Proof.
  intros L ops Rp L' Rp' al al' os h h' HL HL' G G' E O.
  pose proof (C85_release L ops Rp al os h HL G E O) as A. pose proof (C85_program L' Rp' al' os h' HL' G' E) as B.
  unfold same_variables. destruct (rel_wraws (released L ops) al os vempty h) as [v k| | |], (wraws L' al' os vempty h') as [v' k'| | |]; try exact I.
  intros i. eapply shows_same; [apply A | apply B].
Qed.
Print Assumptions C85_profiles.
(** A value arriving in pieces is read, grows over the inline storage, changes class and kind, is cloned
    and cut; another one of indefinite length is read and extended; a third cannot be read. *)
Definition sample_use : list wop :=
  [WParse TyDer 0 _ sched_reader 20 [Chunk [4]; Chunk [3]; Chunk [1; 2; 3; 9]] (TDer [4] [1; 2; 3]);
   WStep (VExtend TyDer 0 (repeat 7 20)); WSetId 0 (SetClass Private) [0xc4]; WSetId 0 (SetPc Constructed) [0xe4];
   WStep (VClone 0 1); WStep (VTruncate TyDer 0 2);
   WParse TyBer 2 _ sched_reader 20 [Chunk [0x30; 0x80; 4]; Chunk [1; 5; 0]; Chunk [0]] (TBer true [0x30] [4; 1; 5; 0; 0]);
   WStep (VExtend TyBer 2 [8]); WSetId 2 (SetPc Primitive) [0x10];
   WParse TyDer 3 _ sched_reader 20 [Chunk [4; 3; 1]] TEmpty;
   WStep (VDrop 1)].
Example C85_ex : all_wlegal sample_use tempty /\ good_allocator bump /\
  wsteps sample_use tempty 0%nat = TDer [0xe4] [1; 2] /\ wsteps sample_use tempty 2%nat = TBer true [0x10] [4; 1; 5; 0; 0; 8] /\
  match wraws LE bump sample_use vempty [], wraws UE bump_zero sample_use vempty [] with
  | Done v h, Done w k =>
      seen LE h (v 0%nat) = Some [0xe4; 2; 1; 2] /\ seen UE k (w 0%nat) = Some [0xe4; 2; 1; 2] /\
      seen LE h (v 2%nat) = Some [0x10; 0x80; 4; 1; 5; 0; 0; 8] /\ seen LE h (v 3%nat) = None /\ seen LE h (v 1%nat) = None
  | _, _ => False
  end.
Proof.
  split; [|split; [exact bump_good|]; vm_compute; repeat split; reflexivity].
  assert (HC : forall s, octets (delivered s) = true -> nlen (delivered s) <= isize_max ->
    exists content, honest sched_reader content /\ bytes_ok (content s) /\ nlen (content s) <= isize_max).
  { intros s H1 H2. exists delivered. split; [exact sched_honest|]. split; [now apply octets_ok | exact H2]. }
  assert (I4 : forall c p n, c < 4 -> p < 2 -> n < 31 -> identifier c p n [c * 64 + p * 32 + n]) by (intros; now constructor).
  unfold sample_use. cbn [all_wlegal].
  split; [|split; [|split; [|split; [|split; [|split; [|split; [|split; [|split; [|split; [|split; [|exact I]]]]]]]]]]]; cbn [wlegal legal].
  - split; [reflexivity|]. split; [apply HC; [reflexivity | discriminate]|].
    change (stream_value TyDer sched_reader 20 [Chunk [4]; Chunk [3]; Chunk [1; 2; 3; 9]]) with (Ok [4; 3; 1; 2; 3]). split; [exact I|].
    split; [apply (dt_intro [4] [1; 2; 3] [3] sample_id4); [constructor; reflexivity | reflexivity] | now apply octets_ok].
  - split; [exact I|]. apply sample_possible. split; [exact sample_id4 | reflexivity].
  - exists 0, 0, 4. split; [exact (I4 0 0 4 eq_refl eq_refl eq_refl) | exact (I4 3 0 4 eq_refl eq_refl eq_refl)].
  - exists 3, 0, 4. split; [exact (I4 3 0 4 eq_refl eq_refl eq_refl) | exact (I4 3 1 4 eq_refl eq_refl eq_refl)].
  - split; [exact I | reflexivity].
  - split; [exact I | reflexivity].
  - split; [reflexivity|]. split; [apply HC; [reflexivity | discriminate]|].
    change (stream_value TyBer sched_reader 20 [Chunk [0x30; 0x80; 4]; Chunk [1; 5; 0]; Chunk [0]]) with (Ok [0x30; 0x80; 4; 1; 5; 0; 0]). split; [exact I|].
    split; [reflexivity|]. split; [exact sample_id48 | now apply octets_ok].
  - split; [exact I|]. apply sample_possible. split; [exact sample_id48 | reflexivity].
  - exists 0, 1, 16. split; [exact (I4 0 1 16 eq_refl eq_refl eq_refl) | exact (I4 0 0 16 eq_refl eq_refl eq_refl)].
  - split; [reflexivity|]. split; [apply HC; [reflexivity | discriminate]|]. reflexivity.
  - exact I.
Qed.

(** A reader over chunks of numbers, of which it writes the lowest eight bits. *)
Definition octet_sched : reader (list event) := {| rd_read := fun s n =>
  match rd_read sched_reader s n with (IoOk bs, s') => (IoOk (map (fun x => x mod 256) bs), s') | (IoErr k, s') => (IoErr k, s') end |}.
Lemma octet_sched_ok : octet_reader octet_sched /\ honest octet_sched (fun s => map (fun x => x mod 256) (delivered s)).
Proof.
  split; intros s n; cbn [octet_sched rd_read]; pose proof (sched_honest s n) as H; destruct (rd_read sched_reader s n) as [[bs|k] s']; cbn [fst]; try exact I.
  - apply Forall_forall. intros x X. apply in_map_iff in X as (y & <- & _). now apply N.mod_lt.
  - destruct H as [H1 H2]. rewrite H1, map_app. split; [reflexivity | now rewrite nlen_map].
  - now rewrite H.
Qed.
Definition sample_release : list wop :=
  [WParse TyDer 0 _ octet_sched 20 [Chunk [4]; Chunk [3]; Chunk [1; 2; 3; 9]] (TDer [4] [1; 2; 3]);
   WStep (VExtend TyDer 0 (repeat 7 20)); WSetId 0 (SetClass Private) [0xc4];
   WParse TyDer 3 _ octet_sched 20 [Chunk [4; 3; 1]] TEmpty; WStep (VTruncate TyDer 0 2)].
Example C85_release_ex : all_wlegal sample_release tempty /\ octet_readers sample_release /\
  match rel_wraws LE_release bump sample_release vempty [], rel_wraws UE_release bump_zero sample_release vempty [] with
  | Done v h, Done w k => seen LE h (v 0%nat) = Some [0xc4; 2; 1; 2] /\ seen UE k (w 0%nat) = Some [0xc4; 2; 1; 2] /\ seen LE h (v 3%nat) = None
  | _, _ => False
  end.
Proof.
  assert (HC : forall s, octets (map (fun x => x mod 256) (delivered s)) = true -> nlen (map (fun x => x mod 256) (delivered s)) <= isize_max ->
    exists content, honest octet_sched content /\ bytes_ok (content s) /\ nlen (content s) <= isize_max).
  { intros s H1 H2. exists (fun s => map (fun x => x mod 256) (delivered s)). split; [apply octet_sched_ok|]. split; [now apply octets_ok | exact H2]. }
  assert (I4 : forall c p n, c < 4 -> p < 2 -> n < 31 -> identifier c p n [c * 64 + p * 32 + n]) by (intros; now constructor).
  split; [|split].
  - unfold sample_release. cbn [all_wlegal]. split; [|split; [|split; [|split; [|split; [|exact I]]]]]; cbn [wlegal legal].
    + split; [reflexivity|]. split; [apply HC; [reflexivity | discriminate]|].
      change (stream_value TyDer octet_sched 20 [Chunk [4]; Chunk [3]; Chunk [1; 2; 3; 9]]) with (Ok [4; 3; 1; 2; 3]). split; [exact I|].
      split; [apply (dt_intro [4] [1; 2; 3] [3] sample_id4); [constructor; reflexivity | reflexivity] | now apply octets_ok].
    + split; [exact I|]. apply sample_possible. split; [exact sample_id4 | reflexivity].
    + exists 0, 0, 4. split; [exact (I4 0 0 4 eq_refl eq_refl eq_refl) | exact (I4 3 0 4 eq_refl eq_refl eq_refl)].
    + split; [reflexivity|]. split; [apply HC; [reflexivity | discriminate]|]. reflexivity.
    + split; [exact I | reflexivity].
  - cbn [octet_readers sample_release]. repeat split; apply octet_sched_ok.
  - vm_compute. repeat split; reflexivity.
Qed.
