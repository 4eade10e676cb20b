(** C73: the release profile. *)
From Verif Require Import Base ModelIo ModelTag ModelContents ModelBuf ModelTlv ModelHeap ModelBufLE ModelBufUE ModelTlvRaw ModelUnwind ModelRelease
  Spec SpecIo SpecBuf SpecTlv SpecUnwind SpecRelease BufProofs RawProofs RawMain RawTlv RawStream UnwindProofs RelProofs PropsBuf PropsRaw PropsUnwind.

(** Both layouts, with what the release profile changes in them. *)
Inductive profiles : forall L, rel_ops (L_raw L) -> (L_raw L -> heap -> buf -> option N -> Prop) -> Prop :=
| prof_le : profiles LE le_ops (Rep LE le_view)
| prof_ue : profiles UE ue_ops (Rep UE ue_view).
Lemma profiles_facts al L ops Rp : good_allocator al -> profiles L ops Rp -> layouts L Rp /\ release_of L al ops.
Proof. intros G []; split; (apply le_release || apply ue_release || constructor). Qed.

(** ** The buffer *)
(** C19 and C20 hold of the release profile. *)
Theorem C73_buffer : forall L ops Rp al os e h0, profiles L ops Rp -> good_allocator al -> erun (L_init_cap L) os eempty = Some e ->
  match rel_rrun (released L ops) al os vempty h0 with
  | Done v h =>
      (forall i, shows L h (v i) (e i)) /\
      (forall a c, h_get a h0 = Some c -> h_get a h = Some c) /\
      ((forall i, e i = EEmpty) -> forall a, h_get a h = h_get a h0)
  | Abort => out_of_memory al
  | Crash | UB => False
  end.
Proof.
  intros L ops Rp al os e h0 P G E. destruct (profiles_facts al L ops Rp G P) as (HL & RO). destruct (layouts_facts al L Rp G HL) as (BR & _).
  exact (meets_covers al _ _ h0 _ (covers_rrun (released L ops) al os vempty)
    (history (released L ops) al G Rp (released_refines L al Rp BR ops RO) os e h0 E)).
Qed.
Print Assumptions C73_buffer.
Example C73_ex_buffer : good_allocator bump /\
  match rel_rrun LE_release bump sample_history vempty [], rel_rrun UE_release bump sample_history vempty [] with
  | Done v h, Done w k =>
      match v 0%nat, w 0%nat with VBuf r, VBuf q => L_slice LE r h = Done [1; 2; 8] h /\ L_slice UE q k = Done [1; 2; 8] k | _, _ => False end /\
      length h = 4%nat /\ length k = 5%nat
  | _, _ => False
  end.
Proof. split; [exact bump_good|]. vm_compute. repeat split; reflexivity. Qed.

(** ** Programs using Der, Ber and vectors *)
(** C51 holds of the release profile. *)
Theorem C73_program : forall L ops Rp al os h0, profiles L ops Rp -> good_allocator al -> all_legal os tempty ->
  match rel_vraws (released L ops) al os vempty h0 with
  | Done v h =>
      (forall i, tshows L h (v i) (vsteps os tempty i)) /\
      (forall a c, h_get a h0 = Some c -> h_get a h = Some c) /\
      ((forall i, vsteps os tempty i = TEmpty) -> forall a, h_get a h = h_get a h0)
  | Abort => out_of_memory al
  | Crash | UB => False
  end.
Proof.
  intros L ops Rp al os h0 P G E. destruct (profiles_facts al L ops Rp G P) as (HL & RO). destruct (layouts_facts al L Rp G HL) as (BR & _).
  exact (meets_covers al _ _ h0 _ (covers_vraws (released L ops) al os vempty)
    (tlv_program (released L ops) al G Rp (released_refines L al Rp BR ops RO) os h0 E)).
Qed.
Print Assumptions C73_program.
Example C73_ex_program : good_allocator bump /\
  match rel_vraws LE_release bump sample_program vempty [], rel_vraws UE_release bump sample_program vempty [] with
  | Done v h, Done w k =>
      match v 3%nat, w 3%nat with
      | VBuf r, VBuf q => L_slice LE r h = Done [0x1f; 0x81; 0x23; 3; 10; 11; 12] h /\ L_slice UE q k = Done [0x1f; 0x81; 0x23; 3; 10; 11; 12] k
      | _, _ => False
      end
  | _, _ => False
  end.
Proof. split; [exact bump_good|]. vm_compute. repeat split; reflexivity. Qed.
(** Extending a value, also where the contents do not fit into memory.  Sums do not wrap around
    below 2^64, and nothing longer can be in memory at once. *)
Theorem C73_der_extend : forall L ops Rp al bytes b h bf own id c, profiles L ops Rp -> good_allocator al ->
  Rp b h bf own -> is_identifier id -> bytes_ok bytes -> bytes_ok c ->
  holds bf (id ++ Length_to_bytes (Definite (nlen c)) ++ c) ->
  let new := id ++ Length_to_bytes (Definite (nlen (c ++ bytes))) ++ c ++ bytes in
  nlen new < 2 ^ 64 ->
  match rel_Der_extend (released L ops) al bytes b h with
  | Done b' h' => exists bf' own', Rp b' h' bf' own' /\ frame own own' h h' /\ bf_slice bf' = new
  | Abort => out_of_memory al
  | Crash | UB => isize_max < nlen new
  end.
Proof.
  intros L ops Rp al bytes b h bf own id c P G. destruct (profiles_facts al L ops Rp G P) as (HL & RO). destruct (layouts_facts al L Rp G HL) as (BR & big & _).
  exact (rel_der_extend L al Rp BR big ops RO bytes b h bf own id c).
Qed.
Print Assumptions C73_der_extend.
Theorem C73_ber_extend : forall L ops Rp al bytes b h bf own id c, profiles L ops Rp -> good_allocator al ->
  Rp b h bf own -> is_identifier id -> bytes_ok bytes -> bytes_ok c ->
  (holds bf (id ++ Length_to_bytes (Definite (nlen c)) ++ c) ->
   let new := id ++ Length_to_bytes (Definite (nlen (c ++ bytes))) ++ c ++ bytes in
   nlen new < 2 ^ 64 ->
   match rel_Ber_extend (released L ops) al bytes b h with
   | Done b' h' => exists bf' own', Rp b' h' bf' own' /\ frame own own' h h' /\ bf_slice bf' = new
   | Abort => out_of_memory al
   | Crash | UB => isize_max < nlen new
   end) /\
  (holds bf (id ++ 0x80 :: c) ->
   let new := id ++ 0x80 :: c ++ bytes in
   nlen new < 2 ^ 64 ->
   match rel_Ber_extend (released L ops) al bytes b h with
   | Done b' h' => exists bf' own', Rp b' h' bf' own' /\ frame own own' h h' /\ bf_slice bf' = new
   | Abort => out_of_memory al
   | Crash | UB => isize_max < nlen new
   end).
Proof.
  intros L ops Rp al bytes b h bf own id c P G. destruct (profiles_facts al L ops Rp G P) as (HL & RO). destruct (layouts_facts al L Rp G HL) as (BR & big & _).
  exact (rel_ber_extend L al Rp BR big ops RO bytes b h bf own id c).
Qed.
Print Assumptions C73_ber_extend.
(** A value on the heap, extended in the release profile. *)
Example C73_ex_extend :
  exists al b h bf own, good_allocator al /\ Rep LE le_view b h bf own /\
    holds bf ([4] ++ Length_to_bytes (Definite (nlen (repeat 7 30))) ++ repeat 7 30) /\ own <> None /\
    (match rel_Der_extend LE_release al [1; 2; 3] b h with
     | Done b' h' => L_slice LE b' h' = Done (4 :: 33 :: repeat 7 30 ++ [1; 2; 3]) h' | _ => False end).
Proof.
  pose proof (create_result LE bump (Rep LE le_view) _ _ [] (4 :: 30 :: repeat 7 30)
    (sim_from_slice LE bump (Rep LE le_view) (C19_refines bump bump_good) (4 :: 30 :: repeat 7 30) ltac:(repeat constructor))) as K.
  assert (X : forall cfg, exists b, bf_from_slice cfg (4 :: 30 :: repeat 7 30) = Ok b /\ holds b (4 :: 30 :: repeat 7 30)).
  { intros cfg. unfold bf_from_slice, bf_with_capacity.
    destruct (reserve_ok cfg (nlen (4 :: 30 :: repeat 7 30)) (bf_new cfg) [] (holds_new _)) as (b1 & s1 & -> & M1 & L1 & K1 & O1); [discriminate|].
    cbn [rbind]. destruct (extend_ok b1 [] s1 (4 :: 30 :: repeat 7 30) M1 L1 K1 O1) as (b2 & s2 & -> & M2 & L2 & _ & O2).
    exists b2. split; [reflexivity|]. exists s2. auto. }
  specialize (K X). clear X. remember (L_from_slice LE bump (4 :: 30 :: repeat 7 30) []) as x eqn:E. vm_compute in E. subst x. cbn [meets] in K.
  destruct K as (bf & own & R & F & H). eexists bump, _, _, bf, own. split; [exact bump_good|]. split; [exact R|]. split; [exact H|].
  split; [|vm_compute; reflexivity].
  intros ->. destruct F as (F1 & _). specialize (F1 1 ltac:(discriminate) ltac:(discriminate)). vm_compute in F1. discriminate.
Qed.

(** ** parse *)
(** Der::parse and Ber::parse end as in the dev profile, whatever the reader does: the same
    result, the same state of the reader, the same memory.  So what C31, C52 and C72 say of them
    holds of the release profile. *)
Theorem C73_der_parse : forall L ops Rp al S (R : user_reader S) fuel s h0, profiles L ops Rp -> good_allocator al -> writes_octets R ->
  agree (u_Der_parse L al R fuel s h0) (rel_Der_parse (released L ops) al R fuel s h0).
Proof.
  intros L ops Rp al S R fuel s h0 P G W. destruct (profiles_facts al L ops Rp G P) as (HL & RO). destruct (layouts_facts al L Rp G HL) as (BR & big & _).
  exact (der_parse_agrees L al Rp BR big ops RO R W fuel s h0).
Qed.
Print Assumptions C73_der_parse.
Theorem C73_ber_parse : forall L ops Rp al S (R : user_reader S) fuel s h0, profiles L ops Rp -> good_allocator al -> writes_octets R ->
  agree (u_Ber_parse L al R fuel s h0) (rel_Ber_parse (released L ops) al R fuel s h0).
Proof.
  intros L ops Rp al S R fuel s h0 P G W. destruct (profiles_facts al L ops Rp G P) as (HL & RO). destruct (layouts_facts al L Rp G HL) as (BR & big & _).
  exact (ber_parse_agrees L al Rp BR big ops RO R W fuel s h0).
Qed.
Print Assumptions C73_ber_parse.
(** The length of the contents is 2^64 - 1: in the release profile the buffer gets the length 9,
    and the index panics. *)
Example C73_ex_parse :
  let stream := 4 :: 0x88 :: repeat 255 8 ++ repeat 7 20 in
  (exists al, good_allocator al /\
   (match rel_Der_body LE_release al bomb 5 stream (L_new LE) [] with Run Panic _ b _ => L_len LE b = 9 | _ => False end) /\
   (match u_Der_body LE al bomb 5 stream (L_new LE) [] with Run Panic _ b _ => L_len LE b = 10 | _ => False end) /\
   rel_Der_parse LE_release al bomb 5 stream [] = Ends Panic (repeat 7 20) [] /\
   rel_Der_parse UE_release al bomb 5 stream [] = Ends Panic (repeat 7 20) [] /\
   rel_Ber_parse LE_release al bomb 5 (0x24 :: 0x80 :: 4 :: 20 :: repeat 7 20 ++ stream) [] = Ends Panic (repeat 7 20) [] /\
   (match rel_Ber_parse UE_release al liar 5 (4 :: 30 :: stream) [] with Ends (Ok _) _ [_] => True | _ => False end)).
Proof. exists bump. split; [exact bump_good|]. vm_compute. repeat split; reflexivity. Qed.

(** ** from_id_iterator *)
(** Where the octets of the items are less than 2^64 in total. *)
Theorem C73_iterator : forall L ops Rp al id lb items h, profiles L ops Rp -> good_allocator al ->
  bytes_ok id -> Forall bytes_ok items -> (forall n, n < usize_limit -> bytes_ok (lb n)) ->
  let n := nlen (concat items) in
  nlen id + nlen (lb n) + n < 2 ^ 64 ->
  match rel_from_iterator (released L ops) al id lb items items h with
  | Done b h' => new_value L h b (id ++ lb n ++ concat items) h'
  | Abort => out_of_memory al
  | Crash => isize_max < nlen id + nlen (lb n) + n
  | UB => False
  end.
Proof.
  intros L ops Rp al id lb items h P G. destruct (profiles_facts al L ops Rp G P) as (HL & RO). destruct (layouts_facts al L Rp G HL) as (BR & big & cb).
  exact (rel_iterator L al Rp BR cb ops RO id lb items h).
Qed.
Print Assumptions C73_iterator.
Example C73_ex_iterator :
  exists al, good_allocator al /\
   match rel_from_iterator LE_release al [4] (fun n => Length_to_bytes (Definite n)) [repeat 1 20; repeat 2 20] [repeat 1 20; repeat 2 20] [] with
   | Done b h => L_slice LE b h = Done (4 :: 40 :: repeat 1 20 ++ repeat 2 20) h
   | _ => False
   end.
Proof. exists bump. split; [exact bump_good|]. vm_compute. reflexivity. Qed.
(** In general it is not memory safe: an iterator yielding the same 32 octets over and over, 2^64
    octets in total.  The dev profile panics; the release profile writes beyond the buffer. *)
Theorem C73_iterator_refuted : exists items,
  (exists x k, nlen x = 32 /\ bytes_ok x /\ items = repeat x k) /\
  forall al h, good_allocator al ->
    raw_Der_from_id_iterator LE al [4] items items h = Crash /\ rel_Der_from_id_iterator LE_release al [4] items items h = UB /\
    raw_Der_from_id_iterator UE al [4] items items h = Crash /\ rel_Der_from_id_iterator UE_release al [4] items items h = UB.
Proof.
  assert (X : exists k, N.of_nat k * nlen (repeat 7 32) = usize_limit) by (exists (N.to_nat (2 ^ 59)); rewrite N2Nat.id; reflexivity).
  destruct X as (k & Hk). exists (repeat (repeat 7 32) k). split.
  - exists (repeat 7 32), k. repeat split. repeat constructor.
  - intros al h G. assert (U : usize_limit <= 0 + nlen (concat (repeat (repeat 7 32) k))) by (rewrite concat_repeat_len, Hk; reflexivity).
    split; [now apply dev_total_crashes|]. split; [now apply overrun_le|]. split; [now apply dev_total_crashes | now apply overrun_ue].
Qed.
Print Assumptions C73_iterator_refuted.
