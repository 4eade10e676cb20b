(** C82: creating values, for every size. *)
From Verif Require Import Base ModelIo ModelTag ModelContents ModelBuf ModelTlv ModelHeap ModelBufLE ModelBufUE ModelTlvRaw ModelUnwind ModelRelease
  Spec SpecIo SpecBuf SpecTlv SpecUnwind SpecRelease SpecCreate TagProofs IdProofs TagMain ContentsProofs BufProofs TlvProofs TlvMain RawProofs RawMain RawTlv RelProofs CreateProofs PropsBuf PropsRaw PropsUnwind PropsRelease.

Lemma creates_mono L al h o (P Q : list N -> Prop) n : (forall bs, P bs -> Q bs) -> creates L al h o P n -> creates L al h o Q n.
Proof. intros H [A B]. split; [exact A|]. destruct o; try exact B. destruct B as (bs & HP & V). eauto. Qed.

(** ** The dev profile *)
(** Der::with_id_length and Ber::with_id_length panic exactly if the value would take more than
    isize::MAX octets; otherwise the value has the identifier, the length, and as many octets of
    contents as asked for. *)
Theorem C82_with_id_length : forall L Rp al id n h, layouts L Rp -> good_allocator al -> is_identifier id -> n < 2 ^ 64 ->
  let length_ := Length_to_bytes (Definite n) in
  creates L al h (raw_with_header L al id length_ n h) (fun bs => exists c, nlen c = n /\ bytes_ok c /\ der_tlv id c bs) (nlen id + nlen length_ + n).
Proof.
  intros L Rp al id n h HL G Hi Hn length_. destruct (layouts_facts al L Rp G HL) as (BR & _ & cb).
  eapply creates_mono; [|apply (create_header L al Rp BR cb id length_ n h); [now apply is_identifier_ok | now apply len_bytes_ok]].
  cbv beta. intros bs (c & -> & Lc & Hc). exists c. split; [exact Lc|]. split; [exact Hc|]. unfold length_. rewrite <- Lc. apply der_tlv_make; [exact Hi | now rewrite Lc].
Qed.
Print Assumptions C82_with_id_length.
Theorem C82_with_id_length_indefinite : forall L Rp al id n h, layouts L Rp -> good_allocator al -> is_identifier id ->
  creates L al h (raw_with_header L al id (Length_to_bytes Indefinite) n h) (fun bs => exists c, nlen c = n /\ bytes_ok c /\ bs = id ++ 0x80 :: c) (nlen id + 1 + n).
Proof.
  intros L Rp al id n h HL G Hi. destruct (layouts_facts al L Rp G HL) as (BR & _ & cb).
  eapply creates_mono; [|apply (create_header L al Rp BR cb id (Length_to_bytes Indefinite) n h); [now apply is_identifier_ok | exact indef_bytes_ok]].
  cbv beta. intros bs (c & -> & Lc & Hc). exists c. auto.
Qed.
Print Assumptions C82_with_id_length_indefinite.
(** The same of the constructors that are given the contents. *)
Theorem C82_new : forall L Rp al id c h, layouts L Rp -> good_allocator al -> is_identifier id -> bytes_ok c ->
  let length_ := Length_to_bytes (Definite (nlen c)) in
  creates L al h (raw_new L al id c h) (fun bs => bs = id ++ length_ ++ c) (nlen id + nlen length_ + nlen c) /\
  creates L al h (raw_new_indefinite L al id c h) (fun bs => bs = id ++ 0x80 :: c) (nlen id + 1 + nlen c).
Proof.
  intros L Rp al id c h HL G Hi Hc. destruct (layouts_facts al L Rp G HL) as (BR & _ & cb).
  split; [exact (create_new L al Rp BR cb id c h Hi Hc) | exact (create_new_indefinite L al Rp BR cb id c h Hi Hc)].
Qed.
Print Assumptions C82_new.
Theorem C82_iterator : forall L Rp al id items h, layouts L Rp -> good_allocator al -> is_identifier id -> Forall bytes_ok items ->
  let n := nlen (concat items) in
  let length_ := Length_to_bytes (Definite n) in
  creates L al h (raw_Der_from_id_iterator L al id items items h) (fun bs => bs = id ++ length_ ++ concat items) (nlen id + nlen length_ + n) /\
  creates L al h (raw_Ber_from_id_iterator_indefinite L al id items items h) (fun bs => bs = id ++ 0x80 :: concat items) (nlen id + 1 + n).
Proof.
  intros L Rp al id items h HL G Hi Hs. destruct (layouts_facts al L Rp G HL) as (BR & _ & cb). apply is_identifier_ok in Hi. split.
  - exact (create_iterator L al Rp BR cb id (fun n => Length_to_bytes (Definite n)) items h Hi Hs len_bytes_ok).
  - exact (create_iterator L al Rp BR cb id (fun _ => Length_to_bytes Indefinite) items h Hi Hs (fun _ _ => indef_bytes_ok)).
Qed.
Print Assumptions C82_iterator.
(** Values in the buffer itself and on the heap, and panics below and above the range of usize. *)
Example C82_ex_dev : good_allocator bump /\ is_identifier [4] /\
  match raw_with_header LE bump [4] (Length_to_bytes (Definite 3)) 3 [], raw_with_header UE bump [4] (Length_to_bytes (Definite 200)) 200 [] with
  | Done b h, Done c k => L_slice LE b h = Done [4; 3; 0; 0; 0] h /\ length h = 0%nat /\ length k = 1%nat /\ L_len UE c = 203
  | _, _ => False
  end /\
  raw_with_header LE bump [4] (Length_to_bytes (Definite (2 ^ 63 - 9))) (2 ^ 63 - 9) [] = Crash /\
  raw_with_header UE bump [4] (Length_to_bytes (Definite (2 ^ 64 - 1))) (2 ^ 64 - 1) [] = Crash /\
  match raw_new_indefinite UE bump [0x30] [1; 1; 5; 0; 0] [] with Done b h => L_slice UE b h = Done [0x30; 0x80; 1; 1; 5; 0; 0] h | _ => False end.
Proof.
  split; [exact bump_good|]. split; [exists 0, 0, 4; constructor; reflexivity|]. vm_compute. repeat split; reflexivity.
Qed.

(** ** The release profile *)
(** The same as long as the size does not wrap around; a value made of octets in memory has no
    size that does. *)
Theorem C82_release_with_id_length : forall L ops Rp al id n h, profiles L ops Rp -> good_allocator al -> is_identifier id ->
  let length_ := Length_to_bytes (Definite n) in
  nlen id + nlen length_ + n < 2 ^ 64 ->
  creates L al h (rel_with_header (released L ops) al id length_ n h) (fun bs => exists c, nlen c = n /\ bytes_ok c /\ der_tlv id c bs) (nlen id + nlen length_ + n).
Proof.
  intros L ops Rp al id n h P G Hi length_ Hn. destruct (profiles_facts al L ops Rp G P) as (HL & RO). destruct (layouts_facts al L Rp G HL) as (BR & _ & cb).
  assert (H64 : n < 2 ^ 64) by lia.
  eapply creates_mono; [|apply (rel_create_header L al Rp BR cb ops RO id length_ n h); [now apply is_identifier_ok | now apply len_bytes_ok | exact Hn]].
  cbv beta. intros bs (c & -> & Lc & Hc). exists c. split; [exact Lc|]. split; [exact Hc|]. unfold length_. rewrite <- Lc. apply der_tlv_make; [exact Hi | now rewrite Lc].
Qed.
Print Assumptions C82_release_with_id_length.
Theorem C82_release_with_id_length_indefinite : forall L ops Rp al id n h, profiles L ops Rp -> good_allocator al -> is_identifier id ->
  nlen id + 1 + n < 2 ^ 64 ->
  creates L al h (rel_with_header (released L ops) al id (Length_to_bytes Indefinite) n h) (fun bs => exists c, nlen c = n /\ bytes_ok c /\ bs = id ++ 0x80 :: c) (nlen id + 1 + n).
Proof.
  intros L ops Rp al id n h P G Hi Hn. destruct (profiles_facts al L ops Rp G P) as (HL & RO). destruct (layouts_facts al L Rp G HL) as (BR & _ & cb).
  eapply creates_mono; [|apply (rel_create_header L al Rp BR cb ops RO id (Length_to_bytes Indefinite) n h); [now apply is_identifier_ok | exact indef_bytes_ok | exact Hn]].
  cbv beta. intros bs (c & -> & Lc & Hc). exists c. auto.
Qed.
Print Assumptions C82_release_with_id_length_indefinite.
Theorem C82_release_new : forall L ops Rp al id c h, profiles L ops Rp -> good_allocator al -> is_identifier id -> bytes_ok c ->
  let length_ := Length_to_bytes (Definite (nlen c)) in
  (nlen id + nlen length_ + nlen c < 2 ^ 64 ->
   creates L al h (rel_new (released L ops) al id c h) (fun bs => bs = id ++ length_ ++ c) (nlen id + nlen length_ + nlen c)) /\
  (nlen id + 1 + nlen c < 2 ^ 64 ->
   creates L al h (rel_new_indefinite (released L ops) al id c h) (fun bs => bs = id ++ 0x80 :: c) (nlen id + 1 + nlen c)).
Proof.
  intros L ops Rp al id c h P G Hi Hc. destruct (profiles_facts al L ops Rp G P) as (HL & RO). destruct (layouts_facts al L Rp G HL) as (BR & _ & cb).
  split; [exact (rel_create_new L al Rp BR cb ops RO id c h Hi Hc) | exact (rel_create_new_indefinite L al Rp BR cb ops RO id c h Hi Hc)].
Qed.
Print Assumptions C82_release_new.

(** Where the size wraps around nothing panics.  A header that fits into the buffer itself is
    cut off: the value has the first octets of it and nothing else. *)
Theorem C82_release_short : forall L ops Rp al id length_ n h, profiles L ops Rp -> good_allocator al -> bytes_ok id -> bytes_ok length_ -> n < 2 ^ 64 ->
  nlen id + nlen length_ <= L_init_cap L -> 2 ^ 64 <= nlen id + nlen length_ + n ->
  exists b h', rel_with_header (released L ops) al id length_ n h = Done b h' /\
    L_slice L b h' = Done (take (nlen id + nlen length_ + n - 2 ^ 64) (id ++ length_)) h'.
Proof.
  intros L ops Rp al id length_ n h P G Hi Hl Hn Hh Hw. destruct (profiles_facts al L ops Rp G P) as (HL & RO). destruct (layouts_facts al L Rp G HL) as (BR & _ & _).
  assert (CS : (forall k g, k <= L_init_cap L -> L_with_capacity L al k g = Done (L_new L) g) /\ L_init_cap L <= isize_max).
  { clear - P. destruct P; split; try discriminate; intros k g; [apply le_cap_small | apply ue_cap_small]. }
  destruct CS as [CS CI]. exact (rel_short L al Rp BR ops RO CS id length_ n h Hi Hl Hn Hh CI Hw).
Qed.
Print Assumptions C82_release_short.
(** A longer one is written beyond the buffer.  [footprint]: the octets the buffer has without
    a block of its own. *)
Definition footprint (L : layout) : N := if L_init_cap L =? 23 then 24 else 16.
Theorem C82_release_overrun : forall L ops Rp al id length_ n h, profiles L ops Rp -> good_allocator al -> bytes_ok id -> bytes_ok length_ -> n < 2 ^ 64 ->
  nlen id <= 23 -> nlen length_ <= 9 -> footprint L < nlen id + nlen length_ -> 2 ^ 64 <= nlen id + nlen length_ + n ->
  match rel_with_header (released L ops) al id length_ n h with UB => True | Abort => out_of_memory al | _ => False end.
Proof.
  intros L ops Rp al id length_ n h P G Hi Hl Hn H1 H2 Hf Hw. destruct (profiles_facts al L ops Rp G P) as (HL & RO). destruct (layouts_facts al L Rp G HL) as (BR & _ & _).
  assert (Hm : nlen id + nlen length_ <= isize_max) by (assert (32 <= isize_max) by discriminate; lia).
  destruct P.
  - apply (rel_overrun LE al _ BR le_ops RO 24 le_store_ub id length_ n h Hi Hl Hn); [left; exact H1 | exact Hf | exact Hm | exact Hw].
  - apply (rel_overrun UE al _ BR ue_ops RO 16 ue_store_ub id length_ n h Hi Hl Hn); [|exact Hf | exact Hm | exact Hw].
    change (L_init_cap UE) with 16. lia.
Qed.
Print Assumptions C82_release_overrun.

(** Values of the release profile; a size above isize::MAX that does not wrap around; a header cut
    off to no octet at all. *)
Example C82_ex_release : good_allocator bump /\
  match rel_with_header LE_release bump [4] (Length_to_bytes (Definite 3)) 3 [], rel_new UE_release bump [4] (repeat 7 200) [] with
  | Done b h, Done c k => L_slice LE b h = Done [4; 3; 0; 0; 0] h /\ L_slice UE c k = Done (4 :: 0x81 :: 200 :: repeat 7 200) k
  | _, _ => False
  end /\
  rel_with_header LE_release bump [4] (Length_to_bytes (Definite (2 ^ 63 - 9))) (2 ^ 63 - 9) [] = Crash /\
  rel_with_header UE_release bump [4] (Length_to_bytes (Definite (2 ^ 64 - 11))) (2 ^ 64 - 11) [] = Crash /\
  match rel_with_header UE_release bump [4] (Length_to_bytes (Definite (2 ^ 64 - 10))) (2 ^ 64 - 10) [] with Done b h => L_slice UE b h = Done [] h | _ => False end.
Proof. split; [exact bump_good|]. vm_compute. repeat split; reflexivity. Qed.

(** What the documentation says is false of the release profile: [IdRef::octet_string()] and
    usize::MAX give nine octets that are no value, where the dev profile panics; an identifier of
    20 octets (the greatest number Id::new takes) and usize::MAX give undefined behaviour; and with
    one of 15 octets the last octet of the length becomes the flag of a little-endian buffer, which
    takes the first octets of the identifier for a pointer. *)
Definition id_15 : list N := 0x5f :: repeat 0xff 13 ++ [0x7f].
Definition id_20 : list N := 0x5f :: 0x83 :: repeat 0xff 17 ++ [0x7f].
Theorem C82_release_refuted :
  is_identifier [4] /\ is_identifier id_15 /\ is_identifier id_20 /\
  (forall L Rp al h, layouts L Rp -> good_allocator al -> raw_with_header L al [4] (Length_to_bytes (Definite (2 ^ 64 - 1))) (2 ^ 64 - 1) h = Crash) /\
  (forall L ops Rp al h, profiles L ops Rp -> good_allocator al ->
     (exists b h', rel_with_header (released L ops) al [4] (Length_to_bytes (Definite (2 ^ 64 - 1))) (2 ^ 64 - 1) h = Done b h' /\
        L_slice L b h' = Done (4 :: 0x88 :: repeat 0xff 7) h') /\
     (~ exists c, der_tlv [4] c (4 :: 0x88 :: repeat 0xff 7)) /\
     match rel_with_header (released L ops) al id_20 (Length_to_bytes (Definite (2 ^ 64 - 1))) (2 ^ 64 - 1) h with UB => True | Abort => out_of_memory al | _ => False end) /\
  (exists b, forall al, rel_with_header LE_release al id_15 (Length_to_bytes (Definite (2 ^ 64 - 24))) (2 ^ 64 - 24) [] = Done b [] /\
     le_data b = le_value (take 8 id_15) /\ L_drop LE b [] = UB).
Proof.
  assert (I4 : is_identifier [4]) by (exists 0, 0, 4; constructor; reflexivity).
  split; [exact I4|].
  split; [exists 1, 0, (2 ^ 98 - 1); apply (id_long 1 0 _ (repeat 127 13) 127); (reflexivity || discriminate || (repeat constructor))|].
  split; [exists 1, 0, (2 ^ 128 - 1); apply (id_long 1 0 _ (3 :: repeat 127 17) 127); (reflexivity || discriminate || (repeat constructor))|].
  split; [|split].
  - intros L Rp al h HL G. apply (proj1 (C82_with_id_length L Rp al [4] (2 ^ 64 - 1) h HL G I4 ltac:(reflexivity))). reflexivity.
  - intros L ops Rp al h P G. split; [|split].
    + apply (C82_release_short L ops Rp al [4] (Length_to_bytes (Definite (2 ^ 64 - 1))) (2 ^ 64 - 1) h P G).
      * repeat constructor.
      * repeat constructor.
      * reflexivity.
      * clear - P. destruct P; discriminate.
      * discriminate.
    + intros (c & D). pose proof (der_tlv_octets _ _ _ D) as E. pose proof (f_equal nlen E) as Z. rewrite !nlen_app in Z.
      change (nlen (4 :: 0x88 :: repeat 0xff 7)) with 9 in Z. change (nlen [4]) with 1 in Z.
      assert (Hc : nlen c <= 8) by lia. unfold Length_to_bytes in E. rewrite (proj2 (N.leb_le (nlen c) LEN_MAX_SHORT)) in E by (change LEN_MAX_SHORT with 127; lia).
      cbn [app] in E. injection E as E _. unfold as_u8 in E. rewrite N.mod_small in E by lia. lia.
    + apply (C82_release_overrun L ops Rp al id_20 (Length_to_bytes (Definite (2 ^ 64 - 1))) (2 ^ 64 - 1) h P G).
      * repeat constructor.
      * repeat constructor.
      * reflexivity.
      * discriminate.
      * discriminate.
      * clear - P. destruct P; reflexivity.
      * discriminate.
  - eexists. intros al. split; [vm_compute; reflexivity|]. split; vm_compute; reflexivity.
Qed.
Print Assumptions C82_release_refuted.
