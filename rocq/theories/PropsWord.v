(** Properties of the code on machines with words of another size (C74). *)
From Verif Require Import Base ModelIo ModelTag ModelBuf ModelHeap ModelBufLE ModelBufUE ModelWord Spec SpecBuf SpecWord
  RawProofs RawMain PropsBuf WordProofs.

(** An allocator for a machine with [w] octets to a word. *)
Definition bump_word (w : N) : allocator :=
  {| al_pick := fun h n => if (top h + 1 <? word_limit w) && (top h + 1 <? usize_limit) then Some (top h + 1) else None;
     al_junk := fun _ a i => 7 * a + i + 170 |}.
Lemma bump_word_good w : word_allocator w (bump_word w).
Proof.
  split; intros h n a; cbn [bump_word al_pick];
    destruct (N.ltb_spec (top h + 1) (word_limit w)); try discriminate;
    destruct (N.ltb_spec (top h + 1) usize_limit); try discriminate; cbn [andb]; intros [= <-]; [|assumption].
  split; [apply get_above; lia | lia].
Qed.

(** ** C74: nothing depends on usize having 64 bits *)
(** The little-endian layout keeps [3 w - 1] octets inline; otherwise it does the same. *)
Theorem C74_le_history : forall w al os e h0, 1 <= w -> w <= 8 -> word_allocator w al ->
  erun (3 * w - 1) os eempty = Some e -> asks_within (2 ^ (8 * w - 1) - 1) (3 * w - 1) os eempty ->
  match w_rrun w (WLE w) al os vempty h0 with
  | Done v h =>
      (forall i, shows (WLE w) h (v i) (e i)) /\
      (forall a c, h_get a h0 = Some c -> h_get a h = Some c) /\
      ((forall i, e i = EEmpty) -> forall a, h_get a h = h_get a h0)
  | Abort => refuses_within (2 ^ (8 * w - 1) - 1) al
  | Crash | UB => False
  end.
Proof. intros w al os e h0 H1 H8 G. exact (w_history w H1 H8 al G (WLE w) (wle_view w) (WLE_follows w H1 H8) os e h0). Qed.
Print Assumptions C74_le_history.
(** The portable layout keeps [2 w] octets inline. *)
Theorem C74_ue_history : forall w al os e h0, 1 <= w -> w <= 8 -> word_allocator w al ->
  erun (2 * w) os eempty = Some e -> asks_within (2 ^ (8 * w - 1) - 1) (2 * w) os eempty ->
  match w_rrun w (WUE w) al os vempty h0 with
  | Done v h =>
      (forall i, shows (WUE w) h (v i) (e i)) /\
      (forall a c, h_get a h0 = Some c -> h_get a h = Some c) /\
      ((forall i, e i = EEmpty) -> forall a, h_get a h = h_get a h0)
  | Abort => refuses_within (2 ^ (8 * w - 1) - 1) al
  | Crash | UB => False
  end.
Proof. intros w al os e h0 H1 H8 G. exact (w_history w H1 H8 al G (WUE w) (wue_view w) (WUE_follows w H1 H8) os e h0). Qed.
Print Assumptions C74_ue_history.
(** A history on a machine of 32 bits, and one of 16. *)
Example C74_le_ex : word_allocator 4 (bump_word 4) /\ asks_within (2 ^ (8 * 4 - 1) - 1) (3 * 4 - 1) [OWithCapacity 0 12; OWrite 0 [1; 2]; OClone 0 1] eempty /\
  match erun (3 * 4 - 1) [OWithCapacity 0 12; OWrite 0 [1; 2]; OClone 0 1; OReserve 1 9; OReserve 1 10] eempty with
  | Some e => e 1%nat = EBuf (map Some [1; 2] ++ unknown 10) 2
  | None => False
  end /\
  match w_rrun 4 (WLE 4) (bump_word 4) [OWithCapacity 0 12; OWrite 0 [1; 2]; OClone 0 1; OReserve 1 9] vempty [] with
  | Done v h => match v 0%nat, v 1%nat with
                | VBuf r, VBuf q => r = [1; 0; 0; 0; 12; 0; 0; 0; 2; 0; 0; 128] /\ L_slice (WLE 4) q h = Done [1; 2] h /\ L_capacity (WLE 4) q = 11
                | _, _ => False
                end /\ length h = 1%nat
  | _ => False
  end.
Proof. split; [apply bump_word_good|]. vm_compute. repeat split; try reflexivity; discriminate. Qed.
Example C74_ue_ex : word_allocator 2 (bump_word 2) /\
  match w_rrun 2 (WUE 2) (bump_word 2) [ONew 0; OWrite 0 [1; 2; 3; 4]; OClone 0 1; OWrite 0 [5]] vempty [] with
  | Done v h => match v 0%nat, v 1%nat with
                | VBuf r, VBuf q => r = {| u_len_ := 32768 + 5; u_union := [0; 1; 0; 5] |} /\ L_slice (WUE 2) r h = Done [1; 2; 3; 4; 5] h /\
                                    q = {| u_len_ := 4; u_union := [1; 2; 3; 4] |}
                | _, _ => False
                end /\ length h = 1%nat
  | _ => False
  end.
Proof. split; [apply bump_word_good|]. vm_compute. repeat split; reflexivity. Qed.
(** With eight octets these are the layouts of C19 and C20. *)
Theorem C74_eight : WLE 8 = LE /\ WUE 8 = UE /\
  (forall (S : Type) (R : reader S), w_parse_length 8 R = parse_length R) /\
  (forall bs, w_parse_length_unchecked 8 bs = parse_length_unchecked bs).
Proof. repeat split; reflexivity. Qed.
Print Assumptions C74_eight.

(** A length is written and measured as on any other machine, in a buffer of [w + 1] octets. *)
Theorem C74_length : forall w n, 1 <= w -> w <= 8 -> n < 2 ^ (8 * w) ->
  w_Length_to_bytes w (Definite n) = Ok (Length_to_bytes (Definite n)) /\
  w_Length_len w (Definite n) = Length_len (Definite n) /\
  w_Length_to_bytes w Indefinite = Ok (Length_to_bytes Indefinite) /\
  Length_len (Definite n) <= w_LB_CAPACITY w.
Proof.
  intros w n H1 H8 H. split; [now apply w_to_bytes_eq|]. split; [now apply w_Length_len_eq|]. split; [reflexivity|].
  rewrite w_capacity_eq by assumption. cbn [Length_len]. assert (byte_len n <= w) by (now apply byte_len_le). destruct (n <=? LEN_MAX_SHORT); lia.
Qed.
Print Assumptions C74_length.
Example C74_length_ex : w_Length_to_bytes 4 (Definite 4294967295) = Ok [132; 255; 255; 255; 255] /\ w_Length_to_bytes 2 (Definite 300) = Ok [130; 1; 44].
Proof. vm_compute. auto. Qed.
(** A length is read as on a machine of 64 bits, or refused for being too large for this one. *)
Theorem C74_parse_length : forall w S (R : reader S) st, 1 <= w -> w <= 8 -> octets_from R (fst st) ->
  match fst (parse_length R st) with
  | Ok (Definite n) =>
      if n <? 2 ^ (8 * w) then w_parse_length w R st = parse_length R st else fst (w_parse_length w R st) = Err OverFlow
  | Ok Indefinite => w_parse_length w R st = parse_length R st
  | _ => w_parse_length w R st = parse_length R st \/ fst (w_parse_length w R st) = Err OverFlow
  end.
Proof. intros w S R st H1 H8. exact (w_parse_length_rel w H1 H8 R st). Qed.
Print Assumptions C74_parse_length.
Example C74_parse_length_ex :
  w_parse_length 4 slice_reader ([132; 1; 2; 3; 4; 9], []) = (Ok (Definite 16909060), ([9], [132; 1; 2; 3; 4])) /\
  fst (w_parse_length 4 slice_reader ([133; 1; 2; 3; 4; 5], [])) = Err OverFlow /\
  fst (parse_length slice_reader ([133; 1; 2; 3; 4; 5], [])) = Ok (Definite 4328719365).
Proof. vm_compute. auto. Qed.
(** Octets once accepted on this machine are read again with the same result. *)
Theorem C74_unchecked : forall w bs n rest, 1 <= w -> w <= 8 -> bytes_ok bs ->
  match w_parse_length w slice_reader (bs, []) with (Ok l, (readable, _)) => l = n /\ readable = rest | _ => False end ->
  w_parse_length_unchecked w bs = Ok (n, rest).
Proof. intros w bs n rest H1 H8. exact (w_unchecked_accepted w H1 H8 bs n rest). Qed.
Print Assumptions C74_unchecked.
Example C74_unchecked_ex : w_parse_length_unchecked 4 [132; 1; 2; 3; 4; 9] = Ok (Definite 16909060, [9]) /\ w_parse_length_unchecked 2 [130; 1; 44] = Ok (Definite 300, []).
Proof. vm_compute. auto. Qed.

(** ** C48 on other machines: a request above isize::MAX breaks the allocator's contract there too,
    where a message may well declare one *)
Theorem C48_words_refuted : exists al, word_allocator 4 al /\
  w_rrun 4 (WLE 4) al [OVec 0 [1] 0; OFromVec 0; OReserve 0 (2 ^ 31 - 1)] vempty [] = UB /\
  w_rrun 4 (WUE 4) al [OVec 0 [1] 0; OFromVec 0; OReserve 0 (2 ^ 31 - 1)] vempty [] = UB.
Proof. exists (bump_word 4). split; [apply bump_word_good | vm_compute; auto]. Qed.
Print Assumptions C48_words_refuted.
