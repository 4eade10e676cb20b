(** Der and Ber on machines with words of another size (C74, continued). *)
From Verif Require Import Base ModelIo ModelTag ModelContents ModelBuf ModelTlv ModelHeap ModelWord ModelWordTlv Spec SpecBuf SpecTlv SpecWord
  TagProofs IdProofs TagMain ContentsProofs TlvProofs BufProofs TlvMain WordProofs WordTlvProofs.

(** With eight octets these are the functions of C12 to C18. *)
Theorem C74_tlv_eight :
  (forall bs, w_DerRef_parse 8 bs = DerRef_parse bs) /\ (forall bs, w_BerRef_parse 8 bs = BerRef_parse bs) /\
  (forall bs, w_disassemble 8 bs = disassemble bs) /\
  (forall S (R : reader S) fuel s, w_Der_parse 8 R fuel s = Der_parse R fuel s) /\
  (forall S (R : reader S) fuel s, w_Ber_parse 8 R fuel s = Ber_parse R fuel s).
Proof. exact eight_tlv. Qed.
Print Assumptions C74_tlv_eight.

(** A slice is accepted where it is on any other machine: it starts with a value.  What is refused is refused with
    the same error, or - the octets end early - as too large for this machine. *)
Theorem C74_der_slice : forall w bs, 1 <= w -> w <= 8 -> bytes_ok bs -> nlen bs <= 2 ^ (8 * w - 1) - 1 ->
  (forall v rest, w_DerRef_parse w bs = (Ok v, rest) <-> (exists id c, der_tlv id c v) /\ bs = v ++ rest) /\
  (forall v rest, w_DerRef_parse_mut w bs = (Ok v, rest) <-> (exists id c, der_tlv id c v) /\ bs = v ++ rest) /\
  (w_DerRef_parse w bs = DerRef_parse bs \/
   fst (DerRef_parse bs) = Err UnterminatedBytes /\ fst (w_DerRef_parse w bs) = Err OverFlow) /\
  (w_DerRef_parse_mut w bs = DerRef_parse_mut bs \/
   fst (DerRef_parse_mut bs) = Err UnterminatedBytes /\ fst (w_DerRef_parse_mut w bs) = Err OverFlow).
Proof.
  intros w bs H1 H8 Hb L. destruct (w_der_slice w H1 H8 bs Hb L) as [A B]. split; [|split; [|auto]].
  - intros v rest. rewrite <- der_parse_iff by assumption. destruct A as [->|[A A']]; [tauto|].
    destruct (DerRef_parse bs), (w_DerRef_parse w bs). cbn [fst] in *. subst. split; discriminate.
  - intros v rest. rewrite <- der_parse_iff by assumption. destruct (der_parse_mut_same bs Hb) as (_ & M & _). rewrite <- M.
    destruct B as [->|[B B']]; [tauto|].
    destruct (DerRef_parse_mut bs), (w_DerRef_parse_mut w bs). cbn [fst] in *. subst. split; discriminate.
Qed.
Print Assumptions C74_der_slice.
Theorem C74_ber_slice : forall w bs, 1 <= w -> w <= 8 -> bytes_ok bs -> nlen bs <= 2 ^ (8 * w - 1) - 1 ->
  (forall v rest, w_BerRef_parse w bs = (Ok v, rest) <-> ber_value v /\ bs = v ++ rest) /\
  (forall v rest, w_BerRef_parse_mut w bs = (Ok v, rest) <-> ber_value v /\ bs = v ++ rest) /\
  (w_BerRef_parse w bs = BerRef_parse bs \/
   fst (BerRef_parse bs) = Err UnterminatedBytes /\ fst (w_BerRef_parse w bs) = Err OverFlow) /\
  (w_BerRef_parse_mut w bs = BerRef_parse_mut bs \/
   fst (BerRef_parse_mut bs) = Err UnterminatedBytes /\ fst (w_BerRef_parse_mut w bs) = Err OverFlow).
Proof.
  intros w bs H1 H8 Hb L. destruct (w_ber_slice w H1 H8 bs Hb L) as [A B]. split; [|split; [|auto]].
  - intros v rest. rewrite <- ber_parse_iff by assumption. destruct A as [->|[A A']]; [tauto|].
    destruct (BerRef_parse bs), (w_BerRef_parse w bs). cbn [fst] in *. subst. split; discriminate.
  - intros v rest. rewrite <- ber_parse_iff by assumption. destruct (ber_parse_mut_same bs Hb) as (_ & M & _). rewrite <- M.
    destruct B as [->|[B B']]; [tauto|].
    destruct (BerRef_parse_mut bs), (w_BerRef_parse_mut w bs). cbn [fst] in *. subst. split; discriminate.
Qed.
Print Assumptions C74_ber_slice.
Example C74_slice_ex :
  w_DerRef_parse 2 [0x04; 2; 7; 8; 9] = (Ok [0x04; 2; 7; 8], [9]) /\
  w_BerRef_parse 2 [0x30; 0x80; 0x04; 1; 7; 0; 0; 9] = (Ok [0x30; 0x80; 0x04; 1; 7; 0; 0], [9]) /\
  fst (w_DerRef_parse 2 [0x04; 0x83; 1; 0; 0; 7]) = Err OverFlow /\ fst (DerRef_parse [0x04; 0x83; 1; 0; 0; 7]) = Err UnterminatedBytes /\
  w_DerRef_parse_mut 4 [0x04; 1; 7; 9] = (Ok [0x04; 1; 7], [9]).
Proof. vm_compute. auto. Qed.

(** Taking an accepted value apart. *)
Theorem C74_parts : forall w id c bs, 1 <= w -> w <= 8 -> bytes_ok c -> nlen bs <= 2 ^ (8 * w - 1) - 1 ->
  (der_tlv id c bs -> w_disassemble w bs = Ok (id, Definite (nlen c), c)) /\
  (is_identifier id -> bs = id ++ 0x80 :: c -> w_disassemble w bs = Ok (id, Indefinite, c)).
Proof.
  intros w id c bs H1 H8 Hc L. split.
  - intros D. pose proof (der_tlv_size _ _ _ D) as S. destruct (der_tlv_disassemble _ _ _ D) as (_ & _ & _ & T).
    pose proof (max_limit w H1 H8) as ML. unfold word_max in ML.
    rewrite <- T. destruct D as [len Hi Hm Hn]. apply (w_disassemble_definite w H1 H8 id (nlen c)); auto. lia.
  - intros Hi ->. rewrite w_disassemble_indefinite by assumption. now apply tlv_parts_indefinite.
Qed.
Print Assumptions C74_parts.
Example C74_parts_ex : w_disassemble 2 [0x04; 2; 7; 8] = Ok ([0x04], Definite 2, [7; 8]) /\ w_disassemble 2 [0x30; 0x80; 5; 0; 0; 0] = Ok ([0x30], Indefinite, [5; 0; 0; 0]).
Proof. vm_compute. auto. Qed.

(** A stream is read as on a machine of 64 bits, or refused for a value larger than isize::MAX of this one. *)
Theorem C74_der_stream : forall w S (R : reader S) fuel s, 1 <= w -> w <= 8 -> octets_from R s ->
  w_Der_parse w R fuel s = Der_parse R fuel s \/
  (fst (w_Der_parse w R fuel s) = Err OverFlow \/ fst (w_Der_parse w R fuel s) = Panic) /\
  (forall v, fst (Der_parse R fuel s) = Ok v -> 2 ^ (8 * w - 1) - 1 < nlen v).
Proof. intros w S R fuel s H1 H8. exact (w_der_stream w H1 H8 R fuel s). Qed.
Print Assumptions C74_der_stream.
Theorem C74_ber_stream : forall w S (R : reader S) fuel s, 1 <= w -> w <= 8 -> octets_from R s ->
  w_Ber_parse w R fuel s = Ber_parse R fuel s \/
  (fst (w_Ber_parse w R fuel s) = Err OverFlow \/ fst (w_Ber_parse w R fuel s) = Panic) /\
  (forall v, fst (Ber_parse R fuel s) = Ok v -> 2 ^ (8 * w - 1) - 1 < nlen v).
Proof. intros w S R fuel s H1 H8. exact (w_ber_stream w H1 H8 R fuel s). Qed.
Print Assumptions C74_ber_stream.
(** Six octets panic on a machine of 32 bits (see C48). *)
Example C74_stream_ex :
  w_Der_parse 4 slice_reader 9 [0x04; 1; 7; 9] = (Ok [0x04; 1; 7], [9]) /\
  w_Ber_parse 4 slice_reader 9 [0x30; 0x80; 0x04; 1; 7; 0; 0; 9] = (Ok [0x30; 0x80; 0x04; 1; 7; 0; 0], [9]) /\
  fst (w_Der_parse 4 slice_reader 9 [0x04; 0x84; 0x80; 0; 0; 0]) = Panic /\
  fst (w_Ber_parse 4 slice_reader 9 [0x04; 0x84; 0x80; 0; 0; 0]) = Panic /\
  fst (w_Der_parse 4 slice_reader 9 [0x04; 0x85; 1; 0; 0; 0; 0]) = Err OverFlow.
Proof. vm_compute. auto 6. Qed.

(** Building. *)
Theorem C74_new : forall w cfg id c bs, 1 <= w -> w <= 8 -> der_tlv id c bs -> nlen bs <= 2 ^ (8 * w - 1) - 1 ->
  exists b, w_Der_new w cfg id c = Ok b /\ bf_slice b = bs /\ holds b bs.
Proof.
  intros w cfg id c bs H1 H8 D L. pose proof (max_8 w H1 H8) as M8. unfold word_max in M8.
  rewrite w_der_new_eq; auto; [apply der_new_ok; [assumption | lia] | eapply der_tlv_id; eassumption|].
  rewrite <- (der_tlv_size _ _ _ D). exact L.
Qed.
Print Assumptions C74_new.
Theorem C74_new_indefinite : forall w cfg id c, 1 <= w -> w <= 8 -> is_identifier id -> nlen (id ++ 0x80 :: c) <= 2 ^ (8 * w - 1) - 1 ->
  exists b, w_Ber_new_indefinite w cfg id c = Ok b /\ holds b (id ++ 0x80 :: c).
Proof.
  intros w cfg id c H1 H8 Hi L. pose proof (max_8 w H1 H8) as M8. unfold word_max in M8. rewrite nlen_app, nlen_cons in L.
  rewrite w_ber_new_eq; auto; [apply Ber_new_indefinite_ok; [assumption | lia]|]. unfold word_max. lia.
Qed.
Print Assumptions C74_new_indefinite.
Theorem C74_from_iterator : forall w cfg id items, 1 <= w -> w <= 8 ->
  (forall bs, der_tlv id (concat items) bs -> nlen bs <= 2 ^ (8 * w - 1) - 1 ->
   exists b, w_Der_from_id_iterator w cfg id items = Ok b /\ bf_slice b = bs /\ holds b bs) /\
  (nlen (id ++ 0x80 :: concat items) <= 2 ^ (8 * w - 1) - 1 ->
   exists b, w_Ber_from_id_iterator_indefinite w cfg id items = Ok b /\ holds b (id ++ 0x80 :: concat items)).
Proof.
  intros w cfg id items H1 H8. pose proof (max_8 w H1 H8) as M8. unfold word_max in M8. split.
  - intros bs D L. assert (L' : nlen bs <= isize_max) by lia. unfold w_Der_from_id_iterator.
    rewrite (w_from_iterator_eq w H1 H8 cfg id (fun n => Length_to_bytes (Definite n))).
    + apply (der_from_iterator cfg id items bs D L').
    + intros n Hn. now apply w_to_bytes_eq.
    + rewrite (der_tlv_octets _ _ _ D), !nlen_app in L. unfold word_max. lia.
  - intros L. rewrite nlen_app, nlen_cons in L. unfold w_Ber_from_id_iterator_indefinite.
    rewrite (w_from_iterator_eq w H1 H8 cfg id (fun _ => Length_to_bytes Indefinite)).
    + apply (from_iterator_ok cfg id (fun _ => Length_to_bytes Indefinite) items). change (nlen (Length_to_bytes Indefinite)) with 1. lia.
    + reflexivity.
    + change (nlen (Length_to_bytes Indefinite)) with 1. unfold word_max. lia.
Qed.
Print Assumptions C74_from_iterator.
Definition ex_cfg4 : bufcfg := {| init_cap := 11; junk := fun i => i |}.
Example C74_new_ex : rmap bf_slice (w_Der_new 4 ex_cfg4 [0x04] [7; 8]) = Ok [0x04; 2; 7; 8] /\
  rmap bf_slice (w_Ber_new_indefinite 4 ex_cfg4 [0x30] [5; 0; 0; 0]) = Ok [0x30; 0x80; 5; 0; 0; 0] /\
  rmap bf_slice (w_Der_from_id_iterator 4 ex_cfg4 [0x30] [[2; 1; 5]; [5; 0]]) = Ok [0x30; 5; 2; 1; 5; 5; 0].
Proof. vm_compute. auto. Qed.

(** Histories of a Der, and of a Ber with definite or indefinite length, as long as every value of the history
    fits a buffer of this machine. *)
Theorem C74_tlv_history : forall w cfgs ops id c b bs, 1 <= w -> w <= 8 -> bytes_ok c -> der_tlv id c bs -> holds b bs ->
  nlen bs <= 2 ^ (8 * w - 1) - 1 ->
  history_ok (fun c => exists bs, der_tlv id c bs /\ nlen bs <= 2 ^ (8 * w - 1) - 1) ops c ->
  exists b' bs', run_ops (w_der_op w) cfgs ops b = Ok b' /\ run_ops (w_ber_op w) cfgs ops b = Ok b' /\
    bf_slice b' = bs' /\ holds b' bs' /\ der_tlv id (vec_ops ops c) bs' /\ bytes_ok (vec_ops ops c).
Proof.
  intros w cfgs ops id c b bs H1 H8 Hc D Hb L H. pose proof (max_8 w H1 H8) as M8. unfold word_max in M8.
  destruct (w_der_history w H1 H8 ops cfgs id c b bs Hc D Hb L H) as [[-> ->] K].
  destruct (der_history ops cfgs id c b bs Hc D Hb ltac:(lia) K) as (b' & bs' & E & S & Hb' & D' & Hc').
  destruct (ber_history_definite ops cfgs id c b bs Hc D Hb ltac:(lia) K) as (b2 & bs2 & E2 & S2 & Hb2 & D2 & Hc2).
  assert (EE : run_ops ber_op cfgs ops b = run_ops der_op cfgs ops b).
  { clear - D Hb Hc K M8 L. assert (Lm : nlen bs <= isize_max) by lia. clear M8 L.
    revert cfgs c b bs Hc D Hb Lm K. induction ops as [|o ops IH]; intros cfgs c b bs Hc D Hb Lm K; cbn [run_ops history_ok] in *; [reflexivity|].
    destruct K as (Ho & Hf & K). rewrite (ber_step_definite (cfgs O) o b id c bs D Hb).
    destruct (der_step (cfgs O) o b id c bs Hc D Hb (ex_intro _ bs (conj D Lm)) Ho Hf) as (b1 & bs1 & -> & Hb1 & Hd1 & Hc1).
    cbn [rbind]. apply (IH _ _ b1 bs1 Hc1 Hd1 Hb1); [|assumption]. destruct Hf as (bs2 & D2 & L2). now rewrite (der_tlv_fun _ _ _ _ Hd1 D2). }
  exists b', bs'. rewrite EE. auto 10.
Qed.
Print Assumptions C74_tlv_history.
Theorem C74_indefinite_history : forall w cfgs ops id c b, 1 <= w -> w <= 8 -> is_identifier id -> bytes_ok c -> holds b (id ++ 0x80 :: c) ->
  nlen (id ++ 0x80 :: c) <= 2 ^ (8 * w - 1) - 1 ->
  history_ok (fun c => nlen (id ++ 0x80 :: c) <= 2 ^ (8 * w - 1) - 1) ops c ->
  exists b', run_ops (w_ber_op w) cfgs ops b = Ok b' /\ bf_slice b' = id ++ 0x80 :: vec_ops ops c /\
    holds b' (id ++ 0x80 :: vec_ops ops c) /\ bytes_ok (vec_ops ops c).
Proof.
  intros w cfgs ops id c b H1 H8 Hi Hc Hb L H. pose proof (max_8 w H1 H8) as M8. unfold word_max in M8.
  destruct (w_ber_history w H1 H8 ops cfgs id c b Hi Hc Hb L H) as [-> K].
  apply (ber_history_indefinite ops cfgs id c b); auto. unfold indef_fits. lia.
Qed.
Print Assumptions C74_indefinite_history.
Example C74_tlv_history_ex :
  let ops := [OpExtend (repeat 9 130); OpPush 1; OpClone; OpTruncate 131; OpEdit (map (fun x => x + 1)); OpTruncate 3] in
  history_ok (fun c => exists bs, der_tlv [0x04] c bs /\ nlen bs <= 2 ^ (8 * 2 - 1) - 1) ops [7; 8] /\
  history_ok (fun c => nlen ([0x24] ++ 0x80 :: c) <= 2 ^ (8 * 2 - 1) - 1) ops [7; 8] /\
  (let! b := w_Der_new 2 ex_cfg4 [0x04] [7; 8] in let! b' := run_ops (w_der_op 2) (fun _ => ex_cfg4) ops b in Ok (bf_slice b')) = Ok [0x04; 3; 8; 9; 10] /\
  (let! b := w_Ber_new_indefinite 2 ex_cfg4 [0x24] [7; 8] in let! b' := run_ops (w_ber_op 2) (fun _ => ex_cfg4) ops b in Ok (bf_slice b')) = Ok [0x24; 0x80; 8; 9; 10].
Proof.
  assert (F : forall c, nlen c <= 1000 -> exists bs, der_tlv [0x04] c bs /\ nlen bs <= 2 ^ (8 * 2 - 1) - 1).
  { intros c L. exists ([0x04] ++ Length_to_bytes (Definite (nlen c)) ++ c).
    assert (nlen c < 2 ^ 64) by (apply N.le_lt_trans with 1000; [assumption | reflexivity]).
    split; [apply der_tlv_make; [apply universal_identifier; lia | assumption]|].
    rewrite !nlen_app, len_len by assumption.
    pose proof (Length_len_mono _ _ L) as M. change (Length_len (Definite 1000)) with 3 in M.
    apply N.le_trans with (1 + (3 + 1000)); [|vm_compute; discriminate].
    change (nlen [0x04]) with 1. lia. }
  split; [|split; [|split; vm_compute; reflexivity]].
  - repeat split; try (apply F; vm_compute; discriminate); try exact I; vm_compute; repeat constructor.
  - repeat split; try exact I; try (vm_compute; discriminate); vm_compute; repeat constructor.
Qed.
