(** Lengths, identifiers and contents in raw memory (C69). *)
From Verif Require Import Base ModelIo ModelTag ModelContents ModelBuf ModelTlv ModelHeap ModelBufLE ModelBufUE ModelTlvRaw ModelPartsRaw
  Spec SpecIo SpecBuf SpecTlv SpecParts TagProofs IdProofs TagMain ContentsProofs BufProofs StreamProofs RawProofs RawMain RawTlv RawStream PartsProofs PropsBuf.

(** ** Length::to_bytes: the octets X.690 asks for, written and read inside the nine octets
    of the buffer *)
Theorem C69_length : forall n h, n < 2 ^ 64 ->
  exists b bs, raw_Length_to_bytes (Definite n) h = Done b h /\ lb_deref b h = Done bs h /\
    minimal_length n bs /\ lb_len b = nlen bs /\ nlen (lb_buffer b) = 9.
Proof.
  intros n h Hn. destruct (raw_length_ok (Definite n) h) as (b & E & D & K & C); [now intros ? [= <-]|].
  exists b, (Length_to_bytes (Definite n)). split; [exact E|]. split; [exact D|]. split; [now apply Length_to_bytes_minimal|].
  split; [|exact C]. rewrite K. symmetry. now apply len_len.
Qed.
Print Assumptions C69_length.
Theorem C69_length_indefinite : forall h,
  exists b, raw_Length_to_bytes Indefinite h = Done b h /\ lb_deref b h = Done [0x80] h.
Proof. intros h. destruct (raw_length_ok Indefinite h) as (b & E & D & _); [discriminate|]. exists b. split; [exact E | exact D]. Qed.
Print Assumptions C69_length_indefinite.
Example C69_length_ex : 2 ^ 64 - 1 < 2 ^ 64 /\
  match raw_Length_to_bytes (Definite (2 ^ 64 - 1)) [], raw_Length_to_bytes (Definite 300) [] with
  | Done b _, Done c _ => lb_deref b [] = Done (0x88 :: repeat 255 8) [] /\ lb_deref c [] = Done [0x82; 1; 44] []
  | _, _ => False
  end.
Proof. vm_compute. auto. Qed.

(** ** to_integer: the writes stay inside the integer *)
Theorem C69_to_integer : forall t bs h, bytes_ok bs ->
  (shortest_twos bs /\ in_range t (twos_value bs) /\ raw_to_integer t bs h = Done (Ok (twos_value bs)) h) \/
  (~ (shortest_twos bs /\ in_range t (twos_value bs)) /\ exists e, raw_to_integer t bs h = Done (Err e) h).
Proof.
  intros t bs h Hok. rewrite raw_to_integer_ok.
  destruct (to_integer_spec t bs Hok) as [(-> & ->)|[(A & B & ->)|[(A & B & ->)|(A & B & ->)]]].
  - right. split; [intros [[H _] _]; congruence | eauto].
  - right. split; [intros [H _]; contradiction | eauto].
  - right. split; [intros [_ H]; contradiction | eauto].
  - left. auto.
Qed.
Print Assumptions C69_to_integer.
(** Without the checks, on the contents its safety section asks for. *)
Theorem C69_unchecked : forall t bs h, bytes_ok bs -> shortest_twos bs -> in_range t (twos_value bs) ->
  raw_to_integer_unchecked t bs h = Done (twos_value bs) h.
Proof.
  intros t bs h Hok Hs Hr. assert (E : to_integer t bs = Ok (twos_value bs)) by (apply to_integer_iff; auto).
  pose proof (raw_to_integer_ok t bs h) as K. rewrite E in K. generalize dependent (twos_value bs). intros z _ _ K. unfold raw_to_integer in K. destruct bs as [|b bs]; [discriminate|].
  cbv zeta in K. destruct (match bs with [] => false | _ => _ end); [discriminate|].
  destruct (_ <? nlen (drop_leading_zero (b :: bs))) eqn:El; [discriminate|]. apply N.ltb_ge in El.
  destruct (raw_unchecked_ok t (b :: bs) h ltac:(discriminate) El) as (v & Ev & _). rewrite Ev. unfold mbind in K. rewrite Ev in K.
  unfold mret in K. injection K as K. destruct (_ =? 0); [destruct (v <? 0)%Z | destruct (0 <=? v)%Z]; congruence.
Qed.
Print Assumptions C69_unchecked.
(** Outside it the write leaves the integer. *)
Example C69_unchecked_ex : raw_to_integer_unchecked I16 [0xfe; 0x0c] [] = Done (-500)%Z [] /\
  raw_to_integer_unchecked U16 [0; 0xff; 0xff] [] = Done 65535%Z [] /\
  match raw_to_integer_unchecked I16 [1; 2; 3] [] with Done _ _ => False | _ => True end.
Proof. vm_compute. auto. Qed.

(** ** Programs over Id, Contents and vectors *)
Theorem C69_le : forall al os h0, good_allocator al -> all_plegal os pempty ->
  match praws LE al os vempty h0 with
  | Done v h =>
      (forall i, pshows LE h (v i) (psteps os pempty i)) /\
      (forall a c, h_get a h0 = Some c -> h_get a h = Some c) /\
      ((forall i, psteps os pempty i = PEmpty) -> forall a, h_get a h = h_get a h0)
  | Abort => out_of_memory al
  | Crash | UB => False
  end.
Proof. intros al os h0 G. exact (parts_program LE al G _ (C19_refines al G) ltac:(vm_compute; discriminate) os h0). Qed.
Print Assumptions C69_le.
Theorem C69_ue : forall al os h0, good_allocator al -> all_plegal os pempty ->
  match praws UE al os vempty h0 with
  | Done v h =>
      (forall i, pshows UE h (v i) (psteps os pempty i)) /\
      (forall a c, h_get a h0 = Some c -> h_get a h = Some c) /\
      ((forall i, psteps os pempty i = PEmpty) -> forall a, h_get a h = h_get a h0)
  | Abort => out_of_memory al
  | Crash | UB => False
  end.
Proof. intros al os h0 G. exact (parts_program UE al G _ (C20_refines al G) ltac:(vm_compute; discriminate) os h0). Qed.
Print Assumptions C69_ue.
(** Numbers on both sides of the short form and of the inline storage, integers that need
    the octet before the first one, in-place edits, a vector taken over. *)
Definition parts_sample : list pop :=
  [PIdNew 0 Private Constructed 5; PIdSetNumber 0 300; PIdSetClass 0 ContextSpecific; PIdSetPc 0 Primitive; PClone 0 1; PIdSetNumber 0 30;
   PIdNew 2 Universal Primitive (2 ^ 127); PInt 3 I32 (-129)%Z [0xff; 0x7f]; PInt 4 U128 (2 ^ 128 - 1)%Z (0 :: repeat 255 16); PInt 5 I8 0%Z [0];
   PBool 6 true; PBytes 7 (repeat 1 40); PEdit 7 (map (fun x => x + 1)); PVecNew 8 [1; 2; 3] 30; PFromVec 8; PDrop 7].
Example C69_ex : good_allocator bump /\
  psteps parts_sample pempty 1%nat = PId 2 0 300 /\
  match praws LE bump parts_sample vempty [], praws UE bump parts_sample vempty [] with
  | Done v h, Done v' h' =>
      match v 0%nat, v 1%nat, v 2%nat, v 3%nat, v' 4%nat, v' 8%nat with
      | VBuf a, VBuf b, VBuf c, VBuf d, VBuf e, VBuf f =>
          L_slice LE a h = Done [0x9e] h /\ L_slice LE b h = Done [0x9f; 0x82; 0x2c] h /\
          L_slice LE c h = Done (0x1f :: 0x82 :: repeat 0x80 17 ++ [0]) h /\ L_slice LE d h = Done [0xff; 0x7f] h /\
          L_slice UE e h' = Done (0 :: repeat 255 16) h' /\ L_slice UE f h' = Done [1; 2; 3] h'
      | _, _, _, _, _, _ => False
      end
  | _, _ => False
  end.
Proof. split; [exact bump_good | vm_compute; repeat split; reflexivity]. Qed.
Lemma short_int t v bs : Contents_from_int t v = Ok bs -> in_range t v -> in_range t v /\ bytes_ok bs /\ shortest_twos bs /\ twos_value bs = v.
Proof. intros E H. destruct (from_int_spec t v H) as (bs' & E' & A). rewrite E in E'. injection E' as <-. auto. Qed.
Example C69_legal : all_plegal parts_sample pempty.
Proof.
  repeat (split; [first [exact I | reflexivity
    | split; [reflexivity | apply short_int; [vm_compute; reflexivity | split; vm_compute; discriminate]]
    | split; [reflexivity | split; [now apply octets_ok | vm_compute; discriminate]]
    | split; [first [reflexivity | exact I] | first [reflexivity | now apply octets_ok]]]|]).
  exact I.
Qed.

(** ** Id::parse from a stream, all readers *)
Theorem C69_le_id_parse : forall al S (R : reader S) content fuel s h0, good_allocator al -> honest R content ->
  bytes_ok (content s) -> nlen (content s) <= isize_max ->
  match raw_Id_parse LE al R fuel s h0 with
  | Done x h => leaves LE h0 (fst (Id_parse R fuel s)) (snd (Id_parse R fuel s)) x h
  | Abort => out_of_memory al
  | Crash | UB => False
  end.
Proof.
  intros al S R content fuel s h0 G HR H1 H2.
  eapply (meets_mono al); [exact (id_parse_raw LE al _ (C19_refines al G) ltac:(vm_compute; discriminate) R content HR fuel s h0 H1 H2)|].
  intros x h. apply (parsed_leaves LE al _ (C19_refines al G)).
Qed.
Print Assumptions C69_le_id_parse.
Theorem C69_ue_id_parse : forall al S (R : reader S) content fuel s h0, good_allocator al -> honest R content ->
  bytes_ok (content s) -> nlen (content s) <= isize_max ->
  match raw_Id_parse UE al R fuel s h0 with
  | Done x h => leaves UE h0 (fst (Id_parse R fuel s)) (snd (Id_parse R fuel s)) x h
  | Abort => out_of_memory al
  | Crash | UB => False
  end.
Proof.
  intros al S R content fuel s h0 G HR H1 H2.
  eapply (meets_mono al); [exact (id_parse_raw UE al _ (C20_refines al G) ltac:(vm_compute; discriminate) R content HR fuel s h0 H1 H2)|].
  intros x h. apply (parsed_leaves UE al _ (C20_refines al G)).
Qed.
Print Assumptions C69_ue_id_parse.
(** An identifier of 24 octets moves to the heap; a cut one leaves nothing behind. *)
Example C69_id_parse_ex : good_allocator bump /\ honest slice_reader (fun s => s) /\
  match raw_Id_parse LE bump slice_reader 40 (0x1f :: repeat 0x81 22 ++ [1; 9]) [], raw_Id_parse UE bump slice_reader 40 (0x1f :: repeat 0x81 30) [] with
  | Done (Ok r, s) h, Done (Err e, _) h' =>
      L_slice LE r h = Done (0x1f :: repeat 0x81 22 ++ [1]) h /\ s = [9] /\ e = UnterminatedBytes /\ h_get 1 h' = None
  | _, _ => False
  end.
Proof. split; [exact bump_good|]. split; [exact slice_honest | vm_compute; auto]. Qed.
