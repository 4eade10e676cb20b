(** Properties of serialisation on machines with words of another size, in both profiles (C80). *)
From Coq Require Import String Ascii.
From Verif Require Import Base ModelError ModelIo ModelTag ModelContents ModelBuf ModelTlv ModelSerde ModelAttr ModelDerive ModelWord ModelWordTlv ModelSerWord.
From Verif Require Import Spec SpecSerde SpecAttr SpecDerive SpecSerWord.
From Verif Require Import TagProofs IdProofs TagMain ContentsProofs TlvProofs BufProofs TlvMain SerdeOctets SerdeSer AttrProofs AttrParse DeriveProofs DeriveMain.
From Verif Require Import WordProofs WordTlvProofs SerWordProofs SerWordMain PropsDerive.

(** ** C80: serialisation on other machines *)
(** Values whose DER value has at most isize::MAX octets: to_der and write_der give the same octets as on 64 bits, in
    both profiles. *)
Theorem C80_octets : forall w rel E C S v, 1 <= w -> w <= 8 -> init_cap (e_cfg E) <= 2 ^ (8 * w - 1) - 1 ->
  on_word E w rel C S -> wf C v -> nlen (der_of C v) <= 2 ^ (8 * w - 1) - 1 ->
  (exists b, x_to_der w rel E S v = Ok b /\ bf_slice b = der_of C v /\ bf_cap b <= 2 ^ (8 * w - 1) - 1) /\
  emits (fun _ W => x_write_der w E S W v) (der_of C v).
Proof.
  intros w rel E C S v H1 H8 HC O F L. destruct (on_word_laws w rel E H1 H8 HC C S O) as [LA BN]. split.
  - destruct (x_to_der_into w rel E H1 H8 HC C S v LA BN F) as [(b & Eb & Hb & Cb)|[_ G]]; [|unfold word_max in G; lia].
    exists b. rewrite (holds_slice _ _ Hb). auto.
  - pose proof (tlv_contents_le (id_of C v) (contents_of C v)) as K. fold (der_of C v) in K.
    eapply emits_or_emits; [|apply (x_write_der_emits w E H1 H8 HC S v (id_of C v) (contents_of C v))].
    + unfold word_max. lia.
    + apply LA; [exact F|]. intros _. unfold word_max. lia.
Qed.
Print Assumptions C80_octets.
(** A value of any size: to_der returns its DER value or panics, the latter only if that has more octets than a slice
    may have. *)
Theorem C80_to_der : forall w rel E C S v, 1 <= w -> w <= 8 -> init_cap (e_cfg E) <= 2 ^ (8 * w - 1) - 1 ->
  on_word E w rel C S -> wf C v ->
  (exists b, x_to_der w rel E S v = Ok b /\ bf_slice b = der_of C v /\ nlen (der_of C v) <= 2 ^ (8 * w - 1) - 1) \/
  x_to_der w rel E S v = Panic /\ 2 ^ (8 * w - 1) - 1 < nlen (der_of C v).
Proof.
  intros w rel E C S v H1 H8 HC O F. destruct (on_word_laws w rel E H1 H8 HC C S O) as [LA BN].
  destruct (x_to_der_into w rel E H1 H8 HC C S v LA BN F) as [(b & Eb & Hb)|[Ep G]]; [left | right; auto].
  exists b. pose proof (fits_len _ _ _ Hb) as K. rewrite (holds_slice _ _ (proj1 Hb)). auto.
Qed.
Print Assumptions C80_to_der.
(** In the dev profile write_der writes the DER value of a value of any size into any writer, or panics; the latter only
    if the contents have more than isize::MAX octets. *)
Theorem C80_dev_write : forall w E C S v, 1 <= w -> w <= 8 -> init_cap (e_cfg E) <= 2 ^ (8 * w - 1) - 1 ->
  on_word E w false C S -> wf C v ->
  emits_or (2 ^ (8 * w - 1) - 1 < nlen (contents_of C v)) (fun _ W => x_write_der w E S W v) (der_of C v).
Proof.
  intros w E C S v H1 H8 HC O F. destruct (on_word_laws w false E H1 H8 HC C S O) as [LA _].
  apply (x_write_der_emits w E H1 H8 HC S v (id_of C v) (contents_of C v)). apply LA; [exact F | discriminate].
Qed.
Print Assumptions C80_dev_write.
(** In the release profile it may write something else: two strings, the DER value of each of which has half as many
    octets as usize has values, are written with the header of an empty sequence. *)
Theorem C80_release_write_refuted : forall w E, 1 <= w -> w <= 8 -> init_cap (e_cfg E) <= 2 ^ (8 * w - 1) - 1 ->
  let C := seq_codec (short w octets_codec (@nlen N)) in
  let S := x_ser_items w true E ID_SEQUENCE ser_octets in
  on_word E w true C S /\
  exists v rest, wf C v /\ v <> [] /\ nlen rest = 2 ^ (8 * w) /\
    emits (fun _ W => x_write_der w E S W v) (der_of C [] ++ rest) /\ (der_of C [] ++ rest)%list <> der_of C v.
Proof.
  intros w E H1 H8 HC C S. split; [apply ow_seq, ow_octets|].
  set (s := repeat 0 (N.to_nat (half w))). assert (bytes_ok s) as B by (apply Forall_forall; intros x I; apply repeat_spec in I; subst x; reflexivity).
  assert (nlen s = half w) as L by (unfold s; rewrite nlen_repeat, N2Nat.id; reflexivity).
  destruct (half_facts w H1 H8) as [M T]. exists [s; s], (der_of octets_codec s ++ der_of octets_codec s)%list.
  split; [|split; [discriminate | split; [|split]]].
  - assert (wf (short w octets_codec (@nlen N)) s) as F by (split; [exact B | rewrite L; exact M]).
    constructor; [exact F|]. constructor; [exact F | constructor].
  - rewrite nlen_app, (half_der w s L). fold (word_limit w). lia.
  - exact (wrapped w E H1 H8 HC s B L).
  - exact (wrapped_wrong w E H1 H8 HC s L).
Qed.
Print Assumptions C80_release_write_refuted.

(** ** C80: on eight octets, in the dev profile, this is the model of the other claims *)
Theorem C80_eight : forall E T (S : serialize T) v id c, serialises S v id c -> nlen c <= isize_max ->
  x_der_len 8 false S v = der_len S v /\ x_to_der 8 false E S v = to_der E S v /\
  forall A (W : writer A) a, x_write_der 8 E S W v a = write_der E S W v a.
Proof.
  intros E T S v id c [EI EC _ AC] L. assert (usizes S v) as U by (intros n H; destruct AC as [K|K]; rewrite K in H; [discriminate H | injection H as <-; now apply isize_lt]).
  split; [now apply eight_der_len|]. split; [now apply (eight_to_der E S v U id c)|]. intros A W a. now apply (eight_write_der E S v U c).
Qed.
Print Assumptions C80_eight.
(** What an implementation announces is a usize. *)
Definition announces_usize {T} (S : serialize T) (v : T) : Prop := forall n, der_contents_len S v = Ok (Some n) -> n < 2 ^ 64.
Theorem C80_eight_lengths : forall T (S : serialize T) vs, Forall (announces_usize S) vs ->
  x_der_contents_len_from 8 false S 0 vs = der_contents_len_from S 0 vs.
Proof. intros T S vs F. now apply eight_items_len. Qed.
Print Assumptions C80_eight_lengths.
Theorem C80_eight_maps : forall K V (SK : serialize K) (SV : serialize V) l,
  Forall (fun p => announces_usize SK (fst p) /\ announces_usize SV (snd p)) l ->
  x_btree_map_len 8 false SK SV 0 l = btree_map_len SK SV 0 l /\ x_hash_map_len 8 false SK SV 0 l = hash_map_len SK SV 0 l.
Proof. intros K V SK SV l F. split; [now apply eight_btree_len | now apply eight_hash_len]. Qed.
Print Assumptions C80_eight_maps.

(** ** Examples *)
(** A machine whose usize has two octets; its buffers keep five octets inline. *)
Definition env16 : env := {| e_cfg := {| init_cap := 5; junk := fun _ => 0xaa |}; e_debug := false; e_place := fun A x l => x :: l |}.
Definition point16 : serialize (tuple Point) := x_ser_fields 2 false env16 {| dc_attr := tagged_attr 5; dc_fields := point_fields env16 |}.
Definition codec16 : codec := btree_map_codec (short 2 string_codec (@nlen N)) (seq_codec point_codec) (fun a b => N.compare (nlen a) (nlen b)).
Definition ser16 : serialize (list (list N * list (tuple Point))) :=
  x_ser_btree_map 2 false env16 ser_string (x_ser_items 2 false env16 ID_SEQUENCE point16).
Lemma point16_ok : on_word env16 2 false point_codec point16.
Proof.
  eapply (ow_struct env16 2 false any_path (tagged "5") (tagged_attr 5) [0x65] Point (point_decls env16) (point_fields env16) point_specs (same_paths point16 (point_de env16)));
    [apply point_attributes | apply point_plain | now apply (tagged_identified 5) | apply point_tries | | reflexivity].
  apply fw_coded; [flags | apply (ow_int env16 2 false I32); discriminate|]. apply (fw_skipped env16 2 false bool [Z : Type]); [flags|].
  apply fw_coded; [flags | apply (ow_int env16 2 false I32); discriminate | constructor].
Qed.
Definition value16 : list (list N * list (tuple Point)) := [([0x61], [ex_point; (0, (true, (70000, tt)))%Z]); ([0xc3; 0xa9], [])].
Definition der16 : list N :=
  [0x30; 34; 0x30; 24; 0x0c; 1; 0x61; 0x30; 19; 0x65; 7; 2; 1; 7; 2; 2; 0xfe; 0xd4; 0x65; 8; 2; 1; 0; 2; 3; 1; 0x11; 0x70;
   0x30; 6; 0x0c; 2; 0xc3; 0xa9; 0x30; 0].
(** BTreeMap<String, Vec<Point>> on that machine. *)
Example C80_example : on_word env16 2 false codec16 ser16 /\ wf codec16 value16 /\ der_of codec16 value16 = der16 /\
  init_cap (e_cfg env16) <= 2 ^ (8 * 2 - 1) - 1 /\ nlen (der_of codec16 value16) <= 2 ^ (8 * 2 - 1) - 1.
Proof.
  split; [apply ow_btree_map; [apply ow_string | apply ow_seq, point16_ok]|]. split; [|vm_compute; repeat split; discriminate].
  split; [|repeat constructor].
  assert (wf point_codec (0, (true, (70000, tt)))%Z) as P by (repeat split; cbn; lia).
  constructor; [|constructor; [|constructor]]; (split; [split|]).
  - exists [0x61]. split; [repeat constructor; cbn; lia | reflexivity].
  - vm_compute. discriminate.
  - constructor; [apply ex_point_ok | constructor; [exact P | constructor]].
  - exists [0xe9]. split; [repeat constructor; cbn; lia | reflexivity].
  - vm_compute. discriminate.
  - constructor.
Qed.
Example C80_example_run : (exists b, x_to_der 2 false env16 ser16 value16 = Ok b /\ bf_slice b = der16) /\
  (exists b, x_to_der 2 true env16 (x_ser_word 2 false) 40000%Z = Ok b /\ bf_slice b = [2; 3; 0; 0x9c; 0x40]).
Proof. split; eexists; (split; [vm_compute; reflexivity | reflexivity]). Qed.
(** A machine whose usize has one octet shows the witness of C80_release_write_refuted with small numbers: 2 x 128 octets. *)
Definition env8 : env := {| e_cfg := {| init_cap := 2; junk := fun _ => 0xaa |}; e_debug := false; e_place := fun A x l => x :: l |}.
Example C80_example_wraps : let s := repeat 0 126 in
  let S rel := x_ser_items 1 rel env8 ID_SEQUENCE ser_octets in
  let W : writer (list N) := {| wr_write := fun l bs => (WrOk (nlen bs), l ++ bs)%list; wr_fuel := 1 |} in
  der_contents_len (S true) [s; s] = Ok (Some 0) /\ der_contents_len (S false) [s; s] = Panic /\
  fst (x_write_der 1 env8 (S true) W [s; s] []) = Ok tt /\ take 2 (snd (x_write_der 1 env8 (S true) W [s; s] [])) = [0x30; 0] /\
  fst (x_write_der 1 env8 (S false) W [s; s] []) = Panic /\ x_to_der 1 true env8 (S true) [s; s] = Panic.
Proof. vm_compute. repeat split; reflexivity. Qed.
(** The hypotheses of C80_eight and of its neighbours at a derived struct. *)
Example C80_example_eight : serialises (point_ser (ex_env true)) ex_point [0x65] [2; 1; 7; 2; 2; 0xfe; 0xd4] /\
  Forall (announces_usize (point_ser (ex_env true))) [ex_point; ex_point] /\ announces_usize (ser_int I32) 5%Z.
Proof.
  split; [|split].
  - pose proof (l_ser _ _ _ _ (supported_laws (ex_env true) _ _ _ (ex_good true) (point_supported (ex_env true)))) as K.
    apply (K ex_point); [apply ex_point_ok | vm_compute; discriminate].
  - assert (announces_usize (point_ser (ex_env true)) ex_point) by (intros n H; vm_compute in H; injection H as <-; reflexivity). repeat constructor; assumption.
  - intros n H. vm_compute in H. injection H as <-. reflexivity.
Qed.
