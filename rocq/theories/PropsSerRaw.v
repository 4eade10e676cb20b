(** C89: [to_der] in memory, with any Serialize. *)
From Coq Require Import Lia.
From Verif Require Import Base ModelIo ModelTag ModelContents ModelBuf ModelTlv ModelHeap ModelBufLE ModelBufUE ModelTlvRaw ModelUnwind ModelRelease ModelSerRaw ModelSerde
  Spec SpecIo SpecBuf SpecTlv SpecUnwind SpecSerde SpecSerRaw TagProofs BufProofs RawProofs RawMain RawTlv RawStream UnwindProofs RelProofs UseRelease LooseProofs SerRawProofs SerdeSer SerdeEntry SerdeMain
  PropsBuf PropsUnwind PropsRelease PropsSerde SerdeOctets IdProofs SpecAttr SpecDerive DeriveMain.

Lemma released_big L al Rp ops : buffer_refines L al Rp -> release_of L al ops ->
  (forall r h b own k, Rp r h b own -> isize_max < b_len b + k -> L_reserve L al k r h = Crash \/ L_reserve L al k r h = UB) ->
  forall r h b own k, Rp r h b own -> isize_max < b_len b + k -> b_len b + k < usize_limit -> L_reserve (released L ops) al k r h = Crash \/ L_reserve (released L ops) al k r h = UB.
Proof.
  intros BR RO big r h b own k R Hk Lk. cbn [L_reserve released].
  pose proof (rp_len L al Rp BR _ _ _ _ R) as E. rewrite (ro_reserve L al ops RO) by (rewrite E; assumption). eauto.
Qed.
(** Whatever the methods of the user do, [to_der] returns the octets they wrote, in one new allocation at most, or fails as they failed with memory as it was. *)
Definition C89_outcome (L : layout) (al : allocator) (wraps : bool) (v : calls) (h0 : heap) (x : ends unit (L_raw L)) : Prop :=
  match x with
  | Ends r _ h =>
      match der_result wraps v, r with
      | Ok w, Ok b => new_value L h0 b w h /\ bytes_ok w
      | Err e, Err e' => e' = e /\ untouched h0 h
      | Panic, Panic => untouched h0 h
      | NoFuel, NoFuel => untouched h0 h
      | _, _ => False
      end
  | EAbort => out_of_memory al
  | EOversize => refuses wraps v = true
  | EUB => False
  end.
Theorem C89_any : forall L ops Rp al v h0, profiles L ops Rp -> good_allocator al -> calls_ok v ->
  C89_outcome L al false v h0 (u_to_der L al false v h0) /\
  C89_outcome (released L ops) al true v h0 (u_to_der (released L ops) al true v h0).
Proof.
  intros L ops Rp al v h0 P G V. destruct (profiles_facts al L ops Rp G P) as (HL & RO). destruct (layouts_facts al L Rp G HL) as (BR & big & _).
  split; [apply (to_der_ends L al Rp BR); eauto|].
  apply (to_der_ends (released L ops) al Rp (released_refines L al Rp BR ops RO)); [exact (released_big L al Rp ops BR RO big) | assumption].
Qed.
Print Assumptions C89_any.
(** Bump allocator; a type whose contents panic after three octets, one that catches the panic of [write], one that lies. *)
Example C89_ex_any :
  let v1 := {| c_contents_len := Ok None; c_contents := andthen (offer [1; 2; 3]) (Stop Panic); c_id_len := Ok (Some 1); c_id := offer [4] |} in
  let v2 := {| c_contents_len := Ok (Some 2); c_contents := offer [1; 2; 3]; c_id_len := Ok None; c_id := Offer [4] (fun _ => Offer [5] (fun _ => Stop (Ok tt))) |} in
  let v3 := {| c_contents_len := Ok (Some 2); c_contents := offer [1; 2]; c_id_len := Ok (Some isize_max); c_id := offer [4] |} in
  good_allocator bump /\ calls_ok v1 /\ calls_ok v2 /\ calls_ok v3 /\
  der_result false v1 = Panic /\ der_result false v2 = Ok [4; 5; 2; 1; 2; 3] /\ refuses false v3 = true /\
  match u_to_der LE bump false v1 [], u_to_der LE bump false v2 [] with
  | Ends Panic _ h, Ends (Ok b) _ k => untouched [] h /\ L_slice LE b k = Done [4; 5; 2; 1; 2; 3] k
  | _, _ => False
  end.
Proof.
  cbv zeta. split; [apply bump_good|]. unfold calls_ok.
  do 3 (split; [cbn [c_contents c_contents_len c_id c_id_len answer_ok offer andthen prog_ok]; repeat split; solve [now vm_compute | repeat constructor; now vm_compute]|]).
  split; [now vm_compute|]. split; [now vm_compute|]. split; [now vm_compute|].
  vm_compute. split; [intros []; reflexivity | reflexivity].
Qed.

Lemma adds_then p q x y : adds p x -> adds q y -> adds (andthen p q) (x ++ y).
Proof.
  intros P Q w H. rewrite nlen_app in H. destruct (P w ltac:(lia)) as (E1 & F1). destruct (Q (w ++ x) ltac:(rewrite nlen_app; lia)) as (E2 & F2).
  rewrite lays_then, refused_then, E1, F1, E2, F2, app_assoc. now split.
Qed.
Lemma adds_offer bs : adds (offer bs) bs.
Proof. intros w H. cbn [offer lays refused]. apply N.leb_le in H. rewrite H. now split. Qed.
Lemma adds_program cs : adds (program cs) (concat cs).
Proof.
  induction cs as [|c cs IH]; [intros w _; cbn [program concat lays refused]; rewrite app_nil_r; now split|].
  destruct c as [|x c]; [exact IH|]. apply (adds_then (offer (x :: c)) (program cs)); [apply adds_offer | exact IH].
Qed.
Lemma honest_result wraps v id c : adds (c_id v) id -> adds (c_contents v) c -> announces (c_id_len v) id -> announces (c_contents_len v) c ->
  nlen (tlv id c) <= isize_max -> der_result wraps v = Ok (tlv id c) /\ refuses wraps v = false.
Proof.
  intros I C Ai Ac H. pose proof (tlv_contents_le id c) as Hc. assert (nlen c < usize_limit) as Hu by (apply isize_lt; lia).
  assert (F : forall p, adds p c -> der_finish wraps v (nlen c) p = Ok (tlv id c) /\ finish_refuses wraps v (nlen c) p = false).
  { intros p P. unfold der_finish, finish_refuses. rewrite length_octets_eq by (change (2 ^ 64) with usize_limit; assumption).
    assert (exists a, SpecSerRaw.announced wraps v (nlen (length_octets (nlen c))) (nlen c) = Ok a /\ a <= isize_max) as (a & -> & La).
    { unfold SpecSerRaw.announced. unfold tlv in H. rewrite !nlen_app in H. assert (isize_max < usize_limit) as U by now vm_compute.
      destruct Ai as [-> | ->]; [exists 0; split; [reflexivity | now vm_compute]|]. exists (nlen id + nlen (length_octets (nlen c)) + nlen c). split; [|lia].
      destruct wraps; [rewrite N.mod_small by lia; reflexivity|]. destruct (N.ltb_spec (nlen id + nlen (length_octets (nlen c)) + nlen c) usize_limit); [reflexivity | lia]. }
    destruct (N.ltb_spec isize_max a); [lia|].
    destruct (adds_then _ _ _ _ I (adds_then _ _ _ _ (adds_offer (length_octets (nlen c))) P) []) as (E & R); [exact H|].
    rewrite E, R. now split. }
  unfold der_result, refuses. destruct Ac as [-> | ->]; [|now apply F].
  destruct (C [] ltac:(rewrite nlen_nil; lia)) as (E & R). rewrite E, R. cbn [app orb]. now apply F, adds_offer.
Qed.
(** Methods that write what they should, and announce it or nothing: the encoding is returned unless memory is exhausted, in the dev and the release profile. *)
Theorem C89_honest : forall L ops Rp al v id c h0, profiles L ops Rp -> good_allocator al -> calls_ok v ->
  adds (c_id v) id -> adds (c_contents v) c -> announces (c_id_len v) id -> announces (c_contents_len v) c -> nlen (tlv id c) <= isize_max ->
  match u_to_der L al false v h0 with Ends (Ok b) _ h => new_value L h0 b (tlv id c) h | EAbort => out_of_memory al | _ => False end /\
  match u_to_der (released L ops) al true v h0 with Ends (Ok b) _ h => new_value (released L ops) h0 b (tlv id c) h | EAbort => out_of_memory al | _ => False end.
Proof.
  intros L ops Rp al v id c h0 P G V I C Ai Ac H. destruct (C89_any L ops Rp al v h0 P G V) as (D & R). unfold C89_outcome in D, R.
  destruct (honest_result false v id c I C Ai Ac H) as (E1 & F1). destruct (honest_result true v id c I C Ai Ac H) as (E2 & F2). rewrite E1, F1 in D. rewrite E2, F2 in R.
  split; [destruct (u_to_der L al false v h0) as [[b|e| |] s h| | |] | destruct (u_to_der (released L ops) al true v h0) as [[b|e| |] s h| | |]]; try easy; now destruct D || destruct R.
Qed.
Print Assumptions C89_honest.

(** [v] behaves as the implementation [D] does on [x]. *)
Definition behaves {T} (D : serialize T) (x : T) (v : calls) : Prop :=
  c_id_len v = id_len D x /\ c_contents_len v = der_contents_len D x /\
  exists ci cc, c_id v = program ci /\ c_contents v = program cc /\
    (forall S (W : writer S) s, write_id D W x s = write_chunks W ci s) /\ (forall S (W : writer S) s, write_der_contents D W x s = write_chunks W cc s).
Lemma prog_ok_then p q : prog_ok p -> prog_ok q -> prog_ok (andthen p q).
Proof. intros P Q. induction p as [[[]|e| |]|bs k IH]; cbn [andthen prog_ok] in *; try assumption; try exact I. destruct P as (A & B & C & D). auto. Qed.
Lemma prog_ok_offer bs : bytes_ok bs -> nlen bs <= isize_max -> prog_ok (offer bs).
Proof. intros B L. cbn [offer prog_ok]. auto. Qed.
Lemma prog_ok_program cs : bytes_ok (concat cs) -> nlen (concat cs) <= isize_max -> prog_ok (program cs).
Proof.
  induction cs as [|c cs IH]; intros B H; [exact I|]. cbn [concat] in B, H. rewrite nlen_app in H. apply Forall_app in B. destruct B as [B1 B2].
  destruct c as [|x c]; [apply IH; [assumption | lia]|]. apply (prog_ok_then (offer (x :: c)) (program cs)); [apply prog_ok_offer; [assumption | lia] | apply IH; [assumption | lia]].
Qed.
(** What code writes is determined by what it does. *)
Definition keeps_all : writer (list N) := {| wr_write := fun s bs => (WrOk (nlen bs), s ++ bs); wr_fuel := 2 |}.
Lemma keeps_chunks cs : forall s, write_chunks keeps_all cs s = (Ok tt, s ++ concat cs).
Proof.
  induction cs as [|x xs IH]; intros s; [cbn [write_chunks concat]; rewrite app_nil_r; reflexivity|]. cbn [write_chunks concat]. unfold wbind, write_all.
  cbn [wr_fuel keeps_all write_all_loop wr_write]. destruct x as [|y x]; [apply IH|].
  destruct (N.eqb_spec (nlen (y :: x)) 0) as [Z|_]; [rewrite nlen_cons in Z; lia|]. rewrite N.ltb_irrefl, drop_ge by lia. rewrite IH, <- app_assoc. reflexivity.
Qed.
Lemma emits_once f bs cs : emits f bs -> (forall S (W : writer S) s, f S W s = write_chunks W cs s) -> concat cs = bs.
Proof.
  intros (ds & <- & F) G. specialize (F _ keeps_all []). specialize (G _ keeps_all []). rewrite F, !keeps_chunks in G. injection G as G. now symmetry.
Qed.
Lemma behaves_ok C (S : serialize (car C)) x v : serialises S x (id_of C x) (contents_of C x) ->
  is_identifier (id_of C x) /\ (nlen (contents_of C x) < usize_limit -> bytes_ok (contents_of C x)) -> nlen (der_of C x) <= isize_max -> behaves S x v ->
  calls_ok v /\ adds (c_id v) (id_of C x) /\ adds (c_contents v) (contents_of C x).
Proof.
  intros [Ei Ec Ai Ac] [Ii Bc] H (Bi & Bl & ci & cc & Pi & Pc & Wi & Wc).
  assert (nlen (id_of C x) + nlen (contents_of C x) <= isize_max) as HH by (unfold der_of, tlv in H; rewrite !nlen_app in H; lia).
  destruct (der_fits C x H) as [L1 L2].
  pose proof (emits_once _ _ ci Ei Wi) as Ei'. pose proof (emits_once _ _ cc Ec Wc) as Ec'.
  assert (forall a bs, announces a bs -> nlen bs < usize_limit -> answer_ok a) as AO by (intros a bs [-> | ->] ?; cbn [answer_ok]; auto).
  unfold calls_ok. rewrite Bi, Bl, Pi, Pc. split; [|split; [rewrite <- Ei' | rewrite <- Ec']; apply adds_program].
  split; [eapply AO; eauto|]. split; [eapply AO; [exact Ai | apply isize_lt; lia]|].
  split; [apply prog_ok_program; rewrite Ec'; [auto | lia] | apply prog_ok_program; rewrite Ei'; [now apply is_identifier_ok | lia]].
Qed.
(** The types bsn1_serde supports, provided or derived: [to_der] makes the encoding in memory. *)
Theorem C89_supported : forall E C S D x, good_env E -> supported E C S D -> wf C x -> nlen (der_of C x) <= isize_max ->
  (exists v, behaves S x v) /\
  forall v L ops Rp al h0, behaves S x v -> profiles L ops Rp -> good_allocator al ->
  match u_to_der L al false v h0 with Ends (Ok b) _ h => new_value L h0 b (der_of C x) h | EAbort => out_of_memory al | _ => False end /\
  match u_to_der (released L ops) al true v h0 with Ends (Ok b) _ h => new_value (released L ops) h0 b (der_of C x) h | EAbort => out_of_memory al | _ => False end.
Proof.
  intros E C S D x HE P Wx H. pose proof (supported_laws E C S D HE P) as LW. destruct (der_fits C x H) as [L1 L2].
  pose proof (l_ser _ _ _ _ LW x Wx L1) as SS. split.
  - destruct SS as [(ci & _ & Wi) (cc & _ & Wc) _ _].
    exists {| c_contents_len := der_contents_len S x; c_contents := program cc; c_id_len := id_len S x; c_id := program ci |}.
    split; [reflexivity|]. split; [reflexivity|]. exists ci, cc. auto.
  - intros v L ops Rp al h0 Bh Pr G. destruct (behaves_ok C S x v SS (l_codec _ _ _ _ LW x Wx) H Bh) as (V & Ai & Ac).
    destruct Bh as (Bi & Bl & _). destruct SS as [_ _ Ni Nc].
    apply (C89_honest L ops Rp al v (id_of C x) (contents_of C x) h0 Pr G V); rewrite ?Bi, ?Bl; assumption.
Qed.
Print Assumptions C89_supported.
(** A set of two integers: the contents are kept in a buffer of their own first. *)
Example C89_ex_supported :
  let v := {| c_contents_len := Ok None; c_contents := program [[2]; [1]; [7]; [2]; [1]; [9]]; c_id_len := Ok (Some 1); c_id := program [[0x31]] |} in
  good_allocator bump /\ calls_ok v /\ adds (c_id v) [0x31] /\ adds (c_contents v) [2; 1; 7; 2; 1; 9] /\ nlen (tlv [0x31] [2; 1; 7; 2; 1; 9]) <= isize_max /\
  match u_to_der LE bump false v [], u_to_der UE_release bump true v [] with
  | Ends (Ok b) _ h, Ends (Ok c) _ k => L_slice LE b h = Done [0x31; 6; 2; 1; 7; 2; 1; 9] h /\ L_slice UE_release c k = Done [0x31; 6; 2; 1; 7; 2; 1; 9] k
  | _, _ => False
  end.
Proof.
  cbv zeta. split; [apply bump_good|]. unfold calls_ok. cbn [c_id c_contents c_contents_len c_id_len].
  split; [split; [exact I|]; split; [now vm_compute|]; split; apply prog_ok_program; solve [repeat constructor; now vm_compute | now vm_compute]|].
  split; [apply (adds_program [[0x31]])|]. split; [apply (adds_program [[2]; [1]; [7]; [2]; [1]; [9]])|]. split; [now vm_compute|].
  now vm_compute.
Qed.
Example C89_ex_behaves : behaves ser_octets [1; 2; 3] {| c_contents_len := Ok (Some 3); c_contents := program [[1; 2; 3]]; c_id_len := Ok (Some 1); c_id := program [[4]] |}.
Proof.
  split; [reflexivity|]. split; [reflexivity|]. exists [[4]], [[1; 2; 3]]. split; [reflexivity|]. split; [reflexivity|].
  assert (K : forall S (W : writer S) bs s, write_all W bs s = write_chunks W [bs] s) by (intros S W bs s; cbn [write_chunks]; unfold wbind; destruct (write_all W bs s) as [[[]|e| |] s']; reflexivity).
  split; intros S W s; [apply (K S W [4]) | apply (K S W [1; 2; 3])].
Qed.

(** [write_der] owns nothing in the end, whatever the type and the writer do. *)
Theorem C89_write : forall L ops Rp al S v (k : sink S) s h0, profiles L ops Rp -> good_allocator al -> calls_ok v ->
  let outcome (x : ends S unit) :=
    match x with
    | Ends r s' h => (r, s') = write_result v k s /\ untouched h0 h
    | EAbort => out_of_memory al
    | EOversize => c_contents_len v = Ok None /\ refused (c_contents v) [] = true
    | EUB => False
    end in
  outcome (u_write_der L al v k s h0) /\ outcome (u_write_der (released L ops) al v k s h0).
Proof.
  intros L ops Rp al S v k s h0 P G V. destruct (profiles_facts al L ops Rp G P) as (HL & RO). destruct (layouts_facts al L Rp G HL) as (BR & big & _).
  split; [apply (write_der_ends L al Rp BR); eauto|].
  apply (write_der_ends (released L ops) al Rp (released_refines L al Rp BR ops RO)); [exact (released_big L al Rp ops BR RO big) | assumption].
Qed.
Print Assumptions C89_write.
(** A writer that panics at its third call, while the contents lie in a buffer. *)
Example C89_ex_write :
  let v := {| c_contents_len := Ok None; c_contents := program [[2]; [1]; [7]]; c_id_len := Ok None; c_id := program [[0x31]] |} in
  let all := fun (bs : list N) (s : N * list N) => if fst s <? 2 then (Ok tt, (fst s + 1, (snd s ++ bs)%list)) else (Panic, s) in
  let k := {| k_id := all [0x31]; k_contents := all [2; 1; 7]; k_all := all |} in
  calls_ok v /\ match u_write_der LE bump v k (0, []) [], u_write_der UE bump v k (0, []) [], u_write_der LE_release bump v k (0, []) [] with
  | Ends Panic (2, [0x31; 3]) h, Ends Panic _ h', Ends Panic _ h'' => untouched [] h /\ untouched [] h' /\ untouched [] h''
  | _, _, _ => False
  end.
Proof.
  cbv zeta. unfold calls_ok. cbn [c_id c_contents c_contents_len c_id_len].
  split; [split; [exact I|]; split; [exact I|]; split; apply prog_ok_program; solve [repeat constructor; now vm_compute | now vm_compute]|].
  vm_compute. repeat split; intros []; reflexivity.
Qed.
(** Of supported types it does in memory what [write_der] was shown to do (C25, C67, C87). *)
Theorem C89_write_supported : forall E C S D x, good_env E -> supported E C S D -> wf C x -> nlen (der_of C x) <= isize_max ->
  forall v L ops Rp al h0 St (W : writer St) s, behaves S x v -> profiles L ops Rp -> good_allocator al ->
  let k := {| k_id := write_id S W x; k_contents := write_der_contents S W x; k_all := write_all W |} in
  let outcome (y : ends St unit) :=
    match y with Ends r s' h => (r, s') = write_der E S W x s /\ untouched h0 h | EAbort => out_of_memory al | _ => False end in
  outcome (u_write_der L al v k s h0) /\ outcome (u_write_der (released L ops) al v k s h0).
Proof.
  intros E C S D x HE P Wx H v L ops Rp al h0 St W s Bh Pr G k. pose proof (supported_laws E C S D HE P) as LW. destruct (der_fits C x H) as [L1 L2].
  pose proof (l_ser _ _ _ _ LW x Wx L1) as SS. pose proof (behaves_ok C S x v SS (l_codec _ _ _ _ LW x Wx) H Bh) as (V & _ & Ac).
  destruct Bh as (Bi & Bl & ci & cc & Pi & Pc & Wi & Wc).
  assert (KEY : (forall r s', (r, s') = write_result v k s -> (r, s') = write_der E S W x s) /\ ~ (c_contents_len v = Ok None /\ refused (c_contents v) [] = true)).
  { destruct (Ac [] ltac:(rewrite nlen_nil; lia)) as (EL & ER). split; [|intros (_ & X); congruence].
    assert (write_result v k s = write_der E S W x s) as ->; [|auto].
    unfold write_result, write_der, contents_or_len. rewrite Bl, EL. unfold wbind, wlift, next, k. cbn [k_id k_contents k_all app].
    destruct (ss_contents_len _ _ _ _ SS) as [->| ->]; cbn [rbind fst snd].
    - destruct (emits_buffer (e_cfg E) _ _ (bf_new (e_cfg E)) [] (ss_contents _ _ _ _ SS) (holds_new _) L1) as (b & Eb & Hb).
      rewrite Eb. cbn [rbind fst snd]. rewrite (holds_len _ _ Hb), (holds_slice _ _ Hb). cbn [app].
      destruct (write_id S W x s) as [[[]|e| |] s1]; try reflexivity. destruct (write_all W _ s1) as [[[]|e| |] s2]; reflexivity.
    - destruct (write_id S W x s) as [[[]|e| |] s1]; try reflexivity. destruct (write_all W _ s1) as [[[]|e| |] s2]; reflexivity. }
  destruct KEY as (K1 & K2). destruct (C89_write L ops Rp al St v k s h0 Pr G V) as (A & B).
  cbv zeta. split; [destruct (u_write_der L al v k s h0) | destruct (u_write_der (released L ops) al v k s h0)]; try easy; [destruct A | destruct B]; auto.
Qed.
Print Assumptions C89_write_supported.
