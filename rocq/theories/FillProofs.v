(** With a reader that writes what it reports, parsing depends on the reader alone. *)
From Coq Require Import Lia.
From Verif Require Import Base ModelIo ModelTag ModelContents ModelBuf ModelTlv ModelHeap ModelTlvRaw ModelUnwind ModelRelease
  Spec SpecIo SpecBuf SpecTlv SpecUnwind SpecRelease SpecFill TagProofs IdProofs BufProofs TlvProofs RawProofs RawMain RawTlv RawStream UnwindProofs RelProofs LooseProofs UseRelease SerRawProofs LieProofs.

Definition reserve_big (L : layout) (al : allocator) (Rp : L_raw L -> heap -> buf -> option N -> Prop) : Prop :=
  forall r h b own k, Rp r h b own -> isize_max < b_len b + k -> L_reserve L al k r h = Crash \/ L_reserve L al k r h = UB.
Section FILL.
Context {S : Type} (R : user_reader S) (W : writes_octets R) (F : fills R).
(** Programs for every layout and allocator. *)
Notation prog A := (forall L : layout, allocator -> B L (S := S) A).
(** How [m] ends from reader [s] with octets [w] in the buffer does not depend on the rest.
    Asking for too much is a panic or [ROversize]. *)
Definition det {A} (m : prog A) : Prop :=
  forall s0 w, exists r0 s1 w1, forall L al Rp, buffer_refines L al Rp -> reserve_big L al Rp ->
    triple L al Rp (r0 = Panic) (fun s bf => s = s0 /\ holds bf w) (m L al) (fun r s bf => r = r0 /\ s = s1 /\ (forall a, r = Ok a -> holds bf w1)).
Lemma t_weaken {A} L al Rp (O O' : Prop) P (m : B L (S := S) A) Q : (O -> O') -> triple L al Rp O P m Q -> triple L al Rp O' P m Q.
Proof using. intros HO T s b h bf own Hr HP. specialize (T s b h bf own Hr HP). unfold post in *. destruct (m s b h); auto. Qed.
Lemma d_stop {A} (r : res A) : det (fun L al s b h => Run r s b h).
Proof using. intros s0 w. exists r, s0, w. intros L al Rp BR big. apply t_stop. intros s bf (-> & H). auto. Qed.
Lemma d_bind {A C} (m : prog A) (k : A -> prog C) : det m -> (forall a, det (k a)) -> det (fun L al => bbind L (m L al) (fun a => k a L al)).
Proof using.
  intros M K s0 w. destruct (M s0 w) as (r0 & s1 & w1 & T). destruct r0 as [a|e| |].
  - destruct (K a s1 w1) as (r2 & s2 & w2 & T2). exists r2, s2, w2. intros L al Rp BR big.
    eapply t_bind; [exact BR | eapply t_weaken; [|apply (T L al Rp BR big)]; discriminate | | | |]; cbv beta; try (intros ? ? ? (X & _); discriminate X) || (intros ? ? (X & _); discriminate X).
    intros a'. eapply t_conseq; [|intros s bf X; exact X | intros r s bf X; exact X].
    intros s b h bf own Hr ([= ->] & -> & X). exact (T2 L al Rp BR big s1 b h bf own Hr (conj eq_refl (X a eq_refl))).
  - exists (Err e), s1, w1. intros L al Rp BR big. eapply t_bind; [exact BR | eapply t_weaken; [|apply (T L al Rp BR big)]; discriminate | | | |]; cbv beta.
    + intros a s b h bf own Hr (X & _). discriminate X.
    + intros e' s bf ([= ->] & -> & _). repeat split. discriminate.
    + intros s bf (X & _). discriminate X.
    + intros s bf (X & _). discriminate X.
  - exists Panic, s1, w1. intros L al Rp BR big. eapply t_bind; [exact BR | eapply t_weaken; [|apply (T L al Rp BR big)]; reflexivity | | | |]; cbv beta.
    + intros a s b h bf own Hr (X & _). discriminate X.
    + intros e s bf (X & _). discriminate X.
    + intros s bf (_ & -> & _). repeat split. discriminate.
    + intros s bf (X & _). discriminate X.
  - exists NoFuel, s1, w1. intros L al Rp BR big. eapply t_bind; [exact BR | eapply t_weaken; [|apply (T L al Rp BR big)]; discriminate | | | |]; cbv beta.
    + intros a s b h bf own Hr (X & _). discriminate X.
    + intros e s bf (X & _). discriminate X.
    + intros s bf (X & _). discriminate X.
    + intros s bf (_ & -> & _). repeat split. discriminate.
Qed.
Lemma t_after {A} L al Rp O P (m : B L (S := S) A) Q : buffer_refines L al Rp -> triple L al Rp O P m Q -> triple L al Rp O P m (fun r s bf => Q r s bf /\ b_len bf <= isize_max).
Proof using.
  intros BR T s b h bf own Hr HP. specialize (T s b h bf own Hr HP). unfold post in *. destruct (m s b h) as [r s' b' h'| | |]; auto.
  destruct T as (bf' & own' & R' & F' & X). exists bf', own'. repeat split; auto; try apply F'. now destruct (rp_holds L al Rp BR _ _ _ _ R') as (_ & _ & _ & Hl).
Qed.
Lemma d_write x : x < 256 -> det (fun L al => u_write_u8 L al x).
Proof using.
  intros Hx s0 w. destruct (N.le_gt_cases (nlen w + 1) isize_max) as [Hn|Hn].
  - exists (Ok tt), s0, (w ++ [x]). intros L al Rp BR big. eapply t_conseq; [apply (t_write L al Rp BR big (Ok tt = Panic) x w s0 Hx ltac:(lia)) | auto |].
    intros [[]|e| |] s bf (-> & X); try contradiction; [repeat split; auto | lia].
  - exists Panic, s0, w. intros L al Rp BR big. eapply t_conseq; [apply (t_after L al Rp _ _ _ _ BR (t_write L al Rp BR big (@Panic unit = Panic) x w s0 Hx (fun _ => eq_refl))) | auto |].
    intros [[]|e| |] s bf ((-> & X) & Y); try contradiction; [|repeat split; discriminate].
    rewrite (holds_len _ _ X), nlen_app in Y. change (nlen [x]) with 1 in Y. lia.
Qed.
Lemma d_then {C} (k : N -> prog C) : (forall x, x < 256 -> det (k x)) -> det (fun L al => bbind L (u_read_u8 L R) (fun x => k x L al)).
Proof using W.
  intros K s0 w. destruct (u_read R s0 1) as [[got e] s1] eqn:E.
  assert (T : forall L al Rp O, triple L al Rp O (fun s bf => s = s0 /\ holds bf w) (u_read_u8 L R) (fun r s bf => r = u8_of got e /\ s = s1 /\ holds bf w)).
  { intros L al Rp O. apply t_read_u8. intros s bf got' e' s' (-> & H) E'. rewrite E in E'. injection E' as <- <- <-. auto. }
  destruct (u8_of got e) as [x|er| |] eqn:E8.
  - assert (Hx : x < 256).
    { pose proof (proj1 (W s0 1)) as O1. rewrite E in O1. cbn [fst] in O1. destruct e as [[|[p|p|]]|k'| |]; cbn [u8_of] in E8; try discriminate. injection E8 as <-.
      destruct got as [|y got]; [reflexivity | now apply Forall_cons_iff in O1]. }
    destruct (K x Hx s1 w) as (r2 & s2 & w2 & T2). exists r2, s2, w2. intros L al Rp BR big.
    eapply t_bind; [exact BR | apply (T L al Rp) | | | |]; cbv beta; try (intros ? ? ? (X & _); discriminate X) || (intros ? ? (X & _); discriminate X).
    intros a s b h bf own Hr ([= ->] & -> & X). exact (T2 L al Rp BR big s1 b h bf own Hr (conj eq_refl X)).
  - exists (Err er), s1, w. intros L al Rp BR big. eapply t_bind; [exact BR | apply (T L al Rp) | | | |]; cbv beta.
    + intros a s b h bf own Hr (X & _). discriminate X.
    + intros e' s bf ([= ->] & -> & _). repeat split. discriminate.
    + intros s bf (X & _). discriminate X.
    + intros s bf (X & _). discriminate X.
  - exists Panic, s1, w. intros L al Rp BR big. eapply t_bind; [exact BR | apply (T L al Rp) | | | |]; cbv beta.
    + intros a s b h bf own Hr (X & _). discriminate X.
    + intros e' s bf (X & _). discriminate X.
    + intros s bf (_ & -> & _). repeat split. discriminate.
    + intros s bf (X & _). discriminate X.
  - exists NoFuel, s1, w. intros L al Rp BR big. eapply t_bind; [exact BR | apply (T L al Rp) | | | |]; cbv beta.
    + intros a s b h bf own Hr (X & _). discriminate X.
    + intros e' s bf (X & _). discriminate X.
    + intros s bf (X & _). discriminate X.
    + intros s bf (_ & -> & _). repeat split. discriminate.
Qed.
(** The length of the buffer is known. *)
Lemma d_len {C} (k : N -> prog C) : (forall x, det (k x)) -> det (fun L al => bbind L (blen L) (fun x => k x L al)).
Proof using.
  intros K s0 w. destruct (K (nlen w) s0 w) as (r & s1 & w1 & T). exists r, s1, w1. intros L al Rp BR big.
  eapply t_bind; [exact BR | apply (t_len L al Rp BR _ _ (fun r s bf => r = Ok (nlen w) /\ s = s0 /\ holds bf w)); intros s bf (-> & X); now rewrite (holds_len _ _ X)| | | |]; cbv beta; try (intros ? ? ? (X & _); discriminate X) || (intros ? ? (X & _); discriminate X).
  intros a s b h bf own Hr ([= ->] & -> & X). exact (T L al Rp BR big s0 b h bf own Hr (conj eq_refl X)).
Qed.
Lemma d_id_loop fuel : forall o, o < 256 -> det (fun L al => u_parse_id_loop L al R fuel o).
Proof using W.
  induction fuel as [|fuel IH]; intros o Ho; cbn [u_parse_id_loop]; [apply d_stop|].
  apply (d_bind (fun L al => u_write_u8 L al o) (fun _ L al => if negb (N.land o MORE_FLAG =? MORE_FLAG) then bret tt else bbind L (u_read_u8 L R) (fun o => u_parse_id_loop L al R fuel o))); [now apply d_write|].
  intros _. destruct (negb _); [apply (d_stop (Ok tt))|]. now apply d_then.
Qed.
Lemma d_len_loop k : forall n, det (fun L al => u_parse_length_loop L al R k n).
Proof using W.
  induction k as [|k IH]; intros n; cbn [u_parse_length_loop]; [apply (d_stop (Ok (Definite n)))|].
  apply (d_then (fun x L al => bbind L (u_write_u8 L al x) (fun _ => u_parse_length_loop L al R k (N.shiftl n 8 mod usize_limit + x)))). intros x Hx.
  apply (d_bind (fun L al => u_write_u8 L al x) (fun _ L al => u_parse_length_loop L al R k (N.shiftl n 8 mod usize_limit + x))); [now apply d_write|]. intros _. apply IH.
Qed.
Ltac dwrite x Hx := match goal with |- det (fun L al => bbind _ _ (fun a => @?k L al a)) => apply (d_bind (fun L al => u_write_u8 L al x) (fun a L al => k L al a)); [now apply d_write | intros _; cbv beta] end.
Ltac dread := match goal with |- det (fun L al => bbind _ _ (fun a => @?k L al a)) => apply (d_then (fun a L al => k L al a)); cbv beta end.
Lemma d_header fuel : det (fun L al => u_parse_id_length L al R fuel).
Proof using W.
  unfold u_parse_id_length. apply (d_bind (fun L al => u_parse_id L al R fuel) (fun _ L al => u_parse_length L al R)).
  - unfold u_parse_id. dread. intros x Hx. dwrite x Hx. destruct (negb _); [apply (d_stop (Ok tt))|]. dread. intros o Ho.
    destruct (o <=? _); [apply (d_stop (Err RedundantBytes))|]. destruct (o =? _); [apply (d_stop (Err RedundantBytes))|]. now apply d_id_loop.
  - intros _. unfold u_parse_length. dread. intros x Hx. dwrite x Hx. destruct (x =? _); [apply (d_stop (Ok Indefinite))|]. destruct (negb _); [apply (d_stop (Ok (Definite x)))|].
    dread. intros o Ho. destruct (o =? 0); [apply (d_stop (Err RedundantBytes))|]. dwrite o Ho. cbv zeta.
    destruct (_ && _)%bool; [apply (d_stop (Err RedundantBytes))|]. destruct (8 <? _); [apply (d_stop (Err OverFlow))|]. apply d_len_loop.
Qed.
(** The rest of a value: [n] octets by [f], which has written [k] of them at least, if it reports [k]. *)
Lemma filled_holds n w got bf : filled n w got bf -> n <= nlen got -> b_len bf <= isize_max -> bytes_ok (b_mem bf) -> holds bf (w ++ take n got).
Proof using.
  intros (tl & M & Ln & Bt) Hn Hl Bm. exists tl. rewrite <- app_assoc. split; [assumption|]. split; [|assumption]. rewrite nlen_app, nlen_take. lia.
Qed.
Lemma t_facts {A} L al Rp O P (m : B L (S := S) A) Q : buffer_refines L al Rp -> triple L al Rp O P m Q -> triple L al Rp O P m (fun r s bf => Q r s bf /\ b_len bf <= isize_max /\ bytes_ok (b_mem bf)).
Proof using.
  intros BR T s b h bf own Hr HP. specialize (T s b h bf own Hr HP). unfold post in *. destruct (m s b h) as [r s' b' h'| | |]; auto.
  destruct T as (bf' & own' & R' & F' & X). exists bf', own'. split; [assumption|]. split; [assumption|]. split; [assumption|].
  destruct (br_observe _ _ _ BR _ _ _ _ R') as (_ & _ & A1 & A2 & A3 & _). split; [lia | assumption].
Qed.
Ltac no := try (intros ? ? ? (X & _); discriminate X); try (intros ? ? (X & _); discriminate X).
(** Room for [n] octets, the length set, and the call. *)
Definition der_tail L al n : B L (S := S) unit :=
  bbind L (blen L) (fun id_length_len => bbind L (badd L id_length_len n) (fun total => bbind L (breserve L al n) (fun _ => bbind L (bmut L (L_set_len_checked L total))
    (fun _ => bbind L (bcall L (u_read R) id_length_len n) (fun c => if c <? n then bfail L UnterminatedBytes else bret tt))))).
Lemma d_der_tail n : det (fun L al => der_tail L al n).
Proof using W F.
  intros s0 w. destruct (N.le_gt_cases (nlen w + n) isize_max) as [Hn|Hn].
  - destruct (u_read R s0 n) as [[got e] s1] eqn:E.
    exists (match call_res e with Ok c => if c <? n then Err UnterminatedBytes else Ok tt | Err er => Err er | Panic => Panic | NoFuel => NoFuel end), s1, (w ++ take n got).
    intros L al Rp BR big. set (O := _ = Panic). unfold der_tail.
    eapply t_bind; [exact BR | apply (t_len L al Rp BR _ _ (fun r s bf => r = Ok (nlen w) /\ s = s0 /\ holds bf w)); intros s bf (-> & X); now rewrite (holds_len _ _ X)| | | |]; cbv beta; no.
    intros x. apply t_conseq with (P := fun s bf => x = nlen w /\ s = s0 /\ holds bf w) (Q := fun r s bf => r = (match call_res e with Ok c => if c <? n then Err UnterminatedBytes else Ok tt | Err er => Err er | Panic => Panic | NoFuel => NoFuel end) /\ s = s1 /\ (forall a, r = Ok a -> holds bf (w ++ take n got))); [|intros s bf ([= ->] & X); auto | auto].
    apply t_pure. intros ->. unfold badd. destruct (N.ltb_spec (nlen w + n) usize_limit) as [_|X]; [|unfold isize_max, usize_limit in *; lia].
    eapply t_bind; [exact BR | apply (t_stop L al Rp O _ (Ok (nlen w + n)) (fun r s bf => r = Ok (nlen w + n) /\ s = s0 /\ holds bf w)); auto| | | |]; cbv beta; no.
    intros a. eapply t_conseq with (P := fun s bf => a = nlen w + n /\ s = s0 /\ holds bf w); [|intros s bf ([= ->] & X); auto | intros r s bf X; exact X]. apply t_pure. intros ->.
    eapply t_bind; [exact BR | apply (t_room L al Rp BR big O n w s0 ltac:(lia))| | | |]; cbv beta; [|intros ? ? ? (_ & []) | intros ? ? (_ & X & _); lia | intros ? ? (_ & [])].
    intros []. eapply t_bind; [exact BR | eapply t_conseq; [apply (t_stretch L al Rp BR O n w s0) | intros s bf (-> & _ & X); auto | intros r s bf X; exact X]| | | |]; cbv beta; [|intros ? ? ? (_ & X & _); discriminate X | intros ? ? (_ & X & _); discriminate X ..].
    intros []. eapply t_bind; [exact BR | eapply t_conseq; [apply (t_facts L al Rp _ _ _ _ BR (t_call L al Rp BR big O (u_read R) n w s0 got e s1 E ltac:(now pose proof (proj1 (W s0 n)) as X; rewrite E in X))) | intros s bf (-> & _ & X); auto | intros r s bf X; exact X]| | | |]; cbv beta.
    + intros c. cbn beta. destruct e as [k|k| |]; cbn [call_res].
      * eapply t_conseq with (P := fun s bf => c = k /\ s = s1 /\ filled n w got bf /\ b_len bf <= isize_max /\ bytes_ok (b_mem bf)); [|intros s bf ((-> & [= ->] & X) & Y & Z); auto 8 | intros r s bf X; exact X].
        apply t_pure. intros ->. destruct (N.ltb_spec k n); apply t_stop; intros s bf (-> & X & Y & Z); (split; [reflexivity|]); (split; [reflexivity|]); [discriminate|]. intros _ _.
        apply filled_holds; auto. destruct (F s0 n) as (F1 & _). specialize (F1 _ _ _ E). lia.
      * intros s b h bf own Hr ((_ & X & _) & _). discriminate X.
      * intros s b h bf own Hr ((_ & X & _) & _). discriminate X.
      * intros s b h bf own Hr ((_ & X & _) & _). discriminate X.
    + intros er s bf ((-> & X & _) & _). rewrite <- X. repeat split. discriminate.
    + intros s bf ((-> & X & _) & _). rewrite <- X. repeat split. discriminate.
    + intros s bf ((-> & X & _) & _). rewrite <- X. repeat split. discriminate.
  - exists Panic, s0, w. intros L al Rp BR big. unfold der_tail.
    eapply t_bind; [exact BR | apply (t_len L al Rp BR _ _ (fun r s bf => r = Ok (nlen w) /\ s = s0 /\ holds bf w)); intros s bf (-> & X); now rewrite (holds_len _ _ X)| | | |]; cbv beta; no.
    intros x. apply t_conseq with (P := fun s bf => x = nlen w /\ s = s0 /\ holds bf w) (Q := fun r s bf => r = Panic /\ s = s0 /\ (forall a, r = Ok a -> holds bf w)); [|intros s bf ([= ->] & X); auto | auto].
    apply t_pure. intros ->. unfold badd. destruct (nlen w + n <? usize_limit).
    + eapply t_bind; [exact BR | apply (t_stop L al Rp _ _ (Ok (nlen w + n)) (fun r s bf => r = Ok (nlen w + n) /\ s = s0 /\ holds bf w)); auto| | | |]; cbv beta; no.
      intros a. eapply t_conseq with (P := fun s bf => a = nlen w + n /\ s = s0 /\ holds bf w); [|intros s bf ([= ->] & X); auto | intros r s bf X; exact X]. apply t_pure. intros ->.
      eapply t_bind; [exact BR | apply (t_room L al Rp BR big _ n w s0 (fun _ => eq_refl))| | | |]; cbv beta; [|intros ? ? ? (_ & []) | intros ? ? (-> & _); repeat split; discriminate | intros ? ? (_ & [])].
      intros a s b h bf own Hr (_ & X & _). lia.
    + eapply t_bind; [exact BR | apply (t_stop L al Rp _ _ Panic (fun r s bf => r = Panic /\ s = s0 /\ holds bf w)); intros s bf (-> & X); auto| | | |]; cbv beta; no.
      * intros a s b h bf own Hr (X & _). discriminate X.
      * intros s bf (_ & -> & _). repeat split. discriminate.
Qed.
Lemma d_Der fuel : det (fun L al => u_Der_body L al R fuel).
Proof using W F.
  unfold u_Der_body. apply (d_bind (fun L al => u_parse_id_length L al R fuel) (fun l L al => match l with Indefinite => bfail L IndefiniteLength | Definite n => der_tail L al n end)); [apply d_header|].
  intros [|n]; [apply (d_stop (Err IndefiniteLength)) | apply d_der_tail].
Qed.
Definition ber_tail L al (il n : N) : B L (S := S) Z :=
  bbind L (breserve L al n) (fun _ => bbind L (blen L) (fun cl => bbind L (badd L cl n) (fun total => bbind L (bmut L (L_set_len_checked L total))
    (fun _ => bbind L (bcall L (u_read_exact R) cl n) (fun _ => bbind L (bslice L) (fun bs => bret (if bytes_eqb (drop il bs) EOC then (-1)%Z else 0%Z))))))).
Lemma d_ber_tail il n : det (fun L al => ber_tail L al il n).
Proof using W F.
  intros s0 w. destruct (N.le_gt_cases (nlen w + n) isize_max) as [Hn|Hn].
  - destruct (u_read_exact R s0 n) as [[got e] s1] eqn:E.
    set (r0 := match call_res e with Ok c => Ok (if bytes_eqb (drop il (w ++ take n got)) EOC then (-1)%Z else 0%Z) | Err er => Err er | Panic => Panic | NoFuel => NoFuel end).
    exists r0, s1, (w ++ take n got). intros L al Rp BR big. set (O := _ = Panic). unfold ber_tail.
    eapply t_bind; [exact BR | apply (t_room L al Rp BR big O n w s0 ltac:(lia))| | | |]; cbv beta; [|intros ? ? ? (_ & []) | intros ? ? (_ & X & _); lia | intros ? ? (_ & [])].
    intros []. eapply t_bind; [exact BR | apply (t_len L al Rp BR _ _ (fun r s bf => r = Ok (nlen w) /\ s = s0 /\ spacious n w bf)); intros s bf (-> & _ & X)| | | |]; cbv beta; no.
    { pose proof X as (sp & E1 & El & _). rewrite El. auto. }
    intros x. apply t_conseq with (P := fun s bf => x = nlen w /\ s = s0 /\ spacious n w bf) (Q := fun r s bf => r = r0 /\ s = s1 /\ (forall a, r = Ok a -> holds bf (w ++ take n got))); [|intros s bf ([= ->] & X); auto | auto].
    apply t_pure. intros ->. unfold badd. destruct (N.ltb_spec (nlen w + n) usize_limit) as [_|X]; [|unfold isize_max, usize_limit in *; lia].
    eapply t_bind; [exact BR | apply (t_stop L al Rp O _ (Ok (nlen w + n)) (fun r s bf => r = Ok (nlen w + n) /\ s = s0 /\ spacious n w bf)); auto| | | |]; cbv beta; no.
    intros a. eapply t_conseq with (P := fun s bf => a = nlen w + n /\ s = s0 /\ spacious n w bf); [|intros s bf ([= ->] & X); auto | intros r s bf X; exact X]. apply t_pure. intros ->.
    eapply t_bind; [exact BR | apply (t_stretch L al Rp BR O n w s0)| | | |]; cbv beta; [|intros ? ? ? (_ & X & _); discriminate X | intros ? ? (_ & X & _); discriminate X ..].
    intros []. eapply t_bind; [exact BR | eapply t_conseq; [apply (t_facts L al Rp _ _ _ _ BR (t_call L al Rp BR big O (u_read_exact R) n w s0 got e s1 E ltac:(now pose proof (proj2 (W s0 n)) as X; rewrite E in X))) | intros s bf (-> & _ & X); auto | intros r s bf X; exact X]| | | |]; cbv beta.
    + intros c. destruct e as [k|k| |]; cbn [call_res] in *; try (intros s b h bf own Hr ((_ & X & _) & _); discriminate X).
      eapply t_bind; [exact BR | apply (t_slice L al Rp BR _ _ (fun r s bf => r = Ok (w ++ take n got) /\ s = s1 /\ holds bf (w ++ take n got)))| | | |]; cbv beta; no.
      * intros s bf ((-> & _ & X) & Y & Z). destruct (F s0 n) as (_ & F2). specialize (F2 _ _ _ E). pose proof (filled_holds n w got bf X F2 Y Z) as H. now rewrite (holds_slice _ _ H).
      * intros bs s b h bf own Hr ([= ->] & -> & X). exists bf, own. unfold r0. auto using frame_refl.
    + intros er s bf ((-> & X & _) & _). unfold r0. rewrite <- X. repeat split. discriminate.
    + intros s bf ((-> & X & _) & _). unfold r0. rewrite <- X. repeat split. discriminate.
    + intros s bf ((-> & X & _) & _). unfold r0. rewrite <- X. repeat split. discriminate.
  - exists Panic, s0, w. intros L al Rp BR big. unfold ber_tail.
    eapply t_bind; [exact BR | apply (t_room L al Rp BR big _ n w s0 (fun _ => eq_refl))| | | |]; cbv beta; [|intros ? ? ? (_ & []) | intros ? ? (-> & _); repeat split; discriminate | intros ? ? (_ & [])].
    intros a s b h bf own Hr (_ & X & _). lia.
Qed.
Lemma d_Ber_step fuel : det (fun L al => u_Ber_do_parse L al R fuel).
Proof using W F.
  unfold u_Ber_do_parse. apply (d_len (fun il L al => bbind L (u_parse_id_length L al R fuel) (fun l => match l with Definite n => ber_tail L al il n | Indefinite => bret 1%Z end))).
  intros il. apply (d_bind (fun L al => u_parse_id_length L al R fuel) (fun l L al => match l with Definite n => ber_tail L al il n | Indefinite => bret 1%Z end)); [apply d_header|].
  intros [|n]; [apply (d_stop (Ok 1%Z)) | apply d_ber_tail].
Qed.
Lemma d_Ber_loop ifuel fuel : forall d, det (fun L al => u_Ber_loop L al R ifuel fuel d).
Proof using W F.
  induction fuel as [|fuel IH]; intros d; cbn [u_Ber_loop]; [apply d_stop|].
  apply (d_bind (fun L al => u_Ber_do_parse L al R ifuel) (fun z L al => if (0 <? d + z)%Z then u_Ber_loop L al R ifuel fuel (d + z)%Z else bret tt)); [apply d_Ber_step|].
  intros z. destruct (0 <? _)%Z; [apply IH | apply (d_stop (Ok tt))].
Qed.
Lemma d_owning (m : prog unit) s : det m -> exists r s1, forall L al Rp h0, buffer_refines L al Rp -> reserve_big L al Rp -> settled L al r s1 (owning L (m L al) s (L_new L) h0).
Proof using.
  intros M. destruct (M s []) as (r0 & s1 & w1 & T). exists (match r0 with Ok _ => Ok w1 | Err e => Err e | Panic => Panic | NoFuel => NoFuel end), s1. intros L al Rp h0 BR big.
  pose proof (owning_rep L al Rp BR (r0 = Panic) (m L al) _ s (L_new L) h0 _ None h0
    (t_conseq L al Rp _ _ (fun s' bf' => s' = s /\ bf' = bf_new {| init_cap := L_init_cap L; junk := fun _ => 0 |}) _ _ _ (T L al Rp BR big) ltac:(intros ? ? (-> & ->); split; [reflexivity | apply holds_new]) (fun _ _ _ x => x))
    (br_new _ _ _ BR h0 (fun _ => 0)) (frame_refl None h0)) as K. unfold settled. cbv beta in K.
  destruct (owning L (m L al) s (L_new L) h0) as [[b|e| |] s' h'| | |]; auto.
  - destruct K as (bf & own & (<- & -> & X) & R' & _). split; [reflexivity|]. rewrite (rp_slice L al Rp BR _ _ _ _ R'), (holds_slice _ _ (X tt eq_refl)). reflexivity.
  - destruct K as (bf & r' & (<- & -> & _) & _ & X). destruct r'; try contradiction. auto.
  - destruct K as (bf & r' & (<- & -> & _) & _ & X). destruct r'; try contradiction. auto.
  - destruct K as (bf & r' & (<- & -> & _) & _ & X). destruct r'; try contradiction. auto.
  - now rewrite K.
Qed.
Theorem der_parse_settled fuel s : exists r s1, forall L al Rp h0, buffer_refines L al Rp -> reserve_big L al Rp -> settled L al r s1 (u_Der_parse L al R fuel s h0).
Proof using W F. exact (d_owning (fun L al => u_Der_body L al R fuel) s (d_Der fuel)). Qed.
Theorem ber_parse_settled fuel s : exists r s1, forall L al Rp h0, buffer_refines L al Rp -> reserve_big L al Rp -> settled L al r s1 (u_Ber_parse L al R fuel s h0).
Proof using W F. exact (d_owning (fun L al => u_Ber_loop L al R fuel fuel 0) s (d_Ber_loop fuel fuel 0%Z)). Qed.
End FILL.
Lemma settled_agree (L : layout) al Rp (BR : buffer_refines L al Rp) ops {S} P h0 r s (x y : ends S (L_raw L)) : agree x y -> ends_rep L al Rp P h0 x -> settled L al r s x -> settled (released L ops) al r s y.
Proof.
  unfold agree, ends_rep, settled. destruct x as [r1 s1 h| | |], y as [r2 s2 h'| | |]; try easy. intros (-> & -> & U) K (-> & X). split; [reflexivity|].
  destruct r1 as [b|e| |]; [|exact X ..]. destruct r as [bs|e| |]; try contradiction. destruct K as (bf & own & bs' & Rb & _).
  assert (R' : Rp b h' bf own) by (apply (br_frame _ _ _ BR _ _ _ _ _ Rb); intros a _; apply U).
  change (L_slice (released L ops)) with (L_slice L). rewrite (rp_slice L al Rp BR _ _ _ _ Rb) in X. rewrite (rp_slice L al Rp BR _ _ _ _ R'). injection X as ->. reflexivity.
Qed.
