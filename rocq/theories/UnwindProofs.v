(** Unwinding: what is left in memory (ModelUnwind.v). *)
From Verif Require Import Base ModelIo ModelTag ModelContents ModelBuf ModelTlv ModelHeap ModelBufLE ModelBufUE ModelTlvRaw ModelUnwind
  Spec SpecIo SpecBuf SpecTlv SpecUnwind TagProofs IdProofs TagMain ContentsProofs TlvProofs BufProofs TlvMain StreamProofs StreamMain
  RawProofs RawMain RawTlv RawStream RawEdges.

Section TRIPLES.
Context (L : layout) (al : allocator) (G : good_allocator al)
        (Rp : L_raw L -> heap -> buf -> option N -> Prop) (BR : buffer_refines L al Rp)
        (big : forall r h b own k, Rp r h b own -> isize_max < b_len b + k -> L_reserve L al k r h = Crash \/ L_reserve L al k r h = UB).
Context {S : Type} (O : Prop).
Notation raw := (L_raw L).
Notation cf j := {| init_cap := L_init_cap L; junk := j |}.
Notation B := (B L (S := S)).
Notation "x <~ m ; k" := (bbind L m (fun x => k)) (at level 61, m at next level, right associativity).

(** [post]: how a run that began with [own] and [h] may end. *)
Definition post {A} (own : option N) (h : heap) (x : run S raw A) (Q : res A -> S -> buf -> Prop) : Prop :=
  match x with
  | Run r s' b' h' => exists bf' own', Rp b' h' bf' own' /\ frame own own' h h' /\ Q r s' bf'
  | RAbort => out_of_memory al
  | ROversize => O
  | RUB => False
  end.
Definition triple {A} (P : S -> buf -> Prop) (m : B A) (Q : res A -> S -> buf -> Prop) : Prop :=
  forall s b h bf own, Rp b h bf own -> P s bf -> post own h (m s b h) Q.

Lemma t_conseq {A} (P P' : S -> buf -> Prop) (m : B A) (Q Q' : res A -> S -> buf -> Prop) : triple P m Q -> (forall s bf, P' s bf -> P s bf) -> (forall r s bf, Q r s bf -> Q' r s bf) -> triple P' m Q'.
Proof.
  intros T HP HQ s b h bf own R H. specialize (T s b h bf own R (HP _ _ H)). unfold post in *. destruct (m s b h); auto.
  destruct T as (bf' & o' & R' & F' & K). eauto 6.
Qed.
Lemma t_stop {A} (P : S -> buf -> Prop) (r : res A) (Q : res A -> S -> buf -> Prop) : (forall s bf, P s bf -> Q r s bf) -> triple P (fun s b h => Run r s b h) Q.
Proof. intros H s b h bf own R K. exists bf, own. auto using frame_refl. Qed.
Lemma t_bind {A C} P (m : B A) (k : A -> B C) (Q : res A -> S -> buf -> Prop) (Q' : res C -> S -> buf -> Prop) : triple P m Q ->
  (forall a, triple (fun s bf => Q (Ok a) s bf) (k a) Q') ->
  (forall e s bf, Q (Err e) s bf -> Q' (Err e) s bf) -> (forall s bf, Q Panic s bf -> Q' Panic s bf) ->
  (forall s bf, Q NoFuel s bf -> Q' NoFuel s bf) -> triple P (bbind L m k) Q'.
Proof.
  intros T K E1 E2 E3 s b h bf own R H. specialize (T s b h bf own R H). unfold bbind. unfold post in T.
  destruct (m s b h) as [[a|e| |] s' b' h'| | |]; cbn [post]; auto; destruct T as (bf' & o' & R' & F' & X).
  - specialize (K a s' b' h' bf' o' R' X). unfold post in *. destruct (k a s' b' h'); auto.
    destruct K as (b2 & o2 & R2 & F2 & X2). exists b2, o2. split; [assumption|]. split; [|assumption].
    eapply frame_trans; [eassumption | eassumption |]. intros y Ey. eapply rp_live; eassumption.
  - eauto 6.
  - eauto 6.
  - eauto 6.
Qed.
Lemma t_mut f g (P : S -> buf -> Prop) (Q : res unit -> S -> buf -> Prop) : dsim L Rp f g -> (forall s bf, P s bf -> exists bf', g bf = Ok bf' /\ Q (Ok tt) s bf') -> triple P (bmut L f) Q.
Proof.
  intros D H s b h bf own R K. destruct (H s bf K) as (bf' & E & X). destruct (D b h bf own bf' R E) as (r' & h' & E' & R' & F').
  unfold bmut. rewrite E'. cbn [post]. exists bf', own. auto.
Qed.
Lemma t_reserve n (P : S -> buf -> Prop) (Q : res unit -> S -> buf -> Prop) :
  (forall s bf, P s bf -> b_len bf + n <= isize_max -> forall j bf', bf_reserve (cf j) n bf = Ok bf' -> Q (Ok tt) s bf') ->
  (forall s bf, P s bf -> isize_max < b_len bf + n -> Q Panic s bf /\ O) -> triple P (breserve L al n) Q.
Proof.
  intros H1 H2 s b h bf own R K. unfold breserve, bmut. destruct (N.le_gt_cases (b_len bf + n) isize_max) as [Hn|Hn].
  - pose proof (br_reserve _ _ _ BR _ _ _ _ n R Hn) as X. unfold meets in X. destruct (L_reserve L al n b h) as [b' h'| | |]; try contradiction; [|exact X].
    destruct X as (j & bf' & o' & R' & F' & E'). cbn [post]. exists bf', o'. eauto.
  - destruct (H2 s bf K Hn) as [X HO]. destruct (big b h bf own n R Hn) as [E|E]; rewrite E.
    + cbn [post]. exists bf, own. auto using frame_refl.
    + rewrite (rp_len L al Rp BR _ _ _ _ R). destruct (N.ltb_spec isize_max (b_len bf + n)); [exact HO | lia].
Qed.
Lemma t_len (P : S -> buf -> Prop) (Q : res N -> S -> buf -> Prop) : (forall s bf, P s bf -> Q (Ok (b_len bf)) s bf) -> triple P (blen L) Q.
Proof. intros H s b h bf own R K. unfold blen. rewrite (rp_len L al Rp BR _ _ _ _ R). exists bf, own. auto using frame_refl. Qed.
Lemma t_slice (P : S -> buf -> Prop) (Q : res (list N) -> S -> buf -> Prop) : (forall s bf, P s bf -> Q (Ok (bf_slice bf)) s bf) -> triple P (bslice L) Q.
Proof. intros H s b h bf own R K. unfold bslice. rewrite (rp_slice L al Rp BR _ _ _ _ R). exists bf, own. auto using frame_refl. Qed.
Lemma t_add x y (P : S -> buf -> Prop) (Q : res N -> S -> buf -> Prop) : (forall s bf, P s bf -> x + y < usize_limit -> Q (Ok (x + y)) s bf) ->
  (forall s bf, P s bf -> usize_limit <= x + y -> Q Panic s bf) -> triple P (badd L x y) Q.
Proof.
  intros H1 H2. unfold badd. destruct (N.ltb_spec (x + y) usize_limit); apply t_stop; intros; auto.
Qed.
(** Facts of [Rp] may be used. *)
Lemma t_known {A} (P : S -> buf -> Prop) (m : B A) (Q : res A -> S -> buf -> Prop) : triple (fun s bf => P s bf /\ b_len bf <= bf_cap bf /\ bf_cap bf <= isize_max /\ bytes_ok (b_mem bf)) m Q -> triple P m Q.
Proof.
  intros T s b h bf own R K. apply (T s b h bf own R). split; [assumption|].
  destruct (br_observe _ _ _ BR _ _ _ _ R) as (_ & _ & A1 & A2 & A3 & _). auto.
Qed.
Lemma t_ex {A X} (P : X -> S -> buf -> Prop) (m : B A) Q : (forall x, triple (P x) m Q) -> triple (fun s bf => exists x, P x s bf) m Q.
Proof. intros T s b h bf own R (x & K). exact (T x s b h bf own R K). Qed.
Lemma t_pure {A} (p : Prop) P (m : B A) Q : (p -> triple P m Q) -> triple (fun s bf => p /\ P s bf) m Q.
Proof. intros T s b h bf own R (x & K). exact (T x s b h bf own R K). Qed.

(** ** the whole function *)
Lemma owning_clean (m : B unit) Q s b h bf own h0 : triple (fun s' bf' => s' = s /\ bf' = bf) m Q -> Rp b h bf own -> frame None own h0 h ->
  match owning L m s b h with
  | Ends (Ok b') s' h' => exists bf', Q (Ok tt) s' bf' /\ new_value L h0 b' (bf_slice bf') h' /\ bytes_ok (bf_slice bf')
  | Ends r s' h' => exists bf' r', Q r' s' bf' /\ untouched h0 h' /\
      match r', r with Err e, Err e' => e' = e | Panic, Panic => True | NoFuel, NoFuel => True | _, _ => False end
  | EAbort => out_of_memory al
  | EOversize => O
  | EUB => False
  end.
Proof.
  intros T R F. specialize (T s b h bf own R (conj eq_refl eq_refl)). unfold owning. unfold post in T.
  destruct (m s b h) as [r s' b' h'| | |]; auto. destruct T as (bf' & o' & R' & F' & X).
  assert (F2 : frame None o' h0 h') by (eapply frame_trans; [eassumption | eassumption |]; intros y Ey; eapply rp_live; eassumption).
  destruct (br_drop _ _ _ BR _ _ _ _ R') as (h2 & E & F3).
  assert (U : untouched h0 h2).
  { intros a. revert a. apply frame_none. eapply frame_trans; [eassumption | eassumption |]. intros y Ey. eapply rp_live; eassumption. }
  destruct (br_observe _ _ _ BR _ _ _ _ R') as (_ & _ & _ & _ & A3 & _).
  destruct r as [[]|e| |]; rewrite ?E; [|exists bf', (Err e); auto | exists bf', Panic; auto | exists bf', NoFuel; auto].
  exists bf'. split; [exact X|]. split; [|unfold bf_slice; now apply bytes_ok_take].
  split; [exact (rp_slice L al Rp BR _ _ _ _ R')|]. split; [|exists h2; auto].
  intros y c Hc. destruct F2 as (F4 & F5 & _). rewrite F4; [assumption | discriminate |].
  intros ->. destruct (F5 y eq_refl) as [[=]|Z]. congruence.
Qed.

Lemma holds_slice_of bf : b_len bf <= bf_cap bf -> bytes_ok (b_mem bf) -> holds bf (bf_slice bf).
Proof.
  intros H1 H2. exists (drop (b_len bf) (b_mem bf)). unfold bf_slice, bf_cap in *. rewrite take_drop, nlen_take. split; [reflexivity|].
  split; [lia | now apply bytes_ok_drop].
Qed.
Lemma t_fix {A} (P : S -> buf -> Prop) (m : B A) (Q : res A -> S -> buf -> Prop) :
  (forall s0 bf0, P s0 bf0 -> holds bf0 (bf_slice bf0) -> b_len bf0 <= isize_max -> triple (fun s bf => s = s0 /\ bf = bf0) m Q) -> triple P m Q.
Proof.
  intros T s b h bf own R K. destruct (br_observe _ _ _ BR _ _ _ _ R) as (_ & _ & A1 & A2 & A3 & _).
  apply (T s bf K (holds_slice_of bf A1 A3) ltac:(lia) s b h bf own R). auto.
Qed.

(** ** steps *)
Definition u8_of (w : list N) (e : ending) : res N :=
  match e with
  | Returns 0 => Err UnterminatedBytes
  | Returns 1 => Ok (hd 0 w)
  | Returns _ => Panic
  | Fails k => Err (Io k)
  | Throws => Panic
  | Hangs => NoFuel
  end.
Lemma read_u8_run (R : user_reader S) s b h : u_read_u8 L R s b h = let '(w, e, s') := u_read R s 1 in Run (u8_of w e) s' b h.
Proof. unfold u_read_u8. destruct (u_read R s 1) as [[w [[|[p|p|]]|k| |]] s']; reflexivity. Qed.
Lemma t_read_u8 (R : user_reader S) (P : S -> buf -> Prop) (Q : res N -> S -> buf -> Prop) :
  (forall s bf w e s', P s bf -> u_read R s 1 = (w, e, s') -> Q (u8_of w e) s' bf) -> triple P (u_read_u8 L R) Q.
Proof.
  intros H s b h bf own Hr K. rewrite read_u8_run. destruct (u_read R s 1) as [[w e] s'] eqn:E. exists bf, own. eauto using frame_refl.
Qed.
Definition spacious (n : N) (w : list N) (bf : buf) : Prop :=
  exists sp, b_mem bf = w ++ sp /\ b_len bf = nlen w /\ n <= nlen sp /\ bytes_ok sp.
Definition stretched (n : N) (w : list N) (bf : buf) : Prop :=
  exists sp, b_mem bf = w ++ sp /\ b_len bf = nlen w + n /\ n <= nlen sp /\ bytes_ok sp.
Definition filled (n : N) (w got : list N) (bf : buf) : Prop :=
  exists tl, b_mem bf = w ++ take n got ++ tl /\ b_len bf = nlen w + n /\ bytes_ok tl.
Lemma t_room n w s0 : (isize_max < nlen w + n -> O) -> triple (fun s bf => s = s0 /\ holds bf w) (breserve L al n)
  (fun r s bf => s = s0 /\ match r with Ok _ => nlen w + n <= isize_max /\ spacious n w bf | Panic => isize_max < nlen w + n /\ holds bf w | _ => False end).
Proof.
  intros HO. apply t_reserve.
  - intros s bf (-> & H) Hn j bf' E. rewrite (holds_len _ _ H) in Hn. split; [reflexivity|]. split; [assumption|].
    destruct (reserve_ok (cf j) n bf w H Hn) as (b1 & sp & E1 & X). rewrite E in E1. injection E1 as <-. exists sp. exact X.
  - intros s bf (-> & H) Hn. rewrite (holds_len _ _ H) in Hn. auto.
Qed.
Lemma t_stretch n w s0 : triple (fun s bf => s = s0 /\ spacious n w bf) (bmut L (L_set_len_checked L (nlen w + n)))
  (fun r s bf => s = s0 /\ r = Ok tt /\ stretched n w bf).
Proof.
  eapply t_mut; [exact (dsim_set_len L al Rp BR (nlen w + n))|]. intros s bf (-> & sp & E & El & Hn & Hs).
  unfold bf_set_len, bf_cap. rewrite E, nlen_app. destruct (N.ltb_spec (nlen w + nlen sp) (nlen w + n)); [lia|].
  eexists. split; [reflexivity|]. split; [reflexivity|]. split; [reflexivity|]. exists sp. cbn. auto.
Qed.
Definition call_res (e : ending) : res N :=
  match e with Returns c => Ok c | Fails k => Err (Io k) | Throws => Panic | Hangs => NoFuel end.
Lemma t_call f n w s0 got e s1 : f s0 n = (got, e, s1) -> bytes_ok got ->
  triple (fun s bf => s = s0 /\ stretched n w bf) (bcall L f (nlen w) n) (fun r s bf => s = s1 /\ r = call_res e /\ filled n w got bf).
Proof.
  intros Ef Ho s b h bf own R (-> & sp & E & El & Hn & Hs). unfold bcall. rewrite Ef.
  assert (Lt : nlen (take n got) <= nlen sp) by (rewrite nlen_take; lia).
  destruct (split_at _ _ Lt) as (x & tl & -> & Lx).
  pose proof (bf_write_at w x tl (take n got) (nlen w) bf E eq_refl Lx) as W.
  destruct (br_store _ _ _ BR _ _ _ _ _ _ _ R (bytes_ok_take _ _ Ho) W) as (r' & h' & Es & R' & F'). rewrite Es.
  apply bytes_ok_app in Hs as [_ Ht].
  assert (K : filled n w got {| b_mem := w ++ take n got ++ tl; b_len := b_len bf; b_heap := b_heap bf |}) by (exists tl; auto).
  destruct e; cbn [post call_res]; eexists _, own; eauto 8.
Qed.
Lemma t_write x w s0 : x < 256 -> (isize_max < nlen w + 1 -> O) -> triple (fun s bf => s = s0 /\ holds bf w) (u_write_u8 L al x)
  (fun r s bf => s = s0 /\ match r with Ok _ => holds bf (w ++ [x]) | Panic => isize_max < nlen w + 1 /\ holds bf w | _ => False end).
Proof.
  intros Hx HO. eapply t_bind; [apply (t_room 1 w s0 HO)| | | |].
  - intros []. cbv beta. eapply t_mut; [exact (dsim_extend L al Rp BR [x] ltac:(now repeat constructor))|].
    intros s bf (-> & _ & sp & E & El & Hn & Hs).
    destruct (extend_ok bf w sp [x] E El) as (b' & s' & E' & M' & L' & _ & O'); [exact Hn | assumption |].
    exists b'. split; [assumption|]. split; [reflexivity|]. exists s'. auto.
  - intros e s bf (_ & []).
  - intros s bf X. exact X.
  - intros s bf (_ & []).
Qed.

(** ** any reader *)
Definition harmless {A} (X : A -> Prop) (m : B A) : Prop := triple (fun _ _ => True) m (fun r _ _ => forall a, r = Ok a -> X a).
Definition anything {A} (a : A) : Prop := True.
Lemma h_stop {A} (X : A -> Prop) r : (forall a, r = Ok a -> X a) -> harmless X (fun s b h => Run r s b h).
Proof. intros H. apply t_stop. auto. Qed.
Lemma h_bind {A C} X (Y : C -> Prop) (m : B A) (k : A -> B C) : harmless X m -> (forall a, X a -> harmless Y (k a)) -> harmless Y (bbind L m k).
Proof.
  intros Hm Hk. eapply t_bind; [exact Hm| | | |]; cbv beta; try discriminate.
  intros a s b h bf own R K. exact (Hk a (K a eq_refl) s b h bf own R I).
Qed.
Context (anyway : O).
Lemma h_write x : x < 256 -> harmless anything (u_write_u8 L al x).
Proof.
  intros Hx. apply t_fix. intros s0 bf0 _ H _. eapply t_conseq; [apply (t_write x (bf_slice bf0) s0 Hx (fun _ => anyway))| |].
  - intros s bf (-> & ->). auto.
  - intros r s bf _ a _. exact I.
Qed.
Section USER.
Context (R : user_reader S) (W : writes_octets R).
Lemma h_read : harmless (fun x => x < 256) (u_read_u8 L R).
Proof.
  apply t_read_u8. intros s bf w e s' _ E a Ha. pose proof (proj1 (W s 1)) as O1. rewrite E in O1. cbn [fst] in O1.
  destruct e as [[|[p|p|]]|k| |]; cbn [u8_of] in Ha; try discriminate. injection Ha as <-. destruct w as [|x w]; [reflexivity|].
  now apply Forall_cons_iff in O1.
Qed.
Lemma h_id_loop fuel : forall o, o < 256 -> harmless anything (u_parse_id_loop L al R fuel o).
Proof.
  induction fuel as [|fuel IH]; intros o Ho; cbn [u_parse_id_loop]; [apply h_stop; discriminate|].
  eapply h_bind; [now apply h_write|]. intros _ _. destruct (negb _); [apply h_stop; intros; exact I|].
  eapply h_bind; [apply h_read|]. exact IH.
Qed.
Lemma h_len_loop k : forall n, harmless anything (u_parse_length_loop L al R k n).
Proof.
  induction k as [|k IH]; intros n; cbn [u_parse_length_loop]; [apply h_stop; intros; exact I|].
  eapply h_bind; [apply h_read|]. intros x Hx. eapply h_bind; [now apply h_write|]. intros _ _. apply IH.
Qed.
Lemma h_header fuel : harmless anything (u_parse_id_length L al R fuel).
Proof.
  assert (F : forall A (e : error), harmless (A := A) anything (bfail L e)) by (intros; apply h_stop; discriminate).
  assert (T : forall A (a : A), harmless anything (bret (L := L) (S := S) a)) by (intros; apply h_stop; intros; exact I).
  unfold u_parse_id_length, u_parse_id, u_parse_length. eapply h_bind; [|intros _ _].
  - eapply h_bind; [apply h_read|]. intros x Hx. eapply h_bind; [now apply h_write|]. intros _ _. destruct (negb _); [apply T|].
    eapply h_bind; [apply h_read|]. intros o Ho. destruct (o <=? _); [apply F|]. destruct (o =? _); [apply F|]. now apply h_id_loop.
  - eapply h_bind; [apply h_read|]. intros x Hx. eapply h_bind; [now apply h_write|]. intros _ _. destruct (x =? _); [apply T|].
    destruct (negb _); [apply T|]. eapply h_bind; [apply h_read|]. intros o Ho. destruct (o =? 0); [apply F|].
    eapply h_bind; [now apply h_write|]. intros _ _. cbv zeta. destruct (_ && _)%bool; [apply F|]. destruct (8 <? _); [apply F|]. apply h_len_loop.
Qed.
Lemma h_Der fuel : harmless anything (u_Der_body L al R fuel).
Proof.
  unfold u_Der_body. eapply h_bind; [apply h_header|]. intros [|n] _; [apply h_stop; discriminate|].
  apply t_fix. intros s0 bf0 _ H _. pose proof (holds_len _ _ H) as HL. set (w := bf_slice bf0) in *.
  eapply t_bind; [apply (t_len _ (fun r s bf => s = s0 /\ holds bf w /\ r = Ok (nlen w))); intros s bf (-> & ->); now rewrite <- HL| | | |]; try (intros; discriminate).
  intros x. apply t_conseq with (P := fun s bf => x = nlen w /\ s = s0 /\ holds bf w) (Q := fun r _ _ => forall a, r = Ok a -> anything a); [|intros s bf (-> & ? & [= ->]); auto | auto].
  apply t_pure. intros ->.
  eapply t_bind; [apply (t_add _ _ _ (fun r s bf => s = s0 /\ holds bf w /\ (forall a, r = Ok a -> a = nlen w + n))); cbv beta| | | |]; try (intros; discriminate).
  - intros s bf (-> & X) _. split; [reflexivity|]. split; [assumption|]. intros a [= <-]. reflexivity.
  - intros s bf (-> & X) _. repeat split; auto. discriminate.
  - intros a. apply t_conseq with (P := fun s bf => a = nlen w + n /\ s = s0 /\ holds bf w) (Q := fun r _ _ => forall a, r = Ok a -> anything a); [|intros s bf (-> & ? & K); auto | auto].
    apply t_pure. intros ->.
    eapply t_bind; [apply (t_room n w s0 (fun _ => anyway))| | | |]; try (intros; discriminate).
    intros []. eapply t_bind; [eapply t_conseq; [apply (t_stretch n w s0) | intros s bf (-> & _ & X); split; [reflexivity | exact X] | intros r s bf X; exact X]| | | |]; try (intros; discriminate).
    intros []. destruct (u_read R s0 n) as [[got e] s1] eqn:E. pose proof (proj1 (W s0 n)) as O1. rewrite E in O1. cbn [fst] in O1.
    eapply t_bind; [eapply t_conseq; [apply (t_call _ n w s0 got e s1 E O1) | intros s bf (-> & _ & X); split; [reflexivity | exact X] | intros r s bf X; exact X]| | | |]; try (intros; discriminate).
    intros c. destruct (c <? n); [apply t_stop; discriminate | apply t_stop; intros; exact I].
Qed.
Lemma h_Ber_step fuel : harmless anything (u_Ber_do_parse L al R fuel).
Proof.
  unfold u_Ber_do_parse. eapply (h_bind anything); [apply t_len; intros; exact I|]. intros il _.
  eapply h_bind; [apply h_header|]. intros [|n] _; [apply h_stop; intros; exact I|].
  apply t_fix. intros s0 bf0 _ H _. set (w := bf_slice bf0) in *.
  eapply t_bind; [eapply t_conseq; [apply (t_room n w s0 (fun _ => anyway)) | intros s bf (-> & ->); auto | intros r s bf X; exact X]| | | |]; try (intros; discriminate).
  intros []. cbv beta.
  eapply t_bind; [apply (t_len _ (fun r s bf => r = Ok (nlen w) /\ s = s0 /\ spacious n w bf)); intros s bf (-> & _ & X)| | | |]; try (intros; discriminate).
  { destruct X as (sp & E & El & X). rewrite El. split; [reflexivity|]. split; [reflexivity|]. exists sp. auto. }
  intros x. apply t_conseq with (P := fun s bf => x = nlen w /\ s = s0 /\ spacious n w bf) (Q := fun r _ _ => forall a, r = Ok a -> anything a); [|intros s bf ([= ->] & X); auto | auto].
  apply t_pure. intros ->.
  eapply t_bind; [apply (t_add _ _ _ (fun r s bf => s = s0 /\ spacious n w bf /\ (forall a, r = Ok a -> a = nlen w + n))); cbv beta| | | |]; try (intros; discriminate).
  - intros s bf (-> & X) _. split; [reflexivity|]. split; [assumption|]. intros a [= <-]. reflexivity.
  - intros s bf (-> & X) _. repeat split; auto. discriminate.
  - intros a. apply t_conseq with (P := fun s bf => a = nlen w + n /\ s = s0 /\ spacious n w bf) (Q := fun r _ _ => forall a, r = Ok a -> anything a); [|intros s bf (-> & ? & K); auto | auto].
    apply t_pure. intros ->.
    eapply t_bind; [apply (t_stretch n w s0)| | | |]; try (intros; discriminate).
    intros []. destruct (u_read_exact R s0 n) as [[got e] s1] eqn:E. pose proof (proj2 (W s0 n)) as O1. rewrite E in O1. cbn [fst] in O1.
    eapply t_bind; [eapply t_conseq; [apply (t_call _ n w s0 got e s1 E O1) | intros s bf (-> & _ & X); split; [reflexivity | exact X] | intros r s bf X; exact X]| | | |]; try (intros; discriminate).
    intros c. eapply t_bind; [apply (t_slice _ (fun _ _ _ => True)); intros; exact I| | | |]; try (intros; discriminate).
    intros bs. apply t_stop. intros; exact I.
Qed.
Lemma h_Ber_loop ifuel fuel : forall d, harmless anything (u_Ber_loop L al R ifuel fuel d).
Proof.
  induction fuel as [|fuel IH]; intros d; cbn [u_Ber_loop]; [apply h_stop; discriminate|].
  eapply h_bind; [apply h_Ber_step|]. intros z _. destruct (0 <? _)%Z; [apply IH | apply h_stop; intros; exact I].
Qed.
Lemma harmless_cleans (m : B unit) s h0 : harmless anything m -> cleans_up L al h0 (owning L m s (L_new L) h0).
Proof.
  intros H. pose proof (owning_clean m (fun _ _ _ => True) s (L_new L) h0 (bf_new (cf (fun _ => 0))) None h0) as K.
  assert (T : triple (fun s' bf' => s' = s /\ bf' = bf_new (cf (fun _ => 0))) m (fun _ _ _ => True)) by (eapply t_conseq; [exact H | intros; exact I | intros; exact I]).
  specialize (K T (br_new _ _ _ BR h0 (fun _ => 0)) (frame_refl None h0)).
  unfold cleans_up. destruct (owning L m s (L_new L) h0) as [[b|e| |] s' h'| | |]; auto.
  - destruct K as (bf' & _ & X & Y). exists (bf_slice bf'). auto.
  - destruct K as (bf' & r & _ & X & _). exact X.
  - destruct K as (bf' & r & _ & X & _). exact X.
  - destruct K as (bf' & r & _ & X & _). exact X.
Qed.
End USER.
End TRIPLES.

(** ** honest readers: the same results as on octets *)
Section AGREE.
Context (L : layout) (al : allocator) (G : good_allocator al)
        (Rp : L_raw L -> heap -> buf -> option N -> Prop) (BR : buffer_refines L al Rp)
        (big : forall r h b own k, Rp r h b own -> isize_max < b_len b + k -> L_reserve L al k r h = Crash \/ L_reserve L al k r h = UB).
Context {S : Type} (R : reader S) (content : S -> list N) (HR : honest R content) (O : Prop).
Notation B := (B L (S := S)).
Notation U := (user_of R).
Notation triple := (triple L al Rp (S := S) O).

(** [m] does what [p] does, while [c] octets may still be written and after that [c']. *)
Definition tracks {A} (c : N) (X : A -> Prop) (m : B A) (p : parser S A) (c' : N) : Prop :=
  forall s0 w0, bytes_ok (content s0) -> nlen w0 + c + nlen (content s0) <= isize_max ->
  triple (fun s bf => s = s0 /\ holds bf w0) m
    (fun r s bf => exists w, p (s0, w0) = (r, (s, w)) /\
       forall a, r = Ok a -> X a /\ holds bf w /\ bytes_ok (content s) /\ nlen w + c' + nlen (content s) <= isize_max).
Lemma k_stop {A} c (X : A -> Prop) r c' : c' <= c -> (forall a, r = Ok a -> X a) -> tracks c X (fun s b h => Run r s b h) (fun st => (r, st)) c'.
Proof.
  intros Hc HX s0 w0 Ok0 N0. apply t_stop. intros s bf (-> & H). exists w0. split; [reflexivity|]. intros a Ha.
  split; [auto|]. split; [assumption|]. split; [assumption | lia].
Qed.
Lemma k_bind {A C} c c1 c2 X (Y : C -> Prop) (m : B A) (k : A -> B C) p q : tracks c X m p c1 -> (forall a, X a -> tracks c1 Y (k a) (q a) c2) ->
  tracks c Y (bbind L m k) (pbind p q) c2.
Proof.
  intros Hm Hk s0 w0 Ok0 N0. eapply t_bind; [exact BR | exact (Hm s0 w0 Ok0 N0)| | | |]; cbv beta.
  - intros a.
    eapply (t_fix L al Rp BR big). intros s1 bf1 (w & E & K) _ _. destruct (K a eq_refl) as (Xa & H1 & O1 & N1).
    eapply t_conseq; [exact (Hk a Xa s1 w O1 N1)| |].
    + intros s bf (-> & ->). auto.
    + intros r s bf (w2 & E2 & K2). exists w2. unfold pbind. rewrite E. auto.
  - intros e s bf (w & E & _). exists w. unfold pbind. rewrite E. split; [reflexivity | discriminate].
  - intros s bf (w & E & _). exists w. unfold pbind. rewrite E. split; [reflexivity | discriminate].
  - intros s bf (w & E & _). exists w. unfold pbind. rewrite E. split; [reflexivity | discriminate].
Qed.
Lemma k_read fuel c : tracks c (fun x => x < 256) (u_read_u8 L (U fuel)) (read_u8 R) (c + 1).
Proof.
  intros s0 w0 Ok0 N0. apply t_read_u8. intros s bf w e s' (-> & H) E. cbn [user_of u_read] in E. exists w0. unfold read_u8.
  pose proof (HR s0 1) as Hh. destruct (rd_read R s0 1) as [[bs|k] s1]; injection E as <- <- <-.
  - destruct Hh as (Ec & Hl). destruct bs as [|x [|y bs]].
    + split; [reflexivity | discriminate].
    + split; [reflexivity|]. intros a [= <-]. cbn [hd]. rewrite Ec in Ok0, N0. cbn [app] in *. apply Forall_cons_iff in Ok0 as [Hx Ok1].
      rewrite nlen_cons in N0. split; [assumption|]. split; [assumption|]. split; [assumption | lia].
    + exfalso. rewrite !nlen_cons in Hl. lia.
  - split; [reflexivity | discriminate].
Qed.
Lemma k_write c x : x < 256 -> tracks (c + 1) (fun _ => True) (u_write_u8 L al x) (write_u8 x) c.
Proof.
  intros Hx s0 w0 Ok0 N0. eapply t_conseq; [apply (t_write L al Rp BR big O x w0 s0 Hx); lia | auto |].
  intros r s bf (-> & K). exists (w0 ++ [x]). destruct r as [[]|e| |].
  - split; [reflexivity|]. intros a _. split; [exact I|]. split; [assumption|]. split; [assumption|]. rewrite nlen_app, nlen_cons, nlen_nil. lia.
  - contradiction.
  - lia.
  - contradiction.
Qed.
Lemma k_weaken {A} c c1 c2 X (m : B A) p : c2 <= c1 -> tracks c X m p c1 -> tracks c X m p c2.
Proof.
  intros Hc T s0 w0 Ok0 N0. eapply t_conseq; [exact (T s0 w0 Ok0 N0) | auto |]. intros r s bf (w & E & K). exists w. split; [assumption|].
  intros a Ha. destruct (K a Ha) as (K1 & K2 & K3 & K4). split; [assumption|]. split; [assumption|]. split; [assumption | lia].
Qed.
Ltac kstop := apply k_stop; [lia | try discriminate; intros; exact I].
Lemma k_id_loop fl fuel : forall i o, o < 256 -> tracks 1 (fun _ => True)
  (u_parse_id_loop L al (U fl) fuel o) (fun st => match parse_id_loop R fuel i o st with (r, st') => (match r with Ok _ => Ok tt | Err e => Err e | Panic => Panic | NoFuel => NoFuel end, st') end) 0.
Proof.
  induction fuel as [|fuel IH]; intros i o Ho; cbn [u_parse_id_loop parse_id_loop]; [kstop|].
  intros s0 w0 Ok0 N0.
  assert (T : tracks 1 (fun _ : unit => True) (bbind L (u_write_u8 L al o) (fun _ => if negb (N.land o MORE_FLAG =? MORE_FLAG) then bret tt
         else bbind L (u_read_u8 L (U fl)) (fun o => u_parse_id_loop L al (U fl) fuel o)))
       (pbind (write_u8 o) (fun _ => if negb (N.land o MORE_FLAG =? MORE_FLAG) then pret tt
         else pbind (read_u8 R) (fun o st => match parse_id_loop R fuel (i + 1) o st with (r, st') => (match r with Ok _ => Ok tt | Err e => Err e | Panic => Panic | NoFuel => NoFuel end, st') end))) 0).
  { eapply (k_bind 1 0); [apply (k_write 0 o Ho)|]. intros _ _. destruct (negb _); [kstop|].
    eapply (k_bind 0 1); [apply (k_read fl 0)|]. intros x Hx. now apply IH. }
  eapply t_conseq; [exact (T s0 w0 Ok0 N0) | auto |]. intros r s bf (w & E & K). exists w. split; [|exact K].
  rewrite <- E. unfold pbind. cbn [write_u8]. destruct (negb _); [reflexivity|].
  destruct (read_u8 R (s0, w0 ++ [o])) as [[x|e| |] st1]; try reflexivity.
Qed.
Lemma k_len_loop fl k : forall n, tracks 0 (fun _ => True) (u_parse_length_loop L al (U fl) k n) (parse_length_loop R k n) 0.
Proof.
  induction k as [|k IH]; intros n; cbn [u_parse_length_loop parse_length_loop]; [kstop|].
  eapply (k_bind 0 1); [apply (k_read fl 0)|]. intros x Hx. eapply (k_bind 1 0); [now apply (k_write 0)|]. intros _ _. apply IH.
Qed.
Definition drop_value {A} (p : parser S A) : parser S unit := fun st =>
  match p st with (r, st') => (match r with Ok _ => Ok tt | Err e => Err e | Panic => Panic | NoFuel => NoFuel end, st') end.
Lemma k_parse_id fl fuel : tracks 0 (fun _ => True) (u_parse_id L al (U fl) fuel) (drop_value (parse_id R fuel)) 0.
Proof.
  assert (T : tracks 0 (fun _ => True) (u_parse_id L al (U fl) fuel)
     (pbind (read_u8 R) (fun first => pbind (write_u8 first) (fun _ => if negb (N.land first ID_LONG_FLAG =? ID_LONG_FLAG) then pret tt
        else pbind (read_u8 R) (fun o => if o <=? ID_MAX_SHORT then pfail RedundantBytes else if o =? MORE_FLAG then pfail RedundantBytes
             else drop_value (parse_id_loop R fuel 2 o))))) 0).
  { unfold u_parse_id. eapply (k_bind 0 1); [apply (k_read fl 0)|]. intros x Hx. eapply (k_bind 1 0); [now apply (k_write 0)|]. intros _ _.
    destruct (negb _); [kstop|]. eapply (k_bind 0 1); [apply (k_read fl 0)|]. intros o Ho. destruct (o <=? _); [kstop|]. destruct (o =? _); [kstop|].
    now apply (k_id_loop fl fuel 2). }
  intros s0 w0 Ok0 N0. eapply t_conseq; [exact (T s0 w0 Ok0 N0) | auto |]. intros r s bf (w & E & K). exists w. split; [|exact K].
  rewrite <- E. unfold drop_value, parse_id, pbind. destruct (read_u8 R (s0, w0)) as [[x|e| |] [s1 w1]]; try reflexivity. cbn [write_u8].
  destruct (negb _); [reflexivity|]. destruct (read_u8 R (s1, w1 ++ [x])) as [[y|e| |] st2]; try reflexivity.
  destruct (y <=? _); [reflexivity|]. destruct (y =? _); reflexivity.
Qed.
Lemma k_header fl fuel : tracks 0 (fun _ => True) (u_parse_id_length L al (U fl) fuel) (parse_id_length R fuel) 0.
Proof.
  assert (T : tracks 0 (fun _ => True) (u_parse_id_length L al (U fl) fuel) (pbind (drop_value (parse_id R fuel)) (fun _ => parse_length R)) 0).
  { unfold u_parse_id_length. eapply (k_bind 0 0); [apply k_parse_id|]. intros _ _. unfold u_parse_length, parse_length.
    eapply (k_bind 0 1); [apply (k_read fl 0)|]. intros x Hx. eapply (k_bind 1 0); [now apply (k_write 0)|]. intros _ _.
    destruct (x =? _); [kstop|]. destruct (negb _); [kstop|]. eapply (k_bind 0 1); [apply (k_read fl 0)|]. intros o Ho. destruct (o =? 0); [kstop|].
    eapply (k_bind 1 0); [now apply (k_write 0)|]. intros _ _. cbv zeta. destruct (_ && _)%bool; [kstop|]. destruct (8 <? _); [kstop|]. apply k_len_loop. }
  intros s0 w0 Ok0 N0. eapply t_conseq; [exact (T s0 w0 Ok0 N0) | auto |]. intros r s bf (w & E & K). exists w. split; [|exact K].
  rewrite <- E. unfold parse_id_length, drop_value, pbind. destruct (parse_id R fuel (s0, w0)) as [[x|e| |] st1]; reflexivity.
Qed.

Ltac on := try (intros; discriminate).
Lemma k_Der fuel s0 : bytes_ok (content s0) -> nlen (content s0) <= isize_max -> (fst (Der_parse R fuel s0) = Panic -> O) ->
  triple (fun s bf => s = s0 /\ holds bf []) (u_Der_body L al (U fuel) fuel)
    (fun r s bf => match Der_parse R fuel s0 with
                   | (Ok v, s') => s = s' /\ r = Ok tt /\ holds bf v
                   | (Err e, s') => s = s' /\ r = Err e
                   | (Panic, s') => s = s' /\ r = Panic
                   | (NoFuel, s') => s = s' /\ r = NoFuel
                   end).
Proof.
  intros Ok0 N0 HO. pose proof (k_header fuel fuel s0 [] Ok0) as T. specialize (T ltac:(change (nlen (@nil N)) with 0; lia)). unfold Der_parse in *.
  unfold u_Der_body. eapply t_bind; [exact BR | exact T| | | |]; cbv beta.
  2:{ intros e s bf (w & E & _). rewrite E. auto. }
  2:{ intros s bf (w & E & _). rewrite E. auto. }
  2:{ intros s bf (w & E & _). rewrite E. auto. }
  intros l. apply (t_fix L al Rp BR big). intros s1 bf1 (w & E & K) _ _. destruct (K l eq_refl) as (_ & H1 & O1 & N1). rewrite E in *. clear E K T.
  destruct l as [|n]; [apply t_stop; intros s bf (-> & ->); auto|].
  eapply t_bind; [exact BR | apply (t_len L al Rp BR O _ (fun r s bf => r = Ok (nlen w) /\ s = s1 /\ holds bf w)); intros s bf (-> & ->); now rewrite (holds_len _ _ H1)| | | |]; on.
  2:{ intros e s bf ([=] & _). } 2:{ intros s bf ([=] & _). } 2:{ intros s bf ([=] & _). }
  intros x. apply (t_fix L al Rp BR big). intros s2 bf2 ([= ->] & -> & H2) _ _.
  eapply t_bind; [exact BR | apply (t_add L al Rp O _ _ _ (fun r s bf => s = s1 /\ holds bf w /\ match r with Ok a => a = nlen w + n | Panic => isize_max < nlen w + n | _ => False end)); cbv beta| | | |].
  - intros s bf (-> & ->) _. auto.
  - intros s bf (-> & ->) Hb. repeat split; auto. unfold isize_max, usize_limit in *. lia.
  - intros a. apply (t_fix L al Rp BR big). intros s3 bf3 (-> & H3 & ->) _ _.
    eapply t_bind; [exact BR | eapply t_conseq; [apply (t_room L al Rp BR big O n w s1) | intros s bf (-> & ->); auto | intros r s bf X; exact X]| | | |]; cbv beta.
    + intros Hb. apply HO. destruct (N.ltb_spec isize_max (nlen w + n)); [reflexivity | lia].
    + intros []. apply (t_fix L al Rp BR big). intros s4 bf4 (-> & Hn & H4) _ _.
      eapply t_bind; [exact BR | eapply t_conseq; [apply (t_stretch L al Rp BR O n w s1) | intros s bf (-> & ->); auto | intros r s bf X; exact X]| | | |]; cbv beta.
      2:{ intros e s bf (_ & [=] & _). } 2:{ intros s bf (_ & [=] & _). } 2:{ intros s bf (_ & [=] & _). }
      intros []. destruct (u_read (U fuel) s1 n) as [[got e] s'] eqn:Eu.
      destruct (N.ltb_spec isize_max (nlen w + n)); [lia|].
      cbn [user_of u_read] in Eu. pose proof (HR s1 n) as Hh. destruct (rd_read R s1 n) as [[bs|k] s''] eqn:Er; injection Eu as <- <- <-.
      * destruct Hh as (Ec & Hl). destruct (N.ltb_spec n (nlen bs)); [lia|].
        assert (Hb : bytes_ok bs) by (rewrite Ec in O1; now apply bytes_ok_app in O1).
        assert (Et : take n bs = bs) by (apply take_ge; lia).
        eapply t_bind; [exact BR | eapply t_conseq; [apply (t_call L al Rp BR big O (u_read (U fuel)) n w s1 bs (Returns (nlen bs)) s''); [cbn [user_of u_read]; now rewrite Er | exact Hb] | intros s bf (-> & _ & X); auto | intros r s bf X; exact X]| | | |]; cbv beta.
        2:{ intros e s bf (_ & [=] & _). } 2:{ intros s bf (_ & [=] & _). } 2:{ intros s bf (_ & [=] & _). }
        intros c. apply (t_fix L al Rp BR big). intros s5 bf5 (-> & [= ->] & tl & M5 & L5 & O5) _ _. destruct (N.ltb_spec (nlen bs) n).
        -- apply t_stop. intros s bf (-> & ->). auto.
        -- apply t_stop. intros s bf (-> & ->). split; [reflexivity|]. split; [reflexivity|]. exists tl. rewrite Et in M5. rewrite <- app_assoc, nlen_app.
           split; [exact M5|]. split; [lia | assumption].
      * eapply t_bind; [exact BR | eapply t_conseq; [apply (t_call L al Rp BR big O (u_read (U fuel)) n w s1 [] (Fails k) s''); [cbn [user_of u_read]; now rewrite Er | constructor] | intros s bf (-> & _ & X); auto | intros r s bf X; exact X]| | | |]; cbv beta.
        2:{ intros e s bf (-> & [= ->] & _). auto. } 2:{ intros s bf (_ & [=] & _). } 2:{ intros s bf (_ & [=] & _). }
        intros c. apply (t_fix L al Rp BR big). intros s5 bf5 (_ & [=] & _).
    + intros e s bf (_ & []).
    + intros s bf (-> & Hb & _). destruct (N.ltb_spec isize_max (nlen w + n)); [auto | lia].
    + intros s bf (_ & []).
  - intros e s bf (_ & _ & []).
  - intros s bf (-> & _ & Hb). destruct (N.ltb_spec isize_max (nlen w + n)); [auto | lia].
  - intros s bf (_ & _ & []).
Qed.

Lemma read_exact_err fuel : forall n st e st', read_exact R fuel n st = (Err e, st') -> exists k, e = Io k.
Proof.
  induction fuel as [|fuel IH]; intros n [s w] e st' E; cbn [read_exact] in E; [discriminate|].
  destruct (n =? 0); [discriminate|]. destruct (rd_read R s n) as [[[|x bs]|k] s']; [injection E as <- _; eauto | | ].
  - destruct (nlen (x :: bs) <=? n); [eauto | discriminate].
  - destruct k; eauto; injection E as <- _; eauto.
Qed.
Lemma k_Ber_step fuel s0 w0 : bytes_ok (content s0) -> nlen w0 + nlen (content s0) <= isize_max -> (fst (Ber_do_parse R fuel (s0, w0)) = Panic -> O) ->
  triple (fun s bf => s = s0 /\ holds bf w0) (u_Ber_do_parse L al (U fuel) fuel)
    (fun r s bf => exists w, Ber_do_parse R fuel (s0, w0) = (r, (s, w)) /\
       forall a, r = Ok a -> holds bf w /\ bytes_ok (content s) /\ nlen w + nlen (content s) <= isize_max).
Proof.
  intros Ok0 N0 HO. pose proof (k_header fuel fuel s0 w0 Ok0 ltac:(lia)) as T. unfold Ber_do_parse in *.
  unfold u_Ber_do_parse. eapply t_bind; [exact BR | apply (t_len L al Rp BR O _ (fun r s bf => r = Ok (nlen w0) /\ s = s0 /\ holds bf w0)); intros s bf (-> & H); now rewrite (holds_len _ _ H)| | | |]; cbv beta.
  2:{ intros e s bf ([=] & _). } 2:{ intros s bf ([=] & _). } 2:{ intros s bf ([=] & _). }
  intros x. apply (t_fix L al Rp BR big). intros s1 bf1 ([= ->] & -> & H1) _ _.
  eapply t_bind; [exact BR | eapply t_conseq; [exact T | intros s bf (-> & ->); auto | intros r s bf X; exact X]| | | |]; cbv beta.
  2:{ intros e s bf (w & E & _). exists w. unfold pbind. rewrite E. split; [reflexivity | discriminate]. }
  2:{ intros s bf (w & E & _). exists w. unfold pbind. rewrite E. split; [reflexivity | discriminate]. }
  2:{ intros s bf (w & E & _). exists w. unfold pbind. rewrite E. split; [reflexivity | discriminate]. }
  intros l. apply (t_fix L al Rp BR big). intros s2 bf2 (w & E & K) _ _. destruct (K l eq_refl) as (_ & H2 & O2 & N2). unfold pbind in *. rewrite E in *. clear E K T. cbn [snd] in *.
  destruct l as [|n]; [apply t_stop; intros s bf (-> & ->); exists w; split; [reflexivity|]; intros; repeat split; auto; lia|].
  change (snd (s2, w)) with w in *.
  eapply t_bind; [exact BR | eapply t_conseq; [apply (t_room L al Rp BR big O n w s2) | intros s bf (-> & ->); auto | intros r s bf X; exact X]| | | |]; cbv beta.
  - intros Hb. apply HO. destruct (N.ltb_spec isize_max (nlen w + n)); [reflexivity | lia].
  - intros []. apply (t_fix L al Rp BR big). intros s3 bf3 (-> & Hn & H3) _ _. destruct (N.ltb_spec isize_max (nlen w + n)); [lia|].
    eapply t_bind; [exact BR | apply (t_len L al Rp BR O _ (fun r s bf => r = Ok (nlen w) /\ s = s2 /\ spacious n w bf)); intros s bf (-> & ->)| | | |]; cbv beta.
    { destruct H3 as (sp & M3 & L3 & X). rewrite L3. split; [reflexivity|]. split; [reflexivity|]. exists sp. auto. }
    2:{ intros e s bf ([=] & _). } 2:{ intros s bf ([=] & _). } 2:{ intros s bf ([=] & _). }
    intros x. apply (t_fix L al Rp BR big). intros s4 bf4 ([= ->] & -> & H4) _ _.
    eapply t_bind; [exact BR | apply (t_add L al Rp O _ _ _ (fun r s bf => r = Ok (nlen w + n) /\ s = s2 /\ spacious n w bf)); cbv beta| | | |].
    + intros s bf (-> & ->) _. auto.
    + intros s bf _ Hb. exfalso. unfold isize_max, usize_limit in *. lia.
    + intros x. apply (t_fix L al Rp BR big). intros s5 bf5 ([= ->] & -> & H5) _ _.
      eapply t_bind; [exact BR | eapply t_conseq; [apply (t_stretch L al Rp BR O n w s2) | intros s bf (-> & ->); auto | intros r s bf X; exact X]| | | |]; cbv beta.
      2:{ intros e s bf (_ & [=] & _). } 2:{ intros s bf (_ & [=] & _). } 2:{ intros s bf (_ & [=] & _). }
      intros []. destruct (ap_read_exact R content HR fuel n s2 O2) as (rr & s' & got & Eg & Ng & Og & Oc2 & Lg & Kg & Pg).
      rewrite (Eg w).
      assert (Et : take n got = got) by (apply take_ge; lia).
      eapply t_bind; [exact BR | eapply t_conseq; [apply (t_call L al Rp BR big O (u_read_exact (U fuel)) n w s2 got (io_ending rr) s'); [cbn [user_of u_read_exact]; now rewrite (Eg []) | exact Og] | intros s bf (-> & _ & X); auto | intros r s bf X; exact X]| | | |]; cbv beta.
      * intros c. apply (t_fix L al Rp BR big). intros s6 bf6 (-> & Ec & tl & M6 & L6 & O6) _ _. rewrite Et in M6.
        destruct rr as [[]|e| |]; [| | congruence | discriminate].
        2:{ destruct (read_exact_err fuel n (s2, w) e _ (Eg w)) as (k & ->). discriminate. }
        specialize (Kg eq_refl). assert (H6 : holds bf6 (w ++ got)) by (exists tl; rewrite <- app_assoc, nlen_app; split; [exact M6 | split; [lia | assumption]]).
        eapply t_bind; [exact BR | apply (t_slice L al Rp BR O _ (fun r s bf => r = Ok (w ++ got) /\ s = s' /\ holds bf (w ++ got))); intros s bf (-> & ->); now rewrite (holds_slice _ _ H6)| | | |]; cbv beta.
        2:{ intros e s bf ([=] & _). } 2:{ intros s bf ([=] & _). } 2:{ intros s bf ([=] & _). }
        intros bs. apply t_stop. intros s bf ([= ->] & -> & H7). exists (w ++ got). split; [reflexivity|]. intros a _. split; [assumption|]. split; [assumption|].
        rewrite nlen_app. lia.
      * intros e s bf (-> & Ee & _). destruct rr as [[]|e'| |]; try discriminate. destruct (read_exact_err fuel n (s2, w) e' _ (Eg w)) as (k & ->).
        injection Ee as ->. eexists. split; [reflexivity | discriminate].
      * intros s bf (-> & Ee & _). destruct rr as [[]|e'| |]; try discriminate; [|congruence].
        destruct (read_exact_err fuel n (s2, w) e' _ (Eg w)) as (k & ->). discriminate.
      * intros s bf (-> & Ee & _). destruct rr as [[]|e'| |]; try discriminate.
        { destruct (read_exact_err fuel n (s2, w) e' _ (Eg w)) as (k & ->). discriminate. }
        eexists. split; [reflexivity | discriminate].
    + intros e s bf ([=] & _).
    + intros s bf ([=] & _).
    + intros s bf ([=] & _).
  - intros e s bf (_ & []).
  - intros s bf (-> & Hb & _). destruct (N.ltb_spec isize_max (nlen w + n)); [|lia]. exists w. split; [reflexivity | discriminate].
  - intros s bf (_ & []).
Qed.
Lemma k_Ber_loop ifuel fuel : forall d s0 w0, bytes_ok (content s0) -> nlen w0 + nlen (content s0) <= isize_max ->
  (fst (Ber_loop R ifuel fuel d (s0, w0)) = Panic -> O) ->
  triple (fun s bf => s = s0 /\ holds bf w0) (u_Ber_loop L al (U ifuel) ifuel fuel d)
    (fun r s bf => exists w, Ber_loop R ifuel fuel d (s0, w0) = (r, (s, w)) /\ (forall a, r = Ok a -> holds bf w)).
Proof.
  induction fuel as [|fuel IH]; intros d s0 w0 Ok0 N0 HO; cbn [u_Ber_loop Ber_loop] in *.
  - apply t_stop. intros s bf (-> & H). exists w0. split; [reflexivity | discriminate].
  - unfold pbind in *.
    assert (HO1 : fst (Ber_do_parse R ifuel (s0, w0)) = Panic -> O).
    { intros X. apply HO. destruct (Ber_do_parse R ifuel (s0, w0)) as [[| | |] ?]; cbn in X; try discriminate. reflexivity. }
    eapply t_bind; [exact BR | exact (k_Ber_step ifuel s0 w0 Ok0 N0 HO1)| | | |]; cbv beta.
    + intros z. apply (t_fix L al Rp BR big). intros s1 bf1 (w & E & K) _ _. destruct (K z eq_refl) as (H1 & O1 & N1). rewrite E in *. cbv zeta in *.
      destruct (0 <? d + z)%Z.
      * eapply t_conseq; [exact (IH (d + z)%Z s1 w O1 N1 HO) | intros s bf (-> & ->); auto | auto].
      * apply t_stop. intros s bf (-> & ->). exists w. split; [reflexivity | auto].
    + intros e s bf (w & E & _). rewrite E. exists w. split; [reflexivity | discriminate].
    + intros s bf (w & E & _). rewrite E. exists w. split; [reflexivity | discriminate].
    + intros s bf (w & E & _). rewrite E. exists w. split; [reflexivity | discriminate].
Qed.
End AGREE.

Section TOP.
Context (L : layout) (al : allocator)
        (Rp : L_raw L -> heap -> buf -> option N -> Prop) (BR : buffer_refines L al Rp)
        (big : forall r h b own k, Rp r h b own -> isize_max < b_len b + k -> L_reserve L al k r h = Crash \/ L_reserve L al k r h = UB).
Context {S : Type}.
Notation cf j := {| init_cap := L_init_cap L; junk := j |}.
Theorem der_parse_cleans (R : user_reader S) fuel s h0 : writes_octets R -> cleans_up L al h0 (u_Der_parse L al R fuel s h0).
Proof. intros W. apply (harmless_cleans L al Rp BR True). now apply (h_Der L al Rp BR big True I). Qed.
Theorem ber_parse_cleans (R : user_reader S) fuel s h0 : writes_octets R -> cleans_up L al h0 (u_Ber_parse L al R fuel s h0).
Proof. intros W. apply (harmless_cleans L al Rp BR True). now apply (h_Ber_loop L al Rp BR big True I). Qed.
Context (R : reader S) (content : S -> list N) (HR : honest R content).
Theorem der_parse_ends fuel s h0 : bytes_ok (content s) -> nlen (content s) <= isize_max ->
  ends_as L al h0 (Der_parse R fuel s) (u_Der_parse L al (user_of R fuel) fuel s h0).
Proof.
  intros Ok0 N0. pose proof (k_Der L al Rp BR big R content HR (fst (Der_parse R fuel s) = Panic) fuel s Ok0 N0 (fun x => x)) as T.
  unfold u_Der_parse.
  pose proof (owning_clean L al Rp BR (fst (Der_parse R fuel s) = Panic) _ _ s (L_new L) h0 (bf_new (cf (fun _ => 0))) None h0
    (t_conseq L al Rp _ _ (fun s' bf' => s' = s /\ bf' = bf_new (cf (fun _ => 0))) _ _ _ T ltac:(intros ? ? (-> & ->); split; [reflexivity | apply holds_new]) (fun _ _ _ x => x))
    (br_new _ _ _ BR h0 (fun _ => 0)) (frame_refl None h0)) as K.
  unfold ends_as. destruct (Der_parse R fuel s) as [p s1]. cbn [fst snd] in *.
  destruct (owning L _ s (L_new L) h0) as [[b|e| |] s' h'| | |]; auto.
  - destruct K as (bf' & HQ & X & _). destruct p as [v|e| |]; [|destruct HQ as (_ & HQ); discriminate..]. destruct HQ as (-> & _ & H). split; [reflexivity|].
    now rewrite (holds_slice _ _ H) in X.
  - destruct K as (bf' & r & HQ & X & Y). destruct r; try contradiction. subst e0. destruct p as [v|e'| |]; destruct HQ as (-> & HQ); [destruct HQ as [HQ _]; discriminate | | discriminate..].
    injection HQ as ->. auto.
  - destruct K as (bf' & r & HQ & X & Y). destruct r; try contradiction. destruct p as [v|e'| |]; destruct HQ as (-> & HQ); try discriminate; [destruct HQ as [HQ _]; discriminate | auto].
  - destruct K as (bf' & r & HQ & X & Y). destruct r; try contradiction. destruct p as [v|e'| |]; destruct HQ as (-> & HQ); try discriminate; [destruct HQ as [HQ _]; discriminate | auto].
Qed.
Theorem ber_parse_ends fuel s h0 : bytes_ok (content s) -> nlen (content s) <= isize_max ->
  ends_as L al h0 (Ber_parse R fuel s) (u_Ber_parse L al (user_of R fuel) fuel s h0).
Proof.
  intros Ok0 N0. assert (EP : fst (Ber_loop R fuel fuel 0 (s, [])) = Panic -> fst (Ber_parse R fuel s) = Panic).
  { unfold Ber_parse. destruct (Ber_loop R fuel fuel 0 (s, [])) as [[| | |] [? ?]]; cbn; congruence. }
  pose proof (k_Ber_loop L al Rp BR big R content HR (fst (Ber_parse R fuel s) = Panic) fuel fuel 0 s [] Ok0 ltac:(change (nlen (@nil N)) with 0; lia) EP) as T.
  unfold u_Ber_parse.
  pose proof (owning_clean L al Rp BR (fst (Ber_parse R fuel s) = Panic) _ _ s (L_new L) h0 (bf_new (cf (fun _ => 0))) None h0
    (t_conseq L al Rp _ _ (fun s' bf' => s' = s /\ bf' = bf_new (cf (fun _ => 0))) _ _ _ T ltac:(intros ? ? (-> & ->); split; [reflexivity | apply holds_new]) (fun _ _ _ x => x))
    (br_new _ _ _ BR h0 (fun _ => 0)) (frame_refl None h0)) as K.
  unfold ends_as. destruct (owning L _ s (L_new L) h0) as [[b|e| |] s' h'| | |]; auto; unfold Ber_parse in *.
  - destruct K as (bf' & (w & E & H) & X & _). rewrite E. cbn [fst snd]. split; [reflexivity|]. now rewrite (holds_slice _ _ (H tt eq_refl)) in X.
  - destruct K as (bf' & r & (w & E & H) & X & Y). destruct r; try contradiction. subst e0. rewrite E. cbn [fst snd]. auto.
  - destruct K as (bf' & r & (w & E & H) & X & Y). destruct r; try contradiction. rewrite E. cbn [fst snd]. auto.
  - destruct K as (bf' & r & (w & E & H) & X & Y). destruct r; try contradiction. rewrite E. cbn [fst snd]. auto.
Qed.
End TOP.

(** ** the two layouts *)
Lemma alloc_big al n h : isize_max < n -> alloc al n h = Crash.
Proof. intros H. unfold alloc. destruct (N.ltb_spec isize_max n); [reflexivity | lia]. Qed.
Lemma realloc_big al p old n h : isize_max < n -> realloc al p old n h = Crash \/ realloc al p old n h = UB.
Proof.
  intros H. unfold realloc. destruct (isize_max <? old); [auto|]. destruct (h_get p h) as [c|]; [|auto]. destruct (negb _); [auto|].
  destruct (N.ltb_spec isize_max n); [|lia]. rewrite orb_true_r. auto.
Qed.
Lemma le_big al Rp : buffer_refines LE al Rp -> forall r h b own k, Rp r h b own -> isize_max < b_len b + k ->
  L_reserve LE al k r h = Crash \/ L_reserve LE al k r h = UB.
Proof.
  intros BR r h b own k R H. destruct (br_observe _ _ _ BR _ _ _ _ R) as (EL & EC & _ & C & _).
  cbn [LE L_reserve L_len L_capacity] in *. unfold le_reserve. rewrite EL, EC. cbv zeta. destruct (usize_limit <=? _); [auto|].
  destruct (N.leb_spec (b_len b + k) (bf_cap b)); [lia|]. unfold mbind. destruct (le_is_stack r).
  - left. now rewrite alloc_big.
  - destruct (realloc_big al (le_data r) (bf_cap b) _ h H) as [-> | ->]; auto.
Qed.
Lemma ue_big al Rp : buffer_refines UE al Rp -> forall r h b own k, Rp r h b own -> isize_max < b_len b + k ->
  L_reserve UE al k r h = Crash \/ L_reserve UE al k r h = UB.
Proof.
  intros BR r h b own k R H. destruct (br_observe _ _ _ BR _ _ _ _ R) as (EL & EC & _ & C & _).
  cbn [UE L_reserve L_len L_capacity] in *. unfold ue_reserve. rewrite EL, EC. cbv zeta. destruct (usize_limit <=? _); [auto|].
  destruct (N.leb_spec (b_len b + k) (bf_cap b)); [lia|]. unfold mbind. destruct (ue_is_stack r).
  - left. unfold ue_heap_new. destruct (_ =? 0); [reflexivity|]. unfold mbind. now rewrite alloc_big.
  - destruct (realloc_big al (ue_data r) (ue_cap_ r) _ h H) as [-> | ->]; auto.
Qed.
Lemma le_cap_big al n h : isize_max < n -> L_with_capacity LE al n h = Crash.
Proof.
  intros H. cbn [LE L_with_capacity]. unfold le_with_capacity, le_reserve. change (le_len le_new) with 0. change (le_capacity le_new) with LE_INIT_CAPACITY.
  change (le_is_stack le_new) with true. cbv zeta. rewrite N.add_0_l. destruct (usize_limit <=? n); [reflexivity|].
  destruct (N.leb_spec n LE_INIT_CAPACITY) as [Q|]; [exfalso; assert (LE_INIT_CAPACITY <= isize_max) by discriminate; lia|].
  unfold mbind. now rewrite alloc_big.
Qed.
Lemma ue_cap_big al n h : isize_max < n -> L_with_capacity UE al n h = Crash.
Proof.
  intros H. cbn [UE L_with_capacity]. unfold ue_with_capacity.
  destruct (N.leb_spec n UE_INIT_CAPACITY) as [Q|]; [exfalso; assert (UE_INIT_CAPACITY <= isize_max) by discriminate; lia|].
  unfold mbind, ue_heap_new. destruct (n =? 0); [reflexivity|]. unfold mbind. now rewrite alloc_big.
Qed.

Section BUILD.
Context (L : layout) (al : allocator)
        (Rp : L_raw L -> heap -> buf -> option N -> Prop) (BR : buffer_refines L al Rp)
        (big : forall r h b own k, Rp r h b own -> isize_max < b_len b + k -> L_reserve L al k r h = Crash \/ L_reserve L al k r h = UB)
        (cap_big : forall n h, isize_max < n -> L_with_capacity L al n h = Crash).
Context {S : Type}.
Notation triple := (triple L al Rp (S := S) False).
Notation cf j := {| init_cap := L_init_cap L; junk := j |}.

(** [holds_room bf w n]: contents [w], room for [n] octets. *)
Definition roomy (n : N) (w : list N) (bf : buf) : Prop := exists sp, b_mem bf = w ++ sp /\ b_len bf = nlen w /\ n <= nlen sp /\ bytes_ok sp.
Lemma t_extend bs n w : bytes_ok bs -> nlen bs <= n -> triple (fun _ bf => roomy n w bf) (bmut L (L_extend L bs)) (fun r _ bf => r = Ok tt /\ roomy (n - nlen bs) (w ++ bs) bf).
Proof.
  intros Hb Hn. apply (t_mut L al Rp False _ (bf_extend bs)); [apply (dsim_extend L al Rp BR); assumption|].
  intros _ bf (sp & M & E & Hs & Os). destruct (extend_ok bf w sp bs M E ltac:(lia) Os) as (b2 & s2 & E2 & M2 & L2 & N2 & O2).
  exists b2. split; [assumption|]. split; [reflexivity|]. exists s2. repeat split; auto. lia.
Qed.
Lemma t_extend_all items : Forall bytes_ok items -> forall n w, nlen (concat items) <= n ->
  triple (fun _ bf => roomy n w bf) (u_extend_all L items) (fun r _ bf => r = Ok tt /\ roomy (n - nlen (concat items)) (w ++ concat items) bf).
Proof.
  induction 1 as [|i items Hi _ IH]; intros n w Hn; cbn [u_extend_all concat] in *.
  - apply t_stop. intros _ bf R. change (nlen (@nil N)) with 0. rewrite N.sub_0_r, app_nil_r. auto.
  - rewrite nlen_app in Hn. eapply t_bind; [exact BR | apply (t_extend i n w Hi); lia | | | |]; cbv beta.
    2:{ intros e s bf ([=] & _). } 2:{ intros s bf ([=] & _). } 2:{ intros s bf ([=] & _). }
    intros []. eapply t_conseq; [apply (IH (n - nlen i) (w ++ i)); lia | now intros s bf (_ & R) |].
    intros r _ bf (-> & R). split; [reflexivity|]. rewrite nlen_app, N.sub_add_distr, app_assoc. assumption.
Qed.

Lemma raw_total_big items : forall acc h, acc + nlen (concat items) < usize_limit -> raw_total acc items h = Done (acc + nlen (concat items)) h.
Proof. intros acc h H. apply sim_total. now apply total_length_ok. Qed.
Lemma raw_total_crash items : forall acc h, usize_limit <= acc + nlen (concat items) -> acc < usize_limit -> raw_total acc items h = Crash.
Proof.
  induction items as [|i items IH]; intros acc h H Ha; cbn [raw_total concat] in *.
  - change (nlen (@nil N)) with 0 in H. lia.
  - rewrite nlen_app in H. unfold mbind, madd. destruct (N.ltb_spec (acc + nlen i) usize_limit); [|reflexivity]. apply IH; lia.
Qed.
Theorem iterator_ends id lb counted items (s : S) h0 : bytes_ok id -> Forall bytes_ok (p_items items) -> (forall n, n < usize_limit -> bytes_ok (lb n)) ->
  nlen (concat (p_items items)) <= nlen (concat (p_items counted)) ->
  let n := nlen (concat (p_items counted)) in
  match u_from_iterator L al id lb counted items s h0 with
  | Ends (Ok b) s' h => s' = s /\ p_throws counted = false /\ p_throws items = false /\ new_value L h0 b (id ++ lb n ++ concat (p_items items)) h
  | Ends Panic s' h => s' = s /\ untouched h0 h /\ (p_throws counted = true \/ p_throws items = true \/ isize_max < nlen id + nlen (lb n) + n)
  | Ends _ _ _ => False
  | EAbort => out_of_memory al
  | EOversize | EUB => False
  end.
Proof using BR big cap_big.
  intros Hi Hs Hl Hle n. subst n. set (n := nlen (concat (p_items counted))) in *. pose proof isize_lt. unfold u_from_iterator.
  destruct (N.lt_ge_cases n usize_limit) as [Hn|Hn].
  2:{ rewrite raw_total_crash by (rewrite ?N.add_0_l; auto; reflexivity). split; [reflexivity|]. split; [intros a; reflexivity|]. right; right. unfold isize_max, usize_limit in *. lia. }
  rewrite raw_total_big by (now rewrite N.add_0_l). rewrite N.add_0_l. fold n. destruct (p_throws counted).
  { split; [reflexivity|]. split; [intros a; reflexivity | auto]. }
  destruct (N.le_gt_cases (nlen id + nlen (lb n) + n) isize_max) as [Ht|Ht].
  2:{ assert (E : (t <-- madd (nlen id) (nlen (lb n)) ; total_len <-- madd t n ; L_with_capacity L al total_len) h0 = Crash).
      { unfold mbind, madd. destruct (nlen id + nlen (lb n) <? usize_limit); [|reflexivity]. cbn [mret].
        unfold mret. destruct (nlen id + nlen (lb n) + n <? usize_limit); [|reflexivity]. now apply cap_big. }
      rewrite E. split; [reflexivity|]. split; [intros a; reflexivity | auto]. }
  rewrite (mbind_done _ _ (nlen id + nlen (lb n)) h0 h0) by (apply madd_ok, add_usize_ok; unfold isize_max, usize_limit in *; lia).
  rewrite (mbind_done _ _ (nlen id + nlen (lb n) + n) h0 h0) by (apply madd_ok, add_usize_ok; unfold isize_max, usize_limit in *; lia).
  pose proof (br_with_capacity _ _ _ BR h0 _ Ht) as X. unfold meets in X.
  destruct (L_with_capacity L al (nlen id + nlen (lb n) + n) h0) as [b h1| | |]; try contradiction; [|exact X].
  destruct X as (j & bf & own & R & F & E).
  assert (Hr : roomy (nlen id + nlen (lb n) + n) [] bf).
  { unfold bf_with_capacity in E. destruct (reserve_ok (cf j) (nlen id + nlen (lb n) + n) (bf_new (cf j)) [] (holds_new _)) as (b1 & sp & E1 & M1 & L1 & K1 & O1).
    - change (nlen (@nil N)) with 0. lia.
    - rewrite E in E1. injection E1 as <-. exists sp. auto. }
  assert (T : triple (fun _ bf => roomy (nlen id + nlen (lb n) + n) [] bf)
    (bbind L (bmut L (L_extend L id)) (fun _ => bbind L (bmut L (L_extend L (lb n))) (fun _ => bbind L (u_extend_all L (p_items items)) (fun _ => if p_throws items then bpanic else bret tt))))
    (fun r s' bf => r = (if p_throws items then Panic else Ok tt) /\ exists k, roomy k (id ++ lb n ++ concat (p_items items)) bf)).
  { eapply t_bind; [exact BR | apply (t_extend id _ [] Hi); lia | | | |]; cbv beta.
    2:{ intros e s1 bf1 ([=] & _). } 2:{ intros s1 bf1 ([=] & _). } 2:{ intros s1 bf1 ([=] & _). }
    intros []. eapply t_bind; [exact BR | eapply t_conseq; [apply (t_extend (lb n) (nlen id + nlen (lb n) + n - nlen id) id (Hl n Hn)); lia | now intros s1 bf1 (_ & Q) | intros r s1 bf1 Q; exact Q] | | | |]; cbv beta.
    2:{ intros e s1 bf1 ([=] & _). } 2:{ intros s1 bf1 ([=] & _). } 2:{ intros s1 bf1 ([=] & _). }
    intros []. eapply t_bind; [exact BR | eapply t_conseq; [apply (t_extend_all (p_items items) Hs (nlen id + nlen (lb n) + n - nlen id - nlen (lb n)) (id ++ lb n)); lia | now intros s1 bf1 (_ & Q) | intros r s1 bf1 Q; exact Q] | | | |]; cbv beta.
    2:{ intros e s1 bf1 ([=] & _). } 2:{ intros s1 bf1 ([=] & _). } 2:{ intros s1 bf1 ([=] & _). }
    intros []. rewrite <- app_assoc. destruct (p_throws items); apply t_stop; intros s1 bf1 (_ & Q); eauto. }
  eapply (t_conseq L al Rp False _ (fun s' bf' => s' = s /\ bf' = bf)) in T; [|intros s1 bf1 (_ & ->); exact Hr | intros r s1 bf1 Q; exact Q].
  (* the value's state is unchanged *)
  assert (T2 : triple (fun s' bf' => s' = s /\ bf' = bf)
    (bbind L (bmut L (L_extend L id)) (fun _ => bbind L (bmut L (L_extend L (lb n))) (fun _ => bbind L (u_extend_all L (p_items items)) (fun _ => if p_throws items then bpanic else bret tt))))
    (fun r s' bf => s' = s /\ r = (if p_throws items then Panic else Ok tt) /\ exists k, roomy k (id ++ lb n ++ concat (p_items items)) bf)).
  { intros s1 b1 h2 bf1 o1 R1 (-> & ->). specialize (T s b1 h2 bf o1 R1 (conj eq_refl eq_refl)).
    assert (St : forall r s' b' h', (bbind L (bmut L (L_extend L id)) (fun _ => bbind L (bmut L (L_extend L (lb n))) (fun _ => bbind L (u_extend_all L (p_items items)) (fun _ => if p_throws items then bpanic else bret tt)))) s b1 h2 = Run r s' b' h' -> s' = s).
    { assert (K : forall f (s : S) b h r s' b' h', bmut L f s b h = Run r s' b' h' -> s' = s) by (unfold bmut; intros f s0 b0 h3 r s' b' h' Q; destruct (f b0 h3); congruence).
      assert (KB : forall A C (m : ModelUnwind.B L A) (k : A -> ModelUnwind.B L C), (forall (s : S) b h r s' b' h', m s b h = Run r s' b' h' -> s' = s) ->
                   (forall a s b h r s' b' h', k a s b h = Run r s' b' h' -> s' = s) -> forall s b h r s' b' h', bbind L m k s b h = Run r s' b' h' -> s' = s).
      { intros A C m k Hm Hk s0 b0 h3 r s' b' h' Q. unfold bbind in Q. destruct (m s0 b0 h3) as [[a|e| |] s2 b2 h4| | |] eqn:Em; try discriminate;
          apply Hm in Em as ->; [eapply Hk; exact Q | congruence..]. }
      assert (KA : forall its (s : S) b h r s' b' h', u_extend_all L its s b h = Run r s' b' h' -> s' = s).
      { induction its; cbn [u_extend_all]; [unfold bret; congruence|]. apply KB; [apply K | intros _; exact IHits]. }
      apply KB; [apply K | intros _]. apply KB; [apply K | intros _]. apply KB; [apply KA | intros _]. destruct (p_throws items); unfold bpanic, bret; congruence. }
    unfold post in *. destruct (bbind L _ _ s b1 h2) as [r s' b' h'| | |]; auto. destruct T as (bf2 & o2 & R2 & F2 & Q). exists bf2, o2. split; [assumption|]. split; [assumption|].
    split; [eapply St; reflexivity | exact Q]. }
  pose proof (owning_clean L al Rp BR False _ _ s b h1 bf own h0 T2 R F) as K.
  destruct (owning L _ s b h1) as [[b'|e| |] s' h'| | |]; auto.
  - destruct K as (bf2 & (-> & Q & k & sp & M & E2 & _ & O2) & V & _). split; [reflexivity|]. split; [reflexivity|]. destruct (p_throws items); [discriminate|]. split; [reflexivity|].
    rewrite (holds_slice bf2 (id ++ lb n ++ concat (p_items items))) in V; [exact V|]. exists sp. auto.
  - destruct K as (bf2 & r & (_ & Q & _) & _ & Y). destruct r; try contradiction. destruct (p_throws items); discriminate.
  - destruct K as (bf2 & r & (-> & Q & _) & U & Y). split; [reflexivity|]. split; [assumption|]. destruct r; try contradiction. destruct (p_throws items); [auto | discriminate].
  - destruct K as (bf2 & r & (_ & Q & _) & _ & Y). destruct r; try contradiction. destruct (p_throws items); discriminate.
Qed.

(** ** extend_from_slice *)
Lemma lifts_Der bytes (s : S) b h bs : L_slice L b h = Done bs h ->
  match raw_Der_extend L al bytes b h with
  | Done b' h' => u_Der_extend L al bytes s b h = Run (Ok tt) s b' h'
  | Abort => u_Der_extend L al bytes s b h = RAbort
  | _ => True
  end.
Proof using.
  intros E. unfold raw_Der_extend, u_Der_extend, mbind, bbind, bslice, blift, mlift, badd, madd, msub, breserve, bmut, blen, bret, bpanic, mret, mcrash.
  rewrite E. destruct (tlv_id bs) as [id| | |]; try exact I; auto. destruct (tlv_length bs) as [l| | |]; try exact I; auto.
  destruct (unwrap (Length_definite l)) as [o| | |]; try exact I; auto. destruct (o + nlen bytes <? usize_limit); try exact I; auto.
  destruct (nlen bytes + Length_len (Definite (o + nlen bytes)) <? usize_limit); try exact I; auto.
  destruct (nlen bytes + Length_len (Definite (o + nlen bytes)) <? Length_len l); try exact I; auto.
  destruct (L_reserve L al _ b h) as [b1 h1| | |]; try exact I; auto.
  destruct (L_len L b1 + _ <? usize_limit); try exact I; auto.
  destruct (L_set_len_checked L _ b1 h1) as [b2 h2| | |]; try exact I; auto. destruct (nlen id + Length_len l =? nlen id + Length_len (Definite (o + nlen bytes))).
  - destruct (L_store L _ bytes b2 h2) as [b3 h3| | |]; try exact I; auto. destruct (negb _); try exact I; auto. destruct (L_store L _ _ b3 h3); try exact I; auto.
  - destruct (L_move L _ _ _ b2 h2) as [b4 h4| | |]; try exact I; auto.
    destruct (L_store L _ bytes b4 h4) as [b3 h3| | |]; try exact I; auto. destruct (negb _); try exact I; auto. destruct (L_store L _ _ b3 h3); try exact I; auto.
Qed.
Lemma lifts_Ber bytes (s : S) b h bs : L_slice L b h = Done bs h ->
  match raw_Ber_extend L al bytes b h with
  | Done b' h' => u_Ber_extend L al bytes s b h = Run (Ok tt) s b' h'
  | Abort => u_Ber_extend L al bytes s b h = RAbort
  | _ => True
  end.
Proof using.
  intros E. pose proof (lifts_Der bytes s b h bs E) as K. unfold raw_Ber_extend, u_Ber_extend, mbind, bbind, bslice, blift, mlift.
  rewrite E. destruct (tlv_length bs) as [[|n]| | |]; try exact I; auto. unfold mret, breserve, bmut, blen, badd, madd, bret, mret, mcrash, bpanic.
  destruct (L_reserve L al _ b h) as [b1 h1| | |]; try exact I; auto. unfold bmut. destruct (L_store L _ bytes b1 h1) as [b3 h3| | |]; try exact I; auto. destruct (L_len L b3 + _ <? usize_limit); try exact I; auto. destruct (L_set_len_checked L _ b3 h3); try exact I; auto.
Qed.
(** What extending with [bytes] does to the value [b], whose octets would become [new]. *)
Definition extends (b : L_raw L) (h : heap) (own : option N) (new : list N) (s : S) (x : run S (L_raw L) unit) : Prop :=
  match x with
  | Run (Ok _) s' b' h' => s' = s /\ exists bf' own', Rp b' h' bf' own' /\ frame own own' h h' /\ bf_slice bf' = new
  | Run Panic s' b' h' => s' = s /\ b' = b /\ h' = h /\ isize_max < nlen new
  | Run _ _ _ _ => False
  | RAbort => out_of_memory al
  | ROversize => isize_max < nlen new
  | RUB => False
  end.
Lemma extends_fits f g (u : ModelUnwind.B L unit) (s : S) b h bf own new : asim L al Rp f g -> Rp b h bf own ->
  (forall c, exists b', g c bf = Ok b' /\ holds b' new) ->
  match f b h with
  | Done b' h' => u s b h = Run (Ok tt) s b' h'
  | Abort => u s b h = RAbort
  | _ => True
  end -> extends b h own new s (u s b h).
Proof using.
  intros A R Hg K. pose proof (alloc_result L al Rp f g b h bf own new A R Hg) as X. unfold meets, contains in X. unfold extends.
  destruct (f b h) as [b' h'| | |]; try contradiction; rewrite K; [|exact X]. destruct X as (bf' & o' & R' & F' & H').
  split; [reflexivity|]. exists bf', o'. split; [assumption|]. split; [assumption|]. now apply holds_slice.
Qed.
Lemma extends_big n (k : unit -> ModelUnwind.B L unit) (s : S) b h bf own new : Rp b h bf own -> isize_max < b_len bf + n -> isize_max < nlen new ->
  extends b h own new s (bbind L (breserve L al n) k s b h).
Proof using BR big.
  clear cap_big. intros R Hn Hw. unfold bbind, breserve, bmut. destruct (big b h bf own n R Hn) as [E|E]; rewrite E; cbn [extends]; auto.
  rewrite (rp_len L al Rp BR _ _ _ _ R). destruct (N.ltb_spec isize_max (b_len bf + n)); [assumption | lia].
Qed.
Theorem der_extend_ends bytes (s : S) b h bf own id c : Rp b h bf own -> is_identifier id -> bytes_ok bytes -> bytes_ok c ->
  holds bf (id ++ Length_to_bytes (Definite (nlen c)) ++ c) ->
  extends b h own (id ++ Length_to_bytes (Definite (nlen (c ++ bytes))) ++ c ++ bytes) s (u_Der_extend L al bytes s b h).
Proof using BR big.
  clear cap_big. intros R Hi Hb Hc H. pose proof isize_lt.
  pose proof (br_observe _ _ _ BR _ _ _ _ R) as (_ & _ & Ob1 & Ob2 & _).
  assert (Hfit : nlen id + nlen (Length_to_bytes (Definite (nlen c))) + nlen c <= isize_max).
  { rewrite (holds_len _ _ H), !nlen_app in Ob1. lia. }
  destruct (N.le_gt_cases (nlen id + Length_len (Definite (nlen c + nlen bytes)) + nlen c + nlen bytes) isize_max) as [Hn|Hn].
  - apply (extends_fits (raw_Der_extend L al bytes) (fun c => Der_extend c bytes) _ s b h bf own _ (sim_Der_extend L al Rp BR bytes Hb) R).
    + intros cfg. now apply Der_extend_ok.
    + eapply lifts_Der. apply (rp_slice L al Rp BR _ _ _ _ R).
  - unfold u_Der_extend.
    assert (Hm0 : minimal_length (nlen c) (Length_to_bytes (Definite (nlen c)))) by (apply Length_to_bytes_minimal; unfold isize_max, usize_limit in *; lia).
    destruct (tlv_parts_definite id (nlen c) _ c Hi Hm0 ltac:(lia)) as (T1 & T2 & _ & _).
    assert (Hnew : isize_max < nlen (id ++ Length_to_bytes (Definite (nlen (c ++ bytes))) ++ c ++ bytes)).
    { rewrite !nlen_app. destruct (N.lt_ge_cases (nlen c + nlen bytes) usize_limit) as [Q|Q]; [rewrite len_len by assumption; lia | unfold isize_max, usize_limit in *; lia]. }
    unfold bbind at 1. unfold bslice. rewrite (rp_slice L al Rp BR _ _ _ _ R), (holds_slice _ _ H).
    unfold bbind at 1. unfold blift at 1. rewrite T1. unfold bbind at 1. unfold blift at 1. rewrite T2.
    unfold bbind at 1. unfold blift at 1. change (unwrap (Length_definite (Definite (nlen c)))) with (Ok (nlen c)). cbv beta iota.
    unfold bbind at 1. unfold badd at 1. destruct (N.ltb_spec (nlen c + nlen bytes) usize_limit) as [Q1|Q1]; [|cbn [bpanic]; unfold bpanic; cbn [extends]; auto].
    unfold bret at 1. unfold bbind at 1. unfold badd at 1.
    destruct (N.ltb_spec (nlen bytes + Length_len (Definite (nlen c + nlen bytes))) usize_limit) as [Q2|Q2]; [|unfold bpanic; cbn [extends]; auto].
    unfold bret at 1. unfold bbind at 1.
    assert (HM : Length_len (Definite (nlen c)) <= Length_len (Definite (nlen c + nlen bytes))) by (apply Length_len_mono; lia).
    destruct (N.ltb_spec (nlen bytes + Length_len (Definite (nlen c + nlen bytes))) (Length_len (Definite (nlen c)))); [lia|].
    unfold bret at 1. apply (extends_big _ _ s b h bf own _ R); [|exact Hnew].
    rewrite (holds_len _ _ H), !nlen_app, len_len by lia. lia.
Qed.
Theorem ber_extend_ends bytes (s : S) b h bf own id c : Rp b h bf own -> is_identifier id -> bytes_ok bytes -> bytes_ok c ->
  (holds bf (id ++ Length_to_bytes (Definite (nlen c)) ++ c) ->
   extends b h own (id ++ Length_to_bytes (Definite (nlen (c ++ bytes))) ++ c ++ bytes) s (u_Ber_extend L al bytes s b h)) /\
  (holds bf (id ++ 0x80 :: c) ->
   extends b h own (id ++ 0x80 :: c ++ bytes) s (u_Ber_extend L al bytes s b h)).
Proof using BR big.
  clear cap_big. intros R Hi Hb Hc. pose proof isize_lt as Hisz. pose proof (br_observe _ _ _ BR _ _ _ _ R) as (_ & _ & Ob1 & Ob2 & _). split; intros H.
  - assert (E : u_Ber_extend L al bytes s b h = u_Der_extend L al bytes s b h).
    { rewrite (holds_len _ _ H), !nlen_app in Ob1.
      assert (Hm0 : minimal_length (nlen c) (Length_to_bytes (Definite (nlen c)))) by (apply Length_to_bytes_minimal; unfold isize_max, usize_limit in *; lia).
      destruct (tlv_parts_definite id (nlen c) _ c Hi Hm0 ltac:(lia)) as (_ & T2 & _ & _).
      unfold u_Ber_extend. unfold bbind at 1. unfold bslice. rewrite (rp_slice L al Rp BR _ _ _ _ R), (holds_slice _ _ H).
      unfold bbind at 1. unfold blift at 1. rewrite T2. reflexivity. }
    rewrite E. now apply (der_extend_ends bytes s b h bf own id c).
  - destruct (N.le_gt_cases (nlen id + 1 + nlen c + nlen bytes) isize_max) as [Hn|Hn].
    + apply (extends_fits (raw_Ber_extend L al bytes) (fun c => Ber_extend c bytes) _ s b h bf own _ (sim_Ber_extend L al Rp BR bytes Hb) R).
      * intros cfg. now apply Ber_extend_indefinite.
      * eapply lifts_Ber. apply (rp_slice L al Rp BR _ _ _ _ R).
    + destruct (tlv_parts_indefinite id c Hi) as (_ & T2 & _).
      unfold u_Ber_extend. unfold bbind at 1. unfold bslice. rewrite (rp_slice L al Rp BR _ _ _ _ R), (holds_slice _ _ H).
      unfold bbind at 1. unfold blift at 1. rewrite T2. cbv beta iota.
      apply (extends_big _ _ s b h bf own _ R); [rewrite (holds_len _ _ H), nlen_app, nlen_cons; lia | rewrite nlen_app, nlen_cons, nlen_app; lia].
Qed.
End BUILD.
