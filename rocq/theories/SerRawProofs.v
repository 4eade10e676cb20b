(** Serialisation in memory: proofs. *)
From Coq Require Import Lia.
From Verif Require Import Base ModelIo ModelTag ModelContents ModelBuf ModelTlv ModelHeap ModelTlvRaw ModelUnwind ModelRelease ModelSerRaw
  Spec SpecBuf SpecTlv SpecUnwind SpecSerRaw TagProofs BufProofs RawProofs RawMain RawTlv RawStream UnwindProofs RelProofs UseRelease LooseProofs.

Lemma lays_then p q : forall w, lays (andthen p q) w = match lays p w with (Ok _, w') => lays q w' | (r, w') => (r, w') end.
Proof. induction p as [r|bs k IH]; intros w; cbn [andthen lays]; [destruct r; reflexivity|]. destruct (_ <=? _); apply IH. Qed.
Lemma refused_then p q : forall w, refused (andthen p q) w = refused p w || match lays p w with (Ok _, w') => refused q w' | _ => false end.
Proof.
  induction p as [r|bs k IH]; intros w; cbn [andthen lays refused]; [destruct r; reflexivity|]. destruct (_ <=? _); [apply IH | reflexivity].
Qed.

Section SERIALISE.
Context (L : layout) (al : allocator) (Rp : L_raw L -> heap -> buf -> option N -> Prop) (BR : buffer_refines L al Rp)
  (big : forall r h b own k, Rp r h b own -> isize_max < b_len b + k -> b_len b + k < usize_limit -> L_reserve L al k r h = Crash \/ L_reserve L al k r h = UB)
  (O : Prop).
Notation raw := (L_raw L).
Notation B := (B L (S := unit)).
Notation triple := (triple L al Rp (S := unit) O).
Notation cf j := {| init_cap := L_init_cap L; junk := j |}.

(** [m] does to the octets of the buffer what [p] does to a list. *)
Definition does (m : B unit) (p : prog) : Prop := forall w, (refused p w = true -> O) ->
  triple (fun _ bf => holds bf w) m (fun r _ bf => exists w', lays p w = (r, w') /\ holds bf w').

Lemma s_reserve n w : n < usize_limit -> nlen w + n < usize_limit -> (isize_max < nlen w + n -> O) -> triple (fun _ bf => holds bf w) (breserve L al n)
  (fun r _ bf => match r with Ok _ => nlen w + n <= isize_max /\ spacious n w bf | Panic => isize_max < nlen w + n /\ holds bf w | _ => False end).
Proof using BR big.
  intros Hn Hu HO s b h bf own R H. pose proof (holds_len _ _ H) as Ll. unfold breserve, bmut. destruct (N.le_gt_cases (b_len bf + n) isize_max) as [Q|Q].
  - pose proof (br_reserve _ _ _ BR _ _ _ _ n R Q) as X. unfold meets in X. destruct (L_reserve L al n b h) as [b' h'| | |]; try contradiction; [|exact X].
    destruct X as (j & bf' & o' & R' & F' & E'). cbn [post]. exists bf', o'. split; [assumption|]. split; [assumption|]. rewrite <- Ll. split; [assumption|].
    destruct (reserve_ok (cf j) n bf w H ltac:(lia)) as (b1 & sp & E1 & X). rewrite E' in E1. injection E1 as <-. exists sp. exact X.
  - destruct (big b h bf own n R Q ltac:(lia)) as [E|E]; rewrite E.
    + cbn [post]. exists bf, own. rewrite <- Ll. auto using frame_refl.
    + rewrite (rp_len L al Rp BR _ _ _ _ R). destruct (N.ltb_spec isize_max (b_len bf + n)); [|lia]. cbn [post]. apply HO. lia.
Qed.
Lemma s_write bs w : bytes_ok bs -> nlen bs <= isize_max -> (isize_max < nlen w + nlen bs -> O) -> triple (fun _ bf => holds bf w) (u_write L al bs)
  (fun r _ bf => match r with Ok _ => nlen w + nlen bs <= isize_max /\ holds bf (w ++ bs) | Panic => isize_max < nlen w + nlen bs /\ holds bf w | _ => False end).
Proof using BR big.
  intros Hb Hn HO. assert (Hz : isize_max + isize_max < usize_limit) by reflexivity.
  apply (t_known L al Rp BR). intros s b h bf own R (H & K1 & K2 & _). pose proof (holds_len _ _ H) as Ll. revert s b h bf own R H K1 K2 Ll.
  intros s b h bf own R H K1 K2 Ll.
  assert (T : triple (fun _ bf => holds bf w) (u_write L al bs)
    (fun r _ bf => match r with Ok _ => nlen w + nlen bs <= isize_max /\ holds bf (w ++ bs) | Panic => isize_max < nlen w + nlen bs /\ holds bf w | _ => False end)).
  { eapply (t_bind L al Rp BR); [apply (s_reserve (nlen bs) w); [lia | lia | exact HO]| | | |].
    - intros []. cbv beta. eapply (t_mut L al Rp); [exact (dsim_extend L al Rp BR bs Hb)|].
      intros s1 bf1 (Hn1 & sp & E & El & Hn2 & Hs). destruct (extend_ok bf1 w sp bs E El) as (b' & s' & E' & M' & L' & _ & O'); [exact Hn2 | assumption |].
      exists b'. split; [assumption|]. split; [assumption|]. exists s'. auto.
    - intros e s1 bf1 [].
    - intros s1 bf1 X. exact X.
    - intros s1 bf1 []. }
  exact (T s b h bf own R H).
Qed.
Lemma does_prog p : prog_ok p -> does (u_prog L al p) p.
Proof using BR big.
  induction p as [r|bs k IH]; intros Hp w HO.
  - cbn [u_prog]. apply t_stop. intros s bf H. exists w. auto.
  - destruct Hp as (Hb & Hn & Ht & Hf). intros s b h bf own R H. cbn [u_prog lays refused] in *.
    assert (HO' : isize_max < nlen w + nlen bs -> O). { intros X. apply HO. destruct (N.leb_spec (nlen w + nlen bs) isize_max); [lia | reflexivity]. }
    pose proof (s_write bs w Hb Hn HO' s b h bf own R H) as T. unfold post in T. destruct (u_write L al bs s b h) as [r s1 b1 h1| | |]; try exact T.
    destruct T as (bf1 & own1 & R1 & F1 & X).
    assert (C : forall q w1, does (u_prog L al q) q -> (refused q w1 = true -> O) -> holds bf1 w1 ->
      post L al Rp O own h (u_prog L al q s1 b1 h1) (fun r _ bf => exists w', lays q w1 = (r, w') /\ holds bf w')).
    { intros q w1 D Hr H1. pose proof (D w1 Hr s1 b1 h1 bf1 own1 R1 H1) as T. unfold post in *. destruct (u_prog L al q s1 b1 h1); try exact T.
      destruct T as (bf2 & own2 & R2 & F2 & X2). exists bf2, own2. split; [assumption|]. split; [|assumption].
      eapply frame_trans; [exact F1 | exact F2|]. intros y Ey. eapply rp_live; eassumption. }
    destruct r as [[]|e| |]; try contradiction; destruct X as (X1 & X2).
    + destruct (N.leb_spec (nlen w + nlen bs) isize_max); [|lia]. apply C; [now apply IH | exact HO | assumption].
    + destruct (N.leb_spec (nlen w + nlen bs) isize_max); [lia|]. apply C; [now apply IH | intros _; now apply HO | assumption].
Qed.
Lemma does_all bs : bytes_ok bs -> nlen bs <= isize_max -> does (u_write_all L al bs) (offer bs).
Proof using BR big.
  intros Hb Hn w HO. unfold offer in *. cbn [lays refused] in *. destruct bs as [|x bs].
  - cbn [u_write_all]. apply (t_known L al Rp BR). apply t_stop. intros s bf (H & K1 & K2 & _). rewrite <- (holds_len _ _ H), nlen_nil, N.add_0_r, app_nil_r.
    destruct (N.leb_spec (b_len bf) isize_max); [|lia]. exists w. auto.
  - cbn [u_write_all]. eapply t_conseq; [apply (s_write (x :: bs) w Hb Hn)| |].
    + intros X. apply HO. destruct (N.leb_spec (nlen w + nlen (x :: bs)) isize_max); [lia | reflexivity].
    + intros s bf H. exact H.
    + intros r s bf X. destruct r as [[]|e| |]; try contradiction; destruct X as (X1 & X2); destruct (N.leb_spec (nlen w + nlen (x :: bs)) isize_max); try lia; eauto.
Qed.
Lemma does_then m q p1 p2 : does m p1 -> does q p2 -> does (bbind L m (fun _ => q)) (andthen p1 p2).
Proof using BR.
  intros D1 D2 w HO. rewrite lays_then, refused_then in *. destruct (lays p1 w) as [r0 w0] eqn:E.
  eapply (t_bind L al Rp BR) with (Q := fun r _ bf => r = r0 /\ holds bf w0).
  - eapply t_conseq; [apply (D1 w)| |].
    + intros X. apply HO. rewrite X. reflexivity.
    + auto.
    + intros r s bf (w' & X & H). rewrite E in X. injection X as -> ->. auto.
  - intros []. intros s b h bf own R (X & H). subst r0. refine (D2 w0 _ s b h bf own R H). intros X. apply HO. rewrite X. apply Bool.orb_true_r.
  - intros e s bf (<- & H). eauto.
  - intros s bf (<- & H). eauto.
  - intros s bf (<- & H). eauto.
Qed.

Context (wraps : bool).
Definition announce (v : calls) (k n : N) : B unit :=
  bbind L (b_res L (c_id_len v)) (fun i => match i with
    | None => bret tt
    | Some id_len => bbind L (b_add L wraps id_len k) (fun t => bbind L (b_add L wraps t n) (fun der_len => breserve L al der_len))
    end).
Lemma bind_assoc {A C D} (m : B A) (f : A -> B C) (g : C -> B D) s b h : bbind L (bbind L m f) g s b h = bbind L m (fun a => bbind L (f a) g) s b h.
Proof using. unfold bbind. destruct (m s b h) as [[]| | |]; reflexivity. Qed.
Lemma body_is v n c s b h : u_der_body L al wraps v n c s b h =
  bbind L (announce v (nlen (Length_to_bytes (Definite n))) n) (fun _ => bbind L (u_prog L al (c_id v)) (fun _ => bbind L (u_write_all L al (Length_to_bytes (Definite n))) (fun _ => c))) s b h.
Proof using. unfold u_der_body, announce. now rewrite bind_assoc. Qed.
Lemma b_add_is wr x y s b h : b_add L wr x y s b h =
  Run (if wr then Ok ((x + y) mod usize_limit) else if x + y <? usize_limit then Ok (x + y) else Panic) s b h.
Proof using. unfold b_add, badd. destruct wr; [reflexivity|]. destruct (_ <? _); reflexivity. Qed.
Definition finish_over (v : calls) (k n : N) : bool := match announced wraps v k n with Ok a => isize_max <? a | _ => false end.
Lemma s_announce v k n : answer_ok (c_id_len v) -> k < usize_limit -> n < usize_limit -> (finish_over v k n = true -> O) ->
  triple (fun _ bf => holds bf []) (announce v k n)
    (fun r _ bf => holds bf [] /\ r = match announced wraps v k n with Ok a => if isize_max <? a then Panic else Ok tt | Err e => Err e | Panic => Panic | NoFuel => NoFuel end).
Proof using BR big.
  intros Ha Hk Hn HO. unfold announce, finish_over, announced in *. intros s b h bf own R H. unfold bbind at 1, b_res. unfold answer_ok in Ha.
  destruct (c_id_len v) as [[i|]|e| |]; try (cbn [post]; exists bf, own; auto using frame_refl; fail).
  - unfold bbind at 1. rewrite b_add_is.
    assert (FIN : forall a, a < usize_limit -> (isize_max <? a = true -> O) -> post L al Rp O own h (breserve L al a s b h) (fun r _ bf => holds bf [] /\ r = if isize_max <? a then Panic else Ok tt)).
    { intros a A1 A2. assert (T : triple (fun _ bf => holds bf []) (breserve L al a) (fun r _ bf => holds bf [] /\ r = if isize_max <? a then Panic else Ok tt)).
      { eapply t_conseq; [apply (s_reserve a []); rewrite ?nlen_nil; [assumption | lia |]| |].
        - intros X. apply A2. destruct (N.ltb_spec isize_max a); [reflexivity | lia].
        - auto.
        - rewrite nlen_nil, N.add_0_l. intros r s1 bf1 X. destruct (N.ltb_spec isize_max a) as [Q|Q]; destruct r as [[]|e| |]; try contradiction; destruct X as (X1 & X2); try lia; auto.
          split; [|reflexivity]. destruct X2 as (sp & M & Ls & _ & Os). exists sp. auto. }
      exact (T s b h bf own R H). }
    destruct wraps.
    + unfold bbind at 1. rewrite b_add_is. rewrite N.add_mod_idemp_l by discriminate. apply FIN; [apply N.mod_lt; discriminate | exact HO].
    + destruct (N.ltb_spec (i + k) usize_limit) as [Q|Q].
      * unfold bbind at 1. rewrite b_add_is. destruct (N.ltb_spec (i + k + n) usize_limit) as [Q2|Q2]; [now apply FIN|].
        cbn [post]. exists bf, own. auto using frame_refl.
      * destruct (N.ltb_spec (i + k + n) usize_limit) as [Q2|Q2]; [lia|]. cbn [post]. exists bf, own. auto using frame_refl.
Qed.

(** The second part: everything after the contents were counted. *)
Definition finished (v : calls) (n : N) (p : prog) (r : res unit) (bf : buf) : Prop :=
  match der_finish wraps v n p with
  | Ok w => r = Ok tt /\ holds bf w
  | Err e => r = Err e | Panic => r = Panic | NoFuel => r = NoFuel
  end.
Lemma s_body v n (c : B unit) p : calls_ok v -> n < usize_limit -> does c p -> (finish_refuses wraps v n p = true -> O) ->
  triple (fun _ bf => holds bf []) (u_der_body L al wraps v n c) (fun r _ bf => finished v n p r bf).
Proof using BR big.
  intros (_ & Ai & _ & Pi) Hn D HO. set (len := Length_to_bytes (Definite n)). assert (Bl : bytes_ok len) by now apply len_bytes_ok.
  assert (Kl : nlen len <= 9). { unfold len. rewrite len_len by assumption. now apply length_bounds. }
  assert (Hz : isize_max < usize_limit /\ 9 <= isize_max) by (split; [reflexivity | discriminate]).
  intros s b h bf own R H. rewrite body_is. fold len. revert s b h bf own R H.
  change (triple (fun _ bf => holds bf []) (bbind L (announce v (nlen len) n) (fun _ => bbind L (u_prog L al (c_id v)) (fun _ => bbind L (u_write_all L al len) (fun _ => c))))
    (fun r _ bf => finished v n p r bf)).
  unfold finished, der_finish, finish_refuses, finish_over in *. fold len in HO |- *.
  eapply (t_bind L al Rp BR); [apply (s_announce v (nlen len) n Ai); [lia | assumption |]| | | |].
  - unfold finish_over. intros X. apply HO. destruct (announced wraps v (nlen len) n); try discriminate. now rewrite X.
  - intros []. cbv beta. destruct (announced wraps v (nlen len) n) as [a|e| |] eqn:EA; try (intros ? ? ? ? ? ? (_ & [=]); fail).
    destruct (isize_max <? a) eqn:EM; [intros ? ? ? ? ? ? (_ & [=])|].
    eapply t_conseq; [apply (does_then _ _ _ _ (does_prog _ Pi) (does_then _ _ _ _ (does_all len Bl ltac:(lia)) D) [] HO)| |].
    + intros s bf (H & _). exact H.
    + intros r s bf (w & E & H). rewrite E. unfold octets_of. cbn [fst snd]. destruct r as [[]|e| |]; auto.
  - intros e s bf (H & E). destruct (announced wraps v (nlen len) n) as [a|e'| |]; try discriminate; [destruct (_ <? _); discriminate | exact E].
  - intros s bf (H & E). destruct (announced wraps v (nlen len) n) as [a|e'| |]; try discriminate; [destruct (_ <? _); [reflexivity | discriminate] | reflexivity].
  - intros s bf (H & E). destruct (announced wraps v (nlen len) n) as [a|e'| |]; try discriminate; [destruct (_ <? _); discriminate | reflexivity].
Qed.
End SERIALISE.

Lemma frame_under oc own h0 h1 h2 h3 : frame None oc h0 h1 -> frame None own h1 h2 -> frame oc None h2 h3 -> (forall a, oc = Some a -> h_get a h1 <> None) -> frame None own h0 h3.
Proof.
  intros (A1 & B1 & _) (A2 & B2 & _) (A3 & _ & C3) X. split; [|split; [|intros a [=]]].
  - intros a _ H. destruct oc as [c|].
    + destruct (N.eq_dec c a) as [->|Hc].
      * rewrite (C3 a eq_refl ltac:(discriminate)). destruct (B1 a eq_refl) as [[=]|E]. now rewrite E.
      * rewrite A3, A2, A1 by congruence. reflexivity.
    + rewrite A3, A2, A1 by congruence. reflexivity.
  - intros a H. destruct (B2 a H) as [[=]|E]. right. destruct oc as [c|].
    + destruct (N.eq_dec c a) as [->|Hc]; [now destruct (X a eq_refl)|]. rewrite <- A1 by congruence. exact E.
    + rewrite <- A1 by congruence. exact E.
Qed.

Section WHOLE.
Context (L : layout) (al : allocator) (Rp : L_raw L -> heap -> buf -> option N -> Prop) (BR : buffer_refines L al Rp)
  (big : forall r h b own k, Rp r h b own -> isize_max < b_len b + k -> b_len b + k < usize_limit -> L_reserve L al k r h = Crash \/ L_reserve L al k r h = UB)
  (wraps : bool).
Notation raw := (L_raw L).
Notation B := (B L (S := unit)).
Notation cf j := {| init_cap := L_init_cap L; junk := j |}.

Lemma body_tail v n (c : B unit) s b h : u_der_body L al wraps v n c s b h = bbind L (u_der_body L al wraps v n (bret tt)) (fun _ => c) s b h.
Proof using.
  unfold bbind. rewrite !body_is. unfold bbind. destruct (announce L al wraps v _ n s b h) as [[]| | |]; try reflexivity.
  destruct (u_prog L al (c_id v) _ _ _) as [[]| | |]; try reflexivity. destruct (u_write_all L al _ _ _ _) as [[]| | |]; reflexivity.
Qed.
Lemma body_peek v n c s b h bf own bfc oc : calls_ok v -> n < usize_limit -> Rp b h bf own -> holds bf [] -> Rp c h bfc oc -> (forall a, oc = Some a -> own <> Some a) ->
  u_der_body L al wraps v n (bbind L (b_peek L c) (fun bs => u_write_all L al bs)) s b h = u_der_body L al wraps v n (u_write_all L al (bf_slice bfc)) s b h.
Proof using BR big.
  intros Ok0 Hn R H Rc Ho. rewrite body_tail, (body_tail v n (u_write_all L al (bf_slice bfc))).
  assert (D : does L al Rp True (bret tt) (Stop (Ok tt))). { intros w _. apply t_stop. intros ? ? X. exists w. auto. }
  pose proof (s_body L al Rp BR big True wraps v n _ _ Ok0 Hn D (fun _ => I) s b h bf own R H) as T. unfold bbind at 1 3. unfold post in T.
  destruct (u_der_body L al wraps v n (bret tt) s b h) as [[[]|e| |] s1 b1 h1| | |]; try reflexivity. destruct T as (bf1 & own1 & R1 & (F1 & F2 & _) & _).
  assert (Rc' : Rp c h1 bfc oc).
  { apply (br_frame _ _ _ BR _ _ _ _ _ Rc). intros a Ea. apply F1; [now apply Ho|]. intros E1. destruct (F2 a E1) as [X|X]; [now apply (Ho a)|].
    now apply (rp_live L al Rp BR _ _ _ _ _ Rc Ea). }
  unfold bbind, b_peek. rewrite (rp_slice L al Rp BR _ _ _ _ Rc'). reflexivity.
Qed.
Lemma rep_value b h bf own h0 : Rp b h bf own -> frame None own h0 h -> new_value L h0 b (bf_slice bf) h /\ bytes_ok (bf_slice bf).
Proof using BR.
  intros R F. destruct (br_drop _ _ _ BR _ _ _ _ R) as (h2 & E & F3).
  assert (U : untouched h0 h2). { intros a. revert a. apply frame_none. eapply frame_trans; [eassumption | eassumption |]. intros y Ey. eapply rp_live; eassumption. }
  destruct (br_observe _ _ _ BR _ _ _ _ R) as (_ & _ & _ & _ & A3 & A4). split; [|unfold bf_slice; now apply bytes_ok_take].
  split; [exact A4|]. split; [|exists h2; auto]. intros y c Hc. destruct F as (F4 & F5 & _). rewrite F4; [assumption | discriminate |].
  intros ->. destruct (F5 y eq_refl) as [[=]|Z]. congruence.
Qed.
Definition to_der_as (v : calls) (h0 : heap) (x : ends unit raw) : Prop :=
  match x with
  | Ends r _ h =>
      match der_result wraps v, r with
      | Ok w, Ok b => new_value L h0 b w h /\ bytes_ok w
      | Err e, Err e' => e' = e /\ untouched h0 h
      | Panic, Panic => untouched h0 h
      | NoFuel, NoFuel => untouched h0 h
      | _, _ => False
      end
  | EAbort => out_of_memory al
  | EOversize => refuses wraps v = true
  | EUB => False
  end.
Theorem to_der_ends v h0 : calls_ok v -> to_der_as v h0 (u_to_der L al wraps v h0).
Proof using BR big.
  intros Ok0. pose proof Ok0 as (Ac & Ai & Pc & Pi). unfold u_to_der, to_der_as, der_result, refuses.
  assert (NEW : forall h, Rp (L_new L) h (bf_new (cf (fun _ => 0))) None) by (intros h; apply (br_new _ _ _ BR h (fun _ => 0))).
  unfold answer_ok in Ac. destruct (c_contents_len v) as [[n|]|e| |]; try (split || idtac; (reflexivity || intros ?; reflexivity)).
  - pose proof (s_body L al Rp BR big (finish_refuses wraps v n (c_contents v) = true) wraps v n _ _ Ok0 Ac (does_prog L al Rp BR big _ _ Pc) (fun x => x)) as T.
    pose proof (owning_rep L al Rp BR _ _ _ tt (L_new L) h0 (bf_new (cf (fun _ => 0))) None h0
      (t_conseq L al Rp _ _ (fun s' bf' => s' = tt /\ bf' = bf_new (cf (fun _ => 0))) _ _ _ T ltac:(intros ? ? (-> & ->); apply holds_new) (fun _ _ _ x => x)) (NEW h0) (frame_refl None h0)) as K.
    cbv beta in K. unfold finished in K. destruct (owning L _ tt (L_new L) h0) as [[b|e| |] s h| | |]; try exact K.
    + destruct K as (bf & own & Q & R & F). destruct (der_finish wraps v n (c_contents v)) as [w|e| |]; try discriminate. destruct Q as (_ & H).
      rewrite <- (holds_slice _ _ H). now apply rep_value with (own := own).
    + destruct K as (bf & r' & Q & U & E). destruct (der_finish wraps v n (c_contents v)) as [w|e'| |]; [destruct Q as (-> & _)|subst r'..]; try contradiction. subst. auto.
    + destruct K as (bf & r' & Q & U & E). destruct (der_finish wraps v n (c_contents v)) as [w|e'| |]; [destruct Q as (-> & _)|subst r'..]; try contradiction. auto.
    + destruct K as (bf & r' & Q & U & E). destruct (der_finish wraps v n (c_contents v)) as [w|e'| |]; [destruct Q as (-> & _)|subst r'..]; try contradiction. auto.
  - set (O := refused (c_contents v) [] || match lays (c_contents v) [] with (Ok _, c) => finish_refuses wraps v (nlen c) (offer c) | _ => false end = true).
    assert (T : post L al Rp O None h0 (u_prog L al (c_contents v) tt (L_new L) h0) (fun r _ bf => exists w', lays (c_contents v) [] = (r, w') /\ holds bf w')).
    { refine (does_prog L al Rp BR big O _ Pc [] _ tt (L_new L) h0 _ None (NEW h0) (holds_new _)). intros X. unfold O. now rewrite X. }
    unfold post in T. destruct (u_prog L al (c_contents v) tt (L_new L) h0) as [r s c h1| | |]; try exact T.
    destruct T as (bfc & oc & Rc & Fc & w & EL & Hc). rewrite EL in *. pose proof (holds_slice _ _ Hc) as Sc. pose proof (holds_len _ _ Hc) as Lc.
    destruct (rp_holds L al Rp BR _ _ _ _ Rc) as (_ & Bc & _ & Ic). rewrite Sc in Bc. rewrite Lc in Ic.
    assert (LIVE : forall a, oc = Some a -> h_get a h1 <> None) by (intros a Ea; eapply rp_live; eassumption).
    assert (DROP : forall (r : res raw) s' h2, untouched h1 h2 -> match u_drop_after L c (Ends r s' h2) with Ends r' _ h => r' = r /\ untouched h0 h | _ => False end).
    { intros r1 s' h2 U. cbn [u_drop_after]. assert (Rc2 : Rp c h2 bfc oc) by (apply (br_frame _ _ _ BR _ _ _ _ _ Rc); intros a _; apply U).
      destruct (br_drop _ _ _ BR _ _ _ _ Rc2) as (h3 & E3 & F3). rewrite E3. split; [reflexivity|]. intros a. revert a. apply frame_none.
      exact (frame_under oc None h0 h1 h2 h3 Fc (frame_untouched h1 h2 U) F3 LIVE). }
    destruct r as [[]|e| |]; cbn iota in *.
    + rewrite (rp_len L al Rp BR _ _ _ _ Rc), Lc. assert (Hw : nlen w < usize_limit) by (assert (isize_max < usize_limit) by reflexivity; lia).
      pose proof (s_body L al Rp BR big O wraps v (nlen w) _ _ Ok0 Hw (does_all L al Rp BR big O w Bc Ic)) as T.
      assert (HO : finish_refuses wraps v (nlen w) (offer w) = true -> O) by (intros X; unfold O; rewrite ?EL; rewrite X; apply Bool.orb_true_r). specialize (T HO).
      assert (K := owning_rep L al Rp BR _ _ _ tt (L_new L) h1 (bf_new (cf (fun _ => 0))) None h1
        (t_conseq L al Rp _ _ (fun s' bf' => s' = tt /\ bf' = bf_new (cf (fun _ => 0))) _ _ _ T ltac:(intros ? ? (-> & ->); apply holds_new) (fun _ _ _ x => x)) (NEW h1) (frame_refl None h1)).
      cbv beta in K. unfold finished in K. unfold owning in *.
      rewrite (body_peek v (nlen w) c tt (L_new L) h1 _ None bfc oc Ok0 Hw (NEW h1) (holds_new _) Rc ltac:(discriminate)), Sc.
      set (X := u_der_body L al wraps v (nlen w) (u_write_all L al w) tt (L_new L) h1) in *.
      change (match u_drop_after L c (owning L (fun _ _ _ => X) tt (L_new L) h1) with
        | Ends r _ h => match der_finish wraps v (nlen w) (offer w), r with Ok w, Ok b => new_value L h0 b w h /\ bytes_ok w | Err e, Err e' => e' = e /\ untouched h0 h | Panic, Panic => untouched h0 h | NoFuel, NoFuel => untouched h0 h | _, _ => False end
        | EAbort => out_of_memory al | EOversize => O | EUB => False end).
      change (match owning L (fun _ _ _ => X) tt (L_new L) h1 with
        | Ends (Ok b') s' h' => exists bf' own', match der_finish wraps v (nlen w) (offer w) with Ok w0 => Ok tt = Ok tt /\ holds bf' w0 | Err e => Ok tt = Err e | Panic => Ok tt = Panic | NoFuel => Ok tt = NoFuel end /\ Rp b' h' bf' own' /\ frame None own' h1 h'
        | Ends r s' h' => exists bf' r', match der_finish wraps v (nlen w) (offer w) with Ok w0 => r' = Ok tt /\ holds bf' w0 | Err e => r' = Err e | Panic => r' = Panic | NoFuel => r' = NoFuel end /\ untouched h1 h' /\
            match r', r with Err e, Err e' => e' = e | Panic, Panic => True | NoFuel, NoFuel => True | _, _ => False end
        | EAbort => out_of_memory al | EOversize => O | EUB => False end) in K.
      destruct (owning L (fun _ _ _ => X) tt (L_new L) h1) as [[b|e| |] s' h2| | |]; try exact K.
      * destruct K as (bf & own & Q & R & F). assert (F0 := F). destruct F as (F1 & F2 & _).
        assert (DJ : forall a, oc = Some a -> own <> Some a) by (intros a Ea Eb; destruct (F2 a Eb) as [[=]|Z]; now apply (LIVE a)).
        assert (Rc2 : Rp c h2 bfc oc) by (apply (br_frame _ _ _ BR _ _ _ _ _ Rc); intros a Ea; apply F1; [discriminate | now apply DJ]).
        destruct (br_drop _ _ _ BR _ _ _ _ Rc2) as (h3 & E3 & F3). cbn [u_drop_after]. rewrite E3.
        assert (R3 : Rp b h3 bf own) by (apply (br_frame _ _ _ BR _ _ _ _ _ R); intros a Ea; apply F3; [intros Eb; now apply (DJ a) | discriminate]).
        destruct (der_finish wraps v (nlen w) (offer w)) as [w0|e| |]; try discriminate. destruct Q as (_ & H). rewrite <- (holds_slice _ _ H).
        exact (rep_value _ _ _ _ _ R3 (frame_under oc own h0 h1 h2 h3 Fc F0 F3 LIVE)).
      * destruct K as (bf & r' & Q & U & E). pose proof (DROP (Err e) s' h2 U) as D. destruct (u_drop_after L c (Ends (Err e) s' h2)); try contradiction. destruct D as (-> & U0).
        destruct (der_finish wraps v (nlen w) (offer w)) as [w0|e'| |]; [destruct Q as (-> & _)|subst r'..]; try contradiction. subst. auto.
      * destruct K as (bf & r' & Q & U & E). pose proof (DROP Panic s' h2 U) as D. destruct (u_drop_after L c (Ends Panic s' h2)); try contradiction. destruct D as (-> & U0).
        destruct (der_finish wraps v (nlen w) (offer w)) as [w0|e'| |]; [destruct Q as (-> & _)|subst r'..]; try contradiction. auto.
      * destruct K as (bf & r' & Q & U & E). pose proof (DROP NoFuel s' h2 U) as D. destruct (u_drop_after L c (Ends NoFuel s' h2)); try contradiction. destruct D as (-> & U0).
        destruct (der_finish wraps v (nlen w) (offer w)) as [w0|e'| |]; [destruct Q as (-> & _)|subst r'..]; try contradiction. auto.
    + pose proof (DROP (Err e) s h1 (fun _ => eq_refl)) as D. destruct (u_drop_after L c (Ends (Err e) s h1)); try contradiction. destruct D as (-> & U0). auto.
    + pose proof (DROP Panic s h1 (fun _ => eq_refl)) as D. destruct (u_drop_after L c (Ends Panic s h1)); try contradiction. destruct D as (-> & U0). auto.
    + pose proof (DROP NoFuel s h1 (fun _ => eq_refl)) as D. destruct (u_drop_after L c (Ends NoFuel s h1)); try contradiction. destruct D as (-> & U0). auto.
Qed.
Theorem write_der_ends {S} v (k : sink S) s h0 : calls_ok v ->
  match u_write_der L al v k s h0 with
  | Ends r s' h => (r, s') = write_result v k s /\ untouched h0 h
  | EAbort => out_of_memory al
  | EOversize => c_contents_len v = Ok None /\ refused (c_contents v) [] = true
  | EUB => False
  end.
Proof using BR big.
  clear wraps. intros (_ & _ & Pc & _). unfold u_write_der, write_result, next.
  assert (NEW : forall h, Rp (L_new L) h (bf_new (cf (fun _ => 0))) None) by (intros h; apply (br_new _ _ _ BR h (fun _ => 0))).
  destruct (c_contents_len v) as [[n|]|e| |]; try (split; [reflexivity | intros ?; reflexivity]).
  - destruct (k_id k s) as [[[]|e| |] s1]; try (split; [reflexivity | intros ?; reflexivity]).
    destruct (k_all k _ s1) as [[[]|e| |] s2]; try (split; [reflexivity | intros ?; reflexivity]). destruct (k_contents k s2) as [r s3]. split; [reflexivity | intros ?; reflexivity].
  - set (O := Ok None = Ok None :> res (option N) /\ refused (c_contents v) [] = true).
    assert (T : post L al Rp O None h0 (u_prog L al (c_contents v) tt (L_new L) h0) (fun r _ bf => exists w', lays (c_contents v) [] = (r, w') /\ holds bf w')).
    { refine (does_prog L al Rp BR big O _ Pc [] _ tt (L_new L) h0 _ None (NEW h0) (holds_new _)). intros X. now split. }
    unfold post in T. destruct (u_prog L al (c_contents v) tt (L_new L) h0) as [r t c h1| | |]; try exact T.
    destruct T as (bfc & oc & Rc & Fc & w & EL & Hc). rewrite EL. pose proof (holds_slice _ _ Hc) as Sc. pose proof (holds_len _ _ Hc) as Lc.
    assert (DROP : forall x : res unit * S, match u_drop_end L c x h1 with Ends r s' h => (r, s') = x /\ untouched h0 h | EAbort => out_of_memory al | EOversize => O | EUB => False end).
    { intros [r1 s1]. unfold u_drop_end. destruct (br_drop _ _ _ BR _ _ _ _ Rc) as (h3 & E3 & F3). rewrite E3. split; [reflexivity|]. intros a. revert a. apply frame_none.
      eapply frame_trans; [exact Fc | exact F3|]. intros y Ey. eapply rp_live; eassumption. }
    destruct r as [[]|e| |]; try apply DROP. rewrite (rp_len L al Rp BR _ _ _ _ Rc), Lc.
    destruct (k_id k s) as [[[]|e| |] s1]; try apply DROP. destruct (k_all k _ s1) as [[[]|e| |] s2]; try apply DROP.
    rewrite (rp_slice L al Rp BR _ _ _ _ Rc), Sc. apply DROP.
Qed.
End WHOLE.
