(** What parsers make of readers that may do anything: the octets that were read are those an honest reader would have had. *)
From Coq Require Import Lia.
From Verif Require Import Base ModelIo ModelTag ModelContents ModelBuf ModelTlv ModelHeap ModelTlvRaw ModelUnwind ModelRelease ModelSerde ModelReadRaw
  Spec SpecIo SpecBuf SpecTlv SpecUnwind SpecRelease SpecReadRaw TagProofs IdProofs BufProofs TlvProofs TlvMain StreamProofs RawProofs RawMain RawTlv RawStream UnwindProofs RelProofs LooseProofs UseRelease SerRawProofs.

Section LIES.
Context (L : layout) (al : allocator) (Rp : L_raw L -> heap -> buf -> option N -> Prop) (BR : buffer_refines L al Rp)
        (big : forall r h b own k, Rp r h b own -> isize_max < b_len b + k -> L_reserve L al k r h = Crash \/ L_reserve L al k r h = UB).
Context {S : Type} (R : user_reader S) (W : writes_octets R).
Notation B := (B L (S := S)).
Notation triple := (triple L al Rp (S := S) True).
Notation t_bind := (t_bind L al Rp BR True).
Notation t_conseq := (t_conseq L al Rp True).

(** [q] has been read and not been written when [m] begins, [q' a] when it ends.  It reads [t] and writes [u]; from a slice with [t], the parser [p] does the same. *)
Definition echo {A} (q : list N) (m : B A) (p : parser (list N) A) (q' : A -> list N) : Prop :=
  forall w, triple (fun _ bf => holds bf w) m (fun r _ bf => forall a, r = Ok a ->
    exists t u, holds bf (w ++ u) /\ q ++ t = u ++ q' a /\ forall rest, p (t ++ rest, w) = (Ok a, (rest, w ++ u))).
Lemma e_stop {A} q (a : A) : echo q (fun s b h => Run (Ok a) s b h) (pret a) (fun _ => q).
Proof using.
  intros w. apply t_stop. intros s bf H a' [= <-]. exists [], []. rewrite !app_nil_r. split; [assumption|]. split; [reflexivity|]. intros rest. reflexivity.
Qed.
Lemma e_fail {A} q (r : res A) p q' : (forall a, r <> Ok a) -> echo q (fun s b h => Run r s b h) p q'.
Proof using. intros F w. apply t_stop. intros s bf H a E. now elim (F a). Qed.
Lemma e_bind {A C} q q1 q2 (m : B A) (k : A -> B C) p f : echo q m p q1 -> (forall a, echo (q1 a) (k a) (f a) q2) -> echo q (bbind L m k) (pbind p f) q2.
Proof using BR.
  intros M K w. eapply t_bind; [apply (M w)| | | |]; cbv beta; try discriminate.
  intros a s b h bf own Hr Q. destruct (Q a eq_refl) as (t & u & H & E & P).
  assert (X := K a (w ++ u) s b h bf own Hr H). unfold post in *. destruct (k a s b h) as [r s' b' h'| | |]; try assumption.
  destruct X as (bf' & own' & R' & F' & X). exists bf', own'. split; [assumption|]. split; [assumption|].
  intros c Ec. destruct (X c Ec) as (t2 & u2 & H2 & E2 & P2). exists (t ++ t2), (u ++ u2). rewrite app_assoc. split; [assumption|]. split.
  - rewrite app_assoc, E, <- !app_assoc, E2. reflexivity.
  - intros rest. unfold pbind. rewrite <- app_assoc, P, P2. reflexivity.
Qed.
Lemma e_write x : x < 256 -> echo [x] (u_write_u8 L al x) (write_u8 x) (fun _ => []).
Proof using BR big.
  intros Hx w. apply (t_fix L al Rp BR big True). intros s0 bf0 H0 _ _. eapply t_conseq; [apply (t_write L al Rp BR big True x w s0 Hx (fun _ => I))| |].
  - intros s bf (-> & ->). auto.
  - intros r s bf (-> & K) [] Hr. subst r. exists [], [x]. split; [exact K|]. split; [reflexivity|]. intros rest. reflexivity.
Qed.
(** read, with the octet known to be one *)
Lemma e_then {C} q q2 (k : N -> B C) f : (forall x, x < 256 -> echo (q ++ [x]) (k x) (f x) q2) -> echo q (bbind L (u_read_u8 L R) k) (pbind (read_u8 slice_reader) f) q2.
Proof using BR W.
  intros K w. assert (T : triple (fun _ bf => holds bf w) (u_read_u8 L R) (fun r _ bf => forall a, r = Ok a -> a < 256 /\
      exists t u, holds bf (w ++ u) /\ q ++ t = u ++ (q ++ [a]) /\ forall rest, read_u8 slice_reader (t ++ rest, w) = (Ok a, (rest, w ++ u)))).
  { apply t_read_u8. intros s bf got e s' H E a Ha. pose proof (proj1 (W s 1)) as O1. rewrite E in O1. cbn [fst] in O1.
    destruct e as [[|[p|p|]]|k'| |]; cbn [u8_of] in Ha; try discriminate. injection Ha as <-.
    split; [destruct got as [|x got]; [reflexivity | now apply Forall_cons_iff in O1]|].
    exists [hd 0 got], []. rewrite app_nil_r. split; [assumption|]. split; [reflexivity|]. intros rest. reflexivity. }
  eapply t_bind; [exact T| | | |]; cbv beta; try discriminate.
  intros a s b h bf own Hr Q. destruct (Q a eq_refl) as (Ha & t & u & H & E & P).
  assert (X := K a Ha (w ++ u) s b h bf own Hr H). unfold post in *. destruct (k a s b h) as [r s' b' h'| | |]; try assumption.
  destruct X as (bf' & own' & R' & F' & X). exists bf', own'. split; [assumption|]. split; [assumption|].
  intros c Ec. destruct (X c Ec) as (t2 & u2 & H2 & E2 & P2). exists (t ++ t2), (u ++ u2). rewrite app_assoc. split; [assumption|]. split.
  - rewrite (app_assoc q t t2), E, <- (app_assoc u (q ++ [a]) t2), E2, app_assoc. reflexivity.
  - intros rest. unfold pbind. rewrite <- app_assoc, P, P2. reflexivity.
Qed.
Lemma e_id_loop fuel : forall i o, o < 256 -> echo [o] (u_parse_id_loop L al R fuel o) (fun st => match parse_id_loop slice_reader fuel i o st with (Ok _, st') => (Ok tt, st') | (Err e, st') => (Err e, st') | (Panic, st') => (Panic, st') | (NoFuel, st') => (NoFuel, st') end) (fun _ => []).
Proof using BR big W.
  induction fuel as [|fuel IH]; intros i o Ho; cbn [u_parse_id_loop parse_id_loop]; [apply e_fail; discriminate|].
  assert (T : echo [o] (bbind L (u_write_u8 L al o) (fun _ => if negb (N.land o MORE_FLAG =? MORE_FLAG) then bret tt else bbind L (u_read_u8 L R) (fun o => u_parse_id_loop L al R fuel o)))
    (pbind (write_u8 o) (fun _ => if negb (N.land o MORE_FLAG =? MORE_FLAG) then pret tt else pbind (read_u8 slice_reader) (fun o =>
       fun st => match parse_id_loop slice_reader fuel (i + 1) o st with (Ok _, st') => (Ok tt, st') | (Err e, st') => (Err e, st') | (Panic, st') => (Panic, st') | (NoFuel, st') => (NoFuel, st') end))) (fun _ => [])).
  { eapply e_bind; [now apply e_write|]. intros []. destruct (negb _); [apply (e_stop (A := unit))|]. apply e_then. intros x Hx. apply (IH (i + 1) x Hx). }
  intros w. eapply t_conseq; [apply (T w) | auto |]. intros r s bf K a Ha. destruct (K a Ha) as (t & u & H & E & P). exists t, u. split; [assumption|]. split; [assumption|].
  intros rest. specialize (P rest). rewrite <- P. unfold pbind. cbn [write_u8]. destruct (negb _); [reflexivity|]. destruct (read_u8 slice_reader _) as [[x|e| |] st2]; reflexivity.
Qed.
Lemma e_len_loop k : forall n, echo [] (u_parse_length_loop L al R k n) (parse_length_loop slice_reader k n) (fun _ => []).
Proof using BR big W.
  induction k as [|k IH]; intros n; cbn [u_parse_length_loop parse_length_loop]; [apply e_stop|].
  apply e_then. intros x Hx. eapply e_bind; [now apply e_write|]. intros []. apply IH.
Qed.
Lemma e_header fuel : echo [] (u_parse_id_length L al R fuel) (parse_id_length slice_reader fuel) (fun _ => []).
Proof using BR big W.
  assert (T : echo [] (u_parse_id_length L al R fuel) (pbind (drop_value (parse_id slice_reader fuel)) (fun _ => parse_length slice_reader)) (fun _ => [])).
  { unfold u_parse_id_length. eapply (e_bind [] (fun _ => [])).
    - assert (T : echo [] (u_parse_id L al R fuel)
       (pbind (read_u8 slice_reader) (fun first => pbind (write_u8 first) (fun _ => if negb (N.land first ID_LONG_FLAG =? ID_LONG_FLAG) then pret tt
          else pbind (read_u8 slice_reader) (fun o => if o <=? ID_MAX_SHORT then pfail RedundantBytes else if o =? MORE_FLAG then pfail RedundantBytes
             else fun st => match parse_id_loop slice_reader fuel 2 o st with (Ok _, st') => (Ok tt, st') | (Err e, st') => (Err e, st') | (Panic, st') => (Panic, st') | (NoFuel, st') => (NoFuel, st') end)))) (fun _ => [])).
      { unfold u_parse_id. apply e_then. intros x Hx. eapply e_bind; [now apply e_write|]. intros []. destruct (negb _); [apply (e_stop (A := unit))|].
        apply e_then. intros o Ho. destruct (o <=? _); [apply e_fail; discriminate|]. destruct (o =? _); [apply e_fail; discriminate|]. now apply (e_id_loop fuel 2). }
      intros w. eapply t_conseq; [apply (T w) | auto |]. intros r s bf K a Ha. destruct (K a Ha) as (t & u & H & E & P). exists t, u. split; [assumption|]. split; [assumption|].
      intros rest. specialize (P rest). rewrite <- P. unfold drop_value, parse_id, pbind. destruct (read_u8 slice_reader (t ++ rest, w)) as [[x|e| |] [s1 w1]]; try reflexivity. cbn [write_u8].
      destruct (negb _); [reflexivity|]. destruct (read_u8 slice_reader (s1, w1 ++ [x])) as [[y|e| |] st2]; try reflexivity.
      destruct (y <=? _); [reflexivity|]. destruct (y =? _); [reflexivity|]. destruct (parse_id_loop slice_reader fuel 2 y st2) as [[]]; reflexivity.
    - intros []. unfold u_parse_length, parse_length. apply e_then. intros x Hx. eapply e_bind; [now apply e_write|]. intros [].
      destruct (x =? _); [apply (e_stop (A := Length))|]. destruct (negb _); [apply (e_stop (A := Length))|]. apply e_then. intros o Ho. destruct (o =? 0); [apply e_fail; discriminate|].
      eapply e_bind; [now apply e_write|]. intros []. cbv zeta. destruct (_ && _)%bool; [apply e_fail; discriminate|]. destruct (8 <? _); [apply e_fail; discriminate|]. apply e_len_loop. }
  intros w. eapply t_conseq; [apply (T w) | auto |]. intros r s bf K a Ha. destruct (K a Ha) as (t & u & H & E & P). exists t, u. split; [assumption|]. split; [assumption|].
  intros rest. specialize (P rest). rewrite <- P. unfold parse_id_length, drop_value, pbind. destruct (parse_id slice_reader fuel _) as [[x|e| |] st1]; reflexivity.
Qed.

(** The contents: as many octets as were asked for, whatever they are. *)
Lemma t_contents f n w s0 : (forall s n, bytes_ok (fst (fst (f s n)))) ->
  triple (fun s bf => s = s0 /\ stretched n w bf) (bcall L f (nlen w) n) (fun r _ bf => forall c, r = Ok c -> exists c, nlen c = n /\ holds bf (w ++ c)).
Proof using BR big.
  intros Hf. destruct (f s0 n) as [[got e] s1] eqn:E. pose proof (Hf s0 n) as Hg. rewrite E in Hg.
  assert (K : triple (fun s bf => s = s0 /\ stretched n w bf) (bcall L f (nlen w) n) (fun r s bf => (filled n w got bf) /\ b_len bf <= bf_cap bf /\ bytes_ok (b_mem bf))).
  { intros s b h bf own Hr P. pose proof (t_call L al Rp BR big True f n w s0 got e s1 E Hg s b h bf own Hr P) as X. unfold post in *.
    destruct (bcall L f (nlen w) n s b h) as [r s' b' h'| | |]; try assumption. destruct X as (bf' & own' & R' & F' & _ & _ & X).
    destruct (br_observe _ _ _ BR _ _ _ _ R') as (_ & _ & A1 & _ & A3 & _). exists bf', own'. auto 8. }
  eapply t_conseq; [exact K | auto |]. intros r s bf ((tl & M & Ln & Bt) & Cap & Bm) _ _. unfold bf_cap in Cap.
  exists (take n (take n got ++ tl)). rewrite M, nlen_app, Ln in Cap. split; [rewrite nlen_take; lia|].
  exists (drop n (take n got ++ tl)). rewrite <- app_assoc, take_drop, nlen_app, nlen_take. split; [assumption|]. split; [lia|]. apply bytes_ok_drop.
  rewrite M in Bm. now apply bytes_ok_app in Bm.
Qed.

Lemma e_Der fuel : triple (fun _ bf => holds bf []) (u_Der_body L al R fuel)
  (fun r _ bf => forall a, r = Ok a -> exists bs, holds bf bs /\ forall rest, Der_parse slice_reader fuel (bs ++ rest) = (Ok bs, rest)).
Proof using BR big W.
  unfold u_Der_body. eapply t_bind; [apply (e_header fuel [])| | | |]; cbv beta; try discriminate.
  intros [|n]; [apply t_stop; discriminate|].
  apply (t_fix L al Rp BR big True). intros s0 bf0 Q _ _. destruct (Q _ eq_refl) as (t & w & H0 & Et & P). cbn [app] in *. rewrite app_nil_r in Et. subst t. pose proof (holds_len _ _ H0) as HL.
  eapply t_bind; [apply (t_len L al Rp BR _ _ (fun r s bf => s = s0 /\ holds bf w /\ r = Ok (nlen w))); intros s bf (-> & ->); now rewrite <- HL| | | |]; try (intros ? ? ? (_ & _ & X); discriminate X) || (intros ? ? (_ & _ & X); discriminate X).
  intros x. apply t_conseq with (P := fun s bf => x = nlen w /\ s = s0 /\ holds bf w) (Q := fun r _ bf => forall a, r = Ok a -> exists bs, holds bf bs /\ forall rest, Der_parse slice_reader fuel (bs ++ rest) = (Ok bs, rest)); [|intros s bf (-> & ? & [= ->]); auto | auto].
  apply t_pure. intros ->.
  eapply t_bind; [apply (t_add L al Rp True _ _ _ (fun r s bf => s = s0 /\ holds bf w /\ (forall a, r = Ok a -> a = nlen w + n))); cbv beta| | | |]; try discriminate.
  - intros s bf (-> & X) _. split; [reflexivity|]. split; [assumption|]. intros a [= <-]. reflexivity.
  - intros s bf (-> & X) _. repeat split; auto. discriminate.
  - intros a. apply t_conseq with (P := fun s bf => a = nlen w + n /\ s = s0 /\ holds bf w) (Q := fun r _ bf => forall a, r = Ok a -> exists bs, holds bf bs /\ forall rest, Der_parse slice_reader fuel (bs ++ rest) = (Ok bs, rest)); [|intros s bf (-> & ? & K); auto | auto].
    apply t_pure. intros ->.
    eapply t_bind; [apply (t_room L al Rp BR big True n w s0 (fun _ => I))| | | |]; try discriminate.
    intros []. apply t_conseq with (P := fun s bf => nlen w + n <= isize_max /\ s = s0 /\ spacious n w bf) (Q := fun r _ bf => forall a, r = Ok a -> exists bs, holds bf bs /\ forall rest, Der_parse slice_reader fuel (bs ++ rest) = (Ok bs, rest)); [|intros s bf (-> & ? & ?); auto | auto].
    apply t_pure. intros Hn.
    eapply t_bind; [apply (t_stretch L al Rp BR True n w s0)| | | |]; try discriminate.
    intros []. eapply t_bind; [eapply t_conseq; [apply (t_contents (u_read R) n w s0 (fun s m => proj1 (W s m))) | intros s bf (-> & _ & X); split; [reflexivity | exact X] | intros r s bf X; exact X]| | | |]; try discriminate.
    intros c. cbv beta. destruct (c <? n); [apply t_stop; discriminate|]. apply t_stop. intros s bf X a _. destruct (X c eq_refl) as (cs & Lc & Hc).
    exists (w ++ cs). split; [exact Hc|]. intros rest. unfold Der_parse. rewrite <- app_assoc, P. cbn [app]. destruct (N.ltb_spec isize_max (nlen w + n)); [lia|].
    cbn [rd_read slice_reader]. subst n. rewrite take_app_exact, drop_app_exact, N.ltb_irrefl. reflexivity.
Qed.

(** The fuel of the slice parser is no less. *)
Lemma e_Ber_step fuel F : (fuel + 2 <= F)%nat -> echo [] (u_Ber_do_parse L al R fuel) (Ber_do_parse slice_reader F) (fun _ => []).
Proof using BR big W.
  intros HF w0. set (Post := fun (r : res Z) (_ : S) bf => forall a, r = Ok a -> exists t u, holds bf (w0 ++ u) /\ [] ++ t = u ++ [] /\ forall rest, Ber_do_parse slice_reader F (t ++ rest, w0) = (Ok a, (rest, w0 ++ u))).
  change (triple (fun _ bf => holds bf w0) (u_Ber_do_parse L al R fuel) Post). unfold u_Ber_do_parse.
  eapply t_bind; [apply (t_len L al Rp BR _ _ (fun r _ bf => holds bf w0 /\ r = Ok (nlen w0))); intros s bf X; now rewrite (holds_len _ _ X)| | | |]; try (intros ? ? ? (_ & X); discriminate X) || (intros ? ? (_ & X); discriminate X).
  intros il. apply t_conseq with (P := fun s bf => il = nlen w0 /\ holds bf w0) (Q := Post); [|intros s bf (? & [= ->]); auto | auto]. apply t_pure. intros ->.
  eapply t_bind; [apply (e_header fuel w0)| | | |]; cbv beta; try discriminate.
  assert (RF : forall l t w rest, parse_id_length slice_reader fuel (t ++ rest, w0) = (Ok l, (rest, w)) -> parse_id_length slice_reader F (t ++ rest, w0) = (Ok l, (rest, w))).
  { intros l t w rest E. rewrite <- E. apply rf_parse_id_length; [lia|]. rewrite E. discriminate. }
  intros [|n].
  { apply t_stop. intros s bf Q a [= <-]. destruct (Q _ eq_refl) as (t & u & H0 & Et & P). exists t, u. split; [assumption|]. split; [assumption|].
    intros rest. unfold Ber_do_parse, pbind. rewrite (RF _ _ _ _ (P rest)). reflexivity. }
  apply (t_fix L al Rp BR big True). intros s0 bf0 Q _ _. destruct (Q _ eq_refl) as (t & u & H0 & Et & P). cbn [app] in Et. rewrite app_nil_r in Et. subst t. set (w := w0 ++ u) in *.
  eapply t_bind; [eapply t_conseq; [apply (t_room L al Rp BR big True n w s0 (fun _ => I)) | intros s bf (-> & ->); auto | intros r s bf X; exact X]| | | |]; try discriminate.
  intros []. apply t_conseq with (P := fun s bf => nlen w + n <= isize_max /\ s = s0 /\ spacious n w bf) (Q := Post); [|intros s bf (-> & ? & ?); auto | auto].
  apply t_pure. intros Hn.
  eapply t_bind; [apply (t_len L al Rp BR _ _ (fun r s bf => r = Ok (nlen w) /\ s = s0 /\ spacious n w bf)); intros s bf (-> & X)| | | |]; try discriminate.
  { destruct X as (sp & E & El & X). rewrite El. split; [reflexivity|]. split; [reflexivity|]. exists sp. auto. }
  intros x. apply t_conseq with (P := fun s bf => x = nlen w /\ s = s0 /\ spacious n w bf) (Q := Post); [|intros s bf ([= ->] & X); auto | auto].
  apply t_pure. intros ->.
  eapply t_bind; [apply (t_add L al Rp True _ _ _ (fun r s bf => s = s0 /\ spacious n w bf /\ (forall a, r = Ok a -> a = nlen w + n))); cbv beta| | | |]; try discriminate.
  - intros s bf (-> & X) _. split; [reflexivity|]. split; [assumption|]. intros a [= <-]. reflexivity.
  - intros s bf (-> & X) _. repeat split; auto. discriminate.
  - intros a. apply t_conseq with (P := fun s bf => a = nlen w + n /\ s = s0 /\ spacious n w bf) (Q := Post); [|intros s bf (-> & ? & K); auto | auto].
    apply t_pure. intros ->.
    eapply t_bind; [apply (t_stretch L al Rp BR True n w s0)| | | |]; try discriminate.
    intros []. eapply t_bind; [eapply t_conseq; [apply (t_contents (u_read_exact R) n w s0 (fun s m => proj2 (W s m))) | intros s bf (-> & _ & X); split; [reflexivity | exact X] | intros r s bf X; exact X]| | | |]; try discriminate.
    intros c. eapply t_bind; [apply (t_slice L al Rp BR _ _ (fun r _ bf => forall bs, r = Ok bs -> exists cs, nlen cs = n /\ holds bf (w ++ cs) /\ bs = w ++ cs))| | | |]; try discriminate.
    { intros s bf X bs [= <-]. destruct (X c eq_refl) as (cs & Lc & Hc). exists cs. now rewrite (holds_slice _ _ Hc). }
    intros bs. apply t_stop. intros s bf X z [= <-]. destruct (X bs eq_refl) as (cs & Lc & Hc & ->). exists (u ++ cs), (u ++ cs).
    unfold w in *. rewrite <- !app_assoc in *. split; [assumption|]. split; [now rewrite app_nil_r|].
    intros rest. unfold Ber_do_parse, pbind. cbn [snd]. rewrite <- app_assoc, (RF _ _ _ _ (P (cs ++ rest))). cbn [snd]. rewrite nlen_app in Hn.
    destruct (N.ltb_spec isize_max (nlen (w0 ++ u) + n)) as [X1|X1]; [rewrite nlen_app in X1; lia|].
    rewrite read_exact_slice by lia. rewrite nlen_app. destruct (N.leb_spec n (nlen cs + nlen rest)); [|lia]. subst n. rewrite take_app_exact, drop_app_exact. cbn [snd].
    rewrite <- app_assoc. reflexivity.
Qed.
Lemma e_Ber_loop ifuel IF : (ifuel + 2 <= IF)%nat -> forall fuel d, echo [] (u_Ber_loop L al R ifuel fuel d) (Ber_loop slice_reader IF fuel d) (fun _ => []).
Proof using BR big W.
  intros HF. induction fuel as [|fuel IH]; intros d; cbn [u_Ber_loop Ber_loop]; [apply e_fail; discriminate|].
  apply (e_bind [] (fun _ => [])); [now apply e_Ber_step|]. intros z. destruct (0 <? _)%Z; [apply IH | apply (e_stop (A := unit))].
Qed.

(** ** The parsers *)
Definition ends_rep (P : list N -> Prop) h0 (x : ends S (L_raw L)) : Prop :=
  match x with
  | Ends (Ok b) _ h => exists bf own bs, Rp b h bf own /\ frame None own h0 h /\ holds bf bs /\ P bs
  | Ends _ _ h => untouched h0 h
  | EAbort => out_of_memory al
  | EOversize => True
  | EUB => False
  end.
Lemma owning_ends (P : list N -> Prop) (m : B unit) s h0 : triple (fun _ bf => holds bf []) m (fun r _ bf => forall a, r = Ok a -> exists bs, holds bf bs /\ P bs) ->
  ends_rep P h0 (owning L m s (L_new L) h0).
Proof using BR.
  intros T. pose proof (owning_rep L al Rp BR True m _ s (L_new L) h0 _ None h0
    (t_conseq _ (fun s' bf' => s' = s /\ bf' = bf_new {| init_cap := L_init_cap L; junk := fun _ => 0 |}) _ _ _ T ltac:(intros ? ? (-> & ->); apply holds_new) (fun _ _ _ x => x))
    (br_new _ _ _ BR h0 (fun _ => 0)) (frame_refl None h0)) as K. unfold ends_rep.
  destruct (owning L m s (L_new L) h0) as [[b|e| |] s' h'| | |]; auto; [|destruct K as (? & ? & _ & U & _); exact U ..].
  destruct K as (bf & own & Q & R' & F). destruct (Q tt eq_refl) as (bs & Hb & Pb). exists bf, own, bs. auto.
Qed.
Theorem der_parse_octets fuel s h0 : ends_rep (fun bs => forall rest, Der_parse slice_reader fuel (bs ++ rest) = (Ok bs, rest)) h0 (u_Der_parse L al R fuel s h0).
Proof using BR big W. apply owning_ends, e_Der. Qed.
Theorem ber_parse_octets fuel s h0 : ends_rep (fun bs => forall rest, Ber_parse slice_reader (fuel + 2) (bs ++ rest) = (Ok bs, rest)) h0 (u_Ber_parse L al R fuel s h0).
Proof using BR big W.
  apply owning_ends. eapply t_conseq; [apply (e_Ber_loop fuel (fuel + 2) ltac:(lia) fuel 0%Z []) | auto |].
  intros r t bf K a Ha. destruct (K a Ha) as (x & u & Hb & Et & P). cbn [app] in *. rewrite app_nil_r in Et. subst x.
  exists u. split; [assumption|]. intros rest. specialize (P rest).
  assert (P2 : Ber_loop slice_reader (fuel + 2) (fuel + 2) 0 (u ++ rest, []) = (Ok a, (rest, u))).
  { rewrite <- P. apply rf_ber_loop; [lia | lia |]. rewrite P. discriminate. }
  unfold Ber_parse. rewrite P2. reflexivity.
Qed.
Lemma rep_octets P h0 x : ends_rep P h0 x -> match x with Ends (Ok b) _ h => exists bf own bs, Rp b h bf own /\ holds bf bs /\ bytes_ok bs /\ P bs | _ => True end.
Proof using BR.
  unfold ends_rep. destruct x as [[b|e| |] s h| | |]; auto. intros (bf & own & bs & Rb & _ & Hb & Pb). exists bf, own, bs.
  destruct (rp_holds L al Rp BR _ _ _ _ Rb) as (_ & Bb & _). rewrite (holds_slice _ _ Hb) in Bb. auto.
Qed.
Lemma rep_weaken (P Q : list N -> Prop) h0 x : (forall bs, bytes_ok bs -> P bs -> Q bs) -> ends_rep P h0 x -> ends_rep Q h0 x.
Proof using BR.
  intros PQ H. pose proof (rep_octets P h0 x H) as O. unfold ends_rep in *. destruct x as [[b|e| |] s h| | |]; auto. destruct H as (bf & own & bs & Rb & F & Hb & Pb).
  exists bf, own, bs. destruct (rp_holds L al Rp BR _ _ _ _ Rb) as (_ & Bb & _). rewrite (holds_slice _ _ Hb) in Bb. auto.
Qed.
Lemma rep_der fuel s h0 : ends_rep der_value h0 (u_Der_parse L al R fuel s h0).
Proof using BR big W.
  eapply rep_weaken; [|apply der_parse_octets]. intros bs Bb P. specialize (P []). rewrite app_nil_r in P.
  now destruct (exact_der slice_reader (fun s => s) slice_honest fuel bs bs [] Bb P) as (V & _).
Qed.
Lemma rep_ber fuel s h0 : ends_rep ber_value h0 (u_Ber_parse L al R fuel s h0).
Proof using BR big W.
  eapply rep_weaken; [|apply ber_parse_octets]. intros bs Bb P. specialize (P []). rewrite app_nil_r in P.
  now destruct (exact_ber slice_reader (fun s => s) slice_honest (fuel + 2) bs bs [] Bb P) as (V & _).
Qed.
Lemma rep_agree P h0 x y : agree x y -> ends_rep P h0 x -> ends_rep P h0 y.
Proof using BR.
  unfold agree, ends_rep. destruct x as [r s h| | |], y as [r' s' h'| | |]; try easy. intros (-> & -> & U). destruct r as [b|e| |].
  - intros (bf & own & bs & Rb & F & Hb & Pb). exists bf, own, bs. split; [apply (br_frame _ _ _ BR _ _ _ _ _ Rb); intros a _; apply U|]. split; [|auto].
    destruct F as (F1 & F2 & F3). split; [intros a Ha Hb'; rewrite U; auto|]. split; [assumption|]. intros a [=].
  - intros X a. rewrite U. apply X.
  - intros X a. rewrite U. apply X.
  - intros X a. rewrite U. apply X.
Qed.
Lemma rep_reads P h0 x : ends_rep P h0 x -> reads L al h0 P x.
Proof using BR.
  unfold ends_rep, reads. destruct x as [[b|e| |] s h| | |]; auto. intros (bf & own & bs & Rb & F & Hb & Pb).
  destruct (rep_value L al Rp BR _ _ _ _ _ Rb F) as (V & Bb). rewrite (holds_slice _ _ Hb) in V, Bb. eauto.
Qed.
(** ** Decoding *)
Lemma finish_agree {T} P (de : list N -> res T) h0 x y ops : agree x y -> ends_rep P h0 x -> agree (u_finish L de x) (u_finish (released L ops) de y).
Proof using BR.
  intros A H. pose proof (rep_agree P h0 x y A H) as H'. unfold agree, ends_rep in *. destruct x as [r s h| | |], y as [r' s' h'| | |]; try easy. destruct A as (-> & -> & U).
  destruct r as [b|e| |]; cbn [u_finish]; [|now repeat split ..]. clear H'. destruct H as (bf & own & bs & Rb & F & Hb & Pb).
  assert (R' : Rp b h' bf own) by (apply (br_frame _ _ _ BR _ _ _ _ _ Rb); intros a _; apply U).
  change (L_slice (released L ops)) with (L_slice L). change (L_drop (released L ops)) with (L_drop L).
  rewrite (rp_slice L al Rp BR _ _ _ _ Rb), (rp_slice L al Rp BR _ _ _ _ R').
  destruct (br_drop _ _ _ BR _ _ _ _ Rb) as (h3 & E3 & F3). destruct (br_drop _ _ _ BR _ _ _ _ R') as (h4 & E4 & F4). rewrite E3, E4.
  split; [reflexivity|]. split; [reflexivity|]. intros a.
  assert (D : own = Some a \/ own <> Some a) by (destruct own as [o|]; [destruct (N.eq_dec o a); [left | right]; congruence | now right]).
  destruct F3 as (X3 & _ & Y3), F4 as (X4 & _ & Y4). destruct D as [D|D].
  - rewrite (Y3 a D), (Y4 a D) by discriminate. reflexivity.
  - rewrite (X3 a D), (X4 a D) by discriminate. apply U.
Qed.
End LIES.

Section DECODE.
Context (L : layout) (al : allocator) {S T : Type}.
Lemma finish_decodes P (de : list N -> res T) h0 (x : ends S (L_raw L)) (f : list N -> res T -> Prop) : reads L al h0 P x -> (forall bs, P bs -> f bs (de bs)) -> decodes L al h0 f x (u_finish L de x).
Proof using.
  intros H Hf. unfold reads, decodes, u_finish in *. destruct x as [[b|e| |] s h| | |]; auto; [|now repeat split ..].
  destruct H as (bs & Pb & Bb & E & _ & h' & D & U). rewrite E, D. split; [reflexivity|]. split; [assumption|]. exists bs. auto.
Qed.
Lemma finish_as (de : list N -> res T) h0 p (x : ends S (L_raw L)) : ends_as L al h0 p x ->
  reads_as al h0 (fst p = Panic) (match p with (Ok v, s) => (de v, s) | (Err e, s) => (Err e, s) | (Panic, s) => (Panic, s) | (NoFuel, s) => (NoFuel, s) end) (u_finish L de x).
Proof using.
  unfold ends_as, reads_as, u_finish. destruct x as [r s h| | |]; auto. destruct p as [[v|e'| |] s']; cbn [fst snd]; destruct r as [b|e| |]; try (intros (_ & []); fail).
  - intros (-> & E & _ & h' & D & U). rewrite E, D. auto.
  - intros (-> & -> & U). auto.
  - intros (-> & U). auto.
  - intros (-> & U). auto.
Qed.
End DECODE.
Lemma der_finish {T} (D : deserialize T) bs : der_value bs -> exists id c, der_tlv id c bs /\ serde_from_der D bs = from_der D id c.
Proof. intros (id & c & V). exists id, c. split; [exact V|]. unfold serde_from_der. destruct (der_tlv_disassemble _ _ _ V) as (_ & _ & _ & ->). reflexivity. Qed.
Lemma ber_finish {T} (D : deserialize T) bs : ber_value bs -> exists id l c, good_parts bs id l c /\ serde_from_ber D bs = from_ber D id l c.
Proof.
  unfold serde_from_ber. intros [id c v V | id items Hi Hit].
  - exists id, (Definite (nlen c)), c. split; [now constructor|]. destruct (der_tlv_disassemble _ _ _ V) as (_ & _ & _ & ->). reflexivity.
  - exists id, Indefinite, (items ++ [0; 0]). split; [now constructor|]. cbn [app]. rewrite (proj2 (proj2 (proj2 (tlv_parts_indefinite id (items ++ [0; 0]) Hi)))). reflexivity.
Qed.
