(** Lemmas about the calls of readers. *)
From Verif Require Import Base ModelIo ModelTag ModelContents ModelBuf ModelTlv Spec SpecIo SpecCalls TagProofs IdProofs TagMain TlvProofs BufProofs TlvMain StreamProofs StreamMain.

Lemma got_app l l' : got (l ++ l') = got l + got l'.
Proof. unfold got. now rewrite map_app, concat_app, nlen_app. Qed.
Lemma got_one c : got [c] = nlen (data c).
Proof. unfold got. cbn [map concat]. now rewrite app_nil_r. Qed.
Definition within (l : list call) : Prop := forall pre c post, l = pre ++ c :: post -> 1 <= fst c /\ got pre + fst c <= got l.
Lemma within_nil : within [].
Proof. intros [|x0 pre] c post X; discriminate X. Qed.
Lemma within_app l l' : within l -> within l' -> within (l ++ l').
Proof.
  intros W W' pre c post E. rewrite got_app. destruct (app_eq_app _ _ _ _ E) as (m & [[-> E2]|[-> E2]]).
  - destruct m as [|x m]; cbn [app] in E2.
    + destruct (W' [] c post) as [A B]; [now rewrite <- E2|]. change (got []) with 0 in B. rewrite app_nil_r. split; [exact A | lia].
    + injection E2 as -> ->. destruct (W pre x m eq_refl) as [A B]. split; [exact A | lia].
  - rewrite got_app. destruct (W' m c post E2) as [A B]. split; [exact A | lia].
Qed.
Lemma within_one n bs : 1 <= n -> nlen bs = n -> within [(n, IoOk bs)].
Proof.
  intros H E pre c post X. destruct pre as [|x pre]; [|destruct pre; discriminate]. injection X as <- <-. rewrite got_one. unfold data. cbn [fst snd]. rewrite E.
  change (got []) with 0. split; [exact H | lia].
Qed.

Section RUNS.
Context {S : Type} (R : reader S).

Definition shape {A} (retry : bool) (r : res A) (l : list call) : Prop :=
  match r with
  | Ok _ => Forall (useful retry) l /\ within l
  | _ => exists l0 t, l = l0 ++ t /\ Forall (useful retry) l0 /\ nlen t <= 1
  end.
Definition followed (s : S) (l : list call) (s' : S) : Prop := forall content, honest R content -> content s = concat (map data l) ++ content s'.
Definition runs {A} (retry : bool) (m : parser S A) (m' : parser (S * list call) A) : Prop :=
  forall s log w, exists r s' w' l, m (s, w) = (r, (s', w')) /\ m' ((s, log), w) = (r, ((s', log ++ l), w')) /\ followed s l s' /\ shape retry r l.
Lemma followed_nil s : followed s [] s.
Proof. intros content _. reflexivity. Qed.
Lemma followed_trans s l s' l' s'' : followed s l s' -> followed s' l' s'' -> followed s (l ++ l') s''.
Proof. intros A B content H. rewrite (A content H), (B content H), map_app, concat_app, app_assoc. reflexivity. Qed.
Lemma followed_call s n a s' : rd_read R s n = (a, s') -> followed s [(n, a)] s'.
Proof.
  intros E content H. specialize (H s n). rewrite E in H. unfold data. cbn [map concat snd]. rewrite app_nil_r. destruct a as [c|k]; [apply H | exact H].
Qed.
Lemma useful_mono {A} (r : res A) l : shape false r l -> shape true r l.
Proof.
  assert (K : forall l, Forall (useful false) l -> Forall (useful true) l).
  { intros x. apply Forall_impl. intros [n [bs|k]]; cbn; [auto | intros [[=] _]]. }
  destruct r; cbn [shape]; [intros [U W]; auto | intros (l0 & t & E & F & L); exists l0, t; auto ..].
Qed.
Lemma runs_mono {A} (m : parser S A) m' : runs false m m' -> runs true m m'.
Proof. intros H s log w. destruct (H s log w) as (r & s' & w' & l & A1 & A2 & A3 & A4). exists r, s', w', l. auto using useful_mono. Qed.
Lemma runs_stop {A} retry (r : res A) : runs retry (fun st => (r, st)) (fun st => (r, st)).
Proof.
  intros s log w. exists r, s, w, []. rewrite app_nil_r. split; [reflexivity|]. split; [reflexivity|]. split; [apply followed_nil|].
  destruct r; cbn [shape]; [split; [constructor | apply within_nil] | exists [], []; repeat split; [constructor | discriminate] ..].
Qed.
Lemma runs_bind {A B} retry (m : parser S A) m' (k : A -> parser S B) k' : runs retry m m' -> (forall a, runs retry (k a) (k' a)) -> runs retry (pbind m k) (pbind m' k').
Proof.
  intros H K s log w. destruct (H s log w) as (r & s1 & w1 & l & E & E' & F & Sh). unfold pbind. rewrite E, E'.
  destruct r as [a|e| |].
  - destruct (K a s1 (log ++ l) w1) as (r2 & s2 & w2 & l2 & E2 & E2' & F2 & Sh2). exists r2, s2, w2, (l ++ l2). rewrite E2, E2', app_assoc.
    split; [reflexivity|]. split; [reflexivity|]. split; [eapply followed_trans; eassumption|]. destruct Sh as [U W].
    destruct r2; cbn [shape] in *; [destruct Sh2; split; [now apply Forall_app | now apply within_app] |
      destruct Sh2 as (l0 & t & -> & F0 & L0); exists (l ++ l0), t; rewrite app_assoc; repeat split; [now apply Forall_app | exact L0] ..].
  - exists (Err e), s1, w1, l. auto.
  - exists Panic, s1, w1, l. auto.
  - exists NoFuel, s1, w1, l. auto.
Qed.
Lemma runs_write b retry : runs retry (write_u8 b) (write_u8 b).
Proof. intros s log w. exists (Ok tt), s, (w ++ [b]), []. rewrite app_nil_r. split; [reflexivity|]. split; [reflexivity|]. split; [apply followed_nil|]. split; [constructor | apply within_nil]. Qed.
Lemma runs_if {A} retry (b : bool) (m1 m2 : parser S A) m1' m2' : runs retry m1 m1' -> runs retry m2 m2' -> runs retry (if b then m1 else m2) (if b then m1' else m2').
Proof. now destruct b. Qed.
Lemma last_call {A} retry n a (r : res A) : (forall x, r <> Ok x) -> shape retry r [(n, a)].
Proof. intros H. destruct r as [x|e| |]; cbn [shape]; [now destruct (H x) | exists [], [(n, a)]; repeat split; [constructor | discriminate] ..]. Qed.
Lemma runs_read retry : runs retry (read_u8 R) (read_u8 (watched R)).
Proof.
  intros s log w. unfold read_u8. cbn [watched rd_read fst snd]. destruct (rd_read R s 1) as [a s'] eqn:E. pose proof (followed_call s 1 a s' E) as F.
  destruct a as [[|b [|b' bs]]|k].
  - eexists (Err UnterminatedBytes), s', w, _. split; [reflexivity|]. split; [reflexivity|]. split; [exact F | now apply last_call].
  - eexists (Ok b), s', w, _. split; [reflexivity|]. split; [reflexivity|]. split; [exact F|]. split; [|now apply within_one].
    constructor; [discriminate | constructor].
  - eexists Panic, s', w, _. split; [reflexivity|]. split; [reflexivity|]. split; [exact F | now apply last_call].
  - eexists (Err (Io k)), s', w, _. split; [reflexivity|]. split; [reflexivity|]. split; [exact F | now apply last_call].
Qed.
Lemma runs_id_loop retry fuel : forall i o, runs retry (parse_id_loop R fuel i o) (parse_id_loop (watched R) fuel i o).
Proof.
  induction fuel as [|fuel IH]; intros i o; cbn [parse_id_loop]; [apply runs_stop|].
  apply runs_bind; [apply runs_write|]. intros _. apply runs_if; [apply runs_stop|]. apply runs_bind; [apply runs_read | intros b; apply IH].
Qed.
Lemma runs_id retry fuel : runs retry (parse_id R fuel) (parse_id (watched R) fuel).
Proof.
  unfold parse_id. apply runs_bind; [apply runs_read|]. intros f. apply runs_bind; [apply runs_write|]. intros _. apply runs_if; [apply runs_stop|].
  apply runs_bind; [apply runs_read|]. intros o. apply runs_if; [apply runs_stop|]. apply runs_if; [apply runs_stop | apply runs_id_loop].
Qed.
Lemma runs_length_loop retry k : forall n, runs retry (parse_length_loop R k n) (parse_length_loop (watched R) k n).
Proof.
  induction k as [|k IH]; intros n; cbn [parse_length_loop]; [apply runs_stop|].
  apply runs_bind; [apply runs_read|]. intros b. apply runs_bind; [apply runs_write | intros _; apply IH].
Qed.
Lemma runs_length retry : runs retry (parse_length R) (parse_length (watched R)).
Proof.
  unfold parse_length. apply runs_bind; [apply runs_read|]. intros f. apply runs_bind; [apply runs_write|]. intros _.
  apply runs_if; [apply runs_stop|]. apply runs_if; [apply runs_stop|]. apply runs_bind; [apply runs_read|]. intros o.
  apply runs_if; [apply runs_stop|]. apply runs_bind; [apply runs_write|]. intros _. cbv zeta. apply runs_if; [apply runs_stop|]. apply runs_if; [apply runs_stop | apply runs_length_loop].
Qed.
Lemma runs_header retry fuel : runs retry (parse_id_length R fuel) (parse_id_length (watched R) fuel).
Proof. unfold parse_id_length. apply runs_bind; [apply runs_id | intros _; apply runs_length]. Qed.

(** read_exact: the calls ask for exactly what is missing. *)
Lemma read_exact_runs fuel : forall n s log w, exists r s' w' l, read_exact R fuel n (s, w) = (r, (s', w')) /\
  read_exact (watched R) fuel n ((s, log), w) = (r, ((s', log ++ l), w')) /\ followed s l s' /\
  match r with
  | Ok _ => Forall (useful true) l /\ got l = n /\ forall pre c post, l = pre ++ c :: post -> 1 <= fst c /\ got pre + fst c = n
  | _ => exists l0 t, l = l0 ++ t /\ Forall (useful true) l0 /\ nlen t <= 1
  end.
Proof.
  induction fuel as [|fuel IH]; intros n s log w; cbn [read_exact].
  - exists NoFuel, s, w, []. rewrite app_nil_r. split; [reflexivity|]. split; [reflexivity|]. split; [apply followed_nil|]. exists [], []. repeat split; [constructor | discriminate].
  - destruct (N.eqb_spec n 0) as [->|Hn].
    + exists (Ok tt), s, w, []. rewrite app_nil_r. split; [reflexivity|]. split; [reflexivity|]. split; [apply followed_nil|]. split; [constructor|]. split; [reflexivity|].
      intros [|x0 pre] c post X; discriminate X.
    + change (rd_read (watched R) (s, log) n) with (let (a, s') := rd_read R s n in (a, (s', log ++ [(n, a)]))). destruct (rd_read R s n) as [a s1] eqn:E. cbv beta iota zeta. pose proof (followed_call s n a s1 E) as F.
      assert (END : forall (r : res unit), (forall x, r <> Ok x) -> exists r0 s' w' l, (r, (s1, w)) = (r0, (s', w')) /\ (r, ((s1, log ++ [(n, a)]), w)) = (r0, ((s', log ++ l), w')) /\ followed s l s' /\
        match r0 with
        | Ok _ => Forall (useful true) l /\ got l = n /\ forall pre c post, l = pre ++ c :: post -> 1 <= fst c /\ got pre + fst c = n
        | _ => exists l0 t, l = l0 ++ t /\ Forall (useful true) l0 /\ nlen t <= 1
        end).
      { intros r Hr. exists r, s1, w, [(n, a)]. split; [reflexivity|]. split; [reflexivity|]. split; [exact F|]. destruct r as [x|e| |]; [now destruct (Hr x)| | |];
          exists [], [(n, a)]; repeat split; (constructor || discriminate). }
      destruct a as [[|b bs]|k].
      * now apply END.
      * destruct (N.leb_spec (nlen (b :: bs)) n) as [Hl|]; [|now apply END].
        destruct (IH (n - nlen (b :: bs)) s1 (log ++ [(n, IoOk (b :: bs))]) (w ++ b :: bs)) as (r & s2 & w2 & l & E1 & E2 & F2 & Sh).
        exists r, s2, w2, ((n, IoOk (b :: bs)) :: l). rewrite E1, E2, <- app_assoc. split; [reflexivity|]. split; [reflexivity|].
        split; [exact (followed_trans s [_] s1 l s2 F F2)|]. destruct r; [|destruct Sh as (l0 & t & -> & U & Lt); eexists (_ :: l0), t; (split; [reflexivity|]); (split; [|exact Lt]); constructor; [discriminate | exact U] ..].
        destruct Sh as (U & Gl & W). assert (G1 : forall x, got ((n, IoOk (b :: bs)) :: x) = nlen (b :: bs) + got x).
        { intros x. change ((n, IoOk (b :: bs)) :: x) with ([(n, IoOk (b :: bs))] ++ x). now rewrite got_app, got_one. }
        split; [constructor; [discriminate | exact U]|]. split; [rewrite G1; lia|]. intros pre c post X. destruct pre as [|y pre]; injection X as <- X.
        -- subst. cbn [fst]. split; [lia | reflexivity].
        -- rewrite G1. destruct (W pre c post X). split; [assumption | lia].
      * destruct (match k with Interrupted => true | _ => false end) eqn:EK.
        -- destruct k; try discriminate. destruct (IH n s1 (log ++ [(n, IoErr Interrupted)]) w) as (r & s2 & w2 & l & E1 & E2 & F2 & Sh).
           exists r, s2, w2, ((n, IoErr Interrupted) :: l). rewrite E1, E2, <- app_assoc. split; [reflexivity|]. split; [reflexivity|].
           split; [exact (followed_trans s [_] s1 l s2 F F2)|]. destruct r; [|destruct Sh as (l0 & t & -> & U & Lt); eexists (_ :: l0), t; (split; [reflexivity|]); (split; [|exact Lt]); constructor; [split; reflexivity | exact U] ..].
           destruct Sh as (U & Gl & W). split; [constructor; [split; reflexivity | exact U]|]. split; [exact Gl|]. intros pre c post X. destruct pre as [|y pre]; injection X as <- X.
           ++ cbn [fst]. split; [lia | reflexivity].
           ++ exact (W pre c post X).
        -- destruct k; try discriminate; now apply END.
Qed.
Lemma runs_read_exact fuel n : runs true (read_exact R fuel n) (read_exact (watched R) fuel n).
Proof.
  intros s log w. destruct (read_exact_runs fuel n s log w) as (r & s' & w' & l & A1 & A2 & A3 & A4). exists r, s', w', l. split; [exact A1|]. split; [exact A2|]. split; [exact A3|].
  destruct r; [|exact A4 ..]. destruct A4 as (U & <- & W). split; [exact U|]. intros pre c post E. destruct (W pre c post E). split; [assumption | lia].
Qed.
Lemma runs_state {A} retry (f : list N -> res A) : runs retry (fun st => (f (snd st), st)) (fun st => (f (snd st), st)).
Proof. intros s log w. cbn [snd]. exact (runs_stop retry (f w) s log w). Qed.
Lemma runs_step fuel : runs true (Ber_do_parse R fuel) (Ber_do_parse (watched R) fuel).
Proof.
  intros s log w. unfold Ber_do_parse. cbn [snd].
  refine (runs_bind true _ _ _ _ (runs_header true fuel) _ s log w). intros [|n]; [apply runs_stop|].
  intros s1 log1 w1. cbn [snd]. destruct (isize_max <? nlen w1 + n); [apply runs_stop|].
  refine (runs_bind true _ _ _ _ (runs_read_exact fuel n) _ s1 log1 w1). intros _. exact (runs_state true (fun w2 => Ok (if bytes_eqb (drop (nlen w) w2) EOC then (-1)%Z else 0%Z))).
Qed.
Lemma runs_loop ifuel fuel : forall d, runs true (Ber_loop R ifuel fuel d) (Ber_loop (watched R) ifuel fuel d).
Proof.
  induction fuel as [|fuel IH]; intros d; cbn [Ber_loop]; [apply runs_stop|]. intros s log w.
  refine (runs_bind true _ _ _ _ (runs_step ifuel) _ s log w). intros z. cbv zeta. apply runs_if; [apply IH | apply runs_stop].
Qed.
End RUNS.

(** What was read, by its result. *)
Definition called {S} (R : reader S) (retry : bool) {A} (p : res A * S) (q : res A * (S * list call)) (s : S) : Prop :=
  exists l, q = (fst p, (snd p, l)) /\ followed R s l (snd p) /\ shape retry (fst p) l.
Lemma id_called {S} (R : reader S) fuel s : called R false (Id_parse R fuel s) (Id_parse (watched R) fuel (s, [])) s.
Proof.
  unfold Id_parse. destruct (runs_id R false fuel s [] []) as (r & s' & w' & l & E & E' & F & Sh). rewrite E, E'. exists l. destruct r; cbn [fst snd app]; auto.
Qed.
Lemma length_called {S} (R : reader S) s : called R false (Length_parse R s) (Length_parse (watched R) (s, [])) s.
Proof.
  unfold Length_parse. destruct (runs_length R false s [] []) as (r & s' & w' & l & E & E' & F & Sh). rewrite E, E'. exists l. destruct r; cbn [fst snd app]; auto.
Qed.
Lemma ber_called {S} (R : reader S) fuel s : called R true (Ber_parse R fuel s) (Ber_parse (watched R) fuel (s, [])) s.
Proof.
  unfold Ber_parse. destruct (runs_loop R fuel fuel 0 s [] []) as (r & s' & w' & l & E & E' & F & Sh). rewrite E, E'. exists l. destruct r; cbn [fst snd app]; auto.
Qed.
(** Der::parse: calls for the header and one more. *)
Lemma der_called {S} (R : reader S) fuel s : exists l, Der_parse (watched R) fuel (s, []) = (fst (Der_parse R fuel s), (snd (Der_parse R fuel s), l)) /\
  followed R s l (snd (Der_parse R fuel s)) /\
  (exists l0 t, l = l0 ++ t /\ Forall (useful false) l0 /\ nlen t <= 1) /\
  match fst (Der_parse R fuel s) with
  | Ok _ => exists l0 n bs s1 w1, l = l0 ++ [(n, IoOk bs)] /\ within l0 /\ Forall (useful false) l0 /\ nlen bs = n /\
      parse_id_length R fuel (s, []) = (Ok (Definite n), (s1, w1))
  | _ => True
  end.
Proof.
  unfold Der_parse. destruct (runs_header R false fuel s [] []) as (r & s' & w' & l & E & E' & F & Sh). rewrite E, E'. cbn [app].
  assert (SH : forall t, nlen t <= 1 -> Forall (useful false) l -> exists l0 t0, l ++ t = l0 ++ t0 /\ Forall (useful false) l0 /\ nlen t0 <= 1) by (intros t Ht U; exists l, t; auto).
  destruct r as [[|n]|e| |]; cbn [fst snd shape] in *.
  - exists l. destruct Sh as [U W]. split; [reflexivity|]. split; [exact F|]. split; [|exact I]. destruct (SH [] ltac:(discriminate) U) as (l0 & t0 & X & Y). rewrite app_nil_r in X. eauto.
  - destruct Sh as [U W]. destruct (isize_max <? nlen w' + n).
    + exists l. split; [reflexivity|]. split; [exact F|]. split; [|exact I]. destruct (SH [] ltac:(discriminate) U) as (l0 & t0 & X & Y). rewrite app_nil_r in X. eauto.
    + cbn [watched rd_read fst snd]. destruct (rd_read R s' n) as [a s2] eqn:ER. pose proof (followed_trans R s l s' _ s2 F (followed_call R s' n a s2 ER)) as F2.
      exists (l ++ [(n, a)]). destruct a as [bs|k].
      * destruct (N.ltb_spec n (nlen bs)); [|destruct (N.ltb_spec (nlen bs) n)]; cbn [fst snd]; (split; [reflexivity|]); (split; [exact F2|]); (split; [now apply SH|]); try exact I.
        exists l, n, bs, s', w'. split; [reflexivity|]. split; [exact W|]. split; [exact U|]. split; [lia | reflexivity].
      * cbn [fst snd]. split; [reflexivity|]. split; [exact F2|]. split; [now apply SH | exact I].
  - exists l. auto.
  - exists l. auto.
  - exists l. auto.
Qed.
(** Every call delivers an octet, is interrupted, or is the last. *)
Lemma useful_count l : Forall (useful true) l -> nlen l <= got l + nlen (filter interrupted l).
Proof.
  induction 1 as [|c l U _ IH]; [discriminate|]. change (c :: l) with ([c] ++ l) at 2. rewrite got_app, got_one. rewrite nlen_cons. cbn [filter].
  destruct c as [n [bs|k]]; unfold useful, interrupted, data in *; cbn [snd] in *.
  - destruct bs; [congruence|]. rewrite nlen_cons. lia.
  - destruct U as [_ ->]. rewrite nlen_cons, nlen_nil. lia.
Qed.
Lemma useful_plain l : Forall (useful false) l -> Forall (useful true) l /\ filter interrupted l = [].
Proof.
  induction 1 as [|c l U _ [IH1 IH2]]; [now split|]. destruct c as [n [bs|k]]; unfold useful in U; cbn [snd] in U; [|destruct U; discriminate].
  split; [constructor; [exact U | exact IH1]|]. cbn [filter interrupted snd]. exact IH2.
Qed.
(** Where the last of the octets are asked for. *)
Lemma within_missing l v : within l -> got l = nlen v -> while_missing v l.
Proof. intros W G pre c post E. destruct (W pre c post E). rewrite G in *. repeat split; lia. Qed.
Lemma followed_got {S} (R : reader S) content s l s' v : followed R s l s' -> honest R content -> content s = v ++ content s' -> got l = nlen v.
Proof. intros F H E. specialize (F content H). rewrite E in F. apply app_inv_tail in F. unfold got. now rewrite <- F. Qed.
Lemma header_of_value {S} (R : reader S) content fuel s id c v n s1 w1 rest : honest R content -> bytes_ok (content s) -> der_tlv id c v -> content s = v ++ rest ->
  parse_id_length R fuel (s, []) = (Ok (Definite n), (s1, w1)) -> n = nlen c.
Proof.
  intros H B V E P. destruct (rp_parse_id_length R content H fuel _ _ _ _ _ P) as (d & Ed & Rp). specialize (Rp (content s1)). rewrite <- Ed in Rp.
  assert (P2 : parse_id_length slice_reader (Nat.max fuel (length (content s))) (content s, []) = (Ok (Definite n), (content s1, w1))).
  { rewrite <- Rp. apply (rf_parse_id_length slice_reader fuel); [lia | rewrite Rp; discriminate]. }
  apply der_tlv_parts in V as (len & -> & Hi & Hm & Hn). rewrite E, <- !app_assoc in P2. rewrite E, <- !app_assoc in B.
  rewrite (stream_definite id (nlen c)) in P2; [congruence | assumption .. | |].
  - apply bytes_ok_app in B as [_ B]. now apply bytes_ok_app in B as [_ B].
  - lia.
Qed.
