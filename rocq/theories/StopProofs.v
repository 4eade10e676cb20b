(** Where a failing stream parser leaves the stream: step by step as the slice parser. *)
From Verif Require Import Base ModelIo ModelTag ModelContents ModelTlv Spec SpecIo SpecLeft SpecStop.
From Verif Require Import TagProofs IdProofs TagMain TlvProofs TlvMain StreamProofs LeftProofs.
Open Scope N_scope.

Section Stop.
Context {S : Type} (R : reader S) (content : S -> list N) (Hh : honest R content).
Definition tracks {A} (m : parser S A) (m' : parser (list N) A) : Prop :=
  forall s w r s1 w1, m (s, w) = (r, (s1, w1)) -> exists p u, content s = p ++ content s1 /\ w1 = w ++ u /\
    match r with
    | Ok a => forall v t, m' (p ++ t, v) = (Ok a, (t, v ++ u))
    | Err e => if short e then forall v, m' (p, v) = (Err UnterminatedBytes, ([], v ++ u)) else forall v t, m' (p ++ t, v) = (Err e, (t, v ++ u))
    | _ => True
    end.
Lemma tk_ret {A} (a : A) : tracks (pret a) (pret a).
Proof. intros s w r s1 w1 [= <- <- <-]. exists [], []. rewrite app_nil_r. repeat split. intros v t. now rewrite app_nil_r. Qed.
Lemma tk_fail {A} e : short e = false -> tracks (A := A) (pfail e) (pfail e).
Proof. intros E s w r s1 w1 [= <- <- <-]. exists [], []. rewrite app_nil_r, E. repeat split. intros v t. now rewrite app_nil_r. Qed.
Lemma tk_write b : tracks (write_u8 b) (write_u8 b).
Proof. intros s w r s1 w1 [= <- <- <-]. exists [], [b]. repeat split. Qed.
Lemma tk_nofuel {A} : tracks (A := A) (fun st => (NoFuel, st)) (fun st => (NoFuel, st)).
Proof. intros s w r s1 w1 [= <- <- <-]. exists [], []. rewrite app_nil_r. repeat split. Qed.
Lemma tk_read : tracks (read_u8 R) (read_u8 slice_reader).
Proof using Hh.
  intros s w r s1 w1 H. unfold read_u8 in H. pose proof (Hh s 1) as Hs. destruct (rd_read R s 1) as [[c|k] s'].
  - destruct Hs as [Ec Lc]. destruct (one_octet c Lc) as [->|(b & ->)]; injection H as <- <- <-.
    + exists [], []. rewrite app_nil_r. split; [assumption|]. split; [reflexivity|]. intros v. rewrite app_nil_r. apply read_u8_nil.
    + exists [b], []. rewrite app_nil_r. split; [assumption|]. split; [reflexivity|]. intros v t. rewrite app_nil_r. apply read_u8_cons.
  - injection H as <- <- <-. exists [], []. rewrite app_nil_r. split; [assumption|]. split; [reflexivity|]. intros v. rewrite app_nil_r. apply read_u8_nil.
Qed.
Lemma tk_bind {A B} m m' (f : A -> parser S B) f' : tracks m m' -> (forall a, tracks (f a) (f' a)) -> tracks (pbind m f) (pbind m' f').
Proof.
  intros Hm Hf s w r s2 w2 H. unfold pbind in H. destruct (m (s, w)) as [x [s1 w1]] eqn:E.
  destruct (Hm _ _ _ _ _ E) as (p & u & Ec & -> & C). destruct x as [a|e| |].
  - destruct (Hf _ _ _ _ _ _ H) as (p2 & u2 & Ec2 & -> & C2). exists (p ++ p2), (u ++ u2). rewrite <- app_assoc, <- Ec2, <- app_assoc.
    split; [assumption|]. split; [reflexivity|]. destruct r as [b|e| |]; [| |exact I|exact I].
    + intros v t. unfold pbind. rewrite <- app_assoc, C, C2, <- app_assoc. reflexivity.
    + destruct (short e).
      * intros v. unfold pbind. rewrite C, C2, <- app_assoc. reflexivity.
      * intros v t. unfold pbind. rewrite <- app_assoc, C, C2, <- app_assoc. reflexivity.
  - injection H as <- <- <-. exists p, u. split; [assumption|]. split; [reflexivity|]. destruct (short e).
    + intros v. unfold pbind. now rewrite C.
    + intros v t. unfold pbind. now rewrite C.
  - injection H as <- <- <-. now exists p, u.
  - injection H as <- <- <-. now exists p, u.
Qed.
Lemma tk_if {A} (b : bool) (m1 m2 : parser S A) m1' m2' : tracks m1 m1' -> tracks m2 m2' -> tracks (if b then m1 else m2) (if b then m1' else m2').
Proof. destruct b; auto. Qed.
Ltac tk := repeat first [ apply tk_ret | (apply tk_fail; reflexivity) | apply tk_write | apply tk_read | apply tk_nofuel
  | apply tk_bind; [|intros ?] | apply tk_if | progress cbv zeta ].
Lemma tk_id_loop fuel : forall i o, tracks (parse_id_loop R fuel i o) (parse_id_loop slice_reader fuel i o).
Proof using Hh. induction fuel as [|fuel IH]; intros i o; cbn [parse_id_loop]; tk. apply IH. Qed.
Lemma tk_parse_id fuel : tracks (parse_id R fuel) (parse_id slice_reader fuel).
Proof using Hh. unfold parse_id. tk. apply tk_id_loop. Qed.
Lemma tk_len_loop j : forall n, tracks (parse_length_loop R j n) (parse_length_loop slice_reader j n).
Proof using Hh. induction j as [|j IH]; intros n; cbn [parse_length_loop]; tk. apply IH. Qed.
Lemma tk_parse_length : tracks (parse_length R) (parse_length slice_reader).
Proof using Hh. unfold parse_length. tk. apply tk_len_loop. Qed.

(** fuel *)
Lemma id_any fuel x v r st : parse_id slice_reader fuel (x, v) = (r, st) -> r <> NoFuel -> parse_id slice_reader (slice_fuel x) (x, v) = (r, st).
Proof.
  intros H N. set (f := (fuel + slice_fuel x)%nat).
  assert (E : parse_id slice_reader f (x, v) = (r, st)).
  { rewrite <- H. apply (rf_parse_id slice_reader fuel f); [unfold f; lia | now rewrite H]. }
  rewrite <- E. apply parse_id_fuel; unfold f, slice_fuel; lia.
Qed.
Lemma header_any fuel x r st : parse_id_length slice_reader fuel (x, []) = (r, st) -> r <> NoFuel -> header_slice x = (r, st).
Proof.
  intros H N. set (f := (fuel + slice_fuel x)%nat).
  assert (E : parse_id_length slice_reader f (x, []) = (r, st)).
  { rewrite <- H. apply (rf_parse_id_length slice_reader fuel f); [unfold f; lia | now rewrite H]. }
  unfold header_slice. rewrite <- E. symmetry. apply header_fuel. unfold f, slice_fuel. lia.
Qed.
(** The header, with what was held before. *)
Lemma header_stop fuel s w r s1 w1 : parse_id_length R fuel (s, w) = (r, (s1, w1)) -> exists p u, content s = p ++ content s1 /\ w1 = w ++ u /\
  match r with
  | Ok a => forall t, header_slice (p ++ t) = (Ok a, (t, u))
  | Err e => if short e then header_slice p = (Err UnterminatedBytes, ([], u)) else forall t, header_slice (p ++ t) = (Err e, (t, u))
  | _ => True
  end.
Proof using Hh.
  intros H. assert (T : tracks (parse_id_length R fuel) (parse_id_length slice_reader fuel)) by (apply tk_bind; [apply tk_parse_id | intros _; apply tk_parse_length]).
  destruct (T _ _ _ _ _ H) as (p & u & Ec & Ew & C). exists p, u. split; [assumption|]. split; [assumption|]. destruct r as [a|e| |]; try exact I.
  - intros t. apply header_any with fuel; [apply (C []) | discriminate].
  - destruct (short e); [|intros t]; (apply header_any with fuel; [apply (C []) | discriminate]).
Qed.

Lemma id_stop fuel s e s' : Id_parse R fuel s = (Err e, s') -> exists p, content s = p ++ content s' /\
  stopped (fun bs => Id_parse slice_reader (slice_fuel bs) bs) p e /\ (if short e then fst (IdRef_parse p) = Err UnterminatedBytes else forall t, fst (IdRef_parse (p ++ t)) = Err e).
Proof using Hh.
  unfold Id_parse. intros H. destruct (parse_id R fuel (s, [])) as [r [s1 w1]] eqn:E.
  destruct (tk_parse_id fuel _ _ _ _ _ E) as (p & u & Ec & _ & C). exists p.
  assert (r = Err e /\ s1 = s') as [-> ->] by (destruct r; try discriminate; injection H as <- <-; auto).
  split; [assumption|]. unfold stopped, IdRef_parse, Id_parse. destruct (short e).
  - rewrite (id_any _ _ _ _ _ (C [])) by discriminate. now split.
  - split; intros t; rewrite (id_any _ _ _ _ _ (C [] t)) by discriminate; reflexivity.
Qed.
Lemma length_stop_ s e s' : Length_parse R s = (Err e, s') -> exists p, content s = p ++ content s' /\ stopped Length_parse_slice p e.
Proof using Hh.
  unfold Length_parse. intros H. destruct (parse_length R (s, [])) as [r [s1 w1]] eqn:E. cbn [fst] in H. injection H as -> ->.
  destruct (tk_parse_length _ _ _ _ _ E) as (p & u & Ec & _ & C). exists p. split; [assumption|].
  unfold stopped, Length_parse_slice. destruct (short e); [now rewrite C | intros t; now rewrite C].
Qed.
Lemma der_stop fuel s e s' : bytes_ok (content s) -> Der_parse R fuel s = (Err e, s') -> exists p, content s = p ++ content s' /\
  (stopped DerRef_parse p e \/ exists k id, e = Io k /\ der_tlv id [] p).
Proof using Hh.
  intros Hok H. unfold Der_parse in H. destruct (parse_id_length R fuel (s, [])) as [r [s1 w1]] eqn:E.
  destruct (header_stop _ _ _ _ _ _ E) as (p & u & Ec & _ & C).
  assert (D : forall x, DerRef_parse x = match header_slice x with
    | (Ok Indefinite, (t, _)) => (Err IndefiniteLength, t)
    | (Ok (Definite n), (t, _)) => if nlen t <? n then (Err UnterminatedBytes, t) else (Ok (take (nlen x - nlen (drop n t)) x), drop n t)
    | (Err e, (t, _)) => (Err e, t) | (Panic, (t, _)) => (Panic, t) | (NoFuel, (t, _)) => (NoFuel, t) end).
  { intros x. unfold DerRef_parse. rewrite DerRef_do_parse_eq. destruct (header_slice x) as [[[|n]| | |] [t v]]; try reflexivity. now destruct (nlen t <? n). }
  destruct r as [[|n]|e0| |]; try discriminate.
  - injection H as <- <-. exists p. split; [assumption|]. left. intros t. now rewrite D, C.
  - destruct (isize_max <? nlen w1 + n); [discriminate|]. pose proof (Hh s1 n) as Hs. destruct (rd_read R s1 n) as [[c|k] s2].
    + destruct (n <? nlen c); [discriminate|]. destruct (N.ltb_spec (nlen c) n) as [L|L]; [|discriminate]. injection H as <- <-.
      destruct Hs as [Es _]. exists (p ++ c). split; [now rewrite <- app_assoc, <- Es|]. left. unfold stopped. cbn [short].
      rewrite D, C. destruct (N.ltb_spec (nlen c) n); [reflexivity | lia].
    + injection H as <- <-. exists p. split; [now rewrite <- Hs|]. specialize (C []). rewrite app_nil_r in C.
      destruct (N.eqb_spec n 0) as [->|N0].
      * right. exists k. assert (Op : bytes_ok p) by (rewrite Ec in Hok; now apply bytes_ok_app in Hok).
        destruct (header_total p Op) as [id n len rest -> Hi Hm Hn Hr|id rest -> Hi Hr|e He|id t e -> Hi He Ht].
        -- rewrite (header_definite id n len rest) in C by assumption. injection C as -> -> _. exists id. split; [reflexivity|].
           now constructor.
        -- rewrite header_indefinite in C by assumption. discriminate.
        -- destruct (stream_id_error p e [] (slice_fuel p) Op He ltac:(unfold slice_fuel; lia)) as (st & X). unfold header_slice in C. congruence.
        -- destruct (stream_length_error id t e [] (slice_fuel (id ++ t)) Hi Ht He ltac:(unfold slice_fuel; lia)) as (st & X). unfold header_slice in C. congruence.
      * left. unfold stopped. cbn [short]. rewrite D, C. destruct (N.ltb_spec (nlen (@nil N)) n) as [L|L]; [reflexivity | rewrite nlen_nil in L; lia].
  - injection H as <- <-. exists p. split; [assumption|]. left. unfold stopped. destruct (short e0); [now rewrite D, C | intros t; now rewrite D, C].
Qed.

(** ** Ber *)
Lemma eoc_header x : starts_with x EOC = true -> exists t u, header_slice x = (Ok (Definite 0), (t, u)).
Proof. intros E. apply starts_with_spec in E as (t & ->). exists t, [0; 0]. reflexivity. Qed.
Lemma exact_stop fuel : forall n s w r s1 w1, read_exact R fuel n (s, w) = (r, (s1, w1)) -> exists c, content s = c ++ content s1 /\
  match r with Err e => short e = true /\ nlen c < n | _ => True end.
Proof using Hh.
  induction fuel as [|fuel IH]; intros n s w r s1 w1 H; cbn [read_exact] in H.
  { injection H as <- <- <-. now exists []. }
  destruct (N.eqb_spec n 0) as [->|N0]; [injection H as <- <- <-; now exists []|].
  pose proof (Hh s n) as Hs. destruct (rd_read R s n) as [[c|k] s'].
  - destruct Hs as [Ec Lc]. destruct c as [|b c].
    + injection H as <- <- <-. exists []. split; [assumption|]. split; [reflexivity|]. rewrite nlen_nil. lia.
    + remember (b :: c) as cc. destruct (N.leb_spec (nlen cc) n); [|lia].
      destruct (IH _ _ _ _ _ _ H) as (c2 & Ec2 & C). exists (cc ++ c2). split; [now rewrite Ec, Ec2, <- app_assoc|].
      destruct r; try exact I. destruct C as [C1 C2]. split; [assumption|]. rewrite nlen_app. lia.
  - assert (K : forall c, content s' = c ++ content s1 -> content s = c ++ content s1) by (intros c X; now rewrite Hs).
    destruct k; try (injection H as <- <- <-; exists []; split; [assumption|]; split; [reflexivity | rewrite nlen_nil; lia]).
    destruct (IH _ _ _ _ _ _ H) as (c2 & Ec2 & C). exists c2. auto.
Qed.
Lemma step_ok fuel s w z s1 w1 : bytes_ok (content s) -> Ber_do_parse R fuel (s, w) = (Ok z, (s1, w1)) ->
  exists p, content s = p ++ content s1 /\ p <> [] /\ forall t, BerRef_do_parse (p ++ t) = (Ok z, t).
Proof using Hh.
  intros Hok H. destruct (rp_ber_do_parse R content Hh fuel _ _ _ _ _ H) as (c & Ec & C). specialize (C (content s1)). rewrite <- Ec in C.
  set (F := Nat.max fuel (length (content s) + 2)).
  assert (E : Ber_do_parse slice_reader F (content s, w) = (Ok z, (content s1, w1))).
  { rewrite <- C. apply (rf_ber_do_parse slice_reader fuel F); [unfold F; lia | rewrite C; discriminate]. }
  destruct (stream_step_inv _ _ _ _ _ _ Hok (Nat.le_max_r _ _) E) as (c' & Ec' & _ & Hr & Nc & D). exists c'. split; [assumption|]. split; [assumption|].
  assert (B : BerRef_do_parse (c' ++ content s1) = (Ok z, content s1)).
  { rewrite Ec' in Hok. destruct D as [(id & c0 & Hd & NE & ->)|[(-> & ->)|(id & Hi & -> & ->)]].
    - now apply do_parse_definite with id c0.
    - apply do_parse_eoc.
    - rewrite <- app_assoc. now apply do_parse_indefinite. }
  destruct (do_left _ _ _ B) as (p & Ep & [[_ K]|[K _]] & _); [|discriminate]. apply app_inv_tail in Ep as ->. exact K.
Qed.
Lemma step_err fuel s w e s1 w1 : Ber_do_parse R fuel (s, w) = (Err e, (s1, w1)) ->
  exists p, content s = p ++ content s1 /\ stopped BerRef_do_parse p e.
Proof using Hh.
  intros H. unfold Ber_do_parse, pbind at 1 in H. destruct (parse_id_length R fuel (s, w)) as [r [s0 w0]] eqn:E.
  destruct (header_stop _ _ _ _ _ _ E) as (p & u & Ec & _ & C). destruct r as [[|n]|e0| |]; try discriminate.
  - cbn [snd] in H. destruct (isize_max <? nlen w0 + n); [discriminate|]. unfold pbind in H.
    destruct (read_exact R fuel n (s0, w0)) as [x [s2 w2]] eqn:X. destruct x as [[]|e0| |]; try discriminate. injection H as -> -> ->.
    destruct (exact_stop _ _ _ _ _ _ _ X) as (c & Es & Sh & L). exists (p ++ c). split; [now rewrite <- app_assoc, <- Es|].
    unfold stopped. rewrite Sh. destruct (starts_with (p ++ c) EOC) eqn:Q.
    + destruct (eoc_header _ Q) as (t & v & Y). rewrite C in Y. injection Y as -> _ _. lia.
    + rewrite do_parse_header by assumption. rewrite C. destruct (N.ltb_spec (nlen c) n); [reflexivity | lia].
  - injection H as -> -> ->. exists p. split; [assumption|]. unfold stopped. destruct (short e) eqn:Sh.
    + destruct (starts_with p EOC) eqn:Q; [destruct (eoc_header _ Q) as (t & v & Y); congruence|]. now rewrite do_parse_header, C.
    + intros t. destruct (starts_with (p ++ t) EOC) eqn:Q; [destruct (eoc_header _ Q) as (t' & v & Y); rewrite C in Y; discriminate|].
      now rewrite do_parse_header, C.
Qed.
Lemma loop_stop ifuel fuel : forall d s w e s1 w1, bytes_ok (content s) -> Ber_loop R ifuel fuel d (s, w) = (Err e, (s1, w1)) ->
  exists p, content s = p ++ content s1 /\
    (if short e then forall f, (length p < f)%nat -> fst (BerRef_loop f d p) = Err UnterminatedBytes
     else forall f t, (length (p ++ t) < f)%nat -> BerRef_loop f d (p ++ t) = (Err e, t)).
Proof using Hh.
  induction fuel as [|fuel IH]; intros d s w e s1 w1 Hok H; cbn [Ber_loop] in H; [discriminate|]. unfold pbind in H.
  destruct (Ber_do_parse R ifuel (s, w)) as [x [s0 w0]] eqn:E. destruct x as [z|e0| |]; try discriminate.
  - destruct (step_ok _ _ _ _ _ _ Hok E) as (p & Ec & Np & C). cbv zeta in H. destruct (0 <? d + z)%Z eqn:Q; [|discriminate].
    assert (Lp : (0 < length p)%nat) by (destruct p; [congruence | cbn; lia]).
    assert (Ho : bytes_ok (content s0)) by (rewrite Ec in Hok; now apply bytes_ok_app in Hok).
    destruct (IH _ _ _ _ _ _ Ho H) as (p2 & Ec2 & K). exists (p ++ p2). split; [now rewrite <- app_assoc, <- Ec2|]. destruct (short e).
    + intros [|f] L; [lia|]. rewrite app_length in L. cbn [BerRef_loop]. rewrite C. cbv zeta. rewrite Q. apply K. lia.
    + intros [|f] t L; [lia|]. rewrite <- app_assoc, app_length in L. cbn [BerRef_loop]. rewrite <- app_assoc, C. cbv zeta. rewrite Q. apply K. lia.
  - injection H as -> -> ->. destruct (step_err _ _ _ _ _ _ E) as (p & Ec & C). exists p. split; [assumption|]. unfold stopped in C. destruct (short e).
    + intros [|f] L; [lia|]. cbn [BerRef_loop]. destruct (BerRef_do_parse p) as [x y]. cbn [fst] in C. now subst x.
    + intros [|f] t L; [lia|]. cbn [BerRef_loop]. now rewrite C.
Qed.
Lemma ber_stop fuel s e s' : bytes_ok (content s) -> Ber_parse R fuel s = (Err e, s') -> exists p, content s = p ++ content s' /\ stopped BerRef_parse p e.
Proof using Hh.
  intros Hok H. unfold Ber_parse in H. destruct (Ber_loop R fuel fuel 0 (s, [])) as [x [s1 w1]] eqn:E. destruct x as [[]|e0| |]; try discriminate.
  injection H as -> ->. destruct (loop_stop _ _ _ _ _ _ _ _ Hok E) as (p & Ec & C). exists p. split; [assumption|]. unfold stopped, BerRef_parse. destruct (short e).
  - specialize (C (slice_fuel p) (Nat.lt_succ_diag_r _)). destruct (BerRef_loop (slice_fuel p) 0 p) as [x y]. cbn [fst] in C. now subst x.
  - intros t. now rewrite (C (slice_fuel (p ++ t)) t (Nat.lt_succ_diag_r _)).
Qed.
End Stop.
