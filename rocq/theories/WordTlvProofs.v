(** Der and Ber on machines whose usize has [w] octets. *)
From Verif Require Import Base ModelIo ModelTag ModelContents ModelBuf ModelTlv ModelHeap ModelWord ModelWordTlv Spec SpecBuf SpecTlv SpecWord
  TagProofs IdProofs TagMain ContentsProofs TlvProofs BufProofs TlvMain WordProofs.

Lemma eight_tlv :
  (forall bs, w_DerRef_parse 8 bs = DerRef_parse bs) /\ (forall bs, w_BerRef_parse 8 bs = BerRef_parse bs) /\
  (forall bs, w_disassemble 8 bs = disassemble bs) /\
  (forall S (R : reader S) fuel s, w_Der_parse 8 R fuel s = Der_parse R fuel s) /\
  (forall S (R : reader S) fuel s, w_Ber_parse 8 R fuel s = Ber_parse R fuel s).
Proof. repeat split; reflexivity. Qed.

(** ** what is kept while parsing *)
Definition kept {S A} (P : S -> Prop) (m : parser S A) : Prop :=
  forall st, P (fst st) -> P (fst (snd (m st))) /\ nlen (snd st) <= nlen (snd (snd (m st))).
Section KEPT.
Context {S : Type} (R : reader S) (P : S -> Prop).
Context (HR : forall s n, P s -> match rd_read R s n with (IoOk bs, s') => bytes_ok bs /\ P s' | (IoErr _, s') => P s' end).
Lemma kept_ret {A} (a : A) : kept P (pret a : parser S A).
Proof. intros st H. cbn. split; [assumption | lia]. Qed.
Lemma kept_fail {A} e : kept P (pfail e : parser S A).
Proof. intros st H. cbn. split; [assumption | lia]. Qed.
Lemma kept_nofuel {A} : kept P ((fun st => (NoFuel, st)) : parser S A).
Proof. intros st H. cbn. split; [assumption | lia]. Qed.
Lemma kept_write b : kept P (write_u8 b : parser S unit).
Proof. intros [s o] H. cbn [write_u8 fst snd] in *. split; [assumption|]. rewrite nlen_app. lia. Qed.
Lemma kept_read : kept P (read_u8 R).
Proof using HR.
  intros [s o] H. cbn [fst snd] in *. unfold read_u8. specialize (HR s 1 H).
  destruct (rd_read R s 1) as [[[|b [|b' bs']]|er] s1]; cbn [fst snd]; (split; [tauto | lia]).
Qed.
Lemma kept_bind {A B} (m : parser S A) (k : A -> parser S B) : kept P m -> (forall a, kept P (k a)) -> kept P (pbind m k).
Proof.
  intros Hm Hk st H. unfold pbind. specialize (Hm st H). destruct (m st) as [[a|e| |] st1]; cbn [fst snd] in *; auto.
  destruct Hm as [H1 L1]. destruct (Hk a st1 H1) as [H2 L2]. split; [assumption | lia].
Qed.
Ltac keep := repeat first [ apply kept_ret | apply kept_fail | apply kept_nofuel | apply kept_write | apply kept_read
  | apply kept_bind; [|intros ?] | match goal with |- kept _ (if ?b then _ else _) => destruct b end ].
Lemma kept_id_loop fuel : forall i o, kept P (parse_id_loop R fuel i o).
Proof using HR. induction fuel as [|fuel IH]; intros i o; cbn [parse_id_loop]; keep. apply IH. Qed.
Lemma kept_parse_id fuel : kept P (parse_id R fuel).
Proof using HR. unfold parse_id. keep. apply kept_id_loop. Qed.
Lemma kept_len_loop k : forall len, kept P (parse_length_loop R k len).
Proof using HR. induction k as [|k IH]; intros len; cbn [parse_length_loop]; keep. apply IH. Qed.
Lemma kept_parse_length : kept P (parse_length R).
Proof using HR. unfold parse_length. keep. apply kept_len_loop. Qed.
Lemma kept_id_length fuel : kept P (parse_id_length R fuel).
Proof using HR. unfold parse_id_length. apply kept_bind; [apply kept_parse_id | intros ?; apply kept_parse_length]. Qed.
Lemma kept_read_exact fuel : forall n, kept P (read_exact R fuel n) /\
  forall st st', read_exact R fuel n st = (Ok tt, st') -> nlen (snd st') = nlen (snd st) + n.
Proof using HR.
  induction fuel as [|fuel IH]; intros n; (split; [intros [s o] H | intros [s o] st']); cbn [read_exact fst snd].
  - cbn [fst snd] in *. split; [assumption | lia].
  - discriminate.
  - cbn [fst snd] in *. destruct (n =? 0); [cbn [fst snd]; split; [assumption | lia]|]. specialize (HR s n H).
    destruct (rd_read R s n) as [[[|b bs]|[]] s1]; cbn [fst snd] in *; try (split; [tauto | lia]).
    + destruct (_ <=? n); [|cbn [fst snd]; split; [tauto | lia]].
      destruct (IH (n - nlen (b :: bs))) as [K _]. destruct (K (s1, o ++ b :: bs)) as [K1 K2]; [tauto|]. cbn [fst snd] in K2.
      rewrite nlen_app in K2. split; [assumption | lia].
    + destruct (IH n) as [K _]. exact (K (s1, o) HR).
  - destruct (N.eqb_spec n 0) as [->|]; [intros [= <-]; cbn [snd]; lia|].
    destruct (rd_read R s n) as [[[|b bs]|[]] s1]; try discriminate.
    + destruct (N.leb_spec (nlen (b :: bs)) n); [|discriminate]. intros E.
      destruct (IH (n - nlen (b :: bs))) as [_ K]. specialize (K _ _ E). cbn [snd] in K. rewrite nlen_app in K. lia.
    + intros E. destruct (IH n) as [_ K]. exact (K _ _ E).
Qed.
End KEPT.

Section W.
Context (w : N) (H1 : 1 <= w) (H8 : w <= 8).
Lemma max_limit : word_max w < word_limit w.
Proof using H1 H8. rewrite max_T, limit_T by assumption. pose proof (T_pos w H1). lia. Qed.

(** ** streams *)
Definition refused {A} (r : res A) : Prop := r = Err OverFlow \/ r = Panic.
Section STREAM.
Context {S : Type} (R : reader S) (P : S -> Prop).
Context (HR : forall s n, P s -> match rd_read R s n with (IoOk bs, s') => bytes_ok bs /\ P s' | (IoErr _, s') => P s' end).
Lemma w_id_length_rel fuel st : P (fst st) ->
  match fst (parse_id_length R fuel st) with
  | Ok (Definite n) => if n <? word_limit w then w_parse_id_length w R fuel st = parse_id_length R fuel st
                       else fst (w_parse_id_length w R fuel st) = Err OverFlow
  | Ok Indefinite => w_parse_id_length w R fuel st = parse_id_length R fuel st
  | _ => w_parse_id_length w R fuel st = parse_id_length R fuel st \/ fst (w_parse_id_length w R fuel st) = Err OverFlow
  end.
Proof using H1 H8 HR.
  intros H. unfold w_parse_id_length, parse_id_length, pbind. destruct (kept_parse_id R P HR fuel st H) as [K _].
  destruct (parse_id R fuel st) as [[a|e| |] st1]; cbn [fst snd] in *; auto.
  apply (w_parse_length_rel w H1 H8 R st1). exists P. auto.
Qed.
(** The machine does the same, or refuses what is too large for it. *)
Definition narrower {A} (r' r : res A * pst S) : Prop :=
  r' = r \/ refused (fst r') /\ (forall a, fst r = Ok a -> word_max w < nlen (snd (snd r))).
Lemma Ber_do_parse_rel fuel st : P (fst st) ->
  (P (fst (snd (Ber_do_parse R fuel st))) /\ nlen (snd st) <= nlen (snd (snd (Ber_do_parse R fuel st)))) /\
  narrower (w_Ber_do_parse w R fuel st) (Ber_do_parse R fuel st).
Proof using H1 H8 HR.
  intros H. pose proof max_limit as ML. pose proof (max_8 w H1 H8) as M8. unfold Ber_do_parse, w_Ber_do_parse, pbind.
  pose proof (w_id_length_rel fuel st H) as K. destruct (kept_id_length R P HR fuel st H) as [K1 K2].
  destruct (parse_id_length R fuel st) as [[[|n]|e| |] st1]; cbn [fst snd] in *.
  - rewrite K. split; [auto | now left].
  - destruct (kept_read_exact R P HR fuel n) as [X1 X2]. specialize (X1 st1 K1).
    split.
    { destruct (isize_max <? _); [auto|]. destruct (read_exact R fuel n st1) as [[[]|e| |] st2]; cbn [fst snd] in *; (split; [tauto | lia]). }
    destruct (N.ltb_spec n (word_limit w)) as [Hn|Hn].
    + rewrite K. destruct (N.ltb_spec (word_max w) (nlen (snd st1) + n)) as [HB|HB].
      * right. split; [now right|]. intros a. destruct (isize_max <? _); [discriminate|].
        destruct (read_exact R fuel n st1) as [[[]|e| |] st2] eqn:E; try discriminate. intros _. cbn [fst snd].
        rewrite (X2 _ _ E). assumption.
      * destruct (N.ltb_spec isize_max (nlen (snd st1) + n)); [lia|]. now left.
    + destruct (w_parse_id_length w R fuel st) as [r q]. cbn [fst] in K. subst r. right. split; [now left|]. intros a.
      destruct (isize_max <? _); [discriminate|].
      destruct (read_exact R fuel n st1) as [[[]|e| |] st2] eqn:E; try discriminate. intros _. cbn [fst snd].
      rewrite (X2 _ _ E). lia.
  - split; [auto|]. destruct K as [->|K]; [now left|]. right. split; [|discriminate].
    destruct (w_parse_id_length w R fuel st) as [r q]. cbn [fst] in K. subst r. now left.
  - split; [auto|]. destruct K as [->|K]; [now left|]. right. split; [|discriminate].
    destruct (w_parse_id_length w R fuel st) as [r q]. cbn [fst] in K. subst r. now left.
  - split; [auto|]. destruct K as [->|K]; [now left|]. right. split; [|discriminate].
    destruct (w_parse_id_length w R fuel st) as [r q]. cbn [fst] in K. subst r. now left.
Qed.
Lemma Ber_loop_rel ifuel fuel : forall d st, P (fst st) ->
  nlen (snd st) <= nlen (snd (snd (Ber_loop R ifuel fuel d st))) /\ narrower (w_Ber_loop w R ifuel fuel d st) (Ber_loop R ifuel fuel d st).
Proof using H1 H8 HR.
  induction fuel as [|fuel IH]; intros d st H; cbn [Ber_loop w_Ber_loop].
  { split; [cbn; lia | now left]. }
  destruct (Ber_do_parse_rel ifuel st H) as [[K1 K2] K]. unfold pbind.
  destruct (Ber_do_parse R ifuel st) as [r st1]. cbn [fst snd] in *. destruct K as [->|[K3 K4]].
  - destruct r as [z|e| |]; try (split; [assumption | now left]). cbv zeta.
    destruct (0 <? d + z)%Z; [|split; [assumption | now left]].
    destruct (IH (d + z)%Z st1 K1) as [A B]. split; [lia | assumption].
  - destruct (w_Ber_do_parse w R ifuel st) as [r' st']. cbn [fst] in K3.
    split; [|right; split; [destruct K3 as [-> | ->]; [now left | now right]|]].
    + destruct r as [z|e| |]; try assumption. cbv zeta. destruct (0 <? d + z)%Z; [|assumption].
      destruct (IH (d + z)%Z st1 K1) as [A B]. lia.
    + intros a. destruct r as [z|e| |]; try discriminate. specialize (K4 z eq_refl). cbn [snd] in K4. cbv zeta.
      destruct (0 <? d + z)%Z; [|intros _; assumption]. destruct (IH (d + z)%Z st1 K1) as [A B]. intros _. lia.
Qed.
End STREAM.
Theorem w_ber_stream {S} (R : reader S) fuel s : octets_from R s ->
  w_Ber_parse w R fuel s = Ber_parse R fuel s \/
  refused (fst (w_Ber_parse w R fuel s)) /\ (forall v, fst (Ber_parse R fuel s) = Ok v -> word_max w < nlen v).
Proof using H1 H8.
  intros (P & HP & HR). destruct (Ber_loop_rel R P HR fuel fuel 0%Z (s, []) HP) as [_ [E|[A B]]]; unfold w_Ber_parse, Ber_parse.
  - left. now rewrite E.
  - right. split.
    + destruct (w_Ber_loop w R fuel fuel 0 (s, [])) as [r [s' o]]. cbn [fst] in A. destruct A as [-> | ->]; [now left | now right].
    + destruct (Ber_loop R fuel fuel 0 (s, [])) as [[a|e| |] [s' o]]; try discriminate. intros v [= <-]. exact (B a eq_refl).
Qed.
Theorem w_der_stream {S} (R : reader S) fuel s : octets_from R s ->
  w_Der_parse w R fuel s = Der_parse R fuel s \/
  refused (fst (w_Der_parse w R fuel s)) /\ (forall v, fst (Der_parse R fuel s) = Ok v -> word_max w < nlen v).
Proof using H1 H8.
  intros (P & HP & HR). pose proof max_limit as ML. pose proof (max_8 w H1 H8) as M8. unfold w_Der_parse, Der_parse.
  pose proof (w_id_length_rel R P HR fuel (s, []) HP) as K.
  destruct (parse_id_length R fuel (s, [])) as [[[|n]|e| |] [s1 o]]; cbn [fst] in K.
  - rewrite K. now left.
  - assert (B : word_max w < nlen o + n -> forall v,
      fst (if isize_max <? nlen o + n then (Panic, s1)
       else match rd_read R s1 n with
            | (IoErr k, s'') => (Err (Io k), s'')
            | (IoOk bs, s'') => if n <? nlen bs then (Panic, s'') else if nlen bs <? n then (Err UnterminatedBytes, s'') else (Ok (o ++ bs), s'')
            end) = Ok v -> word_max w < nlen v).
    { intros HB v. destruct (isize_max <? _); [discriminate|]. destruct (rd_read R s1 n) as [[bs|k] s2]; [|discriminate].
      destruct (N.ltb_spec n (nlen bs)); [discriminate|]. destruct (N.ltb_spec (nlen bs) n); [discriminate|].
      intros [= <-]. rewrite nlen_app. lia. }
    destruct (N.ltb_spec n (word_limit w)) as [Hn|Hn].
    + rewrite K. destruct (N.ltb_spec (word_max w) (nlen o + n)) as [HB|HB].
      * right. split; [now right | exact (B HB)].
      * destruct (N.ltb_spec isize_max (nlen o + n)); [lia|]. now left.
    + destruct (w_parse_id_length w R fuel (s, [])) as [r [q1 q2]]. cbn [fst] in K. subst r. right. split; [now left|]. apply B. lia.
  - destruct K as [->|K]; [now left|]. right. split; [|discriminate].
    destruct (w_parse_id_length w R fuel (s, [])) as [r [q1 q2]]. cbn [fst] in K. subst r. now left.
  - destruct K as [->|K]; [now left|]. right. split; [|discriminate].
    destruct (w_parse_id_length w R fuel (s, [])) as [r [q1 q2]]. cbn [fst] in K. subst r. now left.
  - destruct K as [->|K]; [now left|]. right. split; [|discriminate].
    destruct (w_parse_id_length w R fuel (s, [])) as [r [q1 q2]]. cbn [fst] in K. subst r. now left.
Qed.

(** ** slices *)
Lemma bind_slice {A} (k : N -> parser (list N) A) b s o : pbind (read_u8 slice_reader) k (b :: s, o) = k b (s, o).
Proof. unfold pbind. now rewrite read_u8_cons. Qed.
Lemma bind_slice_nil {A} (k : N -> parser (list N) A) o : pbind (read_u8 slice_reader) k ([], o) = (Err UnterminatedBytes, ([], o)).
Proof. unfold pbind. now rewrite read_u8_nil. Qed.
Lemma slice_loop k : forall len st, match fst (parse_length_loop slice_reader k len st) with Ok _ | Err UnterminatedBytes => True | _ => False end.
Proof.
  induction k as [|k IH]; intros len [s o]; cbn [parse_length_loop]; [exact I|].
  destruct s as [|b s]; [rewrite bind_slice_nil; exact I|]. rewrite bind_slice, bind_write_u8. apply IH.
Qed.
(** Where the two differ the octets end before the length does. *)
Lemma w_parse_length_slice bs o : bytes_ok bs ->
  match fst (parse_length slice_reader (bs, o)) with
  | Ok (Definite n) => if n <? word_limit w then w_parse_length w slice_reader (bs, o) = parse_length slice_reader (bs, o)
                       else fst (w_parse_length w slice_reader (bs, o)) = Err OverFlow
  | Ok Indefinite => w_parse_length w slice_reader (bs, o) = parse_length slice_reader (bs, o)
  | r => w_parse_length w slice_reader (bs, o) = parse_length slice_reader (bs, o) \/
         r = Err UnterminatedBytes /\ fst (w_parse_length w slice_reader (bs, o)) = Err OverFlow
  end.
Proof using H1 H8.
  intros Hb. pose proof (w_parse_length_rel w H1 H8 slice_reader (bs, o) (slice_octets bs Hb)) as K.
  destruct (fst (parse_length slice_reader (bs, o))) as [[|n]|e| |] eqn:E; try exact K.
  all: destruct K as [K|K]; [now left|]; revert E K.
  all: unfold parse_length, w_parse_length; destruct bs as [|first bs]; [rewrite !bind_slice_nil; discriminate|].
  all: rewrite !bind_slice, !bind_write_u8.
  all: destruct (first =? LEN_INDEFINITE); [discriminate|]; destruct (negb _); [discriminate|].
  all: destruct bs as [|second bs]; [rewrite !bind_slice_nil; discriminate|]; rewrite !bind_slice.
  all: destruct (second =? 0); [discriminate|]; rewrite !bind_write_u8; cbv zeta; destruct (_ && _); [discriminate|].
  all: destruct (N.ltb_spec 8 (N.lxor first LEN_LONG_FLAG)) as [G|G]; [try discriminate|].
  1:{ intros [= <-] _. destruct (N.ltb_spec w (N.lxor first LEN_LONG_FLAG)); [now left | lia]. }
  all: match goal with |- fst (parse_length_loop _ ?k ?l ?st) = _ -> _ => pose proof (slice_loop k l st) as SL;
         destruct (fst (parse_length_loop slice_reader k l st)) as [|[]| |]; try discriminate; try contradiction; intros [= <-]; auto end.
Qed.
Lemma w_id_length_slice bs : bytes_ok bs ->
  let r := parse_id_length slice_reader (slice_fuel bs) (bs, []) in
  let r' := w_parse_id_length w slice_reader (slice_fuel bs) (bs, []) in
  bytes_ok (fst (snd r)) /\ nlen (fst (snd r)) <= nlen bs /\
  match fst r with
  | Ok (Definite n) => if n <? word_limit w then r' = r else fst r' = Err OverFlow
  | Ok Indefinite => r' = r
  | q => r' = r \/ q = Err UnterminatedBytes /\ fst r' = Err OverFlow
  end.
Proof using H1 H8.
  intros Hb r r'.
  assert (HR : forall s n, bytes_ok s /\ nlen s <= nlen bs ->
    match rd_read slice_reader s n with (IoOk x, s') => bytes_ok x /\ (bytes_ok s' /\ nlen s' <= nlen bs) | (IoErr _, s') => bytes_ok s' /\ nlen s' <= nlen bs end).
  { intros s n [Hs L]. cbn [slice_reader rd_read]. rewrite nlen_drop. repeat split; [now apply bytes_ok_take | now apply bytes_ok_drop | lia]. }
  set (P := fun s => bytes_ok s /\ nlen s <= nlen bs).
  assert (P0 : P (fst (bs, @nil N))) by (split; [assumption | cbn; lia]).
  destruct (kept_id_length slice_reader P HR (slice_fuel bs) (bs, []) P0) as [[KA KB] _]. split; [exact KA|]. split; [exact KB|].
  subst r r'. unfold w_parse_id_length, parse_id_length, pbind.
  destruct (kept_parse_id slice_reader P HR (slice_fuel bs) (bs, []) P0) as [[K _] _].
  destruct (parse_id slice_reader (slice_fuel bs) (bs, [])) as [[a|e| |] [s1 o1]]; cbn [fst snd] in *; auto.
  exact (w_parse_length_slice s1 o1 K).
Qed.
(** A slice of this machine. *)
Lemma w_DerRef_do_parse_rel bs : bytes_ok bs -> nlen bs <= word_max w ->
  w_DerRef_do_parse w bs = DerRef_do_parse bs \/
  fst (DerRef_do_parse bs) = Err UnterminatedBytes /\ fst (w_DerRef_do_parse w bs) = Err OverFlow.
Proof using H1 H8.
  intros Hb L. pose proof max_limit as ML. unfold w_DerRef_do_parse, DerRef_do_parse.
  destruct (w_id_length_slice bs Hb) as (_ & KL & K). cbv zeta in K.
  destruct (parse_id_length slice_reader (slice_fuel bs) (bs, [])) as [[[|n]|e| |] [s1 o1]]; cbn [fst snd] in *.
  - rewrite K. now left.
  - destruct (N.ltb_spec n (word_limit w)); [rewrite K; now left|].
    destruct (w_parse_id_length w slice_reader (slice_fuel bs) (bs, [])) as [r' [s2 o2]]. cbn [fst] in K. subst r'. right.
    destruct (N.ltb_spec (nlen s1) n); [auto | lia].
  - destruct K as [->|[[= ->] K]]; [now left|].
    destruct (w_parse_id_length w slice_reader (slice_fuel bs) (bs, [])) as [r' [s2 o2]]. cbn [fst] in K. subst r'. now right.
  - destruct K as [->|[[=] _]]; now left.
  - destruct K as [->|[[=] _]]; now left.
Qed.
Theorem w_der_slice bs : bytes_ok bs -> nlen bs <= word_max w ->
  (w_DerRef_parse w bs = DerRef_parse bs \/ fst (DerRef_parse bs) = Err UnterminatedBytes /\ fst (w_DerRef_parse w bs) = Err OverFlow) /\
  (w_DerRef_parse_mut w bs = DerRef_parse_mut bs \/ fst (DerRef_parse_mut bs) = Err UnterminatedBytes /\ fst (w_DerRef_parse_mut w bs) = Err OverFlow).
Proof using H1 H8.
  intros Hb L. unfold w_DerRef_parse, DerRef_parse, w_DerRef_parse_mut, DerRef_parse_mut.
  destruct (w_DerRef_do_parse_rel bs Hb L) as [->|[A B]]; [split; now left|].
  destruct (DerRef_do_parse bs) as [r s1]. destruct (w_DerRef_do_parse w bs) as [r' s2]. cbn [fst] in *. subst r r'. split; now right.
Qed.
Lemma w_BerRef_do_parse_rel bs : bytes_ok bs -> nlen bs <= word_max w ->
  (bytes_ok (snd (BerRef_do_parse bs)) /\ nlen (snd (BerRef_do_parse bs)) <= nlen bs) /\
  (w_BerRef_do_parse w bs = BerRef_do_parse bs \/
   fst (BerRef_do_parse bs) = Err UnterminatedBytes /\ fst (w_BerRef_do_parse w bs) = Err OverFlow).
Proof using H1 H8.
  intros Hb L. pose proof max_limit as ML. unfold w_BerRef_do_parse, BerRef_do_parse.
  destruct (starts_with bs EOC).
  { cbn [fst snd]. rewrite nlen_drop. split; [split; [now apply bytes_ok_drop | lia] | now left]. }
  destruct (w_id_length_slice bs Hb) as (KO & KL & K). cbv zeta in K.
  destruct (parse_id_length slice_reader (slice_fuel bs) (bs, [])) as [[[|n]|e| |] [s1 o1]]; cbn [fst snd] in *.
  - rewrite K. auto.
  - split; [destruct (nlen s1 <? n); cbn [snd]; [auto|]; rewrite nlen_drop; split; [now apply bytes_ok_drop | lia]|].
    destruct (N.ltb_spec n (word_limit w)); [rewrite K; now left|].
    destruct (w_parse_id_length w slice_reader (slice_fuel bs) (bs, [])) as [r' [s2 o2]]. cbn [fst] in K. subst r'. right.
    destruct (N.ltb_spec (nlen s1) n); [auto | lia].
  - split; [auto|]. destruct K as [->|[[= ->] K]]; [now left|].
    destruct (w_parse_id_length w slice_reader (slice_fuel bs) (bs, [])) as [r' [s2 o2]]. cbn [fst] in K. subst r'. now right.
  - split; [auto|]. destruct K as [->|[[=] _]]; now left.
  - split; [auto|]. destruct K as [->|[[=] _]]; now left.
Qed.
Lemma w_BerRef_loop_rel fuel : forall d bs, bytes_ok bs -> nlen bs <= word_max w ->
  w_BerRef_loop w fuel d bs = BerRef_loop fuel d bs \/
  fst (BerRef_loop fuel d bs) = Err UnterminatedBytes /\ fst (w_BerRef_loop w fuel d bs) = Err OverFlow.
Proof using H1 H8.
  induction fuel as [|fuel IH]; intros d bs Hb L; cbn [w_BerRef_loop BerRef_loop]; [now left|].
  destruct (w_BerRef_do_parse_rel bs Hb L) as [[KA KB] [K|[A B]]].
  - rewrite K. destruct (BerRef_do_parse bs) as [[z|e| |] rest]; cbn [snd] in *; try now left.
    cbv zeta. destruct (0 <? d + z)%Z; [|now left]. apply IH; [assumption | lia].
  - destruct (BerRef_do_parse bs) as [r s1]. destruct (w_BerRef_do_parse w bs) as [r' s2]. cbn [fst] in *. subst r r'. now right.
Qed.
Theorem w_ber_slice bs : bytes_ok bs -> nlen bs <= word_max w ->
  (w_BerRef_parse w bs = BerRef_parse bs \/ fst (BerRef_parse bs) = Err UnterminatedBytes /\ fst (w_BerRef_parse w bs) = Err OverFlow) /\
  (w_BerRef_parse_mut w bs = BerRef_parse_mut bs \/ fst (BerRef_parse_mut bs) = Err UnterminatedBytes /\ fst (w_BerRef_parse_mut w bs) = Err OverFlow).
Proof using H1 H8.
  intros Hb L. unfold w_BerRef_parse, BerRef_parse, w_BerRef_parse_mut, BerRef_parse_mut.
  destruct (w_BerRef_loop_rel (slice_fuel bs) 0%Z bs Hb L) as [->|[A B]]; [split; now left|].
  destruct (BerRef_loop (slice_fuel bs) 0 bs) as [r s1]. destruct (w_BerRef_loop w (slice_fuel bs) 0 bs) as [r' s2]. cbn [fst] in *. subst r r'. split; now right.
Qed.

(** ** buffers *)
Lemma w_add_eq x y : x + y < word_limit w -> w_add_usize w x y = add_usize x y.
Proof using H1 H8.
  intros H. pose proof (limit_8 w H1 H8). unfold w_add_usize, add_usize.
  destruct (N.ltb_spec (x + y) (word_limit w)); [|lia]. destruct (N.ltb_spec (x + y) usize_limit); [reflexivity | lia].
Qed.
Lemma w_reserve_eq cfg k b : b_len b + k <= word_max w -> w_bf_reserve w cfg k b = bf_reserve cfg k b.
Proof using H1 H8.
  intros H. pose proof (max_8 w H1 H8). unfold w_bf_reserve, bf_reserve. cbv zeta.
  destruct (_ <=? bf_cap b); [reflexivity|]. destruct (N.ltb_spec (word_max w) (b_len b + k)); [lia|].
  destruct (N.ltb_spec isize_max (b_len b + k)); [lia | reflexivity].
Qed.
Lemma w_with_capacity_eq cfg k : k <= word_max w -> w_bf_with_capacity w cfg k = bf_with_capacity cfg k.
Proof using H1 H8. intros H. apply w_reserve_eq. exact H. Qed.
Lemma w_disassemble_definite id n len c : is_identifier id -> minimal_length n len -> n < word_limit w -> bytes_ok c ->
  w_disassemble w (id ++ len ++ c) = disassemble (id ++ len ++ c).
Proof using H1 H8.
  intros Hi Hm Hn Hc. unfold w_disassemble, disassemble. rewrite parse_id_unchecked_ok by assumption. cbn [rbind].
  rewrite w_unchecked_rel; auto.
  - apply bytes_ok_app. split; [now apply minimal_length_ok with n | assumption].
  - pose proof (minimal_word w H1 H8 n len Hm Hn) as M. destruct len; [inversion Hm | exact M].
Qed.
Lemma w_disassemble_indefinite id c : is_identifier id -> bytes_ok c ->
  w_disassemble w (id ++ 0x80 :: c) = disassemble (id ++ 0x80 :: c).
Proof using H1 H8.
  intros Hi Hc. unfold w_disassemble, disassemble. rewrite parse_id_unchecked_ok by assumption. reflexivity.
Qed.
Lemma w_tlv_length_eq bs : w_disassemble w bs = disassemble bs -> w_tlv_length w bs = tlv_length bs /\ w_tlv_contents w bs = tlv_contents bs.
Proof. intros E. unfold w_tlv_length, w_tlv_contents. rewrite E. auto. Qed.
Lemma w_der_buf id c b : is_identifier id -> bytes_ok c -> nlen c < word_limit w ->
  holds b (id ++ Length_to_bytes (Definite (nlen c)) ++ c) ->
  w_tlv_length w (bf_slice b) = Ok (Definite (nlen c)) /\ tlv_length (bf_slice b) = Ok (Definite (nlen c)) /\
  w_tlv_contents w (bf_slice b) = tlv_contents (bf_slice b) /\ tlv_id (bf_slice b) = Ok id.
Proof using H1 H8.
  intros Hi Hc Hn H. rewrite (holds_slice _ _ H). pose proof (limit_8 w H1 H8) as L8. change usize_limit with (2 ^ 64) in L8.
  assert (Hm : minimal_length (nlen c) (Length_to_bytes (Definite (nlen c)))) by (apply Length_to_bytes_minimal; lia).
  destruct (tlv_parts_definite id (nlen c) _ c Hi Hm ltac:(lia)) as (T1 & T2 & _ & _).
  destruct (w_tlv_length_eq _ (w_disassemble_definite id (nlen c) _ c Hi Hm Hn Hc)) as [E1 E2]. rewrite E1, T2. auto.
Qed.
Lemma w_der_extend_eq cfg b id c bytes : is_identifier id -> bytes_ok c ->
  holds b (id ++ Length_to_bytes (Definite (nlen c)) ++ c) ->
  nlen id + Length_len (Definite (nlen c + nlen bytes)) + nlen c + nlen bytes <= word_max w ->
  w_Der_extend w cfg bytes b = Der_extend cfg bytes b.
Proof using H1 H8.
  intros Hi Hc H Hs. pose proof max_limit as ML. pose proof (limit_8 w H1 H8) as L8. change usize_limit with (2 ^ 64) in L8.
  destruct (w_der_buf id c b Hi Hc ltac:(lia) H) as (E1 & E2 & _ & E3). unfold w_Der_extend, Der_extend. rewrite E1, E2, E3. cbn [rbind]. cbv zeta.
  change (unwrap (Length_definite (Definite (nlen c)))) with (Ok (nlen c)). cbn [rbind].
  rewrite w_add_eq by lia. rewrite add_usize_ok by lia. cbn [rbind]. rewrite !w_Length_len_eq by (assumption || lia).
  rewrite w_add_eq by lia. rewrite add_usize_ok by lia. cbn [rbind].
  pose proof (Length_len_mono (nlen c) (nlen c + nlen bytes) ltac:(lia)) as LM.
  rewrite sub_usize_ok by lia. cbn [rbind].
  rewrite w_reserve_eq.
  - rewrite w_to_bytes_eq by (assumption || lia). cbn [rbind]. reflexivity.
  - rewrite (holds_len _ _ H), !nlen_app, len_len by lia. lia.
Qed.
Lemma w_der_truncate_eq b id c n : is_identifier id -> bytes_ok c ->
  holds b (id ++ Length_to_bytes (Definite (nlen c)) ++ c) -> nlen c < word_limit w ->
  w_Der_truncate w n b = Der_truncate n b.
Proof using H1 H8.
  intros Hi Hc H Hs. destruct (w_der_buf id c b Hi Hc Hs H) as (E1 & E2 & _ & E3).
  unfold w_Der_truncate, Der_truncate. rewrite E1, E2, E3. cbn [rbind]. cbv zeta.
  change (unwrap (Length_definite (Definite (nlen c)))) with (Ok (nlen c)). cbn [rbind].
  destruct (N.leb_spec (nlen c) n); [reflexivity|]. rewrite !w_to_bytes_eq by (assumption || lia). reflexivity.
Qed.
Lemma w_ber_buf id c b : is_identifier id -> bytes_ok c -> holds b (id ++ 0x80 :: c) ->
  w_tlv_length w (bf_slice b) = Ok Indefinite /\ tlv_length (bf_slice b) = Ok Indefinite /\
  w_tlv_contents w (bf_slice b) = Ok c /\ tlv_contents (bf_slice b) = Ok c.
Proof using H1 H8.
  intros Hi Hc H. rewrite (holds_slice _ _ H). destruct (tlv_parts_indefinite id c Hi) as (_ & T2 & T3 & _).
  destruct (w_tlv_length_eq _ (w_disassemble_indefinite id c Hi Hc)) as [E1 E2]. rewrite E1, E2. auto.
Qed.
Lemma w_ber_extend_eq cfg b id c bytes : is_identifier id -> bytes_ok c -> holds b (id ++ 0x80 :: c) ->
  nlen id + 1 + nlen c + nlen bytes <= word_max w -> w_Ber_extend w cfg bytes b = Ber_extend cfg bytes b.
Proof using H1 H8.
  intros Hi Hc H Hs. destruct (w_ber_buf id c b Hi Hc H) as (E1 & E2 & _). unfold w_Ber_extend, Ber_extend. rewrite E1, E2. cbn [rbind].
  rewrite w_reserve_eq; [reflexivity|]. rewrite (holds_len _ _ H), nlen_app, nlen_cons. lia.
Qed.
Lemma w_ber_truncate_eq b id c n : is_identifier id -> bytes_ok c -> holds b (id ++ 0x80 :: c) ->
  nlen id + 1 + nlen c <= word_max w -> w_Ber_truncate w n b = Ber_truncate n b.
Proof using H1 H8.
  intros Hi Hc H Hs. pose proof (max_T w H1) as EM. pose proof (limit_T w H1) as EL. pose proof (T_pos w H1).
  destruct (w_ber_buf id c b Hi Hc H) as (E1 & E2 & E3 & E4). unfold w_Ber_truncate, Ber_truncate. rewrite E1, E2, E3, E4. cbn [rbind]. cbv zeta.
  destruct (N.leb_spec (nlen c) n); [reflexivity|]. rewrite w_add_eq; [reflexivity|].
  rewrite (holds_len _ _ H), nlen_app, nlen_cons. lia.
Qed.
Lemma w_clone_eq cfg b bs : holds b bs -> nlen bs <= word_max w -> w_bf_clone w cfg b = bf_clone cfg b.
Proof using H1 H8.
  intros H L. unfold w_bf_clone, bf_clone, bf_from_slice. rewrite (holds_len _ _ H), (holds_slice _ _ H).
  now rewrite w_with_capacity_eq.
Qed.
Lemma w_total_length_eq items : forall acc, acc + nlen (concat items) < word_limit w -> w_total_length w acc items = total_length acc items.
Proof using H1 H8.
  induction items as [|i items IH]; intros acc H; cbn [w_total_length total_length concat] in *; [reflexivity|].
  rewrite nlen_app in H. pose proof (limit_8 w H1 H8) as L8. change usize_limit with (2 ^ 64) in L8.
  rewrite w_add_eq, add_usize_ok by lia. cbn [rbind]. apply IH. lia.
Qed.
Lemma w_with_header_eq cfg id l n : nlen id + nlen l + n <= word_max w -> w_with_header w cfg id l n = with_header cfg id l n.
Proof using H1 H8.
  intros H. pose proof max_limit. pose proof (limit_8 w H1 H8) as L8. change usize_limit with (2 ^ 64) in L8.
  unfold w_with_header, with_header. rewrite !w_add_eq, !add_usize_ok by lia. cbn [rbind]. rewrite w_add_eq, !add_usize_ok by lia. cbn [rbind].
  now rewrite w_with_capacity_eq by lia.
Qed.
Lemma w_set_contents_eq c b : w_tlv_contents w (bf_slice b) = tlv_contents (bf_slice b) -> w_buf_set_contents w c b = buf_set_contents c b.
Proof. intros E. unfold w_buf_set_contents. now rewrite E. Qed.
Lemma size_word n : n < word_limit w -> n < 2 ^ 64.
Proof using H1 H8. intros H. pose proof (limit_8 w H1 H8) as L8. change usize_limit with (2 ^ 64) in L8. lia. Qed.
Lemma w_der_new_eq cfg id c : is_identifier id -> nlen id + Length_len (Definite (nlen c)) + nlen c <= word_max w ->
  w_Der_new w cfg id c = Der_new cfg id c.
Proof using H1 H8.
  intros Hi H. pose proof max_limit as ML. pose proof (max_8 w H1 H8) as M8. pose proof (size_word (nlen c) ltac:(lia)) as S64.
  unfold w_Der_new, Der_new, w_Der_with_id_length, Der_with_id_length.
  rewrite w_to_bytes_eq by (assumption || lia). cbn [rbind].
  rewrite w_with_header_eq by (rewrite len_len by assumption; lia).
  destruct (with_header_ok cfg id (Length_to_bytes (Definite (nlen c))) (nlen c)) as (b & x & -> & Hb & Lx & Hx).
  { rewrite len_len by assumption. lia. }
  cbn [rbind]. apply w_set_contents_eq. rewrite <- Lx in Hb. eapply w_der_buf; try eassumption. lia.
Qed.
Lemma w_ber_new_eq cfg id c : is_identifier id -> nlen id + 1 + nlen c <= word_max w ->
  w_Ber_new_indefinite w cfg id c = Ber_new_indefinite cfg id c.
Proof using H1 H8.
  intros Hi H. pose proof (max_8 w H1 H8) as M8.
  unfold w_Ber_new_indefinite, Ber_new_indefinite, w_Ber_with_id_length_indefinite, Ber_with_id_length_indefinite.
  change (w_Length_to_bytes w Indefinite) with (Ok (Length_to_bytes Indefinite)). cbn [rbind].
  rewrite w_with_header_eq by exact H.
  destruct (with_header_ok cfg id (Length_to_bytes Indefinite) (nlen c)) as (b & x & -> & Hb & Lx & Hx).
  { change (nlen (Length_to_bytes Indefinite)) with 1. lia. }
  cbn [rbind]. apply w_set_contents_eq. destruct (w_ber_buf id x b Hi Hx Hb) as (_ & _ & -> & ->). reflexivity.
Qed.
Lemma w_from_iterator_eq cfg id lb lb' items :
  (forall n, n < word_limit w -> lb' n = Ok (lb n)) ->
  nlen id + nlen (lb (nlen (concat items))) + nlen (concat items) <= word_max w ->
  w_from_iterator w cfg id lb' items = from_iterator cfg id lb items.
Proof using H1 H8.
  intros El H. pose proof max_limit as ML. assert (S64 : nlen (concat items) < 2 ^ 64) by (apply size_word; lia).
  pose proof (size_word _ ltac:(eapply N.le_lt_trans; [exact H | exact ML])) as S2.
  unfold w_from_iterator, from_iterator. rewrite w_total_length_eq, total_length_ok by (rewrite N.add_0_l; lia). rewrite N.add_0_l. cbn [rbind].
  rewrite El by lia. cbn [rbind]. rewrite w_add_eq, add_usize_ok by lia. cbn [rbind]. rewrite w_add_eq, add_usize_ok by lia. cbn [rbind].
  rewrite w_with_capacity_eq by lia. reflexivity.
Qed.

(** ** histories *)
Definition w_buf_edit (f : list N -> list N) (b : buf) : res buf :=
  let! c := w_tlv_contents w (bf_slice b) in w_buf_set_contents w (f c) b.
Definition w_der_op (cfg : bufcfg) (o : tlv_op) (b : buf) : res buf :=
  match o with
  | OpPush v => w_Der_extend w cfg [v] b | OpExtend bs => w_Der_extend w cfg bs b | OpTruncate n => w_Der_truncate w n b
  | OpEdit f => w_buf_edit f b | OpClone => w_bf_clone w cfg b
  | OpVec spare => Ok (bf_from_vec cfg (bf_into_vec b) spare)
  end.
Definition w_ber_op (cfg : bufcfg) (o : tlv_op) (b : buf) : res buf :=
  match o with
  | OpPush v => w_Ber_extend w cfg [v] b | OpExtend bs => w_Ber_extend w cfg bs b | OpTruncate n => w_Ber_truncate w n b
  | OpEdit f => w_buf_edit f b | OpClone => w_bf_clone w cfg b
  | OpVec spare => Ok (bf_from_vec cfg (bf_into_vec b) spare)
  end.
Definition word_fits (id c : list N) : Prop := exists bs, der_tlv id c bs /\ nlen bs <= word_max w.
Definition word_indef_fits (id c : list N) : Prop := nlen (id ++ 0x80 :: c) <= word_max w.
Lemma word_der_fits id c : word_fits id c -> der_fits id c.
Proof using H1 H8. intros (bs & D & L). exists bs. pose proof (max_8 w H1 H8). split; [assumption | lia]. Qed.
Lemma w_edit_eq f b : w_tlv_contents w (bf_slice b) = tlv_contents (bf_slice b) -> w_buf_edit f b = buf_edit f b.
Proof. intros E. unfold w_buf_edit, buf_edit, w_buf_set_contents, buf_set_contents. now rewrite E. Qed.
Lemma w_der_step_eq cfg o b id c bs : bytes_ok c -> der_tlv id c bs -> holds b bs -> word_fits id c -> word_fits id (vec_op o c) ->
  w_der_op cfg o b = der_op cfg o b /\ w_ber_op cfg o b = ber_op cfg o b.
Proof using H1 H8.
  intros Hc Hd Hb Hf0 (bs1 & D1 & L1). pose proof max_limit as ML.
  pose proof (der_tlv_id _ _ _ Hd) as Hi. pose proof (der_tlv_octets _ _ _ Hd) as E.
  assert (L0 : nlen bs <= word_max w). { destruct Hf0 as (bs0 & D0 & L0). now rewrite (der_tlv_fun _ _ _ _ Hd D0). }
  assert (Hn : nlen c < word_limit w). { rewrite (der_tlv_size _ _ _ Hd) in L0. lia. }
  rewrite (der_tlv_size _ _ _ D1) in L1.
  pose proof Hb as Hb'. rewrite E in Hb'. destruct (w_der_buf id c b Hi Hc Hn Hb') as (T1 & T2 & T3 & _).
  destruct o as [v|bs'|n|f| |spare]; cbn [w_der_op der_op w_ber_op ber_op vec_op] in *;
    unfold w_Ber_extend, w_Ber_truncate, Ber_push, Der_push, Ber_extend, Ber_truncate; rewrite ?T1, ?T2; cbn [rbind].
  - rewrite nlen_app in L1. rewrite (w_der_extend_eq cfg b id c [v]) by (auto; lia). auto.
  - rewrite nlen_app in L1. rewrite (w_der_extend_eq cfg b id c bs') by (auto; lia). auto.
  - rewrite (w_der_truncate_eq b id c n) by auto. auto.
  - rewrite (w_edit_eq f b T3). auto.
  - rewrite (w_clone_eq cfg b bs Hb L0). auto.
  - auto.
Qed.
Theorem w_der_history ops : forall cfgs id c b bs, bytes_ok c -> der_tlv id c bs -> holds b bs -> nlen bs <= word_max w ->
  history_ok (word_fits id) ops c ->
  (run_ops w_der_op cfgs ops b = run_ops der_op cfgs ops b /\ run_ops w_ber_op cfgs ops b = run_ops ber_op cfgs ops b) /\
  history_ok (der_fits id) ops c.
Proof using H1 H8.
  induction ops as [|o ops IH]; intros cfgs id c b bs Hc Hd Hb Hl H; cbn [run_ops history_ok] in *; [auto|].
  destruct H as (Ho & Hf & H). pose proof (max_8 w H1 H8) as M8.
  destruct (w_der_step_eq (cfgs O) o b id c bs Hc Hd Hb) as [-> ->]; [now exists bs | assumption|].
  rewrite (ber_step_definite (cfgs O) o b id c bs Hd Hb).
  destruct (der_step (cfgs O) o b id c bs Hc Hd Hb) as (b1 & bs1 & -> & Hb1 & Hd1 & Hc1);
    [exists bs; split; [assumption | lia] | assumption | now apply word_der_fits |].
  cbn [rbind]. destruct (IH (fun i => cfgs (S i)) id _ b1 bs1 Hc1 Hd1 Hb1) as [[-> ->] K]; [|assumption|].
  - destruct Hf as (bs2 & D2 & L2). now rewrite (der_tlv_fun _ _ _ _ Hd1 D2).
  - split; [auto|]. split; [assumption|]. split; [now apply word_der_fits | assumption].
Qed.
Theorem w_ber_history ops : forall cfgs id c b, is_identifier id -> bytes_ok c -> holds b (id ++ 0x80 :: c) ->
  word_indef_fits id c -> history_ok (word_indef_fits id) ops c ->
  run_ops w_ber_op cfgs ops b = run_ops ber_op cfgs ops b /\ history_ok (indef_fits id) ops c.
Proof using H1 H8.
  induction ops as [|o ops IH]; intros cfgs id c b Hi Hc Hb Hl H; cbn [run_ops history_ok] in *; [auto|].
  destruct H as (Ho & Hf & H). pose proof (max_8 w H1 H8) as M8.
  assert (E : w_ber_op (cfgs O) o b = ber_op (cfgs O) o b).
  { pose proof Hl as Hl'. pose proof Hf as Hf'. unfold word_indef_fits in Hl', Hf'. rewrite !nlen_app, !nlen_cons in Hl', Hf'.
    destruct (w_ber_buf id c b Hi Hc Hb) as (T1 & T2 & T3 & T4).
    destruct o as [v|bs'|n|f| |spare]; cbn [w_ber_op ber_op vec_op] in *.
    - rewrite nlen_app in Hf'. apply (w_ber_extend_eq _ b id c); auto. lia.
    - rewrite nlen_app in Hf'. apply (w_ber_extend_eq _ b id c); auto. lia.
    - apply (w_ber_truncate_eq b id c); auto. lia.
    - apply w_edit_eq. congruence.
    - apply (w_clone_eq _ b _ Hb). exact Hl.
    - reflexivity. }
  rewrite E.
  assert (F1 : indef_fits id c) by (unfold indef_fits, word_indef_fits in *; lia).
  assert (F2 : indef_fits id (vec_op o c)) by (unfold indef_fits, word_indef_fits in *; lia).
  destruct (ber_history_indefinite [o] cfgs id c b Hi Hc Hb F1) as (b1 & E1 & _ & Hb1 & Hc1); [cbn [history_ok]; auto|].
  cbn [run_ops vec_ops] in *. destruct (ber_op (cfgs O) o b) as [b1'|e| |]; try discriminate. cbn [rbind] in *. injection E1 as ->.
  destruct (IH (fun i => cfgs (S i)) id _ b1 Hi Hc1 Hb1 Hf H) as [-> K]. auto.
Qed.
End W.
