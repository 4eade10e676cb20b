(** C86: the parsers call Read::read only while octets of the value are missing. *)
From Verif Require Import Base ModelIo ModelTag ModelContents ModelBuf ModelTlv ModelSerde Spec SpecIo SpecCalls TagProofs IdProofs TagMain TlvProofs BufProofs TlvMain StreamProofs StreamMain CallProofs.

(** To list the calls changes nothing. *)
Theorem C86_same : forall S (R : reader S) fuel s,
  (exists l, Id_parse (watched R) fuel (s, []) = (fst (Id_parse R fuel s), (snd (Id_parse R fuel s), l))) /\
  (exists l, Length_parse (watched R) (s, []) = (fst (Length_parse R s), (snd (Length_parse R s), l))) /\
  (exists l, Der_parse (watched R) fuel (s, []) = (fst (Der_parse R fuel s), (snd (Der_parse R fuel s), l))) /\
  (exists l, Ber_parse (watched R) fuel (s, []) = (fst (Ber_parse R fuel s), (snd (Ber_parse R fuel s), l))).
Proof.
  intros S R fuel s. destruct (id_called R fuel s) as (l1 & E1 & _), (length_called R s) as (l2 & E2 & _), (der_called R fuel s) as (l3 & E3 & _), (ber_called R fuel s) as (l4 & E4 & _).
  split; [now exists l1|]. split; [now exists l2|]. split; [now exists l3 | now exists l4].
Qed.
Print Assumptions C86_same.

(** Id::parse, Length::parse and Ber::parse: no call once the value is complete, and none asks for more than is missing. *)
Theorem C86_id : forall S (R : reader S) content fuel s v s' l, honest R content -> bytes_ok (content s) ->
  Id_parse (watched R) fuel (s, []) = (Ok v, (s', l)) -> while_missing v l.
Proof.
  intros S R content fuel s v s' l H B E. destruct (id_called R fuel s) as (l1 & E1 & F & Sh). rewrite E in E1. destruct (Id_parse R fuel s) as [r x] eqn:P. cbn [fst snd] in *.
  injection E1 as <- <- <-. destruct (exact_id R content H fuel s v s' B P) as [_ Ec]. apply within_missing; [apply Sh | eapply followed_got; eassumption].
Qed.
Print Assumptions C86_id.
Theorem C86_length : forall S (R : reader S) content s n s' l, honest R content -> bytes_ok (content s) ->
  Length_parse (watched R) (s, []) = (Ok n, (s', l)) -> while_missing (Length_to_bytes n) l.
Proof.
  intros S R content s n s' l H B E. destruct (length_called R s) as (l1 & E1 & F & Sh). rewrite E in E1. destruct (Length_parse R s) as [r x] eqn:P. cbn [fst snd] in *.
  injection E1 as <- <- <-. pose proof (exact_length R content H s n s' B P) as Ec. apply within_missing; [apply Sh | eapply followed_got; eassumption].
Qed.
Print Assumptions C86_length.
Theorem C86_ber : forall S (R : reader S) content fuel s v s' l, honest R content -> bytes_ok (content s) ->
  Ber_parse (watched R) fuel (s, []) = (Ok v, (s', l)) -> while_missing v l.
Proof.
  intros S R content fuel s v s' l H B E. destruct (ber_called R fuel s) as (l1 & E1 & F & Sh). rewrite E in E1. destruct (Ber_parse R fuel s) as [r x] eqn:P. cbn [fst snd] in *.
  injection E1 as <- <- <-. destruct (exact_ber R content H fuel s v s' B P) as [_ Ec]. apply within_missing; [apply Sh | eapply followed_got; eassumption].
Qed.
Print Assumptions C86_ber.

(** How many calls there are, of any reader (honest or not) and whatever comes out: one octet at least per call, but for the interrupted and the last. *)
Theorem C86_count : forall S (R : reader S) fuel s,
  (forall r s' l, Id_parse (watched R) fuel (s, []) = (r, (s', l)) -> nlen l <= got l + 1) /\
  (forall r s' l, Length_parse (watched R) (s, []) = (r, (s', l)) -> nlen l <= got l + 1) /\
  (forall r s' l, Der_parse (watched R) fuel (s, []) = (r, (s', l)) -> nlen l <= got l + 1) /\
  (forall r s' l, Ber_parse (watched R) fuel (s, []) = (r, (s', l)) -> nlen l <= got l + nlen (filter interrupted l) + 1).
Proof.
  intros S R fuel s.
  assert (NO : forall l0 t, Forall (useful false) l0 -> nlen t <= 1 -> nlen (l0 ++ t) <= got (l0 ++ t) + 1).
  { intros l0 t U L. destruct (useful_plain _ U) as [U' I]. apply useful_count in U'. rewrite I in U'. cbn [nlen length N.of_nat] in U'. rewrite nlen_app, got_app. change (nlen []) with 0 in U'. lia. }
  assert (YES : forall l0 t, Forall (useful true) l0 -> nlen t <= 1 -> nlen (l0 ++ t) <= got (l0 ++ t) + nlen (filter interrupted (l0 ++ t)) + 1).
  { intros l0 t U L. apply useful_count in U. rewrite filter_app, !nlen_app, got_app. lia. }
  assert (SH : forall A (r : res A) q l, shape q r l -> exists l0 t, l = l0 ++ t /\ Forall (useful q) l0 /\ nlen t <= 1).
  { intros A r q l. destruct r; cbn [shape]; auto. intros [U _]. exists l, []. now rewrite app_nil_r. }
  split; [|split; [|split]]; intros r s' l E.
  - destruct (id_called R fuel s) as (l1 & E1 & _ & Sh). rewrite E in E1. injection E1 as -> -> ->. destruct (SH _ _ _ _ Sh) as (l0 & t & -> & U & L). now apply NO.
  - destruct (length_called R s) as (l1 & E1 & _ & Sh). rewrite E in E1. injection E1 as -> -> ->. destruct (SH _ _ _ _ Sh) as (l0 & t & -> & U & L). now apply NO.
  - destruct (der_called R fuel s) as (l1 & E1 & _ & (l0 & t & -> & U & L) & _). rewrite E in E1. injection E1 as -> -> ->. now apply NO.
  - destruct (ber_called R fuel s) as (l1 & E1 & _ & Sh). rewrite E in E1. injection E1 as -> -> ->. destruct (SH _ _ _ _ Sh) as (l0 & t & -> & U & L). now apply YES.
Qed.
Print Assumptions C86_count.
(** If a value comes out: at most a call for each of its octets, beside the interrupted. *)
Theorem C86_count_ok : forall S (R : reader S) content fuel s, honest R content -> bytes_ok (content s) ->
  (forall v s' l, Id_parse (watched R) fuel (s, []) = (Ok v, (s', l)) -> nlen l <= nlen v) /\
  (forall n s' l, Length_parse (watched R) (s, []) = (Ok n, (s', l)) -> nlen l <= nlen (Length_to_bytes n)) /\
  (forall v s' l, Ber_parse (watched R) fuel (s, []) = (Ok v, (s', l)) -> nlen l <= nlen v + nlen (filter interrupted l)).
Proof.
  intros S R content fuel s H B. split; [|split]; intros v s' l E.
  - destruct (id_called R fuel s) as (l1 & E1 & F & Sh). rewrite E in E1. destruct (Id_parse R fuel s) as [r x] eqn:P. cbn [fst snd] in *. injection E1 as <- <- <-.
    destruct (exact_id R content H fuel s v s' B P) as [_ Ec]. rewrite <- (followed_got R content s l s' v F H Ec). destruct Sh as [U _].
    destruct (useful_plain _ U) as [U' I]. apply useful_count in U'. rewrite I in U'. change (nlen []) with 0 in U'. lia.
  - destruct (length_called R s) as (l1 & E1 & F & Sh). rewrite E in E1. destruct (Length_parse R s) as [r x] eqn:P. cbn [fst snd] in *. injection E1 as <- <- <-.
    pose proof (exact_length R content H s v s' B P) as Ec. rewrite <- (followed_got R content s l s' _ F H Ec). destruct Sh as [U _].
    destruct (useful_plain _ U) as [U' I]. apply useful_count in U'. rewrite I in U'. change (nlen []) with 0 in U'. lia.
  - destruct (ber_called R fuel s) as (l1 & E1 & F & Sh). rewrite E in E1. destruct (Ber_parse R fuel s) as [r x] eqn:P. cbn [fst snd] in *. injection E1 as <- <- <-.
    destruct (exact_ber R content H fuel s v s' B P) as [_ Ec]. rewrite <- (followed_got R content s l s' v F H Ec). destruct Sh as [U _]. now apply useful_count in U.
Qed.
Print Assumptions C86_count_ok.

(** Der::parse calls [read] once more after a value without contents (with an empty buffer): if that fails, so does the parser, with all of the value read. *)
Theorem C86_der_refuted : ~ (forall fuel s v s' l, Der_parse (watched sched_reader) fuel (s, []) = (Ok v, (s', l)) -> while_missing v l) /\
  (forall fuel k, (2 <= fuel)%nat -> fst (Der_parse sched_reader fuel [Chunk [5; 0]; Fault k]) = Err (Io k) /\ fst (Ber_parse sched_reader fuel [Chunk [5; 0]; Fault k]) = Ok [5; 0]).
Proof.
  split.
  - intros H. specialize (H 9%nat [Chunk [5; 0]] [5; 0] [] [(1, IoOk [5]); (1, IoOk [0]); (0, IoOk [])] eq_refl [(1, IoOk [5]); (1, IoOk [0])] (0, IoOk []) [] eq_refl).
    destruct H as [H _]. vm_compute in H. discriminate.
  - intros [|[|fuel]] k Hf; [lia | lia | now split].
Qed.
Print Assumptions C86_der_refuted.
(** What holds: the last call asks for exactly the contents; the others are as above, and so is the last if there are contents. *)
Theorem C86_der_partial : forall S (R : reader S) content fuel s v s' l, honest R content -> bytes_ok (content s) ->
  Der_parse (watched R) fuel (s, []) = (Ok v, (s', l)) ->
  exists id c l0, der_tlv id c v /\ l = l0 ++ [(nlen c, IoOk c)] /\ got l0 + nlen c = nlen v /\ while_missing v l0 /\ (c <> [] -> while_missing v l).
Proof.
  intros S R content fuel s v s' l H B E. destruct (der_called R fuel s) as (l1 & E1 & F & _ & K). rewrite E in E1. destruct (Der_parse R fuel s) as [r x] eqn:P. cbn [fst snd] in *.
  injection E1 as <- <- <-. destruct (exact_der R content H fuel s v s' B P) as [(id & c & V) Ec]. destruct K as (l0 & n & bs & s1 & w1 & -> & W & _ & Eb & Ph).
  pose proof (header_of_value R content fuel s id c v n s1 w1 (content s') H B V Ec Ph) as En. subst n. rename En into Eb.
  pose proof (followed_got R content s _ s' v F H Ec) as G. rewrite got_app, got_one in G. unfold data in G. cbn [snd] in G. rewrite Eb in G.
  assert (X : bs = c).
  { specialize (F content H). rewrite Ec in F. apply app_inv_tail in F. rewrite map_app, concat_app in F. unfold data at 2 in F. cbn [map concat snd] in F. rewrite app_nil_r in F.
    apply der_tlv_parts in V as (len & Ev & _). rewrite Ev, app_assoc in F. pose proof (f_equal nlen F) as Y. rewrite !nlen_app in Y.
    apply (f_equal (drop (nlen (id ++ len)))) in F. rewrite drop_app_exact in F. assert (Z : nlen (id ++ len) = nlen (concat (map data l0))) by (rewrite nlen_app; rewrite Eb in Y; apply N.add_cancel_r in Y; exact Y). rewrite Z in F.
    rewrite drop_app_exact in F. now symmetry. }
  subst bs. exists id, c, l0. split; [exact V|]. split; [reflexivity|]. split; [lia|]. split.
  - intros pre d post Ed. destruct (W pre d post Ed). repeat split; lia.
  - intros N0. assert (1 <= nlen c) by (destruct c; [congruence | rewrite nlen_cons; lia]). apply within_missing; [|rewrite got_app, got_one; unfold data; cbn [snd]; lia].
    apply within_app; [exact W | now apply within_one].
Qed.
Print Assumptions C86_der_partial.

(** read_ber and read_der of bsn1_serde: what is read is one value, with the same calls, whether or not it is one of the type. *)
Theorem C86_read : forall T (D : deserialize T) S (R : reader S) content fuel s r s' l, honest R content -> bytes_ok (content s) ->
  (read_ber D (watched R) fuel (s, []) = (r, (s', l)) -> nlen l <= got l + nlen (filter interrupted l) + 1 /\
     ((exists v, content s = v ++ content s' /\ r = serde_from_ber D v /\ while_missing v l) \/ (forall t, r <> Ok t))) /\
  (read_der D (watched R) fuel (s, []) = (r, (s', l)) -> nlen l <= got l + 1 /\
     ((exists id c v l0, der_tlv id c v /\ content s = v ++ content s' /\ r = serde_from_der D v /\ l = l0 ++ [(nlen c, IoOk c)] /\ while_missing v l0) \/ (forall t, r <> Ok t))).
Proof.
  intros T D S R content fuel s r s' l H B. destruct (C86_count S R fuel s) as (_ & _ & CD & CB). destruct (C86_same S R fuel s) as (_ & _ & (ld & ED) & (lb & EB)). split; intros E.
  - unfold read_ber in E. destruct (Ber_parse (watched R) fuel (s, [])) as [q [x y]] eqn:P. split; [apply (CB q x); destruct q; congruence|].
    destruct q as [v| | |]; injection E as <- <- <-; [left; exists v | right; discriminate ..]. injection EB as EQ -> _. split; [|split; [reflexivity | exact (C86_ber S R content fuel s v _ y H B P)]].
    apply (exact_ber R content H fuel s v _ B). rewrite EQ at 1. apply surjective_pairing.
  - unfold read_der in E. destruct (Der_parse (watched R) fuel (s, [])) as [q [x y]] eqn:P. split; [apply (CD q x); destruct q; congruence|].
    destruct q as [v| | |]; injection E as <- <- <-; [left | right; discriminate ..]. destruct (C86_der_partial S R content fuel s v x y H B P) as (id & c & l0 & V & L & _ & M & _).
    exists id, c, v, l0. split; [exact V|]. injection ED as EQ -> _. split; [|auto].
    apply (exact_der R content H fuel s v _ B). rewrite EQ at 1. apply surjective_pairing.
Qed.
Print Assumptions C86_read.

Example C86_ex :
  let s := [Chunk [0x30; 0x80; 4]; Chunk [2; 7]; Fault Interrupted; Chunk [8; 0; 0; 9]] in
  honest sched_reader delivered /\ bytes_ok (delivered s) /\
  Ber_parse (watched sched_reader) 20 (s, []) = (Ok [0x30; 0x80; 4; 2; 7; 8; 0; 0], ([Chunk [9]],
    [(1, IoOk [0x30]); (1, IoOk [0x80]); (1, IoOk [4]); (1, IoOk [2]); (2, IoOk [7]); (1, IoErr Interrupted); (1, IoOk [8]); (1, IoOk [0]); (1, IoOk [0])])) /\
  snd (snd (Der_parse (watched sched_reader) 20 ([Chunk [4]; Chunk [2]; Chunk [7; 8; 9]], []))) = [(1, IoOk [4]); (1, IoOk [2]); (2, IoOk [7; 8])].
Proof. split; [apply sched_honest|]. repeat split; repeat constructor; vm_compute; reflexivity. Qed.
