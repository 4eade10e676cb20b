(** Length, identifier and integer octets on raw memory. *)
From Verif Require Import Base ModelIo ModelTag ModelContents ModelBuf ModelTlv ModelHeap ModelTlvRaw ModelPartsRaw
  Spec SpecIo SpecBuf SpecTlv SpecParts TagProofs IdProofs TagMain ContentsProofs TlvProofs BufProofs TlvMain RawProofs RawMain RawTlv RawStream.

Lemma take_exact {A} (l : list A) : take (nlen l) l = l.
Proof. rewrite <- (app_nil_r l) at 2. apply take_app_exact. Qed.
Lemma drop_exact {A} (l : list A) : drop (nlen l) l = [].
Proof. rewrite <- (app_nil_r l) at 2. apply drop_app_exact. Qed.

(** ** Length *)
Lemma be_tail_len k n : nlen (be_tail k n) = N.of_nat k.
Proof. revert n. induction k as [|k IH]; intros n; cbn [be_tail]; [reflexivity|]. rewrite nlen_app, IH, nlen_cons, nlen_nil. lia. Qed.
Lemma be_tail_drop k : forall j n, (j <= k)%nat -> drop (N.of_nat (k - j)) (be_tail k n) = be_tail j n.
Proof.
  induction k as [|k IH]; intros j n H.
  - now replace j with O by lia.
  - destruct j as [|j].
    + rewrite Nat.sub_0_r. rewrite <- (be_tail_len (S k) n). apply drop_exact.
    + cbn [be_tail Nat.sub]. rewrite drop_app_le by (rewrite be_tail_len; lia). now rewrite IH by lia.
Qed.
Lemma as_u8_small n : n < 256 -> as_u8 n = n.
Proof. apply N.mod_small. Qed.
Lemma raw_length_ok l h : (forall n, l = Definite n -> n < 2 ^ 64) ->
  exists b, raw_Length_to_bytes l h = Done b h /\ lb_deref b h = Done (Length_to_bytes l) h /\
    lb_len b = Length_len l /\ nlen (lb_buffer b) = LB_CAPACITY.
Proof.
  intros Hn. destruct l as [|n].
  - eexists. split; [reflexivity|]. repeat split; vm_compute; reflexivity.
  - specialize (Hn n eq_refl). unfold raw_Length_to_bytes, Length_to_bytes, Length_len.
    destruct (n <=? LEN_MAX_SHORT).
    + eexists. split; [reflexivity|]. repeat split.
    + set (k := byte_len n).
      assert (Hk : k <= 8).
      { destruct (N.eq_dec n 0) as [->|]; [vm_compute; discriminate|]. apply byte_len_le; [|lia]. exact Hn. }
      rewrite as_u8_small by lia. unfold LEN_LONG_FLAG. destruct (N.ltb_spec (128 + k) 256); [|lia].
      assert (E1 : lb_set_len (k + 1) lb_new h = Done {| lb_buffer := repeat 0 9; lb_len := k + 1 |} h).
      { unfold lb_set_len. change LB_CAPACITY with 9. destruct (N.ltb_spec 9 (k + 1)); [lia|]. rewrite as_u8_small by lia. reflexivity. }
      unfold mbind at 1. cbv beta iota. unfold mret at 1. rewrite (mbind_done _ _ _ _ _ E1).
      assert (E2 : lb_index_set 0 (128 + k) {| lb_buffer := repeat 0 9; lb_len := k + 1 |} h =
        Done {| lb_buffer := (128 + k) :: repeat 0 8; lb_len := k + 1 |} h).
      { unfold lb_index_set, lb_deref, peek. cbn [lb_buffer lb_len].
        assert (N9 : nlen (repeat 0 9) = 9) by reflexivity. rewrite N9.
        destruct (N.ltb_spec 9 (0 + (k + 1))); [lia|]. unfold mbind at 1, mret at 1.
        rewrite nlen_take, nlen_drop, N9. destruct (N.ltb_spec 0 (N.min (k + 1) (9 - 0))); [|lia]. reflexivity. }
      rewrite (mbind_done _ _ _ _ _ E2). unfold msub. destruct (N.ltb_spec 8 k); [lia|].
      unfold mbind at 1, mret at 1.
      assert (E3 : peek (be_tail 8 n) (8 - k) k h = Done (be_tail (N.to_nat k) n) h).
      { unfold peek. rewrite be_tail_len. change (N.of_nat 8) with 8. destruct (N.ltb_spec 8 (8 - k + k)); [lia|].
        unfold mret. do 2 f_equal. replace (8 - k) with (N.of_nat (8 - N.to_nat k)) by lia. rewrite be_tail_drop by lia.
        replace k with (nlen (be_tail (N.to_nat k) n)) at 1 by (rewrite be_tail_len; lia). apply take_exact. }
      rewrite (mbind_done _ _ _ _ _ E3). unfold lb_store, poke. cbn [lb_buffer lb_len]. rewrite be_tail_len, N2Nat.id.
      assert (N9 : nlen ((128 + k) :: repeat 0 8) = 9) by (rewrite nlen_cons; reflexivity). rewrite N9.
      destruct (N.ltb_spec 9 (1 + k)); [lia|]. unfold mbind, mret. eexists. split; [reflexivity|]. cbn [lb_buffer lb_len].
      rewrite (as_u8_small (128 + k)) by lia.
      assert (T : take 1 ((128 + k) :: repeat 0 8) = [128 + k]) by reflexivity. rewrite T.
      assert (B : lb_deref {| lb_buffer := [128 + k] ++ be_tail (N.to_nat k) n ++ drop (1 + k) ((128 + k) :: repeat 0 8); lb_len := k + 1 |} h =
        Done ((128 + k) :: be_tail (N.to_nat k) n) h).
      { unfold lb_deref, peek. cbn [lb_buffer lb_len]. rewrite !nlen_app, be_tail_len, N2Nat.id, nlen_drop, N9, nlen_cons, nlen_nil.
        destruct (N.ltb_spec (1 + 0 + (k + (9 - (1 + k)))) (0 + (k + 1))); [lia|]. unfold mret. f_equal.
        change (drop 0 ?l) with l. rewrite app_assoc.
        replace (k + 1) with (nlen ([128 + k] ++ be_tail (N.to_nat k) n)) by (rewrite nlen_app, be_tail_len, nlen_cons, nlen_nil; lia).
        now rewrite take_app_exact. }
      split; [exact B|]. split; [reflexivity|]. rewrite !nlen_app, be_tail_len, N2Nat.id, nlen_drop, N9, nlen_cons, nlen_nil.
      change LB_CAPACITY with 9. lia.
Qed.

(** ** Reading integers *)
Lemma drop_leading_zero_len bs : nlen (drop_leading_zero bs) <= nlen bs.
Proof. destruct bs as [|b bs]; cbn [drop_leading_zero]; [lia|]. destruct (b =? 0); rewrite ?nlen_cons; lia. Qed.
Lemma take_repeat {A} (x : A) n k : k <= N.of_nat n -> take k (repeat x n) = repeat x (N.to_nat k).
Proof.
  intros H. replace n with (N.to_nat k + (n - N.to_nat k))%nat by lia. rewrite repeat_app.
  assert (E : nlen (repeat x (N.to_nat k)) = k) by (rewrite nlen_repeat; lia). rewrite <- E at 1. apply take_app_exact.
Qed.
Lemma raw_unchecked_ok t bs h : bs <> [] -> nlen (drop_leading_zero bs) <= N.of_nat (int_size t) ->
  exists v, raw_to_integer_unchecked t bs h = Done v h /\ to_integer_unchecked t bs = Ok v.
Proof.
  intros N0 H. destruct bs as [|b bs]; [congruence|]. unfold raw_to_integer_unchecked, to_integer_unchecked. cbv zeta.
  set (bytes := drop_leading_zero (b :: bs)) in *. set (size := N.of_nat (int_size t)) in *.
  unfold msub. destruct (N.ltb_spec size (nlen bytes)); [lia|]. unfold mbind, mret, poke.
  assert (NR : forall f : N, nlen (repeat f (int_size t)) = size) by (intros; apply nlen_repeat).
  rewrite NR. destruct (N.ltb_spec size (size - nlen bytes + nlen bytes)); [lia|]. eexists. split; [reflexivity|].
  do 2 f_equal. rewrite take_repeat by (subst size; lia).
  replace (size - nlen bytes + nlen bytes) with size by lia. 
  assert (DR : forall f, drop size (repeat f (int_size t)) = ([] : list N)).
  { intros f. rewrite <- (NR f). apply drop_exact. }
  rewrite DR, app_nil_r. reflexivity.
Qed.
Lemma raw_to_integer_ok t bs h : raw_to_integer t bs h = Done (to_integer t bs) h.
Proof.
  destruct bs as [|b bs]; [reflexivity|]. unfold raw_to_integer, to_integer.
  match goal with |- context [if ?x then mret _ else _] => destruct x end; [reflexivity|]. cbv zeta.
  destruct (N.ltb_spec (N.of_nat (int_size t)) (nlen (drop_leading_zero (b :: bs)))) as [|H]; [reflexivity|].
  destruct (raw_unchecked_ok t (b :: bs) h ltac:(discriminate) H) as (v & E & ->).
  rewrite (mbind_done _ _ _ _ _ E). cbn [rbind]. reflexivity.
Qed.

(** ** Walks over an integer on the stack *)
Lemma peek1_at pre x post off h : off = nlen pre -> peek1 (pre ++ x :: post) off h = Done x h.
Proof. intros ->. unfold peek1. now rewrite nth_byte_app_cons. Qed.
Lemma walk_zeros_ok k : forall fuel pre x post src len h, (k < fuel)%nat -> src = nlen pre -> N.of_nat k <= len -> x <> 0 ->
  walk_zeros fuel (pre ++ repeat 0 k ++ x :: post) src len h = Done (src + N.of_nat k, len - N.of_nat k) h.
Proof.
  induction k as [|k IH]; intros fuel pre x post src len h Hf Hs Hl Hx; (destruct fuel as [|fuel]; [lia|]); cbn [walk_zeros repeat app].
  - rewrite (mbind_done _ _ _ _ _ (peek1_at pre x post src h Hs)). apply N.eqb_neq in Hx. rewrite Hx. unfold mret. f_equal. f_equal; lia.
  - rewrite (mbind_done _ _ _ _ _ (peek1_at pre 0 (repeat 0 k ++ x :: post) src h Hs)). rewrite N.eqb_refl.
    unfold msub. destruct (N.ltb_spec len 1); [lia|]. unfold mbind, mret.
    replace (pre ++ 0 :: repeat 0 k ++ x :: post) with ((pre ++ [0]) ++ repeat 0 k ++ x :: post) by now rewrite <- app_assoc.
    rewrite IH; [f_equal; f_equal; lia | lia | rewrite nlen_app, nlen_cons, nlen_nil; lia | lia | assumption].
Qed.
Lemma walk_ffs_ok k : forall fuel pre x post src len h, (k < fuel)%nat -> src = nlen pre -> len = N.of_nat k + 1 + nlen post ->
  x <> 255 \/ post = [] ->
  walk_ffs fuel (pre ++ repeat 255 k ++ x :: post) src len h = Done (src + N.of_nat k, len - N.of_nat k) h.
Proof.
  induction k as [|k IH]; intros fuel pre x post src len h Hf Hs Hl Hx; (destruct fuel as [|fuel]; [lia|]); cbn [walk_ffs repeat app].
  - destruct (N.ltb_spec 1 len) as [H1|H1].
    + rewrite (mbind_done _ _ _ _ _ (peek1_at pre x post src h Hs)). destruct Hx as [Hx| ->]; [|change (nlen (@nil N)) with 0 in Hl; lia].
      apply N.eqb_neq in Hx. rewrite Hx. unfold mret. f_equal. f_equal; lia.
    + unfold mret. f_equal. f_equal; lia.
  - destruct (N.ltb_spec 1 len) as [H1|H1]; [|lia].
    rewrite (mbind_done _ _ _ _ _ (peek1_at pre 255 (repeat 255 k ++ x :: post) src h Hs)). rewrite N.eqb_refl.
    unfold msub. destruct (N.ltb_spec len 1); [lia|]. unfold mbind, mret.
    replace (pre ++ 255 :: repeat 255 k ++ x :: post) with ((pre ++ [255]) ++ repeat 255 k ++ x :: post) by now rewrite <- app_assoc.
    rewrite IH; [f_equal; f_equal; lia | lia | rewrite nlen_app, nlen_cons, nlen_nil; lia | lia | assumption].
Qed.

Lemma one_ok v : v < 256 -> bytes_ok [v].
Proof. intros H. now repeat constructor. Qed.

Lemma mask_ok : forall x m, x < 256 -> N.land x m < 256.
Proof.
  intros x m H. destruct (N.eq_dec (N.land x m) 0) as [->|N0]; [reflexivity|].
  change 256 with (2 ^ 8). apply N.log2_lt_pow2; [lia|]. pose proof (N.log2_land x m).
  destruct (N.eq_dec x 0) as [->|]; [now rewrite N.land_0_l in N0|].
  assert (N.log2 x < 8) by (apply N.log2_lt_pow2; [lia | exact H]). lia.
Qed.

(** Identifier parsing never panics on an honest reader. *)
Lemma calm_read {S} (R : reader S) content (HR : honest R content) st : fst (read_u8 R st) <> Panic.
Proof.
  destruct st as [s w]. unfold read_u8. pose proof (HR s 1) as H. destruct (rd_read R s 1) as [[bs|k] s']; [|cbn; intros [=]].
  destruct H as [_ L]. destruct bs as [|b [|b2 bs]]; try (cbn; intros [=]). rewrite !nlen_cons in L. lia.
Qed.
Lemma calm_bind {S A B} (m : parser S A) (k : A -> parser S B) st :
  fst (m st) <> Panic -> (forall a st, fst (k a st) <> Panic) -> fst (pbind m k st) <> Panic.
Proof. intros H K. unfold pbind. destruct (m st) as [[a|e| |] st']; cbn [fst] in *; [apply K | discriminate | congruence | discriminate]. Qed.
Lemma calm_parse_id {S} (R : reader S) content (HR : honest R content) fuel st : fst (parse_id R fuel st) <> Panic.
Proof.
  assert (Lp : forall fuel i b st, fst (parse_id_loop R fuel i b st) <> Panic).
  { intros n. induction n as [|n IH]; intros i b st'; cbn [parse_id_loop]; [intros [=]|].
    apply calm_bind; [destruct st'; intros [=]|]. intros _ st1. destruct (negb _); [intros [=]|].
    apply calm_bind; [eapply calm_read; eassumption | intros; apply IH]. }
  unfold parse_id. apply calm_bind; [eapply calm_read; eassumption|]. intros b st1. apply calm_bind; [destruct st1; intros [=]|].
  intros _ st2. destruct (negb _); [intros [=]|]. apply calm_bind; [eapply calm_read; eassumption|]. intros o st3.
  destruct (o <=? ID_MAX_SHORT); [intros [=]|]. destruct (o =? MORE_FLAG); [intros [=] | apply Lp].
Qed.

Section PARTS.
Context (L : layout) (al : allocator) (G : good_allocator al)
        (Rp : L_raw L -> heap -> buf -> option N -> Prop) (BR : buffer_refines L al Rp).
Context (Hic : 1 <= L_init_cap L).
Notation cf j := {| init_cap := L_init_cap L; junk := j |}.
Notation raw := (L_raw L).
Notation contains := (contains L Rp).

(** ** One octet *)
Lemma push_new v h : v < 256 -> exists r h', L_push L v (L_new L) h = Done r h' /\ contains [v] None h r h'.
Proof.
  intros Hv. pose proof (br_new _ _ _ BR h (fun _ => 0)) as R0. set (b0 := bf_new (cf (fun _ => 0))) in *.
  assert (M0 : exists y m, b_mem b0 = y :: m /\ bytes_ok m).
  { unfold b0, bf_new. cbn [b_mem init_cap]. destruct (N.to_nat (L_init_cap L)) as [|k] eqn:Ek; [lia|].
    exists 0, (repeat 0 k). split; [reflexivity | apply repeat_ok; lia]. }
  destruct M0 as (y & m & Em & Om).
  assert (E : bf_push v b0 = Ok {| b_mem := v :: m; b_len := 1; b_heap := false |}).
  { unfold bf_push, bf_cap. rewrite Em. change (b_len b0) with 0. rewrite nlen_cons. destruct (N.ltb_spec 0 (1 + nlen m)); [|lia].
    unfold bf_set_len, bf_cap. rewrite Em, nlen_cons. destruct (N.ltb_spec (1 + nlen m) (0 + 1)); [lia|]. cbn [rbind].
    rewrite (bf_write_at [] [y] m [v] 0) by reflexivity. reflexivity. }
  destruct (br_push _ _ _ BR _ _ _ _ _ _ R0 Hv E) as (r & h' & K & R' & F'). exists r, h'. split; [exact K|].
  eexists _, None. split; [exact R'|]. split; [exact F'|]. exists m. auto.
Qed.
Lemma index_set_ok i v r h b own pre x post : Rp r h b own -> holds b (pre ++ x :: post) -> i = nlen pre -> v < 256 ->
  exists r' h' b', L_index_set L i v r h = Done r' h' /\ Rp r' h' b' own /\ frame own own h h' /\ holds b' (pre ++ v :: post).
Proof.
  intros HR (sp & M & Lb & Os) Hi Hv. unfold L_index_set. rewrite (rp_len L al Rp BR _ _ _ _ HR), Lb, nlen_app, nlen_cons.
  destruct (N.leb_spec (nlen pre + (1 + nlen post)) i); [lia|].
  assert (E : bf_write i [v] b = Ok {| b_mem := pre ++ [v] ++ post ++ sp; b_len := b_len b; b_heap := b_heap b |}).
  { apply (bf_write_at pre [x] (post ++ sp)); [rewrite M, <- app_assoc; reflexivity | assumption | reflexivity]. }
  destruct (br_store _ _ _ BR _ _ _ _ _ _ _ HR (one_ok v Hv) E) as (r' & h' & K & R' & F').
  eexists r', h', _. split; [exact K|]. split; [exact R'|]. split; [exact F'|]. exists sp. cbn [b_mem b_len]. rewrite Lb, !nlen_app, !nlen_cons.
  split; [now rewrite <- app_assoc | auto].
Qed.
Lemma index_ok i r h b own pre x post : Rp r h b own -> holds b (pre ++ x :: post) -> i = nlen pre -> L_index L i r h = Done x h.
Proof.
  intros HR (sp & M & Lb & Os) Hi. unfold L_index. rewrite (rp_len L al Rp BR _ _ _ _ HR), Lb, nlen_app, nlen_cons.
  destruct (N.leb_spec (nlen pre + (1 + nlen post)) i); [lia|].
  rewrite (mbind_done _ _ [x] h h); [reflexivity|]. eapply (br_load _ _ _ BR); [exact HR|].
  rewrite M, <- app_assoc. apply (mem_read_at pre [x] (post ++ sp)); [assumption | reflexivity].
Qed.
Lemma index_map_ok i f r h b own pre x post : Rp r h b own -> holds b (pre ++ x :: post) -> i = nlen pre -> f x < 256 ->
  exists r' h' b', L_index_map L i f r h = Done r' h' /\ Rp r' h' b' own /\ frame own own h h' /\ holds b' (pre ++ f x :: post).
Proof.
  intros HR Hb Hi Hf. unfold L_index_map. rewrite (mbind_done _ _ _ _ _ (index_ok i r h b own pre x post HR Hb Hi)).
  eapply index_set_ok; eassumption.
Qed.
Lemma fill_ok k : forall n r h b own f xs post, Rp r h b own -> holds b (f :: xs ++ post) -> length xs = k ->
  exists r' h' b', raw_fill L k n r h = Done (r', snd (id_fill k n post)) h' /\ Rp r' h' b' own /\ frame own own h h' /\ holds b' (f :: fst (id_fill k n post)).
Proof.
  induction k as [|k IH]; intros n r h b own f xs post HR Hb Hx; cbn [raw_fill id_fill].
  - destruct xs; [|discriminate]. exists r, h, b. cbn [fst snd]. split; [reflexivity|]. split; [assumption|]. split; [apply frame_refl | exact Hb].
  - destruct xs as [|x xs _] using rev_ind; [discriminate|]. rewrite app_length in Hx. cbn [length] in Hx.
    assert (Hv : N.lor (as_u8 n) MORE_FLAG < 256).
    { unfold as_u8, MORE_FLAG. assert (n mod 256 < 256) by (apply N.mod_lt; discriminate). rewrite lor_80 by assumption. lia. }
    destruct (index_set_ok (N.of_nat (S k)) (N.lor (as_u8 n) MORE_FLAG) r h b own (f :: xs) x post HR) as (r1 & h1 & b1 & E1 & R1 & F1 & H1).
    + cbn [app]. rewrite <- app_assoc in Hb. exact Hb.
    + rewrite nlen_cons, nlen_length. lia.
    + exact Hv.
    + rewrite (mbind_done _ _ _ _ _ E1). cbn [app] in H1.
      destruct (IH (N.shiftr n 7) r1 h1 b1 own f xs _ R1 H1 ltac:(lia)) as (r2 & h2 & b2 & E2 & R2 & F2 & H2).
      exists r2, h2, b2. split; [exact E2|]. split; [exact R2|]. split; [|exact H2].
      eapply frame_trans; [eassumption | eassumption |]. intros a Ea. eapply rp_live; eassumption.
Qed.

(** ** Identifiers *)
(** The long form written over [len] octets of a buffer. *)
Lemma long_form c p n g r h b own xs bs : Rp r h b own -> holds b xs -> nlen xs = number_bytes_len n + 1 -> 31 <= n ->
  c < 4 -> p < 2 -> (forall o, 128 <= o < 256 -> g o = o - 128) -> identifier c p n bs ->
  exists r' h' b', (b <-- L_index_set L 0 (c * 64 + p * 32 + 31) r ;
    bn <-- raw_fill L (N.to_nat (number_bytes_len n + 1 - 1)) n b ;
    b <-- L_index_map L (number_bytes_len n + 1 - 1) g (fst bn) ;
    if negb (snd bn =? 0) then mcrash else mret b) h = Done r' h' /\ Rp r' h' b' own /\ frame own own h h' /\ holds b' bs /\
   (b <-- L_index_set L 0 (c * 64 + p * 32 + 31) r ;
    bn <-- raw_fill L (N.to_nat (number_bytes_len n + 1 - 1)) n b ;
    L_index_map L (number_bytes_len n + 1 - 1) g (fst bn)) h = Done r' h'.
Proof.
  intros HR Hb Hx Hn Hc Hp Hg Hi. replace (number_bytes_len n + 1 - 1) with (number_bytes_len n) by lia.
  destruct (number_bytes_len_bounds n) as (Hpos & _); [lia|].
  destruct xs as [|x xs]; [rewrite nlen_nil in Hx; lia|]. rewrite nlen_cons in Hx.
  destruct (index_set_ok 0 (c * 64 + p * 32 + 31) r h b own [] x xs HR Hb eq_refl ltac:(lia)) as (r1 & h1 & b1 & E1 & R1 & F1 & H1).
  cbn [app] in H1. rewrite !(mbind_done _ _ _ _ _ E1).
  destruct (fill_ok (N.to_nat (number_bytes_len n)) n r1 h1 b1 own (c * 64 + p * 32 + 31) xs [] R1) as (r2 & h2 & b2 & E2 & R2 & F2 & H2).
  { rewrite app_nil_r. exact H1. }
  { rewrite nlen_length in Hx. lia. }
  rewrite !(mbind_done _ _ _ _ _ E2). cbn [fst snd].
  destruct (id_long_encode c p n g Hc Hp Hn Hg) as (bs' & El & Hi' & Hz).
  assert (bs' = bs) as -> by (eapply identifier_fun; eassumption).
  rewrite Hz. cbn [negb N.eqb].
  assert (NL : nlen (fst (id_fill (N.to_nat (number_bytes_len n)) n [])) = number_bytes_len n).
  { rewrite id_fill_spec. cbn [fst]. rewrite app_nil_r, nlen_map, b128_digits_len. lia. }
  destruct (fst (id_fill (N.to_nat (number_bytes_len n)) n [])) as [|y ys _] eqn:EF using rev_ind; [rewrite nlen_nil in NL; lia|].
  rewrite app_comm_cons, map_last_snoc in El. injection El as <-.
  assert (Hy : 128 <= y < 256).
  { assert (K : Forall (fun o => 128 <= o < 256) (ys ++ [y])).
    { rewrite <- EF, id_fill_spec. cbn [fst]. rewrite app_nil_r. apply Forall_map. eapply Forall_impl; [|apply b128_digits_ok]. cbv beta. intros d Hd. lia. }
    apply Forall_app in K as [_ K]. inversion K; assumption. }
  rewrite app_comm_cons in H2.
  destruct (index_map_ok (number_bytes_len n) g r2 h2 b2 own _ y [] R2 H2) as (r3 & h3 & b3 & E3 & R3 & F3 & H3).
  { rewrite nlen_app, nlen_cons, nlen_nil in NL. rewrite nlen_cons. lia. }
  { rewrite Hg by assumption. lia. }
  exists r3, h3, b3. rewrite (mbind_done _ _ _ _ _ E3). split; [reflexivity|]. split; [assumption|]. split; [|split; [exact H3 | exact E3]].
  eapply frame_trans; [exact F1 | | intros a Ea; eapply rp_live; eassumption].
  eapply frame_trans; [exact F2 | exact F3 |]. intros a Ea. eapply rp_live; eassumption.
Qed.
(** A number of 128 bits needs at most 19 octets. *)
Lemma bytes_len_small n : n < 2 ^ 128 -> number_bytes_len n <= 19.
Proof.
  intros H. unfold number_bytes_len. destruct (N.eq_dec n 0) as [->|]; [vm_compute; discriminate|].
  pose proof (N.size_le n) as S1. assert (N.size n <= 128).
  { rewrite N.size_log2 by assumption. assert (N.log2 n < 128) by (apply N.log2_lt_pow2; lia). lia. }
  lia.
Qed.
Lemma contains_app own h r h1 bs bs' r' h' b o : Rp r h1 b o -> frame own o h h1 ->
  (exists b' o', Rp r' h' b' o' /\ frame o o' h1 h' /\ holds b' bs') -> holds b bs -> contains bs' own h r' h'.
Proof.
  intros R1 F1 (b' & o' & R2 & F2 & H2) _. exists b', o'. split; [assumption|]. split; [|assumption].
  eapply frame_trans; [eassumption | eassumption |]. intros a Ea. eapply rp_live; eassumption.
Qed.
Lemma roomy_holds bs n own h r h' : roomy L Rp bs n own h r h' ->
  exists b o xs, Rp r h' b o /\ frame own o h h' /\ holds b xs /\ nlen xs = nlen bs + n.
Proof.
  intros (b & o & sp & R & F & M & Lb & K & O). destruct (split_at n sp K) as (x & tl & -> & Lx).
  apply bytes_ok_app in O as [_ O]. exists b, o, (bs ++ x). split; [assumption|]. split; [assumption|].
  rewrite nlen_app, Lx. split; [|reflexivity]. exists tl. rewrite <- app_assoc, nlen_app, Lx. auto.
Qed.
Lemma id_new_result c p n h bs : n < 2 ^ 128 -> identifier (class_num c) (pc_num p) n bs ->
  meets al (raw_Id_new L al c p n h) (contains bs None h).
Proof.
  intros Hn Hi. pose proof (class_num_lt c). pose proof (pc_num_lt p). unfold raw_Id_new. cbv zeta.
  unfold ID_MAX_SHORT. destruct (N.leb_spec n (ID_LONG_FLAG - 1)) as [H1|H1]; unfold ID_LONG_FLAG in *.
  - rewrite as_u8_small by lia. rewrite u8_add3_ok by lia. cbn [mcall]. unfold mbind, mret.
    destruct (push_new (class_num c * 64 + pc_num p * 32 + n) h ltac:(lia)) as (r & h' & E & K). eapply meets_done; [exact E|].
    assert (bs = [class_num c * 64 + pc_num p * 32 + n]) as -> by (eapply identifier_fun; [exact Hi | apply id_short; lia]). exact K.
  - rewrite u8_add3_ok by lia. cbn [mcall]. unfold mbind at 1, mret at 1.
    pose proof (bytes_len_small n Hn) as Hl.
    eapply meets_bind; [apply (room L al Rp BR (L_new L) h _ None [] (number_bytes_len n + 1) (br_new _ _ _ BR h (fun _ => 0)) (holds_new _))|].
    { rewrite nlen_nil. unfold isize_max. lia. }
    cbv beta. rewrite nlen_nil, N.add_0_l. intros r1 h1 (_ & r2 & E2 & K2). rewrite (mbind_done _ _ _ _ _ E2).
    destruct (roomy_holds _ _ _ _ _ _ K2) as (b2 & o2 & xs & R2 & F2 & H2 & Lx). rewrite nlen_nil, N.add_0_l in Lx.
    destruct (long_form (class_num c) (pc_num p) n (fun o => N.lxor o MORE_FLAG) r2 h1 b2 o2 xs bs R2 H2 Lx ltac:(lia) ltac:(lia) ltac:(lia) xor_clear Hi)
      as (r3 & h3 & b3 & _ & R3 & F3 & H3 & E3).
    eapply meets_done; [exact E3|]. exists b3, o2. split; [assumption|]. split; [|assumption].
    eapply frame_trans; [eassumption | eassumption |]. intros a Ea. eapply rp_live; eassumption.
Qed.
Lemma set_len_shorter r h b own bs n : Rp r h b own -> holds b bs -> n <= nlen bs ->
  exists r' b', L_set_len_checked L n r h = Done r' h /\ Rp r' h b' own /\ holds b' (take n bs).
Proof.
  intros R (sp & M & Lb & Os) Hn. pose proof (rp_mem L al Rp BR _ _ _ _ R) as Hok. rewrite M, bytes_ok_app in Hok. destruct Hok as [Hok _].
  destruct (rp_set_len L al Rp BR r h b own n {| b_mem := b_mem b; b_len := n; b_heap := b_heap b |} R) as (r2 & E2 & R2).
  { unfold bf_set_len, bf_cap. rewrite M, nlen_app. destruct (N.ltb_spec (nlen bs + nlen sp) n); [lia | reflexivity]. }
  eexists r2, _. split; [exact E2|]. split; [exact R2|]. destruct (split_at n bs Hn) as (x & y & -> & Lx).
  exists (y ++ sp). cbn [b_mem b_len]. rewrite <- Lx, take_app_exact. split; [now rewrite M, <- app_assoc|]. split; [reflexivity|].
  apply bytes_ok_app in Hok as [_ Hok]. now apply bytes_ok_app.
Qed.
Lemma set_number_result c p m n r h b own bs bs' : Rp r h b own -> holds b bs -> nlen bs <= isize_max ->
  identifier c p m bs -> n < 2 ^ 128 -> identifier c p n bs' ->
  meets al (raw_Id_set_number L al n r h) (contains bs' own h).
Proof.
  intros R Hb Hs Hi Hn Hi'. unfold raw_Id_set_number. rewrite (mbind_done _ _ _ _ _ (rp_slice L al Rp BR _ _ _ _ R)), (holds_slice _ _ Hb).
  assert (Hc : c < 4 /\ p < 2) by (destruct Hi; auto). destruct Hc as [Hc Hp].
  destruct (class_num_surj c Hc) as [kc <-]. destruct (pc_num_surj p Hp) as [kp <-].
  rewrite (IdRef_class_ok _ _ _ _ Hi), (IdRef_pc_ok _ _ _ _ Hi). cbn [mcall]. unfold mbind at 1 2, mret at 1 2.
  unfold ID_MAX_SHORT. destruct (N.leb_spec n (ID_LONG_FLAG - 1)) as [H1|H1]; unfold ID_LONG_FLAG in *.
  - rewrite as_u8_small by lia. rewrite u8_add3_ok by lia. cbn [mcall]. unfold mbind at 1, mret at 1.
    destruct bs as [|x bs]; [exfalso; eapply is_identifier_nonempty; [exists (class_num kc), (pc_num kp), m; exact Hi | reflexivity]|].
    destruct (index_set_ok 0 (class_num kc * 64 + pc_num kp * 32 + n) r h b own [] x bs R Hb eq_refl ltac:(lia)) as (r1 & h1 & b1 & E1 & R1 & F1 & K1).
    rewrite (mbind_done _ _ _ _ _ E1). cbn [app] in K1.
    destruct (set_len_shorter r1 h1 b1 own _ 1 R1 K1) as (r2 & b2 & E2 & R2 & K2); [rewrite nlen_cons; lia|].
    eapply meets_done; [exact E2|]. exists b2, own. split; [assumption|]. split; [assumption|].
    assert (bs' = [class_num kc * 64 + pc_num kp * 32 + n]) as -> by (eapply identifier_fun; [exact Hi' | apply id_short; lia]). exact K2.
  - rewrite u8_add3_ok by lia. cbn [mcall]. unfold mbind at 1, mret at 1. cbv zeta.
    pose proof (bytes_len_small n Hn) as Hl. rewrite (rp_len L al Rp BR _ _ _ _ R), (holds_len _ _ Hb).
    set (len := number_bytes_len n + 1).
    set (m1 := if nlen bs <? len then L_reserve L al (len - nlen bs) r else mret r).
    assert (A : meets al (m1 h) (fun r1 h1 => exists r2, L_set_len_checked L len r1 h1 = Done r2 h1 /\
      exists b2 o2 xs, Rp r2 h1 b2 o2 /\ frame own o2 h h1 /\ holds b2 xs /\ nlen xs = len)).
    { unfold m1. destruct (N.ltb_spec (nlen bs) len) as [Hlt|Hge].
      - eapply meets_mono; [apply (room L al Rp BR r h b own bs (len - nlen bs) R Hb); unfold isize_max, len; lia|].
        cbv beta. intros r1 h1 (_ & r2 & E2 & K2). replace (nlen bs + (len - nlen bs)) with len in E2 by lia. exists r2. split; [exact E2|].
        destruct (roomy_holds _ _ _ _ _ _ K2) as (b2 & o2 & xs & R2 & F2 & H2 & Lx). exists b2, o2, xs. repeat split; auto; try apply F2. lia.
      - cbn [meets mret]. destruct (set_len_shorter r h b own bs len R Hb Hge) as (r2 & b2 & E2 & R2 & K2). exists r2. split; [exact E2|].
        exists b2, own, (take len bs). split; [assumption|]. split; [apply frame_refl|]. split; [assumption|]. rewrite nlen_take. lia. }
    eapply meets_bind; [exact A|]. cbv beta. intros r1 h1 (r2 & E2 & b2 & o2 & xs & R2 & F2 & H2 & Lx). rewrite (mbind_done _ _ _ _ _ E2).
    destruct (long_form (class_num kc) (pc_num kp) n (fun o => N.land o (not_u8 MORE_FLAG)) r2 h1 b2 o2 xs bs' R2 H2 Lx ltac:(lia) ltac:(lia) ltac:(lia) and_clear Hi')
      as (r3 & h3 & b3 & E3 & R3 & F3 & H3 & _).
    eapply meets_done; [exact E3|]. exists b3, o2. split; [assumption|]. split; [|assumption].
    eapply frame_trans; [eassumption | eassumption |]. intros a Ea. eapply rp_live; eassumption.
Qed.
Lemma first_twice f g r h b own x bs : Rp r h b own -> holds b (x :: bs) -> f x < 256 -> g (f x) < 256 ->
  exists r' h', (b <-- L_index_map L 0 f r ; L_index_map L 0 g b) h = Done r' h' /\ contains (g (f x) :: bs) own h r' h'.
Proof.
  intros R Hb Hf Hg. destruct (index_map_ok 0 f r h b own [] x bs R Hb eq_refl Hf) as (r1 & h1 & b1 & E1 & R1 & F1 & K1).
  destruct (index_map_ok 0 g r1 h1 b1 own [] (f x) bs R1 K1 eq_refl Hg) as (r2 & h2 & b2 & E2 & R2 & F2 & K2).
  exists r2, h2. rewrite (mbind_done _ _ _ _ _ E1). split; [exact E2|]. exists b2, own. split; [assumption|]. split; [|exact K2].
  eapply frame_trans; [eassumption | eassumption |]. intros a Ea. eapply rp_live; eassumption.
Qed.
Lemma set_class_result k c p n r h b own bs : Rp r h b own -> holds b bs -> identifier c p n bs ->
  exists bs' r' h', raw_Id_set_class L k r h = Done r' h' /\ contains bs' own h r' h' /\ identifier (class_num k) p n bs' /\ nlen bs' = nlen bs.
Proof.
  intros R Hb Hi. destruct (set_class_ok k c p n bs Hi) as (bs' & E & Hi'). pose proof (is_identifier_ok _ (ex_intro _ _ (ex_intro _ _ (ex_intro _ _ Hi)))) as Hok.
  destruct bs as [|x bs]; cbn [IdRef_set_class] in E; [discriminate|]. injection E as <-.
  inversion Hok as [|? ? Hx _]; subst. assert (Hx' : N.land x (not_u8 CLASS_MASK) < 256) by (now apply mask_ok).
  pose proof (is_identifier_ok _ (ex_intro _ _ (ex_intro _ _ (ex_intro _ _ Hi')))) as Hok'. inversion Hok' as [|? ? Hy _]; subst.
  destruct (first_twice (fun x => N.land x (not_u8 CLASS_MASK)) (fun x => N.lor x (class_u8 k)) r h b own x bs R Hb Hx' Hy) as (r' & h' & E & K).
  eexists _, r', h'. split; [exact E|]. split; [exact K|]. split; [exact Hi' | now rewrite !nlen_cons].
Qed.
Lemma set_pc_result k c p n r h b own bs : Rp r h b own -> holds b bs -> identifier c p n bs ->
  exists bs' r' h', raw_Id_set_pc L k r h = Done r' h' /\ contains bs' own h r' h' /\ identifier c (pc_num k) n bs' /\ nlen bs' = nlen bs.
Proof.
  intros R Hb Hi. destruct (set_pc_ok k c p n bs Hi) as (bs' & E & Hi'). pose proof (is_identifier_ok _ (ex_intro _ _ (ex_intro _ _ (ex_intro _ _ Hi)))) as Hok.
  destruct bs as [|x bs]; cbn [IdRef_set_pc] in E; [discriminate|]. injection E as <-.
  inversion Hok as [|? ? Hx _]; subst. assert (Hx' : N.land x (not_u8 PC_MASK) < 256) by (now apply mask_ok).
  pose proof (is_identifier_ok _ (ex_intro _ _ (ex_intro _ _ (ex_intro _ _ Hi')))) as Hok'. inversion Hok' as [|? ? Hy _]; subst.
  destruct (first_twice (fun x => N.land x (not_u8 PC_MASK)) (fun x => N.lor x (pc_u8 k)) r h b own x bs R Hb Hx' Hy) as (r' & h' & E & K).
  eexists _, r', h'. split; [exact E|]. split; [exact K|]. split; [exact Hi' | now rewrite !nlen_cons].
Qed.
Theorem id_parse_raw {S} (R : reader S) content (HR : honest R content) fuel s h0 : bytes_ok (content s) -> nlen (content s) <= isize_max ->
  meets al (raw_Id_parse L al R fuel s h0) (parsed L Rp (fst (Id_parse R fuel s)) (snd (Id_parse R fuel s)) h0).
Proof.
  intros Hok Hn. pose proof (calm_parse_id R content HR fuel (s, [])) as HP. unfold raw_Id_parse, Id_parse.
  destruct (ap_parse_id R content HR fuel s Hok) as (r & s1 & w & E & Nw & Ow & Oc & _). rewrite (E []) in *. cbn [app] in *.
  pose proof (feed_result L al Rp BR w (L_new L) h0 _ None [] (br_new _ _ _ BR h0 (fun _ => 0)) (holds_new _) Ow) as FD. rewrite nlen_nil in FD.
  specialize (FD ltac:(lia)). cbn [app] in FD.
  assert (FAIL : forall (x : res raw * S), meets al ((b <-- raw_feed L al w (L_new L) ; _ <-- L_drop L b ; mret x) h0) (fun y h => y = x /\ frame None None h0 h)).
  { intros x. eapply meets_bind; [exact FD|]. intros r1 h1 (b1 & o1 & R1 & F1 & H1).
    destruct (drop_result L al Rp BR r1 h1 b1 o1 h0 None x R1 F1) as (h' & Ed & Fd). eapply meets_done; [exact Ed | auto]. }
  destruct r as [n|e| |]; cbn [fst snd] in *.
  - eapply meets_bind; [exact FD|]. intros r1 h1 K. cbn [meets mret]. split; [reflexivity|]. exact K.
  - eapply meets_mono; [apply FAIL|]. cbv beta. intros x h (-> & F). split; [reflexivity|]. cbn. auto.
  - congruence.
  - eapply meets_mono; [apply FAIL|]. cbv beta. intros x h (-> & F). split; [reflexivity|]. cbn. auto.
Qed.

(** ** Contents *)
Lemma from_stack_result mem src len h pre bs post : mem = pre ++ bs ++ post -> src = nlen pre -> len = nlen bs -> len <= isize_max -> bytes_ok bs ->
  meets al (raw_from_stack L al mem src len h) (contains bs None h).
Proof.
  intros -> -> -> Hs Hok. unfold raw_from_stack.
  eapply meets_bind; [apply (rp_with_capacity L al Rp BR h (nlen bs))|].
  { intros j. destruct (with_capacity_ok (cf j) (nlen bs) Hs) as (b & E & _). eauto. }
  cbv beta. intros r1 h1 (j & b1 & o1 & R1 & F1 & E1).
  destruct (with_capacity_ok (cf j) (nlen bs) Hs) as (b2 & E2 & L2 & K2 & O2). rewrite E1 in E2. injection E2 as <-.
  destruct (split_at (nlen bs) (b_mem b1) K2) as (x & tl & M & Lx).
  destruct (rp_set_len L al Rp BR r1 h1 b1 o1 (nlen bs) {| b_mem := b_mem b1; b_len := nlen bs; b_heap := b_heap b1 |} R1) as (r2 & E2 & R2).
  { unfold bf_set_len, bf_cap. destruct (N.ltb_spec (nlen (b_mem b1)) (nlen bs)); [lia | reflexivity]. }
  rewrite (mbind_done _ _ _ _ _ E2).
  assert (P : peek (pre ++ bs ++ post) (nlen pre) (nlen bs) h1 = Done bs h1).
  { unfold peek. rewrite !nlen_app. destruct (N.ltb_spec (nlen pre + (nlen bs + nlen post)) (nlen pre + nlen bs)); [lia|].
    now rewrite drop_app_exact, take_app_exact. }
  rewrite (mbind_done _ _ _ _ _ P).
  assert (W : bf_write 0 bs {| b_mem := b_mem b1; b_len := nlen bs; b_heap := b_heap b1 |} = Ok {| b_mem := [] ++ bs ++ tl; b_len := nlen bs; b_heap := b_heap b1 |}).
  { apply (bf_write_at [] x tl bs 0 {| b_mem := b_mem b1; b_len := nlen bs; b_heap := b_heap b1 |}); [exact M | reflexivity | exact Lx]. }
  destruct (br_store _ _ _ BR _ _ _ _ _ _ _ R2 Hok W) as (r3 & h3 & E3 & R3 & F3). eapply meets_done; [exact E3|].
  eexists _, o1. split; [exact R3|]. split.
  - eapply frame_trans; [eassumption | eassumption |]. intros a Ea. eapply rp_live; eassumption.
  - exists tl. cbn [b_mem b_len app]. rewrite M, bytes_ok_app in O2. tauto.
Qed.
Lemma stack_part mem src len h : src + len <= nlen mem -> len <= isize_max -> bytes_ok mem ->
  meets al (raw_from_stack L al mem src len h) (contains (take len (drop src mem)) None h).
Proof.
  intros H Hs Hok. destruct (split_at src mem ltac:(lia)) as (pre & m & -> & Lp). rewrite nlen_app in H.
  destruct (split_at len m ltac:(lia)) as (x & post & -> & Lx). rewrite <- Lp, drop_app_exact, <- Lx, take_app_exact.
  apply from_stack_result with (pre := pre) (post := post); auto; [lia|]. rewrite !bytes_ok_app in Hok. tauto.
Qed.
Lemma size_small t : N.of_nat (int_size t) <= 16.
Proof. destruct t; vm_compute; discriminate. Qed.
Lemma from_positive_result t v h bs : (0 < v)%Z -> Contents_from_positive t v = Ok bs ->
  meets al (raw_from_positive L al t v h) (contains bs None h).
Proof.
  intros Hv E. unfold raw_from_positive. apply Z.ltb_lt in Hv. rewrite Hv. cbn [negb]. cbv zeta. unfold Contents_from_positive in E.
  pose proof (to_be_mem_len t v) as Lv. pose proof (to_be_mem_ok t v) as Ov. pose proof (to_be_mem_ok t 0) as O0. pose proof (int_size_pos t) as Hp.
  pose proof (size_small t) as Hz. set (size := N.of_nat (int_size t)) in *.
  assert (L0 : nlen (to_be_mem t 0) = size) by apply to_be_mem_len. set (z := to_be_mem t 0) in *. clearbody z.
  rewrite <- L0, drop_app_exact in E. pose proof (count_leading_spec 0 (to_be_mem t v)) as CL.
  destruct (count_leading 0 (to_be_mem t v)) as [k|] eqn:Ek; [|discriminate]. destruct CL as (x & l' & Em & Hx).
  rewrite Em in *. rewrite nlen_app, nlen_repeat, nlen_cons, N2Nat.id in Lv.
  assert (W : walk_zeros (S (length (z ++ repeat 0 (N.to_nat k) ++ x :: l'))) (z ++ repeat 0 (N.to_nat k) ++ x :: l') size size h = Done (size + k, size - k) h).
  { rewrite (walk_zeros_ok (N.to_nat k)) by (rewrite ?app_length, ?repeat_length, ?L0; lia || assumption). now rewrite N2Nat.id. }
  rewrite (mbind_done _ _ _ _ _ W). cbn [fst snd].
  assert (P : nth_byte (z ++ repeat 0 (N.to_nat k) ++ x :: l') (size + k) = Some x).
  { rewrite app_assoc. replace (size + k) with (nlen (z ++ repeat 0 (N.to_nat k))) by (rewrite nlen_app, nlen_repeat; lia). apply nth_byte_app_cons. }
  rewrite L0, P in E. unfold peek1 at 1. rewrite P. unfold mbind at 1, mret at 1. cbv beta iota.
  assert (OM : bytes_ok (z ++ repeat 0 (N.to_nat k) ++ x :: l')) by now apply bytes_ok_app.
  assert (LM : nlen (z ++ repeat 0 (N.to_nat k) ++ x :: l') = size + size) by (rewrite !nlen_app, nlen_repeat, nlen_cons; lia).
  destruct (N.land x 128 =? 128); injection E as <-.
  - destruct (N.eqb_spec (size + k) 0); [lia|]. apply stack_part; [lia | unfold isize_max; lia | assumption].
  - apply stack_part; [lia | unfold isize_max; lia | assumption].
Qed.
Lemma from_negative_result t v h bs : (v < 0)%Z -> Contents_from_negative t v = Ok bs ->
  meets al (raw_from_negative L al t v h) (contains bs None h).
Proof.
  intros Hv E. unfold raw_from_negative. apply Z.ltb_lt in Hv. rewrite Hv. cbn [negb]. cbv zeta. unfold Contents_from_negative in E.
  pose proof (to_be_mem_len t v) as Lv. pose proof (to_be_mem_ok t v) as Ov. pose proof (int_size_pos t) as Hp.
  pose proof (size_small t) as Hz. set (size := N.of_nat (int_size t)) in *. set (mem := to_be_mem t v) in *. clearbody mem.
  destruct (skip_ff_spec mem) as (x & l' & Em & Hx); [intros ->; change (nlen (@nil N)) with 0 in Lv; lia|].
  set (k := skip_ff mem) in *. rewrite Em in *. clearbody k. pose proof Lv as Lv'. rewrite nlen_app, nlen_repeat, nlen_cons, N2Nat.id in Lv'.
  assert (W : walk_ffs (S (length (repeat 255 (N.to_nat k) ++ x :: l'))) (repeat 255 (N.to_nat k) ++ x :: l') 0 size h = Done (0 + k, size - k) h).
  { pose proof (walk_ffs_ok (N.to_nat k) (S (length (repeat 255 (N.to_nat k) ++ x :: l'))) [] x l' 0 size h) as W. cbn [app] in W.
    rewrite N2Nat.id in W. apply W; [rewrite app_length, repeat_length; lia | reflexivity | lia | assumption]. }
  rewrite (mbind_done _ _ _ _ _ W). cbn [fst snd]. rewrite N.add_0_l.
  assert (P : nth_byte (repeat 255 (N.to_nat k) ++ x :: l') k = Some x).
  { replace k with (nlen (repeat 255 (N.to_nat k))) at 2 by (rewrite nlen_repeat; lia). apply nth_byte_app_cons. }
  rewrite P in E. unfold peek1 at 1. rewrite P. unfold mbind at 1, mret at 1. cbv beta iota.
  destruct (N.land x 128 =? 0).
  - destruct (N.eqb_spec k 0); [discriminate|]. injection E as <-. apply stack_part; [lia | unfold isize_max; lia | assumption].
  - injection E as <-. apply stack_part; [lia | unfold isize_max; lia | assumption].
Qed.
Lemma from_int_result t v h bs : in_range t v -> bytes_ok bs -> shortest_twos bs -> twos_value bs = v ->
  nlen bs <= isize_max /\ meets al (raw_Contents_from_int L al t v h) (contains bs None h).
Proof.
  intros Hr Hok Hs Hv. destruct (from_int_spec t v Hr) as (bs' & E & Hok' & Hs' & Hv').
  assert (bs' = bs) as -> by (apply shortest_unique; auto; congruence). clear Hok' Hs' Hv' Hv.
  assert (Z : forall bs, Ok Contents_from_zero = Ok bs -> nlen bs <= isize_max /\ meets al (raw_from_zero L h) (contains bs None h)).
  { intros ? [= <-]. split; [vm_compute; discriminate|]. destruct (push_new 0 h eq_refl) as (r & h' & K & C). eapply meets_done; [exact K | exact C]. }
  assert (P : (0 < v)%Z -> Contents_from_positive t v = Ok bs -> nlen bs <= isize_max /\ meets al (raw_from_positive L al t v h) (contains bs None h)).
  { intros Hp Ep. split; [|now apply from_positive_result]. clear E. pose proof (size_small t). unfold Contents_from_positive in Ep.
    destruct (count_leading _ _) as [k|]; [|discriminate]. destruct (nth_byte _ _); [|discriminate].
    destruct (_ =? _); injection Ep as <-; rewrite nlen_take; unfold isize_max; lia. }
  pose proof (in_range_bounds t v Hr) as B. unfold raw_Contents_from_int. unfold Contents_from_int in E. destruct (int_signed t).
  - destruct (Z.ltb_spec v 0) as [Hn|Hn].
    + split; [|now apply from_negative_result]. pose proof (size_small t). unfold Contents_from_negative in E.
      destruct (nth_byte _ _); [|discriminate]. destruct (_ =? _); [destruct (_ =? _); [discriminate|]|]; injection E as <-; rewrite nlen_take; unfold isize_max; lia.
    + destruct (Z.eqb_spec v 0); [now apply Z | apply P; [lia | assumption]].
  - destruct (Z.eqb_spec v 0); [now apply Z | apply P; [lia | assumption]].
Qed.
Lemma edit_result f r h b own bs : Rp r h b own -> holds b bs -> nlen (f bs) = nlen bs -> bytes_ok (f bs) ->
  exists r' h', raw_Contents_edit L f r h = Done r' h' /\ contains (f bs) own h r' h'.
Proof.
  intros R Hb Hn Hok. unfold raw_Contents_edit. rewrite (mbind_done _ _ _ _ _ (rp_slice L al Rp BR _ _ _ _ R)), (holds_slice _ _ Hb).
  rewrite Hn, N.eqb_refl. destruct Hb as (sp & M & Lb & Os).
  assert (W : bf_write 0 (f bs) b = Ok {| b_mem := [] ++ f bs ++ sp; b_len := b_len b; b_heap := b_heap b |}).
  { apply (bf_write_at [] bs sp); [exact M | reflexivity | now symmetry]. }
  destruct (br_store _ _ _ BR _ _ _ _ _ _ _ R Hok W) as (r' & h' & K & R' & F'). exists r', h'. split; [exact K|].
  eexists _, own. split; [exact R'|]. split; [exact F'|]. exists sp. cbn [b_mem b_len app]. rewrite Hn. auto.
Qed.

(** ** Programs *)
Definition pmatch (t : pvar) (e : evar) : Prop :=
  match t with
  | PEmpty => e = EEmpty
  | PVec bs => exists x, e = EVec (map Some bs ++ x) (nlen bs) /\ bytes_ok bs
  | _ => exists bs x, pencodes t bs /\ nlen bs <= isize_max /\ e = EBuf (map Some bs ++ x) (nlen bs)
  end.
Definition pgood (h0 : heap) (e : env pvar) (v : env (var raw)) (h : heap) : Prop :=
  exists E own, inv L Rp h0 h v E own /\ forall i, pmatch (e i) (E i).
Lemma pmatch_make t bs x : in_buffer t -> pencodes t bs -> nlen bs <= isize_max -> pmatch t (EBuf (map Some bs ++ x) (nlen bs)).
Proof. destruct t; cbn [in_buffer pmatch]; try contradiction; eauto 10. Qed.
Lemma pmatch_buf t e : in_buffer t -> pmatch t e -> exists bs x, pencodes t bs /\ nlen bs <= isize_max /\ e = EBuf (map Some bs ++ x) (nlen bs).
Proof. destruct t; cbn [in_buffer pmatch]; try contradiction; auto. Qed.
Lemma pupd_match e E i t' e' : (forall k, pmatch (e k) (E k)) -> pmatch t' e' -> forall k, pmatch (upd i t' e k) (upd i e' E k).
Proof. intros H Ht k. unfold upd. destruct (Nat.eqb k i); auto. Qed.
Lemma pput h0 h v E own e i t' bs' (m : M raw) : inv L Rp h0 h v E own -> (forall k, pmatch (e k) (E k)) ->
  in_buffer t' -> pencodes t' bs' -> nlen bs' <= isize_max -> meets al (m h) (contains bs' (own i) h) ->
  meets al ((r <-- m ; mret (upd i (VBuf r) v)) h) (pgood h0 (upd i t' e)).
Proof.
  intros HI HT Ht He Hs HM. eapply meets_mono.
  - apply (put_buf L al Rp BR h0 h v E own i (map Some bs' ++ []) (nlen bs') m HI).
    eapply meets_mono; [exact HM|]. cbv beta. intros r' h' (b' & o' & R & F & s & Em & Lb & Hsp).
    exists b', o'. rewrite app_nil_r, nlen_some. repeat split; try apply F; auto; [|lia].
    rewrite Em. apply fits_app_l, fits_some.
  - intros v' h' (own' & HI'). eexists _, own'. split; [exact HI'|]. apply pupd_match; [assumption|]. now apply pmatch_make.
Qed.
Lemma pslot h0 h v E own e i : inv L Rp h0 h v E own -> (forall k, pmatch (e k) (E k)) -> in_buffer (e i) ->
  exists r b bs, v i = VBuf r /\ Rp r h b (own i) /\ holds b bs /\ pencodes (e i) bs /\ nlen bs <= isize_max.
Proof.
  intros (I1 & _) HT Ht. destruct (pmatch_buf _ _ Ht (HT i)) as (bs & x & He & Hs & Ee). specialize (I1 i). rewrite Ee in I1.
  destruct (v i) as [|r|w]; try contradiction. destruct (tmatch_holds L al Rp BR _ _ _ _ _ I1) as (b & R & Hb). exists r, b, bs. auto 10.
Qed.
Lemma pempty_slot h0 h v E own e i : inv L Rp h0 h v E own -> (forall k, pmatch (e k) (E k)) -> e i = PEmpty ->
  E i = EEmpty /\ own i = None.
Proof.
  intros (I1 & _) HT Ht. specialize (HT i). rewrite Ht in HT. cbn in HT. specialize (I1 i). rewrite HT in I1.
  destruct (v i); try contradiction. auto.
Qed.
Lemma pfrom_buffers h0 h v E own e' o E' : inv L Rp h0 h v E own -> estep (L_init_cap L) o E = Some E' ->
  (forall k, pmatch (e' k) (E' k)) -> meets al (rstep L al o v h) (pgood h0 e').
Proof.
  intros HI HE HT. eapply meets_mono; [eapply (step_good L al G Rp BR h0 h v E o E'); [now exists own | exact HE]|].
  intros v' h' (own' & HI'). exists E', own'. auto.
Qed.
Lemma from_bytes_good h0 h v E own e i t bs : inv L Rp h0 h v E own -> (forall k, pmatch (e k) (E k)) -> e i = PEmpty ->
  in_buffer t -> pencodes t bs -> bytes_ok bs -> nlen bs <= isize_max ->
  meets al ((r <-- L_from_slice L al bs ; mret (upd i (VBuf r) v)) h) (pgood h0 (upd i t e)).
Proof.
  intros HI HT He Ht Hen Hok Hs. destruct (pempty_slot _ _ _ _ _ _ _ HI HT He) as (EE & Ho).
  change (fun h => (r <-- L_from_slice L al bs ; mret (upd i (VBuf r) v)) h) with (rstep L al (OFromSlice i bs) v).
  eapply (pfrom_buffers h0 h v E own _ (OFromSlice i bs)); [exact HI | |].
  - cbn [estep]. rewrite EE. apply N.leb_le in Hs. rewrite Hs, (octets_true bs Hok). reflexivity.
  - apply pupd_match; [assumption|]. now apply pmatch_make.
Qed.
Lemma identifier_small c p n bs : n < 2 ^ 128 -> identifier c p n bs -> nlen bs <= isize_max.
Proof.
  intros Hn Hi. destruct (N.ltb_spec n 31) as [H|H].
  - destruct Hi; [|lia]. rewrite nlen_cons, nlen_nil. vm_compute. discriminate.
  - assert (Hc : c < 4 /\ p < 2) by (destruct Hi; auto). destruct Hc as [Hc Hp].
    destruct (id_long_encode c p n (fun o => N.lxor o MORE_FLAG) Hc Hp H xor_clear) as (bs' & E & Hi' & _).
    rewrite (identifier_fun _ _ _ _ _ Hi Hi').
    assert (NL : nlen (fst (id_fill (N.to_nat (number_bytes_len n)) n [])) = number_bytes_len n).
    { rewrite id_fill_spec. cbn [fst]. rewrite app_nil_r, nlen_map, b128_digits_len. lia. }
    pose proof (bytes_len_small n Hn). set (l := fst (id_fill (N.to_nat (number_bytes_len n)) n [])) in *. clearbody l.
    destruct l as [|y l _] using rev_ind.
    + cbn [map_last] in E. injection E as <-. vm_compute. discriminate.
    + rewrite app_comm_cons, map_last_snoc in E. injection E as <-. rewrite ?nlen_app, ?nlen_cons, ?nlen_nil in NL. repeat rewrite ?nlen_app, ?nlen_cons, ?nlen_nil. unfold isize_max. lia.
Qed.
Lemma pstep_good h0 h v e o : pgood h0 e v h -> plegal o e -> meets al (praw L al o v h) (pgood h0 (pstep o e)).
Proof.
  intros (E & own & HI & HT) HL.
  destruct o as [i c p n|i c p n bs|i k|i k|i n|i t z bs|i b|i bs|i f|i bs spare|i|i j|i]; cbn [plegal pstep praw] in *.
  - (* Id::new *)
    destruct HL as (He & Hn). destruct (pempty_slot _ _ _ _ _ _ _ HI HT He) as (_ & Ho).
    destruct (Id_new_ok c p n) as (bs & _ & Hi). eapply (pput _ _ _ _ _ _ _ _ bs); eauto; try exact I; [now apply (identifier_small _ _ _ _ Hn Hi)|].
    rewrite Ho. now apply id_new_result.
  - (* an owned identifier *)
    destruct HL as (He & Hi & Hs). eapply from_bytes_good; eauto; try exact I. apply is_identifier_ok. now exists c, p, n.
  - (* set_class *)
    pose proof (pslot h0 h v E own e i HI HT) as PS. destruct (e i) as [|c p n| |]; try contradiction.
    destruct (PS I) as (r & b & bs & Ev & R & Hb & Hi & Hs). cbn [pencodes] in Hi. rewrite Ev.
    destruct (set_class_result k c p n r h b (own i) bs R Hb Hi) as (bs' & r' & h' & K & C & Hi' & Hl).
    eapply (pput _ _ _ _ _ _ _ _ bs'); eauto; try exact I; [lia | eapply meets_done; [exact K | exact C]].
  - (* set_pc *)
    pose proof (pslot h0 h v E own e i HI HT) as PS. destruct (e i) as [|c p n| |]; try contradiction.
    destruct (PS I) as (r & b & bs & Ev & R & Hb & Hi & Hs). cbn [pencodes] in Hi. rewrite Ev.
    destruct (set_pc_result k c p n r h b (own i) bs R Hb Hi) as (bs' & r' & h' & K & C & Hi' & Hl).
    eapply (pput _ _ _ _ _ _ _ _ bs'); eauto; try exact I; [lia | eapply meets_done; [exact K | exact C]].
  - (* set_number *)
    pose proof (pslot h0 h v E own e i HI HT) as PS. destruct (e i) as [|c p m| |]; try contradiction.
    destruct (PS I) as (r & b & bs & Ev & R & Hb & Hi & Hs). cbn [pencodes] in Hi. rewrite Ev.
    assert (X : exists bs', identifier c p n bs').
    { assert (Hc : c < 4 /\ p < 2) by (destruct Hi; auto). destruct Hc as [Hc Hp]. destruct (class_num_surj c Hc) as [kc <-].
      destruct (pc_num_surj p Hp) as [kp <-]. destruct (Id_new_ok kc kp n) as (bs' & _ & H). eauto. }
    destruct X as (bs' & Hi'). eapply (pput _ _ _ _ _ _ _ _ bs'); eauto; try exact I; [now apply (identifier_small _ _ _ _ HL Hi')|].
    eapply set_number_result; eassumption.
  - (* an integer *)
    destruct HL as (He & Hr & Hok & Hs & Hv). destruct (pempty_slot _ _ _ _ _ _ _ HI HT He) as (_ & Ho).
    destruct (from_int_result t z h bs Hr Hok Hs Hv) as (Hl & K). eapply (pput _ _ _ _ _ _ _ _ bs); eauto; try exact I; [now split|]. now rewrite Ho.
  - (* a boolean *)
    eapply from_bytes_good; eauto; try exact I; [| destruct b; now repeat constructor | destruct b; vm_compute; discriminate].
    cbn [pencodes]. split; [reflexivity | destruct b; now repeat constructor].
  - (* octets *)
    destruct HL as (He & Hok & Hs). eapply from_bytes_good; eauto; try exact I; [now split].
  - (* edit *)
    pose proof (pslot h0 h v E own e i HI HT) as PS. destruct (e i) as [| |c|]; try contradiction.
    destruct (PS I) as (r & b & bs & Ev & R & Hb & [-> Hok] & Hs). rewrite Ev. destruct HL as (Hn & Hf).
    destruct (edit_result f r h b (own i) c R Hb Hn Hf) as (r' & h' & K & C).
    eapply (pput _ _ _ _ _ _ _ _ (f c)); eauto; try exact I; [now split | lia | eapply meets_done; [exact K | exact C]].
  - (* a vector *)
    destruct HL as (He & Hok & Hs). destruct (pempty_slot _ _ _ _ _ _ _ HI HT He) as (EE & Ho).
    change (praw L al (PVecNew i bs spare) v) with (rstep L al (OVec i bs spare) v).
    eapply (pfrom_buffers h0 h v E own _ (OVec i bs spare)); [exact HI | |].
    + cbn [estep]. rewrite EE. apply N.leb_le in Hs. rewrite Hs, (octets_true bs Hok). reflexivity.
    + apply pupd_match; [assumption|]. eexists. split; [reflexivity | assumption].
  - (* contents from a vector *)
    pose proof (HT i) as Ti. destruct (e i) as [| | |bs] eqn:Ei; try contradiction. cbn [pmatch] in Ti. destruct Ti as (x & Ee & Hok).
    assert (Hs : nlen bs <= isize_max).
    { destruct HI as (I1 & _). specialize (I1 i). rewrite Ee in I1. destruct (v i) as [|r|w]; try contradiction.
      destruct I1 as (bs0 & sp & (_ & A & B & _) & C & _). rewrite nlen_app in A. lia. }
    eapply (pfrom_buffers h0 h v E own _ (OFromVec i)); [exact HI | |].
    + cbn [estep]. rewrite Ee. reflexivity.
    + apply pupd_match; [assumption|]. apply pmatch_make; [exact I | now split | assumption].
  - (* clone *)
    destruct HL as (Ht & He). destruct (pempty_slot _ _ _ _ _ _ _ HI HT He) as (EE & Ho).
    destruct (pmatch_buf _ _ Ht (HT i)) as (bs & x & Hen & Hs & Ee).
    eapply (pfrom_buffers h0 h v E own _ (OClone i j)); [exact HI | |].
    + cbn [estep]. rewrite EE, Ee. reflexivity.
    + apply pupd_match; [assumption|]. rewrite take_known. now apply pmatch_make.
  - (* drop *)
    eapply (pfrom_buffers h0 h v E own _ (ODrop i)); [exact HI | reflexivity |]. apply pupd_match; [assumption | reflexivity].
Qed.
Lemma psteps_good os : forall h0 h v e, pgood h0 e v h -> all_plegal os e -> meets al (praws L al os v h) (pgood h0 (psteps os e)).
Proof.
  induction os as [|o os IH]; intros h0 h v e HG HL; cbn [all_plegal praws psteps] in *; [exact HG|].
  destruct HL as [H1 H2]. eapply meets_bind; [eapply pstep_good; eassumption|]. intros v1 h1 G1. now apply IH.
Qed.
Lemma pmatch_shows h x t e own : vmatch L Rp h x e own -> pmatch t e -> pshows L h x t.
Proof.
  intros V T. destruct t as [|c p n|c|bs]; cbn [pmatch] in T.
  - subst e. destruct x; cbn in *; auto.
  - destruct T as (bs & y & He & Hs & ->). destruct x as [|r|w]; try contradiction. destruct (tmatch_holds L al Rp BR _ _ _ _ _ V) as (b & R & Hb).
    exists bs. split; [assumption|]. rewrite (rp_slice L al Rp BR _ _ _ _ R), (rp_len L al Rp BR _ _ _ _ R), (holds_slice _ _ Hb), (holds_len _ _ Hb). auto.
  - destruct T as (bs & y & He & Hs & ->). destruct x as [|r|w]; try contradiction. destruct (tmatch_holds L al Rp BR _ _ _ _ _ V) as (b & R & Hb).
    exists bs. split; [assumption|]. rewrite (rp_slice L al Rp BR _ _ _ _ R), (rp_len L al Rp BR _ _ _ _ R), (holds_slice _ _ Hb), (holds_len _ _ Hb). auto.
  - destruct T as (y & -> & Hok). pose proof (vmatch_shows L al Rp BR _ _ _ _ V) as S. destruct x as [|r|w]; try contradiction.
    cbn [shows] in S. destruct S as (A & _ & _ & bs' & B & C & D). rewrite take_known in D. cbn [pshows].
    split; [|assumption]. rewrite B. f_equal. rewrite <- (app_nil_r (map Some bs)) in D. destruct (fits_known _ _ _ D) as (s & ->).
    rewrite nlen_app in C. rewrite (nlen_zero s) by lia. apply app_nil_r.
Qed.
Theorem parts_program os h0 : all_plegal os pempty ->
  meets al (praws L al os vempty h0) (fun v h =>
    (forall i, pshows L h (v i) (psteps os pempty i)) /\
    (forall a c, h_get a h0 = Some c -> h_get a h = Some c) /\
    ((forall i, psteps os pempty i = PEmpty) -> forall a, h_get a h = h_get a h0)).
Proof.
  intros HL. eapply meets_mono; [apply (psteps_good os h0 h0 vempty pempty); [|assumption]|].
  - exists eempty, (fun _ => None). split; [split; [|split; [|split]]|].
    + intros i. reflexivity.
    + intros i j a [=].
    + intros i a [=].
    + reflexivity.
    + reflexivity.
  - intros v h (E & own & (I1 & I2 & I3 & I4) & HT). split; [|split].
    + intros i. eapply pmatch_shows; [apply I1 | apply HT].
    + intros a c Hc. rewrite I4; [assumption|]. intros i Hi. apply I3 in Hi. congruence.
    + intros He a. apply I4. intros i Hi. specialize (I1 i). specialize (HT i). rewrite He in HT. cbn in HT. rewrite HT, Hi in I1.
      destruct (v i); try contradiction. discriminate.
Qed.
End PARTS.
