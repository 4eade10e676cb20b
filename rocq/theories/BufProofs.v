(** Lemmas about the abstract buffer and about values built in it. *)
From Verif Require Import Base ModelIo ModelTag ModelContents ModelBuf ModelTlv Spec TagProofs IdProofs TagMain TlvProofs.

Lemma rbind_ok {A B} (r : res A) (k : A -> res B) a : r = Ok a -> rbind r k = k a.
Proof. now intros ->. Qed.

Lemma split_at {A} n (l : list A) : n <= nlen l -> exists a b, l = a ++ b /\ nlen a = n.
Proof. intros H. exists (take n l), (drop n l). rewrite take_drop, nlen_take. split; [reflexivity | lia]. Qed.

Lemma junk_from_len f k : forall s, nlen (junk_from f s k) = N.of_nat k.
Proof. induction k as [|k IH]; intros s; cbn [junk_from]; [reflexivity|]. rewrite nlen_cons, IH. lia. Qed.
Lemma fresh_len cfg n : nlen (fresh cfg n) = n.
Proof. unfold fresh. rewrite junk_from_len. lia. Qed.
Lemma junk_from_ok f k : forall s, bytes_ok (junk_from f s k).
Proof.
  induction k as [|k IH]; intros s; cbn [junk_from]; [constructor|].
  apply bytes_ok_cons. split; [apply N.mod_lt; lia | apply IH].
Qed.
Lemma fresh_ok cfg n : bytes_ok (fresh cfg n).
Proof. apply junk_from_ok. Qed.

(** [b] holds exactly [bs] (and any spare octets). *)
Definition holds (b : buf) (bs : list N) : Prop :=
  exists spare, b_mem b = bs ++ spare /\ b_len b = nlen bs /\ bytes_ok spare.

Lemma holds_slice b bs : holds b bs -> bf_slice b = bs.
Proof. intros (s & E & L & _). unfold bf_slice. rewrite E, L. apply take_app_exact. Qed.
Lemma holds_len b bs : holds b bs -> b_len b = nlen bs.
Proof. intros (s & _ & L & _). exact L. Qed.
Lemma holds_new cfg : holds (bf_new cfg) [].
Proof.
  exists (b_mem (bf_new cfg)). repeat split. cbn. unfold bytes_ok. apply Forall_forall.
  intros x H. apply repeat_spec in H. subst x. reflexivity.
Qed.

Lemma reserve_ok cfg k b bs : holds b bs -> nlen bs + k <= isize_max ->
  exists b' spare, bf_reserve cfg k b = Ok b' /\ b_mem b' = bs ++ spare /\ b_len b' = nlen bs /\ k <= nlen spare /\ bytes_ok spare.
Proof.
  intros (s & E & L & Hs) Hk. unfold bf_reserve, bf_cap. rewrite E, L, nlen_app.
  destruct (N.leb_spec (nlen bs + k) (nlen bs + nlen s)) as [H|H].
  - exists b, s. repeat split; auto. lia.
  - destruct (N.ltb_spec isize_max (nlen bs + k)); [lia|].
    destruct (b_heap b); cbv zeta.
    + eexists _, (s ++ fresh cfg _). cbn [b_mem b_len]. split; [reflexivity|].
      rewrite <- app_assoc. split; [reflexivity|]. split; [reflexivity|]. split.
      * rewrite nlen_app, fresh_len, nlen_app. lia.
      * apply bytes_ok_app. split; [assumption | apply fresh_ok].
    + eexists _, (fresh cfg _). cbn [b_mem b_len]. split; [reflexivity|].
      rewrite take_app_exact. split; [reflexivity|]. split; [reflexivity|]. split.
      * rewrite fresh_len. lia.
      * apply fresh_ok.
Qed.
Lemma with_capacity_ok cfg k : k <= isize_max ->
  exists b, bf_with_capacity cfg k = Ok b /\ b_len b = 0 /\ k <= nlen (b_mem b) /\ bytes_ok (b_mem b).
Proof.
  intros H. destruct (reserve_ok cfg k (bf_new cfg) [] (holds_new cfg)) as (b & s & E & M & L & K & Hs).
  { rewrite nlen_nil. lia. }
  exists b. cbn [app] in M. rewrite M. auto.
Qed.

Lemma mem_write_at pre x post src off : off = nlen pre -> nlen x = nlen src ->
  mem_write off src (pre ++ x ++ post) = Ok (pre ++ src ++ post).
Proof.
  intros -> L. unfold mem_write. rewrite !nlen_app, L.
  destruct (N.ltb_spec (nlen pre + (nlen src + nlen post)) (nlen pre + nlen src)); [lia|].
  f_equal. rewrite take_app_exact. do 2 f_equal.
  rewrite drop_app_ge by lia. replace (nlen pre + nlen src - nlen pre) with (nlen x) by lia. apply drop_app_exact.
Qed.
Lemma mem_read_at pre x post off n : off = nlen pre -> n = nlen x -> mem_read off n (pre ++ x ++ post) = Ok x.
Proof.
  intros -> ->. unfold mem_read. rewrite !nlen_app.
  destruct (N.ltb_spec (nlen pre + (nlen x + nlen post)) (nlen pre + nlen x)); [lia|].
  now rewrite drop_app_exact, take_app_exact.
Qed.
Lemma bf_write_at pre x post src off b : b_mem b = pre ++ x ++ post -> off = nlen pre -> nlen x = nlen src ->
  bf_write off src b = Ok {| b_mem := pre ++ src ++ post; b_len := b_len b; b_heap := b_heap b |}.
Proof. intros E Ho L. unfold bf_write. rewrite E, (mem_write_at pre x post) by assumption. reflexivity. Qed.

Lemma extend_ok b bs spare vals : b_mem b = bs ++ spare -> b_len b = nlen bs -> nlen vals <= nlen spare -> bytes_ok spare ->
  exists b' spare', bf_extend vals b = Ok b' /\ b_mem b' = (bs ++ vals) ++ spare' /\ b_len b' = nlen (bs ++ vals) /\
    nlen spare' = nlen spare - nlen vals /\ bytes_ok spare'.
Proof.
  intros E L H Hs. destruct (split_at _ _ H) as (x & sp & -> & Lx).
  apply bytes_ok_app in Hs as [_ Hs].
  unfold bf_extend. rewrite (bf_write_at bs x sp vals _ b) by (rewrite ?E; auto).
  cbn [rbind b_len]. unfold bf_set_len, bf_cap. cbn [b_mem b_len b_heap]. rewrite !nlen_app, L.
  destruct (N.ltb_spec (nlen bs + (nlen vals + nlen sp)) (nlen bs + nlen vals)); [lia|].
  eexists _, sp. split; [reflexivity|]. cbn [b_mem b_len]. rewrite <- app_assoc.
  repeat split; auto. lia.
Qed.

(** ** lengths of length octets *)
Lemma byte_len_mono n m : 0 < n -> n <= m -> byte_len n <= byte_len m.
Proof.
  intros Hn Hm. apply byte_len_le; [|assumption].
  destruct (byte_len_bounds m ltac:(lia)) as [_ [_ B]]. now apply N.le_lt_trans with m.
Qed.
Lemma Length_len_mono n m : n <= m -> Length_len (Definite n) <= Length_len (Definite m).
Proof.
  intros H. unfold Length_len. change LEN_MAX_SHORT with 127.
  destruct (N.leb_spec n 127) as [A|A], (N.leb_spec m 127) as [B|B]; cbv iota; [lia|lia|lia|].
  pose proof (byte_len_mono n m ltac:(lia) H). lia.
Qed.
Lemma len_len n : n < 2 ^ 64 -> nlen (Length_to_bytes (Definite n)) = Length_len (Definite n).
Proof. intros H. apply Length_to_bytes_len. intros m [= <-]. assumption. Qed.
Lemma minimal_is_to_bytes n l : n < 2 ^ 64 -> minimal_length n l -> l = Length_to_bytes (Definite n).
Proof. intros H M. eapply minimal_length_fun; [eassumption | now apply Length_to_bytes_minimal]. Qed.

Lemma isize_lt : isize_max < 2 ^ 64. Proof. reflexivity. Qed.
Lemma usize_is : usize_limit = 2 ^ 64. Proof. reflexivity. Qed.
Lemma add_usize_ok x y : x + y < 2 ^ 64 -> add_usize x y = Ok (x + y).
Proof. intros H. unfold add_usize. rewrite usize_is. destruct (N.ltb_spec (x + y) (2 ^ 64)); [reflexivity | lia]. Qed.
Lemma sub_usize_ok x y : y <= x -> sub_usize x y = Ok (x - y).
Proof. intros H. unfold sub_usize. destruct (N.ltb_spec x y); [lia | reflexivity]. Qed.

(** ** taking values apart *)
Lemma tlv_parts_definite id n len c : is_identifier id -> minimal_length n len -> n < 2 ^ 64 ->
  tlv_id (id ++ len ++ c) = Ok id /\ tlv_length (id ++ len ++ c) = Ok (Definite n) /\
  tlv_contents (id ++ len ++ c) = Ok c /\ disassemble (id ++ len ++ c) = Ok (id, Definite n, c).
Proof.
  intros Hi Hm Hn. unfold tlv_length, tlv_contents, tlv_id, disassemble.
  rewrite parse_id_unchecked_ok by assumption. cbn [rbind].
  rewrite (parse_length_unchecked_definite n) by assumption. auto.
Qed.
Lemma tlv_parts_indefinite id c : is_identifier id ->
  tlv_id (id ++ 0x80 :: c) = Ok id /\ tlv_length (id ++ 0x80 :: c) = Ok Indefinite /\
  tlv_contents (id ++ 0x80 :: c) = Ok c /\ disassemble (id ++ 0x80 :: c) = Ok (id, Indefinite, c).
Proof.
  intros Hi. unfold tlv_length, tlv_contents, tlv_id, disassemble.
  rewrite parse_id_unchecked_ok by assumption. cbn [rbind].
  rewrite parse_length_unchecked_indefinite. auto.
Qed.

(** ** building *)
Lemma with_header_ok cfg id len n : nlen id + nlen len + n <= isize_max ->
  exists b c, with_header cfg id len n = Ok b /\ holds b (id ++ len ++ c) /\ nlen c = n /\ bytes_ok c.
Proof.
  intros H. pose proof isize_lt. unfold with_header.
  rewrite add_usize_ok by lia. cbn [rbind]. rewrite add_usize_ok by lia. cbn [rbind].
  destruct (with_capacity_ok cfg _ H) as (b & -> & L & Hc & Hok). cbn [rbind].
  destruct (split_at (nlen id) (b_mem b)) as (x & r & E & Lx); [lia|].
  destruct (split_at (nlen len) r) as (y & r2 & -> & Ly). { rewrite E, nlen_app in Hc. lia. }
  destruct (split_at n r2) as (c & t & -> & Lc). { rewrite E, !nlen_app in Hc. lia. }
  rewrite (bf_write_at [] x (y ++ c ++ t) id 0 b) by (auto; rewrite nlen_nil; reflexivity). cbn [rbind app].
  rewrite (bf_write_at id y (c ++ t) len (nlen id)) by (auto; reflexivity). cbn [rbind].
  unfold bf_set_len, bf_cap. cbn [b_mem b_len b_heap]. rewrite !nlen_app, Lc.
  destruct (N.ltb_spec (nlen id + (nlen len + (n + nlen t))) (nlen id + nlen len + n)); [lia|].
  rewrite E, !bytes_ok_app in Hok.
  eexists _, c. split; [reflexivity|]. split; [|tauto].
  exists t. cbn [b_mem b_len]. rewrite <- !app_assoc, !nlen_app, Lc. split; [reflexivity|]. split; [lia | tauto].
Qed.
Lemma set_contents_ok b pre c c' : holds b (pre ++ c) -> tlv_contents (pre ++ c) = Ok c -> nlen c = nlen c' ->
  exists b', buf_set_contents c' b = Ok b' /\ holds b' (pre ++ c').
Proof.
  intros H Hc L. unfold buf_set_contents. rewrite (holds_slice _ _ H), Hc. cbn [rbind].
  rewrite L, N.eqb_refl. destruct H as (s & E & Lb & Hs). rewrite <- app_assoc in E.
  rewrite (bf_write_at pre c s c' _ b) by (auto; rewrite nlen_app; lia).
  eexists. split; [reflexivity|]. exists s. cbn [b_mem b_len]. rewrite Lb, !nlen_app, L, <- app_assoc. auto.
Qed.
Lemma Der_new_ok cfg id c : is_identifier id ->
  nlen id + Length_len (Definite (nlen c)) + nlen c <= isize_max ->
  exists b, Der_new cfg id c = Ok b /\ holds b (id ++ Length_to_bytes (Definite (nlen c)) ++ c).
Proof.
  intros Hi H. pose proof isize_lt. unfold Der_new, Der_with_id_length.
  destruct (with_header_ok cfg id (Length_to_bytes (Definite (nlen c))) (nlen c)) as (b & x & -> & Hb & Lx & Hx).
  { rewrite len_len by lia. lia. }
  cbn [rbind]. rewrite app_assoc in Hb.
  destruct (set_contents_ok b (id ++ Length_to_bytes (Definite (nlen c))) x c Hb) as (b' & E & H'); auto.
  - rewrite <- app_assoc. apply (tlv_parts_definite id (nlen c)); auto; [|lia].
    apply Length_to_bytes_minimal. lia.
  - exists b'. split; [assumption|]. now rewrite app_assoc.
Qed.
Lemma Ber_new_indefinite_ok cfg id c : is_identifier id -> nlen id + 1 + nlen c <= isize_max ->
  exists b, Ber_new_indefinite cfg id c = Ok b /\ holds b (id ++ 0x80 :: c).
Proof.
  intros Hi H. unfold Ber_new_indefinite, Ber_with_id_length_indefinite.
  destruct (with_header_ok cfg id (Length_to_bytes Indefinite) (nlen c)) as (b & x & -> & Hb & Lx & Hx).
  { exact H. }
  cbn [rbind]. rewrite app_assoc in Hb.
  destruct (set_contents_ok b (id ++ Length_to_bytes Indefinite) x c Hb) as (b' & E & H'); auto.
  - rewrite <- app_assoc. apply (tlv_parts_indefinite id x). assumption.
  - exists b'. split; [assumption|]. rewrite <- app_assoc in H'. exact H'.
Qed.

Lemma total_length_ok items : forall acc, acc + nlen (concat items) < 2 ^ 64 ->
  total_length acc items = Ok (acc + nlen (concat items)).
Proof.
  induction items as [|i items IH]; intros acc H; cbn [total_length concat].
  - rewrite nlen_nil. f_equal. lia.
  - cbn [concat] in H. rewrite nlen_app in *. rewrite add_usize_ok by lia. cbn [rbind]. rewrite IH by lia. f_equal. lia.
Qed.
Lemma extend_all_ok items : forall b bs spare, b_mem b = bs ++ spare -> b_len b = nlen bs ->
  nlen (concat items) <= nlen spare -> bytes_ok spare ->
  exists b', extend_all items b = Ok b' /\ holds b' (bs ++ concat items).
Proof.
  induction items as [|i items IH]; intros b bs spare E L H Hs; cbn [extend_all concat] in *.
  - exists b. split; [reflexivity|]. rewrite app_nil_r. exists spare. auto.
  - rewrite nlen_app in H. destruct (extend_ok b bs spare i E L) as (b1 & s1 & -> & E1 & L1 & Ls1 & Hs1); [lia | assumption |].
    cbn [rbind]. destruct (IH b1 (bs ++ i) s1 E1 L1) as (b' & E' & H'); [lia | assumption |].
    exists b'. split; [assumption|]. now rewrite app_assoc.
Qed.
Lemma from_iterator_ok cfg id lb items :
  nlen id + nlen (lb (nlen (concat items))) + nlen (concat items) <= isize_max ->
  exists b, from_iterator cfg id lb items = Ok b /\ holds b (id ++ lb (nlen (concat items)) ++ concat items).
Proof.
  intros H. pose proof isize_lt. unfold from_iterator.
  rewrite total_length_ok by lia. cbn [rbind]. rewrite N.add_0_l.
  rewrite add_usize_ok by lia. cbn [rbind]. rewrite add_usize_ok by lia. cbn [rbind].
  destruct (with_capacity_ok cfg _ H) as (b & -> & L & Hc & Hok). cbn [rbind].
  destruct (extend_ok b [] (b_mem b) id) as (b1 & s1 & -> & E1 & L1 & Ls1 & Hs1); auto; [lia|]. cbn [rbind].
  destruct (extend_ok b1 ([] ++ id) s1 (lb (nlen (concat items)))) as (b2 & s2 & -> & E2 & L2 & Ls2 & Hs2); auto; [lia|]. cbn [rbind].
  destruct (extend_all_ok items b2 _ s2 E2 L2) as (b' & E' & H'); [lia | assumption |].
  exists b'. split; [assumption|]. cbn [app] in H'. now rewrite app_assoc.
Qed.

(** ** growing and shrinking *)
Lemma move_ok b pre c rest src dest : b_mem b = pre ++ c ++ rest -> src = nlen pre -> 
  dest + nlen c <= nlen (b_mem b) ->
  exists p q, bf_move src dest (nlen c) b = Ok {| b_mem := p ++ c ++ q; b_len := b_len b; b_heap := b_heap b |} /\
    p = take dest (b_mem b) /\ q = drop (dest + nlen c) (b_mem b).
Proof.
  intros E -> H. exists (take dest (b_mem b)), (drop (dest + nlen c) (b_mem b)).
  unfold bf_move. rewrite E at 1. rewrite mem_read_at by auto. cbn [rbind].
  destruct (split_at dest (b_mem b)) as (x & r & Em & Lx); [lia|].
  destruct (split_at (nlen c) r) as (y & r2 & -> & Ly). { rewrite Em, nlen_app in H. lia. }
  split; [|auto]. rewrite (bf_write_at x y r2 c dest b) by auto.
  do 2 f_equal. rewrite Em. subst dest. rewrite take_app_exact. do 2 f_equal.
  rewrite drop_app_ge by lia. replace (nlen x + nlen c - nlen x) with (nlen y) by lia. now rewrite drop_app_exact.
Qed.

Lemma Der_extend_ok cfg b id c bytes : is_identifier id -> bytes_ok bytes -> bytes_ok c ->
  holds b (id ++ Length_to_bytes (Definite (nlen c)) ++ c) ->
  nlen id + Length_len (Definite (nlen c + nlen bytes)) + nlen c + nlen bytes <= isize_max ->
  exists b', Der_extend cfg bytes b = Ok b' /\
    holds b' (id ++ Length_to_bytes (Definite (nlen (c ++ bytes))) ++ c ++ bytes).
Proof.
  intros Hi Hbs Hcok H Hsz. pose proof isize_lt. rewrite nlen_app.
  set (L0 := Length_to_bytes (Definite (nlen c))) in *.
  set (L1 := Length_to_bytes (Definite (nlen c + nlen bytes))) in *.
  assert (HL0 : Length_len (Definite (nlen c)) = nlen L0) by (symmetry; apply len_len; lia).
  assert (HL1 : Length_len (Definite (nlen c + nlen bytes)) = nlen L1) by (symmetry; apply len_len; lia).
  assert (HM : nlen L0 <= nlen L1) by (rewrite <- HL0, <- HL1; apply Length_len_mono; lia).
  assert (Hm0 : minimal_length (nlen c) L0) by (apply Length_to_bytes_minimal; lia).
  destruct (tlv_parts_definite id (nlen c) L0 c Hi Hm0 ltac:(lia)) as (T1 & T2 & _ & _).
  unfold Der_extend. rewrite (holds_slice _ _ H), T1, T2. cbn [rbind]. cbv zeta.
  change (unwrap (Length_definite (Definite (nlen c)))) with (Ok (nlen c)). cbn [rbind].
  rewrite add_usize_ok by lia. cbn [rbind]. rewrite HL1, HL0.
  rewrite add_usize_ok by lia. cbn [rbind]. rewrite sub_usize_ok by lia. cbn [rbind].
  destruct (reserve_ok cfg (nlen bytes + nlen L1 - nlen L0) b _ H) as (b1 & sp & -> & M1 & Ln1 & Hsp & Hok1).
  { rewrite !nlen_app. lia. }
  cbn [rbind]. unfold bf_set_len at 1. unfold bf_cap.
  destruct (N.ltb_spec (nlen (b_mem b1)) (b_len b1 + (nlen bytes + nlen L1 - nlen L0))) as [X|_].
  { rewrite M1, Ln1, !nlen_app in X. lia. }
  cbn [rbind].
  remember {| b_mem := b_mem b1; b_len := b_len b1 + (nlen bytes + nlen L1 - nlen L0); b_heap := b_heap b1 |} as b2 eqn:Eb2.
  assert (M2 : b_mem b2 = id ++ L0 ++ c ++ sp) by (rewrite Eb2; cbn [b_mem]; rewrite M1, <- !app_assoc; reflexivity).
  assert (Ln2 : b_len b2 = nlen id + nlen L1 + nlen c + nlen bytes).
  { rewrite Eb2; cbn [b_len]. rewrite Ln1, !nlen_app. lia. }
  assert (Hok2 : bytes_ok (b_mem b2)).
  { rewrite M2, !bytes_ok_app. repeat split; auto; [now apply is_identifier_ok | now apply minimal_length_ok with (nlen c)]. }
  clear Eb2 M1 Ln1 b1.
  assert (St : exists b3 y q,
    (if nlen id + nlen L0 =? nlen id + nlen L1 then Ok b2 else bf_move (nlen id + nlen L0) (nlen id + nlen L1) (nlen c) b2) = Ok b3 /\
    b_mem b3 = id ++ y ++ c ++ q /\ nlen y = nlen L1 /\ nlen bytes <= nlen q /\ b_len b3 = b_len b2 /\ bytes_ok q).
  { destruct (N.eqb_spec (nlen id + nlen L0) (nlen id + nlen L1)) as [EQ|NE].
    - exists b2, L0, sp. repeat split; auto; lia.
    - destruct (move_ok b2 (id ++ L0) c sp (nlen id + nlen L0) (nlen id + nlen L1)) as (p & q & E & Ep & Eq).
      + rewrite M2, <- app_assoc. reflexivity.
      + now rewrite nlen_app.
      + rewrite M2, !nlen_app. lia.
      + rewrite M2 in Ep. rewrite take_app_ge in Ep by lia.
        exists {| b_mem := p ++ c ++ q; b_len := b_len b2; b_heap := b_heap b2 |}, (take (nlen id + nlen L1 - nlen id) (L0 ++ c ++ sp)), q.
        split; [assumption|]. cbn [b_mem b_len]. rewrite Ep, <- !app_assoc. split; [reflexivity|]. split.
        { rewrite nlen_take, !nlen_app. lia. }
        split; [|split; [reflexivity|]].
        { rewrite Eq, nlen_drop, M2, !nlen_app. lia. }
        { rewrite Eq. now apply bytes_ok_drop. } }
  destruct St as (b3 & y & q & -> & M3 & Ly & Hq & Ln3 & Hokq). cbn [rbind].
  destruct (split_at _ _ Hq) as (z & q2 & -> & Lz).
  rewrite (bf_write_at (id ++ y ++ c) z q2 bytes _ b3).
  2:{ rewrite M3, <- !app_assoc. reflexivity. }
  2:{ rewrite !nlen_app. lia. }
  2:{ assumption. }
  cbn [rbind b_len]. rewrite Ln3, Ln2.
  destruct (N.eqb_spec (nlen id + nlen L1 + nlen c + nlen bytes) (nlen id + nlen L1 + nlen c + nlen bytes)); [|lia].
  cbn [negb].
  rewrite (bf_write_at id y (c ++ bytes ++ q2) L1 (nlen id)).
  2:{ cbn [b_mem]. rewrite <- !app_assoc. reflexivity. }
  2:{ reflexivity. }
  2:{ assumption. }
  eexists. split; [reflexivity|]. exists q2. cbn [b_mem b_len]. rewrite <- !app_assoc, !nlen_app.
  split; [reflexivity|]. split; [lia|]. now apply bytes_ok_app in Hokq.
Qed.

Lemma Der_truncate_ok b id c n : is_identifier id -> bytes_ok c ->
  holds b (id ++ Length_to_bytes (Definite (nlen c)) ++ c) ->
  nlen c < 2 ^ 64 ->
  exists b', Der_truncate n b = Ok b' /\
    holds b' (id ++ Length_to_bytes (Definite (nlen (take n c))) ++ take n c).
Proof.
  intros Hi Hcok H Hsz.
  set (L0 := Length_to_bytes (Definite (nlen c))) in *.
  assert (Hm0 : minimal_length (nlen c) L0) by (apply Length_to_bytes_minimal; lia).
  assert (HL0 : Length_len (Definite (nlen c)) = nlen L0) by (symmetry; apply len_len; lia).
  destruct (tlv_parts_definite id (nlen c) L0 c Hi Hm0 ltac:(lia)) as (T1 & T2 & _ & _).
  unfold Der_truncate. rewrite (holds_slice _ _ H), T1, T2. cbn [rbind]. cbv zeta.
  change (unwrap (Length_definite (Definite (nlen c)))) with (Ok (nlen c)). cbn [rbind].
  destruct (N.leb_spec (nlen c) n) as [Hn|Hn].
  { exists b. split; [reflexivity|]. now rewrite take_ge. }
  fold L0. destruct (split_at n c) as (c1 & c2 & -> & Lc1); [lia|]. subst n. rewrite take_app_exact.
  set (L1 := Length_to_bytes (Definite (nlen c1))).
  assert (HL1 : Length_len (Definite (nlen c1)) = nlen L1) by (symmetry; apply len_len; lia).
  assert (HM : nlen L1 <= nlen L0) by (rewrite <- HL0, <- HL1; apply Length_len_mono; lia).
  destruct H as (sp & M & Ln & Hok).
  destruct (split_at _ _ HM) as (x & y & EL & Lx).
  rewrite (bf_write_at id x (y ++ (c1 ++ c2) ++ sp) L1 (nlen id) b).
  2:{ rewrite M, EL, <- !app_assoc. reflexivity. }
  2:{ reflexivity. }
  2:{ assumption. }
  cbn [rbind]. apply bytes_ok_app in Hcok as [Hc1 Hc2].
  assert (Hy : bytes_ok y). { pose proof (minimal_length_ok _ _ Hm0) as K. rewrite EL in K. now apply bytes_ok_app in K. }
  set (b2 := {| b_mem := id ++ L1 ++ y ++ (c1 ++ c2) ++ sp; b_len := b_len b; b_heap := b_heap b |}).
  assert (St : exists b3 q,
    (if nlen L1 <? nlen L0 then bf_move (nlen id + nlen L0) (nlen id + nlen L1) (nlen c1) b2 else Ok b2) = Ok b3 /\
    b_mem b3 = id ++ L1 ++ c1 ++ q /\ bytes_ok q).
  { assert (L0L : nlen L0 = nlen L1 + nlen y) by (rewrite EL, nlen_app; lia).
    destruct (N.ltb_spec (nlen L1) (nlen L0)) as [LT|GE].
    - destruct (move_ok b2 (id ++ L1 ++ y) c1 (c2 ++ sp) (nlen id + nlen L0) (nlen id + nlen L1)) as (p & q & E & Ep & Eq).
      + unfold b2. cbn [b_mem]. rewrite <- !app_assoc. reflexivity.
      + rewrite !nlen_app. lia.
      + unfold b2. cbn [b_mem]. rewrite !nlen_app. lia.
      + exists {| b_mem := p ++ c1 ++ q; b_len := b_len b2; b_heap := b_heap b2 |}, q.
        split; [assumption|]. cbn [b_mem]. split.
        * rewrite Ep. unfold b2. cbn [b_mem].
          replace (nlen id + nlen L1) with (nlen (id ++ L1)) by (now rewrite nlen_app).
          rewrite (app_assoc id L1), take_app_exact, <- !app_assoc. reflexivity.
        * rewrite Eq. apply bytes_ok_drop. unfold b2. cbn [b_mem]. rewrite !bytes_ok_app.
          repeat split; auto; [now apply is_identifier_ok | ].
          apply minimal_length_ok with (nlen c1). apply Length_to_bytes_minimal. rewrite nlen_app in Hsz. lia.
    - assert (y = []) by (apply nlen_zero; lia). subst y. exists b2, (c2 ++ sp).
      split; [reflexivity|]. unfold b2. cbn [b_mem app]. rewrite <- !app_assoc. split; [reflexivity|]. apply bytes_ok_app; auto. }
  destruct St as (b3 & q & -> & M3 & Hq). cbn [rbind]. unfold bf_set_len, bf_cap. rewrite M3, !nlen_app.
  destruct (N.ltb_spec (nlen id + (nlen L1 + (nlen c1 + nlen q))) (nlen id + nlen L1 + nlen c1)); [lia|].
  eexists. split; [reflexivity|]. exists q. cbn [b_mem b_len]. rewrite <- !app_assoc, !nlen_app.
  split; [reflexivity|]. split; [lia | assumption].
Qed.

Lemma Ber_extend_indefinite cfg b id c bytes : is_identifier id ->
  holds b (id ++ 0x80 :: c) -> nlen id + 1 + nlen c + nlen bytes <= isize_max ->
  exists b', Ber_extend cfg bytes b = Ok b' /\ holds b' (id ++ 0x80 :: c ++ bytes).
Proof.
  intros Hi H Hsz. unfold Ber_extend. rewrite (holds_slice _ _ H).
  destruct (tlv_parts_indefinite id c Hi) as (_ & -> & _). cbn [rbind].
  destruct (reserve_ok cfg (nlen bytes) b _ H) as (b1 & sp & -> & M1 & Ln1 & Hsp & Hok1).
  { rewrite !nlen_app, nlen_cons. lia. }
  cbn [rbind]. destruct (extend_ok b1 _ sp bytes M1 Ln1 Hsp Hok1) as (b2 & s2 & E & M2 & L2 & _ & Hs2).
  unfold bf_extend in E. exists b2. split; [exact E|]. exists s2.
  replace (id ++ 0x80 :: c ++ bytes) with ((id ++ 0x80 :: c) ++ bytes) by (rewrite <- app_assoc; reflexivity). auto.
Qed.
Lemma Ber_truncate_indefinite b id c n : is_identifier id -> bytes_ok c -> nlen id + 1 + nlen c <= isize_max ->
  holds b (id ++ 0x80 :: c) ->
  exists b', Ber_truncate n b = Ok b' /\ holds b' (id ++ 0x80 :: take n c).
Proof.
  intros Hi Hok Hsz H. unfold Ber_truncate. rewrite (holds_slice _ _ H).
  destruct (tlv_parts_indefinite id c Hi) as (_ & -> & -> & _). cbn [rbind]. cbv zeta.
  destruct (N.leb_spec (nlen c) n) as [Hn|Hn].
  { exists b. split; [reflexivity|]. now rewrite take_ge. }
  destruct H as (sp & M & Ln & Hs). rewrite Ln, nlen_app, nlen_cons.
  assert (isize_max = 2 ^ 63 - 1) as EM by reflexivity.
  rewrite add_usize_ok by (change (2 ^ 64) with (2 ^ 63 + 2 ^ 63); lia). cbn [rbind]. rewrite sub_usize_ok by lia. cbn [rbind].
  unfold bf_set_len, bf_cap. rewrite M, !nlen_app, nlen_cons.
  destruct (N.ltb_spec (nlen id + (1 + nlen c) + nlen sp) (nlen id + (1 + nlen c) + n - nlen c)); [lia|].
  eexists. split; [reflexivity|]. exists (drop n c ++ sp). cbn [b_mem b_len]. split.
  - rewrite <- !app_assoc. cbn [app]. f_equal. f_equal. now rewrite app_assoc, take_drop.
  - split.
    + rewrite nlen_app, nlen_cons, nlen_take. lia.
    + apply bytes_ok_app. split; [now apply bytes_ok_drop | assumption].
Qed.
