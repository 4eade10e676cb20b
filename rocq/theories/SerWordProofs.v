(** Proofs about serialisation on other machines. *)
From Coq Require Import String Ascii.
From Verif Require Import Base ModelError ModelIo ModelTag ModelContents ModelBuf ModelTlv ModelSerde ModelAttr ModelDerive ModelWord ModelWordTlv ModelSerWord.
From Verif Require Import Spec SpecSerde SpecAttr SpecDerive SpecSerWord.
From Verif Require Import TagProofs IdProofs TagMain ContentsProofs TlvProofs BufProofs TlvMain SerdeOctets SerdeSer AttrProofs AttrParse DeriveProofs DeriveMain.
From Verif Require Import WordProofs WordTlvProofs.

(** ** Code that writes chunks *)
Lemma emits_or_emits P f bs : ~ P -> emits_or P f bs -> emits f bs.
Proof.
  intros NP (cs & E & F). exists cs. split; [assumption|]. intros S W s. destruct (F S W s) as [H|[H _]]; [assumption | contradiction].
Qed.
Lemma emits_emits_or P f bs : emits f bs -> emits_or P f bs.
Proof. intros (cs & E & F). exists cs. split; [assumption|]. intros S W s. left. apply F. Qed.
Lemma emits_or_impl (P Q : Prop) f bs : (P -> Q) -> emits_or P f bs -> emits_or Q f bs.
Proof. intros PQ (cs & E & F). exists cs. split; [assumption|]. intros S W s. destruct (F S W s) as [H|[H K]]; auto. Qed.
Lemma emits_or_ext P (f g : forall S, writer S -> wr S unit) bs :
  (forall S (W : writer S) s, f S W s = g S W s) -> emits_or P g bs -> emits_or P f bs.
Proof. intros EX (cs & E & F). exists cs. split; [assumption|]. intros S W s. rewrite EX. apply F. Qed.
Lemma emits_or_bind P f g a b : emits_or P f a -> emits_or P g b -> emits_or P (fun S W => do! _ := f S W in g S W) (a ++ b).
Proof.
  intros (cs & <- & F) (ds & <- & G). exists (cs ++ ds). split; [apply concat_app|].
  intros S W s. rewrite write_chunks_app. unfold wbind. destruct (F S W s) as [->|[HP H]].
  - destruct (write_chunks W cs s) as [[u|e| |] s']; auto.
  - right. split; [assumption|]. destruct (f S W s) as [[u|e| |] s']; try discriminate H. reflexivity.
Qed.
Lemma emits_or_lift P {A} (r : res A) a (g : forall S, writer S -> A -> wr S unit) bs :
  r = Ok a -> emits_or P (fun S W => g S W a) bs -> emits_or P (fun S W => do! x := wlift r in g S W x) bs.
Proof. intros ->. apply emits_or_ext. intros. reflexivity. Qed.
Lemma emits_or_panic (P : Prop) {A} (r : res A) (g : forall S, writer S -> A -> wr S unit) bs :
  P -> r = Panic -> emits_or P (fun S W => do! x := wlift r in g S W x) bs.
Proof. intros HP ->. exists [bs]. split; [apply app_nil_r|]. intros S W s. right. split; [assumption | reflexivity]. Qed.
Lemma emits_or_write_all P bs : emits_or P (fun _ W => write_all W bs) bs.
Proof. apply emits_emits_or, emits_write_all. Qed.

Section MACHINE.
Context (w : N) (rel : bool) (E : env).
Hypothesis H1 : 1 <= w.
Hypothesis H8 : w <= 8.
Hypothesis HC : init_cap (e_cfg E) <= word_max w.
Notation Max := (word_max w).
Notation Lim := (word_limit w).
Notation law := (w_law w rel).
Lemma ML : Max < Lim.
Proof. clear HC E. now apply max_limit. Qed.
Lemma max_127 : 127 <= Max.
Proof. clear HC E. pose proof (max_T w H1). pose proof (T_pos w H1). lia. Qed.
Lemma lim_64 n : n < Lim -> n < 2 ^ 64.
Proof. clear HC E. intros H. pose proof (limit_8 w H1 H8) as L. unfold usize_limit in L. lia. Qed.

(** ** Buffers *)
Definition fits (b : buf) (bs : list N) : Prop := holds b bs /\ bf_cap b <= Max.
Lemma fits_len b bs : fits b bs -> nlen bs <= Max.
Proof. clear. intros [(sp & M & _) L]. unfold bf_cap in L. rewrite M, nlen_app in L. lia. Qed.
Lemma fits_new : fits (bf_new (e_cfg E)) [].
Proof. clear H1 H8. split; [apply holds_new|]. unfold bf_cap, bf_new. cbn [b_mem]. rewrite nlen_repeat. lia. Qed.
Lemma w_reserve_spec k b bs : fits b bs ->
  (exists b' spare, w_bf_reserve w (e_cfg E) k b = Ok b' /\ b_mem b' = bs ++ spare /\ b_len b' = nlen bs /\ k <= nlen spare /\
     bytes_ok spare /\ bf_cap b' <= Max) /\ nlen bs + k <= Max \/
  w_bf_reserve w (e_cfg E) k b = Panic /\ Max < nlen bs + k.
Proof.
  clear HC. intros [H HM]. pose proof (holds_len _ _ H) as L. pose proof H as (s & EM & _ & Hs).
  unfold bf_cap in HM. rewrite EM, nlen_app in HM.
  destruct (N.ltb_spec Max (nlen bs + k)) as [B|B].
  - right. split; [|assumption]. unfold w_bf_reserve, bf_cap. rewrite L, EM, nlen_app.
    destruct (N.leb_spec (nlen bs + k) (nlen bs + nlen s)); [lia|]. destruct (N.ltb_spec Max (nlen bs + k)); [reflexivity | lia].
  - left. split; [|assumption]. pose proof (max_8 w H1 H8).
    destruct (reserve_ok (e_cfg E) k b bs H ltac:(lia)) as (b' & sp & ER & M & Lb & K & O). exists b', sp.
    rewrite w_reserve_eq by (try assumption; rewrite L; assumption). repeat (split; [assumption|]).
    unfold bf_reserve in ER. revert ER. unfold bf_cap. rewrite L, EM, nlen_app.
    destruct (N.leb_spec (nlen bs + k) (nlen bs + nlen s)); [intros [= <-]; rewrite EM, nlen_app; lia|].
    destruct (isize_max <? nlen bs + k); [discriminate|]. intros [= <-]. cbn [b_mem].
    rewrite nlen_app, fresh_len. destruct (b_heap b); [rewrite nlen_app|rewrite take_app_exact]; lia.
Qed.
Lemma x_write_all bs b pre : fits b pre ->
  (exists b', write_all (x_buf_writer w (e_cfg E)) bs b = (Ok tt, b') /\ fits b' (pre ++ bs)) \/
  fst (write_all (x_buf_writer w (e_cfg E)) bs b) = Panic /\ Max < nlen (pre ++ bs).
Proof.
  clear HC. intros H. unfold write_all. cbn [wr_fuel x_buf_writer]. destruct bs as [|x bs].
  { left. exists b. rewrite app_nil_r. split; [reflexivity | assumption]. }
  cbn [write_all_loop wr_write x_buf_writer]. unfold x_bf_io_write.
  destruct (w_reserve_spec (nlen (x :: bs)) b pre H) as [[(b1 & sp & E1 & M1 & L1 & K1 & O1 & C1) _]|[E1 B]].
  - left. rewrite E1. cbn [rbind].
    destruct (extend_ok b1 pre sp (x :: bs) M1 L1 K1 O1) as (b2 & sp2 & E2 & M2 & L2 & N2 & O2).
    rewrite E2. destruct (N.eqb_spec (nlen (x :: bs)) 0) as [Z|_]; [rewrite nlen_cons in Z; lia|].
    rewrite N.ltb_irrefl. rewrite drop_ge by lia. cbn [write_all_loop]. exists b2. split; [reflexivity|].
    split; [exists sp2; auto|]. unfold bf_cap in *. rewrite M1 in C1. rewrite M2. rewrite !nlen_app in *. lia.
  - right. rewrite E1. cbn [rbind fst]. split; [reflexivity|]. now rewrite nlen_app.
Qed.
Lemma x_write_chunks cs : forall b pre, fits b pre ->
  (exists b', write_chunks (x_buf_writer w (e_cfg E)) cs b = (Ok tt, b') /\ fits b' (pre ++ concat cs)) \/
  fst (write_chunks (x_buf_writer w (e_cfg E)) cs b) = Panic /\ Max < nlen (pre ++ concat cs).
Proof.
  clear HC. induction cs as [|c cs IH]; intros b pre H; cbn [concat write_chunks] in *.
  - left. exists b. rewrite app_nil_r. split; [reflexivity | assumption].
  - unfold wbind. destruct (x_write_all c b pre H) as [(b1 & E1 & F1)|[E1 B1]].
    + rewrite E1. rewrite app_assoc. apply IH. assumption.
    + right. split; [|rewrite app_assoc, nlen_app; lia].
      destruct (write_all (x_buf_writer w (e_cfg E)) c b) as [[u|e| |] s']; try discriminate E1. reflexivity.
Qed.
Lemma emits_or_buffer (P : Prop) f bs b pre : emits_or P f bs -> (P -> Max < nlen (pre ++ bs)) -> fits b pre ->
  (exists b', in_buffer (f buf (x_buf_writer w (e_cfg E)) b) = Ok b' /\ fits b' (pre ++ bs)) \/
  in_buffer (f buf (x_buf_writer w (e_cfg E)) b) = Panic /\ Max < nlen (pre ++ bs).
Proof.
  clear HC. intros (cs & <- & F) PB H. destruct (F _ (x_buf_writer w (e_cfg E)) b) as [->|[HP K]].
  - destruct (x_write_chunks cs b pre H) as [(b' & -> & H')|[K B]].
    + left. exists b'. split; [reflexivity | assumption].
    + right. split; [|assumption]. destruct (write_chunks _ cs b) as [[u|e| |] s']; try discriminate K. reflexivity.
  - right. split; [|auto]. destruct (f _ _ b) as [[u|e| |] s']; try discriminate K. reflexivity.
Qed.

(** ** The entry points *)
Lemma x_add_spec a b : x_add w rel a b = Ok (a + b) /\ a + b < Lim \/ Lim <= a + b /\ (rel = false -> x_add w rel a b = Panic).
Proof.
  clear. unfold x_add, w_add_usize. destruct (N.ltb_spec (a + b) Lim) as [H|H].
  - left. split; [|assumption]. destruct rel; [now rewrite N.mod_small | reflexivity].
  - right. split; [assumption|]. now intros ->.
Qed.
(** Sums that count octets of which no more than isize::MAX are asked. *)
Lemma x_add_asked (a b : N) (bs : list N) : a + b <= nlen bs -> asked w rel bs ->
  x_add w rel a b = Ok (a + b) /\ a + b < Lim \/ x_add w rel a b = Panic /\ Max < nlen bs.
Proof.
  clear HC. intros L A. pose proof ML. destruct (x_add_spec a b) as [S|[G K]]; [now left|]. right.
  unfold asked in A. destruct rel; [specialize (A eq_refl); lia|]. split; [now apply K | lia].
Qed.
Lemma asked_le bs bs' : nlen bs <= nlen bs' -> asked w rel bs' -> asked w rel bs.
Proof. clear. unfold asked. intros L A R. specialize (A R). lia. Qed.
Lemma w_octets_eq n : n < Lim -> w_Length_to_bytes w (Definite n) = Ok (length_octets n).
Proof. clear HC. intros H. rewrite w_to_bytes_eq by assumption. f_equal. apply length_octets_eq. now apply lim_64. Qed.
Lemma w_octets_len n : n < Lim -> w_Length_len w (Definite n) = nlen (length_octets n).
Proof. clear HC. intros H. rewrite w_Length_len_eq by assumption. symmetry. apply length_octets_len. now apply lim_64. Qed.

Lemma x_contents_or_len_ok {T} (D : serialize T) v id c : w_serialises w D v id c ->
  (exists o, x_contents_or_len w E D v = Ok (nlen c, o) /\ nlen c < Lim /\ match o with None => True | Some b => holds b c end) \/
  x_contents_or_len w E D v = Panic /\ Max < nlen c.
Proof.
  intros [_ SC _ SL]. unfold x_contents_or_len. destruct SL as [->|[[-> L]|[B ->]]]; cbn [rbind].
  - destruct (emits_or_buffer _ _ _ (bf_new (e_cfg E)) [] SC (fun H => H) fits_new) as [(b & Eb & Hb)|[Eb B]]; rewrite Eb; cbn [rbind].
    + left. exists (Some b). pose proof (fits_len _ _ Hb). pose proof ML. destruct Hb as [Hb _]. rewrite (holds_len _ _ Hb).
      cbn [app] in *. split; [reflexivity|]. split; [lia | assumption].
    + right. split; [reflexivity | assumption].
  - left. exists None. auto.
  - right. auto.
Qed.
Lemma x_write_der_emits {T} (D : serialize T) v id c : w_serialises w D v id c ->
  emits_or (Max < nlen c) (fun _ W => x_write_der w E D W v) (tlv id c).
Proof.
  intros SS. unfold x_write_der. destruct (x_contents_or_len_ok D v id c SS) as [(o & Eo & L & Ho)|[Eo B]].
  - apply (emits_or_lift _ _ _ _ _ Eo). cbn [fst snd]. apply (emits_or_lift _ _ _ _ _ (w_octets_eq _ L)).
    unfold tlv. apply emits_or_bind; [apply emits_emits_or, SS|]. apply emits_or_bind; [apply emits_or_write_all|].
    destruct o as [b|]; [rewrite (holds_slice _ _ Ho); apply emits_or_write_all | apply SS].
  - now apply emits_or_panic.
Qed.
Lemma x_to_der_ok {T} (D : serialize T) v id c : w_serialises w D v id c ->
  (exists b, x_to_der w rel E D v = Ok b /\ fits b (tlv id c)) \/ x_to_der w rel E D v = Panic /\ Max < nlen (tlv id c).
Proof.
  intros SS. unfold x_to_der. pose proof (tlv_contents_le id c) as TL.
  destruct (x_contents_or_len_ok D v id c SS) as [(o & Eo & L & Ho)|[Eo B]]; rewrite Eo; cbn [rbind]; [|right; split; [reflexivity | lia]].
  rewrite w_octets_eq by assumption. cbn [rbind].
  assert (exists il, id_len D v = Ok il /\
    ((exists b0, fits b0 [] /\ match il with
    | Some n => let! t := x_add w rel n (nlen (length_octets (nlen c))) in
                let! der_len := x_add w rel t (nlen c) in w_bf_reserve w (e_cfg E) der_len (bf_new (e_cfg E))
    | None => Ok (bf_new (e_cfg E))
    end = Ok b0) \/ Max < nlen (tlv id c) /\ match il with
    | Some n => let! t := x_add w rel n (nlen (length_octets (nlen c))) in
                let! der_len := x_add w rel t (nlen c) in w_bf_reserve w (e_cfg E) der_len (bf_new (e_cfg E))
    | None => Ok (bf_new (e_cfg E))
    end = Panic)) as (il & El & RR).
  { destruct (ws_id_len _ _ _ _ _ SS) as [->| ->]; eexists; (split; [reflexivity|]).
    { left. exists (bf_new (e_cfg E)). split; [apply fits_new | reflexivity]. }
    assert (forall n, (n <= nlen (tlv id c) \/ Max < nlen (tlv id c)) ->
      (exists b0, fits b0 [] /\ w_bf_reserve w (e_cfg E) n (bf_new (e_cfg E)) = Ok b0) \/
      Max < nlen (tlv id c) /\ w_bf_reserve w (e_cfg E) n (bf_new (e_cfg E)) = Panic) as RV.
    { intros n Hn. destruct (w_reserve_spec n _ _ fits_new) as [[(b' & sp & ER & M & Lb & _ & O & CB) _]|[ER B]].
      - left. exists b'. split; [split; [exists sp; auto | assumption] | assumption].
      - right. rewrite ER. split; [|reflexivity]. rewrite nlen_nil in B. destruct Hn; lia. }
    pose proof ML as MLx. rewrite tlv_len in *. unfold x_add at 1 3. destruct rel.
    - cbn [rbind]. unfold x_add. cbn [rbind]. apply RV.
      destruct (N.ltb_spec (nlen id + nlen (length_octets (nlen c)) + nlen c) Lim) as [S|S]; [|right; lia].
      left. rewrite (N.mod_small (nlen id + _)) by lia. rewrite N.mod_small by assumption. lia.
    - unfold w_add_usize at 1 2. destruct (N.ltb_spec (nlen id + nlen (length_octets (nlen c))) Lim); cbn [rbind]; [|right; split; [lia | reflexivity]].
      unfold x_add, w_add_usize. destruct (N.ltb_spec (nlen id + nlen (length_octets (nlen c)) + nlen c) Lim); cbn [rbind]; [|right; split; [lia | reflexivity]].
      apply RV. left. lia. }
  rewrite El. cbn [rbind]. destruct RR as [(b0 & F0 & E0)|[B E0]]; rewrite E0; cbn [rbind]; [|right; auto].
  destruct (emits_or_buffer False _ _ b0 [] (emits_emits_or _ _ _ (ws_id _ _ _ _ _ SS)) ltac:(tauto) F0) as [(b1 & E1 & F1)|[E1 B]];
    rewrite E1; cbn [rbind app] in *; [|right; split; [reflexivity | unfold tlv; rewrite nlen_app; lia]].
  destruct (emits_or_buffer False _ _ b1 id (emits_or_write_all _ (length_octets (nlen c))) ltac:(tauto) F1) as [(b2 & E2 & F2)|[E2 B]];
    rewrite E2; cbn [rbind unwrap_unit]; [|right; split; [reflexivity | unfold tlv; rewrite app_assoc, nlen_app; lia]].
  unfold tlv. rewrite app_assoc. destruct o as [b|].
  - rewrite (holds_slice _ _ Ho).
    destruct (emits_or_buffer False _ _ b2 _ (emits_or_write_all _ c) ltac:(tauto) F2) as [(b3 & E3 & F3)|[E3 B]]; rewrite E3; cbn [unwrap_unit].
    + left. exists b3. split; [reflexivity | exact F3].
    + right. auto.
  - destruct (emits_or_buffer _ _ _ b2 (id ++ length_octets (nlen c)) (ws_contents _ _ _ _ _ SS)
      ltac:(intros; rewrite (nlen_app (id ++ _)); lia) F2) as [(b3 & E3 & F3)|[E3 B]]; rewrite E3.
    + left. exists b3. split; [reflexivity | exact F3].
    + right. auto.
Qed.
Lemma x_der_len_ok {T} (D : serialize T) v id c : w_serialises w D v id c -> asked w rel (tlv id c) ->
  announces_or w (Max < nlen (tlv id c)) (x_der_len w rel D v) (tlv id c).
Proof.
  clear HC. intros [_ _ SI SL] A. pose proof (tlv_contents_le id c) as TL. unfold x_der_len.
  destruct SL as [->|[[-> L]|[B ->]]]; cbn [rbind]; [now left| |right; right; split; [lia | reflexivity]].
  destruct SI as [->| ->]; cbn [rbind]; [now left|]. rewrite w_octets_len by assumption.
  rewrite tlv_len in TL |- *.
  destruct (x_add_asked (nlen id) (nlen (length_octets (nlen c))) (tlv id c)) as [[-> L1]|[-> B]]; [rewrite tlv_len; lia | assumption | |
    right; right; rewrite tlv_len in B; auto].
  cbn [rbind].
  destruct (x_add_asked (nlen id + nlen (length_octets (nlen c))) (nlen c) (tlv id c)) as [[-> L2]|[-> B]]; [rewrite tlv_len; lia | assumption | |
    right; right; rewrite tlv_len in B; auto].
  cbn [rbind]. right. left. rewrite tlv_len. auto.
Qed.
Lemma x_der_len_known {T} (D : serialize T) v id c : w_serialises w D v id c -> asked w rel (tlv id c) ->
  id_len D v <> Ok None -> der_contents_len D v <> Ok None -> x_der_len w rel D v <> Ok None.
Proof.
  clear HC. intros [_ _ SI SL] A KI KL. unfold x_der_len.
  destruct SL as [SL|[[-> L]|[B ->]]]; cbn [rbind]; [contradiction| |discriminate].
  destruct SI as [SI| ->]; cbn [rbind]; [contradiction|]. destruct (x_add w rel _ _) as [t|e| |]; cbn [rbind]; try discriminate.
  destruct (x_add w rel t _); discriminate.
Qed.

(** ** Primitive types *)
Lemma small_known {T} (D : serialize T) v id c : serialises D v id c -> nlen c <= Max -> w_serialises w D v id c.
Proof.
  clear HC. intros [A B C0 D0] L. pose proof ML. split; [assumption | now apply emits_emits_or | assumption|].
  destruct D0 as [->| ->]; [now left|]. right. left. split; [reflexivity | lia].
Qed.
Lemma int_octets_small t v : in_range t v -> nlen (int_octets v) <= 17.
Proof.
  clear. intros R. rewrite <- (int_contents_len_eq t v R). unfold int_contents_len, leading_zeros, leading_ones.
  assert (forall n, n <= 136 -> n / 8 <= 17) as Q by (intros n Hn; apply N.lt_succ_r, N.div_lt_upper_bound; lia).
  destruct t; repeat match goal with |- context [if ?b then _ else _] => destruct b end; try lia; apply Q;
    match goal with |- context [int_bits ?t] => let x := eval vm_compute in (int_bits t) in change (int_bits t) with x end; lia.
Qed.
Lemma word_len_eq signed v : In w [1; 2; 4; 8] -> in_range (word_ty w signed) v -> x_word_len w signed v = nlen (int_octets v).
Proof.
  clear. intros I R. rewrite int_octets_len. unfold x_word_len. set (m := (if signed && (v <? 0)%Z then - v - 1 else v)%Z).
  assert (0 <= m < 2 ^ (8 * Z.of_N w))%Z as M.
  { apply in_range_bounds in R. unfold m. cbn [In] in I.
    destruct I as [<-|[<-|[<-|[<-|[]]]]]; destruct signed; cbn [word_ty N.eqb Pos.eqb int_signed andb] in *;
    match type of R with context [int_mod ?t] => let x := eval vm_compute in (int_mod t) in change (int_mod t) with x in R end;
    match type of R with context [int_signed ?t] => let x := eval vm_compute in (int_signed t) in change (int_signed t) with x in R; cbv iota in R end;
    match goal with |- context [(2 ^ ?e)%Z] => let x := eval vm_compute in (2 ^ e)%Z in change (2 ^ e)%Z with x end;
    try destruct (Z.ltb_spec v 0); lia. }
  assert (N.size (Z.to_N m) <= 8 * w) as SZ.
  { destruct (Z.eq_dec m 0) as [Z0|NZ]; [rewrite Z0; apply N.le_0_l|]. rewrite size_log2 by lia.
    assert (N.log2 (Z.to_N m) < 8 * w)%N; [|lia]. apply N.log2_lt_pow2; [lia|].
    assert (Z.of_N (2 ^ (8 * w)) = 2 ^ (8 * Z.of_N w))%Z by (rewrite N2Z.inj_pow, N2Z.inj_mul; reflexivity). lia. }
  replace (8 * w + 8 - (8 * w - N.size (Z.to_N m))) with (N.size (Z.to_N m) + 8) by lia.
  pose proof (bit_width_width m ltac:(lia)) as B. pose proof (int_width_eq v) as W.
  assert (mag v = m) as EM.
  { unfold mag, m. apply in_range_bounds in R. cbn [In] in I. destruct signed; cbn [andb]; [reflexivity|].
    destruct (Z.ltb_spec v 0); [|reflexivity].
    exfalso. destruct I as [<-|[<-|[<-|[<-|[]]]]];
    match type of R with context [int_signed ?t] => let x := eval vm_compute in (int_signed t) in change (int_signed t) with x in R; cbv iota in R end; lia. }
  rewrite EM in W. lia.
Qed.

(** ** Collections *)
Lemma big_le (a b : list N) : nlen a <= nlen b -> Max < nlen a -> Max < nlen b.
Proof. clear. lia. Qed.
Lemma x_write_ders_emits C (D : serialize (car C)) : law C D -> forall vs, Forall (wf C) vs ->
  asked w rel (concat (map (der_of C) vs)) ->
  emits_or (Max < nlen (concat (map (der_of C) vs))) (fun _ W => x_write_ders w E D W vs) (concat (map (der_of C) vs)).
Proof.
  intros SL vs F. induction F as [|v vs Hv F IH]; intros A; cbn [map concat x_write_ders] in *; [apply emits_emits_or, emits_ret|].
  pose proof (tlv_contents_le (id_of C v) (contents_of C v)) as T. change (tlv (id_of C v) (contents_of C v)) with (der_of C v) in T.
  assert (nlen (concat (map (der_of C) vs)) <= nlen (der_of C v ++ concat (map (der_of C) vs))) as L2 by (rewrite nlen_app; lia).
  assert (nlen (contents_of C v) <= nlen (der_of C v ++ concat (map (der_of C) vs))) as L1 by (rewrite nlen_app; lia).
  apply emits_or_bind.
  - eapply emits_or_impl; [apply (big_le _ _ L1)|]. apply x_write_der_emits. apply SL; [assumption|]. eapply asked_le; eassumption.
  - eapply emits_or_impl; [apply (big_le _ _ L2)|]. apply IH. eapply asked_le; eassumption.
Qed.
(** A length computed by adding to [acc], of which all counts for the octets [all]. *)
Definition counts (r : res (option N)) (n : N) (all : list N) : Prop :=
  r = Ok None \/ (r = Ok (Some n) /\ n < Lim) \/ (Max < nlen all /\ r = Panic).
Lemma x_contents_len_from_ok C (D : serialize (car C)) all : law C D -> asked w rel all -> forall vs acc, Forall (wf C) vs ->
  acc < Lim -> acc + nlen (concat (map (der_of C) vs)) <= nlen all ->
  counts (x_der_contents_len_from w rel D acc vs) (acc + nlen (concat (map (der_of C) vs))) all.
Proof.
  clear HC. intros SL A vs acc F. revert acc. induction F as [|v vs Hv F IH]; intros acc LA L; cbn [map concat x_der_contents_len_from] in *.
  - right. left. rewrite nlen_nil, N.add_0_r. auto.
  - rewrite nlen_app in *. pose proof (tlv_contents_le (id_of C v) (contents_of C v)) as T. change (tlv (id_of C v) (contents_of C v)) with (der_of C v) in T.
    assert (asked w rel (der_of C v)) as A1 by (eapply asked_le; [|exact A]; lia).
    assert (asked w rel (contents_of C v)) as A2 by (eapply asked_le; [|exact A]; lia).
    destruct (x_der_len_ok D v (id_of C v) (contents_of C v) (SL v Hv A2) A1) as [->|[[-> LL]|[B ->]]]; cbn [rbind];
      [now left | | right; right; split; [|reflexivity]; change (tlv (id_of C v) (contents_of C v)) with (der_of C v) in B; lia].
    change (tlv (id_of C v) (contents_of C v)) with (der_of C v) in *.
    destruct (x_add_asked acc (nlen (der_of C v)) all) as [[-> L1]|[-> B]]; [lia | assumption | |right; right; auto].
    cbn [rbind]. match goal with |- counts (_ ?a _) ?n _ => match n with context [concat ?x] => replace n with (a + nlen (concat x)) by lia end end. apply IH; [assumption | lia].
Qed.
Lemma x_ser_items_law ID C (D : serialize (car C)) : nlen ID = 1 -> law C D -> law (items_codec ID C) (x_ser_items w rel E ID D).
Proof.
  intros I1 SL vs F A. cbn in F. pose proof ML as MLx. cbn [contents_of items_codec] in A.
  split; cbn [write_id write_der_contents id_len der_contents_len x_ser_items id_of contents_of items_codec].
  - apply emits_write_all.
  - now apply x_write_ders_emits.
  - right. now rewrite I1.
  - apply (x_contents_len_from_ok C D _ SL A vs 0 F); lia.
Qed.
Lemma with_values_w_law C P e (D : serialize (car C)) : law C D -> law (with_values C P e) D.
Proof. clear. intros SL v [W _] A. apply SL; assumption. Qed.

(** Maps. *)
Section MapSer.
Context (CK CV : codec) (DK : serialize (car CK)) (DV : serialize (car CV)).
Hypothesis SK : law CK DK.
Hypothesis SV : law CV DV.
Lemma x_der_or_len_ok C (D : serialize (car C)) v : law C D -> wf C v -> asked w rel (der_of C v) ->
  (exists o, x_der_or_len w rel E D v = Ok (nlen (der_of C v), o) /\
     emits_or (Max < nlen (der_of C v)) (fun _ W => x_write_der_or w E D W v o) (der_of C v)) \/
  x_der_or_len w rel E D v = Panic /\ Max < nlen (der_of C v).
Proof.
  clear SK SV. intros SL Hv A. pose proof (tlv_contents_le (id_of C v) (contents_of C v)) as T. change (tlv (id_of C v) (contents_of C v)) with (der_of C v) in T.
  assert (w_serialises w D v (id_of C v) (contents_of C v)) as SS by (apply SL; [assumption | eapply asked_le; eassumption]).
  unfold x_der_or_len. destruct (x_der_len_ok D v _ _ SS A) as [->|[[-> L]|[B ->]]]; cbn [rbind];
    change (tlv (id_of C v) (contents_of C v)) with (der_of C v) in *.
  - destruct (x_to_der_ok D v _ _ SS) as [(b & -> & Hb & _)|[-> B]]; cbn [rbind]; [|right; auto]. left. rewrite (holds_slice _ _ Hb).
    exists (Some b). split; [reflexivity|]. cbn [x_write_der_or]. rewrite (holds_slice _ _ Hb). apply emits_or_write_all.
  - left. exists None. split; [reflexivity|]. cbn [x_write_der_or]. eapply emits_or_impl; [|apply (x_write_der_emits D v _ _ SS)]. lia.
  - right. auto.
Qed.
Notation ec := (entry_codec CK CV).
Lemma x_write_entry_emits k v : wf CK k -> wf CV v -> asked w rel (der_of CK k ++ der_of CV v) ->
  emits_or (Max < nlen (der_of CK k ++ der_of CV v)) (fun _ W => x_write_entry w rel E DK DV W k v) (der_of ec (k, v)).
Proof.
  intros Hk Hv A. assert (nlen (der_of CK k) + nlen (der_of CV v) <= nlen (der_of CK k ++ der_of CV v)) as T by (rewrite nlen_app; lia).
  change (der_of ec (k, v)) with (tlv [0x30] (der_of CK k ++ der_of CV v)). unfold x_write_entry.
  destruct (x_der_or_len_ok CK DK k SK Hk) as [(ok & Ek & Wk)|[Ek B]]; [eapply asked_le; [|exact A]; lia | |apply emits_or_panic; [lia | exact Ek]].
  apply (emits_or_lift _ _ _ _ _ Ek).
  destruct (x_der_or_len_ok CV DV v SV Hv) as [(ov & Ev & Wv)|[Ev B]]; [eapply asked_le; [|exact A]; lia | |apply emits_or_panic; [lia | exact Ev]].
  apply (emits_or_lift _ _ _ _ _ Ev). cbn [fst snd].
  destruct (x_add_asked (nlen (der_of CK k)) (nlen (der_of CV v)) _ T A) as [[Es L]|[Es B]]; [|now apply emits_or_panic].
  apply (emits_or_lift _ _ _ _ _ Es). apply (emits_or_lift _ _ _ _ _ (w_octets_eq _ L)).
  unfold tlv. apply emits_or_bind; [apply emits_or_write_all|].
  replace (length_octets (nlen (der_of CK k ++ der_of CV v))) with (length_octets (nlen (der_of CK k) + nlen (der_of CV v))) by (now rewrite nlen_app).
  apply emits_or_bind; [apply emits_or_write_all|].
  apply emits_or_bind; (eapply emits_or_impl; [|eassumption]; lia).
Qed.
Lemma x_write_entries_emits l : Forall (wf ec) l -> asked w rel (concat (map (der_of ec) l)) ->
  emits_or (Max < nlen (concat (map (der_of ec) l))) (fun _ W => x_write_entries w rel E DK DV W l) (concat (map (der_of ec) l)).
Proof.
  intros F. induction F as [|[k v] l [Hk Hv] F IH]; intros A; cbn [map concat x_write_entries] in *; [apply emits_emits_or, emits_ret|].
  pose proof (tlv_contents_le [0x30] (der_of CK k ++ der_of CV v)) as T.
  change (tlv [0x30] (der_of CK k ++ der_of CV v)) with (der_of ec (k, v)) in T.
  assert (nlen (der_of CK k ++ der_of CV v) <= nlen (der_of ec (k, v) ++ concat (map (der_of ec) l))) as L1 by (rewrite (nlen_app (der_of ec _)); lia).
  assert (nlen (concat (map (der_of ec) l)) <= nlen (der_of ec (k, v) ++ concat (map (der_of ec) l))) as L2 by (rewrite nlen_app; lia).
  apply emits_or_bind.
  - eapply emits_or_impl; [apply (big_le _ _ L1)|]. apply x_write_entry_emits; auto. eapply asked_le; eassumption.
  - eapply emits_or_impl; [apply (big_le _ _ L2)|]. apply IH. eapply asked_le; eassumption.
Qed.
Lemma x_btree_map_len_ok all : asked w rel all -> forall l acc, Forall (wf ec) l -> acc < Lim ->
  acc + nlen (concat (map (der_of ec) l)) <= nlen all ->
  counts (x_btree_map_len w rel DK DV acc l) (acc + nlen (concat (map (der_of ec) l))) all.
Proof.
  clear HC. intros A l acc F. revert acc. induction F as [|[k v] l [Hk Hv] F IH]; intros acc LA L; cbn [map concat x_btree_map_len] in *.
  - right. left. rewrite nlen_nil, N.add_0_r. auto.
  - rewrite nlen_app in *. cbn [fst snd] in *.
    change (der_of ec (k, v)) with (tlv [0x30] (der_of CK k ++ der_of CV v)) in *.
    rewrite tlv_len in *. change (nlen [0x30]) with 1 in *. rewrite nlen_app in *.
    pose proof (tlv_contents_le (id_of CK k) (contents_of CK k)) as TK. change (tlv (id_of CK k) (contents_of CK k)) with (der_of CK k) in TK.
    pose proof (tlv_contents_le (id_of CV v) (contents_of CV v)) as TV. change (tlv (id_of CV v) (contents_of CV v)) with (der_of CV v) in TV.
    assert (forall x : list N, nlen x <= nlen (der_of CK k) \/ nlen x <= nlen (der_of CV v) -> asked w rel x) as AX
      by (intros x Hx; eapply asked_le; [|exact A]; lia).
    destruct (x_der_len_ok DK k (id_of CK k) (contents_of CK k) (SK k Hk (AX (contents_of CK k) (or_introl TK))) (AX (der_of CK k) (or_introl (N.le_refl _)))) as [->|[[-> LL]|[B ->]]];
      cbn [rbind]; change (tlv (id_of CK k) (contents_of CK k)) with (der_of CK k) in *; [now left | | right; right; split; [lia | reflexivity]].
    destruct (x_der_len_ok DV v (id_of CV v) (contents_of CV v) (SV v Hv (AX (contents_of CV v) (or_intror TV))) (AX (der_of CV v) (or_intror (N.le_refl _)))) as [->|[[-> LV]|[B ->]]];
      cbn [rbind]; change (tlv (id_of CV v) (contents_of CV v)) with (der_of CV v) in *; [now left | | right; right; split; [lia | reflexivity]].
    change (nlen ID_SEQUENCE) with 1.
    destruct (x_add_asked (nlen (der_of CK k)) (nlen (der_of CV v)) all) as [[-> L1]|[-> B]]; [lia | assumption | |right; right; auto]. cbn [rbind].
    rewrite w_octets_len by assumption.
    destruct (x_add_asked 1 (nlen (length_octets (nlen (der_of CK k) + nlen (der_of CV v)))) all) as [[-> L2]|[-> B]]; [lia | assumption | |right; right; auto]. cbn [rbind].
    match goal with |- context [x_add w rel ?a ?b] => destruct (x_add_asked a b all) as [[-> L3]|[-> B]] end; [lia | assumption | |right; right; auto]. cbn [rbind].
    match goal with |- context [x_add w rel ?a ?b] => destruct (x_add_asked a b all) as [[-> L4]|[-> B]] end; [lia | assumption | |right; right; auto]. cbn [rbind].
    match goal with |- counts (_ ?a _) ?n _ => match n with context [concat ?x] => replace n with (a + nlen (concat x)) by lia end end. apply IH; [assumption | lia].
Qed.
(** When keys announce their lengths, the two maps compute the same sum. *)
Lemma x_hash_map_len_same all : w_known w rel CK DK -> asked w rel all -> forall l acc, Forall (wf ec) l ->
  nlen (concat (map (der_of ec) l)) <= nlen all -> x_hash_map_len w rel DK DV acc l = x_btree_map_len w rel DK DV acc l.
Proof.
  clear HC SV. intros KK A l acc F. revert acc. induction F as [|[k v] l [Hk Hv] F IH]; intros acc L; [reflexivity|].
  cbn [map concat x_btree_map_len x_hash_map_len] in *. rewrite nlen_app in *. cbn [fst snd] in *.
  change (der_of ec (k, v)) with (tlv [0x30] (der_of CK k ++ der_of CV v)) in *.
  rewrite tlv_len, nlen_app in L.
  pose proof (tlv_contents_le (id_of CK k) (contents_of CK k)) as TK. change (tlv (id_of CK k) (contents_of CK k)) with (der_of CK k) in TK.
  assert (asked w rel (der_of CK k)) as A1 by (eapply asked_le; [|exact A]; lia).
  assert (asked w rel (contents_of CK k)) as A2 by (eapply asked_le; [|exact A]; lia).
  destruct (KK k Hk A2) as [KI KL]. pose proof (x_der_len_known DK k _ _ (SK k Hk A2) A1 KI KL) as KN.
  destruct (x_der_len w rel DK k) as [[kl|]|e| |]; cbn [rbind]; try reflexivity; [|contradiction].
  destruct (x_der_len w rel DV v) as [[vl|]|e| |]; cbn [rbind]; try reflexivity.
  destruct (x_add w rel kl vl) as [c|e| |]; cbn [rbind]; try reflexivity.
  destruct (x_add w rel _ _) as [t|e| |]; cbn [rbind]; try reflexivity.
  destruct (x_add w rel _ _) as [t'|e| |]; cbn [rbind]; try reflexivity.
  destruct (x_add w rel _ _) as [r|e| |]; cbn [rbind]; try reflexivity.
  apply IH. lia.
Qed.
Lemma x_ser_btree_map_law cmp : law (btree_map_codec CK CV cmp) (x_ser_btree_map w rel E DK DV).
Proof.
  apply with_values_w_law. intros l F A. cbn in F. cbn [contents_of items_codec] in A. pose proof ML as MLx.
  split; cbn [write_id write_der_contents id_len der_contents_len x_ser_btree_map id_of contents_of items_codec].
  - apply emits_write_all.
  - now apply x_write_entries_emits.
  - now right.
  - apply (x_btree_map_len_ok _ A l 0 F); lia.
Qed.
Lemma x_ser_hash_map_law eqb : w_known w rel CK DK -> law (hash_map_codec CK CV eqb) (x_ser_hash_map w rel E DK DV).
Proof.
  intros KK. apply with_values_w_law. intros l F A. cbn in F. cbn [contents_of items_codec] in A. pose proof ML as MLx.
  split; cbn [write_id write_der_contents id_len der_contents_len x_ser_hash_map id_of contents_of items_codec].
  - apply emits_write_all.
  - now apply x_write_entries_emits.
  - now right.
  - rewrite (x_hash_map_len_same _ KK A l 0 F) by lia. apply (x_btree_map_len_ok _ A l 0 F); lia.
Qed.
End MapSer.

(** ** Derived implementations *)
Definition w_ser_as (T : Type) (f : field T) (s : field_spec T) : Prop :=
  match s with
  | Skipped _ => is_skip_serializing (f_attr f) = true
  | Coded c => is_skip_serializing (f_attr f) = false /\ law (to_codec c) (field_ser f)
  end.
Lemma x_field_write {T} (f : field T) {S} (W : writer S) v :
  match a_into (f_attr f) with
  | Some ty => x_write_der w E (tg_ser (p_into (n_paths (f_names f)) ty)) W (tg_conv (p_into (n_paths (f_names f)) ty) v)
  | None =>
      match a_to (f_attr f) with
      | Some path => x_write_der w E (tg_ser (p_to (n_paths (f_names f)) path)) W (tg_conv (p_to (n_paths (f_names f)) path) v)
      | None => x_write_der w E (n_ser (f_names f)) W v
      end
  end = x_write_der w E (field_ser f) W v.
Proof. unfold field_ser. destruct (a_into (f_attr f)); [reflexivity|]. destruct (a_to (f_attr f)); reflexivity. Qed.
Lemma x_write_fields_emits Ts : forall fs cs v, fields_rel w_ser_as Ts fs cs -> fields_wf Ts cs v ->
  asked w rel (concat (fields_der Ts cs v)) ->
  emits_or (Max < nlen (concat (fields_der Ts cs v))) (fun _ W => x_write_fields w E W Ts fs v) (concat (fields_der Ts cs v)).
Proof.
  induction Ts as [|T Ts IH]; intros fs cs v R F A; cbn [x_write_fields fields_der concat]; [apply emits_emits_or, emits_ret|].
  destruct fs as [f fs], cs as [s cs], v as [x v]. cbn [fst snd fields_rel fields_wf fields_der] in *.
  destruct R as [Rf R], F as [Fx F]. destruct s as [d|c]; cbn [w_ser_as] in Rf.
  - rewrite Rf. now apply IH.
  - destruct Rf as [-> SL]. cbn [concat] in *.
    pose proof (tlv_contents_le (on_id c x) (on_contents c x)) as TL. change (tlv (on_id c x) (on_contents c x)) with (der_of (to_codec c) x) in TL.
    assert (nlen (concat (fields_der Ts cs v)) <= nlen (der_of (to_codec c) x ++ concat (fields_der Ts cs v))) as L2 by (rewrite nlen_app; lia).
    assert (nlen (on_contents c x) <= nlen (der_of (to_codec c) x ++ concat (fields_der Ts cs v))) as L1 by (rewrite nlen_app; lia).
    eapply emits_or_ext.
    { intros S W s. apply wbind_ext; [|intros a s'; reflexivity]. now rewrite x_field_write. }
    apply emits_or_bind.
    + eapply emits_or_impl; [apply (big_le _ _ L1)|]. apply x_write_der_emits. apply (SL x Fx). cbn [contents_of to_codec]. eapply asked_le; eassumption.
    + eapply emits_or_impl; [apply (big_le _ _ L2)|]. apply IH; auto. eapply asked_le; eassumption.
Qed.
Lemma x_fields_len_ok all : asked w rel all -> forall Ts fs cs v acc, fields_rel w_ser_as Ts fs cs ->
  existsb converts (field_attributes Ts fs) = false -> fields_wf Ts cs v -> acc < Lim ->
  acc + nlen (concat (fields_der Ts cs v)) <= nlen all ->
  counts (x_fields_len w rel Ts fs acc v) (acc + nlen (concat (fields_der Ts cs v))) all.
Proof.
  clear HC. intros A. induction Ts as [|T Ts IH]; intros fs cs v acc R NC F LA L; cbn [x_fields_len fields_der concat].
  { right. left. rewrite nlen_nil, N.add_0_r. auto. }
  destruct fs as [f fs], cs as [s cs], v as [x v]. cbn [fst snd fields_rel fields_wf fields_der field_attributes existsb] in *.
  apply Bool.orb_false_iff in NC as [NCf NC]. destruct R as [Rf R], F as [Fx F]. destruct s as [d|c]; cbn [w_ser_as] in Rf.
  - rewrite Rf. now apply IH.
  - destruct Rf as [-> SL]. cbn [concat] in *. rewrite nlen_app in *.
    change (der_of (to_codec c) x) with (tlv (on_id c x) (on_contents c x)) in *. rewrite tlv_len in *. rewrite <- (converts_false f NCf).
    destruct (SL x Fx) as [_ _ AI AC]; [cbn [contents_of to_codec]; eapply asked_le; [|exact A]; lia|].
    cbn [car id_of contents_of to_codec] in AI, AC.
    destruct AC as [->|[[-> LL]|[B ->]]]; cbn [rbind]; [now left| |right; right; split; [lia | reflexivity]].
    destruct AI as [->| ->]; cbn [rbind]; [now left|]. cbv zeta. rewrite w_octets_len by assumption.
    match goal with |- context [x_add w rel ?a ?b] => destruct (x_add_asked a b all) as [[-> L3]|[-> B]] end; [lia | assumption | |right; right; auto]. cbn [rbind].
    match goal with |- context [x_add w rel ?a ?b] => destruct (x_add_asked a b all) as [[-> L4]|[-> B]] end; [lia | assumption | |right; right; auto]. cbn [rbind].
    match goal with |- context [x_add w rel ?a ?b] => destruct (x_add_asked a b all) as [[-> L5]|[-> B]] end; [lia | assumption | |right; right; auto]. cbn [rbind].
    match goal with |- counts (_ ?a _) ?n _ => replace n with (a + nlen (concat (fields_der Ts cs v))) by lia end. apply IH; auto. lia.
Qed.
Lemma x_struct_law Ts (dc : data_container Ts) cs : fields_rel w_ser_as Ts (dc_fields dc) cs ->
  law (struct_codec (id_slice (dc_attr dc)) Ts cs) (x_ser_fields w rel E dc).
Proof.
  intros R v F A. cbn in F. cbn [contents_of struct_codec] in A. pose proof ML as MLx.
  split; cbn [write_id write_der_contents id_len der_contents_len x_ser_fields id_of contents_of struct_codec].
  - apply emits_write_all.
  - now apply x_write_fields_emits.
  - now right.
  - destruct (existsb converts _) eqn:NC; [now left|]. apply (x_fields_len_ok _ A Ts (dc_fields dc) cs v 0); auto; lia.
Qed.
Lemma w_serialises_converted {T} (t : target T) v id c :
  w_serialises w (ser_on (tg_conv t) (tg_ser t)) v id c -> w_serialises w (ser_converted t) v id c.
Proof. clear. intros [A B _ _]. split; [exact A | exact B | now left | now left]. Qed.
Lemma w_ser_field_law {T} (f : field T) c : law (to_codec c) (field_ser f) -> law (to_codec c) (ser_field f).
Proof.
  clear. intros SL v F L. specialize (SL v F L). unfold field_ser in SL. unfold ser_field.
  destruct (a_into (f_attr f)); [now apply w_serialises_converted|]. destruct (a_to (f_attr f)); [now apply w_serialises_converted | exact SL].
Qed.
Lemma w_transparent_law Ts : forall fs cs S, fields_rel w_ser_as Ts fs cs -> transparent_fields Ts fs = [S] -> law (transparent_codec Ts cs) S.
Proof.
  clear. induction Ts as [|T Ts IH]; intros fs cs S R H; [discriminate|]. destruct fs as [f fs], cs as [s cs].
  cbn [fields_rel transparent_fields fst snd] in *. destruct R as [Rf R], s as [d|c]; cbn [w_ser_as] in Rf.
  - rewrite Rf in H. destruct (transparent_fields Ts fs) as [|s' [|]] eqn:K; try discriminate. injection H as <-.
    intros [x v] [_ F] L. destruct (IH fs cs s' R K v F L) as [A1 A2 A3 A4]. split; assumption.
  - destruct Rf as [NS SL]. rewrite NS in H. destruct (transparent_fields Ts fs); [|discriminate]. injection H as <-.
    intros [x v] [Fx F] L. destruct (w_ser_field_law f c SL x Fx L) as [A1 A2 A3 A4]. split; assumption.
Qed.
Definition w_variant (Ts : list Type) (dc : data_container Ts) (s : variant_spec Ts) : Prop :=
  id_slice (dc_attr dc) = fst s /\ fields_rel w_ser_as Ts (dc_fields dc) (snd s).
Lemma w_sum_law {A B} (a : codec_on A) (b : codec_on B) S1 S2 : law (to_codec a) S1 -> law (to_codec b) S2 ->
  law (to_codec (sum_on a b)) (ser_sum S1 S2).
Proof. clear. intros A1 A2 [x|y] F L; [destruct (A1 x F L) | destruct (A2 y F L)]; split; assumption. Qed.
Lemma x_enum_law Tss : forall vs ws, variants_rel w_variant Tss vs ws -> law (enum_codec Tss ws) (x_ser_variants w rel E Tss vs).
Proof.
  induction Tss as [|Ts Tss IH]; intros vs ws R; [intros []|]. destruct vs as [dc vs], ws as [[ID cs] ws]. destruct R as [(I & O) R].
  apply (w_sum_law (of_codec (struct_codec ID Ts cs)) (enum_on Tss ws) (x_ser_fields w rel E dc) (x_ser_variants w rel E Tss vs)); [|now apply IH].
  cbn [fst snd] in *. subst ID. now apply x_struct_law.
Qed.
Section Emitted.
Context (is_path : string -> bool) (attrs : list syn_attribute) (a : attribute).
Hypothesis TF : Attribute_try_from is_path attrs = Some a.
Lemma x_plain_struct Ts decls fs ps S : plain a -> try_fields is_path Ts decls = Some fs ->
  x_do_serialize w rel is_path E attrs (DStruct Ts decls) ps = Some S -> S = x_ser_fields w rel E {| dc_attr := a; dc_fields := fs |}.
Proof.
  clear H1 H8 HC. intros P F. destruct (plain_cases a P) as (P1 & P2 & P3 & P4 & P5).
  unfold x_do_serialize, x_do_serialize_struct, try_struct, sanitize_as_struct.
  rewrite TF, P1, P2, F. destruct (sanitize_as_container a); cbn [negb dc_attr]; [|discriminate]. rewrite P5. now intros [= <-].
Qed.
Lemma x_transparent_struct Ts decls fs ps S : has a ATransparent -> try_fields is_path Ts decls = Some fs ->
  x_do_serialize w rel is_path E attrs (DStruct Ts decls) ps = Some S -> transparent_fields Ts fs = [S].
Proof.
  clear H1 H8 HC. intros HT F. unfold x_do_serialize. rewrite TF. destruct (sanitize_as_container a) eqn:SC; cbn [negb]; [|discriminate].
  unfold sanitize_as_container in SC. apply Bool.andb_true_iff in SC as [SC1 SC]. destruct (transparent_cases a SC HT) as (P1 & P2 & P3 & P4 & P5).
  unfold x_do_serialize_struct, try_struct, sanitize_as_struct. unfold sanitize_as_container. rewrite P1, P2, F, SC1, SC. cbn [andb negb dc_attr]. rewrite P5. unfold ser_transparent. cbn [dc_fields].
  destruct (transparent_fields Ts fs) as [|s [|]]; try discriminate. now intros [= <-].
Qed.
Lemma x_plain_enum Tss decls vs ps S : plain a -> try_variants is_path Tss decls = Some vs ->
  x_do_serialize w rel is_path E attrs (DEnum Tss decls) ps = Some S -> S = x_ser_variants w rel E Tss vs.
Proof.
  clear H1 H8 HC. intros P F. destruct (plain_cases a P) as (P1 & P2 & P3 & P4 & P5). unfold x_do_serialize, x_do_serialize_enum.
  rewrite TF, P1, P2, F. destruct (sanitize_as_container a); cbn [negb]; [|discriminate].
  destruct (sanitize_as_enum a); cbn [negb]; [|discriminate]. now intros [= <-].
Qed.
End Emitted.
End MACHINE.
