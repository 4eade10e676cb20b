(** Serialisation: every provided implementation writes the octets of its type, and the
    entry points wrap them into one value. *)
From Verif Require Import Base ModelIo ModelTag ModelContents ModelBuf ModelTlv ModelSerde Spec SpecSerde.
From Verif Require Import TagProofs IdProofs TagMain ContentsProofs TlvProofs BufProofs TlvMain SerdeOctets.

(** ** Code that writes chunks *)
Lemma wbind_ret {S A} (m : wr S A) s : wbind m wret s = m s.
Proof. unfold wbind, wret. destruct (m s) as [[a|e| |] s']; reflexivity. Qed.
Lemma wbind_assoc {S A B C} (m : wr S A) (f : A -> wr S B) (g : B -> wr S C) s :
  wbind (wbind m f) g s = wbind m (fun a => wbind (f a) g) s.
Proof. unfold wbind. destruct (m s) as [[a|e| |] s']; reflexivity. Qed.
Lemma wbind_ext {S A B} (m m' : wr S A) (f f' : A -> wr S B) s :
  m s = m' s -> (forall a s', f a s' = f' a s') -> wbind m f s = wbind m' f' s.
Proof. intros E F. unfold wbind. rewrite E. destruct (m' s) as [[a|e| |] s']; auto. Qed.
Lemma wlift_ok {S A B} (r : res A) a (f : A -> wr S B) s : r = Ok a -> wbind (wlift r) f s = f a s.
Proof. intros ->. reflexivity. Qed.
Lemma write_chunks_app {S} (W : writer S) a : forall b s,
  write_chunks W (a ++ b) s = wbind (write_chunks W a) (fun _ => write_chunks W b) s.
Proof.
  induction a as [|x a IH]; intros b s; [reflexivity|]. cbn [app write_chunks].
  rewrite wbind_assoc. apply wbind_ext; [reflexivity|]. intros _ s'. apply IH.
Qed.
Lemma emits_ret : emits (fun _ _ => wret tt) [].
Proof. exists []. split; [reflexivity|]. intros. reflexivity. Qed.
Lemma emits_write_all bs : emits (fun _ W => write_all W bs) bs.
Proof.
  exists [bs]. split; [cbn; apply app_nil_r|]. intros S W s. cbn [write_chunks]. symmetry.
  transitivity (wbind (write_all W bs) wret s); [|apply wbind_ret].
  apply wbind_ext; [reflexivity|]. intros [] s'. reflexivity.
Qed.
Lemma emits_bind f g a b : emits f a -> emits g b -> emits (fun S W => do! _ := f S W in g S W) (a ++ b).
Proof.
  intros (cs & <- & F) (ds & <- & G). exists (cs ++ ds). split; [apply concat_app|].
  intros S W s. rewrite write_chunks_app. apply wbind_ext; [apply F|]. intros _ s'. apply G.
Qed.
Lemma emits_ext (f g : forall S, writer S -> wr S unit) bs :
  (forall S (W : writer S) s, f S W s = g S W s) -> emits g bs -> emits f bs.
Proof. intros E (cs & <- & G). exists cs. split; [reflexivity|]. intros. now rewrite E. Qed.
Lemma emits_lift {A} (r : res A) a (g : forall S, writer S -> A -> wr S unit) bs :
  r = Ok a -> emits (fun S W => g S W a) bs -> emits (fun S W => do! x := wlift r in g S W x) bs.
Proof. intros ->. apply emits_ext. intros. reflexivity. Qed.

(** ** A buffer as the writer *)
Lemma buf_write_all cfg bs b pre : holds b pre -> nlen (pre ++ bs) <= isize_max ->
  exists b', write_all (buf_writer cfg) bs b = (Ok tt, b') /\ holds b' (pre ++ bs).
Proof.
  intros H L. unfold write_all. cbn [wr_fuel buf_writer]. destruct bs as [|x bs].
  { exists b. rewrite app_nil_r. split; [reflexivity | assumption]. }
  cbn [write_all_loop wr_write buf_writer]. unfold bf_io_write.
  rewrite nlen_app in L.
  destruct (reserve_ok cfg (nlen (x :: bs)) b pre H ltac:(lia)) as (b1 & sp & E1 & M1 & L1 & K1 & O1).
  rewrite E1. cbn [rbind].
  destruct (extend_ok b1 pre sp (x :: bs) M1 L1 K1 O1) as (b2 & sp2 & E2 & M2 & L2 & _ & O2).
  rewrite E2. destruct (N.eqb_spec (nlen (x :: bs)) 0) as [Z|_]; [rewrite nlen_cons in Z; lia|].
  rewrite N.ltb_irrefl. rewrite drop_ge by lia. cbn [write_all_loop]. exists b2. split; [reflexivity|].
  exists sp2. auto.
Qed.
Lemma buf_write_chunks cfg cs : forall b pre, holds b pre -> nlen (pre ++ concat cs) <= isize_max ->
  exists b', write_chunks (buf_writer cfg) cs b = (Ok tt, b') /\ holds b' (pre ++ concat cs).
Proof.
  induction cs as [|c cs IH]; intros b pre H L; cbn [concat write_chunks] in *.
  - exists b. rewrite app_nil_r. split; [reflexivity | assumption].
  - destruct (buf_write_all cfg c b pre H) as (b1 & E1 & H1); [rewrite !nlen_app in *; lia|].
    destruct (IH b1 (pre ++ c) H1) as (b2 & E2 & H2); [now rewrite <- app_assoc|].
    exists b2. unfold wbind. rewrite E1, E2. rewrite <- app_assoc in H2. split; [reflexivity | assumption].
Qed.
Lemma emits_buffer cfg f bs b pre : emits f bs -> holds b pre -> nlen (pre ++ bs) <= isize_max ->
  exists b', in_buffer (f buf (buf_writer cfg) b) = Ok b' /\ holds b' (pre ++ bs).
Proof.
  intros (cs & <- & F) H L. destruct (buf_write_chunks cfg cs b pre H L) as (b' & E & H').
  exists b'. rewrite F, E. split; [reflexivity | assumption].
Qed.

(** ** The entry points *)
Lemma isize_lt n : n <= isize_max -> n < usize_limit.
Proof. unfold isize_max, usize_limit. lia. Qed.
Lemma add_usize_ok a b : a + b < usize_limit -> add_usize a b = Ok (a + b).
Proof. intros H. unfold add_usize. destruct (N.ltb_spec (a + b) usize_limit); [reflexivity | lia]. Qed.

Lemma contents_or_len_ok E {T} (D : serialize T) v id c : serialises D v id c -> nlen c <= isize_max ->
  exists o, contents_or_len E D v = Ok (nlen c, o) /\ match o with None => True | Some b => holds b c end.
Proof.
  intros [_ SC _ SL] L. unfold contents_or_len. destruct SL as [->| ->]; cbn [rbind]; [|exists None; auto].
  destruct (emits_buffer (e_cfg E) _ _ (bf_new (e_cfg E)) [] SC (holds_new _) L) as (b & Eb & Hb).
  rewrite Eb. cbn [rbind]. exists (Some b). split; [|assumption]. now rewrite (holds_len _ _ Hb).
Qed.
Lemma write_der_emits E {T} (D : serialize T) v id c : serialises D v id c -> nlen c <= isize_max ->
  emits (fun _ W => write_der E D W v) (tlv id c).
Proof.
  intros SS L. destruct (contents_or_len_ok E D v id c SS L) as (o & Eo & Ho).
  unfold write_der. apply (emits_lift _ _ _ _ Eo). cbn [fst snd].
  unfold tlv. apply emits_bind; [apply SS|].
  rewrite length_octets_eq by (apply isize_lt; assumption).
  apply emits_bind; [apply emits_write_all|].
  destruct o as [b|]; [rewrite (holds_slice _ _ Ho); apply emits_write_all | apply SS].
Qed.
Lemma to_der_ok E {T} (D : serialize T) v id c : serialises D v id c -> nlen (tlv id c) <= isize_max ->
  exists b, to_der E D v = Ok b /\ holds b (tlv id c).
Proof.
  intros SS L. rewrite tlv_len in L. assert (nlen c <= isize_max) as LC by lia.
  destruct (contents_or_len_ok E D v id c SS LC) as (o & Eo & Ho).
  unfold to_der. rewrite Eo. cbn [rbind]. rewrite length_octets_eq by (apply isize_lt; assumption).
  pose proof (isize_lt _ L) as LU.
  assert (exists b0 il, id_len D v = Ok il /\ holds b0 [] /\
    match il with
    | Some n => let! t := add_usize n (nlen (length_octets (nlen c))) in
                let! der_len := add_usize t (nlen c) in bf_reserve (e_cfg E) der_len (bf_new (e_cfg E))
    | None => Ok (bf_new (e_cfg E))
    end = Ok b0) as (b0 & il & El & H0 & E0).
  { destruct (ss_id_len _ _ _ _ SS) as [->| ->]; [eexists; eexists; repeat split; apply holds_new|].
    destruct (reserve_ok (e_cfg E) (nlen id + nlen (length_octets (nlen c)) + nlen c) _ _ (holds_new (e_cfg E)))
      as (b0 & sp & E0 & M & Lb & _ & O).
    { change (nlen (@nil N)) with 0. lia. }
    exists b0, (Some (nlen id)). split; [reflexivity|]. split; [exists sp; auto|].
    rewrite add_usize_ok by lia. cbn [rbind]. rewrite add_usize_ok by lia. exact E0. }
  rewrite El. cbn [rbind]. rewrite E0. cbn [rbind].
  destruct (emits_buffer (e_cfg E) _ _ b0 [] (ss_id _ _ _ _ SS) H0) as (b1 & E1 & H1); [cbn [app]; lia|].
  rewrite E1. cbn [rbind app] in *.
  destruct (emits_buffer (e_cfg E) _ _ b1 id (emits_write_all (length_octets (nlen c))) H1) as (b2 & E2 & H2);
    [rewrite nlen_app; lia|].
  rewrite E2. cbn [rbind unwrap_unit].
  unfold tlv. rewrite app_assoc.
  destruct o as [b|].
  - rewrite (holds_slice _ _ Ho).
    destruct (emits_buffer (e_cfg E) _ _ b2 _ (emits_write_all c) H2) as (b3 & E3 & H3); [rewrite !nlen_app; lia|].
    rewrite E3. cbn [unwrap_unit]. eauto.
  - apply (emits_buffer (e_cfg E) _ _ b2 _ (ss_contents _ _ _ _ SS) H2). rewrite !nlen_app. lia.
Qed.
Lemma der_len_ok {T} (D : serialize T) v id c : serialises D v id c -> nlen (tlv id c) < usize_limit ->
  announces (der_len D v) (tlv id c).
Proof.
  intros [_ _ SI SL] L. rewrite tlv_len in L. assert (nlen c < 2 ^ 64) as LC by (unfold usize_limit in L; lia).
  rewrite length_octets_len in L by assumption. unfold der_len.
  destruct SL as [->| ->]; cbn [rbind]; [now left|]. destruct SI as [->| ->]; cbn [rbind]; [now left|].
  rewrite add_usize_ok by lia. cbn [rbind]. rewrite add_usize_ok by lia. cbn [rbind]. right.
  rewrite tlv_len, length_octets_len by assumption. reflexivity.
Qed.
Lemma der_len_known {T} (D : serialize T) v id c :
  id_len D v = Ok (Some (nlen id)) -> der_contents_len D v = Ok (Some (nlen c)) -> nlen (tlv id c) < usize_limit ->
  der_len D v = Ok (Some (nlen (tlv id c))).
Proof.
  intros EI EL L. rewrite tlv_len in L. assert (nlen c < 2 ^ 64) as LC by (unfold usize_limit in L; lia).
  rewrite length_octets_len in L by assumption. unfold der_len. rewrite EI, EL. cbn [rbind].
  rewrite add_usize_ok by lia. cbn [rbind]. rewrite add_usize_ok by lia. cbn [rbind].
  rewrite tlv_len, length_octets_len by assumption. reflexivity.
Qed.

(** ** Primitive types *)
Lemma ser_bool_law : ser_law bool_codec ser_bool /\ ser_known bool_codec ser_bool.
Proof.
  split.
  - intros v _ _. split; [apply emits_write_all | | now right | now right; destruct v].
    cbn. destruct v; apply emits_write_all.
  - intros v _ _. split; reflexivity.
Qed.
Lemma ser_int_law t : ser_law (int_codec t) (ser_int t) /\ ser_known (int_codec t) (ser_int t).
Proof.
  split.
  - intros v R _. cbn in R. split; [apply emits_write_all | | now right | right].
    + cbn [write_der_contents ser_int contents_of int_codec].
      apply (emits_lift _ _ (fun _ W c => write_all W c) _ (from_int_octets t v R)). apply emits_write_all.
    + cbn. now rewrite int_contents_len_eq.
  - intros v R _. split; [reflexivity|]. cbn. cbn in R. now rewrite int_contents_len_eq.
Qed.
Lemma ser_string_law : ser_law string_codec ser_string /\ ser_known string_codec ser_string.
Proof.
  split.
  - intros v _ _. split; [apply emits_write_all | apply emits_write_all | now right | now right].
  - intros v _ _. split; reflexivity.
Qed.
Lemma ser_octets_law : ser_law octets_codec ser_octets /\ ser_known octets_codec ser_octets.
Proof.
  split.
  - intros v _ _. split; [apply emits_write_all | apply emits_write_all | now right | now right].
  - intros v _ _. split; reflexivity.
Qed.

(** ** Collections *)
Lemma tlv_contents_le id c : nlen c <= nlen (tlv id c).
Proof. rewrite tlv_len. lia. Qed.
Lemma write_ders_emits E C (D : serialize (car C)) : ser_law C D -> forall vs, Forall (wf C) vs ->
  nlen (concat (map (der_of C) vs)) <= isize_max -> emits (fun _ W => write_ders E D W vs) (concat (map (der_of C) vs)).
Proof.
  intros SL vs F. induction F as [|v vs Hv F IH]; intros L; cbn [map concat write_ders] in *; [apply emits_ret|].
  rewrite nlen_app in L. pose proof (tlv_contents_le (id_of C v) (contents_of C v)). unfold der_of at 1 in L.
  apply emits_bind; [|apply IH; lia].
  apply write_der_emits; [apply SL; [assumption|]|]; lia.
Qed.
Lemma contents_len_from_ok C (D : serialize (car C)) : ser_law C D -> forall vs acc, Forall (wf C) vs ->
  acc + nlen (concat (map (der_of C) vs)) <= isize_max ->
  der_contents_len_from D acc vs = Ok None \/
  der_contents_len_from D acc vs = Ok (Some (acc + nlen (concat (map (der_of C) vs)))).
Proof.
  intros SL vs acc F. revert acc. induction F as [|v vs Hv F IH]; intros acc L; cbn [map concat der_contents_len_from] in *.
  - right. do 2 f_equal. change (nlen (@nil N)) with 0. lia.
  - rewrite nlen_app in *. pose proof (tlv_contents_le (id_of C v) (contents_of C v)). unfold der_of at 1 in L.
    pose proof (isize_lt _ L).
    destruct (der_len_ok D v (id_of C v) (contents_of C v)) as [->| ->]; [apply SL; [assumption|lia] | lia | now left|].
    cbn [rbind]. rewrite add_usize_ok by lia. cbn [rbind].
    destruct (IH (acc + nlen (tlv (id_of C v) (contents_of C v)))) as [->| ->]; [lia | now left|].
    right. do 2 f_equal. change (der_of C v) with (tlv (id_of C v) (contents_of C v)). lia.
Qed.
Lemma contents_len_from_known C (D : serialize (car C)) : ser_known C D -> forall vs acc, Forall (wf C) vs ->
  acc + nlen (concat (map (der_of C) vs)) <= isize_max ->
  der_contents_len_from D acc vs = Ok (Some (acc + nlen (concat (map (der_of C) vs)))).
Proof.
  intros SK vs acc F. revert acc. induction F as [|v vs Hv F IH]; intros acc L; cbn [map concat der_contents_len_from] in *.
  - do 2 f_equal. change (nlen (@nil N)) with 0. lia.
  - rewrite nlen_app in *. pose proof (tlv_contents_le (id_of C v) (contents_of C v)). unfold der_of at 1 in L.
    pose proof (isize_lt _ L).
    destruct (SK v Hv) as [EI EL]; [lia|].
    rewrite (der_len_known D v (id_of C v) (contents_of C v)) by (assumption || lia).
    cbn [rbind]. rewrite add_usize_ok by lia. cbn [rbind]. rewrite IH by lia.
    do 2 f_equal. change (der_of C v) with (tlv (id_of C v) (contents_of C v)). lia.
Qed.
Lemma ser_items_law E ID C (D : serialize (car C)) : nlen ID = 1 -> ser_law C D ->
  ser_law (items_codec ID C) (ser_items E ID D).
Proof.
  intros I1 SL vs F L. cbn in F, L. split; cbn [write_id write_der_contents id_len der_contents_len ser_items id_of contents_of items_codec].
  - apply emits_write_all.
  - now apply write_ders_emits.
  - right. now rewrite I1.
  - unfold announces. apply (contents_len_from_ok C D SL vs 0 F). exact L.
Qed.
Lemma ser_items_known E ID C (D : serialize (car C)) : nlen ID = 1 -> ser_known C D ->
  ser_known (items_codec ID C) (ser_items E ID D).
Proof.
  intros I1 SK vs F L. cbn in F, L. split; cbn [id_len der_contents_len ser_items id_of contents_of items_codec].
  - now rewrite I1.
  - apply (contents_len_from_known C D SK vs 0 F). exact L.
Qed.
Lemma with_values_law C P e (D : serialize (car C)) : ser_law C D -> ser_law (with_values C P e) D.
Proof. intros SL v [W _] L. apply SL; assumption. Qed.
Lemma with_values_known C P e (D : serialize (car C)) : ser_known C D -> ser_known (with_values C P e) D.
Proof. intros SL v [W _] L. apply SL; assumption. Qed.

(** Maps. *)
Section MapSer.
Context (E : env) (CK CV : codec) (DK : serialize (car CK)) (DV : serialize (car CV)).
Hypothesis SK : ser_law CK DK.
Hypothesis SV : ser_law CV DV.
Lemma der_or_len_ok C (D : serialize (car C)) v : ser_law C D -> wf C v -> nlen (der_of C v) <= isize_max ->
  exists o, der_or_len E D v = Ok (nlen (der_of C v), o) /\ emits (fun _ W => write_der_or E D W v o) (der_of C v).
Proof.
  intros SL Hv L. pose proof (tlv_contents_le (id_of C v) (contents_of C v)). unfold der_of in L.
  assert (serialises D v (id_of C v) (contents_of C v)) as SS by (apply SL; [assumption|lia]).
  unfold der_or_len. destruct (der_len_ok D v _ _ SS (isize_lt _ L)) as [->| ->]; cbn [rbind].
  - destruct (to_der_ok E D v _ _ SS L) as (b & -> & Hb). cbn [rbind]. rewrite (holds_slice _ _ Hb).
    exists (Some b). split; [reflexivity|]. cbn [write_der_or]. rewrite (holds_slice _ _ Hb). apply emits_write_all.
  - exists None. split; [reflexivity|]. cbn [write_der_or]. apply write_der_emits; [assumption|lia].
Qed.
Lemma write_entry_emits k v : wf CK k -> wf CV v -> nlen (der_of (entry_codec CK CV) (k, v)) <= isize_max ->
  emits (fun _ W => write_entry E DK DV W k v) (der_of (entry_codec CK CV) (k, v)).
Proof.
  intros Hk Hv L. pose proof (tlv_contents_le [0x30] (der_of CK k ++ der_of CV v)) as T.
  change (der_of (entry_codec CK CV) (k, v)) with (tlv [0x30] (der_of CK k ++ der_of CV v)) in *.
  rewrite nlen_app in T.
  destruct (der_or_len_ok CK DK k SK Hk) as (ok & Ek & Wk); [lia|].
  destruct (der_or_len_ok CV DV v SV Hv) as (ov & Ev & Wv); [lia|].
  unfold write_entry. apply (emits_lift _ _ _ _ Ek). apply (emits_lift _ _ _ _ Ev). cbn [fst snd].
  eapply emits_lift; [apply add_usize_ok; pose proof (isize_lt _ L); lia|].
  unfold tlv. apply emits_bind; [apply emits_write_all|].
  rewrite length_octets_eq by (pose proof (isize_lt _ L); unfold usize_limit in *; lia).
  rewrite nlen_app. apply emits_bind; [apply emits_write_all|]. now apply emits_bind.
Qed.
Lemma write_entries_emits l : Forall (wf (entry_codec CK CV)) l ->
  nlen (concat (map (der_of (entry_codec CK CV)) l)) <= isize_max ->
  emits (fun _ W => write_entries E DK DV W l) (concat (map (der_of (entry_codec CK CV)) l)).
Proof.
  intros F. induction F as [|[k v] l [Hk Hv] F IH]; intros L; cbn [map concat write_entries] in *; [apply emits_ret|].
  rewrite nlen_app in L. apply emits_bind; [apply write_entry_emits; auto; lia | apply IH; lia].
Qed.
Lemma btree_map_len_ok l : forall acc, Forall (wf (entry_codec CK CV)) l ->
  acc + nlen (concat (map (der_of (entry_codec CK CV)) l)) <= isize_max ->
  btree_map_len DK DV acc l = Ok None \/
  btree_map_len DK DV acc l = Ok (Some (acc + nlen (concat (map (der_of (entry_codec CK CV)) l)))).
Proof.
  intros acc F. revert acc. induction F as [|[k v] l [Hk Hv] F IH]; intros acc L; cbn [map concat btree_map_len] in *.
  - right. do 2 f_equal. change (nlen (@nil N)) with 0. lia.
  - rewrite nlen_app in *.
    change (der_of (entry_codec CK CV) (k, v)) with (tlv [0x30] (der_of CK k ++ der_of CV v)) in *.
    rewrite tlv_len in *. pose proof (isize_lt _ L). assert (nlen (der_of CK k ++ der_of CV v) < 2 ^ 64) as LL by (unfold usize_limit in *; lia).
    rewrite length_octets_len in * by assumption. rewrite nlen_app in *. change (nlen [0x30]) with 1 in *.
    pose proof (tlv_contents_le (id_of CK k) (contents_of CK k)). pose proof (tlv_contents_le (id_of CV v) (contents_of CV v)).
    unfold der_of in *. cbn [fst snd] in *.
    destruct (der_len_ok DK k (id_of CK k) (contents_of CK k)) as [->| ->]; [apply SK; [assumption|lia] | lia | now left|]. cbn [rbind].
    destruct (der_len_ok DV v (id_of CV v) (contents_of CV v)) as [->| ->]; [apply SV; [assumption|lia] | lia | now left|]. cbn [rbind].
    change (nlen ID_SEQUENCE) with 1.
    do 4 (rewrite add_usize_ok by lia; cbn [rbind]).
    match goal with |- btree_map_len _ _ ?a _ = _ \/ _ => destruct (IH a) as [->| ->] end; [lia | now left|].
    right. do 2 f_equal. lia.
Qed.
Lemma map_len_known l : ser_known CK DK -> ser_known CV DV -> forall acc, Forall (wf (entry_codec CK CV)) l ->
  acc + nlen (concat (map (der_of (entry_codec CK CV)) l)) <= isize_max ->
  btree_map_len DK DV acc l = Ok (Some (acc + nlen (concat (map (der_of (entry_codec CK CV)) l)))).
Proof.
  intros KK KV acc F. revert acc. induction F as [|[k v] l [Hk Hv] F IH]; intros acc L; cbn [map concat btree_map_len] in *.
  - do 2 f_equal. change (nlen (@nil N)) with 0. lia.
  - rewrite nlen_app in *.
    change (der_of (entry_codec CK CV) (k, v)) with (tlv [0x30] (der_of CK k ++ der_of CV v)) in *.
    rewrite tlv_len in *. pose proof (isize_lt _ L). assert (nlen (der_of CK k ++ der_of CV v) < 2 ^ 64) as LL by (unfold usize_limit in *; lia).
    rewrite length_octets_len in * by assumption. rewrite nlen_app in *. change (nlen [0x30]) with 1 in *.
    pose proof (tlv_contents_le (id_of CK k) (contents_of CK k)). pose proof (tlv_contents_le (id_of CV v) (contents_of CV v)).
    unfold der_of in *. cbn [fst snd] in *.
    destruct (KK k Hk ltac:(lia)) as [KI KL]. destruct (KV v Hv ltac:(lia)) as [VI VL].
    rewrite (der_len_known DK k _ _ KI KL) by lia. cbn [rbind].
    rewrite (der_len_known DV v _ _ VI VL) by lia. cbn [rbind].
    change (nlen ID_SEQUENCE) with 1.
    do 4 (rewrite add_usize_ok by lia; cbn [rbind]).
    rewrite IH by lia. do 2 f_equal. lia.
Qed.
(** When keys announce their lengths, the two maps compute the same sum. *)
Lemma hash_map_len_same l : ser_known CK DK -> forall acc, Forall (wf (entry_codec CK CV)) l ->
  acc + nlen (concat (map (der_of (entry_codec CK CV)) l)) <= isize_max ->
  hash_map_len DK DV acc l = btree_map_len DK DV acc l.
Proof.
  intros KK acc F. revert acc. induction F as [|[k v] l [Hk Hv] F IH]; intros acc L; [reflexivity|].
  cbn [map concat btree_map_len hash_map_len] in *. rewrite nlen_app in *.
  change (der_of (entry_codec CK CV) (k, v)) with (tlv [0x30] (der_of CK k ++ der_of CV v)) in *.
  rewrite tlv_len in *. pose proof (isize_lt _ L). assert (nlen (der_of CK k ++ der_of CV v) < 2 ^ 64) as LL by (unfold usize_limit in *; lia).
  rewrite length_octets_len in * by assumption. rewrite nlen_app in *. change (nlen [0x30]) with 1 in *.
  pose proof (tlv_contents_le (id_of CK k) (contents_of CK k)). pose proof (tlv_contents_le (id_of CV v) (contents_of CV v)).
  unfold der_of in *. cbn [fst snd] in *.
  destruct (KK k Hk ltac:(lia)) as [KI KL].
  rewrite (der_len_known DK k _ _ KI KL) by lia. cbn [rbind].
  destruct (der_len_ok DV v (id_of CV v) (contents_of CV v)) as [->| ->]; [apply SV; [assumption|lia] | lia | reflexivity|]. cbn [rbind].
  change (nlen ID_SEQUENCE) with 1.
  do 4 (rewrite add_usize_ok by lia; cbn [rbind]).
  apply IH. lia.
Qed.
Lemma ser_btree_map_law cmp : ser_law (btree_map_codec CK CV cmp) (ser_btree_map E DK DV).
Proof.
  apply with_values_law. intros l F L. cbn in F, L.
  split; cbn [write_id write_der_contents id_len der_contents_len ser_btree_map id_of contents_of items_codec].
  - apply emits_write_all.
  - now apply write_entries_emits.
  - now right.
  - apply (btree_map_len_ok l 0 F L).
Qed.
Lemma ser_btree_map_known cmp : ser_known CK DK -> ser_known CV DV ->
  ser_known (btree_map_codec CK CV cmp) (ser_btree_map E DK DV).
Proof.
  intros KK KV. apply with_values_known. intros l F L. cbn in F, L.
  split; [reflexivity|]. apply (map_len_known l KK KV 0 F L).
Qed.
Lemma ser_hash_map_law eqb : ser_known CK DK -> ser_law (hash_map_codec CK CV eqb) (ser_hash_map E DK DV).
Proof.
  intros KK. apply with_values_law. intros l F L. cbn in F, L.
  split; cbn [write_id write_der_contents id_len der_contents_len ser_hash_map id_of contents_of items_codec].
  - apply emits_write_all.
  - now apply write_entries_emits.
  - now right.
  - rewrite (hash_map_len_same l KK 0 F L). apply (btree_map_len_ok l 0 F L).
Qed.
Lemma ser_hash_map_known eqb : ser_known CK DK -> ser_known CV DV ->
  ser_known (hash_map_codec CK CV eqb) (ser_hash_map E DK DV).
Proof.
  intros KK KV. apply with_values_known. intros l F L. cbn in F, L.
  split; [reflexivity|]. cbn [der_contents_len ser_hash_map contents_of items_codec].
  rewrite (hash_map_len_same l KK 0 F L). apply (map_len_known l KK KV 0 F L).
Qed.
End MapSer.
