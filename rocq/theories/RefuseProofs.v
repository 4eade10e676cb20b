(** What happens to values one of whose parts is refused by its Serialize. *)
From Coq Require Import String Ascii.
From Verif Require Import Base ModelError ModelIo ModelTag ModelContents ModelBuf ModelTlv ModelSerde ModelAttr ModelDerive.
From Verif Require Import Spec SpecSerde SpecAttr SpecDerive SpecRefuse.
From Verif Require Import TagProofs IdProofs TagMain ContentsProofs TlvProofs BufProofs TlvMain SerdeOctets SerdeSer AttrProofs AttrParse DeriveProofs DeriveMain.
Open Scope N_scope.

(** ** Code that writes or gives up *)
Section Tries.
Context (P : error -> Prop).
Lemma fails_ext (f g : forall S, writer S -> wr S unit) bs :
  (forall S (W : writer S) s, f S W s = g S W s) -> fails g bs P -> fails f bs P.
Proof. intros X (cs & e & Pe & L & G). exists cs, e. split; [exact Pe|]. split; [exact L|]. intros. now rewrite X. Qed.
Lemma tries_ext (f g : forall S, writer S -> wr S unit) bs :
  (forall S (W : writer S) s, f S W s = g S W s) -> tries g bs P -> tries f bs P.
Proof. intros X [G|G]; [left; now apply (emits_ext f g) | right; now apply (fails_ext f g)]. Qed.
Lemma fails_now {A} e (g : forall S, writer S -> A -> wr S unit) (r : res A) bs : P e -> r = Err e ->
  fails (fun S W => do! x := wlift r in g S W x) bs P.
Proof. intros Pe ->. exists [], e. split; [exact Pe|]. split; [cbn [concat]; change (nlen (@nil N)) with 0; lia|]. intros. reflexivity. Qed.
Lemma fails_left f g a b : fails f a P -> fails (fun S W => do! _ := f S W in g S W) (a ++ b) P.
Proof.
  intros (cs & e & Pe & L & F). exists cs, e. split; [exact Pe|]. split; [rewrite nlen_app; lia|].
  intros S W s. unfold wbind at 1. rewrite F. unfold wbind, wlift.
  destruct (write_chunks W cs s) as [[]]; reflexivity.
Qed.
Lemma fails_right f g a b : emits f a -> fails g b P -> fails (fun S W => do! _ := f S W in g S W) (a ++ b) P.
Proof.
  intros (ds & <- & G) (cs & e & Pe & L & F). exists (ds ++ cs), e. split; [exact Pe|].
  split; [rewrite concat_app, !nlen_app; lia|].
  intros S W s. transitivity (wbind (wbind (write_chunks W ds) (fun _ => write_chunks W cs)) (fun _ => wlift (A := unit) (Err e)) s).
  - rewrite wbind_assoc. apply wbind_ext; [apply G|]. intros _ s'. apply F.
  - unfold wbind at 1 3. rewrite write_chunks_app. reflexivity.
Qed.
Lemma fails_either f g a b : tries f a P -> fails f a P \/ fails g b P -> fails (fun S W => do! _ := f S W in g S W) (a ++ b) P.
Proof. intros [F|F] [H|H]; auto using fails_left, fails_right. Qed.
Lemma tries_bind f g a b : tries f a P -> tries g b P -> tries (fun S W => do! _ := f S W in g S W) (a ++ b) P.
Proof.
  intros [F|F]; [|right; now apply fails_left]. intros [G|G]; [left; now apply emits_bind | right; now apply fails_right].
Qed.
Lemma tries_lift {A} (r : res A) a (g : forall S, writer S -> A -> wr S unit) bs :
  r = Ok a -> tries (fun S W => g S W a) bs P -> tries (fun S W => do! x := wlift r in g S W x) bs P.
Proof. intros ->. apply tries_ext. intros. reflexivity. Qed.
Lemma fails_lift {A} (r : res A) a (g : forall S, writer S -> A -> wr S unit) bs :
  r = Ok a -> fails (fun S W => g S W a) bs P -> fails (fun S W => do! x := wlift r in g S W x) bs P.
Proof. intros ->. apply fails_ext. intros. reflexivity. Qed.
Lemma fails_buffer cfg f bs b pre : fails f bs P -> holds b pre -> nlen (pre ++ bs) <= isize_max ->
  exists e, in_buffer (f buf (buf_writer cfg) b) = Err e /\ P e.
Proof.
  intros (cs & e & Pe & LE & F) H L. destruct (buf_write_chunks cfg cs b pre H) as (b' & E & H'); [rewrite nlen_app in *; lia|].
  exists e. rewrite F. unfold wbind. rewrite E. auto.
Qed.
(** The same code does not do both: let it write to a writer that takes everything. *)
Definition sink : writer unit := {| wr_write := fun s bs => (WrOk (nlen bs), s); wr_fuel := 2 |}.
Lemma sink_chunks cs : write_chunks sink cs tt = (Ok tt, tt).
Proof.
  induction cs as [|x xs IH]; [reflexivity|]. cbn [write_chunks]. unfold wbind.
  unfold write_all. cbn [wr_fuel sink write_all_loop wr_write]. destruct x as [|y x]; [exact IH|].
  destruct (N.eqb_spec (nlen (y :: x)) 0) as [Z|_]; [rewrite nlen_cons in Z; lia|].
  rewrite N.ltb_irrefl. rewrite drop_ge by lia. exact IH.
Qed.
Lemma emits_fails f a b : emits f a -> fails f b P -> False.
Proof.
  intros (cs & _ & G) (ds & e & _ & _ & F). specialize (F unit sink tt). rewrite G in F. unfold wbind, wlift in F.
  rewrite !sink_chunks in F. discriminate.
Qed.
End Tries.

(** ** The entry points *)
(** The outcome is a failure. *)
Definition refused {A} (r : res A) (P : error -> Prop) : Prop := exists e, r = Err e /\ P e.
Lemma refused_bind {A B} (r : res A) (k : A -> res B) P : refused r P -> refused (rbind r k) P.
Proof. intros (e & -> & Pe). now exists e. Qed.
Section Entry.
Context (E : env) {T : Type} (D : serialize T) (v : T) (id c : list N) (P : error -> Prop).
Hypothesis AT : attempts D v id c P.
Lemma contents_or_len_tries : nlen c <= isize_max ->
  refused (contents_or_len E D v) P \/
  exists o, contents_or_len E D v = Ok (nlen c, o) /\
    match o with None => True | Some b => holds b c /\ emits (fun _ W => write_der_contents D W v) c end.
Proof using AT.
  intros L. destruct AT as [_ AC _ AL _]. unfold contents_or_len. destruct AL as [[->| ->]|(e & -> & Pe)]; cbn [rbind].
  - destruct AC as [AC|AC].
    + destruct (emits_buffer (e_cfg E) _ _ (bf_new (e_cfg E)) [] AC (holds_new _) L) as (b & Eb & Hb).
      rewrite Eb. cbn [rbind]. right. exists (Some b). split; [now rewrite (holds_len _ _ Hb) | auto].
    + left. apply refused_bind. apply (fails_buffer P (e_cfg E) _ _ (bf_new (e_cfg E)) [] AC (holds_new _) L).
  - right. exists None. auto.
  - left. exists e. auto.
Qed.
Lemma contents_tries : tries (fun _ W => write_der_contents D W v) c P. Proof using AT. apply AT. Qed.
Lemma write_der_tries : nlen c <= isize_max -> tries (fun _ W => write_der E D W v) (tlv id c) P.
Proof using AT.
  intros L. destruct (contents_or_len_tries L) as [(e & Ee & Pe)|(o & Eo & Ho)]; unfold write_der.
  - right. now apply (fails_now P e).
  - apply (tries_lift P _ _ _ _ Eo). cbn [fst snd]. unfold tlv. apply tries_bind; [apply AT|].
    rewrite length_octets_eq by (apply isize_lt; assumption).
    apply tries_bind; [left; apply emits_write_all|].
    destruct o as [b|]; [|apply AT]. destruct Ho as [Hb _]. left. rewrite (holds_slice _ _ Hb). apply emits_write_all.
Qed.
Lemma write_der_fails : (exists e, P e) -> nlen c <= isize_max -> fails (fun _ W => write_der E D W v) (tlv id c) P.
Proof using AT.
  intros X L. pose proof (at_strict _ _ _ _ _ AT X) as ST.
  destruct (contents_or_len_tries L) as [(e & Ee & Pe)|(o & Eo & Ho)]; unfold write_der.
  { now apply (fails_now P e). }
  apply (fails_lift P _ _ _ _ Eo). cbn [fst snd]. unfold tlv.
  destruct o as [b|].
  - (* the contents were written once already *)
    destruct Ho as [Hb EM].
    destruct ST as [F|F]; [now apply fails_left|].
    exfalso. eapply emits_fails; eassumption.
  - apply fails_either; [apply AT|]. destruct ST as [F|F]; [now left | right].
    rewrite length_octets_eq by (apply isize_lt; assumption).
    apply fails_right; [apply emits_write_all | exact F].
Qed.
Lemma der_len_told : nlen (tlv id c) < usize_limit -> told (der_len D v) (tlv id c) P.
Proof using AT.
  intros L. rewrite tlv_len in L. assert (nlen c < 2 ^ 64) as LC by (unfold usize_limit in L; lia).
  rewrite length_octets_len in L by assumption. destruct AT as [_ _ AI AL _]. unfold der_len.
  destruct AL as [[->| ->]|(e & -> & Pe)]; cbn [rbind]; [now left; left| |right; exists e; auto].
  destruct AI as [[->| ->]|(e & -> & Pe)]; cbn [rbind]; [now left; left| |right; exists e; auto].
  rewrite add_usize_ok by lia. cbn [rbind]. rewrite add_usize_ok by lia. cbn [rbind]. left. right.
  rewrite tlv_len, length_octets_len by assumption. reflexivity.
Qed.
Lemma to_der_tries : nlen (tlv id c) <= isize_max ->
  refused (to_der E D v) P \/
  exists b, to_der E D v = Ok b /\ holds b (tlv id c) /\ ~ (exists e, P e).
Proof using AT.
  intros L. rewrite tlv_len in L. assert (nlen c <= isize_max) as LC by lia.
  unfold to_der. destruct (contents_or_len_tries LC) as [R|(o & Eo & Ho)]; [left; now apply refused_bind|].
  rewrite Eo. cbn [rbind]. rewrite length_octets_eq by (apply isize_lt; assumption).
  pose proof (isize_lt _ L) as LU.
  destruct (at_id_len _ _ _ _ _ AT) as [AI|R]; [|left; now apply refused_bind].
  assert (exists b0 il, id_len D v = Ok il /\ holds b0 [] /\
    match il with
    | Some n => let! t := add_usize n (nlen (length_octets (nlen c))) in
                let! der_len := add_usize t (nlen c) in bf_reserve (e_cfg E) der_len (bf_new (e_cfg E))
    | None => Ok (bf_new (e_cfg E))
    end = Ok b0) as (b0 & il & El & H0 & E0).
  { destruct AI as [->| ->]; [eexists; eexists; repeat split; apply holds_new|].
    destruct (reserve_ok (e_cfg E) (nlen id + nlen (length_octets (nlen c)) + nlen c) _ _ (holds_new (e_cfg E)))
      as (b0 & sp & E0 & M & Lb & _ & O).
    { change (nlen (@nil N)) with 0. lia. }
    exists b0, (Some (nlen id)). split; [reflexivity|]. split; [exists sp; auto|].
    rewrite add_usize_ok by lia. cbn [rbind]. rewrite add_usize_ok by lia. exact E0. }
  rewrite El. cbn [rbind]. rewrite E0. cbn [rbind].
  destruct (at_id _ _ _ _ _ AT) as [SI|SI];
    [|left; apply refused_bind; apply (fails_buffer P (e_cfg E) _ _ b0 [] SI H0); cbn [app]; lia].
  destruct (emits_buffer (e_cfg E) _ _ b0 [] SI H0) as (b1 & E1 & H1); [cbn [app]; lia|].
  rewrite E1. cbn [rbind app] in *.
  destruct (emits_buffer (e_cfg E) _ _ b1 id (emits_write_all (length_octets (nlen c))) H1) as (b2 & E2 & H2);
    [rewrite nlen_app; lia|].
  rewrite E2. cbn [rbind unwrap_unit].
  assert (emits (fun _ W => write_der_contents D W v) c -> ~ (exists e, P e)) as NB.
  { intros SC X. destruct (at_strict _ _ _ _ _ AT X) as [F|F]; [exact (emits_fails P _ _ _ SI F) | exact (emits_fails P _ _ _ SC F)]. }
  unfold tlv. rewrite app_assoc.
  destruct o as [b|].
  - destruct Ho as [Hb SC]. rewrite (holds_slice _ _ Hb).
    destruct (emits_buffer (e_cfg E) _ _ b2 _ (emits_write_all c) H2) as (b3 & E3 & H3); [rewrite !nlen_app; lia|].
    rewrite E3. cbn [unwrap_unit]. right. exists b3. auto.
  - destruct (at_contents _ _ _ _ _ AT) as [SC|SC].
    + destruct (emits_buffer (e_cfg E) _ _ b2 _ SC H2) as (b3 & E3 & H3); [rewrite !nlen_app; lia|].
      right. exists b3. auto.
    + left. apply (fails_buffer P (e_cfg E) _ _ b2 _ SC H2). rewrite !nlen_app. lia.
Qed.
End Entry.

(** ** Provided collections *)
Lemma attempts_none {T} (D : serialize T) v id c : serialises D v id c -> attempts D v id c (fun _ => False).
Proof. intros [A1 A2 A3 A4]. split; [now left | now left | now left | now left | now intros []]. Qed.
Lemma lawful_refuse C D : ser_law C D -> ser_or_refuse C D none_bad.
Proof. intros SL v W L. apply attempts_none. now apply SL. Qed.
Lemma tries_weaken f bs (P Q : error -> Prop) : (forall e, P e -> Q e) -> tries f bs P -> tries f bs Q.
Proof. intros H [F|(cs & e & Pe & L & F)]; [now left | right; exists cs, e; auto]. Qed.
Lemma fails_weaken f bs (P Q : error -> Prop) : (forall e, P e -> Q e) -> fails f bs P -> fails f bs Q.
Proof. intros H (cs & e & Pe & L & F). exists cs, e; auto. Qed.
Lemma told_weaken r bs (P Q : error -> Prop) : (forall e, P e -> Q e) -> told r bs P -> told r bs Q.
Proof. intros H [A|(e & A & B)]; [now left | right; exists e; auto]. Qed.

Section Items.
Context (E : env) (C : codec) (D : serialize (car C)) (bad : refusal (car C)).
Hypothesis SL : ser_or_refuse C D bad.
Lemma write_ders_tries vs : Forall (wf C) vs -> nlen (concat (map (der_of C) vs)) <= isize_max ->
  tries (fun _ W => write_ders E D W vs) (concat (map (der_of C) vs)) (items_bad bad vs) /\
  ((exists e, items_bad bad vs e) -> fails (fun _ W => write_ders E D W vs) (concat (map (der_of C) vs)) (items_bad bad vs)).
Proof using SL.
  intros F. induction F as [|v vs Hv F IH]; intros L; cbn [map concat write_ders] in *.
  { split; [left; apply emits_ret|]. intros [e X]. inversion X. }
  rewrite nlen_app in L. pose proof (tlv_contents_le (id_of C v) (contents_of C v)) as T.
  change (der_of C v) with (tlv (id_of C v) (contents_of C v)) in *.
  assert (nlen (contents_of C v) <= isize_max) as LC by lia.
  pose proof (SL v Hv LC) as AT. destruct IH as [IT IF]; [lia|].
  pose proof (write_der_tries E D v _ _ _ AT LC) as TH.
  split.
  - apply tries_bind; [apply (tries_weaken _ _ (bad v)); [intros e; now constructor | exact TH]|].
    apply (tries_weaken _ _ (items_bad bad vs)); [intros e; now constructor 2 | exact IT].
  - intros [e X]. inversion X as [? ? X0|? ? X0]; subst.
    + apply fails_left. apply (fails_weaken _ _ (bad v)); [intros e'; now constructor|].
      apply (write_der_fails E D v _ _ _ AT); [now exists e | exact LC].
    + apply fails_either; [apply (tries_weaken _ _ (bad v)); [intros e'; now constructor | exact TH]|].
      right. apply (fails_weaken _ _ (items_bad bad vs)); [intros e'; now constructor 2|]. apply IF. now exists e.
Qed.
Lemma contents_len_from_told vs : forall acc, Forall (wf C) vs -> acc + nlen (concat (map (der_of C) vs)) <= isize_max ->
  der_contents_len_from D acc vs = Ok None \/
  der_contents_len_from D acc vs = Ok (Some (acc + nlen (concat (map (der_of C) vs)))) \/
  refused (der_contents_len_from D acc vs) (items_bad bad vs).
Proof using SL.
  intros acc F. revert acc. induction F as [|v vs Hv F IH]; intros acc L; cbn [map concat der_contents_len_from] in *.
  - right. left. do 2 f_equal. change (nlen (@nil N)) with 0. lia.
  - rewrite nlen_app in *. pose proof (tlv_contents_le (id_of C v) (contents_of C v)). unfold der_of at 1 in L.
    pose proof (isize_lt _ L). pose proof (SL v Hv ltac:(lia)) as AT.
    destruct (der_len_told D v _ _ _ AT) as [[->| ->]|(e & -> & Pe)]; [lia | now left | |].
    + cbn [rbind]. rewrite add_usize_ok by lia. cbn [rbind].
      destruct (IH (acc + nlen (tlv (id_of C v) (contents_of C v)))) as [->|[->|(e & -> & Pe)]]; [lia | now left | |].
      * right. left. do 2 f_equal. change (der_of C v) with (tlv (id_of C v) (contents_of C v)). lia.
      * right. right. exists e. split; [reflexivity|]. now constructor 2.
    + right. right. exists e. split; [reflexivity|]. now constructor.
Qed.
Lemma items_refuse ID : nlen ID = 1 -> ser_or_refuse (items_codec ID C) (ser_items E ID D) (items_bad bad).
Proof using SL.
  intros I1 vs F L. cbn in F, L.
  split; cbn [write_id write_der_contents id_len der_contents_len ser_items id_of contents_of items_codec].
  - left. apply emits_write_all.
  - now apply write_ders_tries.
  - left. right. now rewrite I1.
  - destruct (contents_len_from_told vs 0 F L) as [H|[H|H]]; [left; now left | left; now right | now right].
  - intros X. right. now apply write_ders_tries.
Qed.
End Items.
Lemma with_values_refuse C P e (D : serialize (car C)) bad : ser_or_refuse C D bad -> ser_or_refuse (with_values C P e) D bad.
Proof. intros SL v [W _] L. apply SL; assumption. Qed.

(** ** Maps *)
Section Maps.
Context (E : env) (CK CV : codec) (DK : serialize (car CK)) (DV : serialize (car CV)) (bk : refusal (car CK)) (bv : refusal (car CV)).
Hypothesis SK : ser_or_refuse CK DK bk.
Hypothesis SV : ser_or_refuse CV DV bv.
Lemma der_or_len_tries C (D : serialize (car C)) bad v : ser_or_refuse C D bad -> wf C v -> nlen (der_of C v) <= isize_max ->
  refused (der_or_len E D v) (bad v) \/
  exists o, der_or_len E D v = Ok (nlen (der_of C v), o) /\
    tries (fun _ W => write_der_or E D W v o) (der_of C v) (bad v) /\
    ((exists e, bad v e) -> fails (fun _ W => write_der_or E D W v o) (der_of C v) (bad v)).
Proof.
  intros SL Hv L. pose proof (tlv_contents_le (id_of C v) (contents_of C v)). unfold der_of in L.
  assert (nlen (contents_of C v) <= isize_max) as LC by lia. pose proof (SL v Hv LC) as AT.
  unfold der_or_len. destruct (der_len_told D v _ _ _ AT (isize_lt _ L)) as [[->| ->]|R]; cbn [rbind]; [| |left; now apply refused_bind].
  - destruct (to_der_tries E D v _ _ _ AT L) as [R|(b & -> & Hb & NB)]; [left; now apply refused_bind|]. right. cbn [rbind].
    rewrite (holds_slice _ _ Hb). exists (Some b). split; [reflexivity|]. cbn [write_der_or]. rewrite (holds_slice _ _ Hb).
    split; [left; apply emits_write_all | tauto].
  - right. exists None. split; [reflexivity|]. cbn [write_der_or].
    split; [now apply write_der_tries | intros X; now apply write_der_fails].
Qed.
Let bad (kv : car CK * car CV) (e : error) : Prop := bk (fst kv) e \/ bv (snd kv) e.
Lemma write_entry_tries k v : wf CK k -> wf CV v -> nlen (der_of (entry_codec CK CV) (k, v)) <= isize_max ->
  tries (fun _ W => write_entry E DK DV W k v) (der_of (entry_codec CK CV) (k, v)) (bad (k, v)) /\
  ((exists e, bad (k, v) e) -> fails (fun _ W => write_entry E DK DV W k v) (der_of (entry_codec CK CV) (k, v)) (bad (k, v))).
Proof using SK SV.
  intros Hk Hv L. pose proof (tlv_contents_le [0x30] (der_of CK k ++ der_of CV v)) as T.
  change (der_of (entry_codec CK CV) (k, v)) with (tlv [0x30] (der_of CK k ++ der_of CV v)) in *.
  rewrite nlen_app in T.
  assert (forall e, bk k e -> bad (k, v) e) as IK by (intros e; now left).
  assert (forall e, bv v e -> bad (k, v) e) as IV by (intros e; now right).
  destruct (der_or_len_tries CK DK bk k SK Hk) as [(e & Ee & Pe)|(ok & Ek & Wk & Fk)]; [lia| |].
  { apply IK in Pe. unfold write_entry. split; [right|intros _]; now apply (fails_now _ e). }
  destruct (der_or_len_tries CV DV bv v SV Hv) as [(e & Ee & Pe)|(ov & Ev & Wv & Fv)]; [lia| |].
  { apply IV in Pe. unfold write_entry.
    split; [right|intros _]; apply (fails_lift _ _ _ _ _ Ek); now apply (fails_now _ e). }
  apply (tries_weaken _ _ _ _ IK) in Wk. apply (tries_weaken _ _ _ _ IV) in Wv.
  assert (add_usize (nlen (der_of CK k)) (nlen (der_of CV v)) = Ok (nlen (der_of CK k) + nlen (der_of CV v))) as EA
    by (apply add_usize_ok; pose proof (isize_lt _ L); lia).
  assert (Length_to_bytes (Definite (nlen (der_of CK k) + nlen (der_of CV v))) = length_octets (nlen (der_of CK k ++ der_of CV v))) as EL.
  { rewrite length_octets_eq by (pose proof (isize_lt _ L); unfold usize_limit in *; lia). now rewrite nlen_app. }
  unfold write_entry. split.
  - apply (tries_lift _ _ _ _ _ Ek). apply (tries_lift _ _ _ _ _ Ev). cbn [fst snd].
    apply (tries_lift _ _ _ _ _ EA). rewrite EL. unfold tlv.
    apply tries_bind; [left; apply emits_write_all|]. apply tries_bind; [left; apply emits_write_all|]. now apply tries_bind.
  - intros X. apply (fails_lift _ _ _ _ _ Ek). apply (fails_lift _ _ _ _ _ Ev). cbn [fst snd].
    apply (fails_lift _ _ _ _ _ EA). rewrite EL. unfold tlv.
    apply fails_right; [apply emits_write_all|]. apply fails_right; [apply emits_write_all|].
    apply fails_either; [exact Wk|]. destruct X as [e [X|X]].
    + left. apply (fails_weaken _ _ _ _ IK). apply Fk. now exists e.
    + right. apply (fails_weaken _ _ _ _ IV). apply Fv. now exists e.
Qed.
Lemma write_entries_tries l : Forall (wf (entry_codec CK CV)) l ->
  nlen (concat (map (der_of (entry_codec CK CV)) l)) <= isize_max ->
  tries (fun _ W => write_entries E DK DV W l) (concat (map (der_of (entry_codec CK CV)) l)) (items_bad bad l) /\
  ((exists e, items_bad bad l e) -> fails (fun _ W => write_entries E DK DV W l) (concat (map (der_of (entry_codec CK CV)) l)) (items_bad bad l)).
Proof using SK SV.
  intros F. induction F as [|[k v] l [Hk Hv] F IH]; intros L; cbn [map concat write_entries] in *.
  { split; [left; apply emits_ret|]. intros [e X]. inversion X. }
  rewrite nlen_app in L. destruct (write_entry_tries k v Hk Hv) as [TH FH]; [lia|]. destruct IH as [IT IF]; [lia|].
  assert (forall e, bad (k, v) e -> items_bad bad ((k, v) :: l) e) as I1 by (intros e; now constructor).
  assert (forall e, items_bad bad l e -> items_bad bad ((k, v) :: l) e) as I2 by (intros e; now constructor 2).
  apply (tries_weaken _ _ _ _ I1) in TH. split.
  - apply tries_bind; [exact TH|]. now apply (tries_weaken _ _ _ _ I2).
  - intros [e X]. inversion X as [? ? X0|? ? X0]; subst; apply fails_either; try exact TH.
    + left. apply (fails_weaken _ _ _ _ I1). apply FH. now exists e.
    + right. apply (fails_weaken _ _ _ _ I2). apply IF. now exists e.
Qed.
Lemma btree_map_len_told l : forall acc, Forall (wf (entry_codec CK CV)) l ->
  acc + nlen (concat (map (der_of (entry_codec CK CV)) l)) <= isize_max ->
  btree_map_len DK DV acc l = Ok None \/
  btree_map_len DK DV acc l = Ok (Some (acc + nlen (concat (map (der_of (entry_codec CK CV)) l)))) \/
  refused (btree_map_len DK DV acc l) (items_bad bad l).
Proof using SK SV.
  intros acc F. revert acc. induction F as [|[k v] l [Hk Hv] F IH]; intros acc L; cbn [map concat btree_map_len] in *.
  - right. left. do 2 f_equal. change (nlen (@nil N)) with 0. lia.
  - rewrite nlen_app in *.
    change (der_of (entry_codec CK CV) (k, v)) with (tlv [0x30] (der_of CK k ++ der_of CV v)) in *.
    rewrite tlv_len in *. pose proof (isize_lt _ L). assert (nlen (der_of CK k ++ der_of CV v) < 2 ^ 64) as LL by (unfold usize_limit in *; lia).
    rewrite length_octets_len in * by assumption. rewrite nlen_app in *. change (nlen [0x30]) with 1 in *.
    pose proof (tlv_contents_le (id_of CK k) (contents_of CK k)). pose proof (tlv_contents_le (id_of CV v) (contents_of CV v)).
    unfold der_of in *. cbn [fst snd] in *.
    pose proof (SK k Hk ltac:(lia)) as AK. pose proof (SV v Hv ltac:(lia)) as AV.
    destruct (der_len_told DK k _ _ _ AK) as [[->| ->]|(e & -> & Pe)]; [lia | now left | cbn [rbind] |
      right; right; exists e; split; [reflexivity | constructor; now left]].
    destruct (der_len_told DV v _ _ _ AV) as [[->| ->]|(e & -> & Pe)]; [lia | now left | cbn [rbind] |
      right; right; exists e; split; [reflexivity | constructor; now right]].
    change (nlen ID_SEQUENCE) with 1.
    do 4 (rewrite add_usize_ok by lia; cbn [rbind]).
    match goal with |- btree_map_len _ _ ?a _ = _ \/ _ => destruct (IH a) as [->|[->|(e & -> & Pe)]] end; [lia | now left | |].
    + right. left. do 2 f_equal. lia.
    + right. right. exists e. split; [reflexivity | now constructor 2].
Qed.
Lemma decided_len k : ser_decided CK DK -> wf CK k -> der_len DK k <> Ok None.
Proof.
  intros KD Hk. destruct (KD k Hk) as [NI NC]. unfold der_len. destruct (der_contents_len DK k) as [[n|]|e| |]; try discriminate; [|congruence].
  cbn [rbind]. destruct (id_len DK k) as [[m|]|e| |]; try discriminate; [|congruence]. cbn [rbind].
  destruct (add_usize m (Length_len (Definite n))) as [t|e| |]; try discriminate. cbn [rbind]. destruct (add_usize t n); discriminate.
Qed.
Lemma hash_map_len_btree l : ser_decided CK DK -> forall acc, Forall (wf (entry_codec CK CV)) l ->
  hash_map_len DK DV acc l = btree_map_len DK DV acc l.
Proof.
  intros KD acc F. revert acc. induction F as [|[k v] l [Hk Hv] F IH]; intros acc; [reflexivity|].
  cbn [btree_map_len hash_map_len]. pose proof (decided_len k KD Hk) as ND.
  destruct (der_len DK k) as [[kl|]|e| |]; cbn [rbind]; try reflexivity; [|congruence].
  destruct (der_len DV v) as [[vl|]|e| |]; cbn [rbind]; try reflexivity.
  destruct (add_usize kl vl) as [cl|e| |]; cbn [rbind]; try reflexivity.
  destruct (add_usize (nlen ID_SEQUENCE) (Length_len (Definite cl))) as [t|e| |]; cbn [rbind]; try reflexivity.
  destruct (add_usize t cl) as [t'|e| |]; cbn [rbind]; try reflexivity.
  destruct (add_usize acc t') as [t''|e| |]; cbn [rbind]; try reflexivity. apply IH.
Qed.
Lemma btree_map_refuse cmp : ser_or_refuse (btree_map_codec CK CV cmp) (ser_btree_map E DK DV) (entries_bad bk bv).
Proof using SK SV.
  apply (with_values_refuse (items_codec [0x30] (entry_codec CK CV))). intros l F L. cbn in F, L.
  split; cbn [write_id write_der_contents id_len der_contents_len ser_btree_map id_of contents_of items_codec].
  - left. apply emits_write_all.
  - now apply write_entries_tries.
  - left. now right.
  - destruct (btree_map_len_told l 0 F L) as [H|[H|H]]; [left; now left | left; now right | now right].
  - intros X. right. now apply write_entries_tries.
Qed.
Lemma hash_map_refuse eqb : ser_decided CK DK -> ser_or_refuse (hash_map_codec CK CV eqb) (ser_hash_map E DK DV) (entries_bad bk bv).
Proof using SK SV.
  intros KD. apply (with_values_refuse (items_codec [0x31] (entry_codec CK CV))). intros l F L. cbn in F, L.
  split; cbn [write_id write_der_contents id_len der_contents_len ser_hash_map id_of contents_of items_codec].
  - left. apply emits_write_all.
  - now apply write_entries_tries.
  - left. now right.
  - rewrite (hash_map_len_btree l KD 0 F).
    destruct (btree_map_len_told l 0 F L) as [H|[H|H]]; [left; now left | left; now right | now right].
  - intros X. right. now apply write_entries_tries.
Qed.
End Maps.

(** ** Derived implementations *)
Fixpoint fields_refuse (Ts : list Type) : hlist field Ts -> hlist field_spec Ts -> hlist refusal Ts -> Prop :=
  match Ts with
  | [] => fun _ _ _ => True
  | T :: Ts' => fun fs cs bs =>
      match fst cs with
      | Skipped _ => is_skip_serializing (f_attr (fst fs)) = true
      | Coded c => is_skip_serializing (f_attr (fst fs)) = false /\ ser_or_refuse (to_codec c) (field_ser (fst fs)) (fst bs)
      end /\ fields_refuse Ts' (snd fs) (snd cs) (snd bs)
  end.
Section Derived.
Context (E : env).
Lemma write_fields_tries Ts : forall fs cs bs v, fields_refuse Ts fs cs bs -> fields_wf Ts cs v ->
  nlen (concat (fields_der Ts cs v)) <= isize_max ->
  tries (fun _ W => write_fields E W Ts fs v) (concat (fields_der Ts cs v)) (fields_bad Ts cs bs v) /\
  ((exists e, fields_bad Ts cs bs v e) -> fails (fun _ W => write_fields E W Ts fs v) (concat (fields_der Ts cs v)) (fields_bad Ts cs bs v)).
Proof.
  induction Ts as [|T Ts IH]; intros fs cs bs v R F L; cbn [write_fields fields_der concat fields_bad].
  { split; [left; apply emits_ret | now intros []]. }
  destruct fs as [f fs], cs as [s cs], v as [x v], bs as [b bs]. cbn [fst snd fields_refuse fields_wf fields_der] in *.
  destruct R as [Rf R], F as [Fx F]. destruct s as [d|c].
  - rewrite Rf. now apply IH.
  - destruct Rf as [-> SL]. cbn [concat] in *. rewrite nlen_app in L.
    pose proof (tlv_contents_le (on_id c x) (on_contents c x)) as TL. unfold der_of in *. cbn [id_of contents_of to_codec] in *.
    destruct (IH fs cs bs v R F) as [IT IF]; [lia|].
    assert (nlen (on_contents c x) <= isize_max) as LC by lia. pose proof (SL x Fx LC) as AT. cbn [car id_of contents_of to_codec] in AT.
    assert (forall e, b x e -> b x e \/ fields_bad Ts cs bs v e) as I1 by auto.
    assert (forall e, fields_bad Ts cs bs v e -> b x e \/ fields_bad Ts cs bs v e) as I2 by auto.
    pose proof (tries_weaken _ _ _ _ I1 (write_der_tries E (field_ser f) x _ _ _ AT LC)) as TH.
    split.
    + eapply tries_ext.
      { intros S W s. apply wbind_ext; [|intros a s'; reflexivity]. now rewrite field_write. }
      apply tries_bind; [exact TH|]. now apply (tries_weaken _ _ _ _ I2).
    + intros [e X]. eapply fails_ext.
      { intros S W s. apply wbind_ext; [|intros a s'; reflexivity]. now rewrite field_write. }
      apply fails_either; [exact TH|]. destruct X as [X|X].
      * left. apply (fails_weaken _ _ _ _ I1). apply (write_der_fails E (field_ser f) x _ _ _ AT); [now exists e | exact LC].
      * right. apply (fails_weaken _ _ _ _ I2). apply IF. now exists e.
Qed.
Lemma fields_len_told Ts : forall fs cs bs v acc, fields_refuse Ts fs cs bs -> existsb converts (field_attributes Ts fs) = false ->
  fields_wf Ts cs v -> acc + nlen (concat (fields_der Ts cs v)) <= isize_max ->
  fields_len Ts fs acc v = Ok None \/ fields_len Ts fs acc v = Ok (Some (acc + nlen (concat (fields_der Ts cs v)))) \/
  refused (fields_len Ts fs acc v) (fields_bad Ts cs bs v).
Proof.
  induction Ts as [|T Ts IH]; intros fs cs bs v acc R NC F L; cbn [fields_len fields_der concat fields_bad].
  { right. left. do 2 f_equal. change (nlen (@nil N)) with 0. lia. }
  destruct fs as [f fs], cs as [s cs], v as [x v], bs as [b bs]. cbn [fst snd fields_refuse fields_wf fields_der field_attributes existsb] in *.
  apply Bool.orb_false_iff in NC as [NCf NC]. destruct R as [Rf R], F as [Fx F]. destruct s as [d|c].
  - rewrite Rf. now apply IH.
  - destruct Rf as [-> SL]. cbn [concat] in *. rewrite nlen_app in *. unfold der_of in *. cbn [id_of contents_of to_codec] in *.
    rewrite tlv_len in *. rewrite <- (converts_false f NCf). pose proof (isize_lt _ L).
    assert (nlen (on_contents c x) < 2 ^ 64) as LL by (unfold usize_limit in *; lia).
    rewrite length_octets_len in * by assumption.
    destruct (SL x Fx) as [_ _ AI AC _]; [cbn; lia|]. cbn [car id_of contents_of to_codec] in AI, AC.
    destruct AC as [[->| ->]|(e & -> & Pe)]; cbn [rbind]; [now left | | right; right; exists e; auto].
    destruct AI as [[->| ->]|(e & -> & Pe)]; cbn [rbind]; [now left | | right; right; exists e; auto].
    do 3 (rewrite add_usize_ok by lia; cbn [rbind]).
    match goal with |- fields_len _ _ ?a _ = _ \/ _ => destruct (IH fs cs bs v a R NC F) as [->|[->|(e & -> & Pe)]] end; [lia | now left | |].
    + right. left. do 2 f_equal. lia.
    + right. right. exists e. auto.
Qed.
Lemma struct_refuse Ts (dc : data_container Ts) cs bs : fields_refuse Ts (dc_fields dc) cs bs ->
  ser_or_refuse (struct_codec (id_slice (dc_attr dc)) Ts cs) (ser_fields E dc) (fields_bad Ts cs bs).
Proof.
  intros R v F L. cbn in F, L. split; cbn [write_id write_der_contents id_len der_contents_len ser_fields id_of contents_of struct_codec].
  - left. apply emits_write_all.
  - now apply write_fields_tries.
  - left. now right.
  - destruct (existsb converts _) eqn:NC; [left; now left|].
    destruct (fields_len_told Ts (dc_fields dc) cs bs v 0 R NC F L) as [H|[H|H]]; [left; now left | left; now right | now right].
  - intros X. right. now apply write_fields_tries.
Qed.
Lemma converted_attempts {T} (t : target T) v id c P : attempts (ser_on (tg_conv t) (tg_ser t)) v id c P -> attempts (ser_converted t) v id c P.
Proof. intros [A B _ _ ST]. split; [exact A | exact B | left; now left | left; now left | exact ST]. Qed.
Lemma ser_field_refuse {T} (f : field T) c bad : ser_or_refuse (to_codec c) (field_ser f) bad -> ser_or_refuse (to_codec c) (ser_field f) bad.
Proof.
  intros SL v F L. specialize (SL v F L). unfold field_ser in SL. unfold ser_field.
  destruct (a_into (f_attr f)); [now apply converted_attempts|]. destruct (a_to (f_attr f)); [now apply converted_attempts | exact SL].
Qed.
Lemma no_fields_bad Ts : forall fs cs bs v e, fields_refuse Ts fs cs bs -> transparent_fields Ts fs = [] -> ~ fields_bad Ts cs bs v e.
Proof.
  induction Ts as [|T Ts IH]; intros fs cs bs v e R H; [intros []|]. destruct fs as [f fs], cs as [s cs], bs as [b bs], v as [x v].
  cbn [fields_refuse transparent_fields fields_bad fst snd] in *. destruct R as [Rf R], s as [d|c].
  - rewrite Rf in H. apply (IH fs); [exact R|]. now destruct (transparent_fields Ts fs).
  - destruct Rf as [NS _]. now rewrite NS in H.
Qed.
Lemma transparent_refuse Ts : forall fs cs bs S, fields_refuse Ts fs cs bs -> transparent_fields Ts fs = [S] ->
  ser_or_refuse (transparent_codec Ts cs) S (fields_bad Ts cs bs).
Proof.
  induction Ts as [|T Ts IH]; intros fs cs bs S R H; [discriminate|]. destruct fs as [f fs], cs as [s cs], bs as [b bs].
  cbn [fields_refuse transparent_fields fst snd] in *. destruct R as [Rf R], s as [d|c].
  - rewrite Rf in H. destruct (transparent_fields Ts fs) as [|s' [|]] eqn:K; try discriminate. injection H as <-.
    intros [x v] [_ F] L. destruct (IH fs cs bs s' R K v F L) as [A1 A2 A3 A4 A5]. split; assumption.
  - destruct Rf as [NS SL]. rewrite NS in H. destruct (transparent_fields Ts fs) eqn:K; [|discriminate]. injection H as <-.
    intros [x v] [Fx F] L. destruct (ser_field_refuse f c b SL x Fx L) as [A1 A2 A3 A4 A5]. cbn in A1, A2, A3, A4, A5.
    assert (forall e, b x e -> b x e \/ fields_bad Ts cs bs v e) as I1 by auto.
    split; cbn [write_id write_der_contents id_len der_contents_len ser_on id_of contents_of transparent_codec only_field fields_bad fst snd].
    + exact (tries_weaken _ _ _ _ I1 A1).
    + exact (tries_weaken _ _ _ _ I1 A2).
    + exact (told_weaken _ _ _ _ I1 A3).
    + exact (told_weaken _ _ _ _ I1 A4).
    + intros [e [X|X]]; [|exfalso; eapply no_fields_bad; eassumption].
      destruct A5 as [A5|A5]; [now exists e | left | right]; exact (fails_weaken _ _ _ _ I1 A5).
Qed.
Fixpoint variants_refuse (Tss : list (list Type)) : vlist data_container Tss -> vlist variant_spec Tss -> vlist (hlist refusal) Tss -> Prop :=
  match Tss with
  | [] => fun _ _ _ => True
  | Ts :: Tss' => fun vs ws bs =>
      (id_slice (dc_attr (fst vs)) = fst (fst ws) /\ fields_refuse Ts (dc_fields (fst vs)) (snd (fst ws)) (fst bs)) /\
      variants_refuse Tss' (snd vs) (snd ws) (snd bs)
  end.
Lemma enum_refuse Tss : forall vs ws bs, variants_refuse Tss vs ws bs ->
  ser_or_refuse (enum_codec Tss ws) (ser_variants E Tss vs) (variants_bad Tss ws bs).
Proof.
  induction Tss as [|Ts Tss IH]; intros vs ws bs R; [intros []|]. destruct vs as [dc vs], ws as [[ID cs] ws], bs as [b bs].
  destruct R as [[I O] R]. cbn [fst snd] in *. subst ID. pose proof (struct_refuse Ts dc cs b O) as SR. specialize (IH vs ws bs R).
  intros [x|y] F L; [destruct (SR x F L) | destruct (IH y F L)]; split; assumption.
Qed.
End Derived.
Lemma via_refuse C {T} (f : T -> car C) P eqv S0 S bad : ser_via f S0 S -> ser_or_refuse C S0 bad ->
  ser_or_refuse (to_codec (via C f P eqv)) S (fun v => bad (f v)).
Proof.
  intros SV SL v [_ W] L. destruct (SL (f v) W L) as [A1 A2 A3 A4 A5].
  destruct SV; (split; [exact A1 | exact A2 | | | exact A5]); [exact A3 | exact A4 | left; now left | left; now left].
Qed.

(** ** All types *)
Scheme partly_min := Minimality for partly Sort Prop
  with partly_fields_min := Minimality for partly_fields Sort Prop
  with partly_variants_min := Minimality for partly_variants Sort Prop.
Fixpoint variants_known (Tss : list (list Type)) : vlist data_container Tss -> vlist variant_spec Tss -> vlist (hlist refusal) Tss -> Prop :=
  match Tss with
  | [] => fun _ _ _ => True
  | Ts :: Tss' => fun vs ws bs =>
      (let a := dc_attr (fst vs) in identifier (class_of a) (pc_of a) (number_of a) (fst (fst ws)) /\
       fields_refuse Ts (dc_fields (fst vs)) (snd (fst ws)) (fst bs)) /\
      variants_known Tss' (snd vs) (snd ws) (snd bs)
  end.
Lemma known_refuse is_path Tss : forall decls vs, try_variants is_path Tss decls = Some vs -> forall ws bs,
  variants_known Tss vs ws bs -> variants_refuse Tss vs ws bs.
Proof.
  induction Tss as [|Ts Tss IH]; intros decls vs H ws bs R; [exact Logic.I|]. cbn [try_variants] in H.
  destruct (try_variant is_path Ts (fst decls)) as [v|] eqn:V; [|discriminate].
  destruct (try_variants is_path Tss (snd decls)) as [rest|] eqn:K; [|discriminate]. injection H as <-.
  destruct R as [[I F] R]. cbn [fst snd] in *. split; [|now apply (IH (snd decls))].
  unfold try_variant in V. destruct (Attribute_try_from is_path (vd_attrs (fst decls))) as [a|] eqn:TF; [|discriminate].
  destruct (negb (sanitize_as_variant a)); [discriminate|]. destruct (try_fields is_path Ts (vd_fields (fst decls))); [|discriminate].
  injection V as <-. cbn [dc_attr] in *. split; [|exact F].
  eapply identifier_fun; [apply id_slice_identifier; eapply try_from_values; exact TF | exact I].
Qed.
Lemma partly_refuse E C S bad : partly E C S bad -> ser_or_refuse C S bad.
Proof.
  apply (partly_min E (fun C S bad => ser_or_refuse C S bad) (fun Ts fs cs bs => fields_refuse Ts fs cs bs)
    (fun Tss vs ws bs => variants_known Tss vs ws bs)).
  - intros. now apply lawful_refuse.
  - auto.
  - intros. now apply items_refuse.
  - intros. now apply items_refuse.
  - intros. now apply items_refuse.
  - intros. apply with_values_refuse. now apply items_refuse.
  - intros. apply with_values_refuse. now apply items_refuse.
  - intros. now apply btree_map_refuse.
  - intros. now apply hash_map_refuse.
  - intros is_path attrs a ID Ts decls fs cs bs ps S0 TF P I F _ R HS.
    destruct (plain_struct is_path E attrs a TF Ts decls fs ps S0 {| from_ber := fun _ _ _ => Panic; from_der := fun _ _ => Panic |} P F) as [ES _].
    rewrite (ES HS). assert (ID = id_slice a) as -> by (eapply identifier_fun; [exact I | apply id_slice_identifier; eapply try_from_values; exact TF]).
    now apply (struct_refuse E Ts {| dc_attr := a; dc_fields := fs |}).
  - intros is_path attrs a Ts decls fs cs bs ps S0 TF TR F _ R HS.
    destruct (transparent_struct is_path E attrs a TF Ts decls fs ps S0 {| from_ber := fun _ _ _ => Panic; from_der := fun _ _ => Panic |}
      (transparent_cases a (try_from_sanitized _ _ _ TF) TR) F) as [ES _].
    now apply (transparent_refuse Ts fs cs bs S0 R (ES HS)).
  - intros is_path attrs a Tss decls vs ws bs ps S0 TF P F _ R HS.
    destruct (plain_enum is_path E attrs a TF Tss decls vs ps S0 {| from_ber := fun _ _ _ => Panic; from_der := fun _ _ => Panic |} P F) as [ES _].
    rewrite (ES HS). apply enum_refuse. now apply (known_refuse is_path Tss decls).
  - intros. now apply (via_refuse C0 f P eqv S0).
  - exact Logic.I.
  - intros T Ts f d b fs cs bs SK _ R. split; [now apply skips_ser_iff | exact R].
  - intros T Ts f c b fs cs bs SK _ L _ R. split; [split; [now apply not_skips_ser | exact L] | exact R].
  - exact Logic.I.
  - intros Ts Tss dc ID cs b vs ws bs I _ R _ V. split; [split; assumption | exact V].
Qed.
