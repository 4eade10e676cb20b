(** Proofs of C64 and C65. *)
From Coq Require Import String Ascii.
From Verif Require Import Base ModelError ModelIo ModelTag ModelContents ModelBuf ModelTlv ModelSerde Spec SpecIo SpecSerde.
From Verif Require Import ModelAttr ModelDerive SpecAttr SpecDerive SpecColl SpecFail.
From Verif Require Import TagProofs IdProofs TagMain ContentsProofs TlvProofs BufProofs TlvMain.
From Verif Require Import SerdeOctets SerdeSer SerdeDe SerdeMain SerdeEntry AttrProofs AttrParse DeriveProofs DeriveMain CollProofs.
Open Scope N_scope.

Lemma rbind_err {A B} (r : res A) (k : A -> res B) e : rbind r k = Err e <-> r = Err e \/ exists a, r = Ok a /\ k a = Err e.
Proof.
  split.
  - destruct r as [a|e'| |]; cbn [rbind]; intros H; try discriminate; [right; eauto | left; congruence].
  - intros [->|(a & -> & H)]; [reflexivity | exact H].
Qed.
Definition in_context {A} (n : N) (r : res A) : res A := rmap_err (Error_context n) r.
Lemma in_context_err {A} n (r : res A) e : in_context n r = Err e <-> exists e0, r = Err e0 /\ e = Error_context n e0.
Proof.
  destruct r as [a|e'| |]; cbn; split; try discriminate; try (intros (e0 & X & _); discriminate).
  - intros [= <-]. eauto.
  - intros (e0 & [= <-] & ->). reflexivity.
Qed.
Lemma in_context_ok {A} n (r : res A) a : in_context n r = Ok a <-> r = Ok a.
Proof. destruct r; cbn; split; congruence. Qed.
Definition convert_in {U T} (n : N) (g : U -> T + anyhow) (u : U) : res T :=
  match g u with inl t => Ok t | inr err => Err (Error_context n (Anyhow err)) end.
Lemma convert_err {U T} n (g : U -> T + anyhow) u e : convert_in n g u = Err e <-> exists err, g u = inr err /\ e = Error_context n (Anyhow err).
Proof. unfold convert_in. destruct (g u) as [t|err]; split; try discriminate; [intros (? & [=] & _) | intros [= <-]; eauto | intros (? & [= <-] & ->); reflexivity]. Qed.
Lemma convert_ok {U T} n (g : U -> T + anyhow) u t : convert_in n g u = Ok t <-> g u = inl t.
Proof. unfold convert_in. destruct (g u); split; congruence. Qed.

(** ** Fields *)
Section Fields.
Context (rd : forall T, field T -> list N -> res (T * list N)).
Context (item : forall T, field T -> list N -> T -> Prop) (stop : forall T, field T -> list N -> error -> Prop).
Hypothesis rd_skip : forall T f c, skips_de (f_attr f) -> rd T f c = Ok (default_of f, c).
Hypothesis rd_ok : forall T f c x rest, bytes_ok c -> ~ skips_de (f_attr f) -> (rd T f c = Ok (x, rest) <-> exists b, c = b ++ rest /\ item T f b x).
Hypothesis rd_err : forall T f c e, bytes_ok c -> ~ skips_de (f_attr f) -> (rd T f c = Err e <-> stop T f c e).
Lemma skips_dec a : skips_de a \/ ~ skips_de a.
Proof using. rewrite skips_de_iff. destruct (is_skip_deserializing a); [now left | right; discriminate]. Qed.
Lemma all_read_cons {T Ts} (r : res (T * list N)) (k : list N -> res (tuple Ts * list N)) e :
  all_read (let! (t, c) := r in let! (ts, c) := k c in Ok ((t, ts), c)) = Err e <->
  r = Err e \/ exists t c, r = Ok (t, c) /\ all_read (k c) = Err e.
Proof using.
  unfold all_read. destruct r as [[t c]|e'| |]; cbn [rbind].
  - split.
    + intros H. right. exists t, c. split; [reflexivity|]. destruct (k c) as [[ts c']|e'| |]; cbn [rbind] in *; try discriminate H; [|injection H as ->; reflexivity].
      destruct (nlen c' =? 0); [discriminate H | injection H as <-; reflexivity].
    + intros [X|(? & ? & [= <- <-] & H)]; [discriminate|]. destruct (k c) as [[ts c']|e'| |]; cbn [rbind] in *; try discriminate H; [|injection H as ->; reflexivity].
      destruct (nlen c' =? 0); [discriminate H | injection H as <-; reflexivity].
  - split; [intros [= <-]; now left | intros [[= <-]|(? & ? & X & _)]; [reflexivity | discriminate]].
  - split; [discriminate | intros [X|(? & ? & X & _)]; discriminate].
  - split; [discriminate | intros [X|(? & ? & X & _)]; discriminate].
Qed.
Lemma construct_err Ts : forall fs c e, bytes_ok c -> (all_read (construct rd Ts fs c) = Err e <-> fields_stop item stop Ts fs c e).
Proof using rd_skip rd_ok rd_err.
  induction Ts as [|T Ts IH]; intros fs c e Hok; cbn [construct fields_stop].
  { unfold all_read. cbn [rbind]. destruct c as [|o c]; [rewrite nlen_nil | rewrite nlen_cons].
    - cbn [N.eqb]. split; [discriminate | intros [X _]; congruence].
    - destruct (N.eqb_spec (1 + nlen c) 0); [lia|]. split; [intros [= <-]; split; [discriminate | reflexivity] | intros [_ ->]; reflexivity]. }
  destruct fs as [f fs]. cbn [fst snd]. etransitivity; [exact (all_read_cons (rd T f c) (construct rd Ts fs) e)|]. destruct (skips_dec (f_attr f)) as [SK|NS].
  - rewrite rd_skip by assumption. split.
    + intros [X|(? & ? & [= <- <-] & H)]; [discriminate|]. left. split; [assumption | now apply IH].
    + intros [[_ H]|[N _]]; [right; exists (default_of f), c; split; [reflexivity | now apply IH] | contradiction].
  - rewrite rd_err by assumption. split.
    + intros [H|(t & r & R & H)]; right; (split; [assumption|]); [now left|]. right. apply rd_ok in R as (b & -> & I); auto.
      apply bytes_ok_app in Hok as [_ Hr]. exists b, r, t. rewrite <- IH by assumption. auto.
    + intros [[SK _]|[_ [H|(b & r & x & -> & I & H)]]]; [contradiction | now left|]. right. exists x, r. apply bytes_ok_app in Hok as Hr.
      rewrite IH by apply Hr. split; [|assumption]. apply rd_ok; eauto.
Qed.
End Fields.

(** ** Elements *)
Section Items.
Context {X C : Type} (next : helper -> res (option (X * helper))) (insert : X -> C -> C).
Context (item : list N -> X -> Prop) (stop : N -> list N -> error -> Prop).
Hypothesis next_nil : forall i, next ([], i) = Ok None.
Hypothesis next_none : forall bs i, next (bs, i) = Ok None -> bs = [].
Hypothesis next_some : forall bs i x rest j, bytes_ok bs -> next (bs, i) = Ok (Some (x, (rest, j))) -> exists b, bs = b ++ rest /\ b <> [] /\ item b x.
Hypothesis next_reads : forall b x, item b x -> reads next b x.
Hypothesis next_err : forall bs i e, bytes_ok bs -> bs <> [] -> (next (bs, i) = Err e <-> stop i bs e).
Lemma collect_err fuel : forall c i ret e, bytes_ok c -> (length c < fuel)%nat ->
  (collect next insert fuel (c, i) ret = Err e <->
   exists bs xs bad, c = concat bs ++ bad /\ bad <> [] /\ Forall2 item bs xs /\ stop (i + nlen bs) bad e).
Proof using next_nil next_none next_some next_reads next_err.
  induction fuel as [|fuel IH]; intros c i ret e Hok L; [lia|]. cbn [collect]. rewrite rbind_err. split.
  - intros [H|([[x [rest j]]|] & N & H)]; [|pose proof N as N'|discriminate].
    + assert (c <> []) as N0 by (intros ->; rewrite next_nil in H; discriminate).
      apply next_err in H; auto. exists [], [], c. rewrite nlen_nil, N.add_0_r. auto.
    + apply next_some in N as (b & -> & N0 & I); auto. destruct (next_reads b x I) as [_ R]. rewrite (R rest i Hok) in N'.
      injection N' as <-. apply bytes_ok_app in Hok as [_ Hr]. apply IH in H as (bs & xs & bad & -> & Nb & F & S); auto.
      * exists (b :: bs), (x :: xs), bad. cbn [concat]. rewrite <- app_assoc. split; [reflexivity|]. split; [assumption|].
        split; [now constructor|]. rewrite nlen_cons. replace (i + (1 + nlen bs)) with (i + 1 + nlen bs) by lia. exact S.
      * rewrite app_length in L. destruct b; [congruence|]. cbn [length] in L. lia.
  - intros (bs & xs & bad & -> & N0 & F & S). destruct F as [|b x bs xs I F].
    + left. cbn [concat app] in *. apply next_err; auto. now rewrite nlen_nil, N.add_0_r in S.
    + right. cbn [concat] in *. rewrite <- app_assoc in *. destruct (next_reads b x I) as [Nb R].
      exists (Some (x, (concat bs ++ bad, i + 1))). split; [now apply R|]. apply bytes_ok_app in Hok as [_ Hr]. apply IH; [assumption| |].
      * rewrite app_length in L. destruct b; [congruence|]. cbn [length] in L. lia.
      * exists bs, xs, bad. split; [reflexivity|]. split; [assumption|]. split; [assumption|]. rewrite nlen_cons in S.
        replace (i + 1 + nlen bs) with (i + (1 + nlen bs)) by lia. exact S.
Qed.
Lemma items_err c ret e : bytes_ok c -> (collect next insert (S (length c)) (c, 0) ret = Err e <-> items_stop item stop c e).
Proof using next_nil next_none next_some next_reads next_err.
  intros Hok. rewrite collect_err by (assumption || lia). unfold items_stop. setoid_rewrite N.add_0_l. reflexivity.
Qed.
End Items.

(** ** One kind of encoding *)
Section Mode.
Context (parse : list N -> res (list N) * list N) (no_value : list N -> error -> Prop) (is_value : list N -> Prop).
Hypothesis parse_cases : forall c, bytes_ok c ->
  (exists e r, parse c = (Err e, r)) \/ exists b rest, parse c = (Ok b, rest) /\ c = b ++ rest /\ is_value b.
Hypothesis parse_error : forall c e, bytes_ok c -> ((exists r, parse c = (Err e, r)) <-> no_value c e).
Hypothesis parse_value : forall b rest, is_value b -> bytes_ok (b ++ rest) -> parse (b ++ rest) = (Ok b, rest).
Lemma value_fun b b' r r' : is_value b -> is_value b' -> b ++ r = b' ++ r' -> bytes_ok (b ++ r) -> b = b' /\ r = r'.
Proof using parse_value.
  intros V V' E Hok. pose proof (parse_value b r V Hok) as P. pose proof (parse_value b' r' V') as P'. rewrite <- E in P'.
  specialize (P' Hok). rewrite P in P'. now injection P'.
Qed.
Lemma parsed_err c e : bytes_ok c -> (parsed (parse c) = Err e <-> no_value c e).
Proof using parse_error.
  intros Hok. rewrite <- parse_error by assumption. unfold parsed. destruct (parse c) as [[b|e'| |] r]; cbn [fst snd rbind]; split; try discriminate; try (intros (? & X); discriminate).
  - intros [= <-]. eauto.
  - intros (? & [= <- <-]). reflexivity.
Qed.
Lemma parsed_ok c b rest : bytes_ok c -> (parsed (parse c) = Ok (b, rest) <-> is_value b /\ c = b ++ rest).
Proof using parse_cases parse_error parse_value.
  intros Hok. unfold parsed. split.
  - destruct (parse_cases c Hok) as [(e & r & ->)|(b' & r' & -> & -> & V)]; cbn [fst snd rbind]; intros H; [discriminate|].
    injection H as -> ->. auto.
  - intros [V ->]. now rewrite parse_value.
Qed.
Definition read_value {U} (cp cd : N) (decode : list N -> res U) (c : list N) : res (U * list N) :=
  let! (b, rest) := in_context cp (parsed (parse c)) in
  let! u := in_context cd (decode b) in Ok (u, rest).
Definition read_as {U T} (cp cd cc : N) (decode : list N -> res U) (g : U -> T + anyhow) (c : list N) : res (T * list N) :=
  let! (u, rest) := read_value cp cd decode c in let! t := convert_in cc g u in Ok (t, rest).
Lemma read_value_ok {U} cp cd (decode : list N -> res U) c u rest : bytes_ok c ->
  (read_value cp cd decode c = Ok (u, rest) <-> exists b, is_value b /\ c = b ++ rest /\ decode b = Ok u).
Proof using parse_cases parse_error parse_value.
  intros Hok. unfold read_value. rewrite rbind_ok. split.
  - intros ([b r] & P & H). apply in_context_ok, parsed_ok in P as [V ->]; auto. apply rbind_inv in H as (u' & D & [= -> ->]).
    apply in_context_ok in D. eauto.
  - intros (b & V & -> & D). exists (b, rest). rewrite in_context_ok, parsed_ok by assumption. split; [auto|]. now rewrite D.
Qed.
Lemma read_value_err {U} cp cd (decode : list N -> res U) c e : bytes_ok c ->
  (read_value cp cd decode c = Err e <->
   (exists e0, no_value c e0 /\ e = Error_context cp e0) \/
   (exists b rest, c = b ++ rest /\ is_value b /\ exists e0, decode b = Err e0 /\ e = Error_context cd e0)).
Proof using parse_cases parse_error parse_value.
  intros Hok. unfold read_value. rewrite rbind_err, in_context_err. split.
  - intros [(e0 & P & ->)|([b r] & P & H)].
    + apply parsed_err in P; [|assumption]. left. eauto.
    + apply in_context_ok, parsed_ok in P as [V ->]; auto. right. exists b, r. split; [reflexivity|]. split; [assumption|].
      apply rbind_err in H as [H|(u & _ & H)]; [now apply in_context_err in H | discriminate].
  - intros [(e0 & P & ->)|(b & r & -> & V & e0 & D & ->)].
    + left. exists e0. split; [now apply parsed_err | reflexivity].
    + right. exists (b, r). rewrite in_context_ok, parsed_ok by assumption. split; [auto|]. now rewrite D.
Qed.
Lemma read_as_ok {U T} cp cd cc (decode : list N -> res U) (g : U -> T + anyhow) c t rest : bytes_ok c ->
  (read_as cp cd cc decode g c = Ok (t, rest) <-> exists b u, is_value b /\ c = b ++ rest /\ decode b = Ok u /\ g u = inl t).
Proof using parse_cases parse_error parse_value.
  intros Hok. unfold read_as. rewrite rbind_ok. split.
  - intros ([u r] & P & H). apply read_value_ok in P as (b & V & -> & D); auto. apply rbind_inv in H as (t' & G & [= -> ->]).
    apply convert_ok in G. eauto 6.
  - intros (b & u & V & -> & D & G). exists (u, rest). rewrite read_value_ok by assumption. split; [eauto|]. unfold convert_in. now rewrite G.
Qed.
Lemma read_as_err {U T} cp cd cc (decode : list N -> res U) (g : U -> T + anyhow) c e : bytes_ok c ->
  (read_as cp cd cc decode g c = Err e <-> stops no_value is_value decode g cp cd cc c e).
Proof using parse_cases parse_error parse_value.
  intros Hok. unfold read_as, stops. rewrite rbind_err, read_value_err by assumption. split.
  - intros [[H|(b & r & -> & V & H)]|([u r] & P & H)]; [now left | right; eauto 7|].
    apply read_value_ok in P as (b & V & -> & D); auto. apply rbind_err in H as [H|(t & _ & H)]; [|discriminate].
    apply convert_err in H as (err & G & ->). right. exists b, r. split; [reflexivity|]. split; [assumption|]. right. eauto 6.
  - intros [H|(b & r & -> & V & [H|(u & err & D & G & ->)])]; [auto | left; right; eauto 6|].
    right. exists (u, r). rewrite read_value_ok by assumption. split; [eauto|]. unfold convert_in. now rewrite G.
Qed.
Lemma read_as_plain {U} cp cd cc (decode : list N -> res U) c : read_as cp cd cc decode (@inl U anyhow) c = read_value cp cd decode c.
Proof using. unfold read_as. destruct (read_value cp cd decode c) as [[u r]|e| |]; reflexivity. Qed.

(** ** Entries *)
Section Entries.
Context (pair : list N -> list N -> Prop) (pair_of : list N -> option (list N)).
Hypothesis pair_iff : forall b p, bytes_ok b -> is_value b -> (pair_of b = Some p <-> pair b p).
Hypothesis pair_bytes : forall b p, bytes_ok b -> pair b p -> bytes_ok p.
Context {K V : Type} (key : list N -> res K) (val : list N -> res V) (m0 m1 m2 m3 m4 : N).
Definition read_entry (i : N) (c : list N) : res (option ((K * V) * helper)) :=
  let! (b, rest) := in_context (ctx m0 i) (parsed (parse c)) in
  match pair_of b with
  | None => Err (Error_context (ctx 5 i) InvalidKeyValuePair)
  | Some p =>
      let! (kb, q) := in_context (ctx m1 i) (parsed (parse p)) in
      let! (vb, x) := in_context (ctx m2 i) (parsed (parse q)) in
      match x with
      | [] => let! k := in_context (ctx m3 i) (key kb) in let! v := in_context (ctx m4 i) (val vb) in Ok (Some ((k, v), (rest, i + 1)))
      | _ => Err (Error_context (ctx 10 i) InvalidKeyValuePair)
      end
  end.
Lemma read_entry_err i c e : bytes_ok c -> (read_entry i c = Err e <-> entry_stops no_value is_value pair key val m0 m1 m2 m3 m4 i c e).
Proof using parse_cases parse_error parse_value pair_iff pair_bytes.
  intros Hok. unfold read_entry, entry_stops. rewrite rbind_err, in_context_err. split.
  - intros [(e0 & P & ->)|([b rest] & P & H)]; [apply parsed_err in P; [left; eauto | assumption]|]. right.
    apply in_context_ok, parsed_ok in P as [Vb ->]; auto. apply bytes_ok_app in Hok as [Hb _]. destruct (pair_of b) as [p|] eqn:Eb.
    + right. apply pair_iff in Eb; auto. pose proof (pair_bytes b p Hb Eb) as Hp. exists b, rest, p. split; [reflexivity|]. split; [assumption|]. split; [assumption|].
      apply rbind_err in H as [H|([kb q] & Pk & H)].
      { apply in_context_err in H as (e0 & P & ->). apply parsed_err in P; [|assumption]. left. eauto. }
      right. apply in_context_ok, parsed_ok in Pk as [Vk ->]; auto. apply bytes_ok_app in Hp as [Hk Hq]. exists kb, q. split; [reflexivity|]. split; [assumption|].
      apply rbind_err in H as [H|([vb x] & Pv & H)].
      { apply in_context_err in H as (e0 & P & ->). apply parsed_err in P; [|assumption]. left. eauto. }
      right. apply in_context_ok, parsed_ok in Pv as [Vv ->]; auto. destruct x as [|o x].
      * right. rewrite app_nil_r. split; [assumption|]. apply rbind_err in H as [H|(k & Dk & H)].
        { left. now apply in_context_err in H. }
        right. apply in_context_ok in Dk. apply rbind_err in H as [H|(v & _ & H)]; [|discriminate].
        apply in_context_err in H as (e0 & Dv & ->). exists k, e0. auto.
      * left. injection H as <-. exists vb, (o :: x). split; [reflexivity|]. split; [assumption|]. split; [discriminate | reflexivity].
    + left. injection H as <-. exists b, rest. split; [reflexivity|]. split; [assumption|]. split; [|reflexivity].
      intros p Hp. apply pair_iff in Hp; auto. congruence.
  - intros [(e0 & P & ->)|[(b & rest & -> & Vb & Np & ->)|(b & rest & p & -> & Vb & Pb & H)]].
    + left. exists e0. split; [now apply parsed_err | reflexivity].
    + right. exists (b, rest). rewrite in_context_ok, parsed_ok by assumption. split; [auto|]. apply bytes_ok_app in Hok as [Hb _].
      destruct (pair_of b) as [p|] eqn:Eb; [|reflexivity].
      apply pair_iff in Eb; auto. now apply Np in Eb.
    + right. exists (b, rest). rewrite in_context_ok, parsed_ok by assumption. split; [auto|]. apply bytes_ok_app in Hok as [Hb _].
      pose proof (pair_bytes b p Hb Pb) as Hp. apply pair_iff in Pb; auto. rewrite Pb. apply rbind_err.
      destruct H as [(e0 & P & ->)|(kb & q & -> & Vk & H)].
      { left. apply in_context_err. exists e0. split; [now apply parsed_err | reflexivity]. }
      right. exists (kb, q). rewrite in_context_ok, parsed_ok by assumption. split; [auto|]. apply bytes_ok_app in Hp as [Hk Hq]. apply rbind_err.
      destruct H as [(e0 & P & ->)|[(vb & x & -> & Vv & Nx & ->)|(Vq & H)]].
      { left. apply in_context_err. exists e0. split; [now apply parsed_err | reflexivity]. }
      { right. exists (vb, x). rewrite in_context_ok, parsed_ok by assumption. split; [auto|]. destruct x; [congruence | reflexivity]. }
      right. exists (q, []). rewrite in_context_ok, parsed_ok by assumption. split; [rewrite app_nil_r; auto|].
      destruct H as [(e0 & Dk & ->)|(k & e0 & Dk & Dv & ->)]; rewrite Dk; [reflexivity|]. cbn [rbind in_context rmap_err]. now rewrite Dv.
Qed.
End Entries.
End Mode.

(** ** The two encodings *)
Lemma der_parse_cases c : bytes_ok c ->
  (exists e r, DerRef_parse c = (Err e, r)) \/ exists b rest, DerRef_parse c = (Ok b, rest) /\ c = b ++ rest /\ der_is_value b.
Proof.
  intros Hok. destruct (der_no_panic c Hok) as [P F]. destruct (DerRef_parse c) as [[b|e| |] r] eqn:Q; cbn [fst] in *; try congruence; [right | left; eauto].
  apply der_parse_iff in Q as [V ->]; auto. exists b, r. auto.
Qed.
Lemma der_parse_error c e : bytes_ok c -> ((exists r, DerRef_parse c = (Err e, r)) <-> der_error c e).
Proof.
  intros Hok. split.
  - intros [r P]. destruct (der_total c Hok) as [H|[e' H]].
    + exfalso. destruct H as (id & cc & v & rest & V & ->). rewrite (proj1 (DerRef_parse_ok id cc v rest V Hok)) in P. discriminate.
    + destruct (DerRef_parse_err c e' Hok H) as [X _]. rewrite P in X. cbn [fst] in X. injection X as <-. exact H.
  - intros H. destruct (DerRef_parse_err c e Hok H) as [X _]. destruct (DerRef_parse c) as [r0 r]. cbn [fst] in X. subst r0. eauto.
Qed.
Lemma der_parse_value b rest : der_is_value b -> bytes_ok (b ++ rest) -> DerRef_parse (b ++ rest) = (Ok b, rest).
Proof. intros V Hok. apply der_parse_iff; auto. Qed.
Lemma ber_parse_cases c : bytes_ok c ->
  (exists e r, BerRef_parse c = (Err e, r)) \/ exists b rest, BerRef_parse c = (Ok b, rest) /\ c = b ++ rest /\ ber_value b.
Proof.
  intros Hok. destruct (ber_no_panic c Hok) as [P F]. destruct (BerRef_parse c) as [[b|e| |] r] eqn:Q; cbn [fst] in *; try congruence; [right | left; eauto].
  apply ber_parse_iff in Q as [V ->]; auto. exists b, r. auto.
Qed.
Lemma ber_parse_error c e : bytes_ok c -> ((exists r, BerRef_parse c = (Err e, r)) <-> ber_error c e).
Proof.
  intros Hok. split.
  - intros [r P]. destruct (ber_total c Hok) as [H|[e' H]].
    + exfalso. destruct H as (v & rest & V & ->). rewrite (proj1 (BerRef_parse_ok v rest V Hok)) in P. discriminate.
    + destruct (BerRef_parse_err c e' Hok H) as [X _]. rewrite P in X. cbn [fst] in X. injection X as <-. exact H.
  - intros H. destruct (BerRef_parse_err c e Hok H) as [X _]. destruct (BerRef_parse c) as [r0 r]. cbn [fst] in X. subst r0. eauto.
Qed.
Lemma ber_parse_value b rest : ber_value b -> bytes_ok (b ++ rest) -> BerRef_parse (b ++ rest) = (Ok b, rest).
Proof. intros V Hok. apply ber_parse_iff; auto. Qed.
Lemma rbind_same {A B} (r : res A) (k k' : A -> res B) : (forall a, r = Ok a -> k a = k' a) -> rbind r k = rbind r k'.
Proof. destruct r; cbn; auto. Qed.
Lemma rbind_assoc {A B C} (r : res A) (k : A -> res B) (h : B -> res C) : rbind (rbind r k) h = rbind r (fun a => rbind (k a) h).
Proof. now destruct r. Qed.
Lemma der_value_read {T} n (D : deserialize T) c : bytes_ok c ->
  der_value_of n D c = read_value DerRef_parse (field_ctx 2 n) (field_ctx 3 n) (serde_from_der D) c.
Proof.
  intros Hok. unfold der_value_of, read_value. apply rbind_same. intros [b r] P. apply with_context_ok in P.
  apply parsed_der_inv in P as (id & cc & V & _ & Ds & _); auto. rewrite (serde_der_eq D _ _ _ V), Ds. reflexivity.
Qed.
Lemma ber_value_read {T} n (D : deserialize T) c : bytes_ok c ->
  ber_value_of n D c = read_value BerRef_parse (field_ctx 0 n) (field_ctx 1 n) (serde_from_ber D) c.
Proof.
  intros Hok. unfold ber_value_of, read_value. apply rbind_same. intros [b r] P. apply in_context_ok in P.
  apply parsed_ber_inv in P as (_ & _ & _ & id & l & cc & Ds & _); auto. unfold serde_from_ber. rewrite Ds. reflexivity.
Qed.
Lemma try_convert_in {U T} n (g : U -> T + anyhow) u : try_convert 4 n (g u) = convert_in (field_ctx 4 n) g u.
Proof. unfold try_convert, convert_in. destruct (g u); reflexivity. Qed.
Lemma der_field_read {T} (f : field T) c : bytes_ok c -> ~ skips_de (f_attr f) ->
  let n := n_field (f_names f) in
  der_field f c = read_as DerRef_parse (field_ctx 2 n) (field_ctx 3 n) (field_ctx 4 n) (serde_from_der (ts_de (source_of f))) (ts_conv (source_of f)) c.
Proof.
  intros Hok NS. apply not_skips_de in NS. cbn zeta. unfold der_field, source_of. rewrite NS.
  destruct (a_from (f_attr f)) as [ty|]; [|destruct (a_try_from (f_attr f)) as [ty|]]; cbn [ts_de ts_conv ts_ty].
  - unfold read_as. rewrite der_value_read by assumption. reflexivity.
  - unfold read_as. rewrite der_value_read by assumption. apply rbind_same. intros [u r] _. now rewrite try_convert_in.
  - rewrite der_value_read by assumption. symmetry. apply read_as_plain.
Qed.
Lemma ber_field_read {T} (f : field T) c : bytes_ok c -> ~ skips_de (f_attr f) ->
  let n := n_field (f_names f) in
  ber_field f c = read_as BerRef_parse (field_ctx 0 n) (field_ctx 1 n) (field_ctx 4 n) (serde_from_ber (ts_de (source_of f))) (ts_conv (source_of f)) c.
Proof.
  intros Hok NS. apply not_skips_de in NS. cbn zeta. unfold ber_field, source_of. rewrite NS.
  destruct (a_from (f_attr f)) as [ty|]; [|destruct (a_try_from (f_attr f)) as [ty|]]; cbn [ts_de ts_conv ts_ty].
  - unfold read_as. rewrite ber_value_read by assumption. reflexivity.
  - unfold read_as. rewrite ber_value_read by assumption. apply rbind_same. intros [u r] _. now rewrite try_convert_in.
  - rewrite ber_value_read by assumption. symmetry. apply read_as_plain.
Qed.
Lemma source_der {T} (f : field T) b x : serde_from_der (field_de f) b = Ok x <->
  exists u, serde_from_der (ts_de (source_of f)) b = Ok u /\ ts_conv (source_of f) u = inl x.
Proof.
  unfold serde_from_der. destruct (disassemble b) as [[[id l] c]|e| |]; cbn [rbind fst];
    [|split; [discriminate | intros (? & X & _); discriminate]..].
  rewrite field_de_der. unfold source_of. destruct (a_from (f_attr f)) as [ty|]; [|destruct (a_try_from (f_attr f)) as [ty|]]; cbn [ts_de ts_conv ts_ty].
  - split; intros (u & A & B); exists u; split; congruence.
  - reflexivity.
  - split; [eauto | intros (u & A & [= <-]); exact A].
Qed.
Lemma source_ber {T} (f : field T) b x : serde_from_ber (field_de f) b = Ok x <->
  exists u, serde_from_ber (ts_de (source_of f)) b = Ok u /\ ts_conv (source_of f) u = inl x.
Proof.
  unfold serde_from_ber. destruct (disassemble b) as [[[id l] c]|e| |]; cbn [rbind fst snd];
    [|split; [discriminate | intros (? & X & _); discriminate]..].
  rewrite field_de_ber. unfold source_of. destruct (a_from (f_attr f)) as [ty|]; [|destruct (a_try_from (f_attr f)) as [ty|]]; cbn [ts_de ts_conv ts_ty].
  - split; intros (u & A & B); exists u; split; congruence.
  - reflexivity.
  - split; [eauto | intros (u & A & [= <-]); exact A].
Qed.
Lemma der_fields_err Ts fs c e : bytes_ok c -> (all_read (construct (@der_field) Ts fs c) = Err e <-> der_fields_stop Ts fs c e).
Proof.
  apply construct_err.
  - intros T f c' SK. now apply der_field_skip, skips_de_iff.
  - intros T f c' x rest Hok NS. rewrite der_field_read by assumption. cbn zeta.
    rewrite (read_as_ok DerRef_parse der_error der_is_value der_parse_cases der_parse_error der_parse_value) by assumption. split.
    + intros (b & u & V & -> & D & G). exists b. split; [reflexivity|]. split; [assumption|]. apply source_der. eauto.
    + intros (b & -> & V & D). apply source_der in D as (u & D & G). eauto 6.
  - intros T f c' e' Hok NS. rewrite der_field_read by assumption. apply (read_as_err DerRef_parse der_error der_is_value der_parse_cases der_parse_error der_parse_value). assumption.
Qed.
Lemma ber_fields_err Ts fs c e : bytes_ok c -> (all_read (construct (@ber_field) Ts fs c) = Err e <-> ber_fields_stop Ts fs c e).
Proof.
  apply construct_err.
  - intros T f c' SK. now apply ber_field_skip, skips_de_iff.
  - intros T f c' x rest Hok NS. rewrite ber_field_read by assumption. cbn zeta.
    rewrite (read_as_ok BerRef_parse ber_error ber_value ber_parse_cases ber_parse_error ber_parse_value) by assumption. split.
    + intros (b & u & V & -> & D & G). exists b. split; [reflexivity|]. split; [assumption|]. apply source_ber. eauto.
    + intros (b & -> & V & D). apply source_ber in D as (u & D & G). eauto 6.
  - intros T f c' e' Hok NS. rewrite ber_field_read by assumption. apply (read_as_err BerRef_parse ber_error ber_value ber_parse_cases ber_parse_error ber_parse_value). assumption.
Qed.
(** Lengths *)
Lemma excluded_err {A} E l c (k : list N -> res A) (stop : list N -> error -> Prop) e : right_length l c -> bytes_ok c ->
  (forall bs, bytes_ok bs -> (k bs = Err e <-> stop bs e)) ->
  (rbind (exclude_eoc E l c) k = Err e <-> length_stop stop l c e).
Proof.
  intros R Hok H. destruct l as [|n]; cbn [length_stop right_length] in *.
  - unfold indefinite_stop. rewrite rbind_err. split.
    + intros [X|(bs & X & Y)].
      * left. split; [|cbn [exclude_eoc] in X; destruct (ends_with c EOC); [discriminate | congruence]].
        intros bs ->. rewrite (proj2 (exclude_eoc_iff E (bs ++ [0; 0]) bs) eq_refl) in X. discriminate.
      * right. apply exclude_eoc_iff in X as ->. apply bytes_ok_app in Hok as [Hb _]. exists bs. split; [reflexivity | now apply H].
    + intros [[X ->]|(bs & -> & S)].
      * left. destruct (exclude_eoc E Indefinite c) as [bs|e0| |] eqn:Q; [apply exclude_eoc_iff in Q; now apply X in Q | | |];
          cbn [exclude_eoc] in Q; destruct (ends_with c EOC); congruence.
      * right. exists bs. split; [now apply exclude_eoc_iff|]. apply bytes_ok_app in Hok as [Hb _]. now apply H.
  - subst n. rewrite (proj2 (exclude_eoc_both E c)). cbn [rbind]. now apply H.
Qed.
Lemma identified_err {A} id ID (r : res A) (P : Prop) e : (r = Err e <-> P) ->
  ((if negb (bytes_eqb id ID) then Err UnmatchedId else r) = Err e <-> (id <> ID /\ e = UnmatchedId) \/ (id = ID /\ P)).
Proof.
  intros H. destruct (bytes_eqb id ID) eqn:Q; cbn [negb].
  - apply bytes_eqb_eq in Q as ->. rewrite H. split; [auto | intros [[X _]|[_ X]]; [congruence | exact X]].
  - assert (id <> ID) as N by (intros ->; rewrite bytes_eqb_refl in Q; discriminate). split.
    + intros [= <-]. auto.
    + intros [[_ ->]|[X _]]; [reflexivity | contradiction].
Qed.
Lemma from_der_contents_err {Ts} (dc : data_container Ts) c e : bytes_ok c ->
  (from_der_contents dc c = Err e <-> der_fields_stop Ts (dc_fields dc) c e).
Proof. apply der_fields_err. Qed.
Lemma from_ber_contents_err E {Ts} (dc : data_container Ts) l c e : bytes_ok c -> right_length l c ->
  (from_ber_contents E dc l c = Err e <-> length_stop (ber_fields_stop Ts (dc_fields dc)) l c e).
Proof.
  intros Hok R. rewrite from_ber_contents_eq. apply excluded_err; auto. intros bs Hb. now apply ber_fields_err.
Qed.
(** ** Collections *)
Lemma der_to_val_read {T} (D : deserialize T) c i : bytes_ok c -> c <> [] ->
  der_to_val D (c, i) = (let! (u, rest) := read_value DerRef_parse (ctx 0 i) (ctx 1 i) (serde_from_der D) c in Ok (Some (u, (rest, i + 1)))).
Proof.
  intros Hok N0. rewrite der_to_val_cons by assumption. unfold read_value. rewrite rbind_assoc. apply rbind_same. intros [b r] P. apply with_ctx_ok in P.
  apply parsed_der_inv in P as (id & cc & V & _ & Ds & _); auto. rewrite (serde_der_eq D _ _ _ V), Ds. cbn [rbind fst]. unfold with_ctx, in_context.
  destruct (from_der D id cc); reflexivity.
Qed.
Lemma ber_to_val_read {T} (D : deserialize T) c i : bytes_ok c -> c <> [] ->
  ber_to_val D (c, i) = (let! (u, rest) := read_value BerRef_parse (ctx 2 i) (ctx 3 i) (serde_from_ber D) c in Ok (Some (u, (rest, i + 1)))).
Proof.
  intros Hok N0. rewrite ber_to_val_cons by assumption. unfold read_value. rewrite rbind_assoc. apply rbind_same. intros [b r] P. apply with_ctx_ok in P.
  apply parsed_ber_inv in P as (_ & _ & _ & id & l & cc & Ds & _); auto. unfold serde_from_ber. rewrite Ds. cbn [rbind fst snd]. unfold with_ctx, in_context.
  destruct (from_ber D id l cc); reflexivity.
Qed.
Lemma rbind_fine {A B} (r : res A) (f : A -> B) e : (let! a := r in Ok (f a)) = Err e <-> r = Err e.
Proof. rewrite rbind_err. split; [intros [H|(a & _ & H)]; [exact H | discriminate] | now left]. Qed.
Lemma der_val_err {T} (D : deserialize T) bs i e : bytes_ok bs -> bs <> [] -> (der_to_val D (bs, i) = Err e <-> der_stops D i bs e).
Proof.
  intros Hok N0. rewrite der_to_val_read by assumption. rewrite <- (read_as_plain _ _ _ 0).
  unfold der_stops. rewrite <- (read_as_err DerRef_parse der_error der_is_value der_parse_cases der_parse_error der_parse_value) by assumption.
  destruct (read_as _ _ _ _ _ _ _) as [[u r]|e'| |]; cbn [rbind]; split; intros H; try discriminate H; injection H as ->; reflexivity.
Qed.
Lemma ber_val_err {T} (D : deserialize T) bs i e : bytes_ok bs -> bs <> [] -> (ber_to_val D (bs, i) = Err e <-> ber_stops D i bs e).
Proof.
  intros Hok N0. rewrite ber_to_val_read by assumption. rewrite <- (read_as_plain _ _ _ 0).
  unfold ber_stops. rewrite <- (read_as_err BerRef_parse ber_error ber_value ber_parse_cases ber_parse_error ber_parse_value) by assumption.
  destruct (read_as _ _ _ _ _ _ _) as [[u r]|e'| |]; cbn [rbind]; split; intros H; try discriminate H; injection H as ->; reflexivity.
Qed.
Definition sequence_of (b : list N) : option (list N) :=
  match tlv_id b, tlv_contents b with Ok id, Ok p => if bytes_eqb id [0x30] then Some p else None | _, _ => None end.
Lemma der_pair_iff b p : bytes_ok b -> der_is_value b -> (sequence_of b = Some p <-> der_tlv [0x30] p b).
Proof.
  intros _ (id & c & V). unfold sequence_of. destruct (der_tlv_disassemble _ _ _ V) as (-> & _ & -> & _). split.
  - destruct (bytes_eqb id [0x30]) eqn:Q; [|discriminate]. apply bytes_eqb_eq in Q as ->. intros [= ->]. exact V.
  - intros V'. destruct (der_tlv_disassemble _ _ _ V) as (A1 & _ & A2 & _), (der_tlv_disassemble _ _ _ V') as (B1 & _ & B2 & _).
    rewrite A1 in B1. rewrite A2 in B2. injection B1 as ->. injection B2 as ->. now rewrite bytes_eqb_refl.
Qed.
Lemma ber_pair_iff b p : bytes_ok b -> ber_value b -> (sequence_of b = Some p <->
  exists l, ((l = Definite (nlen p) /\ nlen p < usize_limit) \/ l = Indefinite) /\ b = [0x30] ++ length_of l ++ p).
Proof.
  intros Hb V. assert (parsed (BerRef_parse (b ++ [])) = Ok (b, [])) as P by (apply parsed_ber; [assumption | now rewrite app_nil_r]).
  rewrite app_nil_r in P. apply parsed_ber_inv in P as (_ & _ & _ & id & l & c & _ & Ei & Ec & _ & _ & Eb & M); auto.
  unfold sequence_of. rewrite Ei, Ec. split.
  - destruct (bytes_eqb id [0x30]) eqn:Q; [|discriminate]. apply bytes_eqb_eq in Q as ->. intros [= ->]. exists l.
    split; [|assumption]. destruct l; [now right|]. destruct M as [-> L]. left. auto.
  - intros (l' & L' & Eb'). assert (tlv_id b = Ok [0x30] /\ tlv_contents b = Ok p) as [Q1 Q2].
    { rewrite Eb'. destruct L' as [[-> L']| ->].
      - destruct (der_tlv_disassemble _ _ _ (tlv_der [0x30] p id_30 L')) as (A & _ & B & _). auto.
      - destruct (tlv_parts_indefinite [0x30] p id_30) as (A & _ & B & _). auto. }
    rewrite Ei in Q1. rewrite Ec in Q2. injection Q1 as ->. injection Q2 as ->. now rewrite bytes_eqb_refl.
Qed.
Lemma der_kv_read {K V} (DK : deserialize K) (DV : deserialize V) c i : bytes_ok c -> c <> [] ->
  der_to_key_val DK DV (c, i) = read_entry DerRef_parse sequence_of (serde_from_der DK) (serde_from_der DV) 4 6 7 8 9 i c.
Proof.
  intros Hok N0. unfold der_to_key_val, read_entry. destruct c as [|o c0]; [congruence|]. set (c := o :: c0) in *. clearbody c.
  apply rbind_same. intros [b r] P. apply with_ctx_ok in P. apply parsed_der_inv in P as (id & p & Vb & _ & _ & Ei & Ec & Hp & _); auto.
  unfold sequence_of. rewrite Ei, Ec. change ID_SEQUENCE with [0x30]. cbn [rbind]. destruct (bytes_eqb id [0x30]); cbn [negb]; [|reflexivity].
  apply rbind_same. intros [kb q] P. apply with_ctx_ok in P. apply parsed_der_inv in P as (idk & ck & Vk & _ & Dk & _ & _ & _ & _ & Hq); auto.
  apply rbind_same. intros [vb x] P. apply with_ctx_ok in P. apply parsed_der_inv in P as (idv & cv & Vv & _ & Dv & _); auto.
  destruct x; [|reflexivity]. rewrite Dk, Dv, (serde_der_eq DK _ _ _ Vk), (serde_der_eq DV _ _ _ Vv). reflexivity.
Qed.
Lemma ber_kv_read {K V} (DK : deserialize K) (DV : deserialize V) c i : bytes_ok c -> c <> [] ->
  ber_to_key_val DK DV (c, i) = read_entry BerRef_parse sequence_of (serde_from_ber DK) (serde_from_ber DV) 11 12 13 14 15 i c.
Proof.
  intros Hok N0. unfold ber_to_key_val, read_entry. destruct c as [|o c0]; [congruence|]. set (c := o :: c0) in *. clearbody c.
  apply rbind_same. intros [b r] P. apply with_ctx_ok in P. apply parsed_ber_inv in P as (_ & _ & _ & id & l & p & _ & Ei & Ec & Hp & _); auto.
  unfold sequence_of. rewrite Ei, Ec. change ID_SEQUENCE with [0x30]. cbn [rbind]. destruct (bytes_eqb id [0x30]); cbn [negb]; [|reflexivity].
  apply rbind_same. intros [kb q] P. apply with_ctx_ok in P. apply parsed_ber_inv in P as (_ & _ & Hq & idk & lk & ck & Dk & _); auto.
  apply rbind_same. intros [vb x] P. apply with_ctx_ok in P. apply parsed_ber_inv in P as (_ & _ & _ & idv & lv & cv & Dv & _); auto.
  destruct x; [|reflexivity]. unfold serde_from_ber. rewrite Dk, Dv. reflexivity.
Qed.
Lemma der_kv_err {K V} (DK : deserialize K) (DV : deserialize V) bs i e : bytes_ok bs -> bs <> [] ->
  (der_to_key_val DK DV (bs, i) = Err e <-> der_entry_stops DK DV i bs e).
Proof.
  intros Hok N0. rewrite der_kv_read by assumption. apply (read_entry_err DerRef_parse der_error der_is_value der_parse_cases der_parse_error der_parse_value); auto.
  - apply der_pair_iff.
  - intros b p Hb Vb. apply der_tlv_parts in Vb as (len & -> & _). apply bytes_ok_app in Hb as [_ Hb]. now apply bytes_ok_app in Hb.
Qed.
Lemma ber_kv_err {K V} (DK : deserialize K) (DV : deserialize V) bs i e : bytes_ok bs -> bs <> [] ->
  (ber_to_key_val DK DV (bs, i) = Err e <-> ber_entry_stops DK DV i bs e).
Proof.
  intros Hok N0. rewrite ber_kv_read by assumption. apply (read_entry_err BerRef_parse ber_error ber_value ber_parse_cases ber_parse_error ber_parse_value); auto.
  - apply ber_pair_iff.
  - intros b p Hb (l & _ & ->). apply bytes_ok_app in Hb as [_ Hb]. now apply bytes_ok_app in Hb.
Qed.
Section Coll.
Context {X : Type} (E : env) (ID : list N) (insert : X -> list X -> list X).
Lemma coll_err (bnext dnext : helper -> res (option (X * helper))) bitem ditem bstop dstop :
  (forall i, bnext ([], i) = Ok None) -> (forall bs i, bnext (bs, i) = Ok None -> bs = []) ->
  (forall bs i x rest j, bytes_ok bs -> bnext (bs, i) = Ok (Some (x, (rest, j))) -> exists b, bs = b ++ rest /\ b <> [] /\ bitem b x) ->
  (forall b x, bitem b x -> reads bnext b x) ->
  (forall bs i e, bytes_ok bs -> bs <> [] -> (bnext (bs, i) = Err e <-> bstop i bs e)) ->
  (forall i, dnext ([], i) = Ok None) -> (forall bs i, dnext (bs, i) = Ok None -> bs = []) ->
  (forall bs i x rest j, bytes_ok bs -> dnext (bs, i) = Ok (Some (x, (rest, j))) -> exists b, bs = b ++ rest /\ b <> [] /\ ditem b x) ->
  (forall b x, ditem b x -> reads dnext b x) ->
  (forall bs i e, bytes_ok bs -> bs <> [] -> (dnext (bs, i) = Err e <-> dstop i bs e)) ->
  let D := de_collection E ID [] insert bnext dnext in
  (forall id c e, bytes_ok c -> (from_der D id c = Err e <-> (id <> ID /\ e = UnmatchedId) \/ (id = ID /\ items_stop ditem dstop c e))) /\
  (forall id l c e, bytes_ok c -> right_length l c ->
     (from_ber D id l c = Err e <-> (id <> ID /\ e = UnmatchedId) \/ (id = ID /\ length_stop (items_stop bitem bstop) l c e))).
Proof.
  intros B1 B2 B3 B4 B5 D1 D2 D3 D4 D5 D. split.
  - intros id c e Hok. cbn [from_der D de_collection]. apply identified_err. now apply items_err.
  - intros id l c e Hok R. cbn [from_ber D de_collection]. apply identified_err. apply excluded_err; auto.
    intros bs Hb. now apply items_err.
Qed.
Lemma vals_err {D : deserialize X} : let DC := de_collection E ID [] insert (ber_to_val D) (der_to_val D) in
  (forall id c e, bytes_ok c -> (from_der DC id c = Err e <-> (id <> ID /\ e = UnmatchedId) \/ (id = ID /\ items_stop (der_item D) (der_stops D) c e))) /\
  (forall id l c e, bytes_ok c -> right_length l c ->
     (from_ber DC id l c = Err e <-> (id <> ID /\ e = UnmatchedId) \/ (id = ID /\ length_stop (items_stop (ber_item D) (ber_stops D)) l c e))).
Proof.
  apply coll_err; [reflexivity | apply ber_next_none | apply ber_item_next | apply ber_item_reads | apply ber_val_err |
    reflexivity | apply der_next_none | apply der_item_next | apply der_item_reads | apply der_val_err].
Qed.
End Coll.
Lemma entries_err {K V} E ID (insert : K * V -> list (K * V) -> list (K * V)) (DK : deserialize K) (DV : deserialize V) :
  let DC := de_collection E ID [] insert (ber_to_key_val DK DV) (der_to_key_val DK DV) in
  (forall id c e, bytes_ok c -> (from_der DC id c = Err e <->
     (id <> ID /\ e = UnmatchedId) \/ (id = ID /\ items_stop (der_entry DK DV) (der_entry_stops DK DV) c e))) /\
  (forall id l c e, bytes_ok c -> right_length l c -> (from_ber DC id l c = Err e <->
     (id <> ID /\ e = UnmatchedId) \/ (id = ID /\ length_stop (items_stop (ber_entry DK DV) (ber_entry_stops DK DV)) l c e))).
Proof.
  apply coll_err; [reflexivity | apply ber_kv_none | apply entry_next_ber | apply ber_entry_reads' | apply ber_kv_err |
    reflexivity | apply der_kv_none | apply entry_next_der | apply der_entry_reads' | apply der_kv_err].
Qed.

(** ** Derived implementations *)
Section Derived.
Context (is_path : string -> bool) (E : env) (attrs : list syn_attribute) (a : attribute).
Hypothesis TF : Attribute_try_from is_path attrs = Some a.
Lemma struct_err ID Ts decls fs ps D : plain a -> identifier (class_of a) (pc_of a) (number_of a) ID ->
  try_fields is_path Ts decls = Some fs -> do_deserialize is_path E attrs (DStruct Ts decls) ps = Some D ->
  (forall id c e, bytes_ok c -> (from_der D id c = Err e <-> (id <> ID /\ e = UnmatchedId) \/ (id = ID /\ der_fields_stop Ts fs c e))) /\
  (forall id l c e, bytes_ok c -> right_length l c ->
     (from_ber D id l c = Err e <-> (id <> ID /\ e = UnmatchedId) \/ (id = ID /\ length_stop (ber_fields_stop Ts fs) l c e))).
Proof using TF.
  intros P I F HD. rewrite (proj2 (plain_struct is_path E attrs a TF Ts decls fs ps (ser_fields E {| dc_attr := a; dc_fields := fs |}) D P F) HD).
  assert (ID = id_slice a) as -> by (eapply identifier_fun; [exact I | apply id_slice_identifier; eapply try_from_values; exact TF]).
  split.
  - intros id c e Hok. cbn [from_der de_struct dc_attr]. apply identified_err.
    exact (from_der_contents_err {| dc_attr := a; dc_fields := fs |} c e Hok).
  - intros id l c e Hok R. cbn [from_ber de_struct dc_attr]. apply identified_err.
    exact (from_ber_contents_err E {| dc_attr := a; dc_fields := fs |} l c e Hok R).
Qed.
Lemma dispatch_err {X} (rd : forall Ts, data_container Ts -> X -> res (tuple Ts)) (stop : forall Ts, hlist field Ts -> error -> Prop) x :
  (forall Ts dc e, rd Ts dc x = Err e <-> stop Ts (dc_fields dc) e) ->
  forall Tss decls vs, try_variants is_path Tss decls = Some vs -> forall id e,
  dispatch rd Tss vs id x = Err e <-> variant_stops stop id Tss vs e.
Proof using.
  intros HR Tss. induction Tss as [|Ts Tss IH]; intros decls vs H id e; cbn [dispatch variant_stops]; [split; [now intros [= <-] | now intros ->]|].
  pose proof (variant_values is_path (Ts :: Tss) decls vs H id) as V.
  cbn [try_variants] in H. destruct (try_variant is_path Ts (fst decls)) as [w|]; [|discriminate].
  destruct (try_variants is_path Tss (snd decls)) as [rest|] eqn:K; [|discriminate]. injection H as <-. cbn [fst snd] in *.
  destruct (bytes_eqb id (id_slice (dc_attr w))).
  - pose proof (proj1 V eq_refl) as Here. etransitivity; [apply rbind_fine|]. rewrite HR. split; [auto|].
    intros [[_ X0]|[N _]]; [exact X0 | contradiction].
  - assert (~ let b := dc_attr w in identifier (class_of b) (pc_of b) (number_of b) id) as Not by (intros A; apply V in A; discriminate).
    etransitivity; [apply rbind_fine|]. rewrite (IH (snd decls) rest K). split; [auto|]. intros [[N _]|[_ X0]]; [contradiction | exact X0].
Qed.
Lemma enum_err Tss decls vs ps D : plain a -> try_variants is_path Tss decls = Some vs ->
  do_deserialize is_path E attrs (DEnum Tss decls) ps = Some D ->
  (forall id c e, bytes_ok c -> (from_der D id c = Err e <-> variant_stops (fun Ts fs => der_fields_stop Ts fs c) id Tss vs e)) /\
  (forall id l c e, bytes_ok c -> right_length l c ->
     (from_ber D id l c = Err e <-> variant_stops (fun Ts fs => length_stop (ber_fields_stop Ts fs) l c) id Tss vs e)).
Proof using TF.
  intros P F HD. rewrite (proj2 (plain_enum is_path E attrs a TF Tss decls vs ps (ser_variants E Tss vs) D P F) HD).
  split.
  - intros id c e Hc. cbn [from_der de_enum]. eapply (dispatch_err (fun Ts dc x => from_der_contents dc x)); [|exact F].
    intros Ts dc e'. now apply from_der_contents_err.
  - intros id l c e Hc R. cbn [from_ber de_enum]. eapply (dispatch_err (fun Ts dc x => from_ber_contents E dc (fst x) (snd x))); [|exact F].
    intros Ts dc e'. cbn [fst snd]. now apply from_ber_contents_err.
Qed.
Lemma whole_field_read {T} kind rd (f : field T) : ~ skips_de (f_attr f) -> let n := n_field (f_names f) in
  whole_field kind rd f = (let! u := in_context (field_ctx kind n) (rd _ (ts_de (source_of f))) in convert_in (field_ctx 4 n) (ts_conv (source_of f)) u).
Proof using.
  intros NS. apply not_skips_de in NS. cbn zeta. unfold whole_field, source_of. rewrite NS.
  destruct (a_from (f_attr f)) as [ty|]; [|destruct (a_try_from (f_attr f)) as [ty|]]; cbn [ts_de ts_conv ts_ty].
  - reflexivity.
  - apply rbind_same. intros u _. apply try_convert_in.
  - unfold with_context, in_context. destruct (rd T (n_de (f_names f))); reflexivity.
Qed.
Lemma whole_err kind rd Ts : forall fs e, construct_whole kind rd Ts fs = Err e <-> whole_stop rd kind Ts fs e.
Proof using.
  induction Ts as [|T Ts IH]; intros fs e; cbn [construct_whole whole_stop]; [split; [discriminate | intros []]|].
  destruct fs as [f fs]. cbn [fst snd]. etransitivity; [apply rbind_err|]. destruct (skips_dec (f_attr f)) as [SK|NS].
  - rewrite whole_skip by (now apply skips_de_iff). split.
    + intros [X|(t & [= <-] & X)]; [discriminate|]. apply rbind_fine in X. left. split; [assumption | now apply IH].
    + intros [[_ X]|[N _]]; [|contradiction]. right. exists (default_of f). split; [reflexivity|]. apply rbind_fine. now apply IH.
  - rewrite whole_field_read by assumption. cbn zeta. rewrite rbind_err, in_context_err. split.
    + intros [[X|(u & A & B)]|(t & A & X)]; right; (split; [assumption|]).
      * now left.
      * apply in_context_ok in A. apply convert_err in B as (err & B & ->). right. left. eauto.
      * right. right. apply rbind_inv in A as (u & A & B). apply in_context_ok in A. apply convert_ok in B. apply rbind_fine in X.
        exists u, t. split; [assumption|]. split; [assumption | now apply IH].
    + intros [[SK _]|[_ [X|[(u & err & A & B & ->)|(u & t & A & B & X)]]]]; [contradiction | auto | |].
      * left. right. exists u. rewrite in_context_ok. split; [assumption|]. apply convert_err. eauto.
      * right. exists t. rewrite A. cbn [in_context rmap_err rbind]. split; [now apply convert_ok|]. apply rbind_fine. now apply IH.
Qed.
Lemma transparent_err Ts decls fs ps D : has a ATransparent -> try_fields is_path Ts decls = Some fs ->
  do_deserialize is_path E attrs (DStruct Ts decls) ps = Some D ->
  (forall id c e, from_der D id c = Err e <-> whole_stop (fun U D' => from_der D' id c) 3 Ts fs e) /\
  (forall id l c e, from_ber D id l c = Err e <-> whole_stop (fun U D' => from_ber D' id l c) 1 Ts fs e).
Proof using TF.
  intros P F HD. pose proof (transparent_cases a (try_from_sanitized _ _ _ TF) P) as Pc.
  destruct (proj2 (transparent_struct is_path E attrs a TF Ts decls fs ps (ser_fields E {| dc_attr := a; dc_fields := fs |}) D Pc F) HD) as [-> _].
  split; intros; cbn [from_der from_ber de_whole]; apply whole_err.
Qed.
Lemma from_err ty d ps D : a_from a = Some ty -> do_deserialize is_path E attrs d ps = Some D ->
  (forall id c e, from_der D id c = Err e <-> from_der (sr_de (p_from ps ty)) id c = Err e) /\
  (forall id l c e, from_ber D id l c = Err e <-> from_ber (sr_de (p_from ps ty)) id l c = Err e).
Proof using TF.
  intros A HD. unfold do_deserialize in HD. rewrite TF, A in HD. destruct (negb (sanitize_as_container a)); [discriminate|].
  injection HD as <-. split; intros; cbn [from_der from_ber do_from_deserialize]; apply rbind_fine.
Qed.
Lemma try_from_err ty d ps D : a_from a = None -> a_try_from a = Some ty -> do_deserialize is_path E attrs d ps = Some D ->
  let s := p_try_from ps ty in
  (forall id c e, from_der D id c = Err e <-> from_der (ts_de s) id c = Err e \/
     exists u err, from_der (ts_de s) id c = Ok u /\ ts_conv s u = inr err /\ e = Error_context (field_ctx 5 0) (Anyhow err)) /\
  (forall id l c e, from_ber D id l c = Err e <-> from_ber (ts_de s) id l c = Err e \/
     exists u err, from_ber (ts_de s) id l c = Ok u /\ ts_conv s u = inr err /\ e = Error_context (field_ctx 5 0) (Anyhow err)).
Proof using TF.
  intros A B HD s. unfold do_deserialize in HD. rewrite TF, A, B in HD. destruct (negb (sanitize_as_container a)); [discriminate|].
  injection HD as <-. fold s.
  assert (forall u e, try_convert 5 0 (ts_conv s u) = Err e <-> exists err, ts_conv s u = inr err /\ e = Error_context (field_ctx 5 0) (Anyhow err)) as C.
  { intros u e. unfold try_convert. destruct (ts_conv s u); cbn; split; try discriminate; [intros (? & X & _); discriminate | intros [= <-]; eauto | intros (? & [= <-] & ->); reflexivity]. }
  split; intros; cbn [from_der from_ber do_try_from_deserialize]; rewrite rbind_err; setoid_rewrite C; (split; [intros [X|(u & X & err & Y & Z)]; [now left | right; eauto] | intros [X|(u & err & X & Y & Z)]; [now left | right; eauto]]).
Qed.
End Derived.

(** ** Declarations *)
Section Taken.
Context (is_path : string -> bool) (E : env).
Lemma try_fields_some Ts : forall decls, try_fields is_path Ts decls <> None <-> fields_ok is_path Ts decls.
Proof using.
  induction Ts as [|T Ts IH]; intros decls; cbn [try_fields fields_ok]; [split; [auto | discriminate]|]. rewrite <- IH. unfold attribute_ok.
  destruct (Attribute_try_from is_path (fd_attrs (fst decls))) as [b|].
  - unfold fits. pose proof (accepted_iff PField b) as A. cbn [accepted] in A. destruct (sanitize_as_field b); cbn [negb].
    + destruct (try_fields is_path Ts (snd decls)); split; try congruence.
      * intros _. split; [exists b; split; [reflexivity | now apply A] | discriminate].
      * intros [_ X]. now destruct X.
    + split; [congruence|]. intros [(b' & [= <-] & X) _]. apply A in X. discriminate.
  - split; [congruence | intros [(b & X & _) _]; discriminate].
Qed.
Lemma try_variants_some Tss : forall decls, try_variants is_path Tss decls <> None <-> variants_ok is_path Tss decls.
Proof using.
  induction Tss as [|Ts Tss IH]; intros decls; cbn [try_variants variants_ok]; [split; [auto | discriminate]|]. rewrite <- IH. clear IH.
  unfold try_variant. rewrite <- try_fields_some. unfold attribute_ok. destruct (Attribute_try_from is_path (vd_attrs (fst decls))) as [b|].
  - unfold fits. pose proof (accepted_iff PVariant b) as A. cbn [accepted] in A. destruct (sanitize_as_variant b); cbn [negb].
    + destruct (try_fields is_path Ts (vd_fields (fst decls))).
      * destruct (try_variants is_path Tss (snd decls)); split; try congruence; [|tauto].
        intros _. split; [exists b; split; [reflexivity | now apply A] | split; discriminate].
      * split; [congruence | tauto].
    + split; [congruence|]. intros [(b' & [= <-] & X) _]. apply A in X. discriminate.
  - split; [congruence | intros [(b & X & _) _]; discriminate].
Qed.
(** Fields that are not skipped *)
Fixpoint count_kept (skip : attribute -> bool) (Ts : list Type) : hlist field Ts -> nat :=
  match Ts with
  | [] => fun _ => O
  | T :: Ts' => fun fs => if skip (f_attr (fst fs)) then count_kept skip Ts' (snd fs) else S (count_kept skip Ts' (snd fs))
  end.
Lemma kept_iff skip (skips : attribute -> Prop) : (forall b, skips b <-> skip b = true) ->
  forall Ts decls fs n, try_fields is_path Ts decls = Some fs -> (kept is_path skips Ts decls n <-> n = count_kept skip Ts fs).
Proof using.
  intros H Ts. induction Ts as [|T Ts IH]; intros decls fs n F; cbn [kept count_kept]; [reflexivity|]. cbn [try_fields] in F.
  destruct (Attribute_try_from is_path (fd_attrs (fst decls))) as [b|]; [|discriminate]. destruct (negb (sanitize_as_field b)); [discriminate|].
  destruct (try_fields is_path Ts (snd decls)) as [rest|] eqn:K; [|discriminate]. injection F as <-. cbn [fst snd f_attr].
  specialize (IH (snd decls) rest). specialize (H b). split.
  - intros (b' & [= <-] & [[S X]|(S & m & -> & X)]); apply IH in X as ->; auto.
    + apply H in S. now rewrite S.
    + destruct (skip b); [exfalso; apply S, H; reflexivity | reflexivity].
  - intros ->. exists b. split; [reflexivity|]. destruct (skip b).
    + left. split; [now apply H | now apply IH].
    + right. split; [intros X; apply H in X; discriminate|]. exists (count_kept skip Ts rest). split; [reflexivity | now apply IH].
Qed.
Lemma transparent_length Ts : forall fs, length (transparent_fields Ts fs) = count_kept is_skip_serializing Ts fs.
Proof using.
  induction Ts as [|T Ts IH]; intros fs; cbn [transparent_fields count_kept]; [reflexivity|].
  destruct (is_skip_serializing (f_attr (fst fs))); cbn [length]; rewrite map_length, IH; reflexivity.
Qed.
Lemma kept_length Ts : forall fs,
  length (filter (fun a => negb (is_skip_deserializing a)) (field_attributes Ts fs)) = count_kept is_skip_deserializing Ts fs.
Proof using.
  induction Ts as [|T Ts IH]; intros fs; cbn [field_attributes count_kept filter]; [reflexivity|].
  destruct (is_skip_deserializing (f_attr (fst fs))); cbn [negb length]; now rewrite IH.
Qed.
Lemma serialize_taken attrs d ps : do_serialize is_path E attrs d ps <> None <-> taken is_path skips_ser AInto ATo attrs d.
Proof using.
  unfold do_serialize, taken. destruct (Attribute_try_from is_path attrs) as [b|]; [|split; [intros []; reflexivity | intros (? & X & _); discriminate]].
  pose proof (accepted_iff PContainer b) as AC. cbn [accepted] in AC. fold (fits PContainer b) in AC.
  pose proof (has_flag b AInto) as H1. pose proof (has_flag b ATo) as H2. cbn [flag] in H1, H2. unfold is_some in H1, H2.
  destruct (sanitize_as_container b); cbn [negb]; [|split; [intros []; reflexivity | intros (? & [= <-] & X & _); apply AC in X; discriminate]].
  pose proof (proj1 AC eq_refl) as FC.
  destruct (a_into b) as [ty|]; [split; [intros _; exists b; split; [reflexivity|]; split; [assumption | left; now apply H1] | discriminate]|].
  destruct (a_to b) as [ty|]; [split; [intros _; exists b; split; [reflexivity|]; split; [assumption | right; left; now apply H2] | discriminate]|].
  destruct d as [Ts fs|Tss vs|T].
  - transitivity (fits PStruct b /\ fields_ok is_path Ts fs /\ (has b ATransparent -> kept is_path skips_ser Ts fs 1)).
    2:{ split; [intros X; exists b; auto | intros (a & [= <-] & _ & [X|[X|X]]); [apply H1 in X; discriminate | apply H2 in X; discriminate | exact X]]. }
    unfold do_serialize_struct, try_struct. pose proof (accepted_iff PStruct b) as AS. cbn [accepted] in AS. fold (fits PStruct b) in AS.
    destruct (sanitize_as_struct b); cbn [negb]; [|split; [intros []; reflexivity | intros (X & _); apply AS in X; discriminate]].
    pose proof (proj1 AS eq_refl) as FS. rewrite <- try_fields_some. pose proof (has_flag b ATransparent) as H3. cbn [flag] in H3.
    destruct (try_fields is_path Ts fs) as [fields|] eqn:F; [|split; [intros []; reflexivity | tauto]]. cbn [dc_attr].
    rewrite (kept_iff is_skip_serializing skips_ser skips_ser_iff Ts fs fields 1 F), <- transparent_length.
    destruct (a_transparent b).
    + unfold ser_transparent. cbn [dc_fields]. destruct (transparent_fields Ts fields) as [|s [|s' l]]; cbn [length].
      * split; [intros []; reflexivity|]. intros (_ & _ & X). specialize (X (proj2 H3 eq_refl)). discriminate.
      * split; [|discriminate]. intros _. split; [assumption|]. split; [discriminate | reflexivity].
      * split; [intros []; reflexivity|]. intros (_ & _ & X). specialize (X (proj2 H3 eq_refl)). discriminate.
    + split; [|discriminate]. intros _. split; [assumption|]. split; [discriminate|]. intros X. apply H3 in X. discriminate.
  - transitivity (fits PEnum b /\ variants_ok is_path Tss vs).
    2:{ split; [intros X; exists b; auto | intros (a & [= <-] & _ & [X|[X|X]]); [apply H1 in X; discriminate | apply H2 in X; discriminate | exact X]]. }
    unfold do_serialize_enum. pose proof (accepted_iff PEnum b) as AS. cbn [accepted] in AS. fold (fits PEnum b) in AS.
    destruct (sanitize_as_enum b); cbn [negb]; [|split; [intros []; reflexivity | intros (X & _); apply AS in X; discriminate]].
    pose proof (proj1 AS eq_refl) as FS. rewrite <- try_variants_some.
    destruct (try_variants is_path Tss vs); [|split; [intros []; reflexivity | tauto]]. split; [|discriminate]. intros _. split; [assumption | discriminate].
  - split; [intros []; reflexivity|]. intros (a & [= <-] & _ & [X|[X|[]]]); [apply H1 in X; discriminate | apply H2 in X; discriminate].
Qed.
Lemma deserialize_taken attrs d ps : do_deserialize is_path E attrs d ps <> None <-> taken is_path skips_de AFrom ATryFrom attrs d.
Proof using.
  unfold do_deserialize, taken. destruct (Attribute_try_from is_path attrs) as [b|]; [|split; [intros []; reflexivity | intros (? & X & _); discriminate]].
  pose proof (accepted_iff PContainer b) as AC. cbn [accepted] in AC. fold (fits PContainer b) in AC.
  pose proof (has_flag b AFrom) as H1. pose proof (has_flag b ATryFrom) as H2. cbn [flag] in H1, H2. unfold is_some in H1, H2.
  destruct (sanitize_as_container b); cbn [negb]; [|split; [intros []; reflexivity | intros (? & [= <-] & X & _); apply AC in X; discriminate]].
  pose proof (proj1 AC eq_refl) as FC.
  destruct (a_from b) as [ty|]; [split; [intros _; exists b; split; [reflexivity|]; split; [assumption | left; now apply H1] | discriminate]|].
  destruct (a_try_from b) as [ty|]; [split; [intros _; exists b; split; [reflexivity|]; split; [assumption | right; left; now apply H2] | discriminate]|].
  destruct d as [Ts fs|Tss vs|T].
  - transitivity (fits PStruct b /\ fields_ok is_path Ts fs /\ (has b ATransparent -> kept is_path skips_de Ts fs 1)).
    2:{ split; [intros X; exists b; auto | intros (a & [= <-] & _ & [X|[X|X]]); [apply H1 in X; discriminate | apply H2 in X; discriminate | exact X]]. }
    unfold do_deserialize_struct, try_struct. pose proof (accepted_iff PStruct b) as AS. cbn [accepted] in AS. fold (fits PStruct b) in AS.
    destruct (sanitize_as_struct b); cbn [negb]; [|split; [intros []; reflexivity | intros (X & _); apply AS in X; discriminate]].
    pose proof (proj1 AS eq_refl) as FS. rewrite <- try_fields_some. pose proof (has_flag b ATransparent) as H3. cbn [flag] in H3.
    destruct (try_fields is_path Ts fs) as [fields|] eqn:F; [|split; [intros []; reflexivity | tauto]]. cbn [dc_attr].
    rewrite (kept_iff is_skip_deserializing skips_de skips_de_iff Ts fs fields 1 F), <- kept_length.
    destruct (a_transparent b).
    + unfold de_transparent. cbn [dc_fields]. rewrite nlen_length.
      destruct (N.eqb_spec (N.of_nat (length (filter (fun a => negb (is_skip_deserializing a)) (field_attributes Ts fields)))) 1) as [Q|Q].
      * split; [|discriminate]. intros _. split; [assumption|]. split; [discriminate|]. intros _. lia.
      * split; [intros []; reflexivity|]. intros (_ & _ & X). specialize (X (proj2 H3 eq_refl)). lia.
    + split; [|discriminate]. intros _. split; [assumption|]. split; [discriminate|]. intros X. apply H3 in X. discriminate.
  - transitivity (fits PEnum b /\ variants_ok is_path Tss vs).
    2:{ split; [intros X; exists b; auto | intros (a & [= <-] & _ & [X|[X|X]]); [apply H1 in X; discriminate | apply H2 in X; discriminate | exact X]]. }
    unfold do_deserialize_enum. pose proof (accepted_iff PEnum b) as AS. cbn [accepted] in AS. fold (fits PEnum b) in AS.
    destruct (sanitize_as_enum b); cbn [negb]; [|split; [intros []; reflexivity | intros (X & _); apply AS in X; discriminate]].
    pose proof (proj1 AS eq_refl) as FS. rewrite <- try_variants_some.
    destruct (try_variants is_path Tss vs); [|split; [intros []; reflexivity | tauto]]. split; [|discriminate]. intros _. split; [assumption | discriminate].
  - split; [intros []; reflexivity|]. intros (a & [= <-] & _ & [X|[X|[]]]); [apply H1 in X; discriminate | apply H2 in X; discriminate].
Qed.
End Taken.

(** ** Primitives *)
Lemma two_ids_err {A} id I1 I2 (r : res A) (P : Prop) e : (r = Err e <-> P) ->
  ((if negb (bytes_eqb id I1) && negb (bytes_eqb id I2) then Err UnmatchedId else r) = Err e <->
   (id <> I1 /\ id <> I2 /\ e = UnmatchedId) \/ ((id = I1 \/ id = I2) /\ P)).
Proof.
  intros H. destruct (bytes_eqb id I1) eqn:Q1; cbn [negb andb].
  - apply bytes_eqb_eq in Q1 as ->. rewrite H. split; [auto | intros [(X & _)|[_ X]]; [congruence | exact X]].
  - assert (id <> I1) as N1 by (intros ->; rewrite bytes_eqb_refl in Q1; discriminate). destruct (bytes_eqb id I2) eqn:Q2; cbn [negb].
    + apply bytes_eqb_eq in Q2 as ->. rewrite H. split; [auto | intros [(_ & X & _)|[_ X]]; [congruence | exact X]].
    + assert (id <> I2) as N2 by (intros ->; rewrite bytes_eqb_refl in Q2; discriminate). split.
      * intros [= <-]. auto.
      * intros [(_ & _ & ->)|[[X|X] _]]; [reflexivity | contradiction | contradiction].
Qed.
Lemma bool_der_err c e : to_bool_der c = Err e <-> (c = [] /\ e = UnterminatedBytes) \/ (1 < nlen c /\ e = ExtraContentsOctet) \/
  (exists o, c = [o] /\ o <> 0 /\ o <> 255 /\ e = InvalidDerBooleanContents).
Proof.
  unfold to_bool_der. destruct c as [|o [|o' c]].
  - rewrite nlen_nil. split; [intros [= <-]; auto | intros [[_ ->]|[[X _]|(o & X & _)]]; [reflexivity | lia | discriminate]].
  - pose proof (eq_refl : nlen [o] = 1) as L1. destruct (N.eqb_spec o 0) as [->|N0]; [|destruct (N.eqb_spec o 255) as [->|N1]].
    + split; [discriminate | intros [[X _]|[[X _]|(o & [= <-] & X & _)]]; [discriminate | lia | congruence]].
    + split; [discriminate | intros [[X _]|[[X _]|(o & [= <-] & _ & X & _)]]; [discriminate | lia | congruence]].
    + split; [intros [= <-]; right; right; exists o; auto | intros [[X _]|[[X _]|(o1 & _ & _ & _ & ->)]]; [discriminate | lia | reflexivity]].
  - rewrite !nlen_cons. split; [intros [= <-]; right; left; split; [lia | reflexivity] | intros [[X _]|[[_ ->]|(o1 & X & _)]]; [discriminate | reflexivity | discriminate]].
Qed.
Lemma bool_ber_err c e : to_bool_ber c = Err e <-> (c = [] /\ e = UnterminatedBytes) \/ (1 < nlen c /\ e = ExtraContentsOctet).
Proof.
  unfold to_bool_ber. destruct c as [|o [|o' c]].
  - rewrite nlen_nil. split; [intros [= <-]; auto | intros [[_ ->]|[X _]]; [reflexivity | lia]].
  - pose proof (eq_refl : nlen [o] = 1) as L1. destruct (o =? 0); (split; [discriminate | intros [[X _]|[X _]]; [discriminate | lia]]).
  - rewrite !nlen_cons. split; [intros [= <-]; right; split; [lia | reflexivity] | intros [[X _]|[_ ->]]; [discriminate | reflexivity]].
Qed.
Lemma utf8_err c e : str_from_utf8 c = Err e <-> ~ is_utf8 c /\ e = InvalidUtf8.
Proof.
  unfold str_from_utf8. rewrite <- utf8_valid_iff. destruct (utf8_valid c); split; try discriminate; [intros [X _]; congruence | intros [= <-]; split; [discriminate | reflexivity] | intros [_ ->]; reflexivity].
Qed.
Lemma primitives_err : forall E,
  (forall id c e, bytes_ok c ->
    (from_der (de_bool E) id c = Err e <-> (id <> [1] /\ e = UnmatchedId) \/ (id = [1] /\
       ((c = [] /\ e = UnterminatedBytes) \/ (1 < nlen c /\ e = ExtraContentsOctet) \/
        (exists o, c = [o] /\ o <> 0 /\ o <> 255 /\ e = InvalidDerBooleanContents)))) /\
    (from_ber (de_bool E) id (Definite (nlen c)) c = Err e <-> (id <> [1] /\ e = UnmatchedId) \/ (id = [1] /\
       ((c = [] /\ e = UnterminatedBytes) \/ (1 < nlen c /\ e = ExtraContentsOctet))))) /\
  (forall t id c e, bytes_ok c ->
    let P := (id <> [2] /\ e = UnmatchedId) \/ (id = [2] /\
       ((c = [] /\ e = UnterminatedBytes) \/ (c <> [] /\ ~ shortest_twos c /\ e = RedundantBytes) \/
        (shortest_twos c /\ ~ in_range t (twos_value c) /\ e = OverFlow))) in
    (from_der (de_int E t) id c = Err e <-> P) /\ (from_ber (de_int E t) id (Definite (nlen c)) c = Err e <-> P)) /\
  (forall id c e, bytes_ok c ->
    (from_der (de_string E) id c = Err e <-> (id <> [12] /\ e = UnmatchedId) \/ (id = [12] /\ ~ is_utf8 c /\ e = InvalidUtf8)) /\
    (from_ber (de_string E) id (Definite (nlen c)) c = Err e <->
       (id <> [12] /\ id <> [44] /\ e = UnmatchedId) \/ ((id = [12] \/ id = [44]) /\ ~ is_utf8 c /\ e = InvalidUtf8))) /\
  (forall id l c e,
    (from_der de_octets id c = Err e <-> id <> [4] /\ e = UnmatchedId) /\
    (from_ber de_octets id l c = Err e <-> (id <> [4] /\ id <> [36] /\ e = UnmatchedId) \/ ((id = [4] \/ id = [36]) /\ l = Indefinite /\ e = IndefiniteLength))).
Proof.
  intros E.  split; [|split; [|split]].
  - intros id c e Hok. split; cbn [from_der from_ber de_bool]; apply (identified_err id [1]); [apply bool_der_err|].
    change (Length_eqb (Definite (nlen c)) Indefinite) with false. cbv iota. rewrite assert_length_same. cbn [rbind]. apply bool_ber_err.
  - intros t id c e Hok P. assert (int_from_der t id c = Err e <-> P) as K by (apply (identified_err id [2]); now apply to_integer_err_iff).
    split; cbn [from_der from_ber de_int]; [exact K|]. change (Length_eqb (Definite (nlen c)) Indefinite) with false. cbv iota. rewrite assert_length_same. cbn [rbind]. exact K.
  - intros id c e Hok. split; cbn [from_der from_ber de_string]; [apply (identified_err id [12]), utf8_err|].
    apply (two_ids_err id [12] [44]). change (Length_eqb (Definite (nlen c)) Indefinite) with false. cbv iota. rewrite assert_length_same. cbn [rbind]. apply utf8_err.
  - intros id l c e. split; cbn [from_der from_ber de_octets].
    + etransitivity; [apply (identified_err id [4] (Ok c) False); split; [discriminate | intros []]|]. tauto.
    + apply (two_ids_err id [4] [36]). destruct l; cbn [Length_is_indefinite].
      * split; [intros [= <-]; auto | intros [_ ->]; reflexivity].
      * split; [discriminate | intros [X _]; discriminate].
Qed.
