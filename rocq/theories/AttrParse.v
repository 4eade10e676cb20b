(** Lemmas about parsing attributes. *)
From Coq Require Import String Ascii.
From Verif Require Import Base ModelTag ModelAttr Spec SpecAttr IdProofs AttrProofs.

(** ** Keywords *)
Lemma id_value_iff t n : parse_id_value t = Some n <->
  exists name cls pc num, t = TIdent name /\ In (name, (cls, pc, num)) documented_ids /\ n = cls * 64 + pc * 32 + num.
Proof.
  split.
  - destruct t as [s| | |]; try discriminate. unfold parse_id_value, parse_keyword, id_values. cbn [lookup].
    repeat (match goal with |- context [String.eqb s ?k] => destruct (String.eqb_spec s k) as [->|_] end;
      [intros H; injection H as <-; do 4 eexists; (split; [reflexivity|]); unfold documented_ids; split; [cbn [In]; eauto 12 | reflexivity]|]).
    discriminate.
  - intros (name & cls & pc & num & -> & I & ->). cbn in I.
    repeat (destruct I as [I|I]; [injection I as <- <- <- <-; reflexivity|]). destruct I.
Qed.
Lemma class_value_iff t n : parse_tag_class_value t = Some n <->
  exists name cls, t = TIdent name /\ In (name, cls) documented_classes /\ n = cls * 64.
Proof.
  split.
  - destruct t as [s| | |]; try discriminate. unfold parse_tag_class_value, parse_keyword, tag_class_values. cbn [lookup].
    repeat (match goal with |- context [String.eqb s ?k] => destruct (String.eqb_spec s k) as [->|_] end;
      [intros H; injection H as <-; do 2 eexists; (split; [reflexivity|]); unfold documented_classes; split; [cbn [In]; eauto 12 | reflexivity]|]).
    discriminate.
  - intros (name & cls & -> & I & ->). cbn in I.
    repeat (destruct I as [I|I]; [injection I as <- <-; reflexivity|]). destruct I.
Qed.
Lemma pc_value_iff t n : parse_tag_pc_value t = Some n <->
  exists name pc, t = TIdent name /\ In (name, pc) documented_pcs /\ n = pc * 32.
Proof.
  split.
  - destruct t as [s| | |]; try discriminate. unfold parse_tag_pc_value, parse_keyword, tag_pc_values. cbn [lookup].
    repeat (match goal with |- context [String.eqb s ?k] => destruct (String.eqb_spec s k) as [->|_] end;
      [intros H; injection H as <-; do 2 eexists; (split; [reflexivity|]); unfold documented_pcs; split; [cbn [In]; eauto 12 | reflexivity]|]).
    discriminate.
  - intros (name & pc & -> & I & ->). cbn in I.
    repeat (destruct I as [I|I]; [injection I as <- <-; reflexivity|]). destruct I.
Qed.

(** ** Numbers *)
Lemma to_digit_value radix c : to_digit radix c =
  match digit_value c with Some d => if d <? radix then Some d else None | None => None end.
Proof. destruct c as [[] [] [] [] [] [] [] []]; reflexivity. Qed.
Lemma to_digit_iff radix c d : to_digit radix c = Some d <-> digit_value c = Some d /\ d < radix.
Proof.
  rewrite to_digit_value. destruct (digit_value c) as [x|].
  - destruct (N.ltb_spec x radix); split; intros H'; try discriminate.
    + injection H' as ->. auto.
    + destruct H' as [H' _]. congruence.
    + destruct H' as [H' L]. injection H' as ->. lia.
  - split; [discriminate | intros [H _]; discriminate].
Qed.
Lemma number_text_ge radix acc s n : 0 < radix -> number_text radix acc s n -> acc <= n.
Proof. intros R. induction 1 as [|acc c d s n E L H IH]; [lia|]. nia. Qed.
Lemma radix_digits_iff radix : 0 < radix -> forall s acc n, acc < 2 ^ 128 ->
  (radix_digits radix acc s = Some n <-> number_text radix acc s n /\ n < 2 ^ 128).
Proof.
  intros R. induction s as [|c s IH]; intros acc n L; cbn [radix_digits].
  - split.
    + intros H. injection H as ->. split; [constructor | assumption].
    + intros [H _]. inversion H. reflexivity.
  - split.
    + destruct (to_digit radix c) as [d|] eqn:E; [|discriminate]. apply to_digit_iff in E as [E Ld].
      destruct (N.ltb_spec (acc * radix + d) (2 ^ 128)); [|discriminate]. intros H'.
      apply IH in H' as [T Ln]; [|assumption]. split; [|assumption]. now apply nt_cons with d.
    + intros [T Ln]. inversion T as [|? ? d ? ? E Ld T']; subst.
      rewrite (proj2 (to_digit_iff radix c d)) by auto. pose proof (number_text_ge _ _ _ _ R T').
      destruct (N.ltb_spec (acc * radix + d) (2 ^ 128)); [|lia]. now apply IH.
Qed.
Lemma plus_not_digit : digit_value "+" = None.
Proof. reflexivity. Qed.
Lemma from_str_radix_iff radix s n : 0 < radix ->
  (from_str_radix s radix = Some n <->
   (exists s2 digits, sign s2 /\ digits <> EmptyString /\ s = (s2 ++ digits)%string /\ number_text radix 0 digits n) /\ n < 2 ^ 128).
Proof.
  intros R. assert (0 < 2 ^ 128) as P by reflexivity.
  unfold from_str_radix. destruct s as [|c s].
  - split; [discriminate|]. intros [(s2 & ds & [->| ->] & N0 & E & _) _]; cbn in E; [congruence | discriminate].
  - destruct (Ascii.eqb_spec c "+") as [->|Nc].
    + split.
      * destruct s as [|c s]; [discriminate|]. intros H. apply radix_digits_iff in H as [T L]; [|assumption|assumption].
        split; [|assumption]. exists "+"%string, (String c s). repeat split; [now right | discriminate | assumption].
      * intros [(s2 & ds & [->| ->] & N0 & E & T) L]; cbn in E.
        { subst ds. inversion T as [|? ? d ? ? D]. rewrite plus_not_digit in D. discriminate. }
        injection E as ->. destruct ds as [|c ds]; [congruence|]. now apply radix_digits_iff.
    + rewrite radix_digits_iff by assumption. split.
      * intros [T L]. split; [|assumption]. exists EmptyString, (String c s). repeat split; [now left | discriminate | assumption].
      * intros [(s2 & ds & [->| ->] & N0 & E & T) L]; cbn in E; [now subst ds|]. injection E as -> ->. congruence.
Qed.
Lemma strip_prefix_iff prefix : forall s r, strip_prefix prefix s = Some r <-> s = (prefix ++ r)%string.
Proof.
  induction prefix as [|p prefix IH]; intros s r; cbn [strip_prefix append].
  - split; congruence.
  - destruct s as [|c s]; [split; discriminate|]. destruct (Ascii.eqb_spec p c) as [->|Nc].
    + rewrite IH. split; congruence.
    + split; [discriminate|]. congruence.
Qed.
Lemma strip_prefix_none prefix s : strip_prefix prefix s = None -> forall r, s <> (prefix ++ r)%string.
Proof. intros H r E. apply strip_prefix_iff in E. congruence. Qed.

(** A number after its sign. *)
Definition unsigned_literal (v : string) (n : N) : Prop :=
  exists prefix s2 digits radix, sign s2 /\ radix_of prefix radix /\ digits <> EmptyString /\
    v = (prefix ++ s2 ++ digits)%string /\ number_text radix 0 digits n.
Lemma number_text_head radix acc c s n : number_text radix acc (String c s) n -> exists d, digit_value c = Some d /\ d < radix.
Proof. intros H. inversion H. eauto. Qed.
Lemma number_text_second radix acc c c' s n : number_text radix acc (String c (String c' s)) n ->
  exists d, digit_value c' = Some d /\ d < radix.
Proof. intros H. inversion H; subst. eapply number_text_head. eassumption. Qed.
Lemma decimal_no_prefix c s2 digits n r : sign s2 -> number_text 10 0 digits n -> (forall d, digit_value c = Some d -> 10 <= d) ->
  (s2 ++ digits)%string <> String "0" (String c r).
Proof.
  intros [->| ->] T H E; cbn in E; [|discriminate]. subst digits.
  apply number_text_second in T as (d & D & L). apply H in D. lia.
Qed.
Lemma parse_prefixed_iff v n : parse_prefixed radix_prefixes v = Some n <-> unsigned_literal v n /\ n < 2 ^ 128.
Proof.
  assert (forall p rad, strip_prefix p v = None -> radix_of p rad -> forall s2 ds, v <> (p ++ s2 ++ ds)%string) as NO.
  { intros p rad E _ s2 ds. now apply strip_prefix_none. }
  assert (forall p rad r, 0 < rad -> radix_of p rad -> v = (p ++ r)%string ->
            (forall p' rad' s2 ds, radix_of p' rad' -> sign s2 -> v = (p' ++ s2 ++ ds)%string -> number_text rad' 0 ds n -> p' = p /\ rad' = rad) ->
            (from_str_radix r rad = Some n <-> unsigned_literal v n /\ n < 2 ^ 128)) as YES.
  { intros p rad r P R E U. rewrite from_str_radix_iff by assumption. split.
    - intros [(s2 & ds & S & N0 & -> & T) L]. split; [|assumption]. exists p, s2, ds, rad. auto.
    - intros [(p' & s2 & ds & rad' & S & R' & N0 & E' & T) L]. split; [|assumption].
      destruct (U p' rad' s2 ds R' S E' T) as [-> ->]. exists s2, ds. repeat split; auto.
      rewrite E in E'. clear - E'. induction p as [|c p IH]; cbn in E'; [assumption|]. injection E' as E'. auto. }
  unfold radix_prefixes. cbn [parse_prefixed].
  do 6 match goal with |- context [strip_prefix (String ?c ?q) v] =>
    let E := fresh "E" in destruct (strip_prefix (String c q) v) as [r|] eqn:E;
    [apply strip_prefix_iff in E; apply YES with (p := String c q); [reflexivity | unfold radix_of; tauto | assumption |];
     intros p' rad' s2 ds R' S E' T'; rewrite E in E';
     unfold radix_of in R'; destruct R' as [[-> ->]|[[[->| ->] ->]|[[[->| ->] ->]|[[->| ->] ->]]]]; cbn in E'; try discriminate;
       [exfalso; symmetry in E'; revert E'; eapply decimal_no_prefix; [assumption | eassumption |]; intros d D; cbn in D; injection D as <-; lia
       | split; reflexivity]
    |] end.
  destruct (strip_prefix "" v) as [r|] eqn:E7; [|destruct v; discriminate].
  assert (v = r) as Er by (apply strip_prefix_iff in E7; assumption).
  apply YES with (p := EmptyString); [reflexivity | unfold radix_of; tauto | assumption |].
  intros p' rad' s2 ds R' S E' T'.
  unfold radix_of in R'; destruct R' as [[-> ->]|[[[->| ->] ->]|[[[->| ->] ->]|[[->| ->] ->]]]]; [auto|..];
    exfalso; revert E'; (eapply NO; [eassumption | unfold radix_of; tauto]).
Qed.
Lemma tag_num_iff t n : parse_tag_num_value t = Some n <-> exists text, t = TLiteral text /\ number_literal text n /\ n < 2 ^ 128.
Proof.
  destruct t as [s|c|text|]; try (split; [discriminate | intros (x & E & _); discriminate]).
  assert (parse_tag_num_value (TLiteral text) = Some n <-> number_literal text n /\ n < 2 ^ 128) as H.
  2: { rewrite H. split; [eauto|]. intros (x & E & A). injection E as <-. exact A. }
  unfold parse_tag_num_value. destruct (strip_prefix "+" text) as [v|] eqn:E; rewrite parse_prefixed_iff.
  - apply strip_prefix_iff in E. subst text. split.
    + intros [(p & s2 & ds & rad & S & R & N0 & -> & T) L]. split; [|assumption].
      exists "+"%string, p, s2, ds, rad. repeat split; auto. now right.
    + intros [(s1 & p & s2 & ds & rad & S1 & S2 & R & N0 & E & T) L]. split; [|assumption]. destruct S1 as [->| ->].
      * cbn in E. unfold radix_of in R. destruct R as [[-> ->]|[[[->| ->] ->]|[[[->| ->] ->]|[[->| ->] ->]]]]; cbn in E; try discriminate.
        destruct S2 as [->| ->]; cbn in E.
        { subst ds. apply number_text_head in T as (d & D & _). discriminate. }
        injection E as ->. exists EmptyString, EmptyString, ds, 10. repeat split; auto; [now left | now left].
      * cbn in E. injection E as ->. exists p, s2, ds, rad. auto.
  - pose proof (strip_prefix_none _ _ E) as NP. split.
    + intros [(p & s2 & ds & rad & S & R & N0 & -> & T) L]. split; [|assumption].
      exists EmptyString, p, s2, ds, rad. repeat split; auto. now left.
    + intros [(s1 & p & s2 & ds & rad & [->| ->] & S2 & R & N0 & Et & T) L]; [|now apply NP in Et].
      split; [|assumption]. exists p, s2, ds, rad. auto.
Qed.

(** ** Paths *)
Lemma append_nil_r s : (s ++ "")%string = s.
Proof. induction s; cbn; congruence. Qed.
Lemma append_assoc a b c : ((a ++ b) ++ c)%string = (a ++ b ++ c)%string.
Proof. induction a; cbn; congruence. Qed.
Lemma rev_string_app a : forall b acc, rev_string (a ++ b) acc = rev_string b (rev_string a acc).
Proof. induction a; intros; cbn; auto. Qed.
Lemma rev_string_acc a : forall acc, rev_string a acc = (rev_string a "" ++ acc)%string.
Proof.
  induction a as [|c a IH]; intros acc; [reflexivity|]. cbn [rev_string]. rewrite IH, (IH (String c "")), append_assoc. reflexivity.
Qed.
Lemma rev_string_append a b : rev_string (a ++ b) "" = (rev_string b "" ++ rev_string a "")%string.
Proof. rewrite rev_string_app. apply rev_string_acc. Qed.
Lemma rev_string_rev a : rev_string (rev_string a "") "" = a.
Proof.
  induction a as [|c a IH]; [reflexivity|]. cbn [rev_string]. rewrite (rev_string_acc a (String c EmptyString)), rev_string_append, IH. reflexivity.
Qed.
Lemma quotes_snoc k : (quotes k ++ String quote_char "")%string = String quote_char (quotes k).
Proof. induction k as [|k IH]; [reflexivity|]. cbn [quotes append]. now rewrite IH. Qed.
Lemma rev_quotes k : rev_string (quotes k) "" = quotes k.
Proof. induction k as [|k IH]; [reflexivity|]. cbn [quotes rev_string]. rewrite rev_string_acc, IH. apply quotes_snoc. Qed.
Definition no_head (s : string) : Prop := forall r, s <> String quote_char r.
Lemma trim_start_spec s : exists i, s = (quotes i ++ trim_start s)%string /\ no_head (trim_start s).
Proof.
  induction s as [|c s (i & E & N0)]; cbn [trim_start].
  - exists O. split; [reflexivity | intros r; discriminate].
  - destruct (Ascii.eqb_spec c quote_char) as [->|Nc].
    + exists (S i). split; [cbn; now rewrite <- E | assumption].
    + exists O. split; [reflexivity|]. intros r E'. congruence.
Qed.
Lemma trim_start_quotes i s : no_head s -> trim_start (quotes i ++ s) = s.
Proof.
  intros N0. induction i as [|i IH]; [|exact IH]. destruct s as [|c s]; [reflexivity|]. cbn [quotes append trim_start].
  destruct (Ascii.eqb_spec c quote_char) as [->|]; [now destruct (N0 s) | reflexivity].
Qed.
Lemma trim_start_all i : trim_start (quotes i) = EmptyString.
Proof. induction i; [reflexivity | exact IHi]. Qed.
Lemma no_tail_rev s : (forall r, s <> (r ++ String quote_char "")%string) <-> no_head (rev_string s "").
Proof.
  split.
  - intros H r E. apply (H (rev_string r "")). rewrite <- (rev_string_rev s), E. cbn [rev_string].
    rewrite rev_string_acc. reflexivity.
  - intros H r ->. apply (H (rev_string r "")). now rewrite rev_string_append.
Qed.
Lemma trim_quotes_iff text path : trim_quotes text = path <->
  exists i j, text = (quotes i ++ path ++ quotes j)%string /\ no_head path /\ (forall s, path <> (s ++ String quote_char EmptyString)%string).
Proof.
  unfold trim_quotes. split.
  - intros <-. destruct (trim_start_spec text) as (i & E & N0). set (m := trim_start text) in *.
    destruct (trim_start_spec (rev_string m "")) as (j & E2 & N2). set (w := trim_start (rev_string m "")) in *.
    assert (m = (rev_string w "" ++ quotes j)%string) as Em.
    { rewrite <- (rev_string_rev m), E2, rev_string_append, rev_quotes. reflexivity. }
    exists i, j. split; [now rewrite <- Em|]. split.
    + intros r Er. apply (N0 (r ++ quotes j)%string). rewrite Em, Er. reflexivity.
    + apply no_tail_rev. now rewrite rev_string_rev.
  - intros (i & j & -> & N0 & N2). destruct path as [|c path].
    + cbn [append]. replace (quotes i ++ quotes j)%string with (quotes (i + j)); [now rewrite trim_start_all|].
      clear. induction i; cbn; [reflexivity | congruence].
    + rewrite trim_start_quotes.
      * rewrite rev_string_append, rev_quotes, trim_start_quotes; [apply rev_string_rev | now apply no_tail_rev].
      * intros r E. cbn in E. injection E as -> _. now destruct (N0 path).
Qed.
Lemma class_of_given a : values_ok a ->
  (forall c, a_tag_class a = Some (c * 64) -> class_of a = c) /\
  (forall p, a_tag_pc a = Some (p * 32) -> pc_of a = p) /\
  (forall n, a_tag_num a = Some n -> number_of a = n) /\
  (forall name c p n, a_id a = Some (c * 64 + p * 32 + n) -> In (name, (c, p, n)) documented_ids ->
     (a_tag_class a = None -> class_of a = c) /\ (a_tag_pc a = None -> pc_of a = p) /\ (a_tag_num a = None -> number_of a = n)) /\
  (a_id a = None ->
     (a_tag_class a = None -> class_of a = 0) /\ (a_tag_pc a = None -> pc_of a = 1) /\ (a_tag_num a = None -> number_of a = 16)).
Proof.
  intros V. unfold class_of, pc_of, number_of. split; [|split; [|split; [|split]]].
  - intros c ->. cbn [or_else]. lia.
  - intros p E. destruct V as (_ & _ & V & _). destruct (V _ E) as (name & k & I & Ek). apply documented_pc_lt in I.
    rewrite E. cbn [or_else]. lia.
  - intros n ->. reflexivity.
  - intros name c p n -> I. apply documented_id_octet in I. cbn [or_else].
    repeat split; intros ->; cbn [or_else]; lia.
  - intros ->. repeat split; intros ->; reflexivity.
Qed.
Lemma number_of_lt a : values_ok a -> number_of a < 2 ^ 128.
Proof.
  intros (_ & _ & _ & V). unfold number_of. destruct (a_tag_num a) as [n|] eqn:E; cbn [or_else]; [now apply V|].
  assert (2 ^ 128 = 340282366920938463463374607431768211456) as -> by reflexivity. lia.
Qed.
Section Parse.
Context (is_path : string -> bool).
Lemma path_iff t p : parse_path is_path t = Some p <-> exists text, t = TLiteral text /\ path_literal is_path text p.
Proof.
  destruct t as [s|c|text|]; try (split; [discriminate | intros (x & E & _); discriminate]).
  assert (parse_path is_path (TLiteral text) = Some p <-> path_literal is_path text p) as H.
  2: { rewrite H. split; [eauto|]. intros (x & E & A). injection E as <-. exact A. }
  unfold parse_path, path_literal. split.
  - destruct (is_path (trim_quotes text)) eqn:P; [|discriminate]. intros H. injection H as H.
    rewrite H in P. apply trim_quotes_iff in H as (i & j & -> & N0 & N2). exists i, j. auto.
  - intros (i & j & E & P & N0 & N2). assert (trim_quotes text = p) as H by (apply trim_quotes_iff; exists i, j; auto).
    rewrite H, P. reflexivity.
Qed.

(** ** Arguments *)
Definition parse_value (x : arg) (t : token) : option arg_value :=
  match x with
  | AId => option_map VNum (parse_id_value t)
  | ATagClass => option_map VNum (parse_tag_class_value t)
  | ATagPc => option_map VNum (parse_tag_pc_value t)
  | ATagNum => option_map VNum (parse_tag_num_value t)
  | ADefault | AInto | AFrom | ATo | ATryFrom => option_map VPath (parse_path is_path t)
  | _ => None
  end.
Lemma option_map_iff {A B} (f : A -> B) o b : option_map f o = Some b <-> exists a, o = Some a /\ b = f a.
Proof. destruct o; cbn; split; [intros H; injection H as <-; eauto | intros (a' & H & ->); now injection H as -> | discriminate | intros (a' & H & _); discriminate]. Qed.
Lemma parse_value_iff x t v : parse_value x t = Some v <-> value_says is_path x t v.
Proof.
  destruct x; cbn [parse_value value_says]; try (split; [discriminate | intros []]); rewrite option_map_iff.
  - split; [intros (n & H & ->); apply id_value_iff in H as (a & b & c & d & ? & ? & ->); eauto 10
           | intros (a & b & c & d & A & B & ->); eexists; split; [apply id_value_iff; eauto 10 | reflexivity]].
  - split; [intros (n & H & ->); apply class_value_iff in H as (a & b & ? & ? & ->); eauto 10
           | intros (a & b & A & B & ->); eexists; split; [apply class_value_iff; eauto 10 | reflexivity]].
  - split; [intros (n & H & ->); apply pc_value_iff in H as (a & b & ? & ? & ->); eauto 10
           | intros (a & b & A & B & ->); eexists; split; [apply pc_value_iff; eauto 10 | reflexivity]].
  - split; [intros (n & H & ->); apply tag_num_iff in H as (a & ? & ? & ?); eauto 10
           | intros (a & b & A & B & C & ->); eexists; split; [apply tag_num_iff; eauto 10 | reflexivity]].
  - split; [intros (n & H & ->); apply path_iff in H as (a & ? & ?); eauto 10
           | intros (a & b & A & B & ->); eexists; split; [apply path_iff; eauto 10 | reflexivity]].
  - split; [intros (n & H & ->); apply path_iff in H as (a & ? & ?); eauto 10
           | intros (a & b & A & B & ->); eexists; split; [apply path_iff; eauto 10 | reflexivity]].
  - split; [intros (n & H & ->); apply path_iff in H as (a & ? & ?); eauto 10
           | intros (a & b & A & B & ->); eexists; split; [apply path_iff; eauto 10 | reflexivity]].
  - split; [intros (n & H & ->); apply path_iff in H as (a & ? & ?); eauto 10
           | intros (a & b & A & B & ->); eexists; split; [apply path_iff; eauto 10 | reflexivity]].
  - split; [intros (n & H & ->); apply path_iff in H as (a & ? & ?); eauto 10
           | intros (a & b & A & B & ->); eexists; split; [apply path_iff; eauto 10 | reflexivity]].
Qed.
(** The value fits the argument. *)
Definition kind_ok (x : arg) (v : arg_value) : Prop :=
  match x with
  | AId | ATagClass | ATagPc | ATagNum => exists n, v = VNum n
  | ADefault | AInto | AFrom | ATo | ATryFrom => exists s, v = VPath s
  | _ => v = VNone
  end.
Definition num_of (v : arg_value) : option N := match v with VNum n => Some n | _ => None end.
Definition text_of (v : arg_value) : option string := match v with VPath s => Some s | _ => None end.
Definition set_arg (x : arg) (v : arg_value) (r : attribute) : attribute :=
  let on {A} (y : arg) (new old : A) : A := if arg_eq_dec x y then new else old in
  {| a_id := on AId (num_of v) (a_id r); a_tag_class := on ATagClass (num_of v) (a_tag_class r);
     a_tag_pc := on ATagPc (num_of v) (a_tag_pc r); a_tag_num := on ATagNum (num_of v) (a_tag_num r);
     a_skip_serializing := on ASkipSerializing true (a_skip_serializing r);
     a_skip_deserializing := on ASkipDeserializing true (a_skip_deserializing r);
     a_default := on ADefault (text_of v) (a_default r); a_skip := on ASkip true (a_skip r);
     a_into := on AInto (text_of v) (a_into r); a_from := on AFrom (text_of v) (a_from r);
     a_to := on ATo (text_of v) (a_to r); a_try_from := on ATryFrom (text_of v) (a_try_from r);
     a_transparent := on ATransparent true (a_transparent r) |}.
Lemma set_arg_says x v r y w : kind_ok x v -> (says (set_arg x v r) y w <-> (y = x /\ w = v) \/ (y <> x /\ says r y w)).
Proof.
  intros K. destruct (arg_eq_dec y x) as [->|Ny].
  - assert (says (set_arg x v r) x w <-> w = v) as ->; [|tauto].
    destruct x; cbn [kind_ok] in K;
      first [ subst v; cbn; tauto
            | destruct K as [k ->]; cbn; split; [intros (n & H & ->); congruence | intros ->; eauto] ].
  - assert (says (set_arg x v r) y w <-> says r y w) as ->; [|tauto].
    destruct x, y; try congruence; reflexivity.
Qed.
Lemma set_argument_name x ret it : set_argument is_path (arg_name x) ret it =
  if flag ret x then None
  else if takes_value x then
    match it with
    | TPunct c :: t :: it' =>
        if Ascii.eqb c "=" then match parse_value x t with Some v => Some (set_arg x v ret, it') | None => None end else None
    | _ => None
    end
  else Some (set_arg x VNone ret, it).
Proof.
  destruct x; cbn -[parse_id_value parse_tag_class_value parse_tag_pc_value parse_tag_num_value parse_path];
    match goal with |- context [if ?b then None else _] => destruct b end; try reflexivity;
    unfold argument, next_token, take_value;
    (destruct it as [|[|c| |] [|t it]]; try reflexivity; destruct (Ascii.eqb c "="); try reflexivity;
     cbn [parse_value]; match goal with |- context [option_map _ ?o] => destruct o; reflexivity end).
Qed.
Lemma set_argument_other s ret it : (forall x, s <> arg_name x) -> set_argument is_path s ret it = None.
Proof.
  intros H. unfold set_argument.
  repeat match goal with |- context [String.eqb s ?k] => destruct (String.eqb_spec s k) as [E|_] end; try reflexivity;
    exfalso;
    first [ exact (H AId E) | exact (H ATagClass E) | exact (H ATagPc E) | exact (H ATagNum E) | exact (H ASkipSerializing E)
          | exact (H ASkipDeserializing E) | exact (H ADefault E) | exact (H ASkip E) | exact (H AInto E) | exact (H AFrom E)
          | exact (H ATo E) | exact (H ATryFrom E) | exact (H ATransparent E) ].
Qed.
Lemma arg_name_dec s : (exists x, s = arg_name x) \/ (forall x, s <> arg_name x).
Proof.
  destruct (in_dec String.string_dec s (map arg_name args)) as [I|I].
  - left. apply in_map_iff in I as (x & E & _). eauto.
  - right. intros x E. apply I. apply in_map_iff. exists x. split; [now rewrite E | apply in_args].
Qed.
Lemma arg_name_inj x y : arg_name x = arg_name y -> x = y.
Proof. destruct x, y; (reflexivity || discriminate). Qed.
Lemma says_ext a b : (forall x v, says a x v <-> says b x v) -> a = b.
Proof.
  intros H.
  assert (forall (f : attribute -> option N) x, (forall c v, says c x v <-> exists n, f c = Some n /\ v = VNum n) -> f a = f b) as HN.
  { intros f x S. destruct (f a) as [n|] eqn:Ea.
    - pose proof (proj1 (H x (VNum n)) (proj2 (S a _) (ex_intro _ n (conj Ea eq_refl)))) as Q.
      apply S in Q as (m & -> & E). congruence.
    - destruct (f b) as [n|] eqn:Eb; [|reflexivity].
      pose proof (proj2 (H x (VNum n)) (proj2 (S b _) (ex_intro _ n (conj Eb eq_refl)))) as Q.
      apply S in Q as (m & Q & _). congruence. }
  assert (forall (f : attribute -> option string) x, (forall c v, says c x v <-> exists n, f c = Some n /\ v = VPath n) -> f a = f b) as HP.
  { intros f x S. destruct (f a) as [n|] eqn:Ea.
    - pose proof (proj1 (H x (VPath n)) (proj2 (S a _) (ex_intro _ n (conj Ea eq_refl)))) as Q.
      apply S in Q as (m & -> & E). congruence.
    - destruct (f b) as [n|] eqn:Eb; [|reflexivity].
      pose proof (proj2 (H x (VPath n)) (proj2 (S b _) (ex_intro _ n (conj Eb eq_refl)))) as Q.
      apply S in Q as (m & Q & _). congruence. }
  assert (forall (f : attribute -> bool) x, (forall c v, says c x v <-> f c = true /\ v = VNone) -> f a = f b) as HB.
  { intros f x S. specialize (H x VNone). rewrite !S in H. destruct (f a), (f b); try reflexivity.
    - destruct H as [H _]. destruct H as [H _]; [auto | discriminate].
    - destruct H as [_ H]. destruct H as [H _]; [auto | discriminate]. }
  destruct a as [a1 a2 a3 a4 a5 a6 a7 a8 a9 a10 a11 a12 a13], b as [b1 b2 b3 b4 b5 b6 b7 b8 b9 b10 b11 b12 b13]. f_equal.
  - apply (HN a_id AId). reflexivity.
  - apply (HN a_tag_class ATagClass). reflexivity.
  - apply (HN a_tag_pc ATagPc). reflexivity.
  - apply (HN a_tag_num ATagNum). reflexivity.
  - apply (HB a_skip_serializing ASkipSerializing). reflexivity.
  - apply (HB a_skip_deserializing ASkipDeserializing). reflexivity.
  - apply (HP a_default ADefault). reflexivity.
  - apply (HB a_skip ASkip). reflexivity.
  - apply (HP a_into AInto). reflexivity.
  - apply (HP a_from AFrom). reflexivity.
  - apply (HP a_to ATo). reflexivity.
  - apply (HP a_try_from ATryFrom). reflexivity.
  - apply (HB a_transparent ATransparent). reflexivity.
Qed.

Lemma says_has a x v : says a x v -> flag a x = true.
Proof. intros H. apply has_flag. now exists v. Qed.
Lemma value_says_kind x t v : value_says is_path x t v -> kind_ok x v.
Proof.
  destruct x; cbn; try (intros []; fail).
  - intros (a & b & c & d & _ & _ & ->). eauto.
  - intros (a & b & _ & _ & ->). eauto.
  - intros (a & b & _ & _ & ->). eauto.
  - intros (a & b & _ & _ & _ & ->). eauto.
  - intros (a & b & _ & _ & ->). eauto.
  - intros (a & b & _ & _ & ->). eauto.
  - intros (a & b & _ & _ & ->). eauto.
  - intros (a & b & _ & _ & ->). eauto.
  - intros (a & b & _ & _ & ->). eauto.
Qed.
Lemma flag_kind x : takes_value x = false -> kind_ok x VNone.
Proof. destruct x; (discriminate || reflexivity). Qed.

Definition result (ret a : attribute) (xs : list (arg * arg_value)) : Prop :=
  NoDup (map fst xs) /\ (forall x, In x (map fst xs) -> flag ret x = false) /\
  (forall x v, says a x v <-> says ret x v \/ In (x, v) xs).
Lemma result_cons ret a x v xs : kind_ok x v -> (result ret a ((x, v) :: xs) <-> flag ret x = false /\ result (set_arg x v ret) a xs).
Proof.
  intros K. unfold result. cbn [map fst].
  assert (forall y, y <> x -> flag (set_arg x v ret) y = flag ret y) as Fy.
  { intros y Ny. destruct x, y; try congruence; reflexivity. }
  assert (flag (set_arg x v ret) x = true) as Fx.
  { apply (says_has _ _ v). apply set_arg_says; auto. }
  split.
  - intros (ND & D & S). inversion ND as [|? ? NI ND']; subst. split; [apply D; now left|]. split; [assumption|]. split.
    + intros y I. rewrite Fy by congruence. apply D. now right.
    + intros y w. rewrite S, set_arg_says by assumption. cbn [In]. split.
      * intros [H|[H|H]]; [left; right; split; [|assumption] | left; left; split; congruence | now right].
        intros ->. apply says_has in H. rewrite (D x) in H by now left. discriminate.
      * intros [[[-> ->]|[_ H]]|H]; auto.
  - intros (F & ND & D & S). assert (~ In x (map fst xs)) as NI by (intros I; apply D in I; congruence).
    split; [now constructor|]. split.
    + intros y [<-|I]; [assumption|]. rewrite <- Fy by congruence. auto.
    + intros y w. rewrite S, set_arg_says by assumption. cbn [In]. split.
      * intros [[[-> ->]|[_ H]]|H]; auto.
      * intros [H|[H|H]]; [left; right; split; [|assumption] | left; left; split; congruence | now right].
        intros ->. apply says_has in H. congruence.
Qed.
Lemma parse_loop_iff fuel : forall ret it a, (length it < fuel)%nat ->
  (parse_loop is_path fuel ret it = Some a <-> exists xs, arguments is_path it xs /\ result ret a xs).
Proof.
  induction fuel as [|fuel IH]; intros ret it a L; [lia|]. cbn [parse_loop].
  destruct it as [|[s|c|text|] it]; cbn [length] in L.
  - split.
    + intros H. injection H as <-. exists []. split; [constructor|]. split; [constructor|]. split; [intros x []|]. cbn. tauto.
    + intros (xs & A & R). inversion A; subst. f_equal. apply says_ext. destruct R as (_ & _ & S). cbn in S.
      intros x v. rewrite S. tauto.
  - destruct (arg_name_dec s) as [[x ->]|NX].
    + rewrite set_argument_name. destruct (flag ret x) eqn:Fx.
      { split; [discriminate|]. intros (xs & A & R). inversion A as [| |y ? ? TV A' E|y ? ? ? ? TV V A' E]; subst;
          apply arg_name_inj in E; subst y; destruct R as (_ & D & _); rewrite (D x) in Fx by (now left); discriminate. }
      destruct (takes_value x) eqn:TV.
      * destruct it as [|[|c| |] [|t it]];
          try (split; [discriminate|]; intros (xs & A & R);
               inversion A as [| |y ? ? TV' A' E|y ? ? ? ? TV' V A' E]; subst; apply arg_name_inj in E; subst y; congruence).
        destruct (Ascii.eqb_spec c "=") as [->|Nc].
        2: { split; [discriminate|]. intros (xs & A & R).
             inversion A as [| |y ? ? TV' A' E|y ? ? ? ? TV' V A' E]; subst; apply arg_name_inj in E; subst y; congruence. }
        destruct (parse_value x t) as [v|] eqn:PV.
        -- apply parse_value_iff in PV. pose proof (value_says_kind _ _ _ PV) as K. rewrite IH by (cbn in L; lia). split.
           ++ intros (xs & A & R). exists ((x, v) :: xs). split; [now constructor|]. apply result_cons; auto.
           ++ intros (xs & A & R). inversion A as [| |y ? ? TV' A' E|y ? v' ? xs' TV' V A' E]; subst; apply arg_name_inj in E; subst y; [congruence|].
              apply parse_value_iff in V, PV. assert (v' = v) by congruence. subst v'.
              apply result_cons in R as [_ R]; [|assumption]. eauto.
        -- split; [discriminate|]. intros (xs & A & R). inversion A as [| |y ? ? TV' A' E|y ? v' ? xs' TV' V A' E]; subst; apply arg_name_inj in E; subst y; [congruence|].
           apply parse_value_iff in V. congruence.
      * pose proof (flag_kind _ TV) as K. rewrite IH by lia. split.
        -- intros (xs & A & R). exists ((x, VNone) :: xs). split; [now constructor|]. apply result_cons; auto.
        -- intros (xs & A & R). inversion A as [| |y ? xs' TV' A' E|y ? v' ? xs' TV' V A' E]; subst; apply arg_name_inj in E; subst y; [|congruence].
           apply result_cons in R as [_ R]; [|assumption]. eauto.
    + rewrite set_argument_other by assumption. split; [discriminate|]. intros (xs & A & R).
      inversion A; subst; match goal with H : forall x, arg_name ?y <> arg_name x |- _ => now destruct (H y) end.
  - destruct (Ascii.eqb_spec c ",") as [->|Nc].
    + rewrite IH by lia. split.
      * intros (xs & A & R). exists xs. split; [now constructor | assumption].
      * intros (xs & A & R). inversion A; subst. eauto.
    + split; [discriminate|]. intros (xs & A & R). inversion A; subst. congruence.
  - split; [discriminate|]. intros (xs & A & R). inversion A.
  - split; [discriminate|]. intros (xs & A & R). inversion A.
Qed.
Lemma no_attribute_says x v : ~ says no_attribute x v.
Proof. destruct x; cbn; first [intros [H _]; discriminate | intros (n & H & _); discriminate]. Qed.
Lemma no_attribute_flag x : flag no_attribute x = false.
Proof. now destruct x. Qed.
Lemma attribute_parse_iff ts a : Attribute_parse is_path ts = Some a <->
  exists xs, arguments is_path ts xs /\ NoDup (map fst xs) /\ forall x v, says a x v <-> In (x, v) xs.
Proof.
  unfold Attribute_parse. rewrite parse_loop_iff by lia. unfold result. split; intros (xs & A & R); exists xs; (split; [assumption|]).
  - destruct R as (ND & _ & S). split; [assumption|]. intros x v. rewrite S. pose proof (no_attribute_says x v). tauto.
  - destruct R as (ND & S). split; [assumption|]. split; [intros; apply no_attribute_flag|].
    intros x v. rewrite S. pose proof (no_attribute_says x v). tauto.
Qed.

(** Attributes other than bsn1_serde play no part; there is at most one. *)
Lemma one_attribute_iff ret attrs r : one_attribute is_path ret attrs = Some r <->
  match ret with
  | Some a => r = Some a /\ forall t, ~ In (Some t) attrs
  | None => (r = None /\ forall t, ~ In (Some t) attrs) \/
      exists pre ts post a, attrs = pre ++ Some ts :: post /\ (forall t, ~ In (Some t) (pre ++ post)) /\
        Attribute_parse is_path ts = Some a /\ r = Some a
  end.
Proof.
  revert ret r. induction attrs as [|[ts|] attrs IH]; intros ret r; cbn [one_attribute].
  - destruct ret.
    + split; [intros H; injection H as <-; auto | intros [-> _]; reflexivity].
    + split; [intros H; injection H as <-; auto|]. intros [[-> _]|(pre & ts & post & a & E & _)]; [reflexivity | destruct pre; discriminate].
  - destruct ret as [b|].
    + split; [destruct (Attribute_parse is_path ts); discriminate|]. intros [_ H]. destruct (H ts). now left.
    + destruct (Attribute_parse is_path ts) as [a|] eqn:P.
      * rewrite IH. split.
        -- intros [-> H]. right. exists [], ts, attrs, a. auto.
        -- intros [[_ H]|(pre & ts' & post & a' & E & H & P' & ->)]; [destruct (H ts); now left|].
           destruct pre as [|o pre]; cbn [app] in E; injection E as E1 E2.
           ++ subst. split; [congruence|]. exact H.
           ++ subst o. destruct (H ts). now left.
      * split; [discriminate|]. intros [[_ H]|(pre & ts' & post & a' & E & H & P' & ->)]; [destruct (H ts); now left|].
        destruct pre as [|o pre]; cbn [app] in E; injection E as E1 E2; [congruence|]. subst o. destruct (H ts). now left.
  - rewrite IH. destruct ret as [b|].
    + split; intros [-> H]; (split; [reflexivity|]).
      * intros t [E|I]; [discriminate | now apply (H t)].
      * intros t I. apply (H t). now right.
    + split.
      * intros [[-> H]|(pre & ts & post & a & -> & H & P & ->)].
        -- left. split; [reflexivity|]. intros t [E|I]; [discriminate | now apply (H t)].
        -- right. exists (None :: pre), ts, post, a. repeat split; auto. intros t [E|I]; [discriminate | now apply (H t)].
      * intros [[-> H]|(pre & ts & post & a & E & H & P & ->)].
        -- left. split; [reflexivity|]. intros t I. apply (H t). now right.
        -- right. destruct pre as [|o pre]; cbn [app] in E; [discriminate|]. injection E as <- ->.
           exists pre, ts, post, a. repeat split; auto. intros t I. apply (H t). now right.
Qed.
Lemma try_from_iff attrs a : Attribute_try_from is_path attrs = Some a <->
  (a = no_attribute /\ forall t, ~ In (Some t) attrs) \/
  exists pre ts post, attrs = pre ++ Some ts :: post /\ (forall t, ~ In (Some t) (pre ++ post)) /\
    Attribute_parse is_path ts = Some a /\ compatible a.
Proof.
  unfold Attribute_try_from. destruct (one_attribute is_path None attrs) as [[b|]|] eqn:O.
  - apply one_attribute_iff in O as [[E _]|(pre & ts & post & b' & -> & H & P & E)]; [discriminate|]. injection E as <-.
    destruct (sanitize b) eqn:S.
    + apply sanitize_iff in S. split.
      * intros E. injection E as <-. right. exists pre, ts, post. auto.
      * intros [[_ N0]|(pre' & ts' & post' & E & H' & P' & C)]; [destruct (N0 ts); apply in_or_app; right; now left|].
        f_equal. assert (one_attribute is_path None (pre ++ Some ts :: post) = Some (Some a)) as A1.
        { apply one_attribute_iff. right. exists pre', ts', post', a. auto. }
        assert (one_attribute is_path None (pre ++ Some ts :: post) = Some (Some b)) as A2.
        { apply one_attribute_iff. right. exists pre, ts, post, b. auto. }
        congruence.
    + split; [discriminate|]. intros [[_ N0]|(pre' & ts' & post' & E & H' & P' & C)]; [destruct (N0 ts); apply in_or_app; right; now left|].
      assert (one_attribute is_path None (pre ++ Some ts :: post) = Some (Some a)) as A1.
      { apply one_attribute_iff. right. exists pre', ts', post', a. auto. }
      assert (one_attribute is_path None (pre ++ Some ts :: post) = Some (Some b)) as A2.
      { apply one_attribute_iff. right. exists pre, ts, post, b. auto. }
      assert (a = b) by congruence. subst b. apply sanitize_iff in C. congruence.
  - apply one_attribute_iff in O as [[_ N0]|(pre & ts & post & b' & -> & H & P & E)]; [|discriminate]. split.
    + intros E. injection E as <-. auto.
    + intros [[-> _]|(pre & ts & post & -> & _)]; [reflexivity|]. destruct (N0 ts). apply in_or_app. right. now left.
  - split; [discriminate|]. intros [[-> N0]|(pre & ts & post & -> & H & P & C)].
    + assert (one_attribute is_path None attrs = Some None) by (apply one_attribute_iff; auto). congruence.
    + assert (one_attribute is_path None (pre ++ Some ts :: post) = Some (Some a)) by (apply one_attribute_iff; right; exists pre, ts, post, a; auto).
      congruence.
Qed.

(** ** Values *)
Lemma arguments_values ts xs : arguments is_path ts xs -> forall x v, In (x, v) xs -> takes_value x = true -> exists t, value_says is_path x t v.
Proof.
  induction 1 as [|ts xs A IH|x ts xs T A IH|x t v ts xs T V A IH]; intros y w I TY.
  - destruct I.
  - auto.
  - destruct I as [E|I]; [injection E as <- <-; congruence | auto].
  - destruct I as [E|I]; [injection E as <- <-; eauto | auto].
Qed.
Lemma try_from_values attrs a : Attribute_try_from is_path attrs = Some a -> values_ok a.
Proof.
  intros H. apply try_from_iff in H as [[-> _]|(pre & ts & post & _ & _ & P & _)].
  - repeat split; intros n E; discriminate.
  - apply attribute_parse_iff in P as (xs & A & ND & S). repeat split; intros n E.
    + assert (In (AId, VNum n) xs) as I by (apply S; cbn; eauto).
      destruct (arguments_values _ _ A _ _ I eq_refl) as (t & name & c & p & m & _ & D & V). injection V as ->. eauto 8.
    + assert (In (ATagClass, VNum n) xs) as I by (apply S; cbn; eauto).
      destruct (arguments_values _ _ A _ _ I eq_refl) as (t & name & c & _ & D & V). injection V as ->. eauto 8.
    + assert (In (ATagPc, VNum n) xs) as I by (apply S; cbn; eauto).
      destruct (arguments_values _ _ A _ _ I eq_refl) as (t & name & c & _ & D & V). injection V as ->. eauto 8.
    + assert (In (ATagNum, VNum n) xs) as I by (apply S; cbn; eauto).
      destruct (arguments_values _ _ A _ _ I eq_refl) as (t & text & m & _ & D & L & V). injection V as ->. assumption.
Qed.
Lemma derived_identifier attrs a : Attribute_try_from is_path attrs = Some a ->
  identifier (class_of a) (pc_of a) (number_of a) (id_slice a) /\ number_of a < 2 ^ 128 /\
  exists c p, class_num c = class_of a /\ pc_num p = pc_of a /\ Id_new c p (number_of a) = Ok (id_slice a).
Proof.
  intros H. apply try_from_values in H as V. split; [now apply id_slice_identifier|]. split; [now apply number_of_lt|].
  destruct (class_num_surj _ (class_of_lt a V)) as [c Ec]. destruct (pc_num_surj _ (pc_of_lt a)) as [p Ep].
  exists c, p. repeat split; auto. now apply id_slice_new.
Qed.
Lemma try_from_one ts :
  (Attribute_try_from is_path [Some ts] <> None <-> exists a, Attribute_parse is_path ts = Some a /\ compatible a).
Proof.
  destruct (Attribute_try_from is_path [Some ts]) as [a|] eqn:E.
  - split; [|discriminate]. intros _. apply try_from_iff in E as [[_ N0]|(pre & ts' & post & E & _ & P & C)].
    + destruct (N0 ts). now left.
    + exists a. destruct pre as [|o pre]; [|destruct pre; discriminate]. injection E as <- <-. auto.
  - split; [congruence|]. intros (a & P & C).
    assert (Attribute_try_from is_path [Some ts] = Some a); [|congruence].
    apply try_from_iff. right. exists [], ts, []. repeat split; auto.
Qed.
End Parse.
Lemma number_iff text n : parse_tag_num_value (TLiteral text) = Some n <-> number_literal text n /\ n < 2 ^ 128.
Proof. rewrite tag_num_iff. split; [intros (t & E & H); injection E as <-; exact H | eauto]. Qed.
