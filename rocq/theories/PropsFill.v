(** C91: what is read depends on the reader alone, if it writes what it reports. *)
From Verif Require Import Base ModelIo ModelTag ModelContents ModelBuf ModelTlv ModelHeap ModelBufLE ModelBufUE ModelTlvRaw ModelUnwind ModelRelease
  Spec SpecIo SpecBuf SpecTlv SpecUnwind SpecRelease SpecReadRaw SpecFill BufProofs RawProofs RawMain RawTlv RawStream UnwindProofs RelProofs UseRelease LieProofs FillProofs PropsBuf PropsUnwind PropsRelease PropsLie.

(** One outcome for all layouts, profiles, allocators and heaps: the octets of the value, the error
    or the panic, and the state of the reader. *)
Theorem C91_der : forall S (R : user_reader S) fuel s, writes_octets R -> fills R ->
  exists r s1, forall L ops Rp al h0, profiles L ops Rp -> good_allocator al ->
    settled L al r s1 (u_Der_parse L al R fuel s h0) /\ settled (released L ops) al r s1 (rel_Der_parse (released L ops) al R fuel s h0).
Proof.
  intros S R fuel s W F. destruct (der_parse_settled R W F fuel s) as (r & s1 & K). exists r, s1. intros L ops Rp al h0 P G.
  destruct (profiles_facts al L ops Rp G P) as (HL & RO). destruct (layouts_facts al L Rp G HL) as (BR & big & _). pose proof (K L al Rp h0 BR big) as X. split; [exact X|].
  exact (settled_agree L al Rp BR ops der_value h0 r s1 _ _ (C73_der_parse L ops Rp al S R fuel s h0 P G W) (rep_der L al Rp BR big R W fuel s h0) X).
Qed.
Print Assumptions C91_der.
Theorem C91_ber : forall S (R : user_reader S) fuel s, writes_octets R -> fills R ->
  exists r s1, forall L ops Rp al h0, profiles L ops Rp -> good_allocator al ->
    settled L al r s1 (u_Ber_parse L al R fuel s h0) /\ settled (released L ops) al r s1 (rel_Ber_parse (released L ops) al R fuel s h0).
Proof.
  intros S R fuel s W F. destruct (ber_parse_settled R W F fuel s) as (r & s1 & K). exists r, s1. intros L ops Rp al h0 P G.
  destruct (profiles_facts al L ops Rp G P) as (HL & RO). destruct (layouts_facts al L Rp G HL) as (BR & big & _). pose proof (K L al Rp h0 BR big) as X. split; [exact X|].
  exact (settled_agree L al Rp BR ops ber_value h0 r s1 _ _ (C73_ber_parse L ops Rp al S R fuel s h0 P G W) (rep_ber L al Rp BR big R W fuel s h0) X).
Qed.
Print Assumptions C91_ber.
(** A reader that writes what it reports, though it reports more than it was asked for when it can,
    and panics at the end. *)
Definition surplus : user_reader (list N) := {|
  u_read := fun s n => if nlen s <? n then ([], Throws, s) else (low (take n s), Returns (if n =? 1 then 1 else n + 5), drop n s);
  u_read_exact := fun s n => if nlen s <? n then ([], Throws, s) else (low (take n s), Returns 0, drop n s) |}.
Lemma surplus_ok : writes_octets surplus /\ fills surplus.
Proof.
  split.
  - intros s n. cbn. destruct (nlen s <? n); split; try apply low_ok; constructor.
  - assert (X : forall s n, (nlen s <? n) = false -> n <= nlen (low (take n s))).
    { intros s n H. unfold low. rewrite nlen_map, nlen_take. apply N.ltb_ge in H. now rewrite N.min_l. }
    intros s n. cbn. destruct (nlen s <? n) eqn:E; split; try discriminate; intros got k s' [= <- <- <-]; specialize (X s n E); [|exact X].
    eapply N.le_trans; [apply N.le_min_r | exact X].
Qed.
Example C91_ex : exists al, good_allocator al /\
  (match u_Der_parse LE al surplus 5 (4 :: 40 :: repeat 7 40 ++ [1]) [] with Ends (Ok b) [1] h => L_slice LE b h = Done (4 :: 40 :: repeat 7 40) h | _ => False end) /\
  (match rel_Ber_parse (released UE ue_ops) al surplus 9 ([0x24; 0x80; 4; 2; 260; 7; 0; 0; 9]) [] with
   | Ends (Ok b) [9] h => L_slice UE b h = Done [0x24; 0x80; 4; 2; 4; 7; 0; 0] h | _ => False end) /\
  u_Ber_parse LE al surplus 9 [4; 2; 1] [] = Ends Panic [1] [].
Proof. exists bump. split; [exact bump_good|]. vm_compute. repeat split; reflexivity. Qed.

(** A reader that reports what it has not written, all of it safe code, gives a value of octets that nobody
    wrote: what the allocator left there.  So the value depends on more than the reader. *)
Definition bump_zero : allocator := {| al_pick := al_pick bump; al_junk := fun _ _ _ => 0 |}.
Lemma bump_zero_good : good_allocator bump_zero.
Proof. exact bump_good. Qed.
Theorem C91_any_refuted : exists (R : user_reader (list N)) s fuel, writes_octets R /\
  forall L ops Rp, profiles L ops Rp ->
  ~ (exists r s1, forall al h0, good_allocator al -> settled L al r s1 (u_Der_parse L al R fuel s h0)) /\
  ~ (exists r s1, forall al h0, good_allocator al -> settled L al r s1 (u_Ber_parse L al R fuel s h0)).
Proof.
  exists idle, [4; 40], 5%nat. split; [exact idle_ok|]. intros L ops Rp []; (split; intros (r & s1 & K);
    pose proof (K bump [] bump_good) as K1; pose proof (K bump_zero [] bump_zero_good) as K2; clear K; vm_compute in K1, K2;
    destruct K1 as (_ & K1), K2 as (_ & K2); destruct r as [bs|e| |]; try contradiction; injection K1 as <-; discriminate).
Qed.
Print Assumptions C91_any_refuted.
