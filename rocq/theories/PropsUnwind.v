(** C72: panics of the user's code while a function owns a buffer. *)
From Verif Require Import Base ModelIo ModelTag ModelContents ModelBuf ModelTlv ModelHeap ModelBufLE ModelBufUE ModelTlvRaw ModelUnwind
  Spec SpecIo SpecBuf SpecTlv SpecUnwind BufProofs RawProofs RawMain RawTlv RawStream UnwindProofs PropsBuf.

(** Both layouts, with what represents a buffer in them. *)
Inductive layouts : forall L, (L_raw L -> heap -> buf -> option N -> Prop) -> Prop :=
| in_le : layouts LE (Rep LE le_view)
| in_ue : layouts UE (Rep UE ue_view).
Lemma layouts_facts al L Rp : good_allocator al -> layouts L Rp ->
  buffer_refines L al Rp /\
  (forall r h b own k, Rp r h b own -> isize_max < b_len b + k -> L_reserve L al k r h = Crash \/ L_reserve L al k r h = UB) /\
  (forall n h, isize_max < n -> L_with_capacity L al n h = Crash).
Proof.
  intros G [].
  - pose proof (C19_refines al G) as BR. split; [exact BR|]. split; [now apply le_big | now apply le_cap_big].
  - pose proof (C20_refines al G) as BR. split; [exact BR|]. split; [now apply ue_big | now apply ue_cap_big].
Qed.

(** ** parse *)
(** Whatever safe code the reader is made of, panics included: parse returns a value or leaves
    the memory as it was. *)
Theorem C72_der_parse : forall L Rp al S (R : user_reader S) fuel s h0, layouts L Rp -> good_allocator al -> writes_octets R ->
  cleans_up L al h0 (u_Der_parse L al R fuel s h0).
Proof. intros L Rp al S R fuel s h0 HL G W. destruct (layouts_facts al L Rp G HL) as (BR & big & _). exact (der_parse_cleans L al Rp BR big R fuel s h0 W). Qed.
Print Assumptions C72_der_parse.
Theorem C72_ber_parse : forall L Rp al S (R : user_reader S) fuel s h0, layouts L Rp -> good_allocator al -> writes_octets R ->
  cleans_up L al h0 (u_Ber_parse L al R fuel s h0).
Proof. intros L Rp al S R fuel s h0 HL G W. destruct (layouts_facts al L Rp G HL) as (BR & big & _). exact (ber_parse_cleans L al Rp BR big R fuel s h0 W). Qed.
Print Assumptions C72_ber_parse.
(** With the readers of C31 and C52 they end as the parsers on octets do, and clean up. *)
Theorem C72_der_parse_ends : forall L Rp al S (R : reader S) content fuel s h0, layouts L Rp -> good_allocator al -> honest R content ->
  bytes_ok (content s) -> nlen (content s) <= isize_max -> ends_as L al h0 (Der_parse R fuel s) (u_Der_parse L al (user_of R fuel) fuel s h0).
Proof. intros L Rp al S R content fuel s h0 HL G HR. destruct (layouts_facts al L Rp G HL) as (BR & big & _). now apply (der_parse_ends L al Rp BR big R content HR). Qed.
Print Assumptions C72_der_parse_ends.
Theorem C72_ber_parse_ends : forall L Rp al S (R : reader S) content fuel s h0, layouts L Rp -> good_allocator al -> honest R content ->
  bytes_ok (content s) -> nlen (content s) <= isize_max -> ends_as L al h0 (Ber_parse R fuel s) (u_Ber_parse L al (user_of R fuel) fuel s h0).
Proof. intros L Rp al S R content fuel s h0 HL G HR. destruct (layouts_facts al L Rp G HL) as (BR & big & _). now apply (ber_parse_ends L al Rp BR big R content HR). Qed.
Print Assumptions C72_ber_parse_ends.

(** A reader over [ts]: it serves the octets one call after another and panics at the end; what it
    has read of the call in which it panics it has written. *)
Definition bomb : user_reader (list N) := {|
  u_read := fun s n => (take n s, if nlen s <? n then Throws else Returns n, drop n s);
  u_read_exact := fun s n => (take n s, if nlen s <? n then Throws else Returns n, drop n s) |}.
(** The contents go to the heap and the reader panics while they are read; then one that panics
    in the header; then a reader that reports more than it was asked for. *)
Definition liar : user_reader (list N) := {|
  u_read := fun s n => (take n s, if n =? 1 then Returns 1 else Returns (n + 5), drop n s);
  u_read_exact := fun s n => ([], Returns 0, s) |}.
Example C72_ex_parse :
  let stream := 4 :: 40 :: repeat 7 20 in
  (exists al, good_allocator al /\
   (match u_Der_body LE al bomb 5 stream (L_new LE) [] with Run Panic _ _ h => 0 <? nlen h = true | _ => False end) /\
   u_Der_parse LE al bomb 5 stream [] = Ends Panic [] [] /\
   u_Der_parse UE al bomb 5 stream [] = Ends Panic [] [] /\
   u_Ber_parse LE al bomb 5 (0x24 :: 0x80 :: stream) [] = Ends Panic [] [] /\
   u_Ber_parse UE al bomb 5 (0x24 :: 0x80 :: stream) [] = Ends Panic [] [] /\
   u_Ber_parse LE al bomb 5 [0x1f; 0x81] [] = Ends Panic [] [] /\
   (match u_Der_parse LE al liar 5 stream [] with Ends (Ok _) [] [_] => True | _ => False end) /\
   (match u_Ber_parse LE al liar 5 stream [] with Ends (Ok _) _ [_] => True | _ => False end)).
Proof. exists bump. split; [exact bump_good|]. vm_compute. repeat split; reflexivity. Qed.

(** ** from_id_iterator *)
(** The iterator may panic in either pass, and when it is cloned.  [lb] is the length part of the
    header: [Length_to_bytes (Definite n)] or [0x80]. *)
Theorem C72_iterator : forall L Rp al S id lb counted items (s : S) h0, layouts L Rp -> good_allocator al ->
  bytes_ok id -> Forall bytes_ok (p_items items) -> (forall n, n < usize_limit -> bytes_ok (lb n)) ->
  nlen (concat (p_items items)) <= nlen (concat (p_items counted)) ->
  let n := nlen (concat (p_items counted)) in
  match u_from_iterator L al id lb counted items s h0 with
  | Ends (Ok b) s' h => s' = s /\ p_throws counted = false /\ p_throws items = false /\ new_value L h0 b (id ++ lb n ++ concat (p_items items)) h
  | Ends Panic s' h => s' = s /\ untouched h0 h /\ (p_throws counted = true \/ p_throws items = true \/ isize_max < nlen id + nlen (lb n) + n)
  | Ends _ _ _ => False
  | EAbort => out_of_memory al
  | EOversize | EUB => False
  end.
Proof. intros L Rp al S id lb counted items s h0 HL G. destruct (layouts_facts al L Rp G HL) as (BR & big & cb). exact (iterator_ends L al Rp BR big cb id lb counted items s h0). Qed.
Print Assumptions C72_iterator.
Example C72_ex_iterator :
  let items := [repeat 1 20; repeat 2 20] in
  let lb n := Length_to_bytes (Definite n) in
  (exists al, good_allocator al /\
   u_from_iterator LE al [4] lb {| p_items := items; p_throws := false |} {| p_items := [repeat 1 20]; p_throws := true |} tt [] = Ends Panic tt [] /\
   u_from_iterator UE al [4] lb {| p_items := items; p_throws := false |} {| p_items := [repeat 1 20]; p_throws := true |} tt [] = Ends Panic tt [] /\
   u_from_iterator LE al [4] lb {| p_items := [[1]]; p_throws := true |} {| p_items := items; p_throws := false |} tt [] = Ends Panic tt [] /\
   (match u_from_iterator LE al [4] lb {| p_items := items; p_throws := false |} {| p_items := items; p_throws := false |} tt [] with Ends (Ok _) tt [_] => True | _ => False end)).
Proof. exists bump. split; [exact bump_good|]. vm_compute. repeat split; reflexivity. Qed.

(** ** extend_from_slice *)
(** When it panics the value is the one it was, in the memory it was. *)
Theorem C72_der_extend : forall L Rp al S bytes (s : S) b h bf own id c, layouts L Rp -> good_allocator al ->
  Rp b h bf own -> is_identifier id -> bytes_ok bytes -> bytes_ok c ->
  holds bf (id ++ Length_to_bytes (Definite (nlen c)) ++ c) ->
  extends L al Rp b h own (id ++ Length_to_bytes (Definite (nlen (c ++ bytes))) ++ c ++ bytes) s (u_Der_extend L al bytes s b h).
Proof. intros L Rp al S bytes s b h bf own id c HL G. destruct (layouts_facts al L Rp G HL) as (BR & big & _). exact (der_extend_ends L al Rp BR big bytes s b h bf own id c). Qed.
Print Assumptions C72_der_extend.
Theorem C72_ber_extend : forall L Rp al S bytes (s : S) b h bf own id c, layouts L Rp -> good_allocator al ->
  Rp b h bf own -> is_identifier id -> bytes_ok bytes -> bytes_ok c ->
  (holds bf (id ++ Length_to_bytes (Definite (nlen c)) ++ c) ->
   extends L al Rp b h own (id ++ Length_to_bytes (Definite (nlen (c ++ bytes))) ++ c ++ bytes) s (u_Ber_extend L al bytes s b h)) /\
  (holds bf (id ++ 0x80 :: c) ->
   extends L al Rp b h own (id ++ 0x80 :: c ++ bytes) s (u_Ber_extend L al bytes s b h)).
Proof. intros L Rp al S bytes s b h bf own id c HL G. destruct (layouts_facts al L Rp G HL) as (BR & big & _). exact (ber_extend_ends L al Rp BR big bytes s b h bf own id c). Qed.
Print Assumptions C72_ber_extend.
(** A value on the heap, extended. *)
Example C72_ex_extend :
  exists al b h bf own, good_allocator al /\ Rep LE le_view b h bf own /\
    holds bf ([4] ++ Length_to_bytes (Definite (nlen (repeat 7 30))) ++ repeat 7 30) /\ own <> None /\
    (match u_Der_extend LE al [1; 2; 3] tt b h with
     | Run (Ok _) _ b' h' => L_slice LE b' h' = Done (4 :: 33 :: repeat 7 30 ++ [1; 2; 3]) h' | _ => False end).
Proof.
  pose proof (create_result LE bump (Rep LE le_view) _ _ [] (4 :: 30 :: repeat 7 30)
    (sim_from_slice LE bump (Rep LE le_view) (C19_refines bump bump_good) (4 :: 30 :: repeat 7 30) ltac:(repeat constructor))) as K.
  assert (X : forall cfg, exists b, bf_from_slice cfg (4 :: 30 :: repeat 7 30) = Ok b /\ holds b (4 :: 30 :: repeat 7 30)).
  { intros cfg. unfold bf_from_slice, bf_with_capacity.
    destruct (reserve_ok cfg (nlen (4 :: 30 :: repeat 7 30)) (bf_new cfg) [] (holds_new _)) as (b1 & s1 & -> & M1 & L1 & K1 & O1); [discriminate|].
    cbn [rbind]. destruct (extend_ok b1 [] s1 (4 :: 30 :: repeat 7 30) M1 L1 K1 O1) as (b2 & s2 & -> & M2 & L2 & _ & O2).
    exists b2. split; [reflexivity|]. exists s2. auto. }
  specialize (K X). clear X. remember (L_from_slice LE bump (4 :: 30 :: repeat 7 30) []) as x eqn:E. vm_compute in E. subst x. cbn [meets] in K.
  destruct K as (bf & own & R & F & H). eexists bump, _, _, bf, own. split; [exact bump_good|]. split; [exact R|]. split; [exact H|].
  split; [|vm_compute; reflexivity].
  intros ->. destruct F as (F1 & _). specialize (F1 1 ltac:(discriminate) ltac:(discriminate)). vm_compute in F1. discriminate.
Qed.
