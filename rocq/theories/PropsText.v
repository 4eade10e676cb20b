(** C76: what errors print. *)
From Coq Require Import String Ascii.
From Verif Require Import Base ModelError ModelIo ModelTag ModelContents ModelBuf ModelTlv ModelSerde ModelAttr ModelDerive ModelText.
From Verif Require Import Spec SpecIo SpecSerde SpecAttr SpecDerive SpecColl SpecFail SpecText.
From Verif Require Import PropsError PropsDerive PropsFail TextProofs.
Open Scope string_scope.
Open Scope N_scope.

Section C76.
Context (io_text : io_kind -> string) (foreign_text : N -> string).
Context (field_text try_text : N -> string) (container_text : string).
Local Notation shown := (display io_text foreign_text field_text try_text container_text).
Local Notation shown_all := (display_alternate io_text foreign_text field_text try_text container_text).
Local Notation context_shown := (context_text field_text try_text container_text).

(** Plain errors print the same exactly if they are equal; comparing agrees with it. *)
Lemma plain_texts e e' : plain e -> plain e' -> (shown e = shown e' <-> e = e').
Proof.
  intros P P'. split; [|now intros ->].
  destruct e, P; destruct e', P'; cbn [display]; try reflexivity; intros H; discriminate H.
Qed.
(** Wrapping puts a text in front; [{}] prints the outermost text only. *)
Lemma wrapped_texts e cs : shown_all (wrapped e cs) = trail (map context_shown (rev cs)) (shown_all e) /\
  shown (wrapped e cs) = hd (shown e) (map context_shown (rev cs)).
Proof.
  induction cs as [|c cs [IH _]] using rev_ind; [split; reflexivity|].
  assert (Ew : wrapped e (cs ++ [c]) = Error_context c (wrapped e cs)) by (unfold wrapped; now rewrite fold_left_app).
  rewrite Ew, rev_app_distr. cbn [rev app map trail hd]. rewrite alt_context, IH. split; reflexivity.
Qed.
End C76.

(** A plain error prints a text of its own. *)
Theorem C76_plain : forall io fo fi tr co e e', plain e -> plain e' ->
  (display io fo fi tr co e = display io fo fi tr co e' <-> Error_eqb e e' = true).
Proof. intros. rewrite plain_texts by assumption. rewrite C37_error_eq. tauto. Qed.
Print Assumptions C76_plain.
(** It is the published one, with and without [#]. *)
Theorem C76_published : forall io fo fi tr co e, plain e -> exists t, In (e, t) published /\
  display io fo fi tr co e = t /\ display_alternate io fo fi tr co e = t.
Proof.
  intros io fo fi tr co e P. exists (display io fo fi tr co e).
  destruct e, P; (split; [cbn [published In display]; tauto | split; reflexivity]).
Qed.
Print Assumptions C76_published.
Example C76_published_ex : plain InvalidUtf8 /\ In (InvalidUtf8, "Invalid as UTF-8."%string) published.
Proof. split; [exact I | cbn; tauto]. Qed.
(** Errors that compare equal print the same. *)
Theorem C76_equal : forall io fo fi tr co e e', Error_eqb e e' = true ->
  display io fo fi tr co e = display io fo fi tr co e' /\ display_alternate io fo fi tr co e = display_alternate io fo fi tr co e'.
Proof. intros io fo fi tr co e e' H. apply C37_error_eq in H as [-> _]. auto. Qed.
Print Assumptions C76_equal.
(** An error with contexts prints the outermost one; with [#], all of them and the error. *)
Theorem C76_context : forall io fo fi tr co e cs,
  display_alternate io fo fi tr co (wrapped e cs) = trail (map (context_text fi tr co) (rev cs)) (display_alternate io fo fi tr co e) /\
  display io fo fi tr co (wrapped e cs) = hd (display io fo fi tr co e) (map (context_text fi tr co) (rev cs)).
Proof. exact wrapped_texts. Qed.
Print Assumptions C76_context.
(** With [#] is printed what is printed without, and more only if there is a chain. *)
Theorem C76_alternate : forall io fo fi tr co e, exists r,
  display_alternate io fo fi tr co e = (display io fo fi tr co e ++ r)%string /\ ((forall a, e <> Anyhow a) -> r = ""%string).
Proof. exact alt_starts. Qed.
Print Assumptions C76_alternate.
(** Errors of others print as they do themselves, and an error in [Anyhow] without context as it does outside. *)
Theorem C76_others : forall io fo fi tr co k f c e,
  display io fo fi tr co (Io k) = io k /\ display_alternate io fo fi tr co (Io k) = io k /\ display io fo fi tr co (Anyhow (AnForeign (FLeaf c))) = fo c /\
  display io fo fi tr co (Anyhow (AnForeign (FOver c f))) = fo c /\
  display io fo fi tr co (Anyhow (AnForeign (FLib c e))) = fo c /\
  display io fo fi tr co (Anyhow (AnNew e)) = display io fo fi tr co e.
Proof. intros. repeat split. Qed.
Print Assumptions C76_others.
Example C76_others_ex : forall io fo fi tr co, display io fo fi tr co (Anyhow (AnNew (Io UnexpectedEof))) = io UnexpectedEof.
Proof. intros. now destruct (C76_others io fo fi tr co UnexpectedEof (FLeaf 0) 0 (Io UnexpectedEof)) as (H & _ & _ & _ & _ & ->). Qed.
(** Different contexts have different texts, so numbers stand for texts. *)
Theorem C76_numbers : forall fi tr co c c', proper_names fi -> library_context c -> library_context c' ->
  (context_text fi tr co c = context_text fi tr co c' <-> c = c').
Proof. intros fi tr co c c' P L L'. split; [now apply context_inj | now intros ->]. Qed.
Print Assumptions C76_numbers.

Definition ex_fields (n : N) : string := ("T." ++ decimal n)%string.
Lemma ex_fields_proper : proper_names ex_fields.
Proof.
  split.
  - intros n m H. unfold ex_fields in H. apply sapp_inv_l in H. now apply decimal_inj.
  - intros n H. apply occurs_app in H as [H|H]; [cbn in H; intuition discriminate|]. revert H.
    unfold decimal. destruct (N.to_uint n); [cbn; intuition discriminate|..]; cbn; (intros [H|H]; [discriminate|]); revert H;
      (induction u; cbn; [tauto|..]; (intros [H|H]; [discriminate|auto])).
Qed.
Example C76_ex : let io := fun _ => "io"%string in let fo := fun _ => "foreign"%string in let tr := fun _ => "i32"%string in
  proper_names ex_fields /\ library_context (ctx 1 120) /\ library_context (field_ctx 4 6) /\ plain OverFlow /\ plain UnmatchedId /\
  display io fo ex_fields tr "U" (wrapped OverFlow [field_ctx 4 6; ctx 1 120]) = "Failed to deserialize DER into element at index 120"%string /\
  display_alternate io fo ex_fields tr "U" (wrapped OverFlow [field_ctx 4 6; ctx 1 120]) =
    "Failed to deserialize DER into element at index 120: Failed to convert `i32` into `T.6`: Over flow is occurred to parse bytes as a number."%string.
Proof.
  repeat split; try (apply ex_fields_proper); try (vm_compute; reflexivity).
  - left. now exists 1, 120.
  - right. left. now exists 4, 6.
Qed.

(** ** Errors of decoding *)
(** The elements of a sequence or set: the text tells the index of the element. *)
Definition element_text (what : string) (i : N) (inner : string) : string := (what ++ decimal i ++ ": " ++ inner)%string.
Theorem C76_elements : forall io fo fi tr co E T (D : deserialize T) cmp eqb,
  let shown := display_alternate io fo fi tr co in
  let seq ID (DC : deserialize (list T)) :=
    (forall c e, bytes_ok c -> from_der DC ID c = Err e -> exists bs xs bad e0,
       c = (concat bs ++ bad)%list /\ Forall2 (der_item D) bs xs /\
       ((der_error bad e0 /\ shown e = element_text "Failed to parse DER at index " (nlen bs) (shown e0)) \/
        (exists b rest, bad = (b ++ rest)%list /\ der_is_value b /\ serde_from_der D b = Err e0 /\
           shown e = element_text "Failed to deserialize DER into element at index " (nlen bs) (shown e0)))) /\
    (forall c e, bytes_ok c -> from_ber DC ID (Definite (nlen c)) c = Err e -> exists bs xs bad e0,
       c = (concat bs ++ bad)%list /\ Forall2 (ber_item D) bs xs /\
       ((ber_error bad e0 /\ shown e = element_text "Failed to parse BER at index " (nlen bs) (shown e0)) \/
        (exists b rest, bad = (b ++ rest)%list /\ ber_value b /\ serde_from_ber D b = Err e0 /\
           shown e = element_text "Failed to deserialize BER into element at index " (nlen bs) (shown e0)))) in
  seq [0x30] (de_vec E D) /\ seq [0x30] (de_linked_list E D) /\ seq [0x30] (de_vec_deque E D) /\
  seq [0x30] (de_btree_set E cmp D) /\ seq [0x31] (de_hash_set E eqb D).
Proof.
  intros io fo fi tr co E T D cmp eqb shown seq.
  assert (forall m i e0, m < 4 -> shown (Error_context (ctx m i) e0) = element_text (match m with 0 => "Failed to parse DER at index " | 1 => "Failed to deserialize DER into element at index " | 2 => "Failed to parse BER at index " | _ => "Failed to deserialize BER into element at index " end) i (shown e0)) as TX.
  { intros m i e0 H. unfold shown, element_text. rewrite alt_context, context_helper by lia.
    assert (m = 0 \/ m = 1 \/ m = 2 \/ m = 3) as [->|[->|[->| ->]]] by lia; cbn [helper_text]; now rewrite sapp_assoc. }
  assert (forall ID DC,
    (forall id c e, bytes_ok c -> (from_der DC id c = Err e <->
       (id <> ID /\ e = UnmatchedId) \/ (id = ID /\ items_stop (der_item D) (der_stops D) c e))) /\
    (forall id l c e, bytes_ok c -> right_length l c -> (from_ber DC id l c = Err e <->
       (id <> ID /\ e = UnmatchedId) \/ (id = ID /\ length_stop (items_stop (ber_item D) (ber_stops D)) l c e))) -> seq ID DC) as X.
  { intros ID DC [A B]. split.
    - intros c e Hc H. apply A in H as [[H _]|[_ (bs & xs & bad & Hb & _ & F & [(e0 & N & ->)|(b & rest & Hr & V & [(e0 & N & ->)|(u & err & _ & N & _)])])]]; auto; try (now elim H); try discriminate N.
      + exists bs, xs, bad, e0. split; [exact Hb|]. split; [exact F|]. left. split; [exact N|]. now rewrite TX by lia.
      + exists bs, xs, bad, e0. split; [exact Hb|]. split; [exact F|]. right. exists b, rest. repeat split; auto. now rewrite TX by lia.
    - intros c e Hc H. apply B in H as [[H _]|[_ (bs & xs & bad & Hb & _ & F & [(e0 & N & ->)|(b & rest & Hr & V & [(e0 & N & ->)|(u & err & _ & N & _)])])]]; auto; try (now elim H); try discriminate N; try reflexivity.
      + exists bs, xs, bad, e0. split; [exact Hb|]. split; [exact F|]. left. split; [exact N|]. now rewrite TX by lia.
      + exists bs, xs, bad, e0. split; [exact Hb|]. split; [exact F|]. right. exists b, rest. repeat split; auto. now rewrite TX by lia. }
  destruct (C65_elements E T D cmp eqb) as (A1 & A2 & A3 & A4 & A5). repeat apply conj; now apply X.
Qed.
Print Assumptions C76_elements.
(** The entries of a map: the text tells the index of the entry. *)
Theorem C76_entries : forall io fo fi tr co E K V (DK : deserialize K) (DV : deserialize V) cmp eqb,
  let shown := display_alternate io fo fi tr co in
  let map ID (DC : deserialize (list (K * V))) :=
    (forall c e, bytes_ok c -> from_der DC ID c = Err e -> exists bs xs bad e0 before after,
       c = (concat bs ++ bad)%list /\ Forall2 (der_entry DK DV) bs xs /\
       shown e = (before ++ " at index " ++ decimal (nlen bs) ++ after ++ ": " ++ shown e0)%string /\
       In (before, after) [("Failed to parse DER of the key-value pair", ""); ("The id of key-value pair", " is not SEQUENCE");
         ("Failed to parse DER of the key", ""); ("Failed to parse DER of the value", "");
         ("Failed to deserialize DER into the key", ""); ("Failed to deserialize DER into the value", "");
         ("The key-value pair", " includes (an) extra octet(s)")]%string) /\
    (forall c e, bytes_ok c -> from_ber DC ID (Definite (nlen c)) c = Err e -> exists bs xs bad e0 before after,
       c = (concat bs ++ bad)%list /\ Forall2 (ber_entry DK DV) bs xs /\
       shown e = (before ++ " at index " ++ decimal (nlen bs) ++ after ++ ": " ++ shown e0)%string /\
       In (before, after) [("Failed to parse BER of the key-value pair", ""); ("The id of key-value pair", " is not SEQUENCE");
         ("Failed to parse BER of the key", ""); ("Failed to parse BER of the value", "");
         ("Failed to deserialize BER into the key", ""); ("Failed to deserialize BER into the value", "");
         ("The key-value pair", " includes (an) extra octet(s)")]%string) in
  map [0x30] (de_btree_map E cmp DK DV) /\ map [0x31] (de_hash_map E eqb DK DV).
Proof.
  intros io fo fi tr co E K V DK DV cmp eqb shown map.
  assert (forall m i e0, m < 16 -> shown (Error_context (ctx m i) e0) = (helper_text m i ++ ": " ++ shown e0)%string) as TX.
  { intros m i e0 H. unfold shown. now rewrite alt_context, context_helper by lia. }
  assert (forall m before after i e0, m < 16 ->
    helper_text m i = (before ++ " at index " ++ decimal i ++ after)%string ->
    shown (Error_context (ctx m i) e0) = (before ++ " at index " ++ decimal i ++ after ++ ": " ++ shown e0)%string) as TY.
  { intros m before after i e0 Hm Ht. rewrite TX by assumption. now rewrite Ht, !sapp_assoc. }
  clear TX. rename TY into TX.
  assert (forall ID DC,
    (forall id c e, bytes_ok c -> (from_der DC id c = Err e <->
       (id <> ID /\ e = UnmatchedId) \/ (id = ID /\ items_stop (der_entry DK DV) (der_entry_stops DK DV) c e))) /\
    (forall id l c e, bytes_ok c -> right_length l c -> (from_ber DC id l c = Err e <->
       (id <> ID /\ e = UnmatchedId) \/ (id = ID /\ length_stop (items_stop (ber_entry DK DV) (ber_entry_stops DK DV)) l c e))) -> map ID DC) as X.
  { intros ID DC [A B]. split.
    - intros c e Hc H. apply A in H as [[H _]|[_ (bs & xs & bad & Hb & _ & F & S)]]; auto; [now elim H|].
      exists bs, xs, bad.
      destruct S as [(e0 & _ & ->)|[(b & rest & _ & _ & _ & ->)|(b & rest & p & _ & _ & _ & [(e0 & _ & ->)|(kb & q & _ & _ & [(e0 & _ & ->)|[(vb & x & _ & _ & _ & ->)|(_ & [(e0 & _ & ->)|(k & e0 & _ & _ & ->)])]])])]].
      + exists e0, "Failed to parse DER of the key-value pair"%string, ""%string. split; [exact Hb|]. split; [exact F|]. split; [apply TX; [lia|]; cbn [helper_text append]; rewrite ?sapp_nil; reflexivity | cbn [In]; tauto].
      + exists InvalidKeyValuePair, "The id of key-value pair"%string, " is not SEQUENCE"%string. split; [exact Hb|]. split; [exact F|]. split; [apply TX; [lia|]; cbn [helper_text append]; rewrite ?sapp_nil; reflexivity | cbn [In]; tauto].
      + exists e0, "Failed to parse DER of the key"%string, ""%string. split; [exact Hb|]. split; [exact F|]. split; [apply TX; [lia|]; cbn [helper_text append]; rewrite ?sapp_nil; reflexivity | cbn [In]; tauto].
      + exists e0, "Failed to parse DER of the value"%string, ""%string. split; [exact Hb|]. split; [exact F|]. split; [apply TX; [lia|]; cbn [helper_text append]; rewrite ?sapp_nil; reflexivity | cbn [In]; tauto].
      + exists InvalidKeyValuePair, "The key-value pair"%string, " includes (an) extra octet(s)"%string. split; [exact Hb|]. split; [exact F|]. split; [apply TX; [lia|]; cbn [helper_text append]; rewrite ?sapp_nil; reflexivity | cbn [In]; tauto].
      + exists e0, "Failed to deserialize DER into the key"%string, ""%string. split; [exact Hb|]. split; [exact F|]. split; [apply TX; [lia|]; cbn [helper_text append]; rewrite ?sapp_nil; reflexivity | cbn [In]; tauto].
      + exists e0, "Failed to deserialize DER into the value"%string, ""%string. split; [exact Hb|]. split; [exact F|]. split; [apply TX; [lia|]; cbn [helper_text append]; rewrite ?sapp_nil; reflexivity | cbn [In]; tauto].
    - intros c e Hc H. apply B in H as [[H _]|[_ (bs & xs & bad & Hb & _ & F & S)]]; auto; [now elim H| |reflexivity].
      exists bs, xs, bad.
      destruct S as [(e0 & _ & ->)|[(b & rest & _ & _ & _ & ->)|(b & rest & p & _ & _ & _ & [(e0 & _ & ->)|(kb & q & _ & _ & [(e0 & _ & ->)|[(vb & x & _ & _ & _ & ->)|(_ & [(e0 & _ & ->)|(k & e0 & _ & _ & ->)])]])])]].
      + exists e0, "Failed to parse BER of the key-value pair"%string, ""%string. split; [exact Hb|]. split; [exact F|]. split; [apply TX; [lia|]; cbn [helper_text append]; rewrite ?sapp_nil; reflexivity | cbn [In]; tauto].
      + exists InvalidKeyValuePair, "The id of key-value pair"%string, " is not SEQUENCE"%string. split; [exact Hb|]. split; [exact F|]. split; [apply TX; [lia|]; cbn [helper_text append]; rewrite ?sapp_nil; reflexivity | cbn [In]; tauto].
      + exists e0, "Failed to parse BER of the key"%string, ""%string. split; [exact Hb|]. split; [exact F|]. split; [apply TX; [lia|]; cbn [helper_text append]; rewrite ?sapp_nil; reflexivity | cbn [In]; tauto].
      + exists e0, "Failed to parse BER of the value"%string, ""%string. split; [exact Hb|]. split; [exact F|]. split; [apply TX; [lia|]; cbn [helper_text append]; rewrite ?sapp_nil; reflexivity | cbn [In]; tauto].
      + exists InvalidKeyValuePair, "The key-value pair"%string, " includes (an) extra octet(s)"%string. split; [exact Hb|]. split; [exact F|]. split; [apply TX; [lia|]; cbn [helper_text append]; rewrite ?sapp_nil; reflexivity | cbn [In]; tauto].
      + exists e0, "Failed to deserialize BER into the key"%string, ""%string. split; [exact Hb|]. split; [exact F|]. split; [apply TX; [lia|]; cbn [helper_text append]; rewrite ?sapp_nil; reflexivity | cbn [In]; tauto].
      + exists e0, "Failed to deserialize BER into the value"%string, ""%string. split; [exact Hb|]. split; [exact F|]. split; [apply TX; [lia|]; cbn [helper_text append]; rewrite ?sapp_nil; reflexivity | cbn [In]; tauto]. }
  destruct (C65_entries E K V DK DV cmp eqb) as (A1 & A2). split; now apply X.
Qed.
Print Assumptions C76_entries.
(** The fields of a struct: the text tells which field, or that there are octets left. *)
Theorem C76_fields : forall io fo fi tr co T (f : field T) c e,
  let shown := display_alternate io fo fi tr co in let n := n_field (f_names f) in
  (der_field_stops f c e -> exists e0,
     (der_error c e0 /\ shown e = ("Failed to parse DER for `" ++ fi n ++ "`: " ++ shown e0)%string) \/
     shown e = ("Failed to deserialize DER into `" ++ fi n ++ "`: " ++ shown e0)%string \/
     shown e = ("Failed to convert `" ++ tr n ++ "` into `" ++ fi n ++ "`: " ++ shown e0)%string) /\
  (ber_field_stops f c e -> exists e0,
     (ber_error c e0 /\ shown e = ("Failed to parse BER for `" ++ fi n ++ "`: " ++ shown e0)%string) \/
     shown e = ("Failed to deserialize BER into `" ++ fi n ++ "`: " ++ shown e0)%string \/
     shown e = ("Failed to convert `" ++ tr n ++ "` into `" ++ fi n ++ "`: " ++ shown e0)%string).
Proof.
  intros io fo fi tr co T f c e shown n.
  assert (forall k e0, k < 5 -> shown (Error_context (field_ctx k n) e0) = (derive_text fi tr co k n ++ ": " ++ shown e0)%string) as TX.
  { intros k e0 H. unfold shown. rewrite alt_context, context_derive by lia. reflexivity. }
  split; (intros [(e0 & N & ->)|(b & rest & Hr & V & [(e0 & N & ->)|(u & err & _ & N & ->)])]; [exists e0; left; split; [exact N|] | exists e0; right; left | exists (Anyhow err); right; right]);
    fold n; rewrite TX by lia; cbn [derive_text]; rewrite ?sapp_assoc; reflexivity.
Qed.
Print Assumptions C76_fields.
Example C76_elements_ex : let E := ex_env true in let io := fun _ => "io"%string in let fo := fun _ => "odd"%string in
  match serde_from_der (de_vec E (de_vec E (de_bool E))) [0x30; 8; 0x30; 0; 0x30; 4; 1; 1; 0; 1] with
  | Err e => display_alternate io fo ex_fields ex_fields "U" e
  | _ => ""%string
  end = "Failed to deserialize DER into element at index 1: Failed to parse DER at index 1: The bytes finish before the last octet."%string.
Proof. vm_compute. reflexivity. Qed.
Example C76_entries_ex : let E := ex_env true in let io := fun _ => "io"%string in let fo := fun _ => "odd"%string in
  match serde_from_ber (de_btree_map E Z.compare (de_int E I32) (de_bool E)) [0x30; 14; 0x30; 6; 2; 1; 7; 1; 1; 9; 0x31; 4; 2; 1; 0; 1] with
  | Err e => display_alternate io fo ex_fields ex_fields "U" e
  | _ => ""%string
  end = "The id of key-value pair at index 1 is not SEQUENCE: SEQUENCE of key-value pair is required."%string.
Proof. vm_compute. reflexivity. Qed.

(** ** Debug *)
(** [{:?}] tells the type and the octets; of a Length, the value. *)
Theorem C76_debug : forall h bs h' bs', debug h bs = debug h' bs' <-> h = h' /\ bs = bs'.
Proof. intros. split; [apply debug_inj | now intros [-> ->]]. Qed.
Print Assumptions C76_debug.
Theorem C76_debug_length : forall l l', debug_length l = debug_length l' <-> l = l'.
Proof. intros. split; [apply debug_length_inj | now intros ->]. Qed.
Print Assumptions C76_debug_length.
Example C76_debug_ex : debug HDer [1; 1; 0xff] = "Der { buffer: Buffer([1, 1, 255]) }"%string /\ debug HIdRef [] = "IdRef { bytes: [] }"%string /\
  debug_length (Definite 10) = "Definite(10)"%string.
Proof. repeat split; vm_compute; reflexivity. Qed.
