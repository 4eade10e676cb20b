(** C70: values a part of which is refused by its Serialize. *)
From Coq Require Import String Ascii.
From Verif Require Import Base ModelError ModelIo ModelTag ModelContents ModelBuf ModelTlv ModelSerde ModelAttr ModelDerive.
From Verif Require Import Spec SpecIo SpecSerde SpecAttr SpecDerive SpecRefuse.
From Verif Require Import TagProofs IdProofs TagMain ContentsProofs TlvProofs BufProofs TlvMain.
From Verif Require Import SerdeOctets SerdeSer SerdeDe SerdeMain AttrProofs AttrParse DeriveProofs DeriveMain PropsDerive RefuseProofs.
Open Scope N_scope.

(** If a part is refused, [to_der] and [to_ber] give the error of such a part, *)
Theorem C70_refused : forall E C S bad v, partly E C S bad -> wf C v -> nlen (der_of C v) <= isize_max ->
  (exists e, bad v e) -> exists e, bad v e /\ to_der E S v = Err e /\ to_ber E S v = Err e.
Proof.
  intros E C S bad v P W L X. pose proof (tlv_contents_le (id_of C v) (contents_of C v)) as T. unfold der_of in L.
  destruct (to_der_tries E S v _ _ _ (partly_refuse E C S bad P v W ltac:(lia)) L) as [(e & H & B)|(b & _ & _ & N)]; [|tauto].
  exists e. auto.
Qed.
Print Assumptions C70_refused.
(** and [write_der] and [write_ber] write no more than a value would have, and then give
    such an error, unless the writer fails before; they never succeed. *)
Theorem C70_written : forall E C S bad v, partly E C S bad -> wf C v -> nlen (contents_of C v) <= isize_max ->
  (exists e, bad v e) ->
  (exists cs e, bad v e /\ nlen (concat cs) <= nlen (der_of C v) /\ forall X (W : writer X) s,
     write_der E S W v s = wbind (write_chunks W cs) (fun _ => wlift (Err e)) s /\
     write_ber E S W v s = wbind (write_chunks W cs) (fun _ => wlift (Err e)) s) /\
  forall X (W : writer X) s, fst (write_der E S W v s) <> Ok tt.
Proof.
  intros E C S bad v P W L X.
  destruct (write_der_fails E S v _ _ _ (partly_refuse E C S bad P v W L) X L) as (cs & e & B & LC & F).
  split; [exists cs, e; auto|]. intros Y U s. rewrite F. unfold wbind, wlift.
  destruct (write_chunks U cs s) as [[]]; discriminate.
Qed.
Print Assumptions C70_written.
(** If none is, the value is serialised as if no part could be refused. *)
Theorem C70_others : forall E C S bad v, partly E C S bad -> wf C v -> nlen (der_of C v) <= isize_max ->
  (forall e, ~ bad v e) ->
  (exists b, to_der E S v = Ok b /\ bf_slice b = der_of C v) /\ emits (fun _ W => write_der E S W v) (der_of C v).
Proof.
  intros E C S bad v P W L X. pose proof (tlv_contents_le (id_of C v) (contents_of C v)) as T. unfold der_of in L.
  pose proof (partly_refuse E C S bad P v W ltac:(lia)) as AT.
  split.
  - destruct (to_der_tries E S v _ _ _ AT L) as [(e & _ & B)|(b & H & O & _)]; [now elim (X e)|].
    exists b. split; [exact H | exact (holds_slice _ _ O)].
  - destruct (write_der_tries E S v _ _ _ AT ltac:(lia)) as [G|(cs & e & B & _)]; [exact G | now elim (X e)].
Qed.
Print Assumptions C70_others.

(** A type that takes even numbers up to 99.  Odd ones are refused after an octet has
    been written, large ones before anything is; of some the length is not announced. *)
Definition picky_codec : codec :=
  {| car := N; wf := fun n => n < 256; same := eq; id_of := fun _ => [2]; contents_of := fun n => [n];
     ber_of := fun n id l c => id = [2] /\ l = Definite 1 /\ c = [n] |}.
Definition picky_bad : refusal N := fun n e => (99 < n /\ e = OverFlow) \/ (n <= 99 /\ N.odd n = true /\ e = RedundantBytes).
Definition picky : serialize N :=
  {| write_id := fun _ W _ => write_all W [2];
     write_der_contents := fun _ W n =>
       if 99 <? n then wlift (Err OverFlow) else
       do! _ := write_all W [n] in if N.odd n then wlift (Err RedundantBytes) else wret tt;
     id_len := fun _ => Ok (Some 1);
     der_contents_len := fun n => if 99 <? n then Err OverFlow else if 50 <? n then Ok None else Ok (Some 1) |}.
Lemma picky_refuses : ser_or_refuse picky_codec picky picky_bad.
Proof.
  assert (forall n, n <= 99 -> N.odd n = true -> fails (fun _ W => do! _ := write_all W [n] in if N.odd n then wlift (Err RedundantBytes) else wret tt) [n] (picky_bad n)) as FO.
  { intros n L O. destruct (emits_write_all [n]) as (cs & Ec & Fc). exists cs, RedundantBytes. split; [right; auto|]. split; [rewrite Ec; lia|].
    intros S W s. apply wbind_ext; [apply Fc|]. intros _ s'. now rewrite O. }
  assert (forall n, 99 < n -> fails (fun S (W : writer S) => wlift (Err OverFlow)) [n] (picky_bad n)) as FL.
  { intros n L. exists [], OverFlow. split; [left; auto|]. split; [cbn [concat]; change (nlen (@nil N)) with 0; lia|]. intros. reflexivity. }
  intros n W _. split; cbn [write_id write_der_contents id_len der_contents_len picky id_of contents_of picky_codec].
  - left. apply emits_write_all.
  - destruct (N.ltb_spec 99 n) as [L|L]; [right; now apply FL|]. destruct (N.odd n) eqn:O; [right; specialize (FO n L O); rewrite O in FO; exact FO|].
    left. change [n] with ([n] ++ []). apply emits_bind; [apply emits_write_all | apply emits_ret].
  - left. now right.
  - destruct (N.ltb_spec 99 n) as [L|L]; [right; exists OverFlow; split; [reflexivity | left; auto]|].
    left. destruct (50 <? n); [now left | now right].
  - intros [e [[L ->]|(L & O & ->)]]; right.
    + destruct (N.ltb_spec 99 n); [now apply FL | lia].
    + destruct (N.ltb_spec 99 n); [lia | now apply FO].
Qed.
(** [struct Pair { #[bsn1_serde(skip)] note: Picky, #[bsn1_serde(into = ..)] items: Vec<Picky>, map: BTreeMap<Picky, bool> }] *)
Definition into_ : list syn_attribute := [Some (arg_num "into" (quoted "Vec"))].
Definition Pair : list Type := [N : Type; list N : Type; list (N * bool) : Type].
Definition no_de {T} : deserialize T := {| from_ber := fun _ _ _ => Panic; from_der := fun _ _ => Panic |}.
Definition pair_decls E : hlist field_decl Pair :=
  ({| fd_attrs := skip; fd_names := named picky no_de 0 1 |},
   ({| fd_attrs := into_; fd_names := named (ser_vec E picky) no_de [] 2 |},
    ({| fd_attrs := []; fd_names := named (ser_btree_map E picky ser_bool) no_de [] 3 |}, tt))).
Definition pair_specs : hlist field_spec Pair :=
  (Skipped 0, (Coded (via (seq_codec picky_codec) (fun l => l) (fun _ => True) eq),
    (Coded (of_codec (btree_map_codec picky_codec bool_codec N.compare)), tt))).
Definition pair_bad : hlist refusal Pair := (picky_bad, (items_bad picky_bad, (entries_bad picky_bad none_bad, tt))).
Definition pair_paths E : paths (value (DStruct Pair (pair_decls E))) := same_paths {| write_id := fun _ _ _ => wret tt;
  write_der_contents := fun _ _ _ => wret tt; id_len := fun _ => Ok None; der_contents_len := fun _ => Ok None |} no_de.
Definition pair_ser E : option (serialize (tuple Pair)) :=
  do_serialize any_path E (tagged "5") (DStruct Pair (pair_decls E)) (pair_paths E).
Lemma pair_partly E : exists S, pair_ser E = Some S /\ partly E (struct_codec [0x65] Pair pair_specs) S (fields_bad Pair pair_specs pair_bad).
Proof.
  eexists. split; [reflexivity|].
  eapply (py_struct E any_path (tagged "5") (tagged_attr 5) [0x65] Pair (pair_decls E) _ pair_specs pair_bad (pair_paths E));
    [reflexivity | flags | now apply (id_short 1 1 5) | reflexivity | | exact (eq_refl (pair_ser E))].
  pose proof (py_custom E picky_codec picky picky_bad picky_refuses) as PP.
  apply pf_skipped; [flags|]. apply pf_coded; [flags | |].
  { apply (py_via E (seq_codec picky_codec) (ser_vec E picky) (items_bad picky_bad) (list N) (fun l => l) (fun _ => True) eq);
      [exact (py_vec E picky_codec picky picky_bad PP) | apply sv_on]. }
  apply pf_coded; [flags | | constructor].
  apply (py_btree_map E picky_codec picky picky_bad bool_codec ser_bool none_bad N.compare PP). apply py_lawful. apply ser_bool_law.
Qed.
Example C70_ex : let E := ex_env true in
  (** in a sequence; the large one is found first, as lengths are asked for first *)
  to_der E (ser_vec E picky) [2; 4; 5] = Err RedundantBytes /\
  to_der E (ser_vec E picky) [2; 5; 200] = Err OverFlow /\
  (exists b, to_der E (ser_vec E picky) [2; 60; 8] = Ok b /\ bf_slice b = [0x30; 9; 2; 1; 2; 2; 1; 60; 2; 1; 8]) /\
  (** in a struct: as the skipped field, in the converted one, in a map *)
  exists S, pair_ser E = Some S /\
    (exists b, to_der E S (7, ([4], ([(2, true)], tt))) = Ok b /\
       bf_slice b = [0x65; 15; 0x30; 3; 2; 1; 4; 0x30; 8; 0x30; 6; 2; 1; 2; 1; 1; 255]) /\
    to_der E S (8, ([4; 150], ([(2, true)], tt))) = Err OverFlow /\
    to_der E S (8, ([4], ([(2, true); (61, false)], tt))) = Err RedundantBytes /\
    wf (struct_codec [0x65] Pair pair_specs) (8, ([4], ([(2, true); (61, false)], tt))) /\
    fields_bad Pair pair_specs pair_bad (8, ([4], ([(2, true); (61, false)], tt))) RedundantBytes.
Proof.
  cbv zeta. split; [vm_compute; reflexivity|]. split; [vm_compute; reflexivity|].
  split; [eexists; split; [vm_compute; reflexivity | vm_compute; reflexivity]|].
  eexists. split; [reflexivity|].
  split; [eexists; split; [vm_compute; reflexivity | vm_compute; reflexivity]|].
  split; [vm_compute; reflexivity|]. split; [vm_compute; reflexivity|]. split.
  - cbn. repeat (split || constructor); cbn; try lia; reflexivity.
  - cbn. right. left. right. constructor. left. right. cbn. repeat split. lia.
Qed.
