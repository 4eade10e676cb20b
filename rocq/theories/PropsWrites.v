(** C87: a writer is offered the octets of the encoding in turn. *)
From Verif Require Import Base ModelError ModelIo ModelTag ModelContents ModelBuf ModelTlv ModelSerde ModelAttr ModelDerive Spec SpecIo SpecSerde SpecAttr SpecDerive SpecWrites.
From Verif Require Import SerdeOctets SerdeSer SerdeDe SerdeMain SerdeEntry DeriveMain WriteProofs PropsSerde PropsDerive.

(** What write_der offers to any writer, be it honest or not. *)
Definition offers {S} (bs : list N) (r : res unit) (l : list offer) (same : res unit * S) (s' : S) : Prop :=
  same = (r, s') /\ in_turn bs l /\ nlen l <= nlen bs + nlen (filter asked_again l) /\ (r = Ok tt -> Forall goes_on l /\ taken l = bs).
Lemma offers_of f bs : emits f bs -> forall S (W : writer S) s r s' l, f _ (listed W) (s, []) = (r, (s', l)) -> offers bs r l (f S W s) s'.
Proof.
  intros EM S W s r s' l E. destruct (emits_listed f bs EM S W s) as (l1 & E1 & I & K). rewrite E in E1. injection E1 as -> -> ->.
  split; [apply surjective_pairing|]. split; [exact I|]. split; [now apply in_turn_count|]. intros Hr. now rewrite Hr in K.
Qed.
Theorem C87_write : forall E C S D v St (W : writer St) s r s' l, good_env E -> supported E C S D -> wf C v -> nlen (der_of C v) <= isize_max ->
  write_der E S (listed W) v (s, []) = (r, (s', l)) -> offers (der_of C v) r l (write_der E S W v s) s'.
Proof.
  intros E C S D v St W s r s' l HE P Wv L H. destruct (C25_derived E C S D v HE P Wv L) as (_ & EM & _). exact (offers_of _ _ EM St W s r s' l H).
Qed.
Print Assumptions C87_write.
(** The same of any lawful implementation. *)
Theorem C87_lawful : forall E T (S : serialize T) v id c St (W : writer St) s r s' l, serialises S v id c -> nlen c <= isize_max ->
  write_der E S (listed W) v (s, []) = (r, (s', l)) -> offers (tlv id c) r l (write_der E S W v s) s'.
Proof. intros E T S v id c St W s r s' l SS L H. exact (offers_of _ _ (write_der_emits E S v id c SS L) St W s r s' l H). Qed.
Print Assumptions C87_lawful.
(** write_ber is the same, and the methods of the trait offer identifier and contents that way. *)
Theorem C87_parts : forall E C S D v St (W : writer St) s r s' l, good_env E -> supported E C S D -> wf C v -> nlen (der_of C v) <= isize_max ->
  (write_ber E S (listed W) v (s, []) = (r, (s', l)) -> offers (der_of C v) r l (write_ber E S W v s) s') /\
  (write_id S (listed W) v (s, []) = (r, (s', l)) -> offers (id_of C v) r l (write_id S W v s) s') /\
  (write_der_contents S (listed W) v (s, []) = (r, (s', l)) -> offers (contents_of C v) r l (write_der_contents S W v s) s').
Proof.
  intros E C S D v St W s r s' l HE P Wv L. destruct (C25_derived E C S D v HE P Wv L) as (_ & _ & EM & _). pose proof (supported_laws E C S D HE P) as LW.
  destruct (der_fits C v L) as [L1 L2]. destruct (l_ser _ _ _ _ LW v Wv L1) as [EI EC _ _].
  split; [|split]; intros H; [exact (offers_of _ _ EM St W s r s' l H) | exact (offers_of _ _ EI St W s r s' l H) | exact (offers_of _ _ EC St W s r s' l H)].
Qed.
Print Assumptions C87_parts.

(** A writer that takes three octets at a time: octets that were not taken are offered again, an interrupted call is repeated, none follows the error. *)
Definition picky : writer (N * list N) := {|
  wr_write := fun (s : N * list N) (bs : list N) => let (k, got) := s in
    if k =? 0 then (WrErr (OtherIo 5), s) else if k =? 4 then (WrErr Interrupted, (3, got)) else (WrOk (N.min 3 (nlen bs)), (k - 1, got ++ take 3 bs));
  wr_fuel := 20 |}.
Example C87_ex :
  write_der (ex_env true) ser_octets (listed picky) [1; 2; 3; 4; 5; 6; 7; 8] ((6, []), []) =
    (Ok tt, ((0, [4; 8; 1; 2; 3; 4; 5; 6; 7; 8]), [([4], WrOk 1); ([8], WrOk 1); ([1; 2; 3; 4; 5; 6; 7; 8], WrErr Interrupted);
      ([1; 2; 3; 4; 5; 6; 7; 8], WrOk 3); ([4; 5; 6; 7; 8], WrOk 3); ([7; 8], WrOk 2)])) /\
  write_der (ex_env true) ser_octets (listed picky) [1; 2; 3; 4; 5; 6; 7; 8] ((3, []), []) =
    (Err (Io (OtherIo 5)), ((0, [4; 8; 1; 2; 3]), [([4], WrOk 1); ([8], WrOk 1); ([1; 2; 3; 4; 5; 6; 7; 8], WrOk 3); ([4; 5; 6; 7; 8], WrErr (OtherIo 5))])).
Proof. vm_compute. split; reflexivity. Qed.
