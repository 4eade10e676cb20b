(** C79: conversions between slices, vectors, borrowed and owned values lose nothing. *)
From Verif Require Import Base ModelError ModelTag ModelContents ModelBuf ModelTlv ModelConv Spec SpecConv BufProofs ConvProofs.

(** Every conversion succeeds and keeps the octets. *)
Theorem C79_convert : forall cfg v r bs, converts cfg v r -> shows v bs -> nlen bs <= isize_max -> exists v', r = Ok v' /\ shows v' bs.
Proof. exact convert. Qed.
Print Assumptions C79_convert.
(** So does any chain of them. *)
Theorem C79_chain : forall cfg v v', chain cfg v v' -> forall bs, shows v bs -> nlen bs <= isize_max -> shows v' bs.
Proof. exact converts_chain. Qed.
Print Assumptions C79_chain.
(** A slice to a DER value, owned, to a BER value, to a vector, to contents, and back to a slice. *)
Definition ex_conv_cfg : bufcfg := {| init_cap := 23; junk := fun i => i |}.
Definition ex_b (bs : list N) : buf := match bf_from_slice ex_conv_cfg bs with Ok b => b | _ => bf_new ex_conv_cfg end.
Example C79_chain_ex : chain ex_conv_cfg (VSlice [4; 2; 7; 8]) (VSlice [4; 2; 7; 8]) /\
  shows (VSlice [4; 2; 7; 8]) [4; 2; 7; 8] /\ nlen [4; 2; 7; 8] <= isize_max.
Proof.
  split; [|split; [reflexivity | vm_compute; discriminate]].
  eapply chain_step; [apply cv_der_ref | reflexivity|].
  eapply chain_step; [apply cv_der_owned | vm_compute; reflexivity|].
  eapply chain_step; [apply cv_ber_from_der | reflexivity|].
  eapply chain_step; [apply (cv_ber_into _ _ [9]); repeat constructor | reflexivity|].
  eapply chain_step; [apply cv_contents_from_vec | reflexivity|].
  eapply chain_step; [apply cv_contents_as_ref | reflexivity|].
  apply chain_none.
Qed.

(** What is written through a mutable reference is what the value holds afterwards; nothing else of the buffer changes. *)
Theorem C79_as_mut : forall g f b bs, In g [Der_as_mut; Ber_as_mut; Contents_as_mut; Id_as_mut] -> holds b bs -> nlen (f bs) = nlen bs ->
  exists b', g f b = Ok b' /\ bf_slice b' = f bs /\ bf_cap b' = bf_cap b /\ b_heap b' = b_heap b /\
    drop (b_len b') (b_mem b') = drop (b_len b) (b_mem b) /\ holds b' (f bs).
Proof. intros g f b bs [<-|[<-|[<-|[<-|[]]]]]; apply mut_ok. Qed.
Print Assumptions C79_as_mut.
Example C79_as_mut_ex : exists b', Der_as_mut (fun bs => map (fun x => 255 - x) bs) (ex_b [1; 2]) = Ok b' /\ bf_slice b' = [254; 253].
Proof. eexists. split; [vm_compute; reflexivity | reflexivity]. Qed.

(** Indexing gives the octets at the positions of the index, or panics if there are none such. *)
Theorem C79_index : forall c i, nlen c <= isize_max ->
  (in_range_index (nlen c) i ->
   exists out, ContentsRef_index c i = Ok out /\
     forall k o, octet out k = Some o <-> selected (nlen c) i (first_selected i + k) /\ octet c (first_selected i + k) = Some o) /\
  (~ in_range_index (nlen c) i -> ContentsRef_index c i = Panic).
Proof. exact index_ok. Qed.
Print Assumptions C79_index.
Example C79_index_ex : in_range_index 4 (RangeInclusive 1 2) /\ ContentsRef_index [5; 6; 7; 8] (RangeInclusive 1 2) = Ok [6; 7] /\
  ~ in_range_index 4 (At 4) /\ ContentsRef_index [5; 6; 7; 8] (At 4) = Panic.
Proof. cbn [in_range_index]. split; [lia|]. split; [reflexivity|]. split; [lia | reflexivity]. Qed.
(** Writing through an index changes the octets at its positions and no others. *)
Theorem C79_index_mut : forall c i f, nlen c <= isize_max -> (forall bs, nlen (f bs) = nlen bs) ->
  (in_range_index (nlen c) i ->
   exists old out, ContentsRef_index c i = Ok old /\ ContentsRef_index_mut c i f = Ok out /\ nlen out = nlen c /\
     ContentsRef_index out i = Ok (f old) /\ forall k, ~ selected (nlen c) i k -> octet out k = octet c k) /\
  (~ in_range_index (nlen c) i -> ContentsRef_index_mut c i f = Panic).
Proof. exact index_mut_ok. Qed.
Print Assumptions C79_index_mut.
Example C79_index_mut_ex : ContentsRef_index_mut [5; 6; 7; 8] (RangeFrom 2) (map (fun _ => 0)) = Ok [5; 6; 0; 0].
Proof. reflexivity. Qed.
(** The length and the test for none. *)
Theorem C79_len : forall c, ContentsRef_len c = nlen c /\ (ContentsRef_is_empty c = true <-> c = []) /\ IdRef_len c = nlen c.
Proof. exact lens. Qed.
Print Assumptions C79_len.
(** Contents of a boolean, borrowed and owned. *)
Theorem C79_bool : forall cfg v, ContentsRef_from_bool v = [if v then 0xff else 0x00] /\
  exists b, Contents_from_bool_buf cfg v = Ok b /\ holds b [if v then 0xff else 0x00].
Proof. exact bools. Qed.
Print Assumptions C79_bool.
(** The numbers of tags. *)
Theorem C79_tag_numbers : forall n m, n < 2 ^ 128 -> m < 2 ^ 128 ->
  TagNumber_get (TagNumber_from n) = n /\ (TagNumber_from n = TagNumber_from m -> n = m).
Proof. exact tag_numbers. Qed.
Print Assumptions C79_tag_numbers.
Example C79_tag_numbers_ex : TagNumber_get (TagNumber_from (2 ^ 127 + 5)) = 2 ^ 127 + 5.
Proof. reflexivity. Qed.
(** The BER values of booleans, integers, strings and octet strings. *)
Theorem C79_ber_from : forall cfg,
  (forall v, exists b, Ber_from_bool cfg v = Ok b /\ bf_slice b = [0x01; 0x01; if v then 0xff else 0x00] /\ ber_value (bf_slice b)) /\
  (forall t v, in_range t v -> exists b c, Ber_from_int cfg t v = Ok b /\ der_tlv [0x02] c (bf_slice b) /\ twos_value c = v /\ shortest_twos c /\ ber_value (bf_slice b)) /\
  (forall s, nlen s <= isize_max - 64 -> exists b, Ber_from_str cfg s = Ok b /\ der_tlv [0x0c] s (bf_slice b) /\ ber_value (bf_slice b)) /\
  (forall s, nlen s <= isize_max - 64 -> exists b, Ber_from_bytes cfg s = Ok b /\ der_tlv [0x04] s (bf_slice b) /\ ber_value (bf_slice b)).
Proof. exact ber_from. Qed.
Print Assumptions C79_ber_from.
Example C79_ber_from_ex : in_range I16 (-129) /\ rmap bf_slice (Ber_from_int ex_conv_cfg I16 (-129)) = Ok [2; 2; 0xff; 0x7f].
Proof. split; [vm_compute; split; discriminate | vm_compute; reflexivity]. Qed.
