(** Types that contain collections of themselves.  In Rust the implementations of such a
    type refer to themselves: they are dictionaries [S] and [D] that are what the derive
    makes of [S] and [D]. *)
From Coq Require Import String Ascii.
From Verif Require Import Base ModelError ModelIo ModelTag ModelContents ModelTlv ModelSerde ModelAttr ModelDerive.
From Verif Require Import Spec SpecSerde SpecAttr SpecDerive.

(** ** Knots *)
(** The same calls on the values in [P]. *)
Definition same_ser {T} (P : T -> Prop) (S S' : serialize T) : Prop :=
  forall v, P v ->
    (forall X (W : writer X) s, write_id S W v s = write_id S' W v s) /\
    (forall X (W : writer X) s, write_der_contents S W v s = write_der_contents S' W v s) /\
    id_len S v = id_len S' v /\ der_contents_len S v = der_contents_len S' v.
(** The same answers to contents of less than [n] octets. *)
Definition same_de {T} (n : nat) (D D' : deserialize T) : Prop :=
  forall id l c, bytes_ok c -> (length c < n)%nat ->
    from_der D id c = from_der D' id c /\ from_ber D id l c = from_ber D' id l c.
(** [S] and [D] are what [FS] and [FD] make of them. *)
Definition knot_ser {T} (FS : serialize T -> serialize T) (S : serialize T) : Prop := same_ser (fun _ => True) S (FS S).
Definition knot_de {T} (FD : deserialize T -> deserialize T) (D : deserialize T) : Prop := forall n, same_de n D (FD D).
(** What is made serialises a value with what it was made of, on smaller values only;
    and decodes contents with it, on shorter contents only. *)
Definition guarded_ser {T} (depth : T -> nat) (FS : serialize T -> serialize T) : Prop :=
  forall n S S', same_ser (fun v => depth v < n)%nat S S' -> same_ser (fun v => depth v < Datatypes.S n)%nat (FS S) (FS S').
Definition guarded_de {T} (FD : deserialize T -> deserialize T) : Prop :=
  forall n D D', same_de n D D' -> same_de (S n) (FD D) (FD D').
(** The values of depth less than [n]. *)
Definition below {T} (C : codec_on T) (depth : T -> nat) (n : nat) : codec_on T :=
  {| on_wf := fun v => on_wf C v /\ (depth v < n)%nat; on_same := on_same C; on_id := on_id C;
     on_contents := on_contents C; on_ber := on_ber C |}.
(** Right at one depth more. *)
Definition lawful_step (E : env) {T} (C : codec_on T) (depth : T -> nat)
  (FS : serialize T -> serialize T) (FD : deserialize T -> deserialize T) : Prop :=
  forall n S D, laws E (to_codec (below C depth n)) S D -> laws E (to_codec (below C depth (Datatypes.S n))) (FS S) (FD D).

(** ** A tree: [struct Tree { value: i32, children: Vec<Tree> }] *)
Inductive tree := Node (value : Z) (children : list tree).
Definition node_value (t : tree) : Z := match t with Node z _ => z end.
Definition node_children (t : tree) : list tree := match t with Node _ ts => ts end.
Fixpoint tree_depth (t : tree) : nat :=
  match t with Node _ ts => fold_right Nat.max O (map (fun t => S (tree_depth t)) ts) end.
Fixpoint tree_contents (t : tree) : list N :=
  match t with Node z ts => tlv [0x02] (int_octets z) ++ tlv [0x30] (concat (map (fun t => tlv [0x30] (tree_contents t)) ts)) end.
Inductive tree_wf : tree -> Prop :=
| tw_node z ts : in_range I32 z -> Forall tree_wf ts -> tree_wf (Node z ts).
Inductive tree_ber : tree -> list N -> Length -> list N -> Prop :=
| tb_node z ts zb items lc cc l c : ber_octets (int_codec I32) z zb ->
    Forall2 (fun t b => exists id l c, tree_ber t id l c /\ b = id ++ length_of l ++ c) ts items ->
    constructed items lc cc -> constructed [zb; [0x30] ++ length_of lc ++ cc] l c -> tree_ber (Node z ts) [0x30] l c.
Definition tree_on : codec_on tree :=
  {| on_wf := tree_wf; on_same := eq; on_id := fun _ => [0x30]; on_contents := tree_contents; on_ber := tree_ber |}.
Definition tree_codec : codec := to_codec tree_on.

(** ** A document: [enum Json { Num(i32), Arr(Vec<Json>), Obj(BTreeMap<String, Json>) }]
    with identifiers 61, 62 and 63 *)
Inductive json := Num (z : Z) | Arr (js : list json) | Obj (kvs : list (list N * json)).
Fixpoint json_depth (j : json) : nat :=
  match j with
  | Num _ => O
  | Arr js => fold_right Nat.max O (map (fun j => S (json_depth j)) js)
  | Obj kvs => fold_right Nat.max O (map (fun p => S (json_depth (snd p))) kvs)
  end.
Definition json_id (j : json) : list N := match j with Num _ => [0x61] | Arr _ => [0x62] | Obj _ => [0x63] end.
Fixpoint json_contents (j : json) : list N :=
  match j with
  | Num z => tlv [0x02] (int_octets z)
  | Arr js => tlv [0x30] (concat (map (fun j => tlv (json_id j) (json_contents j)) js))
  | Obj kvs => tlv [0x30] (concat (map (fun p =>
      match p with (k, j) => tlv [0x30] (tlv [0x0c] k ++ tlv (json_id j) (json_contents j)) end) kvs))
  end.
(** Keys increase in the order [cmp]. *)
Inductive json_wf (cmp : list N -> list N -> comparison) : json -> Prop :=
| jw_num z : in_range I32 z -> json_wf cmp (Num z)
| jw_arr js : Forall (json_wf cmp) js -> json_wf cmp (Arr js)
| jw_obj kvs : Forall (fun p => is_utf8 (fst p) /\ json_wf cmp (snd p)) kvs -> sorted cmp (map fst kvs) -> json_wf cmp (Obj kvs).
Inductive json_ber : json -> list N -> Length -> list N -> Prop :=
| jb_num z zb l c : ber_octets (int_codec I32) z zb -> constructed [zb] l c -> json_ber (Num z) [0x61] l c
| jb_arr js items li ci l c : Forall2 (fun j b => exists id l c, json_ber j id l c /\ b = id ++ length_of l ++ c) js items ->
    constructed items li ci -> constructed [[0x30] ++ length_of li ++ ci] l c -> json_ber (Arr js) [0x62] l c
| jb_obj kvs items li ci l c : Forall2 (fun p b => exists kb jb, ber_octets string_codec (fst p) kb /\
      (exists id l c, json_ber (snd p) id l c /\ jb = id ++ length_of l ++ c) /\
      b = [0x30] ++ length_of (Definite (nlen (kb ++ jb))) ++ kb ++ jb) kvs items ->
    constructed items li ci -> constructed [[0x30] ++ length_of li ++ ci] l c -> json_ber (Obj kvs) [0x63] l c.
Definition json_on (cmp : list N -> list N -> comparison) : codec_on json :=
  {| on_wf := json_wf cmp; on_same := eq; on_id := json_id; on_contents := json_contents; on_ber := json_ber |}.
Definition json_codec (cmp : list N -> list N -> comparison) : codec := to_codec (json_on cmp).
