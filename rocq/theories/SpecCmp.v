(** The dictionary order on octet strings; the universal tags of X.680. *)
From Verif Require Import Base ModelTag.

Inductive before : list N -> list N -> Prop :=
| lt_prefix a x t : before a (a ++ x :: t)
| lt_differ p x y s t : x < y -> before (p ++ x :: s) (p ++ y :: t).
(** What an [Ord] may answer about two octet strings. *)
Definition ordered (a b : list N) (c : comparison) : Prop :=
  match c with Lt => before a b | Eq => a = b | Gt => before b a end.

(** X.680, table 1: class universal; primitive or constructed; number. *)
Definition universal_tags : list (list N * (pc_tag * N)) :=
  [(ID_EOC, (Primitive, 0)); (ID_BOOLEAN, (Primitive, 1)); (ID_INTEGER, (Primitive, 2));
   (ID_OCTET_STRING, (Primitive, 4)); (ID_OCTET_STRING_CONSTRUCTED, (Constructed, 4));
   (ID_NULL, (Primitive, 5)); (ID_REAL, (Primitive, 9));
   (ID_UTF8_STRING, (Primitive, 12)); (ID_UTF8_STRING_CONSTRUCTED, (Constructed, 12));
   (ID_SEQUENCE, (Constructed, 16)); (ID_SET, (Constructed, 17))].
