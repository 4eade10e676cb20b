(** What safe code can see of a variable in memory. *)
From Verif Require Import Base ModelHeap SpecBuf SpecTlv.

(** The octets it shows; a read that is not inside owned memory shows none. *)
Definition seen (L : layout) (h : heap) (x : var (L_raw L)) : option (list N) :=
  match x with
  | VEmpty => None
  | VBuf r => match L_slice L r h with Done bs _ => Some bs | _ => None end
  | VVec x => match vec_slice x h with Done bs _ => Some bs | _ => None end
  end.
(** Two runs that get their memory show the same octets. *)
Definition same_octets (L L' : layout) (o : outcome (L_raw L)) (o' : outcome (L_raw L')) : Prop :=
  match o, o' with
  | Done b h, Done b' h' => exists bs, L_slice L b h = Done bs h /\ L_slice L' b' h' = Done bs h'
  | _, _ => True
  end.
Definition same_variables (L L' : layout) (o : outcome (env (var (L_raw L)))) (o' : outcome (env (var (L_raw L')))) : Prop :=
  match o, o' with
  | Done v h, Done v' h' => forall i, seen L h (v i) = seen L' h' (v' i)
  | _, _ => True
  end.
