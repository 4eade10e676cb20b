(** Serialize of the user, as seen by [to_der]: what its methods do with the writer they are handed. *)
From Verif Require Import Base ModelTag.

(** A method writes to the buffer and goes on with the answer, then returns.  The answer is false if [write] panicked
    and the method has caught that; one that does not catch it stops with [Panic]. *)
Inductive prog := Stop (r : res unit) | Offer (bs : list N) (k : bool -> prog).
(** In one call of [to_der] each method is called once at most. *)
Record calls := { c_contents_len : res (option N); c_contents : prog; c_id_len : res (option N); c_id : prog }.
(** Slices are not longer than isize::MAX octets, and numbers are below 2^64. *)
Fixpoint prog_ok (p : prog) : Prop :=
  match p with Stop _ => True | Offer bs k => bytes_ok bs /\ nlen bs <= isize_max /\ prog_ok (k true) /\ prog_ok (k false) end.
Definition answer_ok (a : res (option N)) : Prop := match a with Ok (Some n) => n < usize_limit | _ => True end.
Definition calls_ok (v : calls) : Prop := answer_ok (c_contents_len v) /\ answer_ok (c_id_len v) /\ prog_ok (c_contents v) /\ prog_ok (c_id v).

(** Onto a list of octets: one that would make it longer than isize::MAX is refused. *)
Fixpoint lays (p : prog) (w : list N) : res unit * list N :=
  match p with
  | Stop r => (r, w)
  | Offer bs k => if nlen w + nlen bs <=? isize_max then lays (k true) (w ++ bs) else lays (k false) w
  end.
Fixpoint refused (p : prog) (w : list N) : bool :=
  match p with
  | Stop _ => false
  | Offer bs k => if nlen w + nlen bs <=? isize_max then refused (k true) (w ++ bs) else true
  end.
(** One after the other. *)
Fixpoint andthen (p q : prog) : prog :=
  match p with Stop (Ok _) => q | Stop r => Stop r | Offer bs k => Offer bs (fun ok => andthen (k ok) q) end.
Definition offer (bs : list N) : prog := Offer bs (fun ok => Stop (if ok then Ok tt else Panic)).

(** The sum that [to_der] reserves: it panics or wraps, by profile. *)
Definition announced (wraps : bool) (v : calls) (k n : N) : res N :=
  match c_id_len v with
  | Ok None => Ok 0
  | Ok (Some i) => if wraps then Ok ((i + k + n) mod usize_limit) else if i + k + n <? usize_limit then Ok (i + k + n) else Panic
  | Err e => Err e | Panic => Panic | NoFuel => NoFuel
  end.
Definition octets_of (x : res unit * list N) : res (list N) :=
  match fst x with Ok _ => Ok (snd x) | Err e => Err e | Panic => Panic | NoFuel => NoFuel end.
(** Identifier, length and contents, where the contents are [n] octets by what was announced or found. *)
Definition der_finish (wraps : bool) (v : calls) (n : N) (contents : prog) : res (list N) :=
  let len := Length_to_bytes (Definite n) in
  match announced wraps v (nlen len) n with
  | Ok a => if isize_max <? a then Panic else octets_of (lays (andthen (c_id v) (andthen (offer len) contents)) [])
  | Err e => Err e | Panic => Panic | NoFuel => NoFuel
  end.
Definition der_result (wraps : bool) (v : calls) : res (list N) :=
  match c_contents_len v with
  | Ok (Some n) => der_finish wraps v n (c_contents v)
  | Ok None =>
      match lays (c_contents v) [] with
      | (Ok _, c) => der_finish wraps v (nlen c) (offer c)
      | (Err e, _) => Err e | (Panic, _) => Panic | (NoFuel, _) => NoFuel
      end
  | Err e => Err e | Panic => Panic | NoFuel => NoFuel
  end.
(** More than isize::MAX octets are asked for somewhere on the way. *)
Definition finish_refuses (wraps : bool) (v : calls) (n : N) (contents : prog) : bool :=
  let len := Length_to_bytes (Definite n) in
  match announced wraps v (nlen len) n with
  | Ok a => if isize_max <? a then true else refused (andthen (c_id v) (andthen (offer len) contents)) []
  | _ => false
  end.
Definition refuses (wraps : bool) (v : calls) : bool :=
  match c_contents_len v with
  | Ok (Some n) => finish_refuses wraps v n (c_contents v)
  | Ok None =>
      refused (c_contents v) [] || match lays (c_contents v) [] with (Ok _, c) => finish_refuses wraps v (nlen c) (offer c) | _ => false end
  | _ => false
  end.

(** Methods as those of [SpecSerde.emits]: they [write_all] the chunks in turn, where an empty one is no call. *)
Fixpoint program (cs : list (list N)) : prog :=
  match cs with [] => Stop (Ok tt) | [] :: cs' => program cs' | c :: cs' => andthen (offer c) (program cs') end.
(** A method that writes [bs] wherever there is room, and is content. *)
Definition adds (p : prog) (bs : list N) : Prop :=
  forall w, nlen w + nlen bs <= isize_max -> lays p w = (Ok tt, w ++ bs) /\ refused p w = false.

(** [write_der]: the writer of the user, what the methods do with it. *)
Record sink (S : Type) := { k_id : S -> res unit * S; k_contents : S -> res unit * S; k_all : list N -> S -> res unit * S }.
Arguments k_id {S}.
Arguments k_contents {S}.
Arguments k_all {S}.
Definition next {S} (x : res unit * S) (f : S -> res unit * S) : res unit * S := match x with (Ok _, s) => f s | _ => x end.
Definition write_result {S} (v : calls) (k : sink S) (s : S) : res unit * S :=
  let header n s := next (k_id k s) (k_all k (Length_to_bytes (Definite n))) in
  match c_contents_len v with
  | Ok (Some n) => next (header n s) (k_contents k)
  | Ok None =>
      match lays (c_contents v) [] with
      | (Ok _, c) => next (header (nlen c) s) (k_all k c)
      | (r, _) => (r, s)
      end
  | Err e => (Err e, s) | Panic => (Panic, s) | NoFuel => (NoFuel, s)
  end.
