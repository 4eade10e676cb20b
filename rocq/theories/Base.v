(** Common vocabulary of the model: octets, errors, results, list helpers.
    No proofs of properties here, only definitions and generic list lemmas. *)
From Coq Require Export NArith ZArith List Bool Lia.
From Coq Require Export ZifyBool ZifyN ZifyNat.
Export ListNotations.
Global Open Scope N_scope.
Global Open Scope list_scope.

Ltac Zify.zify_post_hook ::= Z.div_mod_to_equations.

Global Set Asymmetric Patterns.

(** An octet is a number below 256; [u8] in Rust. *)
Definition is_byte (b : N) : Prop := b < 256.
Definition bytes_ok (l : list N) : Prop := Forall is_byte l.

(** [usize] on the 64-bit targets: every [usize] is below 2^64. *)
Definition usize_limit : N := 2 ^ 64.
Definition isize_max : N := 2 ^ 63 - 1.
Definition u128_limit : N := 2 ^ 128.

Definition nlen {A} (l : list A) : N := N.of_nat (length l).
Definition take {A} (n : N) (l : list A) : list A := firstn (N.to_nat n) l.
Definition drop {A} (n : N) (l : list A) : list A := skipn (N.to_nat n) l.

(** Octet [i] of [l] (Rust [l[i]]), [None] when out of range (Rust panics). *)
Definition nth_byte (l : list N) (i : N) : option N := nth_error l (N.to_nat i).

(** Kinds of std::io::Error that matter; only the distinction between
    [Interrupted] (retried by read_exact), the [UnexpectedEof] made by
    read_exact, [WriteZero] and everything else is observable. *)
Inductive io_kind := Interrupted | UnexpectedEof | WriteZero | OtherIo (code : N).

(** bsn1/src/lib.rs:51-84, enum Error.  [anyhow::Error] is modelled by the
    three ways to build one: [anyhow::Error::new] of a crate error
    (lib.rs:150), of a foreign error (data_container.rs:397), and [.context]
    (lib.rs:168).  The text of the context is an opaque number.  A foreign error has
    a chain of sources, which may end in a crate error (a crate error itself has no
    source, lib.rs:109). *)
Inductive error :=
| UnterminatedBytes
| RedundantBytes
| OverFlow
| IndefiniteLength
| BadEoc
| ExtraContentsOctet
| UnmatchedId
| InvalidUtf8
| InvalidDerBooleanContents
| InvalidKeyValuePair
| Io (k : io_kind)
| Anyhow (a : anyhow)
with anyhow :=
| AnNew (e : error)
| AnForeign (f : foreign)
| AnContext (ctx : N) (a : anyhow)
with foreign :=
| FLeaf (code : N)
| FOver (code : N) (f : foreign)
| FLib (code : N) (e : error).

(** Outcome of a Rust call.  [Panic] stands for a panic, a failed (debug)
    assertion, an out-of-range index, or an access that would be undefined
    behaviour.  [NoFuel] is an artefact of the model: a loop ran longer than
    the fuel it was given. *)
Inductive res (A : Type) :=
| Ok (a : A)
| Err (e : error)
| Panic
| NoFuel.
Arguments Ok {A} a.
Arguments Err {A} e.
Arguments Panic {A}.
Arguments NoFuel {A}.

Definition rbind {A B} (r : res A) (f : A -> res B) : res B :=
  match r with Ok a => f a | Err e => Err e | Panic => Panic | NoFuel => NoFuel end.
Definition rmap {A B} (f : A -> B) (r : res A) : res B := rbind r (fun a => Ok (f a)).
(** [map_err]. *)
Definition rmap_err {A} (f : error -> error) (r : res A) : res A :=
  match r with Ok a => Ok a | Err e => Err (f e) | Panic => Panic | NoFuel => NoFuel end.

Notation "'let!' x ':=' r 'in' k" := (rbind r (fun x => k))
  (at level 200, x pattern, r at level 100, k at level 200).

(** Comparing byte strings, [<[u8] as PartialEq>::eq]. *)
Fixpoint bytes_eqb (a b : list N) : bool :=
  match a, b with
  | [], [] => true
  | x :: a', y :: b' => (x =? y) && bytes_eqb a' b'
  | _, _ => false
  end.

(** [<[u8]>::starts_with] and [ends_with]. *)
Fixpoint starts_with (l p : list N) {struct p} : bool :=
  match p, l with
  | [], _ => true
  | y :: p', x :: l' => (x =? y) && starts_with l' p'
  | _ :: _, [] => false
  end.
Definition ends_with (l s : list N) : bool :=
  (nlen s <=? nlen l) && bytes_eqb (drop (nlen l - nlen s) l) s.

Global Arguments N.add : simpl never.
Global Arguments N.sub : simpl never.
Global Arguments N.mul : simpl never.
Global Arguments N.div : simpl never.
Global Arguments N.modulo : simpl never.
Global Arguments N.pow : simpl never.
Global Arguments N.land : simpl never.
Global Arguments N.lor : simpl never.
Global Arguments N.lxor : simpl never.
Global Arguments N.shiftl : simpl never.
Global Arguments N.shiftr : simpl never.
Global Arguments N.size : simpl never.
Global Arguments N.eqb : simpl never.
Global Arguments N.leb : simpl never.
Global Arguments N.ltb : simpl never.

(** Generic lemmas. *)
Lemma cons_inj {A} (x y : A) l m : x :: l = y :: m -> x = y /\ l = m.
Proof. intros H. now inversion H. Qed.

Lemma bytes_eqb_eq a b : bytes_eqb a b = true <-> a = b.
Proof.
  revert b; induction a as [|x a IH]; intros [|y b]; simpl; split; intro H;
    try discriminate; try reflexivity.
  - apply andb_true_iff in H as [H1 H2]. apply N.eqb_eq in H1. apply IH in H2. now subst.
  - inversion H; subst. apply andb_true_iff. split; [apply N.eqb_refl | now apply IH].
Qed.

Lemma bytes_eqb_refl a : bytes_eqb a a = true.
Proof. now apply bytes_eqb_eq. Qed.

Lemma bytes_eqb_neq a b : bytes_eqb a b = false <-> a <> b.
Proof.
  split; intro H.
  - intros E. apply bytes_eqb_eq in E. congruence.
  - destruct (bytes_eqb a b) eqn:E; [apply bytes_eqb_eq in E; contradiction | reflexivity].
Qed.

Lemma starts_with_spec l p : starts_with l p = true <-> exists t, l = p ++ t.
Proof.
  revert l; induction p as [|y p IH]; intros l; simpl.
  - split; [intros _; exists l; reflexivity | reflexivity].
  - destruct l as [|x l].
    + split; [discriminate | intros [t H]; discriminate].
    + rewrite andb_true_iff, N.eqb_eq, IH. split.
      * intros [-> [t ->]]. eauto.
      * intros [t H]. inversion H; subst. eauto.
Qed.

Lemma nlen_length {A} (l : list A) : nlen l = N.of_nat (length l).
Proof. reflexivity. Qed.
Lemma nlen_nil {A} : nlen (@nil A) = 0.
Proof. reflexivity. Qed.
Lemma nlen_cons {A} (x : A) l : nlen (x :: l) = 1 + nlen l.
Proof. unfold nlen; simpl length. lia. Qed.
Lemma nlen_app {A} (a b : list A) : nlen (a ++ b) = nlen a + nlen b.
Proof. unfold nlen. rewrite app_length. lia. Qed.
Lemma nlen_take {A} n (l : list A) : nlen (take n l) = N.min n (nlen l).
Proof. unfold nlen, take. rewrite firstn_length. lia. Qed.
Lemma nlen_drop {A} n (l : list A) : nlen (drop n l) = nlen l - n.
Proof. unfold nlen, drop. rewrite skipn_length. lia. Qed.
Lemma take_drop {A} n (l : list A) : take n l ++ drop n l = l.
Proof. apply firstn_skipn. Qed.
Lemma take_0 {A} (l : list A) : take 0 l = [].
Proof. reflexivity. Qed.
Lemma drop_0 {A} (l : list A) : drop 0 l = l.
Proof. reflexivity. Qed.
Lemma take_ge {A} n (l : list A) : nlen l <= n -> take n l = l.
Proof. unfold nlen, take. intros. apply firstn_all2. lia. Qed.
Lemma drop_ge {A} n (l : list A) : nlen l <= n -> drop n l = [].
Proof. unfold nlen, drop. intros. apply skipn_all2. lia. Qed.
Lemma take_app_le {A} n (a b : list A) : n <= nlen a -> take n (a ++ b) = take n a.
Proof.
  unfold nlen, take. intros. rewrite firstn_app.
  replace (N.to_nat n - length a)%nat with 0%nat by lia. simpl. apply app_nil_r.
Qed.
Lemma drop_app_le {A} n (a b : list A) : n <= nlen a -> drop n (a ++ b) = drop n a ++ b.
Proof.
  unfold nlen, drop. intros. rewrite skipn_app.
  replace (N.to_nat n - length a)%nat with 0%nat by lia. reflexivity.
Qed.
Lemma take_app_ge {A} n (a b : list A) : nlen a <= n -> take n (a ++ b) = a ++ take (n - nlen a) b.
Proof.
  unfold nlen, take. intros. rewrite firstn_app.
  rewrite firstn_all2 by lia. f_equal. f_equal. lia.
Qed.
Lemma drop_app_ge {A} n (a b : list A) : nlen a <= n -> drop n (a ++ b) = drop (n - nlen a) b.
Proof.
  unfold nlen, drop. intros. rewrite skipn_app.
  rewrite skipn_all2 by lia. simpl. f_equal. lia.
Qed.
Lemma take_app_exact {A} (a b : list A) : take (nlen a) (a ++ b) = a.
Proof. rewrite take_app_le by lia. apply take_ge; lia. Qed.
Lemma drop_app_exact {A} (a b : list A) : drop (nlen a) (a ++ b) = b.
Proof. rewrite drop_app_ge by lia. replace (nlen a - nlen a) with 0 by lia. reflexivity. Qed.
Lemma drop_drop {A} n m (l : list A) : drop n (drop m l) = drop (m + n) l.
Proof.
  unfold drop. replace (N.to_nat (m + n)) with (N.to_nat m + N.to_nat n)%nat by lia.
  revert l. generalize (N.to_nat m) as k, (N.to_nat n) as j. clear.
  induction k as [|k IH]; intros j l; [reflexivity|].
  destruct l as [|x l]; [now rewrite !skipn_nil | simpl; apply IH].
Qed.
Lemma take_take {A} n m (l : list A) : take n (take m l) = take (N.min n m) l.
Proof.
  unfold take. rewrite firstn_firstn. f_equal. lia.
Qed.

Lemma nlen_zero {A} (l : list A) : nlen l = 0 -> l = [].
Proof. destruct l; [reflexivity | rewrite nlen_cons; lia]. Qed.

Lemma nlen_map {A B} (f : A -> B) l : nlen (map f l) = nlen l.
Proof. unfold nlen. now rewrite map_length. Qed.

Lemma nlen_repeat {A} (x : A) n : nlen (repeat x n) = N.of_nat n.
Proof. unfold nlen. now rewrite repeat_length. Qed.

Lemma bytes_ok_app a b : bytes_ok (a ++ b) <-> bytes_ok a /\ bytes_ok b.
Proof. apply Forall_app. Qed.
Lemma bytes_ok_cons x a : bytes_ok (x :: a) <-> x < 256 /\ bytes_ok a.
Proof. unfold bytes_ok. rewrite Forall_cons_iff. reflexivity. Qed.
Lemma bytes_ok_nil : bytes_ok [].
Proof. constructor. Qed.
Lemma bytes_ok_take n a : bytes_ok a -> bytes_ok (take n a).
Proof. intros H. rewrite <- (take_drop n a) in H. now apply bytes_ok_app in H. Qed.
Lemma bytes_ok_drop n a : bytes_ok a -> bytes_ok (drop n a).
Proof. intros H. rewrite <- (take_drop n a) in H. now apply bytes_ok_app in H. Qed.

Global Opaque take drop nlen.

(** Finite sweep over the 256 octets. *)
Definition all_bytes : list N := map N.of_nat (seq 0 256).
Lemma in_all_bytes b : b < 256 -> In b all_bytes.
Proof.
  intros H. unfold all_bytes. apply in_map_iff. exists (N.to_nat b).
  split; [apply N2Nat.id | apply in_seq; lia].
Qed.
Lemma byte_sweep (P : N -> bool) :
  forallb P all_bytes = true -> forall b, b < 256 -> P b = true.
Proof. intros H b Hb. rewrite forallb_forall in H. apply H, in_all_bytes, Hb. Qed.
Lemma byte_sweep2 (P : N -> N -> bool) :
  forallb (fun a => forallb (P a) all_bytes) all_bytes = true ->
  forall a b, a < 256 -> b < 256 -> P a b = true.
Proof.
  intros H a b Ha Hb. rewrite forallb_forall in H.
  specialize (H a (in_all_bytes a Ha)). rewrite forallb_forall in H.
  apply H, in_all_bytes, Hb.
Qed.
