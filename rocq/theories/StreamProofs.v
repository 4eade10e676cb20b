(** Lemmas about the streaming parsers. *)
From Verif Require Import Base ModelIo ModelTag ModelContents ModelBuf ModelTlv Spec SpecIo TagProofs IdProofs TagMain TlvProofs BufProofs TlvMain.

Lemma sched_honest : honest sched_reader delivered.
Proof.
  intros s n. cbn [rd_read sched_reader]. destruct s as [|[c|k] s]; cbn [delivered].
  - split; [reflexivity | rewrite nlen_nil; lia].
  - destruct (N.leb_spec (nlen c) n) as [L|L]; cbn [delivered].
    + auto.
    + rewrite app_assoc, take_drop. split; [reflexivity | rewrite nlen_take; lia].
  - reflexivity.
Qed.
Lemma sched_steady : steady sched_reader delivered no_faults.
Proof.
  intros s n H. cbn [rd_read sched_reader]. destruct s as [|[c|k] s]; cbn [delivered].
  - exists [], []. repeat split; auto. rewrite nlen_nil; lia.
  - inversion H as [|? ? Hc Hs]; subst. destruct (N.leb_spec (nlen c) n) as [L|L].
    + exists c, s. repeat split; auto. intros _ ->. contradiction.
    + exists (take n c), (Chunk (drop n c) :: s). cbn [delivered]. rewrite app_assoc, take_drop. repeat split; auto.
      * constructor; [|assumption]. destruct (drop n c) eqn:E; [|exact I].
        apply (f_equal nlen) in E. rewrite nlen_drop, nlen_nil in E. lia.
      * rewrite nlen_take. lia.
      * intros Hn E. apply (f_equal nlen) in E. rewrite nlen_take, nlen_nil in E. lia.
  - inversion H. contradiction.
Qed.
Lemma slice_honest : honest slice_reader (fun s => s).
Proof. intros s n. cbn. rewrite take_drop, nlen_take. split; [reflexivity | lia]. Qed.
Lemma slice_greedy : greedy slice_reader (fun s => s) (fun _ => True).
Proof. intros s n _. eexists. split; [reflexivity|]. auto. Qed.
Lemma greedy_steady {S} (R : reader S) content inv : greedy R content inv -> steady R content inv.
Proof.
  intros H s n Hs. destruct (H s n Hs) as (s' & E & Hi & Ec). exists (take n (content s)), s'. rewrite Ec, take_drop.
  repeat split; auto.
  - rewrite nlen_take. lia.
  - intros Hn E0. apply nlen_zero. apply (f_equal nlen) in E0. rewrite nlen_take, nlen_nil in E0. lia.
Qed.

(** ** Simulation by the slice parser *)
Section Sim.
Context {S : Type} (R : reader S) (content : S -> list N) (inv : S -> Prop) (Hst : steady R content inv).
(** At most [k] octets left. *)
Definition sim {A} (k : nat) (m : parser S A) (m' : parser (list N) A) : Prop :=
  forall s w, inv s -> (length (content s) <= k)%nat ->
    match m (s, w) with
    | (r, (s1, w1)) => m' (content s, w) = (r, (content s1, w1)) /\ inv s1 /\ (length (content s1) <= k)%nat
    end.
Lemma sim_ret {A} k (a : A) : sim k (pret a) (pret a).
Proof. intros s w Hi Hk. cbn. auto. Qed.
Lemma sim_fail {A} k e : sim (A := A) k (pfail e) (pfail e).
Proof. intros s w Hi Hk. cbn. auto. Qed.
Lemma sim_write k b : sim k (write_u8 b) (write_u8 b).
Proof. intros s w Hi Hk. cbn. auto. Qed.
Lemma sim_bind {A B} k m m' (f : A -> parser S B) f' : sim k m m' -> (forall a, sim k (f a) (f' a)) -> sim k (pbind m f) (pbind m' f').
Proof.
  intros Hm Hf s w Hi Hk. unfold pbind. specialize (Hm s w Hi Hk). destruct (m (s, w)) as [r [s1 w1]].
  destruct Hm as (-> & Hi1 & Hk1). destruct r as [a| | |]; auto. apply Hf; assumption.
Qed.
Lemma sim_if {A} k (b : bool) (m1 m2 : parser S A) m1' m2' : sim k m1 m1' -> sim k m2 m2' -> sim k (if b then m1 else m2) (if b then m1' else m2').
Proof. destruct b; auto. Qed.
Lemma one_octet {A} (c : list A) : nlen c <= 1 -> c = [] \/ exists b, c = [b].
Proof.
  destruct c as [|b [|b2 c]]; [auto | eauto |]. rewrite !nlen_cons. lia.
Qed.
Lemma sim_read k : sim k (read_u8 R) (read_u8 slice_reader).
Proof.
  intros s w Hi Hk. unfold read_u8 at 1. destruct (Hst s 1 Hi) as (c & s' & E & Hi' & Ec & Lc & H0). rewrite E.
  destruct (one_octet c Lc) as [->|(b & ->)].
  - rewrite H0 in * by (auto; lia). rewrite read_u8_nil.
    cbn [app] in Ec. rewrite <- Ec. auto.
  - rewrite Ec in *. cbn [app] in *. rewrite read_u8_cons. cbn [length] in Hk. repeat split; auto. lia.
Qed.
Lemma sim_id_loop k fuel : forall i o, sim k (parse_id_loop R fuel i o) (parse_id_loop slice_reader fuel i o).
Proof.
  induction fuel as [|fuel IH]; intros i o; cbn [parse_id_loop].
  - intros s w Hi Hk. auto.
  - apply sim_bind; [apply sim_write | intros _]. apply sim_if; [apply sim_ret|].
    apply sim_bind; [apply sim_read | intros o2]. apply IH.
Qed.
Lemma sim_parse_id k fuel : sim k (parse_id R fuel) (parse_id slice_reader fuel).
Proof.
  unfold parse_id. apply sim_bind; [apply sim_read | intros f]. apply sim_bind; [apply sim_write | intros _].
  apply sim_if; [apply sim_ret|]. apply sim_bind; [apply sim_read | intros o].
  repeat (apply sim_if; [apply sim_fail|]). apply sim_id_loop.
Qed.
Lemma sim_len_loop k j : forall n, sim k (parse_length_loop R j n) (parse_length_loop slice_reader j n).
Proof.
  induction j as [|j IH]; intros n; cbn [parse_length_loop]; [apply sim_ret|].
  apply sim_bind; [apply sim_read | intros b]. apply sim_bind; [apply sim_write | intros _]. apply IH.
Qed.
Lemma sim_parse_length k : sim k (parse_length R) (parse_length slice_reader).
Proof.
  unfold parse_length. apply sim_bind; [apply sim_read | intros f]. apply sim_bind; [apply sim_write | intros _].
  apply sim_if; [apply sim_ret|]. apply sim_if; [apply sim_ret|]. apply sim_bind; [apply sim_read | intros o].
  apply sim_if; [apply sim_fail|]. apply sim_bind; [apply sim_write | intros _]. cbv zeta.
  repeat (apply sim_if; [apply sim_fail|]). apply sim_len_loop.
Qed.
Lemma sim_parse_id_length k fuel : sim k (parse_id_length R fuel) (parse_id_length slice_reader fuel).
Proof. apply sim_bind; [apply sim_parse_id | intros _; apply sim_parse_length]. Qed.
End Sim.

(** read_exact on a slice in closed form. *)
Lemma read_exact_slice fuel n bs w : (2 <= fuel)%nat ->
  read_exact slice_reader fuel n (bs, w) =
    if n <=? nlen bs then (Ok tt, (drop n bs, w ++ take n bs))
    else (Err (Io UnexpectedEof), ([], w ++ bs)).
Proof.
  intros Hf. destruct fuel as [|[|fuel]]; try lia. cbn [read_exact].
  destruct (N.eqb_spec n 0) as [->|N0].
  { destruct (N.leb_spec 0 (nlen bs)); [|lia]. now rewrite take_0, drop_0, app_nil_r. }
  cbn [rd_read slice_reader]. destruct (N.leb_spec n (nlen bs)) as [L|L].
  - destruct (take n bs) as [|b l] eqn:E.
    { apply (f_equal nlen) in E. rewrite nlen_take, nlen_nil in E. lia. }
    rewrite <- E. assert (Ln : nlen (take n bs) = n) by (rewrite nlen_take; lia). rewrite Ln.
    destruct (N.leb_spec n n); [|lia]. rewrite N.sub_diag. reflexivity.
  - rewrite take_ge, drop_ge by lia. destruct bs as [|b l]; [now rewrite app_nil_r|].
    destruct (N.leb_spec (nlen (b :: l)) n); [|lia].
    destruct (N.eqb_spec (n - nlen (b :: l)) 0); [lia|].
    assert (T : forall m, take m (@nil N) = []) by (intros; apply take_ge; rewrite nlen_nil; lia).
    assert (D : forall m, drop m (@nil N) = []) by (intros; apply drop_ge; rewrite nlen_nil; lia).
    rewrite T, D. reflexivity.
Qed.
(** read_exact on a steady reader, with enough fuel. *)
Lemma read_exact_steady {S} (R : reader S) content inv : steady R content inv ->
  forall fuel n s w, inv s -> (length (content s) + 2 <= fuel)%nat ->
    exists s1 w1, read_exact R fuel n (s, w) = (if n <=? nlen (content s) then Ok tt else Err (Io UnexpectedEof), (s1, w1)) /\
      inv s1 /\ content s1 = drop n (content s) /\ w1 = w ++ take n (content s).
Proof.
  intros Hst. induction fuel as [|fuel IH]; intros n s w Hi Hf; [lia|]. cbn [read_exact].
  destruct (N.eqb_spec n 0) as [->|N0].
  { exists s, w. destruct (N.leb_spec 0 (nlen (content s))); [|lia]. rewrite take_0, drop_0, app_nil_r. auto. }
  destruct (Hst s n Hi) as (c & s' & E & Hi' & Ec & Lc & H0). rewrite E.
  destruct c as [|b c].
  - specialize (H0 ltac:(lia) eq_refl). exists s', w. rewrite H0 in *. cbn [app] in Ec. rewrite <- Ec.
    destruct (N.leb_spec n (nlen (@nil N))) as [L|L]; [rewrite nlen_nil in L; lia|].
    rewrite take_ge, drop_ge, app_nil_r by (rewrite nlen_nil; lia). auto.
  - remember (b :: c) as cc eqn:Ecc. destruct (N.leb_spec (nlen cc) n); [|lia].
    assert (Hlen : (1 <= length cc)%nat) by (rewrite Ecc; simpl; lia).
    assert (Hf' : (length (content s') + 2 <= fuel)%nat).
    { rewrite Ec, app_length in Hf. lia. }
    destruct (IH (n - nlen cc) s' (w ++ cc) Hi' Hf') as (s1 & w1 & E1 & Hi1 & Ec1 & Ew1).
    exists s1, w1. rewrite E1, Ec. rewrite nlen_app.
    split; [|split; [assumption|]].
    + f_equal. destruct (N.leb_spec (n - nlen cc) (nlen (content s'))), (N.leb_spec n (nlen cc + nlen (content s'))); auto; lia.
    + split.
      * rewrite Ec1. now rewrite drop_app_ge by lia.
      * rewrite Ew1, take_app_ge, app_assoc by lia. reflexivity.
Qed.
Lemma sim_read_exact {S} (R : reader S) content inv : steady R content inv ->
  forall k fuel n, (k + 2 <= fuel)%nat -> sim content inv k (read_exact R fuel n) (read_exact slice_reader fuel n).
Proof.
  intros Hst k fuel n Hf s w Hi Hk.
  destruct (read_exact_steady R content inv Hst fuel n s w Hi ltac:(lia)) as (s1 & w1 & E & Hi1 & Ec1 & Ew1).
  rewrite E, Ec1, Ew1, read_exact_slice by lia.
  assert (L : (length (drop n (content s)) <= k)%nat).
  { pose proof (nlen_drop n (content s)). rewrite !nlen_length in H. lia. }
  destruct (N.leb_spec n (nlen (content s))) as [H|H]; repeat split; auto.
  rewrite take_ge, drop_ge by lia. reflexivity.
Qed.

Section SimTlv.
Context {S : Type} (R : reader S) (content : S -> list N) (inv : S -> Prop) (Hst : steady R content inv).
Lemma sim_ber_do_parse k fuel : (k + 2 <= fuel)%nat -> sim content inv k (Ber_do_parse R fuel) (Ber_do_parse slice_reader fuel).
Proof.
  intros Hf s w Hi Hk. unfold Ber_do_parse at 1. cbn [snd].
  revert s w Hi Hk.
  assert (G : forall init, sim content inv k
    (l <- parse_id_length R fuel ;; match l with
       | Indefinite => pret 1%Z
       | Definite length => fun st1 => if isize_max <? nlen (snd st1) + length then (Panic, st1)
           else (read_exact R fuel length ;;; fun st2 => (Ok (if bytes_eqb (drop init (snd st2)) EOC then (-1)%Z else 0%Z), st2)) st1 end)
    (l <- parse_id_length slice_reader fuel ;; match l with
       | Indefinite => pret 1%Z
       | Definite length => fun st1 => if isize_max <? nlen (snd st1) + length then (Panic, st1)
           else (read_exact slice_reader fuel length ;;; fun st2 => (Ok (if bytes_eqb (drop init (snd st2)) EOC then (-1)%Z else 0%Z), st2)) st1 end)).
  { intros init. apply sim_bind; [now apply sim_parse_id_length | intros [|n]]; [apply sim_ret|].
    intros s w Hi Hk. cbn [snd]. destruct (isize_max <? nlen w + n); [auto|].
    apply (sim_bind content inv k (read_exact R fuel n) (read_exact slice_reader fuel n)
      (fun _ st2 => (Ok (if bytes_eqb (drop init (snd st2)) EOC then (-1)%Z else 0%Z), st2))
      (fun _ st2 => (Ok (if bytes_eqb (drop init (snd st2)) EOC then (-1)%Z else 0%Z), st2))); auto.
    - now apply sim_read_exact.
    - intros _ s2 w2 Hi2 Hk2. cbn [snd]. auto. }
  intros s w Hi Hk. apply (G (nlen w) s w Hi Hk).
Qed.
Lemma sim_ber_loop k ifuel fuel : (k + 2 <= ifuel)%nat -> forall d, sim content inv k (Ber_loop R ifuel fuel d) (Ber_loop slice_reader ifuel fuel d).
Proof.
  intros Hf. induction fuel as [|fuel IH]; intros d; cbn [Ber_loop].
  - intros s w Hi Hk. auto.
  - intros s w Hi Hk. revert s w Hi Hk.
    apply (sim_bind content inv k (Ber_do_parse R ifuel) (Ber_do_parse slice_reader ifuel)); [now apply sim_ber_do_parse|].
    intros z. cbv zeta. apply sim_if; [apply IH | apply sim_ret].
Qed.
(** The parsers on a steady reader do what they do on a slice with its content. *)
Theorem steady_id s fuel : inv s ->
  exists s', Id_parse R fuel s = (fst (Id_parse slice_reader fuel (content s)), s') /\ inv s' /\
    content s' = snd (Id_parse slice_reader fuel (content s)).
Proof.
  intros Hi. pose proof (sim_parse_id R content inv Hst (length (content s)) fuel s [] Hi (le_n _)) as H.
  unfold Id_parse. destruct (parse_id R fuel (s, [])) as [r [s1 w1]]. destruct H as (-> & Hi1 & _).
  exists s1. destruct r; cbn [fst snd]; auto.
Qed.
Theorem steady_length s : inv s ->
  exists s', Length_parse R s = (fst (Length_parse_slice (content s)), s') /\ inv s' /\
    content s' = snd (Length_parse_slice (content s)).
Proof.
  intros Hi. pose proof (sim_parse_length R content inv Hst (length (content s)) s [] Hi (le_n _)) as H.
  unfold Length_parse, Length_parse_slice. destruct (parse_length R (s, [])) as [r [s1 w1]]. destruct H as (-> & Hi1 & _).
  exists s1. cbn [fst snd]; auto.
Qed.
Theorem steady_ber s fuel : inv s -> (length (content s) + 2 <= fuel)%nat ->
  exists s', Ber_parse R fuel s = (fst (Ber_parse slice_reader fuel (content s)), s') /\ inv s' /\
    content s' = snd (Ber_parse slice_reader fuel (content s)).
Proof.
  intros Hi Hf. pose proof (sim_ber_loop (length (content s)) fuel fuel Hf 0%Z s [] Hi (le_n _)) as H.
  unfold Ber_parse. destruct (Ber_loop R fuel fuel 0 (s, [])) as [r [s1 w1]]. destruct H as (-> & Hi1 & _).
  exists s1. destruct r; cbn [fst snd]; auto.
Qed.
Theorem greedy_der s fuel : greedy R content inv -> inv s ->
  exists s', Der_parse R fuel s = (fst (Der_parse slice_reader fuel (content s)), s') /\ inv s' /\
    content s' = snd (Der_parse slice_reader fuel (content s)).
Proof.
  intros Hg Hi. pose proof (sim_parse_id_length R content inv Hst (length (content s)) fuel s [] Hi (le_n _)) as H.
  unfold Der_parse. destruct (parse_id_length R fuel (s, [])) as [r [s1 w1]]. destruct H as (-> & Hi1 & _).
  destruct r as [[|n]| | |]; cbn [fst snd]; eauto.
  destruct (isize_max <? nlen w1 + n); cbn [fst snd]; eauto.
  destruct (Hg s1 n Hi1) as (s2 & E & Hi2 & Ec2). rewrite E. cbn [rd_read slice_reader].
  destruct (n <? nlen (take n (content s1))); cbn [fst snd]; eauto.
  destruct (nlen (take n (content s1)) <? n); cbn [fst snd]; eauto.
Qed.
End SimTlv.

(** ** Replaying a successful run on a slice *)
Section Replay.
Context {S : Type} (R : reader S) (content : S -> list N) (Hh : honest R content).
Definition replays {A} (m : parser S A) (m' : parser (list N) A) : Prop :=
  forall s w a s1 w1, m (s, w) = (Ok a, (s1, w1)) ->
    exists c, content s = c ++ content s1 /\ forall r, m' (c ++ r, w) = (Ok a, (r, w1)).
Lemma rp_ret {A} (a : A) : replays (pret a) (pret a).
Proof. intros s w a' s1 w1 [= <- <- <-]. exists []. auto. Qed.
Lemma rp_fail {A} e : replays (A := A) (pfail e) (pfail e).
Proof. intros s w a' s1 w1 H. discriminate. Qed.
Lemma rp_write b : replays (write_u8 b) (write_u8 b).
Proof. intros s w a' s1 w1 [= <- <- <-]. exists []. auto. Qed.
Lemma rp_bind {A B} m m' (f : A -> parser S B) f' : replays m m' -> (forall a, replays (f a) (f' a)) -> replays (pbind m f) (pbind m' f').
Proof.
  intros Hm Hf s w b s2 w2 H. unfold pbind in H. destruct (m (s, w)) as [[a| | |] [s1 w1]] eqn:E; try discriminate.
  destruct (Hm _ _ _ _ _ E) as (c1 & Ec1 & R1). destruct (Hf _ _ _ _ _ _ H) as (c2 & Ec2 & R2).
  exists (c1 ++ c2). split; [now rewrite <- app_assoc, <- Ec2|].
  intros r. rewrite <- app_assoc. unfold pbind. now rewrite R1.
Qed.
Lemma rp_if {A} (b : bool) (m1 m2 : parser S A) m1' m2' : replays m1 m1' -> replays m2 m2' -> replays (if b then m1 else m2) (if b then m1' else m2').
Proof. destruct b; auto. Qed.
Lemma rp_read : replays (read_u8 R) (read_u8 slice_reader).
Proof.
  intros s w a s1 w1 H. unfold read_u8 in H. pose proof (Hh s 1) as Hs. destruct (rd_read R s 1) as [[c|k] s'].
  - destruct Hs as [Ec Lc]. destruct (one_octet c Lc) as [->|(b & ->)]; [discriminate|].
    injection H as <- <- <-. exists [b]. split; [assumption|]. intros r. apply read_u8_cons.
  - discriminate.
Qed.
Lemma rp_id_loop fuel : forall i o, replays (parse_id_loop R fuel i o) (parse_id_loop slice_reader fuel i o).
Proof.
  induction fuel as [|fuel IH]; intros i o; cbn [parse_id_loop].
  - intros s w a s1 w1 H. discriminate.
  - apply rp_bind; [apply rp_write | intros _]. apply rp_if; [apply rp_ret|].
    apply rp_bind; [apply rp_read | intros o2]. apply IH.
Qed.
Lemma rp_parse_id fuel : replays (parse_id R fuel) (parse_id slice_reader fuel).
Proof.
  unfold parse_id. apply rp_bind; [apply rp_read | intros f]. apply rp_bind; [apply rp_write | intros _].
  apply rp_if; [apply rp_ret|]. apply rp_bind; [apply rp_read | intros o].
  repeat (apply rp_if; [apply rp_fail|]). apply rp_id_loop.
Qed.
Lemma rp_len_loop j : forall n, replays (parse_length_loop R j n) (parse_length_loop slice_reader j n).
Proof.
  induction j as [|j IH]; intros n; cbn [parse_length_loop]; [apply rp_ret|].
  apply rp_bind; [apply rp_read | intros b]. apply rp_bind; [apply rp_write | intros _]. apply IH.
Qed.
Lemma rp_parse_length : replays (parse_length R) (parse_length slice_reader).
Proof.
  unfold parse_length. apply rp_bind; [apply rp_read | intros f]. apply rp_bind; [apply rp_write | intros _].
  apply rp_if; [apply rp_ret|]. apply rp_if; [apply rp_ret|]. apply rp_bind; [apply rp_read | intros o].
  apply rp_if; [apply rp_fail|]. apply rp_bind; [apply rp_write | intros _]. cbv zeta.
  repeat (apply rp_if; [apply rp_fail|]). apply rp_len_loop.
Qed.
Lemma rp_parse_id_length fuel : replays (parse_id_length R fuel) (parse_id_length slice_reader fuel).
Proof. apply rp_bind; [apply rp_parse_id | intros _; apply rp_parse_length]. Qed.
Lemma rp_read_exact_1 fuel : forall n s w s1 w1, read_exact R fuel n (s, w) = (Ok tt, (s1, w1)) ->
  exists c, content s = c ++ content s1 /\ nlen c = n /\ w1 = w ++ c /\ (0 < n -> (2 <= fuel)%nat) /\ (1 <= fuel)%nat.
Proof.
  induction fuel as [|fuel IH]; intros n s w s1 w1 H; cbn [read_exact] in H; [discriminate|].
  destruct (N.eqb_spec n 0) as [->|N0].
  { injection H as <- <-. exists []. rewrite app_nil_r, nlen_nil. repeat split; auto; lia. }
  pose proof (Hh s n) as Hs. destruct (rd_read R s n) as [[c|k] s'].
  - destruct Hs as [Ec Lc]. destruct c as [|b c]; [discriminate|]. remember (b :: c) as cc.
    destruct (N.leb_spec (nlen cc) n); [|lia].
    destruct (IH _ _ _ _ _ H) as (c2 & Ec2 & Lc2 & -> & _ & F). exists (cc ++ c2). rewrite nlen_app.
    split; [now rewrite Ec, Ec2, <- app_assoc|]. split; [lia|]. split; [now rewrite app_assoc|]. split; lia.
  - destruct k; try discriminate. destruct (IH _ _ _ _ _ H) as (c2 & Ec2 & Lc2 & -> & F2 & F).
    exists c2. rewrite Hs. repeat split; auto; lia.
Qed.
Lemma rp_read_exact fuel n : replays (read_exact R fuel n) (read_exact slice_reader fuel n).
Proof.
  intros s w [] s1 w1 H. destruct (rp_read_exact_1 fuel n s w s1 w1 H) as (c & Ec & Lc & -> & F2 & F1).
  exists c. split; [assumption|]. intros r. destruct (N.eq_dec n 0) as [->|N0].
  - apply nlen_zero in Lc. subst c. cbn [app]. rewrite app_nil_r. destruct fuel; [lia | reflexivity].
  - rewrite read_exact_slice by (apply F2; lia). rewrite nlen_app.
    destruct (N.leb_spec n (nlen c + nlen r)); [|lia]. subst n. now rewrite take_app_exact, drop_app_exact.
Qed.
Lemma rp_ber_do_parse fuel : replays (Ber_do_parse R fuel) (Ber_do_parse slice_reader fuel).
Proof.
  intros s w a s1 w1 H. unfold Ber_do_parse in *. cbn [snd] in *.
  revert s w a s1 w1 H.
  assert (G : forall init, replays
    (l <- parse_id_length R fuel ;; match l with
       | Indefinite => pret 1%Z
       | Definite length => fun st1 => if isize_max <? nlen (snd st1) + length then (Panic, st1)
           else (read_exact R fuel length ;;; fun st2 => (Ok (if bytes_eqb (drop init (snd st2)) EOC then (-1)%Z else 0%Z), st2)) st1 end)
    (l <- parse_id_length slice_reader fuel ;; match l with
       | Indefinite => pret 1%Z
       | Definite length => fun st1 => if isize_max <? nlen (snd st1) + length then (Panic, st1)
           else (read_exact slice_reader fuel length ;;; fun st2 => (Ok (if bytes_eqb (drop init (snd st2)) EOC then (-1)%Z else 0%Z), st2)) st1 end)).
  { intros init. apply rp_bind; [apply rp_parse_id_length | intros [|n]]; [apply rp_ret|].
    intros s w a s1 w1 H. cbn [snd] in *. destruct (isize_max <? nlen w + n) eqn:EM; [discriminate|].
    destruct (rp_bind (read_exact R fuel n) (read_exact slice_reader fuel n)
      (fun _ st2 => (Ok (if bytes_eqb (drop init (snd st2)) EOC then (-1)%Z else 0%Z), st2))
      (fun _ st2 => (Ok (if bytes_eqb (drop init (snd st2)) EOC then (-1)%Z else 0%Z), st2))
      (rp_read_exact fuel n)) with (2 := H) as (c & Ec & R1).
    - intros _ s2 w2 a2 s3 w3 H2. injection H2 as <- <- <-. exists []. auto.
    - exists c. split; [assumption|]. assumption. }
  intros s w a s1 w1 H. apply (G (nlen w) s w a s1 w1 H).
Qed.
Lemma rp_ber_loop ifuel fuel : forall d, replays (Ber_loop R ifuel fuel d) (Ber_loop slice_reader ifuel fuel d).
Proof.
  induction fuel as [|fuel IH]; intros d; cbn [Ber_loop].
  - intros s w a s1 w1 H. discriminate.
  - intros s w. revert s w.
    apply (rp_bind (Ber_do_parse R ifuel) (Ber_do_parse slice_reader ifuel)); [apply rp_ber_do_parse|].
    intros z. cbv zeta. apply rp_if; [apply IH | apply rp_ret].
Qed.
Theorem replay_id fuel s v s' : Id_parse R fuel s = (Ok v, s') ->
  exists c, content s = c ++ content s' /\ forall r, Id_parse slice_reader fuel (c ++ r) = (Ok v, r).
Proof.
  unfold Id_parse. intros H. destruct (parse_id R fuel (s, [])) as [[a| | |] [s1 w1]] eqn:E; try discriminate.
  injection H as <- <-. destruct (rp_parse_id fuel _ _ _ _ _ E) as (c & Ec & Rp). exists c. split; [assumption|].
  intros r. now rewrite Rp.
Qed.
Theorem replay_length s l s' : Length_parse R s = (Ok l, s') ->
  exists c, content s = c ++ content s' /\ forall r, Length_parse_slice (c ++ r) = (Ok l, r).
Proof.
  unfold Length_parse, Length_parse_slice. intros H. destruct (parse_length R (s, [])) as [[a| | |] [s1 w1]] eqn:E; try discriminate.
  injection H as <- <-. destruct (rp_parse_length _ _ _ _ _ E) as (c & Ec & Rp). exists c. split; [assumption|].
  intros r. now rewrite Rp.
Qed.
Theorem replay_der fuel s v s' : Der_parse R fuel s = (Ok v, s') ->
  exists c, content s = c ++ content s' /\ forall r, Der_parse slice_reader fuel (c ++ r) = (Ok v, r).
Proof.
  unfold Der_parse. intros H. destruct (parse_id_length R fuel (s, [])) as [[[|n]| | |] [s1 w1]] eqn:E; try discriminate.
  destruct (rp_parse_id_length fuel _ _ _ _ _ E) as (c & Ec & Rp).
  destruct (isize_max <? nlen w1 + n) eqn:EM; [discriminate|].
  pose proof (Hh s1 n) as Hs. destruct (rd_read R s1 n) as [[c2|k] s2]; [|discriminate].
  destruct Hs as [Ec2 Lc2]. destruct (N.ltb_spec n (nlen c2)); [discriminate|]. destruct (N.ltb_spec (nlen c2) n); [discriminate|].
  injection H as <- <-. exists (c ++ c2). split; [now rewrite Ec, Ec2, app_assoc|].
  intros r. rewrite <- app_assoc, Rp, EM. cbn [rd_read slice_reader]. assert (n = nlen c2) by lia. subst n.
  rewrite take_app_exact, drop_app_exact. destruct (N.ltb_spec (nlen c2) (nlen c2)); [lia | reflexivity].
Qed.
Theorem replay_ber fuel s v s' : Ber_parse R fuel s = (Ok v, s') ->
  exists c, content s = c ++ content s' /\ forall r, Ber_parse slice_reader fuel (c ++ r) = (Ok v, r).
Proof.
  unfold Ber_parse. intros H. destruct (Ber_loop R fuel fuel 0 (s, [])) as [[a| | |] [s1 w1]] eqn:E; try discriminate.
  injection H as <- <-. destruct (rp_ber_loop fuel fuel 0%Z _ _ _ _ _ E) as (c & Ec & Rp). exists c. split; [assumption|].
  intros r. now rewrite Rp.
Qed.
End Replay.

(** ** Slices: header with octets [w] already held *)
Lemma stream_definite id n len rest w fuel :
  is_identifier id -> minimal_length n len -> n < 2 ^ 64 -> bytes_ok rest -> (length (id ++ len ++ rest) <= fuel)%nat ->
  parse_id_length slice_reader fuel (id ++ len ++ rest, w) = (Ok (Definite n), (rest, w ++ id ++ len)).
Proof.
  intros Hi Hm Hn Hr Hf. pose proof (minimal_length_ok _ _ Hm) as Hml.
  assert (bytes_ok (len ++ rest)) by (apply bytes_ok_app; auto).
  unfold parse_id_length. erewrite pbind_ok by (apply parse_id_ok; auto).
  rewrite (parse_length_definite n); auto. now rewrite <- app_assoc.
Qed.
Lemma stream_indefinite id rest w fuel :
  is_identifier id -> bytes_ok rest -> (length (id ++ 0x80%N :: rest) <= fuel)%nat ->
  parse_id_length slice_reader fuel (id ++ 0x80 :: rest, w) = (Ok Indefinite, (rest, w ++ id ++ [0x80])).
Proof.
  intros Hi Hr Hf. unfold parse_id_length. erewrite pbind_ok.
  2:{ apply parse_id_ok; auto. apply bytes_ok_cons; split; [lia | assumption]. }
  rewrite parse_length_indefinite. now rewrite <- app_assoc.
Qed.
Lemma stream_id_error bs e w fuel : bytes_ok bs -> identifier_error bs e -> (length bs <= fuel)%nat ->
  exists st, parse_id_length slice_reader fuel (bs, w) = (Err e, st).
Proof.
  intros Hok He Hf. unfold parse_id_length. destruct (parse_id_error bs e w fuel Hok Hf He) as (st & E).
  exists st. now apply pbind_err.
Qed.
Lemma stream_length_error id t e w fuel : is_identifier id -> bytes_ok t -> length_error t e -> (length (id ++ t) <= fuel)%nat ->
  exists st, parse_id_length slice_reader fuel (id ++ t, w) = (Err e, st).
Proof.
  intros Hi Ht He Hf. unfold parse_id_length. erewrite pbind_ok by (apply parse_id_ok; auto).
  apply parse_length_error; auto.
Qed.

(** ** Der::parse on a slice *)
Theorem der_stream_ok id c v rest fuel : der_tlv id c v -> bytes_ok (v ++ rest) -> nlen v <= isize_max ->
  (length (v ++ rest) <= fuel)%nat -> Der_parse slice_reader fuel (v ++ rest) = (Ok v, rest).
Proof.
  intros H Hok Hv Hf. apply der_tlv_parts in H as (len & -> & Hi & Hm & Hn). rewrite <- !app_assoc in *.
  assert (Hr : bytes_ok (c ++ rest)) by (apply bytes_ok_app in Hok as [_ Hok]; now apply bytes_ok_app in Hok as [_ Hok]).
  unfold Der_parse. rewrite (stream_definite id (nlen c)) by auto. cbn [app].
  assert (L : nlen (id ++ len) + nlen c = nlen (id ++ len ++ c)) by (rewrite !nlen_app; lia). rewrite L.
  destruct (N.ltb_spec isize_max (nlen (id ++ len ++ c))); [lia|]. cbn [rd_read slice_reader].
  rewrite take_app_exact, drop_app_exact. destruct (N.ltb_spec (nlen c) (nlen c)); [lia|]. now rewrite <- app_assoc.
Qed.
Theorem der_stream_err bs e fuel : bytes_ok bs -> der_error bs e -> (length bs <= fuel)%nat ->
  fst (Der_parse slice_reader fuel bs) = Err e \/
  (fst (Der_parse slice_reader fuel bs) = Panic /\ exists id n len t, bs = id ++ len ++ t /\ is_identifier id /\ minimal_length n len /\
     n < 2 ^ 64 /\ nlen t < n /\ isize_max < nlen (id ++ len) + n).
Proof.
  intros Hok He Hf. unfold Der_parse. destruct He as [bs e He|id t e Hi He|id t Hi|id n len t Hi Hm Hn Hl].
  - destruct (stream_id_error bs e [] fuel Hok He Hf) as ((r & w) & ->). auto.
  - apply bytes_ok_app in Hok as [_ Hok]. destruct (stream_length_error id t e [] fuel Hi Hok He Hf) as ((r & w) & ->). auto.
  - apply bytes_ok_app in Hok as [_ Hok]. apply bytes_ok_cons in Hok as [_ Hok].
    change (id ++ [0x80] ++ t) with (id ++ 0x80 :: t) in *. rewrite stream_indefinite by auto. auto.
  - apply bytes_ok_app in Hok as [_ Hok]. apply bytes_ok_app in Hok as [_ Hok].
    rewrite (stream_definite id n) by auto. cbn [app].
    destruct (N.ltb_spec isize_max (nlen (id ++ len) + n)) as [L|L].
    + right. split; [reflexivity|]. exists id, n, len, t. auto 10.
    + left. cbn [rd_read slice_reader]. rewrite take_ge by lia.
      destruct (N.ltb_spec n (nlen t)); [lia|]. destruct (N.ltb_spec (nlen t) n); [reflexivity | lia].
Qed.
Theorem der_stream_huge id n len t fuel : is_identifier id -> minimal_length n len -> n < 2 ^ 64 -> bytes_ok t ->
  isize_max < nlen (id ++ len) + n -> (length (id ++ len ++ t) <= fuel)%nat ->
  fst (Der_parse slice_reader fuel (id ++ len ++ t)) = Panic.
Proof.
  intros Hi Hm Hn Ht HM Hf. unfold Der_parse. rewrite (stream_definite id n) by auto. cbn [app].
  destruct (N.ltb_spec isize_max (nlen (id ++ len) + n)); [reflexivity | lia].
Qed.

(** ** Ber::parse on a slice *)
Lemma stream_step_definite id c v r w fuel : der_tlv id c v -> bytes_ok (v ++ r) -> nlen (w ++ v) <= isize_max ->
  (length (v ++ r) + 2 <= fuel)%nat ->
  Ber_do_parse slice_reader fuel (v ++ r, w) = (Ok (if bytes_eqb v EOC then (-1)%Z else 0%Z), (r, w ++ v)).
Proof.
  intros H Hok Hv Hf. apply der_tlv_parts in H as (len & -> & Hi & Hm & Hn). rewrite <- !app_assoc in *.
  assert (Hr : bytes_ok (c ++ r)) by (apply bytes_ok_app in Hok as [_ Hok]; now apply bytes_ok_app in Hok as [_ Hok]).
  unfold Ber_do_parse. cbn [snd]. erewrite pbind_ok by (apply (stream_definite id (nlen c)); auto; lia). cbv beta iota. cbn [snd].
  assert (L : nlen (w ++ id ++ len) + nlen c = nlen (w ++ id ++ len ++ c)) by (rewrite !nlen_app; lia). rewrite L.
  destruct (N.ltb_spec isize_max (nlen (w ++ id ++ len ++ c))); [lia|].
  unfold pbind. rewrite read_exact_slice by lia. rewrite nlen_app.
  destruct (N.leb_spec (nlen c) (nlen c + nlen r)); [|lia]. rewrite take_app_exact, drop_app_exact.
  cbn [snd]. rewrite <- !app_assoc. now rewrite drop_app_exact.
Qed.
Lemma stream_step_indefinite id r w fuel : is_identifier id -> bytes_ok r -> (length (id ++ 0x80%N :: r) <= fuel)%nat ->
  Ber_do_parse slice_reader fuel (id ++ 0x80 :: r, w) = (Ok 1%Z, (r, w ++ id ++ [0x80])).
Proof.
  intros Hi Hr Hf. unfold Ber_do_parse. erewrite pbind_ok by (apply stream_indefinite; auto). reflexivity.
Qed.
Lemma not_eoc v : v <> [0; 0] -> bytes_eqb v EOC = false.
Proof. intros H. destruct (bytes_eqb v EOC) eqn:E; [|reflexivity]. apply bytes_eqb_eq in E. now elim H. Qed.
Lemma stream_step_eoc r w fuel : bytes_ok r -> nlen (w ++ EOC) <= isize_max -> (length (EOC ++ r) + 2 <= fuel)%nat ->
  Ber_do_parse slice_reader fuel (EOC ++ r, w) = (Ok (-1)%Z, (r, w ++ EOC)).
Proof.
  intros Hr Hw Hf. rewrite (stream_step_definite [0] [] EOC); auto.
  - apply eoc_tlv.
  - apply bytes_ok_app. split; [|assumption]. repeat constructor.
Qed.

Lemma stream_loop_complete ifuel :
  (forall v, ber_value v -> v <> [0; 0] -> forall d r w fuel, bytes_ok (v ++ r) -> nlen (w ++ v) <= isize_max ->
     (length (v ++ r) + 2 <= ifuel)%nat -> (length (v ++ r) < fuel)%nat ->
     exists fuel', (length r < fuel')%nat /\
       Ber_loop slice_reader ifuel fuel (Z.of_nat (S d)) (v ++ r, w) = Ber_loop slice_reader ifuel fuel' (Z.of_nat (S d)) (r, w ++ v)) /\
  (forall items, ber_items items -> forall d r w fuel, bytes_ok (items ++ r) -> nlen (w ++ items) <= isize_max ->
     (length (items ++ r) + 2 <= ifuel)%nat -> (length (items ++ r) < fuel)%nat ->
     exists fuel', (length r < fuel')%nat /\
       Ber_loop slice_reader ifuel fuel (Z.of_nat (S d)) (items ++ r, w) = Ber_loop slice_reader ifuel fuel' (Z.of_nat (S d)) (r, w ++ items)).
Proof.
  apply ber_mutind.
  - intros id c v Hd NE d r w fuel Hok Hw Hi Hf. destruct fuel as [|fuel]; [lia|].
    pose proof (v_len_pos v (der_tlv_nonempty _ _ _ Hd)).
    exists fuel. split; [rewrite app_length in Hf; lia|]. cbn [Ber_loop].
    erewrite pbind_ok by (eapply stream_step_definite; eauto). rewrite not_eoc by assumption. cbv zeta.
    rewrite Z.add_0_r. destruct (Z.ltb_spec 0 (Z.of_nat (S d))); [reflexivity | lia].
  - intros id items Hi Hit IH _ d r w fuel Hok Hw Hif Hf. destruct fuel as [|fuel]; [lia|].
    replace ((id ++ [0x80] ++ items ++ [0; 0]) ++ r) with (id ++ 0x80 :: items ++ EOC ++ r) in *
      by (rewrite <- !app_assoc; reflexivity).
    assert (Hok2 : bytes_ok (items ++ EOC ++ r)).
    { apply bytes_ok_app in Hok as [_ Hok]. now apply bytes_ok_cons in Hok as [_ Hok]. }
    pose proof Hok2 as Hok3. apply bytes_ok_app in Hok3 as [_ Hok3]. apply bytes_ok_app in Hok3 as [_ Hok3].
    cbn [Ber_loop]. erewrite pbind_ok by (apply stream_step_indefinite; auto; lia). cbv zeta.
    rewrite app_length in Hf, Hif. cbn [length] in Hf, Hif.
    replace (Z.of_nat (S d) + 1)%Z with (Z.of_nat (S (S d))) by lia.
    destruct (Z.ltb_spec 0 (Z.of_nat (S (S d)))); [|lia].
    assert (Hw2 : nlen ((w ++ id ++ [0x80]) ++ items) <= isize_max).
    { rewrite !nlen_app in *. lia. }
    destruct (IH (S d) (EOC ++ r) (w ++ id ++ [0x80]) fuel Hok2 Hw2 ltac:(lia) ltac:(lia)) as (f1 & Hf1 & E1).
    rewrite app_length in Hf1. cbn [length EOC] in Hf1. destruct f1 as [|f2]; [lia|].
    exists f2. split; [lia|]. rewrite E1. cbn [Ber_loop].
    erewrite pbind_ok.
    2:{ apply stream_step_eoc; auto.
        - rewrite !nlen_app in *. change (nlen EOC) with (nlen [0; 0]). lia.
        - rewrite !app_length in *. lia. }
    cbv zeta. replace (Z.of_nat (S (S d)) + -1)%Z with (Z.of_nat (S d)) by lia.
    destruct (Z.ltb_spec 0 (Z.of_nat (S d))); [|lia]. rewrite <- !app_assoc. reflexivity.
  - intros d r w fuel Hok Hw Hif Hf. exists fuel. rewrite app_nil_r. auto.
  - intros v items Hv IHv NE Hit IHi d r w fuel Hok Hw Hif Hf.
    rewrite <- app_assoc in *.
    assert (Hw1 : nlen (w ++ v) <= isize_max) by (rewrite !nlen_app in *; lia).
    destruct (IHv NE d (items ++ r) w fuel Hok Hw1 Hif Hf) as (f1 & Hf1 & ->).
    apply bytes_ok_app in Hok as [_ Hok].
    destruct (IHi d r (w ++ v) f1 Hok) as (f2 & Hf2 & ->); auto.
    { now rewrite <- app_assoc. }
    { rewrite app_length in Hif. lia. }
    exists f2. rewrite <- app_assoc. auto.
Qed.

Lemma stream_loop_accepts ifuel v rest fuel : ber_value v -> bytes_ok (v ++ rest) -> nlen v <= isize_max ->
  (length (v ++ rest) + 2 <= ifuel)%nat -> (length (v ++ rest) < fuel)%nat ->
  Ber_loop slice_reader ifuel fuel 0 (v ++ rest, []) = (Ok tt, (rest, v)).
Proof.
  intros Hv Hok Hm Hif Hf. destruct fuel as [|fuel]; [lia|].
  destruct Hv as [id c v Hd|id items Hi Hit]; cbn [Ber_loop].
  - erewrite pbind_ok by (eapply stream_step_definite; eauto). cbn [app].
    destruct (bytes_eqb v EOC); reflexivity.
  - replace ((id ++ [0x80] ++ items ++ [0; 0]) ++ rest) with (id ++ 0x80 :: items ++ EOC ++ rest) in *
      by (rewrite <- !app_assoc; reflexivity).
    assert (Hok2 : bytes_ok (items ++ EOC ++ rest)).
    { apply bytes_ok_app in Hok as [_ Hok]. now apply bytes_ok_cons in Hok as [_ Hok]. }
    pose proof Hok2 as Hok3. apply bytes_ok_app in Hok3 as [_ Hok3]. apply bytes_ok_app in Hok3 as [_ Hok3].
    erewrite pbind_ok by (apply stream_step_indefinite; auto; lia). cbv zeta.
    rewrite app_length in Hf, Hif. cbn [length] in Hf, Hif.
    change (0 <? 0 + 1)%Z with true. cbv iota. change (0 + 1)%Z with (Z.of_nat 1). cbn [app].
    destruct (proj2 (stream_loop_complete ifuel) items Hit 0%nat (EOC ++ rest) (id ++ [0x80]) fuel Hok2) as (f1 & Hf1 & ->); try lia.
    { rewrite !nlen_app in *. lia. }
    destruct f1 as [|f1]; [rewrite app_length in Hf1; cbn in Hf1; lia|].
    cbn [Ber_loop]. erewrite pbind_ok.
    2:{ apply stream_step_eoc; auto.
        - rewrite !nlen_app in *. change (nlen EOC) with (nlen [0; 0]). lia.
        - rewrite !app_length in *. lia. }
    cbv zeta. cbn. rewrite <- !app_assoc. reflexivity.
Qed.

Lemma stream_loop_failure A ifuel pre bs (r : res A) : ber_stream_failure isize_max pre bs r ->
  forall d fuel, bytes_ok bs -> nlen (pre ++ bs) <= isize_max -> (length bs + 2 <= ifuel)%nat -> (length bs < fuel)%nat ->
  exists st, Ber_loop slice_reader ifuel fuel (Z.of_nat d) (bs, pre) = (rmap (fun _ => tt) r, st).
Proof.
  induction 1 as [pre bs e He|pre id t e Hi He|pre id n len t Hi Hm Hn Hl HM|pre id n len t Hi Hm Hn Hl HM|pre id items t r Hi Hit He IH];
    intros d fuel Hok HB Hif Hf; (destruct fuel as [|fuel]; [lia|]); cbn [Ber_loop].
  - destruct (stream_id_error bs e pre ifuel Hok He ltac:(lia)) as (st & E). exists st.
    apply pbind_err. unfold Ber_do_parse. now apply pbind_err.
  - apply bytes_ok_app in Hok as [_ Hok]. destruct (stream_length_error id t e pre ifuel Hi Hok He ltac:(lia)) as (st & E). exists st.
    apply pbind_err. unfold Ber_do_parse. now apply pbind_err.
  - apply bytes_ok_app in Hok as [_ Hok]. apply bytes_ok_app in Hok as [_ Hok]. eexists.
    apply pbind_err. unfold Ber_do_parse. erewrite pbind_ok by (apply (stream_definite id n); auto; lia). cbv beta iota. cbn [snd].
    destruct (N.ltb_spec isize_max (nlen (pre ++ id ++ len) + n)); [lia|]. apply pbind_err.
    rewrite read_exact_slice by lia. destruct (N.leb_spec n (nlen t)); [lia | reflexivity].
  - apply bytes_ok_app in Hok as [_ Hok]. apply bytes_ok_app in Hok as [_ Hok]. eexists.
    unfold pbind at 1. unfold Ber_do_parse. erewrite pbind_ok by (apply (stream_definite id n); auto; lia). cbv beta iota. cbn [snd].
    destruct (N.ltb_spec isize_max (nlen (pre ++ id ++ len) + n)); [reflexivity | lia].
  - change (id ++ [0x80] ++ items ++ t) with (id ++ 0x80 :: items ++ t) in *.
    assert (Hok2 : bytes_ok (items ++ t)).
    { apply bytes_ok_app in Hok as [_ Hok]. now apply bytes_ok_cons in Hok as [_ Hok]. }
    erewrite pbind_ok by (apply stream_step_indefinite; auto; lia). cbv zeta.
    rewrite app_length in Hf, Hif. cbn [length] in Hf, Hif.
    assert (HB2 : nlen pre + nlen id + 1 + nlen items + nlen t <= isize_max).
    { rewrite !nlen_app, nlen_cons, nlen_app in HB. lia. }
    replace (Z.of_nat d + 1)%Z with (Z.of_nat (S d)) by lia.
    destruct (Z.ltb_spec 0 (Z.of_nat (S d))); [|lia].
    destruct (proj2 (stream_loop_complete ifuel) items Hit d t (pre ++ id ++ [0x80]) fuel Hok2) as (f1 & Hf1 & ->); try lia.
    { rewrite !nlen_app. change (nlen [0x80]) with 1. lia. }
    rewrite <- !app_assoc. apply bytes_ok_app in Hok2 as [_ Hok2]. apply IH; auto.
    + rewrite !nlen_app. change (nlen [0x80]) with 1. lia.
    + rewrite app_length in Hif. lia.
Qed.
Lemma failure_of_error A bs e : ber_error bs e -> forall pre, exists r : res A, ber_stream_failure isize_max pre bs r.
Proof.
  induction 1 as [bs e He|id t e Hi He|id n len t Hi Hm Hn Hl|id items t e Hi Hit He IH]; intros pre.
  - eexists. apply bsf_id; eassumption.
  - eexists. apply bsf_length; eassumption.
  - destruct (N.le_gt_cases (nlen (pre ++ id ++ len) + n) isize_max).
    + eexists. eapply bsf_eof; eassumption.
    + eexists. eapply bsf_huge; eassumption.
  - destruct (IH (pre ++ id ++ [0x80] ++ items)) as (r & Hr). exists r. now apply bsf_inside.
Qed.
Lemma error_of_failure A pre bs (r : res A) : ber_stream_failure isize_max pre bs r -> exists e, ber_error bs e.
Proof.
  induction 1 as [pre bs e He|pre id t e Hi He|pre id n len t Hi Hm Hn Hl HM|pre id n len t Hi Hm Hn Hl HM|pre id items t r Hi Hit He (e & IH)].
  - exists e. now apply bre_id.
  - exists e. now apply bre_length.
  - eexists. eapply bre_truncated; eassumption.
  - eexists. eapply bre_truncated; eassumption.
  - exists e. now apply bre_inside.
Qed.
Lemma failure_not_ok A pre bs (r : res A) : ber_stream_failure isize_max pre bs r -> (exists e, r = Err e) \/ r = Panic.
Proof. induction 1; eauto. Qed.

Theorem ber_stream_ok v rest fuel : ber_value v -> bytes_ok (v ++ rest) -> nlen v <= isize_max ->
  (length (v ++ rest) + 2 <= fuel)%nat -> Ber_parse slice_reader fuel (v ++ rest) = (Ok v, rest).
Proof.
  intros Hv Hok Hm Hf. unfold Ber_parse. rewrite stream_loop_accepts by (auto; lia). reflexivity.
Qed.
Theorem ber_stream_fail bs r fuel : bytes_ok bs -> nlen bs <= isize_max -> (length bs + 2 <= fuel)%nat ->
  ber_stream_failure isize_max [] bs r -> fst (Ber_parse slice_reader fuel bs) = r.
Proof.
  intros Hok Hm Hf H. unfold Ber_parse.
  destruct (stream_loop_failure _ fuel [] bs r H 0 fuel Hok Hm Hf ltac:(lia)) as ((s & w) & E).
  change (Z.of_nat 0) with 0%Z in E. rewrite E.
  destruct (failure_not_ok _ _ _ _ H) as [(e & ->)| ->]; reflexivity.
Qed.

(** ** Fuel is a proof device: a run that does not exhaust it does not depend on it *)
Section Fuel.
Context {S : Type} (R : reader S).
Definition refuel {A} (m m' : parser S A) : Prop := forall st, fst (m st) <> NoFuel -> m' st = m st.
Lemma rf_refl {A} (m : parser S A) : refuel m m.
Proof. intros st _. reflexivity. Qed.
Lemma rf_bind {A B} m m' (f f' : A -> parser S B) : refuel m m' -> (forall a, refuel (f a) (f' a)) -> refuel (pbind m f) (pbind m' f').
Proof.
  intros Hm Hf st H. unfold pbind in *. specialize (Hm st). destruct (m st) as [r st1].
  destruct r as [a| | |]; (rewrite Hm; [|cbn [fst] in *; try discriminate; auto]); auto.
  apply Hf. exact H.
Qed.
Lemma rf_if {A} (b : bool) (m1 m2 m1' m2' : parser S A) : refuel m1 m1' -> refuel m2 m2' -> refuel (if b then m1 else m2) (if b then m1' else m2').
Proof. destruct b; auto. Qed.
Lemma rf_id_loop fuel : forall fuel' i o, (fuel <= fuel')%nat -> refuel (parse_id_loop R fuel i o) (parse_id_loop R fuel' i o).
Proof.
  induction fuel as [|fuel IH]; intros fuel' i o Hf.
  - intros st H. now elim H.
  - destruct fuel' as [|fuel']; [lia|]. cbn [parse_id_loop]. apply rf_bind; [apply rf_refl | intros _].
    apply rf_if; [apply rf_refl|]. apply rf_bind; [apply rf_refl | intros o2]. apply IH. lia.
Qed.
Lemma rf_parse_id fuel fuel' : (fuel <= fuel')%nat -> refuel (parse_id R fuel) (parse_id R fuel').
Proof.
  intros Hf. unfold parse_id. do 2 (apply rf_bind; [apply rf_refl | intros ?]).
  apply rf_if; [apply rf_refl|]. apply rf_bind; [apply rf_refl | intros ?].
  repeat (apply rf_if; [apply rf_refl|]). now apply rf_id_loop.
Qed.
Lemma rf_parse_id_length fuel fuel' : (fuel <= fuel')%nat -> refuel (parse_id_length R fuel) (parse_id_length R fuel').
Proof. intros Hf. apply rf_bind; [now apply rf_parse_id | intros _; apply rf_refl]. Qed.
Lemma rf_read_exact fuel : forall fuel' n, (fuel <= fuel')%nat -> refuel (read_exact R fuel n) (read_exact R fuel' n).
Proof.
  induction fuel as [|fuel IH]; intros fuel' n Hf [s w] H.
  - now elim H.
  - destruct fuel' as [|fuel']; [lia|]. cbn [read_exact] in *. destruct (n =? 0); [reflexivity|].
    destruct (rd_read R s n) as [[c|k] s'].
    + destruct c; [reflexivity|]. destruct (nlen (n0 :: c) <=? n); [|reflexivity]. apply IH; [lia | assumption].
    + destruct k; try reflexivity. apply IH; [lia | assumption].
Qed.
Lemma rf_ber_do_parse fuel fuel' : (fuel <= fuel')%nat -> refuel (Ber_do_parse R fuel) (Ber_do_parse R fuel').
Proof.
  intros Hf st. unfold Ber_do_parse. cbv zeta. revert st.
  enough (G : forall init, refuel
    (l <- parse_id_length R fuel ;; match l with
       | Indefinite => pret 1%Z
       | Definite length => fun st1 => if isize_max <? nlen (snd st1) + length then (Panic, st1)
           else (read_exact R fuel length ;;; fun st2 => (Ok (if bytes_eqb (drop init (snd st2)) EOC then (-1)%Z else 0%Z), st2)) st1 end)
    (l <- parse_id_length R fuel' ;; match l with
       | Indefinite => pret 1%Z
       | Definite length => fun st1 => if isize_max <? nlen (snd st1) + length then (Panic, st1)
           else (read_exact R fuel' length ;;; fun st2 => (Ok (if bytes_eqb (drop init (snd st2)) EOC then (-1)%Z else 0%Z), st2)) st1 end)).
  { intros st. exact (G (nlen (snd st)) st). }
  intros init. apply rf_bind; [now apply rf_parse_id_length | intros [|n]]; [apply rf_refl|].
  intros st H. cbv beta in *. destruct (isize_max <? nlen (snd st) + n); [reflexivity|].
  revert H. apply (rf_bind (read_exact R fuel n) (read_exact R fuel' n)); [now apply rf_read_exact | intros _; apply rf_refl].
Qed.
Lemma rf_ber_loop ifuel ifuel' fuel : (ifuel <= ifuel')%nat -> forall fuel' d, (fuel <= fuel')%nat ->
  refuel (Ber_loop R ifuel fuel d) (Ber_loop R ifuel' fuel' d).
Proof.
  intros Hi. induction fuel as [|fuel IH]; intros fuel' d Hf.
  - intros st H. now elim H.
  - destruct fuel' as [|fuel']; [lia|]. cbn [Ber_loop]. intros st. revert st.
    apply (rf_bind (Ber_do_parse R ifuel) (Ber_do_parse R ifuel')); [now apply rf_ber_do_parse | intros z].
    cbv zeta. apply rf_if; [apply IH; lia | apply rf_refl].
Qed.
Theorem refuel_id fuel fuel' s : (fuel <= fuel')%nat -> fst (Id_parse R fuel s) <> NoFuel -> Id_parse R fuel' s = Id_parse R fuel s.
Proof.
  intros Hf H. unfold Id_parse in *. rewrite (rf_parse_id fuel fuel' Hf); [reflexivity|].
  intros E. apply H. destruct (parse_id R fuel (s, [])) as [r [s1 w1]]. cbn in E. now subst.
Qed.
Theorem refuel_der fuel fuel' s : (fuel <= fuel')%nat -> fst (Der_parse R fuel s) <> NoFuel -> Der_parse R fuel' s = Der_parse R fuel s.
Proof.
  intros Hf H. unfold Der_parse in *. rewrite (rf_parse_id_length fuel fuel' Hf); [reflexivity|].
  intros E. apply H. destruct (parse_id_length R fuel (s, [])) as [r [s1 w1]]. cbn in E. now subst.
Qed.
Theorem refuel_ber fuel fuel' s : (fuel <= fuel')%nat -> fst (Ber_parse R fuel s) <> NoFuel -> Ber_parse R fuel' s = Ber_parse R fuel s.
Proof.
  intros Hf H. unfold Ber_parse in *. rewrite (rf_ber_loop fuel fuel' fuel Hf fuel' 0%Z Hf); [reflexivity|].
  intros E. apply H. destruct (Ber_loop R fuel fuel 0 (s, [])) as [r [s1 w1]]. cbn in E. now subst.
Qed.
End Fuel.

(** ** Soundness of the streaming parsers on slices, whatever the fuel *)
Lemma id_stream_cases bs fuel : bytes_ok bs -> (length bs <= fuel)%nat ->
  (exists id rest, is_identifier id /\ bs = id ++ rest /\ Id_parse slice_reader fuel bs = (Ok id, rest)) \/
  (exists e, identifier_error bs e /\ fst (Id_parse slice_reader fuel bs) = Err e).
Proof.
  intros Hok Hf. destruct (identifier_total bs Hok) as [(id & t & Hi & ->)|(e & He)].
  - left. exists id, t. repeat split; auto. apply bytes_ok_app in Hok as [_ Ht].
    unfold Id_parse. rewrite parse_id_ok by auto. reflexivity.
  - right. exists e. split; [assumption|]. unfold Id_parse. destruct (parse_id_error bs e [] fuel Hok Hf He) as ((r & w) & ->). reflexivity.
Qed.
Lemma id_stream_sound bs fuel v rest : bytes_ok bs -> Id_parse slice_reader fuel bs = (Ok v, rest) ->
  is_identifier v /\ bs = v ++ rest.
Proof.
  intros Hok H. assert (E : Id_parse slice_reader (Nat.max fuel (length bs)) bs = (Ok v, rest)).
  { rewrite <- H. apply refuel_id; [lia|]. rewrite H. discriminate. }
  destruct (id_stream_cases bs (Nat.max fuel (length bs)) Hok ltac:(lia)) as [(id & r & Hi & -> & E2)|(e & _ & E2)];
    rewrite E in E2; [|discriminate]. injection E2 as -> ->. auto.
Qed.
Lemma der_stream_sound bs fuel v rest : bytes_ok bs -> Der_parse slice_reader fuel bs = (Ok v, rest) ->
  (exists id c, der_tlv id c v) /\ bs = v ++ rest.
Proof.
  intros Hok H. set (F := Nat.max fuel (length bs)). assert (HF : (length bs <= F)%nat) by (unfold F; lia).
  assert (E : Der_parse slice_reader F bs = (Ok v, rest)).
  { rewrite <- H. apply refuel_der; [unfold F; lia|]. rewrite H. discriminate. }
  destruct (der_total bs Hok) as [(id & c & v' & r & Hd & ->)|(e & He)].
  - unfold Der_parse in E. apply der_tlv_parts in Hd as (len & -> & Hi & Hm & Hn). rewrite <- !app_assoc in *.
    assert (Hr : bytes_ok (c ++ r)) by (apply bytes_ok_app in Hok as [_ Hok]; now apply bytes_ok_app in Hok as [_ Hok]).
    rewrite (stream_definite id (nlen c)) in E by auto. cbn [app] in E.
    destruct (isize_max <? nlen (id ++ len) + nlen c); [discriminate|]. cbn [rd_read slice_reader] in E.
    rewrite take_app_exact, drop_app_exact in E. destruct (N.ltb_spec (nlen c) (nlen c)); [lia|].
    injection E as <- <-. rewrite <- !app_assoc. split; [|reflexivity]. exists id, c. now constructor.
  - destruct (der_stream_err bs e F Hok He HF) as [E2|[E2 _]]; rewrite E in E2; discriminate.
Qed.

(** One iteration of Ber::parse that went well. *)
Lemma stream_step_inv bs w fuel z r w1 : bytes_ok bs -> (length bs + 2 <= fuel)%nat ->
  Ber_do_parse slice_reader fuel (bs, w) = (Ok z, (r, w1)) ->
  exists c, bs = c ++ r /\ w1 = w ++ c /\ bytes_ok r /\ c <> [] /\
    ((exists id c0, der_tlv id c0 c /\ c <> [0; 0] /\ z = 0%Z) \/ (c = [0; 0] /\ z = (-1)%Z) \/
     (exists id, is_identifier id /\ c = id ++ [0x80] /\ z = 1%Z)).
Proof.
  intros Hok Hf H. destruct (header_total bs Hok) as [id n len rest -> Hi Hm Hn Hr|id rest -> Hi Hr|e He|id t e -> Hi He Ht].
  - unfold Ber_do_parse in H. erewrite pbind_ok in H by (apply (stream_definite id n); auto; lia). cbv beta iota in H. cbn [snd] in H.
    destruct (isize_max <? nlen (w ++ id ++ len) + n); [discriminate|].
    unfold pbind in H. rewrite read_exact_slice in H by lia. destruct (N.leb_spec n (nlen rest)) as [L|L]; [|discriminate].
    cbn [snd] in H. rewrite <- !app_assoc, drop_app_exact in H. injection H as <- <- <-.
    assert (E : nlen (take n rest) = n) by (rewrite nlen_take; lia).
    assert (D : der_tlv id (take n rest) (id ++ len ++ take n rest)) by (constructor; rewrite ?E; auto).
    exists (id ++ len ++ take n rest). rewrite <- !app_assoc, take_drop. split; [reflexivity|]. split; [reflexivity|].
    split; [now apply bytes_ok_drop|]. split; [eapply der_tlv_nonempty; eassumption|].
    destruct (bytes_eqb (id ++ len ++ take n rest) EOC) eqn:EB.
    + apply bytes_eqb_eq in EB. right. left. auto.
    + left. exists id, (take n rest). split; [exact D|]. split; [|reflexivity]. intros E2. rewrite E2 in EB. discriminate.
  - rewrite stream_step_indefinite in H by (auto; lia). injection H as <- <- <-.
    exists (id ++ [0x80]). rewrite <- app_assoc. split; [reflexivity|]. split; [reflexivity|]. split; [assumption|].
    split; [|right; right; eauto]. pose proof (is_identifier_nonempty _ Hi). destruct id; [congruence | discriminate].
  - destruct (stream_id_error bs e w fuel Hok He ltac:(lia)) as (st & E). unfold Ber_do_parse in H. erewrite pbind_err in H by exact E. discriminate.
  - destruct (stream_length_error id t e w fuel Hi Ht He ltac:(lia)) as (st & E). unfold Ber_do_parse in H. erewrite pbind_err in H by exact E. discriminate.
Qed.
Lemma stream_loop_sound ifuel fuel : forall d bs w r w1, bytes_ok bs -> (length bs + 2 <= ifuel)%nat ->
  Ber_loop slice_reader ifuel fuel (Z.of_nat (S d)) (bs, w) = (Ok tt, (r, w1)) ->
  exists body, bs = body ++ r /\ w1 = w ++ body /\ closes (S d) body.
Proof.
  induction fuel as [|fuel IH]; intros d bs w r w1 Hok Hf H; [discriminate|]. cbn [Ber_loop] in H.
  destruct (Ber_do_parse slice_reader ifuel (bs, w)) as [[z| | |] [r0 w0]] eqn:E.
  2-4: unfold pbind in H; rewrite E in H; discriminate.
  erewrite pbind_ok in H by exact E. cbv zeta in H.
  destruct (stream_step_inv _ _ _ _ _ _ Hok Hf E) as (c & -> & -> & Hr & Hc & D). rewrite app_length in Hf.
  destruct D as [(id & c0 & Hd & NE & ->)|[(-> & ->)|(id & Hi & -> & ->)]].
  - rewrite Z.add_0_r in H. destruct (Z.ltb_spec 0 (Z.of_nat (S d))); [|lia].
    destruct (IH d r0 _ _ _ Hr ltac:(lia) H) as (body & -> & -> & Cl). exists (c ++ body). rewrite <- !app_assoc.
    repeat split; auto. apply closes_item; auto. now apply bv_definite with id c0.
  - replace (Z.of_nat (S d) + -1)%Z with (Z.of_nat d) in H by lia. destruct d as [|d].
    + cbn in H. injection H as <- <-. exists [0; 0]. repeat split. apply (cl_S 0 [] []); constructor.
    + destruct (Z.ltb_spec 0 (Z.of_nat (S d))); [|lia].
      destruct (IH d r0 _ _ _ Hr ltac:(lia) H) as (body & -> & -> & Cl). exists ([0; 0] ++ body). rewrite <- !app_assoc.
      repeat split; auto. apply (cl_S (S d) [] body); [constructor | assumption].
  - replace (Z.of_nat (S d) + 1)%Z with (Z.of_nat (S (S d))) in H by lia.
    destruct (Z.ltb_spec 0 (Z.of_nat (S (S d)))); [|lia].
    destruct (IH (S d) r0 _ _ _ Hr ltac:(lia) H) as (body & -> & -> & Cl). exists ((id ++ [0x80]) ++ body). rewrite <- !app_assoc.
    repeat split; auto. now apply closes_open.
Qed.
Lemma ber_stream_sound bs fuel v rest : bytes_ok bs -> Ber_parse slice_reader fuel bs = (Ok v, rest) ->
  ber_value v /\ bs = v ++ rest.
Proof.
  intros Hok H. set (F := Nat.max fuel (length bs + 2)). assert (HF : (length bs + 2 <= F)%nat) by (unfold F; lia).
  assert (E : Ber_parse slice_reader F bs = (Ok v, rest)).
  { rewrite <- H. apply refuel_ber; [unfold F; lia|]. rewrite H. discriminate. }
  clearbody F. unfold Ber_parse in E. destruct (Ber_loop slice_reader F F 0 (bs, [])) as [[[]| | |] [r w]] eqn:EL; try discriminate.
  injection E as -> ->. destruct F as [|F]; [discriminate|]. cbn [Ber_loop] in EL.
  destruct (Ber_do_parse slice_reader (Datatypes.S F) (bs, [])) as [[z| | |] [r0 w0]] eqn:E.
  2-4: unfold pbind in EL; rewrite E in EL; discriminate.
  erewrite pbind_ok in EL by exact E. cbv zeta in EL.
  destruct (stream_step_inv _ _ _ _ _ _ Hok HF E) as (c & -> & -> & Hr & Hc & D). rewrite app_length in HF. cbn [app] in *.
  destruct D as [(id & c0 & Hd & NE & ->)|[(-> & ->)|(id & Hi & -> & ->)]].
  - cbn in EL. injection EL as <- <-. split; [|reflexivity]. now apply bv_definite with id c0.
  - cbn in EL. injection EL as <- <-. split; [|reflexivity]. apply bv_definite with [0] []. apply eoc_tlv.
  - change (0 <? 0 + 1)%Z with true in EL. cbv iota in EL. change (0 + 1)%Z with (Z.of_nat 1) in EL.
    destruct (stream_loop_sound (Datatypes.S F) F 0 r0 _ _ _ Hr ltac:(lia) EL) as (body & -> & -> & Cl).
    inversion Cl as [|d items tl Hit Ht]; subst. inversion Ht; subst.
    split; [|now rewrite <- !app_assoc]. rewrite <- app_assoc. now apply bv_indefinite.
Qed.

(** ** Exactly the octets of the value are consumed, by any honest reader *)
Section Exact.
Context {S : Type} (R : reader S) (content : S -> list N) (Hh : honest R content).
Theorem exact_id fuel s v s' : bytes_ok (content s) -> Id_parse R fuel s = (Ok v, s') ->
  is_identifier v /\ content s = v ++ content s'.
Proof.
  intros Hok H. destruct (replay_id R content Hh _ _ _ _ H) as (c & Ec & Rp).
  specialize (Rp (content s')). rewrite <- Ec in Rp. eapply id_stream_sound; eassumption.
Qed.
Theorem exact_length s l s' : bytes_ok (content s) -> Length_parse R s = (Ok l, s') ->
  content s = Length_to_bytes l ++ content s'.
Proof.
  intros Hok H. destruct (replay_length R content Hh _ _ _ H) as (c & Ec & Rp).
  specialize (Rp (content s')). rewrite <- Ec in Rp. unfold Length_parse_slice in Rp.
  destruct (length_total _ Hok) as [(r & E)|[(n & len & r & Hm & Hn & E)|(e & He)]].
  - rewrite E in Rp |- *. rewrite parse_length_indefinite in Rp. injection Rp as <- ->. reflexivity.
  - rewrite E in Rp |- *. rewrite (parse_length_definite n) in Rp by (auto; now rewrite <- E). injection Rp as <- ->.
    now rewrite (minimal_is_to_bytes n len).
  - destruct (parse_length_error _ e [] Hok He) as ((r & w) & E). rewrite E in Rp. discriminate.
Qed.
Theorem exact_der fuel s v s' : bytes_ok (content s) -> Der_parse R fuel s = (Ok v, s') ->
  (exists id c, der_tlv id c v) /\ content s = v ++ content s'.
Proof.
  intros Hok H. destruct (replay_der R content Hh _ _ _ _ H) as (c & Ec & Rp).
  specialize (Rp (content s')). rewrite <- Ec in Rp. eapply der_stream_sound; eassumption.
Qed.
Theorem exact_ber fuel s v s' : bytes_ok (content s) -> Ber_parse R fuel s = (Ok v, s') ->
  ber_value v /\ content s = v ++ content s'.
Proof.
  intros Hok H. destruct (replay_ber R content Hh _ _ _ _ H) as (c & Ec & Rp).
  specialize (Rp (content s')). rewrite <- Ec in Rp. eapply ber_stream_sound; eassumption.
Qed.
End Exact.

(** ** Der::parse with short reads *)
Section DerSteady.
Context {S : Type} (R : reader S) (content : S -> list N) (inv : S -> Prop) (Hst : steady R content inv).
Theorem der_steady_partial s fuel : inv s ->
  (exists s', Der_parse R fuel s = (fst (Der_parse slice_reader fuel (content s)), s') /\
     (forall v, fst (Der_parse slice_reader fuel (content s)) = Ok v -> content s' = snd (Der_parse slice_reader fuel (content s)))) \/
  (fst (Der_parse R fuel s) = Err UnterminatedBytes /\ exists v, fst (Der_parse slice_reader fuel (content s)) = Ok v).
Proof.
  intros Hi. pose proof (sim_parse_id_length R content inv Hst (length (content s)) fuel s [] Hi (le_n _)) as H.
  unfold Der_parse. destruct (parse_id_length R fuel (s, [])) as [r [s1 w1]]. destruct H as (-> & Hi1 & _).
  destruct r as [[|n]| | |]; cbn [fst snd]; try (left; eexists; split; [reflexivity | discriminate]).
  destruct (isize_max <? nlen w1 + n); cbn [fst snd]; [left; eexists; split; [reflexivity | discriminate]|].
  destruct (Hst s1 n Hi1) as (c & s2 & E & Hi2 & Ec2 & Lc & _). rewrite E. cbn [rd_read slice_reader].
  destruct (N.ltb_spec n (nlen c)); [lia|].
  assert (LT : nlen (take n (content s1)) = N.min n (nlen (content s1))) by apply nlen_take. rewrite LT.
  destruct (N.ltb_spec n (N.min n (nlen (content s1)))); [lia|].
  destruct (N.ltb_spec (nlen c) n) as [L|L].
  - destruct (N.ltb_spec (N.min n (nlen (content s1))) n) as [L2|L2]; cbn [fst snd].
    + left. eexists. split; [reflexivity | discriminate].
    + right. split; [reflexivity|]. eauto.
  - assert (E2 : n = nlen c) by lia. subst n. rewrite Ec2, take_app_exact, drop_app_exact.
    rewrite nlen_app. destruct (N.ltb_spec (N.min (nlen c) (nlen c + nlen (content s2))) (nlen c)); [lia|].
    cbn [fst snd]. left. exists s2. auto.
Qed.
End DerSteady.

(** ** Failures of the reader *)
Section Faults.
Context {S : Type} (R : reader S) (faults : S -> list io_kind) (Hl : logs R faults).
Definition reporting {A} (retry : bool) (m : parser S A) : Prop :=
  forall s w, match m (s, w) with (r, (s1, w1)) => exists ks, faults s1 = faults s ++ ks /\ reports retry r ks end.
Lemma rt_none {A} retry (r : res A) : (forall k, r <> Err (Io k)) -> reports retry r [].
Proof. intros H. exists []. split; [intros k []|]. left. split; [reflexivity|]. intros k E. now elim (H k). Qed.
Lemma rt_ret {A} retry (a : A) : reporting retry (pret a).
Proof. intros s w. exists []. split; [now rewrite app_nil_r|]. apply rt_none. discriminate. Qed.
Lemma rt_fail {A} retry e : (forall k, e <> Io k) -> reporting (A := A) retry (pfail e).
Proof. intros H s w. exists []. split; [now rewrite app_nil_r|]. apply rt_none. intros k [=]. now elim (H k). Qed.
Lemma rt_write retry b : reporting retry (write_u8 b).
Proof. intros s w. exists []. split; [now rewrite app_nil_r|]. apply rt_none. discriminate. Qed.
Lemma rt_read retry : reporting retry (read_u8 R).
Proof.
  intros s w. unfold read_u8. pose proof (Hl s 1) as H. destruct (rd_read R s 1) as [[c|k] s'].
  - destruct c as [|b [|b2 c]]; exists []; (split; [now rewrite app_nil_r|]); apply rt_none; discriminate.
  - exists [k]. split; [assumption|]. exists []. split; [intros ? []|]. right. exists k. auto.
Qed.
Lemma rt_bind {A B} retry (m : parser S A) (f : A -> parser S B) : reporting retry m -> (forall a, reporting retry (f a)) -> reporting retry (pbind m f).
Proof.
  intros Hm Hf s w. unfold pbind. specialize (Hm s w). destruct (m (s, w)) as [r [s1 w1]].
  destruct Hm as (ks1 & E1 & R1). destruct r as [a|e| |].
  - specialize (Hf a s1 w1). destruct (f a (s1, w1)) as [r2 [s2 w2]]. destruct Hf as (ks2 & E2 & R2).
    exists (ks1 ++ ks2). split; [now rewrite E2, E1, app_assoc|].
    destruct R1 as (i1 & H1 & [(-> & _)|(k & _ & E)]); [|discriminate]. destruct R2 as (i2 & H2 & D2).
    exists (i1 ++ i2). split.
    + intros k Hk. apply in_app_or in Hk as [Hk|Hk]; auto.
    + destruct D2 as [(-> & D)|(k & -> & E)]; [left; auto | right; exists k; split; [now rewrite app_assoc | assumption]].
  - exists ks1. split; [assumption|]. destruct R1 as (i1 & H1 & [(-> & D)|(k & -> & E)]); exists i1; (split; [assumption|]).
    + left. split; [reflexivity|]. intros k [= ->]. now apply D.
    + right. exists k. split; [reflexivity|]. now injection E as ->.
  - exists ks1. split; [assumption|]. destruct R1 as (i1 & H1 & [(-> & D)|(k & -> & E)]); [|discriminate]. exists i1. split; [assumption|].
    left. split; [reflexivity | discriminate].
  - exists ks1. split; [assumption|]. destruct R1 as (i1 & H1 & [(-> & D)|(k & -> & E)]); [|discriminate]. exists i1. split; [assumption|].
    left. split; [reflexivity | discriminate].
Qed.
Lemma rt_if {A} retry (b : bool) (m1 m2 : parser S A) : reporting retry m1 -> reporting retry m2 -> reporting retry (if b then m1 else m2).
Proof. destruct b; auto. Qed.
Lemma rt_nofuel {A} retry : reporting (A := A) retry (fun st => (NoFuel, st)).
Proof. intros s w. exists []. split; [now rewrite app_nil_r|]. apply rt_none. discriminate. Qed.
Lemma rt_id_loop retry fuel : forall i o, reporting retry (parse_id_loop R fuel i o).
Proof.
  induction fuel as [|fuel IH]; intros i o; cbn [parse_id_loop]; [apply rt_nofuel|].
  apply rt_bind; [apply rt_write | intros _]. apply rt_if; [apply rt_ret|]. apply rt_bind; [apply rt_read | intros o2; apply IH].
Qed.
Lemma rt_parse_id retry fuel : reporting retry (parse_id R fuel).
Proof.
  unfold parse_id. apply rt_bind; [apply rt_read | intros f]. apply rt_bind; [apply rt_write | intros _].
  apply rt_if; [apply rt_ret|]. apply rt_bind; [apply rt_read | intros o].
  repeat (apply rt_if; [apply rt_fail; discriminate|]). apply rt_id_loop.
Qed.
Lemma rt_len_loop retry j : forall n, reporting retry (parse_length_loop R j n).
Proof.
  induction j as [|j IH]; intros n; cbn [parse_length_loop]; [apply rt_ret|].
  apply rt_bind; [apply rt_read | intros b]. apply rt_bind; [apply rt_write | intros _; apply IH].
Qed.
Lemma rt_parse_length retry : reporting retry (parse_length R).
Proof.
  unfold parse_length. apply rt_bind; [apply rt_read | intros f]. apply rt_bind; [apply rt_write | intros _].
  apply rt_if; [apply rt_ret|]. apply rt_if; [apply rt_ret|]. apply rt_bind; [apply rt_read | intros o].
  apply rt_if; [apply rt_fail; discriminate|]. apply rt_bind; [apply rt_write | intros _]. cbv zeta.
  repeat (apply rt_if; [apply rt_fail; discriminate|]). apply rt_len_loop.
Qed.
Lemma rt_parse_id_length retry fuel : reporting retry (parse_id_length R fuel).
Proof. apply rt_bind; [apply rt_parse_id | intros _; apply rt_parse_length]. Qed.
Lemma rt_read_exact fuel : forall n, reporting true (read_exact R fuel n).
Proof.
  induction fuel as [|fuel IH]; intros n; [apply rt_nofuel|]. intros s w. cbn [read_exact].
  destruct (n =? 0); [apply (rt_ret true tt s w)|].
  pose proof (Hl s n) as H. destruct (rd_read R s n) as [[c|k] s'].
  - destruct c as [|b c].
    + exists []. split; [now rewrite app_nil_r|]. exists []. split; [intros ? []|]. left. split; [reflexivity|]. intros k [= <-]. auto.
    + destruct (nlen (b :: c) <=? n).
      * specialize (IH (n - nlen (b :: c)) s' (w ++ b :: c)). destruct (read_exact R fuel _ _) as [r [s1 w1]].
        destruct IH as (ks & E & Rp). exists ks. now rewrite E, H.
      * exists []. split; [now rewrite app_nil_r|]. apply rt_none. discriminate.
  - assert (D : k = Interrupted \/ k <> Interrupted) by (destruct k; (now left) || (right; discriminate)).
    destruct D as [->|D].
    + specialize (IH n s' w). destruct (read_exact R fuel n (s', w)) as [r [s1 w1]]. destruct IH as (ks & E & is & Hi & Dk).
      exists (Interrupted :: ks). split; [now rewrite E, H, <- app_assoc|]. exists (Interrupted :: is). split.
      * intros k [<-|Hk]; auto.
      * destruct Dk as [(-> & Dk)|(k & -> & Dk)]; [left; auto | right; exists k; auto].
    + assert (G : exists ks, faults s' = faults s ++ ks /\ reports true (Err (Io k) : res unit) ks).
      { exists [k]. split; [assumption|]. exists []. split; [intros ? []|]. right. exists k. auto. }
      destruct k; try exact G. now elim D.
Qed.
Lemma rt_ber_do_parse fuel : reporting true (Ber_do_parse R fuel).
Proof.
  intros s w. unfold Ber_do_parse. cbn [snd]. generalize (nlen w) as init. intros init. revert s w.
  apply (rt_bind true (parse_id_length R fuel)); [apply rt_parse_id_length | intros [|n]]; [apply rt_ret|].
  intros s w. cbn [snd]. destruct (isize_max <? nlen w + n).
  { exists []. split; [now rewrite app_nil_r|]. apply rt_none. discriminate. }
  revert s w. apply (rt_bind true (read_exact R fuel n)); [apply rt_read_exact | intros _].
  intros s w. exists []. split; [now rewrite app_nil_r|]. apply rt_none. discriminate.
Qed.
Lemma rt_ber_loop ifuel fuel : forall d, reporting true (Ber_loop R ifuel fuel d).
Proof.
  induction fuel as [|fuel IH]; intros d; cbn [Ber_loop]; [apply rt_nofuel|].
  intros s w. revert s w. apply (rt_bind true (Ber_do_parse R ifuel)); [apply rt_ber_do_parse | intros z].
  cbv zeta. apply rt_if; [apply IH | apply rt_ret].
Qed.
Lemma reports_map {A B} retry (r : res A) (r' : res B) ks : (forall k, r' = Err (Io k) <-> r = Err (Io k)) -> reports retry r ks -> reports retry r' ks.
Proof.
  intros H (is & Hi & [(-> & D)|(k & -> & E)]); exists is; (split; [assumption|]).
  - left. split; [reflexivity|]. intros k E. apply D. now apply H.
  - right. exists k. split; [reflexivity|]. now apply H.
Qed.
Theorem faults_id fuel s r s' : Id_parse R fuel s = (r, s') -> exists ks, faults s' = faults s ++ ks /\ reports false r ks.
Proof.
  unfold Id_parse. intros H. pose proof (rt_parse_id false fuel s []) as G. destruct (parse_id R fuel (s, [])) as [r0 [s1 w1]].
  destruct G as (ks & E & G). destruct r0; injection H as <- <-; exists ks; (split; [assumption|]); eapply reports_map, G; intros; split; intros [=]; congruence.
Qed.
Theorem faults_length s r s' : Length_parse R s = (r, s') -> exists ks, faults s' = faults s ++ ks /\ reports false r ks.
Proof.
  unfold Length_parse. intros H. pose proof (rt_parse_length false s []) as G. destruct (parse_length R (s, [])) as [r0 [s1 w1]].
  destruct G as (ks & E & G). injection H as <- <-. exists ks. auto.
Qed.
Theorem faults_der fuel s r s' : Der_parse R fuel s = (r, s') -> exists ks, faults s' = faults s ++ ks /\ reports false r ks.
Proof.
  unfold Der_parse. intros H. pose proof (rt_parse_id_length false fuel s []) as G. destruct (parse_id_length R fuel (s, [])) as [r0 [s1 w1]].
  destruct G as (ks & E & G). destruct r0 as [[|n]| | |].
  2:{ assert (ks = []) as ->.
      { destruct G as (is & Hi & [(-> & _)|(k & _ & X)]); [|discriminate]. destruct is as [|i is]; [reflexivity|].
        destruct (Hi i (or_introl eq_refl)). discriminate. }
      rewrite app_nil_r in E.
      destruct (isize_max <? nlen w1 + n).
      { injection H as <- <-. exists []. split; [now rewrite app_nil_r|]. apply rt_none. discriminate. }
      pose proof (Hl s1 n) as HL. destruct (rd_read R s1 n) as [[c|k] s2].
      - destruct (n <? nlen c); [|destruct (nlen c <? n)]; injection H as <- <-; exists []; (split; [rewrite app_nil_r; congruence|]);
          apply rt_none; discriminate.
      - injection H as <- <-. exists [k]. split; [congruence|]. exists []. split; [intros ? []|]. right. exists k. auto. }
  all: injection H as <- <-; exists ks; (split; [assumption|]); eapply reports_map, G; intros; split; intros [=]; congruence.
Qed.
Theorem faults_ber fuel s r s' : Ber_parse R fuel s = (r, s') -> exists ks, faults s' = faults s ++ ks /\ reports true r ks.
Proof.
  unfold Ber_parse. intros H. pose proof (rt_ber_loop fuel fuel 0%Z s []) as G. destruct (Ber_loop R fuel fuel 0 (s, [])) as [r0 [s1 w1]].
  destruct G as (ks & E & G). destruct r0; injection H as <- <-; exists ks; (split; [assumption|]); eapply reports_map, G; intros; split; intros [=]; congruence.
Qed.
End Faults.
