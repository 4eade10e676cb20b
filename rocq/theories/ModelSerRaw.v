(** [to_der] on raw memory, with a Serialize that may do anything safe code can do, panics included. *)
From Verif Require Import Base ModelIo ModelTag ModelContents ModelBuf ModelTlv ModelHeap ModelTlvRaw ModelUnwind SpecSerRaw.

Section SERIALISE.
(** [wraps]: the release profile. *)
Context (L : layout) (al : allocator) (wraps : bool).
Notation raw := (L_raw L).
Notation B := (B L (S := unit)).
Notation "x <~ m ; k" := (bbind L m (fun x => k)) (at level 61, m at next level, right associativity).

(** bsn1/src/buffer/mod.rs:201-206, [Write for Buffer] *)
Definition u_write (bs : list N) : B unit := _ <~ breserve L al (nlen bs) ; bmut L (L_extend L bs).
(** [write_all] of std: no call for no octets; [write] takes all of them. *)
Definition u_write_all (bs : list N) : B unit := match bs with [] => bret tt | _ :: _ => u_write bs end.
(** A method of the user that is handed the buffer. *)
Fixpoint u_prog (p : prog) : B unit :=
  match p with
  | Stop r => fun s b h => Run r s b h
  | Offer bs k => fun s b h =>
      match u_write bs s b h with
      | Run (Ok _) s' b' h' => u_prog (k true) s' b' h'
      | Run _ s' b' h' => u_prog (k false) s' b' h'
      | RAbort => RAbort | ROversize => ROversize | RUB => RUB
      end
  end.
Definition b_res {A} (x : res A) : B A := fun s b h => Run x s b h.
Definition b_add (x y : N) : B N := if wraps then bret ((x + y) mod usize_limit) else badd L x y.
(** [contents.as_slice()] while the other buffer is written *)
Definition b_peek (c : raw) : B (list N) := fun s b h =>
  match L_slice L c h with Done bs _ => Run (Ok bs) s b h | Crash => Run Panic s b h | Abort => RAbort | UB => RUB end.
(** bsn1_serde/src/lib.rs:45-63, after [Buffer::new()].  [contents] writes the contents. *)
Definition u_der_body (v : calls) (n : N) (contents : B unit) : B unit :=
  let length := Length_to_bytes (Definite n) in
  i <~ b_res (c_id_len v) ;
  _ <~ match i with
       | None => bret tt
       | Some id_len => (t <~ b_add id_len (nlen length) ; der_len <~ b_add t n ; breserve L al der_len)
       end ;
  _ <~ u_prog (c_id v) ;
  _ <~ u_write_all length ;
  contents.
Definition u_drop_after (c : raw) (x : ends unit raw) : ends unit raw :=
  match x with
  | Ends r s h => match L_drop L c h with Done _ h' => Ends r s h' | Abort => EAbort | _ => EUB end
  | _ => x
  end.
(** bsn1_serde/src/lib.rs:32-63, to_der (and to_ber, 65-72).  The buffer of the contents is dropped at the end, however that comes. *)
Definition u_to_der (v : calls) (h : heap) : ends unit raw :=
  match c_contents_len v with
  | Ok (Some n) => owning L (u_der_body v n (u_prog (c_contents v))) tt (L_new L) h
  | Ok None =>
      match u_prog (c_contents v) tt (L_new L) h with
      | Run (Ok _) _ c h' => u_drop_after c (owning L (u_der_body v (L_len L c) (bs <~ b_peek c ; u_write_all bs)) tt (L_new L) h')
      | Run (Err e) s c h' => u_drop_after c (Ends (Err e) s h')
      | Run Panic s c h' => u_drop_after c (Ends Panic s h')
      | Run NoFuel s c h' => u_drop_after c (Ends NoFuel s h')
      | RAbort => EAbort | ROversize => EOversize | RUB => EUB
      end
  | Err e => Ends (Err e) tt h | Panic => Ends Panic tt h | NoFuel => Ends NoFuel tt h
  end.

(** bsn1_serde/src/lib.rs:80-106, write_der (and write_ber, 114-121), with a writer of the user that may panic too.  Nothing is owned but the contents, if they
    had to be written to learn their length. *)
Definition u_drop_end {S} (c : raw) (x : res unit * S) (h : heap) : ends S unit :=
  match L_drop L c h with Done _ h' => Ends (fst x) (snd x) h' | Abort => EAbort | _ => EUB end.
Definition u_write_der {S} (v : calls) (k : sink S) (s : S) (h : heap) : ends S unit :=
  match c_contents_len v with
  | Ok (Some n) =>
      match k_id k s with
      | (Ok _, s1) => match k_all k (Length_to_bytes (Definite n)) s1 with
                      | (Ok _, s2) => let (r, s3) := k_contents k s2 in Ends r s3 h
                      | (r, s2) => Ends r s2 h
                      end
      | (r, s1) => Ends r s1 h
      end
  | Ok None =>
      match u_prog (c_contents v) tt (L_new L) h with
      | Run (Ok _) _ c h' =>
          match k_id k s with
          | (Ok _, s1) => match k_all k (Length_to_bytes (Definite (L_len L c))) s1 with
                          | (Ok _, s2) => match L_slice L c h' with
                                          | Done bs _ => u_drop_end c (k_all k bs s2) h'
                                          | Abort => EAbort | _ => EUB
                                          end
                          | x => u_drop_end c x h'
                          end
          | x => u_drop_end c x h'
          end
      | Run r _ c h' => u_drop_end c (r, s) h'
      | RAbort => EAbort | ROversize => EOversize | RUB => EUB
      end
  | Err e => Ends (Err e) s h | Panic => Ends Panic s h | NoFuel => Ends NoFuel s h
  end.
End SERIALISE.
