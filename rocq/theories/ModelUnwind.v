(** The functions that call code of the user while they own a buffer, on raw memory, with
    unwinding: Der::parse, Ber::parse and from_id_iterator with readers and iterators that may do
    anything safe code can do, panics included.  The octets of a header reach the buffer one by one,
    as they are read. *)
From Verif Require Import Base ModelIo ModelTag ModelContents ModelBuf ModelTlv ModelHeap ModelTlvRaw.

(** How a call of a method of the user's reader ends. *)
Inductive ending := Returns (claimed : N) | Fails (k : io_kind) | Throws | Hangs.
(** [impl std::io::Read] of the user.  A call is handed [n] octets of memory; it writes some of
    them from the first on, then ends.  Safe code cannot write more than [n] octets; it can
    write less than it reports, report more than it was asked for, and do so in
    [read_exact], which it may override ([claimed] means nothing there). *)
Record user_reader (S : Type) := {
  u_read : S -> N -> list N * ending * S;
  u_read_exact : S -> N -> list N * ending * S
}.
Arguments u_read {S} u s n.
Arguments u_read_exact {S} u s n.

(** A run while a buffer is owned: it ends with a result (a panic is [Panic]) and the state
    of the reader, the buffer and the heap at that moment; or by aborting; or in undefined
    behaviour.  [Oversize] is one known kind of it (C48, C52): realloc for more than isize::MAX. *)
Inductive run (S raw A : Type) := Run (r : res A) (s : S) (b : raw) (h : heap) | RAbort | ROversize | RUB.
Arguments Run {S raw A} r s b h.
Arguments RAbort {S raw A}.
Arguments ROversize {S raw A}.
Arguments RUB {S raw A}.
(** What the caller of a function sees: the value, an error or a panic, after the locals are
    dropped. *)
Inductive ends (S A : Type) := Ends (r : res A) (s : S) (h : heap) | EAbort | EOversize | EUB.
Arguments Ends {S A} r s h.
Arguments EAbort {S A}.
Arguments EOversize {S A}.
Arguments EUB {S A}.

Section UNWIND.
Context (L : layout) (al : allocator) {S : Type}.
Notation raw := (L_raw L).
Definition B (A : Type) := S -> raw -> heap -> run S raw A.
Definition bret {A} (a : A) : B A := fun s b h => Run (Ok a) s b h.
Definition bfail {A} (e : error) : B A := fun s b h => Run (Err e) s b h.
Definition bpanic {A} : B A := fun s b h => Run Panic s b h.
Definition bbind {A C} (m : B A) (k : A -> B C) : B C := fun s b h =>
  match m s b h with
  | Run (Ok a) s' b' h' => k a s' b' h'
  | Run (Err e) s' b' h' => Run (Err e) s' b' h'
  | Run Panic s' b' h' => Run Panic s' b' h'
  | Run NoFuel s' b' h' => Run NoFuel s' b' h'
  | RAbort => RAbort
  | ROversize => ROversize
  | RUB => RUB
  end.
Notation "x <~ m ; k" := (bbind m (fun x => k)) (at level 61, m at next level, right associativity).

(** A method of the buffer.  Where it panics it has changed neither itself nor the heap: the
    panics of ModelBufLE.v and ModelBufUE.v are overflow of usize and [Layout::array(n).unwrap()]
    before anything is allocated, and the debug assertion of [set_len] (buffer/mod.rs:103). *)
Definition bmut (f : raw -> M raw) : B unit := fun s b h =>
  match f b h with
  | Done b' h' => Run (Ok tt) s b' h'
  | Crash => Run Panic s b h
  | Abort => RAbort
  | UB => RUB
  end.
(** buffer/mod.rs:98-100, reserve.  What is undefined about a request above isize::MAX is set apart. *)
Definition breserve (n : N) : B unit := fun s b h =>
  match L_reserve L al n b h with
  | UB => if isize_max <? L_len L b + n then ROversize else RUB
  | _ => bmut (L_reserve L al n) s b h
  end.
Definition blen : B N := fun s b h => Run (Ok (L_len L b)) s b h.
Definition bslice : B (list N) := fun s b h =>
  match L_slice L b h with Done bs _ => Run (Ok bs) s b h | Crash => Run Panic s b h | Abort => RAbort | UB => RUB end.
Definition badd (x y : N) : B N := if x + y <? usize_limit then bret (x + y) else bpanic.

(** bsn1/src/misc.rs:21-32, read_u8 into [\[0; 1\]]. *)
Definition u_read_u8 (R : user_reader S) : B N := fun s b h =>
  match u_read R s 1 with
  | (w, e, s') =>
      match e with
      | Returns 0 => Run (Err UnterminatedBytes) s' b h
      | Returns 1 => Run (Ok (hd 0 w)) s' b h
      | Returns _ => Run Panic s' b h
      | Fails k => Run (Err (Io k)) s' b h
      | Throws => Run Panic s' b h
      | Hangs => Run NoFuel s' b h
      end
  end.
(** bsn1/src/misc.rs:40-50 with [Write for Buffer], buffer/mod.rs:201-206. *)
Definition u_write_u8 (x : N) : B unit := _ <~ breserve 1 ; bmut (L_extend L [x]).

(** bsn1/src/identifier_ref.rs:716-724 *)
Fixpoint u_parse_id_loop (R : user_reader S) (fuel : nat) (octet : N) : B unit :=
  match fuel with
  | O => fun s b h => Run NoFuel s b h
  | Datatypes.S fuel' =>
      _ <~ u_write_u8 octet ;
      if negb (N.land octet MORE_FLAG =? MORE_FLAG) then bret tt
      else (o <~ u_read_u8 R ; u_parse_id_loop R fuel' o)
  end.
(** bsn1/src/identifier_ref.rs:690-727.  The number returned is not used by parse_id_length. *)
Definition u_parse_id (R : user_reader S) (fuel : nat) : B unit :=
  first <~ u_read_u8 R ;
  _ <~ u_write_u8 first ;
  if negb (N.land first ID_LONG_FLAG =? ID_LONG_FLAG) then bret tt
  else
    octet <~ u_read_u8 R ;
    if octet <=? ID_MAX_SHORT then bfail RedundantBytes
    else if octet =? MORE_FLAG then bfail RedundantBytes
    else u_parse_id_loop R fuel octet.
(** bsn1/src/length.rs:287-291 *)
Fixpoint u_parse_length_loop (R : user_reader S) (k : nat) (len : N) : B Length :=
  match k with
  | O => bret (Definite len)
  | Datatypes.S k' =>
      byte <~ u_read_u8 R ;
      _ <~ u_write_u8 byte ;
      u_parse_length_loop R k' (N.shiftl len 8 mod usize_limit + byte)
  end.
(** bsn1/src/length.rs:252-295 *)
Definition u_parse_length (R : user_reader S) : B Length :=
  first <~ u_read_u8 R ;
  _ <~ u_write_u8 first ;
  if first =? LEN_INDEFINITE then bret Indefinite
  else if negb (N.land first LEN_LONG_FLAG =? LEN_LONG_FLAG) then bret (Definite first)
  else
    second <~ u_read_u8 R ;
    if second =? 0 then bfail RedundantBytes
    else
      _ <~ u_write_u8 second ;
      let followings_count := N.lxor first LEN_LONG_FLAG in
      if (followings_count =? 1) && (second <=? LEN_MAX_SHORT) then bfail RedundantBytes
      else if 8 <? followings_count then bfail OverFlow
      else u_parse_length_loop R (N.to_nat (followings_count - 1)) second.
(** bsn1/src/misc.rs:59-66 *)
Definition u_parse_id_length (R : user_reader S) (fuel : nat) : B Length :=
  _ <~ u_parse_id R fuel ; u_parse_length R.

(** A call of the user's [read] or [read_exact] on [&mut as_mut_slice()\[off..\]], [n] octets. *)
Definition bcall (f : S -> N -> list N * ending * S) (off n : N) : B N := fun s b h =>
  match f s n with
  | (w, e, s') =>
      match L_store L off (take n w) b h with
      | Done b' h' =>
          match e with
          | Returns claimed => Run (Ok claimed) s' b' h'
          | Fails k => Run (Err (Io k)) s' b' h'
          | Throws => Run Panic s' b' h'
          | Hangs => Run NoFuel s' b' h'
          end
      | Crash => Run Panic s' b h
      | Abort => RAbort
      | UB => RUB
      end
  end.
(** bsn1/src/der.rs:175-198: the body of Der::parse after [Buffer::new()]. *)
Definition u_Der_body (R : user_reader S) (fuel : nat) : B unit :=
  l <~ u_parse_id_length R fuel ;
  match l with
  | Indefinite => bfail IndefiniteLength
  | Definite contents_length =>
      id_length_len <~ blen ;
      total_length <~ badd id_length_len contents_length ;
      _ <~ breserve contents_length ;
      _ <~ bmut (L_set_len_checked L total_length) ;
      read <~ bcall (u_read R) id_length_len contents_length ;
      if read <? contents_length then bfail UnterminatedBytes else bret tt
  end.
(** bsn1/src/ber.rs:318-342 *)
Definition u_Ber_do_parse (R : user_reader S) (fuel : nat) : B Z :=
  init_len <~ blen ;
  l <~ u_parse_id_length R fuel ;
  match l with
  | Definite length =>
      _ <~ breserve length ;
      current_len <~ blen ;
      total <~ badd current_len length ;
      _ <~ bmut (L_set_len_checked L total) ;
      _ <~ bcall (u_read_exact R) current_len length ;
      bs <~ bslice ;
      bret (if bytes_eqb (drop init_len bs) EOC then (-1)%Z else 0%Z)
  | Indefinite => bret 1%Z
  end.
(** bsn1/src/ber.rs:303-316 *)
Fixpoint u_Ber_loop (R : user_reader S) (ifuel fuel : nat) (stack_depth : Z) : B unit :=
  match fuel with
  | O => fun s b h => Run NoFuel s b h
  | Datatypes.S fuel' =>
      d <~ u_Ber_do_parse R ifuel ;
      if (0 <? stack_depth + d)%Z then u_Ber_loop R ifuel fuel' (stack_depth + d)%Z else bret tt
  end.
(** The function owns the buffer [b]: it becomes the value on success and is dropped on errors
    and when a panic unwinds. *)
Definition owning (m : B unit) (s : S) (b : raw) (h : heap) : ends S raw :=
  let leave (r : res raw) (s : S) (b : raw) (h : heap) : ends S raw :=
    match L_drop L b h with Done _ h' => Ends r s h' | Abort => EAbort | Crash => EUB | UB => EUB end in
  match m s b h with
  | Run (Ok _) s' b' h' => Ends (Ok b') s' h'
  | Run (Err e) s' b' h' => leave (Err e) s' b' h'
  | Run Panic s' b' h' => leave Panic s' b' h'
  | Run NoFuel s' b' h' => leave NoFuel s' b' h'
  | RAbort => EAbort
  | ROversize => EOversize
  | RUB => EUB
  end.
(** bsn1/src/der.rs:169-198, Der::parse *)
Definition u_Der_parse (R : user_reader S) (fuel : nat) (s : S) (h : heap) : ends S raw :=
  owning (u_Der_body R fuel) s (L_new L) h.
(** bsn1/src/ber.rs:303-316, Ber::parse *)
Definition u_Ber_parse (R : user_reader S) (fuel : nat) (s : S) (h : heap) : ends S raw :=
  owning (u_Ber_loop R fuel fuel 0) s (L_new L) h.

(** ** from_id_iterator *)
(** One pass over the user's iterator: the octets of the items, and whether [next] or [as_ref]
    panics after them. *)
Record pass := { p_items : list (list N); p_throws : bool }.
Fixpoint u_extend_all (items : list (list N)) : B unit :=
  match items with [] => bret tt | i :: items' => (_ <~ bmut (L_extend L i) ; u_extend_all items') end.
(** bsn1/src/der.rs:291-310, ber.rs:470-489.  [counted] is the pass over the clone (which may
    panic when cloning), [items] the other one. *)
Definition u_from_iterator (id : list N) (length_bytes : N -> list N) (counted items : pass) (s : S) (h : heap) : ends S raw :=
  match raw_total 0 (p_items counted) h with
  | Done length _ =>
      if p_throws counted then Ends Panic s h
      else
        match (t <-- madd (nlen id) (nlen (length_bytes length)) ;
               total_len <-- madd t length ;
               L_with_capacity L al total_len) h with
        | Done b h' =>
            owning (_ <~ bmut (L_extend L id) ;
                    _ <~ bmut (L_extend L (length_bytes length)) ;
                    _ <~ u_extend_all (p_items items) ;
                    if p_throws items then bpanic else bret tt) s b h'
        | Crash => Ends Panic s h
        | Abort => EAbort
        | UB => EUB
        end
  | _ => Ends Panic s h
  end.

(** ** changing a value *)
(** bsn1/src/der.rs:375-429, Der::extend_from_slice on [&mut self].  The caller keeps the value when
    it panics. *)
Definition blift {A} (x : res A) : B A := fun s b h => match x with Ok a => Run (Ok a) s b h | Panic => Run Panic s b h | _ => RUB end.
Definition u_Der_extend (bytes : list N) : B unit :=
  bs <~ bslice ;
  id <~ blift (tlv_id bs) ;
  old_length <~ blift (tlv_length bs) ;
  old_n <~ blift (unwrap (Length_definite old_length)) ;
  new_n <~ badd old_n (nlen bytes) ;
  off0 <~ badd (nlen bytes) (Length_len (Definite new_n)) ;
  offset <~ (if off0 <? Length_len old_length then bpanic else bret (off0 - Length_len old_length)) ;
  _ <~ breserve offset ;
  n <~ blen ;
  new_len <~ badd n offset ;
  _ <~ bmut (L_set_len_checked L new_len) ;
  _ <~ (if nlen id + Length_len old_length =? nlen id + Length_len (Definite new_n) then bret tt
        else bmut (L_move L (nlen id + Length_len old_length) (nlen id + Length_len (Definite new_n)) old_n)) ;
  _ <~ bmut (L_store L (nlen id + Length_len (Definite new_n) + old_n) bytes) ;
  n <~ blen ;
  if negb (nlen id + Length_len (Definite new_n) + old_n + nlen bytes =? n) then bpanic
  else bmut (L_store L (nlen id) (Length_to_bytes (Definite new_n))).
(** bsn1/src/ber.rs:601-623 *)
Definition u_Ber_extend (bytes : list N) : B unit :=
  bs <~ bslice ;
  l <~ blift (tlv_length bs) ;
  match l with
  | Definite _ => u_Der_extend bytes
  | Indefinite =>
      _ <~ breserve (nlen bytes) ;
      n <~ blen ;
      _ <~ bmut (L_store L n bytes) ;
      n <~ blen ;
      new_len <~ badd n (nlen bytes) ;
      bmut (L_set_len_checked L new_len)
  end.
End UNWIND.
Arguments bret {L S A} a.
Arguments bpanic {L S A}.

(** A reader of ModelIo.v as a user's reader; [read_exact] is std's default. *)
Definition io_ending (r : res unit) : ending :=
  match r with
  | Ok _ => Returns 0
  | Err (Io k) => Fails k
  | NoFuel => Hangs
  | _ => Throws
  end.
Definition user_of {S} (R : reader S) (fuel : nat) : user_reader S := {|
  u_read := fun s n => match rd_read R s n with (IoOk bs, s') => (bs, Returns (nlen bs), s') | (IoErr k, s') => ([], Fails k, s') end;
  u_read_exact := fun s n => match read_exact R fuel n (s, []) with (r, (s', got)) => (got, io_ending r, s') end
|}.
