(** The reading functions of Decode.v once more, with a stricter notion of undefined behaviour.
    Decode.v flags reads outside the buffer.  In Rust it is already undefined to make a reference
    to bytes outside an allocation ([slice::from_raw_parts], value/mod.rs:463-495) and to compute
    a pointer that lies neither in it nor just behind it ([pointer::offset], [add]:
    value/pointer.rs:37, :68, :78-80, value/array.rs:184, :197, value/mod.rs:493).  The buffer is taken to be
    an allocation of its own. *)
From Verif Require Import Prelude Varint Utf8 Float SharedKeys Decode.

(** Making a reference to the [n] bytes at [p]. *)
Definition mkslice (e : env) (p n : Z) : outcome val :=
  if (0 <=? p) && (0 <=? n) && (p + n <=? lenZ (e_data e)) then Ret (V p n) else UB.
(** Computing a pointer to [p]; [ar] says whether a stray one counts. *)
Definition mkptr (ar : bool) (e : env) (p : Z) : outcome unit :=
  if ar && negb ((0 <=? p) && (p <=? lenZ (e_data e))) then UB else Ret tt.

(** value/pointer.rs:22-58 [deref_checked] *)
Fixpoint deref_checked_s (ar : bool) (fuel : nat) (e : env) (v : val) (wide : bool) : dres val :=
  match fuel with
  | O => Diverge
  | S f =>
      if (wide && (v_len v <? 4)) || (v_len v <? 2) then Ret (Err PointerTooSmall)
      else
        off <- get_offset e v wide ;;
        if off =? 0 then Ret (Err PointerOffsetZero)
        else
          let tpos := ptr_target e v off in
          _ <- mkptr ar e tpos ;;                                 (* line 37 *)
          b0 <- vbyte e v 0 ;;
          if negb (Z.land b0 0x40 =? 0) then Panic
          else if tpos <? 0 then Ret (Err PointerTargetOutOfBounds)
          else
            target <- mkslice e tpos off ;;                       (* line 52 *)
            t <- value_type e target ;;
            if vtype_eqb t TyPointer then deref_checked_s ar f e target true
            else Ret (Ok target)
  end.
(** value/pointer.rs:63-76 [deref_unchecked] *)
Fixpoint deref_unchecked_s (fuel : nat) (e : env) (v : val) (wide : bool) : outcome val :=
  match fuel with
  | O => Diverge
  | S f =>
      off <- get_offset e v wide ;;
      if e_dbg e && (off =? 0) then Panic
      else
        _ <- mkptr true e (ptr_target e v off) ;;
        target <- mkslice e (ptr_target e v off) off ;;
        t <- value_type e target ;;
        if vtype_eqb t TyPointer then deref_unchecked_s f e target true
        else Ret target
  end.
Definition resolve_s (e : env) (v : val) (wide : bool) : outcome val :=
  t <- value_type e v ;;
  if vtype_eqb t TyPointer then deref_unchecked_s (fuel_of e) e v wide else Ret v.

(** value/mod.rs:463-477 [_from_raw] *)
Definition from_raw_s (e : env) (p avail : Z) : dres val := _ <- mkslice e p avail ;; from_raw e p avail.

(** value/mod.rs:373-403 [_validate] with array.rs:179-203 [validate] inlined *)
Fixpoint validate_s (ar : bool) (fuel : nat) (e : env) (is_elem is_wide : bool) (v : val) (dend : Z)
  : dres unit :=
  match fuel with
  | O => Diverge
  | S f =>
      t <- value_type e v ;;
      match t with
      | TyArray | TyDict =>
          wide <- arr_is_wide e v ;;
          let width := width_of wide in
          n <- arr_len e v ;;
          fp <- first_pos e v ;;
          let first := v_pos v + fp in
          _ <- mkptr ar e first ;;                                (* array.rs:184 *)
          bytes <- usize_mul (e_dbg e) n width ;;
          lim <- usize_add (e_dbg e) (e_base e + first) bytes ;;
          if e_base e + dend <? lim then
            _ <- usize_sub (e_dbg e) (e_base e + dend) (e_base e + first) ;;
            Ret (Err ArrayOutOfBounds)
          else
            elems_loop
              (fun cur =>
                 _ <- mkptr ar e (cur + width) ;;                 (* array.rs:197 *)
                 x <-? from_raw_s e cur width ;;
                 validate_s ar f e true wide x (cur + width))
              (S (S (length (e_data e)))) 0 n first width
      | TyPointer =>
          target <-? deref_checked_s ar (fuel_of e) e v is_wide ;;
          validate_s ar f e false is_wide target (v_pos v)
      | _ =>
          if is_elem then Ret (Ok tt)
          else
            n <- required_size e v ;;
            en <- usize_add (e_dbg e) (e_base e + v_pos v) n ;;
            if en <=? e_base e + dend then Ret (Ok tt)
            else
              _ <- usize_sub (e_dbg e) (e_base e + dend) (e_base e + v_pos v) ;;
              Ret (Err ValueOutOfBounds)
      end
  end.
(** value/mod.rs:356-371 [_find_root]; the slice of line 362 is checked by Rust. *)
Definition find_root_s (ar : bool) (e : env) : dres val :=
  let n := lenZ (e_data e) in
  if (n =? 0) || negb (n mod 2 =? 0) then Ret (Err InputIncorrectlySized)
  else
    let root := V (n - 2) 2 in
    t <- value_type e root ;;
    if vtype_eqb t TyPointer then deref_checked_s ar (fuel_of e) e root false
    else if n =? 2 then Ret (Ok root)
    else Ret (Err RootNotPointer).
(** value/mod.rs:139-147 [from_bytes] *)
Definition from_bytes_s (ar : bool) (e : env) : dres val :=
  root <-? find_root_s ar e ;;
  _ <-? validate_s ar (fuel_of e) e false false root (lenZ (e_data e)) ;;
  Ret (Ok root).

(** value/mod.rs:491-494 [_offset_unchecked] *)
Definition offset_unchecked_s (e : env) (v : val) (count width : Z) : outcome val :=
  _ <- mkptr true e (v_pos v + count) ;; mkslice e (v_pos v + count) width.
(** array.rs:73-87 [get_unchecked] *)
Definition arr_get_unchecked_s (e : env) (v : val) (index : Z) : outcome val :=
  wide <- arr_is_wide e v ;;
  let width := width_of wide in
  offset <- usize_mul (e_dbg e) index width ;;
  fp <- first_pos e v ;;
  off <- usize_add (e_dbg e) fp offset ;;
  s <- offset_unchecked_s e v (wrap_i64 off) width ;;
  resolve_s e s wide.
(** array.rs:64-70 [get] *)
Definition arr_get_s (e : env) (v : val) (index : Z) : outcome (option val) :=
  n <- arr_len e v ;;
  if n <? index then Ret None
  else x <- arr_get_unchecked_s e v index ;; Ret (Some x).
(** array.rs:150-171 [iter], [_iter_first] *)
Definition arr_iter_s (e : env) (v : val) : outcome aiter :=
  n <- arr_len e v ;;
  wide <- arr_is_wide e v ;;
  if n =? 0 then Ret (mk_aiter None (width_of wide) 0 n)
  else
    fp <- first_pos e v ;;
    s <- offset_unchecked_s e v fp (width_of wide) ;;
    Ret (mk_aiter (Some s) (width_of wide) 0 n).
(** array.rs:231-253 [Iter::next] *)
Definition iter_next_s (e : env) (it : aiter) : outcome (option val * aiter) :=
  match it_next it with
  | None => Ret (None, it)
  | Some current =>
      if it_len it <=? it_index it then Ret (None, it)
      else
        r <- resolve_s e current (it_width it =? 4) ;;
        let i := it_index it + 1 in
        nxt <- (if i <? it_len it
                then s <- offset_unchecked_s e current (it_width it) (it_width it) ;; Ret (Some s)
                else Ret None) ;;
        Ret (Some r, mk_aiter nxt (it_width it) i (it_len it))
  end.
Fixpoint iter_collect_s (fuel : nat) (e : env) (it : aiter) : outcome (list val) :=
  match fuel with
  | O => Diverge
  | S f =>
      r <- iter_next_s e it ;;
      let '(x, it') := r in
      match x with
      | None => Ret []
      | Some v => vs <- iter_collect_s f e it' ;; Ret (v :: vs)
      end
  end.
(** A loop over the array. *)
Definition arr_elems_s (e : env) (v : val) : outcome (list val) :=
  it <- arr_iter_s e v ;; iter_collect_s (S (length (e_data e))) e it.

(** value/mod.rs:434-460 [dict_key_cmp] *)
Definition dict_key_cmp_s (e : env) (k : dkey) (v2 : val) (is_wide : bool) : outcome comparison :=
  t2 <- value_type e v2 ;;
  if e_dbg e && negb (vtype_eqb t2 TyString || vtype_eqb t2 TyPointer || vtype_eqb t2 TyShort)
  then Panic
  else
    match k, t2 with
    | KString s, TyString => s2 <- to_str e v2 ;; Ret (bytes_cmp s s2)
    | KString s, TyPointer =>
        x <- deref_unchecked_s (fuel_of e) e v2 is_wide ;;
        s2 <- to_str e x ;;
        if e_dbg e && (lenZ s2 =? 0) then Panic else Ret (bytes_cmp s s2)
    | KShared i, TyShort => j <- to_unsigned_short e v2 ;; Ret (i ?= j)
    | KShared _, _ => Ret Lt
    | KString _, TyShort => Ret Gt
    | KString _, _ => Panic
    end.
(** dict.rs:180-185 [_get_unchecked] *)
Definition dict_pair_s (e : env) (v : val) (i : Z) : outcome (val * val) :=
  offset <- usize_mul (e_dbg e) 2 i ;;
  key <- arr_get_unchecked_s e v offset ;;
  o1 <- usize_add (e_dbg e) offset 1 ;;
  x <- arr_get_unchecked_s e v o1 ;;
  Ret (key, x).
(** dict.rs:111-145 [_get] *)
Fixpoint dict_search_s (fuel : nat) (e : env) (v : val) (k : dkey) (left right size : Z)
  : outcome (option val) :=
  match fuel with
  | O => Diverge
  | S f =>
      if left <? right then
        let mid := left + size / 2 in
        p <- dict_pair_s e v mid ;;
        wide <- arr_is_wide e v ;;
        c <- dict_key_cmp_s e k (fst p) wide ;;
        let left' := match c with Gt => mid + 1 | _ => left end in
        let right' := match c with Lt => mid | _ => right end in
        match c with
        | Eq => Ret (Some (snd p))
        | _ => dict_search_s f e v k left' right' (right' - left')
        end
      else Ret None
  end.
Definition dict_get_key_s (e : env) (v : val) (k : dkey) : outcome (option val) :=
  n <- dict_len e v ;; dict_search_s 66 e v k 0 n n.
(** dict.rs:209-217 [uses_shared_keys] *)
Definition uses_shared_keys_s (e : env) (v : val) : outcome bool :=
  n <- arr_len e v ;;
  if n =? 0 then Ret false
  else
    p <- dict_pair_s e v 0 ;;
    t <- value_type e (fst p) ;;
    Ret (vtype_eqb t TyShort).
(** dict.rs:191-202 [encode_key] *)
Definition encode_key_s (e : env) (v : val) (key : list Z) (sk : option shared_keys) : outcome dkey :=
  match sk with
  | Some t =>
      Ret (match sk_encode t key with Some i => KShared i | None => KString key end)
  | None =>
      u <- uses_shared_keys_s e v ;;
      if u then
        Ret (match e_sk e with
             | Some t => match sk_encode t key with Some i => KShared i | None => KString key end
             | None => KString key
             end)
      else Ret (KString key)
  end.
(** dict.rs:89-107 [get], [get_with_shared_keys] *)
Definition dict_get_s (e : env) (v : val) (key : list Z) : outcome (option val) :=
  k <- encode_key_s e v key None ;; dict_get_key_s e v k.
Definition dict_get_sk_s (e : env) (v : val) (key : list Z) (sk : shared_keys) : outcome (option val) :=
  k <- encode_key_s e v key (Some sk) ;; dict_get_key_s e v k.
(** dict.rs:150-155 [first] *)
Definition dict_first_s (e : env) (v : val) : outcome (option (val * val)) :=
  n <- arr_len e v ;;
  if n =? 0 then Ret None else p <- dict_pair_s e v 0 ;; Ret (Some p).
(** dict.rs:244-283 [next] of the dict iterators *)
Definition dict_iter_next_s (e : env) (it : aiter) : outcome (option (list Z * val) * aiter) :=
  r <- iter_next_s e it ;;
  let '(k, it1) := r in
  match k with
  | None => Ret (None, it1)
  | Some kv =>
      t <- value_type e kv ;;
      key <- (if vtype_eqb t TyShort then
                match e_sk e with
                | Some tb => i <- to_unsigned_short e kv ;; Ret (sk_decode tb i)
                | None => Ret None
                end
              else s <- to_str e kv ;; Ret (Some s)) ;;
      match key with
      | None => Ret (None, it1)
      | Some s =>
          r2 <- iter_next_s e it1 ;;
          let '(x, it2) := r2 in
          match x with
          | None => Ret (None, it2)
          | Some xv => Ret (Some (s, xv), it2)
          end
      end
  end.
Fixpoint dict_collect_s (fuel : nat) (e : env) (it : aiter) : outcome (list (list Z * val)) :=
  match fuel with
  | O => Diverge
  | S f =>
      r <- dict_iter_next_s e it ;;
      let '(x, it') := r in
      match x with
      | None => Ret []
      | Some kv => l <- dict_collect_s f e it' ;; Ret (kv :: l)
      end
  end.
(** A loop over the dict. *)
Definition dict_elems_s (e : env) (v : val) : outcome (list (list Z * val)) :=
  it <- arr_iter_s e v ;; dict_collect_s (S (length (e_data e))) e it.
