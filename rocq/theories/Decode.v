(** Model of src/value/mod.rs, src/value/pointer.rs, src/value/array.rs,
    src/value/dict.rs: reading Fleece data. *)
From Verif Require Import Prelude Varint Utf8 Float SharedKeys.

(** The memory a [&Value] points into: one byte buffer [e_data] at address [e_base].
    [e_dbg] is the build mode.  [e_sk] is what [Scope::find_shared_keys] returns for
    addresses inside this buffer (scope.rs:21; the scope map itself is in ScopeModel.v). *)
Record env := mk_env {
  e_dbg : bool;
  e_base : Z;
  e_data : list Z;
  e_sk : option shared_keys;
}.

(** value/mod.rs:23-26 [Value]: a byte slice; position relative to [e_base] and length.
    Simplification: creating a slice that sticks out of the buffer is not flagged, reading
    such bytes is. *)
Record val := V { v_pos : Z; v_len : Z }.

(** A raw one-byte read. *)
Definition raw (e : env) (p : Z) : outcome Z :=
  match nthZ (e_data e) p with
  | Some b => Ret b
  | None => UB
  end.
(** Raw copy of [n] bytes ([copy_nonoverlapping], or reading a whole sub-slice). *)
Definition raw_bytes (e : env) (p n : Z) : outcome (list Z) :=
  if n <=? 0 then Ret []
  else if (0 <=? p) && (p + n <=? lenZ (e_data e)) then Ret (subl (e_data e) p n) else UB.
(** [self.bytes[i]], bounds-checked by Rust against the slice. *)
Definition vbyte (e : env) (v : val) (i : Z) : outcome Z :=
  if (0 <=? i) && (i <? v_len v) then raw e (v_pos v + i) else Panic.
(** [&self.bytes[a..b]], bounds-checked by Rust against the slice. *)
Definition vslice (v : val) (a b : Z) : outcome val :=
  if (a <=? b) && (b <=? v_len v) then Ret (V (v_pos v + a) (b - a)) else Panic.
Definition slice_content (e : env) (s : val) : outcome (list Z) := raw_bytes e (v_pos s) (v_len s).

(** value/mod.rs:29-48 [ValueType] *)
Inductive vtype :=
| TyNull | TyUndefined | TyFalse | TyTrue | TyShort | TyInt | TyUnsignedInt
| TyFloat | TyDouble32 | TyDouble64 | TyString | TyData | TyArray | TyDict | TyPointer.

Definition vtype_eqb (a b : vtype) : bool :=
  match a, b with
  | TyNull, TyNull | TyUndefined, TyUndefined | TyFalse, TyFalse | TyTrue, TyTrue
  | TyShort, TyShort | TyInt, TyInt | TyUnsignedInt, TyUnsignedInt | TyFloat, TyFloat
  | TyDouble32, TyDouble32 | TyDouble64, TyDouble64 | TyString, TyString
  | TyData, TyData | TyArray, TyArray | TyDict, TyDict | TyPointer, TyPointer => true
  | _, _ => false
  end.

(** value/mod.rs:50-74 tags *)
Definition TAG_SHORT : Z := 0x00.
Definition TAG_INT : Z := 0x10.
Definition TAG_FLOAT : Z := 0x20.
Definition TAG_SPECIAL : Z := 0x30.
Definition TAG_STRING : Z := 0x40.
Definition TAG_DATA : Z := 0x50.
Definition TAG_ARRAY : Z := 0x60.
Definition TAG_DICT : Z := 0x70.
Definition TAG_POINTER : Z := 0x80.
Definition SPECIAL_NULL : Z := 0x00.
Definition SPECIAL_UNDEFINED : Z := 0x0C.
Definition SPECIAL_FALSE : Z := 0x04.
Definition SPECIAL_TRUE : Z := 0x08.
Definition FLAG_UNSIGNED_INT : Z := 0x08.
Definition FLAG_DOUBLE_ENCODED : Z := 0x08.
Definition FLAG_DOUBLE_DECODED : Z := 0x04.

(** value/mod.rs:79-111 [ValueType::from_byte] *)
Definition type_of_byte (b : Z) : vtype :=
  let hi := Z.land b 0xF0 in
  if hi =? TAG_SPECIAL then
    let lo := Z.land b 0x0F in
    if lo =? SPECIAL_UNDEFINED then TyUndefined
    else if lo =? SPECIAL_FALSE then TyFalse
    else if lo =? SPECIAL_TRUE then TyTrue
    else TyNull
  else if hi =? TAG_SHORT then TyShort
  else if hi =? TAG_INT then
    (if Z.land b FLAG_UNSIGNED_INT =? 0 then TyInt else TyUnsignedInt)
  else if hi =? TAG_FLOAT then
    let f := Z.land b (Z.lor FLAG_DOUBLE_ENCODED FLAG_DOUBLE_DECODED) in
    if f =? 0 then TyFloat
    else if f =? FLAG_DOUBLE_DECODED then TyDouble32
    else TyDouble64
  else if hi =? TAG_STRING then TyString
  else if hi =? TAG_DATA then TyData
  else if hi =? TAG_ARRAY then TyArray
  else if hi =? TAG_DICT then TyDict
  else TyPointer.

(** value/mod.rs:114-121 constants *)
Definition CONST_TRUE : Z * Z := (Z.lor TAG_SPECIAL SPECIAL_TRUE, 0).
Definition CONST_FALSE : Z * Z := (Z.lor TAG_SPECIAL SPECIAL_FALSE, 0).
Definition CONST_NULL : Z * Z := (Z.lor TAG_SPECIAL SPECIAL_NULL, 0).
Definition CONST_UNDEFINED : Z * Z := (Z.lor TAG_SPECIAL SPECIAL_UNDEFINED, 0).

(** value/mod.rs:198-200 [value_type] *)
Definition value_type (e : env) (v : val) : outcome vtype :=
  b <- vbyte e v 0 ;; Ret (type_of_byte b).

(** value/error.rs:7-33 [DecodeError]; the payloads of the variants (addresses and sizes
    used for display) are dropped. *)
Inductive decode_error :=
| InputIncorrectlySized
| RootNotPointer
| PointerTooSmall
| PointerOffsetZero
| IsNotDict
| IsNotArray
| PointerTargetOutOfBounds
| ArrayOutOfBounds
| ValueOutOfBounds.

Definition dres (A : Type) : Type := outcome (result A decode_error).

(* ---------- Underlying data getters (value/mod.rs:500-548) ---------- *)

(** value/mod.rs:503-508 [_get_short]: [&self.bytes[0..2]] panics when the slice is shorter. *)
Definition get_short (e : env) (v : val) : outcome Z :=
  if v_len v <? 2 then Panic
  else
    b0 <- raw e (v_pos v) ;;
    b1 <- raw e (v_pos v + 1) ;;
    Ret (Z.land b0 0x0F * 256 + b1).

(** The call [varint::read(&self.bytes[off..])]: the sub-slice starts at [off] (the slice
    expression panics if [off > len]). *)
Definition varint_at (e : env) (v : val) (off : Z) : outcome (Z * Z) :=
  if v_len v <? off then Panic
  else varint_read (e_dbg e) (fun i => raw e (v_pos v + off + i)) (v_len v - off).

(** value/mod.rs:510-528 [_get_data] *)
Definition get_data (e : env) (v : val) : outcome val :=
  if v_len v <? 2 then Ret (V (v_pos v) 0)
  else
    b0 <- vbyte e v 0 ;;
    let inline_size := Z.land b0 0x0F in
    if inline_size =? 0x0F then
      r <- varint_at e v 1 ;;
      let '(bytes_read, size) := r in
      if bytes_read =? 0 then Ret (V (v_pos v) 0)
      else
        en <- usize_add (e_dbg e) (1 + bytes_read) size ;;       (* line 522 *)
        vslice v (1 + bytes_read) en
    else vslice v 1 (1 + inline_size).

(* ---------- Into conversions (value/mod.rs:204-329) ---------- *)

(** value/mod.rs:228-235 the Short case of [to_short]: [i | 0xF000] reinterpreted as i16. *)
Definition short_of_12bit (i : Z) : Z :=
  if Z.land i 0x0800 =? 0 then wrap_i16 i else wrap_i16 (Z.lor i 0xF000).

(** value/mod.rs:267-278 the Int/UnsignedInt case of [to_int]: [count] raw bytes, the rest of
    the 8-byte buffer is zero, [i64::from_le_bytes]. *)
Definition int_payload (e : env) (v : val) : outcome Z :=
  b0 <- vbyte e v 0 ;;
  let count := Z.land b0 0x07 + 1 in
  if v_len v <? 1 then Panic
  else
    bs <- raw_bytes e (v_pos v + 1) count ;;
    Ret (wrap_i64 (le_val bs)).

(** value/mod.rs:294-303 the float cases of [to_double]; the result is f64 bits. *)
Definition float_payload (e : env) (v : val) (t : vtype) : outcome Z :=
  match t with
  | TyDouble64 =>
      s <- vslice v 2 10 ;; bs <- slice_content e s ;; Ret (le_val bs)
  | _ =>
      s <- vslice v 2 6 ;; bs <- slice_content e s ;; Ret (f64_of_f32 (le_val bs))
  end.

Definition is_float_type (t : vtype) : bool :=
  match t with TyFloat | TyDouble32 | TyDouble64 => true | _ => false end.

(** value/mod.rs:262-282 [to_int].  [to_int] and [to_double] call each other on disjoint
    types (float payload / integer payload), so no recursion is needed. *)
Definition to_int (e : env) (v : val) : outcome Z :=
  t <- value_type e v ;;
  match t with
  | TyTrue => Ret 1
  | TyFalse => Ret 0
  | TyShort => i <- get_short e v ;; Ret (short_of_12bit i)
  | TyInt | TyUnsignedInt => int_payload e v
  | TyFloat | TyDouble32 | TyDouble64 => d <- float_payload e v t ;; Ret (i64_of_f64 d)
  | _ => Ret 0
  end.

(** value/mod.rs:286-288 [to_unsigned_int] *)
Definition to_unsigned_int (e : env) (v : val) : outcome Z :=
  z <- to_int e v ;; Ret (wrap_u64 z).

(** value/mod.rs:292-306 [to_double] (f64 bits) *)
Definition to_double (e : env) (v : val) : outcome Z :=
  t <- value_type e v ;;
  match t with
  | TyFloat | TyDouble32 | TyDouble64 => float_payload e v t
  | _ => z <- to_int e v ;; Ret (f64_of_i64 z)
  end.

(** value/mod.rs:310-312 [to_float] (f32 bits) *)
Definition to_float (e : env) (v : val) : outcome Z :=
  d <- to_double e v ;; Ret (f32_of_f64 d).

(** value/mod.rs:223-240 [to_short] *)
Definition to_short (e : env) (v : val) : outcome Z :=
  t <- value_type e v ;;
  match t with
  | TyTrue => Ret 1
  | TyFalse => Ret 0
  | TyShort => i <- get_short e v ;; Ret (short_of_12bit i)
  | TyInt | TyUnsignedInt => z <- to_int e v ;; Ret (wrap_i16 z)
  | TyFloat | TyDouble32 | TyDouble64 => d <- to_double e v ;; Ret (i16_of_f64 d)
  | _ => Ret 0
  end.

(** value/mod.rs:247-256 [to_unsigned_short] *)
Definition to_unsigned_short (e : env) (v : val) : outcome Z :=
  t <- value_type e v ;;
  match t with
  | TyTrue => Ret 1
  | TyFalse => Ret 0
  | TyShort => get_short e v
  | TyInt | TyUnsignedInt => z <- to_unsigned_int e v ;; Ret (wrap_u16 z)
  | TyFloat | TyDouble32 | TyDouble64 => d <- to_double e v ;; Ret (u16_of_f64 d)
  | _ => Ret 0
  end.

(** value/mod.rs:207-217 [to_bool] *)
Definition to_bool (e : env) (v : val) : outcome bool :=
  t <- value_type e v ;;
  match t with
  | TyFalse => Ret false
  | TyShort | TyInt | TyFloat | TyDouble32 | TyDouble64 =>
      z <- to_int e v ;; Ret (negb (z =? 0))
  | _ => Ret true
  end.

(** value/mod.rs:315-320 [to_data] *)
Definition to_data (e : env) (v : val) : outcome (list Z) :=
  t <- value_type e v ;;
  match t with
  | TyString | TyData => s <- get_data e v ;; slice_content e s
  | _ => Ret []
  end.

(** value/mod.rs:323-328 [to_str]: invalid UTF-8 gives the empty string. *)
Definition to_str (e : env) (v : val) : outcome (list Z) :=
  t <- value_type e v ;;
  match t with
  | TyString =>
      s <- get_data e v ;;
      bs <- slice_content e s ;;
      Ret (if utf8_valid bs then bs else [])
  | _ => Ret []
  end.

(** value/mod.rs:409-432 [required_size] *)
Definition required_size (e : env) (v : val) : outcome Z :=
  t <- value_type e v ;;
  match t with
  | TyNull | TyUndefined | TyFalse | TyTrue | TyShort => Ret 2
  | TyUnsignedInt | TyInt => b0 <- vbyte e v 0 ;; Ret (2 + Z.land b0 0x07)
  | TyFloat | TyDouble32 => Ret 6
  | TyDouble64 => Ret 10
  | TyString | TyData =>
      s <- get_data e v ;;
      let len := v_len s in
      Ret (if len <=? 1 then 2
           else if len <=? 0x0E then 1 + len
           else 1 + varint_size len + len)
  | TyArray | TyDict => Ret 2
  | TyPointer => Ret 2
  end.

(** value/mod.rs:463-477 [_from_raw] (the array loop at array.rs:198 is its only caller, with
    a width of 2 or 4). *)
Definition from_raw (e : env) (p avail : Z) : dres val :=
  let target := V p avail in
  if v_len target <? 2 then
    _ <- value_type e target ;; _ <- required_size e target ;; Ret (Err ValueOutOfBounds)
  else
    n <- required_size e target ;;
    if avail <? n then _ <- value_type e target ;; Ret (Err ValueOutOfBounds)
    else Ret (Ok target).

(* ---------- Pointer (value/pointer.rs) ---------- *)

(** pointer.rs:12-13 *)
Definition MAX_NARROW : Z := 0x3fff.
Definition MAX_WIDE : Z := 0x3fffffff.

(** pointer.rs:84-94 [get_offset]: raw reads of 2 or 4 bytes, big-endian, two top bits
    cleared, times two. *)
Definition get_offset (e : env) (v : val) (wide : bool) : outcome Z :=
  if wide then
    bs <- raw_bytes e (v_pos v) 4 ;; Ret (Z.land (be_val bs) 0x3fffffff * 2)
  else
    bs <- raw_bytes e (v_pos v) 2 ;; Ret (Z.land (be_val bs) 0x3fff * 2).

(** Address computation [ptr.offset(-offset)] (pointer.rs:37, :68): wraps modulo 2^64; the
    result is again expressed relative to [e_base] (a wrapped address becomes a position
    far outside the buffer). *)
Definition ptr_target (e : env) (v : val) (off : Z) : Z :=
  wrap_u64 (e_base e + v_pos v - off) - e_base e.

(** pointer.rs:22-58 [deref_checked]; [data_start] is position 0. *)
Fixpoint deref_checked (fuel : nat) (e : env) (v : val) (wide : bool) : dres val :=
  match fuel with
  | O => Diverge
  | S f =>
      if (wide && (v_len v <? 4)) || (v_len v <? 2) then Ret (Err PointerTooSmall)
      else
        off <- get_offset e v wide ;;
        if off =? 0 then Ret (Err PointerOffsetZero)
        else
          let tpos := ptr_target e v off in
          b0 <- vbyte e v 0 ;;
          if negb (Z.land b0 0x40 =? 0) then Panic                (* line 42 unimplemented!() *)
          else if tpos <? 0 then Ret (Err PointerTargetOutOfBounds)
          else
            let target := V tpos off in
            t <- value_type e target ;;
            if vtype_eqb t TyPointer then deref_checked f e target true
            else Ret (Ok target)
  end.

(** pointer.rs:63-76 [deref_unchecked]; line 65 is a debug assertion. *)
Fixpoint deref_unchecked (fuel : nat) (e : env) (v : val) (wide : bool) : outcome val :=
  match fuel with
  | O => Diverge
  | S f =>
      off <- get_offset e v wide ;;
      if e_dbg e && (off =? 0) then Panic
      else
        let target := V (ptr_target e v off) off in
        t <- value_type e target ;;
        if vtype_eqb t TyPointer then deref_unchecked f e target true
        else Ret target
  end.

(** Recursion fuel: more than any finite pointer chain or nesting in the buffer can use
    (proved in Safety.v). *)
Definition fuel_of (e : env) : nat := S (S (4 * length (e_data e))).

(** The recurring pattern "if it is a pointer, [deref_unchecked]". *)
Definition resolve (e : env) (v : val) (wide : bool) : outcome val :=
  t <- value_type e v ;;
  if vtype_eqb t TyPointer then deref_unchecked (fuel_of e) e v wide else Ret v.

(* ---------- Array (value/array.rs) ---------- *)

(** array.rs:15 *)
Definition VARINT_COUNT : Z := 0x07FF.

(** array.rs:110-112 [is_wide] *)
Definition arr_is_wide (e : env) (v : val) : outcome bool :=
  b0 <- vbyte e v 0 ;; Ret (negb (Z.land b0 0x08 =? 0)).

Definition width_of (wide : bool) : Z := if wide then 4 else 2.

(** array.rs:125-142 [len]: for a dict the pair count is doubled ([size as usize * 2]). *)
Definition arr_len (e : env) (v : val) : outcome Z :=
  s <- get_short e v ;;
  let size := Z.land s VARINT_COUNT in
  if size =? VARINT_COUNT then
    r <- varint_at e v 2 ;;
    let '(rd, size) := r in
    if rd =? 0 then Ret 0
    else
      t <- value_type e v ;;
      if vtype_eqb t TyDict then usize_mul (e_dbg e) size 2 else Ret size
  else
    t <- value_type e v ;;
    if vtype_eqb t TyDict then Ret (size * 2) else Ret size.

(** array.rs:89-107 [first_pos] *)
Definition first_pos (e : env) (v : val) : outcome Z :=
  if v_len v <? 2 then Ret 0
  else
    s <- get_short e v ;;
    if Z.land s VARINT_COUNT =? VARINT_COUNT then
      r <- varint_at e v 2 ;;
      let '(rd, _) := r in
      Ret (if negb (rd mod 2 =? 0) then 2 + rd + 1 else 2 + rd)
    else Ret 2.

(** array.rs:73-87 [get_unchecked]; the offset arithmetic is on usize. *)
Definition arr_get_unchecked (e : env) (v : val) (index : Z) : outcome val :=
  wide <- arr_is_wide e v ;;
  let width := width_of wide in
  offset <- usize_mul (e_dbg e) index width ;;
  fp <- first_pos e v ;;
  off <- usize_add (e_dbg e) fp offset ;;
  resolve e (V (v_pos v + wrap_i64 off) width) wide.              (* [as isize], line 81 *)

(** array.rs:64-70 [get] *)
Definition arr_get (e : env) (v : val) (index : Z) : outcome (option val) :=
  n <- arr_len e v ;;
  if n <? index then Ret None
  else x <- arr_get_unchecked e v index ;; Ret (Some x).

(** array.rs:206-212 [Index]: [get(index).expect(..)] *)
Definition arr_index (e : env) (v : val) (index : Z) : outcome val :=
  r <- arr_get e v index ;; match r with Some x => Ret x | None => Panic end.

(** array.rs:144-147 [is_empty] *)
Definition arr_is_empty (e : env) (v : val) : outcome bool := n <- arr_len e v ;; Ret (n =? 0).

(** array.rs:215-220 [Iter] *)
Record aiter := mk_aiter {
  it_next : option val;
  it_width : Z;
  it_index : Z;
  it_len : Z;
}.

(** array.rs:150-171 [iter], [_iter_first] *)
Definition arr_iter (e : env) (v : val) : outcome aiter :=
  n <- arr_len e v ;;
  wide <- arr_is_wide e v ;;
  if n =? 0 then Ret (mk_aiter None (width_of wide) 0 n)
  else
    fp <- first_pos e v ;;
    Ret (mk_aiter (Some (V (v_pos v + fp) (width_of wide))) (width_of wide) 0 n).

(** array.rs:231-253 [Iter::next] *)
Definition iter_next (e : env) (it : aiter) : outcome (option val * aiter) :=
  match it_next it with
  | None => Ret (None, it)
  | Some current =>
      if it_len it <=? it_index it then Ret (None, it)
      else
        r <- resolve e current (it_width it =? 4) ;;
        let i := it_index it + 1 in
        let nxt :=
          if i <? it_len it then Some (V (v_pos current + it_width it) (it_width it)) else None in
        Ret (Some r, mk_aiter nxt (it_width it) i (it_len it))
  end.

(** array.rs:255-257 [size_hint] *)
Definition iter_size_hint (it : aiter) : Z := it_len it - it_index it.

(** Running a [for] loop over the iterator and collecting the values.  The fuel is one more
    than the buffer length: an iterator that runs longer reads outside the buffer first. *)
Fixpoint iter_collect (fuel : nat) (e : env) (it : aiter) : outcome (list val) :=
  match fuel with
  | O => Diverge
  | S f =>
      r <- iter_next e it ;;
      let '(x, it') := r in
      match x with
      | None => Ret []
      | Some v => vs <- iter_collect f e it' ;; Ret (v :: vs)
      end
  end.
Definition arr_elems (e : env) (v : val) : outcome (list val) :=
  it <- arr_iter e v ;; iter_collect (S (length (e_data e))) e it.

(* ---------- Validation (value/mod.rs:352-403, value/array.rs:174-204) ---------- *)

(** array.rs:196-200, the element loop of [validate], with the per-element action abstracted.
    [n] elements of [width] bytes from [cur]; [i] counts.  The loop fuel is larger than the
    number of elements that fit in the buffer; an element outside the buffer is [UB]. *)
Fixpoint elems_loop (step : Z -> dres unit) (k : nat) (i n cur width : Z) : dres unit :=
  match k with
  | O => Diverge
  | S k' =>
      if i <? n then
        _ <-? step cur ;; elems_loop step k' (i + 1) n (cur + width) width
      else Ret (Ok tt)
  end.

(** value/mod.rs:373-403 [_validate], with array.rs:179-203 [Array::validate] inlined (the two
    are mutually recursive).  [dend] is [data_end] as a position; address comparisons are made
    on absolute addresses, so that usize overflow is visible. *)
Fixpoint validate (fuel : nat) (e : env) (is_elem is_wide : bool) (v : val) (dend : Z)
  : dres unit :=
  match fuel with
  | O => Diverge
  | S f =>
      t <- value_type e v ;;
      match t with
      | TyArray | TyDict =>
          wide <- arr_is_wide e v ;;
          let width := width_of wide in
          n <- arr_len e v ;;
          fp <- first_pos e v ;;
          let first := v_pos v + fp in
          bytes <- usize_mul (e_dbg e) n width ;;
          lim <- usize_add (e_dbg e) (e_base e + first) bytes ;;
          if e_base e + dend <? lim then
            _ <- usize_sub (e_dbg e) (e_base e + dend) (e_base e + first) ;;   (* line 186 *)
            Ret (Err ArrayOutOfBounds)
          else
            elems_loop
              (fun cur =>
                 x <-? from_raw e cur width ;;
                 validate f e true wide x (cur + width))
              (S (S (length (e_data e)))) 0 n first width
      | TyPointer =>
          target <-? deref_checked (fuel_of e) e v is_wide ;;
          validate f e false is_wide target (v_pos v)
      | _ =>
          if is_elem then Ret (Ok tt)
          else
            n <- required_size e v ;;
            en <- usize_add (e_dbg e) (e_base e + v_pos v) n ;;
            if en <=? e_base e + dend then Ret (Ok tt)
            else
              _ <- usize_sub (e_dbg e) (e_base e + dend) (e_base e + v_pos v) ;;
              Ret (Err ValueOutOfBounds)
      end
  end.

(** value/mod.rs:356-371 [_find_root] *)
Definition find_root (e : env) : dres val :=
  let n := lenZ (e_data e) in
  if (n =? 0) || negb (n mod 2 =? 0) then Ret (Err InputIncorrectlySized)
  else
    let root := V (n - 2) 2 in
    t <- value_type e root ;;
    if vtype_eqb t TyPointer then deref_checked (fuel_of e) e root false
    else if n =? 2 then Ret (Ok root)
    else Ret (Err RootNotPointer).

(** value/mod.rs:139-147 [from_bytes].  (Also [clone_from_bytes], :175-180, which runs it on a
    copy of the bytes at another address.) *)
Definition from_bytes (e : env) : dres val :=
  root <-? find_root e ;;
  _ <-? validate (fuel_of e) e false false root (lenZ (e_data e)) ;;
  Ret (Ok root).

(** value/mod.rs:158-168 [from_bytes_unchecked] *)
Definition from_bytes_unchecked (e : env) : outcome val :=
  let n := lenZ (e_data e) in
  if n <? 2 then Panic
  else
    let root := V (n - 2) 2 in
    t <- value_type e root ;;
    if vtype_eqb t TyPointer then deref_unchecked (fuel_of e) e root false
    else if n =? 2 then Ret root
    else Panic.

(** array.rs:24-31 [Array::from_bytes] *)
Definition array_from_bytes (e : env) : dres val :=
  v <-? from_bytes e ;;
  t <- value_type e v ;;
  if vtype_eqb t TyArray then Ret (Ok v) else Ret (Err IsNotArray).
(** dict.rs:32-39 [Dict::from_bytes] *)
Definition dict_from_bytes (e : env) : dres val :=
  v <-? from_bytes e ;;
  t <- value_type e v ;;
  if vtype_eqb t TyDict then Ret (Ok v) else Ret (Err IsNotDict).

(** value/mod.rs:334-349 [as_array], [as_dict] *)
Definition as_array (e : env) (v : val) : outcome (option val) :=
  t <- value_type e v ;; Ret (if vtype_eqb t TyArray then Some v else None).
Definition as_dict (e : env) (v : val) : outcome (option val) :=
  t <- value_type e v ;; Ret (if vtype_eqb t TyDict then Some v else None).

(* ---------- Dict (value/dict.rs) ---------- *)

(** dict.rs:20-23 [Key] *)
Inductive dkey :=
| KShared (i : Z)
| KString (s : list Z).

(** value/mod.rs:434-460 [dict_key_cmp] *)
Definition dict_key_cmp (e : env) (k : dkey) (v2 : val) (is_wide : bool) : outcome comparison :=
  t2 <- value_type e v2 ;;
  if e_dbg e && negb (vtype_eqb t2 TyString || vtype_eqb t2 TyPointer || vtype_eqb t2 TyShort)
  then Panic
  else
    match k, t2 with
    | KString s, TyString => s2 <- to_str e v2 ;; Ret (bytes_cmp s s2)
    | KString s, TyPointer =>
        x <- deref_unchecked (fuel_of e) e v2 is_wide ;;
        s2 <- to_str e x ;;
        if e_dbg e && (lenZ s2 =? 0) then Panic else Ret (bytes_cmp s s2)
    | KShared i, TyShort => j <- to_unsigned_short e v2 ;; Ret (i ?= j)
    | KShared _, _ => Ret Lt
    | KString _, TyShort => Ret Gt
    | KString _, _ => Panic                                    (* line 458 unreachable!() *)
    end.

(** dict.rs:180-185 [_get_unchecked] *)
Definition dict_pair (e : env) (v : val) (i : Z) : outcome (val * val) :=
  offset <- usize_mul (e_dbg e) 2 i ;;
  key <- arr_get_unchecked e v offset ;;
  o1 <- usize_add (e_dbg e) offset 1 ;;
  x <- arr_get_unchecked e v o1 ;;
  Ret (key, x).

(** dict.rs:169-171 [len] *)
Definition dict_len (e : env) (v : val) : outcome Z := n <- arr_len e v ;; Ret (n / 2).
(** dict.rs:173-176 [is_empty] *)
Definition dict_is_empty (e : env) (v : val) : outcome bool := arr_is_empty e v.

(** dict.rs:115-145 the loop of [_get]; [size = right - left] halves at every round, so 66
    rounds are enough for any usize. *)
Fixpoint dict_search (fuel : nat) (e : env) (v : val) (k : dkey) (left right size : Z)
  : outcome (option val) :=
  match fuel with
  | O => Diverge
  | S f =>
      if left <? right then
        let mid := left + size / 2 in
        p <- dict_pair e v mid ;;
        wide <- arr_is_wide e v ;;
        c <- dict_key_cmp e k (fst p) wide ;;
        let left' := match c with Gt => mid + 1 | _ => left end in
        let right' := match c with Lt => mid | _ => right end in
        match c with
        | Eq => Ret (Some (snd p))
        | _ => dict_search f e v k left' right' (right' - left')
        end
      else Ret None
  end.
Definition dict_get_key (e : env) (v : val) (k : dkey) : outcome (option val) :=
  n <- dict_len e v ;; dict_search 66 e v k 0 n n.

(** dict.rs:209-217 [uses_shared_keys] *)
Definition uses_shared_keys (e : env) (v : val) : outcome bool :=
  n <- arr_len e v ;;
  if n =? 0 then Ret false
  else
    p <- dict_pair e v 0 ;;
    t <- value_type e (fst p) ;;
    Ret (vtype_eqb t TyShort).

(** dict.rs:191-202 [encode_key] *)
Definition encode_key (e : env) (v : val) (key : list Z) (sk : option shared_keys)
  : outcome dkey :=
  match sk with
  | Some t =>
      Ret (match sk_encode t key with Some i => KShared i | None => KString key end)
  | None =>
      u <- uses_shared_keys e v ;;
      if u then
        Ret (match e_sk e with
             | Some t => match sk_encode t key with Some i => KShared i | None => KString key end
             | None => KString key
             end)
      else Ret (KString key)
  end.

(** dict.rs:89-107 [get], [get_with_shared_keys] *)
Definition dict_get (e : env) (v : val) (key : list Z) : outcome (option val) :=
  k <- encode_key e v key None ;; dict_get_key e v k.
Definition dict_get_sk (e : env) (v : val) (key : list Z) (sk : shared_keys)
  : outcome (option val) :=
  k <- encode_key e v key (Some sk) ;; dict_get_key e v k.
(** dict.rs:72-86 [contains_key], [contains_key_with_shared_keys] *)
Definition dict_contains (e : env) (v : val) (key : list Z) : outcome bool :=
  r <- dict_get e v key ;; Ret (match r with Some _ => true | None => false end).
Definition dict_contains_sk (e : env) (v : val) (key : list Z) (sk : shared_keys) : outcome bool :=
  r <- dict_get_sk e v key sk ;; Ret (match r with Some _ => true | None => false end).

(** dict.rs:225-231 [Index] *)
Definition dict_index (e : env) (v : val) (key : list Z) : outcome val :=
  r <- dict_get e v key ;; match r with Some x => Ret x | None => Panic end.
(** dict.rs:150-155 [first] *)
Definition dict_first (e : env) (v : val) : outcome (option (val * val)) :=
  n <- arr_len e v ;;
  if n =? 0 then Ret None else p <- dict_pair e v 0 ;; Ret (Some p).
(** dict.rs:260-263, :279-282 [size_hint] of the dict iterators *)
Definition dict_iter_size_hint (it : aiter) : Z := iter_size_hint it / 2.

(** dict.rs:244-283 [SharedKeyIter::next] / [Iter::next]; which one is used is decided at
    :289-300 by [find_shared_keys]. *)
Definition dict_iter_next (e : env) (it : aiter)
  : outcome (option (list Z * val) * aiter) :=
  r <- iter_next e it ;;
  let '(k, it1) := r in
  match k with
  | None => Ret (None, it1)
  | Some kv =>
      t <- value_type e kv ;;
      key <- (if vtype_eqb t TyShort then
                match e_sk e with
                | Some tb => i <- to_unsigned_short e kv ;; Ret (sk_decode tb i)
                | None => Ret None
                end
              else s <- to_str e kv ;; Ret (Some s)) ;;
      match key with
      | None => Ret (None, it1)
      | Some s =>
          r2 <- iter_next e it1 ;;
          let '(x, it2) := r2 in
          match x with
          | None => Ret (None, it2)
          | Some xv => Ret (Some (s, xv), it2)
          end
      end
  end.

(** A [for (k, v) in dict] loop. *)
Fixpoint dict_collect (fuel : nat) (e : env) (it : aiter) : outcome (list (list Z * val)) :=
  match fuel with
  | O => Diverge
  | S f =>
      r <- dict_iter_next e it ;;
      let '(x, it') := r in
      match x with
      | None => Ret []
      | Some kv => l <- dict_collect f e it' ;; Ret (kv :: l)
      end
  end.
Definition dict_elems (e : env) (v : val) : outcome (list (list Z * val)) :=
  it <- arr_iter e v ;; dict_collect (S (length (e_data e))) e it.
