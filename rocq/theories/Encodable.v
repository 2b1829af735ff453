(** Model of src/encoder/encodable.rs and src/value/sized.rs: how single values are turned
    into bytes. *)
From Verif Require Import Prelude Varint Utf8 Float SharedKeys Decode.

(* ---------- SizedValue (value/sized.rs) ---------- *)

(** sized.rs:6-8: always 4 bytes. *)
Definition sized := list Z.

(** sized.rs:14-18 [new_narrow] *)
Definition new_narrow (b0 b1 : Z) : sized := [b0; b1; 0; 0].
Definition sized_of_const (c : Z * Z) : sized := new_narrow (fst c) (snd c).

(** sized.rs:22-30 [new_pointer]; [offset] is a u32. *)
Definition new_pointer (offset : Z) : option sized :=
  if MAX_WIDE <? offset then None
  else
    match be_bytes 4 offset with
    | b0 :: r => Some (Z.lor b0 TAG_POINTER :: r)
    | [] => None
    end.

(** sized.rs:34-36 [value_type] *)
Definition sized_type (s : sized) : vtype := type_of_byte (nth 0 s 0).

(** sized.rs:39-43 [pointer_offset] *)
Definition pointer_offset (s : sized) : Z :=
  match s with
  | b0 :: r => be_val (Z.lxor b0 TAG_POINTER :: r)
  | [] => 0
  end.

(** sized.rs:47-49 [actual_pointer_offset]: a usize subtraction, then [as u32]. *)
Definition actual_pointer_offset (dbg : bool) (s : sized) (out_len : Z) : outcome Z :=
  d <- usize_sub dbg out_len (pointer_offset s) ;; Ret (wrap_u32 d).

(* ---------- The Encodable types ---------- *)

Inductive ity := I8 | I16 | I32 | I64 | Isize | U8 | U16 | U32 | U64 | Usize.

Definition ity_signed (t : ity) : bool :=
  match t with I8 | I16 | I32 | I64 | Isize => true | _ => false end.
(** The values of each Rust integer type (64-bit target). *)
Definition ity_min (t : ity) : Z :=
  match t with
  | I8 => -128 | I16 => -32768 | I32 => -2147483648 | I64 | Isize => - two63
  | _ => 0
  end.
Definition ity_max (t : ity) : Z :=
  match t with
  | I8 => 127 | I16 => 32767 | I32 => 2147483647 | I64 | Isize => two63 - 1
  | U8 => 255 | U16 => 65535 | U32 => two32 - 1 | U64 | Usize => two64 - 1
  end.

(** Everything that implements [Encodable] (encodable.rs): integers, floats (as bit
    patterns), bool, NullValue, UndefinedValue, str, [u8], Option, SizedValue and the
    headers of finished collections ([value_stack::Array] / [Dict], of which only the
    number of values matters). *)
Inductive encodable :=
| EInt (t : ity) (z : Z)
| EF32 (bits : Z)
| EF64 (bits : Z)
| EBool (b : bool)
| ENull
| EUndef
| EStr (s : list Z)
| EData (s : list Z)
| ENone
| ESome (v : encodable)
| ESized (s : sized)
| EHdr (is_dict : bool) (n : Z).

(** encodable.rs:249-256 [u16::to_sized_value]; [|= SHORT] is [|= 0]. *)
Definition u16_to_sized (z : Z) : option sized :=
  if 2047 <? z then None else Some (new_narrow (z / 256) (z mod 256)).
(** encodable.rs:276-284 [i16::to_sized_value]: big-endian two's complement bytes, the top
    nibble cleared. *)
Definition i16_to_sized (z : Z) : option sized :=
  if (2047 <? z) || (z <? -2048) then None
  else
    let u := wrap_u16 z in
    Some (new_narrow (Z.lor (Z.land (u / 256) 0x0F) TAG_SHORT) (u mod 256)).

(** encodable.rs:510-516, :533-542: strings and data of at most one byte. *)
Definition bytes_to_sized (tag : Z) (s : list Z) : option sized :=
  match s with
  | [] => Some (new_narrow tag 0)
  | [b] => Some (new_narrow (Z.lor tag 1) b)
  | _ => None
  end.

(** The condition [*self <= 2047 || *self >= -2048] of encodable.rs:34, :49, :60. *)
Definition i64_is_short (z : Z) : bool := (z <=? 2047) || (-2048 <=? z).

(** [to_sized_value] of every type (encodable.rs:24, :59, :97, :138, :186, :212, :227, :249,
    :276, :297, :312, :333, :355, :392, :411, :426, :510, :533, :563, :628, :684, :714). *)
Fixpoint to_sized_value (v : encodable) : option sized :=
  match v with
  | EInt t z =>
      match t with
      | I64 | I32 | Isize => if i64_is_short z then i16_to_sized (wrap_i16 z) else None
      | I16 | I8 => i16_to_sized z
      | U64 | U32 | Usize => if z <=? 2047 then u16_to_sized (wrap_u16 z) else None
      | U16 | U8 => u16_to_sized z
      end
  | EF32 _ | EF64 _ => None
  | EBool b => Some (sized_of_const (if b then CONST_TRUE else CONST_FALSE))
  | ENull => Some (sized_of_const CONST_NULL)
  | EUndef => Some (sized_of_const CONST_UNDEFINED)
  | EStr s => bytes_to_sized TAG_STRING s
  | EData s => bytes_to_sized TAG_DATA s
  | ENone => Some (sized_of_const CONST_NULL)
  | ESome w => to_sized_value w
  | ESized s => Some s
  | EHdr _ _ => None
  end.

(** [trailing_ones] of a negative i64, encodable.rs:55. *)
Definition cto_i64 (z : Z) : Z := ctz64 (- z - 1).

(** encodable.rs:48-57 [i64::fleece_size].  (Only the first branch is reachable; in the
    others the usize subtraction is written as an integer one.) *)
Definition i64_fleece_size (z : Z) : Z :=
  if i64_is_short z then 2
  else if 0 <=? z then 8 - ctz64 z + 1 else 8 - cto_i64 z + 1.
(** encodable.rs:87-94 [u64::fleece_size] *)
Definition u64_fleece_size (z : Z) : Z :=
  if z <=? 2047 then 2 else 8 - (ctz64 z + 7) / 8 + 1.
(** encodable.rs:502-508 *)
Definition bytes_fleece_size (n : Z) : Z :=
  if n <=? 1 then 2 else if n <=? 0x0E then 1 + n else 1 + varint_size n + n.
(** encodable.rs:675-682, :705-712 *)
Definition hdr_fleece_size (n : Z) : Z :=
  2 + if VARINT_COUNT <=? n then varint_size n else 0.
(** encodable.rs:616-626 *)
Definition sized_fleece_size (s : sized) : Z :=
  match sized_type s with
  | TyPointer => if MAX_NARROW <? pointer_offset s then 4 else 2
  | _ => 2
  end.

(** [fleece_size] of every type. *)
Fixpoint fleece_size (v : encodable) : Z :=
  match v with
  | EInt t z =>
      match t with
      | I64 | I32 | Isize => i64_fleece_size z
      | I16 | I8 | U16 | U8 => 2
      | U64 | U32 | Usize => u64_fleece_size z
      end
  | EF32 _ => 6
  | EF64 _ => 10
  | EBool _ | ENull | EUndef | ENone => 2
  | EStr s | EData s => bytes_fleece_size (lenZ s)
  | ESome w => fleece_size w
  | ESized s => sized_fleece_size s
  | EHdr _ n => hdr_fleece_size n
  end.

(* ---------- write_fleece_to ----------
   The model of [write_fleece_to(&self, buf, is_wide)]: [None] is Rust's [None]; [Some bs]
   means the bytes [bs] were stored at the start of [buf] and their count returned. *)

(** encodable.rs:573-614 [SizedValue] *)
Definition write_sized (s : sized) (buflen : Z) (is_wide : bool) : outcome (option (list Z)) :=
  match sized_type s with
  | TyPointer =>
      let offset := pointer_offset s in
      if (MAX_NARROW <? offset) || is_wide then
        if buflen <? 4 then Ret None
        else
          match be_bytes 4 (offset / 2) with
          | b0 :: r => Ret (Some (Z.lor b0 TAG_POINTER :: r))
          | [] => Panic
          end
      else
        if buflen <? 2 then Ret None
        else
          match be_bytes 2 (offset / 2) with
          | b0 :: r => Ret (Some (Z.lor b0 TAG_POINTER :: r))
          | [] => Panic
          end
  | _ =>
      if is_wide then
        if buflen <? 4 then Ret None else Ret (Some s)
      else
        if buflen <? 2 then Ret None
        else Ret (Some [Z.land (nth 0 s 0) 0xBF; nth 1 s 0])
  end.

(** encodable.rs:360-376 [write_fleece_constant] *)
Definition write_constant (c : Z * Z) (buflen : Z) (is_wide : bool) : outcome (option (list Z)) :=
  if is_wide then
    if buflen <? 4 then Ret None else Ret (Some [fst c; snd c; 0; 0])
  else
    if buflen <? 2 then Ret None else Ret (Some [fst c; snd c]).

(** encodable.rs:434-490 [write_fleece_string], called with a buffer of at least
    [fleece_size] bytes; indexing beyond the buffer panics. *)
Definition write_string (tag : Z) (s : list Z) (buflen : Z) (is_wide : bool)
  : outcome (option (list Z)) :=
  let n := lenZ s in
  let bs :=
    if n =? 0 then (if is_wide then [tag; 0; 0; 0] else [tag; 0])
    else if n =? 1 then
      (if is_wide then [Z.lor tag 1; nth 0 s 0; 0; 0] else [Z.lor tag 1; nth 0 s 0])
    else if n <=? 0x0E then Z.lor tag n :: s
    else Z.lor tag 0x0F :: varint_write n ++ s in
  if buflen <? lenZ bs then Panic else Ret (Some bs).

(** encodable.rs:635-657 [write_valuestack_collection] *)
Definition write_hdr (tag n buflen : Z) (is_wide : bool) : outcome (option (list Z)) :=
  let inline_size := Z.min n VARINT_COUNT in
  let b0 := Z.lor tag (inline_size / 256) in
  let bs :=
    (if is_wide then Z.lor 0x08 b0 else b0)
      :: (inline_size mod 256) :: (if VARINT_COUNT <=? n then varint_write n else []) in
  if buflen <? lenZ bs then Panic else Ret (Some bs).

(** encodable.rs:77-84, the multi-byte part of [u64::write_fleece_to].  [byte_count as u8 - 1]
    underflows when [byte_count] is 0. *)
Definition write_u64_big (dbg : bool) (z buflen : Z) : outcome (option (list Z)) :=
  let size := u64_fleece_size z in
  if buflen <? size then Ret None
  else
    let byte_count := size - 1 in
    if (byte_count =? 0) && dbg then Panic
    else
      Ret (Some (Z.lor (Z.lor TAG_INT FLAG_UNSIGNED_INT) ((byte_count - 1) mod 256)
                   :: le_bytes (Z.to_nat byte_count) z)).

(** encodable.rs:234-243 [u16::write_fleece_to] *)
Definition write_u16 (dbg : bool) (z buflen : Z) (is_wide : bool) : outcome (option (list Z)) :=
  if 2047 <? z then write_u64_big dbg z buflen
  else
    match u16_to_sized z with
    | Some s => write_sized s buflen is_wide
    | None => Panic
    end.

(** encodable.rs:71-85 [u64::write_fleece_to] *)
Definition write_u64 (dbg : bool) (z buflen : Z) (is_wide : bool) : outcome (option (list Z)) :=
  if z <=? 2047 then write_u16 dbg (wrap_u16 z) buflen is_wide
  else write_u64_big dbg z buflen.

(** encodable.rs:32-46 [i64::write_fleece_to] and :261-270 [i16::write_fleece_to] call each
    other; [fuel] counts the calls. *)
Fixpoint write_i64 (fuel : nat) (z buflen : Z) (is_wide : bool) : outcome (option (list Z)) :=
  match fuel with
  | O => Diverge
  | S f =>
      if i64_is_short z then
        let z' := wrap_i16 z in
        (* i16::write_fleece_to *)
        if (2047 <? z') || (z' <? -2048) then write_i64 f z' buflen is_wide
        else
          match i16_to_sized z' with
          | Some s => write_sized s buflen is_wide
          | None => Panic
          end
      else
        let size := i64_fleece_size z in
        if buflen <? size then Ret None
        else
          let byte_count := size - 1 in
          Ret (Some (Z.lor TAG_INT (byte_count - 1)
                       :: le_bytes (Z.to_nat byte_count) (wrap_u64 z)))
  end.
Definition write_i16 (fuel : nat) (z buflen : Z) (is_wide : bool) : outcome (option (list Z)) :=
  if (2047 <? z) || (z <? -2048) then write_i64 fuel z buflen is_wide
  else
    match i16_to_sized z with
    | Some s => write_sized s buflen is_wide
    | None => Panic
    end.

(** Call depth given to the i64/i16 pair.  The recursion either stops at once or never
    (EncodableProofs.v), so any positive number gives the same answer. *)
Definition INT_FUEL : nat := 8.

(** [write_fleece_to] of every type (encodable.rs:14, :32, :71, :108, :156, :204, :219, :234,
    :261, :289, :303, :319, :340, :380, :403, :418, :494, :521, :550, :573, :662, :692). *)
Fixpoint write_to (dbg : bool) (v : encodable) (buflen : Z) (is_wide : bool)
  : outcome (option (list Z)) :=
  match v with
  | EInt t z =>
      match t with
      | I64 | I32 | Isize => write_i64 INT_FUEL z buflen is_wide
      | I16 | I8 => write_i16 INT_FUEL z buflen is_wide
      | U64 | U32 | Usize => write_u64 dbg z buflen is_wide
      | U16 | U8 => write_u16 dbg z buflen is_wide
      end
  | EF32 bits =>
      if buflen <? 6 then Ret None else Ret (Some (TAG_FLOAT :: 0 :: le_bytes 4 bits))
  | EF64 bits =>
      if buflen <? 10 then Ret None
      else Ret (Some (Z.lor TAG_FLOAT 0x08 :: 0 :: le_bytes 8 bits))
  | EBool b => write_constant (if b then CONST_TRUE else CONST_FALSE) buflen is_wide
  | ENull => write_constant CONST_NULL buflen is_wide
  | EUndef => write_constant CONST_UNDEFINED buflen is_wide
  | EStr s =>
      if buflen <? bytes_fleece_size (lenZ s) then Ret None
      else write_string TAG_STRING s buflen is_wide
  | EData s =>
      if buflen <? bytes_fleece_size (lenZ s) then Ret None
      else write_string TAG_DATA s buflen is_wide
  | ENone => write_constant CONST_NULL buflen is_wide
  | ESome w => write_to dbg w buflen is_wide
  | ESized s => write_sized s buflen is_wide
  | EHdr is_dict n =>
      if buflen <? hdr_fleece_size n then Ret None
      else write_hdr (if is_dict then TAG_DICT else TAG_ARRAY) n buflen is_wide
  end.
