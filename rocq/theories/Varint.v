(** Model of src/value/varint.rs. *)
From Verif Require Import Prelude.

(** varint.rs:1 [MAX_LEN]. *)
Definition VARINT_MAX_LEN : Z := 10.

(** varint.rs:17-29, the loop of [read] over [data[1..end]], [end = min(len, MAX_LEN+1)]:
    [n] iterations remain of at most 10; [i] is the enumerate index; byte [i] of the loop
    is byte [i+1] of the slice, reached through [get]. *)
Fixpoint varint_read_loop (dbg : bool) (get : Z -> outcome Z) (len : Z)
    (n : nat) (i shift res : Z) : outcome (Z * Z) :=
  match n with
  | O => Ret (0, 0)                                            (* line 31 *)
  | S n' =>
      if i + 1 <? len then
        byte <- get (i + 1) ;;
        if 128 <=? byte then                                   (* line 18 *)
          x <- u64_shl dbg (Z.land byte 127) shift ;;
          varint_read_loop dbg get len n' (i + 1) (shift + 7) (Z.lor res x)
        else
          x <- u64_shl dbg byte shift ;;                       (* line 22 *)
          if (i =? VARINT_MAX_LEN) && (1 <? byte)              (* line 24 *)
          then Ret (0, 0)
          else Ret (i + 2, Z.lor res x)
      else Ret (0, 0)
  end.

(** varint.rs:5-32 [read].  The slice is given by its length and an accessor, so that a
    read outside the underlying buffer shows up as [UB].  Returns (bytes read, value);
    (0, 0) means "no varint here". *)
Definition varint_read (dbg : bool) (get : Z -> outcome Z) (len : Z) : outcome (Z * Z) :=
  if len <=? 0 then Ret (0, 0)
  else
    b0 <- get 0 ;;
    if b0 <? 128 then Ret (1, b0)
    else varint_read_loop dbg get len 10 0 7 (Z.land b0 127).

(** varint.rs:35-45 [write]: the bytes stored into [out]; the number returned is their
    count.  [fuel] bounds the [while value >= 0x80] loop: a u64 needs at most 9 rounds, so
    10 is enough (proved in VarintProofs.v).  [(value & 0xFF) as u8 | 0x80] is
    [value mod 256] with bit 7 set. *)
Fixpoint varint_write_loop (fuel : nat) (value : Z) : list Z :=
  match fuel with
  | O => [value mod 256]
  | S f =>
      if 128 <=? value then Z.lor (Z.land value 255) 128 :: varint_write_loop f (value / 128)
      else [value mod 256]
  end.
Definition varint_write (value : Z) : list Z := varint_write_loop 10 value.

(** varint.rs:48-54 [size_required]; [63 - leading_zeros] is the position of the highest
    set bit. *)
Definition varint_size (value : Z) : Z :=
  if value =? 0 then 1 else Z.log2 value / 7 + 1.
