(** Specification: the number that the bits of an IEEE-754 float stand for, and what it means to
    convert a number to another type: the nearest float, or the integer without the fraction. *)
From Verif Require Import Prelude Float Decode.
From Coq Require Import QArith Qabs.
Local Open Scope Z_scope.

Inductive number :=
| NaN
| Infinite (negative : bool)
| Finite (q : Q).

(** [2^e], for negative [e] too. *)
Definition pow2 (e : Z) : Q := Qpower 2 e.

(** A format has one sign bit, [eb] bits of exponent and [mb] bits of fraction; (52, 11) is f64,
    (23, 8) is f32.  [ulp0]: the exponent of the last bit of the smallest numbers. *)
Definition ulp0 (mb eb : Z) : Z := 2 - 2 ^ (eb - 1) - mb.
Definition float_number (mb eb bits : Z) : number :=
  let negative := (bits / 2 ^ (mb + eb)) mod 2 =? 1 in
  let ex := (bits / 2 ^ mb) mod 2 ^ eb in
  let fr := bits mod 2 ^ mb in
  if ex =? 2 ^ eb - 1 then (if fr =? 0 then Infinite negative else NaN)
  else
    let a := (if ex =? 0 then inject_Z fr * pow2 (ulp0 mb eb)
              else inject_Z (2 ^ mb + fr) * pow2 (ulp0 mb eb + ex - 1))%Q in
    Finite (if negative then - a else a)%Q.
Notation f64_number := (float_number 52 11).
Notation f32_number := (float_number 23 8).

Definition same_number (x y : number) : Prop :=
  match x, y with
  | NaN, NaN => True
  | Infinite s, Infinite t => s = t
  | Finite p, Finite q => (p == q)%Q
  | _, _ => False
  end.

(** [t] is [q] without its fraction. *)
Definition truncated (q : Q) (t : Z) : Prop :=
  (if Qle_bool 0 q then inject_Z t <= q < inject_Z (t + 1) else inject_Z (t - 1) < q <= inject_Z t)%Q.
(** Conversion to an integer type with values from [lo] to [hi]. *)
Definition cast_to (lo hi : Z) (x : number) (z : Z) : Prop :=
  match x with
  | NaN => z = 0
  | Infinite negative => z = if negative then lo else hi
  | Finite q => exists t, truncated q t /\ z = Z.max lo (Z.min hi t)
  end.

(** From here on numbers count as infinite: the largest finite number and half the distance to
    the one that would come next. *)
Definition overflow (mb eb : Z) : Q := (inject_Z (2 ^ (mb + 2) - 1) * pow2 (ulp0 mb eb + 2 ^ eb - 4))%Q.
(** [bits] is the float nearest to [x]: no other is nearer, and of two that are equally near
    it is the one whose last bit is 0. *)
Definition nearest (mb eb : Z) (x : Q) (bits : Z) : Prop :=
  0 <= bits < 2 ^ (mb + eb + 1) /\
  match float_number mb eb bits with
  | NaN => False
  | Infinite negative => (overflow mb eb <= Qabs x)%Q /\ negative = negb (Qle_bool 0 x)
  | Finite y =>
      (Qabs x < overflow mb eb)%Q /\
      forall b' y', float_number mb eb b' = Finite y' ->
        (Qabs (y - x) <= Qabs (y' - x))%Q /\
        ((Qabs (y - x) == Qabs (y' - x))%Q -> ~ (y == y')%Q -> Z.even bits = true)
  end.
(** Conversion to a float: NaN and the infinities stay what they are. *)
Definition rounded (mb eb : Z) (x : number) (bits : Z) : Prop :=
  match x with
  | NaN => float_number mb eb bits = NaN
  | Infinite s => float_number mb eb bits = Infinite s
  | Finite q => nearest mb eb q bits
  end.

(** The value [v] has the bytes [bs] at offset [off]. *)
Definition has_bytes (e : env) (v : val) (off : Z) (bs : list Z) : Prop :=
  off + lenZ bs <= v_len v /\ all_bytes bs /\
  exists before after, e_data e = before ++ bs ++ after /\ lenZ before = v_pos v + off.
(** A float of 4 bytes (tag 0x20 to 0x27) or of 8 bytes (0x28 to 0x2F), after a byte of padding. *)
Definition float32_value (e : env) (v : val) (bits : Z) : Prop :=
  exists tag bs, has_bytes e v 0 [tag] /\ 0x20 <= tag < 0x28 /\ has_bytes e v 2 bs /\ lenZ bs = 4 /\ bits = le_val bs.
Definition float64_value (e : env) (v : val) (bits : Z) : Prop :=
  exists tag bs, has_bytes e v 0 [tag] /\ 0x28 <= tag < 0x30 /\ has_bytes e v 2 bs /\ lenZ bs = 8 /\ bits = le_val bs.
(** An unsigned integer of 1 to 8 bytes (tag 0x18 to 0x1F). *)
Definition unsigned_value (e : env) (v : val) (n : Z) : Prop :=
  exists bs, 1 <= lenZ bs <= 8 /\ has_bytes e v 0 [0x17 + lenZ bs] /\ has_bytes e v 1 bs /\ n = le_val bs.

(** [s] is the 16-bit signed number that agrees with [z] in the low 16 bits. *)
Definition low16 (z s : Z) : Prop := -32768 <= s < 32768 /\ (z - s) mod 65536 = 0.

(** What the integer and boolean accessors of a float with the number [x] give. *)
Definition float_accessors (e : env) (v : val) (x : number) : Prop :=
  (exists z, to_int e v = Ret z /\ cast_to (- 2 ^ 63) (2 ^ 63 - 1) x z /\ to_unsigned_int e v = Ret (z mod 2 ^ 64) /\ to_bool e v = Ret (negb (z =? 0))) /\
  (exists z, to_short e v = Ret z /\ cast_to (-32768) 32767 x z) /\
  (exists z, to_unsigned_short e v = Ret z /\ cast_to 0 65535 x z).
