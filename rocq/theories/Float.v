(** IEEE-754 conversions used by the crate ([f64::from(f32)], [f64 as f32], [i64 as f64],
    [f64 as i64], ...), on raw bit patterns.  A format is given by its mantissa width [mb]
    and exponent width [eb]: binary32 is (23, 8), binary64 is (52, 11).

    These are Rust language operations, not code of the crate.  NaN conversion keeps the
    sign, keeps the top payload bits and sets the quiet bit (what the usual hardware does;
    Rust leaves it unspecified). *)
From Verif Require Import Prelude.

Inductive fclass :=
| FNan (sign : bool) (payload : Z)
| FInf (sign : bool)
| FFin (sign : bool) (m e : Z).      (* value (-1)^sign * m * 2^e, m >= 0 *)

Definition fbias (eb : Z) : Z := 2 ^ (eb - 1) - 1.
(** Exponent of the least significant bit of subnormal numbers. *)
Definition femin (mb eb : Z) : Z := 1 - fbias eb - mb.
Definition finf_bits (mb eb : Z) : Z := (2 ^ eb - 1) * 2 ^ mb.
Definition fsign_bit (mb eb : Z) (s : bool) : Z := if s then 2 ^ (mb + eb) else 0.

Definition fdecode (mb eb bits : Z) : fclass :=
  let s := 2 ^ (mb + eb) <=? bits in
  let ex := (bits / 2 ^ mb) mod 2 ^ eb in
  let fr := bits mod 2 ^ mb in
  if ex =? 2 ^ eb - 1 then (if fr =? 0 then FInf s else FNan s fr)
  else if ex =? 0 then FFin s fr (femin mb eb)
  else FFin s (2 ^ mb + fr) (ex - 1 + femin mb eb).

(** Round-to-nearest-even division by 2^s. *)
Definition rne_shift (m s : Z) : Z :=
  let d := m / 2 ^ s in
  let r := m mod 2 ^ s in
  let h := 2 ^ (s - 1) in
  if h <? r then d + 1
  else if r =? h then (if Z.even d then d else d + 1)
  else d.

(** The float nearest to (-1)^s * m * 2^e. *)
Definition fround (mb eb : Z) (s : bool) (m e : Z) : Z :=
  let sb := fsign_bit mb eb s in
  if m =? 0 then sb
  else
    let q := Z.max (Z.log2 m + e - mb) (femin mb eb) in
    let n := if q <=? e then m * 2 ^ (e - q) else rne_shift m (q - e) in
    let bits := (q - femin mb eb) * 2 ^ mb + n in
    sb + (if finf_bits mb eb <=? bits then finf_bits mb eb else bits).

Definition fquiet (mb payload : Z) : Z :=
  if payload / 2 ^ (mb - 1) =? 0 then payload + 2 ^ (mb - 1) else payload.

(** [f64::from(x: f32)] *)
Definition f64_of_f32 (bits : Z) : Z :=
  match fdecode 23 8 bits with
  | FNan s p => fsign_bit 52 11 s + finf_bits 52 11 + fquiet 52 (p * 2 ^ 29)
  | FInf s => fsign_bit 52 11 s + finf_bits 52 11
  | FFin s m e => fround 52 11 s m e
  end.

(** [x as f32] for [x: f64] *)
Definition f32_of_f64 (bits : Z) : Z :=
  match fdecode 52 11 bits with
  | FNan s p => fsign_bit 23 8 s + finf_bits 23 8 + fquiet 23 (p / 2 ^ 29)
  | FInf s => fsign_bit 23 8 s + finf_bits 23 8
  | FFin s m e => fround 23 8 s m e
  end.

(** [x as f64] for [x: i64] *)
Definition f64_of_i64 (z : Z) : Z := fround 52 11 (z <? 0) (Z.abs z) 0.

(** [x as iN/uN] for [x: f64]: truncation toward zero, saturating, NaN is 0. *)
Definition int_of_f64 (lo hi bits : Z) : Z :=
  match fdecode 52 11 bits with
  | FNan _ _ => 0
  | FInf s => if s then lo else hi
  | FFin s m e =>
      let a := if 0 <=? e then m * 2 ^ e else m / 2 ^ (- e) in
      let z := if s then - a else a in
      Z.max lo (Z.min hi z)
  end.
Definition i64_of_f64 : Z -> Z := int_of_f64 (- two63) (two63 - 1).
Definition i16_of_f64 : Z -> Z := int_of_f64 (-32768) 32767.
Definition u16_of_f64 : Z -> Z := int_of_f64 0 65535.

Definition is_nan32 (bits : Z) : bool :=
  ((bits / 2 ^ 23) mod 2 ^ 8 =? 255) && negb (bits mod 2 ^ 23 =? 0).
(** Signalling NaN bit patterns of binary32. *)
Definition is_snan32 (bits : Z) : bool := is_nan32 bits && ((bits / 2 ^ 22) mod 2 =? 0).
(** The same f32, except that a signalling NaN becomes the quiet NaN with the same payload. *)
Definition quiet32 (bits : Z) : Z := if is_snan32 bits then bits + 2 ^ 22 else bits.
