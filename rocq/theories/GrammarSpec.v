(** Specification: which byte strings are documents.  Plain arithmetic on bytes and positions;
    nothing here refers to the model of the code. *)
From Verif Require Import Prelude.

Section Grammar.
Variable bs : list Z.

Definition byte_at (p b : Z) : Prop := nthZ bs p = Some b.

(** A length prefix: digits to base 128, the least significant first; a byte of 128 or more says
    that another digit follows.  All of it lies before [q] and it has at most ten digits; the
    number is taken modulo 2^64. *)
Inductive digits : Z -> Z -> list Z -> Prop :=
| dg_last p q b : p < q -> byte_at p b -> b < 128 -> digits p q [b]
| dg_more p q b ds : p < q -> byte_at p b -> 128 <= b -> digits (p + 1) q ds -> digits p q (b - 128 :: ds).
Fixpoint digits_value (ds : list Z) : Z :=
  match ds with [] => 0 | d :: ds' => d + 128 * digits_value ds' end.
Definition prefix (p q n x : Z) : Prop :=
  exists ds, digits p q ds /\ n = lenZ ds /\ n <= 10 /\ x = digits_value ds mod 2 ^ 64.
(** The bytes up to [q] end before the prefix does; what it should describe is taken to be empty. *)
Definition cut_prefix (p q : Z) : Prop :=
  q - p <= 10 /\ forall i, p <= i < q -> exists b, byte_at i b /\ 128 <= b.

(** The size of a value that is neither text nor collection nor pointer, by its first byte:
    small integer, integer, floats, special values. *)
Definition scalar_size (b : Z) : Z :=
  if b <? 16 then 2
  else if b <? 32 then 2 + b mod 8
  else if b <? 48 then (if b mod 16 <? 8 then 6 else 10)
  else 2.

(** A string or binary data at [p], of which all bytes lie within the next [l]. *)
Definition text_within (p l : Z) : Prop :=
  exists b, byte_at p b /\ 64 <= b < 96 /\
  (b mod 16 < 15 /\ 1 + b mod 16 <= l \/
   b mod 16 = 15 /\ (cut_prefix (p + 1) (p + l) \/ exists n x, prefix (p + 1) (p + l) n x /\ 1 + n + x <= l)).

(** An array or dict at [p], to which [l] bytes are given: whether its slots have four bytes, the
    number of slots and the position of the first one. *)
Definition header (p l : Z) (wide : bool) (slots first : Z) : Prop :=
  exists b0 b1, byte_at p b0 /\ byte_at (p + 1) b1 /\ 96 <= b0 < 128 /\
  wide = (8 <=? b0 mod 16) /\
  let per_entry := if b0 <? 112 then 1 else 2 in
  let count := b0 mod 8 * 256 + b1 in
  (count < 2047 /\ slots = per_entry * count /\ first = p + 2 \/
   count = 2047 /\ cut_prefix (p + 2) (p + l) /\ slots = 0 /\ first = p + 2 \/
   count = 2047 /\ exists n x, prefix (p + 2) (p + l) n x /\ slots = per_entry * x /\ first = p + 2 + n + n mod 2).

(** The distance from a pointer back to what it points to: twice the number it holds. *)
Definition distance (p : Z) (wide : bool) (off : Z) : Prop :=
  if wide then exists b0 b1 b2 b3, byte_at p b0 /\ byte_at (p + 1) b1 /\ byte_at (p + 2) b2 /\ byte_at (p + 3) b3 /\
                 off = 2 * ((b0 * 16777216 + b1 * 65536 + b2 * 256 + b3) mod 1073741824)
  else exists b0 b1, byte_at p b0 /\ byte_at (p + 1) b1 /\ off = 2 * ((b0 * 256 + b1) mod 16384).

(** The pointer at [p], of [l] bytes, leads to the value at [t] (which is not a pointer), directly
    or through further pointers, which are wide.  [tl] is the last distance.  Each distance is
    positive and does not lead before the beginning; no pointer is marked as external (a first
    byte of 192 or more). *)
Inductive leads_to : Z -> Z -> bool -> Z -> Z -> Prop :=
| lead_here p l (wide : bool) b off b' :
    (if wide then 4 else 2) <= l -> byte_at p b -> 128 <= b < 192 -> distance p wide off -> 0 < off <= p ->
    byte_at (p - off) b' -> b' < 128 -> leads_to p l wide (p - off) off
| lead_on p l (wide : bool) b off b' t tl :
    (if wide then 4 else 2) <= l -> byte_at p b -> 128 <= b < 192 -> distance p wide off -> 0 < off <= p ->
    byte_at (p - off) b' -> 128 <= b' -> leads_to (p - off) off true t tl -> leads_to p l wide t tl.

(** A value at [p] that is given [l] bytes and must end at [d]; in a slot of a collection or not;
    [wide]: pointers there have four bytes. *)
Inductive valid : bool -> bool -> Z -> Z -> Z -> Prop :=
| valid_slot wide p l d b : byte_at p b -> b < 64 -> scalar_size b <= l -> valid true wide p l d
| valid_scalar wide p l d b : byte_at p b -> b < 64 -> p + scalar_size b <= d -> valid false wide p l d
| valid_text slot wide p l d : text_within p l -> valid slot wide p l d
| valid_collection slot wide p l d (w : bool) slots first :
    header p l w slots first -> let width := if w then 4 else 2 in
    first + slots * width <= d ->
    (forall i, 0 <= i < slots -> valid true w (first + i * width) width (first + i * width + width)) ->
    valid slot wide p l d
| valid_pointer slot wide p l d t tl :
    leads_to p l wide t tl -> valid false wide t tl p -> valid slot wide p l d.

(** A document with its root at [p]: an even number of bytes, of which the last two are a pointer
    to the root (or the root, if there are no others). *)
Definition document (p l : Z) : Prop :=
  let n := lenZ bs in
  2 <= n /\ n mod 2 = 0 /\
  (leads_to (n - 2) 2 false p l \/ n = 2 /\ p = 0 /\ l = 2 /\ exists b, byte_at 0 b /\ b < 128) /\
  valid false false p l n.

(** No ten bytes in a row are all 128 or more. *)
Definition no_long_run : Prop :=
  forall p, exists i, 0 <= i < 10 /\ forall b, byte_at (p + i) b -> b < 128.
End Grammar.
