(** Specification: what the bytes of a document mean, in plain arithmetic on bytes and positions
    on top of GrammarSpec; nothing here refers to the model of the code, apart from the type of
    trees in which contents are given and the widening of a float to a double (Float.v). *)
From Verif Require Import Prelude Float TextSpec GrammarSpec Read.

(** How the bytes are understood: as the format defines, as the library does, or as both do. *)
Inductive view := AsFormat | AsBoth | AsLibrary.

(** A number of [n] bits in two's complement. *)
Definition signed (n x : Z) : Z := if x <? 2 ^ (n - 1) then x else x - 2 ^ n.

Section Meaning.
Variable w : view.
Variable bs : list Z.
Variable table : option (list (list Z)).          (* the shared keys, by number *)

(** A number in [n] bytes from [p] on, the least significant first. *)
Inductive number_at : Z -> nat -> Z -> Prop :=
| nr_none p : number_at p 0 0
| nr_more p n b x : byte_at bs p b -> number_at (p + 1) n x -> number_at p (S n) (b + 256 * x).

(** The number an integer of [n] bytes stands for.  The library reads the negative ones of less
    than eight bytes as positive numbers. *)
Definition integer (n x z : Z) : Prop :=
  match w with
  | AsFormat => z = signed (8 * n) x
  | AsBoth => z = signed (8 * n) x /\ (n = 8 \/ x = z)
  | AsLibrary => z = if n =? 8 then signed 64 x else x
  end.
(** A float of four bytes.  The library makes a signalling NaN a quiet one. *)
Definition float32 (x z : Z) : Prop :=
  match w with
  | AsFormat => z = x
  | AsBoth => z = x /\ is_snan32 x = false
  | AsLibrary => z = quiet32 x
  end.
(** Bytes that should be text.  The library takes what is not UTF-8 for the empty text. *)
Definition text (s t : list Z) : Prop :=
  is_text s /\ t = s \/ w = AsLibrary /\ ~ is_text s /\ t = [].

(** [s] lies at [p]. *)
Definition lies_at (p : Z) (s : list Z) : Prop := forall i, 0 <= i < lenZ s -> nthZ bs (p + i) = nthZ s i.
(** The contents of a string or of binary data at [p], which is given [l] bytes. *)
Definition contents (p l b : Z) (s : list Z) : Prop :=
  b mod 16 < 15 /\ lenZ s = b mod 16 /\ lies_at (p + 1) s \/
  b mod 16 = 15 /\ (cut_prefix bs (p + 1) (p + l) /\ s = [] \/
                    exists n, prefix bs (p + 1) (p + l) n (lenZ s) /\ lies_at (p + 1 + n) s).

(** The slot at [q] holds the value at [p], or a pointer to it. *)
Definition slot (wide : bool) (q p l : Z) : Prop :=
  let width := if wide then 4 else 2 in
  p = q /\ l = width /\ (exists b, byte_at bs q b /\ b < 128) \/ leads_to bs q width wide p l.

(** The key at [p]: a string, or the number of a shared key.  The library takes other keys for
    the empty text. *)
Inductive key : Z -> Z -> list Z -> Prop :=
| key_string p l b s k : byte_at bs p b -> 64 <= b < 80 -> contents p l b s -> text s k -> key p l k
| key_shared p l b b1 tb k : byte_at bs p b -> b < 16 -> byte_at bs (p + 1) b1 ->
    table = Some tb -> nthZ tb (b * 256 + b1) = Some k -> key p l k
| key_other p l b : w = AsLibrary -> byte_at bs p b -> 16 <= b < 128 -> ~ 64 <= b < 80 -> key p l [].
(** A number that is not the number of a shared key.  The library ends a dict there. *)
Definition key_unknown (p : Z) : Prop :=
  exists b b1, byte_at bs p b /\ b < 16 /\ byte_at bs (p + 1) b1 /\
  match table with Some tb => nthZ tb (b * 256 + b1) = None | None => True end.

(** The value at [p], which is given [l] bytes. *)
Inductive means : Z -> Z -> tree -> Prop :=
| means_special p l b : byte_at bs p b -> 48 <= b < 64 ->
    means p l (if b =? 52 then TBool false else if b =? 56 then TBool true else if b =? 60 then TUndef else TNull)
| means_small p l b b1 : byte_at bs p b -> b < 16 -> byte_at bs (p + 1) b1 ->
    means p l (TInt (signed 12 (b * 256 + b1)))
| means_int p l b x z : byte_at bs p b -> 16 <= b < 24 -> number_at (p + 1) (Z.to_nat (b - 15)) x ->
    integer (b - 15) x z -> means p l (TInt z)
| means_unsigned p l b x : byte_at bs p b -> 24 <= b < 32 -> number_at (p + 1) (Z.to_nat (b - 23)) x ->
    means p l (TInt x)
| means_float p l b x z : byte_at bs p b -> 32 <= b < 36 -> 6 <= l -> number_at (p + 2) 4 x -> float32 x z ->
    means p l (TF32 z)
| means_double_short p l b x : byte_at bs p b -> 36 <= b < 40 -> 6 <= l -> number_at (p + 2) 4 x ->
    means p l (TF64 (f64_of_f32 x))
| means_double p l b x : byte_at bs p b -> 40 <= b < 48 -> 10 <= l -> number_at (p + 2) 8 x ->
    means p l (TF64 x)
| means_string p l b s t : byte_at bs p b -> 64 <= b < 80 -> contents p l b s -> text s t -> means p l (TStr t)
| means_data p l b s : byte_at bs p b -> 80 <= b < 96 -> contents p l b s -> means p l (TData s)
| means_array p l b wide first ts : byte_at bs p b -> b < 112 -> header bs p l wide (lenZ ts) first ->
    elements wide first ts -> means p l (TArr ts)
| means_dict p l b wide n first es : byte_at bs p b -> 112 <= b -> header bs p l wide (2 * n) first ->
    entries wide first n es -> means p l (TDict es)
(** Slots from [q] on, one for each element. *)
with elements : bool -> Z -> list tree -> Prop :=
| elements_none wide q : elements wide q []
| elements_more (wide : bool) q p l t ts : slot wide q p l -> means p l t ->
    elements wide (q + if wide then 4 else 2) ts -> elements wide q (t :: ts)
(** Pairs of slots from [q] on, a key and a value for each of [n] entries. *)
with entries : bool -> Z -> Z -> list (list Z * tree) -> Prop :=
| entries_none wide q : entries wide q 0 []
| entries_more (wide : bool) q n kp kl k p l t es : 0 < n -> let width := if wide then 4 else 2 in
    slot wide q kp kl -> key kp kl k -> slot wide (q + width) p l -> means p l t ->
    entries wide (q + 2 * width) (n - 1) es -> entries wide q n ((k, t) :: es)
| entries_end wide q n kp kl : w = AsLibrary -> 0 < n -> slot wide q kp kl -> key_unknown kp -> entries wide q n [].
End Meaning.
Scheme means_ind3 := Induction for means Sort Prop
  with elements_ind3 := Induction for elements Sort Prop
  with entries_ind3 := Induction for entries Sort Prop.
Combined Scheme meaning_ind from means_ind3, elements_ind3, entries_ind3.
