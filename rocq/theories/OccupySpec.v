(** Specification: the bytes a single value occupies (text by text of GrammarSpec), and what it
    means that two values answer every question alike. *)
From Verif Require Import Prelude SharedKeys Decode GrammarSpec.

(** The value at [p], which is given [l] bytes, is neither collection nor pointer and occupies
    [n] of them: a number or special value as many as its first byte says; a string or binary
    data its first byte, its length prefix, if there is one, and its contents, and never less
    than two. *)
Definition occupies (bs : list Z) (p l n : Z) : Prop :=
  n <= l /\ exists b, byte_at bs p b /\
  (b < 64 /\ n = scalar_size b \/
   64 <= b < 96 /\ b mod 16 < 15 /\ n = Z.max 2 (1 + b mod 16) \/
   64 <= b < 96 /\ b mod 16 = 15 /\ exists m x, prefix bs (p + 1) (p + l) m x /\ n = 1 + m + x).

(** Its length, if it has a prefix, needs one (it is 15 or more) and needs one of that size; or
    the prefix is the single byte that belongs to the two bytes of an empty text anyway. *)
Definition concise (bs : list Z) (p l : Z) : Prop :=
  forall b m x, byte_at bs p b -> 64 <= b < 96 -> b mod 16 = 15 -> prefix bs (p + 1) (p + l) m x ->
  15 <= x /\ 128 ^ (m - 1) <= x \/ m = 1 /\ x = 0.

(** The [n] bytes from [p] on are those from [p'] on. *)
Definition same_bytes (bs : list Z) (p : Z) (bs' : list Z) (p' n : Z) : Prop :=
  forall i, 0 <= i < n -> nthZ bs (p + i) = nthZ bs' (p' + i).

(** All the questions that can be put to a single value are answered, and alike. *)
Definition answers_alike (e : env) (v : val) (e' : env) (v' : val) : Prop :=
  (exists x, value_type e v = Ret x /\ value_type e' v' = Ret x) /\
  (exists x, to_bool e v = Ret x /\ to_bool e' v' = Ret x) /\
  (exists x, to_short e v = Ret x /\ to_short e' v' = Ret x) /\
  (exists x, to_unsigned_short e v = Ret x /\ to_unsigned_short e' v' = Ret x) /\
  (exists x, to_int e v = Ret x /\ to_int e' v' = Ret x) /\
  (exists x, to_unsigned_int e v = Ret x /\ to_unsigned_int e' v' = Ret x) /\
  (exists x, to_double e v = Ret x /\ to_double e' v' = Ret x) /\
  (exists x, to_float e v = Ret x /\ to_float e' v' = Ret x) /\
  (exists x, to_str e v = Ret x /\ to_str e' v' = Ret x) /\
  (exists x, to_data e v = Ret x /\ to_data e' v' = Ret x) /\
  (exists x, required_size e v = Ret x /\ required_size e' v' = Ret x).
