(** Common vocabulary of the model: outcomes, results, bytes, machine integers.

    Nothing here models a particular function of the crate; it fixes how Rust's
    panics, [Result]s, slices and fixed-width integers are represented. *)
From Coq Require Export ZArith List Lia Bool.
Export ListNotations.
Open Scope Z_scope.

(** What a Rust call can do.  [Ret] is a normal return, [Panic] an unwinding
    panic, [UB] a memory read outside the buffer the value lives in,
    [Diverge] exhaustion of the recursion fuel the model runs with. *)
Inductive outcome (A : Type) : Type :=
| Ret (a : A)
| Panic
| UB
| Diverge.
Arguments Ret {A} a.
Arguments Panic {A}.
Arguments UB {A}.
Arguments Diverge {A}.

(** Rust's [Result<T, E>]. *)
Inductive result (T E : Type) : Type :=
| Ok (t : T)
| Err (e : E).
Arguments Ok {T E} t.
Arguments Err {T E} e.

Definition bind {A B} (m : outcome A) (k : A -> outcome B) : outcome B :=
  match m with
  | Ret a => k a
  | Panic => Panic
  | UB => UB
  | Diverge => Diverge
  end.

(** The [?] operator on a call returning [Result]. *)
Definition bindr {A B E} (m : outcome (result A E)) (k : A -> outcome (result B E))
  : outcome (result B E) :=
  match m with
  | Ret (Ok a) => k a
  | Ret (Err e) => Ret (Err e)
  | Panic => Panic
  | UB => UB
  | Diverge => Diverge
  end.

Notation "x <- m ;; k" := (bind m (fun x => k))
  (at level 61, m at next level, right associativity).
Notation "x <-? m ;; k" := (bindr m (fun x => k))
  (at level 61, m at next level, right associativity).

(** Lengths as integers, sub-lists by integer position. *)
Definition lenZ {A} (l : list A) : Z := Z.of_nat (length l).
Definition subl {A} (l : list A) (p n : Z) : list A :=
  firstn (Z.to_nat n) (skipn (Z.to_nat p) l).
Definition nthZ {A} (l : list A) (i : Z) : option A :=
  if i <? 0 then None else nth_error l (Z.to_nat i).

Definition is_byte (b : Z) : Prop := 0 <= b < 256.
Definition all_bytes (l : list Z) : Prop := Forall is_byte l.

(** Machine integer bounds. *)
Definition two16 : Z := 65536.
Definition two32 : Z := 4294967296.
Definition two63 : Z := 9223372036854775808.
Definition two64 : Z := 18446744073709551616.

(** [x as i16], [x as i64] (two's complement wrap). *)
Definition wrap_i16 (z : Z) : Z := (z + 32768) mod two16 - 32768.
Definition wrap_i64 (z : Z) : Z := (z + two63) mod two64 - two63.
Definition wrap_u16 (z : Z) : Z := z mod two16.
Definition wrap_u32 (z : Z) : Z := z mod two32.
Definition wrap_u64 (z : Z) : Z := z mod two64.

(** usize / u64 arithmetic: overflow panics in debug builds, wraps in release. *)
Definition usize_add (dbg : bool) (a b : Z) : outcome Z :=
  if a + b <? two64 then Ret (a + b) else if dbg then Panic else Ret (wrap_u64 (a + b)).
Definition usize_mul (dbg : bool) (a b : Z) : outcome Z :=
  if a * b <? two64 then Ret (a * b) else if dbg then Panic else Ret (wrap_u64 (a * b)).
Definition usize_sub (dbg : bool) (a b : Z) : outcome Z :=
  if b <=? a then Ret (a - b) else if dbg then Panic else Ret (wrap_u64 (a - b)).
Definition u32_add (dbg : bool) (a b : Z) : outcome Z :=
  if a + b <? two32 then Ret (a + b) else if dbg then Panic else Ret (wrap_u32 (a + b)).
Definition u32_sub (dbg : bool) (a b : Z) : outcome Z :=
  if b <=? a then Ret (a - b) else if dbg then Panic else Ret (wrap_u32 (a - b)).
(** [x << s] on u64: shifting by 64 or more panics in debug builds, and uses the
    shift amount modulo 64 in release. *)
Definition u64_shl (dbg : bool) (x s : Z) : outcome Z :=
  if s <? 64 then Ret (wrap_u64 (x * 2 ^ s))
  else if dbg then Panic else Ret (wrap_u64 (x * 2 ^ (s mod 64))).

(** Little- and big-endian byte lists. *)
Fixpoint le_bytes (n : nat) (z : Z) : list Z :=
  match n with
  | O => []
  | S n' => (z mod 256) :: le_bytes n' (z / 256)
  end.
Definition be_bytes (n : nat) (z : Z) : list Z := rev (le_bytes n z).
Fixpoint le_val (l : list Z) : Z :=
  match l with
  | [] => 0
  | b :: l' => b + 256 * le_val l'
  end.
Definition be_val (l : list Z) : Z := le_val (rev l).

Definition zeros (n : Z) : list Z := repeat 0 (Z.to_nat n).

(** Number of trailing zero bits, [u64::trailing_zeros] (64 for 0). *)
Fixpoint ctz_pos (p : positive) : Z :=
  match p with
  | xO p' => 1 + ctz_pos p'
  | _ => 0
  end.
Definition ctz64 (z : Z) : Z :=
  match z with
  | Zpos p => ctz_pos p
  | _ => 64
  end.

(** Lexicographic comparison of byte strings: [<str as Ord>::cmp]. *)
Fixpoint bytes_cmp (a b : list Z) : comparison :=
  match a, b with
  | [], [] => Eq
  | [], _ :: _ => Lt
  | _ :: _, [] => Gt
  | x :: a', y :: b' =>
      match x ?= y with
      | Eq => bytes_cmp a' b'
      | c => c
      end
  end.
Fixpoint bytes_eqb (a b : list Z) : bool :=
  match a, b with
  | [], [] => true
  | x :: a', y :: b' => (x =? y) && bytes_eqb a' b'
  | _, _ => false
  end.
