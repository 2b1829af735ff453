(** How much space a document takes. *)
From Verif Require Import Prelude Read Encoder BuilderSpec LayoutSpec.

(** Everything is padded to an even number of bytes. *)
Definition padded (n : Z) : Z := n + n mod 2.
(** A length written seven bits to the byte. *)
Definition length_bytes (n : Z) : Z := Z.log2 n / 7 + 1.
(** A text, blob or key of [n] bytes, besides its slot: nothing if it is empty or a single byte,
    otherwise its bytes behind a tag and, from 15 bytes on, behind its length. *)
Definition text_space (n : Z) : Z :=
  if n <=? 1 then 0 else padded (1 + (if n <=? 14 then 0 else length_bytes n) + n).
(** A number, besides its slot: nothing up to 2047, otherwise a tag and eight bytes, less one
    byte for every eight zero bits, or part of eight, at its lower end. *)
Definition number_space (z : Z) : Z :=
  if z <=? 2047 then 0 else padded (1 + (8 - (ctz64 z + 7) / 8)).
(** The header of a collection of [n] entries. *)
Definition collection_header (n : Z) : Z := padded (2 + (if n <? 2047 then 0 else length_bytes n)).
(** A value with everything in it, besides its own slot, when slots have [w] bytes.  An array has
    a slot for each element, a dict two for each entry. *)
Fixpoint space (w : Z) (t : tree) : Z :=
  match t with
  | TNull | TUndef | TBool _ => 0
  | TInt z => number_space z
  | TF32 _ => 6
  | TF64 _ => 10
  | TStr s | TData s => text_space (lenZ s)
  | TArr l => collection_header (lenZ l) + w * lenZ l + fold_right (fun x n => space w x + n) 0 l
  | TDict l => collection_header (lenZ l) + 2 * w * lenZ l +
               fold_right (fun kv n => text_space (lenZ (fst kv)) + space w (snd kv) + n) 0 l
  end.

(** The length of the output after the calls, and after [finish], by the arithmetic of
    LayoutSpec.v. *)
Definition l_run (ua : Z -> bool) (l : lstate) (ops : list op) : lstate := fold_left (l_step ua) ops l.
Fixpoint l_finish (fuel : nat) (l : lstate) : lstate :=
  match fuel with
  | O => l
  | S f => match l_stack l with [] => l | _ => l_finish f (l_close (l_drop l)) end
  end.
Definition written_len (ua : Z -> bool) (n : Z) (ops : list op) : Z := l_pos (l_run ua (l_init n) ops).
Definition finished_len (ua : Z -> bool) (n : Z) (ops : list op) : Z :=
  let l := l_run ua (l_init n) ops in l_pos (l_finish (length (l_stack l)) l).
