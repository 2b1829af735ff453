(** Specification: signalling NaNs of four bytes, which the library hands out as quiet ones. *)
From Verif Require Import Prelude Float Read.

Fixpoint calm (t : tree) : tree :=
  match t with
  | TF32 b => TF32 (quiet32 b)
  | TArr l => TArr (map calm l)
  | TDict l => TDict (map (fun kx => (fst kx, calm (snd kx))) l)
  | _ => t
  end.
