(** The size of a document: values and keys in it, and how deep it is nested. *)
From Verif Require Import Prelude Utf8 Float SharedKeys Decode Read.

Fixpoint nodes (t : tree) : Z :=
  match t with
  | TArr l => 1 + fold_right (fun x n => nodes x + n) 0 l
  | TDict l => 1 + fold_right (fun kx n => 1 + nodes (snd kx) + n) 0 l
  | _ => 1
  end.
Fixpoint height (t : tree) : Z :=
  match t with
  | TArr l => 1 + fold_right (fun x n => Z.max (height x) n) 0 l
  | TDict l => 1 + fold_right (fun kx n => Z.max (Z.max 1 (height (snd kx))) n) 0 l
  | _ => 1
  end.
