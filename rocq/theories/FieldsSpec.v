(** Vocabulary for C95: the entries of a dict that matter to a struct. *)
From Verif Require Import Prelude Decode Read Encodable Ser De.

(** The type of an optional field, possibly by name. *)
Definition is_option (G : nat -> sty) (ty : sty) : bool :=
  match ty with
  | YOpt _ => true
  | YNamed n => match G n with YOpt _ => true | _ => false end
  | _ => false
  end.
(** An entry matters if it has the name of a field, unless the field is optional and the entry is
    null. *)
Definition matters (G : nat -> sty) (fields : list (list Z * sty)) (kx : list Z * tree) : bool :=
  match lookup (fst kx) fields with
  | None => false
  | Some ty => negb (is_option G ty && match snd kx with TNull => true | _ => false end)
  end.
(** How deep a value is nested. *)
Fixpoint nesting (t : tree) : nat :=
  match t with
  | TArr l => S (fold_right (fun x n => Nat.max (nesting x) n) 0%nat l)
  | TDict l => S (fold_right (fun kx n => Nat.max (nesting (snd kx)) n) 0%nat l)
  | _ => 1%nat
  end.
