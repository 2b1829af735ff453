(** Small specifications used in the statements of the property theorems.
    Nothing here models code of the crate. *)
From Verif Require Import Prelude.

(** Memory holding exactly the bytes [bs]: any other address is out of bounds. *)
Definition mem (bs : list Z) (i : Z) : outcome Z :=
  match nthZ bs i with
  | Some b => Ret b
  | None => UB
  end.
