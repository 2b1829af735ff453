(** What the text of [Debug] says about the contents of a value. *)
From Verif Require Import Prelude Utf8 Float SharedKeys Decode Read Show.

(** The contents one can tell from what is shown.  A float of four bytes is shown as the f64 of
    the same number.  A pointer has no contents. *)
Fixpoint all_some {A} (l : list (option A)) : option (list A) :=
  match l with
  | [] => Some []
  | Some x :: r => match all_some r with Some s => Some (x :: s) | None => None end
  | None :: _ => None
  end.
Fixpoint content (s : shown) : option tree :=
  match s with
  | ShWord TyNull => Some TNull
  | ShWord TyUndefined => Some TUndef
  | ShWord TyFalse => Some (TBool false)
  | ShWord TyTrue => Some (TBool true)
  | ShWord _ => None
  | ShNum _ z => Some (TInt z)
  | ShFloat TyFloat x => Some (TF32 (f32_of_f64 x))
  | ShFloat _ x => Some (TF64 x)
  | ShStr s => Some (TStr s)
  | ShData s => Some (TData s)
  | ShArr l => option_map TArr (all_some (map content l))
  | ShDict l => option_map TDict (all_some (map (fun kv => option_map (pair (fst kv)) (content (snd kv))) l))
  | ShPtr _ _ => None
  end.

(** The type named. *)
Definition type_shown (s : shown) : vtype :=
  match s with
  | ShWord t | ShNum t _ | ShFloat t _ => t
  | ShStr _ => TyString
  | ShData _ => TyData
  | ShArr _ => TyArray
  | ShDict _ => TyDict
  | ShPtr _ _ => TyPointer
  end.
