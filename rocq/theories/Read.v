(** Reading a whole document through the public API: what a user who walks a [Value] with
    [value_type], [to_int], [to_str], [as_array], iteration, ... ends up with.  This is the
    observation in terms of which round-trip properties are stated. *)
From Verif Require Import Prelude Varint Utf8 Float SharedKeys Decode.

(** The abstract content of a Fleece value.  Floats are bit patterns; dicts are the list of
    their entries in iteration order. *)
Inductive tree :=
| TNull
| TUndef
| TBool (b : bool)
| TInt (z : Z)
| TF32 (bits : Z)
| TF64 (bits : Z)
| TStr (s : list Z)
| TData (s : list Z)
| TArr (l : list tree)
| TDict (l : list (list Z * tree)).

(** Map with effects. *)
Fixpoint mapM {A B} (f : A -> outcome B) (l : list A) : outcome (list B) :=
  match l with
  | [] => Ret []
  | x :: l' => y <- f x ;; ys <- mapM f l' ;; Ret (y :: ys)
  end.

Fixpoint read_tree (fuel : nat) (e : env) (v : val) : outcome tree :=
  match fuel with
  | O => Diverge
  | S f =>
      t <- value_type e v ;;
      match t with
      | TyNull => Ret TNull
      | TyUndefined => Ret TUndef
      | TyFalse | TyTrue => b <- to_bool e v ;; Ret (TBool b)
      | TyShort | TyInt => z <- to_int e v ;; Ret (TInt z)
      | TyUnsignedInt => z <- to_unsigned_int e v ;; Ret (TInt z)
      | TyFloat => x <- to_float e v ;; Ret (TF32 x)
      | TyDouble32 | TyDouble64 => x <- to_double e v ;; Ret (TF64 x)
      | TyString => s <- to_str e v ;; Ret (TStr s)
      | TyData => s <- to_data e v ;; Ret (TData s)
      | TyArray =>
          vs <- arr_elems e v ;; l <- mapM (read_tree f e) vs ;; Ret (TArr l)
      | TyDict =>
          kvs <- dict_elems e v ;;
          l <- mapM (fun kv => x <- read_tree f e (snd kv) ;; Ret (fst kv, x)) kvs ;;
          Ret (TDict l)
      | TyPointer => Panic       (* no API call hands out a pointer value *)
      end
  end.
(** The nesting depth of accepted data is bounded by its length. *)
Definition read_doc (e : env) (v : val) : outcome tree := read_tree (fuel_of e) e v.
