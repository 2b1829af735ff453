(** Model of the [Debug] implementations of the values: what [{:?}] shows.  The result is the
    structure handed to the formatter of the standard library, which turns it into text. *)
From Verif Require Import Prelude Utf8 Float SharedKeys Decode Read.

(** [debug_tuple] with the name of the type and one field; a list and a map are the only field of
    the tuples [Array] and [Dict]. *)
Inductive shown :=
| ShWord (t : vtype)                           (* Null("Null"), True("True"), ... *)
| ShNum (t : vtype) (z : Z)                    (* Short(1), UnsignedInt(1), Int(1) *)
| ShFloat (t : vtype) (bits : Z)               (* the field is an f64 *)
| ShStr (s : list Z)
| ShData (s : list Z)
| ShArr (l : list shown)
| ShDict (l : list (list Z * shown))
| ShPtr (narrow wide : Z).                     (* Pointer("{ if narrow: -1, if wide: -2 }") *)

(** value/mod.rs:558-594 [Debug] of [Value], with array.rs:269-277 [Debug] of [Array] and
    dict.rs:303-311 [Debug] of [Dict] inlined (they call each other).  The type is asked for
    twice (lines 560, 564); the field ["Empty"] of line 562 is never shown, since asking an
    empty value for its type panics first.  Simplification: the elements of a collection are all
    fetched from its iterator before the first is shown. *)
Fixpoint show (fuel : nat) (e : env) (v : val) : outcome shown :=
  match fuel with
  | O => Diverge
  | S f =>
      _ <- value_type e v ;;
      t <- value_type e v ;;
      match t with
      | TyNull | TyUndefined | TyFalse | TyTrue => Ret (ShWord t)
      | TyShort => z <- to_short e v ;; Ret (ShNum t z)
      | TyUnsignedInt => z <- to_unsigned_int e v ;; Ret (ShNum t z)
      | TyInt => z <- to_int e v ;; Ret (ShNum t z)
      | TyFloat | TyDouble32 | TyDouble64 => x <- to_double e v ;; Ret (ShFloat t x)
      | TyString => s <- to_str e v ;; Ret (ShStr s)
      | TyData => s <- to_data e v ;; Ret (ShData s)
      | TyArray => vs <- arr_elems e v ;; l <- mapM (show f e) vs ;; Ret (ShArr l)
      | TyDict =>
          kvs <- dict_elems e v ;;
          l <- mapM (fun kv => x <- show f e (snd kv) ;; Ret (fst kv, x)) kvs ;;
          Ret (ShDict l)
      | TyPointer =>
          n <- get_offset e v false ;;
          w <- (if 4 <=? v_len v then get_offset e v true else Ret 0) ;;
          Ret (ShPtr n w)
      end
  end.
Definition show_doc (e : env) (v : val) : outcome shown := show (fuel_of e) e v.
