(** Model of the ways to take a scope's document out of the scope: src/mutable/array.rs and
    src/mutable/dict.rs ([from_scope], [TryFrom<&Scope>], [From<AllocedDict>], ...). *)
From Verif Require Import Prelude SharedKeys Decode Read Encodable Encoder Mutable Alloced Scopes.

(** The data of [s] as a value read in the world [w] sees it: the shared keys are looked up by
    address (value/dict.rs [Dict::get], [iter]).  Simplification: one lookup, at the root's
    address, stands for those at the addresses of all dicts in the document. *)
Definition seen (dbg : bool) (w : world) (s : scope) (v : val) : outcome env :=
  k <- find_shared_keys w (sc_start s + v_pos v) ;;
  Ret (mk_env dbg (sc_start s) (sc_data s) k).

(** dict.rs:57-69 [copy_with_shared_keys]: the source is iterated with the keys found for its
    address, the copy's keys are encoded with [sk].  The fuel is what [slot_from_fleece] has
    left for the elements. *)
Definition dict_copy (dbg : bool) (src : env) (v : val) (sk : option shared_keys) : outcome slot :=
  wide <- arr_is_wide src v ;;
  kvs <- dict_elems src v ;;
  l <- mapM (fun kv => s <- slot_from_fleece (pred (fuel_of src)) dbg src (snd kv) wide ;; Ret (fst kv, s)) kvs ;;
  Ret (SDict (fold_left (fun m ks => bt_insert (encode_key sk (fst ks)) (snd ks) m) l []) sk).
(** array.rs:26-34 [clone_from] and :216-226 [From<AllocedArray>], [From<&Array>] *)
Definition array_copy (dbg : bool) (src : env) (v : val) : outcome slot :=
  slot_from_fleece (fuel_of src) dbg src v false.
(** dict.rs:285-290 [From<AllocedDict>]: the keys found for the dict's address *)
Definition dict_from_alloced (dbg : bool) (a : alloced) : outcome slot :=
  dict_copy dbg (al_env a) (al_val a) (e_sk (al_env a)).

(** array.rs:40-45 [from_scope]; array.rs:228-241 [TryFrom<&Scope>] is the same with [Err] for [None] *)
Definition array_from_scope (dbg : bool) (w : world) (s : scope) : outcome (option slot) :=
  match scope_root s with
  | None => Ret None
  | Some (_, v) =>
      e <- seen dbg w s v ;;
      a <- alloced_to_array (mk_alloced e v) ;;
      match a with
      | None => Ret None
      | Some x => r <- array_copy dbg (al_env x) (al_val x) ;; Ret (Some r)
      end
  end.
(** dict.rs:50-55 [from_scope]; dict.rs:292-303 [TryFrom<&Scope>] is the same with [Err] for [None] *)
Definition dict_from_scope (dbg : bool) (w : world) (s : scope) : outcome (option slot) :=
  match scope_root s with
  | None => Ret None
  | Some (_, v) =>
      e <- seen dbg w s v ;;
      a <- alloced_to_dict (mk_alloced e v) ;;
      match a with
      | None => Ret None
      | Some x => r <- dict_copy dbg (al_env x) (al_val x) (sc_sk s) ;; Ret (Some r)
      end
  end.
