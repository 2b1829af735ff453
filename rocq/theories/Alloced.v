(** Model of src/alloced.rs: values that own a copy of their data. *)
From Verif Require Import Prelude SharedKeys Decode.

(** The same bytes at another address. *)
Definition moved (e : env) (base : Z) : env := mk_env (e_dbg e) base (e_data e) (e_sk e).

(** alloced.rs:11-17 [Alloced]: the copy of the data and the value inside it. *)
Record alloced := mk_alloced { al_env : env; al_val : val }.

(** value/mod.rs:175-180 [Value::clone_from_bytes], alloced.rs:62-69 [new_dangling]: the data is
    copied to [base] and read there.  [sk]: the shared keys found for addresses in the copy. *)
Definition clone_from_bytes (dbg : bool) (base : Z) (sk : option shared_keys) (data : list Z) : dres alloced :=
  let m := mk_env dbg base data sk in
  v <-? from_bytes m ;; Ret (Ok (mk_alloced m v)).
(** value/mod.rs:188-193 [clone_from_bytes_unchecked] *)
Definition clone_from_bytes_unchecked (dbg : bool) (base : Z) (sk : option shared_keys) (data : list Z) : outcome alloced :=
  let m := mk_env dbg base data sk in
  v <- from_bytes_unchecked m ;; Ret (mk_alloced m v).

(** alloced.rs:36-60 [to_array], [to_dict] *)
Definition alloced_to_array (a : alloced) : outcome (option alloced) :=
  t <- value_type (al_env a) (al_val a) ;; Ret (if vtype_eqb t TyArray then Some a else None).
Definition alloced_to_dict (a : alloced) : outcome (option alloced) :=
  t <- value_type (al_env a) (al_val a) ;; Ret (if vtype_eqb t TyDict then Some a else None).

(** value/array.rs:37-40, value/dict.rs:45-48 [Array::clone_from_bytes], [Dict::clone_from_bytes] *)
Definition array_clone_from_bytes (dbg : bool) (base : Z) (sk : option shared_keys) (data : list Z) : dres alloced :=
  a <-? clone_from_bytes dbg base sk data ;;
  r <- alloced_to_array a ;;
  Ret match r with Some x => Ok x | None => Err IsNotArray end.
Definition dict_clone_from_bytes (dbg : bool) (base : Z) (sk : option shared_keys) (data : list Z) : dres alloced :=
  a <-? clone_from_bytes dbg base sk data ;;
  r <- alloced_to_dict a ;;
  Ret match r with Some x => Ok x | None => Err IsNotDict end.

(** alloced.rs:71-97 [AllocedArray::empty], [AllocedDict::empty]; [base]: address of the static. *)
Definition alloced_empty (tag : Z) (dbg : bool) (base : Z) : alloced :=
  mk_alloced (mk_env dbg base [tag; 0] None) (V 0 2).

(** alloced.rs:99-106 [clone]: the same [Arc] and the same pointer. *)
Definition alloced_clone (a : alloced) : alloced := a.
(** alloced.rs:149-172 [eq], [cmp]: by address. *)
Definition al_addr (a : alloced) : Z := e_base (al_env a) + v_pos (al_val a).
Definition alloced_eq (a b : alloced) : bool := al_addr a =? al_addr b.
Definition alloced_cmp (a b : alloced) : comparison := Z.compare (al_addr a) (al_addr b).
