(** Model of the static values: value/mod.rs:114-121, :531-547, array.rs:43-46, dict.rs:51-54. *)
From Verif Require Import Prelude SharedKeys Decode.

(** A static two-byte buffer at address [base], with the value that covers it. *)
Definition static2 (dbg : bool) (base : Z) (bs : Z * Z) : env * val :=
  (mk_env dbg base [fst bs; snd bs] None, V 0 2).

(** array.rs:43-46 [Array::empty] *)
Definition array_empty (dbg : bool) (base : Z) : env * val := static2 dbg base (TAG_ARRAY, 0).
(** dict.rs:51-54 [Dict::empty] *)
Definition dict_empty (dbg : bool) (base : Z) : env * val := static2 dbg base (TAG_DICT, 0).
(** value/mod.rs:530-533 [Value::null] *)
Definition value_null (dbg : bool) (base : Z) : env * val := static2 dbg base CONST_NULL.
(** value/mod.rs:535-538 [Value::undefined] *)
Definition value_undefined (dbg : bool) (base : Z) : env * val := static2 dbg base CONST_UNDEFINED.
(** value/mod.rs:540-547 [Value::bool] *)
Definition value_bool (dbg : bool) (base : Z) (b : bool) : env * val :=
  static2 dbg base (if b then CONST_TRUE else CONST_FALSE).
