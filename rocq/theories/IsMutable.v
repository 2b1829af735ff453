(** Model of [Value::is_mutable] (src/value/mod.rs:550-555). *)
From Verif Require Import Prelude SharedKeys Decode.

(** value/mod.rs:553-555: the lowest bit of the address of the value's first byte. *)
Definition is_mutable (e : env) (v : val) : bool := negb (Z.land (e_base e + v_pos v) 1 =? 0).
