(** C77: typed constructors, indexing and yes/no questions agree with reading. *)
From Verif Require Import Prelude SharedKeys Decode ReadSpec Alloced ViewSpec Entry Safety Navigate Properties_Safety.

(** [Array::from_bytes] and [Dict::from_bytes] give the value that [Value::from_bytes] gives, if
    it is an array or a dict; they pass its errors on, and have one error of their own. *)
Theorem C77_array_from_bytes : forall e,
  (forall v, array_from_bytes e = Ret (Ok v) <-> from_bytes e = Ret (Ok v) /\ value_type e v = Ret TyArray) /\
  (forall x, array_from_bytes e = Ret (Err x) <-> from_bytes e = Ret (Err x) \/
     x = IsNotArray /\ exists v t, from_bytes e = Ret (Ok v) /\ value_type e v = Ret t /\ t <> TyArray).
Proof. exact typed_array. Qed.
Print Assumptions C77_array_from_bytes.
Theorem C77_dict_from_bytes : forall e,
  (forall v, dict_from_bytes e = Ret (Ok v) <-> from_bytes e = Ret (Ok v) /\ value_type e v = Ret TyDict) /\
  (forall x, dict_from_bytes e = Ret (Err x) <-> from_bytes e = Ret (Err x) \/
     x = IsNotDict /\ exists v t, from_bytes e = Ret (Ok v) /\ value_type e v = Ret t /\ t <> TyDict).
Proof. exact typed_dict. Qed.
Print Assumptions C77_dict_from_bytes.

(** [Array::clone_from_bytes] and [Dict::clone_from_bytes]: the same, of the copy at [base]. *)
Theorem C77_array_clone : forall dbg base sk data, let m := mk_env dbg base data sk in
  (forall v, array_from_bytes m = Ret (Ok v) -> array_clone_from_bytes dbg base sk data = Ret (Ok (mk_alloced m v))) /\
  (forall x, array_from_bytes m = Ret (Err x) -> array_clone_from_bytes dbg base sk data = Ret (Err x)).
Proof. exact clone_array. Qed.
Print Assumptions C77_array_clone.
Theorem C77_dict_clone : forall dbg base sk data, let m := mk_env dbg base data sk in
  (forall v, dict_from_bytes m = Ret (Ok v) -> dict_clone_from_bytes dbg base sk data = Ret (Ok (mk_alloced m v))) /\
  (forall x, dict_from_bytes m = Ret (Err x) -> dict_clone_from_bytes dbg base sk data = Ret (Err x)).
Proof. exact clone_dict. Qed.
Print Assumptions C77_dict_clone.
Example C77_from_bytes_example :
  let arr := at4g true [0x60; 0x01; 0x00; 0x05; 0x80; 0x02] in let dict := at4g true [0x70; 0x01; 0x41; 0x61; 0x00; 0x05; 0x80; 0x03] in
  array_from_bytes arr = Ret (Ok (V 0 4)) /\ dict_from_bytes arr = Ret (Err IsNotDict) /\
  array_from_bytes dict = Ret (Err IsNotArray) /\ dict_from_bytes dict = Ret (Ok (V 0 6)) /\
  array_from_bytes (at4g true [0]) = Ret (Err InputIncorrectlySized) /\
  dict_clone_from_bytes true 4294967296 None (e_data dict) = Ret (Ok (mk_alloced dict (V 0 6))).
Proof. repeat (split; [vm_compute; reflexivity|]). vm_compute; reflexivity. Qed.

(** [contains_key] is [get(..).is_some()]; indexing gives what [get] gives, or panics. *)
Theorem C77_contains : forall e v key,
  (dict_contains e v key = Ret true <-> exists x, dict_get e v key = Ret (Some x)) /\
  (dict_contains e v key = Ret false <-> dict_get e v key = Ret None) /\
  (forall x, dict_index e v key = Ret x <-> dict_get e v key = Ret (Some x)).
Proof. exact contains_get. Qed.
Print Assumptions C77_contains.
Theorem C77_contains_shared : forall e v key sk,
  (dict_contains_sk e v key sk = Ret true <-> exists x, dict_get_sk e v key sk = Ret (Some x)) /\
  (dict_contains_sk e v key sk = Ret false <-> dict_get_sk e v key sk = Ret None).
Proof. exact contains_get_sk. Qed.
Print Assumptions C77_contains_shared.
Theorem C77_index : forall e v i x, arr_index e v i = Ret x <-> arr_get e v i = Ret (Some x).
Proof. exact index_get. Qed.
Print Assumptions C77_index.

(** [is_empty] exactly when there is nothing to read. *)
Theorem C77_array_is_empty : forall e r v,
  wf_env e -> from_bytes e = Ret (Ok r) -> reach e r v -> value_type e v = Ret TyArray ->
  exists xs, arr_elems e v = Ret xs /\ arr_is_empty e v = Ret (match xs with [] => true | _ => false end).
Proof. exact is_empty_elems. Qed.
Print Assumptions C77_array_is_empty.
Theorem C77_dict_is_empty : forall e r v,
  wf_env e -> from_bytes e = Ret (Ok r) -> reach e r v -> value_type e v = Ret TyDict ->
  exists es, entries e v es /\ dict_is_empty e v = Ret (match es with [] => true | _ => false end).
Proof. exact dict_empty_entries. Qed.
Print Assumptions C77_dict_is_empty.
Example C77_example : let e := at4g true [0x70; 0x01; 0x41; 0x61; 0x00; 0x05; 0x80; 0x03] in
  wf_env e /\ from_bytes e = Ret (Ok (V 0 6)) /\ value_type e (V 0 6) = Ret TyDict /\ dict_is_empty e (V 0 6) = Ret false /\
  dict_contains e (V 0 6) [97] = Ret true /\ dict_contains e (V 0 6) [98] = Ret false /\ dict_index e (V 0 6) [97] = Ret (V 4 2) /\
  dict_contains_sk e (V 0 6) [97] [[98]] = Ret true /\ dict_index e (V 0 6) [98] = Panic.
Proof. cbv zeta. split; [apply at4g_wf; vm_compute; reflexivity|]. repeat (split; [vm_compute; reflexivity|]). vm_compute; reflexivity. Qed.
