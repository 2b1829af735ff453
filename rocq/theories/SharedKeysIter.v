(** Model of listing the entries of a key table: src/shared_keys.rs:108-144. *)
From Verif Require Import Prelude Utf8 SharedKeys.

(** The entries of the [folklore::HashMap]: every key with the number it was inserted with
    (shared_keys.rs:38-51 inserts with [len]), numbered from [i] on. *)
Fixpoint sk_entries (i : Z) (t : shared_keys) : list (list Z * Z) :=
  match t with
  | [] => []
  | k :: t' => (k, i) :: sk_entries (i + 1) t'
  end.

(** shared_keys.rs:108-111 [iter], :128-135 [into_iter] and :139-144 [next]: the entries in
    the order [order] of [folklore::Iter], which C33 takes to be the one of insertion and
    which is left open here. *)
Definition sk_iter (order : list (list Z * Z) -> list (list Z * Z)) (t : shared_keys)
  : list (list Z * Z) := order (sk_entries 0 t).

(** shared_keys.rs:114-119 [default] *)
Definition sk_default : shared_keys := [].

(** shared_keys.rs:121-126 [clone]: the map's own [clone], which copies the entries. *)
Definition sk_clone (t : shared_keys) : shared_keys := t.

(** shared_keys.rs:100-105, the texts [write_state] saves when the map iterates in the order
    [order]. *)
Definition saved_keys (order : list (list Z * Z) -> list (list Z * Z)) (t : shared_keys)
  : list (list Z) := map fst (sk_iter order t).
