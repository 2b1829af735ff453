(** Specification: dicts whose keys ascend, and what looking a key up in a list of entries gives. *)
From Verif Require Import Prelude SharedKeys Decode ReadSpec.
From Coq Require Import Sorted.

(** The order of texts: byte by byte, a prefix first. *)
Inductive bytes_lt : list Z -> list Z -> Prop :=
| bl_prefix y b : bytes_lt [] (y :: b)
| bl_byte x y a b : x < y -> bytes_lt (x :: a) (y :: b)
| bl_rest x a b : bytes_lt a b -> bytes_lt (x :: a) (x :: b).

(** [k] is the key stored as [kv]: a number of the key table, or a text. *)
Definition stored_key (e : env) (kv : val) (k : dkey) : Prop :=
  match k with
  | KShared i => value_type e kv = Ret TyShort /\ to_unsigned_short e kv = Ret i
  | KString s => value_type e kv = Ret TyString /\ to_str e kv = Ret s
  end.
(** Numbers come before texts. *)
Definition key_lt (a b : dkey) : Prop :=
  match a, b with
  | KShared i, KShared j => i < j
  | KShared _, KString _ => True
  | KString s, KString t => bytes_lt s t
  | KString _, KShared _ => False
  end.

(** [l] are the entries of the dict [v], in order. *)
Definition dict_entries (e : env) (v : val) (l : list (dkey * val)) : Prop :=
  dict_len e v = Ret (lenZ l) /\
  forall j k x, nth_error l j = Some (k, x) ->
    exists kv, arr_get e v (2 * Z.of_nat j) = Ret (Some kv) /\ stored_key e kv k /\
      arr_get e v (2 * Z.of_nat j + 1) = Ret (Some x).

(** [r] is what looking [k] up in [l] gives. *)
Definition looked_up {K V} (k : K) (l : list (K * V)) (r : option V) : Prop :=
  match r with Some x => In (k, x) l | None => forall x, ~ In (k, x) l end.

(** The stored key that stands for a text, with a key table. *)
Definition wanted (t : shared_keys) (key : list Z) : dkey :=
  match sk_encode t key with Some i => KShared i | None => KString key end.
Definition is_text (k : dkey) : Prop := match k with KString _ => True | KShared _ => False end.
