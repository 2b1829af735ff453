(** Model of src/shared_keys.rs (the key table; saving and restoring its state goes through
    the encoder and is in SharedKeysState.v).

    The table is a [folklore::HashMap<zstr<16>, u16>].  Neither dependency is in the
    repository; what is assumed of them (recorded in DESIGN.md):
    - folklore::HashMap: [len], [get], [insert] of a fresh key (always succeeds below the
      capacity of 2048), [get_key(i)] is the i-th inserted key, iteration is in insertion
      order.  Since [encode_and_insert] (the only mutator) always inserts with value
      [len], the map is represented by the list of its keys in insertion order, the value
      of a key being its position.
    - fixedstr::zstr<16>: zero-terminated, holds at most 15 bytes; [make] drops the rest. *)
From Verif Require Import Prelude Utf8.

Definition shared_keys := list (list Z).

(** shared_keys.rs:11-12 *)
Definition MAX_KEYS : Z := 2048.
Definition MAX_KEY_LEN : Z := 16.

(** [zstr::<16>::make], used at shared_keys.rs:33 and :42. *)
Definition zstr_make (s : list Z) : list Z := firstn 15 s.

(** [folklore::HashMap::get]: position of the key. *)
Fixpoint sk_find (k : list Z) (i : Z) (t : shared_keys) : option Z :=
  match t with
  | [] => None
  | x :: t' => if bytes_eqb x k then Some i else sk_find k (i + 1) t'
  end.

(** shared_keys.rs:22-24 [len] ([as u16]; the table never exceeds 2048 keys). *)
Definition sk_len (t : shared_keys) : Z := lenZ t.

(** shared_keys.rs:32-34 [encode] *)
Definition sk_encode (t : shared_keys) (k : list Z) : option Z := sk_find (zstr_make k) 0 t.

(** shared_keys.rs:54-56 [decode] *)
Definition sk_decode (t : shared_keys) (i : Z) : option (list Z) := nthZ t i.

Definition ascii_alnum (c : Z) : bool :=
  in_rng 48 57 c || in_rng 65 90 c || in_rng 97 122 c.

(** [char::is_alphanumeric]; [ua] decides the non-ASCII code points (Unicode tables, not
    modelled). *)
Definition char_alnum (ua : Z -> bool) (c : Z) : bool :=
  if c <? 128 then ascii_alnum c else ua c.

(** shared_keys.rs:66-69 [can_encode] *)
Definition can_encode (ua : Z -> bool) (k : list Z) : bool :=
  forallb (fun c => char_alnum ua c || (c =? 95) || (c =? 45)) (utf8_chars k).

(** shared_keys.rs:59-63 [can_add] *)
Definition can_add (ua : Z -> bool) (t : shared_keys) (k : list Z) : bool :=
  (sk_len t <? MAX_KEYS) && (lenZ k <=? MAX_KEY_LEN) && can_encode ua k.

(** shared_keys.rs:38-51 [encode_and_insert] *)
Definition encode_and_insert (ua : Z -> bool) (t : shared_keys) (k : list Z)
  : shared_keys * option Z :=
  if negb (can_add ua t k) then (t, None)
  else
    let z := zstr_make k in
    match sk_find z 0 t with
    | Some i => (t, Some i)
    | None => (t ++ [z], Some (sk_len t))
    end.
