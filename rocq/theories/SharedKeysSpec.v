(** Specification: histories of a key table. *)
From Verif Require Import Prelude Utf8 SharedKeys Encodable BuilderSpec ValueSpec.

(** The calls [encode_and_insert(k)] for each [k] of [ks], in order: the table and the answers. *)
Fixpoint insert_all (ua : Z -> bool) (t : shared_keys) (ks : list (list Z)) : shared_keys * list (option Z) :=
  match ks with
  | [] => (t, [])
  | k :: ks' =>
      let '(t1, a) := encode_and_insert ua t k in
      let '(t2, l) := insert_all ua t1 ks' in (t2, a :: l)
  end.
(** The table after the insertions [ks] into a new one. *)
Definition after (ua : Z -> bool) (ks : list (list Z)) : shared_keys := fst (insert_all ua [] ks).

(** A key the table is meant for: letters, digits, '_' and '-', and at most 15 bytes. *)
Definition table_key (ua : Z -> bool) (k : list Z) : Prop := lenZ k <= 15 /\ can_encode ua k = true.

(** 0, 1, 2, …, n-1. *)
Definition upto (n : nat) : list Z := map Z.of_nat (seq 0 n).

(** The bytes that the keys of a table take in the saved state. *)
Definition table_bytes (t : shared_keys) : Z := content (map EStr t).

(** [n] different keys of three letters, and a table of 911 keys of 2 to 15 bytes. *)
Definition many_keys (n : nat) : list (list Z) :=
  map (fun j => let z := Z.of_nat j in [97 + z / 625; 97 + (z / 25) mod 25; 97 + z mod 25]) (seq 0 n).
Definition lost_keys : list (list Z) :=
  map (fun k => k ++ repeat 97 12) (many_keys 909) ++ [repeat 98 14; [97;98]].
