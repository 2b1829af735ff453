(** Model of the comparison of scopes (src/scope.rs:114-143). *)
From Verif Require Import Prelude Utf8 Float SharedKeys Decode Encodable Encoder Scopes.

(** scope.rs:114-124 [PartialEq for Scope], on scopes that are alive: whoever compares scopes holds
    them, and a scope that is alive keeps its data alive, so that [weak_data.upgrade] succeeds.
    Compared are the addresses of the data; addresses of bytes, so lengths play no part. *)
Definition scope_eq (a b : scope) : bool := sc_start a =? sc_start b.

(** scope.rs:131-141 [PartialEq for ScopeEntry]: weak references, of which either can be gone. *)
Definition entry_eq (w : world) (i j : nat) : bool :=
  match upgrade w i with
  | Some a => match upgrade w j with Some b => scope_eq a b | None => false end
  | None => false
  end.
