(** C86: comparing scopes (src/scope.rs:114-143). *)
From Coq Require Import Lia.
From Verif Require Import Prelude Utf8 Float SharedKeys Decode Encodable Encoder BuilderSpec Scopes ScopeSpec ScopeProofs ScopeEq ScopeEqProofs Properties_Scope.

(** Whatever was created, removed and dropped before, two scopes that are alive compare equal if
    and only if they hold the same data at the same place in memory. *)
Theorem C86_same_data : forall dbg w reg i j a b, reach dbg allocated w reg -> alive w i a -> alive w j b ->
  scope_eq a b = true <-> sc_start a = sc_start b /\ sc_data a = sc_data b.
Proof. exact eq_same_data. Qed.
Print Assumptions C86_same_data.

(** The comparison is an equivalence, as [Eq] promises. *)
Theorem C86_equivalence : (forall a, scope_eq a a = true) /\ (forall a b, scope_eq a b = scope_eq b a) /\
  (forall a b c, scope_eq a b = true -> scope_eq b c = true -> scope_eq a c = true).
Proof. exact eq_laws. Qed.
Print Assumptions C86_equivalence.

(** The scope found for an address in the data of a scope is equal to that scope. *)
Theorem C86_found : forall dbg w reg i a p id, reach dbg allocated w reg -> alive w i a -> within a p -> scope_containing w p = Ret (Some id) ->
  exists b, alive w id b /\ scope_eq a b = true.
Proof. exact eq_found. Qed.
Print Assumptions C86_found.

(** A scope with memory of its own is equal to no other one, whatever the contents. *)
Theorem C86_own_memory : forall dbg w reg i j a b, reach dbg fresh w reg -> alive w i a -> alive w j b -> scope_eq a b = true -> i = j.
Proof. exact eq_own_memory. Qed.
Print Assumptions C86_own_memory.

(** The entries of the global map, which do not keep scopes alive, compare in the same way as long
    as both scopes are alive, and are equal to nothing, not even to themselves, afterwards. *)
Theorem C86_entries : forall w,
  (forall i j, entry_eq w i j = true <-> exists a b, alive w i a /\ alive w j b /\ scope_eq a b = true) /\
  (forall i, entry_eq w i i = true <-> exists s, alive w i s) /\ (forall i j, entry_eq w i j = entry_eq w j i) /\
  (forall i j k, entry_eq w i j = true -> entry_eq w j k = true -> entry_eq w i k = true).
Proof. exact (fun w => conj (entry_eq_iff w) (entry_laws w)). Qed.
Print Assumptions C86_entries.

(** Two scopes of one [Arc], with different shared keys, and one with the same bytes elsewhere: the
    first two are equal, and the second is found.  Dropping the first changes nothing. *)
Definition eq_w1 : world := snd (scope_new true world_new 4096 ex_bytes None).
Definition eq_w2 : world := snd (scope_new true eq_w1 4096 ex_bytes (Some [[97; 98]])).
Definition eq_w3 : world := snd (scope_new true eq_w2 8192 ex_bytes None).
Definition eq_scope (start : Z) (sk : option shared_keys) : scope := mk_scope start ex_bytes sk (Some (Decode.V 4 6)) true.
Example C86_example :
  reach true allocated eq_w3 [2%nat; 1%nat; 0%nat] /\
  alive eq_w3 0 (eq_scope 4096 None) /\ alive eq_w3 1 (eq_scope 4096 (Some [[97; 98]])) /\ alive eq_w3 2 (eq_scope 8192 None) /\
  scope_eq (eq_scope 4096 None) (eq_scope 4096 (Some [[97; 98]])) = true /\ scope_eq (eq_scope 4096 None) (eq_scope 8192 None) = false /\
  scope_containing eq_w3 4100 = Ret (Some 1%nat) /\
  entry_eq (scope_drop eq_w3 0) 0 0 = false /\ entry_eq (scope_drop eq_w3 0) 1 1 = true.
Proof.
  split; [|vm_compute; auto 10].
  eapply re_new with (w := eq_w2) (start := 8192) (data := ex_bytes) (sk := None); [| |vm_compute; reflexivity].
  - eapply re_new with (w := eq_w1) (start := 4096) (data := ex_bytes) (sk := Some [[97; 98]]); [| |vm_compute; reflexivity].
    + eapply re_new with (w := world_new) (start := 4096) (data := ex_bytes) (sk := None); [apply re_start| |vm_compute; reflexivity].
      intros id s [H _]. destruct id; discriminate.
    + unfold eq_w1. vm_compute w_scopes. each_scope. right. split; reflexivity.
  - each_scope; left; left; vm_compute; discriminate.
Qed.
