(** C17: on exactly which bytes [Value::from_bytes] panics (src/value/mod.rs:139-156, 356-535;
    src/value/pointer.rs:22-75; src/value/array.rs:179-215). *)
From Verif Require Import Prelude Decode ReadSpec Safety PanicSpec Panics Properties_Safety.
Local Open Scope Z_scope.

(** In debug builds on every input, and in release builds on every input without huge length
    prefixes (with them it may not return at all, C19): it panics if and only if the root pointer
    leads to an external pointer, or validation comes to a place where there is an external
    pointer, a text that is longer than the bytes given to it, or (debug) a count whose slots
    would end beyond the address space. *)
Theorem C17_panics_exactly : forall e, wf_env e -> e_dbg e = true \/ modest e ->
  (from_bytes e = Panic <-> root_external e \/ exists a, visits e a /\ mishap e a).
Proof. exact panics_exactly. Qed.
Print Assumptions C17_panics_exactly.
(** On all the others it answers. *)
Theorem C17_otherwise_returns : forall e, wf_env e -> e_dbg e = true \/ modest e ->
  ~ root_external e -> (forall a, visits e a -> ~ mishap e a) -> exists r, from_bytes e = Ret r.
Proof. exact otherwise_returns. Qed.
Print Assumptions C17_otherwise_returns.

(** An array of one slot, in which there is a text of five bytes. *)
Definition bad_text : list Z := [0x60; 0x01; 0x45; 0x00; 0x80; 0x02].
Example C17_example_visits : forall dbg, wf_env (at4g dbg bad_text) /\ modest (at4g dbg bad_text) /\
  visits (at4g dbg bad_text) (mk_place true false (V 2 2) 4) /\ mishap (at4g dbg bad_text) (mk_place true false (V 2 2) 4).
Proof.
  intros dbg. split; [apply at4g_wf; vm_compute; reflexivity|]. split; [apply modestb_ok; destruct dbg; vm_compute; reflexivity|]. split.
  - eapply vis_next; [apply (vis_root _ (V 0 4)); destruct dbg; vm_compute; reflexivity|].
    apply (np_slot _ false false (V 0 4) _ false 1 2 0).
    + left; destruct dbg; vm_compute; reflexivity.
    + destruct dbg; vm_compute; reflexivity.
    + destruct dbg; vm_compute; reflexivity.
    + destruct dbg; vm_compute; reflexivity.
    + unfold lenZ; cbn; lia.
    + lia.
    + intros j Hj; lia.
    + reflexivity.
  - apply mis_long; [left; destruct dbg; vm_compute; reflexivity|]. right. exists 6. split; destruct dbg; vm_compute; reflexivity.
Qed.
(** The same slot after one that is refused (a float of eight bytes in a slot of two) is not
    visited, and the input is answered with an error. *)
Definition bad_text_later : list Z := [0x60; 0x02; 0x28; 0x00; 0x45; 0x00; 0x80; 0x03].
Example C17_example_not_visited : forall dbg, wf_env (at4g dbg bad_text_later) /\ modest (at4g dbg bad_text_later) /\
  from_bytes (at4g dbg bad_text_later) = Ret (Err ValueOutOfBounds).
Proof.
  intros dbg. split; [apply at4g_wf; vm_compute; reflexivity|]. split; [apply modestb_ok; destruct dbg; vm_compute; reflexivity|].
  destruct dbg; vm_compute; reflexivity.
Qed.
(** Nothing in the example document is such a place. *)
Example C17_example_none : ~ root_external (ex_env true) /\ forall a, visits (ex_env true) a -> ~ mishap (ex_env true) a.
Proof.
  assert (W : wf_env (ex_env true)) by (apply at4g_wf; vm_compute; reflexivity).
  assert (H : from_bytes (ex_env true) <> Panic) by (vm_compute; congruence).
  split; [intros R|intros a V M]; apply H; apply (C17_panics_exactly _ W (or_introl eq_refl)); [left|right; exists a]; auto.
Qed.
