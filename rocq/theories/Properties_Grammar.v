(** C71: exactly which byte strings [Value::from_bytes] accepts and what it takes as their root
    (src/value/mod.rs:139-156, 356-535; src/value/pointer.rs:22-75; src/value/array.rs:125-215;
    src/value/varint.rs). *)
From Verif Require Import Prelude Decode ReadSpec Safety PanicSpec Panics Properties_Safety GrammarSpec Grammar.
Local Open Scope Z_scope.

(** In debug builds for every input, and in release builds for every input without huge or
    overlong length prefixes: accepted are the documents of GrammarSpec and no others. *)
Theorem C71_accepted_exactly : forall e, wf_env e -> e_dbg e = true \/ modest e /\ no_long_run (e_data e) ->
  forall p l, from_bytes e = Ret (Ok (V p l)) <-> document (e_data e) p l.
Proof. exact accepted_exactly. Qed.
Print Assumptions C71_accepted_exactly.
(** An error is returned for exactly those that are not documents, unless it panics (C17). *)
Theorem C71_refused_exactly : forall e, wf_env e -> e_dbg e = true \/ modest e /\ no_long_run (e_data e) ->
  ((exists er, from_bytes e = Ret (Err er)) <->
   (forall p l, ~ document (e_data e) p l) /\ ~ root_external e /\ forall a, visits e a -> ~ mishap e a).
Proof. exact refused_exactly. Qed.
Print Assumptions C71_refused_exactly.
(** Neither the address of the bytes nor the build makes a difference. *)
Theorem C71_same_everywhere : forall e e', wf_env e -> wf_env e' -> e_data e = e_data e' ->
  (e_dbg e = true \/ modest e /\ no_long_run (e_data e)) -> (e_dbg e' = true \/ modest e' /\ no_long_run (e_data e')) ->
  forall v, from_bytes e = Ret (Ok v) <-> from_bytes e' = Ret (Ok v).
Proof. exact same_everywhere. Qed.
Print Assumptions C71_same_everywhere.

(** The example document, in either build. *)
Example C71_example_hypotheses : forall dbg, wf_env (ex_env dbg) /\ (e_dbg (ex_env dbg) = true \/ modest (ex_env dbg) /\ no_long_run (e_data (ex_env dbg))).
Proof.
  intros dbg. split; [apply at4g_wf; vm_compute; reflexivity|]. destruct dbg; [left; reflexivity|right].
  split; [apply modestb_ok; vm_compute; reflexivity|apply no_long_runb_ok; vm_compute; reflexivity].
Qed.
Example C71_example_document : document ex_bytes 24 8.
Proof. apply (C71_accepted_exactly (ex_env true)); [apply at4g_wf; vm_compute; reflexivity|left; reflexivity|vm_compute; reflexivity]. Qed.

(** A document by the rules of the grammar alone: an array of the number 5 and the text "a". *)
Definition by_hand : list Z := [0x60; 0x02; 0x00; 0x05; 0x41; 0x61; 0x80; 0x03].
Example C71_example_by_hand : document by_hand 0 6.
Proof.
  split; [vm_compute; discriminate|]. split; [reflexivity|]. split.
  - left. apply (lead_here by_hand 6 2 false 0x80 6 0x60); try reflexivity; try lia. exists 0x80, 0x03. repeat split.
  - apply (valid_collection _ _ _ _ _ _ false 2 2).
    + exists 0x60, 0x02. split; [reflexivity|]. split; [reflexivity|]. split; [lia|]. split; [reflexivity|]. left. repeat split.
    + vm_compute. discriminate.
    + intros i Hi. assert (i = 0 \/ i = 1) as [-> | ->] by lia.
      * apply (valid_slot _ _ _ _ _ 0x00); [reflexivity|lia|vm_compute; discriminate].
      * apply valid_text. exists 0x41. split; [reflexivity|]. split; [lia|]. left. split; [reflexivity|vm_compute; discriminate].
Qed.
(** The same with a text of two bytes in the slot is not a document, and the code panics; with a
    pointer of distance zero it is not a document either, and the code returns an error. *)
Example C71_example_panics : (forall p l, ~ document [0x60; 0x02; 0x00; 0x05; 0x42; 0x61; 0x80; 0x03] p l) /\
  from_bytes (at4g true [0x60; 0x02; 0x00; 0x05; 0x42; 0x61; 0x80; 0x03]) = Panic.
Proof.
  split; [|vm_compute; reflexivity]. intros p l H.
  apply (C71_accepted_exactly (at4g true [0x60; 0x02; 0x00; 0x05; 0x42; 0x61; 0x80; 0x03])) in H; [vm_compute in H; discriminate|apply at4g_wf; vm_compute; reflexivity|left; reflexivity].
Qed.
Example C71_example_refused : (exists er, from_bytes (at4g false [0x60; 0x02; 0x00; 0x05; 0x41; 0x61; 0x80; 0x00]) = Ret (Err er)) /\
  forall p l, ~ document [0x60; 0x02; 0x00; 0x05; 0x41; 0x61; 0x80; 0x00] p l.
Proof.
  split; [eexists; vm_compute; reflexivity|]. intros p l H.
  apply (C71_accepted_exactly (at4g true [0x60; 0x02; 0x00; 0x05; 0x41; 0x61; 0x80; 0x00])) in H; [vm_compute in H; discriminate|apply at4g_wf; vm_compute; reflexivity|left; reflexivity].
Qed.
(** Without the condition on length prefixes the release build accepts more: a prefix of ten
    digits and more, which the debug build panics on. *)
Definition overlong : list Z := [0x4F; 0x80; 0x80; 0x80; 0x80; 0x80; 0x80; 0x80; 0x80; 0x80; 0x80; 0x80; 0x80; 0x06].
Theorem C71_refuted_overlong : (forall dbg, wf_env (at4g dbg overlong)) /\ modest (at4g false overlong) /\
  from_bytes (at4g false overlong) = Ret (Ok (V 0 12)) /\ from_bytes (at4g true overlong) = Panic /\ ~ document overlong 0 12.
Proof.
  split; [intros dbg; apply at4g_wf; vm_compute; reflexivity|]. split; [apply modestb_ok; vm_compute; reflexivity|].
  split; [vm_compute; reflexivity|]. assert (P : from_bytes (at4g true overlong) = Panic) by (vm_compute; reflexivity).
  split; [exact P|]. intros H. apply (C71_accepted_exactly (at4g true overlong)) in H; [congruence|apply at4g_wf; vm_compute; reflexivity|left; reflexivity].
Qed.
Print Assumptions C71_refuted_overlong.
