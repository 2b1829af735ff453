(** C40-C42, C52: scopes (src/scope.rs, [finish_scoped] in src/encoder/mod.rs). *)
From Verif Require Import Prelude Utf8 Float SharedKeys Decode Read Encodable Encoder BuilderSpec LayoutSpec
  EncoderInv EncoderClean EncoderProtocol Isort Scopes ScopeSpec ScopeProofs ScopeDoc Properties_Encoder.
#[local] Existing Instance any_key.

(** A document [[1, 2]] and a history for the examples: one scope at 4096, a second one behind
    it, the first one dropped, a third one reusing part of its memory. *)
Definition ex_bytes : list Z := [0; 1; 0; 2; 96; 2; 0; 1; 0; 2; 128; 3].
Definition ex_w1 : world := snd (scope_new true world_new 4096 ex_bytes None).
Definition ex_w2 : world := snd (scope_new true ex_w1 4108 [0; 1] (Some [])).
Definition ex_w3 : world := scope_drop ex_w2 0.
Definition ex_w4 : world := snd (scope_new true ex_w3 4098 [0; 2] None).
Ltac each_scope := intros id s [H1 H2];
  repeat (destruct id as [|id]; cbn in H1; [injection H1 as <-; cbn in H2 |- *; try discriminate|]);
  try (destruct id; discriminate).
Lemma ex_reach (ok : world -> Z -> list Z -> Prop) :
  ok world_new 4096 ex_bytes -> ok ex_w1 4108 [0; 1] -> ok ex_w3 4098 [0; 2] -> reach true ok ex_w4 [2%nat; 1%nat].
Proof.
  intros H1 H2 H3. eapply re_new with (w := ex_w3) (reg := [1%nat]); [|exact H3|vm_compute; reflexivity].
  change [1%nat] with (filter (fun j => negb (Nat.eqb j 0)) [1%nat; 0%nat]). eapply re_drop with (s := mk_scope 4096 ex_bytes None (sc_root (nth 0 (w_scopes ex_w2) (mk_scope 0 [] None None false))) true).
  2: vm_compute; auto.
  eapply re_new with (w := ex_w1) (reg := [0%nat]); [|exact H2|vm_compute; reflexivity].
  eapply re_new with (w := world_new) (reg := []); [|exact H1|vm_compute; reflexivity]. apply re_start.
Qed.
Lemma ex_fresh : fresh world_new 4096 ex_bytes /\ fresh ex_w1 4108 [0; 1] /\ fresh ex_w3 4098 [0; 2].
Proof.
  split; [|split].
  - intros id s [H _]. destruct id; discriminate.
  - unfold ex_w1. vm_compute w_scopes. each_scope. left. vm_compute. discriminate.
  - each_scope. right. vm_compute. discriminate.
Qed.

(* ---------- C40 ---------- *)

(** Whatever was created, removed and dropped before, and wherever the allocator put the data
    (memory of dropped scopes is reused, several scopes may share one [Arc]): a scope found from
    an address is alive and the address lies in its data. *)
Theorem C40_containing_sound : forall dbg w reg p id,
  reach dbg allocated w reg -> scope_containing w p = Ret (Some id) ->
  exists s, alive w id s /\ within s p.
Proof. exact containing_sound. Qed.
Print Assumptions C40_containing_sound.
Theorem C40_shared_keys_sound : forall dbg w reg p k,
  reach dbg allocated w reg -> find_shared_keys w p = Ret (Some k) ->
  exists id s, alive w id s /\ within s p /\ sc_sk s = Some k.
Proof. exact find_sound. Qed.
Print Assumptions C40_shared_keys_sound.
(** What a new scope gives: the data, its root if it is valid, its range and its keys. *)
Theorem C40_new_scope_holds : forall dbg w start data sk id w',
  scope_new dbg w start data sk = (Ret id, w') ->
  exists s, alive w' id s /\ scope_data s = Some data /\ sc_sk s = sk /\
    scope_range s = Some (start, start + lenZ data) /\
    match from_bytes (mk_env dbg start data None) with
    | Ret (Ok v) => scope_root s = Some (data, v)
    | Ret (Err _) => scope_root s = None
    | _ => False
    end.
Proof. exact new_holds. Qed.
Print Assumptions C40_new_scope_holds.

Example C40_example :
  reach true allocated ex_w4 [2%nat; 1%nat] /\
  scope_containing ex_w4 4099 = Ret (Some 2%nat) /\ scope_containing ex_w4 4109 = Ret (Some 1%nat) /\
  scope_containing ex_w4 4096 = Ret None /\ scope_containing ex_w4 4110 = Ret None /\
  find_shared_keys ex_w4 4108 = Ret (Some []).
Proof.
  split; [|vm_compute; auto]. pose proof ex_fresh as (H1 & H2 & H3).
  apply ex_reach; intros id s H; left; [eapply H1|eapply H2|eapply H3]; exact H.
Qed.

(* ---------- C41 ---------- *)

(** Every scope made, not dropped and not removed is found from every address of its data, with
    its keys.  Proved for histories in which each scope is given memory of its own; missing: two
    scopes made from one [Arc<[u8]>], refuted below. *)
Theorem C41_containing_complete_partial : forall dbg w reg id,
  reach dbg fresh w reg -> w_poisoned w = false -> In id reg ->
  exists s, alive w id s /\
    forall p, within s p -> scope_containing w p = Ret (Some id) /\ find_shared_keys w p = Ret (sc_sk s).
Proof. exact containing_complete. Qed.
Print Assumptions C41_containing_complete_partial.
Example C41_example :
  reach true fresh ex_w4 [2%nat; 1%nat] /\ w_poisoned ex_w4 = false /\ In 2%nat [2%nat; 1%nat].
Proof. destruct ex_fresh as (H1 & H2 & H3). split; [apply ex_reach; assumption|]. split; [reflexivity|left; reflexivity]. Qed.

(** Two scopes of the same data: the second takes the place of the first, and when the second
    is removed (or dropped) the first, which is still there, is not found any more. *)
Definition ex_s1 : world := snd (scope_new true world_new 4096 ex_bytes (Some [])).
Definition ex_s2 : world := snd (scope_new true ex_s1 4096 ex_bytes None).
Definition ex_s3 : world := snd (scope_remove ex_s2 1).
Theorem C41_refuted : exists w reg id s,
  reach true allocated w reg /\ w_poisoned w = false /\ In id reg /\ alive w id s /\ within s 4100 /\
  sc_sk s <> None /\ scope_containing w 4100 = Ret None /\ find_shared_keys w 4100 = Ret None.
Proof.
  exists ex_s3, [0%nat], 0%nat, (nth 0 (w_scopes ex_s3) (mk_scope 0 [] None None false)).
  split; [|vm_compute; repeat split; try reflexivity; try discriminate; auto].
  change [0%nat] with (filter (fun j => negb (Nat.eqb j 1)) [1%nat; 0%nat]).
  eapply re_remove with (w := ex_s2) (s := nth 1 (w_scopes ex_s2) (mk_scope 0 [] None None false)); [|vm_compute; auto|vm_compute; reflexivity].
  eapply re_new with (w := ex_s1) (reg := [0%nat]) (start := 4096) (data := ex_bytes) (sk := None); [| |vm_compute; reflexivity].
  - eapply re_new with (w := world_new) (reg := []) (start := 4096) (data := ex_bytes) (sk := Some []); [apply re_start| |vm_compute; reflexivity]. intros id s [H _]. destruct id; discriminate.
  - each_scope. right. split; reflexivity.
Qed.
Print Assumptions C41_refuted.

(* ---------- C42 ---------- *)

(** While every scope gets data that is not empty and on which validation does not panic, no
    operation panics.  Missing: empty data and data on which [Value::from_bytes] panics, refuted
    below. *)
Theorem C42_never_poisoned_partial : forall dbg w reg,
  reach dbg (fun w start data => allocated w start data /\ usable dbg start data) w reg ->
  w_poisoned w = false /\
  (forall start data sk, usable dbg start data -> exists id w', scope_new dbg w start data sk = (Ret id, w')) /\
  (forall id s, alive w id s -> exists w', scope_remove w id = (Ret tt, w')) /\
  (forall p, exists r, scope_containing w p = Ret r).
Proof. exact never_poisoned. Qed.
Print Assumptions C42_never_poisoned_partial.
Example C42_example :
  reach true (fun w start data => allocated w start data /\ usable true start data) ex_w4 [2%nat; 1%nat].
Proof.
  destruct ex_fresh as (H1 & H2 & H3).
  apply ex_reach; (split; [intros id s H; left|split; [discriminate|eexists; vm_compute; reflexivity]]);
    [eapply H1|eapply H2|eapply H3]; exact H.
Qed.

(** Empty data, for example from finishing an encoder nothing was written to. *)
Theorem C42_refuted_empty : forall dbg w start sk, w_poisoned w = false ->
  exists w', scope_new dbg w start [] sk = (Panic, w') /\ w_poisoned w' = true.
Proof. exact empty_poisons. Qed.
Print Assumptions C42_refuted_empty.
Theorem C42_refuted_finish_scoped : forall c w start, w_poisoned w = false ->
  exists w', finish_scoped c w start enc_new = (Panic, w') /\ w_poisoned w' = true.
Proof. exact finish_scoped_nothing. Qed.
Print Assumptions C42_refuted_finish_scoped.
(** Two bytes of untrusted data. *)
Theorem C42_refuted_data : forall w sk, w_poisoned w = false ->
  exists w', scope_new false w 4096 [0xC0; 0x01] sk = (Panic, w') /\ w_poisoned w' = true.
Proof. intros w sk H. apply panic_poisons; [exact H|vm_compute; reflexivity]. Qed.
Print Assumptions C42_refuted_data.
(** After that nothing works any more, for any scope. *)
Theorem C42_poisoned_for_ever : forall w, w_poisoned w = true ->
  (forall dbg start data sk, scope_new dbg w start data sk = (Panic, w)) /\
  (forall id, scope_remove w id = (Panic, w)) /\
  (forall p, scope_containing w p = Panic /\ find_shared_keys w p = Panic) /\
  (forall id, w_poisoned (scope_drop w id) = true).
Proof. exact poisoned_for_ever. Qed.
Print Assumptions C42_poisoned_for_ever.

(* ---------- C52 ---------- *)

(** A document finished into a scope reads back from the scope's root as the tree the calls
    describe, using the shared keys found for its address; every address in it leads to the new
    scope.  Missing: what is missing from C07. *)
Theorem C52_finish_scoped_partial : forall c prefix ops e' rs t w reg start,
  sort_ok (c_sort c) -> lenZ prefix mod 2 = 0 ->
  Forall good_op ops -> keys_ok false ops ->
  layout_ok (c_ua c) (lenZ prefix) ops -> lenZ prefix + ops_size ops <= MAX_WIDE ->
  enc_run c (enc_new_to_vec prefix) ops = Ret (e', rs) -> Forall (eq (Ok tt)) rs ->
  b_finish (fst (b_run b_init ops)) = Some t ->
  reach (c_dbg c) fresh w reg -> w_poisoned w = false ->
  exists D, finish c e' = Ret (prefix ++ D) /\
    (addressable start (prefix ++ D) -> fresh w start (prefix ++ D) ->
     exists id w', finish_scoped c w start e' = (Ret id, w') /\
       reach (c_dbg c) fresh w' (id :: reg) /\ w_poisoned w' = false /\
       holds_document (c_dbg c) w' id start (prefix ++ D) (en_sk e') t).
Proof. exact finish_scoped_document. Qed.
Print Assumptions C52_finish_scoped_partial.
(** Any bytes that decode to [t]: a scope made of them reads as [t]. *)
Theorem C52_scope_reads : forall dbg w reg start bs sk t,
  reach dbg fresh w reg -> w_poisoned w = false -> fresh w start bs -> decodes_to dbg start bs sk t ->
  exists id w', scope_new dbg w start bs sk = (Ret id, w') /\
    reach dbg fresh w' (id :: reg) /\ w_poisoned w' = false /\
    holds_document dbg w' id start bs sk t.
Proof. exact scope_document. Qed.
Print Assumptions C52_scope_reads.

(** [C07_example] meets the hypotheses on the calls, [C41_example] those on the world.  With a
    table, run through: *)
Definition ex_finished : outcome (nat * world) :=
  r <- enc_run (ex_cfg true) enc_new (OpSetSharedKeys [] :: ex_ops) ;;
  let '(id, w') := finish_scoped (ex_cfg true) ex_w4 8192 (fst r) in i <- id ;; Ret (i, w').
Definition ex_doc : outcome (outcome (option nat) * outcome tree) :=
  r <- ex_finished ;;
  match upgrade (snd r) (fst r) with
  | None => Panic
  | Some s =>
      match scope_root s with
      | None => Panic
      | Some (bs, v) =>
          k <- find_shared_keys (snd r) (8192 + v_pos v) ;;
          Ret (scope_containing (snd r) 4099, read_doc (mk_env true 8192 bs k) v)
      end
  end.
Example C52_example : ex_doc = Ret (Ret (Some 2%nat), Ret ex_tree).
Proof. vm_compute. reflexivity. Qed.
