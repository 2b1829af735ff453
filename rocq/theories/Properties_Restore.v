(** C64: restoring a key table from arbitrary bytes (src/shared_keys.rs). *)
From Verif Require Import Prelude SharedKeys Decode Read SharedKeysState SharedKeysSpec ReadSpec Safety Restore Properties_Safety Properties_SharedKeys.

(** [from_state_bytes], given any bytes, stays inside them and ends; the table it returns could
    have been made by insertions (so that all of C30-C32 holds of it). *)
Theorem C64_restore_in_bounds : forall ua m, wf_env m -> checked m ->
  safe (from_state_bytes ua m) /\ forall t, from_state_bytes ua m = Ret (Some t) -> exists ks, t = after ua ks.
Proof. intros ua m Hwf Hc. exact (conj (restore_safe ua m Hwf Hc) (fun t => restore_after ua m t)). Qed.
Print Assumptions C64_restore_in_bounds.
(** On accepted bytes: [None] unless the root is an array; else the keys are the texts of the
    elements, inserted in order, and the answer is [None] if one of them is refused.  In a debug
    build all elements must be strings. *)
Theorem C64_restore_partial : forall ua m r, wf_env m -> from_bytes m = Ret (Ok r) ->
  (value_type m r <> Ret TyArray -> from_state_bytes ua m = Ret None) /\
  (value_type m r = Ret TyArray -> exists xs ks, arr_elems m r = Ret xs /\ mapM (to_str m) xs = Ret ks /\
     (e_dbg m = false \/ Forall (fun x => value_type m x = Ret TyString) xs ->
      from_state_bytes ua m =
        Ret (if forallb (fun a => match a with Some _ => true | None => false end) (snd (insert_all ua [] ks))
             then Some (after ua ks) else None))).
Proof. intros ua m r Hwf. exact (restore_result ua m Hwf r). Qed.
Print Assumptions C64_restore_partial.
(** [["a", "bc" (by pointer)]] *)
Definition state_bytes : list Z := [0x42;98;99;0; 0x60;2; 0x41;97; 0x80;4; 0x80;3].
Example C64_example : wf_env (at4g true state_bytes) /\ checked (at4g true state_bytes) /\
  from_bytes (at4g true state_bytes) = Ret (Ok (V 4 6)) /\ value_type (at4g true state_bytes) (V 4 6) = Ret TyArray /\
  arr_elems (at4g true state_bytes) (V 4 6) = Ret [V 6 2; V 0 8] /\
  Forall (fun x => value_type (at4g true state_bytes) x = Ret TyString) [V 6 2; V 0 8] /\
  from_state_bytes no_ua (at4g true state_bytes) = Ret (Some [[97]; [98;99]]).
Proof.
  split; [apply at4g_wf; vm_compute; reflexivity|]. split; [left; reflexivity|]. repeat (split; [vm_compute; reflexivity|]).
  split; [|vm_compute; reflexivity]. repeat constructor; vm_compute; reflexivity.
Qed.
(** A number among the keys: a panic in a debug build; in a release build the state is accepted
    and the number becomes the empty key. *)
Theorem C64_refuted : let bs := [0x60;2; 0x41;97; 0;7; 0x80;3] in
  wf_env (at4g true bs) /\ (exists r, from_bytes (at4g true bs) = Ret (Ok r)) /\
  from_state_bytes no_ua (at4g true bs) = Panic /\ from_state_bytes no_ua (at4g false bs) = Ret (Some [[97]; []]).
Proof.
  cbv zeta. split; [apply at4g_wf; vm_compute; reflexivity|]. split; [eexists; vm_compute; reflexivity|]. split; vm_compute; reflexivity.
Qed.
Print Assumptions C64_refuted.
