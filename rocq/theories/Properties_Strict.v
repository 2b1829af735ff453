(** C89: references and pointers made while checking and reading stay inside the buffer. *)
From Coq Require Import ZifyBool ZifyNat ZifyN.
From Verif Require Import Prelude Lib Varint Utf8 Float SharedKeys Decode Read ReadSpec Safety Agree Navigate Strict StrictProofs Properties_Safety.

(** Checking any bytes in a debug build, or in a release build when no huge count occurs in them:
    every reference made lies inside the buffer. *)
Theorem C89_references_partial : forall e, wf_env e -> e_dbg e = true \/ modest e ->
  from_bytes_s false e = from_bytes e /\ from_bytes_s false e <> UB.
Proof.
  intros e Hwf Hck. split; [exact (from_bytes_slices e Hwf Hck)|].
  rewrite (from_bytes_slices e Hwf Hck). exact (proj1 (from_bytes_safe e Hwf Hck)).
Qed.
Print Assumptions C89_references_partial.

(** Checking bytes that are accepted, in any build: neither a stray reference nor a stray
    pointer. *)
Theorem C89_accepted : forall e v, wf_env e -> from_bytes e = Ret (Ok v) -> from_bytes_s true e = Ret (Ok v).
Proof. intros e v Hwf. exact (from_bytes_acc e Hwf true v). Qed.
Print Assumptions C89_accepted.

(** Reading an array reached from an accepted document, below its length or by a loop. *)
Theorem C89_array : forall e r v, wf_env e -> from_bytes e = Ret (Ok r) -> reach e r v -> value_type e v = Ret TyArray ->
  (forall n i, arr_len e v = Ret n -> 0 <= i < n -> arr_get_s e v i = arr_get e v i /\ arr_get_s e v i <> UB) /\
  arr_elems_s e v = arr_elems e v /\ arr_elems_s e v <> UB.
Proof. exact nav_array_safe. Qed.
Print Assumptions C89_array.

(** Reading a dict reached from an accepted document. *)
Theorem C89_dict : forall e r v, wf_env e -> from_bytes e = Ret (Ok r) -> reach e r v -> value_type e v = Ret TyDict ->
  (forall k, dict_get_s e v k = dict_get e v k /\ dict_get_s e v k <> UB) /\
  (forall k sk, dict_get_sk_s e v k sk = dict_get_sk e v k sk /\ dict_get_sk_s e v k sk <> UB) /\
  (dict_first_s e v = dict_first e v /\ dict_first_s e v <> UB) /\
  (dict_elems_s e v = dict_elems e v /\ dict_elems_s e v <> UB).
Proof. exact nav_dict_safe. Qed.
Print Assumptions C89_dict.

(** A pointer is computed before it is known where it leads: two bytes are enough to have it lead
    in front of the buffer. *)
Theorem C89_refuted : exists e, wf_env e /\ e_dbg e = true /\ from_bytes e = Ret (Err PointerTargetOutOfBounds) /\
  from_bytes_s true e = UB.
Proof.
  exists (at4g true [0x80; 0x02]). split; [apply at4g_wf; vm_compute; reflexivity|].
  split; [reflexivity|]. split; vm_compute; reflexivity.
Qed.
Print Assumptions C89_refuted.

(** What the strict functions do on a document with an array, a text and a dict; and that a
    reference outside the buffer is noticed. *)
Example C89_example :
  from_bytes_s true (ex_env false) = Ret (Ok (V 24 8)) /\
  arr_elems_s (ex_env true) (V 24 8) = Ret [V 26 2; V 0 28; V 18 12] /\
  (exists x, dict_first_s (ex_env true) (V 18 12) = Ret (Some x)) /\
  mkslice (ex_env true) 30 6 = UB /\ mkptr true (ex_env true) (-2) = UB /\
  from_bytes_s false (at4g true [0x80; 0x02]) = Ret (Err PointerTargetOutOfBounds).
Proof.
  split; [vm_compute; reflexivity|]. split; [vm_compute; reflexivity|]. split; [|repeat split; vm_compute; reflexivity].
  destruct (dict_first_s (ex_env true) (V 18 12)) as [[x|]| | |] eqn:E; vm_compute in E; try discriminate E. exists x. reflexivity.
Qed.
