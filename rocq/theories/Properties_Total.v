(** C69 and more of C12 and C47: which calls the encoder answers, below the size limit of the
    format. *)
From Verif Require Import Prelude Utf8 Float SharedKeys Decode Read Encodable Encoder BuilderSpec LayoutSpec TotalSpec
  EncoderLimit EncoderTotal Isort Properties_Encoder.

(* ---------- C69 ---------- *)

(** Any calls in any order, protocol errors and all: every one of them returns, so does [finish],
    and the bytes are no more than the calls asked for.  Left out: the values that are not
    [can_write] (exactly those on which the encoder panics or hangs, [C69_not_writable]), capacity
    hints that no allocator accepts, and documents that might outgrow the pointer range. *)
Theorem C69_always_answers_partial : forall c prefix ops,
  sort_ok (c_sort c) -> lenZ prefix mod 2 = 0 -> all_bytes prefix ->
  Forall (answered_op (c_dbg c)) ops -> lenZ prefix + ops_size ops <= MAX_WIDE ->
  exists e' rs bs, enc_run c (enc_new_to_vec prefix) ops = Ret (e', rs) /\ length rs = length ops /\
    finish c e' = Ret bs /\ all_bytes bs /\ lenZ bs <= lenZ prefix + ops_size ops.
Proof. exact answers_and_finishes. Qed.
Print Assumptions C69_always_answers_partial.

(** The condition on values is exact: in an open collection the others never get an answer. *)
Theorem C69_not_writable : forall c e v, wf_enc v -> can_write (c_dbg c) v = false -> en_stack e <> [] ->
  write_value c e v = Panic \/ write_value c e v = Diverge.
Proof. exact not_writable. Qed.
Print Assumptions C69_not_writable.

(** They exist. *)
Theorem C69_refuted : forall dbg, exists e,
  enc_step (ex_cfg dbg) enc_new (OpBeginArray 0) = Ret (e, Ok tt) /\
  enc_step (ex_cfg dbg) e (OpValue (EInt I32 2048)) = Diverge /\
  enc_step (ex_cfg dbg) e (OpValue (EInt U16 2048)) = Panic.
Proof. intros dbg. eexists. split; [reflexivity|]. destruct dbg; split; vm_compute; reflexivity. Qed.
Print Assumptions C69_refuted.

(** A sequence that meets the hypotheses and breaks most rules of the protocol. *)
Definition test_misuse : list op :=
  [OpValue ENull; OpEndDict; OpBeginArray 10; OpKey [97;98]; OpEndDict; OpValue (EInt I64 5); OpBeginDict; OpValue ENull;
   OpEndArray; OpKey [99;100;101]; OpValue (EInt U64 18446744073709551615); OpKey [97]; OpKey [97]; OpEndArray; OpSetSharedKeys []; OpEndDict; OpBeginDict;
   OpEndArray; OpEndArray].
Example C69_example :
  Forall (answered_op true) test_misuse /\ ops_size test_misuse <= MAX_WIDE /\
  exists e' rs bs, enc_run (ex_cfg true) enc_new test_misuse = Ret (e', rs) /\ In (Err DictNotOpen) rs /\ In (Ok tt) rs /\
    finish (ex_cfg true) e' = Ret bs.
Proof.
  split; [repeat first [apply Forall_nil|apply Forall_cons; [cbn [answered_op]; first [exact I|reflexivity|apply wf_encb_ok; reflexivity|split; [apply wf_encb_ok; reflexivity|reflexivity]]|]]|].
  split; [vm_compute; discriminate|]. eexists _, _, _. split; [vm_compute; reflexivity|].
  split; [cbn [In]; tauto|]. split; [cbn [In]; tauto|]. vm_compute; reflexivity.
Qed.

(* ---------- C12 ---------- *)

(** With the same conditions the protocol theorem needs no hypothesis on what the run returned:
    the calls return, and return what the protocol says. *)
Theorem C12_answers_partial : forall c prefix ops,
  sort_ok (c_sort c) -> lenZ prefix mod 2 = 0 -> all_bytes prefix ->
  Forall (answered_op (c_dbg c)) ops -> lenZ prefix + ops_size ops <= MAX_WIDE -> regulars b_init ops ->
  exists e', enc_run c (enc_new_to_vec prefix) ops = Ret (e', snd (b_run b_init ops)).
Proof. exact answers_protocol. Qed.
Print Assumptions C12_answers_partial.
Example C12_answers_example :
  Forall (answered_op true) ex_ops /\ ops_size ex_ops <= MAX_WIDE /\ regulars b_init ex_ops.
Proof.
  split; [repeat first [apply Forall_nil|apply Forall_cons; [cbn [answered_op]; first [exact I|reflexivity|apply wf_encb_ok; reflexivity|split; [apply wf_encb_ok; reflexivity|reflexivity]]|]]|].
  split; [vm_compute; discriminate|vm_compute; tauto].
Qed.

(* ---------- C47 ---------- *)

(** [PointerTooLarge] is reported only if the calls ask for more than the pointer range, whatever
    else they do. *)
Theorem C47_only_if_too_large : forall c prefix ops e' rs,
  sort_ok (c_sort c) -> lenZ prefix mod 2 = 0 -> Forall written_op ops ->
  enc_run c (enc_new_to_vec prefix) ops = Ret (e', rs) -> In (Err PointerTooLarge) rs ->
  MAX_WIDE < lenZ prefix + ops_size ops.
Proof. exact too_large_only. Qed.
Print Assumptions C47_only_if_too_large.
