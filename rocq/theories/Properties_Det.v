(** C56: the bytes an encoder produces are a function of the calls made on it. *)
From Coq Require Import Permutation.
From Verif Require Import Prelude Utf8 Float SharedKeys Decode Read Encodable Encoder BuilderSpec Isort EncoderProtocol
  DetSpec Determined Properties_Encoder.

(** The dict entries are put in order by [sort_unstable_by], which promises an ordered
    permutation and nothing about the order of equal keys.  When no key is written twice into
    the same dict, that freedom never shows: with any two such routines every call gives the
    same answer, and [finish] the same bytes. *)
Theorem C56_determined_partial : forall c sort2 prefix ops e' rs,
  sort_ok (c_sort c) -> sort_ok sort2 ->
  regulars b_init ops -> no_repeats b_init ops -> text_keys ops -> keys_ok false ops ->
  enc_run c (enc_new_to_vec prefix) ops = Ret (e', rs) -> ~ In (Err PointerTooLarge) rs ->
  enc_run (with_sort c sort2) (enc_new_to_vec prefix) ops = Ret (e', rs) /\
  finish (with_sort c sort2) e' = finish c e'.
Proof. exact document_same. Qed.
Print Assumptions C56_determined_partial.

(** Another routine with the same guarantee: it reverses the entries before ordering them. *)
Definition rsort (l : list delem) : list delem := isort (rev l).
Lemma rsort_ok : sort_ok rsort.
Proof.
  intros l. unfold rsort. destruct (isort_ok (rev l)) as [H1 H2]. split; [|exact H2].
  eapply Permutation_trans; [apply Permutation_rev|exact H1].
Qed.

Definition det_ops : list op :=
  [OpSetSharedKeys []; OpBeginDict; OpKey [99;100;101]; OpBeginArray 2; OpValue (EInt U32 1); OpValue (EStr [120;121;122]);
   OpEndArray; OpKey [97;98]; OpBeginDict; OpKey [99;100;101]; OpValue ENull; OpEndDict; OpKey [98;32;98;98;98]; OpValue (EBool true)].
Example C56_example :
  sort_ok (c_sort (ex_cfg true)) /\ sort_ok rsort /\
  regulars b_init det_ops /\ no_repeats b_init det_ops /\ text_keys det_ops /\ keys_ok false det_ops /\
  exists e' bs, enc_run (ex_cfg true) (enc_new_to_vec []) det_ops = Ret (e', repeat (Ok tt) 14) /\
    finish (ex_cfg true) e' = Ret bs /\ (20 < length bs)%nat.
Proof.
  split; [exact isort_ok|]. split; [exact rsort_ok|].
  split; [vm_compute; tauto|].
  split; [vm_compute; repeat first [exact I | apply conj | apply Forall_nil | apply NoDup_nil | apply Forall_cons | apply NoDup_cons]; intros Hi; repeat (destruct Hi as [Hi|Hi]; [discriminate Hi|]); exact Hi|].
  split; [intros k Hk; cbn [In det_ops] in Hk; intuition (try discriminate);
    match goal with H : OpKey _ = OpKey _ |- _ => injection H as <- end; apply wf_encb_ok; reflexivity|].
  split; [cbn [keys_ok det_ops]; intuition discriminate|].
  eexists _, _. split; [vm_compute; reflexivity|]. split; [vm_compute; reflexivity|vm_compute; lia].
Qed.

(** Nothing stops a key being written twice into a dict.  What the document then says about
    that key depends on the sorting routine: two routines with the same guarantee leave
    different values in front. *)
Theorem C56_refuted_duplicate_keys : exists ops bs1 bs2 v1 v2,
  sort_ok isort /\ sort_ok rsort /\
  run_doc (mk_cfg true (fun _ => false) isort) [] ops = Ret (repeat (Ok tt) 6, bs1, None) /\
  run_doc (mk_cfg true (fun _ => false) rsort) [] ops = Ret (repeat (Ok tt) 6, bs2, None) /\
  from_bytes (mk_env true 4096 bs1 None) = Ret (Ok v1) /\
  from_bytes (mk_env true 4096 bs2 None) = Ret (Ok v2) /\
  read_doc (mk_env true 4096 bs1 None) v1 = Ret (TDict [([97;98], TInt 1); ([97;98], TInt 2)]) /\
  read_doc (mk_env true 4096 bs2 None) v2 = Ret (TDict [([97;98], TInt 2); ([97;98], TInt 1)]).
Proof.
  exists [OpBeginDict; OpKey [97;98]; OpValue (EInt U8 1); OpKey [97;98]; OpValue (EInt U8 2); OpEndDict].
  eexists _, _, _, _.
  split; [exact isort_ok|]. split; [exact rsort_ok|].
  split; [vm_compute; reflexivity|]. split; [vm_compute; reflexivity|].
  split; [vm_compute; reflexivity|]. split; [vm_compute; reflexivity|].
  split; vm_compute; reflexivity.
Qed.
Print Assumptions C56_refuted_duplicate_keys.
