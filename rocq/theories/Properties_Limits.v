(** C05, C11, C14 and C52: where they fail, so that their theorems need their conditions. *)
From Verif Require Import Prelude Lib Utf8 Float SharedKeys Decode Read Encodable Encoder BuilderSpec Isort
  ValueSpec PathSpec Scopes ScopeSpec Properties_Encoder Properties_Values Properties_Lookup Properties_Scope.

(** The float 1.5 beside a blob of 16368 bytes: every call succeeds, [from_bytes] rejects the
    output, and so the float is not read back.  Neither value is special: with a blob of two
    bytes more or less the float is read. *)
Theorem C05_refuted : exists ops bs,
  ops = [OpBeginArray 0; OpValue (EF64 4609434218613702656); OpValue (EData (repeat 0 (Z.to_nat 16368))); OpEndArray] /\
  run_doc (ex_cfg true) [] ops = Ret (repeat (Ok tt) 4, bs, None) /\
  from_bytes (mk_env true 4096 bs None) = Ret (Err PointerOffsetZero).
Proof.
  eexists _, _. split; [reflexivity|]. split; [vm_compute; reflexivity|]. vm_compute. reflexivity.
Qed.
Print Assumptions C05_refuted.

(** [{"a": 1, "b": 2}]: iterating yields no pair at all. *)
Theorem C11_refuted : exists ops bs root,
  run_doc (ex_cfg true) [] ops = Ret (repeat (Ok tt) 6, bs, None) /\
  b_finish (fst (b_run b_init ops)) = Some (TDict [([97], TInt 1); ([98], TInt 2)]) /\
  from_bytes (mk_env true 4096 bs None) = Ret (Ok root) /\
  dict_elems (mk_env true 4096 bs None) root = Ret [].
Proof.
  exists [OpBeginDict; OpKey [97]; OpValue (EInt U8 1); OpKey [98]; OpValue (EInt U8 2); OpEndDict]. eexists _, _.
  split; [vm_compute; reflexivity|]. repeat (split; [vm_compute; reflexivity|]). vm_compute. reflexivity.
Qed.
Print Assumptions C11_refuted.

(** [finish] with the array ["a"] inside an array still open: what is read is [[353]]. *)
Theorem C14_refuted : exists ops bs v,
  run_doc (ex_cfg true) [] ops = Ret (repeat (Ok tt) 3, bs, None) /\
  b_finish (fst (b_run b_init ops)) = Some (TArr [TArr [TStr [97]]]) /\
  from_bytes (mk_env true 4096 bs None) = Ret (Ok v) /\
  read_doc (mk_env true 4096 bs None) v = Ret (TArr [TArr [TInt 353]]).
Proof.
  exists [OpBeginArray 0; OpBeginArray 0; OpValue (EStr [97])]. eexists _, _.
  split; [vm_compute; reflexivity|]. repeat (split; [vm_compute; reflexivity|]). vm_compute. reflexivity.
Qed.
Print Assumptions C14_refuted.

(** [finish_scoped] of ["a"]: the root of the scope reads as [[353]]. *)
Theorem C52_refuted : exists ops e' id w' s bs v,
  enc_run (ex_cfg true) enc_new ops = Ret (e', repeat (Ok tt) 3) /\
  b_finish (fst (b_run b_init ops)) = Some (TArr [TStr [97]]) /\
  finish_scoped (ex_cfg true) ex_w4 8192 e' = (Ret id, w') /\
  upgrade w' id = Some s /\ scope_root s = Some (bs, v) /\
  read_doc (mk_env true 8192 bs None) v = Ret (TArr [TInt 353]).
Proof.
  exists [OpBeginArray 0; OpValue (EStr [97]); OpEndArray]. eexists _, _, _, _, _, _.
  split; [vm_compute; reflexivity|]. split; [vm_compute; reflexivity|]. split; [vm_compute; reflexivity|].
  split; [vm_compute; reflexivity|]. split; [vm_compute; reflexivity|]. vm_compute. reflexivity.
Qed.
Print Assumptions C52_refuted.
