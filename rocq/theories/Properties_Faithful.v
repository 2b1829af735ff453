(** C85: what is written means, by the format and not only to this library, what was put in. *)
From Coq Require Import Lia.
From Verif Require Import Prelude Lib Utf8 Float SharedKeys Decode Read Encodable Encoder BuilderSpec LayoutSpec EncoderInv EncoderClean Isort ReadSpec
  GrammarSpec Grammar MeaningSpec Meaning FaithfulSpec Faithful Properties_Encoder Properties_Safety.
#[local] Existing Instance any_key.
Local Open Scope Z_scope.

(** If every call succeeds, the finished bytes are a document as the format defines it; its root
    has a meaning in the format, and only one, which is the tree that the calls describe (with
    signalling NaNs made quiet, and the entries of dicts in any order).  Neither the decoder nor
    anything else of the library is involved in the right-hand side: a reader of the format that
    was written by someone else gets the same tree.  Proved under the conditions of C07. *)
Theorem C85_written_partial : forall c prefix ops e' rs t,
  sort_ok (c_sort c) -> lenZ prefix mod 2 = 0 -> all_bytes prefix ->
  Forall good_op ops -> keys_ok false ops ->
  layout_ok (c_ua c) (lenZ prefix) ops -> lenZ prefix + ops_size ops <= MAX_WIDE ->
  enc_run c (enc_new_to_vec prefix) ops = Ret (e', rs) -> Forall (eq (Ok tt)) rs ->
  b_finish (fst (b_run b_init ops)) = Some t ->
  exists D p l, finish c e' = Ret (prefix ++ D) /\ document (prefix ++ D) p l /\
    (exists t', means AsFormat (prefix ++ D) (en_sk e') p l t') /\
    forall t', means AsFormat (prefix ++ D) (en_sk e') p l t' -> tsim t (calm t').
Proof. exact written_means. Qed.
Print Assumptions C85_written_partial.

(** The hypotheses hold of [{"ab": [1, "xyz", [], null], "cd": 2.0, "ef": {"gh": data}}], behind
    four other bytes, and of a dict with shared keys and a signalling NaN. *)
Example C85_example :
  sort_ok (c_sort (ex_cfg true)) /\ all_bytes [1; 2; 3; 250] /\ Forall good_op ex_ops /\ keys_ok false ex_ops /\
  layout_ok (fun _ => false) 4 ex_ops /\ 4 + ops_size ex_ops <= MAX_WIDE /\
  (exists e', enc_run (ex_cfg true) (enc_new_to_vec [1; 2; 3; 250]) ex_ops = Ret (e', repeat (Ok tt) 15)) /\
  b_finish (fst (b_run b_init ex_ops)) = Some ex_tree.
Proof.
  split; [exact isort_ok|]. split; [apply all_bytesb; reflexivity|]. split; [apply good_opsb; vm_compute; reflexivity|].
  split; [cbn [keys_ok ex_ops]; intuition congruence|]. split; [right; vm_compute; reflexivity|]. split; [vm_compute; discriminate|].
  split; [eexists; vm_compute; reflexivity|vm_compute; reflexivity].
Qed.
Definition nan_ops : list op :=
  [OpSetSharedKeys [[97; 98]]; OpBeginDict; OpKey [97; 98]; OpValue (EF32 0x7F800001); OpKey [99; 100]; OpValue (EInt I16 (-3)); OpEndDict].
Definition nan_tree : tree := TDict [([97; 98], TF32 0x7FC00001); ([99; 100], TInt (-3))].
Definition nan_tree_written : tree := TDict [([97; 98], TF32 0x7F800001); ([99; 100], TInt (-3))].
Definition nan_bytes : list Z := [32; 0; 1; 0; 128; 127; 112; 2; 0; 0; 128; 5; 0; 1; 15; 253; 128; 5].
Definition nan_cfg : cfg := mk_cfg true (fun b => (97 <=? b) && (b <=? 122))%bool isort.
Example C85_example_nan :
  Forall good_op nan_ops /\ keys_ok false nan_ops /\ layout_ok (c_ua nan_cfg) 0 nan_ops /\ ops_size nan_ops <= MAX_WIDE /\
  run_doc nan_cfg [] nan_ops = Ret (repeat (Ok tt) 7, nan_bytes, Some [[97; 98]; [99; 100]]) /\
  b_finish (fst (b_run b_init nan_ops)) = Some nan_tree /\
  document nan_bytes 6 10 /\ means AsFormat nan_bytes (Some [[97; 98]; [99; 100]]) 6 10 nan_tree_written /\ calm nan_tree_written = nan_tree.
Proof.
  split; [apply good_opsb; vm_compute; reflexivity|]. split; [vm_compute; intuition discriminate|]. split; [right; vm_compute; reflexivity|].
  split; [vm_compute; discriminate|]. split; [vm_compute; reflexivity|]. split; [vm_compute; reflexivity|]. split.
  { apply (accepted_exactly (at4g true nan_bytes)); [apply at4g_wf; vm_compute; reflexivity|left; reflexivity|vm_compute; reflexivity]. }
  split; [|vm_compute; reflexivity].
  apply (means_dict AsFormat nan_bytes _ 6 10 0x70 false 2 8); [reflexivity|lia| |].
  - exists 0x70, 0x02. split; [reflexivity|]. split; [reflexivity|]. split; [lia|]. split; [reflexivity|]. left. repeat split.
  - apply (entries_more AsFormat nan_bytes _ false 8 2 8 2 [97; 98] 0 10); [lia| | | | |].
    + left. split; [reflexivity|]. split; [reflexivity|]. exists 0. split; [reflexivity|lia].
    + apply (key_shared AsFormat nan_bytes _ 8 2 0 0 [[97; 98]; [99; 100]]); try reflexivity.
    + right. apply (lead_here nan_bytes 10 2 false 0x80 10 32); try reflexivity; try lia. exists 0x80, 0x05. repeat split.
    + apply (means_float AsFormat nan_bytes _ 0 10 32 (0x01 + 256 * (0x00 + 256 * (0x80 + 256 * (0x7F + 256 * 0))))); [reflexivity|lia|lia| |reflexivity].
      apply nr_more; [reflexivity|]. apply nr_more; [reflexivity|]. apply nr_more; [reflexivity|]. apply nr_more; [reflexivity|]. apply nr_none.
    + apply (entries_more AsFormat nan_bytes _ false 12 1 12 2 [99; 100] 14 2); [lia| | | | |apply entries_none].
      * left. split; [reflexivity|]. split; [reflexivity|]. exists 0. split; [reflexivity|lia].
      * apply (key_shared AsFormat nan_bytes _ 12 2 0 1 [[97; 98]; [99; 100]]); try reflexivity.
      * left. split; [reflexivity|]. split; [reflexivity|]. exists 15. split; [reflexivity|lia].
      * apply (means_small AsFormat nan_bytes _ 14 2 15 253); [reflexivity|lia|reflexivity].
Qed.

(** What is left out: of [["a"]] the bytes say [[353]], by the format as well as to the library. *)
Theorem C85_refuted : exists ops D p l t',
  run_doc (ex_cfg true) [] ops = Ret (repeat (Ok tt) (length ops), D, None) /\ b_finish (fst (b_run b_init ops)) = Some (TArr [TStr [97]]) /\
  document D p l /\ means AsFormat D None p l t' /\ t' = TArr [TInt 353].
Proof.
  exists [OpBeginArray 1; OpValue (EStr [97]); OpEndArray], [96; 1; 1; 97; 128; 2], 0, 4, (TArr [TInt 353]).
  split; [vm_compute; reflexivity|]. split; [vm_compute; reflexivity|]. split.
  { apply (accepted_exactly (at4g true [96; 1; 1; 97; 128; 2])); [apply at4g_wf; vm_compute; reflexivity|left; reflexivity|vm_compute; reflexivity]. }
  split; [|reflexivity]. apply (means_array AsFormat [96; 1; 1; 97; 128; 2] None 0 4 96 false 2); [reflexivity|lia| |].
  - exists 96, 1. split; [reflexivity|]. split; [reflexivity|]. split; [lia|]. split; [reflexivity|]. left. repeat split.
  - apply (elements_more AsFormat [96; 1; 1; 97; 128; 2] None false 2 2 2); [| |apply elements_none].
    + left. split; [reflexivity|]. split; [reflexivity|]. exists 1. split; [reflexivity|lia].
    + apply (means_small AsFormat [96; 1; 1; 97; 128; 2] None 2 2 1 97); [reflexivity|lia|reflexivity].
Qed.
Print Assumptions C85_refuted.
