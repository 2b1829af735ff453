(** C74: what a document of at most 16383 bytes is read back as. *)
From Verif Require Import Prelude Utf8 Float SharedKeys Decode Read Encodable Encoder BuilderSpec LayoutSpec KeptSpec Isort Kept Properties_Encoder.

(** Whatever numbers, texts and blobs are written (those that cannot be written, and blobs of
    one byte, excepted), every call is answered as the protocol says, and the finished document
    is the one in which every value has been replaced by what is left of it. *)
Theorem C74_small_documents : forall c prefix ops,
  sort_ok (c_sort c) -> lenZ prefix mod 2 = 0 ->
  Forall small_op ops -> keys_ok false ops -> polite b_init ops ->
  lenZ prefix + ops_size ops <= MAX_NARROW ->
  exists e' D, enc_run c (enc_new_to_vec prefix) ops = Ret (e', snd (b_run b_init ops)) /\
    finish c e' = Ret (prefix ++ D) /\
    forall t, b_finish (fst (b_run b_init (map kept_op ops))) = Some t ->
    forall dbg base, addressable base (prefix ++ D) -> decodes_to dbg base (prefix ++ D) (en_sk e') t.
Proof. exact small_kept. Qed.
Print Assumptions C74_small_documents.

(** The values of which nothing is lost are exactly these: numbers the encoder stores whole, and
    texts and blobs of at least two bytes. *)
Theorem C74_unchanged : forall v, wf_enc v ->
  ((exists w, kept v = Some w /\ tree_of w = tree_of v) <-> enc_ok v = true /\ no_short_text v = true).
Proof. exact kept_same. Qed.
Print Assumptions C74_unchanged.

(** For example [{"list": ["", "a", 65543, 2^50+512, -1, <empty blob>, "ok"], "on": true}]. *)
Definition kept_ops : list op :=
  [OpBeginDict; OpKey [108; 105; 115; 116]; OpBeginArray 7; OpValue (EStr []); OpValue (EStr [97]); OpValue (EInt I64 65543);
   OpValue (ESome (EInt U64 1125899906843136)); OpValue (EInt I8 (-1)); OpValue (EData []); OpValue (EStr [111; 107]); OpEndArray;
   OpKey [111; 110]; OpValue (EBool true); OpEndDict].
Definition kept_tree : tree :=
  TDict [([108; 105; 115; 116], TArr [TInt 0; TInt 353; TInt 7; TInt 512; TInt (-1); TInt 0; TStr [111; 107]]); ([111; 110], TBool true)].
Example C74_small_documents_example :
  Forall small_op kept_ops /\ keys_ok false kept_ops /\ polite b_init kept_ops /\ ops_size kept_ops <= MAX_NARROW /\
  b_finish (fst (b_run b_init (map kept_op kept_ops))) = Some kept_tree /\
  b_finish (fst (b_run b_init kept_ops)) <> Some kept_tree.
Proof.
  split; [|split; [|split; [|split; [|split]]]].
  - unfold kept_ops. repeat (apply Forall_cons; [cbn [small_op]|]); try exact I; try apply Forall_nil;
      try (split; [apply wf_encb_ok; reflexivity|vm_compute; discriminate]). reflexivity.
  - cbn. repeat (split; [discriminate|]). exact I.
  - vm_compute. tauto.
  - vm_compute. discriminate.
  - reflexivity.
  - vm_compute. discriminate.
Qed.
(** The bytes of the model agree. *)
Example C74_bytes_example : exists bs v,
  run_doc (ex_cfg true) [] kept_ops = Ret (repeat (Ok tt) 14, bs, None) /\
  from_bytes (mk_env true 4096 bs None) = Ret (Ok v) /\ read_doc (mk_env true 4096 bs None) v = Ret kept_tree.
Proof. eexists _, _. repeat (split; [vm_compute; reflexivity|]). vm_compute. reflexivity. Qed.
Example C74_unchanged_example :
  (enc_ok (EInt U64 18446744073709551615) = true /\ kept (EInt U64 18446744073709551615) = Some (EInt U64 18446744073709551615)) /\
  (enc_ok (EInt I32 65536) = false /\ kept (EInt I32 65536) = Some (EInt I32 0)) /\ kept (EInt I32 32767) = None.
Proof. repeat split; reflexivity. Qed.
