(** C93: reading a document into a mutable collection, changing it and writing it out again. *)
From Verif Require Import Prelude Lib Utf8 Float SharedKeys Decode Read Encodable Encoder BuilderSpec LayoutSpec
  PathSpec Path CopySpec Mutable MutableSpec MutableProofs EditSpec EditProofs Isort Properties_Encoder Properties_Mutable.
From Coq Require Import Permutation.

(** A document [src] is copied into a mutable collection, changed by any program of calls, and
    what it then holds is written with an encoder, with or without shared keys of its own.  Every
    call answers [Ok] and the new document reads as the old one with the changes made to it.
    Proved for documents that can be held ([holdable], see C38) and results that can be written
    ([writable]). *)
Theorem C93_edit_partial : forall T dbg c src v t ops ops' t' sk,
  holdable T src v t -> is_coll t = true -> means_all T ops ops' -> srun t ops' = Ret t' ->
  writable t' -> tree_size t' <= MAX_NARROW -> fits_keys sk t' -> sort_ok (c_sort c) ->
  exists s0 s, slot_from_fleece (fuel_of src) dbg src v false = Ret s0 /\ mrun dbg s0 ops = Ret s /\
  (exists xs, exports dbg s xs) /\
  forall xs, exports dbg s xs ->
  exists e' bs, xrun c enc_new (with_keys sk xs) = Ret (e', Ok tt) /\ finish c e' = Ret bs /\
    (sk = None -> en_sk e' = None) /\
    forall d base, addressable base bs -> decodes_to d base bs (en_sk e') t'.
Proof. exact edit_document. Qed.
Print Assumptions C93_edit_partial.

(** The same for collections that start out empty. *)
Theorem C93_new_array_partial : forall T dbg c ops ops' t' sk,
  means_all T ops ops' -> srun (TArr []) ops' = Ret t' ->
  writable t' -> tree_size t' <= MAX_NARROW -> fits_keys sk t' -> sort_ok (c_sort c) ->
  exists s, mrun dbg (SArr []) ops = Ret s /\
  (exists xs, exports dbg s xs) /\
  forall xs, exports dbg s xs ->
  exists e' bs, xrun c enc_new (with_keys sk xs) = Ret (e', Ok tt) /\ finish c e' = Ret bs /\
    (sk = None -> en_sk e' = None) /\
    forall d base, addressable base bs -> decodes_to d base bs (en_sk e') t'.
Proof. exact (fun T dbg c ops ops' t' sk => new_document T dbg c (SArr []) (TArr []) ops ops' t' sk (sh_arr T [] [] (Forall2_nil _)) eq_refl). Qed.
Print Assumptions C93_new_array_partial.
Theorem C93_new_dict_partial : forall T dbg c own_sk ops ops' t' sk, sk_in T own_sk ->
  means_all T ops ops' -> srun (TDict []) ops' = Ret t' ->
  writable t' -> tree_size t' <= MAX_NARROW -> fits_keys sk t' -> sort_ok (c_sort c) ->
  exists s, mrun dbg (SDict [] own_sk) ops = Ret s /\
  (exists xs, exports dbg s xs) /\
  forall xs, exports dbg s xs ->
  exists e' bs, xrun c enc_new (with_keys sk xs) = Ret (e', Ok tt) /\ finish c e' = Ret bs /\
    (sk = None -> en_sk e' = None) /\
    forall d base, addressable base bs -> decodes_to d base bs (en_sk e') t'.
Proof. exact (fun T dbg c own_sk ops ops' t' sk H => new_document T dbg c (SDict [] own_sk) (TDict []) ops ops' t' sk (empty_dict T own_sk H) eq_refl). Qed.
Print Assumptions C93_new_dict_partial.

(** For results of any size and any values, given that the calls made on the encoder are ones it
    handles (see C01). *)
Theorem C93_any_partial : forall T dbg c src v t ops ops' t' sk,
  holdable T src v t -> is_coll t = true -> means_all T ops ops' -> srun t ops' = Ret t' -> sort_ok (c_sort c) ->
  exists s0 s, slot_from_fleece (fuel_of src) dbg src v false = Ret s0 /\ mrun dbg s0 ops = Ret s /\
  (exists xs, exports dbg s xs) /\
  forall xs ll, exports dbg s xs -> mapM xcalls (with_keys sk xs) = Ret ll ->
  Forall good_op (concat ll) -> keys_ok false (concat ll) -> layout_ok (c_ua c) 0 (concat ll) -> ops_size (concat ll) <= MAX_WIDE ->
  exists e' bs, xrun c enc_new (with_keys sk xs) = Ret (e', Ok tt) /\ finish c e' = Ret bs /\
    forall d base, addressable base bs -> decodes_to d base bs (en_sk e') t'.
Proof. exact edit_document_any. Qed.
Print Assumptions C93_any_partial.

(** What the changes do not touch is as it was: a place none of the changed collections leads to
    or lies under. *)
Theorem C93_elsewhere : forall q ops t t', Forall (fun po => apart (fst po) q) ops -> srun t ops = Ret t' ->
  tree_at t' (to_path q) = tree_at t (to_path q).
Proof. exact srun_elsewhere. Qed.
Print Assumptions C93_elsewhere.

(** [[5, {"ab": "xyz"}, -2031]] read with shared keys becomes
    [[{"ab": "xyz", "cd": true}, -2031, "hello"]]. *)
Definition edit_calls : list (list mstep * mop) :=
  [([], MPush (EStr [104;101;108;108;111])); ([MIdx 1], MInsert [99;100] (EBool true)); ([], MRemoveAt 0)].
Definition edit_meaning : list (list mstep * sop) :=
  [([], SPush (TStr [104;101;108;108;111])); ([MIdx 1], SPut [99;100] (TBool true)); ([], SDel 0)].
Definition edit_result : tree :=
  TArr [TDict [([97;98], TStr [120;121;122]); ([99;100], TBool true)]; TInt (-2031); TStr [104;101;108;108;111]].
Lemma edit_means T : means_all T edit_calls edit_meaning.
Proof.
  unfold means_all, edit_calls, edit_meaning. repeat (first [apply Forall2_cons|apply Forall2_nil]).
  all: split; [reflexivity|]; split; [repeat constructor|]; cbn [snd].
  all: constructor; first [apply wf_encb_ok; reflexivity|reflexivity|(left; vm_compute; discriminate)|lia].
Qed.
Example C93_edit_example : exists v t, holdable [[[97;98]]] mut_env v t /\ is_coll t = true /\
  t = TArr [TInt 5; TDict [([97;98], TStr [120;121;122])]; TInt (-2031)] /\
  means_all [[[97;98]]] edit_calls edit_meaning /\ srun t edit_meaning = Ret edit_result /\
  writable edit_result /\ tree_size edit_result <= MAX_NARROW /\ fits_keys (Some []) edit_result /\ sort_ok (c_sort (ex_cfg true)).
Proof.
  destruct C38_example as (v & t & _ & Hh & Ht). exists v, t. split; [exact Hh|]. subst t. split; [reflexivity|]. split; [reflexivity|].
  split; [apply edit_means|]. split; [vm_compute; reflexivity|]. split.
  - unfold edit_result. apply wr_arr. constructor; [|constructor; [constructor; lia|constructor; [|constructor]]].
    + apply wr_dict. constructor; [|constructor; [|constructor]]; (split; [split; [apply wf_encb_ok; reflexivity|vm_compute; discriminate]|]); cbn [snd]; [|constructor].
      apply wr_str; [apply wf_encb_ok; reflexivity|vm_compute; discriminate].
    + apply wr_str; [apply wf_encb_ok; reflexivity|vm_compute; discriminate].
  - split; [vm_compute; discriminate|]. split; [|exact isort_ok]. cbn [fits_keys]. apply ka_arr. constructor; [|repeat (constructor; try reflexivity)].
    apply ka_dict. repeat (constructor; [split; [vm_compute; discriminate|apply ka_scalar; reflexivity]|]). constructor.
Qed.
Example C93_elsewhere_example : Forall (fun po => apart (fst po) [MIdx 2]) [([MIdx 1], SPut [99;100] (TBool true)); ([MIdx 1], SDrop [97;98])] /\
  exists t', srun (TArr [TInt 5; TDict [([97;98], TStr [120;121;122])]; TInt (-2031)]) [([MIdx 1], SPut [99;100] (TBool true)); ([MIdx 1], SDrop [97;98])] = Ret t' /\
    t' = TArr [TInt 5; TDict [([99;100], TBool true)]; TInt (-2031)].
Proof. split; [repeat (constructor; [apply ap_here; discriminate|]); constructor|]. eexists. split; [vm_compute; reflexivity|reflexivity]. Qed.

(** A [u32] of 70000 put into the array, which is written with shared keys: 70000 is no
    [writable] tree, but the calls are in order. *)
Definition num_calls : list (list mstep * mop) := [([], MSet 0 (EInt U32 70000)); ([], MRemoveAt 1)].
Example C93_any_example : exists v t s0 s xs ll, holdable [[[97;98]]] mut_env v t /\ is_coll t = true /\
  means_all [[[97;98]]] num_calls [([], SSet 0 (TInt 70000)); ([], SDel 1)] /\
  srun t [([], SSet 0 (TInt 70000)); ([], SDel 1)] = Ret (TArr [TInt 70000; TInt (-2031)]) /\
  slot_from_fleece (fuel_of mut_env) true mut_env v false = Ret s0 /\ mrun true s0 num_calls = Ret s /\ exports true s xs /\
  mapM xcalls (with_keys (Some []) xs) = Ret ll /\
  concat ll = [OpSetSharedKeys []; OpBeginArray 2; OpValue (EInt U64 70000); OpValue (EInt I16 (-2031)); OpEndArray] /\
  Forall good_op (concat ll) /\ keys_ok false (concat ll) /\ layout_ok (c_ua (ex_cfg true)) 0 (concat ll) /\ ops_size (concat ll) <= MAX_WIDE.
Proof.
  destruct C38_example as (v & t & Hv & Hh & Ht). exists v, t.
  assert (Ev : v = V 14 8).
  { assert (E : from_bytes mut_env = Ret (Ok (V 14 8))) by (vm_compute; reflexivity). rewrite E in Hv. injection Hv as <-. reflexivity. }
  subst v t. eexists _, _, _, _. split; [exact Hh|]. split; [reflexivity|]. split.
  { unfold means_all, num_calls. repeat (first [apply Forall2_cons|apply Forall2_nil]).
    all: split; [reflexivity|]; split; [repeat constructor|]; cbn [snd].
    all: constructor; first [apply wf_encb_ok; reflexivity|reflexivity|lia]. }
  split; [vm_compute; reflexivity|]. split; [vm_compute; reflexivity|]. split; [vm_compute; reflexivity|]. split.
  { apply ex_arr. rewrite ma_elems_id. constructor; [apply (ex_inline true _ 2147483648)|]. constructor; [apply (ex_inline true _ 2147483648)|]. constructor. }
  split; [vm_compute; reflexivity|]. split; [reflexivity|]. split; [apply good_opsb; vm_compute; reflexivity|].
  split; [cbn [concat app keys_ok]; auto|]. split; [right; vm_compute; reflexivity|vm_compute; discriminate].
Qed.

(** A text of one byte does not survive: [{"ab": "A"}], which the mutable dict holds, is read
    back as [{"ab": 321}]. *)
Theorem C93_refuted : exists ops ops' s xs e' bs v, means_all [] ops ops' /\ srun (TDict []) ops' = Ret (TDict [([97;98], TStr [65])]) /\
  mrun true (SDict [] None) ops = Ret s /\ exports true s xs /\
  xrun (ex_cfg true) enc_new xs = Ret (e', Ok tt) /\ finish (ex_cfg true) e' = Ret bs /\
  from_bytes (mk_env true 2147483648 bs None) = Ret (Ok v) /\
  read_doc (mk_env true 2147483648 bs None) v = Ret (TDict [([97;98], TInt 321)]).
Proof.
  exists [([], MInsert [97;98] (EStr [65]))], [([], SPut [97;98] (TStr [65]))].
  exists (SDict [(MKString [97;98], SInline [65;65;0;0;0;0;0;0;0;0;0;0;0;0;0])] None).
  exists [XOp OpBeginDict; XOp (OpKey [97;98]); XCopy (mk_env true 2147483648 [65;65;0;0;0;0;0;0;0;0;0;0;0;0;0] None) (V 0 15); XOp OpEndDict].
  exists (mk_enc [66;97;98;0;112;1;128;3;1;65;128;3] None [] true).
  exists [66;97;98;0;112;1;128;3;1;65;128;3], (V 4 6).
  split; [repeat (first [apply Forall2_cons|apply Forall2_nil]); split; [reflexivity|]; split; [constructor|]; cbn [snd]; constructor;
    first [apply wf_encb_ok; reflexivity|reflexivity|(left; vm_compute; discriminate)]|].
  split; [vm_compute; reflexivity|]. split; [vm_compute; reflexivity|]. split.
  { refine (ex_dict true [(MKString [97;98], SInline [65;65;0;0;0;0;0;0;0;0;0;0;0;0;0])] None
      [[XCopy (mk_env true 2147483648 [65;65;0;0;0;0;0;0;0;0;0;0;0;0;0] None) (V 0 15)]] _).
    constructor; [exact (ex_inline true [65;65;0;0;0;0;0;0;0;0;0;0;0;0;0] 2147483648)|constructor]. }
  split; [vm_compute; reflexivity|]. split; [vm_compute; reflexivity|]. split; vm_compute; reflexivity.
Qed.
Print Assumptions C93_refuted.
