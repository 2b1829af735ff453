(** C29: copying a value from other Fleece data with [write_fleece]. *)
From Verif Require Import Prelude Utf8 Float SharedKeys Decode Read Encodable Encoder BuilderSpec LayoutSpec
  Isort CopySpec Path Copy Properties_Encoder.

(** A program made of ordinary calls and of [write_fleece] calls that the protocol allows
    ([xb_run]): every call succeeds, and the finished document reads back as the tree in which
    each copied value is what the source reads as.  [mapM xcalls xs = Ret ll]: the sources are
    readable; the values in them are such that the encoder handles them ([good_op], as C07). *)
Theorem C29_copy_partial : forall c prefix xs ll b t,
  sort_ok (c_sort c) -> lenZ prefix mod 2 = 0 ->
  mapM xcalls xs = Ret ll -> Forall good_op (concat ll) -> keys_ok false (concat ll) ->
  layout_ok (c_ua c) (lenZ prefix) (concat ll) -> lenZ prefix + ops_size (concat ll) <= MAX_WIDE ->
  xb_run b_init xs = Some b -> b_finish b = Some t ->
  exists e' D, xrun c (enc_new_to_vec prefix) xs = Ret (e', Ok tt) /\ finish c e' = Ret (prefix ++ D) /\
    forall dbg base, addressable base (prefix ++ D) -> decodes_to dbg base (prefix ++ D) (en_sk e') t.
Proof. exact copy_round_trip. Qed.
Print Assumptions C29_copy_partial.

(** A whole document: integers from -2048 to 2047, texts and keys of at least two bytes. *)
Theorem C29_copy_document_partial : forall c src v t,
  sort_ok (c_sort c) -> src_ok src -> read_doc src v = Ret t -> copyable t -> is_coll t = true ->
  tree_size t <= MAX_NARROW ->
  exists e' bs, write_fleece (fuel_of src) c enc_new src v = Ret (e', Ok tt) /\ finish c e' = Ret bs /\
    forall dbg base, addressable base bs -> decodes_to dbg base bs None t.
Proof. exact copy_document. Qed.
Print Assumptions C29_copy_document_partial.

(** What [write_fleece] does, whatever the outcome: the calls [value_calls], in order, stopping
    at the first error. *)
Theorem C29_is_calls : forall c src f v ops, value_calls f src v = Ret ops ->
  forall e, write_fleece f c e src v = for_each (enc_step c) e ops.
Proof. exact write_fleece_calls. Qed.
Print Assumptions C29_is_calls.

(** Source: the document of [Properties_Encoder] with the dict inside the array
    [[{"ab": [1, "xyz", 70000, null], "cd": 2.0}, 7]]. *)
Definition copy_src : list op :=
  [OpBeginArray 0; OpBeginDict; OpKey [97;98]; OpBeginArray 2; OpValue (EInt U32 1); OpValue (EStr [120;121;122]);
   OpValue (EInt U32 70000); OpValue ENull; OpEndArray; OpKey [99;100]; OpValue (EF64 4611686018427387904); OpEndDict;
   OpValue (EInt U8 7); OpEndArray].
Definition copy_bytes : list Z :=
  match run_doc (ex_cfg true) [] copy_src with Ret (_, bs, _) => bs | _ => [] end.
Definition copy_env : env := mk_env true 2147483648 copy_bytes None.
Definition copy_val : val := match from_bytes copy_env with Ret (Ok v) => v | _ => V 0 0 end.
Definition copy_prog : list xop := [XOp OpBeginDict; XOp (OpKey [120;120]); XCopy copy_env copy_val; XOp (OpKey [97;97]); XOp (OpValue (EBool true))].
Example C29_example : exists ll b,
  mapM xcalls copy_prog = Ret ll /\ Forall good_op (concat ll) /\ keys_ok false (concat ll) /\ layout_ok (fun _ => false) 0 (concat ll) /\ ops_size (concat ll) <= MAX_WIDE /\
  xb_run b_init copy_prog = Some b /\
  b_finish b = Some (TDict [([120;120], TArr [TDict [([97;98], TArr [TInt 1; TStr [120;121;122]; TInt 70000; TNull]);
       ([99;100], TF64 4611686018427387904)]; TInt 7]); ([97;97], TBool true)]).
Proof.
  eexists _, _. split; [vm_compute; reflexivity|]. split; [apply good_opsb; vm_compute; reflexivity|].
  split; [cbn [concat app keys_ok]; intuition congruence|]. split; [right; vm_compute; reflexivity|]. split; [vm_compute; discriminate|].
  split; [vm_compute; reflexivity|]. vm_compute. reflexivity.
Qed.
Example C29_document_example : exists e v t, src_ok e /\ read_doc e v = Ret t /\ copyable t /\ is_coll t = true /\ tree_size t <= MAX_NARROW /\
  t = TArr [TInt 5; TDict [([97;98], TStr [120;121;122])]].
Proof.
  exists (mk_env true 2147483648 [66;97;98;0; 67;120;121;122; 112;1;128;5;128;4; 96;2;0;5;128;5;128;3] None), (V 14 6). eexists.
  split; [split; [apply all_bytesb; reflexivity|split; [reflexivity|exact I]]|].
  split; [vm_compute; reflexivity|]. vm_compute. intuition congruence.
Qed.

(** An integer stored in three bytes cannot be copied: the call never returns. *)
Theorem C29_refuted_int : exists src v, read_doc src v = Ret (TArr [TInt 70000]) /\
  from_bytes src = Ret (Ok v) /\ write_fleece (fuel_of src) (ex_cfg true) enc_new src v = Diverge.
Proof.
  exists (mk_env true 2147483648 [18;112;17;1; 96;1;128;3; 128;2] None). eexists. split; [|split; [vm_compute; reflexivity|]]; vm_compute; reflexivity.
Qed.
Print Assumptions C29_refuted_int.
(** A one-letter string, accepted and readable in the source, is copied as a number. *)
Theorem C29_refuted_short : exists src v e' bs v', from_bytes src = Ret (Ok v) /\ read_doc src v = Ret (TArr [TStr [97]]) /\
  write_fleece (fuel_of src) (ex_cfg true) enc_new src v = Ret (e', Ok tt) /\ finish (ex_cfg true) e' = Ret bs /\
  from_bytes (mk_env true 2147483648 bs None) = Ret (Ok v') /\
  read_doc (mk_env true 2147483648 bs None) v' = Ret (TArr [TInt 353]).
Proof.
  exists (mk_env true 2147483648 [96;1;65;97; 128;2] None), (V 0 4). eexists _, _, _.
  split; [vm_compute; reflexivity|]. split; [vm_compute; reflexivity|]. split; [vm_compute; reflexivity|].
  split; [vm_compute; reflexivity|]. split; [vm_compute; reflexivity|]. vm_compute. reflexivity.
Qed.
Print Assumptions C29_refuted_short.
