(** C07, C08, C12-C16: the encoder (src/encoder/mod.rs, value_stack.rs) and what the decoder
    makes of its output. *)
From Verif Require Import Prelude Utf8 Float SharedKeys Decode Read Encodable Encoder BuilderSpec LayoutSpec
  EncoderInv EncoderClean EncoderProtocol Isort.
#[local] Existing Instance any_key.

(** An encoder configuration for the examples. *)
Definition ex_cfg (dbg : bool) : cfg := mk_cfg dbg (fun _ => false) isort.
(** [{"ab": [1, "xyz", [], null], "cd": 2.0 (f64), "ef": {"gh": data}}], with the inner
    collections left for [finish] to close. *)
Definition ex_ops : list op :=
  [OpBeginDict; OpKey [97;98]; OpBeginArray 2; OpValue (EInt U32 1); OpValue (EStr [120;121;122]);
   OpBeginArray 0; OpEndArray; OpValue ENull; OpEndArray;
   OpKey [99;100]; OpValue (EF64 4611686018427387904); OpKey [101;102];
   OpBeginDict; OpKey [103;104]; OpValue (EData [1;2;3])].
Definition ex_tree : tree :=
  TDict [([97;98], TArr [TInt 1; TStr [120;121;122]; TArr []; TNull]);
         ([99;100], TF64 4611686018427387904);
         ([101;102], TDict [([103;104], TData [1;2;3])])].
Definition run_doc (c : cfg) (prefix : list Z) (ops : list op)
  : outcome (list (result unit encode_error) * list Z * option shared_keys) :=
  r <- enc_run c (enc_new_to_vec prefix) ops ;; bs <- finish c (fst r) ;; Ret (snd r, bs, en_sk (fst r)).

(* ---------- C07 ---------- *)

(** If every call succeeds, the finished bytes are accepted, checked and unchecked, and read
    back as the tree the calls describe, [b_finish], in debug and release, at any address.
    Proved for the values [enc_ok] the encoder handles and for documents of any size up to the
    pointer limit whose layout works out ([layout_ok]): no collection with slots of two bytes
    has something to hold that does not fit, a text or key of less than two bytes or a pointer
    of more than 16383.  All documents of at most 16383 bytes without such texts are among
    them.  The cases left out are refuted below. *)
Theorem C07_round_trip_partial : forall c prefix ops e' rs t,
  sort_ok (c_sort c) -> lenZ prefix mod 2 = 0 ->
  Forall good_op ops -> keys_ok false ops ->
  layout_ok (c_ua c) (lenZ prefix) ops -> lenZ prefix + ops_size ops <= MAX_WIDE ->
  enc_run c (enc_new_to_vec prefix) ops = Ret (e', rs) -> Forall (eq (Ok tt)) rs ->
  b_finish (fst (b_run b_init ops)) = Some t ->
  exists D, finish c e' = Ret (prefix ++ D) /\
    forall dbg base, addressable base (prefix ++ D) ->
      decodes_to dbg base (prefix ++ D) (en_sk e') t.
Proof. exact small_round_trip. Qed.
Print Assumptions C07_round_trip_partial.

Example C07_example :
  sort_ok (c_sort (ex_cfg true)) /\ Forall good_op ex_ops /\ keys_ok false ex_ops /\
  layout_ok (fun _ => false) 0 ex_ops /\ ops_size ex_ops <= MAX_WIDE /\
  (exists e', enc_run (ex_cfg true) enc_new ex_ops = Ret (e', repeat (Ok tt) 15)) /\
  b_finish (fst (b_run b_init ex_ops)) = Some ex_tree.
Proof.
  split; [exact isort_ok|]. split; [apply good_opsb; vm_compute; reflexivity|].
  split; [cbn [keys_ok ex_ops]; intuition congruence|]. split; [right; vm_compute; reflexivity|]. split; [vm_compute; discriminate|].
  split; [eexists; vm_compute; reflexivity|vm_compute; reflexivity].
Qed.
Example C07_example_read : exists bs v,
  run_doc (ex_cfg true) [] ex_ops = Ret (repeat (Ok tt) 15, bs, None) /\
  from_bytes (mk_env true 4096 bs None) = Ret (Ok v) /\
  read_doc (mk_env true 4096 bs None) v = Ret ex_tree.
Proof. eexists _, _. repeat (split; [vm_compute; reflexivity|]). vm_compute. reflexivity. Qed.

(** A large one, [{"a": <a text of 20000 bytes>, "b": ["yy", "z"], "": <a text of 300 bytes>}]:
    the outer dict has wide slots, so that its short keys survive.  The inner array, written
    within reach of its text, would lose "z", and is given a text far enough away. *)
Definition big_text : list Z := map (fun _ => 120) (seq 0 (Z.to_nat 20000)).
Definition big_ops : list op :=
  [OpBeginDict; OpKey [97]; OpValue (EStr big_text); OpKey [98]; OpBeginArray 0; OpValue (EStr [121;121]);
   OpValue (EStr big_text); OpValue (EStr [122]); OpEndArray; OpKey []; OpValue (EStr (firstn (Z.to_nat 300) big_text)); OpEndDict].
Definition big_tree : tree :=
  TDict [([97], TStr big_text); ([98], TArr [TStr [121;121]; TStr big_text; TStr [122]]);
         ([], TStr (firstn (Z.to_nat 300) big_text))].
Example C07_example_large :
  Forall good_op big_ops /\ keys_ok false big_ops /\
  layout_ok (fun _ => false) 0 big_ops /\ MAX_NARROW < ops_size big_ops <= MAX_WIDE /\
  match enc_run (ex_cfg true) enc_new big_ops with Ret (_, rs) => rs = repeat (Ok tt) 12 | _ => False end /\
  b_finish (fst (b_run b_init big_ops)) = Some big_tree.
Proof.
  split; [apply good_opsb; vm_compute; reflexivity|].
  split; [repeat (split; [discriminate|]); exact I|]. split; [right; vm_compute; reflexivity|].
  split; [vm_compute; split; [reflexivity|discriminate]|].
  split; [vm_compute; reflexivity|vm_compute; reflexivity].
Qed.

(** The same from the states of the encoder: as long as each collection, when it is closed,
    is written at a width its slots fit ([calls_ok], [closes_ok] check [top_fits]). *)
Theorem C07_round_trip_any_size_partial : forall c prefix ops,
  sort_ok (c_sort c) -> lenZ prefix mod 2 = 0 ->
  calls_ok c (enc_new_to_vec prefix) b_init ops ->
  lenZ prefix + ops_size ops <= MAX_WIDE -> (forall o, In o ops -> 0 <= op_size o) ->
  exists e', enc_run c (enc_new_to_vec prefix) ops = Ret (e', snd (b_run b_init ops)) /\
    (closes_ok (S (length (en_stack e'))) c e' ->
     exists D, finish c e' = Ret (prefix ++ D) /\
      forall t, b_finish (fst (b_run b_init ops)) = Some t ->
      forall dbg base, addressable base (prefix ++ D) ->
        decodes_to dbg base (prefix ++ D) (en_sk e') t).
Proof. exact fitting_document. Qed.
Print Assumptions C07_round_trip_any_size_partial.

(** [["a"]]: every call succeeds and the document is accepted, but the one-letter string reads
    back as the integer 353. *)
Theorem C07_refuted_short_string : exists ops bs v,
  run_doc (ex_cfg true) [] ops = Ret (repeat (Ok tt) 3, bs, None) /\
  b_finish (fst (b_run b_init ops)) = Some (TArr [TStr [97]]) /\
  from_bytes (mk_env true 4096 bs None) = Ret (Ok v) /\
  read_doc (mk_env true 4096 bs None) v = Ret (TArr [TInt 353]).
Proof.
  exists [OpBeginArray 0; OpValue (EStr [97]); OpEndArray]. eexists _, _.
  split; [vm_compute; reflexivity|]. repeat (split; [vm_compute; reflexivity|]). vm_compute. reflexivity.
Qed.
Print Assumptions C07_refuted_short_string.

(** [{"a": 1}] loses its only entry: the key is stored damaged. *)
Theorem C07_refuted_short_key : exists ops bs v,
  run_doc (ex_cfg true) [] ops = Ret (repeat (Ok tt) 4, bs, None) /\
  b_finish (fst (b_run b_init ops)) = Some (TDict [([97], TInt 1)]) /\
  from_bytes (mk_env true 4096 bs None) = Ret (Ok v) /\
  read_doc (mk_env true 4096 bs None) v = Ret (TDict []).
Proof.
  exists [OpBeginDict; OpKey [97]; OpValue (EInt U8 1); OpEndDict]. eexists _, _.
  split; [vm_compute; reflexivity|]. repeat (split; [vm_compute; reflexivity|]). vm_compute. reflexivity.
Qed.
Print Assumptions C07_refuted_short_key.

(** [[65536_i64]] reads back as [[0]]. *)
Theorem C07_refuted_i64 : exists ops bs v,
  run_doc (ex_cfg true) [] ops = Ret (repeat (Ok tt) 3, bs, None) /\
  b_finish (fst (b_run b_init ops)) = Some (TArr [TInt 65536]) /\
  from_bytes (mk_env true 4096 bs None) = Ret (Ok v) /\
  read_doc (mk_env true 4096 bs None) v = Ret (TArr [TInt 0]).
Proof.
  exists [OpBeginArray 0; OpValue (EInt I64 65536); OpEndArray]. eexists _, _.
  split; [vm_compute; reflexivity|]. repeat (split; [vm_compute; reflexivity|]). vm_compute. reflexivity.
Qed.
Print Assumptions C07_refuted_i64.

(* ---------- C08 ---------- *)

(** Validity alone needs no tree: the output of a run with an open or closed root is accepted. *)
Theorem C08_output_valid_partial : forall c ops e' rs,
  sort_ok (c_sort c) -> Forall good_op ops -> keys_ok false ops ->
  layout_ok (c_ua c) 0 ops -> ops_size ops <= MAX_WIDE ->
  enc_run c enc_new ops = Ret (e', rs) -> Forall (eq (Ok tt)) rs ->
  b_finish (fst (b_run b_init ops)) <> None ->
  exists bs, finish c e' = Ret bs /\
    forall dbg base, addressable base bs ->
    exists v, from_bytes (mk_env dbg base bs (en_sk e')) = Ret (Ok v).
Proof. exact small_valid. Qed.
Print Assumptions C08_output_valid_partial.
(** [C07_example] meets the hypotheses. *)

(** An array holding one string of 16379 bytes: every call succeeds, the output is rejected. *)
Theorem C08_refuted_array : exists ops bs,
  run_doc (ex_cfg true) [] ops = Ret (repeat (Ok tt) 3, bs, None) /\
  from_bytes (mk_env true 4096 bs None) = Ret (Err PointerOffsetZero).
Proof.
  exists [OpBeginArray 0; OpValue (EStr (repeat 97 (Z.to_nat 16379))); OpEndArray]. eexists.
  split; [vm_compute; reflexivity|]. vm_compute. reflexivity.
Qed.
Print Assumptions C08_refuted_array.

(** A dict whose key lies further back than a narrow pointer reaches when the dict is closed:
    the width check looks at the wrong number. *)
Theorem C08_refuted_dict : exists ops bs,
  run_doc (ex_cfg true) [] ops = Ret (repeat (Ok tt) 6, bs, None) /\
  exists er, from_bytes (mk_env true 4096 bs None) = Ret (Err er).
Proof.
  exists [OpBeginDict; OpKey [97;98]; OpBeginArray 0; OpValue (EData (repeat 0 (Z.to_nat 17000)));
    OpEndArray; OpEndDict]. eexists.
  split; [vm_compute; reflexivity|]. eexists. vm_compute. reflexivity.
Qed.
Print Assumptions C08_refuted_dict.

(* ---------- C12 ---------- *)

(** Every call answers exactly as the protocol [b_step] says, for all values and sizes, unless
    the document outgrows the pointer range.  [regulars] excludes two calls: [end_array] on a
    dict waiting for a key, and [begin_dict] after the root was closed. *)
Theorem C12_protocol_partial : forall c prefix ops e' rs,
  enc_run c (enc_new_to_vec prefix) ops = Ret (e', rs) ->
  regulars b_init ops -> ~ In (Err PointerTooLarge) rs ->
  rs = snd (b_run b_init ops).
Proof. exact run_protocol. Qed.
Print Assumptions C12_protocol_partial.

(** Without any exclusion: a run the encoder accepts is one the protocol accepts. *)
Theorem C12_accepted_only_if_allowed : forall c prefix ops e' rs,
  enc_run c (enc_new_to_vec prefix) ops = Ret (e', rs) -> Forall (eq (Ok tt)) rs ->
  Forall (eq (Ok tt)) (snd (b_run b_init ops)).
Proof. exact run_accepted. Qed.
Print Assumptions C12_accepted_only_if_allowed.

(** A run the protocol accepts is accepted by the encoder. *)
Theorem C12_allowed_is_accepted : forall c prefix ops e' rs,
  enc_run c (enc_new_to_vec prefix) ops = Ret (e', rs) -> ~ In (Err PointerTooLarge) rs ->
  Forall (eq (Ok tt)) (snd (b_run b_init ops)) -> rs = snd (b_run b_init ops).
Proof. exact run_allowed. Qed.
Print Assumptions C12_allowed_is_accepted.

Example C12_example :
  exists e', enc_run (ex_cfg true) enc_new
    [OpValue ENull; OpBeginArray 0; OpKey [97;98]; OpEndDict; OpBeginDict; OpValue ENull;
     OpKey [97;98]; OpKey [99;98]; OpEndDict; OpEndArray; OpValue ENull; OpEndDict; OpEndArray;
     OpBeginArray 0; OpValue ENull]
  = Ret (e', [Err CollectionNotOpen; Ok tt; Err DictNotOpen; Err DictNotOpen; Ok tt;
     Err DictWaitingForKey; Ok tt; Err DictWaitingForValue; Err DictWaitingForValue; Err ArrayNotOpen;
     Ok tt; Ok tt; Ok tt; Err MultiTopLevelCollection; Err CollectionNotOpen]) /\
  regulars b_init
    [OpValue ENull; OpBeginArray 0; OpKey [97;98]; OpEndDict; OpBeginDict; OpValue ENull;
     OpKey [97;98]; OpKey [99;98]; OpEndDict; OpEndArray; OpValue ENull; OpEndDict; OpEndArray;
     OpBeginArray 0; OpValue ENull].
Proof. eexists. split; [vm_compute; reflexivity|vm_compute; tauto]. Qed.

(** After the root is closed [begin_array] reports [MultiTopLevelCollection] but [begin_dict]
    reports [CollectionNotOpen]. *)
Theorem C12_refuted_begin_dict : exists ops e',
  enc_run (ex_cfg true) enc_new ops = Ret (e', [Ok tt; Ok tt; Err CollectionNotOpen]) /\
  snd (b_run b_init ops) = [Ok tt; Ok tt; Err MultiTopLevelCollection].
Proof. exists [OpBeginDict; OpEndDict; OpBeginDict]. eexists. split; [vm_compute; reflexivity|]. vm_compute; reflexivity. Qed.
Print Assumptions C12_refuted_begin_dict.

(** [end_array] on an open dict is refused but closes the dict all the same, so that the
    [end_dict] that follows is refused as well. *)
Theorem C12_refuted_end_array : exists ops e',
  enc_run (ex_cfg true) enc_new ops = Ret (e', [Ok tt; Err ArrayNotOpen; Err DictNotOpen]) /\
  snd (b_run b_init ops) = [Ok tt; Err ArrayNotOpen; Ok tt].
Proof. exists [OpBeginDict; OpEndArray; OpEndDict]. eexists. split; [vm_compute; reflexivity|]. vm_compute; reflexivity. Qed.
Print Assumptions C12_refuted_end_array.

(* ---------- C13 ---------- *)

(** If a call returns [Err], continuing gives the same answers and a document with the same
    contents as if the call had not been made.  [polite] excludes the three calls refuted
    below. *)
Theorem C13_refused_call_harmless_partial : forall c ops1 o ops2 er e1 rs,
  sort_ok (c_sort c) ->
  let ops := ops1 ++ o :: ops2 in
  Forall good_op ops -> keys_ok false ops -> polite b_init ops ->
  layout_ok (c_ua c) 0 ops -> layout_ok (c_ua c) 0 (ops1 ++ ops2) -> ops_size ops <= MAX_WIDE ->
  enc_run c enc_new (ops1 ++ [o]) = Ret (e1, rs ++ [Err er]) ->
  exists eA bsA rA eB bsB rB,
    enc_run c enc_new ops = Ret (eA, rs ++ [Err er] ++ rA) /\ finish c eA = Ret bsA /\
    enc_run c enc_new (ops1 ++ ops2) = Ret (eB, rs ++ rB) /\ finish c eB = Ret bsB /\
    rA = rB /\
    forall t, b_finish (fst (b_run b_init (ops1 ++ ops2))) = Some t -> forall dbg base,
      (addressable base bsA -> decodes_to dbg base bsA (en_sk eA) t) /\
      (addressable base bsB -> decodes_to dbg base bsB (en_sk eB) t).
Proof. exact refused_call. Qed.
Print Assumptions C13_refused_call_harmless_partial.

Example C13_example :
  let ops1 := [OpBeginDict; OpKey [97;98]; OpValue ENull] in
  let o := OpValue (EStr [120;121;122]) in
  let ops2 := [OpKey [99;100]; OpValue (EInt U8 7); OpEndDict] in
  Forall good_op (ops1 ++ o :: ops2) /\ polite b_init (ops1 ++ o :: ops2) /\
  layout_ok (fun _ => false) 0 (ops1 ++ o :: ops2) /\ layout_ok (fun _ => false) 0 (ops1 ++ ops2) /\
  exists e1, enc_run (ex_cfg true) enc_new (ops1 ++ [o]) = Ret (e1, repeat (Ok tt) 3 ++ [Err DictWaitingForKey]).
Proof.
  cbv zeta. split; [apply good_opsb; vm_compute; reflexivity|].
  split; [cbn; tauto|]. split; [right; vm_compute; reflexivity|]. split; [right; vm_compute; reflexivity|].
  eexists. vm_compute. reflexivity.
Qed.

(** [end_array] on an open dict: refused, but the dict and its entries are gone. *)
Theorem C13_refuted_end_array : exists ops1 ops2 bs,
  run_doc (ex_cfg true) [] (ops1 ++ OpEndArray :: ops2)
    = Ret ([Ok tt; Ok tt; Ok tt; Err ArrayNotOpen; Err DictNotOpen], bs, None) /\
  (exists er, from_bytes (mk_env true 4096 bs None) = Ret (Err er)) /\
  (exists bs2, run_doc (ex_cfg true) [] (ops1 ++ ops2) = Ret (repeat (Ok tt) 4, bs2, None)).
Proof.
  exists [OpBeginDict; OpKey [97;98]; OpValue ENull], [OpEndDict]. eexists.
  split; [vm_compute; reflexivity|]. split; eexists; vm_compute; reflexivity.
Qed.
Print Assumptions C13_refuted_end_array.

(** [write_key] after the root was closed: refused, but its bytes are appended after the root
    pointer and the document is no longer accepted. *)
Theorem C13_refuted_late_key : exists ops1 k bs bs2,
  run_doc (ex_cfg true) [] (ops1 ++ [OpKey k]) = Ret ([Ok tt; Ok tt; Err DictNotOpen], bs, None) /\
  (exists er, from_bytes (mk_env true 4096 bs None) = Ret (Err er)) /\
  run_doc (ex_cfg true) [] ops1 = Ret ([Ok tt; Ok tt], bs2, None) /\
  (exists v, from_bytes (mk_env true 4096 bs2 None) = Ret (Ok v)).
Proof.
  exists [OpBeginDict; OpEndDict], [97;98;99]. eexists _, _.
  split; [vm_compute; reflexivity|]. split; [eexists; vm_compute; reflexivity|].
  split; [vm_compute; reflexivity|]. eexists; vm_compute; reflexivity.
Qed.
Print Assumptions C13_refuted_late_key.

(* ---------- C14 ---------- *)

(** In every encoder state, [finish] is: forget a dangling key, make the end call for the
    innermost collection, go on until nothing is open. *)
Theorem C14_finish_is_end_calls : forall c e,
  finish c e =
  match en_stack e with
  | [] => Ret (en_out e)
  | cc :: _ => r <- enc_step c (forget_key e) (end_of cc) ;; finish c (fst r)
  end.
Proof. exact finish_unfold. Qed.
Print Assumptions C14_finish_is_end_calls.

(** The document is the one with every open collection closed from the innermost outwards and
    dangling keys dropped ([b_finish]), with no condition on the answers of the calls. *)
Theorem C14_finish_closes_partial : forall c prefix ops,
  sort_ok (c_sort c) -> lenZ prefix mod 2 = 0 ->
  Forall good_op ops -> keys_ok false ops -> polite b_init ops ->
  layout_ok (c_ua c) (lenZ prefix) ops -> lenZ prefix + ops_size ops <= MAX_WIDE ->
  exists e' D, enc_run c (enc_new_to_vec prefix) ops = Ret (e', snd (b_run b_init ops)) /\
    finish c e' = Ret (prefix ++ D) /\
    forall t, b_finish (fst (b_run b_init ops)) = Some t ->
    forall dbg base, addressable base (prefix ++ D) ->
      decodes_to dbg base (prefix ++ D) (en_sk e') t.
Proof. exact small_any. Qed.
Print Assumptions C14_finish_closes_partial.

Example C14_example : exists bs v,
  run_doc (ex_cfg false) [] [OpBeginArray 0; OpBeginDict; OpKey [97;98]; OpValue (EInt U8 1); OpKey [99;100]]
    = Ret (repeat (Ok tt) 5, bs, None) /\
  from_bytes (mk_env false 4096 bs None) = Ret (Ok v) /\
  read_doc (mk_env false 4096 bs None) v = Ret (TArr [TDict [([97;98], TInt 1)]]).
Proof. eexists _, _. repeat (split; [vm_compute; reflexivity|]). vm_compute. reflexivity. Qed.

(* ---------- C15 ---------- *)

(** Whatever is called, and whatever the calls answer, the output has even length after every
    call and after [finish]: every value starts at an even offset. *)
Theorem C15_even_output : forall c prefix ops e' rs,
  lenZ prefix mod 2 = 0 ->
  enc_run c (enc_new_to_vec prefix) ops = Ret (e', rs) ->
  lenZ (en_out e') mod 2 = 0 /\ forall bs, finish c e' = Ret bs -> lenZ bs mod 2 = 0.
Proof. exact run_all_even. Qed.
Print Assumptions C15_even_output.
Example C15_example : exists bs, run_doc (ex_cfg true) [] ex_ops = Ret (repeat (Ok tt) 15, bs, None) /\ lenZ bs = 68.
Proof. eexists. split; [vm_compute; reflexivity|]. vm_compute; reflexivity. Qed.

(* ---------- C16 ---------- *)

(** [new_to_vec] with a prefix of even length: the prefix is kept, and the whole buffer is
    accepted and reads back as the same tree as without the prefix. *)
Theorem C16_append_partial : forall c prefix ops e' rs t,
  sort_ok (c_sort c) -> lenZ prefix mod 2 = 0 ->
  Forall good_op ops -> keys_ok false ops ->
  layout_ok (c_ua c) (lenZ prefix) ops -> lenZ prefix + ops_size ops <= MAX_WIDE ->
  enc_run c (enc_new_to_vec prefix) ops = Ret (e', rs) -> Forall (eq (Ok tt)) rs ->
  b_finish (fst (b_run b_init ops)) = Some t ->
  exists D, finish c e' = Ret (prefix ++ D) /\
    forall dbg base, addressable base (prefix ++ D) ->
      decodes_to dbg base (prefix ++ D) (en_sk e') t.
Proof. exact small_round_trip. Qed.
Print Assumptions C16_append_partial.
Example C16_example : exists bs v,
  run_doc (ex_cfg true) [1;2;3;4] ex_ops = Ret (repeat (Ok tt) 15, [1;2;3;4] ++ bs, None) /\
  from_bytes (mk_env true 4096 ([1;2;3;4] ++ bs) None) = Ret (Ok v) /\
  read_doc (mk_env true 4096 ([1;2;3;4] ++ bs) None) v = Ret ex_tree.
Proof. eexists _, _. repeat (split; [vm_compute; reflexivity|]). vm_compute. reflexivity. Qed.
(** The prefix survives any calls, whatever they answer. *)
Theorem C16_prefix_kept : forall c prefix ops e' rs bs,
  enc_run c (enc_new_to_vec prefix) ops = Ret (e', rs) -> finish c e' = Ret bs ->
  exists D, bs = prefix ++ D.
Proof. exact run_prefix_kept. Qed.
Print Assumptions C16_prefix_kept.
