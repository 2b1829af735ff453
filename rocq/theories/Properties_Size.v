(** C82: how much space a document takes. *)
From Verif Require Import Prelude Utf8 Float SharedKeys Decode Read Encodable Encoder BuilderSpec LayoutSpec
  Isort SizeSpec Size Properties_Encoder.

(** The length of the output, after the calls and after [finish], is what the arithmetic of
    LayoutSpec.v computes from the calls alone. *)
Theorem C82_predicted_partial : forall c prefix ops e' rs,
  sort_ok (c_sort c) -> lenZ prefix mod 2 = 0 ->
  Forall good_op ops -> keys_ok false ops -> polite b_init ops ->
  layout_ok (c_ua c) (lenZ prefix) ops -> lenZ prefix + ops_size ops <= MAX_WIDE ->
  enc_run c (enc_new_to_vec prefix) ops = Ret (e', rs) ->
  lenZ (en_out e') = written_len (c_ua c) (lenZ prefix) ops /\
  forall bs, finish c e' = Ret bs -> lenZ bs = finished_len (c_ua c) (lenZ prefix) ops.
Proof. exact len_predicted. Qed.
Print Assumptions C82_predicted_partial.

(** The document takes no less than the space of its contents with slots of two bytes and a root
    of two bytes, no more than with slots of four and a root of six, and if it is small exactly
    the former. *)
Theorem C82_space_partial : forall c prefix ops t e' rs bs,
  sort_ok (c_sort c) -> lenZ prefix mod 2 = 0 ->
  Forall good_op ops -> (forall t, ~ In (OpSetSharedKeys t) ops) ->
  Forall (eq (Ok tt)) (snd (b_run b_init ops)) -> fst (b_run b_init ops) = mk_b [] (Some t) ->
  layout_ok (c_ua c) (lenZ prefix) ops -> lenZ prefix + ops_size ops <= MAX_WIDE ->
  enc_run c (enc_new_to_vec prefix) ops = Ret (e', rs) -> finish c e' = Ret bs ->
  space 2 t + 2 <= lenZ bs - lenZ prefix <= space 4 t + 6 /\
  (forallb plain_op ops = true -> lenZ prefix + ops_size ops <= MAX_NARROW -> lenZ bs = lenZ prefix + space 2 t + 2).
Proof. exact size_of_document. Qed.
Print Assumptions C82_space_partial.

(** The order of the entries of its dicts makes no difference to the space. *)
Theorem C82_order : forall w t t', tsim t t' -> space w t = space w t'.
Proof. exact space_tsim. Qed.
Print Assumptions C82_order.

(** For example [{"name": "a text of 20 bytes..", "list": [1, 70000, 1.5, "hello", {}], "ok": true}]. *)
Definition size_ops : list op :=
  [OpBeginDict; OpKey [110; 97; 109; 101]; OpValue (EStr (repeat 120 20)); OpKey [108; 105; 115; 116]; OpBeginArray 5;
   OpValue (EInt I64 1); OpValue (EInt U64 70001); OpValue (EF64 4609434218613702656); OpValue (EStr [104; 101; 108; 108; 111]);
   OpBeginDict; OpEndDict; OpEndArray; OpKey [111; 107]; OpValue (EBool true); OpEndDict].
Definition size_tree : tree :=
  TDict [([110; 97; 109; 101], TStr (repeat 120 20));
         ([108; 105; 115; 116], TArr [TInt 1; TInt 70001; TF64 4609434218613702656; TStr [104; 101; 108; 108; 111]; TDict []]);
         ([111; 107], TBool true)].
Example C82_predicted_example :
  Forall good_op size_ops /\ keys_ok false size_ops /\ polite b_init size_ops /\ ops_size size_ops <= MAX_NARROW /\
  forallb plain_op size_ops = true /\ Forall (eq (Ok tt)) (snd (b_run b_init size_ops)) /\
  fst (b_run b_init size_ops) = mk_b [] (Some size_tree) /\ space 2 size_tree + 2 = 94.
Proof.
  split; [apply good_opsb; vm_compute; reflexivity|]. split; [cbn [keys_ok size_ops]; intuition congruence|].
  split; [vm_compute; tauto|]. split; [vm_compute; discriminate|]. split; [reflexivity|].
  split; [vm_compute; repeat constructor|]. split; vm_compute; reflexivity.
Qed.
Definition doc_len (ops : list op) : outcome Z := r <- run_doc (ex_cfg true) [] ops ;; Ret (lenZ (snd (fst r))).
Example C82_space_example : doc_len size_ops = Ret 94 /\ finished_len (fun _ => false) 0 size_ops = 94.
Proof. split; vm_compute; reflexivity. Qed.
Example C82_order_example :
  tsim (TDict [([97; 94], TInt 1); ([99; 100], TNull)]) (TDict [([99; 100], TNull); ([97; 94], TInt 1)]) /\
  space 2 (TDict [([97; 94], TInt 1); ([99; 100], TNull)]) = 18.
Proof.
  split; [|reflexivity]. eapply ts_dict; [apply Permutation.perm_swap|].
  repeat constructor.
Qed.

(** A key without a value, dropped by [finish], leaves its text in the document: six bytes more
    than the contents [{}] need. *)
Theorem C82_refuted_dropped_key : exists ops t,
  Forall (eq (Ok tt)) (snd (b_run b_init ops)) /\ b_finish (fst (b_run b_init ops)) = Some t /\
  doc_len ops = Ret (space 2 t + 2 + 6).
Proof.
  exists [OpBeginDict; OpKey [97; 94; 99; 100]], (TDict []).
  split; [vm_compute; repeat constructor|]. split; vm_compute; reflexivity.
Qed.
Print Assumptions C82_refuted_dropped_key.
(** So does a key the encoder refuses. *)
Theorem C82_refuted_refused_key : exists ops t,
  fst (b_run b_init ops) = mk_b [] (Some t) /\ doc_len ops = Ret (space 2 t + 2 + 6).
Proof.
  exists [OpBeginDict; OpKey [97; 94]; OpKey [99; 100; 101; 102]; OpValue ENull; OpEndDict], (TDict [([97; 94], TNull)]).
  split; vm_compute; reflexivity.
Qed.
Print Assumptions C82_refuted_refused_key.
