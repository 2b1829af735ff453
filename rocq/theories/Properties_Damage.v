(** C75: what becomes of the documents that the encoder damages. *)
From Verif Require Import Prelude Utf8 Float SharedKeys Decode Read Encodable Encoder BuilderSpec LayoutSpec
  EncoderInv EncoderClean EncoderProtocol Isort Properties_Encoder Damage.
#[local] Existing Instance any_key.

(* ---------- C75 ---------- *)

(** Below 128 KiB, whatever the layout: every call returns what the protocol says, and the bytes
    either read back as the document that was built, or are refused by [from_bytes], wherever
    they lie and whatever shared keys they are read with.  Left out: texts, keys and data blobs
    of less than two bytes ([plain_op], see [C07_refuted_short_string]), the integers the encoder
    gets wrong ([good_op]), and the calls excluded by [polite]. *)
Theorem C75_intact_or_refused_partial : forall c prefix ops,
  sort_ok (c_sort c) -> lenZ prefix mod 2 = 0 -> all_bytes prefix ->
  Forall good_op ops -> forallb plain_op ops = true -> keys_ok false ops -> polite b_init ops ->
  lenZ prefix + ops_size ops < 131072 ->
  exists e' D, let bs := prefix ++ D in
    enc_run c (enc_new_to_vec prefix) ops = Ret (e', snd (b_run b_init ops)) /\ finish c e' = Ret bs /\
    forall t, b_finish (fst (b_run b_init ops)) = Some t ->
      (forall dbg base, addressable base bs -> decodes_to dbg base bs (en_sk e') t) \/
      (forall dbg base sk, addressable base bs -> from_bytes (mk_env dbg base bs sk) = Ret (Err PointerOffsetZero)).
Proof. exact intact_or_refused. Qed.
Print Assumptions C75_intact_or_refused_partial.

(** In other words: what [from_bytes] accepts is what was written. *)
Theorem C75_accepted_is_intact_partial : forall c prefix ops e' rs bs t dbg base v,
  sort_ok (c_sort c) -> lenZ prefix mod 2 = 0 -> all_bytes prefix ->
  Forall good_op ops -> forallb plain_op ops = true -> keys_ok false ops -> polite b_init ops ->
  lenZ prefix + ops_size ops < 131072 ->
  enc_run c (enc_new_to_vec prefix) ops = Ret (e', rs) -> finish c e' = Ret bs ->
  b_finish (fst (b_run b_init ops)) = Some t -> addressable base bs ->
  from_bytes (mk_env dbg base bs (en_sk e')) = Ret (Ok v) ->
  exists t', read_doc (mk_env dbg base bs (en_sk e')) v = Ret t' /\ tsim t t'.
Proof. exact accepted_is_intact. Qed.
Print Assumptions C75_accepted_is_intact_partial.

(** A document on each side: an array of a long text and two integers, whose narrow slots reach
    the text, and the same with a text of four bytes more, which they do not reach. *)
Definition test_reach (n : Z) : list op :=
  [OpBeginDict; OpKey [97;98]; OpBeginArray 0; OpValue (EStr (repeat 97 (Z.to_nat n))); OpValue (EInt U8 1); OpValue (EInt U8 2);
   OpEndArray; OpKey [99;100]; OpValue (EInt U8 3); OpEndDict].
Example C75_example : forall n, n = 16375 \/ n = 16379 ->
  Forall good_op (test_reach n) /\ forallb plain_op (test_reach n) = true /\ keys_ok false (test_reach n) /\
  polite b_init (test_reach n) /\ ops_size (test_reach n) < 131072.
Proof.
  intros n [-> | ->]; (split; [apply good_opsb; vm_compute; reflexivity|]; split; [vm_compute; reflexivity|];
    split; [cbn [keys_ok test_reach]; intuition congruence|]; split; [vm_compute; tauto|]; vm_compute; reflexivity).
Qed.
Example C75_example_intact : exists bs v,
  run_doc (ex_cfg true) [] (test_reach 16375) = Ret (repeat (Ok tt) 10, bs, None) /\
  from_bytes (mk_env true 4096 bs None) = Ret (Ok v).
Proof. eexists _, _. split; [vm_compute; reflexivity|]. vm_compute; reflexivity. Qed.
Example C75_example_refused : exists bs,
  run_doc (ex_cfg true) [] (test_reach 16379) = Ret (repeat (Ok tt) 10, bs, None) /\
  from_bytes (mk_env true 4096 bs None) = Ret (Err PointerOffsetZero).
Proof. eexists _. split; [vm_compute; reflexivity|]. vm_compute; reflexivity. Qed.

(** From 128 KiB on damage can pass unnoticed: of [{"a b!": 5, "ab": ["aaa…"], "cd": 7}] (with
    shared keys), where every call succeeds, the bytes are accepted and read as a dict of two
    entries; ["a b!"] is gone. *)
Definition test_lost (n : Z) : list op :=
  [OpSetSharedKeys []; OpBeginDict; OpKey [97;32;98;33]; OpValue (EInt U8 5);
   OpKey [97;98]; OpBeginArray 0; OpValue (EStr (repeat 97 (Z.to_nat n))); OpEndArray;
   OpKey [99;100]; OpValue (EInt U8 7); OpEndDict].
Theorem C75_refuted : exists ops bs sk v t l,
  Forall good_op ops /\ forallb plain_op ops = true /\ keys_ok false ops /\ polite b_init ops /\
  run_doc (ex_cfg true) [] ops = Ret (repeat (Ok tt) 11, bs, Some sk) /\
  b_finish (fst (b_run b_init ops)) =
    Some (TDict [([97;32;98;33], TInt 5); ([97;98], TArr [TStr t]); ([99;100], TInt 7)]) /\
  from_bytes (mk_env true 4096 bs (Some sk)) = Ret (Ok v) /\
  read_doc (mk_env true 4096 bs (Some sk)) v = Ret (TDict l) /\ map fst l = [[97;98]; [99;100]].
Proof.
  exists (test_lost 131072).
  set (bs := bytes_of (run_doc (ex_cfg true) [] (test_lost 131072))).
  set (m := mk_env true 4096 bs (Some [[97;98];[99;100]])).
  exists bs, [[97;98];[99;100]], (Decode.V 131088 16), (repeat 97 (Z.to_nat 131072)), (entries_of (read_doc m (Decode.V 131088 16))).
  split; [apply good_opsb; vm_compute; reflexivity|]. split; [vm_compute; reflexivity|].
  split; [cbn [keys_ok test_lost]; repeat split; intros _; vm_compute; discriminate|]. split; [vm_compute; tauto|].
  split; [apply is_doc; vm_compute; reflexivity|]. split; [reflexivity|]. split; [vm_compute; reflexivity|].
  split; [|vm_compute; reflexivity]. apply is_dict. vm_compute; reflexivity.
Qed.
Print Assumptions C75_refuted.
