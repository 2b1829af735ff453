(** C54, C55: the time and the stack that checking untrusted data takes. *)
From Verif Require Import Prelude Lib Varint Utf8 Float SharedKeys Decode Read Encodable Encoder
  BuilderSpec LayoutSpec EncoderInv EncoderClean EncoderProtocol Isort ReadSpec Properties_Encoder Cost CostSpec CostProofs CostDoc.

(** [from_bytes_n] is [from_bytes] with the calls of the validation counted. *)
Theorem C54_counted : forall e, snd (from_bytes_n e) = from_bytes e.
Proof. exact from_bytes_n_snd. Qed.
Print Assumptions C54_counted.

(** Checking a document the encoder wrote visits every value and key at least once and less than
    twice, so it takes fewer than two calls per call made on the encoder; it never has more than
    twice as many calls open as the document is deep. *)
Theorem C54_encoded_partial : forall c prefix ops e' rs t,
  sort_ok (c_sort c) -> lenZ prefix mod 2 = 0 ->
  Forall good_op ops -> keys_ok false ops ->
  layout_ok (c_ua c) (lenZ prefix) ops -> lenZ prefix + ops_size ops <= MAX_WIDE ->
  enc_run c (enc_new_to_vec prefix) ops = Ret (e', rs) -> Forall (eq (Ok tt)) rs ->
  b_finish (fst (b_run b_init ops)) = Some t ->
  exists D, finish c e' = Ret (prefix ++ D) /\
    forall dbg base sk, addressable base (prefix ++ D) ->
      exists cs v, from_bytes_n (mk_env dbg base (prefix ++ D) sk) = (cs, Ret (Ok v)) /\
        nodes t <= c_calls cs < 2 * nodes t /\ height t <= c_depth cs < 2 * height t.
Proof. exact small_cost. Qed.
Print Assumptions C54_encoded_partial.
Theorem C54_values_from_calls : forall ops t, b_finish (fst (b_run b_init ops)) = Some t -> nodes t <= lenZ ops.
Proof. exact calls_nodes. Qed.
Print Assumptions C54_values_from_calls.

(** Documents of any size that the encoder writes undamaged (see C07). *)
Theorem C54_encoded_any_size_partial : forall c prefix ops,
  sort_ok (c_sort c) -> lenZ prefix mod 2 = 0 ->
  @calls_ok any_key c (enc_new_to_vec prefix) b_init ops ->
  lenZ prefix + ops_size ops <= MAX_WIDE -> (forall o, In o ops -> 0 <= op_size o) ->
  exists e', enc_run c (enc_new_to_vec prefix) ops = Ret (e', snd (b_run b_init ops)) /\
    (closes_ok (S (length (en_stack e'))) c e' ->
     exists D, finish c e' = Ret (prefix ++ D) /\
      forall t, b_finish (fst (b_run b_init ops)) = Some t ->
      forall dbg base sk, addressable base (prefix ++ D) ->
      exists cs v, from_bytes_n (mk_env dbg base (prefix ++ D) sk) = (cs, Ret (Ok v)) /\
        nodes t <= c_calls cs < 2 * nodes t /\ height t <= c_depth cs < 2 * height t).
Proof. exact encoded_cost. Qed.
Print Assumptions C54_encoded_any_size_partial.

Example C54_example :
  sort_ok (c_sort (ex_cfg true)) /\ Forall good_op ex_ops /\ keys_ok false ex_ops /\ layout_ok (fun _ => false) 0 ex_ops /\
  exists e' rs t bs, enc_run (ex_cfg true) (enc_new_to_vec []) ex_ops = Ret (e', rs) /\ Forall (eq (Ok tt)) rs /\
    b_finish (fst (b_run b_init ex_ops)) = Some t /\ finish (ex_cfg true) e' = Ret bs /\
    2 <= height t /\ 5 <= nodes t /\
    exists cs v, from_bytes_n (mk_env true 4294967296 bs None) = (cs, Ret (Ok v)) /\
      nodes t <= c_calls cs < 2 * nodes t /\ height t <= c_depth cs < 2 * height t.
Proof.
  split; [apply C07_example|]. split; [apply C07_example|]. split; [apply C07_example|]. split; [apply C07_example|].
  eexists _, _, _, _. split; [vm_compute; reflexivity|]. split; [repeat constructor|].
  split; [vm_compute; reflexivity|]. split; [vm_compute; reflexivity|].
  split; [vm_compute; congruence|]. split; [vm_compute; congruence|].
  eexists _, _. split; [vm_compute; reflexivity|]. split; (split; [vm_compute; congruence|vm_compute; reflexivity]).
Qed.

(** But data that was not written by the encoder can point to the same array from two places, and
    every such array is checked once for each way that leads to it: for every k there are 6k + 8
    bytes that are accepted after more than 2^k calls.  (608 bytes keep [from_bytes] busy for more
    than 2^100 calls.) *)
Theorem C54_refuted : forall k dbg base sk,
  0 <= base -> base + (6 * Z.of_nat k + 8) < two63 ->
  exists data, lenZ data = 6 * Z.of_nat k + 8 /\ all_bytes data /\
    exists cs v, from_bytes_n (mk_env dbg base data sk) = (cs, Ret (Ok v)) /\ 2 ^ Z.of_nat k < c_calls cs.
Proof. exact exponential. Qed.
Print Assumptions C54_refuted.

(* ---------- C55 ---------- *)

(** Whenever checking ends (C19), the depth of the recursion is at most proportional to the length
    of the data.  (A run that does not end is cut off at this depth in the model.) *)
Theorem C55_depth_linear : forall e r, from_bytes e = Ret r ->
  c_depth (fst (from_bytes_n e)) <= 4 * lenZ (e_data e) + 2.
Proof. intros e r _. exact (depth_linear e). Qed.
Print Assumptions C55_depth_linear.

(** It is not bounded by anything smaller: for every depth there is data that is accepted only
    after going that deep, one level for six bytes; the stack overflows. *)
Theorem C55_refuted : forall k dbg base sk,
  0 <= base -> base + (6 * Z.of_nat k + 8) < two63 ->
  exists data, lenZ data = 6 * Z.of_nat k + 8 /\ all_bytes data /\
    exists cs v, from_bytes_n (mk_env dbg base data sk) = (cs, Ret (Ok v)) /\ Z.of_nat k < c_depth cs.
Proof. exact deep. Qed.
Print Assumptions C55_refuted.

(** Nor is it for documents the encoder wrote: it follows their nesting ([C54_encoded_partial]). *)
Theorem C55_encoded_partial : forall c prefix ops e' rs t,
  sort_ok (c_sort c) -> lenZ prefix mod 2 = 0 ->
  Forall good_op ops -> keys_ok false ops ->
  layout_ok (c_ua c) (lenZ prefix) ops -> lenZ prefix + ops_size ops <= MAX_WIDE ->
  enc_run c (enc_new_to_vec prefix) ops = Ret (e', rs) -> Forall (eq (Ok tt)) rs ->
  b_finish (fst (b_run b_init ops)) = Some t ->
  exists D, finish c e' = Ret (prefix ++ D) /\
    forall dbg base sk, addressable base (prefix ++ D) ->
      height t <= c_depth (fst (from_bytes_n (mk_env dbg base (prefix ++ D) sk))) < 2 * height t.
Proof. exact small_depth. Qed.
Print Assumptions C55_encoded_partial.

Example C55_example :
  exists cs v, from_bytes_n (mk_env true 4294967296 (doubling 9) None) = (cs, Ret (Ok v)) /\
    lenZ (doubling 9) = 62 /\ c_calls cs = 3069 /\ c_depth cs = 20.
Proof. eexists _, _. split; [vm_compute; reflexivity|]. split; [|split]; vm_compute; reflexivity. Qed.
