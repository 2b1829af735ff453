(** C09, C11, C34 (and C07, C22 for encoded documents): finding values in encoded documents by
    array index and dict key, the order of dict entries, and shared keys. *)
From Verif Require Import Prelude Utf8 Float SharedKeys Decode Read Encodable Encoder BuilderSpec LayoutSpec
  PathSpec EncoderInv EncoderClean EncoderProtocol Isort Properties_Encoder Path PathDoc.
From Coq Require Import Permutation Sorted.
#[local] Existing Instance any_key.

(* ---------- C09, C11 ---------- *)

(** Every path of array indices and dict keys, followed through the API from the root of an
    encoded document, leads to what was written there: a key that was written finds its value
    ([answers], case [Some]), any other key, and any index past the end, finds nothing (case
    [None]).  Iterating any dict of the document yields its entries, each once, sorted.
    [plain_doc] is the conjunction of these.
    Proved under the conditions of [C07_round_trip_partial], for dicts without duplicate keys;
    [no_edge] leaves out the index equal to the length, see C22. *)
Theorem C09_lookup_partial : forall c prefix ops e' rs t,
  sort_ok (c_sort c) -> lenZ prefix mod 2 = 0 ->
  Forall good_op ops -> (forall t, ~ In (OpSetSharedKeys t) ops) ->
  layout_ok (c_ua c) (lenZ prefix) ops -> lenZ prefix + ops_size ops <= MAX_WIDE ->
  enc_run c (enc_new_to_vec prefix) ops = Ret (e', rs) -> Forall (eq (Ok tt)) rs ->
  b_finish (fst (b_run b_init ops)) = Some t -> distinct t ->
  exists D, finish c e' = Ret (prefix ++ D) /\
    forall dbg base, addressable base (prefix ++ D) ->
    let m := mk_env dbg base (prefix ++ D) None in
    exists root, from_bytes m = Ret (Ok root) /\ from_bytes_unchecked m = Ret root /\
      (forall p, answers m (go m root) t p) /\
      (forall p l, tree_at t p = Some (TDict l) ->
         exists d, go m root p = Ret (Some d) /\ iterates m None d l).
Proof. exact small_plain. Qed.
Print Assumptions C09_lookup_partial.

(** Documents of any size up to the pointer limit whose collections are written at a width that
    fits, see [C07_round_trip_any_size_partial]. *)
Theorem C09_lookup_any_size_partial : forall c prefix ops t,
  sort_ok (c_sort c) -> lenZ prefix mod 2 = 0 ->
  calls_ok c (enc_new_to_vec prefix) b_init ops -> (forall t, ~ In (OpSetSharedKeys t) ops) ->
  lenZ prefix + ops_size ops <= MAX_WIDE -> (forall o, In o ops -> 0 <= op_size o) ->
  b_finish (fst (b_run b_init ops)) = Some t -> distinct t ->
  exists e', enc_run c (enc_new_to_vec prefix) ops = Ret (e', snd (b_run b_init ops)) /\
    (closes_ok (S (length (en_stack e'))) c e' ->
     exists D, finish c e' = Ret (prefix ++ D) /\
      forall dbg base, addressable base (prefix ++ D) ->
      let m := mk_env dbg base (prefix ++ D) None in
      exists root, from_bytes m = Ret (Ok root) /\ from_bytes_unchecked m = Ret root /\
        (forall p, answers m (go m root) t p) /\
        (forall p l, tree_at t p = Some (TDict l) ->
           exists d, go m root p = Ret (Some d) /\ iterates m None d l)).
Proof. exact fitting_plain. Qed.
Print Assumptions C09_lookup_any_size_partial.

Example C09_example :
  (forall t, ~ In (OpSetSharedKeys t) ex_ops) /\ distinct ex_tree /\
  tree_at ex_tree [PKey [101;102]; PKey [103;104]] = Some (TData [1;2;3]) /\
  tree_at ex_tree [PKey [97;98]; PIdx 1] = Some (TStr [120;121;122]) /\
  tree_at ex_tree [PKey [97;99]] = None /\ no_edge ex_tree [PKey [97;99]] /\
  tree_at ex_tree [PKey [97;98]; PIdx 7] = None /\ no_edge ex_tree [PKey [97;98]; PIdx 7].
Proof.
  split; [intros t; cbn [In ex_ops]; intuition discriminate|].
  split.
  { unfold ex_tree. repeat (constructor; cbn [map fst snd In]); intuition discriminate. }
  do 3 (split; [vm_compute; reflexivity|]). split; [vm_compute; exact I|]. split; [vm_compute; reflexivity|].
  vm_compute. intuition discriminate.
Qed.

(** A written one-letter key is not found. *)
Theorem C09_refuted_short_key : exists ops bs root,
  run_doc (ex_cfg true) [] ops = Ret (repeat (Ok tt) 4, bs, None) /\
  b_finish (fst (b_run b_init ops)) = Some (TDict [([97], TInt 1)]) /\
  let m := mk_env true 4096 bs None in
  from_bytes m = Ret (Ok root) /\ go m root [PKey [97]] = Ret None.
Proof.
  exists [OpBeginDict; OpKey [97]; OpValue (EInt U8 1); OpEndDict]. eexists _, _.
  split; [vm_compute; reflexivity|]. split; [vm_compute; reflexivity|]. cbv zeta.
  split; [vm_compute; reflexivity|]. vm_compute. reflexivity.
Qed.
Print Assumptions C09_refuted_short_key.

(** C11 on its own, for documents without shared keys: iteration yields the keys in strictly
    ascending byte order, every written pair exactly once.  With shared keys see C34. *)
Theorem C11_sorted_partial : forall c prefix ops e' rs t p l,
  sort_ok (c_sort c) -> lenZ prefix mod 2 = 0 ->
  Forall good_op ops -> (forall t, ~ In (OpSetSharedKeys t) ops) ->
  layout_ok (c_ua c) (lenZ prefix) ops -> lenZ prefix + ops_size ops <= MAX_WIDE ->
  enc_run c (enc_new_to_vec prefix) ops = Ret (e', rs) -> Forall (eq (Ok tt)) rs ->
  b_finish (fst (b_run b_init ops)) = Some t -> distinct t -> tree_at t p = Some (TDict l) ->
  exists D, finish c e' = Ret (prefix ++ D) /\
    forall dbg base, addressable base (prefix ++ D) ->
    let m := mk_env dbg base (prefix ++ D) None in
    exists root d kvs, from_bytes m = Ret (Ok root) /\ go m root p = Ret (Some d) /\
      dict_elems m d = Ret kvs /\
      StronglySorted (fun a b => bytes_cmp a b = Lt) (map fst kvs) /\
      Permutation (map fst kvs) (map fst l) /\
      forall k x, In (k, x) kvs ->
        exists s s', In (k, s) l /\ read_doc m x = Ret s' /\ tsim s s'.
Proof. exact small_sorted. Qed.
Print Assumptions C11_sorted_partial.

(** Keys written in descending order come out ascending. *)
Example C11_example : exists bs root d,
  run_doc (ex_cfg true) [] [OpBeginDict; OpKey [99;99]; OpValue (EInt U8 1); OpKey [98;98;98]; OpValue ENull;
    OpKey [98;98]; OpValue (EInt U8 3); OpEndDict] = Ret (repeat (Ok tt) 8, bs, None) /\
  from_bytes (mk_env true 4096 bs None) = Ret (Ok root) /\
  dict_elems (mk_env true 4096 bs None) root = Ret d /\ map fst d = [[98;98]; [98;98;98]; [99;99]].
Proof. eexists _, _, _. repeat (split; [vm_compute; reflexivity|]). vm_compute. reflexivity. Qed.

(* ---------- C34 ---------- *)

(** A document encoded with a key table, whose keys are then stored as numbers, is read with the
    table the encoder ended with: path queries answer as above, both through the scope that
    knows the table ([go m]) and by passing the table to [get_with_shared_keys] ([go_sk]), and
    iteration yields the keys in order with their texts.
    [later] are keys added to the table afterwards, e.g. for further documents.
    Conditions beyond those of C09: the table was built by [encode_and_insert] and did not
    become full; no key is 16 bytes long; no longer key shares its first 15 bytes with a key
    of the table; no key of less than two bytes is in the table.  Each is needed, see below. *)
Theorem C34_shared_keys_partial : forall c prefix t0 ops e' rs t tb later,
  sort_ok (c_sort c) -> lenZ prefix mod 2 = 0 ->
  Forall good_op ops -> (forall u, ~ In (OpSetSharedKeys u) ops) ->
  (forall k, In (OpKey k) ops -> lenZ k <> 16) ->
  layout_ok (c_ua c) (lenZ prefix) (OpSetSharedKeys t0 :: ops) -> lenZ prefix + ops_size ops <= MAX_WIDE ->
  enc_run c (enc_new_to_vec prefix) (OpSetSharedKeys t0 :: ops) = Ret (e', rs) ->
  Forall (eq (Ok tt)) rs ->
  b_finish (fst (b_run b_init ops)) = Some t -> distinct t ->
  en_sk e' = Some tb -> lenZ tb < MAX_KEYS ->
  table_wf (c_ua c) (tb ++ later) ->
  (forall k, In (OpKey k) ops -> apart_from (tb ++ later) k) ->
  exists D, finish c e' = Ret (prefix ++ D) /\
    forall dbg base, addressable base (prefix ++ D) ->
    let table := tb ++ later in
    let m := mk_env dbg base (prefix ++ D) (Some table) in
    let m0 := mk_env dbg base (prefix ++ D) None in
    exists root, from_bytes m = Ret (Ok root) /\ from_bytes m0 = Ret (Ok root) /\
      (forall p, (forall k, In (PKey k) p -> clear_of table k) ->
         answers m (go m root) t p /\ answers m (go_sk table m0 root) t p) /\
      (forall p l, (forall k, In (PKey k) p -> clear_of table k) ->
         (forall k, In k (map fst l) -> clear_of table k) ->
         tree_at t p = Some (TDict l) ->
         exists d, go m root p = Ret (Some d) /\ iterates m (Some table) d l).
Proof. exact small_shared. Qed.
Print Assumptions C34_shared_keys_partial.

(** The table the encoder ends with extends the one it was given and stays well formed. *)
Theorem C34_table_grows : forall c ops e e' rs t0,
  enc_run c e ops = Ret (e', rs) -> (forall u, ~ In (OpSetSharedKeys u) ops) ->
  (forall k, In (OpKey k) ops -> lenZ k <> 16) -> en_sk e = Some t0 ->
  exists added, en_sk e' = Some (t0 ++ added) /\
    (table_wf (c_ua c) t0 -> table_wf (c_ua c) (t0 ++ added)).
Proof. exact run_sk. Qed.
Print Assumptions C34_table_grows.

(** [ex_ops] with a table that already knows "ef" and learns "ab", "cd", "gh". *)
Example C34_example : exists e' rs,
  enc_run (ex_cfg true) enc_new (OpSetSharedKeys [[101;102]] :: ex_ops) = Ret (e', rs) /\
  Forall (eq (Ok tt)) rs /\
  en_sk e' = Some [[101;102]; [97;98]; [99;100]; [103;104]] /\
  table_wf (fun _ => false) ([[101;102]; [97;98]; [99;100]; [103;104]] ++ [[120;95]]) /\
  (forall k, In (OpKey k) ex_ops -> lenZ k <> 16) /\
  (forall k, In (OpKey k) ex_ops -> apart_from ([[101;102]; [97;98]; [99;100]; [103;104]] ++ [[120;95]]) k) /\
  layout_ok (fun _ => false) 0 (OpSetSharedKeys [[101;102]] :: ex_ops).
Proof.
  eexists _, _. split; [vm_compute; reflexivity|]. split; [repeat constructor|].
  split; [vm_compute; reflexivity|]. split.
  { split; [repeat (constructor; cbn [app In]; [intuition discriminate|]); constructor|].
    repeat constructor; vm_compute; discriminate. }
  split; [|split; [|right; vm_compute; reflexivity]]; intros k; cbn [In ex_ops]; intros H;
    repeat (destruct H as [H|H]; [try discriminate H; injection H as <-; vm_compute; try split; congruence|]); destruct H.
Qed.

(** 2047 different three-letter keys, from "aaa" on. *)
Definition big_table : shared_keys :=
  map (fun n => let i := Z.of_nat n in [97 + i / 676; 97 + i / 26 mod 26; 97 + i mod 26]) (seq 0 (Z.to_nat 2047)).

(** [{"zz": 2, "aaa": 1}] with a table holding 2047 keys, "aaa" among them: "zz" makes the table
    full, and after that "aaa" is written as a string and not found. *)
Theorem C34_refuted_full : exists ops bs tb root,
  run_doc (ex_cfg true) [] (OpSetSharedKeys big_table :: ops) = Ret (repeat (Ok tt) 7, bs, Some tb) /\
  b_finish (fst (b_run b_init ops)) = Some (TDict [([122;122], TInt 2); ([97;97;97], TInt 1)]) /\
  let m := mk_env true 4096 bs (Some tb) in
  from_bytes m = Ret (Ok root) /\ go m root [PKey [97;97;97]] = Ret None /\
  go_sk tb m root [PKey [97;97;97]] = Ret None.
Proof.
  exists [OpBeginDict; OpKey [122;122]; OpValue (EInt U8 2); OpKey [97;97;97]; OpValue (EInt U8 1); OpEndDict].
  eexists _, _, _.
  split; [vm_compute; reflexivity|]. split; [vm_compute; reflexivity|]. cbv zeta.
  split; [vm_compute; reflexivity|]. split; [vm_compute; reflexivity|]. vm_compute. reflexivity.
Qed.
Print Assumptions C34_refuted_full.

(** Two keys of 16 bytes that differ in the last one only get the same number: looking up the
    second finds the value of the first, and iteration shows the cut key twice. *)
Theorem C34_refuted_16_bytes : exists k1 k2 ops bs root tb x,
  k1 <> k2 /\ run_doc (ex_cfg true) [] (OpSetSharedKeys [] :: ops) = Ret (repeat (Ok tt) 7, bs, Some tb) /\
  b_finish (fst (b_run b_init ops)) = Some (TDict [(k1, TInt 1); (k2, TInt 2)]) /\
  let m := mk_env true 4096 bs (Some tb) in
  from_bytes m = Ret (Ok root) /\ go m root [PKey k1] = Ret (Some x) /\ go m root [PKey k2] = Ret (Some x) /\
  read_doc m root = Ret (TDict [(firstn 15 k1, TInt 1); (firstn 15 k1, TInt 2)]).
Proof.
  exists (repeat 97 16), (repeat 97 15 ++ [98]),
    [OpBeginDict; OpKey (repeat 97 16); OpValue (EInt U8 1); OpKey (repeat 97 15 ++ [98]); OpValue (EInt U8 2); OpEndDict].
  eexists _, _, _, _. split; [discriminate|].
  split; [vm_compute; reflexivity|]. split; [vm_compute; reflexivity|]. cbv zeta.
  repeat (split; [vm_compute; reflexivity|]). vm_compute. reflexivity.
Qed.
Print Assumptions C34_refuted_16_bytes.

(** A longer key that starts with a 15-byte key of the table is stored as a string and then
    looked up as that other key. *)
Theorem C34_refuted_long_key : exists k k2 t0 ops bs root,
  lenZ k = 17 /\ run_doc (ex_cfg true) [] (OpSetSharedKeys t0 :: ops) = Ret (repeat (Ok tt) 7, bs, Some t0) /\
  b_finish (fst (b_run b_init ops)) = Some (TDict [(k, TInt 1); (k2, TInt 2)]) /\
  let m := mk_env true 4096 bs (Some t0) in
  from_bytes m = Ret (Ok root) /\ go m root [PKey k] = Ret None /\ go_sk t0 m root [PKey k] = Ret None.
Proof.
  exists (repeat 97 17), [122;122], [repeat 97 15; [122;122]],
    [OpBeginDict; OpKey (repeat 97 17); OpValue (EInt U8 1); OpKey [122;122]; OpValue (EInt U8 2); OpEndDict].
  eexists _, _. split; [reflexivity|].
  split; [vm_compute; reflexivity|]. split; [vm_compute; reflexivity|]. cbv zeta.
  split; [vm_compute; reflexivity|]. split; [vm_compute; reflexivity|]. vm_compute. reflexivity.
Qed.
Print Assumptions C34_refuted_long_key.
