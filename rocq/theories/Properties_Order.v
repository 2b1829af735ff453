(** C92: the order in which the entries of a dict are written makes no difference. *)
From Verif Require Import Prelude Utf8 Float SharedKeys Decode Read Encodable Encoder BuilderSpec LayoutSpec
  PathSpec Path Isort StableSpec OrderProofs Properties_Encoder.
From Coq Require Import Permutation.

(** Two series of calls, for encoders of any configuration and any prefix, that describe the same
    tree except that the entries of its dicts are written in another order ([tsim t1 t2]): both
    documents read as exactly the same tree, wherever and in whichever build they are read.
    Partial: without shared keys, and no dict has two entries with the same key. *)
Theorem C92_partial : forall c1 c2 p1 p2 ops1 ops2 e1 e2 rs1 rs2 t1 t2,
  sort_ok (c_sort c1) -> lenZ p1 mod 2 = 0 ->
  Forall good_op ops1 -> (forall t, ~ In (OpSetSharedKeys t) ops1) ->
  layout_ok (c_ua c1) (lenZ p1) ops1 -> lenZ p1 + ops_size ops1 <= MAX_WIDE ->
  enc_run c1 (enc_new_to_vec p1) ops1 = Ret (e1, rs1) -> Forall (eq (Ok tt)) rs1 ->
  b_finish (fst (b_run b_init ops1)) = Some t1 ->
  sort_ok (c_sort c2) -> lenZ p2 mod 2 = 0 ->
  Forall good_op ops2 -> (forall t, ~ In (OpSetSharedKeys t) ops2) ->
  layout_ok (c_ua c2) (lenZ p2) ops2 -> lenZ p2 + ops_size ops2 <= MAX_WIDE ->
  enc_run c2 (enc_new_to_vec p2) ops2 = Ret (e2, rs2) -> Forall (eq (Ok tt)) rs2 ->
  b_finish (fst (b_run b_init ops2)) = Some t2 ->
  tsim t1 t2 -> distinct t1 ->
  exists D1 D2 t, finish c1 e1 = Ret (p1 ++ D1) /\ finish c2 e2 = Ret (p2 ++ D2) /\
    forall dbg1 dbg2 base1 base2, addressable base1 (p1 ++ D1) -> addressable base2 (p2 ++ D2) ->
    let m1 := mk_env dbg1 base1 (p1 ++ D1) None in
    let m2 := mk_env dbg2 base2 (p2 ++ D2) None in
    exists v1 v2, from_bytes m1 = Ret (Ok v1) /\ from_bytes m2 = Ret (Ok v2) /\
      read_doc m1 v1 = Ret t /\ read_doc m2 v2 = Ret t.
Proof. exact order_free. Qed.
Print Assumptions C92_partial.

(** With shared keys, a table for each of the two documents or for one of them only, and with
    repeated keys: both read as the same tree up to the order of the entries. *)
Theorem C92_shared_partial : forall c1 c2 p1 p2 ops1 ops2 e1 e2 rs1 rs2 t1 t2,
  sort_ok (c_sort c1) -> lenZ p1 mod 2 = 0 ->
  Forall good_op ops1 -> keys_ok false ops1 ->
  layout_ok (c_ua c1) (lenZ p1) ops1 -> lenZ p1 + ops_size ops1 <= MAX_WIDE ->
  enc_run c1 (enc_new_to_vec p1) ops1 = Ret (e1, rs1) -> Forall (eq (Ok tt)) rs1 ->
  b_finish (fst (b_run b_init ops1)) = Some t1 ->
  sort_ok (c_sort c2) -> lenZ p2 mod 2 = 0 ->
  Forall good_op ops2 -> keys_ok false ops2 ->
  layout_ok (c_ua c2) (lenZ p2) ops2 -> lenZ p2 + ops_size ops2 <= MAX_WIDE ->
  enc_run c2 (enc_new_to_vec p2) ops2 = Ret (e2, rs2) -> Forall (eq (Ok tt)) rs2 ->
  b_finish (fst (b_run b_init ops2)) = Some t2 ->
  tsim t1 t2 ->
  exists D1 D2, finish c1 e1 = Ret (p1 ++ D1) /\ finish c2 e2 = Ret (p2 ++ D2) /\
    forall dbg1 dbg2 base1 base2, addressable base1 (p1 ++ D1) -> addressable base2 (p2 ++ D2) ->
    let m1 := mk_env dbg1 base1 (p1 ++ D1) (en_sk e1) in
    let m2 := mk_env dbg2 base2 (p2 ++ D2) (en_sk e2) in
    exists v1 v2 u1 u2, from_bytes m1 = Ret (Ok v1) /\ from_bytes m2 = Ret (Ok v2) /\
      read_doc m1 v1 = Ret u1 /\ read_doc m2 v2 = Ret u2 /\ tsim u1 u2.
Proof. exact order_free_shared. Qed.
Print Assumptions C92_shared_partial.

(** "The same except for the order of entries" is an equivalence, and it does not make or remove
    repeated keys. *)
Theorem C92_equivalence : (forall a, tsim a a) /\ (forall a b, tsim a b -> tsim b a) /\
  (forall a b c, tsim a b -> tsim b c -> tsim a c) /\ (forall a b, tsim a b -> distinct a -> distinct b).
Proof. exact (conj ts_refl (conj tsim_sym (conj tsim_trans tsim_distinct))). Qed.
Print Assumptions C92_equivalence.

(** [{"cc": {"ee": 5, "dd": "xyz"}, "bb": [null]}] in two orders, on both levels. *)
Definition order_a : list op :=
  [OpBeginDict; OpKey [99;99]; OpBeginDict; OpKey [101;101]; OpValue (EInt U8 5); OpKey [100;100]; OpValue (EStr [120;121;122]); OpEndDict;
   OpKey [98;98]; OpBeginArray 1; OpValue ENull; OpEndArray; OpEndDict].
Definition order_b : list op :=
  [OpBeginDict; OpKey [98;98]; OpBeginArray 1; OpValue ENull; OpEndArray;
   OpKey [99;99]; OpBeginDict; OpKey [100;100]; OpValue (EStr [120;121;122]); OpKey [101;101]; OpValue (EInt U8 5); OpEndDict; OpEndDict].
Example C92_example : exists t1 t2 bs1 bs2,
  Forall good_op order_a /\ Forall good_op order_b /\ keys_ok false order_a /\ keys_ok false order_b /\
  layout_ok (fun _ => false) 0 order_a /\ layout_ok (fun _ => false) 0 order_b /\
  ops_size order_a <= MAX_WIDE /\ ops_size order_b <= MAX_WIDE /\
  b_finish (fst (b_run b_init order_a)) = Some t1 /\ b_finish (fst (b_run b_init order_b)) = Some t2 /\
  tsim t1 t2 /\ t1 <> t2 /\ distinct t1 /\
  run_doc (ex_cfg true) [] order_a = Ret (repeat (Ok tt) 13, bs1, None) /\
  run_doc (ex_cfg true) [] order_b = Ret (repeat (Ok tt) 13, bs2, None) /\ bs1 <> bs2.
Proof.
  eexists _, _, _, _.
  split; [apply good_opsb; vm_compute; reflexivity|]. split; [apply good_opsb; vm_compute; reflexivity|].
  split; [cbn [keys_ok order_a]; intuition congruence|]. split; [cbn [keys_ok order_b]; intuition congruence|].
  split; [right; vm_compute; reflexivity|]. split; [right; vm_compute; reflexivity|].
  split; [vm_compute; discriminate|]. split; [vm_compute; discriminate|].
  split; [vm_compute; reflexivity|]. split; [vm_compute; reflexivity|].
  split.
  { eapply ts_dict; [apply perm_swap|]. constructor; [split; [reflexivity|apply ts_refl]|].
    constructor; [|constructor]. split; [reflexivity|]. cbn [snd]. eapply ts_dict; [apply perm_swap|].
    repeat (constructor; [split; [reflexivity|apply ts_refl]|]). constructor. }
  split; [discriminate|].
  split.
  { constructor; [cbn [map fst]; repeat constructor; cbn [In]; intuition discriminate|].
    constructor; [|repeat constructor]. cbn [snd].
    constructor; [cbn [map fst]; repeat constructor; cbn [In]; intuition discriminate|]. repeat constructor. }
  split; [vm_compute; reflexivity|]. split; [vm_compute; reflexivity|]. discriminate.
Qed.

(** With shared keys the order of iteration is that of the numbers of the keys, and these are
    given in the order in which keys are first written: [{"cc": 1, "bb": 2}] and
    [{"bb": 2, "cc": 1}] are iterated in different orders. *)
Theorem C92_refuted_shared : exists ops1 ops2 t1 t2 bs1 bs2 k1 k2 v1 v2,
  b_finish (fst (b_run b_init ops1)) = Some t1 /\ b_finish (fst (b_run b_init ops2)) = Some t2 /\
  tsim t1 t2 /\
  run_doc (ex_cfg true) [] ops1 = Ret (repeat (Ok tt) 7, bs1, Some k1) /\
  run_doc (ex_cfg true) [] ops2 = Ret (repeat (Ok tt) 7, bs2, Some k2) /\
  from_bytes (mk_env true 4096 bs1 (Some k1)) = Ret (Ok v1) /\ from_bytes (mk_env true 4096 bs2 (Some k2)) = Ret (Ok v2) /\
  read_doc (mk_env true 4096 bs1 (Some k1)) v1 = Ret (TDict [([99;99], TInt 1); ([98;98], TInt 2)]) /\
  read_doc (mk_env true 4096 bs2 (Some k2)) v2 = Ret (TDict [([98;98], TInt 2); ([99;99], TInt 1)]).
Proof.
  exists [OpSetSharedKeys []; OpBeginDict; OpKey [99;99]; OpValue (EInt U8 1); OpKey [98;98]; OpValue (EInt U8 2); OpEndDict].
  exists [OpSetSharedKeys []; OpBeginDict; OpKey [98;98]; OpValue (EInt U8 2); OpKey [99;99]; OpValue (EInt U8 1); OpEndDict].
  eexists _, _, _, _, _, _, _, _.
  split; [vm_compute; reflexivity|]. split; [vm_compute; reflexivity|].
  split. { eapply ts_dict; [apply perm_swap|]. repeat (constructor; [split; [reflexivity|apply ts_refl]|]). constructor. }
  repeat (split; [vm_compute; reflexivity|]). vm_compute; reflexivity.
Qed.
Print Assumptions C92_refuted_shared.

(** A key written twice is accepted, and which of its values the document gives for the key
    depends on the order of writing. *)
Theorem C92_refuted_repeated : exists ops1 ops2 t1 t2 bs1 bs2 v1 v2 x1 x2,
  b_finish (fst (b_run b_init ops1)) = Some t1 /\ b_finish (fst (b_run b_init ops2)) = Some t2 /\
  tsim t1 t2 /\
  run_doc (ex_cfg true) [] ops1 = Ret (repeat (Ok tt) 6, bs1, None) /\
  run_doc (ex_cfg true) [] ops2 = Ret (repeat (Ok tt) 6, bs2, None) /\
  let m1 := mk_env true 4096 bs1 None in
  let m2 := mk_env true 4096 bs2 None in
  from_bytes m1 = Ret (Ok v1) /\ from_bytes m2 = Ret (Ok v2) /\
  go m1 v1 [PKey [97;98]] = Ret (Some x1) /\ go m2 v2 [PKey [97;98]] = Ret (Some x2) /\
  to_int m1 x1 = Ret 2 /\ to_int m2 x2 = Ret 1.
Proof.
  exists [OpBeginDict; OpKey [97;98]; OpValue (EInt U8 1); OpKey [97;98]; OpValue (EInt U8 2); OpEndDict].
  exists [OpBeginDict; OpKey [97;98]; OpValue (EInt U8 2); OpKey [97;98]; OpValue (EInt U8 1); OpEndDict].
  eexists _, _, _, _, _, _, _, _.
  split; [vm_compute; reflexivity|]. split; [vm_compute; reflexivity|].
  split. { eapply ts_dict; [apply perm_swap|]. repeat (constructor; [split; [reflexivity|apply ts_refl]|]). constructor. }
  split; [vm_compute; reflexivity|]. split; [vm_compute; reflexivity|]. cbv zeta.
  split; [vm_compute; reflexivity|]. split; [vm_compute; reflexivity|].
  split; [vm_compute; reflexivity|]. split; [vm_compute; reflexivity|]. split; vm_compute; reflexivity.
Qed.
Print Assumptions C92_refuted_repeated.
