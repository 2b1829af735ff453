(** C78: whatever a debug build returns, a release build returns. *)
From Verif Require Import Prelude Varint SharedKeys Decode Read Encodable Encoder Agree SharedKeysState Alloced Scopes Ser De Mutable FromScope Macro CopySpec BuildSpec Builds BuildsWrite Isort Properties_Safety.

(** Opening a document: accepted with the same root, or refused with the same error. *)
Theorem C78_open : forall e,
  agrees (from_bytes e) (from_bytes (release e)) /\
  agrees (from_bytes_unchecked e) (from_bytes_unchecked (release e)).
Proof. intros e. split; [apply ag_from_bytes|apply ag_from_bytes_unchecked]. Qed.
Print Assumptions C78_open.

(** Every accessor, on any value at all; the whole tree below a value. *)
Theorem C78_scalars : forall e v,
  agrees (value_type e v) (value_type (release e) v) /\
  agrees (to_bool e v) (to_bool (release e) v) /\
  agrees (to_int e v) (to_int (release e) v) /\
  agrees (to_unsigned_int e v) (to_unsigned_int (release e) v) /\
  agrees (to_double e v) (to_double (release e) v) /\
  agrees (to_float e v) (to_float (release e) v) /\
  agrees (to_str e v) (to_str (release e) v) /\
  agrees (to_data e v) (to_data (release e) v).
Proof. intros e v. repeat apply conj; auto with builds. Qed.
Print Assumptions C78_scalars.
Theorem C78_collections : forall e v,
  agrees (arr_len e v) (arr_len (release e) v) /\
  (forall i, agrees (arr_get e v i) (arr_get (release e) v i)) /\
  agrees (arr_elems e v) (arr_elems (release e) v) /\
  agrees (dict_len e v) (dict_len (release e) v) /\
  (forall k, agrees (dict_get e v k) (dict_get (release e) v k)) /\
  (forall k t, agrees (dict_get_sk e v k t) (dict_get_sk (release e) v k t)) /\
  agrees (dict_elems e v) (dict_elems (release e) v) /\
  agrees (read_doc e v) (read_doc (release e) v).
Proof. intros e v. repeat (apply conj; [auto with builds|]). auto with builds. Qed.
Print Assumptions C78_collections.
Example C78_read_example :
  let e := at4g true [0x70; 0x01; 0x41; 0x61; 0x00; 0x05; 0x80; 0x03] in
  from_bytes e = Ret (Ok (V 0 6)) /\ read_doc e (V 0 6) = Ret (TDict [([97], TInt 5)]) /\
  from_bytes (release e) = Ret (Ok (V 0 6)) /\ read_doc (release e) (V 0 6) = Ret (TDict [([97], TInt 5)]).
Proof. repeat apply conj; vm_compute; reflexivity. Qed.

(** Encoding: every sequence of calls, and what is finished after it. *)
Theorem C78_encode : forall c e ops,
  agrees (enc_run c e ops) (enc_run (release_cfg c) e ops) /\
  agrees (finish c e) (finish (release_cfg c) e) /\
  (forall src v f, agrees (write_fleece f c e src v) (write_fleece f (release_cfg c) e (release src) v)) /\
  (forall base m v, finish_value c base e = Ret (m, v) -> finish_value (release_cfg c) base e = Ret (release m, v)).
Proof.
  intros c e ops. repeat apply conj; intros; [apply ag_run|apply ag_finish|apply ag_write_fleece|apply ag_finish_value; assumption].
Qed.
Print Assumptions C78_encode.
Example C78_encode_example :
  let c := mk_cfg true (fun _ => false) isort in
  let bs := [0x47; 97; 98; 99; 100; 101; 102; 103; 0x60; 0x02; 0x80; 0x05; 0x00; 0x01; 0x80; 0x03] in
  (r <- enc_run c enc_new [OpBeginArray 2; OpValue (EStr [97; 98; 99; 100; 101; 102; 103]); OpValue (EInt I64 1); OpEndArray] ;; finish c (fst r)) = Ret bs /\
  to_bytes c (SSeq [SStr [97; 98; 99; 100; 101; 102; 103]; SInt U8 1]) = Ret (Ok bs) /\
  (t <- get_state_bytes c [[97; 97]; [98; 99]] ;; from_state_bytes (fun _ => false) (at4g true t)) = Ret (Some [[97; 97]; [98; 99]]).
Proof. cbn zeta. repeat apply conj; vm_compute; reflexivity. Qed.
Theorem C78_macro : forall c base a,
  (forall l, fleece_dict c base l = Ret a -> fleece_dict (release_cfg c) base l = Ret (release_alloced a)) /\
  (forall l, fleece_array c base l = Ret a -> fleece_array (release_cfg c) base l = Ret (release_alloced a)).
Proof. intros c base a. split; intros l; [apply ag_macro_dict|apply ag_macro_array]. Qed.
Print Assumptions C78_macro.

(** Mutable collections: every program of calls; copies. *)
Theorem C78_mutable : forall dbg s ops, agrees (mrun dbg s ops) (mrun false s (release_ops ops)).
Proof. intros dbg s ops. apply ag_mrun. Qed.
Print Assumptions C78_mutable.
Example C78_mutable_example :
  let e := at4g true [0x70; 0x01; 0x41; 0x61; 0x00; 0x05; 0x80; 0x03] in
  (s <- mrun true (SArr []) [([], MPush (EInt I64 5)); ([], MPushFleece e (V 0 6)); ([MIdx 1], MInsert [98] ENull)] ;;
   Ret match slot_array s with Some l => lenZ l | None => 0 end) = Ret 2.
Proof. vm_compute. reflexivity. Qed.
Theorem C78_copy : forall dbg src v sk,
  agrees (dict_copy dbg src v sk) (dict_copy false (release src) v sk) /\
  agrees (array_copy dbg src v) (array_copy false (release src) v).
Proof. intros. split; [apply ag_dict_copy|apply ag_array_copy]. Qed.
Print Assumptions C78_copy.

(** Serializing, deserializing, and saving and restoring a key table. *)
Theorem C78_serde : forall c G f e v t,
  agrees (to_bytes c v) (to_bytes (release_cfg c) v) /\
  agrees (de_from_bytes G f e t) (de_from_bytes G f (release e) t).
Proof. intros. split; [apply ag_to_bytes|apply ag_de_bytes]. Qed.
Print Assumptions C78_serde.
Theorem C78_key_table : forall c t ua e,
  agrees (get_state_bytes c t) (get_state_bytes (release_cfg c) t) /\
  agrees (from_state_bytes ua e) (from_state_bytes ua (release e)).
Proof. intros. split; [apply ag_state_bytes|apply ag_state]. Qed.
Print Assumptions C78_key_table.

(** Not the other way round: where a debug build panics, a release build may go on. *)
Theorem C78_release_goes_on :
  (exists z, slot_new true (EInt U64 z) = Panic /\ exists s, slot_new false (EInt U64 z) = Ret s) /\
  (exists e ua, from_state_bytes ua e = Panic /\ exists t, from_state_bytes ua (release e) = Ret (Some t)).
Proof.
  split.
  - exists 144115188075855872. split; [vm_compute; reflexivity|].
    destruct (slot_new false (EInt U64 144115188075855872)) as [s| | |] eqn:E; [exists s; reflexivity|vm_compute in E; discriminate E..].
  - exists (at4g true [0x60; 0x01; 0x00; 0x05; 0x80; 0x02]), (fun _ => false). split; [vm_compute; reflexivity|]. exists [[]]. vm_compute. reflexivity.
Qed.
Print Assumptions C78_release_goes_on.
