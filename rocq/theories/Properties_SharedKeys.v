(** C30-C33: the key table [SharedKeys] and its saved state. *)
From Verif Require Import Prelude Utf8 SharedKeys Decode Read Encodable Encoder BuilderSpec Isort
  ValueSpec SharedKeysState SharedKeysSpec SharedKeysProofs Properties_Encoder.
From Coq Require Import Lia.

Definition no_ua : Z -> bool := fun _ => false.
(** "name", "age", "name", "a key" (refused: it has a space), "x-1". *)
Definition ex_keys : list (list Z) :=
  [[110;97;109;101]; [97;103;101]; [110;97;109;101]; [97;32;107;101;121]; [120;45;49]].
Example history_example : insert_all no_ua [] ex_keys =
  ([[110;97;109;101]; [97;103;101]; [120;45;49]], [Some 0; Some 1; Some 0; None; Some 2]).
Proof. reflexivity. Qed.

(* ---------- C30 ---------- *)

(** After any insertions [before], inserting [k] answers [i]; then, after any insertions
    [later], [encode] gives [i] for [k]. *)
Theorem C30_encode : forall ua before k t i later,
  encode_and_insert ua (after ua before) k = (t, Some i) ->
  sk_encode (fst (insert_all ua t later)) k = Some i.
Proof. intros ua before. exact (stays ua (after ua before)). Qed.
Print Assumptions C30_encode.
(** And [decode] gives [k] for [i], unless [k] has 16 bytes. *)
Theorem C30_decode_partial : forall ua before k t i later,
  lenZ k <> 16 -> encode_and_insert ua (after ua before) k = (t, Some i) ->
  sk_decode (fst (insert_all ua t later)) i = Some k.
Proof. intros ua before. exact (stays_decode ua (after ua before)). Qed.
Print Assumptions C30_decode_partial.
Example C30_example : exists t, encode_and_insert no_ua (after no_ua ex_keys) [98;98] = (t, Some 3) /\ lenZ [98;98] <> 16 /\
  fst (insert_all no_ua t ex_keys) = [[110;97;109;101]; [97;103;101]; [120;45;49]; [98;98]].
Proof. eexists. split; [vm_compute; reflexivity|]. split; [discriminate|]. vm_compute. reflexivity. Qed.

(** A key of 16 bytes is accepted, but only its first 15 bytes come back. *)
Theorem C30_refuted : forall ua before k t i later,
  lenZ k = 16 -> encode_and_insert ua (after ua before) k = (t, Some i) ->
  sk_decode (fst (insert_all ua t later)) i = Some (firstn 15 k) /\ firstn 15 k <> k.
Proof.
  intros ua before k t i later Hk H. split; [exact (encode_decode _ _ _ (stays _ _ _ _ _ later H))|].
  intros E. apply (f_equal (fun l => length l)) in E. rewrite firstn_length in E. unfold lenZ in Hk. lia.
Qed.
Print Assumptions C30_refuted.
Example C30_refuted_example : exists t, encode_and_insert no_ua (after no_ua ex_keys) (repeat 98 16) = (t, Some 3).
Proof. eexists. vm_compute. reflexivity. Qed.

(* ---------- C31 ---------- *)

(** Up to 2048 different keys, inserted one after another into a new table, get 0, 1, 2, …. *)
Theorem C31_dense : forall ua ks, NoDup ks -> Forall (table_key ua) ks -> lenZ ks <= 2048 ->
  insert_all ua [] ks = (ks, map Some (upto (length ks))).
Proof. exact fresh_ids. Qed.
Print Assumptions C31_dense.
Example C31_dense_example : let ks := [[110;97;109;101]; [97;103;101]; [120;45;49]] in
  NoDup ks /\ Forall (table_key no_ua) ks /\ lenZ ks <= 2048 /\ map Some (upto (length ks)) = [Some 0; Some 1; Some 2].
Proof.
  split; [repeat constructor; cbn; intuition discriminate|]. split; [repeat constructor; vm_compute; try discriminate; reflexivity|].
  split; [vm_compute; discriminate|reflexivity].
Qed.

(** In any history: a successful insertion either answers the number the key already has and
    leaves the table alone, or answers the number of keys and adds one. *)
Theorem C31_step : forall ua before k t i,
  encode_and_insert ua (after ua before) k = (t, Some i) ->
  0 <= i <= 2047 /\ sk_encode t k = Some i /\
  ((sk_encode (after ua before) k = Some i /\ t = after ua before) \/
   (sk_encode (after ua before) k = None /\ i = sk_len (after ua before) /\
    exists z, t = after ua before ++ [z])).
Proof.
  intros ua before k t i H. split; [exact (id_range _ _ _ _ _ H)|].
  apply insert_step in H as (_ & _ & _ & H & [[H1 H2]|(H1 & H2 & H3)]); split; auto.
  right. eauto.
Qed.
Print Assumptions C31_step.
(** A refused insertion changes nothing, and the table never has more than 2048 keys. *)
Theorem C31_refused : forall ua before k t, encode_and_insert ua (after ua before) k = (t, None) -> t = after ua before.
Proof. intros ua before k t H. exact (proj1 (insert_none _ _ _ _ H)). Qed.
Print Assumptions C31_refused.
Theorem C31_bounded : forall ua ks, 0 <= lenZ (after ua ks) <= 2048.
Proof. exact after_len. Qed.
Print Assumptions C31_bounded.
(** Inserting the same key again, as long as the table is not full. *)
Theorem C31_again_partial : forall ua before k t i later,
  encode_and_insert ua (after ua before) k = (t, Some i) ->
  let t2 := fst (insert_all ua t later) in
  sk_len t2 < 2048 -> encode_and_insert ua t2 k = (t2, Some i).
Proof. intros ua before. exact (again ua (after ua before)). Qed.
Print Assumptions C31_again_partial.
Example C31_again_example : exists t, encode_and_insert no_ua (after no_ua ex_keys) [98;98] = (t, Some 3) /\
  encode_and_insert no_ua (fst (insert_all no_ua t [[99;99]])) [98;98] = (fst (insert_all no_ua t [[99;99]]), Some 3).
Proof. eexists. split; [vm_compute; reflexivity|]. vm_compute. reflexivity. Qed.

(** In a full table an existing key is refused. *)
Theorem C31_refuted_full : exists ks k, In k ks /\
  sk_encode (after no_ua ks) k = Some 0 /\ encode_and_insert no_ua (after no_ua ks) k = (after no_ua ks, None).
Proof.
  exists (many_keys (Z.to_nat 2048)), [97;97;97]. split; [left; reflexivity|].
  assert (E : after no_ua (many_keys (Z.to_nat 2048)) = many_keys (Z.to_nat 2048)).
  { apply after_fresh; [apply many_nodup|apply table_keysb_ok; vm_compute; reflexivity|vm_compute; discriminate]. }
  rewrite E.
  split; [vm_compute; reflexivity|]. apply refused. vm_compute. discriminate.
Qed.
Print Assumptions C31_refuted_full.

(* ---------- C32 ---------- *)

(** Keys of up to 15 bytes: different keys have different numbers. *)
Theorem C32_distinct_partial : forall ua ks k1 k2 i,
  lenZ k1 <= 15 -> lenZ k2 <= 15 ->
  sk_encode (after ua ks) k1 = Some i -> sk_encode (after ua ks) k2 = Some i -> k1 = k2.
Proof. intros ua ks. exact (distinct (after ua ks)). Qed.
Print Assumptions C32_distinct_partial.
(** A key of up to 15 bytes that was not inserted has no number, if no key of 16 bytes was. *)
Theorem C32_unknown_partial : forall ua ks k,
  lenZ k <= 15 -> (forall k', In k' ks -> lenZ k' <> 16) -> ~ In k ks -> sk_encode (after ua ks) k = None.
Proof. exact unknown. Qed.
Print Assumptions C32_unknown_partial.
Example C32_example : sk_encode (after no_ua ex_keys) [97;103;101] = Some 1 /\ sk_encode (after no_ua ex_keys) [120;45;49] = Some 2 /\
  (forall k', In k' ex_keys -> lenZ k' <> 16) /\ ~ In [98;98] ex_keys.
Proof.
  split; [vm_compute; reflexivity|]. split; [vm_compute; reflexivity|]. split.
  - intros k' H. cbn in H. intuition (subst; discriminate).
  - cbn. intuition discriminate.
Qed.
(** Two keys of 16 bytes share a number, and so does their common beginning, never inserted. *)
Theorem C32_refuted_16 : exists k1 k2 k3 t t', k1 <> k2 /\ k3 <> k1 /\ k3 <> k2 /\
  encode_and_insert no_ua [] k1 = (t, Some 0) /\ encode_and_insert no_ua t k2 = (t', Some 0) /\ sk_encode t' k3 = Some 0.
Proof.
  exists (repeat 97 16), (repeat 97 15 ++ [98]), (repeat 97 15). eexists _, _.
  split; [discriminate|]. split; [discriminate|]. split; [discriminate|].
  split; [vm_compute; reflexivity|]. split; [vm_compute; reflexivity|]. vm_compute. reflexivity.
Qed.
Print Assumptions C32_refuted_16.
(** A key too long for any table is given the number of a 15-byte key it starts with. *)
Theorem C32_refuted_long : forall ua ks k x i,
  lenZ k = 15 -> sk_encode (after ua ks) k = Some i -> sk_encode (after ua ks) (k ++ x) = Some i.
Proof.
  intros ua ks k x i Hk H. unfold sk_encode in *. replace (zstr_make (k ++ x)) with (zstr_make k); [exact H|].
  unfold zstr_make. assert (length k = 15)%nat as Hl by (unfold lenZ in Hk; lia).
  rewrite <- Hl at 2. rewrite firstn_app, Nat.sub_diag, firstn_O, app_nil_r. rewrite Hl. reflexivity.
Qed.
Print Assumptions C32_refuted_long.
Example C32_long_example : lenZ (repeat 97 15) = 15 /\ sk_encode (after no_ua [repeat 97 15]) (repeat 97 15) = Some 0.
Proof. split; vm_compute; reflexivity. Qed.

(* ---------- C33 ---------- *)

(** Any table built from keys of at least 2 bytes, none of 16, is restored from its saved
    state with the same numbers, in debug and release builds, unless its keys take exactly
    16380 or 16382 bytes there. *)
Theorem C33_partial : forall c ua ks, sort_ok (c_sort c) ->
  Forall (fun k => wf_enc (EStr k) /\ 2 <= lenZ k /\ lenZ k <> 16) ks ->
  table_bytes (after ua ks) <> 16380 -> table_bytes (after ua ks) <> 16382 ->
  exists bs, get_state_bytes c (after ua ks) = Ret bs /\ forall dbg base, addressable base bs ->
    exists t', from_state_bytes ua (mk_env dbg base bs None) = Ret (Some t') /\
      sk_len t' = sk_len (after ua ks) /\ (forall k, sk_encode t' k = sk_encode (after ua ks) k) /\
      (forall i, sk_decode t' i = sk_decode (after ua ks) i).
Proof. exact state_same. Qed.
Print Assumptions C33_partial.
Example C33_example : Forall (fun k => wf_enc (EStr k) /\ 2 <= lenZ k /\ lenZ k <> 16) ex_keys /\
  table_bytes (after no_ua ex_keys) = 14 /\
  exists bs, get_state_bytes (ex_cfg true) (after no_ua ex_keys) = Ret bs /\
    from_state_bytes no_ua (mk_env true 4096 bs None) = Ret (Some (after no_ua ex_keys)).
Proof.
  split.
  - repeat (constructor; [split; [apply wf_encb_ok; reflexivity|split; [vm_compute; discriminate|discriminate]]|]). constructor.
  - split; [reflexivity|]. eexists. split; [vm_compute; reflexivity|]. vm_compute. reflexivity.
Qed.

(** What any array of strings restores to: the table after inserting them, if all are accepted. *)
Theorem C33_reads : forall ua m r ks,
  from_bytes m = Ret (Ok r) -> read_doc m r = Ret (TArr (map TStr ks)) ->
  from_state_bytes ua m =
    Ret (if forallb (fun a => match a with Some _ => true | None => false end) (snd (insert_all ua [] ks))
         then Some (after ua ks) else None).
Proof.
  intros ua m r ks H1 H2. rewrite (state_of_tree ua m r ks H1 H2). f_equal. exact (insert_state_all ua ks []).
Qed.
Print Assumptions C33_reads.

(** A table with a key of one letter: restoring panics in debug builds, and gives an empty key
    in release builds. *)
Theorem C33_refuted_short : exists bs, get_state_bytes (ex_cfg true) (after no_ua [[97]]) = Ret bs /\
  after no_ua [[97]] = [[97]] /\
  from_state_bytes no_ua (mk_env true 4096 bs None) = Panic /\
  from_state_bytes no_ua (mk_env false 4096 bs None) = Ret (Some [[]]).
Proof.
  eexists. split; [vm_compute; reflexivity|]. split; [reflexivity|]. split; [vm_compute; reflexivity|]. vm_compute. reflexivity.
Qed.
Print Assumptions C33_refuted_short.

(** A table of 911 keys of 2 to 15 bytes whose saved state is not accepted. *)
Theorem C33_refuted_size : exists bs, get_state_bytes (ex_cfg true) (after no_ua lost_keys) = Ret bs /\
  lenZ (after no_ua lost_keys) = 911 /\ forallb (fun k => (2 <=? lenZ k) && (lenZ k <=? 15)) lost_keys = true /\
  table_bytes (after no_ua lost_keys) = 16382 /\
  from_state_bytes no_ua (mk_env true 4096 bs None) = Ret None /\
  from_state_bytes no_ua (mk_env false 4096 bs None) = Ret None.
Proof.
  assert (E : after no_ua lost_keys = lost_keys).
  { apply after_fresh; [exact lost_nodup|apply table_keysb_ok; vm_compute; reflexivity|vm_compute; discriminate]. }
  rewrite E.
  eexists. split; [vm_compute; reflexivity|]. do 4 (split; [vm_compute; reflexivity|]). vm_compute. reflexivity.
Qed.
Print Assumptions C33_refuted_size.
