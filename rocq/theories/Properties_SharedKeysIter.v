(** C87: the entries that iterating over a key table lists. *)
From Verif Require Import Prelude Utf8 SharedKeys Decode Read Encodable Encoder BuilderSpec ValueSpec
  SharedKeysState SharedKeysSpec SharedKeysProofs Properties_SharedKeys SharedKeysIter SharedKeysIterProofs.
From Coq Require Import Lia Permutation.

(** After any insertions, and in whatever order the map iterates: the pairs listed are the
    numbers that [decode] knows, each with the key that it gives. *)
Theorem C87_decode : forall order ua ks k n, (forall l, Permutation (order l) l) ->
  (In (k, n) (sk_iter order (after ua ks)) <-> sk_decode (after ua ks) n = Some k).
Proof. intros order ua ks k n Ho. exact (iter_in order Ho (after ua ks) k n). Qed.
Print Assumptions C87_decode.

(** They are also the keys (of at most 15 bytes, as all listed ones are) that [encode] knows,
    each with its number. *)
Theorem C87_encode : forall order ua ks k n, (forall l, Permutation (order l) l) -> lenZ k <= 15 ->
  (In (k, n) (sk_iter order (after ua ks)) <-> sk_encode (after ua ks) k = Some n).
Proof. intros order ua ks k n Ho. exact (iter_encode order Ho ua ks k n). Qed.
Print Assumptions C87_encode.
Theorem C87_listed : forall order ua ks k n, (forall l, Permutation (order l) l) ->
  In (k, n) (sk_iter order (after ua ks)) -> lenZ k <= 15 /\ 0 <= n < sk_len (after ua ks).
Proof. intros order ua ks k n Ho. exact (iter_short order Ho ua ks k n). Qed.
Print Assumptions C87_listed.

(** No key is listed twice, and there are as many pairs as [len] says. *)
Theorem C87_once : forall order ua ks, (forall l, Permutation (order l) l) ->
  NoDup (map fst (sk_iter order (after ua ks))) /\ lenZ (sk_iter order (after ua ks)) = sk_len (after ua ks).
Proof. intros order ua ks Ho. exact (conj (iter_once order Ho ua ks) (iter_len order Ho (after ua ks))). Qed.
Print Assumptions C87_once.

(** A pair once listed stays listed, whatever is inserted later. *)
Theorem C87_later : forall order ua t later k n, (forall l, Permutation (order l) l) ->
  In (k, n) (sk_iter order t) -> In (k, n) (sk_iter order (fst (insert_all ua t later))).
Proof. intros order ua t later k n Ho. exact (iter_later order Ho ua t later k n). Qed.
Print Assumptions C87_later.

(** Inserting the keys listed into a new table, one after the other, gives a table with the
    same keys, numbered in the order of the list: the same table exactly when the list is in
    the order of insertion.  (Keys of 16 bytes are cut, C30.) *)
Theorem C87_rebuilt : forall order ua ks, (forall l, Permutation (order l) l) ->
  (forall k, In k ks -> lenZ k <> 16) ->
  after ua (map fst (sk_iter order (after ua ks))) = map fst (sk_iter order (after ua ks)) /\
  Permutation (map fst (sk_iter order (after ua ks))) (after ua ks).
Proof. intros order ua ks Ho Hk. exact (conj (relisted ua order ks Ho Hk) (saved_perm order Ho (after ua ks))). Qed.
Print Assumptions C87_rebuilt.
(** A new table lists nothing. *)
Theorem C87_new : forall order, (forall l, Permutation (order l) l) -> sk_iter order sk_default = [].
Proof. intros order Ho. apply Permutation_nil, Permutation_sym, Ho. Qed.
Print Assumptions C87_new.

(** Both orders of this table satisfy the hypotheses; the reversed one gives other numbers
    when the table is rebuilt from its list. *)
Example C87_example : sk_iter (fun l => l) (after no_ua ex_keys) =
  [([110;97;109;101], 0); ([97;103;101], 1); ([120;45;49], 2)] /\ sk_len (after no_ua ex_keys) = 3 /\
  sk_encode (after no_ua ex_keys) [97;103;101] = Some 1 /\ (forall l, Permutation (@rev (list Z * Z) l) l) /\
  sk_encode (after no_ua (map fst (sk_iter (@rev _) (after no_ua ex_keys)))) [120;45;49] = Some 0.
Proof. repeat split. intros l. apply Permutation_sym, Permutation_rev. Qed.
Example C87_rebuilt_example : after no_ua (map fst (sk_iter (fun l => l) (after no_ua ex_keys))) = after no_ua ex_keys /\
  forall k, In k ex_keys -> lenZ k <> 16.
Proof.
  split; [reflexivity|]. intros k H. cbn [ex_keys In] in H.
  repeat (destruct H as [<-|H]; [discriminate|]). destruct H.
Qed.
