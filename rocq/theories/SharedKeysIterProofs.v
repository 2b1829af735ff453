(** Lemmas about listing the entries of a key table. *)
From Verif Require Import Prelude Utf8 SharedKeys Encodable BuilderSpec ValueSpec Lib Decode Read Encoder SharedKeysState SharedKeysSpec PathSpec SharedKeysProofs SharedKeysIter.
From Coq Require Import Lia Permutation ZifyBool ZifyNat ZifyN.

Lemma entries_in : forall t i k n, In (k, n) (sk_entries i t) <-> i <= n /\ nthZ t (n - i) = Some k.
Proof.
  induction t as [|x t IH]; intros i k n; cbn [sk_entries In].
  - split; [tauto|]. intros [_ H]. unfold nthZ in H. destruct (n - i <? 0); [discriminate|].
    destruct (Z.to_nat (n - i)); discriminate.
  - rewrite IH. split.
    + intros [E|[H1 H2]].
      * injection E as -> ->. split; [lia|]. rewrite Z.sub_diag. reflexivity.
      * split; [lia|]. rewrite nthZ_cons_S by lia. replace (n - i - 1) with (n - (i + 1)) by lia. exact H2.
    + intros [H1 H2]. destruct (Z.eq_dec n i) as [->|Hn].
      * left. rewrite Z.sub_diag in H2. cbn in H2. congruence.
      * right. split; [lia|]. rewrite nthZ_cons_S in H2 by lia. replace (n - (i + 1)) with (n - i - 1) by lia. exact H2.
Qed.
Lemma entries_fst : forall t i, map fst (sk_entries i t) = t.
Proof. induction t as [|x t IH]; intros i; cbn [sk_entries map fst]; [reflexivity|]. now rewrite IH. Qed.
Lemma entries_len t i : length (sk_entries i t) = length t.
Proof. rewrite <- (entries_fst t i) at 2. now rewrite map_length. Qed.
Lemma entries_app : forall a i b, sk_entries i (a ++ b) = sk_entries i a ++ sk_entries (i + lenZ a) b.
Proof.
  induction a as [|x a IH]; intros i b; cbn [sk_entries app].
  - change (lenZ (@nil (list Z))) with 0. now rewrite Z.add_0_r.
  - rewrite IH. do 2 f_equal. unfold lenZ. cbn [length]. f_equal. lia.
Qed.
Lemma find_none_notin k : forall t i, sk_find k i t = None -> ~ In k t.
Proof.
  induction t as [|x t IH]; intros i H Hin; cbn [sk_find] in H; [exact Hin|].
  destruct (bytes_eqb x k) eqn:E; [discriminate|]. destruct Hin as [->|Hin].
  - assert (Hx : bytes_eqb k k = true) by now apply bytes_eqb_eq. congruence.
  - exact (IH _ H Hin).
Qed.
Lemma nodup_snoc {A} (t : list A) x : NoDup t -> ~ In x t -> NoDup (t ++ [x]).
Proof.
  intros H Hx. apply NoDup_Add with (a := x) (l := t); [|now split].
  rewrite <- (app_nil_r t) at 1. apply Add_app.
Qed.
Lemma insert_all_nodup ua : forall ks t, NoDup t -> NoDup (fst (insert_all ua t ks)).
Proof.
  induction ks as [|k ks IH]; intros t H; cbn [insert_all]; [exact H|].
  destruct (encode_and_insert ua t k) as [t1 a] eqn:E.
  assert (H1 : NoDup t1).
  { unfold encode_and_insert in E. destruct (negb _); [injection E as <- <-; exact H|].
    destruct (sk_find (zstr_make k) 0 t) eqn:Ef; injection E as <- <-; [exact H|].
    apply nodup_snoc; [exact H|]. exact (find_none_notin _ _ _ Ef). }
  specialize (IH t1 H1). destruct (insert_all ua t1 ks). exact IH.
Qed.
Lemma after_nodup ua ks : NoDup (after ua ks).
Proof. apply insert_all_nodup. constructor. Qed.
Lemma after_short ua ks k : In k (after ua ks) -> lenZ k <= 15.
Proof.
  intros H. destruct (insert_all_in _ _ _ _ H) as [[]|(k' & _ & -> & _)].
  unfold zstr_make, lenZ. rewrite firstn_length. lia.
Qed.
Lemma zstr_short k : lenZ k <= 15 -> zstr_make k = k.
Proof. intros H. unfold zstr_make. apply firstn_all2. unfold lenZ in H. lia. Qed.
Lemma find_nth k : forall t i n, NoDup t -> i <= n -> nthZ t (n - i) = Some k -> sk_find k i t = Some n.
Proof.
  induction t as [|x t IH]; intros i n Hd Hn H.
  - unfold nthZ in H. destruct (n - i <? 0); [discriminate|]. destruct (Z.to_nat (n - i)); discriminate.
  - cbn [sk_find]. inversion Hd as [|? ? Hx Hd']; subst.
    destruct (Z.eq_dec n i) as [->|Hne].
    + rewrite Z.sub_diag in H. cbn in H. injection H as ->.
      assert (Hk : bytes_eqb k k = true) by now apply bytes_eqb_eq. now rewrite Hk.
    + rewrite nthZ_cons_S in H by lia.
      destruct (bytes_eqb x k) eqn:E.
      * apply bytes_eqb_eq in E. subst x. exfalso. apply Hx.
        unfold nthZ in H. destruct (n - i - 1 <? 0); [discriminate|]. exact (nth_error_In _ _ H).
      * apply IH; [exact Hd'|lia|]. replace (n - (i + 1)) with (n - i - 1) by lia. exact H.
Qed.

Section Iter.
Variable order : list (list Z * Z) -> list (list Z * Z).
Hypothesis Ho : forall l, Permutation (order l) l.

Lemma iter_in t k n : In (k, n) (sk_iter order t) <-> sk_decode t n = Some k.
Proof using Ho.
  unfold sk_iter, sk_decode. split; intros H.
  - apply (Permutation_in _ (Ho _)) in H. apply entries_in in H. now rewrite Z.sub_0_r in H.
  - apply (Permutation_in _ (Permutation_sym (Ho _))). apply entries_in. rewrite Z.sub_0_r. split; [|exact H].
    unfold nthZ in H. destruct (n <? 0) eqn:E; [discriminate|]. lia.
Qed.
Lemma iter_encode ua ks k n : lenZ k <= 15 ->
  (In (k, n) (sk_iter order (after ua ks)) <-> sk_encode (after ua ks) k = Some n).
Proof using Ho.
  intros Hk. rewrite iter_in. split; intros H.
  - unfold sk_encode. rewrite zstr_short by exact Hk. apply find_nth; [apply after_nodup| |].
    + unfold sk_decode, nthZ in H. destruct (n <? 0) eqn:E; [discriminate|]. lia.
    + now rewrite Z.sub_0_r.
  - rewrite <- (zstr_short k Hk). exact (encode_decode _ _ _ H).
Qed.
Lemma iter_once ua ks : NoDup (map fst (sk_iter order (after ua ks))).
Proof using Ho.
  unfold sk_iter. apply (Permutation_NoDup (l := after ua ks)); [|apply after_nodup].
  rewrite <- (entries_fst (after ua ks) 0) at 1. apply Permutation_map, Permutation_sym, Ho.
Qed.
Lemma iter_len t : lenZ (sk_iter order t) = sk_len t.
Proof using Ho. unfold lenZ, sk_iter, sk_len. rewrite (Permutation_length (Ho _)), entries_len. reflexivity. Qed.
Lemma iter_later ua t later k n : In (k, n) (sk_iter order t) -> In (k, n) (sk_iter order (fst (insert_all ua t later))).
Proof using Ho.
  intros H. unfold sk_iter in *. apply (Permutation_in _ (Permutation_sym (Ho _))).
  apply (Permutation_in _ (Ho _)) in H. destruct (insert_all_ext ua later t) as [x ->].
  rewrite entries_app. apply in_or_app. now left.
Qed.
Lemma iter_short ua ks k n : In (k, n) (sk_iter order (after ua ks)) -> lenZ k <= 15 /\ 0 <= n < sk_len (after ua ks).
Proof using Ho.
  rewrite iter_in. unfold sk_decode, nthZ. destruct (n <? 0) eqn:E; [discriminate|]. intros H.
  split; [exact (after_short _ _ _ (nth_error_In _ _ H))|].
  assert (Hl : (Z.to_nat n < length (after ua ks))%nat) by (apply nth_error_Some; congruence).
  unfold sk_len, lenZ. lia.
Qed.
Lemma saved_perm t : Permutation (saved_keys order t) t.
Proof using Ho.
  unfold saved_keys, sk_iter. rewrite <- (entries_fst t 0) at 2. apply Permutation_map, Ho.
Qed.
End Iter.

Lemma saved_insertion t : saved_keys (fun l => l) t = t.
Proof. apply entries_fst. Qed.

(** Reinserting the keys a table lists. *)
Lemma wf_after ua ks : (forall k, In k ks -> lenZ k <> 16) -> table_wf ua (after ua ks).
Proof. intros H. apply insert_all_wf; [exact H|]. split; constructor. Qed.
Lemma relisted ua order ks : (forall l, Permutation (order l) l) -> (forall k, In k ks -> lenZ k <> 16) ->
  after ua (saved_keys order (after ua ks)) = saved_keys order (after ua ks).
Proof.
  intros Ho Hk. destruct (wf_after ua ks Hk) as [Hd Hf].
  assert (Hp := saved_perm order Ho (after ua ks)).
  apply after_fresh.
  - exact (Permutation_NoDup (Permutation_sym Hp) Hd).
  - apply Forall_forall. intros k Hin. apply (Permutation_in _ Hp) in Hin.
    rewrite Forall_forall in Hf. exact (Hf k Hin).
  - unfold lenZ. rewrite (Permutation_length Hp). apply (after_len ua ks).
Qed.
