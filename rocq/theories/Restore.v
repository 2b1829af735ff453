(** Proofs about restoring a key table from arbitrary bytes. *)
From Coq Require Import ZifyBool ZifyNat ZifyN.
From Verif Require Import Prelude Lib SharedKeys Decode Read Encodable Encoder SharedKeysState SharedKeysSpec SharedKeysProofs
  ReadSpec Repr Safety Agree Navigate.
Ltac Zify.zify_post_hook ::= Z.div_mod_to_equations.

Definition answered (l : list (option Z)) : bool := forallb (fun a => match a with Some _ => true | None => false end) l.

Section R.
Variables (ua : Z -> bool) (m : env).
Hypothesis Hwf : wf_env m.

Lemma loop_safe v d wide n fp : coll m v d wide n fp ->
  forall f i t, 0 <= i <= n -> n - i < Z.of_nat f -> safe (state_loop f ua m (it_at v wide fp n i) t).
Proof.
  intros C. induction f as [|f IH]; intros i t Hi Hf; [lia|]. cbn [state_loop].
  destruct (Z.eq_dec i n) as [->|Hne]; [rewrite iter_next_end by lia; apply safe_ret|].
  rewrite iter_next_at by lia. destruct (co_elem m v d wide n fp C i) as (x & dx & Hx & _); [lia|]. rewrite Hx. cbn [bind fst snd].
  assert (Hg : gd m x) by (eapply co_elem_gd; [exact C| |exact Hx]; lia).
  destruct (gd_type m x Hg) as (ty & -> & _). cbn [bind]. destruct (_ && _); [apply safe_panic|].
  destruct (to_str_ok m Hwf x Hg) as (s & ->). cbn [bind]. destruct (encode_and_insert ua t s) as [t' [z|]]; [apply IH; lia|apply safe_ret].
Qed.
Lemma loop_result v d wide n fp : coll m v d wide n fp ->
  forall f i t, 0 <= i <= n -> n - i < Z.of_nat f ->
  exists xs ks, iter_collect f m (it_at v wide fp n i) = Ret xs /\ mapM (to_str m) xs = Ret ks /\
    (e_dbg m = false \/ Forall (fun x => value_type m x = Ret TyString) xs ->
     state_loop f ua m (it_at v wide fp n i) t =
       Ret (if answered (snd (insert_all ua t ks)) then Some (fst (insert_all ua t ks)) else None)).
Proof.
  intros C. induction f as [|f IH]; intros i t Hi Hf; [lia|]. cbn [state_loop iter_collect].
  destruct (Z.eq_dec i n) as [->|Hne].
  { rewrite iter_next_end by lia. cbn [bind fst snd]. exists [], []. split; [reflexivity|]. split; [reflexivity|]. intros _. reflexivity. }
  rewrite iter_next_at by lia. destruct (co_elem m v d wide n fp C i) as (x & dx & Hx & _); [lia|]. rewrite Hx. cbn [bind fst snd].
  assert (Hg : gd m x) by (eapply co_elem_gd; [exact C| |exact Hx]; lia).
  destruct (gd_type m x Hg) as (ty & Hty & _). rewrite Hty. cbn [bind]. destruct (to_str_ok m Hwf x Hg) as (s & Hs). rewrite Hs. cbn [bind].
  destruct (IH (i + 1) (fst (encode_and_insert ua t s))) as (xs & ks & H1 & H2 & H3); [lia|lia|].
  exists (x :: xs), (s :: ks). rewrite H1. split; [reflexivity|]. cbn [mapM]. rewrite Hs. cbn [bind]. rewrite H2. split; [reflexivity|].
  intros Hd. assert (Hn : e_dbg m && negb (vtype_eqb ty TyString) = false).
  { destruct Hd as [->|Hd]; [reflexivity|]. inversion Hd as [|? ? Hd1 Hd2]; subst. rewrite Hty in Hd1. apply ret_inj in Hd1. subst ty. apply andb_false_r. }
  rewrite Hn. cbn [insert_all]. destruct (encode_and_insert ua t s) as [t' a]. cbn [fst] in *.
  destruct (insert_all ua t' ks) as [t2 l]. cbn [fst snd] in *.
  destruct a as [z|]; [|reflexivity]. rewrite H3; [reflexivity|]. destruct Hd as [Hd|Hd]; [left; exact Hd|right; inversion Hd; assumption].
Qed.
Lemma restore_safe : checked m -> safe (from_state_bytes ua m).
Proof.
  intros Hc. unfold from_state_bytes. apply safe_bind; [apply from_bytes_checked; assumption|]. intros [r|x] Hr; [|apply safe_ret].
  unfold from_state_value, as_array. pose proof (root_gd m Hwf r Hr) as Hg. destruct (gd_type m r Hg) as (ty & Hty & _). rewrite Hty. cbn [bind].
  destruct (vtype_eqb ty TyArray) eqn:E; [|apply safe_ret]. destruct ty; try discriminate. destruct Hg as (d & Hg & Hd).
  destruct (gd_coll m Hwf r d _ Hg Hd Hty ltac:(unfold is_coll; tauto)) as (wide & n & fp & C). rewrite (co_iter m _ _ _ _ _ C). cbn [bind].
  pose proof (co_small m _ _ _ _ _ C) as [Hs _]. pose proof (co_n m _ _ _ _ _ C).
  apply (loop_safe r d wide n fp C); [lia|unfold lenZ in *; lia].
Qed.
Lemma restore_result r : from_bytes m = Ret (Ok r) ->
  (value_type m r <> Ret TyArray -> from_state_bytes ua m = Ret None) /\
  (value_type m r = Ret TyArray -> exists xs ks, arr_elems m r = Ret xs /\ mapM (to_str m) xs = Ret ks /\
     (e_dbg m = false \/ Forall (fun x => value_type m x = Ret TyString) xs ->
      from_state_bytes ua m = Ret (if answered (snd (insert_all ua [] ks)) then Some (after ua ks) else None))).
Proof.
  intros Hr. unfold from_state_bytes. rewrite Hr. cbn [bind]. unfold from_state_value, as_array.
  pose proof (root_gd m Hwf r Hr) as Hg. destruct (gd_type m r Hg) as (ty & Hty & _). rewrite Hty. cbn [bind]. split.
  - intros Hn. destruct (vtype_eqb ty TyArray) eqn:E; [|reflexivity]. destruct ty; try discriminate. congruence.
  - intros Ha. apply ret_inj in Ha. subst ty. cbn [vtype_eqb]. destruct Hg as (d & Hg & Hd).
    destruct (gd_coll m Hwf r d _ Hg Hd Hty ltac:(unfold is_coll; tauto)) as (wide & n & fp & C).
    unfold arr_elems. rewrite (co_iter m _ _ _ _ _ C). cbn [bind].
    pose proof (co_small m _ _ _ _ _ C) as [Hs _]. pose proof (co_n m _ _ _ _ _ C).
    destruct (loop_result r d wide n fp C (S (length (e_data m))) 0 []) as (xs & ks & H1 & H2 & H3); [lia|unfold lenZ in *; lia|].
    exists xs, ks. tauto.
Qed.
Lemma loop_after : forall f it ks t, state_loop f ua m it (after ua ks) = Ret (Some t) -> exists ks', t = after ua ks'.
Proof.
  induction f as [|f IH]; intros it ks t H; cbn [state_loop] in H; [discriminate|].
  binv H. destruct (fst x) as [y|]; [|injection H as <-; eauto]. binv H. destruct (_ && _); [discriminate|]. binv H.
  destruct (encode_and_insert ua (after ua ks) x1) as [t' [z|]] eqn:E; [|discriminate].
  apply (IH (snd x) (ks ++ [x1]) t). unfold after. rewrite insert_all_app. cbn [fst insert_all]. fold (after ua ks). rewrite E. exact H.
Qed.
Lemma restore_after t : from_state_bytes ua m = Ret (Some t) -> exists ks, t = after ua ks.
Proof.
  unfold from_state_bytes, from_state_value. intros H. binv H. destruct x as [r|]; [|discriminate]. binv H. destruct x as [a|]; [|discriminate].
  binv H. apply (loop_after _ _ [] t H).
Qed.
End R.
