(** Mutable collections refine lists and maps. *)
From Verif Require Import Prelude Lib Varint VarintProofs Utf8 Float SharedKeys
  Decode Read Encodable Encoder BuilderSpec Holds Repr EncodableProofs Isort PathSpec Lookup Path ValueSpec Access Flat
  FloatRange CopySpec Copy Mutable MutableSpec MutableSlot.
From Coq Require Import ZifyBool ZifyNat ZifyN Permutation Sorted.
Ltac Zify.zify_post_hook ::= Z.div_mod_to_equations.

(* ---------- the order of keys ---------- *)

Lemma mkey_refl a : mkey_cmp a a = Eq.
Proof. destruct a; cbn; [apply Z.compare_refl|apply bytes_cmp_refl]. Qed.
Lemma mkey_Eq a b : mkey_cmp a b = Eq -> a = b.
Proof. destruct a, b; cbn; intros H; try discriminate; f_equal; [apply Z.compare_eq, H|apply bytes_cmp_Eq, H]. Qed.
Lemma mkey_sym a b : mkey_cmp b a = CompOpp (mkey_cmp a b).
Proof. destruct a, b; cbn; try reflexivity; [apply Z.compare_antisym|apply bytes_cmp_sym]. Qed.
Lemma bytes_lt_trans a b c : bytes_cmp a b = Lt -> bytes_cmp b c = Lt -> bytes_cmp a c = Lt.
Proof.
  intros H1 H2. destruct (bytes_cmp a c) eqn:E; [|reflexivity|].
  - apply bytes_cmp_Eq in E. subst c. rewrite bytes_cmp_sym, H1 in H2. discriminate.
  - exfalso. apply (bytes_cmp_trans a b c); congruence.
Qed.
Lemma mkey_trans a b c : mkey_cmp a b = Lt -> mkey_cmp b c = Lt -> mkey_cmp a c = Lt.
Proof.
  destruct a, b, c; cbn; try discriminate; try reflexivity; intros H1 H2.
  - rewrite Z.compare_lt_iff in *. lia.
  - eapply bytes_lt_trans; eauto.
Qed.

(* ---------- keys clear of the tables ---------- *)

Definition sk_in (T : list shared_keys) (sk : option shared_keys) : Prop :=
  match sk with Some t => In t T | None => True end.

Lemma own_decode T sk k : own T k -> sk_in T sk -> decode_key sk (encode_key sk k) = Some k.
Proof.
  intros Ho Hs. unfold encode_key. destruct sk as [t|]; [|reflexivity]. cbn in Hs.
  destruct (sk_encode t k) as [i|] eqn:E; [|reflexivity]. cbn. unfold sk_encode in E. unfold sk_decode.
  apply sk_find_nth in E as [E _]. rewrite Z.sub_0_r in E. rewrite E. unfold zstr_make. destruct Ho as [Hl|Hn].
  - f_equal. apply firstn_all2. unfold lenZ in Hl. lia.
  - exfalso. apply (Hn t Hs). apply nthZ_In in E. exact E.
Qed.
Lemma own_inj T sk a b : own T a -> own T b -> sk_in T sk -> encode_key sk a = encode_key sk b -> a = b.
Proof. intros Ha Hb Hs E. pose proof (own_decode T sk a Ha Hs) as H1. rewrite E, (own_decode T sk b Hb Hs) in H1. congruence. Qed.

(* ---------- maps ---------- *)

Definition entry (T : list shared_keys) (sk : option shared_keys) (a : mkey * slot) (b : list Z * tree) : Prop :=
  (fst a = encode_key sk (fst b) /\ own T (fst b)) /\ shows T (snd a) (snd b).
Definition before (a b : mkey * slot) : Prop := mkey_cmp (fst a) (fst b) = Lt.

Lemma entries_own T sk m l : Forall2 (entry T sk) m l -> Forall (fun b => own T (fst b)) l.
Proof. induction 1 as [|a b m l H _ IH]; constructor; auto. apply H. Qed.
Lemma entries_key T sk m l k x : Forall2 (entry T sk) m l -> In (k, x) l -> exists s, In (encode_key sk k, s) m.
Proof.
  induction 1 as [|[mk s] [k' y] m l [[H1 H2] H3] _ IH]; intros Hi; [destruct Hi|]. cbn in H1. subst mk. destruct Hi as [Hi|Hi].
  - injection Hi as -> ->. eexists; left; reflexivity.
  - destruct (IH Hi) as [s' Hs]. eexists; right; exact Hs.
Qed.
Lemma sorted_notin k s m : Forall (before (k, s)) m -> forall s', ~ In (k, s') m.
Proof.
  intros H s' Hi. rewrite Forall_forall in H. specialize (H _ Hi). unfold before in H. cbn in H. rewrite mkey_refl in H. discriminate.
Qed.
Lemma entries_nodup T sk m l : sk_in T sk -> Forall2 (entry T sk) m l -> StronglySorted before m -> NoDup (map fst l).
Proof.
  intros Hs H Hm. induction H as [|[mk s] [k x] m l [[H1 H2] H3] Hf IH]; cbn [map fst] in *; [constructor|].
  inversion Hm as [|? ? Hm' Hb]; subst. constructor; [|auto]. intros Hi. apply in_map_iff in Hi as ([k' y] & E & Hi). cbn in E. subst k'.
  destruct (entries_key _ _ _ _ _ _ Hf Hi) as [s' Hi']. eapply sorted_notin; eauto.
Qed.

Lemma assoc_absent k l : ~ In k (map fst l) -> assoc k l = None.
Proof.
  induction l as [|[k' x] l IH]; cbn [assoc map fst]; intros H; [reflexivity|].
  destruct (bytes_eqb k' k) eqn:E; [apply bytes_eqb_eq in E; exfalso; apply H; left; exact E|]. apply IH. intros Hi; apply H; right; exact Hi.
Qed.
Lemma assoc_in_nodup k x l : NoDup (map fst l) -> In (k, x) l -> assoc k l = Some x.
Proof.
  induction l as [|[k' y] l IH]; cbn [assoc map fst]; intros Hn Hi; [destruct Hi|]. inversion Hn as [|? ? Hn1 Hn2]; subst.
  destruct Hi as [Hi|Hi]; [injection Hi as -> ->; rewrite bytes_eqb_refl; reflexivity|].
  destruct (bytes_eqb k' k) eqn:E; [|auto]. apply bytes_eqb_eq in E. subst. exfalso. apply Hn1. apply in_map_iff. exists (k, x). auto.
Qed.
Lemma assoc_perm k l l' : NoDup (map fst l) -> Permutation l l' -> assoc k l = assoc k l'.
Proof.
  intros Hn Hp. assert (Hn' : NoDup (map fst l')) by (eapply Permutation_NoDup; [apply Permutation_map; exact Hp|exact Hn]).
  destruct (assoc k l) as [x|] eqn:E.
  - apply assoc_In in E. symmetry. apply assoc_in_nodup; [exact Hn'|]. eapply Permutation_in; eauto.
  - destruct (assoc k l') as [x|] eqn:E'; [|reflexivity]. apply assoc_In in E'.
    rewrite (assoc_in_nodup k x l Hn) in E; [discriminate|]. eapply Permutation_in; [apply Permutation_sym; exact Hp|exact E'].
Qed.

Lemma bt_get_entries T sk k : own T k -> sk_in T sk -> forall m l, Forall2 (entry T sk) m l -> StronglySorted before m ->
  match assoc k l with
  | Some x => exists s, bt_get (encode_key sk k) m = Some s /\ shows T s x
  | None => bt_get (encode_key sk k) m = None
  end.
Proof.
  intros Ho Hs. induction 1 as [|[mk s] [k' x] m l [[H1 H2] H3] Hf IH]; intros Hm; cbn [assoc bt_get]; [reflexivity|].
  cbn in H1, H2, H3. subst mk. inversion Hm as [|? ? Hm' Hb]; subst. destruct (mkey_cmp (encode_key sk k) (encode_key sk k')) eqn:E.
  - apply mkey_Eq in E. apply (own_inj T sk) in E; auto. subst k'. rewrite bytes_eqb_refl. eauto.
  - destruct (bytes_eqb k' k) eqn:E2; [apply bytes_eqb_eq in E2; subst; rewrite mkey_refl in E; discriminate|].
    rewrite assoc_absent; [reflexivity|]. intros Hi. apply in_map_iff in Hi as ([k2 y] & Ek & Hi). cbn in Ek. subst k2.
    destruct (entries_key _ _ _ _ _ _ Hf Hi) as [s' Hi']. rewrite Forall_forall in Hb. specialize (Hb _ Hi'). unfold before in Hb. cbn in Hb.
    pose proof (mkey_trans _ _ _ E Hb) as Hc. rewrite mkey_refl in Hc. discriminate.
  - destruct (bytes_eqb k' k) eqn:E2; [apply bytes_eqb_eq in E2; subst; rewrite mkey_refl in E; discriminate|]. exact (IH Hm').
Qed.

Lemma bt_insert_in k s m a : In a (bt_insert k s m) -> a = (k, s) \/ (exists s', In (fst a, s') m).
Proof.
  induction m as [|[k' s'] m IH]; cbn [bt_insert]; intros H.
  - destruct H as [<-|[]]. auto.
  - destruct (mkey_cmp k k') eqn:E.
    + apply mkey_Eq in E. subst k'. destruct H as [<-|H]; [auto|]. right. destruct a as [ka sa]. exists sa. right; exact H.
    + destruct H as [<-|H]; [auto|]. right. destruct a as [ka sa]. exists sa. exact H.
    + destruct H as [<-|H]; [right; exists s'; left; reflexivity|]. destruct (IH H) as [->|[s2 H2]]; [auto|]. right. exists s2. right; exact H2.
Qed.
Lemma bt_insert_sorted k s m : StronglySorted before m -> StronglySorted before (bt_insert k s m).
Proof.
  induction 1 as [|[k' s'] m Hm IH Hb]; cbn [bt_insert]; [repeat constructor|].
  destruct (mkey_cmp k k') eqn:E.
  - apply mkey_Eq in E. subst k'. constructor; [exact Hm|]. exact Hb.
  - constructor; [constructor; assumption|]. constructor; [exact E|]. eapply Forall_impl; [|exact Hb].
    intros a Ha. unfold before in *. cbn in *. eapply mkey_trans; eauto.
  - constructor; [exact IH|]. rewrite Forall_forall in *. intros a Ha. unfold before. cbn [fst].
    destruct (bt_insert_in _ _ _ _ Ha) as [->|[s2 H2]].
    + cbn. rewrite mkey_sym, E. reflexivity.
    + specialize (Hb _ H2). exact Hb.
Qed.
Lemma bt_remove_in k m a : In a (bt_remove k m) -> In a m.
Proof.
  induction m as [|[k' s'] m IH]; cbn [bt_remove]; [auto|]. destruct (mkey_cmp k k'); intros H; [right; exact H|exact H|].
  destruct H as [H|H]; [left; exact H|right; auto].
Qed.
Lemma bt_remove_sorted k m : StronglySorted before m -> StronglySorted before (bt_remove k m).
Proof.
  induction 1 as [|[k' s'] m Hm IH Hb]; cbn [bt_remove]; [constructor|].
  destruct (mkey_cmp k k') eqn:E; [exact Hm|constructor; assumption|]. constructor; [exact IH|].
  rewrite Forall_forall in *. intros a Ha. apply Hb. eapply bt_remove_in; eauto.
Qed.

Lemma drop_none k l : ~ In k (map fst l) -> drop_key k l = l.
Proof.
  unfold drop_key. induction l as [|[k' x] l IH]; cbn [filter map fst]; intros H; [reflexivity|].
  destruct (bytes_eqb k' k) eqn:E; [apply bytes_eqb_eq in E; exfalso; apply H; left; exact E|]. cbn. f_equal. apply IH. intros Hi; apply H; right; exact Hi.
Qed.
Lemma drop_cons k k' x l : drop_key k ((k', x) :: l) = if bytes_eqb k' k then drop_key k l else (k', x) :: drop_key k l.
Proof. unfold drop_key. cbn [filter fst]. destruct (bytes_eqb k' k); reflexivity. Qed.

(** A sorted map has no entry below its first. *)
Lemma entries_absent T sk k k' s x m l : mkey_cmp (encode_key sk k) (encode_key sk k') = Lt ->
  Forall2 (entry T sk) m l -> Forall (before (encode_key sk k', s)) m -> ~ In k (map fst ((k', x) :: l)).
Proof.
  intros E Hf Hb Hi. cbn [map fst] in Hi. destruct Hi as [Hi|Hi]; [subst; rewrite mkey_refl in E; discriminate|].
  apply in_map_iff in Hi as ([k2 y] & Ek & Hi). cbn in Ek. subst k2.
  destruct (entries_key _ _ _ _ _ _ Hf Hi) as [s' Hi']. rewrite Forall_forall in Hb. specialize (Hb _ Hi'). unfold before in Hb. cbn in Hb.
  pose proof (mkey_trans _ _ _ E Hb) as Hc. rewrite mkey_refl in Hc. discriminate.
Qed.

Lemma bt_remove_entries T sk k : own T k -> sk_in T sk -> forall m l, Forall2 (entry T sk) m l -> StronglySorted before m ->
  Forall2 (entry T sk) (bt_remove (encode_key sk k) m) (drop_key k l).
Proof.
  intros Ho Hs. induction 1 as [|[mk s] [k' x] m l [[H1 H2] H3] Hf IH]; intros Hm; [constructor|].
  cbn [bt_remove]. rewrite drop_cons. cbn in H1, H2, H3. subst mk. pose proof Hm as Hm0. inversion Hm as [|? ? Hm' Hb]; subst.
  assert (He' : entry T sk (encode_key sk k', s) (k', x)) by (split; [split; [reflexivity|]|]; assumption).
  pose proof (entries_nodup T sk _ ((k', x) :: l) Hs ltac:(constructor; [exact He'|exact Hf]) Hm0) as Hn.
  inversion Hn as [|? ? Hn1 Hn2]; subst.
  destruct (mkey_cmp (encode_key sk k) (encode_key sk k')) eqn:E.
  - apply mkey_Eq in E. apply (own_inj T sk) in E; auto. subst k'. rewrite bytes_eqb_refl, drop_none by exact Hn1. exact Hf.
  - pose proof (entries_absent T sk k k' s x m l E Hf Hb) as Hna. cbn [map fst] in Hna.
    destruct (bytes_eqb k' k) eqn:E2; [apply bytes_eqb_eq in E2; exfalso; apply Hna; left; exact E2|].
    rewrite drop_none by (intros Hi; apply Hna; right; exact Hi). constructor; [split; [split; [reflexivity|]|]; assumption|exact Hf].
  - destruct (bytes_eqb k' k) eqn:E2; [apply bytes_eqb_eq in E2; subst; rewrite mkey_refl in E; discriminate|].
    constructor; [split; [split; [reflexivity|]|]; assumption|auto].
Qed.

Lemma bt_insert_entries T sk k s x : own T k -> sk_in T sk -> shows T s x -> forall m l, Forall2 (entry T sk) m l -> StronglySorted before m ->
  exists l', Forall2 (entry T sk) (bt_insert (encode_key sk k) s m) l' /\ Permutation ((k, x) :: drop_key k l) l'.
Proof.
  intros Ho Hs Hx. assert (He : entry T sk (encode_key sk k, s) (k, x)) by (split; [split; [reflexivity|]|]; assumption).
  induction 1 as [|[mk s'] [k' y] m l [[H1 H2] H3] Hf IH]; intros Hm.
  { eexists. split; [cbn [bt_insert]; constructor; [exact He|constructor]|apply Permutation_refl]. }
  cbn [bt_insert]. rewrite drop_cons. cbn in H1, H2, H3. subst mk. pose proof Hm as Hm0. inversion Hm as [|? ? Hm' Hb]; subst.
  assert (He' : entry T sk (encode_key sk k', s') (k', y)) by (split; [split; [reflexivity|]|]; assumption).
  pose proof (entries_nodup T sk _ ((k', y) :: l) Hs ltac:(constructor; [exact He'|exact Hf]) Hm0) as Hn.
  inversion Hn as [|? ? Hn1 Hn2]; subst.
  destruct (mkey_cmp (encode_key sk k) (encode_key sk k')) eqn:E.
  - apply mkey_Eq in E. apply (own_inj T sk) in E; auto. subst k'. rewrite bytes_eqb_refl, drop_none by exact Hn1.
    eexists. split; [constructor; [exact He|exact Hf]|apply Permutation_refl].
  - pose proof (entries_absent T sk k k' s' y m l E Hf Hb) as Hna. cbn [map fst] in Hna.
    destruct (bytes_eqb k' k) eqn:E2; [apply bytes_eqb_eq in E2; exfalso; apply Hna; left; exact E2|].
    rewrite drop_none by (intros Hi; apply Hna; right; exact Hi).
    eexists. split; [constructor; [exact He|constructor; [exact He'|exact Hf]]|apply Permutation_refl].
  - destruct (bytes_eqb k' k) eqn:E2; [apply bytes_eqb_eq in E2; subst; rewrite mkey_refl in E; discriminate|].
    destruct (IH Hm') as (l' & Hl & Hp). exists ((k', y) :: l'). split; [constructor; assumption|].
    eapply Permutation_trans; [apply perm_swap|]. apply perm_skip. exact Hp.
Qed.

Lemma drop_perm k l l' : Permutation l l' -> Permutation (drop_key k l) (drop_key k l').
Proof.
  induction 1 as [|[k1 x1] l l' H IH|[k1 x1] [k2 x2] l|l l' l'' H1 IH1 H2 IH2].
  - constructor.
  - rewrite !drop_cons. destruct (bytes_eqb k1 k); [exact IH|apply perm_skip; exact IH].
  - rewrite !drop_cons. destruct (bytes_eqb k1 k), (bytes_eqb k2 k); try apply Permutation_refl. apply perm_swap.
  - eapply Permutation_trans; eauto.
Qed.
Lemma put_perm k x l : NoDup (map fst l) -> Permutation (put k x l) ((k, x) :: drop_key k l).
Proof.
  induction l as [|[k' y] l IH]; cbn [put map fst]; intros Hn; [apply Permutation_refl|]. inversion Hn as [|? ? Hn1 Hn2]; subst.
  rewrite drop_cons. destruct (bytes_eqb k' k) eqn:E.
  - apply bytes_eqb_eq in E. subst k'. rewrite drop_none by exact Hn1. apply Permutation_refl.
  - eapply Permutation_trans; [apply perm_skip, IH, Hn2|]. apply perm_swap.
Qed.

Lemma shows_dict T m sk t : shows T (SDict m sk) t -> exists l l', t = TDict l /\ Permutation l l' /\ Forall2 (entry T sk) m l' /\
  StronglySorted before m /\ sk_in T sk /\ NoDup (map fst l).
Proof.
  inversion 1 as [| | |m0 sk0 l l' Hp Hf Hs Hk]; subst. exists l, l'. split; [reflexivity|]. split; [exact Hp|]. split; [exact Hf|].
  split; [exact Hs|]. split; [exact Hk|]. eapply Permutation_NoDup; [apply Permutation_map, Permutation_sym; exact Hp|].
  eapply entries_nodup; eauto.
Qed.
Lemma dict_shows T m sk l l' : Permutation l l' -> Forall2 (entry T sk) m l' -> StronglySorted before m -> sk_in T sk -> shows T (SDict m sk) (TDict l).
Proof. intros. eapply sh_dict; eauto. Qed.

Lemma insert_shows T m sk l k s x : own T k -> shows T s x -> shows T (SDict m sk) (TDict l) ->
  shows T (SDict (bt_insert (encode_key sk k) s m) sk) (TDict (put k x l)).
Proof.
  intros Ho Hx H. destruct (shows_dict _ _ _ _ H) as (l0 & l' & E & Hp & Hf & Hs & Hk & Hn). injection E as <-.
  destruct (bt_insert_entries T sk k s x Ho Hk Hx m l' Hf Hs) as (l2 & Hf2 & Hp2).
  eapply dict_shows; [|exact Hf2|apply bt_insert_sorted; exact Hs|exact Hk].
  eapply Permutation_trans; [apply put_perm; exact Hn|]. eapply Permutation_trans; [|exact Hp2]. apply perm_skip, drop_perm, Hp.
Qed.
Lemma remove_shows T m sk l k : own T k -> shows T (SDict m sk) (TDict l) ->
  shows T (SDict (bt_remove (encode_key sk k) m) sk) (TDict (drop_key k l)).
Proof.
  intros Ho H. destruct (shows_dict _ _ _ _ H) as (l0 & l' & E & Hp & Hf & Hs & Hk & Hn). injection E as <-.
  eapply dict_shows; [apply drop_perm; exact Hp|apply bt_remove_entries; assumption|apply bt_remove_sorted; exact Hs|exact Hk].
Qed.
Lemma get_shows T m sk l k : own T k -> shows T (SDict m sk) (TDict l) ->
  match assoc k l with
  | Some x => exists s, md_slot m sk k = Some s /\ shows T s x
  | None => md_slot m sk k = None
  end.
Proof.
  intros Ho H. destruct (shows_dict _ _ _ _ H) as (l0 & l' & E & Hp & Hf & Hs & Hk & Hn). injection E as <-.
  rewrite (assoc_perm k l l' Hn Hp). apply (bt_get_entries T sk k Ho Hk m l' Hf Hs).
Qed.

(* ---------- lists ---------- *)

Lemma list_set_at {A} (x : A) : forall l i, 0 <= i < lenZ l -> list_set l i x = set_at (Z.to_nat i) x l.
Proof.
  unfold list_set. intros l i Hi. remember (Z.to_nat i) as n eqn:E. assert (Hn : (n < length l)%nat) by (unfold lenZ in Hi; lia). clear - Hn.
  revert l Hn. induction n as [|n IH]; intros [|y l] Hn; cbn [length] in Hn; try lia; [reflexivity|].
  change (y :: (firstn n l ++ x :: skipn (S n) l) = y :: set_at n x l). f_equal. apply IH. lia.
Qed.
Lemma list_remove_at {A} : forall (l : list A) i, 0 <= i -> (if lenZ l <=? i then l else list_remove l i) = del_at (Z.to_nat i) l.
Proof.
  unfold list_remove. intros l i Hi. assert (E : (lenZ l <=? i) = (Nat.leb (length l) (Z.to_nat i))) by (unfold lenZ; destruct (Nat.leb_spec (length l) (Z.to_nat i)); lia).
  rewrite E. clear E Hi. generalize (Z.to_nat i). clear i. intros n. revert n. induction l as [|y l IH]; intros [|n]; try reflexivity.
  - cbn [length Nat.leb]. specialize (IH n). change (if Nat.leb (length l) n then y :: l else y :: (firstn n l ++ skipn (S n) l)) with
      (if Nat.leb (length l) n then y :: l else y :: (firstn n l ++ skipn (S n) l)). cbn [del_at]. rewrite <- IH. destruct (Nat.leb (length l) n); reflexivity.
Qed.
Lemma set_at_F2 {A B} (R : A -> B -> Prop) x y : R x y -> forall l m, Forall2 R l m -> forall n, Forall2 R (set_at n x l) (set_at n y m).
Proof. intros Hxy. induction 1 as [|a b l m H Hf IH]; intros [|n]; cbn [set_at]; constructor; try assumption; apply IH. Qed.
Lemma del_at_F2 {A B} (R : A -> B -> Prop) : forall l m, Forall2 R l m -> forall n, Forall2 R (del_at n l) (del_at n m).
Proof. induction 1 as [|a b l m H Hf IH]; intros [|n]; cbn [del_at]; try assumption; constructor; try assumption; apply IH. Qed.
Lemma F2_len {A B} (R : A -> B -> Prop) l m : Forall2 R l m -> lenZ l = lenZ m.
Proof. induction 1; [reflexivity|]. rewrite !lenZ_cons. lia. Qed.
Lemma F2_nth {A B} (R : A -> B -> Prop) l m : Forall2 R l m -> forall i,
  match nthZ m i with Some y => exists x, nthZ l i = Some x /\ R x y | None => nthZ l i = None end.
Proof.
  intros H i. destruct (nthZ m i) as [y|] eqn:E.
  - pose proof (nthZ_Some _ _ _ E) as Hr. revert i E Hr. induction H as [|a b l m Hab H IH]; intros i E Hr; [cbn in Hr; lia|].
    destruct (Z.eq_dec i 0) as [->|Hi].
    + rewrite nthZ_cons_0 in *. injection E as <-. eauto.
    + rewrite nthZ_cons_S by lia. rewrite nthZ_cons_S in E by lia. apply IH; [exact E|]. rewrite lenZ_cons in Hr. lia.
  - apply nthZ_None in E. apply nthZ_None. rewrite (F2_len _ _ _ H). exact E.
Qed.
Lemma shows_arr T l t : shows T (SArr l) t -> exists ts, t = TArr ts /\ Forall2 (shows T) l ts.
Proof. inversion 1; subst. eauto. Qed.

(* ---------- copying from Fleece ---------- *)

Lemma empty_dict T sk : sk_in T sk -> shows T (SDict [] sk) (TDict []).
Proof. intros H. eapply dict_shows; [apply Permutation_refl|constructor|constructor|exact H]. Qed.
Lemma put_fresh k x l : ~ In k (map fst l) -> put k x l = l ++ [(k, x)].
Proof.
  induction l as [|[k' y] l IH]; cbn [put map fst app]; intros H; [reflexivity|].
  destruct (bytes_eqb k' k) eqn:E; [apply bytes_eqb_eq in E; exfalso; apply H; left; exact E|]. f_equal. apply IH. intros Hi; apply H; right; exact Hi.
Qed.
Lemma fold_insert T sk : forall kss es, Forall2 (fun a b => fst a = fst b /\ shows T (snd a) (snd b)) kss es ->
  Forall (fun b => own T (fst b)) es -> forall m l0, NoDup (map fst (l0 ++ es)) -> shows T (SDict m sk) (TDict l0) ->
  shows T (SDict (fold_left (fun m ks => bt_insert (encode_key sk (fst ks)) (snd ks) m) kss m) sk) (TDict (l0 ++ es)).
Proof.
  induction 1 as [|[k s] [k' x] kss es [H1 H2] Hf IH]; intros Ho m l0 Hn Hm; cbn [fold_left].
  - rewrite app_nil_r. exact Hm.
  - cbn [fst snd] in *. subst k'. inversion Ho as [|? ? Ho1 Ho2]; subst. cbn [fst] in Ho1.
    replace (l0 ++ (k, x) :: es) with ((l0 ++ [(k, x)]) ++ es) in * by (rewrite <- app_assoc; reflexivity).
    apply IH; [exact Ho2|exact Hn|]. rewrite <- put_fresh.
    + apply insert_shows; assumption.
    + rewrite <- app_assoc, map_app in Hn. apply NoDup_remove_2 in Hn. intros Hi. apply Hn. apply in_or_app. left. exact Hi.
Qed.

Lemma int_wf e v z : value_type e v = Ret TyInt -> to_int e v = Ret z -> wf_enc (EInt I64 z).
Proof.
  intros Ht H. unfold to_int in H. rewrite Ht in H. cbn [bind] in H. cbn [wf_enc ity_min ity_max].
  unfold int_payload in H. repeat (match type of H with bind ?m _ = _ => destruct m eqn:?Em; try discriminate; cbn [bind] in H end).
  repeat (match type of H with context [if ?b then _ else _] => destruct b eqn:? end; try discriminate);
  repeat (match type of H with bind ?m _ = _ => destruct m eqn:?Em; try discriminate; cbn [bind] in H end); apply ret_inj in H; subst z;
  match goal with |- context [wrap_i64 ?a] => pose proof (wrap_i64_range a) end; lia.
Qed.
Lemma short_wf e v z : value_type e v = Ret TyShort -> to_short e v = Ret z -> wf_enc (EInt I16 z) /\ to_int e v = Ret z.
Proof.
  intros Ht H. unfold to_short in H. unfold to_int. rewrite Ht in *. cbn [bind] in *. split; [|exact H].
  destruct (get_short e v); try discriminate. cbn [bind] in H. apply ret_inj in H. subst z. cbn. pose proof (short_range a). lia.
Qed.
Lemma uint_wf e v z : to_unsigned_int e v = Ret z -> wf_enc (EInt U64 z).
Proof.
  intros H. unfold to_unsigned_int in H. destruct (to_int e v); try discriminate. cbn [bind] in H. apply ret_inj in H. subst z.
  cbn. unfold wrap_u64, two64. lia.
Qed.

Lemma distinct_arr l : distinct (TArr l) -> Forall distinct l.
Proof. inversion 1; assumption. Qed.
Lemma keys_arr P l : keys_all P (TArr l) -> Forall (keys_all P) l.
Proof. inversion 1 as [? Hs| |]; subst; [discriminate Hs|assumption]. Qed.
Lemma distinct_dict l : distinct (TDict l) -> NoDup (map fst l) /\ Forall (fun kt => distinct (snd kt)) l.
Proof. inversion 1; auto. Qed.
Lemma keys_dict P l : keys_all P (TDict l) -> Forall (fun kt => P (fst kt) /\ keys_all P (snd kt)) l.
Proof. inversion 1 as [? Hs| |]; subst; [discriminate Hs|assumption]. Qed.

Lemma elems_wide e v vs : arr_elems e v = Ret vs -> exists w, arr_is_wide e v = Ret w.
Proof.
  unfold arr_elems, arr_iter. destruct (arr_len e v); try discriminate. cbn [bind]. destruct (arr_is_wide e v); try discriminate. eauto.
Qed.
Lemma entries_wide e v vs : dict_elems e v = Ret vs -> exists w, arr_is_wide e v = Ret w.
Proof.
  unfold dict_elems, arr_iter. destruct (arr_len e v); try discriminate. cbn [bind]. destruct (arr_is_wide e v); try discriminate. eauto.
Qed.

Lemma kept_app a b : Forall kept (a ++ b) -> Forall kept a /\ Forall kept b.
Proof. apply Forall_app. Qed.

Lemma from_fleece_shows T dbg src : src_ok src -> sk_in T (e_sk src) -> forall f v t calls,
  read_tree f src v = Ret t -> value_calls f src v = Ret calls -> Forall kept calls -> distinct t -> keys_all (own T) t ->
  forall w, exists s, slot_from_fleece f dbg src v w = Ret s /\ shows T s t.
Proof.
  intros Hsrc Hsk. induction f as [|f IH]; intros v t calls Hr Hc Hk Hd Ho w; cbn [read_tree value_calls slot_from_fleece] in *; [discriminate|].
  destruct (value_type src v) as [ty| | |] eqn:Et; try discriminate. cbn [bind] in *.
  assert (Hnew : forall x, wf_enc x -> calls = [OpValue x] -> t = tree_of x -> exists s, slot_new dbg x = Ret s /\ shows T s t).
  { intros x Hw -> ->. inversion Hk as [|? ? Hkx _]; subst. cbn in Hkx. destruct (slot_new_shows T dbg x _ Hw Hkx) as (s & H1 & H2 & _). eauto. }
  destruct ty; try discriminate.
  - apply ret_inj in Hr, Hc. apply Hnew; auto. exact I.
  - apply ret_inj in Hr, Hc. apply Hnew; auto. exact I.
  - assert (Hb : to_bool src v = Ret false) by (unfold to_bool; rewrite Et; reflexivity). rewrite Hb in Hr. cbn [bind] in Hr.
    apply ret_inj in Hr, Hc. apply Hnew; auto. exact I.
  - assert (Hb : to_bool src v = Ret true) by (unfold to_bool; rewrite Et; reflexivity). rewrite Hb in Hr. cbn [bind] in Hr.
    apply ret_inj in Hr, Hc. apply Hnew; auto. exact I.
  - (* short *)
    destruct (to_short src v) as [z| | |] eqn:Ez; try discriminate. cbn [bind] in *. destruct (short_wf _ _ _ Et Ez) as [Hw Hi].
    rewrite Hi in Hr. cbn [bind] in Hr. apply ret_inj in Hr, Hc. apply Hnew; auto.
  - (* int *)
    destruct (to_int src v) as [z| | |] eqn:Ez; try discriminate. cbn [bind] in *. apply ret_inj in Hr, Hc.
    apply Hnew; auto. eapply int_wf; eauto.
  - (* unsigned *)
    destruct (to_unsigned_int src v) as [z| | |] eqn:Ez; try discriminate. cbn [bind] in *. apply ret_inj in Hr, Hc.
    apply Hnew; auto. eapply uint_wf; eauto.
  - (* float *)
    destruct (to_float src v) as [x| | |] eqn:Ez; try discriminate. cbn [bind] in *. apply ret_inj in Hr, Hc.
    unfold to_float in Ez. destruct (to_double src v) as [d| | |]; try discriminate. cbn [bind] in Ez. apply ret_inj in Ez.
    apply Hnew; auto; [subst x; cbn; apply f32_range|]. subst. cbn [tree_of]. rewrite f32_quiet. reflexivity.
  - destruct (to_double src v) as [x| | |] eqn:Ez; try discriminate. cbn [bind] in *. apply ret_inj in Hr, Hc.
    apply Hnew; auto. cbn. eapply (double_range src v x TyDouble32); auto. apply Hsrc.
  - destruct (to_double src v) as [x| | |] eqn:Ez; try discriminate. cbn [bind] in *. apply ret_inj in Hr, Hc.
    apply Hnew; auto. cbn. eapply (double_range src v x TyDouble64); auto. apply Hsrc.
  - destruct (to_str src v) as [s| | |] eqn:Es; try discriminate. cbn [bind] in *. apply ret_inj in Hr, Hc.
    apply Hnew; auto. eapply to_str_wf; eauto.
  - destruct (to_data src v) as [s| | |] eqn:Es; try discriminate. cbn [bind] in *. apply ret_inj in Hr, Hc.
    apply Hnew; auto. eapply to_data_wf; eauto.
  - (* array *)
    destruct (arr_elems src v) as [vs| | |] eqn:Ev; try discriminate. destruct (elems_wide _ _ _ Ev) as [wd Ew]. rewrite Ew. cbn [bind] in *.
    destruct (arr_len src v) as [n| | |]; try discriminate. cbn [bind] in *.
    destruct (mapM (read_tree f src) vs) as [ts| | |] eqn:Ets; try discriminate. cbn [bind] in *. apply ret_inj in Hr. subst t.
    destruct (mapM (value_calls f src) vs) as [cs| | |] eqn:Ecs; try discriminate. cbn [bind] in *. apply ret_inj in Hc. subst calls.
    inversion Hk as [|? ? _ Hk']; subst. apply kept_app in Hk' as [Hk' _]. apply distinct_arr in Hd. apply keys_arr in Ho.
    assert (G : exists l, mapM (fun x => slot_from_fleece f dbg src x wd) vs = Ret l /\ Forall2 (shows T) l ts).
    { clear Ev Hk Hnew. revert ts cs Ets Ecs Hk' Hd Ho. induction vs as [|x vs IHv]; intros ts cs Ets Ecs Hk' Hd Ho; cbn [mapM] in *.
      - apply ret_inj in Ets. subst. eauto.
      - destruct (read_tree f src x) as [t1| | |] eqn:E1; try discriminate. cbn [bind] in *.
        destruct (mapM (read_tree f src) vs) as [ts1| | |]; try discriminate. cbn [bind] in *. apply ret_inj in Ets. subst ts.
        destruct (value_calls f src x) as [c1| | |] eqn:E2; try discriminate. cbn [bind] in *.
        destruct (mapM (value_calls f src) vs) as [cs1| | |]; try discriminate. cbn [bind] in *. apply ret_inj in Ecs. subst cs.
        cbn [concat] in Hk'. apply kept_app in Hk' as [Hk1 Hk2]. inversion Hd; subst. inversion Ho; subst.
        destruct (IH x t1 c1 E1 E2 Hk1 ltac:(assumption) ltac:(assumption) wd) as (s1 & Hs1 & Hs2). rewrite Hs1. cbn [bind].
        destruct (IHv ts1 cs1 eq_refl eq_refl Hk2 ltac:(assumption) ltac:(assumption)) as (l & Hl1 & Hl2). rewrite Hl1. cbn [bind].
        eexists. split; [reflexivity|]. constructor; assumption. }
    destruct G as (l & Hl & Hf). rewrite Hl. cbn [bind]. eexists. split; [reflexivity|]. constructor. exact Hf.
  - (* dict *)
    destruct (dict_elems src v) as [kvs| | |] eqn:Ev; try discriminate. destruct (entries_wide _ _ _ Ev) as [wd Ew]. rewrite Ew. cbn [bind] in *.
    match type of Hr with bind (mapM ?g kvs) _ = _ => destruct (mapM g kvs) as [ts| | |] eqn:Ets; try discriminate end. cbn [bind] in *. apply ret_inj in Hr. subst t.
    match type of Hc with bind (mapM ?g kvs) _ = _ => destruct (mapM g kvs) as [cs| | |] eqn:Ecs; try discriminate end. cbn [bind] in *. apply ret_inj in Hc. subst calls.
    inversion Hk as [|? ? _ Hk']; subst. apply kept_app in Hk' as [Hk' _]. apply distinct_dict in Hd as [Hn Hd]. apply keys_dict in Ho.
    assert (G : exists l, mapM (fun kv => s <- slot_from_fleece f dbg src (snd kv) wd ;; Ret (fst kv, s)) kvs = Ret l /\
      Forall2 (fun a b => fst a = fst b /\ shows T (snd a) (snd b)) l ts).
    { clear Ev Hn Hk Hnew. revert ts cs Ets Ecs Hk' Hd Ho. induction kvs as [|[k x] kvs IHv]; intros ts cs Ets Ecs Hk' Hd Ho; cbn [mapM fst snd] in *.
      - apply ret_inj in Ets. subst. eauto.
      - destruct (read_tree f src x) as [t1| | |] eqn:E1; try discriminate. cbn [bind] in *.
        match type of Ets with bind (mapM ?g kvs) _ = _ => destruct (mapM g kvs) as [ts1| | |]; try discriminate end. cbn [bind] in *. apply ret_inj in Ets. subst ts.
        destruct (value_calls f src x) as [c1| | |] eqn:E2; try discriminate. cbn [bind] in *.
        match type of Ecs with bind (mapM ?g kvs) _ = _ => destruct (mapM g kvs) as [cs1| | |]; try discriminate end. cbn [bind] in *. apply ret_inj in Ecs. subst cs.
        cbn [concat] in Hk'. apply kept_app in Hk' as [Hk1 Hk2]. inversion Hk1 as [|? ? _ Hk1']; subst. inversion Hd as [|? ? Hd1 Hd2]; subst. inversion Ho as [|? ? Ho1 Ho2]; subst.
        destruct (IH x t1 c1 E1 E2 Hk1' Hd1 (proj2 Ho1) wd) as (s1 & Hs1 & Hs2). rewrite Hs1. cbn [bind].
        destruct (IHv ts1 cs1 eq_refl eq_refl Hk2 Hd2 Ho2) as (l & Hl1 & Hl2). rewrite Hl1. cbn [bind].
        eexists. split; [reflexivity|]. constructor; [split; [reflexivity|exact Hs2]|exact Hl2]. }
    destruct G as (l & Hl & Hf). rewrite Hl. cbn [bind]. eexists. split; [reflexivity|].
    apply (fold_insert T (e_sk src) l ts Hf) with (m := []) (l0 := []).
    + eapply Forall_impl; [|exact Ho]. intros a Ha. apply Ha.
    + exact Hn.
    + apply empty_dict. exact Hsk.
Qed.

Lemma holdable_shows T dbg src v t : holdable T src v t ->
  exists s, slot_from_fleece (fuel_of src) dbg src v false = Ret s /\ shows T s t.
Proof.
  intros (H1 & H2 & H3 & H4 & H5 & calls & H6 & H7). eapply from_fleece_shows; eauto.
Qed.

(* ---------- one call, and programs ---------- *)

Definition simulated {A B} (R : A -> B -> Prop) (x : outcome (option A)) (y : outcome (option B)) : Prop :=
  match y with
  | Ret (Some b) => exists a, x = Ret (Some a) /\ R a b
  | Ret None => x = Ret None
  | Panic => x = Panic
  | _ => False
  end.

Lemma replace_sim T l ts i s x : 0 <= i -> Forall2 (shows T) l ts -> shows T s x ->
  simulated (shows T) (l' <- ma_replace l i s ;; Ret (Some (SArr l')))
    (if i <? lenZ ts then Ret (Some (TArr (set_at (Z.to_nat i) x ts))) else Panic).
Proof.
  intros Hi Hf Hx. unfold ma_replace. rewrite (F2_len _ _ _ Hf). destruct (0 <=? i) eqn:E0; [|lia]. cbn [andb].
  destruct (i <? lenZ ts) eqn:E; cbn [bind simulated]; [|reflexivity]. eexists. split; [reflexivity|]. constructor.
  rewrite list_set_at by (rewrite (F2_len _ _ _ Hf); lia). apply set_at_F2; assumption.
Qed.

Lemma apply_sim T dbg s t o o' : shows T s t -> means T o o' -> simulated (shows T) (mop_apply dbg o s) (sop_apply o' t).
Proof.
  intros Hs Hm. destruct s as [bs|bs|l|m sk].
  - inversion Hs as [? ? Hsc Hr| | |]; subst. destruct t; try discriminate Hsc; reflexivity.
  - inversion Hs as [|? ? Hsc Hr| |]; subst. destruct t; try discriminate Hsc; reflexivity.
  - apply shows_arr in Hs as (ts & -> & Hf).
    destruct Hm; cbn [mop_apply sop_apply]; try reflexivity.
    + destruct (slot_new_shows T dbg v x ltac:(assumption) ltac:(assumption)) as (s & E & Hx & _). unfold ma_push. rewrite E. cbn.
      eexists. split; [reflexivity|]. constructor. apply Forall2_app; [exact Hf|]. constructor; [exact Hx|constructor].
    + destruct (holdable_shows T dbg src v x ltac:(assumption)) as (s & E & Hx). unfold ma_push_fleece. rewrite E. cbn [bind simulated].
      eexists. split; [reflexivity|]. constructor. apply Forall2_app; [exact Hf|]. constructor; [exact Hx|constructor].
    + destruct (slot_new_shows T dbg v x ltac:(assumption) ltac:(assumption)) as (s & E & Hx & _). unfold ma_set. rewrite E. cbn [bind].
      apply replace_sim; assumption.
    + destruct (holdable_shows T dbg src v x ltac:(assumption)) as (s & E & Hx). unfold ma_set_fleece. rewrite E. cbn [bind].
      apply replace_sim; assumption.
    + apply replace_sim; assumption.
    + apply replace_sim; assumption.
    + cbn [simulated]. eexists. split; [reflexivity|]. constructor. unfold ma_remove. rewrite list_remove_at by assumption. apply del_at_F2. exact Hf.
  - destruct (shows_dict _ _ _ _ Hs) as (es & _ & -> & _).
    destruct Hm; cbn [mop_apply sop_apply]; try reflexivity.
    + destruct (slot_new_shows T dbg v x ltac:(assumption) ltac:(assumption)) as (s & E & Hx & _). unfold md_insert. rewrite E. cbn [bind simulated].
      eexists. split; [reflexivity|]. apply insert_shows; assumption.
    + cbn [simulated]. eexists. split; [reflexivity|]. apply insert_shows; assumption.
    + cbn [simulated]. eexists. split; [reflexivity|]. apply insert_shows; assumption.
    + cbn [simulated]. eexists. split; [reflexivity|]. apply remove_shows; assumption.
Qed.

Lemma at_sim T dbg o o' : means T o o' -> forall p s t, own_path T p -> shows T s t ->
  simulated (shows T) (mop_at dbg p o s) (sop_at p o' t).
Proof.
  intros Hm. induction p as [|st p IH]; intros s t Hp Hs; [apply apply_sim; assumption|].
  inversion Hp as [|? ? Hst Hp']; subst. destruct st as [i|k]; cbn [mop_at sop_at].
  - destruct s as [bs|bs|l|m sk].
    + inversion Hs as [? ? Hsc Hr| | |]; subst. destruct t; try discriminate Hsc; reflexivity.
    + inversion Hs as [|? ? Hsc Hr| |]; subst. destruct t; try discriminate Hsc; reflexivity.
    + apply shows_arr in Hs as (ts & -> & Hf). pose proof (F2_nth _ _ _ Hf i) as Hi. unfold ma_slot.
      destruct (nthZ ts i) as [x|] eqn:Ex; [|rewrite Hi; reflexivity]. destruct Hi as (y & Ey & Hy). rewrite Ey.
      specialize (IH y x Hp' Hy). apply nthZ_Some in Ex.
      destruct (sop_at p o' x) as [[x'|]| | |]; cbn [simulated bind] in *; try contradiction.
      * destruct IH as (y' & Ey' & Hy'). rewrite Ey'. cbn [bind]. eexists. split; [reflexivity|]. constructor.
        rewrite list_set_at by (rewrite (F2_len _ _ _ Hf); lia). apply set_at_F2; assumption.
      * rewrite IH. reflexivity.
      * rewrite IH. reflexivity.
    + destruct (shows_dict _ _ _ _ Hs) as (es & _ & -> & _). reflexivity.
  - destruct s as [bs|bs|l|m sk].
    + inversion Hs as [? ? Hsc Hr| | |]; subst. destruct t; try discriminate Hsc; reflexivity.
    + inversion Hs as [|? ? Hsc Hr| |]; subst. destruct t; try discriminate Hsc; reflexivity.
    + apply shows_arr in Hs as (ts & -> & Hf). reflexivity.
    + destruct (shows_dict _ _ _ _ Hs) as (es & _ & -> & _). pose proof (get_shows T m sk es k Hst Hs) as Hi.
      destruct (assoc k es) as [x|] eqn:Ex; [|rewrite Hi; reflexivity]. destruct Hi as (y & Ey & Hy). rewrite Ey.
      specialize (IH y x Hp' Hy).
      destruct (sop_at p o' x) as [[x'|]| | |]; cbn [simulated bind] in *; try contradiction.
      * destruct IH as (y' & Ey' & Hy'). rewrite Ey'. cbn [bind]. eexists. split; [reflexivity|]. apply insert_shows; assumption.
      * rewrite IH. reflexivity.
      * rewrite IH. reflexivity.
Qed.

Lemma run_sim T dbg : forall ops ops', means_all T ops ops' -> forall s t, shows T s t ->
  match srun t ops' with
  | Ret t' => exists s', mrun dbg s ops = Ret s' /\ shows T s' t'
  | Panic => mrun dbg s ops = Panic
  | _ => False
  end.
Proof.
  induction 1 as [|[p o] [p' o'] ops ops' (H1 & H2 & H3) Hf IH]; intros s t Hs; cbn [srun mrun].
  - eauto.
  - cbn [fst snd] in *. subst p'. pose proof (at_sim T dbg o o' H3 p s t H2 Hs) as Ha.
    destruct (sop_at p o' t) as [[t'|]| | |]; cbn [simulated bind] in *; try contradiction.
    + destruct Ha as (s' & E & Hs'). rewrite E. cbn [bind]. apply IH. exact Hs'.
    + rewrite Ha. cbn [bind]. apply IH. exact Hs.
    + rewrite Ha. reflexivity.
Qed.

(* ---------- what a user sees ---------- *)

Lemma ma_collect_at : forall f l i, 0 <= i -> (Z.to_nat (lenZ l - i) < f)%nat -> ma_collect f (mk_ma_iter l i) = skipn (Z.to_nat i) l.
Proof.
  induction f as [|f IH]; intros l i Hi Hf; [lia|]. cbn [ma_collect ma_iter_next mai_arr mai_index].
  destruct (nthZ l i) as [s|] eqn:E.
  - pose proof (nthZ_Some _ _ _ E) as Hr. rewrite IH by lia. unfold nthZ in E. destruct (i <? 0) eqn:E0; [discriminate|].
    replace (Z.to_nat (i + 1)) with (S (Z.to_nat i)) by lia. clear - E. revert l E. induction (Z.to_nat i) as [|n IHn]; intros [|y l] E; try discriminate.
    + injection E as ->. reflexivity.
    + cbn [nth_error] in E. cbn [skipn]. apply IHn. exact E.
  - apply nthZ_None in E. symmetry. apply skipn_all2. unfold lenZ in *. lia.
Qed.
Lemma ma_elems_id l : ma_elems l = l.
Proof. unfold ma_elems, ma_iter_new. rewrite ma_collect_at; [reflexivity|lia|]. unfold lenZ. lia. Qed.

Lemma md_collect_all T sk : sk_in T sk -> forall m l, Forall2 (entry T sk) m l -> forall f, (length m < f)%nat ->
  exists r, md_collect f (mk_md_iter m sk) = r /\ map fst r = map fst l /\ map snd r = map snd m.
Proof.
  intros Hs. induction 1 as [|[mk s] [k x] m l [[H1 H2] H3] Hf IH]; intros f Hl; (destruct f as [|f]; [lia|]); cbn [md_collect md_iter_next mdi_rest mdi_sk].
  - exists []. auto.
  - cbn in H1. subst mk. cbn [fst] in H2. rewrite (own_decode T sk k H2 Hs). cbn [length] in Hl.
    destruct (IH f ltac:(lia)) as (r & E & E1 & E2). exists ((k, s) :: r). rewrite E. cbn [map fst snd]. rewrite E1, E2. auto.
Qed.
Lemma map_pair_in {A B C} (r : list (A * B)) : forall (m : list (C * B)), map snd r = map snd m -> forall l : list A, map fst r = l ->
  forall k x, In (k, x) r -> exists c, In (c, x) m.
Proof.
  induction r as [|[a b] r IH]; intros [|[c b'] m] E l El k x Hi; try discriminate; [destruct Hi|]. cbn in E. injection E as -> E.
  destruct Hi as [Hi|Hi]; [injection Hi as -> ->; exists c; left; reflexivity|]. destruct (IH m E _ eq_refl k x Hi) as [c' Hc]. exists c'. right. exact Hc.
Qed.

Lemma md_elems_in T sk m l : sk_in T sk -> Forall2 (entry T sk) m l -> StronglySorted before m -> forall k x, In (k, x) (md_elems m sk) -> md_slot m sk k = Some x.
Proof.
  intros Hs Hf Hm. unfold md_elems, md_iter_new, md_slot.
  assert (G : forall f, (length m < f)%nat -> forall k x, In (k, x) (md_collect f (mk_md_iter m sk)) -> own T k /\ In (encode_key sk k, x) m).
  { clear Hm. induction Hf as [|[mk s] [k x] m l [[H1 H2] H3] Hf IH]; intros f Hl k0 x0 Hi; (destruct f as [|f]; [lia|]); cbn [md_collect md_iter_next mdi_rest mdi_sk] in Hi; [destruct Hi|].
    cbn in H1. subst mk. cbn [fst] in H2. rewrite (own_decode T sk k H2 Hs) in Hi. cbn [length] in Hl. destruct Hi as [Hi|Hi].
    - injection Hi as <- <-. split; [exact H2|left; reflexivity].
    - destruct (IH f ltac:(lia) k0 x0 Hi) as [Ho Hin]. split; [exact Ho|right; exact Hin]. }
  intros k x Hi. destruct (G (S (length m)) ltac:(lia) k x Hi) as [_ Hin]. clear - Hin Hm.
  induction Hm as [|[k' s'] m Hm IH Hb]; [destruct Hin|]. cbn [bt_get]. destruct Hin as [Hin|Hin].
  - injection Hin as -> ->. rewrite mkey_refl. reflexivity.
  - rewrite Forall_forall in Hb. specialize (Hb _ Hin). unfold before in Hb. cbn [fst] in Hb. rewrite mkey_sym, Hb. cbn. auto.
Qed.

Lemma shows_item T s x g ga gd : shows T s x ->
  g = slot_value s -> ga = slot_array s -> gd = slot_dict s ->
  item_like (Some x) g ga gd match g with Some bs => Ret bs | None => Panic end.
Proof.
  intros Hs -> -> ->. destruct s as [bs|bs|l|m sk].
  - inversion Hs as [? ? Hsc Hr| | |]; subst. destruct x; try discriminate Hsc; cbn [item_like slot_value slot_array slot_dict]; eexists; repeat split; try reflexivity; exact Hr.
  - inversion Hs as [|? ? Hsc Hr| |]; subst. destruct x; try discriminate Hsc; cbn [item_like slot_value slot_array slot_dict]; eexists; repeat split; try reflexivity; exact Hr.
  - apply shows_arr in Hs as (ts & -> & Hf). cbn. repeat split. exists l. split; [reflexivity|]. apply (F2_len _ _ _ Hf).
  - destruct (shows_dict _ _ _ _ Hs) as (es & l' & -> & Hp & Hf & _). cbn. repeat split. exists m, sk. split; [reflexivity|].
    unfold md_len. rewrite (F2_len _ _ _ Hf). unfold lenZ. rewrite (Permutation_length Hp). reflexivity.
Qed.
Lemma shows_looks T s t : shows T s t -> looks_like T s t.
Proof.
  intros Hs. destruct s as [bs|bs|l|m sk].
  - inversion Hs as [? ? Hsc Hr| | |]; subst. destruct t; try discriminate Hsc; cbn [looks_like]; eexists; repeat split; try reflexivity; exact Hr.
  - inversion Hs as [|? ? Hsc Hr| |]; subst. destruct t; try discriminate Hsc; cbn [looks_like]; eexists; repeat split; try reflexivity; exact Hr.
  - apply shows_arr in Hs as (ts & -> & Hf). cbn [looks_like]. exists l. do 3 (split; [reflexivity|]).
    split; [apply (F2_len _ _ _ Hf)|]. split; [inversion Hf; subst; cbn [ma_is_empty]; split; congruence|].
    split; [apply ma_elems_id|]. intros i Hi. split; [unfold ma_slot; rewrite nthZ_None, (F2_len _ _ _ Hf); lia|].
    pose proof (F2_nth _ _ _ Hf i) as Hn. unfold ma_index, ma_get, ma_get_array, ma_get_dict, ma_slot. destruct (nthZ ts i) as [x|].
    + destruct Hn as (y & -> & Hy). apply (shows_item T y x); [exact Hy|reflexivity..].
    + rewrite Hn. repeat split.
  - destruct (shows_dict _ _ _ _ Hs) as (es & l' & -> & Hp & Hf & Hm & Hk & Hn). cbn [looks_like]. exists m, sk. do 3 (split; [reflexivity|]).
    split; [unfold md_len; rewrite (F2_len _ _ _ Hf); unfold lenZ; rewrite (Permutation_length Hp); reflexivity|].
    split; [|split; [|split]].
    + destruct m as [|a m]; inversion Hf; subst; cbn [md_is_empty].
      * apply Permutation_sym, Permutation_nil in Hp. subst. split; reflexivity.
      * split; [discriminate|]. intros ->. apply Permutation_nil in Hp. discriminate Hp.
    + destruct (md_collect_all T sk Hk m l' Hf (S (length m)) ltac:(lia)) as (r & E & E1 & _). unfold md_elems, md_iter_new. rewrite E, E1.
      apply Permutation_map, Permutation_sym, Hp.
    + intros k x. eapply md_elems_in; eauto.
    + intros k Ho. unfold md_contains, md_index, md_get, md_get_array, md_get_dict.
      pose proof (get_shows T m sk es k Ho Hs) as Hg. destruct (assoc k es) as [x|] eqn:Ea.
      * destruct Hg as (s & Es & Hx). rewrite Es. split; [split; [|reflexivity]|].
        -- intros _. apply assoc_In in Ea. apply in_map_iff. exists (k, x). auto.
        -- apply (shows_item T s x); [exact Hx|reflexivity..].
      * rewrite Hg. apply assoc_none in Ea. split; [|repeat split]. split; [discriminate|]. intros Hi. contradiction.
Qed.

Lemma shows_agrees T s t : shows T s t -> agrees T s t.
Proof.
  intros Hs p. revert s t Hs. induction p as [|st p IH]; intros s t Hs Hp; cbn [to_path map tree_at m_at].
  - eexists. split; [reflexivity|]. apply shows_looks. exact Hs.
  - inversion Hp as [|? ? Hst Hp']; subst. destruct st as [i|k].
    + destruct s as [bs|bs|l|m sk].
      * inversion Hs as [? ? Hsc Hr| | |]; subst. destruct t; try discriminate Hsc; reflexivity.
      * inversion Hs as [|? ? Hsc Hr| |]; subst. destruct t; try discriminate Hsc; reflexivity.
      * apply shows_arr in Hs as (ts & -> & Hf). pose proof (F2_nth _ _ _ Hf i) as Hi. unfold ma_slot.
        destruct (nthZ ts i) as [x|]; [|rewrite Hi; reflexivity]. destruct Hi as (y & -> & Hy). apply IH; assumption.
      * destruct (shows_dict _ _ _ _ Hs) as (es & _ & -> & _). reflexivity.
    + destruct s as [bs|bs|l|m sk].
      * inversion Hs as [? ? Hsc Hr| | |]; subst. destruct t; try discriminate Hsc; reflexivity.
      * inversion Hs as [|? ? Hsc Hr| |]; subst. destruct t; try discriminate Hsc; reflexivity.
      * apply shows_arr in Hs as (ts & -> & Hf). reflexivity.
      * destruct (shows_dict _ _ _ _ Hs) as (es & _ & -> & _). pose proof (get_shows T m sk es k Hst Hs) as Hi.
        destruct (assoc k es) as [x|]; [|rewrite Hi; reflexivity]. destruct Hi as (y & -> & Hy). apply IH; assumption.
Qed.

(* ---------- clone ---------- *)

Lemma bt_insert_last k s m : Forall (fun a => before a (k, s)) m -> bt_insert k s m = m ++ [(k, s)].
Proof.
  induction 1 as [|[k' s'] m H Hf IH]; cbn [bt_insert app]; [reflexivity|]. unfold before in H. cbn [fst] in H. rewrite mkey_sym, H. cbn. f_equal. exact IH.
Qed.
Lemma fold_rebuild : forall m acc, StronglySorted before (acc ++ m) -> fold_left (fun m' ks => bt_insert (fst ks) (snd ks) m') m acc = acc ++ m.
Proof.
  induction m as [|[k s] m IH]; intros acc H; cbn [fold_left fst snd]; [rewrite app_nil_r; reflexivity|].
  rewrite bt_insert_last.
  - rewrite IH; rewrite <- app_assoc; [reflexivity|exact H].
  - clear IH. induction acc as [|a acc IHa]; [constructor|]. cbn [app] in H. inversion H as [|? ? H1 H2]; subst. constructor; [|auto].
    rewrite Forall_forall in H2. apply H2. apply in_or_app. right. left. reflexivity.
Qed.

Fixpoint shows_clone T s t (H : shows T s t) {struct H} : slot_clone s = s.
Proof.
  destruct H as [bs t|bs t|l ts Hf|m sk l l' Hp Hf Hs Hk]; cbn [slot_clone]; try reflexivity.
  - f_equal. induction Hf as [|x y l ts Hxy Hf IH]; cbn [map]; [reflexivity|]. f_equal; [apply (shows_clone _ _ _ Hxy)|exact IH].
  - assert (E : map (fun ks => (fst ks, slot_clone (snd ks))) m = m).
    { clear Hp Hs. induction Hf as [|[k s] y m l' Hxy Hf IH]; cbn [map fst snd]; [reflexivity|].
      f_equal; [f_equal; destruct Hxy as [_ Hxy]; apply (shows_clone _ _ _ Hxy)|exact IH]. }
    rewrite E. rewrite (fold_rebuild m []); [reflexivity|exact Hs].
Qed.
