(** Values in slots: which are kept, and what becomes of the others; other keys and positions;
    iterators. *)
From Verif Require Import Prelude Lib Varint Utf8 Float SharedKeys Decode Read Encodable Encoder BuilderSpec
  Holds Repr EncodableProofs EncoderInv EncoderClean Access ValueSpec PathSpec CopySpec Lookup Path Isort Flat Values Mutable MutableSpec MutableSlot MutableProofs.
From Coq Require Import ZifyBool ZifyNat ZifyN Permutation Sorted.
Ltac Zify.zify_post_hook ::= Z.div_mod_to_equations.
#[local] Existing Instance any_key.

Lemma keeps_stores v : wf_enc v -> keeps v -> slot_stores v = Some (tree_of v).
Proof.
  induction v as [t z|b|b|b| | |s|s| |w IH|s|d k]; cbn [wf_enc keeps slot_stores stored_value tree_of]; intros Hw Hk; try reflexivity; try (destruct Hk; fail).
  - destruct t; try reflexivity; cbv zeta.
    all: try (rewrite wrap_i16_id by lia; destruct ((-2048 <=? z) && (z <=? 2047)) eqn:E; [reflexivity|lia]).
    + exact (stored_u32 z ltac:(cbn in Hw; unfold two32; lia)).
    + exact (stored_u64 U64 z (or_introl eq_refl) ltac:(cbn in Hw; unfold two64; lia) Hk).
    + exact (stored_u64 Usize z (or_intror eq_refl) ltac:(cbn in Hw; unfold two64; lia) Hk).
  - apply IH; assumption.
Qed.

Lemma tree_reads_back v e x f : wf_enc v -> keeps v -> read_tree (S f) e x = Ret (tree_of v) -> reads_back v e x.
Proof.
  induction v as [t z|b|b|b| | |s|s| |w IH|s|d k]; cbn [wf_enc keeps tree_of reads_back]; intros Hw Hk H; try (destruct Hk; fail).
  - destruct (read_int e x z f H) as (H1 & H2 & H3). destruct t; cbn in Hw; first [apply H1; unfold two63; lia|apply H2; unfold two64; lia].
  - eapply read_f32; exact H.
  - eapply read_f64; exact H.
  - eapply read_bool; exact H.
  - eapply read_null; exact H.
  - eapply read_undef; exact H.
  - eapply read_str; exact H.
  - eapply read_data; exact H.
  - eapply read_null; exact H.
  - auto.
Qed.

Lemma slot_keeps v : wf_enc v -> keeps v -> forall dbg, exists s bs,
  slot_new dbg v = Ret s /\ slot_value s = Some bs /\ slot_reads_back v bs.
Proof.
  intros Hw Hk dbg. pose proof (keeps_stores v Hw Hk) as Hs.
  destruct (slot_new_shows [] dbg v _ Hw Hs) as (s & H1 & H2 & H3 & H4). exists s.
  assert (Hsc := slot_stores_scalar v _ Hs).
  assert (exists bs, slot_value s = Some bs /\ reads_as bs (tree_of v)) as (bs & Hb & Hr).
  { inversion H2 as [bs t Ht Hr|bs t Ht Hr| |]; subst; try (exists bs; split; [reflexivity|exact Hr]); discriminate. }
  exists bs. split; [exact H1|]. split; [exact Hb|]. intros d base. eapply tree_reads_back; [exact Hw|exact Hk|apply Hr].
Qed.

(** What is kept of any other integer: nothing returns, or another number is read back. *)
Lemma int_loses t z : wf_enc (EInt t z) -> ~ keeps (EInt t z) -> forall dbg,
  match slot_new dbg (EInt t z) with
  | Ret s => exists bs, slot_value s = Some bs /\ ~ slot_reads_back (EInt t z) bs
  | _ => True
  end.
Proof.
  intros Hw Hk dbg. assert (Hother : forall y, y <> z -> ity_min t <= y <= ity_max t -> slot_stores (EInt t z) = Some (TInt y) ->
     match slot_new dbg (EInt t z) with Ret s => exists bs, slot_value s = Some bs /\ ~ slot_reads_back (EInt t z) bs | _ => True end).
  { intros y Hy Hry Hs. destruct (slot_new_shows [] dbg _ _ Hw Hs) as (s & H1 & H2 & _). rewrite H1.
    assert (exists bs, slot_value s = Some bs /\ reads_as bs (TInt y)) as (bs & Hb & Hr).
    { inversion H2 as [bs t0 Ht Hr|bs t0 Ht Hr| |]; subst; exists bs; split; try reflexivity; exact Hr. }
    exists bs. split; [exact Hb|]. intros Hc. specialize (Hc true 4096). specialize (Hr true 4096). unfold read_doc in Hr.
    destruct (read_int _ _ _ _ Hr) as (R1 & R2 & R3). cbn [reads_back] in Hc.
    destruct t; cbn in Hry; try (rewrite R1 in Hc by (unfold two63; lia); apply ret_inj in Hc; lia);
      rewrite R2 in Hc by (unfold two64; lia); apply ret_inj in Hc; lia. }
  assert (Hhang : t = I64 \/ t = I32 \/ t = Isize \/ t = I16 \/ t = I8 -> ~ (-2048 <= wrap_i16 z <= 2047) -> slot_new dbg (EInt t z) = Diverge).
  { intros Ht Hz. assert (forall n, write_to dbg (EInt t z) n false = Diverge) as Hd.
    { intros n. destruct Ht as [-> | [-> | [-> | [-> | ->]]]]; cbn [write_to]; try (apply write_i64_diverges; exact Hz);
        cbn in Hw; rewrite wrap_i16_id in Hz by lia; apply write_i16_diverges; lia. }
    unfold slot_new. destruct (_ <=? _); rewrite Hd; reflexivity. }
  assert (Hsig : t = I64 \/ t = I32 \/ t = Isize \/ t = I16 \/ t = I8 -> ~ (-2048 <= z <= 2047) ->
    match slot_new dbg (EInt t z) with Ret s => exists bs, slot_value s = Some bs /\ ~ slot_reads_back (EInt t z) bs | _ => True end).
  { intros Ht Hz. destruct ((-2048 <=? wrap_i16 z) && (wrap_i16 z <=? 2047)) eqn:E; [|rewrite Hhang by (auto; lia); exact I].
    apply (Hother (wrap_i16 z)); [lia| |].
    - destruct Ht as [-> | [-> | [-> | [-> | ->]]]]; cbn in Hw |- *; try lia; rewrite wrap_i16_id by lia; lia.
    - destruct Ht as [-> | [-> | [-> | [-> | ->]]]]; cbn [slot_stores stored_value]; cbv zeta; rewrite E; reflexivity. }
  assert (Huns : t = U64 \/ t = Usize -> ~ (z <= 2047 \/ z < 256 ^ (8 - (ctz64 z + 7) / 8)) ->
    match slot_new dbg (EInt t z) with Ret s => exists bs, slot_value s = Some bs /\ ~ slot_reads_back (EInt t z) bs | _ => True end).
  { intros Ht Hz. assert (Hz2 : 2047 < z < two64) by (destruct Ht as [-> | ->]; cbn in Hw; unfold two64; lia).
    destruct (8 - (ctz64 z + 7) / 8 <=? 0) eqn:E.
    - pose proof (ctz_bound z ltac:(lia)) as Hcb.
      assert (Hsz : fleece_size (EInt t z) = 1).
      { destruct Ht as [-> | ->]; cbn [fleece_size]; unfold u64_fleece_size; destruct (z <=? 2047) eqn:?; lia. }
      unfold slot_new. rewrite Hsz. change (1 <=? INLINE_CAPACITY) with true. cbv iota.
      assert (Hwt : write_to dbg (EInt t z) INLINE_CAPACITY false = if dbg then Panic else Ret (Some [255])).
      { replace (write_to dbg (EInt t z) INLINE_CAPACITY false) with (write_u64 dbg z INLINE_CAPACITY false) by (destruct Ht as [-> | ->]; reflexivity).
        unfold write_u64, write_u64_big. destruct (z <=? 2047) eqn:?; [lia|].
        assert (u64_fleece_size z = 1) as -> by (destruct Ht as [-> | ->]; exact Hsz). destruct dbg; reflexivity. }
      rewrite Hwt. destruct dbg; [exact I|]. cbn [bind]. eexists. split; [reflexivity|]. intros Hc. specialize (Hc true 4096).
      assert (0 = z); [|lia]. destruct Ht as [-> | ->]; cbn [reads_back] in Hc; apply ret_inj; rewrite <- Hc; vm_compute; reflexivity.
    - apply (Hother (z mod 256 ^ (8 - (ctz64 z + 7) / 8))).
      + intros Heq. apply Hz. right. pose proof (Z.mod_pos_bound z (256 ^ (8 - (ctz64 z + 7) / 8)) (Z.pow_pos_nonneg 256 _ ltac:(lia) ltac:(lia))). lia.
      + pose proof (Z.pow_pos_nonneg 256 (8 - (ctz64 z + 7) / 8) ltac:(lia) ltac:(lia)). pose proof (Z.mod_pos_bound z (256 ^ (8 - (ctz64 z + 7) / 8)) ltac:(lia)).
        pose proof (Z.mod_le z (256 ^ (8 - (ctz64 z + 7) / 8)) ltac:(lia) ltac:(lia)).
        set (y := z mod _) in *. clearbody y. destruct Ht as [-> | ->]; cbn [wf_enc] in Hw; change (ity_min _) with 0 in *; lia.
      + destruct Ht as [-> | ->]; cbn [slot_stores stored_value]; destruct (z <=? 2047) eqn:?; try lia; cbv zeta; rewrite E; reflexivity. }
  destruct t; cbn [keeps] in Hk; try tauto; first [apply Hsig; tauto|apply Huns; tauto].
Qed.
Lemma slot_loses v : wf_enc v -> ~ keeps v -> forall dbg,
  match slot_new dbg v with
  | Ret s => exists bs, slot_value s = Some bs /\ ~ slot_reads_back v bs
  | _ => True
  end.
Proof.
  induction v as [t z|b|b|b| | |s|s| |w IH|s|d k]; intros Hw Hk dbg; try (destruct (Hk I)); try (destruct Hw; fail).
  - apply int_loses; assumption.
  - exact (IH Hw Hk dbg).
Qed.

(* ---------- other positions and keys ---------- *)

Lemma remove_out l i : lenZ l <= i -> ma_remove l i = l.
Proof. intros H. unfold ma_remove. replace (lenZ l <=? i) with true by lia. reflexivity. Qed.
Lemma set_out l i s : lenZ l <= i -> ma_replace l i s = Panic.
Proof. intros H. unfold ma_replace. replace ((0 <=? i) && (i <? lenZ l)) with false by lia. reflexivity. Qed.

Lemma split_at {A} (l : list A) i : 0 <= i < lenZ l -> exists a x b, l = a ++ x :: b /\ lenZ a = i /\
  (forall y, list_set l i y = a ++ y :: b) /\ list_remove l i = a ++ b.
Proof.
  intros Hi. destruct (nthZ_in l i Hi) as (x & Hx). unfold nthZ in Hx. destruct (i <? 0) eqn:E; [lia|].
  destruct (nth_error_split l _ Hx) as (a & b & -> & Ha). exists a, x, b. split; [reflexivity|]. split; [unfold lenZ; lia|].
  unfold list_set, list_remove. rewrite <- Ha. replace (S (length a)) with (length a + 1)%nat by lia.
  rewrite firstn_app, firstn_all, Nat.sub_diag, app_nil_r, skipn_app, skipn_all2 by lia.
  replace (length a + 1 - length a)%nat with 1%nat by lia. auto.
Qed.
Lemma set_others l i s l' : ma_replace l i s = Ret l' ->
  ma_len l' = ma_len l /\ ma_slot l' i = Some s /\ forall j, j <> i -> ma_slot l' j = ma_slot l j.
Proof.
  unfold ma_replace, ma_slot, ma_len. intros H. destruct (_ && _) eqn:E; [|discriminate]. apply ret_inj in H. subst l'.
  destruct (split_at l i ltac:(lia)) as (a & x & b & -> & <- & Hs & _). rewrite Hs, !lenZ_app, !lenZ_cons.
  split; [lia|]. split; [rewrite nthZ_app_r by lia; replace (_ - _) with 0 by lia; reflexivity|]. intros j Hj.
  destruct (Z_lt_ge_dec j (lenZ a)); [rewrite !nthZ_app_l by lia; reflexivity|]. rewrite !nthZ_app_r by lia. rewrite !nthZ_cons_S by lia. reflexivity.
Qed.
Lemma remove_others l i : 0 <= i < ma_len l ->
  ma_len (ma_remove l i) = ma_len l - 1 /\ forall j, ma_slot (ma_remove l i) j = ma_slot l (if j <? i then j else j + 1).
Proof.
  unfold ma_slot, ma_remove, ma_len. intros H. destruct (lenZ l <=? i) eqn:E; [lia|].
  destruct (split_at l i ltac:(lia)) as (a & x & b & -> & <- & _ & Hs). rewrite Hs, !lenZ_app, !lenZ_cons.
  split; [lia|]. intros j. destruct (j <? lenZ a) eqn:Ej; [rewrite !nthZ_app_l by lia; reflexivity|].
  rewrite !nthZ_app_r by lia. rewrite nthZ_cons_S by lia. f_equal. lia.
Qed.
Lemma push_others dbg l v l' : ma_push dbg l v = Ret l' ->
  ma_len l' = ma_len l + 1 /\ (exists s, slot_new dbg v = Ret s /\ ma_slot l' (ma_len l) = Some s) /\
  forall j, j < ma_len l -> ma_slot l' j = ma_slot l j.
Proof.
  unfold ma_push, ma_slot, ma_len. intros H. destruct (slot_new dbg v) as [s| | |]; try discriminate. cbn [bind] in H. apply ret_inj in H. subst l'.
  rewrite lenZ_app. split; [reflexivity|]. split; [exists s; split; [reflexivity|]; rewrite nthZ_app_r by lia; rewrite Z.sub_diag; reflexivity|].
  intros j Hj. apply nthZ_app_l. exact Hj.
Qed.

(** Maps. *)
Lemma bt_get_above k m : Forall (fun a => mkey_cmp k (fst a) = Lt) m -> bt_get k m = None.
Proof. destruct m as [|[k' s] m]; [reflexivity|]. intros H. inversion H as [|? ? H1 _]; subst. cbn in *. rewrite H1. reflexivity. Qed.
Lemma bt_get_insert k s m : StronglySorted before m -> forall k', bt_get k' (bt_insert k s m) = match mkey_cmp k' k with Eq => Some s | _ => bt_get k' m end.
Proof.
  induction 1 as [|[k1 s1] m Hm IH Hb]; intros k'; cbn [bt_insert bt_get]; [destruct (mkey_cmp k' k); reflexivity|].
  destruct (mkey_cmp k k1) eqn:E; cbn [bt_get].
  - apply mkey_Eq in E. subst k1. destruct (mkey_cmp k' k); reflexivity.
  - destruct (mkey_cmp k' k) eqn:E'; [reflexivity| |reflexivity]. rewrite (mkey_trans _ _ _ E' E). reflexivity.
  - rewrite IH. destruct (mkey_cmp k' k1) eqn:E'.
    + apply mkey_Eq in E'. subst k'. rewrite mkey_sym, E. reflexivity.
    + assert (mkey_cmp k' k = Lt) as -> by (eapply mkey_trans; [exact E'|]; rewrite mkey_sym, E; reflexivity). reflexivity.
    + reflexivity.
Qed.
Lemma bt_get_remove k m : StronglySorted before m -> forall k', bt_get k' (bt_remove k m) = match mkey_cmp k' k with Eq => None | _ => bt_get k' m end.
Proof.
  induction 1 as [|[k1 s1] m Hm IH Hb]; intros k'; cbn [bt_remove bt_get]; [destruct (mkey_cmp k' k); reflexivity|].
  destruct (mkey_cmp k k1) eqn:E; cbn [bt_get].
  - apply mkey_Eq in E. subst k1. assert (Hab : forall q, mkey_cmp q k <> Gt -> bt_get q m = None).
    { intros q Hq. apply bt_get_above. eapply Forall_impl; [|exact Hb]. unfold before. cbn [fst]. intros [a b] Ha. cbn [fst] in *.
      destruct (mkey_cmp q k) eqn:Eq; [apply mkey_Eq in Eq; subst q; exact Ha|eapply mkey_trans; eauto|congruence]. }
    destruct (mkey_cmp k' k) eqn:E'; [apply Hab; congruence|apply Hab; congruence|reflexivity].
  - destruct (mkey_cmp k' k) eqn:E'; [|reflexivity|reflexivity]. apply mkey_Eq in E'. subst k'. rewrite E. reflexivity.
  - rewrite IH. destruct (mkey_cmp k' k1) eqn:E'.
    + apply mkey_Eq in E'. subst k'. rewrite mkey_sym, E. reflexivity.
    + destruct (mkey_cmp k' k); reflexivity.
    + reflexivity.
Qed.
Lemma sorted_of T m sk t : shows T (SDict m sk) t -> StronglySorted before m /\ sk_in T sk.
Proof. intros H. destruct (shows_dict _ _ _ _ H) as (l & l' & _ & _ & _ & H1 & H2 & _). auto. Qed.
Lemma key_cmp_own T sk k k' : sk_in T sk -> own T k -> own T k' -> k' <> k -> mkey_cmp (encode_key sk k') (encode_key sk k) <> Eq.
Proof. intros Hs Ho Ho' Hn H. apply mkey_Eq in H. apply Hn. eapply own_inj; eauto. Qed.
Lemma insert_others T m sk t k s : shows T (SDict m sk) t -> own T k ->
  md_slot (md_insert_slot m sk k s) sk k = Some s /\
  forall k', own T k' -> k' <> k -> md_slot (md_insert_slot m sk k s) sk k' = md_slot m sk k'.
Proof.
  intros Hs Ho. destruct (sorted_of T m sk t Hs) as [H1 H2]. unfold md_slot, md_insert_slot. split.
  - rewrite bt_get_insert by exact H1. rewrite mkey_refl. reflexivity.
  - intros k' Ho' Hn. rewrite bt_get_insert by exact H1. pose proof (key_cmp_own T sk k k' H2 Ho Ho' Hn).
    destruct (mkey_cmp _ _); [congruence|reflexivity|reflexivity].
Qed.
Lemma drop_others T m sk t k : shows T (SDict m sk) t -> own T k ->
  md_slot (md_remove m sk k) sk k = None /\
  forall k', own T k' -> k' <> k -> md_slot (md_remove m sk k) sk k' = md_slot m sk k'.
Proof.
  intros Hs Ho. destruct (sorted_of T m sk t Hs) as [H1 H2]. unfold md_slot, md_remove. split.
  - rewrite bt_get_remove by exact H1. rewrite mkey_refl. reflexivity.
  - intros k' Ho' Hn. rewrite bt_get_remove by exact H1. pose proof (key_cmp_own T sk k k' H2 Ho Ho' Hn).
    destruct (mkey_cmp _ _); [congruence|reflexivity|reflexivity].
Qed.

(* ---------- iterators ---------- *)

Lemma dict_hint_at T sk : sk_in T sk -> forall m l, Forall2 (entry T sk) m l -> forall f, (length m < f)%nat ->
  md_size_hint (mk_md_iter m sk) = (lenZ (md_collect f (mk_md_iter m sk)), Some (lenZ (md_collect f (mk_md_iter m sk)))).
Proof.
  intros Hs m l Hf f Hl. destruct (md_collect_all T sk Hs m l Hf f Hl) as (r & -> & _ & H).
  assert (lenZ r = lenZ m) as -> by (unfold lenZ; rewrite <- (map_length snd r), <- (map_length snd m), H; reflexivity). reflexivity.
Qed.
Lemma F2_skipn {A B} (R : A -> B -> Prop) : forall n l m, Forall2 R l m -> Forall2 R (skipn n l) (skipn n m).
Proof. induction n as [|n IH]; intros l m H; [exact H|]. destruct H; [constructor|]. apply IH. assumption. Qed.
Lemma md_after_at : forall n m sk, md_after n (mk_md_iter m sk) = mk_md_iter (skipn n m) sk.
Proof.
  induction n as [|n IH]; intros m sk; [reflexivity|]. cbn [md_after]. destruct m as [|[k s] m]; cbn [md_iter_next mdi_rest mdi_sk snd skipn]; [|apply IH].
  rewrite IH. f_equal. destruct n; reflexivity.
Qed.
Lemma dict_hint T m sk t n : shows T (SDict m sk) t ->
  let it := md_after n (md_iter_new m sk) in
  md_size_hint it = (lenZ (md_left it), Some (lenZ (md_left it))).
Proof.
  intros H. destruct (shows_dict _ _ _ _ H) as (l & l' & _ & _ & Hf & _ & Hs & _). cbv zeta. unfold md_iter_new, md_left. rewrite md_after_at.
  apply (dict_hint_at T sk Hs _ (skipn n l')); [apply F2_skipn; exact Hf|]. cbn [mdi_rest]. lia.
Qed.
Lemma ma_after_at : forall n l i, ma_after n (mk_ma_iter l i) = mk_ma_iter l (i + Z.of_nat n).
Proof.
  induction n as [|n IH]; intros l i; cbn [ma_after ma_iter_next mai_arr mai_index snd]; [f_equal; lia|]. rewrite IH. f_equal. lia.
Qed.
Lemma arr_hint l n : let it := ma_after n (ma_iter_new l) in
  ma_size_hint it = (lenZ l, Some (lenZ l)) /\ lenZ (ma_left it) = Z.max 0 (lenZ l - Z.of_nat n).
Proof.
  cbv zeta. unfold ma_iter_new, ma_left. rewrite ma_after_at. cbn [mai_arr]. split; [reflexivity|].
  rewrite ma_collect_at; [|lia|unfold lenZ; lia]. unfold lenZ. rewrite skipn_length. lia.
Qed.

(* ---------- programs ---------- *)

Lemma programs T dbg ops ops' s0 t0 : shows T s0 t0 -> means_all T ops ops' ->
  match srun t0 ops' with
  | Ret t => exists s, mrun dbg s0 ops = Ret s /\ agrees T s t
  | Panic => mrun dbg s0 ops = Panic
  | _ => False
  end.
Proof.
  intros Hs Hm. pose proof (run_sim T dbg ops ops' Hm s0 t0 Hs) as H. destruct (srun t0 ops'); try exact H.
  destruct H as (s & H1 & H2). exists s. split; [exact H1|]. apply shows_agrees. exact H2.
Qed.
Lemma array_programs T dbg ops ops' : means_all T ops ops' ->
  match srun (TArr []) ops' with
  | Ret t => exists s, mrun dbg (SArr []) ops = Ret s /\ agrees T s t
  | Panic => mrun dbg (SArr []) ops = Panic
  | _ => False
  end.
Proof. apply programs. constructor. constructor. Qed.
Lemma dict_programs T sk dbg ops ops' : sk_in T sk -> means_all T ops ops' ->
  match srun (TDict []) ops' with
  | Ret t => exists s, mrun dbg (SDict [] sk) ops = Ret s /\ agrees T s t
  | Panic => mrun dbg (SDict [] sk) ops = Panic
  | _ => False
  end.
Proof. intros Hs. apply programs. apply empty_dict. exact Hs. Qed.
Lemma own_plain k : own [] k.
Proof. right. intros t []. Qed.
Lemma copy_agrees T dbg src v t : holdable T src v t ->
  exists s, slot_from_fleece (fuel_of src) dbg src v false = Ret s /\ agrees T s t.
Proof.
  intros H. destruct (holdable_shows T dbg src v t H) as (s & H1 & H2). exists s. split; [exact H1|]. apply shows_agrees. exact H2.
Qed.
Lemma clone_same T dbg ops ops' s0 t0 s : means_all T ops ops' -> shows T s0 t0 -> mrun dbg s0 ops = Ret s -> slot_clone s = s.
Proof.
  intros Hm Hs Hr. pose proof (run_sim T dbg ops ops' Hm s0 t0 Hs) as H. destruct (srun t0 ops') as [t| | |].
  - destruct H as (s' & H1 & H2). rewrite Hr in H1. apply ret_inj in H1. subst s'. eapply shows_clone. exact H2.
  - rewrite Hr in H. discriminate.
  - destruct H.
  - destruct H.
Qed.
Lemma clone_programs T dbg ops s t : shows T s t -> mrun dbg (slot_clone s) ops = mrun dbg s ops.
Proof. intros H. rewrite (shows_clone T s t H). reflexivity. Qed.
