(** What a copy depends on, and when copying changes nothing any more. *)
From Verif Require Import Prelude Lib Utf8 Float SharedKeys Decode Read Encodable Encoder BuilderSpec LayoutSpec
  VarintProofs FloatProofs Holds Repr EncodableProofs Stored StoredRead SlotProofs EncoderProofs
  EncoderInv EncoderClean EncoderProtocol EncoderLayout Isort Lookup Path PathSpec Access PathDoc Safety
  CopySpec Copy TotalSpec EncoderTotal AscendSpec Ascend StableSpec.
From Verif Require Damage.
From Coq Require Import ZifyBool ZifyNat ZifyN Sorted Permutation.
Ltac Zify.zify_post_hook ::= Z.div_mod_to_equations.
#[local] Existing Instance any_key.

(* ---------- a copy is determined by the reading ---------- *)

Lemma small_short z : -2048 <= z <= 2047 -> to_sized_value (EInt I16 z) = to_sized_value (EInt I64 z).
Proof.
  intros Hz. cbn [to_sized_value]. replace (i64_is_short z) with true by (unfold i64_is_short; lia).
  replace (wrap_i16 z) with z by (unfold wrap_i16, two16; lia). reflexivity.
Qed.
Lemma small_unsigned z : 0 <= z <= 2047 -> to_sized_value (EInt U64 z) = to_sized_value (EInt I64 z).
Proof.
  intros Hz. cbn [to_sized_value]. replace (i64_is_short z) with true by (unfold i64_is_short; lia).
  replace (wrap_i16 z) with z by (unfold wrap_i16, two16; lia). replace (z <=? 2047) with true by lia.
  replace (wrap_u16 z) with z by (unfold wrap_u16, two16; lia). unfold u16_to_sized, i16_to_sized.
  replace (2047 <? z) with false by lia. replace (z <? -2048) with false by lia. cbn [orb]. cbv zeta.
  replace (wrap_u16 z) with z by (unfold wrap_u16, two16; lia). unfold TAG_SHORT. rewrite Z.lor_0_r. do 2 f_equal.
  change 15 with (Z.ones 4). rewrite Z.land_ones by lia. change (2 ^ 4) with 16. lia.
Qed.
Lemma small_written z : -2048 <= z <= 2047 -> to_sized_value (EInt I64 z) <> None.
Proof.
  intros Hz. rewrite <- small_short by lia. cbn [to_sized_value]. unfold i16_to_sized.
  replace ((2047 <? z) || (z <? -2048)) with false by lia. discriminate.
Qed.
Lemma same_sized c e v w : to_sized_value v = to_sized_value w -> to_sized_value w <> None -> write_value c e v = write_value c e w.
Proof. intros H Hn. unfold write_value. rewrite H. destruct (to_sized_value w); [reflexivity|congruence]. Qed.

Lemma for_each_read {A B} (P : B -> Prop) (g : A -> outcome B) (b1 : enc -> A -> eres) (b2 : enc -> B -> eres) :
  (forall x y e, g x = Ret y -> P y -> b1 e x = b2 e y) ->
  forall l ys, mapM g l = Ret ys -> Forall P ys -> forall e, for_each b1 e l = for_each b2 e ys.
Proof.
  intros Hb. induction l as [|x l IH]; intros ys H HP e; cbn [mapM] in H.
  - apply ret_inj in H. subst. reflexivity.
  - destruct (g x) as [y| | |] eqn:Ex; try discriminate. cbn [bind] in H. destruct (mapM g l) as [ys'| | |]; try discriminate. cbn [bind] in H.
    apply ret_inj in H. subst ys. inversion HP as [|? ? P1 P2]; subst. cbn [for_each]. rewrite (Hb _ _ e Ex P1). apply eseq_ext. intros e'. apply IH; auto.
Qed.
Lemma for_each_flat {A} c (g : A -> list op) : forall l e,
  for_each (enc_step c) e (flat_map g l) = for_each (fun e' x => for_each (enc_step c) e' (g x)) e l.
Proof.
  induction l as [|x l IH]; intros e; cbn [flat_map for_each]; [reflexivity|]. rewrite for_each_app. apply eseq_ext. intros e'. apply IH.
Qed.

Lemma copy_calls c src : not_huge src -> forall f v t, read_tree f src v = Ret t -> small_ints t ->
  forall e, write_fleece f c e src v = for_each (enc_step c) e (tree_calls t).
Proof.
  intros Hs. induction f as [|f IH]; intros v t H Hi e; cbn [read_tree write_fleece] in *; [discriminate|].
  destruct (value_type src v) as [ty| | |] eqn:Et; try discriminate. cbn [bind] in *.
  assert (Hone : forall w w', w = w' \/ (to_sized_value w = to_sized_value w' /\ to_sized_value w' <> None) ->
    match en_stack e with [] => Ret (e, Err CollectionNotOpen) | _ => write_value c e w end = for_each (enc_step c) e [OpValue w']).
  { intros w w' Hw. rewrite for_each_one. cbn [enc_step]. destruct (en_stack e) eqn:Es; [unfold write_value; rewrite Es; reflexivity|].
    destruct Hw as [->|[Hw Hn]]; [reflexivity|apply same_sized; assumption]. }
  destruct ty; try discriminate;
    repeat (match type of H with bind ?m _ = _ => destruct m eqn:?Em; try discriminate; cbn [bind] in H end);
    apply ret_inj in H; subst t; cbn [tree_calls vtype_eqb orb bind].
  - (* null *) rewrite <- (Hone ENull ENull (or_introl eq_refl)). unfold write_value. cbn [to_sized_value]. destruct (en_stack e); reflexivity.
  - rewrite <- (Hone EUndef EUndef (or_introl eq_refl)). unfold write_value. cbn [to_sized_value]. destruct (en_stack e); reflexivity.
  - unfold to_bool in Em. rewrite Et in Em. cbn [bind] in Em. apply ret_inj in Em. subst.
    rewrite <- (Hone _ _ (or_introl eq_refl)). unfold write_value. cbn [to_sized_value]. destruct (en_stack e); reflexivity.
  - unfold to_bool in Em. rewrite Et in Em. cbn [bind] in Em. apply ret_inj in Em. subst.
    rewrite <- (Hone _ _ (or_introl eq_refl)). unfold write_value. cbn [to_sized_value]. destruct (en_stack e); reflexivity.
  - (* short *)
    assert (to_short src v = Ret a) as ->.
    { unfold to_int in Em. unfold to_short. rewrite Et in *. cbn [bind] in *. exact Em. }
    cbn [bind]. assert (-2048 <= a <= 2047) by (inversion Hi as [| ? _ Hn | |]; [assumption|exfalso; eapply Hn; reflexivity]).
    apply Hone. right. split; [apply small_short; assumption|apply small_written; assumption].
  - apply Hone. left. reflexivity.
  - assert (-2048 <= a <= 2047) by (inversion Hi as [| ? _ Hn | |]; [assumption|exfalso; eapply Hn; reflexivity]).
    apply Hone. right. split; [|apply small_written; assumption]. apply small_unsigned.
    unfold to_unsigned_int in Em. destruct (to_int src v); try discriminate. cbn [bind] in Em. apply ret_inj in Em. unfold wrap_u64, two64 in Em. lia.
  - apply Hone. left. reflexivity.
  - apply Hone. left. reflexivity.
  - apply Hone. left. reflexivity.
  - apply Hone. left. reflexivity.
  - apply Hone. left. reflexivity.
  - (* array *)
    match goal with Hl : mapM _ _ = Ret _ |- _ => rename Hl into El end.
    destruct (arr_count _ _ _ Em) as (n & -> & Hn). cbn [bind].
    assert (Hi2 : Forall small_ints a0) by (inversion Hi as [| ? Hsc | |]; [destruct Hsc|assumption]).
    assert (Hgoal : eseq (begin_array e n) (fun e1 => eseq (for_each (fun e' x => write_fleece f c e' src x) e1 a) (fun e2 => end_array c e2)) =
      for_each (enc_step c) e (OpBeginArray 0 :: flat_map tree_calls a0 ++ [OpEndArray])).
    { cbn [for_each enc_step]. replace (begin_array e n) with (begin_array e 0).
      - apply eseq_ext. intros e1. rewrite for_each_app, for_each_flat.
        rewrite (for_each_read small_ints _ _ (fun e' x => for_each (enc_step c) e' (tree_calls x))) with (2 := El) (3 := Hi2).
        + apply eseq_ext. intros e2. rewrite for_each_one. reflexivity.
        + intros x y e' Hx Hy. apply IH; assumption.
      - unfold begin_array. unfold not_huge in Hs. replace (two63 <=? 0 * 4) with false by reflexivity.
        replace (two63 <=? n * 4) with false by (unfold two63; lia). reflexivity. }
    destruct (en_stack e); exact Hgoal.
  - (* dict *)
    match goal with Hl : mapM _ _ = Ret _ |- _ => rename Hl into El end.
    assert (Hi2 : Forall (fun kx => small_ints (snd kx)) a0) by (inversion Hi as [| ? Hsc | |]; [destruct Hsc|assumption]).
    assert (Hgoal : eseq (begin_dict e) (fun e1 => eseq (for_each (fun e' kv => eseq (write_key c e' (fst kv)) (fun e'' => write_fleece f c e'' src (snd kv))) e1 a) (fun e2 => end_dict c e2)) =
      for_each (enc_step c) e (OpBeginDict :: flat_map (fun kx => OpKey (fst kx) :: tree_calls (snd kx)) a0 ++ [OpEndDict])).
    { cbn [for_each enc_step]. apply eseq_ext. intros e1. rewrite for_each_app, for_each_flat.
      rewrite (for_each_read (fun kx => small_ints (snd kx)) _ _ (fun e' kx => for_each (enc_step c) e' (OpKey (fst kx) :: tree_calls (snd kx)))) with (2 := El) (3 := Hi2).
      - apply eseq_ext. intros e2. rewrite for_each_one. reflexivity.
      - intros [k x] [k' y] e' Hx Hy. cbn [fst snd] in *. destruct (read_tree f src x) as [t| | |] eqn:Er; try discriminate. cbn [bind] in Hx.
        apply ret_inj in Hx. injection Hx as <- <-. cbn [for_each enc_step]. apply eseq_ext. intros e''. apply IH; assumption. }
    destruct (en_stack e); exact Hgoal.
Qed.

Lemma copy_by_reading c e src src' v v' t : not_huge src -> not_huge src' ->
  read_doc src v = Ret t -> read_doc src' v' = Ret t -> small_ints t ->
  write_fleece (fuel_of src) c e src v = write_fleece (fuel_of src') c e src' v'.
Proof.
  intros H1 H2 R1 R2 Hi. rewrite (copy_calls c src H1 _ _ _ R1 Hi), (copy_calls c src' H2 _ _ _ R2 Hi). reflexivity.
Qed.
Lemma copied_by_reading c src src' v v' t : not_huge src -> not_huge src' ->
  read_doc src v = Ret t -> read_doc src' v' = Ret t -> small_ints t -> copied c src v = copied c src' v'.
Proof. intros H1 H2 R1 R2 Hi. unfold copied. rewrite (copy_by_reading c enc_new src src' v v' t H1 H2 R1 R2 Hi). reflexivity. Qed.

(* ---------- ascending trees ---------- *)

Lemma bytes_lt_irrefl a : ~ bytes_lt a a.
Proof. rewrite bytes_lt_cmp, bytes_cmp_refl. discriminate. Qed.
Lemma bytes_lt_trans a b c : bytes_lt a b -> bytes_lt b c -> bytes_lt a c.
Proof.
  intros H. revert c. induction H as [y b|x y a b Hxy|x a b H IH]; intros c Hc; inversion Hc; subst; try (constructor; auto; lia).
Qed.
Lemma sorted_keys_eq {B} : forall (l m : list (list Z * B)), StronglySorted bytes_lt (map fst l) -> StronglySorted bytes_lt (map fst m) ->
  Permutation l m -> l = m.
Proof.
  induction l as [|x l IH]; intros m Hl Hm Hp.
  - apply Permutation_nil in Hp. congruence.
  - destruct m as [|y m]; [apply Permutation_sym, Permutation_nil in Hp; discriminate|].
    cbn [map] in *. inversion Hl as [|? ? Hl1 Hl2]; subst. inversion Hm as [|? ? Hm1 Hm2]; subst.
    assert (x = y).
    { assert (Hx : In x (y :: m)) by (eapply Permutation_in; [exact Hp|left; reflexivity]).
      assert (Hy : In y (x :: l)) by (eapply Permutation_in; [apply Permutation_sym; exact Hp|left; reflexivity]).
      destruct Hx as [Hx|Hx]; [congruence|]. destruct Hy as [Hy|Hy]; [congruence|].
      rewrite Forall_forall in Hl2, Hm2. exfalso. apply (bytes_lt_irrefl (fst x)).
      apply (bytes_lt_trans _ (fst y)); [apply Hl2|apply Hm2]; apply in_map; assumption. }
    subst y. f_equal. apply IH; auto. eapply Permutation_cons_inv; exact Hp.
Qed.
Lemma asc_arr_inv l : ascending (TArr l) -> Forall ascending l.
Proof. intros H. inversion H as [? Hs| |]; subst; [destruct Hs|assumption]. Qed.
Lemma asc_dict_inv l : ascending (TDict l) -> StronglySorted bytes_lt (map fst l) /\ Forall (fun kx => ascending (snd kx)) l.
Proof. intros H. inversion H as [? Hs| |]; subst; [destruct Hs|auto]. Qed.

(** The ascending form of a tree is unique. *)
Lemma ascending_unique : forall a b, tsim a b -> ascending a -> ascending b -> a = b.
Proof.
  fix IH 3. intros a b H. destruct H as [t|l m HF|l l' m HP HF]; intros Ha Hb.
  - reflexivity.
  - apply asc_arr_inv in Ha, Hb. f_equal. induction HF as [|x y l m Hxy HF IHF]; [reflexivity|].
    inversion Ha; subst. inversion Hb; subst. f_equal; [apply IH; assumption|auto].
  - apply asc_dict_inv in Ha as [Ha1 Ha2]. apply asc_dict_inv in Hb as [Hb1 Hb2].
    assert (E : map fst l' = map fst m) by (clear -HF; induction HF as [|x y l m [E _] HF IHF]; [reflexivity|]; cbn [map]; congruence).
    assert (El : l = l') by (apply sorted_keys_eq; [assumption|rewrite E; assumption|assumption]). subst l'. f_equal. clear Ha1 Hb1 HP E.
    induction HF as [|[k x] [k' y] l m Hxy HF IHF]; [reflexivity|]. cbn [fst snd] in Hxy. destruct Hxy as [-> Hxy].
    inversion Ha2; subst. inversion Hb2; subst. cbn [snd] in *. f_equal; [f_equal; apply IH; assumption|auto].
Qed.
Lemma sorted_nodup l : StronglySorted bytes_lt l -> NoDup l.
Proof.
  induction 1 as [|a l Hs IH Hf]; constructor; auto. intros Hin. rewrite Forall_forall in Hf. apply (bytes_lt_irrefl a). auto.
Qed.
Lemma ascending_distinct : forall t, ascending t -> distinct t.
Proof.
  fix IH 2. intros t H. destruct H as [t Hs|l HF|l Hs HF].
  - destruct t; try destruct Hs; constructor.
  - constructor. induction HF as [|x l Hx HF IHF]; constructor; auto.
  - constructor; [apply sorted_nodup; exact Hs|]. clear Hs. induction HF as [|x l Hx HF IHF]; constructor; auto.
Qed.
Lemma distinct_tsim : forall a b, tsim a b -> distinct a -> distinct b.
Proof.
  fix IH 3. intros a b H. destruct H as [t|l m HF|l l' m HP HF]; intros Ha.
  - exact Ha.
  - inversion Ha as [| | | | | | | |? Hd|]; subst. constructor. clear Ha. induction HF as [|x y l m Hxy HF IHF]; [constructor|].
    inversion Hd; subst. constructor; [eapply IH; eassumption|auto].
  - inversion Ha as [| | | | | | | | |? Hn Hd]; subst.
    assert (E : map fst l' = map fst m) by (clear -HF; induction HF as [|x y l m [E _] HF IHF]; [reflexivity|]; cbn [map]; congruence).
    assert (Hd' : Forall (fun kt => distinct (snd kt)) l') by (eapply Permutation_Forall; eassumption).
    constructor; [rewrite <- E; eapply Permutation_NoDup; [apply Permutation_map; exact HP|exact Hn]|]. clear HP E Ha Hn Hd.
    induction HF as [|x y l' m [_ Hxy] HF IHF]; [constructor|]. inversion Hd'; subst. constructor; [eapply IH; eassumption|auto].
Qed.
Lemma copyable_tsim : forall a b, tsim a b -> copyable a -> copyable b.
Proof.
  fix IH 3. intros a b H. destruct H as [t|l m HF|l l' m HP HF]; intros Ha.
  - exact Ha.
  - apply copyable_arr in Ha. apply copyable_arr. induction HF as [|x y l m Hxy HF IHF]; [constructor|].
    inversion Ha; subst. constructor; [eapply IH; eassumption|auto].
  - apply copyable_dict in Ha. apply copyable_dict.
    assert (Hd : Forall (fun kx => 2 <= lenZ (fst kx) /\ copyable (snd kx)) l') by (eapply Permutation_Forall; eassumption). clear Ha HP.
    induction HF as [|x y l' m Hxy HF IHF]; [constructor|]. destruct Hxy as [E Hxy]. inversion Hd as [|? ? [D1 D2] D3]; subst. constructor; [|auto].
    split; [rewrite <- E; exact D1|eapply IH; eassumption].
Qed.
Lemma tree_size_tsim : forall a b, tsim a b -> tree_size a = tree_size b.
Proof.
  fix IH 3. intros a b H. destruct H as [t|l m HF|l l' m HP HF].
  - reflexivity.
  - cbn [tree_size]. f_equal. induction HF as [|x y l m Hxy HF IHF]; [reflexivity|]. cbn [fold_right]. rewrite (IH _ _ Hxy), IHF. reflexivity.
  - cbn [tree_size]. f_equal.
    transitivity (fold_right (fun kx n => bytes_fleece_size (lenZ (fst kx)) + 5 + tree_size (snd kx) + n) 0 l').
    + clear IH HF. induction HP as [|x a a' HP IHP|x y a|a a1 a2 H1 I1 H2 I2]; cbn [fold_right]; lia.
    + clear HP. induction HF as [|x y l' m Hxy HF IHF]; [reflexivity|]. cbn [fold_right]. destruct Hxy as [E Hxy]. rewrite (IH _ _ Hxy), IHF, E. reflexivity.
Qed.
Lemma copyable_small : forall t, copyable t -> small_ints t.
Proof.
  fix IH 1. intros t H. destruct t; try (apply si_scalar; [exact I|discriminate]).
  - apply si_int. exact H.
  - apply copyable_arr in H. apply si_arr. induction l as [|x l IHl]; constructor; inversion H; subst; auto.
  - apply copyable_dict in H. apply si_dict. induction l as [|x l IHl]; constructor; inversion H as [|? ? [_ H1] H2]; subst; auto.
Qed.

(* ---------- encoded documents are read in ascending order ---------- *)

Lemma tree_nested (P : tree -> Prop) : (forall t, scalar t -> P t) -> (forall l, Forall P l -> P (TArr l)) ->
  (forall l, Forall (fun kx => P (snd kx)) l -> P (TDict l)) -> forall t, P t.
Proof.
  intros H1 H2 H3. fix IH 1. intros t. destruct t; try (apply H1; exact I).
  - apply H2. induction l as [|x l IHl]; constructor; auto.
  - apply H3. induction l as [|x l IHl]; constructor; auto.
Qed.
Lemma stored_ascending m : env_ok m -> forall t v, vstored m None t v -> distinct t -> ascending t.
Proof.
  intros Hok. induction t as [t Hsc|l IH|l IH] using tree_nested; intros v Hv Hd; [apply asc_scalar; exact Hsc| |].
  - destruct (vstored_arr m None Hok l v Hv) as (wide & first & _ & Hx).
    assert (Hl : Forall (fun t => exists x, vstored m None t x) l).
    { apply Forall_forall. intros t Hin. destruct (In_nth_error _ _ Hin) as [n Hn]. destruct (Hx (Z.of_nat n) t) as (x & _ & Hs); [|eauto].
      unfold nthZ. destruct (Z.of_nat n <? 0) eqn:?; [lia|]. rewrite Nat2Z.id. exact Hn. }
    inversion Hd as [| | | | | | | |? Hd2|]; subst. clear Hx Hv Hd. apply asc_arr.
    induction l as [|t l IHl]; constructor; inversion Hl as [|? ? [x Hx] Hl2]; subst; inversion Hd2; subst; inversion IH; subst; eauto.
  - destruct (vstored_dict m None Hok l v Hv) as (kts & wide & first & El & Hsrt & _ & Hx).
    assert (Hk : Forall (fun x => fst x = KString (fst (snd x)) /\ exists y, vstored m None (snd (snd x)) y) kts).
    { apply Forall_forall. intros t Hin. destruct (In_nth_error _ _ Hin) as [n Hn]. destruct (Hx (Z.of_nat n) t) as (kv & xv & _ & _ & Hk & Hs).
      { unfold nthZ. destruct (Z.of_nat n <? 0) eqn:?; [lia|]. rewrite Nat2Z.id. exact Hn. }
      split; [|eauto]. destruct (fst t) as [i|s]; cbn [vkey] in Hk; [destruct Hk as (_ & _ & ? & ? & _); discriminate|]. destruct Hk as (_ & _ & <- & _). reflexivity. }
    inversion Hd as [| | | | | | | | |? Hn Hd2 E0]; clear E0.
    assert (Hl : Forall (fun kx => exists y, vstored m None (snd kx) y) l).
    { rewrite El. apply Forall_map. eapply Forall_impl; [|exact Hk]. cbn beta. tauto. }
    assert (Hs : StronglySorted bytes_lt (map fst l)).
    { rewrite El in Hn. rewrite El. clear -Hsrt Hk Hn. induction Hsrt as [|x kts Hs IHs Hf]; [constructor|]. cbn [map] in *.
      inversion Hk as [|? ? [K1 _] K2]; subst. inversion Hn as [|? ? N1 N2]; subst. constructor; [auto|].
      apply Forall_forall. intros k Hin. rewrite map_map in Hin. apply in_map_iff in Hin as (y & Ey & Hy). rewrite Forall_forall in Hf, K2.
      specialize (Hf y Hy). destruct (K2 y Hy) as [Ky _]. unfold key_le in Hf. rewrite K1, Ky in Hf. cbn [dkey_cmp] in Hf. subst k.
      apply bytes_lt_cmp. destruct (bytes_cmp (fst (snd x)) (fst (snd y))) eqn:E; [|reflexivity|congruence].
      exfalso. apply N1. apply bytes_cmp_Eq in E. rewrite E, map_map. apply (in_map (fun z => fst (snd z))). exact Hy. }
    apply asc_dict; [exact Hs|]. clear Hv Hx Hsrt Hk Hn Hs Hd El.
    induction l as [|t l IHl]; constructor; inversion Hl as [|? ? [x Hx] Hl2]; subst; inversion Hd2; subst; inversion IH; subst; eauto.
Qed.

Lemma exact_document c prefix ops e' rs t :
  sort_ok (c_sort c) -> lenZ prefix mod 2 = 0 ->
  Forall good_op ops -> (forall t, ~ In (OpSetSharedKeys t) ops) ->
  layout_ok (c_ua c) (lenZ prefix) ops -> lenZ prefix + ops_size ops <= MAX_WIDE ->
  enc_run c (enc_new_to_vec prefix) ops = Ret (e', rs) -> Forall (eq (Ok tt)) rs ->
  b_finish (fst (b_run b_init ops)) = Some t -> distinct t ->
  exists D t', finish c e' = Ret (prefix ++ D) /\ tsim t t' /\ ascending t' /\
    forall dbg base, addressable base (prefix ++ D) ->
    let m := mk_env dbg base (prefix ++ D) None in
    exists root, from_bytes m = Ret (Ok root) /\ from_bytes_unchecked m = Ret root /\ read_doc m root = Ret t'.
Proof.
  intros Hs Hev Hg Hno Hn Hw Hrun Hok Ht Hdist.
  destruct (run_all_ok c ops _ _ _ _ Hrun (sh_init prefix) Hok) as [Hacc _].
  assert (Hp : polite b_init ops) by (apply accepted_polite; [intros Hx; exfalso; apply Hx; reflexivity|exact Hacc]).
  destruct (any_document c prefix ops Hs Hev Hg (no_sets_keys_ok ops Hno) Hp (strings_any _ _ _) Hn Hw) as (e2 & D & Er & Ef & _ & Hlen & Hd).
  rewrite Hrun in Er. injection Er as <- _. destruct (Hd t Ht) as (v & t' & H1 & Hall).
  pose proof (sk_none_run c ops _ _ _ Hrun eq_refl Hno) as Hsk.
  exists D, t'. split; [exact Ef|]. split; [exact H1|]. split.
  - assert (Ha : addressable 0 (prefix ++ D)).
    { split; [lia|]. rewrite lenZ_app. unfold MAX_WIDE, two64 in *. lia. }
    destruct (Hall true 0 None (proj1 Ha) (proj2 Ha)) as (_ & _ & H4). rewrite Hsk in H4.
    apply (stored_ascending _ (env_ok_doc _ _ _ _ _ _ Ha Hlen Hw) _ _ H4). eapply distinct_tsim; eauto.
  - intros dbg base Ha m. pose proof Ha as [Hb1 Hb2]. destruct (Hall dbg base None Hb1 Hb2) as (H2 & H3 & H4). rewrite Hsk in H4.
    exists v. split; [exact H2|]. split; [exact H3|]. apply read_vstored; [|exact H4]. eapply env_ok_doc; eauto.
Qed.

(* ---------- copies of copies ---------- *)

Lemma copy_exact c src v t : sort_ok (c_sort c) -> src_ok src -> read_doc src v = Ret t -> copyable t -> Path.is_coll t = true ->
  tree_size t <= MAX_NARROW -> distinct t ->
  exists bs t', copied c src v = Ret bs /\ all_bytes bs /\ lenZ bs <= MAX_NARROW /\ tsim t t' /\ ascending t' /\
    forall dbg base, addressable base bs ->
    let m := mk_env dbg base bs None in
    exists root, from_bytes m = Ret (Ok root) /\ from_bytes_unchecked m = Ret root /\ read_doc m root = Ret t'.
Proof.
  intros Hs Hsrc Hr Hc Hcoll Hsz Hdist. destruct (calls_exist src Hsrc _ _ _ Hr Hc) as (ops & Ho & Hgp).
  assert (Hg : Forall good_op ops) by (eapply Forall_impl; [|exact Hgp]; cbn beta; tauto).
  assert (Hpl : forallb plain_op ops = true) by (apply forallb_forall; intros o Hin; rewrite Forall_forall in Hgp; apply Hgp; exact Hin).
  pose proof (calls_size src _ _ _ _ Hr Ho Hg) as Hz.
  destruct (copy_document c src v t Hs Hsrc Hr Hc Hcoll Hsz) as (e' & bs & H1 & H2 & _).
  assert (Hrun : enc_run c enc_new ops = Ret (e', repeat (Ok tt) (length ops))).
  { apply for_each_run. rewrite <- (write_fleece_calls c src _ _ _ Ho). exact H1. }
  assert (Hb : b_ok b_init ops (mk_b [] (Some t))).
  { apply (calls_tree src _ _ _ _ Ho Hr). destruct t; try discriminate; reflexivity. }
  assert (Hno : forall u, ~ In (OpSetSharedKeys u) ops).
  { intros u Hin. exact (proj1 (Forall_forall _ _) (calls_no_set src _ _ _ Ho) _ Hin). }
  assert (Hok : Forall (eq (Ok tt)) (repeat (@Ok unit encode_error tt) (length ops))).
  { apply Forall_forall. intros r Hin. apply repeat_spec in Hin. auto. }
  assert (Hw : lenZ (@nil Z) + ops_size ops <= MAX_WIDE) by (cbn [lenZ length Z.of_nat]; unfold MAX_WIDE, MAX_NARROW in *; lia).
  destruct (exact_document c [] ops e' _ t Hs eq_refl Hg Hno ltac:(left; split; [exact Hpl|cbn [lenZ length Z.of_nat]; lia]) Hw Hrun Hok
    ltac:(rewrite Hb; reflexivity) Hdist) as (D & t' & Ef & Hts & Hasc & Hd).
  cbn [app] in Ef, Hd. rewrite H2 in Ef. apply ret_inj in Ef. subst D.
  destruct (always_answers c [] ops Hs eq_refl ltac:(constructor) ltac:(eapply Forall_impl; [|exact Hg]; intros o; apply Damage.good_answered) Hw)
    as (e2 & rs & bs2 & R2 & _ & _ & F2 & B2 & L2).
  unfold enc_new in Hrun. rewrite Hrun in R2. injection R2 as <- _. rewrite H2 in F2. apply ret_inj in F2. subst bs2.
  cbn [lenZ length Z.of_nat] in L2.
  exists bs, t'. split; [unfold copied; rewrite H1; cbn [bind fst snd]; exact H2|]. split; [exact B2|]. split; [lia|]. auto.
Qed.

Lemma copy_src_ok dbg base bs : all_bytes bs -> lenZ bs <= MAX_NARROW -> src_ok (mk_env dbg base bs None).
Proof. intros H1 H2. split; [exact H1|]. split; [cbn [e_data]; unfold MAX_NARROW in H2; lia|exact I]. Qed.
Lemma src_not_huge src : src_ok src -> not_huge src.
Proof. intros (_ & H & _). exact H. Qed.

(** Copying a document in order gives a document that copies to itself. *)
Lemma copy_stable c src v t : sort_ok (c_sort c) -> src_ok src -> read_doc src v = Ret t -> copyable t -> Path.is_coll t = true ->
  tree_size t <= MAX_NARROW -> ascending t ->
  exists bs, copied c src v = Ret bs /\
    forall dbg base, addressable base bs ->
    let m := mk_env dbg base bs None in
    exists root, from_bytes m = Ret (Ok root) /\ read_doc m root = Ret t /\ copied c m root = Ret bs.
Proof.
  intros Hs Hsrc Hr Hc Hcoll Hsz Hasc.
  destruct (copy_exact c src v t Hs Hsrc Hr Hc Hcoll Hsz (ascending_distinct _ Hasc)) as (bs & t' & H1 & B & L & Hts & Hasc' & Hd).
  rewrite <- (ascending_unique _ _ Hts Hasc Hasc') in Hd. exists bs. split; [exact H1|]. intros dbg base Ha m.
  destruct (Hd dbg base Ha) as (root & F & _ & R). exists root. split; [exact F|]. split; [exact R|]. rewrite <- H1. symmetry.
  apply (copied_by_reading c src m v root t); auto using src_not_huge, copy_src_ok, copyable_small.
  apply src_not_huge, copy_src_ok; assumption.
Qed.
(** In any case the second copy is the last one that may differ. *)
Lemma copy_twice c src v t : sort_ok (c_sort c) -> src_ok src -> read_doc src v = Ret t -> copyable t -> Path.is_coll t = true ->
  tree_size t <= MAX_NARROW -> distinct t ->
  exists bs bs', copied c src v = Ret bs /\
    forall dbg base, addressable base bs ->
    let m := mk_env dbg base bs None in
    exists root, from_bytes m = Ret (Ok root) /\ copied c m root = Ret bs' /\
    forall dbg' base', addressable base' bs' ->
    let m' := mk_env dbg' base' bs' None in
    exists root', from_bytes m' = Ret (Ok root') /\ read_doc m' root' = read_doc m root /\ copied c m' root' = Ret bs'.
Proof.
  intros Hs Hsrc Hr Hc Hcoll Hsz Hdist.
  destruct (copy_exact c src v t Hs Hsrc Hr Hc Hcoll Hsz Hdist) as (bs & t' & H1 & B & L & Hts & Hasc & Hd).
  assert (Ha0 : addressable 0 bs) by (split; [lia|unfold MAX_NARROW, two64 in *; lia]).
  destruct (Hd true 0 Ha0) as (root0 & F0 & _ & R0).
  destruct (copy_stable c _ root0 t' Hs (copy_src_ok true 0 bs B L) R0 (copyable_tsim _ _ Hts Hc)
    ltac:(destruct Hts; try exact Hcoll; reflexivity) ltac:(rewrite <- (tree_size_tsim _ _ Hts); exact Hsz) Hasc) as (bs' & C0 & H2).
  exists bs, bs'. split; [exact H1|]. intros dbg base Ha m. destruct (Hd dbg base Ha) as (root & F & _ & R).
  exists root. split; [exact F|]. split.
  - rewrite <- C0. apply (copied_by_reading c m _ root root0 t'); auto.
    + apply src_not_huge, copy_src_ok; assumption.
    + apply src_not_huge, copy_src_ok; assumption.
    + apply copyable_small. eapply copyable_tsim; eauto.
  - intros dbg' base' Ha' m'. destruct (H2 dbg' base' Ha') as (root' & F' & R' & C'). exists root'. split; [exact F'|].
    split; [transitivity (Ret t'); [exact R'|symmetry; exact R]|exact C'].
Qed.
