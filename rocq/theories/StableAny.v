(** Copies of copies, of any size. *)
From Verif Require Import Prelude Lib Utf8 Float SharedKeys Decode Read Encodable Encoder BuilderSpec LayoutSpec
  VarintProofs FloatProofs Holds Repr EncodableProofs Stored StoredRead SlotProofs EncoderProofs
  EncoderInv EncoderClean EncoderProtocol EncoderLayout Isort Lookup Path PathSpec Access PathDoc Safety
  CopySpec Copy TotalSpec EncoderTotal AscendSpec Ascend StableSpec Stable OrderProofs.
From Verif Require Damage.
From Coq Require Import ZifyBool ZifyNat ZifyN Sorted Permutation.
Ltac Zify.zify_post_hook ::= Z.div_mod_to_equations.
#[local] Existing Instance any_key.

(** Every float is one that converting a float can give. *)
Inductive settled : tree -> Prop :=
| se_f32 b : quiet32 b = b -> settled (TF32 b)
| se_scalar t : scalar t -> (forall b, t <> TF32 b) -> settled t
| se_arr l : Forall settled l -> settled (TArr l)
| se_dict l : Forall (fun kx => settled (snd kx)) l -> settled (TDict l).

Lemma read_settled src : forall f v t, read_tree f src v = Ret t -> settled t.
Proof.
  induction f as [|f IH]; intros v t H; cbn [read_tree] in H; [discriminate|].
  destruct (value_type src v) as [ty| | |]; try discriminate. cbn [bind] in H.
  destruct ty; try discriminate;
    repeat (match type of H with bind ?m _ = _ => destruct m eqn:?Em; try discriminate; cbn [bind] in H end);
    apply ret_inj in H; subst t; try (apply se_scalar; [exact I|intros; discriminate]; fail).
  - apply se_f32. eapply to_float_quiet; eassumption.
  - apply se_arr. match goal with Hl : mapM _ _ = Ret _ |- _ => rename Hl into El end. clear Em.
    revert a0 El. induction a as [|x a IHa]; intros l El; cbn [mapM] in El; [apply ret_inj in El; subst; constructor|].
    destruct (read_tree f src x) eqn:Ex; try discriminate. cbn [bind] in El. destruct (mapM _ a) eqn:E2; try discriminate. cbn [bind] in El.
    apply ret_inj in El. subst. constructor; eauto.
  - apply se_dict. match goal with Hl : mapM _ _ = Ret _ |- _ => rename Hl into El end. clear Em.
    revert a0 El. induction a as [|[k x] a IHa]; intros l El; cbn [mapM fst snd] in El; [apply ret_inj in El; subst; constructor|].
    destruct (read_tree f src x) eqn:Ex; try discriminate. cbn [bind] in El. match type of El with bind ?m _ = _ => destruct m eqn:E2; try discriminate end. cbn [bind] in El.
    apply ret_inj in El. subst. constructor; cbn [snd]; eauto.
Qed.

Lemma tree_calls_b : forall t, settled t -> forall b b', b_put b t = Ok b' -> b_ok b (tree_calls t) b'.
Proof.
  induction t as [t Hs|l IH|l IH] using tree_nested; intros Hq b b' Hp.
  - assert (Hval : forall w, tree_calls t = [OpValue w] -> tree_of w = t -> b_ok b (tree_calls t) b').
    { intros w -> Hw. apply (b_ok_cons _ _ _ b'); [|apply b_ok_nil]. cbn [b_step]. rewrite Hw. unfold b_put in Hp. destruct t; try exact Hp; destruct Hs. }
    destruct t; cbn [tree_calls] in Hval; try (eapply Hval; reflexivity); try (destruct Hs; fail).
    eapply Hval; [reflexivity|]. cbn [tree_of]. inversion Hq as [? E|? ? Hn| |]; subst; [rewrite E; reflexivity|exfalso; eapply Hn; reflexivity].
  - assert (Hq2 : Forall settled l) by (inversion Hq as [|? Hx| |]; subst; [destruct Hx|assumption]).
    assert (Hb : exists st, b = mk_b st None /\ b_begin b (FArr []) = Ok (mk_b (FArr [] :: st) None)).
    { unfold b_put in Hp. destruct b as [st [r|]]; cbn [b_root b_stack] in *; [discriminate|]. exists st. split; [reflexivity|].
      unfold b_begin. cbn [b_root b_stack]. destruct st as [|[?|? [?|]] ?]; try reflexivity; discriminate. }
    destruct Hb as (st & -> & Hb). cbn [tree_calls].
    assert (Hel : forall l0, b_ok (mk_b (FArr l0 :: st) None) (flat_map tree_calls l) (mk_b (FArr (l0 ++ l) :: st) None)).
    { clear Hp Hb Hq. induction l as [|x l IHl]; intros l0; cbn [flat_map]; [rewrite app_nil_r; apply b_ok_nil|].
      inversion IH; subst. inversion Hq2; subst.
      eapply b_ok_app; [match goal with HH : settled x -> _ |- _ => apply HH; [assumption|apply b_put_open; exact I] end|]. cbn [add_child].
      replace (l0 ++ x :: l) with ((l0 ++ [x]) ++ l) by (rewrite <- app_assoc; reflexivity). apply IHl; auto. }
    eapply b_ok_cons; [exact Hb|]. eapply b_ok_app; [apply Hel|]. cbn [app].
    eapply b_ok_cons; [reflexivity|]. replace (b_pop _) with b'; [apply b_ok_nil|].
    unfold b_put in Hp. cbn [b_root b_stack] in Hp. unfold b_pop. cbn [b_stack b_root close_frame].
    destruct st as [|[?|? [?|]] ?]; try discriminate; injection Hp as <-; reflexivity.
  - assert (Hq2 : Forall (fun kx => settled (snd kx)) l) by (inversion Hq as [|? Hx| |]; subst; [destruct Hx|assumption]).
    assert (Hb : exists st, b = mk_b st None /\ b_begin b (FDict [] None) = Ok (mk_b (FDict [] None :: st) None)).
    { unfold b_put in Hp. destruct b as [st [r|]]; cbn [b_root b_stack] in *; [discriminate|]. exists st. split; [reflexivity|].
      unfold b_begin. cbn [b_root b_stack]. destruct st as [|[?|? [?|]] ?]; try reflexivity; discriminate. }
    destruct Hb as (st & -> & Hb). cbn [tree_calls].
    assert (Hel : forall l0, b_ok (mk_b (FDict l0 None :: st) None) (flat_map (fun kx => OpKey (fst kx) :: tree_calls (snd kx)) l) (mk_b (FDict (l0 ++ l) None :: st) None)).
    { clear Hp Hb Hq. induction l as [|[k x] l IHl]; intros l0; cbn [flat_map fst snd]; [rewrite app_nil_r; apply b_ok_nil|].
      inversion IH; subst. inversion Hq2; subst. cbn [snd] in *.
      cbn [app]. apply (b_ok_cons _ _ _ (mk_b (FDict l0 (Some k) :: st) None)); [reflexivity|].
      eapply b_ok_app; [match goal with HH : settled x -> _ |- _ => apply HH; [assumption|apply b_put_open; exact I] end|]. cbn [add_child].
      replace (l0 ++ (k, x) :: l) with ((l0 ++ [(k, x)]) ++ l) by (rewrite <- app_assoc; reflexivity). apply IHl; auto. }
    eapply b_ok_cons; [exact Hb|]. eapply b_ok_app; [apply Hel|]. cbn [app].
    eapply b_ok_cons; [reflexivity|]. replace (b_pop _) with b'; [apply b_ok_nil|].
    unfold b_put in Hp. cbn [b_root b_stack] in Hp. unfold b_pop. cbn [b_stack b_root close_frame].
    destruct st as [|[?|? [?|]] ?]; try discriminate; injection Hp as <-; reflexivity.
Qed.

Lemma good_small : forall t, Forall good_op (tree_calls t) -> small_ints t.
Proof.
  induction t as [t Hs|l IH|l IH] using tree_nested; intros Hg.
  - destruct t; try (apply si_scalar; [exact I|intros; discriminate]); try (destruct Hs; fail).
    apply si_int. cbn [tree_calls] in Hg. inversion Hg as [|? ? Hx _]; subst. destruct Hx as [_ H]. cbn [enc_ok] in H. lia.
  - apply si_arr. cbn [tree_calls] in Hg. inversion Hg as [|? ? _ Hg2]; subst. apply Forall_app in Hg2. destruct Hg2 as [Hg2 _]. clear Hg.
    induction l as [|x l IHl]; constructor; cbn [flat_map] in Hg2; apply Forall_app in Hg2; destruct Hg2; inversion IH; subst; auto.
  - apply si_dict. cbn [tree_calls] in Hg. inversion Hg as [|? ? _ Hg2]; subst. apply Forall_app in Hg2. destruct Hg2 as [Hg2 _]. clear Hg.
    induction l as [|x l IHl]; constructor; cbn [flat_map] in Hg2; apply Forall_app in Hg2; destruct Hg2 as [H1 H2]; inversion H1; subst; inversion IH; subst; auto.
Qed.
Lemma tree_calls_no_set : forall t u, ~ In (OpSetSharedKeys u) (tree_calls t).
Proof.
  induction t as [t Hs|l IH|l IH] using tree_nested; intros u Hin.
  - destruct t; cbn [tree_calls In] in Hin; try (destruct Hs; fail); intuition discriminate.
  - cbn [tree_calls In] in Hin. destruct Hin as [Hin|Hin]; [discriminate|]. apply in_app_or in Hin. destruct Hin as [Hin|[Hin|[]]]; [|discriminate].
    apply in_flat_map in Hin. destruct Hin as (x & Hx & Hin). rewrite Forall_forall in IH. exact (IH x Hx u Hin).
  - cbn [tree_calls In] in Hin. destruct Hin as [Hin|Hin]; [discriminate|]. apply in_app_or in Hin. destruct Hin as [Hin|[Hin|[]]]; [|discriminate].
    apply in_flat_map in Hin. destruct Hin as (x & Hx & [Hin|Hin]); [discriminate|]. rewrite Forall_forall in IH. exact (IH x Hx u Hin).
Qed.
Lemma flat_map_perm {A} (f : A -> list op) l l' : Permutation l l' -> Permutation (flat_map f l) (flat_map f l').
Proof. apply Permutation_flat_map. Qed.
Lemma tree_calls_perm : forall t u, tsim t u -> Permutation (tree_calls t) (tree_calls u).
Proof.
  induction t as [t Hs|l IH|l IH] using tree_nested; intros u H.
  - rewrite (tsim_scalar t u (scalar_not_coll t Hs) H). reflexivity.
  - destruct (tsim_arr l u H) as (m & -> & Hf). cbn [tree_calls]. constructor. apply Permutation_app_tail. clear H.
    induction Hf as [|x y l m Hxy Hf IHf]; [reflexivity|]. cbn [flat_map]. inversion IH; subst. apply Permutation_app; auto.
  - destruct (tsim_dict l u H) as (l' & m & -> & Hp & Hf). cbn [tree_calls]. constructor. apply Permutation_app_tail.
    rewrite (flat_map_perm _ _ _ Hp). assert (IH2 := Permutation_Forall Hp IH). clear - IH2 Hf.
    induction Hf as [|x y l m [E Hxy] Hf IHf]; [reflexivity|]. cbn [flat_map]. inversion IH2; subst. rewrite E. apply Permutation_app; [constructor|]; auto.
Qed.
Lemma ops_size_perm ops ops' : Permutation ops ops' -> ops_size ops = ops_size ops'.
Proof. unfold ops_size. induction 1; cbn [fold_right]; lia. Qed.

Lemma copy_exact_any c src v t : sort_ok (c_sort c) -> not_huge src -> read_doc src v = Ret t -> Path.is_coll t = true ->
  Forall good_op (tree_calls t) -> layout_ok (c_ua c) 0 (tree_calls t) -> ops_size (tree_calls t) <= MAX_WIDE -> distinct t ->
  exists bs t', copied c src v = Ret bs /\ lenZ bs <= MAX_WIDE /\ tsim t t' /\ ascending t' /\
    forall dbg base, addressable base bs ->
    let m := mk_env dbg base bs None in
    exists root, from_bytes m = Ret (Ok root) /\ from_bytes_unchecked m = Ret root /\ read_doc m root = Ret t'.
Proof.
  intros Hs Hsrc Hr Hcoll Hg Hlay Hw Hdist.
  assert (Hb : b_ok b_init (tree_calls t) (mk_b [] (Some t))).
  { apply tree_calls_b; [eapply read_settled; exact Hr|]. destruct t; try discriminate; reflexivity. }
  assert (Hp : polite b_init (tree_calls t)).
  { apply polite_all_ok; [intros Hy; exfalso; apply Hy; reflexivity|]. rewrite Hb. cbn [snd]. apply Forall_forall. intros r Hin. apply repeat_spec in Hin. auto. }
  destruct (any_document c [] _ Hs eq_refl Hg (no_sets_keys_ok _ (tree_calls_no_set t)) Hp (strings_any _ _ _) Hlay Hw) as (e' & D0 & Hrun & _).
  rewrite Hb in Hrun. cbn [snd] in Hrun.
  assert (Hok : Forall (eq (Ok tt)) (repeat (@Ok unit encode_error tt) (length (tree_calls t)))).
  { apply Forall_forall. intros r Hin. apply repeat_spec in Hin. auto. }
  destruct (exact_document c [] _ e' _ t Hs eq_refl Hg (tree_calls_no_set t) Hlay Hw Hrun Hok
    ltac:(rewrite Hb; reflexivity) Hdist) as (D & t' & Ef & Hts & Hasc & Hd).
  cbn [app] in Ef, Hd.
  destruct (always_answers c [] _ Hs eq_refl ltac:(constructor) ltac:(eapply Forall_impl; [|exact Hg]; intros o; apply Damage.good_answered) Hw)
    as (e2 & rs & bs2 & R2 & _ & _ & F2 & B2 & L2).
  rewrite Hrun in R2. injection R2 as <- _. rewrite Ef in F2. apply ret_inj in F2. subst bs2.
  cbn [lenZ length Z.of_nat] in L2.
  exists D, t'. split; [|split; [cbn [lenZ length Z.of_nat] in Hw; lia|auto]].
  unfold copied. rewrite (copy_calls c src Hsrc _ _ _ Hr (good_small _ Hg)).
  apply for_each_run in Hrun. unfold enc_new. rewrite Hrun. cbn [bind fst snd]. exact Ef.
Qed.

Lemma any_not_huge dbg base bs : lenZ bs <= MAX_WIDE -> not_huge (mk_env dbg base bs None).
Proof. intros H. unfold not_huge. cbn [e_data]. unfold MAX_WIDE in H. lia. Qed.

Lemma copy_stable_any c src v t : sort_ok (c_sort c) -> not_huge src -> read_doc src v = Ret t -> Path.is_coll t = true ->
  Forall good_op (tree_calls t) -> layout_ok (c_ua c) 0 (tree_calls t) -> ops_size (tree_calls t) <= MAX_WIDE -> ascending t ->
  exists bs, copied c src v = Ret bs /\
    forall dbg base, addressable base bs ->
    let m := mk_env dbg base bs None in
    exists root, from_bytes m = Ret (Ok root) /\ read_doc m root = Ret t /\ copied c m root = Ret bs.
Proof.
  intros Hs Hsrc Hr Hcoll Hg Hlay Hw Hasc.
  destruct (copy_exact_any c src v t Hs Hsrc Hr Hcoll Hg Hlay Hw (ascending_distinct _ Hasc)) as (bs & t' & H1 & L & Hts & Hasc' & Hd).
  rewrite <- (ascending_unique _ _ Hts Hasc Hasc') in Hd. exists bs. split; [exact H1|]. intros dbg base Ha m.
  destruct (Hd dbg base Ha) as (root & F & _ & R). exists root. split; [exact F|]. split; [exact R|]. rewrite <- H1. symmetry.
  apply (copied_by_reading c src m v root t); auto using any_not_huge, good_small.
  apply any_not_huge; assumption.
Qed.
Lemma copy_twice_any c src v t : sort_ok (c_sort c) -> not_huge src -> read_doc src v = Ret t -> Path.is_coll t = true ->
  Forall good_op (tree_calls t) -> layout_ok (c_ua c) 0 (tree_calls t) -> ops_size (tree_calls t) <= MAX_WIDE -> distinct t ->
  (forall u, tsim t u -> ascending u -> layout_ok (c_ua c) 0 (tree_calls u)) ->
  exists bs bs', copied c src v = Ret bs /\
    forall dbg base, addressable base bs ->
    let m := mk_env dbg base bs None in
    exists root, from_bytes m = Ret (Ok root) /\ copied c m root = Ret bs' /\
    forall dbg' base', addressable base' bs' ->
    let m' := mk_env dbg' base' bs' None in
    exists root', from_bytes m' = Ret (Ok root') /\ read_doc m' root' = read_doc m root /\ copied c m' root' = Ret bs'.
Proof.
  intros Hs Hsrc Hr Hcoll Hg Hlay Hw Hdist Hall.
  destruct (copy_exact_any c src v t Hs Hsrc Hr Hcoll Hg Hlay Hw Hdist) as (bs & t' & H1 & L & Hts & Hasc & Hd).
  assert (Ha0 : addressable 0 bs) by (split; [lia|unfold MAX_WIDE, two64 in *; lia]).
  destruct (Hd true 0 Ha0) as (root0 & F0 & _ & R0).
  pose proof (tree_calls_perm _ _ Hts) as Hperm.
  assert (Hg' : Forall good_op (tree_calls t')) by (eapply Permutation_Forall; eassumption).
  destruct (copy_stable_any c _ root0 t' Hs (any_not_huge true 0 bs L) R0
    ltac:(destruct Hts; try exact Hcoll; reflexivity) Hg' (Hall _ Hts Hasc) ltac:(rewrite <- (ops_size_perm _ _ Hperm); exact Hw) Hasc) as (bs' & C0 & H2).
  exists bs, bs'. split; [exact H1|]. intros dbg base Ha m. destruct (Hd dbg base Ha) as (root & F & _ & R).
  exists root. split; [exact F|]. split.
  - rewrite <- C0. apply (copied_by_reading c m _ root root0 t'); auto.
    + apply any_not_huge; assumption.
    + apply any_not_huge; assumption.
    + apply good_small. exact Hg'.
  - intros dbg' base' Ha' m'. destruct (H2 dbg' base' Ha') as (root' & F' & R' & C'). exists root'. split; [exact F'|].
    split; [transitivity (Ret t'); [exact R'|symmetry; exact R]|exact C'].
Qed.
