(** Proofs for C97: variants with named fields. *)
From Verif Require Import Prelude Lib Utf8 Float SharedKeys Decode Read ReadSpec Encodable Ser De UntrustedSpec Safety Navigate Stored Lookup AscendSpec Ascend AlikeSpec AlikeProofs AlikeEnums FieldsSpec FieldsProofs NumberSpec ToldSpec ToldProofs FitProofs.
From Coq Require Import ZifyBool ZifyNat ZifyN Sorted Permutation.

Lemma psearch_finds ks p k : (forall i j x y, i < j -> nthZ ks i = Some x -> nthZ ks j = Some y -> bytes_lt x y) -> nthZ ks p = Some k ->
  forall f a b, 0 <= a <= p -> p < b <= lenZ ks -> b - a < 2 ^ Z.of_nat f -> psearch f ks (KString k) a b (b - a) = Ret true.
Proof.
  intros Hs Hp. induction f as [|f IH]; intros a b Ha Hb Hf; [cbn in Hf; lia|]. cbn [psearch].
  assert (E : (a <? b) = true) by lia. rewrite E. cbv zeta. set (mid := a + (b - a) / 2).
  assert (Hm : a <= mid < b /\ mid - a <= (b - a) / 2 /\ b - (mid + 1) <= (b - a) / 2).
  { unfold mid. assert (b - a = 2 * ((b - a) / 2) + (b - a) mod 2) by (apply Z.div_mod; lia). assert (0 <= (b - a) mod 2 < 2) by (apply Z.mod_pos_bound; lia). lia. }
  assert (Hh : (b - a) / 2 < 2 ^ Z.of_nat f).
  { apply Z.div_lt_upper_bound; [lia|]. rewrite Nat2Z.inj_succ, Z.pow_succ_r in Hf by lia. exact Hf. }
  clearbody mid. destruct (nthZ ks mid) as [k'|] eqn:Ek; [|apply nthZ_None in Ek; lia].
  destruct (Z.lt_trichotomy p mid) as [Hlt|[->|Hgt]].
  - pose proof (proj1 (bytes_lt_cmp _ _) (Hs _ _ _ _ Hlt Hp Ek)) as Hc. cbn [dkey_cmp]. rewrite Hc. apply IH; lia.
  - replace k' with k by congruence. rewrite dkey_cmp_refl. reflexivity.
  - pose proof (proj1 (bytes_lt_cmp _ _) (Hs _ _ _ _ Hgt Ek Hp)) as Hc. rewrite dkey_cmp_sym. cbn [dkey_cmp]. rewrite Hc. cbn [CompOpp]. apply IH; lia.
Qed.

Lemma named_contains e l v key : wf_env e -> rg e (TDict l) v -> e_sk e = None -> StronglySorted bytes_lt (map fst l) -> In key (map fst l) ->
  dict_contains e v key = Ret true.
Proof.
  intros W Hv Hsk Hs Hin. destruct (named_found e l v W Hv Hsk) as [_ Hf]. rewrite Hf.
  destruct (In_nth_error _ _ Hin) as (p & Hp).
  assert (Hlen : lenZ (map fst l) = lenZ l) by (unfold lenZ; rewrite map_length; reflexivity).
  assert (Hpl : (p < length (map fst l))%nat) by (apply nth_error_Some; congruence).
  assert (Hl : lenZ l < 2 ^ Z.of_nat 66).
  { destruct (rg_dict _ _ _ W Hv) as (it & vs & _ & _ & He & L). destruct (ents_at _ _ _ _ He) as [Hvs _].
    destruct W as (_ & W1 & W2). unfold lenZ in *. unfold two63 in W2. change (2 ^ Z.of_nat 66) with 73786976294838206464. lia. }
  assert (Hord : forall i j x y, i < j -> nthZ (map fst l) i = Some x -> nthZ (map fst l) j = Some y -> bytes_lt x y).
  { intros i j x y Hij Hi Hj. unfold nthZ in Hi, Hj. destruct (i <? 0) eqn:Ei; [discriminate|]. destruct (j <? 0) eqn:Ej; [discriminate|].
    apply (sorted_at bytes_lt _ Hs (Z.to_nat i) (Z.to_nat j)); [lia|assumption..]. }
  assert (Hat : nthZ (map fst l) (Z.of_nat p) = Some key).
  { unfold nthZ. destruct (Z.of_nat p <? 0) eqn:E; [lia|]. rewrite Nat2Z.id. exact Hp. }
  pose proof (psearch_finds (map fst l) (Z.of_nat p) key Hord Hat 66 0 (lenZ l)) as H. rewrite Z.sub_0_r in H.
  apply H; [lia|unfold lenZ in *; lia|exact Hl].
Qed.

Lemma doc_fits_named e name l rest variants fields G K al s0 fuel : let t := TArr (TStr name :: TDict l :: rest) in
  wf_env e -> e_sk e = None -> doc_reads e t -> lookup name variants = Some (VStruct fields) ->
  types_ok G K al (YStruct fields) -> al <> AllVariants -> distinct t ->
  StronglySorted bytes_lt (map fst l) -> Permutation (map fst fields) (map fst l) -> told G t (YEnum variants) s0 ->
  ((K + 1) * (nesting t + 1) <= fuel)%nat -> exists s, de_from_bytes G fuel e (YEnum variants) = Ret (Ok s) /\ told G t (YEnum variants) s.
Proof.
  intros t W Hsk Hdoc Hlk Hty Hal Hdis Hsrt Hperm Ht Hf.
  assert (Hok : okd (de_from_bytes G fuel e (YEnum variants))).
  { destruct Hdoc as (r & d & F & R & Kt), Hty as (HK & Hty & HG). unfold de_from_bytes. rewrite F. cbn [bind].
    assert (H : rg e t r) by (split; [split; [exists (fuel_of e)|eexists]; eauto|apply root_gd; assumption]). clear F R Kt d.
    rewrite (nonptr_new e _ r (rd_nonptr _ _ _ (proj1 H))). cbn [bind].
    destruct (rd_kind _ _ _ (proj1 H)) as (vt & T & _ & RR & _). specialize (proj2 RR (ex_intro _ _ eq_refl)) as ->. clear RR.
    assert (Hnest : (nesting (TDict l) <= nesting t)%nat).
    { pose proof (max_le nesting (TStr name :: TDict l :: rest) (TDict l) (or_intror (or_introl eq_refl))) as Hm. unfold t. cbn [nesting] in *. lia. }
    destruct fuel as [|f]; [lia|]. cbn [de]. unfold as_array. rewrite T. cbn [bind vtype_eqb].
    destruct (rg_arr _ _ _ W H) as (it & vs & wd & Hi & Gv & F & L & Wd & Len & Get). inversion F as [|? x ? xs X Fr]; subst.
    pose proof (Get 0%nat x eq_refl) as Q. cbn [Z.of_nat] in Q.
    rewrite Wd. cbn [bind]. rewrite Q. cbn [bind]. rewrite (rd_debug _ _ _ (proj1 H)). cbn [bind].
    rewrite (nonptr_new e wd x (rd_nonptr _ _ _ (proj1 X))). cbn [bind].
    destruct (rd_any _ _ _ (proj1 X)) as (fv & B & C). rewrite B. cbn [bindr]. cbn [tree_ev] in C. subst fv.
    cbn [ident]. rewrite names_lookup, Hlk. cbn [bind bindr]. rewrite Hlk.
    inversion Fr as [|? y ? ys Y Fs]; subst. pose proof (Get 1%nat y eq_refl) as P1. cbn in P1. rewrite P1. cbn [bind].
    destruct (rd_kind _ _ _ (proj1 Y)) as (u & U & _ & _ & DD). unfold as_dict. rewrite U. rewrite (proj2 DD (ex_intro _ _ eq_refl)). cbn [bind vtype_eqb].
    destruct (named_found e l y W Y Hsk) as [-> _]. cbn [bind].
    assert (El : (lenZ l =? lenZ fields) = true).
    { apply Permutation_length in Hperm. rewrite !map_length in Hperm. unfold lenZ. lia. }
    rewrite El.
    assert (Hall : forall fs : list (list Z * sty), (forall n, In n (map fst fs) -> In n (map fst l)) ->
      (fix all (l0 : list (list Z * sty)) : outcome bool :=
         match l0 with
         | [] => Ret true
         | f0 :: l' =>
             c <- match e_sk e with
                  | Some tb => dict_contains_sk e y (fst f0) tb
                  | None => dict_contains e y (fst f0)
                  end ;;
             if c then all l' else Ret false
         end) fs = Ret true).
    { induction fs as [|[n ty] fs IH]; intros Hin; [reflexivity|]. rewrite Hsk at 1. cbn [fst].
      rewrite (named_contains e l y n W Y Hsk Hsrt) by (apply Hin; left; reflexivity). cbn [bind]. apply IH. intros n' Hn'. apply Hin. right. exact Hn'. }
    rewrite Hall by (intros n Hn; eapply Permutation_in; eassumption). cbn [bind].
    rewrite (nonptr_new e wd y (rd_nonptr _ _ _ (proj1 Y))). cbn [bind].
    destruct (rg_dict _ _ _ W Y) as (jt & ws & J & S & FF & LL). rewrite J. cbn [bind].
    apply okd_bind; [|intros; apply okd_ret].
    apply dist_arr_inv in Hdis. inversion Hdis as [|? ? _ Hdis1]; subst. inversion Hdis1 as [|? ? Hdis2 _]; subst. destruct (dist_dict_inv _ Hdis2) as [Hnd Hdd].
    inversion Ht as [| | | | | | | | | | | | | | | | | | | | | | | |t0 name0 l0 vs1 vt0 s1 Hnm Hlk0 Hv|]; subst.
    assert (name0 = name) by (destruct Hnm as [Hnm|Hnm]; [injection Hnm as ->; reflexivity|discriminate]). subst name0.
    rewrite Hlk in Hlk0. injection Hlk0 as <-. inversion Hv as [| | |? c rest0 fields0 ss Ht']; subst.
    destruct (told_fields _ _ _ _ Hnd Ht') as [Hf1 Hf2]. inversion Hty as [| | | | | | | | | | | | | | |fs Hfs| |]; subst. rewrite Forall_forall in Hfs.
    assert (Hin1 : forall k t', In (k, t') l -> (nesting t' <= nesting (TDict l))%nat).
    { intros k t' Hin. pose proof (nest_dict G l k t' (nesting (TDict l)) (Nat.le_succ_diag_r _) Hin). lia. }
    assert (Hfu : (K + (K + 1) * nesting (TDict l) <= f)%nat).
    { assert ((K + 1) * nesting (TDict l) <= (K + 1) * nesting t)%nat by (apply Nat.mul_le_mono_l; exact Hnest). lia. }
    eapply (loop_okd e G (rg e)); [intros ? ? []; assumption|exact FF|exact S|lia|exact Hnd|reflexivity| | |].
    + intros k' t' ty x' Hin' Hl Hx. destruct (Hf1 _ _ _ Hin' Hl) as (s2 & Hs2).
      eapply (de_okd e G K al W HK Hal HG f ty K (nesting (TDict l)) (Hfs _ (lookup_In _ _ _ Hl)) (opens_ok _ _ _ _ HK (Hfs _ (lookup_In _ _ _ Hl)))).
      * exact (Hin1 _ _ Hin').
      * exact Hfu.
      * exact (Hdd _ _ Hin').
      * exact Hx.
      * exact Hs2.
    + intros k' t' Hin. pose proof (Hin1 _ _ Hin). lia.
    + intros n' ty Hin _ Hnot. exact (Hf2 _ _ Hin Hnot). }
  destruct Hok as (s & Hs). exists s. split; [exact Hs|]. eapply doc_told_enums; [exact W|exact Hdoc| |exact Hs]. eapply told_fit; eassumption.
Qed.
