(** Looking keys up in any accepted dict whose keys ascend. *)
From Verif Require Import Prelude Lib SharedKeys Decode Read ReadSpec Safety Navigate Stored Lookup ViewSpec Views AscendSpec.
From Coq Require Import ZifyBool ZifyNat ZifyN Sorted.
Ltac Zify.zify_post_hook ::= Z.div_mod_to_equations.

Lemma bytes_lt_cmp a b : bytes_lt a b <-> bytes_cmp a b = Lt.
Proof.
  split.
  - induction 1 as [y b|x y a b Hxy|x a b H IH]; cbn [bytes_cmp]; [reflexivity| |rewrite Z.compare_refl; exact IH].
    apply Z.compare_lt_iff in Hxy. rewrite Hxy. reflexivity.
  - revert b. induction a as [|x a IH]; intros [|y b]; cbn [bytes_cmp]; try discriminate; [constructor|].
    destruct (Z.compare_spec x y) as [->|Hxy|Hxy]; try discriminate; [intros H; apply bl_rest; auto|intros _; apply bl_byte; exact Hxy].
Qed.
Lemma key_lt_cmp a b : key_lt a b <-> dkey_cmp a b = Lt.
Proof.
  destruct a as [i|s], b as [j|t]; cbn [key_lt dkey_cmp]; [symmetry; apply Z.compare_lt_iff|tauto|split; [tauto|discriminate]|apply bytes_lt_cmp].
Qed.
Lemma stored_cmp e kv k q w : stored_key e kv k -> dict_key_cmp e q kv w = Ret (dkey_cmp q k).
Proof.
  intros H. unfold dict_key_cmp. destruct k as [i|s]; cbn [stored_key] in H; destruct H as (Ht & Hv); rewrite Ht; cbn [bind vtype_eqb orb negb];
    rewrite andb_false_r; destruct q; cbn [dkey_cmp]; try rewrite Hv; reflexivity.
Qed.
Lemma sorted_at {A} (R : A -> A -> Prop) l : StronglySorted R l -> forall i j x y, (i < j)%nat -> nth_error l i = Some x -> nth_error l j = Some y -> R x y.
Proof.
  induction 1 as [|a l Hl IH Ha]; intros i j x y Hij Hi Hj; [destruct i; discriminate|]. destruct j as [|j]; [lia|].
  cbn [nth_error] in Hj. destruct i as [|i]; cbn [nth_error] in Hi.
  - injection Hi as <-. rewrite Forall_forall in Ha. apply Ha. eapply nth_error_In; exact Hj.
  - eapply (IH i j); eauto; lia.
Qed.

Section A.
Variables (e : env) (v : val) (l : list (dkey * val)) (wide : bool).
Hypothesis Hpair : forall j k x, nth_error l j = Some (k, x) -> exists kv, dict_pair e v (Z.of_nat j) = Ret (kv, x) /\ stored_key e kv k.
Hypothesis Hwide : arr_is_wide e v = Ret wide.
Hypothesis Hsrt : StronglySorted key_lt (map fst l).

Lemma asc_at i j x y : (i < j)%nat -> nth_error l i = Some x -> nth_error l j = Some y -> dkey_cmp (fst x) (fst y) = Lt.
Proof using Hsrt.
  intros Hij Hi Hj. apply key_lt_cmp. apply (sorted_at key_lt (map fst l) Hsrt i j); [exact Hij|..]; rewrite nth_error_map; [rewrite Hi|rewrite Hj]; reflexivity.
Qed.

Lemma asc_search q : forall f a b, (a <= b <= length l)%nat -> Z.of_nat b - Z.of_nat a < 2 ^ Z.of_nat f ->
  (forall i x, nth_error l i = Some x -> fst x = q -> (a <= i < b)%nat) ->
  exists r, dict_search (S f) e v q (Z.of_nat a) (Z.of_nat b) (Z.of_nat b - Z.of_nat a) = Ret r /\ looked_up q l r.
Proof using Hpair Hwide Hsrt.
  assert (Hno : forall a b, (b <= a)%nat -> (forall i x, nth_error l i = Some x -> fst x = q -> (a <= i < b)%nat) -> looked_up q l None).
  { intros a b Hab Hin x Hx. apply In_nth_error in Hx as [n Hn]. specialize (Hin n (q, x) Hn eq_refl). lia. }
  induction f as [|f IH]; intros a b Hab Hf Hin; rewrite search_unfold.
  - change (2 ^ Z.of_nat 0) with 1 in Hf. destruct (Z.of_nat a <? Z.of_nat b) eqn:E; [lia|]. exists None. split; [reflexivity|]. apply (Hno a b); [lia|exact Hin].
  - destruct (Z.of_nat a <? Z.of_nat b) eqn:E.
    2:{ exists None. split; [reflexivity|]. apply (Hno a b); [lia|exact Hin]. }
    replace (Z.of_nat (S f)) with (Z.of_nat f + 1) in Hf by lia. rewrite Z.pow_add_r in Hf by lia. change (2 ^ 1) with 2 in Hf.
    cbv zeta. set (m := (a + (b - a) / 2)%nat). assert (Hm : (a <= m < b)%nat) by (unfold m; lia).
    replace (Z.of_nat a + (Z.of_nat b - Z.of_nat a) / 2) with (Z.of_nat m) by (unfold m; lia).
    destruct (nth_error l m) as [[k x]|] eqn:Em; [|apply nth_error_None in Em; lia].
    destruct (Hpair m k x Em) as (kv & Hp & Hk). rewrite Hp. cbn [bind fst snd]. rewrite Hwide. cbn [bind]. rewrite (stored_cmp e kv k q wide Hk). cbn [bind].
    destruct (dkey_cmp q k) eqn:Ec.
    + exists (Some x). split; [reflexivity|]. cbn [looked_up]. apply dkey_cmp_Eq in Ec. subst k. eapply nth_error_In; exact Em.
    + apply (IH a m); [lia|unfold m in *; lia|]. intros i y Hi Hq. pose proof (Hin i y Hi Hq). split; [lia|].
      destruct (Nat.lt_trichotomy i m) as [|[->|Hgt]]; [assumption|exfalso..].
      * rewrite Em in Hi. injection Hi as <-. cbn [fst] in Hq. subst k. rewrite dkey_cmp_refl in Ec. discriminate.
      * pose proof (asc_at m i (k, x) y Hgt Em Hi) as Hlt. cbn [fst] in Hlt. rewrite Hq in Hlt. rewrite dkey_cmp_sym, Ec in Hlt. discriminate.
    + replace (Z.of_nat m + 1) with (Z.of_nat (S m)) by lia. apply (IH (S m) b); [lia|unfold m in *; lia|]. intros i y Hi Hq. pose proof (Hin i y Hi Hq). split; [|lia].
      destruct (Nat.lt_trichotomy i m) as [Hgt|[->|]]; [exfalso..|lia].
      * pose proof (asc_at i m y (k, x) Hgt Hi Em) as Hlt. cbn [fst] in Hlt. rewrite Hq, Ec in Hlt. discriminate.
      * rewrite Em in Hi. injection Hi as <-. cbn [fst] in Hq. subst k. rewrite dkey_cmp_refl in Ec. discriminate.
Qed.
End A.

Section B.
Variables (e : env) (r v : val).
Hypothesis Hwf : wf_env e.
Hypothesis Hr : from_bytes e = Ret (Ok r).
Hypothesis Hv : reach e r v.
Hypothesis Hty : value_type e v = Ret TyDict.

Section L.
Variable l : list (dkey * val).
Hypothesis Hl : dict_entries e v l.
Hypothesis Hsrt : StronglySorted key_lt (map fst l).

Lemma ent_pairs : exists wide, arr_is_wide e v = Ret wide /\ arr_len e v = Ret (2 * lenZ l) /\ 2 * lenZ l < two63 /\
  forall j k x, nth_error l j = Some (k, x) -> exists kv, dict_pair e v (Z.of_nat j) = Ret (kv, x) /\ stored_key e kv k.
Proof using Hwf Hr Hv Hty Hl.
  destruct (here e Hwf r v Hr Hv) as (d & Hg & Hd). destruct (gd_coll e Hwf v d _ Hg Hd Hty ltac:(unfold is_coll; tauto)) as (wide & n & fp & C).
  pose proof (co_n _ _ _ _ _ _ C) as Hn0. pose proof (co_even e Hwf _ _ _ _ _ C Hty) as Hev. pose proof (co_small _ _ _ _ _ _ C) as [Hs Hs2].
  destruct Hl as [Hlen Hent]. unfold dict_len in Hlen. rewrite (co_len _ _ _ _ _ _ C) in Hlen. cbn [bind] in Hlen. apply ret_inj in Hlen.
  assert (Hn : n = 2 * lenZ l) by lia. exists wide. split; [apply C|]. split; [rewrite (co_len _ _ _ _ _ _ C); f_equal; exact Hn|].
  split; [destruct Hwf as (_ & H0 & H63); unfold two63 in *; lia|].
  intros j k x Hj. assert (Hj' : Z.of_nat j < lenZ l) by (assert (Hx : nth_error l j <> None) by congruence; apply nth_error_Some in Hx; unfold lenZ; lia).
  destruct (Hent j k x Hj) as (kv & H1 & H2 & H3). destruct (co_pair e Hwf _ _ _ _ _ C (Z.of_nat j)) as (k' & x' & Hp & E1 & E2); [lia|lia|].
  rewrite (co_get e Hwf _ _ _ _ _ C) in H1 by lia. rewrite E1 in H1. cbn [bind] in H1.
  rewrite (co_get e Hwf _ _ _ _ _ C) in H3 by lia. rewrite E2 in H3. cbn [bind] in H3.
  exists kv. split; [|exact H2]. rewrite Hp. congruence.
Qed.
Lemma ent_get_key q : exists o, dict_get_key e v q = Ret o /\ looked_up q l o.
Proof using Hwf Hr Hv Hty Hl Hsrt.
  destruct ent_pairs as (wide & Hw & Hn & H63 & Hp). unfold dict_get_key, dict_len. rewrite Hn. cbn [bind]. replace (2 * lenZ l / 2) with (lenZ l) by lia.
  destruct (asc_search e v l wide Hp Hw Hsrt q 65 0 (length l)) as (o & Ho & Hlk).
  - lia.
  - change (2 ^ Z.of_nat 65) with 36893488147419103232. unfold lenZ, two63 in *. lia.
  - intros i x Hi _. assert (Hx : nth_error l i <> None) by congruence. apply nth_error_Some in Hx. lia.
  - exists o. split; [|exact Hlk]. rewrite Z.sub_0_r in Ho. exact Ho.
Qed.
Lemma ent_get_sk t key : exists o, dict_get_sk e v key t = Ret o /\ looked_up (wanted t key) l o.
Proof using Hwf Hr Hv Hty Hl Hsrt. unfold dict_get_sk, encode_key. cbn [bind]. apply ent_get_key. Qed.

(** Numbers come first, so the first entry tells whether there are any. *)
Lemma ent_uses : uses_shared_keys e v = Ret match l with (KShared _, _) :: _ => true | _ => false end.
Proof using Hwf Hr Hv Hty Hl Hsrt.
  destruct ent_pairs as (wide & Hw & Hn & H63 & Hp). unfold uses_shared_keys. rewrite Hn. cbn [bind]. destruct l as [|[k x] l'] eqn:El.
  - reflexivity.
  - rewrite lenZ_cons. pose proof (lenZ_nonneg l'). destruct (_ =? 0) eqn:E; [lia|]. destruct (Hp 0%nat k x eq_refl) as (kv & Hpp & Hk). change (Z.of_nat 0) with 0 in Hpp. rewrite Hpp. cbn [bind fst].
    destruct k; destruct Hk as [Ht _]; rewrite Ht; reflexivity.
Qed.
Lemma texts_only : match l with (KShared _, _) :: _ => False | _ => True end -> Forall (fun kx => is_text (fst kx)) l.
Proof using Hl Hsrt.
  intros H. clear Hl. destruct l as [|[[i|s] x] l']; [constructor|contradiction|]. constructor; [exact I|]. cbn [map fst] in Hsrt. apply StronglySorted_inv in Hsrt as [_ Ha].
  rewrite Forall_forall in *. intros [k y] Hin. specialize (Ha k (in_map fst _ _ Hin)). destruct k; [contradiction|exact I].
Qed.
Lemma ent_get key : exists o, dict_get e v key = Ret o /\
  looked_up (match e_sk e with Some t => if existsb (fun kx => match fst kx with KShared _ => true | _ => false end) l then wanted t key else KString key | None => KString key end) l o.
Proof using Hwf Hr Hv Hty Hl Hsrt.
  unfold dict_get, encode_key. rewrite ent_uses. cbn [bind].
  assert (Hex : existsb (fun kx => match fst kx with KShared _ => true | _ => false end) l = match l with (KShared _, _) :: _ => true | _ => false end).
  { pose proof texts_only as Ht. destruct l as [|[[i|s] x] l'] eqn:El; [reflexivity|reflexivity|]. specialize (Ht I). apply Bool.not_true_iff_false. rewrite existsb_exists.
    intros ([k y] & Hin & Hk). rewrite Forall_forall in Ht. specialize (Ht _ Hin). destruct k; [contradiction|discriminate]. }
  rewrite Hex. destruct (match l with (KShared _, _) :: _ => true | _ => false end); cbn [bind]; [|destruct (e_sk e); apply ent_get_key].
  destruct (e_sk e) as [t|]; cbn [bind]; [unfold wanted|]; apply ent_get_key.
Qed.
End L.
End B.

(* ---------- by texts ---------- *)

Lemma known_all es : lenZ (known es) = lenZ es -> es = map (fun kx => (Some (fst kx), snd kx)) (known es).
Proof.
  induction es as [|[[k|] x] es IH]; cbn [known map fst snd]; intros H; [reflexivity| |].
  - rewrite !lenZ_cons in H. f_equal. apply IH. lia.
  - exfalso. rewrite lenZ_cons in H. change (lenZ (@nil (list Z * val))) with 0 in H. pose proof (lenZ_nonneg es). lia.
Qed.
(** The entries as texts, read from the slots. *)
Lemma elems_entries e r v kvs : wf_env e -> from_bytes e = Ret (Ok r) -> reach e r v -> value_type e v = Ret TyDict ->
  dict_elems e v = Ret kvs -> dict_len e v = Ret (lenZ kvs) ->
  forall j k x, nth_error kvs j = Some (k, x) -> exists kv, arr_get e v (2 * Z.of_nat j) = Ret (Some kv) /\ key_text e (e_sk e) kv = Ret (Some k) /\
      arr_get e v (2 * Z.of_nat j + 1) = Ret (Some x).
Proof.
  intros Hwf Hr Hv Hty He Hn. destruct (dict_views e Hwf r v Hr Hv Hty) as (es & it0 & [Hlen Hent] & _ & Hd & _).
  rewrite Hd in He. apply ret_inj in He. rewrite Hlen in Hn. apply ret_inj in Hn. subst kvs. symmetry in Hn. apply known_all in Hn.
  intros j k x Hj. apply (Hent j (Some k) x). rewrite Hn, nth_error_map, Hj. reflexivity.
Qed.

Lemma texts_found e r v kvs key : wf_env e -> from_bytes e = Ret (Ok r) -> reach e r v -> value_type e v = Ret TyDict -> e_sk e = None ->
  dict_elems e v = Ret kvs -> dict_len e v = Ret (lenZ kvs) -> StronglySorted bytes_lt (map fst kvs) -> ~ In [] (map fst kvs) ->
  exists o, dict_get e v key = Ret o /\ looked_up key kvs o.
Proof.
  intros Hwf Hr Hv Hty Hsk He Hn Hs Hne. pose proof (elems_entries e r v kvs Hwf Hr Hv Hty He Hn) as Hent. rewrite Hsk in Hent.
  set (l := map (fun kx : list Z * val => (KString (fst kx), snd kx)) kvs).
  assert (Hl : dict_entries e v l).
  { split; [rewrite Hn; unfold l, lenZ; rewrite map_length; reflexivity|]. intros j k x Hj. unfold l in Hj. rewrite nth_error_map in Hj.
    destruct (nth_error kvs j) as [[s y]|] eqn:Ej; [|discriminate]. injection Hj as <- <-. destruct (Hent j s y Ej) as (kv & H1 & H2 & H3).
    exists kv. split; [exact H1|]. split; [|exact H3]. cbn [fst stored_key].
    assert (Hs0 : s <> []) by (intros ->; apply Hne; apply (in_map fst) with (x := ([], y)); eapply nth_error_In; exact Ej).
    unfold key_text in H2. destruct (value_type e kv) as [t| | |] eqn:Et; try discriminate. cbn [bind] in H2. destruct (vtype_eqb t TyShort); [discriminate|].
    destruct (to_str e kv) as [s'| | |] eqn:Es; try discriminate. cbn [bind] in H2. assert (s' = s) by congruence. subst s'. split; [|reflexivity].
    unfold to_str in Es. rewrite Et in Es. cbn [bind] in Es. destruct t; try (apply ret_inj in Es; congruence). reflexivity. }
  assert (Hsl : StronglySorted key_lt (map fst l)).
  { unfold l. rewrite map_map. cbn [fst]. rewrite <- map_map with (f := fst) (g := KString). clear - Hs. induction Hs as [|a s Hs IH Ha]; cbn [map]; constructor; [exact IH|].
    rewrite Forall_forall in *. intros k Hk. apply in_map_iff in Hk as (b & <- & Hb). exact (Ha b Hb). }
  destruct (ent_get e r v Hwf Hr Hv Hty l Hl Hsl key) as (o & Ho & Hlk). rewrite Hsk in Hlk. exists o. split; [exact Ho|].
  destruct o as [x|]; cbn [looked_up] in *.
  - unfold l in Hlk. apply in_map_iff in Hlk as ([s y] & Hk & Hin). cbn [fst snd] in Hk. congruence.
  - intros x Hin. apply (Hlk x). unfold l. apply in_map_iff. exists (key, x). auto.
Qed.

(** With a table: which texts the stored keys stand for. *)
Lemma table_found e r v l kvs t key : wf_env e -> from_bytes e = Ret (Ok r) -> reach e r v -> value_type e v = Ret TyDict -> e_sk e = Some t ->
  NoDup t -> (forall k, In k t -> lenZ k <= 15) -> lenZ key <= 15 \/ sk_encode t key = None ->
  dict_entries e v l -> StronglySorted key_lt (map fst l) -> (forall s x, In (KString s, x) l -> sk_encode t s = None) ->
  dict_elems e v = Ret kvs -> dict_len e v = Ret (lenZ kvs) ->
  exists o, dict_get e v key = Ret o /\ dict_get_sk e v key t = Ret o /\ looked_up key kvs o.
Proof.
  intros Hwf Hr Hv Hty Hsk Hnd Hlen Hkey Hl Hs Htx He Hn. pose proof (elems_entries e r v kvs Hwf Hr Hv Hty He Hn) as Hent. rewrite Hsk in Hent.
  pose proof Hl as [Hln Hle]. rewrite Hn in Hln. apply ret_inj in Hln.
  assert (Hrel : forall j k x, nth_error l j = Some (k, x) -> exists s, nth_error kvs j = Some (s, x) /\
            match k with KShared i => nthZ t i = Some s | KString s' => s' = s end).
  { intros j k x Hj. assert (Hx : nth_error l j <> None) by congruence. apply nth_error_Some in Hx.
    destruct (nth_error kvs j) as [[s y]|] eqn:Ej; [|apply nth_error_None in Ej; unfold lenZ in *; lia].
    destruct (Hle j k x Hj) as (kv & A & B & D). destruct (Hent j s y Ej) as (kv' & A' & B' & D').
    assert (kv' = kv) by congruence. subst kv'. assert (y = x) by congruence. subst y. exists s. split; [reflexivity|].
    unfold key_text in B'. destruct k as [i|s']; cbn [stored_key] in B; destruct B as [Bt Bv]; rewrite Bt in B'; cbn [bind vtype_eqb] in B'; rewrite Bv in B'; cbn [bind] in B'.
    - apply ret_inj in B'. exact B'.
    - congruence. }
  assert (Hrel' : forall s x, In (s, x) kvs -> exists k, In (k, x) l /\ match k with KShared i => nthZ t i = Some s | KString s' => s' = s end).
  { intros s x Hin. apply In_nth_error in Hin as [j Hj]. assert (Hx : nth_error kvs j <> None) by congruence. apply nth_error_Some in Hx.
    destruct (nth_error l j) as [[k y]|] eqn:Ej; [|apply nth_error_None in Ej; unfold lenZ in *; lia].
    destruct (Hrel j k y Ej) as (s' & H1 & H2). rewrite Hj in H1. injection H1 as <- <-. exists k. split; [eapply nth_error_In; exact Ej|exact H2]. }
  assert (Hz : forall k, In k t -> zstr_make k = k) by (intros k Hk; apply zstr_short; auto).
  assert (Hw : forall o, looked_up (wanted t key) l o -> looked_up key kvs o).
  { intros [x|] Ho; cbn [looked_up] in *.
    - apply In_nth_error in Ho as [j Hj]. destruct (Hrel j _ x Hj) as (s & H1 & H2). unfold wanted in H2. destruct (sk_encode t key) as [i|] eqn:Ek.
      + assert (Hk15 : lenZ key <= 15) by (destruct Hkey; [assumption|discriminate]).
        unfold sk_encode in Ek. apply sk_find_nth in Ek as [Ek _]. rewrite Z.sub_0_r in Ek. rewrite (zstr_short key Hk15) in Ek. assert (s = key) by congruence. subst s. eapply nth_error_In; exact H1.
      + subst s. eapply nth_error_In; exact H1.
    - intros x Hin. destruct (Hrel' key x Hin) as (k & H1 & H2). apply (Ho x). replace (wanted t key) with k; [exact H1|]. unfold wanted. destruct k as [i|s'].
      + assert (Hint : In key t) by (unfold nthZ in H2; destruct (i <? 0); [discriminate|]; eapply nth_error_In; exact H2).
        unfold sk_encode. rewrite (Hz key Hint). rewrite (sk_find_nodup key t 0 i Hnd H2). rewrite Z.add_0_l. reflexivity.
      + subst s'. rewrite (Htx key x H1). reflexivity. }
  destruct (ent_get_sk e r v Hwf Hr Hv Hty l Hl Hs t key) as (o & Ho & Hlk). exists o.
  destruct (ent_get e r v Hwf Hr Hv Hty l Hl Hs key) as (o' & Ho' & Hlk'). rewrite Hsk in Hlk'.
  assert (Heq : o' = o).
  { assert (Hu : forall k a b, looked_up k l a -> looked_up k l b -> a = b).
    { intros k a b Ha Hb. destruct a as [x|], b as [y|]; cbn [looked_up] in *; try (exfalso; first [eapply Hb; eassumption | eapply Ha; eassumption]); [|reflexivity]. f_equal.
      apply In_nth_error in Ha as [i Hi]. apply In_nth_error in Hb as [j Hj]. destruct (Nat.lt_trichotomy i j) as [Hij|[->|Hij]]; [|congruence|].
      - pose proof (asc_at l Hs i j _ _ Hij Hi Hj) as Hc. cbn [fst] in Hc. rewrite dkey_cmp_refl in Hc. discriminate.
      - pose proof (asc_at l Hs j i _ _ Hij Hj Hi) as Hc. cbn [fst] in Hc. rewrite dkey_cmp_refl in Hc. discriminate. }
    destruct (existsb _ l) eqn:Ex; [exact (Hu _ _ _ Hlk' Hlk)|].
    assert (Hnone : forall i x, ~ In (KShared i, x) l).
    { intros i x Hin. apply Bool.not_true_iff_false in Ex. apply Ex. apply existsb_exists. exists (KShared i, x). auto. }
    unfold wanted in Hlk. destruct (sk_encode t key) as [i|] eqn:Ek; [|exact (Hu _ _ _ Hlk' Hlk)].
    destruct o as [x|]; [exfalso; exact (Hnone i x Hlk)|]. destruct o' as [x|]; [|reflexivity]. exfalso. cbn [looked_up] in Hlk'. rewrite (Htx key x Hlk') in Ek. discriminate. }
  subst o'. split; [exact Ho'|]. split; [exact Ho|]. apply Hw. exact Hlk.
Qed.
