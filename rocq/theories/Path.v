(** Every path through an encoded document leads to the value the calls put there. *)
From Verif Require Import Prelude Lib Varint VarintProofs Utf8 Float SharedKeys
  Decode Read Encodable Encoder BuilderSpec Holds Repr EncodableProofs Stored StoredRead SlotProofs
  EncoderProofs EncoderInv EncoderClean EncoderProtocol Isort PathSpec Lookup.
From Coq Require Import ZifyBool ZifyNat ZifyN Sorted Permutation.
Ltac Zify.zify_post_hook ::= Z.div_mod_to_equations.

(* ---------- tsim ---------- *)

Lemma tsim_arr l t' : tsim (TArr l) t' -> exists m, t' = TArr m /\ Forall2 tsim l m.
Proof.
  intros H. inversion H; subst; eauto. exists l. split; [reflexivity|].
  clear H. induction l; constructor; auto. apply ts_refl.
Qed.
Lemma tsim_dict l t' : tsim (TDict l) t' -> exists l' m, t' = TDict m /\ Permutation l l' /\
  Forall2 (fun a b => fst a = fst b /\ tsim (snd a) (snd b)) l' m.
Proof.
  intros H. inversion H; subst; eauto. exists l, l. split; [reflexivity|]. split; [reflexivity|].
  clear H. induction l; constructor; auto. split; [reflexivity|apply ts_refl].
Qed.
Definition is_coll (t : tree) : bool := match t with TArr _ | TDict _ => true | _ => false end.
Lemma tsim_scalar t t' : is_coll t = false -> tsim t t' -> t' = t.
Proof. intros Hc H. destruct H; try discriminate. reflexivity. Qed.

Lemma assoc_In k l s : assoc k l = Some s -> In (k, s) l.
Proof.
  induction l as [|[k' t] l IH]; cbn [assoc]; [discriminate|]. destruct (bytes_eqb k' k) eqn:E.
  - apply bytes_eqb_eq in E. intros H; injection H as ->; subst; left; reflexivity.
  - intros H; right; auto.
Qed.
Lemma assoc_none k l : assoc k l = None -> ~ In k (map fst l).
Proof.
  induction l as [|[k' t] l IH]; cbn [assoc map fst In]; [tauto|]. destruct (bytes_eqb k' k) eqn:E; [discriminate|].
  intros H [->|Hin]; [rewrite bytes_eqb_refl in E; discriminate|]. apply IH; assumption.
Qed.
Lemma NoDup_In_eq {B} (l : list (list Z * B)) k a b : NoDup (map fst l) -> In (k, a) l -> In (k, b) l -> a = b.
Proof.
  induction l as [|[k' t] l IH]; cbn [map fst In]; [tauto|]. intros Hnd Ha Hb. inversion Hnd as [|? ? Hni Hnd2]; subst.
  destruct Ha as [Ha|Ha], Hb as [Hb|Hb].
  - congruence.
  - injection Ha as -> ->. exfalso. apply Hni. change k with (fst (k, b)). apply in_map. exact Hb.
  - injection Hb as -> ->. exfalso. apply Hni. change k with (fst (k, a)). apply in_map. exact Ha.
  - auto.
Qed.
Lemma Forall2_In_r {A B} (R : A -> B -> Prop) l m y : Forall2 R l m -> In y m -> exists x, In x l /\ R x y.
Proof.
  induction 1 as [|a b l m Hab _ IH]; intros Hy; [destruct Hy|]. destruct Hy as [<-|Hy]; [exists a; split; [left|]; auto|].
  destruct (IH Hy) as (x & Hx & Hr). exists x. split; [right|]; auto.
Qed.
Lemma Forall2_map_fst {B} (R : B -> B -> Prop) (l m : list (list Z * B)) :
  Forall2 (fun a b => fst a = fst b /\ R (snd a) (snd b)) l m -> map fst l = map fst m.
Proof. induction 1 as [|a b l m [H _] _ IH]; cbn [map]; congruence. Qed.
Lemma Forall2_nthZ {A B} (R : A -> B -> Prop) l m : Forall2 R l m ->
  forall i x, nthZ l i = Some x -> exists y, nthZ m i = Some y /\ R x y.
Proof.
  induction 1 as [|a b l m Hab _ IH]; intros i x Hi; [apply nthZ_Some in Hi; cbn in Hi; lia|].
  apply nthZ_Some in Hi as Hb. destruct (Z.eq_dec i 0) as [->|Hne].
  - rewrite nthZ_cons_0 in *. injection Hi as ->. eauto.
  - rewrite nthZ_cons_S in Hi by lia. rewrite nthZ_cons_S by lia. destruct (IH _ _ Hi) as (y & Hy & Hr). eauto.
Qed.

Section KP.
Context {SP : KeyPred}.

Section Go.
Variables (e : env) (tb : option shared_keys).
Hypothesis Hok : env_ok e.

Lemma repr_coll t bs p len : repr t bs -> holds (e_data e) p bs -> lenZ bs <= len ->
  is_coll t = false /\ exists ty, value_type e (V p len) = Ret ty /\ scalar_ty ty = true.
Proof.
  intros (_ & _ & Hr) Hh Hl. destruct (Hr e p len Hh Hl) as (Ht & _ & ty & Hty & Hsc).
  split; [|eauto]. specialize (Ht O). cbn [read_tree] in Ht. rewrite Hty in Ht; cbn [bind] in Ht.
  destruct t; try reflexivity; exfalso; destruct ty; try discriminate Hsc;
    match type of Ht with context [bind ?m _] => destruct m; discriminate | _ => discriminate end.
Qed.

Lemma vstored_scalar t v : is_coll t = false -> vstored e tb t v ->
  exists ty, value_type e v = Ret ty /\ scalar_ty ty = true /\ forall f, read_tree (S f) e v = Ret t.
Proof.
  intros Hc [(bs & Hr & Hh & Hl)|(lim & Hs & Hl)]; destruct v as [p len]; cbn [v_pos v_len] in *.
  - destruct Hr as (_ & _ & Hr). destruct (Hr e p len Hh Hl) as (Ht & _ & ty & Hty & Hsc). eauto.
  - destruct Hs as [t bs p Hr Hh Hp|ts p wide Hp Hh Hlim Hsl|kts p wide Hp Hh Hlim Hsrt Hk Hsl]; try discriminate.
    destruct Hr as (_ & _ & Hr). destruct (Hr e p len Hh ltac:(lia)) as (Ht & _ & ty & Hty & Hsc). eauto.
Qed.

Lemma as_array_any t v : vstored e tb t v -> as_array e v = Ret (match t with TArr _ => Some v | _ => None end).
Proof using Hok.
  intros Hv. destruct (is_coll t) eqn:Ec.
  - destruct t; try discriminate.
    + eapply as_array_stored; eauto.
    + destruct (vstored_dict e tb Hok l v Hv) as (kts & wide & first & _ & _ & Hcc & _).
      unfold as_array. rewrite (ca_type _ _ _ _ _ _ Hcc). reflexivity.
  - destruct (vstored_scalar t v Ec Hv) as (ty & Hty & Hsc & _). unfold as_array. rewrite Hty; cbn [bind].
    destruct t; try discriminate; destruct ty; try discriminate; reflexivity.
Qed.
Lemma as_dict_any t v : vstored e tb t v -> as_dict e v = Ret (match t with TDict _ => Some v | _ => None end).
Proof using Hok.
  intros Hv. destruct (is_coll t) eqn:Ec.
  - destruct t; try discriminate.
    + destruct (vstored_arr e tb Hok l v Hv) as (wide & first & Hcc & _).
      unfold as_dict. rewrite (ca_type _ _ _ _ _ _ Hcc). reflexivity.
    + eapply as_dict_stored; eauto.
  - destruct (vstored_scalar t v Ec Hv) as (ty & Hty & Hsc & _). unfold as_dict. rewrite Hty; cbn [bind].
    destruct t; try discriminate; destruct ty; try discriminate; reflexivity.
Qed.

(** What a dict lookup for one key does, whichever form of it is used. *)
Definition lookup_like (get : val -> list Z -> outcome (option val)) : Prop :=
  forall l v k, vstored e tb (TDict l) v -> query_ok tb k ->
  (exists s xv, In (k, s) l /\ get v k = Ret (Some xv) /\ vstored e tb s xv) \/
  (~ In k (map fst l) /\ get v k = Ret None).

Lemma lookup_sim get l t' v k :
  lookup_like get -> query_ok tb k -> tsim (TDict l) t' -> NoDup (map fst l) -> vstored e tb t' v ->
  as_dict e v = Ret (Some v) /\
  match assoc k l with
  | Some s => exists x s', get v k = Ret (Some x) /\ tsim s s' /\ vstored e tb s' x
  | None => get v k = Ret None
  end.
Proof using Hok.
  intros Hget Hq Hts Hnd Hv. apply tsim_dict in Hts as (l' & m & -> & Hp & HF).
  split; [eapply as_dict_stored; eauto|].
  assert (Hnd' : NoDup (map fst l')) by (eapply Permutation_NoDup; [apply Permutation_map; exact Hp|exact Hnd]).
  destruct (Hget m v k Hv Hq) as [(s' & x & Hin & Hg & Hvs)|[Hni Hg]].
  - destruct (Forall2_In_r _ _ _ _ HF Hin) as ([k1 s1] & Hin1 & Hk & Hs). cbn [fst snd] in *. subst k1.
    assert (Hin2 : In (k, s1) l) by (eapply Permutation_in; [apply Permutation_sym; exact Hp|exact Hin1]).
    destruct (assoc k l) as [s|] eqn:Ea.
    + apply assoc_In in Ea. assert (s = s1) by exact (NoDup_In_eq l k s s1 Hnd Ea Hin2). subst s1. eauto.
    + exfalso. apply assoc_none in Ea. apply Ea. change k with (fst (k, s1)). apply in_map. exact Hin2.
  - destruct (assoc k l) as [s|] eqn:Ea; [|exact Hg]. exfalso. apply Hni. apply assoc_In in Ea.
    rewrite <- (Forall2_map_fst _ _ _ HF). change k with (fst (k, s)). apply in_map. eapply Permutation_in; eauto.
Qed.

Lemma go_stored : e_sk e = tb -> table_ok tb -> forall p t t' v,
  tsim t t' -> vstored e tb t' v -> distinct t -> (forall k, In (PKey k) p -> query_ok tb k) ->
  match tree_at t p with
  | Some s => exists x s', go e v p = Ret (Some x) /\ tsim s s' /\ vstored e tb s' x
  | None => no_edge t p -> go e v p = Ret None
  end.
Proof using Hok.
  intros Esk Htb. assert (Hget : lookup_like (dict_get e)).
  { intros l v k Hv Hq. apply dict_get_stored; auto. }
  induction p as [|[i|k] p IH]; intros t t' v Hts Hv Hd Hq; cbn [tree_at go no_edge].
  - exists v, t'. auto.
  - assert (Hq' : forall k, In (PKey k) p -> query_ok tb k) by (intros; apply Hq; right; assumption).
    destruct t as [| |b|z|b|b|s|s|l|l];
      try (rewrite (as_array_any t' v Hv); apply tsim_scalar in Hts; [|reflexivity]; subst t'; cbn [bind]; reflexivity).
    + apply tsim_arr in Hts as (m & -> & HF). rewrite (as_array_any _ v Hv). cbn [bind].
      inversion Hd; subst. destruct (nthZ l i) as [x|] eqn:Ei.
      * destruct (Forall2_nthZ _ _ _ HF i x Ei) as (y & Hy & Hxy).
        destruct (arr_get_stored e tb Hok m v i y Hv Hy) as (xv & _ & Hg & Hvs). rewrite Hg; cbn [bind].
        specialize (IH x y xv Hxy Hvs). destruct (tree_at x p) eqn:Et.
        -- apply IH; auto. eapply nthZ_Forall; eauto.
        -- intros (_ & _ & Hne). apply IH; auto. eapply nthZ_Forall; eauto.
      * intros (Hi0 & Hne & _).
        assert (Hlt : lenZ m < i).
        { assert (lenZ l = lenZ m) by (eapply Forall2_lenZ; eauto).
          destruct (Z_lt_le_dec i (lenZ l)) as [Hlt|]; [|lia]. destruct (nthZ_in l i ltac:(lia)) as [x Hx]. congruence. }
        rewrite (arr_get_beyond e tb Hok m v i Hv Hlt). reflexivity.
    + apply tsim_dict in Hts as (l' & m & -> & _). rewrite (as_array_any _ v Hv). cbn [bind]. reflexivity.
  - assert (Hq' : forall k, In (PKey k) p -> query_ok tb k) by (intros; apply Hq; right; assumption).
    destruct t as [| |b|z|b|b|s|s|l|l];
      try (rewrite (as_dict_any t' v Hv); apply tsim_scalar in Hts; [|reflexivity]; subst t'; cbn [bind]; reflexivity).
    + apply tsim_arr in Hts as (m & -> & HF). rewrite (as_dict_any _ v Hv). cbn [bind]. reflexivity.
    + inversion Hd as [| | | | | | | | |? Hnd Hfa]; subst.
      destruct (lookup_sim (dict_get e) l t' v k Hget (Hq k (or_introl eq_refl)) Hts Hnd Hv) as [Hdv Hl].
      rewrite Hdv; cbn [bind]. destruct (assoc k l) as [s|] eqn:Ea.
      * destruct Hl as (x & s' & Hg & Hss & Hvs). rewrite Hg; cbn [bind].
        assert (Hds : distinct s) by (rewrite Forall_forall in Hfa; apply (Hfa (k, s)); apply assoc_In; exact Ea).
        specialize (IH s s' x Hss Hvs Hds Hq'). exact IH.
      * intros _. rewrite Hl. reflexivity.
Qed.

Lemma go_sk_stored tbl : tb = Some tbl -> table_ok tb -> forall p t t' v,
  tsim t t' -> vstored e tb t' v -> distinct t -> (forall k, In (PKey k) p -> query_ok tb k) ->
  match tree_at t p with
  | Some s => exists x s', go_sk tbl e v p = Ret (Some x) /\ tsim s s' /\ vstored e tb s' x
  | None => no_edge t p -> go_sk tbl e v p = Ret None
  end.
Proof using Hok.
  intros Esk Htb. assert (Hget : lookup_like (fun v k => dict_get_sk e v k tbl)).
  { intros l v k Hv Hq. apply dict_get_sk_stored; auto. }
  induction p as [|[i|k] p IH]; intros t t' v Hts Hv Hd Hq; cbn [tree_at go_sk no_edge].
  - exists v, t'. auto.
  - assert (Hq' : forall k, In (PKey k) p -> query_ok tb k) by (intros; apply Hq; right; assumption).
    destruct t as [| |b|z|b|b|s|s|l|l];
      try (rewrite (as_array_any t' v Hv); apply tsim_scalar in Hts; [|reflexivity]; subst t'; cbn [bind]; reflexivity).
    + apply tsim_arr in Hts as (m & -> & HF). rewrite (as_array_any _ v Hv). cbn [bind].
      inversion Hd; subst. destruct (nthZ l i) as [x|] eqn:Ei.
      * destruct (Forall2_nthZ _ _ _ HF i x Ei) as (y & Hy & Hxy).
        destruct (arr_get_stored e tb Hok m v i y Hv Hy) as (xv & _ & Hg & Hvs). rewrite Hg; cbn [bind].
        specialize (IH x y xv Hxy Hvs). destruct (tree_at x p) eqn:Et.
        -- apply IH; auto. eapply nthZ_Forall; eauto.
        -- intros (_ & _ & Hne). apply IH; auto. eapply nthZ_Forall; eauto.
      * intros (Hi0 & Hne & _).
        assert (Hlt : lenZ m < i).
        { assert (lenZ l = lenZ m) by (eapply Forall2_lenZ; eauto).
          destruct (Z_lt_le_dec i (lenZ l)) as [Hlt|]; [|lia]. destruct (nthZ_in l i ltac:(lia)) as [x Hx]. congruence. }
        rewrite (arr_get_beyond e tb Hok m v i Hv Hlt). reflexivity.
    + apply tsim_dict in Hts as (l' & m & -> & _). rewrite (as_array_any _ v Hv). cbn [bind]. reflexivity.
  - assert (Hq' : forall k, In (PKey k) p -> query_ok tb k) by (intros; apply Hq; right; assumption).
    destruct t as [| |b|z|b|b|s|s|l|l];
      try (rewrite (as_dict_any t' v Hv); apply tsim_scalar in Hts; [|reflexivity]; subst t'; cbn [bind]; reflexivity).
    + apply tsim_arr in Hts as (m & -> & HF). rewrite (as_dict_any _ v Hv). cbn [bind]. reflexivity.
    + inversion Hd as [| | | | | | | | |? Hnd Hfa]; subst.
      destruct (lookup_sim (fun v k => dict_get_sk e v k tbl) l t' v k Hget (Hq k (or_introl eq_refl)) Hts Hnd Hv) as [Hdv Hl].
      rewrite Hdv; cbn [bind]. destruct (assoc k l) as [s|] eqn:Ea.
      * destruct Hl as (x & s' & Hg & Hss & Hvs). rewrite Hg; cbn [bind].
        assert (Hds : distinct s) by (rewrite Forall_forall in Hfa; apply (Hfa (k, s)); apply assoc_In; exact Ea).
        specialize (IH s s' x Hss Hvs Hds Hq'). exact IH.
      * intros _. rewrite Hl. reflexivity.
Qed.

(** The entries of a stored dict in the order iteration gives them. *)
Lemma dict_elems_stored l v : e_sk e = tb -> vstored e tb (TDict l) v -> table_ok tb ->
  (forall k, In k (map fst l) -> query_ok tb k) ->
  exists kvs, dict_elems e v = Ret kvs /\ map fst kvs = map fst l /\
    Forall2 (fun kv kt => vstored e tb (snd kt) (snd kv)) kvs l /\
    StronglySorted (fun a b => dkey_cmp (key_kind tb a) (key_kind tb b) <> Gt) (map fst l).
Proof using Hok.
  intros Esk Hv Ht Hq. destruct (vstored_dict e tb Hok l v Hv) as (kts & wide & first & -> & Hsrt & Hc & Hent).
  destruct (list_choice (fun i x xv =>
      dentry_at e (e_sk e) (first + 2 * i * width_of wide) (width_of wide) wide x xv /\
      vstored e tb (snd (snd x)) xv) kts) as (vs & Hlv & Hvs).
  { intros i x Hi. destruct (Hent i x Hi) as (kv & xv & Hk & Hx & Hkey & Hst). exists xv. split; [|exact Hst].
    exists kv. rewrite Esk. split; [exact Hk|]. split; [exact Hkey|]. rewrite <- Hx. f_equal. f_equal. lia. }
  assert (Hkind : forall i x, nthZ kts i = Some x -> fst x = key_kind tb (fst (snd x))).
  { intros i x Hi. destruct (Hent i x Hi) as (kv & xv & _ & _ & Hkey & _).
    apply (kind_of_text e tb (fst x) (fst (snd x)) (fst (snd x)) kv Ht); auto. apply Hq. rewrite map_map.
    apply in_map_iff. exists x. split; [reflexivity|]. unfold nthZ in Hi. destruct (i <? 0); [discriminate|]. eapply nth_error_In; eauto. }
  exists (combine (map (fun x : entry => fst (snd x)) kts) vs). split; [|split; [|split]].
  - apply (coll_dict_elems e v (2 * lenZ kts) wide first kts vs Hc eq_refl Hlv).
    intros j x Hj. destruct (Hvs j x Hj) as (xv & H1 & H2 & _). eauto.
  - rewrite map_map. clear - Hlv. unfold lenZ in Hlv. revert vs Hlv. induction kts as [|x kts IH]; intros [|y vs] H; cbn in *; try reflexivity; try lia.
    f_equal. apply IH. lia.
  - assert (HF : Forall2 (fun xv (x : entry) => vstored e tb (snd (snd x)) xv) vs kts).
    { apply nth_Forall2; [symmetry; exact Hlv|]. intros i xv Hi. apply nthZ_Some in Hi as Hb.
      destruct (nthZ_in kts i ltac:(lia)) as [x Hx]. destruct (Hvs i x Hx) as (xv' & H1 & _ & H2).
      exists x. split; [exact Hx|]. congruence. }
    clear - HF. induction HF; cbn [map combine]; constructor; auto.
  - rewrite map_map. apply StronglySorted_nth. intros i j a b Hij Ha Hb. rewrite nthZ_map in Ha, Hb.
    change (option_map (fun x : entry => fst (snd x)) (@nthZ entry kts i) = Some a) in Ha.
    change (option_map (fun x : entry => fst (snd x)) (@nthZ entry kts j) = Some b) in Hb.
    destruct (@nthZ entry kts i) as [x|] eqn:Ex; [|discriminate]. destruct (@nthZ entry kts j) as [y|] eqn:Ey; [|discriminate].
    cbn [option_map] in Ha, Hb. injection Ha as <-. injection Hb as <-.
    rewrite <- (Hkind i x Ex), <- (Hkind j y Ey).
    apply (StronglySorted_nth_inv key_le kts Hsrt i j x y Hij Ex Ey).
Qed.

Lemma kind_before a b : dkey_cmp (key_kind tb a) (key_kind tb b) = Lt -> key_before tb a b.
Proof.
  unfold key_kind, key_before. destruct tb as [t|]; [|auto].
  destruct (sk_encode t a), (sk_encode t b); cbn [dkey_cmp]; auto; try discriminate.
Qed.
Lemma kind_inj a b : table_ok tb -> query_ok tb a -> query_ok tb b -> key_kind tb a = key_kind tb b -> a = b.
Proof.
  unfold key_kind, table_ok, query_ok. destruct tb as [t|]; [|intros; congruence]. intros (_ & _ & Hs) Ha Hb.
  destruct (sk_encode t a) as [i|] eqn:Ea, (sk_encode t b) as [j|] eqn:Eb; try discriminate; [|congruence].
  intros H; injection H as ->.
  assert (Hz : zstr_make a = zstr_make b).
  { unfold sk_encode in *. apply sk_find_nth in Ea as [Ea _]. apply sk_find_nth in Eb as [Eb _]. congruence. }
  destruct Ha as [Ha|[Ha|Ha]]; [discriminate| |rewrite (Hs a Ha) in Ea; discriminate].
  destruct Hb as [Hb|[Hb|Hb]]; [discriminate| |rewrite (Hs b Hb) in Eb; discriminate]. congruence.
Qed.
Lemma sorted_before l : table_ok tb -> (forall k, In k l -> query_ok tb k) -> NoDup l ->
  StronglySorted (fun a b => dkey_cmp (key_kind tb a) (key_kind tb b) <> Gt) l -> StronglySorted (key_before tb) l.
Proof.
  intros Ht Hq Hnd Hs. induction Hs as [|a l Hs IH Hf]; [constructor|]. inversion Hnd as [|? ? Hni Hnd2]; subst.
  constructor; [apply IH; auto; intros; apply Hq; right; assumption|].
  rewrite Forall_forall in *. intros b Hb. specialize (Hf b Hb). apply kind_before.
  destruct (dkey_cmp (key_kind tb a) (key_kind tb b)) eqn:E; [|reflexivity|congruence].
  exfalso. apply Hni. apply dkey_cmp_Eq in E. replace a with b; [exact Hb|]. symmetry.
  apply kind_inj; auto; apply Hq; [left|right]; auto.
Qed.
End Go.
End KP.
