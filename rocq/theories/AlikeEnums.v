(** Proofs for C94 with enums. *)
From Verif Require Import Prelude Lib SharedKeys Decode Read ReadSpec Encodable Ser De UntrustedSpec Safety Navigate Stored Lookup AscendSpec Ascend AlikeSpec AlikeProofs.
From Coq Require Import ZifyBool ZifyNat ZifyN.

Lemma mapM_ext {A B} (f g : A -> outcome B) : forall l r, (forall x y, f x = Ret y -> g x = Ret y) -> mapM f l = Ret r -> mapM g l = Ret r.
Proof.
  induction l as [|x l IH]; intros r Hfg H; cbn [mapM] in *; [exact H|]. binv H. binv H.
  rewrite (Hfg _ _ Hx). cbn [bind]. rewrite (IH _ Hfg Hx0). exact H.
Qed.
Lemma read_more e : forall f f' v t, (f <= f')%nat -> read_tree f e v = Ret t -> read_tree f' e v = Ret t.
Proof.
  induction f as [|f IH]; intros f' v t Hf H; [discriminate|]. destruct f' as [|f']; [lia|]. cbn [read_tree] in *.
  destruct (value_type e v) as [ty| | |]; try discriminate. cbn [bind] in *. destruct ty; try exact H.
  - binv H. rewrite Hx. cbn [bind]. binv H. rewrite (mapM_ext (read_tree f e) (read_tree f' e) x x0); [exact H| |exact Hx0]. intros y z Hy. apply (IH f'); [lia|exact Hy].
  - binv H. rewrite Hx. cbn [bind]. binv H.
    rewrite (mapM_ext (fun kv => x <- read_tree f e (snd kv) ;; Ret (fst kv, x)) (fun kv => x <- read_tree f' e (snd kv) ;; Ret (fst kv, x)) x x0); [exact H| |exact Hx0].
    intros y z Hy. binv Hy. rewrite (IH f' (snd y) x1); [exact Hy|lia|assumption].
Qed.

Definition rg (e : env) (t : tree) (v : val) : Prop := rd e t v /\ gd e v.
Lemma rd_debug e t v : rd e t v -> debug_fmt e v = Ret tt.
Proof. intros [(f & Hf & H) _]. unfold debug_fmt, read_doc. rewrite (read_more e f _ v t Hf H). reflexivity. Qed.

Lemma gives_det e it vs : gives e it vs -> forall ws, gives e it ws -> ws = vs.
Proof.
  induction 1 as [it it' H|it it' v vs H Hg IH]; intros ws Hw; inversion Hw; subst; rewrite H in *;
    match goal with Q : Ret _ = Ret _ |- _ => injection Q end; intros; subst; try discriminate; try reflexivity.
  f_equal. auto.
Qed.
(** The slots of a collection of an accepted document. *)
Lemma slots_gd e : wf_env e -> forall v ty it vs, gd e v -> value_type e v = Ret ty -> Safety.is_coll ty ->
  arr_iter e v = Ret it -> gives e it vs ->
  Forall (gd e) vs /\ arr_len e v = Ret (lenZ vs) /\ (exists w, arr_is_wide e v = Ret w) /\
  forall i x, nth_error vs i = Some x -> arr_get e v (Z.of_nat i) = Ret (Some x).
Proof.
  intros Hwf v ty it vs (d & Hg & Hd) Hty Hc Hit Hgv. destruct (gd_coll e Hwf v d ty Hg Hd Hty Hc) as (wide & n & fp & C).
  destruct (co_elems e v d wide n fp C) as (xs & Hxs & Hlen & Hnth).
  unfold arr_elems in Hxs. rewrite Hit in Hxs. cbn [bind] in Hxs. destruct (collect_runs _ _ _ _ Hxs) as [Hr _].
  assert (Hgx : Forall (gd e) xs).
  { apply Forall_forall. intros x Hin. apply In_nth_error in Hin as (j & Hj). destruct (Hnth j x Hj) as [Hlt He].
    eapply co_elem_gd; [exact C| |exact He]. lia. }
  assert (Hg2 : gives e it xs).
  { apply runs_gives; [exact Hr|]. eapply Forall_impl; [|exact Hgx]. intros x Hx. apply gd_type. exact Hx. }
  pose proof (gives_det _ _ _ Hgv _ Hg2). subst xs. split; [exact Hgx|]. split; [rewrite Hlen; exact (co_len _ _ _ _ _ _ C)|].
  split; [exists wide; exact (co_wide _ _ _ _ _ _ C)|]. intros i x Hi. destruct (Hnth i x Hi) as [Hlt He].
  rewrite (co_get e Hwf v d wide n fp C (Z.of_nat i)) by lia. rewrite He. reflexivity.
Qed.
Lemma F2_and {A B} (P : A -> B -> Prop) (Q : B -> Prop) l r : Forall2 P l r -> Forall Q r -> Forall2 (fun x y => P x y /\ Q y) l r.
Proof. induction 1; intros HQ; inversion HQ; subst; constructor; auto. Qed.
Lemma rg_arr e l v : wf_env e -> rg e (TArr l) v -> exists it vs w, arr_iter e v = Ret it /\ gives e it vs /\ Forall2 (rg e) l vs /\
  (length vs <= length (e_data e))%nat /\ arr_is_wide e v = Ret w /\ arr_len e v = Ret (lenZ l) /\
  forall i x, nth_error vs i = Some x -> arr_get e v (Z.of_nat i) = Ret (Some x).
Proof.
  intros Hwf [Hr Hg]. destruct (rd_arr _ _ _ Hr) as (it & vs & Hit & Hgv & HF & Hl).
  destruct (rd_kind _ _ _ Hr) as (ty & Ht & _ & [_ Ha] & _). specialize (Ha (ex_intro _ l eq_refl)). subst ty.
  destruct (slots_gd e Hwf v TyArray it vs Hg Ht (or_introl eq_refl) Hit Hgv) as (Hgd & Hlen & (w & Hw) & Hget).
  exists it, vs, w. split; [exact Hit|]. split; [exact Hgv|]. split; [apply F2_and; assumption|]. split; [exact Hl|]. split; [exact Hw|].
  split; [|exact Hget]. rewrite Hlen. f_equal. unfold lenZ. f_equal. clear - HF. induction HF; cbn [length]; congruence.
Qed.
Lemma rg_dict e l v : wf_env e -> rg e (TDict l) v -> exists it vs, arr_iter e v = Ret it /\ gives e it vs /\ ents_by e (rg e) l vs /\
  (length vs <= length (e_data e))%nat.
Proof.
  intros Hwf [Hr Hg]. destruct (rd_dict _ _ _ Hr) as (it & vs & Hit & Hgv & HF & Hl).
  destruct (rd_kind _ _ _ Hr) as (ty & Ht & _ & _ & [_ Ha]). specialize (Ha (ex_intro _ l eq_refl)). subst ty.
  destruct (slots_gd e Hwf v TyDict it vs Hg Ht (or_intror eq_refl) Hit Hgv) as (Hgd & _).
  exists it, vs. split; [exact Hit|]. split; [exact Hgv|]. split; [|exact Hl]. clear - HF Hgd.
  induction HF; [constructor|]. inversion Hgd as [|? ? _ Hg2]; subst. inversion Hg2; subst. constructor; [assumption|split; assumption|auto].
Qed.

(* ---------- looking for the fields of a variant ---------- *)

Lemma kd_stored e k kv : e_sk e = None -> kd e k kv -> stored_key e kv (KString k).
Proof.
  intros Hsk (Hd & ty & Ht & Hty). unfold de_any in Hd. rewrite Ht in Hd. cbn [bind] in Hd. cbn [stored_key]. destruct Hty as [-> | ->].
  - split; [exact Ht|]. binv Hd. congruence.
  - binv Hd. rewrite Hsk in Hd. discriminate.
Qed.
Lemma ents_at e R l vs : ents_by e R l vs -> lenZ vs = 2 * lenZ l /\ forall j k t, nth_error l j = Some (k, t) ->
  exists kv x, nth_error vs (2 * j) = Some kv /\ nth_error vs (2 * j + 1) = Some x /\ kd e k kv.
Proof.
  induction 1 as [|k t l kv x xs Hk Hx He [IHl IH]]; [split; [reflexivity|intros [|j] ? ? H; discriminate]|].
  split; [rewrite !lenZ_cons; lia|]. intros [|j] k' t' Hj; cbn [nth_error] in Hj.
  - injection Hj as <- <-. exists kv, x. auto.
  - destruct (IH j k' t' Hj) as (kv' & x' & A & B & D). exists kv', x'.
    replace (2 * S j)%nat with (S (S (2 * j))) by lia. replace (S (S (2 * j)) + 1)%nat with (S (S (2 * j + 1))) by lia. auto.
Qed.
(** The search as it depends on the texts of the keys. *)
Fixpoint psearch (f : nat) (ks : list (list Z)) (q : dkey) (a b size : Z) : outcome bool :=
  match f with
  | O => Diverge
  | S f' =>
      if a <? b then
        let mid := a + size / 2 in
        match nthZ ks mid with
        | None => Panic
        | Some k =>
            match dkey_cmp q (KString k) with
            | Eq => Ret true
            | Lt => psearch f' ks q a mid (mid - a)
            | Gt => psearch f' ks q (mid + 1) b (b - (mid + 1))
            end
        end
      else Ret false
  end.
Lemma search_keys e v ks wide q : arr_is_wide e v = Ret wide ->
  (forall j k, nthZ ks j = Some k -> exists kv x, dict_pair e v j = Ret (kv, x) /\ stored_key e kv (KString k)) ->
  forall f a b, 0 <= a -> b <= lenZ ks ->
  (r <- dict_search f e v q a b (b - a) ;; Ret match r with Some _ => true | None => false end) = psearch f ks q a b (b - a).
Proof.
  intros Hw Hp. induction f as [|f IH]; intros a b Ha Hb; [reflexivity|]. rewrite search_unfold. cbn [psearch].
  destruct (a <? b) eqn:E; [|reflexivity]. cbv zeta. set (mid := a + (b - a) / 2).
  assert (Hm : a <= mid < b) by (unfold mid; clear - E; assert (0 <= (b - a) / 2 < b - a) by (split; [apply Z.div_pos; lia|apply Z.div_lt; lia]); lia).
  clearbody mid. destruct (nthZ ks mid) as [k|] eqn:Ek; [|apply nthZ_None in Ek; lia].
  destruct (Hp mid k Ek) as (kv & x & Hpp & Hs). rewrite Hpp. cbn [bind fst snd]. rewrite Hw. cbn [bind]. rewrite (stored_cmp e kv _ q wide Hs). cbn [bind].
  destruct (dkey_cmp q (KString k)); [reflexivity|apply IH; lia|apply IH; lia].
Qed.
Lemma named_found e l v : wf_env e -> rg e (TDict l) v -> e_sk e = None -> dict_len e v = Ret (lenZ l) /\
  forall key, dict_contains e v key = psearch 66 (map fst l) (KString key) 0 (lenZ l) (lenZ l).
Proof.
  intros Hwf Hrg Hsk. pose proof Hrg as [Hr Hg].
  destruct (rd_kind _ _ _ Hr) as (ty & Ht & _ & _ & [_ Ha]). specialize (Ha (ex_intro _ l eq_refl)). subst ty.
  destruct (rg_dict e l v Hwf Hrg) as (it & vs & Hit & Hgv & He & Hl).
  destruct (slots_gd e Hwf v TyDict it vs Hg Ht (or_intror eq_refl) Hit Hgv) as (_ & Hlen & (w & Hw) & Hget).
  destruct (ents_at _ _ _ _ He) as [Hvs Hat]. destruct Hg as (d & Hg & Hd).
  destruct (gd_coll e Hwf v d TyDict Hg Hd Ht (or_intror eq_refl)) as (wide & n & fp & C).
  assert (Hn : n = 2 * lenZ l). { pose proof (co_len _ _ _ _ _ _ C) as Q. rewrite Hlen in Q. apply ret_inj in Q. lia. }
  assert (Hdl : dict_len e v = Ret (lenZ l)) by (unfold dict_len; rewrite Hlen; cbn [bind]; f_equal; rewrite Hvs, Z.mul_comm; apply Z.div_mul; discriminate).
  split; [exact Hdl|]. intros key.
  assert (Hpair : forall j k, nthZ (map fst l) j = Some k -> exists kv x, dict_pair e v j = Ret (kv, x) /\ stored_key e kv (KString k)).
  { intros j k Hj. unfold nthZ in Hj. destruct (j <? 0) eqn:Ej; [discriminate|]. rewrite nth_error_map in Hj.
    destruct (nth_error l (Z.to_nat j)) as [[k0 t]|] eqn:En; [|discriminate]. injection Hj as <-.
    assert (Hj' : j < lenZ l) by (assert (Hx : nth_error l (Z.to_nat j) <> None) by congruence; apply nth_error_Some in Hx; unfold lenZ; lia).
    destruct (Hat _ _ _ En) as (kv & x & A & B & D). destruct (co_pair e Hwf _ _ _ _ _ C j) as (k' & x' & Hp & E1 & E2); [lia|lia|].
    exists kv, x'. split; [|apply kd_stored; assumption]. rewrite Hp. f_equal. f_equal. pose proof (Hget _ _ A) as Q.
    replace (Z.of_nat (2 * Z.to_nat j)) with (2 * j) in Q by lia. rewrite (co_get e Hwf _ _ _ _ _ C) in Q by lia. rewrite E1 in Q. cbn [bind] in Q. congruence. }
  assert (Hu : exists b, uses_shared_keys e v = Ret b).
  { unfold uses_shared_keys. rewrite Hlen. cbn [bind]. destruct (_ =? 0) eqn:E; [eauto|]. destruct l as [|[k t] l']; [cbn in Hvs; rewrite Hvs in E; discriminate|].
    destruct (Hpair 0 k eq_refl) as (kv & x & Hp & Hs & _). rewrite Hp. cbn [bind fst]. rewrite Hs. cbn [bind]. eauto. }
  destruct Hu as (b & Hu). unfold dict_contains, dict_get, encode_key. rewrite Hu. cbn [bind]. rewrite Hsk.
  assert (Hk : (if b then Ret (KString key) else Ret (KString key)) = Ret (KString key)) by (destruct b; reflexivity). rewrite Hk. cbn [bind].
  unfold dict_get_key. rewrite Hdl. cbn [bind].
  pose proof (search_keys e v (map fst l) w (KString key) Hw Hpair 66 0 (lenZ l) (Z.le_refl 0)) as Hse. rewrite Z.sub_0_r in Hse.
  apply Hse. unfold lenZ. rewrite map_length. apply Z.le_refl.
Qed.

Section Two.
Variables (e1 e2 : env) (named : bool) (G : nat -> sty).
Hypotheses (W1 : wf_env e1) (W2 : wf_env e2).
Hypothesis K : named = true -> e_sk e1 = None /\ e_sk e2 = None.
Notation same t g1 g2 := (same_at (rg e1) (rg e2) t g1 g2).

Definition each_fit (f : nat) := fix each (ts : list sty) (l : list tree) : bool :=
  match ts, l with
  | ty' :: ts', x :: l' => enums_fit named G f ty' x && each ts' l'
  | _, _ => true
  end.

Lemma de_fit : forall f ty t, enums_fit named G f ty t = true -> same t (fun v => de G f e1 false v ty) (fun v => de G f e2 false v ty).
Proof.
  induction f as [|f IH]; intros ty t Hfit v1 v2 H1 H2; [reflexivity|].
  destruct (rd_any _ _ _ (proj1 H1)) as (ev1 & A1 & E1). destruct (rd_any _ _ _ (proj1 H2)) as (ev2 & A2 & E2).
  destruct (rd_kind _ _ _ (proj1 H1)) as (t1 & T1 & N1 & R1 & D1). destruct (rd_kind _ _ _ (proj1 H2)) as (t2 & T2 & N2 & R2 & D2).
  assert (Hsc : forall ty', visit_scalar ty' ev1 = visit_scalar ty' ev2).
  { intros ty'. destruct t; cbn [tree_ev] in E1, E2; try (subst; reflexivity).
    destruct E1 as (u1 & ->), E2 as (u2 & ->). destruct ty'; reflexivity. }
  assert (Hseq : forall ty', (forall l, t = TArr l -> ev1 = VisSeq /\ ev2 = VisSeq) /\
     ((forall l, t <> TArr l) -> forall (a1 a2 : dser sval),
        match ev1 with VisSeq => a1 | _ => Ret (visit_scalar ty' ev1) end = match ev2 with VisSeq => a2 | _ => Ret (visit_scalar ty' ev2) end)).
  { intros ty'. split; [intros l ->; auto|]. intros Hn a1 a2. specialize (Hsc ty').
    destruct t; cbn [tree_ev] in E1, E2; try (subst; congruence); try (exfalso; eapply Hn; reflexivity).
    destruct E1 as (u1 & ->), E2 as (u2 & ->). congruence. }
  assert (Hes : forall tys l, each_fit f tys l = true ->
     each_same (rg e1) (rg e2) (fun x t => de G f e1 false x t) (fun x t => de G f e2 false x t) tys l).
  { clear - IH. induction tys as [|x tys IHt]; intros l H; [constructor|]. destruct l as [|t l]; [constructor|]. cbn [each_fit] in H.
    apply andb_prop in H as [Ha Hb]. constructor; [apply IH; exact Ha|apply IHt; exact Hb]. }
  assert (Hn : forall ty' tys (a : list sval -> sval), (forall l, t = TArr l -> each_fit f tys l = true) ->
     match ev1 with VisSeq => it <- arr_iter e1 v1 ;; l <-? seq_n (fun x t => de G f e1 false x t) e1 tys it ;; Ret (Ok (a l)) | _ => Ret (visit_scalar ty' ev1) end =
     match ev2 with VisSeq => it <- arr_iter e2 v2 ;; l <-? seq_n (fun x t => de G f e2 false x t) e2 tys it ;; Ret (Ok (a l)) | _ => Ret (visit_scalar ty' ev2) end).
  { intros ty' tys a Htys. destruct (Hseq ty') as [Ha Hna]. destruct t; try (apply Hna; intros; discriminate).
    destruct (Ha l eq_refl) as [-> ->].
    destruct (rg_arr _ _ _ W1 H1) as (it1 & vs1 & w1 & -> & G1 & F1 & L1 & _). destruct (rg_arr _ _ _ W2 H2) as (it2 & vs2 & w2 & -> & G2 & F2 & L2 & _).
    cbn [bind]. rewrite (seq_n_same e1 e2 (rg e1) (rg e2) _ (fun x t => de G f e2 false x t) tys l vs1 vs2 it1 it2); [reflexivity| |assumption..].
    apply Hes, Htys. reflexivity. }
  assert (Hign : forall t, same t (ignore_any f e1 false) (ignore_any f e2 false)).
  { intros t' x1 x2 X1 X2. apply (ignore_same e1 e2 f t'); [apply X1|apply X2]. }
  assert (Harr : t1 = TyArray <-> t2 = TyArray) by tauto. assert (Hdict : t1 = TyDict <-> t2 = TyDict) by tauto.
  destruct ty; cbn [de]; try (rewrite A1, A2; cbn [bindr]; rewrite Hsc; reflexivity).
  - (* YBytes *) rewrite A1, A2; cbn [bindr]. destruct (Hseq YBytes) as [Ha Hna]. destruct t; try (apply Hna; intros; discriminate).
    destruct (Ha l eq_refl) as [-> ->].
    destruct (rg_arr _ _ _ W1 H1) as (it1 & vs1 & w1 & -> & G1 & F1 & L1 & _). destruct (rg_arr _ _ _ W2 H2) as (it2 & vs2 & w2 & -> & G2 & F2 & L2 & _).
    cbn [bind].
    rewrite (seq_all_same e1 e2 (rg e1) (rg e2) _ (fun x => de G f e2 false x (YInt U8)) l vs1 vs2 _ (S (S (length (e_data e2)))) it1 it2);
      [reflexivity| |assumption..|lia|lia].
    intros t _. apply IH. destruct f; reflexivity.
  - (* YOpt *) rewrite T1, T2. cbn [bind].
    assert (HK : (x <-? de G f e1 false v1 ty ;; Ret (Ok (SSome x))) = (x <-? de G f e2 false v2 ty ;; Ret (Ok (SSome x)))).
    { pose proof (IH ty t Hfit v1 v2 H1 H2) as HH. cbv beta in HH. rewrite HH. reflexivity. }
    assert (Hnull : t1 = TyNull <-> t2 = TyNull) by tauto.
    destruct t1, t2; try exact HK; try reflexivity; exfalso; (assert (HX : TyNull = TyNull) by reflexivity); apply Hnull in HX; discriminate.
  - (* YNewtype *) rewrite A1, A2; cbn [bindr]. apply (Hn (YNewtype ty) [ty] (fun l => SNewtype (nth 0 l SUnit))).
    intros l ->. exact Hfit.
  - (* YSeq *) unfold as_array. rewrite T1, T2. cbn [bind].
    destruct (vtype_eqb t1 TyArray) eqn:V1.
    + assert (t1 = TyArray) by (destruct t1; try discriminate; reflexivity). subst t1. rewrite (proj1 Harr eq_refl). cbn [vtype_eqb].
      destruct (proj1 R1 eq_refl) as (l & ->). cbn [enums_fit] in Hfit. rewrite forallb_forall in Hfit.
      destruct (rg_arr _ _ _ W1 H1) as (it1 & vs1 & w1 & -> & G1 & F1 & L1 & _). destruct (rg_arr _ _ _ W2 H2) as (it2 & vs2 & w2 & -> & G2 & F2 & L2 & _).
      cbn [bind].
      rewrite (seq_all_same e1 e2 (rg e1) (rg e2) _ (fun x => de G f e2 false x ty) l vs1 vs2 _ (S (S (length (e_data e2)))) it1 it2);
        [reflexivity| |assumption..|lia|lia].
      intros t Hin. apply IH. apply Hfit. exact Hin.
    + destruct (vtype_eqb t2 TyArray) eqn:V2; [|reflexivity].
      assert (t2 = TyArray) by (destruct t2; try discriminate; reflexivity). subst t2. rewrite (proj2 Harr eq_refl) in V1. discriminate.
  - (* YTuple *) rewrite A1, A2; cbn [bindr]. apply (Hn (YTuple ts) ts STuple). intros l ->. exact Hfit.
  - rewrite A1, A2; cbn [bindr]. apply (Hn (YTupleStruct ts) ts STupleStruct). intros l ->. exact Hfit.
  - (* YMap *) unfold as_dict. rewrite T1, T2. cbn [bind].
    destruct (vtype_eqb t1 TyDict) eqn:V1.
    + assert (t1 = TyDict) by (destruct t1; try discriminate; reflexivity). subst t1. rewrite (proj1 Hdict eq_refl). cbn [vtype_eqb].
      destruct (proj1 D1 eq_refl) as (l & ->). cbn [enums_fit] in Hfit. rewrite forallb_forall in Hfit.
      destruct (rg_dict _ _ _ W1 H1) as (it1 & vs1 & -> & G1 & F1 & L1). destruct (rg_dict _ _ _ W2 H2) as (it2 & vs2 & -> & G2 & F2 & L2).
      cbn [bind].
      rewrite (map_all_same e1 e2 (rg e1) (rg e2) _ (fun x => de G f e2 true x ty1) _ (fun x => de G f e2 false x ty2)) with (l := l) (vs1 := vs1) (vs2 := vs2) (n2 := S (S (length (e_data e2)))) (it2 := it2);
        [reflexivity|apply de_key_same| |assumption..|lia|lia].
      intros kx Hin. apply IH. apply (Hfit kx Hin).
    + destruct (vtype_eqb t2 TyDict) eqn:V2; [|reflexivity].
      assert (t2 = TyDict) by (destruct t2; try discriminate; reflexivity). subst t2. rewrite (proj2 Hdict eq_refl) in V1. discriminate.
  - (* YStruct *) unfold as_dict. rewrite T1, T2. cbn [bind].
    destruct (vtype_eqb t1 TyDict) eqn:V1.
    + assert (t1 = TyDict) by (destruct t1; try discriminate; reflexivity). subst t1. rewrite (proj1 Hdict eq_refl). cbn [vtype_eqb].
      destruct (proj1 D1 eq_refl) as (l & ->). cbn [enums_fit] in Hfit. rewrite forallb_forall in Hfit.
      destruct (rg_dict _ _ _ W1 H1) as (it1 & vs1 & -> & G1 & F1 & L1). destruct (rg_dict _ _ _ W2 H2) as (it2 & vs2 & -> & G2 & F2 & L2).
      cbn [bind].
      rewrite (struct_same e1 e2 (rg e1) (rg e2) G _ (fun x t => de G f e2 false x t) _ (ignore_any f e2 false) fields Hign l vs1 vs2 _ (S (S (length (e_data e2)))) it1 it2 []);
        [reflexivity| |assumption..|lia|lia].
      intros k t ty Hin Hlk. apply IH. specialize (Hfit _ Hin). cbn [fst snd] in Hfit. rewrite Hlk in Hfit. exact Hfit.
    + destruct (vtype_eqb t2 TyDict) eqn:V2; [|reflexivity].
      assert (t2 = TyDict) by (destruct t2; try discriminate; reflexivity). subst t2. rewrite (proj2 Hdict eq_refl) in V1. discriminate.
  - (* YEnum *) unfold as_array. rewrite T1, T2. cbn [bind].
    destruct (vtype_eqb t1 TyArray) eqn:V1.
    2:{ destruct (vtype_eqb t2 TyArray) eqn:V2; [|reflexivity].
      assert (t2 = TyArray) by (destruct t2; try discriminate; reflexivity). subst t2. rewrite (proj2 Harr eq_refl) in V1. discriminate. }
    assert (t1 = TyArray) by (destruct t1; try discriminate; reflexivity). subst t1. rewrite (proj1 Harr eq_refl). cbn [vtype_eqb].
    destruct (proj1 R1 eq_refl) as (l & ->).
    destruct (rg_arr _ _ _ W1 H1) as (it1 & vs1 & w1 & Hit1 & G1 & F1 & L1 & Wd1 & Len1 & Get1).
    destruct (rg_arr _ _ _ W2 H2) as (it2 & vs2 & w2 & Hit2 & G2 & F2 & L2 & Wd2 & Len2 & Get2).
    destruct l as [|t0 rest]; [discriminate|].
    inversion F1 as [|? x1 ? xs1 X1 Fr1]; subst. inversion F2 as [|? x2 ? xs2 X2 Fr2]; subst.
    rewrite Wd1, Wd2. cbn [bind]. pose proof (Get1 0%nat x1 eq_refl) as Q1. pose proof (Get2 0%nat x2 eq_refl) as Q2. cbn [Z.of_nat] in Q1, Q2.
    rewrite Q1, Q2. cbn [bind]. rewrite (rd_debug _ _ _ (proj1 H1)), (rd_debug _ _ _ (proj1 H2)). cbn [bind].
    rewrite (nonptr_new e1 w1 x1 (rd_nonptr _ _ _ (proj1 X1))), (nonptr_new e2 w2 x2 (rd_nonptr _ _ _ (proj1 X2))). cbn [bind].
    destruct (rd_any _ _ _ (proj1 X1)) as (f1 & B1 & C1). destruct (rd_any _ _ _ (proj1 X2)) as (f2 & B2 & C2). rewrite B1, B2. cbn [bindr].
    assert (Heq : f1 = f2). { destruct t0; cbn [tree_ev] in C1, C2; try congruence. discriminate. }
    subst f2. destruct (ident (map fst variants) f1) as [o|o] eqn:Hid; [|reflexivity]. cbn [bind bindr]. destruct o as [s|]; [|reflexivity].
    assert (Hs : f1 = VisStr s \/ f1 = VisBytes s).
    { destruct t0; cbn [tree_ev] in C1; subst; cbn [ident] in Hid; try discriminate.
      - destruct (existsb _ _); [injection Hid as <-; auto|discriminate].
      - destruct (existsb _ _); [injection Hid as <-; auto|discriminate]. }
    assert (Ht0 : t0 = TStr s \/ t0 = TData s).
    { destruct t0; cbn [tree_ev] in C1; try discriminate; rewrite C1 in Hs; destruct Hs as [Hs|Hs]; try discriminate; injection Hs as ->; auto. }
    assert (Hfit2 : match lookup s variants with
              | None | Some VUnit => true
              | Some (VNewtype ty') => match rest with x :: _ => enums_fit named G f ty' x | [] => false end
              | Some (VTuple ts) => match rest with TArr l :: _ => each_fit f ts l | _ :: _ => true | [] => false end
              | Some (VStruct fs) =>
                  named &&
                  match rest with
                  | TDict l :: _ =>
                      forallb (fun kx => match lookup (fst kx) fs with Some ty' => enums_fit named G f ty' (snd kx) | None => true end) l
                  | _ :: _ => true
                  | [] => false
                  end
              end = true) by (destruct Ht0 as [-> | ->]; exact Hfit).
    clear Hfit. destruct (lookup s variants) as [vt|]; [|reflexivity]. destruct vt as [|ty'|ts|fs].
    + rewrite Len1, Len2. cbn [bind]. destruct (_ =? 1); reflexivity.
    + destruct rest as [|tr rest]; [discriminate|]. inversion Fr1 as [|? y1 ? ys1 Y1 Fs1]; subst. inversion Fr2 as [|? y2 ? ys2 Y2 Fs2]; subst.
      pose proof (Get1 1%nat y1 eq_refl) as P1. pose proof (Get2 1%nat y2 eq_refl) as P2. cbn in P1, P2. rewrite P1, P2. cbn [bind].
      rewrite (nonptr_new e1 w1 y1 (rd_nonptr _ _ _ (proj1 Y1))), (nonptr_new e2 w2 y2 (rd_nonptr _ _ _ (proj1 Y2))). cbn [bind].
      pose proof (IH ty' tr Hfit2 y1 y2 Y1 Y2) as HH. cbv beta in HH. rewrite HH. reflexivity.
    + destruct rest as [|tr rest]; [discriminate|]. inversion Fr1 as [|? y1 ? ys1 Y1 Fs1]; subst. inversion Fr2 as [|? y2 ? ys2 Y2 Fs2]; subst.
      pose proof (Get1 1%nat y1 eq_refl) as P1. pose proof (Get2 1%nat y2 eq_refl) as P2. cbn in P1, P2. rewrite P1, P2. cbn [bind].
      destruct (rd_kind _ _ _ (proj1 Y1)) as (u1 & U1 & _ & RR1 & _). destruct (rd_kind _ _ _ (proj1 Y2)) as (u2 & U2 & _ & RR2 & _).
      unfold as_array. rewrite U1, U2. cbn [bind].
      assert (Hu : u1 = TyArray <-> u2 = TyArray) by tauto.
      destruct (vtype_eqb u1 TyArray) eqn:V3.
      2:{ destruct (vtype_eqb u2 TyArray) eqn:V4; [|reflexivity].
        assert (u2 = TyArray) by (destruct u2; try discriminate; reflexivity). subst u2. rewrite (proj2 Hu eq_refl) in V3. discriminate. }
      assert (u1 = TyArray) by (destruct u1; try discriminate; reflexivity). subst u1. rewrite (proj1 Hu eq_refl). cbn [vtype_eqb].
      destruct (proj1 RR1 eq_refl) as (l & ->).
      destruct (rg_arr _ _ _ W1 Y1) as (jt1 & ws1 & z1 & J1 & S1 & FF1 & LL1 & _ & Ln1 & _).
      destruct (rg_arr _ _ _ W2 Y2) as (jt2 & ws2 & z2 & J2 & S2 & FF2 & LL2 & _ & Ln2 & _).
      rewrite Ln1, Ln2. cbn [bind]. destruct (lenZ l =? lenZ ts); [|reflexivity].
      rewrite (nonptr_new e1 w1 y1 (rd_nonptr _ _ _ (proj1 Y1))), (nonptr_new e2 w2 y2 (rd_nonptr _ _ _ (proj1 Y2))). cbn [bind].
      rewrite J1, J2. cbn [bind].
      rewrite (seq_n_same e1 e2 (rg e1) (rg e2) _ (fun x t => de G f e2 false x t) ts l ws1 ws2 jt1 jt2); [reflexivity| |assumption..].
      apply Hes. exact Hfit2.
    + apply andb_prop in Hfit2 as [Hnm Hfit2]. destruct (K Hnm) as [K1 K2]. rewrite K1, K2.
      destruct rest as [|tr rest]; [discriminate|]. inversion Fr1 as [|? y1 ? ys1 Y1 Fs1]; subst. inversion Fr2 as [|? y2 ? ys2 Y2 Fs2]; subst.
      pose proof (Get1 1%nat y1 eq_refl) as P1. pose proof (Get2 1%nat y2 eq_refl) as P2. cbn in P1, P2. rewrite P1, P2. cbn [bind].
      destruct (rd_kind _ _ _ (proj1 Y1)) as (u1 & U1 & _ & _ & RR1). destruct (rd_kind _ _ _ (proj1 Y2)) as (u2 & U2 & _ & _ & RR2).
      unfold as_dict. rewrite U1, U2. cbn [bind].
      assert (Hu : u1 = TyDict <-> u2 = TyDict) by tauto.
      destruct (vtype_eqb u1 TyDict) eqn:V3.
      2:{ destruct (vtype_eqb u2 TyDict) eqn:V4; [|reflexivity].
        assert (u2 = TyDict) by (destruct u2; try discriminate; reflexivity). subst u2. rewrite (proj2 Hu eq_refl) in V3. discriminate. }
      assert (u1 = TyDict) by (destruct u1; try discriminate; reflexivity). subst u1. rewrite (proj1 Hu eq_refl). cbn [vtype_eqb].
      destruct (proj1 RR1 eq_refl) as (l & ->). rewrite forallb_forall in Hfit2.
      destruct (named_found _ _ _ W1 Y1 K1) as [Ln1 Fd1]. destruct (named_found _ _ _ W2 Y2 K2) as [Ln2 Fd2].
      rewrite Ln1, Ln2. cbn [bind].
      match goal with |- bind ?a1 _ = bind ?a2 _ => assert (Hok : a1 = a2) end.
      { destruct (lenZ l =? lenZ fs); [|reflexivity]. clear - Fd1 Fd2. induction fs as [|f0 fs IHfs]; [reflexivity|].
        rewrite Fd1, Fd2, IHfs. reflexivity. }
      rewrite Hok. match goal with |- bind ?a _ = _ => destruct a as [[]| | |] end; cbn [bind]; try reflexivity.
      rewrite (nonptr_new e1 w1 y1 (rd_nonptr _ _ _ (proj1 Y1))), (nonptr_new e2 w2 y2 (rd_nonptr _ _ _ (proj1 Y2))). cbn [bind].
      destruct (rg_dict _ _ _ W1 Y1) as (jt1 & ws1 & J1 & S1 & FF1 & LL1). destruct (rg_dict _ _ _ W2 Y2) as (jt2 & ws2 & J2 & S2 & FF2 & LL2).
      rewrite J1, J2. cbn [bind].
      rewrite (struct_same e1 e2 (rg e1) (rg e2) G _ (fun x t => de G f e2 false x t) _ (ignore_any f e2 false) fs Hign l ws1 ws2 _ (S (S (length (e_data e2)))) jt1 jt2 []);
        [reflexivity| |assumption..|lia|lia].
      intros k t ty Hin Hlk. apply IH. specialize (Hfit2 _ Hin). cbn [fst snd] in Hfit2. rewrite Hlk in Hfit2. exact Hfit2.
  - (* YNamed *) apply (IH (G n) t Hfit v1 v2 H1 H2).
Qed.
End Two.

Lemma alike_enums e1 e2 t named G fuel ty : wf_env e1 -> wf_env e2 -> (named = true -> e_sk e1 = None /\ e_sk e2 = None) ->
  doc_reads e1 t -> doc_reads e2 t -> enums_fit named G fuel ty t = true ->
  de_from_bytes G fuel e1 ty = de_from_bytes G fuel e2 ty.
Proof.
  intros W1 W2 K (r1 & d1 & F1 & R1 & K1) (r2 & d2 & F2 & R2 & K2) Hfit. unfold de_from_bytes. rewrite F1, F2. cbn [bind].
  assert (H1 : rg e1 t r1) by (split; [split; [exists (fuel_of e1)|eexists]; eauto|apply root_gd; assumption]).
  assert (H2 : rg e2 t r2) by (split; [split; [exists (fuel_of e2)|eexists]; eauto|apply root_gd; assumption]).
  rewrite (nonptr_new e1 _ r1 (rd_nonptr _ _ _ (proj1 H1))), (nonptr_new e2 _ r2 (rd_nonptr _ _ _ (proj1 H2))). cbn [bind].
  apply (de_fit e1 e2 named G W1 W2 K fuel ty t Hfit); assumption.
Qed.
