(** Proofs for C97: content that fits a type deserializes into it. *)
From Verif Require Import Prelude Lib Utf8 Float SharedKeys Decode Read ReadSpec Encodable Ser De UntrustedSpec Untrusted Safety Navigate AlikeSpec AlikeProofs AlikeEnums FieldsSpec FieldsProofs NumberSpec ToldSpec ToldProofs.
From Coq Require Import ZifyBool ZifyNat ZifyN.

(** It succeeds. *)
Definition okd {A} (m : dser A) : Prop := exists s, m = Ret (Ok s).
Lemma okd_bind {A B} (m : dser A) (k : A -> dser B) : okd m -> (forall a, okd (k a)) -> okd (bindr m k).
Proof. intros (s & ->) Hk. apply Hk. Qed.
Lemma okd_ret {A} (a : A) : okd (Ret (Ok a)).
Proof. exists a. reflexivity. Qed.

Lemma opens_ok G K al ty : (1 <= K)%nat -> ty_ok G K al ty -> opens G K ty.
Proof. intros HK. destruct K as [|K']; [lia|]. destruct 1; cbn [opens]; auto. Qed.

Section One.
Variables (e : env) (G : nat -> sty).

Lemma seq_n_okd (R : tree -> val -> Prop) (g : val -> sty -> dser sval) : forall tys l vs it ss,
  (forall ty t x s, In ty tys -> In t l -> R t x -> told G t ty s -> okd (g x ty)) ->
  Forall2 R l vs -> gives e it vs -> told_each G l tys ss -> okd (seq_n g e tys it).
Proof.
  induction tys as [|ty tys IH]; intros l vs it ss Hg H Hy Hs; inversion Hs; subst; cbn [seq_n]; fold (seq_n g e); [apply okd_ret|].
  inversion H as [|? y ? ys Hy1 Hys]; subst. destruct (gives_cons _ _ _ _ Hy) as (it' & -> & Hy'). cbn [bind fst snd].
  apply okd_bind; [eapply Hg; [left; reflexivity|left; reflexivity|eassumption..]|]. intros a. apply okd_bind; [|intros; apply okd_ret].
  eapply IH; [|eassumption..]. intros; eapply Hg; [right; eassumption|right; eassumption|eassumption..].
Qed.

Lemma fields_ok fs acc : (forall n ty, In (n, ty) fs -> lookup n acc = None -> is_option G ty = true) -> exists r, fields_of G fs acc = Ok r.
Proof.
  induction fs as [|[n ty] fs IH]; intros H; [exists []; reflexivity|]. cbn [fields_of].
  destruct IH as (r & Hr); [intros; eapply H; [right; eassumption|assumption]|]. rewrite Hr. destruct (lookup n acc) as [x|] eqn:E; [eauto|].
  specialize (H n ty (or_introl eq_refl) E). destruct ty; try discriminate; cbn [missing_field is_option] in *; [eauto|].
  destruct (G n0); try discriminate. eauto.
Qed.
Lemma loop_okd (R : tree -> val -> Prop) fields f : forall l vs n it acc, (forall t x, R t x -> rd e t x) ->
  ents_by e R l vs -> gives e it vs -> (length vs < n)%nat -> NoDup (map fst l) ->
  (forall k, In k (map fst l) -> lookup k acc = None) ->
  (forall k t ty x, In (k, t) l -> lookup k fields = Some ty -> R t x -> okd (de G f e false x ty)) ->
  (forall k t, In (k, t) l -> (nesting t <= f)%nat) ->
  (forall n ty, In (n, ty) fields -> lookup n acc = None -> ~ In n (map fst l) -> is_option G ty = true) ->
  okd (struct_loop G (fun x t => de G f e false x t) (ignore_any f e false) e fields n it acc).
Proof.
  induction l as [|[k t] l IH]; intros vs n it acc HR H Hy Hn Hnd Hnew Hg Hnest Hopt; inversion H as [|? ? ? kv x xs Hk Hx He]; subst;
    (destruct n as [|n]; [cbn [length] in Hn; lia|]); cbn [struct_loop]; fold (struct_loop G (fun x t => de G f e false x t) (ignore_any f e false) e fields).
  - destruct (gives_nil _ _ Hy) as (it' & ->). cbn [bind fst]. destruct (fields_ok fields acc) as (r & ->); [|apply okd_ret].
    intros n' ty Hin Hl. apply (Hopt n' ty Hin Hl). cbn. tauto.
  - destruct (gives_cons _ _ _ _ Hy) as (it' & -> & Hy'). destruct (gives_cons _ _ _ _ Hy') as (it2 & Hn2 & Hy2).
    cbn [bind fst snd]. rewrite (proj1 Hk). cbn [bindr ident]. rewrite names_lookup. cbn [length] in Hn. cbn [map fst] in Hnd. inversion Hnd as [|? ? Hni Hnd']; subst.
    destruct (lookup k fields) as [ty|] eqn:El; cbn [bind bindr].
    + rewrite (Hnew k (or_introl eq_refl)). rewrite Hn2. cbn [bind fst snd]. rewrite El.
      apply okd_bind; [eapply Hg; [left; reflexivity|exact El|exact Hx]|]. intros s.
      eapply IH; [eassumption..|lia|exact Hnd'| | |intros; eapply Hnest; right; eassumption|].
      * intros k' Hin. rewrite lookup_app, (Hnew k' (or_intror Hin)). apply lookup_none. cbn [map fst In]. intros [->|[]]. contradiction.
      * intros; eapply Hg; [right; eassumption|eassumption..].
      * intros n' ty' Hin Hl Hnot. rewrite lookup_app in Hl. destruct (lookup n' acc) eqn:Ea; [discriminate|].
        apply (Hopt n' ty' Hin Ea). cbn [map fst In]. intros [->|Hl2]; [|contradiction]. cbn [lookup] in Hl. rewrite (proj2 (bytes_eqb_eq _ _) eq_refl) in Hl. discriminate.
    + rewrite Hn2. cbn [bind fst snd]. apply okd_bind; [apply (ignore_ok e f t x (HR _ _ Hx)); eapply Hnest; left; reflexivity|]. intros s.
      eapply IH; [eassumption..|lia|exact Hnd'| | |intros; eapply Hnest; right; eassumption|].
      * intros k' Hin. apply Hnew. right. exact Hin.
      * intros; eapply Hg; [right; eassumption|eassumption..].
      * intros n' ty' Hin Hl Hnot. apply (Hopt n' ty' Hin Hl). cbn [map fst In]. intros [->|Hl2]; [|contradiction].
        apply lookup_none in El. apply El. apply (in_map fst _ _ Hin).
Qed.

Lemma visit_fits t ev ty s : tree_ev t ev -> told G t ty s -> (forall l, t <> TArr l) -> (forall l, t <> TDict l) ->
  (forall ty', ty <> YOpt ty') -> (forall n, ty <> YNamed n) -> exists s', visit_scalar ty ev = Ok s'.
Proof.
  intros E H Ha Hd Ho Hn. inversion H; subst; cbn [tree_ev] in E; try destruct E as (u & ->); try subst ev; cbn [visit_scalar];
    try (eexists; reflexivity); try (exfalso; eapply Ha; reflexivity); try (exfalso; eapply Hd; reflexivity); try (exfalso; eapply Ho; reflexivity);
    try (exfalso; eapply Hn; reflexivity).
  - match goal with |- context [if ?c then _ else _] => destruct c eqn:Ec end; [eauto|exfalso; lia].
  - match goal with Q : one_char _ = true |- _ => rewrite Q end. eauto.
  - match goal with Q : utf8_valid _ = true |- _ => rewrite Q end. eauto.
Qed.
Lemma de_key_okd : forall f n ty k v s, opens G n ty -> (n <= f)%nat -> kd e k v -> told G (TStr k) ty s -> okd (de G f e true v ty).
Proof.
  induction f as [|f IH]; intros n ty k v s Ho Hf H Ht; [destruct n; [destruct Ho|lia]|]. pose proof (proj1 H) as Hv.
  assert (Hsc : (forall ty', ty <> YOpt ty') -> (forall n, ty <> YNamed n) -> exists s', visit_scalar ty (VisStr k) = Ok s').
  { intros. eapply (visit_fits (TStr k)); [reflexivity|eassumption|discriminate|discriminate|assumption..]. }
  destruct ty; try (inversion Ht; fail); cbn [de];
    try (rewrite Hv; cbn [bindr]; destruct Hsc as (s' & ->); [discriminate|discriminate|apply okd_ret]).
  - inversion Ht; subst. destruct H as (Hd & vt & Hvt & Hor). rewrite Hvt. cbn [bind].
    destruct n as [|n]; [destruct Ho|]. cbn [opens] in Ho.
    assert (Hk : okd (x <-? de G f e true v ty ;; Ret (Ok (SSome x)))).
    { apply okd_bind; [|intros; apply okd_ret]. eapply (IH n); [exact Ho|lia| |eassumption]. split; eauto. }
    destruct Hor as [-> | ->]; exact Hk.
  - inversion Ht; subst. destruct n as [|n']; [destruct Ho|]. cbn [opens] in Ho. eapply (IH n'); [exact Ho|lia|eassumption..].
Qed.

Lemma told_of ty l ss t : Forall2 (fun t s => told G t ty s) l ss -> In t l -> exists s, told G t ty s.
Proof. induction 1 as [|t0 s0 l1 ss1 H0 HF IHF]; [easy|]. intros [->|Hin]; [eauto|auto]. Qed.
Lemma told_of2 kt vt l ss k t : Forall2 (fun kx s => told G (TStr (fst kx)) kt (fst s) /\ told G (snd kx) vt (snd s)) l ss -> In (k, t) l ->
  exists s, told G (TStr k) kt (fst s) /\ told G t vt (snd s).
Proof. induction 1 as [|t0 s0 l1 ss1 H0 HF IHF]; [easy|]. intros [->|Hin]; [eauto|auto]. Qed.
(** The entry for a field, and the fields that have none. *)
Lemma told_fields l fields ss : NoDup (map fst l) -> told G (TDict l) (YStruct fields) (SStruct ss) ->
  (forall k t ty, In (k, t) l -> lookup k fields = Some ty -> exists s, told G t ty s) /\
  (forall n ty, In (n, ty) fields -> ~ In n (map fst l) -> is_option G ty = true).
Proof.
  intros Hnd Ht. inversion Ht as [| | | | | | | | | | | | | | | | | | | | | | |l0 fs0 ss0 Hm Hin| |]; subst.
  assert (Hname : forall n, In n (map fst fields) -> exists s, In (n, s) ss).
  { intros n Hn'. rewrite <- Hm in Hn'. apply in_map_iff in Hn' as ([n' s'] & <- & Hs). eauto. }
  split.
  - intros k t ty Hin' Hl. destruct (Hname k) as (s1 & Hs1); [apply (in_map fst _ _ (lookup_In _ _ _ Hl))|].
    destruct (Hin _ _ Hs1) as [(t1 & ty1 & A1 & A2 & A3)|(A1 & _)]; [|exfalso; exact (A1 _ Hin')].
    assert (ty1 = ty) by congruence. subst ty1.
    assert (t1 = t). { pose proof (lookup_some l k t Hnd Hin') as Q1. pose proof (lookup_some l k t1 Hnd A1) as Q2. congruence. } subst t1. eauto.
  - intros n ty Hf Hnot. destruct (Hname n) as (s1 & Hs1); [apply (in_map fst _ _ Hf)|].
    destruct (Hin _ _ Hs1) as [(t1 & ty1 & A1 & _)|(_ & A2 & _)]; [exfalso; apply Hnot; apply (in_map fst _ _ A1)|]. exact (A2 _ Hf).
Qed.
Lemma dist_arr_inv l : distinct (TArr l) -> Forall distinct l.
Proof. intros Hd. inversion Hd as [| |? Ha _]; subst; [assumption|]. exfalso. eapply Ha. reflexivity. Qed.
Lemma dist_dict_inv l : distinct (TDict l) -> NoDup (map fst l) /\ forall k t, In (k, t) l -> distinct t.
Proof.
  intros Hd. inversion Hd as [|? Hnd Hdd|? _ Hx]; subst; [|exfalso; eapply Hx; reflexivity]. split; [exact Hnd|].
  rewrite Forall_forall in Hdd. intros k t Hin. apply (Hdd _ Hin).
Qed.
Lemma nest_arr l t n : (nesting (TArr l) <= S n)%nat -> In t l -> (nesting t <= n)%nat.
Proof. cbn [nesting]. intros H Hin. pose proof (max_le nesting l t Hin). lia. Qed.
Lemma nest_dict l k t n : (nesting (TDict l) <= S n)%nat -> In (k, t) l -> (nesting t <= n)%nat.
Proof. cbn [nesting]. intros H Hin. pose proof (max_le (fun kx => nesting (snd kx)) l (k, t) Hin) as Hm. cbn [snd] in Hm. lia. Qed.

Variables (K : nat) (al : variants_allowed).
Hypothesis W : wf_env e.
Hypothesis K1 : (1 <= K)%nat.
Hypothesis AL : al <> AllVariants.
Hypothesis HG : forall n, ty_ok G K al (G n).
Lemma de_okd : forall f ty k n, ty_ok G K al ty -> opens G k ty -> forall t v s, (nesting t <= n)%nat -> (k + (K + 1) * n <= f)%nat ->
  distinct t -> rg e t v -> told G t ty s -> okd (de G f e false v ty).
Proof.
  induction f as [|f IH]; intros ty k n Hty Ho t v s Hn1 Hn2 Hd H Ht; (destruct k as [|k]; [destruct Ho|]); [lia|].
  destruct n as [|n]; [pose proof (nesting_pos t); lia|].
  assert (Hf : (K + (K + 1) * n <= f)%nat) by lia. assert (Hnf : (n <= f)%nat) by nia.
  destruct (rd_any _ _ _ (proj1 H)) as (ev & A & E). destruct (rd_kind _ _ _ (proj1 H)) as (vt & T & N & R & D).
  assert (IHc : forall ty', ty_ok G K al ty' -> forall t v s, (nesting t <= n)%nat -> distinct t -> rg e t v -> told G t ty' s -> okd (de G f e false v ty')).
  { intros ty' Hty' t' v' s' Hnt. apply (IH ty' K n Hty' (opens_ok _ _ _ _ K1 Hty')); assumption. }
  assert (Hsc : (forall l, t <> TArr l) -> (forall l, t <> TDict l) -> (forall ty', ty <> YOpt ty') -> (forall n, ty <> YNamed n) -> exists s', visit_scalar ty ev = Ok s').
  { intros. eapply visit_fits; eassumption. }
  assert (Hn : forall m tys ss l w, rg e (TArr l) w -> (m <= n)%nat -> (nesting (TArr l) <= S m)%nat -> distinct (TArr l) ->
     (forall x, In x tys -> ty_ok G K al x) -> told_each G l tys ss ->
     exists it, arr_iter e w = Ret it /\ okd (seq_n (fun x t => de G f e false x t) e tys it)).
  { intros m tys ss l w Hw Hm Hnl Hdl Htys Hs. destruct (rg_arr _ _ _ W Hw) as (it & vs & wd & Hi & Gv & F & L & _). exists it. split; [exact Hi|].
    apply dist_arr_inv in Hdl. rewrite Forall_forall in Hdl.
    eapply (seq_n_okd (rg e)); [|eassumption..]. intros ty' t' x s' Hin Hin2 Hx Hto. pose proof (nest_arr _ _ _ Hnl Hin2).
    apply (IHc ty' (Htys _ Hin) t' x s'); [lia|apply Hdl; exact Hin2|assumption..]. }
  destruct ty; cbn [de];
    try (rewrite A; cbn [bindr]; destruct Hsc as (s' & ->); [inversion Ht; subst; discriminate|inversion Ht; subst; discriminate|discriminate|discriminate|apply okd_ret]).
  - (* YBytes *) rewrite A. cbn [bindr]. inversion Ht; subst; cbn [tree_ev] in E; subst ev; cbn [visit_scalar]; try apply okd_ret.
    destruct (rg_arr _ _ _ W H) as (it & vs & wd & Hi & Gv & F & L & _). rewrite Hi. cbn [bind]. apply okd_bind; [|intros; apply okd_ret].
    eapply (seq_all_ok e (rg e)); [|exact F|exact Gv|lia]. intros t x Hin Hx. pose proof (nest_arr _ _ _ Hn1 Hin). apply in_map_iff in Hin as (z & <- & Hz).
    eapply (IHc (YInt U8) (ok_int _ _ _ _) (TInt z)); [assumption|apply dist_other; discriminate|exact Hx|]. apply (told_int G z U8).
    match goal with Q : Forall _ _ |- _ => rewrite Forall_forall in Q; specialize (Q z Hz); cbn; cbn in Q; exact Q end.
  - (* YOpt *) rewrite T. cbn [bind]. inversion Hty; subst. inversion Ht as [| | | | | | | | | | | | | | | | |? ? ? Hnn Ht'| | | | | | | |]; subst.
    + rewrite (proj2 N eq_refl). apply okd_ret.
    + cbn [opens] in Ho. assert (Hk : okd (x <-? de G f e false v ty ;; Ret (Ok (SSome x)))).
      { apply okd_bind; [eapply (IH ty k (S n)); try eassumption; lia|intros; apply okd_ret]. }
      destruct vt; try exact Hk. apply okd_ret.
  - (* YNewtype *) rewrite A. cbn [bindr]. inversion Hty; subst. inversion Ht; subst. cbn [tree_ev] in E. subst ev.
    destruct (Hn n [ty] [s0] (t0 :: l) v H (le_n _) Hn1 Hd) as (it & -> & Hk); [intros x [<-|[]]; assumption|constructor; [assumption|constructor]|].
    cbn [bind]. apply okd_bind; [exact Hk|intros; apply okd_ret].
  - (* YSeq *) unfold as_array. rewrite T. inversion Hty; subst. inversion Ht as [| | | | | | | | | | | | | | | | | | |l0 ty0 ss0 HF| | | | | |]; subst.
    rewrite (proj2 R (ex_intro _ l0 eq_refl)). cbn [bind vtype_eqb].
    destruct (rg_arr _ _ _ W H) as (it & vs & wd & Hi & Gv & F & L & _). rewrite Hi. cbn [bind]. apply okd_bind; [|intros; apply okd_ret].
    eapply (seq_all_ok e (rg e)); [|exact F|exact Gv|lia]. intros t x Hin Hx.
    destruct (told_of _ _ _ _ HF Hin) as (s1 & Hs1). apply dist_arr_inv in Hd. rewrite Forall_forall in Hd.
    eapply IHc; [eassumption|exact (nest_arr _ _ _ Hn1 Hin)|auto|exact Hx|exact Hs1].
  - (* YTuple *) rewrite A. cbn [bindr]. inversion Hty; subst. inversion Ht; subst. cbn [tree_ev] in E. subst ev.
    destruct (Hn n ts ss l v H (le_n _) Hn1 Hd) as (it & -> & Hk); [apply Forall_forall; assumption|assumption|].
    cbn [bind]. apply okd_bind; [exact Hk|intros; apply okd_ret].
  - (* YTupleStruct *) rewrite A. cbn [bindr]. inversion Hty; subst. inversion Ht; subst. cbn [tree_ev] in E. subst ev.
    destruct (Hn n ts ss l v H (le_n _) Hn1 Hd) as (it & -> & Hk); [apply Forall_forall; assumption|assumption|].
    cbn [bind]. apply okd_bind; [exact Hk|intros; apply okd_ret].
  - (* YMap *) unfold as_dict. rewrite T. inversion Hty; subst. inversion Ht as [| | | | | | | | | | | | | | | | | | | | | |l0 kt0 vt0 ss0 HF| | |]; subst.
    rewrite (proj2 D (ex_intro _ l0 eq_refl)). cbn [bind vtype_eqb].
    destruct (rg_dict _ _ _ W H) as (it & vs & Hi & Gv & F & L). rewrite Hi. cbn [bind]. apply okd_bind; [|intros; apply okd_ret].
    destruct (dist_dict_inv _ Hd) as [Hnd Hdd].
    eapply (map_all_ok e (rg e)); [|exact F|exact Gv|lia]. intros k' t kv x Hin Hk Hx.
    destruct (told_of2 _ _ _ _ _ _ HF Hin) as (s1 & Hs1 & Hs2). split.
    + eapply (de_key_okd f K); [apply (opens_ok _ _ al _ K1); assumption|lia|eassumption..].
    + eapply IHc; [eassumption|exact (nest_dict _ _ _ _ Hn1 Hin)|exact (Hdd _ _ Hin)|exact Hx|exact Hs2].
  - (* YStruct *) unfold as_dict. rewrite T. inversion Hty as [| | | | | | | | | | | | | | |fs Hfs| |]; subst. rewrite Forall_forall in Hfs.
    assert (Hl : exists l ss, t = TDict l /\ s = SStruct ss) by (inversion Ht; subst; eauto). destruct Hl as (l & ss & -> & ->).
    rewrite (proj2 D (ex_intro _ l eq_refl)). cbn [bind vtype_eqb].
    destruct (rg_dict _ _ _ W H) as (it & vs & Hi & Gv & F & L). rewrite Hi. cbn [bind]. apply okd_bind; [|intros; apply okd_ret].
    destruct (dist_dict_inv _ Hd) as [Hnd Hdd]. destruct (told_fields _ _ _ Hnd Ht) as [Hf1 Hf2].
    eapply (loop_okd (rg e)); [intros ? ? []; assumption|exact F|exact Gv|lia|exact Hnd|reflexivity| | |].
    + intros k' t ty x Hin' Hl Hx. destruct (Hf1 _ _ _ Hin' Hl) as (s1 & Hs1).
      eapply IHc; [exact (Hfs _ (lookup_In _ _ _ Hl))|exact (nest_dict _ _ _ _ Hn1 Hin')|exact (Hdd _ _ Hin')|exact Hx|exact Hs1].
    + intros k' t Hin. pose proof (nest_dict _ _ _ _ Hn1 Hin). lia.
    + intros n' ty Hin _ Hnot. exact (Hf2 _ _ Hin Hnot).
  - (* YEnum *) unfold as_array. rewrite T.
    inversion Hty as [| | | | | | | | | | | | | | | |vs0 _ Hvs|]; subst. rewrite Forall_forall in Hvs.
    inversion Ht as [| | | | | | | | | | | | | | | | | | | | | | | |t0 name l vs1 vt0 s1 Hnm Hlk Hv|]; subst.
    rewrite (proj2 R (ex_intro _ _ eq_refl)). cbn [bind vtype_eqb].
    destruct (rg_arr _ _ _ W H) as (it & vs & wd & Hi & Gv & F & L & Wd & Len & Get). inversion F as [|? x ? xs X Fr]; subst.
    pose proof (Get 0%nat x eq_refl) as Q. cbn [Z.of_nat] in Q.
    rewrite Wd. cbn [bind]. rewrite Q. cbn [bind]. rewrite (rd_debug _ _ _ (proj1 H)). cbn [bind].
    rewrite (nonptr_new e wd x (rd_nonptr _ _ _ (proj1 X))). cbn [bind].
    destruct (rd_any _ _ _ (proj1 X)) as (fv & B & C). rewrite B. cbn [bindr].
    assert (Hid : ident (map fst variants) fv = Ok (Some name)).
    { destruct Hnm as [-> | ->]; cbn [tree_ev] in C; subst fv; cbn [ident]; rewrite names_lookup, Hlk; reflexivity. }
    rewrite Hid. cbn [bind bindr]. rewrite Hlk.
    specialize (Hvs _ (lookup_In _ _ _ Hlk)). cbn [snd] in Hvs.
    assert (Hdl : Forall distinct l) by (apply dist_arr_inv in Hd; inversion Hd; assumption).
    assert (Hnl : forall y, In y l -> (nesting y <= n)%nat) by (intros y Hy; apply (nest_arr _ _ _ Hn1); right; exact Hy).
    inversion Hv as [|? tr rest ty' s2 Ht'|? c rest tys ss Hlen He|? c rest fields ss Ht']; subst.
    + rewrite Len. cbn [bind]. apply okd_ret.
    + inversion Fr as [|? y ? ys Y Fs]; subst. pose proof (Get 1%nat y eq_refl) as P1. cbn in P1. rewrite P1. cbn [bind].
      rewrite (nonptr_new e wd y (rd_nonptr _ _ _ (proj1 Y))). cbn [bind]. inversion Hvs; subst.
      apply okd_bind; [|intros; apply okd_ret]. inversion Hdl; subst. eapply IHc; [eassumption|apply Hnl; left; reflexivity|eassumption..].
    + inversion Fr as [|? y ? ys Y Fs]; subst. pose proof (Get 1%nat y eq_refl) as P1. cbn in P1. rewrite P1. cbn [bind].
      destruct (rd_kind _ _ _ (proj1 Y)) as (u & U & _ & RR & _). unfold as_array. rewrite U. rewrite (proj2 RR (ex_intro _ _ eq_refl)). cbn [bind vtype_eqb].
      destruct (rg_arr _ _ _ W Y) as (jt & ws & z & J & S & FF & LL & _ & Ln & _). rewrite Ln. cbn [bind].
      assert (El : (lenZ c =? lenZ tys) = true) by (unfold lenZ; lia). rewrite El.
      rewrite (nonptr_new e wd y (rd_nonptr _ _ _ (proj1 Y))). cbn [bind]. inversion Hvs; subst. inversion Hdl; subst.
      destruct n as [|n]; [specialize (Hnl _ (or_introl eq_refl)); cbn [nesting] in Hnl; lia|].
      destruct (Hn n tys ss c y Y) as (it' & Hit & Hk); [lia|apply Hnl; left; reflexivity|assumption|apply Forall_forall; assumption|assumption|].
      rewrite Hit. cbn [bind]. apply okd_bind; [exact Hk|intros; apply okd_ret].
    + inversion Hvs; subst. destruct al; cbn [level] in *; try lia. congruence.
  - (* YNamed *) inversion Ht; subst. cbn [opens] in Ho. eapply (IH _ k (S n)); [apply HG|exact Ho|eassumption|lia|eassumption..].
Qed.
End One.

(** The arrays of such content that are to be enums look like enums. *)
Lemma told_each_fit G f : (forall ty t s, distinct t -> told G t ty s -> enums_fit true G f ty t = true) ->
  forall tys l ss, Forall distinct l -> told_each G l tys ss -> each_fit true G f tys l = true.
Proof.
  intros IH. induction tys as [|ty tys IHt]; intros l ss Hd H; [reflexivity|]. inversion H; subst. inversion Hd; subst. cbn [each_fit].
  rewrite (IH ty t s) by assumption. cbn [andb]. eapply IHt; eassumption.
Qed.
Lemma null_fit G : forall f ty, enums_fit true G f ty TNull = true.
Proof. induction f as [|f IH]; intros ty; [reflexivity|]. destruct ty; cbn [enums_fit]; auto. Qed.
Lemma told_fit G : forall f ty t s, distinct t -> told G t ty s -> enums_fit true G f ty t = true.
Proof.
  induction f as [|f IH]; intros ty t s Hd Ht; [reflexivity|].
  assert (Hst : forall l fields ss, distinct (TDict l) -> told G (TDict l) (YStruct fields) (SStruct ss) ->
    forallb (fun kx => match lookup (fst kx) fields with Some ty' => enums_fit true G f ty' (snd kx) | None => true end) l = true).
  { intros l fields ss Hdl Htl. destruct (dist_dict_inv _ Hdl) as [Hnd Hdd]. destruct (told_fields _ _ _ _ Hnd Htl) as [Hf1 _].
    apply forallb_forall. intros [k t'] Hin. cbn [fst snd]. destruct (lookup k fields) as [ty'|] eqn:El; [|reflexivity].
    destruct (Hf1 _ _ _ Hin El) as (s' & Hs'). eapply IH; [exact (Hdd _ _ Hin)|exact Hs']. }
  pose proof (told_each_fit G f IH) as Heach.
  destruct ty; try (destruct t; reflexivity).
  - (* YOpt *) inversion Ht; subst; cbn [enums_fit]; [apply null_fit|]. eapply IH; eassumption.
  - (* YNewtype *) inversion Ht; subst. change (each_fit true G f [ty] (t0 :: l) = true). eapply Heach; [apply dist_arr_inv; exact Hd|]. constructor; [eassumption|constructor].
  - (* YSeq *) inversion Ht; subst. cbn [enums_fit]. apply dist_arr_inv in Hd. rewrite Forall_forall in Hd. apply forallb_forall. intros x Hin.
    match goal with Q : Forall2 _ _ _ |- _ => destruct (told_of _ _ _ _ _ Q Hin) as (s1 & Hs1) end. eapply IH; [apply Hd; exact Hin|exact Hs1].
  - (* YTuple *) inversion Ht; subst. change (each_fit true G f ts l = true). eapply Heach; [apply dist_arr_inv; exact Hd|eassumption].
  - (* YTupleStruct *) inversion Ht; subst. change (each_fit true G f ts l = true). eapply Heach; [apply dist_arr_inv; exact Hd|eassumption].
  - (* YMap *) inversion Ht; subst. cbn [enums_fit]. destruct (dist_dict_inv _ Hd) as [_ Hdd]. apply forallb_forall. intros [k x] Hin.
    match goal with Q : Forall2 _ _ _ |- _ => destruct (told_of2 _ _ _ _ _ _ _ Q Hin) as (s1 & _ & Hs1) end. cbn [snd]. eapply IH; [exact (Hdd _ _ Hin)|exact Hs1].
  - (* YStruct *) assert (Hl : exists l ss, t = TDict l /\ s = SStruct ss) by (inversion Ht; subst; eauto). destruct Hl as (l & ss & -> & ->).
    cbn [enums_fit]. eapply Hst; eassumption.
  - (* YEnum *) inversion Ht as [| | | | | | | | | | | | | | | | | | | | | | | |t0 name l vs1 vt0 s1 Hnm Hlk Hv|]; subst.
    apply dist_arr_inv in Hd. inversion Hd as [|? ? _ Hdl]; subst.
    assert (Hm : match lookup name variants with
              | None | Some VUnit => true
              | Some (VNewtype ty') => match l with x :: _ => enums_fit true G f ty' x | [] => false end
              | Some (VTuple ts) => match l with TArr l :: _ => each_fit true G f ts l | _ :: _ => true | [] => false end
              | Some (VStruct fs) =>
                  true &&
                  match l with
                  | TDict l :: _ =>
                      forallb (fun kx => match lookup (fst kx) fs with Some ty' => enums_fit true G f ty' (snd kx) | None => true end) l
                  | _ :: _ => true
                  | [] => false
                  end
              end = true); [|destruct Hnm as [-> | ->]; exact Hm].
    rewrite Hlk. inversion Hv as [|? tr rest ty' s2 Ht'|? c rest tys ss Hlen He|? c rest fields ss Ht']; subst; [reflexivity| | |]; inversion Hdl; subst.
    + eapply IH; eassumption.
    + eapply Heach; [apply dist_arr_inv; assumption|eassumption].
    + cbn [andb]. eapply Hst; eassumption.
  - (* YNamed *) inversion Ht; subst. cbn [enums_fit]. destruct t; eapply IH; eassumption.
Qed.

Lemma doc_fits e t G K al ty s0 fuel : wf_env e -> doc_reads e t -> types_ok G K al ty -> al <> AllVariants -> distinct t -> told G t ty s0 ->
  ((K + 1) * (nesting t + 1) <= fuel)%nat -> exists s, de_from_bytes G fuel e ty = Ret (Ok s) /\ told G t ty s.
Proof.
  intros W Hdoc Hty Hal Hdis Ht Hf.
  assert (Hok : okd (de_from_bytes G fuel e ty)).
  { destruct Hdoc as (r & d & F & R & Kt), Hty as (HK & Hty & HG). unfold de_from_bytes. rewrite F. cbn [bind].
    assert (H : rg e t r) by (split; [split; [exists (fuel_of e)|eexists]; eauto|apply root_gd; assumption]).
    rewrite (nonptr_new e _ r (rd_nonptr _ _ _ (proj1 H))). cbn [bind].
    eapply (de_okd e G K al W HK Hal HG fuel ty K (nesting t)); [exact Hty|apply (opens_ok _ _ _ _ HK Hty)|apply le_n|lia|eassumption..]. }
  destruct Hok as (s & Hs). exists s. split; [exact Hs|]. eapply doc_told_enums; [exact W|exact Hdoc| |exact Hs]. eapply told_fit; eassumption.
Qed.
Lemma doc_fits_iff e t G K ty fuel : wf_env e -> doc_reads e t -> types_ok G K NoEnums ty -> distinct t ->
  ((K + 1) * (nesting t + 1) <= fuel)%nat -> ((exists s, de_from_bytes G fuel e ty = Ret (Ok s)) <-> (exists s, told G t ty s)).
Proof.
  intros Hwf Hd Hty Hdis Hf. split; intros (s & Hs); [exists s; eapply doc_told; eassumption|].
  destruct (doc_fits e t G K NoEnums ty s fuel Hwf Hd Hty ltac:(discriminate) Hdis Hs Hf) as (s' & H & _). eauto.
Qed.
Lemma doc_fits_iff_enums e t G K al ty fuel : wf_env e -> doc_reads e t -> types_ok G K al ty -> al <> AllVariants -> distinct t ->
  enums_fit true G fuel ty t = true -> ((K + 1) * (nesting t + 1) <= fuel)%nat ->
  ((exists s, de_from_bytes G fuel e ty = Ret (Ok s)) <-> (exists s, told G t ty s)).
Proof.
  intros Hwf Hd Hty Hal Hdis Hfit Hf. split; intros (s & Hs); [exists s; eapply doc_told_enums; eassumption|].
  destruct (doc_fits e t G K al ty s fuel Hwf Hd Hty Hal Hdis Hs Hf) as (s' & H & _). eauto.
Qed.
