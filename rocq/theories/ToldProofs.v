(** Proofs for C96. *)
From Verif Require Import Prelude Lib Float SharedKeys Decode Read ReadSpec Encodable Ser De UntrustedSpec Safety Navigate AlikeSpec AlikeProofs FieldsSpec FieldsProofs AlikeEnums NumberSpec NumberProofs ToldSpec.
From Coq Require Import ZifyBool ZifyNat ZifyN QArith.
Local Open Scope Z_scope.

Lemma int_float mb eb z : 1 <= mb -> 2 <= eb -> nearest mb eb (inject_Z z) (fround mb eb (z <? 0) (Z.abs z) 0).
Proof.
  intros Hm He. apply fround_nearest; try lia. unfold qs, pow2. cbn [Qpower]. rewrite Qmult_1_r.
  replace (signed (z <? 0) (Z.abs z)) with z by (unfold signed; destruct (z <? 0) eqn:E; lia). reflexivity.
Qed.
Lemma visit_told G t ev ty s : tree_ev t ev -> visit_scalar ty ev = Ok s -> told G t ty s.
Proof.
  intros E H. destruct t; cbn [tree_ev] in E; try destruct E as (u & ->); try subst ev;
    destruct ty; cbn [visit_scalar] in H; try discriminate;
    try (injection H as <-; constructor);
    try (match type of H with (if ?c then _ else _) = _ => destruct c eqn:Ec; [|discriminate] end; injection H as <-; constructor; try assumption; lia).
  - apply int_float; lia.
  - apply int_float; lia.
  - apply f32_to_f64.
  - apply f64_to_f32.
Qed.

Section One.
Variables (e : env) (G : nat -> sty).

Section Loops.
Variable R : tree -> val -> Prop.

Lemma seq_all_told (g : val -> dser sval) ty : forall l vs k it ss, (forall t x s, In t l -> R t x -> g x = Ret (Ok s) -> told G t ty s) ->
  Forall2 R l vs -> gives e it vs -> seq_all g e k it = Ret (Ok ss) -> Forall2 (fun t s => told G t ty s) l ss.
Proof.
  induction l as [|t l IH]; intros vs k it ss Hg H Hy Hr; inversion H as [|? y ? ys Hy1 Hys]; subst;
    (destruct k as [|k]; [discriminate|]); cbn [seq_all] in Hr; fold (seq_all g e) in Hr.
  - destruct (gives_nil _ _ Hy) as (it' & Hn). rewrite Hn in Hr. cbn [bind fst] in Hr. injection Hr as <-. constructor.
  - destruct (gives_cons _ _ _ _ Hy) as (it' & Hn & Hy'). rewrite Hn in Hr. cbn [bind fst snd] in Hr.
    destruct (g y) as [[s|s]| | |] eqn:Eg; try discriminate. cbn [bindr] in Hr.
    destruct (seq_all g e k it') as [[ss'|?]| | |] eqn:Es; try discriminate. cbn [bindr] in Hr. injection Hr as <-.
    constructor; [eapply Hg; [left; reflexivity|eassumption..]|]. eapply IH; [|eassumption..]. intros; eapply Hg; [right; eassumption|eassumption..].
Qed.
Lemma seq_n_told (g : val -> sty -> dser sval) (P : sty -> tree -> Prop) : (forall ty t x s, P ty t -> R t x -> g x ty = Ret (Ok s) -> told G t ty s) ->
  forall tys l vs it ss, (forall i ty t, nth_error tys i = Some ty -> nth_error l i = Some t -> P ty t) ->
  Forall2 R l vs -> gives e it vs -> seq_n g e tys it = Ret (Ok ss) -> told_each G l tys ss.
Proof.
  intros Hg. induction tys as [|ty tys IH]; intros l vs it ss HP H Hy Hr; cbn [seq_n] in Hr; fold (seq_n g e) in Hr; [injection Hr as <-; constructor|].
  destruct l as [|t l]; inversion H as [|? y ? ys Hy1 Hys]; subst.
  - destruct (gives_nil _ _ Hy) as (it' & Hn). rewrite Hn in Hr. discriminate.
  - destruct (gives_cons _ _ _ _ Hy) as (it' & Hn & Hy'). rewrite Hn in Hr. cbn [bind fst snd] in Hr.
    destruct (g y ty) as [[s|s]| | |] eqn:Eg; try discriminate. cbn [bindr] in Hr.
    destruct (seq_n g e tys it') as [[ss'|?]| | |] eqn:Es; try discriminate. cbn [bindr] in Hr. injection Hr as <-.
    constructor; [eapply Hg; [apply (HP 0%nat ty t); reflexivity|eassumption..]|]. eapply IH; [|eassumption..]. intros i ty' t' A B. apply (HP (S i)); assumption.
Qed.
Lemma map_all_told (gk g : val -> dser sval) kt vt :
  (forall k x s, kd e k x -> gk x = Ret (Ok s) -> told G (TStr k) kt s) ->
  forall l vs n it ss, (forall k t x s, In (k, t) l -> R t x -> g x = Ret (Ok s) -> told G t vt s) -> ents_by e R l vs -> gives e it vs -> map_all gk g e n it = Ret (Ok ss) ->
  Forall2 (fun kx s => told G (TStr (fst kx)) kt (fst s) /\ told G (snd kx) vt (snd s)) l ss.
Proof.
  intros Hk. induction l as [|[k t] l IH]; intros vs n it ss Hg H Hy Hr; inversion H as [|? ? ? kv x xs Hkd Hx He]; subst;
    (destruct n as [|n]; [discriminate|]); cbn [map_all] in Hr; fold (map_all gk g e) in Hr.
  - destruct (gives_nil _ _ Hy) as (it' & Hn). rewrite Hn in Hr. cbn [bind fst] in Hr. injection Hr as <-. constructor.
  - destruct (gives_cons _ _ _ _ Hy) as (it' & Hn & Hy'). destruct (gives_cons _ _ _ _ Hy') as (it2 & Hn2 & Hy2).
    rewrite Hn in Hr. cbn [bind fst snd] in Hr. destruct (gk kv) as [[s1|?]| | |] eqn:E1; try discriminate. cbn [bindr] in Hr.
    rewrite Hn2 in Hr. cbn [bind fst snd] in Hr. destruct (g x) as [[s2|?]| | |] eqn:E2; try discriminate. cbn [bindr] in Hr.
    destruct (map_all gk g e n it2) as [[ss'|?]| | |] eqn:Es; try discriminate. cbn [bindr] in Hr. injection Hr as <-.
    constructor; [cbn [fst snd]; split; [eauto|]; eapply (Hg k); [left; reflexivity|eassumption..]|].
    eapply IH; [|eassumption..]. intros; eapply Hg; [right; eassumption|eassumption..].
Qed.
End Loops.
Lemma de_key_told : forall f ty k v s, kd e k v -> de G f e true v ty = Ret (Ok s) -> told G (TStr k) ty s.
Proof.
  induction f as [|f IH]; intros ty k v s H Hr; [discriminate|]. pose proof (kd_as _ _ _ H) as [A D]. pose proof (proj1 H) as Hv.
  destruct ty; cbn [de] in Hr; try (rewrite A in Hr; discriminate); try (rewrite D in Hr; discriminate);
    try (rewrite Hv in Hr; cbn [bindr] in Hr; apply ret_inj in Hr; eapply visit_told; [reflexivity|exact Hr]).
  - destruct H as (? & vt & Ht & Hvt). rewrite Ht in Hr. cbn [bind] in Hr.
    assert (Hr' : (x <-? de G f e true v ty ;; Ret (Ok (SSome x))) = Ret (Ok s)) by (destruct Hvt as [-> | ->]; exact Hr). clear Hr.
    destruct (de G f e true v ty) as [[x|?]| | |] eqn:Ed; try discriminate. cbn [bindr] in Hr'. injection Hr' as <-.
    constructor; [discriminate|]. eapply IH; [|eassumption]. split; eauto.
  - constructor. eapply IH; eassumption.
Qed.
Lemma lookup_In {A} (l : list (list Z * A)) : forall s x, lookup s l = Some x -> In (s, x) l.
Proof.
  induction l as [|[n t] l IH]; intros s x H; cbn [lookup] in H; [discriminate|].
  destruct (bytes_eqb n s) eqn:E; [apply bytes_eqb_eq in E; injection H as <-; subst; left; reflexivity|]. right. auto.
Qed.
Lemma missing_option ty s : missing_field G ty = Ok s -> is_option G ty = true /\ s = SNone.
Proof. destruct ty; cbn [missing_field is_option]; try discriminate; [intros H; injection H as <-; auto|]. destruct (G n); try discriminate. intros H; injection H as <-; auto. Qed.
Lemma fields_all fs : forall acc r, fields_of G fs acc = Ok r -> forall n ty, In (n, ty) fs -> lookup n acc = None -> is_option G ty = true.
Proof.
  induction fs as [|[n ty] fs IH]; intros acc r H n' ty' Hin Hl; [easy|]. cbn [fields_of] in H.
  destruct (match lookup n acc with Some x => Ok x | None => missing_field G ty end) as [x|?] eqn:E; [|discriminate].
  destruct (fields_of G fs acc) as [r'|?] eqn:Ef; [|discriminate]. destruct Hin as [Hin|Hin]; [|eapply IH; eassumption].
  injection Hin as <- <-. rewrite Hl in E. apply (missing_option _ _ E).
Qed.
Lemma fields_names fs : forall acc r, fields_of G fs acc = Ok r -> map fst r = map fst fs /\
  forall n s, In (n, s) r -> (lookup n acc = Some s) \/ (lookup n acc = None /\ In n (map fst fs) /\ s = SNone).
Proof.
  induction fs as [|[n ty] fs IH]; intros acc r H; cbn [fields_of] in H; [injection H as <-; split; [reflexivity|easy]|].
  destruct (lookup n acc) as [x|] eqn:El.
  - destruct (fields_of G fs acc) as [r'|?] eqn:Ef; [|discriminate]. injection H as <-. destruct (IH _ _ Ef) as [Hm Hin]. split; [cbn [map fst]; congruence|].
    intros n' s [Hh|Hh]; [injection Hh as <- <-; auto|]. destruct (Hin _ _ Hh) as [Hs|(Hs & Ht & Hn)]; [auto|]. right. cbn [map fst In]. auto.
  - destruct (missing_field G ty) as [x|?] eqn:Em; [|discriminate]. destruct (fields_of G fs acc) as [r'|?] eqn:Ef; [|discriminate]. injection H as <-.
    destruct (IH _ _ Ef) as [Hm Hin]. split; [cbn [map fst]; congruence|].
    intros n' s [Hh|Hh]; [injection Hh as <- <-; right; cbn [map fst In]; split; [exact El|]; split; [auto|]; apply (missing_option _ _ Em)|].
    destruct (Hin _ _ Hh) as [Hs|(Hs & Ht & Hn)]; [auto|]. right. cbn [map fst In]. auto.
Qed.


Variable K : nat.
Hypothesis HG : forall n, ty_ok G K NoEnums (G n).
Lemma de_told : forall f ty, ty_ok G K NoEnums ty -> forall t v s, rd e t v -> de G f e false v ty = Ret (Ok s) -> told G t ty s.
Proof.
  induction f as [|f IH]; intros ty Hty t v s H Hr; [discriminate|].
  destruct (rd_any _ _ _ H) as (ev & A & E). destruct (rd_kind _ _ _ H) as (vt & T & N & R & D).
  assert (Hseq : ev = VisSeq -> exists l, t = TArr l).
  { intros ->. destruct t; cbn [tree_ev] in E; try discriminate; [destruct E; discriminate|eauto]. }
  assert (Hn : forall tys ss, (forall x, In x tys -> ty_ok G K NoEnums x) -> forall l, t = TArr l ->
     (it <- arr_iter e v ;; seq_n (fun x t => de G f e false x t) e tys it) = Ret (Ok ss) -> told_each G l tys ss).
  { intros tys ss Htys l -> Hs. destruct (rd_arr _ _ _ H) as (it & vs & Hi & Gv & F & L). rewrite Hi in Hs. cbn [bind] in Hs.
    eapply (seq_n_told (rd e) (fun x t => de G f e false x t) (fun ty _ => In ty tys)); [| |eassumption..].
    - intros ty' t' x s' Hin Hx Hd. eapply IH; [apply Htys; exact Hin|eassumption..].
    - intros i ty' t' Hi1 _. apply (nth_error_In _ _ Hi1). }
  destruct ty; cbn [de] in Hr; try (rewrite A in Hr; cbn [bindr] in Hr; apply ret_inj in Hr; eapply visit_told; eassumption).
  - (* YBytes *) rewrite A in Hr. cbn [bindr] in Hr.
    destruct ev; try (apply ret_inj in Hr; eapply visit_told; eassumption).
    destruct (Hseq eq_refl) as (l & ->). destruct (rd_arr _ _ _ H) as (it & vs & Hi & Gv & F & L). rewrite Hi in Hr. cbn [bind] in Hr.
    destruct (seq_all _ e _ it) as [[ss|?]| | |] eqn:Es; try discriminate. cbn [bindr] in Hr. injection Hr as <-.
    assert (HF : Forall2 (fun t s => told G t (YInt U8) s) l ss).
    { eapply (seq_all_told (rd e) (fun x => de G f e false x (YInt U8))); [|eassumption..]. intros t' x s' _ Hx Hd. eapply IH; [constructor|eassumption..]. }
    assert (HB : l = map TInt (map (fun x => match x with SInt _ z => z | _ => 0 end) ss) /\
       Forall (fun b => 0 <= b <= 255) (map (fun x => match x with SInt _ z => z | _ => 0 end) ss)).
    { clear - HF. induction HF as [|t s l ss Ht HF [IH1 IH2]]; [split; constructor|]. inversion Ht; subst. cbn [map]. split; [congruence|].
      constructor; [|exact IH2]. match goal with Q : _ <= _ <= _ |- _ => cbn in Q; exact Q end. }
    destruct HB as [HB1 HB2]. rewrite HB1 at 1. constructor. exact HB2.
  - (* YOpt *) rewrite T in Hr. cbn [bind] in Hr. inversion Hty; subst.
    destruct (vtype_eqb vt TyNull) eqn:V.
    + assert (vt = TyNull) by (destruct vt; try discriminate; reflexivity). subst vt. rewrite (proj1 N eq_refl). injection Hr as <-. constructor.
    + assert (Hr' : (x <-? de G f e false v ty ;; Ret (Ok (SSome x))) = Ret (Ok s)) by (destruct vt; try discriminate; exact Hr). clear Hr.
      destruct (de G f e false v ty) as [[x|?]| | |] eqn:Ed; try discriminate. cbn [bindr] in Hr'. injection Hr' as <-.
      constructor; [intros ->; rewrite (proj2 N eq_refl) in V; discriminate|]. eapply IH; eassumption.
  - (* YNewtype *) rewrite A in Hr. cbn [bindr] in Hr. inversion Hty; subst.
    destruct ev; try (apply ret_inj in Hr; eapply visit_told; eassumption). destruct (Hseq eq_refl) as (l & ->).
    specialize (Hn [ty]). destruct (arr_iter e v) as [it| | |]; try discriminate. cbn [bind] in Hr, Hn.
    destruct (seq_n _ e [ty] it) as [[ss|?]| | |] eqn:Es; try discriminate. cbn [bindr] in Hr. injection Hr as <-.
    assert (He : told_each G l [ty] ss) by (eapply Hn; [intros x [<-|[]]; assumption|reflexivity|reflexivity]).
    inversion He as [|? ? ? ? ? ? Ht Hrest]; subst. inversion Hrest; subst. cbn [nth]. constructor. assumption.
  - (* YSeq *) unfold as_array in Hr. rewrite T in Hr. cbn [bind] in Hr. inversion Hty; subst. destruct (vtype_eqb vt TyArray) eqn:V; [|discriminate].
    assert (vt = TyArray) by (destruct vt; try discriminate; reflexivity). subst vt. destruct (proj1 R eq_refl) as (l & ->).
    destruct (rd_arr _ _ _ H) as (it & vs & Hi & Gv & F & L). cbn [bind] in Hr. rewrite Hi in Hr. cbn [bind] in Hr.
    destruct (seq_all _ e _ it) as [[ss|?]| | |] eqn:Es; try discriminate. cbn [bindr] in Hr. injection Hr as <-.
    constructor. eapply (seq_all_told (rd e) (fun x => de G f e false x ty)); [|eassumption..]. intros t' x s' _ Hx Hd. eapply IH; eassumption.
  - (* YTuple *) rewrite A in Hr. cbn [bindr] in Hr. inversion Hty; subst.
    destruct ev; try (apply ret_inj in Hr; eapply visit_told; eassumption). destruct (Hseq eq_refl) as (l & ->).
    specialize (Hn ts). destruct (arr_iter e v) as [it| | |]; try discriminate. cbn [bind] in Hr, Hn.
    destruct (seq_n _ e ts it) as [[ss|?]| | |] eqn:Es; try discriminate. cbn [bindr] in Hr. injection Hr as <-.
    constructor. eapply Hn; [apply Forall_forall; assumption|reflexivity|reflexivity].
  - (* YTupleStruct *) rewrite A in Hr. cbn [bindr] in Hr. inversion Hty; subst.
    destruct ev; try (apply ret_inj in Hr; eapply visit_told; eassumption). destruct (Hseq eq_refl) as (l & ->).
    specialize (Hn ts). destruct (arr_iter e v) as [it| | |]; try discriminate. cbn [bind] in Hr, Hn.
    destruct (seq_n _ e ts it) as [[ss|?]| | |] eqn:Es; try discriminate. cbn [bindr] in Hr. injection Hr as <-.
    constructor. eapply Hn; [apply Forall_forall; assumption|reflexivity|reflexivity].
  - (* YMap *) unfold as_dict in Hr. rewrite T in Hr. cbn [bind] in Hr. inversion Hty; subst. destruct (vtype_eqb vt TyDict) eqn:V; [|discriminate].
    assert (vt = TyDict) by (destruct vt; try discriminate; reflexivity). subst vt. destruct (proj1 D eq_refl) as (l & ->).
    destruct (rd_dict _ _ _ H) as (it & vs & Hi & Gv & F & L). cbn [bind] in Hr. rewrite Hi in Hr. cbn [bind] in Hr.
    destruct (map_all _ _ e _ it) as [[ss|?]| | |] eqn:Es; try discriminate. cbn [bindr] in Hr. injection Hr as <-.
    constructor. eapply (map_all_told (rd e) (fun x => de G f e true x ty1) (fun x => de G f e false x ty2)); [| |eassumption..].
    + intros k x s' Hk Hd. eapply de_key_told; eassumption.
    + intros k t' x s' _ Hx Hd. eapply IH; eassumption.
  - (* YStruct *) unfold as_dict in Hr. rewrite T in Hr. cbn [bind] in Hr. inversion Hty as [| | | | | | | | | | | | | | |fs Hfs| |]; subst. destruct (vtype_eqb vt TyDict) eqn:V; [|discriminate].
    assert (vt = TyDict) by (destruct vt; try discriminate; reflexivity). subst vt. destruct (proj1 D eq_refl) as (l & ->).
    destruct (rd_dict _ _ _ H) as (it & vs & Hi & Gv & F & L). cbn [bind] in Hr. rewrite Hi in Hr. cbn [bind] in Hr.
    destruct (struct_loop _ _ _ e _ _ _ _) as [[ss|?]| | |] eqn:Es; try discriminate. cbn [bindr] in Hr. injection Hr as <-.
    destruct (loop_ok e G fields f (rd e) l vs _ it [] ss F Gv Es) as (acc & Hp & Hf). cbn [app] in Hf.
    destruct (fields_names fields acc ss Hf) as [Hm Hin]. constructor; [exact Hm|]. intros n s Hs.
    destruct (Hin n s Hs) as [Hl|(Hl & Hty' & ->)].
    + left. destruct (picked_in _ _ _ _ _ _ _ _ Hp n s (lookup_In _ _ _ Hl)) as (t & x & ty & Ht & Hlk & Hx & Hd). pose proof (lookup_In _ _ _ Hlk) as Hi2.
      exists t, ty. split; [exact Ht|]. split; [exact Hlk|]. eapply IH; [rewrite Forall_forall in Hfs; exact (Hfs _ Hi2)|eassumption..].
    + right. split; [|split; [intros ty Hi2; eapply fields_all; eassumption|reflexivity]]. intros t Ht.
      destruct (lookup n fields) as [ty'|] eqn:Elk.
      * destruct (picked_has _ _ _ _ _ _ _ _ Hp n t ty' Ht Elk) as (x & s' & _ & _ & Hacc). apply lookup_none in Hl. apply Hl. apply (in_map fst _ _ Hacc).
      * apply lookup_none in Elk. apply Elk. exact Hty'.
  - (* YEnum *) inversion Hty; subst. match goal with Q : 1 <= level NoEnums |- _ => cbn [level] in Q; lia end.
  - (* YNamed *) constructor. eapply IH; [apply HG|eassumption..].
Qed.
End One.

Section Enums.
Variables (e : env) (G : nat -> sty).
Hypothesis W : wf_env e.

Lemma struct_told fields f l vs n it ss : ents_by e (rg e) l vs -> gives e it vs ->
  (forall k t ty x s, In (k, t) l -> lookup k fields = Some ty -> rg e t x -> de G f e false x ty = Ret (Ok s) -> told G t ty s) ->
  struct_loop G (fun x t => de G f e false x t) (ignore_any f e false) e fields n it [] = Ret (Ok ss) ->
  told G (TDict l) (YStruct fields) (SStruct ss).
Proof.
  intros F Gv Hg Es. destruct (loop_ok e G fields f (rg e) l vs n it [] ss F Gv Es) as (acc & Hp & Hf). cbn [app] in Hf.
  destruct (fields_names G fields acc ss Hf) as [Hm Hin]. constructor; [exact Hm|]. intros k s Hs.
  destruct (Hin k s Hs) as [Hl|(Hl & Hty' & ->)].
  - left. destruct (picked_in _ _ _ _ _ _ _ _ Hp k s (lookup_In _ _ _ Hl)) as (t & x & ty & Ht & Hlk & Hx & Hd).
    exists t, ty. split; [exact Ht|]. split; [exact Hlk|]. eapply Hg; eassumption.
  - right. split; [|split; [intros ty Hi2; eapply fields_all; eassumption|reflexivity]]. intros t Ht.
    destruct (lookup k fields) as [ty'|] eqn:Elk.
    + destruct (picked_has _ _ _ _ _ _ _ _ Hp k t ty' Ht Elk) as (x & s' & _ & _ & Hacc). apply lookup_none in Hl. apply Hl. apply (in_map fst _ _ Hacc).
    + apply lookup_none in Elk. apply Elk. exact Hty'.
Qed.
Lemma each_fit_nth f : forall tys l, each_fit true G f tys l = true ->
  forall i ty t, nth_error tys i = Some ty -> nth_error l i = Some t -> enums_fit true G f ty t = true.
Proof.
  induction tys as [|ty tys IH]; intros l H i ty' t' A B; [destruct i; discriminate|]. destruct l as [|t l]; [destruct i; discriminate|].
  cbn [each_fit] in H. apply andb_prop in H as [H1 H2]. destruct i as [|i]; [cbn in A, B; congruence|]. apply (IH l H2 i); assumption.
Qed.

Lemma de_told_fit : forall f ty t, enums_fit true G f ty t = true -> forall v s, rg e t v -> de G f e false v ty = Ret (Ok s) -> told G t ty s.
Proof.
  induction f as [|f IH]; intros ty t Hfit v s H Hr; [discriminate|].
  destruct (rd_any _ _ _ (proj1 H)) as (ev & A & E). destruct (rd_kind _ _ _ (proj1 H)) as (vt & T & N & R & D).
  assert (Hseq : ev = VisSeq -> exists l, t = TArr l).
  { intros ->. destruct t; cbn [tree_ev] in E; try discriminate; [destruct E; discriminate|eauto]. }
  assert (Hn : forall w tys ss l, rg e (TArr l) w -> each_fit true G f tys l = true ->
     (it <- arr_iter e w ;; seq_n (fun x t => de G f e false x t) e tys it) = Ret (Ok ss) -> told_each G l tys ss).
  { intros w tys ss l Hw Htys Hs. destruct (rg_arr _ _ _ W Hw) as (it & vs & wd & Hi & Gv & F & L & _). rewrite Hi in Hs. cbn [bind] in Hs.
    eapply (seq_n_told e G (rg e) (fun x t => de G f e false x t) (fun ty t => enums_fit true G f ty t = true)); [| |eassumption..].
    - intros ty' t' x s' Hin Hx Hd. eapply IH; eassumption.
    - exact (each_fit_nth f tys l Htys). }
  destruct ty; cbn [de] in Hr; try (rewrite A in Hr; cbn [bindr] in Hr; apply ret_inj in Hr; eapply visit_told; eassumption).
  - (* YBytes *) rewrite A in Hr. cbn [bindr] in Hr.
    destruct ev; try (apply ret_inj in Hr; eapply visit_told; eassumption).
    destruct (Hseq eq_refl) as (l & ->). destruct (rg_arr _ _ _ W H) as (it & vs & wd & Hi & Gv & F & L & _). rewrite Hi in Hr. cbn [bind] in Hr.
    destruct (seq_all _ e _ it) as [[ss|?]| | |] eqn:Es; try discriminate. cbn [bindr] in Hr. injection Hr as <-.
    assert (HF : Forall2 (fun t s => told G t (YInt U8) s) l ss).
    { eapply (seq_all_told e G (rg e) (fun x => de G f e false x (YInt U8))); [|eassumption..]. intros t' x s' _ Hx Hd. eapply IH; [|eassumption..]. destruct f; reflexivity. }
    assert (HB : l = map TInt (map (fun x => match x with SInt _ z => z | _ => 0 end) ss) /\
       Forall (fun b => 0 <= b <= 255) (map (fun x => match x with SInt _ z => z | _ => 0 end) ss)).
    { clear - HF. induction HF as [|t s l ss Ht HF [IH1 IH2]]; [split; constructor|]. inversion Ht; subst. cbn [map]. split; [congruence|].
      constructor; [|exact IH2]. match goal with Q : _ <= _ <= _ |- _ => cbn in Q; exact Q end. }
    destruct HB as [HB1 HB2]. rewrite HB1 at 1. constructor. exact HB2.
  - (* YOpt *) rewrite T in Hr. cbn [bind] in Hr.
    destruct (vtype_eqb vt TyNull) eqn:V.
    + assert (vt = TyNull) by (destruct vt; try discriminate; reflexivity). subst vt. rewrite (proj1 N eq_refl). injection Hr as <-. constructor.
    + assert (Hr' : (x <-? de G f e false v ty ;; Ret (Ok (SSome x))) = Ret (Ok s)) by (destruct vt; try discriminate; exact Hr). clear Hr.
      destruct (de G f e false v ty) as [[x|?]| | |] eqn:Ed; try discriminate. cbn [bindr] in Hr'. injection Hr' as <-.
      constructor; [intros ->; rewrite (proj2 N eq_refl) in V; discriminate|]. eapply IH; [exact Hfit|eassumption..].
  - (* YNewtype *) rewrite A in Hr. cbn [bindr] in Hr.
    destruct ev; try (apply ret_inj in Hr; eapply visit_told; eassumption). destruct (Hseq eq_refl) as (l & ->).
    specialize (Hn v [ty]). destruct (arr_iter e v) as [it| | |]; try discriminate. cbn [bind] in Hr, Hn.
    destruct (seq_n _ e [ty] it) as [[ss|?]| | |] eqn:Es; try discriminate. cbn [bindr] in Hr. injection Hr as <-.
    assert (He : told_each G l [ty] ss) by (eapply Hn; [exact H|exact Hfit|reflexivity]).
    inversion He as [|? ? ? ? ? ? Ht Hrest]; subst. inversion Hrest; subst. cbn [nth]. constructor. assumption.
  - (* YSeq *) unfold as_array in Hr. rewrite T in Hr. cbn [bind] in Hr. destruct (vtype_eqb vt TyArray) eqn:V; [|discriminate].
    assert (vt = TyArray) by (destruct vt; try discriminate; reflexivity). subst vt. destruct (proj1 R eq_refl) as (l & ->).
    destruct (rg_arr _ _ _ W H) as (it & vs & wd & Hi & Gv & F & L & _). cbn [bind] in Hr. rewrite Hi in Hr. cbn [bind] in Hr.
    destruct (seq_all _ e _ it) as [[ss|?]| | |] eqn:Es; try discriminate. cbn [bindr] in Hr. injection Hr as <-.
    cbn [enums_fit] in Hfit. rewrite forallb_forall in Hfit.
    constructor. eapply (seq_all_told e G (rg e) (fun x => de G f e false x ty)); [|eassumption..]. intros t' x s' Hin Hx Hd. eapply IH; [apply Hfit; exact Hin|eassumption..].
  - (* YTuple *) rewrite A in Hr. cbn [bindr] in Hr.
    destruct ev; try (apply ret_inj in Hr; eapply visit_told; eassumption). destruct (Hseq eq_refl) as (l & ->).
    specialize (Hn v ts). destruct (arr_iter e v) as [it| | |]; try discriminate. cbn [bind] in Hr, Hn.
    destruct (seq_n _ e ts it) as [[ss|?]| | |] eqn:Es; try discriminate. cbn [bindr] in Hr. injection Hr as <-.
    constructor. eapply Hn; [exact H|exact Hfit|reflexivity].
  - (* YTupleStruct *) rewrite A in Hr. cbn [bindr] in Hr.
    destruct ev; try (apply ret_inj in Hr; eapply visit_told; eassumption). destruct (Hseq eq_refl) as (l & ->).
    specialize (Hn v ts). destruct (arr_iter e v) as [it| | |]; try discriminate. cbn [bind] in Hr, Hn.
    destruct (seq_n _ e ts it) as [[ss|?]| | |] eqn:Es; try discriminate. cbn [bindr] in Hr. injection Hr as <-.
    constructor. eapply Hn; [exact H|exact Hfit|reflexivity].
  - (* YMap *) unfold as_dict in Hr. rewrite T in Hr. cbn [bind] in Hr. destruct (vtype_eqb vt TyDict) eqn:V; [|discriminate].
    assert (vt = TyDict) by (destruct vt; try discriminate; reflexivity). subst vt. destruct (proj1 D eq_refl) as (l & ->).
    destruct (rg_dict _ _ _ W H) as (it & vs & Hi & Gv & F & L). cbn [bind] in Hr. rewrite Hi in Hr. cbn [bind] in Hr.
    destruct (map_all _ _ e _ it) as [[ss|?]| | |] eqn:Es; try discriminate. cbn [bindr] in Hr. injection Hr as <-.
    cbn [enums_fit] in Hfit. rewrite forallb_forall in Hfit.
    constructor. eapply (map_all_told e G (rg e) (fun x => de G f e true x ty1) (fun x => de G f e false x ty2)); [| |eassumption..].
    + intros k x s' Hk Hd. eapply de_key_told; eassumption.
    + intros k t' x s' Hin Hx Hd. eapply IH; [apply (Hfit _ Hin)|eassumption..].
  - (* YStruct *) unfold as_dict in Hr. rewrite T in Hr. cbn [bind] in Hr. destruct (vtype_eqb vt TyDict) eqn:V; [|discriminate].
    assert (vt = TyDict) by (destruct vt; try discriminate; reflexivity). subst vt. destruct (proj1 D eq_refl) as (l & ->).
    destruct (rg_dict _ _ _ W H) as (it & vs & Hi & Gv & F & L). cbn [bind] in Hr. rewrite Hi in Hr. cbn [bind] in Hr.
    destruct (struct_loop _ _ _ e _ _ _ _) as [[ss|?]| | |] eqn:Es; try discriminate. cbn [bindr] in Hr. injection Hr as <-.
    cbn [enums_fit] in Hfit. rewrite forallb_forall in Hfit.
    eapply struct_told; [eassumption..| |eassumption]. intros k t' ty x s' Hin Hl Hx Hd. eapply IH; [|eassumption..].
    specialize (Hfit _ Hin). cbn [fst snd] in Hfit. rewrite Hl in Hfit. exact Hfit.
  - (* YEnum *) unfold as_array in Hr. rewrite T in Hr. cbn [bind] in Hr. destruct (vtype_eqb vt TyArray) eqn:V; [|discriminate].
    assert (vt = TyArray) by (destruct vt; try discriminate; reflexivity). subst vt. destruct (proj1 R eq_refl) as (l & ->). cbn [bind] in Hr.
    destruct (rg_arr _ _ _ W H) as (it & vs & wd & Hi & Gv & F & L & Wd & Len & Get).
    destruct l as [|t0 rest]; [discriminate|]. inversion F as [|? x ? xs X Fr]; subst.
    pose proof (Get 0%nat x eq_refl) as Q. cbn [Z.of_nat] in Q.
    rewrite Wd in Hr. cbn [bind] in Hr. rewrite Q in Hr. cbn [bind] in Hr. rewrite (rd_debug _ _ _ (proj1 H)) in Hr. cbn [bind] in Hr.
    rewrite (nonptr_new e wd x (rd_nonptr _ _ _ (proj1 X))) in Hr. cbn [bind] in Hr.
    destruct (rd_any _ _ _ (proj1 X)) as (fv & B & C). rewrite B in Hr. cbn [bindr] in Hr.
    destruct (ident (map fst variants) fv) as [o|o] eqn:Hid; [|discriminate]. cbn [bind bindr] in Hr. destruct o as [name|]; [|discriminate].
    assert (Hs : fv = VisStr name \/ fv = VisBytes name).
    { destruct t0; cbn [tree_ev] in C; subst; cbn [ident] in Hid; try discriminate.
      - destruct (existsb _ _); [injection Hid as <-; auto|discriminate].
      - destruct (existsb _ _); [injection Hid as <-; auto|discriminate]. }
    assert (Ht0 : t0 = TStr name \/ t0 = TData name).
    { destruct t0; cbn [tree_ev] in C; try discriminate; rewrite C in Hs; destruct Hs as [Hs|Hs]; try discriminate; injection Hs as ->; auto. }
    assert (Hfit2 : match lookup name variants with
              | None | Some VUnit => true
              | Some (VNewtype ty') => match rest with x :: _ => enums_fit true G f ty' x | [] => false end
              | Some (VTuple ts) => match rest with TArr l :: _ => each_fit true G f ts l | _ :: _ => true | [] => false end
              | Some (VStruct fs) =>
                  true &&
                  match rest with
                  | TDict l :: _ =>
                      forallb (fun kx => match lookup (fst kx) fs with Some ty' => enums_fit true G f ty' (snd kx) | None => true end) l
                  | _ :: _ => true
                  | [] => false
                  end
              end = true) by (destruct Ht0 as [-> | ->]; exact Hfit).
    clear Hfit. destruct (lookup name variants) as [vt|] eqn:Elk; [|discriminate].
    apply (told_enum G t0 name rest variants vt s Ht0 Elk). clear Elk. destruct vt as [|ty'|ts|fs].
    + rewrite Len in Hr. cbn [bind] in Hr. destruct (lenZ (t0 :: rest) =? 1) eqn:E1; [|discriminate]. injection Hr as <-.
      assert (rest = []) by (destruct rest; [reflexivity|rewrite !lenZ_cons in E1; pose proof (lenZ_nonneg rest); lia]). subst. constructor.
    + destruct rest as [|tr rest]; [discriminate|]. inversion Fr as [|? y ? ys Y Fs]; subst.
      pose proof (Get 1%nat y eq_refl) as P1. cbn in P1. rewrite P1 in Hr. cbn [bind] in Hr.
      rewrite (nonptr_new e wd y (rd_nonptr _ _ _ (proj1 Y))) in Hr. cbn [bind] in Hr.
      destruct (de G f e false y ty') as [[z|?]| | |] eqn:Ed; try discriminate. cbn [bindr] in Hr. injection Hr as <-.
      constructor. eapply IH; eassumption.
    + destruct rest as [|tr rest]; [discriminate|]. inversion Fr as [|? y ? ys Y Fs]; subst.
      pose proof (Get 1%nat y eq_refl) as P1. cbn in P1. rewrite P1 in Hr. cbn [bind] in Hr.
      destruct (rd_kind _ _ _ (proj1 Y)) as (u & U & _ & RR & _). unfold as_array in Hr. rewrite U in Hr. cbn [bind] in Hr.
      destruct (vtype_eqb u TyArray) eqn:V3; [|cbn [bind] in Hr; discriminate].
      assert (u = TyArray) by (destruct u; try discriminate; reflexivity). subst u. destruct (proj1 RR eq_refl) as (l & ->). cbn [bind] in Hr.
      destruct (rg_arr _ _ _ W Y) as (jt & ws & z & J & S & FF & LL & _ & Ln & _). rewrite Ln in Hr. cbn [bind] in Hr.
      destruct (lenZ l =? lenZ ts) eqn:El; [|cbn [bind] in Hr; discriminate].
      rewrite (nonptr_new e wd y (rd_nonptr _ _ _ (proj1 Y))) in Hr. cbn [bind] in Hr. rewrite J in Hr. cbn [bind] in Hr.
      destruct (seq_n _ e ts jt) as [[ss|?]| | |] eqn:Es; try discriminate. cbn [bindr] in Hr. injection Hr as <-.
      constructor; [unfold lenZ in El; lia|]. eapply (Hn y); [exact Y|exact Hfit2|]. rewrite J. exact Es.
    + cbn [andb] in Hfit2. destruct rest as [|tr rest]; [discriminate|]. inversion Fr as [|? y ? ys Y Fs]; subst.
      pose proof (Get 1%nat y eq_refl) as P1. cbn in P1. rewrite P1 in Hr. cbn [bind] in Hr.
      destruct (rd_kind _ _ _ (proj1 Y)) as (u & U & _ & _ & RR). unfold as_dict in Hr. rewrite U in Hr. cbn [bind] in Hr.
      destruct (vtype_eqb u TyDict) eqn:V3; [|cbn [bind] in Hr; discriminate].
      assert (u = TyDict) by (destruct u; try discriminate; reflexivity). subst u. destruct (proj1 RR eq_refl) as (l & ->). cbn [bind] in Hr.
      rewrite forallb_forall in Hfit2. destruct (dict_len e y) as [n0| | |]; try discriminate. cbn [bind] in Hr.
      match type of Hr with bind ?a _ = _ => destruct a as [[]| | |] end; cbn [bind] in Hr; try discriminate.
      rewrite (nonptr_new e wd y (rd_nonptr _ _ _ (proj1 Y))) in Hr. cbn [bind] in Hr.
      destruct (rg_dict _ _ _ W Y) as (jt & ws & J & S & FF & LL). rewrite J in Hr. cbn [bind] in Hr.
      destruct (struct_loop _ _ _ e _ _ _ _) as [[ss|?]| | |] eqn:Es; try discriminate. cbn [bindr] in Hr. injection Hr as <-.
      constructor. eapply struct_told; [eassumption..| |eassumption]. intros k t' ty x' s' Hin Hl Hx Hd. eapply IH; [|eassumption..].
      specialize (Hfit2 _ Hin). cbn [fst snd] in Hfit2. rewrite Hl in Hfit2. exact Hfit2.
  - (* YNamed *) constructor. eapply IH; [exact Hfit|eassumption..].
Qed.
End Enums.

Lemma doc_told_enums e t G ty fuel s : wf_env e -> doc_reads e t -> enums_fit true G fuel ty t = true ->
  de_from_bytes G fuel e ty = Ret (Ok s) -> told G t ty s.
Proof.
  intros W (r & d & F & R & Kt) Hfit Hr. unfold de_from_bytes in Hr. rewrite F in Hr. cbn [bind] in Hr.
  assert (H : rg e t r) by (split; [split; [exists (fuel_of e)|eexists]; eauto|apply root_gd; assumption]).
  rewrite (nonptr_new e _ r (rd_nonptr _ _ _ (proj1 H))) in Hr. cbn [bind] in Hr. eapply de_told_fit; eassumption.
Qed.

Lemma doc_told e t G K ty fuel s : doc_reads e t -> types_ok G K NoEnums ty -> de_from_bytes G fuel e ty = Ret (Ok s) -> told G t ty s.
Proof.
  intros (r & d & F & R & Kt) (_ & Hty & HG) Hr. unfold de_from_bytes in Hr. rewrite F in Hr. cbn [bind] in Hr.
  assert (H : rd e t r) by (split; [exists (fuel_of e)|eexists]; eauto). rewrite (nonptr_new e _ r (rd_nonptr _ _ _ H)) in Hr. cbn [bind] in Hr.
  eapply de_told; eassumption.
Qed.

Lemma doc_integer e z i G fuel : doc_reads e (TInt z) ->
  (ity_min i <= z <= ity_max i -> de_from_bytes G (S fuel) e (YInt i) = Ret (Ok (SInt i z))) /\
  (~ ity_min i <= z <= ity_max i -> exists er, de_from_bytes G (S fuel) e (YInt i) = Ret (Err er)).
Proof.
  intros (r & d & F & R & Kt). unfold de_from_bytes. rewrite F. cbn [bind].
  assert (H : rd e (TInt z) r) by (split; [exists (fuel_of e)|eexists]; eauto). rewrite (nonptr_new e _ r (rd_nonptr _ _ _ H)). cbn [bind].
  destruct (rd_any _ _ _ H) as (ev & A & u & ->). cbn [de]. rewrite A. cbn [bindr visit_scalar].
  split; intros Hr; destruct ((ity_min i <=? z) && (z <=? ity_max i)) eqn:E; [reflexivity|exfalso; lia|exfalso; lia|eauto].
Qed.
