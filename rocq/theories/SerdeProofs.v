(** Proofs about serializing and then deserializing. *)
From Verif Require Import Prelude Lib Varint VarintProofs Utf8 Float SharedKeys Decode Read Encodable Encoder BuilderSpec Holds Repr
  EncodableProofs Stored StoredRead SlotProofs EncoderProofs EncoderInv EncoderClean LayoutSpec EncoderLayout EncoderProtocol
  Scopes PathSpec Lookup Path Access Ser De SerdeSpec SerProofs DeProofs.
From Coq Require Import ZifyBool ZifyNat ZifyN Permutation.
Ltac Zify.zify_post_hook ::= Z.div_mod_to_equations.

(* ---------- lists with names ---------- *)

Lemma lookup_In {A} (l : list (list Z * A)) k x : NoDup (map fst l) -> In (k, x) l -> lookup k l = Some x.
Proof.
  induction l as [|[k' y] l IH]; intros Hn Hi; [destruct Hi|]. cbn [lookup map fst] in *. inversion Hn as [|? ? H1 H2]; subst.
  destruct Hi as [E|Hi].
  - injection E as <- <-. rewrite bytes_eqb_refl. reflexivity.
  - destruct (bytes_eqb k' k) eqn:E; [|auto]. apply bytes_eqb_eq in E. subst k'. exfalso. apply H1.
    apply in_map_iff. exists (k, x). auto.
Qed.
Lemma lookup_absent {A} (l : list (list Z * A)) k : ~ In k (map fst l) -> lookup k l = None.
Proof.
  induction l as [|[k' y] l IH]; cbn [map fst lookup In]; intros H; [reflexivity|].
  destruct (bytes_eqb k' k) eqn:E; [|apply IH; tauto]. apply bytes_eqb_eq in E. tauto.
Qed.
Lemma in_names k (l : list (list Z)) : In k l -> existsb (bytes_eqb k) l = true.
Proof. intros H. apply existsb_exists. exists k. split; [exact H|apply bytes_eqb_refl]. Qed.

Lemma Forall2_length2 {A B} (R : A -> B -> Prop) l m : Forall2 R l m -> length l = length m.
Proof. induction 1; cbn [length]; congruence. Qed.

(* ---------- structs ---------- *)

Lemma tstruct_all G f g fields : forall m ys acc,
  Forall2 (fun (kt : list Z * tree) (ky : list Z * sval) =>
    fst ky = fst kt /\ exists ty, lookup (fst kt) fields = Some ty /\ g (snd kt) ty = Some (Ok (snd ky))) m ys ->
  NoDup (map fst m) -> (forall k, In k (map fst m) -> In k (map fst fields) /\ ~ In k (map fst acc)) ->
  tstruct G f g fields m acc = Some (fields_of G fields (acc ++ ys)).
Proof.
  intros m ys acc H. revert acc. induction H as [|[k t] [k' y] m ys [E (ty & Hl & Hg)] HF IH]; intros acc Hn Hk; cbn [tstruct].
  - rewrite app_nil_r. reflexivity.
  - cbn [fst snd map] in *. subst k'. destruct (Hk k (or_introl eq_refl)) as [H1 H2].
    rewrite (in_names _ _ H1), (lookup_absent _ _ H2), Hl, Hg. cbn [pbind].
    inversion Hn as [|? ? Hn1 Hn2]; subst. rewrite IH; [rewrite <- app_assoc; reflexivity|exact Hn2|].
    intros k1 Hk1. destruct (Hk k1 (or_intror Hk1)) as [H3 H4]. split; [exact H3|].
    rewrite map_app, in_app_iff. cbn [map fst In]. intros [Hx|[Hx|[]]]; [exact (H4 Hx)|]. subst k1. contradiction.
Qed.

Lemma fields_of_ok G ys : NoDup (map fst ys) -> forall fs (l : list (list Z * sval)),
  map fst fs = map fst l ->
  (forall k x, In (k, x) l -> exists y, In (k, y) ys /\ same x y) ->
  exists l', fields_of G fs ys = Ok l' /\ Forall2 (fun a b => fst a = fst b /\ same (snd a) (snd b)) l l'.
Proof.
  intros Hn. induction fs as [|[k ty] fs IH]; intros [|[k' x] l] E H; try discriminate; cbn [fields_of].
  - exists []. auto.
  - cbn [map fst] in E. injection E as <- E. destruct (H k x (or_introl eq_refl)) as (y & Hy & Hs).
    rewrite (lookup_In ys k y Hn Hy). destruct (IH l E) as (l' & Hl' & HF); [intros; apply H; right; assumption|].
    rewrite Hl'. exists ((k, y) :: l'). split; [reflexivity|]. constructor; auto.
Qed.

(* ---------- map keys ---------- *)

Lemma tkey_round G : forall n kt k s, typed G n kt k -> restorable k = true -> key_text k = Ok s ->
  tkey G n kt s = Some (Ok k).
Proof.
  induction n as [|n IH]; intros kt k s Ht Hr Hk; [destruct Ht|]. cbn [typed] in Ht; unfold typed_step in Ht. cbn [tkey].
  destruct kt; destruct k; try contradiction; try discriminate; cbn [key_text] in Hk;
    try (injection Hk as <-); cbn [visit_scalar];
    try (apply (IH _ _ _ Ht Hr); first [reflexivity|exact Hk]); try reflexivity.
  - destruct Ht as ((_ & _ & Hu) & Hc). unfold one_char. rewrite Hu. cbn [andb]. rewrite (proj2 (Z.eqb_eq _ _) Hc). reflexivity.
  - cbn [restorable] in Hr. apply andb_true_iff in Hr as [_ Hr]. rewrite (IH _ _ _ Ht Hr Hk). reflexivity.
Qed.
Lemma key_inj G : forall n kt a b s, typed G n kt a -> typed G n kt b -> restorable a = true -> restorable b = true ->
  key_text a = Ok s -> key_text b = Ok s -> a = b.
Proof.
  intros n kt a b s Ha Hb Hra Hrb Hka Hkb. pose proof (tkey_round G n kt a s Ha Hra Hka) as H1.
  rewrite (tkey_round G n kt b s Hb Hrb Hkb) in H1. congruence.
Qed.

(* ---------- null ---------- *)

Lemma nullish_tree : forall v, stree v = TNull -> nullish v = true.
Proof.
  intros v. induction v as [v Hb|v IHv|v IHv|n v IHv|l H|l H|l H|n l H|l H|l H|n l H] using sval_all; cbn [stree nullish];
    try discriminate; auto. destruct v; try contradiction; cbn; try discriminate; reflexivity.
Qed.

Lemma tsim_one t a : tsim (TArr [a]) t -> exists a', t = TArr [a'] /\ tsim a a'.
Proof.
  intros H. apply tsim_arr in H as (m & -> & HF). inversion HF as [|? a' ? m' H1 H2]; subst. inversion H2; subst. eauto.
Qed.
Lemma tsim_two t a b : tsim (TArr [a; b]) t -> exists a' b', t = TArr [a'; b'] /\ tsim a a' /\ tsim b b'.
Proof.
  intros H. apply tsim_arr in H as (m & -> & HF). inversion HF as [|? a' ? m' H1 H2]; subst.
  inversion H2 as [|? b' ? m2 H3 H4]; subst. inversion H4; subst. eauto 6.
Qed.

(* ---------- the round trip on trees ---------- *)

Section Round.
Variables (G : nat -> sty) (q : list Z -> bool).

Definition rounds (n : nat) : Prop := forall ty v t,
  typed G n ty v -> restorable v = true -> bad_key v = None -> (forall k, In (COp (OpKey k)) (calls v) -> q k = true) ->
  tsim (stree v) t -> exists w, dtree G q n ty t = Some (Ok w) /\ same v w.

Lemma seq_all_round n ty : rounds n -> forall l m, Forall (typed G n ty) l -> forallb restorable l = true ->
  first_bad bad_key l = None -> (forall k, In (COp (OpKey k)) (flat_map calls l) -> q k = true) ->
  Forall2 tsim (map stree l) m -> exists ws, tseq_all (dtree G q n ty) m = Some (Ok ws) /\ Forall2 same l ws.
Proof.
  intros HR. induction l as [|v l IH]; intros m Ht Hr Hb Hk HF; inversion HF as [|? t ? m' H1 H2]; subst; cbn [tseq_all].
  - eauto.
  - inversion Ht as [|? ? Ht1 Ht2]; subst. cbn [forallb first_bad flat_map] in *. apply andb_true_iff in Hr as [Hr1 Hr2].
    destruct (bad_key v) eqn:Eb; [discriminate|].
    destruct (HR ty v t Ht1 Hr1 Eb) as (w & Hw & Hs); [intros k Hi; apply Hk; apply in_or_app; left; exact Hi|exact H1|].
    destruct (IH m' Ht2 Hr2 Hb) as (ws & Hws & Hss); [intros k Hi; apply Hk; apply in_or_app; right; exact Hi|exact H2|].
    rewrite Hw; cbn [pbind]. rewrite Hws; cbn [pbind]. eauto.
Qed.
Lemma seq_n_round n : rounds n -> forall ts l, Forall2 (typed G n) ts l -> forall m, forallb restorable l = true ->
  first_bad bad_key l = None -> (forall k, In (COp (OpKey k)) (flat_map calls l) -> q k = true) ->
  Forall2 tsim (map stree l) m ->
  exists ws, tseq_n (fun t ty => dtree G q n ty t) ts m = Some (Ok ws) /\ Forall2 same l ws.
Proof.
  intros HR. induction 1 as [|ty v ts l Ht1 Ht2 IH]; intros m Hr Hb Hk HF; inversion HF as [|? t ? m' H1 H2]; subst; cbn [tseq_n].
  - eauto.
  - cbn [forallb first_bad flat_map] in *. apply andb_true_iff in Hr as [Hr1 Hr2].
    destruct (bad_key v) eqn:Eb; [discriminate|].
    destruct (HR ty v t Ht1 Hr1 Eb) as (w & Hw & Hs); [intros k Hi; apply Hk; apply in_or_app; left; exact Hi|exact H1|].
    destruct (IH m' Hr2 Hb) as (ws & Hws & Hss); [intros k Hi; apply Hk; apply in_or_app; right; exact Hi|exact H2|].
    rewrite Hw; cbn [pbind]. rewrite Hws; cbn [pbind]. eauto.
Qed.

Lemma first_bad_In {A} (f : A -> option key_kind) l : first_bad f l = None -> forall x, In x l -> f x = None.
Proof.
  induction l as [|a l IH]; cbn [first_bad]; intros H x Hi; [destruct Hi|]. destruct (f a) eqn:E; [discriminate|].
  destruct Hi as [<-|Hi]; auto.
Qed.

Lemma struct_round n fs l t : rounds n ->
  NoDup (map fst fs) -> Forall2 (fun f x => fst x = fst f /\ typed G n (snd f) (snd x)) fs l ->
  forallb (fun f : list Z * sval => restorable (snd f)) l = true -> first_bad (fun f : list Z * sval => bad_key (snd f)) l = None ->
  (forall k, In (COp (OpKey k)) (flat_map (fun f : list Z * sval => COp (OpKey (fst f)) :: calls (snd f)) l) -> q k = true) ->
  tsim (TDict (map (fun f => (fst f, stree (snd f))) l)) t ->
  exists m ws, t = TDict m /\ Permutation (map fst fs) (map fst m) /\
    tstruct G n (fun t ty => dtree G q n ty t) fs m [] = Some (Ok ws) /\
    Forall2 (fun a b => fst a = fst b /\ same (snd a) (snd b)) l ws.
Proof.
  intros HR Hn HF Hr Hb Hk Hts. apply tsim_dict in Hts as (l' & m & -> & Hp & HF2).
  apply Permutation_sym, Permutation_map_inv in Hp as (l2 & -> & Hp).
  assert (Efs : map fst fs = map fst l).
  { clear - HF. induction HF as [|f x fs l [E _] HF IH]; [reflexivity|]. cbn [map]. rewrite E, IH. reflexivity. }
  assert (Hty : forall k x, In (k, x) l -> exists ty, lookup k fs = Some ty /\ typed G n ty x).
  { intros k x Hi. destruct (Forall2_In_r _ _ _ _ HF Hi) as ([k' ty] & Hin & E & Ht). cbn [fst snd] in *. subst k'.
    exists ty. split; [apply lookup_In; assumption|exact Ht]. }
  assert (Hys : exists ys, Forall2 (fun (kt : list Z * tree) (ky : list Z * sval) =>
      fst ky = fst kt /\ exists ty, lookup (fst kt) fs = Some ty /\ dtree G q n ty (snd kt) = Some (Ok (snd ky))) m ys /\
      Forall2 (fun a b => fst a = fst b /\ same (snd a) (snd b)) l2 ys).
  { assert (Hin : forall a, In a l2 -> In a l) by (intros a Ha; eapply Permutation_in; [apply Permutation_sym; exact Hp|exact Ha]).
    clear Hp. revert m HF2. induction l2 as [|[k x] l2 IH]; intros m HF2; inversion HF2 as [|? [k' t] ? m' [E Hs] HF3]; subst.
    - exists []. auto.
    - cbn [fst snd map] in *. subst k'. pose proof (Hin _ (or_introl eq_refl)) as Hi.
      destruct (Hty k x Hi) as (ty & Hl & Ht). rewrite forallb_forall in Hr. specialize (Hr _ Hi) as Hr1. cbn [snd] in Hr1.
      pose proof (first_bad_In _ _ Hb _ Hi) as Hb1. cbn [snd] in Hb1.
      destruct (HR ty x t Ht Hr1 Hb1) as (w & Hw & Hsame); [|exact Hs|].
      { intros k1 Hk1. apply Hk. apply in_flat_map. exists (k, x). split; [exact Hi|]. right. exact Hk1. }
      destruct (IH ltac:(intros a Ha; apply Hin; right; exact Ha) m' HF3) as (ys & Hy1 & Hy2).
      exists ((k, w) :: ys). split; constructor; cbn [fst snd]; eauto. }
  destruct Hys as (ys & Hy1 & Hy2).
  assert (Emy : map fst m = map fst ys).
  { clear - Hy1. induction Hy1 as [|a b m ys [E _] _ IH]; [reflexivity|]. cbn [map]. rewrite E, IH. reflexivity. }
  assert (Ely : map fst l2 = map fst ys).
  { clear - Hy2. induction Hy2 as [|a b m ys [E _] _ IH]; [reflexivity|]. cbn [map]. rewrite E, IH. reflexivity. }
  assert (Hpm : Permutation (map fst fs) (map fst m)) by (rewrite Efs, Emy, <- Ely; apply Permutation_map; exact Hp).
  assert (Hnm : NoDup (map fst m)) by (eapply Permutation_NoDup; eauto).
  exists m. rewrite (tstruct_all G n _ fs m ys [] Hy1 Hnm).
  2:{ intros k Hi. split; [|intros []]. eapply Permutation_in; [apply Permutation_sym; exact Hpm|exact Hi]. }
  cbn [app]. destruct (fields_of_ok G ys ltac:(rewrite <- Emy; exact Hnm) fs l Efs) as (ws & Hw & HFw).
  { intros k x Hi. apply (Permutation_in _ Hp) in Hi. clear - Hi Hy2.
    induction Hy2 as [|a b l2 ys [E Hs] HF IH]; [destruct Hi|]. destruct Hi as [->|Hi].
    - destruct b as [k' y]. cbn [fst snd] in *. subst k'. exists y. split; [left; reflexivity|exact Hs].
    - destruct (IH Hi) as (y & H1 & H2). exists y. split; [right; exact H1|exact H2]. }
  exists ws. rewrite Hw. auto.
Qed.

Theorem round_tree : forall n, rounds n.
Proof.
  induction n as [|n IH]; intros ty v t Ht Hr Hb Hk Hs; [destruct Ht|]. cbn [typed] in Ht; unfold typed_step in Ht. cbn [dtree].
  destruct ty.
  - destruct v; try contradiction. apply tsim_scalar in Hs; [|reflexivity]. subst t. eexists. split; [reflexivity|constructor].
  - destruct v; try contradiction. destruct Ht as [-> Hz]. apply tsim_scalar in Hs; [|reflexivity]. subst t. cbn [tree_event stree visit_scalar].
    destruct ((ity_min t0 <=? z) && (z <=? ity_max t0)) eqn:E; [|lia]. eexists. split; [reflexivity|constructor].
  - destruct v; try contradiction. apply tsim_scalar in Hs; [|reflexivity]. subst t. cbn [tree_event stree visit_scalar restorable] in *.
    apply Z.eqb_eq in Hr. rewrite Hr. eexists. split; [reflexivity|constructor].
  - destruct v; try contradiction. apply tsim_scalar in Hs; [|reflexivity]. subst t. eexists. split; [reflexivity|constructor].
  - destruct v; try contradiction. destruct Ht as ((_ & _ & Hu) & Hc). apply tsim_scalar in Hs; [|reflexivity]. subst t.
    cbn [tree_event stree visit_scalar]. unfold one_char. rewrite Hu, (proj2 (Z.eqb_eq _ _) Hc). eexists. split; [reflexivity|constructor].
  - destruct v; try contradiction. apply tsim_scalar in Hs; [|reflexivity]. subst t. eexists. split; [reflexivity|constructor].
  - destruct v; try contradiction. apply tsim_scalar in Hs; [|reflexivity]. subst t. eexists. split; [reflexivity|constructor].
  - destruct v; try contradiction. apply tsim_scalar in Hs; [|reflexivity]. subst t. eexists. split; [reflexivity|constructor].
  - destruct v; try contradiction. discriminate.
  - (* option *)
    destruct v; try contradiction.
    + apply tsim_scalar in Hs; [|reflexivity]. subst t. eexists. split; [reflexivity|constructor].
    + cbn [restorable bad_key calls stree] in *. apply andb_true_iff in Hr as [Hn Hr].
      assert (Hnt : t <> TNull).
      { intros ->. assert (E : stree v = TNull) by (inversion Hs; reflexivity). apply nullish_tree in E. rewrite E in Hn. discriminate. }
      destruct (IH ty v t Ht Hr Hb Hk Hs) as (w & Hw & Hsame). exists (SSome w).
      split; [destruct t; try congruence; rewrite Hw; reflexivity|constructor; exact Hsame].
  - destruct v; try contradiction. discriminate.
  - (* seq *)
    destruct v; try contradiction. cbn [restorable bad_key calls stree] in *. apply tsim_arr in Hs as (m & -> & HF).
    destruct (seq_all_round n ty IH l m Ht Hr Hb) as (ws & Hw & Hsame); [|exact HF|].
    { intros k Hi. apply Hk. right. apply in_or_app. left. exact Hi. }
    rewrite Hw. exists (SSeq ws). split; [reflexivity|constructor; exact Hsame].
  - (* tuple *)
    destruct v; try contradiction. cbn [restorable bad_key calls stree] in *. apply tsim_arr in Hs as (m & -> & HF).
    destruct (seq_n_round n IH ts l Ht m Hr Hb) as (ws & Hw & Hsame); [|exact HF|].
    { intros k Hi. apply Hk. right. apply in_or_app. left. exact Hi. }
    rewrite Hw. exists (STuple ws). split; [reflexivity|constructor; exact Hsame].
  - (* tuple struct *)
    destruct v; try contradiction. cbn [restorable bad_key calls stree] in *. apply tsim_arr in Hs as (m & -> & HF).
    destruct (seq_n_round n IH ts l Ht m Hr Hb) as (ws & Hw & Hsame); [|exact HF|].
    { intros k Hi. apply Hk. right. apply in_or_app. left. exact Hi. }
    rewrite Hw. exists (STupleStruct ws). split; [reflexivity|constructor; exact Hsame].
  - (* map *)
    destruct v; try contradiction. cbn [restorable bad_key calls stree] in *. destruct Ht as [Hnd Ht].
    apply tsim_dict in Hs as (l' & m & -> & Hp & HF2). apply Permutation_sym, Permutation_map_inv in Hp as (l2 & -> & Hp).
    assert (Hall : exists ws, tmap_all (tkey G n ty1) (dtree G q n ty2) m = Some (Ok ws) /\
      Forall2 (fun a b => fst a = fst b /\ same (snd a) (snd b)) l2 ws).
    { assert (Hin : forall a, In a l2 -> In a l) by (intros a Ha; eapply Permutation_in; [apply Permutation_sym; exact Hp|exact Ha]).
      clear Hp. revert m HF2. induction l2 as [|[k x] l2 IHl]; intros m HF2; inversion HF2 as [|? [k' t] ? m' [E Hs] HF3]; subst; cbn [tmap_all].
      - eauto.
      - cbn [fst snd map] in *. subst k'. pose proof (Hin _ (or_introl eq_refl)) as Hi.
        rewrite Forall_forall in Ht. destruct (Ht _ Hi) as [Ht1 Ht2]. cbn [fst snd] in *.
        rewrite forallb_forall in Hr. specialize (Hr _ Hi) as Hr1. cbn [fst snd] in Hr1. apply andb_true_iff in Hr1 as [Hr1 Hr2].
        pose proof (first_bad_In _ _ Hb _ Hi) as Hb1. cbn [fst snd] in Hb1.
        assert (Hcs : forall c, In c (key_call k :: calls x) -> In c (flat_map (fun kv : sval * sval => key_call (fst kv) :: calls (snd kv)) l)).
        { intros c Hc. apply in_flat_map. exists (k, x). auto. }
        unfold text_of. destruct (key_text k) as [s|x1] eqn:Ek; [|discriminate].
        rewrite (tkey_round G n ty1 k s Ht1 Hr1 Ek). cbn [pbind].
        destruct (IH ty2 x t Ht2 Hr2 Hb1) as (w & Hw & Hsame); [|exact Hs|].
        { intros k1 Hk1. apply Hk. right. apply in_or_app. left. apply Hcs. right. exact Hk1. }
        rewrite Hw; cbn [pbind].
        destruct (IHl ltac:(intros a Ha; apply Hin; right; exact Ha) m' HF3) as (ws & Hws & Hss). rewrite Hws; cbn [pbind].
        exists ((k, w) :: ws). split; [reflexivity|]. constructor; auto. }
    destruct Hall as (ws & Hw & Hss). rewrite Hw. exists (SMap ws). split; [reflexivity|]. econstructor; eauto.
  - (* struct *)
    destruct v; try contradiction. cbn [restorable bad_key calls stree] in *. destruct Ht as [Hn HF].
    destruct (struct_round n fields l t IH Hn HF Hr Hb) as (m & ws & -> & _ & Hw & Hsame); [|exact Hs|].
    { intros k Hi. apply Hk. right. apply in_or_app. left. exact Hi. }
    rewrite Hw. exists (SStruct ws). split; [reflexivity|constructor; exact Hsame].
  - (* enum *)
    assert (Hname : forall name vt, NoDup (map fst variants) -> In (name, vt) variants ->
      existsb (bytes_eqb name) (map fst variants) = true /\ lookup name variants = Some vt).
    { intros name vt Hn Hi. split; [apply in_names; apply in_map_iff; exists (name, vt); auto|apply lookup_In; assumption]. }
    destruct v; try contradiction; cbn [restorable bad_key calls stree] in *.
    + destruct Ht as [Hn Hi]. destruct (Hname _ _ Hn Hi) as [E1 E2].
      apply tsim_one in Hs as (a & -> & Ha). apply tsim_scalar in Ha; [|reflexivity]. subst a.
      rewrite E1, E2. eexists. split; [reflexivity|constructor].
    + destruct Ht as (Hn & ty & Hi & Ht). destruct (Hname _ _ Hn Hi) as [E1 E2].
      apply tsim_two in Hs as (a & b & -> & Ha & Hbt). apply tsim_scalar in Ha; [|reflexivity]. subst a.
      rewrite E1, E2. destruct (IH ty v b Ht Hr Hb) as (w & Hw & Hsame); [|exact Hbt|].
      { intros k Hk1. apply Hk. right. right. apply in_or_app. left. exact Hk1. }
      rewrite Hw. exists (SNewtypeVariant name w). split; [reflexivity|constructor; exact Hsame].
    + destruct Ht as (Hn & ts & Hi & Ht). destruct (Hname _ _ Hn Hi) as [E1 E2].
      apply tsim_two in Hs as (a & b & -> & Ha & Hbt). apply tsim_scalar in Ha; [|reflexivity]. subst a.
      rewrite E1, E2. apply tsim_arr in Hbt as (m & -> & HF).
      assert (El : lenZ m = lenZ ts).
      { apply Forall2_length2 in HF. apply Forall2_length2 in Ht. rewrite map_length in HF. unfold lenZ. congruence. }
      rewrite El, Z.eqb_refl.
      destruct (seq_n_round n IH ts l Ht m Hr Hb) as (ws & Hw & Hsame); [|exact HF|].
      { intros k Hk1. apply Hk. right. right. apply in_or_app. left. right. apply in_or_app. left. exact Hk1. }
      rewrite Hw. exists (STupleVariant name ws). split; [reflexivity|constructor; exact Hsame].
    + destruct Ht as (Hn & fs & Hi & Hnf & HF). destruct (Hname _ _ Hn Hi) as [E1 E2].
      apply tsim_two in Hs as (a & b & -> & Ha & Hbt). apply tsim_scalar in Ha; [|reflexivity]. subst a.
      rewrite E1, E2.
      assert (Hk2 : forall k, In (COp (OpKey k)) (flat_map (fun f : list Z * sval => COp (OpKey (fst f)) :: calls (snd f)) l) -> q k = true).
      { intros k Hk1. apply Hk. right. right. apply in_or_app. left. right. apply in_or_app. left. exact Hk1. }
      destruct (struct_round n fs l b IH Hnf HF Hr Hb Hk2 Hbt) as (m & ws & -> & Hp & Hw & Hsame).
      assert (Hqs : forallb (fun fd : list Z * sty => q (fst fd)) fs = true).
      { apply forallb_forall. intros [k ty] Hin. cbn [fst]. apply Hk2.
        assert (Hin2 : In k (map fst l)).
        { assert (E : map fst fs = map fst l).
          { clear - HF. induction HF as [|f x fs l [E _] HF IH]; [reflexivity|]. cbn [map]. rewrite E, IH. reflexivity. }
          rewrite <- E. apply in_map_iff. exists (k, ty). auto. }
        apply in_map_iff in Hin2 as ([k' x] & Ek & Hx). cbn [fst] in Ek. subst k'.
        apply in_flat_map. exists (k, x). split; [exact Hx|left; reflexivity]. }
      rewrite Hqs.
      assert (El : lenZ m = lenZ fs).
      { apply Permutation_length in Hp. rewrite !map_length in Hp. unfold lenZ. lia. }
      rewrite El, Z.eqb_refl. cbn [andb].
      assert (Hall : forallb (fun fd : list Z * sty => existsb (bytes_eqb (fst fd)) (map fst m)) fs = true).
      { apply forallb_forall. intros [k ty] Hin. cbn [fst]. apply in_names. eapply Permutation_in; [exact Hp|].
        apply in_map_iff. exists (k, ty). auto. }
      rewrite Hall, Hw. exists (SStructVariant name ws). split; [reflexivity|constructor; exact Hsame].
  - (* named *)
    cbn [dtree]. destruct (IH (G n0) v t Ht Hr Hb Hk Hs) as (w & Hw & Hsame). eauto.
Qed.
End Round.

(* ---------- the round trip through bytes ---------- *)

Section Bytes.
#[local] Existing Instance any_key.

Lemma serialized_round G n ty v bs : typed G n ty v -> restorable v = true -> bad_key v = None -> serialized v bs ->
  forall dbg base, addressable base bs ->
  exists w, de_from_bytes G n (mk_env dbg base bs None) ty = Ret (Ok w) /\ same v w.
Proof.
  intros Ht Hr Hb (root & t' & Hts & Hd) dbg base Ha. destruct (Hd dbg base None Ha) as (Hok & Hf & Hv).
  set (m := mk_env dbg base bs None) in *.
  destruct (round_tree G (fun _ => true) n ty v t' Ht Hr Hb ltac:(reflexivity) Hts) as (w & Hw & Hs).
  exists w. split; [|exact Hs]. unfold de_from_bytes. rewrite Hf; cbn [bind].
  rewrite de_new_resolve, (resolve_nonptr m root false) by (eapply vstored_nonptr; eauto). cbn [bind].
  eapply (dtree_ref m None Hok eq_refl I (fun _ => true)); [intros k _; left; reflexivity|exact Hv|exact Hw].
Qed.

Lemma small_round c G n ty v : sort_ok (c_sort c) -> typed G n ty v -> restorable v = true ->
  collection v = true -> bad_key v = None -> Forall good_op (ser_ops v) -> layout_ok (c_ua c) 0 (ser_ops v) -> ops_size (ser_ops v) <= MAX_WIDE ->
  exists bs, to_bytes c v = Ret (Ok bs) /\
    forall dbg base, addressable base bs ->
    exists w, de_from_bytes G n (mk_env dbg base bs None) ty = Ret (Ok w) /\ same v w.
Proof.
  intros Hs Ht Hr Hc Hb Hg Hl Hn. pose proof (to_bytes_small c v Hs Hg Hl Hn Hc) as H. rewrite Hb in H.
  destruct H as (bs & H1 & H2). exists bs. split; [exact H1|]. eapply serialized_round; eauto.
Qed.
End Bytes.

Lemma same_variant_of v w : same v w -> variant_of w = variant_of v.
Proof. intros H. inversion H; reflexivity. Qed.
Lemma typed_variant G n vs v : typed G n (YEnum vs) v -> collection v = true /\ exists name, variant_of v = Some name.
Proof. destruct n; [intros []|]. cbn [typed]. unfold typed_step. destruct v; try contradiction; intros _; (split; [reflexivity|eexists; reflexivity]). Qed.
Lemma variant_round c G n vs v : sort_ok (c_sort c) -> typed G n (YEnum vs) v -> restorable v = true -> bad_key v = None ->
  Forall good_op (ser_ops v) -> layout_ok (c_ua c) 0 (ser_ops v) -> ops_size (ser_ops v) <= MAX_WIDE ->
  exists bs, to_bytes c v = Ret (Ok bs) /\
    forall dbg base, addressable base bs ->
    exists w, de_from_bytes G n (mk_env dbg base bs None) (YEnum vs) = Ret (Ok w) /\ variant_of w = variant_of v /\ same v w.
Proof.
  intros Hs Ht Hr Hb Hg Hl Hn. destruct (typed_variant _ _ _ _ Ht) as [Hc _].
  destruct (small_round c G n (YEnum vs) v Hs Ht Hr Hc Hb Hg Hl Hn) as (bs & H1 & H2). exists bs. split; [exact H1|].
  intros dbg base Ha. destruct (H2 dbg base Ha) as (w & Hw & Hsm). exists w. split; [exact Hw|].
  split; [apply same_variant_of|]; exact Hsm.
Qed.

(* ---------- what cannot be read back ---------- *)

Section Wrong.
#[local] Existing Instance any_key.
(** The first element of a sequence decides. *)
Lemma first_fails c G n ty v l x : sort_ok (c_sort c) -> bad_key (SSeq (v :: l)) = None ->
  Forall good_op (ser_ops (SSeq (v :: l))) -> layout_ok (c_ua c) 0 (ser_ops (SSeq (v :: l))) -> ops_size (ser_ops (SSeq (v :: l))) <= MAX_WIDE ->
  (forall t, tsim (stree v) t -> dtree G (fun _ => true) n ty t = Some (Err x)) ->
  exists bs, to_bytes c (SSeq (v :: l)) = Ret (Ok bs) /\
    forall dbg base, addressable base bs ->
    de_from_bytes G (S n) (mk_env dbg base bs None) (YSeq ty) = Ret (Err x).
Proof.
  intros Hs Hb Hg Hl Hn Hx. pose proof (to_bytes_small c _ Hs Hg Hl Hn eq_refl) as H. rewrite Hb in H.
  destruct H as (bs & H1 & (root & t' & Hts & Hd)). exists bs. split; [exact H1|]. intros dbg base Ha.
  destruct (Hd dbg base None Ha) as (Hok & Hf & Hv). set (m := mk_env dbg base bs None) in *.
  cbn [stree map] in Hts. apply tsim_arr in Hts as (ts & -> & HF). inversion HF as [|? t0 ? ts' Ht0 _]; subst.
  unfold de_from_bytes. rewrite Hf; cbn [bind].
  rewrite de_new_resolve, (resolve_nonptr m root false) by (eapply vstored_nonptr; eauto). cbn [bind].
  eapply (dtree_ref m None Hok eq_refl I (fun _ => true)); [intros k _; left; reflexivity|exact Hv|].
  cbn [dtree tseq_all]. rewrite (Hx t0 Ht0). reflexivity.
Qed.
Definition is_seq (t : tree) : bool := match t with TArr _ => true | _ => false end.
Lemma tsim_is_seq a b : tsim a b -> is_seq a = is_seq b.
Proof. intros H. inversion H; reflexivity. Qed.
Lemma newtype_fails c G n ty v l : sort_ok (c_sort c) -> bad_key (SSeq (SNewtype v :: l)) = None ->
  Forall good_op (ser_ops (SSeq (SNewtype v :: l))) -> layout_ok (c_ua c) 0 (ser_ops (SSeq (SNewtype v :: l))) -> ops_size (ser_ops (SSeq (SNewtype v :: l))) <= MAX_WIDE ->
  is_seq (stree v) = false ->
  exists bs, to_bytes c (SSeq (SNewtype v :: l)) = Ret (Ok bs) /\
    forall dbg base, addressable base bs ->
    de_from_bytes G (S (S n)) (mk_env dbg base bs None) (YSeq (YNewtype ty)) = Ret (Err DeInvalidType).
Proof.
  intros Hs Hb Hg Hl Hn Hsc. apply first_fails; try assumption. intros t Ht. apply tsim_is_seq in Ht. cbn [stree] in Ht.
  rewrite Hsc in Ht. destruct t; try discriminate; reflexivity.
Qed.
Lemma unit_struct_fails c G n l : sort_ok (c_sort c) -> bad_key (SSeq (SUnitStruct :: l)) = None ->
  Forall good_op (ser_ops (SSeq (SUnitStruct :: l))) -> layout_ok (c_ua c) 0 (ser_ops (SSeq (SUnitStruct :: l))) -> ops_size (ser_ops (SSeq (SUnitStruct :: l))) <= MAX_WIDE ->
  exists bs, to_bytes c (SSeq (SUnitStruct :: l)) = Ret (Ok bs) /\
    forall dbg base, addressable base bs ->
    de_from_bytes G (S (S n)) (mk_env dbg base bs None) (YSeq YUnitStruct) = Ret (Err DeInvalidType).
Proof.
  intros Hs Hb Hg Hl Hn. apply first_fails; try assumption. intros t Ht. apply tsim_scalar in Ht; [|reflexivity]. subst t. reflexivity.
Qed.
End Wrong.

(** [["ab"]] read as an enum with a recursive variant [ab]. *)
Definition loop_doc : list Z := [66; 97; 98; 0; 96; 1; 128; 3; 128; 2].
Definition loop_types : nat -> sty := fun _ => YEnum [([97; 98], VNewtype (YNamed 0))].
Lemma loop_diverges dbg : forall n, de loop_types n (mk_env dbg 4096 loop_doc None) false (V 4 4) (YNamed 0) = Diverge.
Proof.
  assert (H : forall n, de loop_types n (mk_env dbg 4096 loop_doc None) false (V 4 4) (YNamed 0) = Diverge /\
                        de loop_types n (mk_env dbg 4096 loop_doc None) false (V 4 4) (loop_types 0) = Diverge).
  { induction n as [|n [IH1 IH2]]; [split; reflexivity|]. split; [exact IH2|]. unfold loop_types at 2. cbn [de].
    set (e := mk_env dbg 4096 loop_doc None) in *.
    assert (E1 : as_array e (V 4 4) = Ret (Some (V 4 4))) by (destruct dbg; vm_compute; reflexivity). rewrite E1; cbn [bind].
    assert (E2 : arr_is_wide e (V 4 4) = Ret false) by (destruct dbg; vm_compute; reflexivity). rewrite E2; cbn [bind].
    assert (E3 : arr_get e (V 4 4) 0 = Ret (Some (V 0 6))) by (destruct dbg; vm_compute; reflexivity). rewrite E3; cbn [bind].
    assert (E4 : debug_fmt e (V 4 4) = Ret tt) by (destruct dbg; vm_compute; reflexivity). rewrite E4; cbn [bind].
    assert (E5 : de_new e false (V 0 6) = Ret (V 0 6)) by (destruct dbg; vm_compute; reflexivity). rewrite E5; cbn [bind].
    assert (E6 : de_any e false (V 0 6) = Ret (Ok (VisStr [97; 98]))) by (destruct dbg; vm_compute; reflexivity). rewrite E6.
    unfold bindr at 1; cbn [bind]. change (ident (map fst [([97; 98], VNewtype (YNamed 0))]) (VisStr [97; 98])) with (@Ok (option (list Z)) de_error (Some [97; 98])).
    unfold bindr at 1; cbn [bind]. cbv zeta. change (lookup [97; 98] [([97; 98], VNewtype (YNamed 0))]) with (Some (VNewtype (YNamed 0))).
    assert (E7 : arr_get e (V 4 4) 1 = Ret (Some (V 4 4))) by (destruct dbg; vm_compute; reflexivity). rewrite E7; cbn [bind].
    cbv beta iota.
    assert (E8 : de_new e false (V 4 4) = Ret (V 4 4)) by (destruct dbg; vm_compute; reflexivity). rewrite E8; cbn [bind].
    rewrite IH1. reflexivity. }
  intros n. apply H.
Qed.
Lemma loop_from_bytes dbg n : de_from_bytes loop_types n (mk_env dbg 4096 loop_doc None) (YNamed 0) = Diverge.
Proof.
  unfold de_from_bytes.
  assert (E : from_bytes (mk_env dbg 4096 loop_doc None) = Ret (Ok (V 4 4))) by (destruct dbg; vm_compute; reflexivity). rewrite E; cbn [bind].
  assert (E8 : de_new (mk_env dbg 4096 loop_doc None) false (V 4 4) = Ret (V 4 4)) by (destruct dbg; vm_compute; reflexivity). rewrite E8; cbn [bind].
  apply loop_diverges.
Qed.
