(** Proofs about series of documents written with one key table. *)
From Coq Require Import ZifyBool ZifyNat ZifyN Permutation.
From Verif Require Import Prelude Lib Utf8 Float SharedKeys Decode Read Encodable Encoder BuilderSpec LayoutSpec PathSpec
  SharedKeysState SharedKeysSpec EncoderInv EncoderClean EncoderProtocol Path PathDoc SharedKeysProofs SeriesSpec.
Ltac Zify.zify_post_hook ::= Z.div_mod_to_equations.

(** What is in the table after some calls was there before or is a key of two or more bytes. *)
Lemma step_from c e o e' r t k : enc_step c e o = Ret (e', r) -> (forall u, o <> OpSetSharedKeys u) ->
  (forall k, o = OpKey k -> lenZ k <> 16) -> en_sk e = Some t ->
  forall t', en_sk e' = Some t' -> In k t' -> In k t \/ (o = OpKey k /\ 2 <= lenZ k).
Proof.
  intros H Hno H16 Esk t' E' Hin.
  assert (Hsame : en_sk e' = Some t -> In k t).
  { intros E. rewrite E in E'. injection E' as <-. exact Hin. }
  destruct o as [k0|v|n| | | |u];
    try (left; apply Hsame; apply step_ext in H as (_ & _ & HS); rewrite HS; [exact Esk|discriminate|discriminate]).
  - destruct (key_sk_long c e k0 e' r t H Esk) as [E|[E Hl]]; [left; apply Hsame; exact E|].
    rewrite E in E'. injection E' as <-. unfold encode_and_insert in Hin.
    destruct (negb (can_add (c_ua c) t k0)) eqn:Eca; cbn [fst] in Hin; [left; exact Hin|].
    destruct (sk_find _ 0 t); cbn [fst] in Hin; [left; exact Hin|]. apply in_app_iff in Hin as [Hin|[Hin|[]]]; [left; exact Hin|].
    right. apply negb_false_iff in Eca. unfold can_add, MAX_KEY_LEN in Eca. specialize (H16 k0 eq_refl).
    rewrite zstr_make_id in Hin by lia. subst k0. split; [reflexivity|exact Hl].
  - exfalso. apply (Hno u). reflexivity.
Qed.
Lemma run_from c k : forall ops e e' rs t t', enc_run c e ops = Ret (e', rs) -> (forall u, ~ In (OpSetSharedKeys u) ops) ->
  (forall k, In (OpKey k) ops -> lenZ k <> 16) -> en_sk e = Some t -> en_sk e' = Some t' -> In k t' ->
  In k t \/ (In (OpKey k) ops /\ 2 <= lenZ k).
Proof.
  induction ops as [|o ops IH]; intros e e' rs t t' H Hno Hk Esk E' Hin; cbn [enc_run] in H.
  - injection H as <- <-. left. congruence.
  - destruct (enc_step c e o) as [[e1 r1]| | |] eqn:E; try discriminate. cbn [bind fst snd] in H.
    destruct (enc_run c e1 ops) as [[e2 r2]| | |] eqn:E2; try discriminate. cbn [bind fst snd] in H. injection H as <- <-.
    assert (Hno1 : forall u, o <> OpSetSharedKeys u) by (intros u ->; apply (Hno u); left; reflexivity).
    assert (Hk1 : forall k, o = OpKey k -> lenZ k <> 16) by (intros k0 ->; apply Hk; left; reflexivity).
    destruct (step_sk c e o e1 r1 t E Hno1 Hk1 Esk) as (x & Ex & _).
    destruct (IH e1 e2 r2 (t ++ x) t' E2) as [Hi|[Hi Hl]]; [| |exact Ex|exact E'|exact Hin| |].
    { intros u Hu. apply (Hno u). right. exact Hu. }
    { intros k0 Hk0. apply Hk. right. exact Hk0. }
    + destruct (step_from c e o e1 r1 t k E Hno1 Hk1 Esk _ Ex Hi) as [Ht|[-> Hl]]; [left; exact Ht|right].
      split; [left; reflexivity|exact Hl].
    + right. split; [right; exact Hi|exact Hl].
Qed.

(** Calls of a run that starts by giving the encoder its table. *)
Lemma run_given c t0 ops e' rs : enc_run c enc_new (OpSetSharedKeys t0 :: ops) = Ret (e', rs) ->
  exists rs', enc_run c (set_shared_keys enc_new t0) ops = Ret (e', rs').
Proof.
  intros H. cbn [enc_run enc_step bind fst snd] in H.
  destruct (enc_run c (set_shared_keys enc_new t0) ops) as [[e2 r2]| | |] eqn:E1; try discriminate.
  cbn [bind fst snd] in H. injection H as -> <-. exists r2. reflexivity.
Qed.

Definition key_good (k : list Z) : Prop := wf_enc (EStr k) /\ 2 <= lenZ k.

Lemma wrote_table c t0 d t1 : wrote c t0 d t1 -> fit c t0 d ->
  exists x, t1 = t0 ++ x /\ (table_wf (c_ua c) t0 -> table_wf (c_ua c) t1) /\ (Forall key_good t0 -> Forall key_good t1).
Proof.
  intros (e' & rs & Hrun & _ & Hno & _ & Esk & _) (Hg & H16 & _).
  destruct (run_given c t0 _ _ _ Hrun) as [rs' Hr].
  destruct (run_sk c _ _ _ _ t0 Hr Hno H16 eq_refl) as (x & Ex & Hx). rewrite Esk in Ex. injection Ex as ->.
  exists x. split; [reflexivity|]. split; [exact Hx|]. intros HF. apply Forall_forall. intros k Hk.
  destruct (run_from c k _ _ _ _ t0 _ Hr Hno H16 eq_refl Esk Hk) as [Hin|[Hin Hl]].
  - rewrite Forall_forall in HF. apply HF. exact Hin.
  - rewrite Forall_forall in Hg. split; [exact (Hg _ Hin)|exact Hl].
Qed.
Lemma series_table c : forall ds t0 tn, series c t0 ds tn ->
  exists x, tn = t0 ++ x /\ (table_wf (c_ua c) t0 -> table_wf (c_ua c) tn) /\ (Forall key_good t0 -> Forall key_good tn).
Proof.
  intros ds t0 tn H. induction H as [t|t0 d t1 ds tn Hw Hf _ IH].
  - exists []. rewrite app_nil_r. auto.
  - destruct (wrote_table c t0 d t1 Hw Hf) as (x & -> & H1 & H2). destruct IH as (y & -> & H3 & H4).
    exists (x ++ y). rewrite app_assoc. auto.
Qed.
Lemma series_app c : forall a t0 t1 b t2, series c t0 a t1 -> series c t1 b t2 -> series c t0 (a ++ b) t2.
Proof.
  intros a t0 t1 b t2 H Hb. induction H as [t|t0 d t1 ds tn Hw Hf _ IH]; [exact Hb|]. cbn [app]. econstructor; eauto.
Qed.

(** Every document of the series, read with the table at the end. *)
Lemma series_reads c : sort_ok (c_sort c) -> forall ds t0 tn, series c t0 ds tn ->
  table_wf (c_ua c) t0 -> Forall key_good t0 -> lenZ tn < MAX_KEYS ->
  (forall d k, In d ds -> In (OpKey k) (sd_ops d) -> clear_of tn k) ->
  forall d, In d ds -> forall dbg base, addressable base (sd_bytes d) ->
    shared_doc (mk_env dbg base (sd_bytes d) (Some tn)) (mk_env dbg base (sd_bytes d) None) tn (sd_tree d).
Proof.
  intros Hs ds t0 tn H. induction H as [t|t0 d t1 ds tn Hw Hf Hser IH]; intros Htw Hkg Hlen Hclr d0 Hin dbg base Ha; [destruct Hin|].
  destruct (wrote_table c t0 d t1 Hw Hf) as (x & Et1 & H1 & H2).
  destruct (series_table c _ _ _ Hser) as (y & Etn & H3 & H4).
  destruct Hin as [<-|Hin].
  - assert (Hlen1 : lenZ t1 < MAX_KEYS) by (rewrite Etn, lenZ_app in Hlen; pose proof (lenZ_nonneg y); lia).
    assert (Hap : forall k, In (OpKey k) (sd_ops d) -> apart_from tn k).
    { intros k Hk. split; [apply (Hclr d k); [left; reflexivity|exact Hk]|]. intros Hshort Hin.
      specialize (H4 (H2 Hkg)). rewrite Forall_forall in H4. destruct (H4 k Hin) as [_ Hl]. lia. }
    destruct Hw as (e' & rs & Hrun & Hok & Hno & Hfin & Esk & Ht). destruct Hf as (Hg & H16 & Hd & Hlay & Hsz).
    rewrite Etn in Hap. pose proof (H3 (H1 Htw)) as Htn. rewrite Etn in Htn.
    destruct (small_shared c [] t0 (sd_ops d) e' rs (sd_tree d) t1 y Hs eq_refl Hg Hno H16 Hlay Hsz Hrun Hok Ht Hd Esk Hlen1 Htn Hap)
      as (D & HD & Hdoc). cbn [app] in HD, Hdoc. rewrite Hfin in HD. injection HD as <-. rewrite <- Etn in Hdoc. apply Hdoc. exact Ha.
  - apply IH; auto. intros d1 k Hd1. apply Hclr. right. exact Hd1.
Qed.

(** Saving and restoring the table a series ended with. *)
Lemma series_restored c ds tn : sort_ok (c_sort c) -> series c [] ds tn -> lenZ tn < MAX_KEYS ->
  table_bytes tn <> 16380 -> table_bytes tn <> 16382 ->
  exists saved, get_state_bytes c tn = Ret saved /\ forall dbg base, addressable base saved ->
    from_state_bytes (c_ua c) (mk_env dbg base saved None) = Ret (Some tn).
Proof.
  intros Hs H Hlen N1 N2. destruct (series_table c _ _ _ H) as (x & _ & H1 & H2).
  assert (Htw : table_wf (c_ua c) tn) by (apply H1; split; constructor).
  assert (Hkg : Forall key_good tn) by (apply H2; constructor).
  assert (Eaf : after (c_ua c) tn = tn).
  { destruct Htw as [Hn HF]. apply after_fresh; [exact Hn|exact HF|unfold MAX_KEYS in Hlen; lia]. }
  destruct (state_restored c (c_ua c) tn Hs) as (bs & Hb & Hr).
  - apply Forall_forall. intros k Hk. destruct Htw as [_ HF]. rewrite Forall_forall in HF, Hkg.
    destruct (HF k Hk) as [Hl _]. destruct (Hkg k Hk) as [Hw H2k]. split; [exact Hw|]. split; [exact H2k|lia].
  - rewrite Eaf. exact N1.
  - rewrite Eaf. exact N2.
  - rewrite Eaf in Hb, Hr. exists bs. split; [exact Hb|exact Hr].
Qed.

Lemma series_survives c ds tn : sort_ok (c_sort c) -> series c [] ds tn -> lenZ tn < MAX_KEYS ->
  (forall d k, In d ds -> In (OpKey k) (sd_ops d) -> clear_of tn k) ->
  table_bytes tn <> 16380 -> table_bytes tn <> 16382 ->
  exists saved, get_state_bytes c tn = Ret saved /\ forall dbg base, addressable base saved ->
    exists table, from_state_bytes (c_ua c) (mk_env dbg base saved None) = Ret (Some table) /\
    forall d, In d ds -> forall dbg' base', addressable base' (sd_bytes d) ->
      shared_doc (mk_env dbg' base' (sd_bytes d) (Some table)) (mk_env dbg' base' (sd_bytes d) None) table (sd_tree d).
Proof.
  intros Hs H Hlen Hclr N1 N2. destruct (series_restored c ds tn Hs H Hlen N1 N2) as (saved & Hb & Hr).
  exists saved. split; [exact Hb|]. intros dbg base Ha. exists tn. split; [apply Hr; exact Ha|].
  intros d Hd dbg' base' Ha'. exact (series_reads c Hs ds [] tn H (conj (NoDup_nil _) (Forall_nil _)) (Forall_nil _) Hlen Hclr d Hd dbg' base' Ha').
Qed.

(** Going on with the restored table. *)
Lemma series_goes_on c ds1 t1 saved dbg base table ds2 t2 : sort_ok (c_sort c) -> series c [] ds1 t1 -> lenZ t1 < MAX_KEYS ->
  table_bytes t1 <> 16380 -> table_bytes t1 <> 16382 ->
  get_state_bytes c t1 = Ret saved -> addressable base saved ->
  from_state_bytes (c_ua c) (mk_env dbg base saved None) = Ret (Some table) ->
  series c table ds2 t2 -> series c [] (ds1 ++ ds2) t2.
Proof.
  intros Hs H Hlen N1 N2 Hsv Ha Hrest H2. destruct (series_restored c ds1 t1 Hs H Hlen N1 N2) as (sv & Hb & Hr).
  rewrite Hsv in Hb. injection Hb as <-. rewrite (Hr dbg base Ha) in Hrest. injection Hrest as <-.
  eapply series_app; eassumption.
Qed.
