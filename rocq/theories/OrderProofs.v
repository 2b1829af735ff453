(** Encoding the same dicts in another order. *)
From Verif Require Import Prelude Lib Utf8 Float SharedKeys Decode Read Encodable Encoder BuilderSpec LayoutSpec
  EncoderProtocol PathSpec Path CopySpec AscendSpec Ascend StableSpec Stable.
From Coq Require Import Sorted Permutation.

Definition esim (a b : list Z * tree) : Prop := fst a = fst b /\ tsim (snd a) (snd b).

Lemma flip2 {A B} (R : A -> B -> Prop) l m : Forall2 R l m -> Forall2 (fun b a => R a b) m l.
Proof. induction 1; constructor; auto. Qed.

Lemma scalar_not_coll t : scalar t -> Path.is_coll t = false.
Proof. destruct t; cbn [scalar]; intros H; try reflexivity; destruct H. Qed.

Lemma tsim_sym : forall a b, tsim a b -> tsim b a.
Proof.
  induction a as [t Hs|l IH|l IH] using tree_nested; intros b H.
  - rewrite (tsim_scalar t b (scalar_not_coll t Hs) H). apply ts_refl.
  - destruct (tsim_arr l b H) as (m & -> & Hf). apply ts_arr. clear H.
    induction Hf as [|x y l m Hxy Hf IHf]; [constructor|]. inversion IH; subst. constructor; auto.
  - destruct (tsim_dict l b H) as (l' & m & -> & Hp & Hf).
    assert (IH2 : Forall (fun kx => forall b, tsim (snd kx) b -> tsim b (snd kx)) l').
    { eapply Permutation_Forall; eassumption. }
    assert (Hb : Forall2 esim m l').
    { clear H Hp IH. induction Hf as [|x y l' m [E Hxy] Hf IHf]; [constructor|]. inversion IH2; subst.
      constructor; [split; [congruence|auto]|auto]. }
    destruct (Permutation_Forall2 (Permutation_sym Hp) (flip2 _ _ _ Hb)) as (m2 & Hpm & Hf2).
    eapply ts_dict; [exact Hpm|]. exact (flip2 _ _ _ Hf2).
Qed.

Lemma Forall2_trans_in {A} (R : A -> A -> Prop) l1 : forall l2 l3,
  Forall (fun a => forall b c, R a b -> R b c -> R a c) l1 -> Forall2 R l1 l2 -> Forall2 R l2 l3 -> Forall2 R l1 l3.
Proof.
  induction l1 as [|a l1 IH]; intros l2 l3 Hf H12 H23; inversion H12; subst; inversion H23; subst; constructor; inversion Hf; subst; eauto.
Qed.
Lemma tsim_trans : forall a b c, tsim a b -> tsim b c -> tsim a c.
Proof.
  induction a as [t Hs|l IH|l IH] using tree_nested; intros b c H1 H2.
  - rewrite (tsim_scalar t b (scalar_not_coll t Hs) H1) in H2. exact H2.
  - destruct (tsim_arr l b H1) as (m & -> & Hf). destruct (tsim_arr m c H2) as (n & -> & Hg). apply ts_arr.
    eapply Forall2_trans_in; eassumption.
  - destruct (tsim_dict l b H1) as (l' & m & -> & Hp & Hf). destruct (tsim_dict m c H2) as (m' & n & -> & Hq & Hg).
    assert (Hf' : Forall2 esim l' m) by exact Hf.
    destruct (Permutation_Forall2 Hq (flip2 _ _ _ Hf')) as (l2 & Hp2 & Hf2).
    apply flip2 in Hf2.
    assert (IH2 : Forall (fun kx => forall b c, tsim (snd kx) b -> tsim b c -> tsim (snd kx) c) l2).
    { eapply Permutation_Forall; [|exact IH]. etransitivity; eassumption. }
    eapply ts_dict; [etransitivity; eassumption|]. apply (Forall2_trans_in esim l2 m' n); [|exact Hf2|exact Hg].
    eapply Forall_impl; [|exact IH2]. cbn beta. intros x Hx b c [E Hb] [E' Hc]. split; [congruence|eauto].
Qed.

Lemma tsim_distinct : forall a b, tsim a b -> distinct a -> distinct b.
Proof.
  induction a as [t Hs|l IH|l IH] using tree_nested; intros b H Hd.
  - rewrite (tsim_scalar t b (scalar_not_coll t Hs) H). exact Hd.
  - destruct (tsim_arr l b H) as (m & -> & Hf). constructor. inversion Hd as [| | | | | | | |? Hd2|]; subst. clear H Hd.
    induction Hf as [|x y l m Hxy Hf IHf]; constructor; inversion IH; subst; inversion Hd2; subst; auto.
  - destruct (tsim_dict l b H) as (l' & m & -> & Hp & Hf). inversion Hd as [| | | | | | | | |? Hn Hd2]; subst.
    assert (IH2 : Forall (fun kx => forall b, tsim (snd kx) b -> distinct (snd kx) -> distinct b) l') by (eapply Permutation_Forall; eassumption).
    assert (Hd3 : Forall (fun kx => distinct (snd kx)) l') by (eapply Permutation_Forall; eassumption).
    assert (Hm : map fst m = map fst l').
    { clear -Hf. induction Hf as [|x y l' m [E _] Hf IHf]; [reflexivity|]. cbn [map]. congruence. }
    constructor.
    + rewrite Hm. eapply Permutation_NoDup; [|exact Hn]. apply Permutation_map. exact Hp.
    + clear -Hf IH2 Hd3. induction Hf as [|x y l' m [_ Hxy] Hf IHf]; constructor; inversion IH2; subst; inversion Hd3; subst; auto.
Qed.

Lemma order_free c1 c2 p1 p2 ops1 ops2 e1 e2 rs1 rs2 t1 t2 :
  sort_ok (c_sort c1) -> lenZ p1 mod 2 = 0 ->
  Forall good_op ops1 -> (forall t, ~ In (OpSetSharedKeys t) ops1) ->
  layout_ok (c_ua c1) (lenZ p1) ops1 -> lenZ p1 + ops_size ops1 <= MAX_WIDE ->
  enc_run c1 (enc_new_to_vec p1) ops1 = Ret (e1, rs1) -> Forall (eq (Ok tt)) rs1 ->
  b_finish (fst (b_run b_init ops1)) = Some t1 ->
  sort_ok (c_sort c2) -> lenZ p2 mod 2 = 0 ->
  Forall good_op ops2 -> (forall t, ~ In (OpSetSharedKeys t) ops2) ->
  layout_ok (c_ua c2) (lenZ p2) ops2 -> lenZ p2 + ops_size ops2 <= MAX_WIDE ->
  enc_run c2 (enc_new_to_vec p2) ops2 = Ret (e2, rs2) -> Forall (eq (Ok tt)) rs2 ->
  b_finish (fst (b_run b_init ops2)) = Some t2 ->
  tsim t1 t2 -> distinct t1 ->
  exists D1 D2 t, finish c1 e1 = Ret (p1 ++ D1) /\ finish c2 e2 = Ret (p2 ++ D2) /\
    forall dbg1 dbg2 base1 base2, addressable base1 (p1 ++ D1) -> addressable base2 (p2 ++ D2) ->
    let m1 := mk_env dbg1 base1 (p1 ++ D1) None in
    let m2 := mk_env dbg2 base2 (p2 ++ D2) None in
    exists v1 v2, from_bytes m1 = Ret (Ok v1) /\ from_bytes m2 = Ret (Ok v2) /\
      read_doc m1 v1 = Ret t /\ read_doc m2 v2 = Ret t.
Proof.
  intros S1 P1 G1 N1 L1 W1 R1 O1 B1 S2 P2 G2 N2 L2 W2 R2 O2 B2 Ht Hd.
  destruct (exact_document c1 p1 ops1 e1 rs1 t1 S1 P1 G1 N1 L1 W1 R1 O1 B1 Hd) as (D1 & u1 & F1 & T1 & A1 & H1).
  destruct (exact_document c2 p2 ops2 e2 rs2 t2 S2 P2 G2 N2 L2 W2 R2 O2 B2 (tsim_distinct _ _ Ht Hd)) as (D2 & u2 & F2 & T2 & A2 & H2).
  assert (E : u1 = u2).
  { apply ascending_unique; [|exact A1|exact A2].
    apply (tsim_trans _ t1); [apply tsim_sym; exact T1|]. apply (tsim_trans _ t2); assumption. }
  subst u2. exists D1, D2, u1. split; [exact F1|]. split; [exact F2|]. intros dbg1 dbg2 base1 base2 Ha1 Ha2.
  destruct (H1 dbg1 base1 Ha1) as (v1 & X1 & _ & Y1). destruct (H2 dbg2 base2 Ha2) as (v2 & X2 & _ & Y2).
  exists v1, v2. repeat split; assumption.
Qed.

Lemma order_free_shared c1 c2 p1 p2 ops1 ops2 e1 e2 rs1 rs2 t1 t2 :
  sort_ok (c_sort c1) -> lenZ p1 mod 2 = 0 ->
  Forall good_op ops1 -> keys_ok false ops1 ->
  layout_ok (c_ua c1) (lenZ p1) ops1 -> lenZ p1 + ops_size ops1 <= MAX_WIDE ->
  enc_run c1 (enc_new_to_vec p1) ops1 = Ret (e1, rs1) -> Forall (eq (Ok tt)) rs1 ->
  b_finish (fst (b_run b_init ops1)) = Some t1 ->
  sort_ok (c_sort c2) -> lenZ p2 mod 2 = 0 ->
  Forall good_op ops2 -> keys_ok false ops2 ->
  layout_ok (c_ua c2) (lenZ p2) ops2 -> lenZ p2 + ops_size ops2 <= MAX_WIDE ->
  enc_run c2 (enc_new_to_vec p2) ops2 = Ret (e2, rs2) -> Forall (eq (Ok tt)) rs2 ->
  b_finish (fst (b_run b_init ops2)) = Some t2 ->
  tsim t1 t2 ->
  exists D1 D2, finish c1 e1 = Ret (p1 ++ D1) /\ finish c2 e2 = Ret (p2 ++ D2) /\
    forall dbg1 dbg2 base1 base2, addressable base1 (p1 ++ D1) -> addressable base2 (p2 ++ D2) ->
    let m1 := mk_env dbg1 base1 (p1 ++ D1) (en_sk e1) in
    let m2 := mk_env dbg2 base2 (p2 ++ D2) (en_sk e2) in
    exists v1 v2 u1 u2, from_bytes m1 = Ret (Ok v1) /\ from_bytes m2 = Ret (Ok v2) /\
      read_doc m1 v1 = Ret u1 /\ read_doc m2 v2 = Ret u2 /\ tsim u1 u2.
Proof.
  intros S1 P1 G1 N1 L1 W1 R1 O1 B1 S2 P2 G2 N2 L2 W2 R2 O2 B2 Ht.
  destruct (small_round_trip c1 p1 ops1 e1 rs1 t1 S1 P1 G1 N1 L1 W1 R1 O1 B1) as (D1 & F1 & H1).
  destruct (small_round_trip c2 p2 ops2 e2 rs2 t2 S2 P2 G2 N2 L2 W2 R2 O2 B2) as (D2 & F2 & H2).
  exists D1, D2. split; [exact F1|]. split; [exact F2|]. intros dbg1 dbg2 base1 base2 Ha1 Ha2.
  destruct (H1 dbg1 base1 Ha1) as (v1 & u1 & X1 & _ & Y1 & Z1). destruct (H2 dbg2 base2 Ha2) as (v2 & u2 & X2 & _ & Y2 & Z2).
  exists v1, v2, u1, u2. repeat split; try assumption.
  apply (tsim_trans _ t1); [apply tsim_sym; exact Z1|]. apply (tsim_trans _ t2); assumption.
Qed.
