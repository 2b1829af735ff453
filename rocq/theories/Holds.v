(** Reading bytes known to be in the buffer. *)
From Verif Require Import Prelude Lib Varint VarintProofs Utf8 Float SharedKeys Decode Read.
From Coq Require Import ZifyBool ZifyNat ZifyN.
Ltac Zify.zify_post_hook ::= Z.div_mod_to_equations.

(** The bytes [bs] occur in [D] at position [p]. *)
Definition holds (D : list Z) (p : Z) (bs : list Z) : Prop :=
  exists a b, D = a ++ bs ++ b /\ p = lenZ a.

Lemma holds_bounds D p bs : holds D p bs -> 0 <= p /\ p + lenZ bs <= lenZ D.
Proof.
  intros (a & b & -> & ->). rewrite !lenZ_app.
  pose proof (lenZ_nonneg a); pose proof (lenZ_nonneg b). lia.
Qed.
Lemma holds_nth D p bs i b : holds D p bs -> nthZ bs i = Some b -> nthZ D (p + i) = Some b.
Proof.
  intros (x & y & -> & ->) H. apply nthZ_Some in H as Hr.
  rewrite nthZ_app_r by lia. replace (lenZ x + i - lenZ x) with i by lia.
  rewrite nthZ_app_l by lia. exact H.
Qed.
Lemma holds_subl D p bs : holds D p bs -> subl D p (lenZ bs) = bs.
Proof.
  intros (x & y & -> & ->). rewrite subl_app_r by lia. rewrite Z.sub_diag.
  rewrite subl_app_l by (pose proof (lenZ_nonneg bs); lia). apply subl_all.
Qed.
Lemma holds_app_l D p b1 b2 : holds D p (b1 ++ b2) -> holds D p b1.
Proof. intros (x & y & -> & ->). exists x, (b2 ++ y). rewrite !app_assoc. auto. Qed.
Lemma holds_app_r D p b1 b2 : holds D p (b1 ++ b2) -> holds D (p + lenZ b1) b2.
Proof.
  intros (x & y & -> & ->). exists (x ++ b1), y. rewrite lenZ_app, !app_assoc. auto.
Qed.
Lemma holds_cons D p b bs : holds D p (b :: bs) -> holds D p [b] /\ holds D (p + 1) bs.
Proof.
  intros H. change (b :: bs) with ([b] ++ bs) in H.
  split; [eapply holds_app_l; eauto|apply holds_app_r in H; exact H].
Qed.
Lemma holds_mono D X p bs : holds D p bs -> holds (D ++ X) p bs.
Proof. intros (x & y & -> & ->). exists x, (y ++ X). rewrite !app_assoc. auto. Qed.
Lemma holds_end D bs : holds (D ++ bs) (lenZ D) bs.
Proof. exists D, []. rewrite app_nil_r. auto. Qed.
Lemma holds_end' D bs X p : p = lenZ D -> holds (D ++ bs ++ X) p bs.
Proof. intros ->. exists D, X. auto. Qed.

Lemma holds_raw e p bs i b : holds (e_data e) p bs -> nthZ bs i = Some b -> raw e (p + i) = Ret b.
Proof. intros H Hn. unfold raw. rewrite (holds_nth _ _ _ _ _ H Hn). reflexivity. Qed.
Lemma holds_raw0 e p b bs : holds (e_data e) p (b :: bs) -> raw e p = Ret b.
Proof. intros H. rewrite <- (Z.add_0_r p). eapply holds_raw; [exact H|reflexivity]. Qed.
Lemma holds_raw1 e p b c bs : holds (e_data e) p (b :: c :: bs) -> raw e (p + 1) = Ret c.
Proof. intros H. eapply holds_raw; [exact H|reflexivity]. Qed.
Lemma holds_vbyte0 e p len b bs :
  holds (e_data e) p (b :: bs) -> 1 <= len -> vbyte e (V p len) 0 = Ret b.
Proof.
  intros H Hl. unfold vbyte; cbn [v_len v_pos].
  replace ((0 <=? 0) && (0 <? len)) with true by lia. rewrite Z.add_0_r.
  eapply holds_raw0; eauto.
Qed.
Lemma holds_type e p len b bs :
  holds (e_data e) p (b :: bs) -> 1 <= len -> value_type e (V p len) = Ret (type_of_byte b).
Proof. intros H Hl. unfold value_type. rewrite (holds_vbyte0 _ _ _ _ _ H Hl). reflexivity. Qed.
Lemma holds_raw_bytes e p bs n : holds (e_data e) p bs -> n = lenZ bs -> raw_bytes e p n = Ret bs.
Proof.
  intros H ->. unfold raw_bytes. apply holds_bounds in H as Hb.
  destruct (lenZ bs <=? 0) eqn:E.
  - rewrite (lenZ_0 bs) by (pose proof (lenZ_nonneg bs); lia). reflexivity.
  - replace ((0 <=? p) && (p + lenZ bs <=? lenZ (e_data e))) with true by lia.
    rewrite (holds_subl _ _ _ H). reflexivity.
Qed.
Lemma holds_short e p len b0 b1 bs :
  holds (e_data e) p (b0 :: b1 :: bs) -> 2 <= len ->
  get_short e (V p len) = Ret (Z.land b0 15 * 256 + b1).
Proof.
  intros H Hl. unfold get_short; cbn [v_len v_pos]. destruct (len <? 2) eqn:E; [lia|].
  rewrite (holds_raw0 _ _ _ _ H), (holds_raw1 _ _ _ _ _ H). reflexivity.
Qed.
Lemma holds_varint e p len off v :
  0 <= v < two64 -> 0 <= off -> holds (e_data e) (p + off) (varint_write v) ->
  off + lenZ (varint_write v) <= len ->
  varint_at e (V p len) off = Ret (lenZ (varint_write v), v).
Proof.
  intros Hv Ho H Hl. unfold varint_at; cbn [v_len v_pos].
  pose proof (varint_write_len v Hv). destruct (len <? off) eqn:E; [lia|].
  apply varint_round_trip; [exact Hv| |lia].
  intros i b Hb. rewrite Z.add_0_l. eapply holds_raw; eauto.
Qed.
