(** The bytes and slots produced for single values represent them. *)
From Verif Require Import Prelude Lib Varint VarintProofs Utf8 Float FloatProofs SharedKeys
  Decode Read Encodable Encoder BuilderSpec Holds Repr.
From Coq Require Import ZifyBool ZifyNat ZifyN.
Ltac Zify.zify_post_hook ::= Z.div_mod_to_equations.

Lemma i16_sized z : -2048 <= z <= 2047 ->
  exists b0 b1, i16_to_sized z = Some [b0; b1; 0; 0] /\ [b0; b1] = short_bytes z.
Proof.
  intros Hz. unfold i16_to_sized.
  destruct ((2047 <? z) || (z <? -2048)) eqn:E; [lia|].
  eexists; eexists; split; [reflexivity|]. unfold short_bytes, TAG_SHORT.
  rewrite Z.lor_0_r, land_15. reflexivity.
Qed.
Lemma u16_sized z : 0 <= z <= 2047 ->
  exists b0 b1, u16_to_sized z = Some [b0; b1; 0; 0] /\ [b0; b1] = short_bytes z.
Proof.
  intros Hz. unfold u16_to_sized. destruct (2047 <? z) eqn:E; [lia|].
  eexists; eexists; split; [reflexivity|]. unfold short_bytes, wrap_u16, two16.
  f_equal; [|f_equal]; lia.
Qed.
Lemma wrap_i16_id z : -32768 <= z <= 32767 -> wrap_i16 z = z.
Proof. unfold wrap_i16, two16. lia. Qed.
Lemma wrap_u16_id z : 0 <= z <= 65535 -> wrap_u16 z = z.
Proof. unfold wrap_u16, two16. lia. Qed.
Lemma i64_is_short_true z : i64_is_short z = true.
Proof. unfold i64_is_short. lia. Qed.

Lemma bytes_sized tag s b : lenZ s < two63 -> tag mod 16 = 0 -> 0 <= tag ->
  bytes_to_sized tag s = Some b ->
  exists b0 b1, b = [b0; b1; 0; 0] /\ str_bytes tag s = [b0; b1].
Proof.
  intros Hs Ht Ht0 H. destruct s as [|x [|y s]]; cbn [bytes_to_sized] in H; [| |discriminate];
    injection H as <-; unfold new_narrow.
  - exists tag, 0. split; reflexivity.
  - exists (tag + 1), x. split; [|reflexivity]. rewrite byte_lor_tag by lia. reflexivity.
Qed.
Lemma bytes_sized_None tag s : bytes_to_sized tag s = None -> 2 <= lenZ s.
Proof.
  destruct s as [|x [|y s]]; cbn [bytes_to_sized]; try discriminate.
  intros _. rewrite !lenZ_cons. pose proof (lenZ_nonneg s). lia.
Qed.

Lemma sized_repr v s :
  wf_enc v -> enc_ok v = true -> to_sized_value v = Some s ->
  exists b0 b1, s = [b0; b1; 0; 0] /\ repr (tree_of v) [b0; b1].
Proof.
  induction v as [t z|b|b|b| | |s0|s0| |w IH|s0|d n]; cbn [wf_enc enc_ok to_sized_value tree_of];
    intros Hw Hok H; try discriminate; try contradiction.
  - assert (Hs : forall z', -2048 <= z' <= 2047 -> z' = z ->
        i16_to_sized z' = Some s \/ (0 <= z' /\ u16_to_sized z' = Some s) ->
        exists b0 b1, s = [b0; b1; 0; 0] /\ repr (TInt z) [b0; b1]).
    { intros z' Hz -> [H1|[H0 H1]].
      - destruct (i16_sized z Hz) as (b0 & b1 & E & E2). exists b0, b1.
        split; [congruence|]. rewrite E2. apply repr_short; lia.
      - destruct (u16_sized z) as (b0 & b1 & E & E2); [lia|]. exists b0, b1.
        split; [congruence|]. rewrite E2. apply repr_short; lia. }
    destruct t; cbn [ity_min ity_max] in Hw; unfold two32, two63, two64 in Hw.
    + apply (Hs z); [lia|reflexivity|auto].
    + apply (Hs z); [lia|reflexivity|auto].
    + rewrite i64_is_short_true in H. rewrite wrap_i16_id in H by lia. apply (Hs z); [lia|reflexivity|auto].
    + rewrite i64_is_short_true in H. rewrite wrap_i16_id in H by lia. apply (Hs z); [lia|reflexivity|auto].
    + rewrite i64_is_short_true in H. rewrite wrap_i16_id in H by lia. apply (Hs z); [lia|reflexivity|auto].
    + apply (Hs z); [lia|reflexivity|right; split; [lia|auto]].
    + apply (Hs z); [lia|reflexivity|right; split; [lia|auto]].
    + destruct (z <=? 2047) eqn:E; [|discriminate]. rewrite wrap_u16_id in H by lia.
      apply (Hs z); [lia|reflexivity|right; split; [lia|auto]].
    + destruct (z <=? 2047) eqn:E; [|discriminate]. rewrite wrap_u16_id in H by lia.
      apply (Hs z); [lia|reflexivity|right; split; [lia|auto]].
    + destruct (z <=? 2047) eqn:E; [|discriminate]. rewrite wrap_u16_id in H by lia.
      apply (Hs z); [lia|reflexivity|right; split; [lia|auto]].
  - injection H as <-. destruct b; eexists; eexists; (split; [reflexivity|]); cbn [fst snd CONST_TRUE CONST_FALSE];
      eapply repr_const; try reflexivity; (split; [discriminate|reflexivity]).
  - injection H as <-. eexists; eexists; (split; [reflexivity|]).
    eapply repr_const; try reflexivity; (split; [discriminate|reflexivity]).
  - injection H as <-. eexists; eexists; (split; [reflexivity|]).
    eapply repr_const; try reflexivity; (split; [discriminate|reflexivity]).
  - destruct Hw as (Hb & Hl & Hu).
    destruct (bytes_sized TAG_STRING s0 s) as (b0 & b1 & -> & E); try reflexivity; try assumption; [unfold TAG_STRING; lia|].
    exists b0, b1. split; [reflexivity|]. rewrite <- E. apply repr_str; assumption.
  - destruct Hw as (Hb & Hl).
    destruct (bytes_sized TAG_DATA s0 s) as (b0 & b1 & -> & E); try reflexivity; try assumption; [unfold TAG_DATA; lia|].
    exists b0, b1. split; [reflexivity|]. rewrite <- E. apply repr_data; assumption.
  - injection H as <-. eexists; eexists; (split; [reflexivity|]).
    eapply repr_const; try reflexivity; (split; [discriminate|reflexivity]).
  - apply IH; assumption.
Qed.

(* ---------- trailing zeros ---------- *)

Lemma ctz_pos_spec p : 0 <= ctz_pos p /\ 2 ^ ctz_pos p <= Zpos p.
Proof.
  induction p as [p IH|p IH|]; cbn [ctz_pos]; [lia| |lia].
  destruct IH as [H0 H]. split; [lia|]. rewrite Z.pow_add_r by lia. lia.
Qed.
Lemma ctz64_bound z k : 0 < z < 2 ^ k -> 0 <= k -> 0 <= ctz64 z < k.
Proof.
  intros Hz Hk. destruct z as [|p|p]; [lia| |lia]. cbn [ctz64].
  destruct (ctz_pos_spec p) as [H0 H]. split; [exact H0|].
  destruct (Z_lt_le_dec (ctz_pos p) k) as [|Hge]; [assumption|].
  assert (2 ^ k <= 2 ^ ctz_pos p) by (apply Z.pow_le_mono_r; lia). lia.
Qed.

Lemma uint_header k : 1 <= k <= 8 ->
  Z.lor (Z.lor TAG_INT FLAG_UNSIGNED_INT) ((k - 1) mod 256) = 24 + (k - 1).
Proof.
  intros H. change (Z.lor TAG_INT FLAG_UNSIGNED_INT) with 24.
  assert (Hs : forall j, 0 <= j < 8 -> (Z.lor 24 (j mod 256) =? 24 + j) = true)
    by (apply (range_sweep (fun j => Z.lor 24 (j mod 256) =? 24 + j) 8); reflexivity).
  specialize (Hs (k - 1)). lia.
Qed.

Lemma write_u64_repr dbg z :
  2047 < z < two64 -> z < 256 ^ (8 - (ctz64 z + 7) / 8) ->
  exists bs, write_u64_big dbg z (u64_fleece_size z) = Ret (Some bs) /\
    lenZ bs = u64_fleece_size z /\ repr (TInt z) bs.
Proof.
  intros Hz Hok.
  assert (Hc : 0 <= ctz64 z < 64) by (apply ctz64_bound; [change (2 ^ 64) with two64|]; lia).
  set (k := 8 - (ctz64 z + 7) / 8) in *.
  assert (Hk : 0 <= k <= 8) by lia.
  assert (Hk1 : k <> 0) by (intros E; rewrite E in Hok; cbn in Hok; lia).
  assert (Hsz : u64_fleece_size z = k + 1).
  { unfold u64_fleece_size. destruct (z <=? 2047) eqn:E; [lia|]. unfold k; lia. }
  exists ((24 + (k - 1)) :: le_bytes (Z.to_nat k) z).
  split; [|split].
  - unfold write_u64_big. rewrite Hsz. destruct (k + 1 <? k + 1) eqn:E; [lia|].
    replace (k + 1 - 1) with k by lia.
    destruct ((k =? 0) && dbg) eqn:E0; [lia|]. rewrite uint_header by lia. reflexivity.
  - rewrite lenZ_cons, le_bytes_lenZ, Hsz. lia.
  - replace (24 + (k - 1)) with (24 + (Z.of_nat (Z.to_nat k) - 1)) by lia.
    apply repr_uint; [lia|]. rewrite Z2Nat.id by lia. lia.
Qed.

Lemma u32_uint_ok z : 2047 < z < two32 -> z < 256 ^ (8 - (ctz64 z + 7) / 8).
Proof.
  intros Hz. assert (Hc : 0 <= ctz64 z < 32) by (apply ctz64_bound; [change (2 ^ 32) with two32|]; lia).
  apply Z.lt_le_trans with (256 ^ 4); [change (256 ^ 4) with two32; lia|].
  apply Z.pow_le_mono_r; lia.
Qed.

Lemma write_string_repr tag s :
  2 <= lenZ s < two63 -> tag mod 16 = 0 -> 0 <= tag ->
  write_string tag s (bytes_fleece_size (lenZ s)) false = Ret (Some (str_bytes tag s)).
Proof.
  intros Hs Ht Ht0. unfold write_string.
  assert (E : (if lenZ s =? 0 then [tag; 0]
               else if lenZ s =? 1 then [Z.lor tag 1; nth 0 s 0]
               else if lenZ s <=? 14 then Z.lor tag (lenZ s) :: s
               else Z.lor tag 15 :: varint_write (lenZ s) ++ s) = str_bytes tag s).
  { unfold str_bytes. destruct (lenZ s =? 0); [reflexivity|].
    destruct (lenZ s =? 1); [rewrite byte_lor_tag by lia; reflexivity|].
    destruct (lenZ s <=? 14) eqn:E14; rewrite byte_lor_tag by lia; reflexivity. }
  cbv zeta. rewrite E. rewrite str_bytes_len by (unfold two63, two64 in *; lia).
  destruct (bytes_fleece_size (lenZ s) <? bytes_fleece_size (lenZ s)) eqn:E2; [lia|reflexivity].
Qed.

Lemma write_repr dbg v :
  wf_enc v -> enc_ok v = true -> to_sized_value v = None ->
  exists bs, write_to dbg v (fleece_size v) false = Ret (Some bs) /\
    lenZ bs = fleece_size v /\ repr (tree_of v) bs.
Proof.
  induction v as [t z|b|b|b| | |s0|s0| |w IH|s0|d n];
    cbn [wf_enc enc_ok to_sized_value tree_of write_to fleece_size];
    intros Hw Hok H; try discriminate; try contradiction.
  - assert (Hi16 : -2048 <= z <= 2047 -> i16_to_sized z = None -> False)
      by (intros Hz E; destruct (i16_sized z Hz) as (? & ? & E2 & _); congruence).
    assert (Hu16 : 0 <= z <= 2047 -> u16_to_sized z = None -> False)
      by (intros Hz E; destruct (u16_sized z Hz) as (? & ? & E2 & _); congruence).
    assert (Hbig : z <= two64 - 1 -> 2047 < z -> z < 256 ^ (8 - (ctz64 z + 7) / 8) ->
      exists bs, write_u64 dbg z (u64_fleece_size z) false = Ret (Some bs) /\
        lenZ bs = u64_fleece_size z /\ repr (TInt z) bs).
    { intros H1 H2 H3. unfold write_u64. destruct (z <=? 2047) eqn:E; [lia|].
      apply write_u64_repr; lia. }
    destruct t; cbn [ity_min ity_max] in Hw; unfold two32, two63, two64 in Hw;
      try (exfalso; apply Hi16; [lia|assumption]);
      try (exfalso; apply Hu16; [lia|assumption]).
    + rewrite i64_is_short_true in H. rewrite wrap_i16_id in H by lia. exfalso; apply Hi16; [lia|exact H].
    + rewrite i64_is_short_true in H. rewrite wrap_i16_id in H by lia. exfalso; apply Hi16; [lia|exact H].
    + rewrite i64_is_short_true in H. rewrite wrap_i16_id in H by lia. exfalso; apply Hi16; [lia|exact H].
    + destruct (z <=? 2047) eqn:E.
      { rewrite wrap_u16_id in H by lia. exfalso; apply Hu16; [lia|exact H]. }
      apply Hbig; [unfold two64; lia|lia|apply u32_uint_ok; unfold two32; lia].
    + destruct (z <=? 2047) eqn:E.
      { rewrite wrap_u16_id in H by lia. exfalso; apply Hu16; [lia|exact H]. }
      cbn [orb] in Hok. apply Hbig; [unfold two64; lia|lia|lia].
    + destruct (z <=? 2047) eqn:E.
      { rewrite wrap_u16_id in H by lia. exfalso; apply Hu16; [lia|exact H]. }
      cbn [orb] in Hok. apply Hbig; [unfold two64; lia|lia|lia].
  - destruct (6 <? 6) eqn:E; [lia|]. eexists; split; [reflexivity|]. split.
    + rewrite !lenZ_cons, le_bytes_lenZ. reflexivity.
    + apply repr_f32. exact Hw.
  - destruct (10 <? 10) eqn:E; [lia|]. eexists; split; [reflexivity|]. split.
    + rewrite !lenZ_cons, le_bytes_lenZ. reflexivity.
    + change (Z.lor TAG_FLOAT 8) with 40. apply repr_f64; exact Hw.
  - destruct Hw as (Hb & Hl & Hu). apply bytes_sized_None in H.
    destruct (bytes_fleece_size (lenZ s0) <? bytes_fleece_size (lenZ s0)) eqn:E; [lia|].
    rewrite write_string_repr; [|lia|reflexivity|unfold TAG_STRING; lia].
    eexists; split; [reflexivity|]. split; [apply str_bytes_len; unfold two63, two64 in *; lia|].
    apply repr_str; assumption.
  - destruct Hw as (Hb & Hl). apply bytes_sized_None in H.
    destruct (bytes_fleece_size (lenZ s0) <? bytes_fleece_size (lenZ s0)) eqn:E; [lia|].
    rewrite write_string_repr; [|lia|reflexivity|unfold TAG_DATA; lia].
    eexists; split; [reflexivity|]. split; [apply str_bytes_len; unfold two63, two64 in *; lia|].
    apply repr_data; assumption.
  - apply IH; assumption.
Qed.
