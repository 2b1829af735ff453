(** Proofs about float conversions: widening an f32 and narrowing it again is exact. *)
From Verif Require Import Prelude Lib Float.
From Coq Require Import ZifyBool ZifyNat ZifyN.
Ltac Zify.zify_post_hook ::= Z.div_mod_to_equations.

Lemma rne_exact m s : 0 <= m -> 1 <= s -> rne_shift (m * 2 ^ s) s = m.
Proof.
  intros Hm Hs. unfold rne_shift.
  assert (0 < 2 ^ s) by (apply Z.pow_pos_nonneg; lia).
  assert (0 < 2 ^ (s - 1)) by (apply Z.pow_pos_nonneg; lia).
  rewrite Z.div_mul by lia. rewrite Z.mod_mul by lia.
  destruct (2 ^ (s - 1) <? 0) eqn:E; [lia|]. destruct (0 =? 2 ^ (s - 1)) eqn:E2; [lia|]. reflexivity.
Qed.

Lemma fdecode64_parts s ex fr :
  0 <= ex < 2048 -> 0 <= fr < 4503599627370496 ->
  fdecode 52 11 (fsign_bit 52 11 s + ex * 4503599627370496 + fr) =
  if ex =? 2047 then (if fr =? 0 then FInf s else FNan s fr)
  else if ex =? 0 then FFin s fr (-1074)
  else FFin s (4503599627370496 + fr) (ex - 1 - 1074).
Proof.
  intros Hex Hfr. unfold fdecode, fsign_bit, femin, fbias.
  change (2 ^ (52 + 11)) with 9223372036854775808. change (2 ^ 52) with 4503599627370496.
  change (2 ^ 11) with 2048. change (1 - (2 ^ (11 - 1) - 1) - 52) with (-1074).
  set (sb := if s then 9223372036854775808 else 0).
  assert (Hs : (9223372036854775808 <=? sb + ex * 4503599627370496 + fr) = s)
    by (subst sb; destruct s; lia).
  assert (He : ((sb + ex * 4503599627370496 + fr) / 4503599627370496) mod 2048 = ex)
    by (subst sb; destruct s; lia).
  assert (Hf : (sb + ex * 4503599627370496 + fr) mod 4503599627370496 = fr)
    by (subst sb; destruct s; lia).
  rewrite Hs, He, Hf. reflexivity.
Qed.

Lemma f32_parts bits : 0 <= bits < two32 ->
  exists s ex fr, 0 <= ex < 256 /\ 0 <= fr < 8388608 /\
    bits = fsign_bit 23 8 s + ex * 8388608 + fr /\
    fdecode 23 8 bits =
    (if ex =? 255 then (if fr =? 0 then FInf s else FNan s fr)
     else if ex =? 0 then FFin s fr (-149)
     else FFin s (8388608 + fr) (ex - 1 - 149)) /\
    is_snan32 bits = ((ex =? 255) && negb (fr =? 0) && (fr <? 4194304)).
Proof.
  intros Hb. unfold two32 in Hb.
  exists (2147483648 <=? bits), ((bits / 8388608) mod 256), (bits mod 8388608).
  split; [lia|]. split; [lia|]. split.
  { unfold fsign_bit. change (2 ^ (23 + 8)) with 2147483648.
    destruct (2147483648 <=? bits) eqn:E; lia. }
  split.
  { unfold fdecode. change (2 ^ (23 + 8)) with 2147483648. change (2 ^ 23) with 8388608.
    change (2 ^ 8) with 256. reflexivity. }
  unfold is_snan32, is_nan32. change (2 ^ 23) with 8388608. change (2 ^ 8) with 256.
  change (2 ^ 22) with 4194304.
  destruct (((bits / 8388608) mod 256 =? 255)) eqn:E1; cbn [andb]; [|reflexivity].
  destruct (bits mod 8388608 =? 0) eqn:E2; cbn [andb negb]; [reflexivity|]. lia.
Qed.

Lemma fin_round_trip s m e :
  0 < m < 16777216 -> -149 <= e <= 104 -> (8388608 <= m \/ e = -149) ->
  match fdecode 52 11 (fround 52 11 s m e) with
  | FNan _ _ => -1 | FInf _ => -1
  | FFin s' m' e' => fround 23 8 s' m' e'
  end = fsign_bit 23 8 s + ((e + 149) * 8388608 + m).
Proof.
  intros Hm He Hme.
  assert (Hl : 0 <= Z.log2 m <= 23).
  { split; [apply Z.log2_nonneg|]. assert (Z.log2 m < 24) by (apply Z.log2_lt_pow2; lia). lia. }
  assert (Hlm : 2 ^ Z.log2 m <= m < 2 ^ Z.succ (Z.log2 m)) by (apply Z.log2_spec; lia).
  set (l := Z.log2 m) in *.
  assert (Hn : 2 ^ 52 <= m * 2 ^ (52 - l) < 2 ^ 53).
  { split.
    - replace 52 with (l + (52 - l)) at 1 by lia. rewrite Z.pow_add_r by lia.
      apply Z.mul_le_mono_nonneg_r; [apply Z.pow_nonneg; lia|lia].
    - replace 53 with (Z.succ l + (52 - l)) by lia. rewrite Z.pow_add_r by lia.
      apply Z.mul_lt_mono_pos_r; [apply Z.pow_pos_nonneg; lia|lia]. }
  unfold fround at 1. destruct (m =? 0) eqn:E0; [lia|]. fold l.
  change (femin 52 11) with (-1074). change (finf_bits 52 11) with 9218868437227405312.
  rewrite (Z.max_l (l + e - 52)) by lia.
  destruct (l + e - 52 <=? e) eqn:E1; [|lia].
  replace (e - (l + e - 52)) with (52 - l) by lia.
  set (n := m * 2 ^ (52 - l)) in *.
  change (2 ^ 52) with 4503599627370496 in *. change (2 ^ 53) with 9007199254740992 in *.
  destruct (9218868437227405312 <=? (l + e - 52 - -1074) * 4503599627370496 + n) eqn:E2; [lia|].
  replace (fsign_bit 52 11 s + ((l + e - 52 - -1074) * 4503599627370496 + n))
    with (fsign_bit 52 11 s + (l + e - 52 + 1074 + 1) * 4503599627370496 + (n - 4503599627370496)) by lia.
  rewrite fdecode64_parts by lia.
  destruct (l + e - 52 + 1074 + 1 =? 2047) eqn:E3; [lia|].
  destruct (l + e - 52 + 1074 + 1 =? 0) eqn:E4; [lia|].
  replace (4503599627370496 + (n - 4503599627370496)) with n by lia.
  replace (l + e - 52 + 1074 + 1 - 1 - 1074) with (l + e - 52) by lia.
  assert (Hln : Z.log2 n = 52).
  { apply Z.log2_unique; [lia|]. change (2 ^ 52) with 4503599627370496. 
    change (2 ^ Z.succ 52) with 9007199254740992. lia. }
  unfold fround. destruct (n =? 0) eqn:E5; [lia|]. rewrite Hln.
  change (femin 23 8) with (-149). change (finf_bits 23 8) with 2139095040.
  change (2 ^ 23) with 8388608.
  assert (Hl23 : 8388608 <= m -> l = 23).
  { intros Hm'. assert (23 <= l); [|lia]. subst l. apply Z.log2_le_pow2; lia. }
  assert (Hq : Z.max (52 + (l + e - 52) - 23) (-149) = e) by lia.
  rewrite Hq.
  destruct (e <=? l + e - 52) eqn:E6; [lia|].
  replace (e - (l + e - 52)) with (52 - l) by lia.
  subst n. rewrite rne_exact by lia.
  destruct (2139095040 <=? (e - -149) * 8388608 + m) eqn:E7; [lia|]. lia.
Qed.

(** Widening then narrowing gives back the same bits, except that a signalling NaN becomes
    quiet. *)
Theorem f32_via_f64 bits :
  0 <= bits < two32 ->
  f32_of_f64 (f64_of_f32 bits) = if is_snan32 bits then bits + 4194304 else bits.
Proof.
  intros Hb. destruct (f32_parts bits Hb) as (s & ex & fr & Hex & Hfr & Hbits & Hdec & Hsn).
  rewrite Hsn. unfold f64_of_f32. rewrite Hdec.
  destruct (ex =? 255) eqn:E1; cbn [andb].
  - destruct (fr =? 0) eqn:E2; cbn [andb negb].
    + unfold f32_of_f64.
      change (finf_bits 52 11) with (2047 * 4503599627370496).
      replace (fsign_bit 52 11 s + 2047 * 4503599627370496)
        with (fsign_bit 52 11 s + 2047 * 4503599627370496 + 0) by lia.
      rewrite fdecode64_parts by lia. cbn [Z.eqb Pos.eqb].
      change (finf_bits 23 8) with 2139095040. lia.
    + unfold f32_of_f64, fquiet.
      change (finf_bits 52 11) with (2047 * 4503599627370496).
      change (2 ^ 29) with 536870912. change (2 ^ (52 - 1)) with 2251799813685248.
      change (2 ^ (23 - 1)) with 4194304.
      destruct (fr <? 4194304) eqn:E3.
      * destruct (fr * 536870912 / 2251799813685248 =? 0) eqn:E4; [|lia].
        rewrite fdecode64_parts by lia. cbn [Z.eqb Pos.eqb].
        destruct (fr * 536870912 + 2251799813685248 =? 0) eqn:E5; [lia|].
        replace ((fr * 536870912 + 2251799813685248) / 536870912) with (fr + 4194304) by lia.
        destruct ((fr + 4194304) / 4194304 =? 0) eqn:E6; [lia|].
        change (finf_bits 23 8) with 2139095040. lia.
      * destruct (fr * 536870912 / 2251799813685248 =? 0) eqn:E4; [lia|].
        rewrite fdecode64_parts by lia. cbn [Z.eqb Pos.eqb].
        destruct (fr * 536870912 =? 0) eqn:E5; [lia|].
        replace (fr * 536870912 / 536870912) with fr by lia.
        destruct (fr / 4194304 =? 0) eqn:E6; [lia|].
        change (finf_bits 23 8) with 2139095040. lia.
  - destruct (ex =? 0) eqn:E2.
    + destruct (Z.eq_dec fr 0) as [Hf|Hf].
      * subst fr. unfold fround. cbn [Z.eqb]. unfold f32_of_f64.
        replace (fsign_bit 52 11 s) with (fsign_bit 52 11 s + 0 * 4503599627370496 + 0) by lia.
        rewrite fdecode64_parts by lia. cbn [Z.eqb]. unfold fround. cbn [Z.eqb]. lia.
      * pose proof (fin_round_trip s fr (-149)) as H. unfold f32_of_f64.
        destruct (fdecode 52 11 (fround 52 11 s fr (-149))) eqn:Ed.
        -- exfalso. assert (-1 = fsign_bit 23 8 s + ((-149 + 149) * 8388608 + fr)) by (apply H; lia).
           unfold fsign_bit in *; change (2 ^ (23 + 8)) with 2147483648 in *; destruct s; lia.
        -- exfalso. assert (-1 = fsign_bit 23 8 s + ((-149 + 149) * 8388608 + fr)) by (apply H; lia).
           unfold fsign_bit in *; change (2 ^ (23 + 8)) with 2147483648 in *; destruct s; lia.
        -- rewrite H by lia. lia.
    + pose proof (fin_round_trip s (8388608 + fr) (ex - 1 - 149)) as H. unfold f32_of_f64.
      destruct (fdecode 52 11 (fround 52 11 s (8388608 + fr) (ex - 1 - 149))) eqn:Ed.
      * exfalso.
        assert (-1 = fsign_bit 23 8 s + ((ex - 1 - 149 + 149) * 8388608 + (8388608 + fr))) by (apply H; lia).
        unfold fsign_bit in *; change (2 ^ (23 + 8)) with 2147483648 in *; destruct s; lia.
      * exfalso.
        assert (-1 = fsign_bit 23 8 s + ((ex - 1 - 149 + 149) * 8388608 + (8388608 + fr))) by (apply H; lia).
        unfold fsign_bit in *; change (2 ^ (23 + 8)) with 2147483648 in *; destruct s; lia.
      * rewrite H by lia. lia.
Qed.
