(** Range of the results of float conversions, and that narrowing never gives a signalling NaN. *)
From Verif Require Import Prelude Lib Float FloatProofs.
From Coq Require Import ZifyBool ZifyNat ZifyN.
Ltac Zify.zify_post_hook ::= Z.div_mod_to_equations.

Lemma rne_nonneg m s : 0 <= m -> 0 <= rne_shift m s.
Proof.
  intros H. unfold rne_shift. assert (0 <= m / 2 ^ s) by (destruct (Z_lt_le_dec s 0); [rewrite Z.pow_neg_r by lia; rewrite Zdiv_0_r; lia|apply Z.div_pos; [lia|apply Z.pow_pos_nonneg; lia]]).
  destruct (_ <? _); [lia|]. destruct (_ =? _); [|lia]. destruct (Z.even _); lia.
Qed.
Lemma fround_range mb eb s m e : 0 <= mb -> 0 < eb -> 0 <= m ->
  exists b, fround mb eb s m e = fsign_bit mb eb s + b /\ 0 <= b <= finf_bits mb eb.
Proof.
  intros H1 H2 Hm. unfold fround. assert (0 <= finf_bits mb eb).
  { unfold finf_bits. assert (0 < 2 ^ mb) by (apply Z.pow_pos_nonneg; lia). assert (2 ^ 1 <= 2 ^ eb) by (apply Z.pow_le_mono_r; lia). nia. }
  destruct (m =? 0); [exists 0; split; lia|].
  set (q := Z.max _ _). set (n := if q <=? e then _ else _).
  assert (0 <= n). { unfold n. destruct (q <=? e) eqn:E; [|apply rne_nonneg, Hm]. apply Z.mul_nonneg_nonneg; [exact Hm|apply Z.pow_nonneg; lia]. }
  assert (0 <= (q - femin mb eb) * 2 ^ mb). { apply Z.mul_nonneg_nonneg; [assert (femin mb eb <= q) by (unfold q; apply Z.le_max_r); lia|apply Z.pow_nonneg; lia]. }
  assert (Hb : 0 <= (q - femin mb eb) * 2 ^ mb + n) by (apply Z.add_nonneg_nonneg; assumption).
  cbv zeta. revert Hb. generalize ((q - femin mb eb) * 2 ^ mb + n). intros x Hx.
  eexists. split; [reflexivity|]. destruct (finf_bits mb eb <=? x) eqn:E; lia.
Qed.
Lemma fdecode_fin mb eb bits : 0 <= mb -> match fdecode mb eb bits with FFin _ m _ => 0 <= m | FNan _ p => 0 <= p < 2 ^ mb | FInf _ => True end.
Proof.
  intros H. unfold fdecode. assert (0 < 2 ^ mb) by (apply Z.pow_pos_nonneg; lia). pose proof (Z.mod_pos_bound bits (2 ^ mb) H0).
  destruct (_ =? _); [destruct (_ =? _); [exact I|exact H1]|]. destruct (_ =? _); lia.
Qed.
Lemma f32_shape d : exists s b, f32_of_f64 d = fsign_bit 23 8 s + b /\ (0 <= b <= 255 * 2 ^ 23 \/ 255 * 2 ^ 23 + 2 ^ 22 <= b < 2 ^ 31).
Proof.
  unfold f32_of_f64. pose proof (fdecode_fin 52 11 d ltac:(lia)) as H. destruct (fdecode 52 11 d) as [s p|s|s m e].
  - exists s. eexists. rewrite <- Z.add_assoc. split; [reflexivity|]. right. unfold fquiet. change (finf_bits 23 8) with (255 * 2 ^ 23). change (2 ^ (23 - 1)) with 4194304. change (2 ^ 52) with 4503599627370496 in H. change (2 ^ 29) with 536870912.
    change (2 ^ 23) with 8388608. change (2 ^ 22) with 4194304. change (2 ^ 31) with 2147483648. destruct (_ =? _) eqn:E; lia.
  - exists s, (finf_bits 23 8). split; [reflexivity|]. left. change (finf_bits 23 8) with (255 * 2 ^ 23). lia.
  - destruct (fround_range 23 8 s m e ltac:(lia) ltac:(lia) H) as (b & -> & Hb). exists s, b. split; [reflexivity|]. left. exact Hb.
Qed.
Lemma f32_range d : 0 <= f32_of_f64 d < two32.
Proof. destruct (f32_shape d) as (s & b & -> & H). unfold two32. destruct s; cbn [fsign_bit]; change (2 ^ (23 + 8)) with 2147483648; lia. Qed.
Lemma f32_quiet d : quiet32 (f32_of_f64 d) = f32_of_f64 d.
Proof.
  destruct (f32_shape d) as (s & b & -> & H). unfold quiet32. 
  assert (is_snan32 (fsign_bit 23 8 s + b) = false) as ->; [|reflexivity].
  unfold is_snan32, is_nan32. change (2 ^ 23) with 8388608 in *. change (2 ^ 22) with 4194304 in *. change (2 ^ 31) with 2147483648 in *. change (2 ^ 8) with 256.
  destruct s; cbn [fsign_bit]; change (2 ^ (23 + 8)) with 2147483648; lia.
Qed.
Lemma f64_of_f32_range b : 0 <= f64_of_f32 b < two64.
Proof.
  unfold f64_of_f32. pose proof (fdecode_fin 23 8 b ltac:(lia)) as H. destruct (fdecode 23 8 b) as [s p|s|s m e].
  - unfold fquiet. change (finf_bits 52 11) with 9218868437227405312. change (2 ^ (52 - 1)) with 2251799813685248. change (2 ^ 29) with 536870912. change (2 ^ 23) with 8388608 in H. unfold two64.
    destruct s; cbn [fsign_bit]; change (2 ^ (52 + 11)) with 9223372036854775808; destruct (_ =? _) eqn:E; lia.
  - change (finf_bits 52 11) with 9218868437227405312. unfold two64. destruct s; cbn [fsign_bit]; change (2 ^ (52 + 11)) with 9223372036854775808; lia.
  - destruct (fround_range 52 11 s m e ltac:(lia) ltac:(lia) H) as (x & -> & Hb). change (finf_bits 52 11) with 9218868437227405312 in Hb. unfold two64. destruct s; cbn [fsign_bit]; change (2 ^ (52 + 11)) with 9223372036854775808; lia.
Qed.
