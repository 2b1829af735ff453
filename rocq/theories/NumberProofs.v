(** The float conversions of Float.v meet NumberSpec.v. *)
From Verif Require Import Prelude Lib Varint VarintProofs Float FloatProofs FloatRange Decode Holds Repr NumberSpec.
From Coq Require Import QArith Qabs Qpower ZifyBool ZifyNat ZifyN.
Ltac Zify.zify_post_hook ::= Z.div_mod_to_equations.
Local Open Scope Z_scope.

(* ---------- numbers at a common scale ---------- *)

Lemma pow2_pos e : (0 < pow2 e)%Q.
Proof. apply Qpower_0_lt. reflexivity. Qed.
Definition qs (E z : Z) : Q := (inject_Z z * pow2 E)%Q.
Lemma qs_scale E m e : E <= e -> (inject_Z m * pow2 e == qs E (m * 2 ^ (e - E)))%Q.
Proof.
  intros H. unfold qs, pow2. replace e with ((e - E) + E) at 1 by lia. rewrite Qpower_plus by (intros Hx; discriminate).
  rewrite inject_Z_mult, Zpower_Qpower by lia. change (inject_Z 2) with (2%Q). rewrite Qmult_assoc. reflexivity.
Qed.
Lemma qs_le E a b : (qs E a <= qs E b)%Q <-> a <= b.
Proof.
  unfold qs. split; intros H.
  - apply Qmult_le_r in H; [|apply pow2_pos]. rewrite <- Zle_Qle in H. exact H.
  - apply Qmult_le_r; [apply pow2_pos|]. rewrite <- Zle_Qle. exact H.
Qed.
Lemma qs_lt E a b : (qs E a < qs E b)%Q <-> a < b.
Proof.
  unfold qs. split; intros H.
  - apply Qmult_lt_r in H; [|apply pow2_pos]. rewrite <- Zlt_Qlt in H. exact H.
  - apply Qmult_lt_r; [apply pow2_pos|]. rewrite <- Zlt_Qlt. exact H.
Qed.
Lemma qs_eq E a b : (qs E a == qs E b)%Q <-> a = b.
Proof.
  split; [|intros ->; reflexivity]. intros H. apply Z.le_antisymm; apply (qs_le E); rewrite H; apply Qle_refl.
Qed.
Lemma qs_sub E a b : (qs E a - qs E b == qs E (a - b))%Q.
Proof. unfold qs. unfold Z.sub. rewrite inject_Z_plus, inject_Z_opp. ring. Qed.
Lemma qs_opp E a : (- qs E a == qs E (- a))%Q.
Proof. unfold qs. rewrite inject_Z_opp. ring. Qed.
Lemma qs_abs E a : (Qabs (qs E a) == qs E (Z.abs a))%Q.
Proof.
  unfold qs. rewrite Qabs_Qmult, (Qabs_pos (pow2 E)) by (apply Qlt_le_weak, pow2_pos). apply Qmult_comp; [|reflexivity]. reflexivity.
Qed.

(* ---------- the conversion to an integer ---------- *)

Lemma qle_bool_sign q E z : (q == qs E z)%Q -> Qle_bool 0 q = (0 <=? z).
Proof.
  intros H. apply Bool.eq_iff_eq_true. rewrite Qle_bool_iff, H, Z.leb_le.
  assert (H0 : (0 == qs E 0)%Q) by (unfold qs; cbn; ring). rewrite H0. apply qs_le.
Qed.
Lemma int_scale E z : E <= 0 -> (inject_Z z == qs E (z * 2 ^ (- E)))%Q.
Proof. intros H. rewrite <- (Z.sub_0_l E), <- qs_scale by lia. unfold pow2. cbn [Qpower]. ring. Qed.

Definition signed (s : bool) (z : Z) : Z := if s then - z else z.

Definition class_number (c : fclass) : number :=
  match c with FNan _ _ => NaN | FInf s => Infinite s | FFin s m e => Finite (qs e (signed s m)) end.

Lemma signed_qs (s : bool) m e : ((if s then - (inject_Z m * pow2 e) else inject_Z m * pow2 e) == qs e (signed s m))%Q.
Proof. destruct s; cbn [signed]; unfold qs; [rewrite inject_Z_opp; ring|reflexivity]. Qed.

Lemma sign_bit mb eb bits : 0 <= mb -> 0 <= eb -> 0 <= bits < 2 ^ (mb + eb + 1) ->
  ((bits / 2 ^ (mb + eb)) mod 2 =? 1) = (2 ^ (mb + eb) <=? bits).
Proof.
  intros Hm He Hb. rewrite Z.pow_add_r in Hb by lia. set (P := 2 ^ (mb + eb)) in *.
  assert (0 < P) by (apply Z.pow_pos_nonneg; lia). destruct (P <=? bits) eqn:E.
  - replace (bits / P) with 1; [reflexivity|]. apply (Z.div_unique bits P 1 (bits - P)); lia.
  - rewrite Z.div_small by lia. reflexivity.
Qed.
Lemma float_class mb eb bits : 0 <= mb -> 0 <= eb -> 0 <= bits < 2 ^ (mb + eb + 1) ->
  same_number (float_number mb eb bits) (class_number (fdecode mb eb bits)).
Proof.
  intros Hm He Hb. unfold float_number, fdecode. rewrite (sign_bit _ _ _ Hm He Hb). set (s := 2 ^ (mb + eb) <=? bits). cbn zeta.
  destruct (_ =? 2 ^ eb - 1); [destruct (_ =? 0); reflexivity|].
  assert (Hu : ulp0 mb eb = femin mb eb) by (unfold ulp0, femin, fbias; lia). rewrite Hu.
  destruct (_ =? 0); cbn [same_number class_number]; rewrite signed_qs; [reflexivity|].
  replace (femin mb eb + _ - 1) with ((bits / 2 ^ mb) mod 2 ^ eb - 1 + femin mb eb) by lia. reflexivity.
Qed.

Lemma float_shape mb eb b y : 0 <= mb -> 0 <= eb -> float_number mb eb b = Finite y ->
  exists k r, Z.abs k < 2 ^ (mb + 1) /\ femin mb eb <= r /\ (y == qs r k)%Q.
Proof.
  intros Hm He. unfold float_number. cbn zeta. set (s := (_ =? 1)). set (ex := (b / 2 ^ mb) mod 2 ^ eb). set (fr := b mod 2 ^ mb).
  assert (Hu : ulp0 mb eb = femin mb eb) by (unfold ulp0, femin, fbias; lia). rewrite Hu.
  assert (0 < 2 ^ mb) by (apply Z.pow_pos_nonneg; lia). assert (0 < 2 ^ eb) by (apply Z.pow_pos_nonneg; lia).
  assert (Hf : 0 <= fr < 2 ^ mb) by (apply Z.mod_pos_bound; lia). assert (Hx : 0 <= ex < 2 ^ eb) by (apply Z.mod_pos_bound; lia).
  assert (Hp : 2 ^ (mb + 1) = 2 * 2 ^ mb) by (rewrite Z.pow_add_r by lia; lia).
  destruct (ex =? 2 ^ eb - 1); [destruct (fr =? 0); discriminate|]. intros Hy. injection Hy as <-. destruct (ex =? 0) eqn:E.
  - exists (signed s fr), (femin mb eb). split; [unfold signed; destruct s; lia|]. split; [lia|]. apply signed_qs.
  - exists (signed s (2 ^ mb + fr)), (femin mb eb + ex - 1). split; [unfold signed; destruct s; lia|]. split; [lia|]. apply signed_qs.
Qed.

Lemma cast_spec lo hi b : lo <= 0 <= hi -> 0 <= b < two64 -> cast_to lo hi (f64_number b) (int_of_f64 lo hi b).
Proof.
  intros Hl Hb. pose proof (float_class 52 11 b ltac:(lia) ltac:(lia) Hb) as Hc. unfold int_of_f64.
  assert (Hm : match fdecode 52 11 b with FFin _ m _ => 0 <= m | _ => True end).
  { unfold fdecode. cbn zeta. repeat match goal with |- context [if ?x then _ else _] => destruct x end; try exact I; try (apply Z.mod_pos_bound; reflexivity).
    pose proof (Z.mod_pos_bound b (2 ^ 52) eq_refl). lia. }
  destruct (fdecode 52 11 b) as [s p|s|s m e]; destruct (f64_number b) as [|s'|q]; cbn [same_number class_number] in Hc; try contradiction; cbn [cast_to].
  - reflexivity.
  - subst. reflexivity.
  - exists (signed s (if 0 <=? e then m * 2 ^ e else m / 2 ^ (- e))). split; [|unfold signed; destruct s; reflexivity].
    unfold truncated. rewrite (qle_bool_sign _ _ _ Hc).
    assert (Hs : forall z, (inject_Z z == qs (Z.min e 0) (z * 2 ^ (- Z.min e 0)))%Q) by (intros z; apply int_scale; lia).
    assert (Hq : (q == qs (Z.min e 0) (signed s m * 2 ^ (e - Z.min e 0)))%Q).
    { rewrite Hc. unfold qs at 1. apply qs_scale. lia. }
    destruct (0 <=? e) eqn:Ee.
    + replace (Z.min e 0) with 0 in * by lia. cbn [Z.opp Z.pow] in Hs. rewrite Z.sub_0_r in Hq.
      assert (0 < 2 ^ e) by (apply Z.pow_pos_nonneg; lia).
      destruct (0 <=? signed s m) eqn:E; rewrite Hq, !Hs, ?qs_le, ?qs_lt; unfold signed in *; destruct s; nia.
    + replace (Z.min e 0) with e in * by lia. rewrite Z.sub_diag, Z.pow_0_r, Z.mul_1_r in Hq.
      assert (HP : 0 < 2 ^ (- e)) by (apply Z.pow_pos_nonneg; lia). set (P := 2 ^ (- e)) in *.
      pose proof (Z.div_mod m P ltac:(lia)) as Hd. pose proof (Z.mod_pos_bound m P HP) as Hr. pose proof (Z.div_pos m P Hm HP) as Hd0.
      set (r := m mod P) in *. set (d := m / P) in *. clearbody d r P.
      destruct (0 <=? signed s m) eqn:E; rewrite Hq, !Hs, ?qs_le, ?qs_lt; unfold signed in *; destruct s; nia.
Qed.

(* ---------- rounding ---------- *)

Lemma rne_nearest m s k : 0 <= m -> 1 <= s -> let n := rne_shift m s in
  Z.abs (n * 2 ^ s - m) <= Z.abs (k * 2 ^ s - m) /\
  (Z.abs (n * 2 ^ s - m) = Z.abs (k * 2 ^ s - m) -> k <> n -> Z.even n = true) /\
  m / 2 ^ s <= n <= m / 2 ^ s + 1 /\ (n = m / 2 ^ s + 1 -> 2 ^ (s - 1) <= m mod 2 ^ s) /\
  (Z.even (m / 2 ^ s) = false -> 2 ^ (s - 1) <= m mod 2 ^ s -> n = m / 2 ^ s + 1).
Proof.
  intros Hm Hs. unfold rne_shift. cbn zeta.
  assert (HP : 2 ^ s = 2 * 2 ^ (s - 1)) by (replace s with (1 + (s - 1)) at 1 by lia; rewrite Z.pow_add_r by lia; lia).
  set (h := 2 ^ (s - 1)) in *. assert (Hh : 0 < h) by (apply Z.pow_pos_nonneg; lia).
  pose proof (Z.div_mod m (2 ^ s) ltac:(lia)) as Hd. pose proof (Z.mod_pos_bound m (2 ^ s) ltac:(lia)) as Hr.
  rewrite HP in *. set (r := m mod (2 * h)) in *. set (d := m / (2 * h)) in *. clearbody h r d. subst m.
  assert (Hk : k <= d - 1 \/ k = d \/ k = d + 1 \/ d + 2 <= k) by lia.
  destruct (h <? r) eqn:E1; [|destruct (r =? h) eqn:E2; [destruct (Z.even d) eqn:E3|]].
  - split; [nia|]. split; [nia|]. split; [lia|]. split; lia.
  - split; [nia|]. split; [auto|]. split; [lia|]. split; [lia|congruence].
  - split; [nia|]. split; [intros _ _; rewrite Z.even_add, E3; reflexivity|]. split; [lia|]. split; lia.
  - split; [nia|]. split; [nia|]. split; [lia|]. split; lia.
Qed.

Section Round.
  Context (mb eb : Z) (Hmb : 1 <= mb) (Heb : 2 <= eb).
  Let emin := femin mb eb.

  Definition expo (m e : Z) : Z := Z.max (Z.log2 m + e - mb) emin.
  Definition mant (m e : Z) : Z := let q := expo m e in if q <=? e then m * 2 ^ (e - q) else rne_shift m (q - e).

  Lemma mant_bounds m e : 0 < m -> 0 <= mant m e <= 2 ^ (mb + 1) /\
    (emin < expo m e -> 2 ^ mb <= mant m e) /\ (expo m e <= e -> mant m e < 2 ^ (mb + 1)).
  Proof using Hmb Heb.
    intros Hm. unfold mant. cbn zeta. pose proof (Z.log2_spec m Hm) as [L1 L2]. pose proof (Z.log2_nonneg m) as L0.
    assert (Hq : expo m e = Z.max (Z.log2 m + e - mb) emin) by reflexivity. set (q := expo m e) in *.
    destruct (q <=? e) eqn:E.
    - assert (Hp : 0 < 2 ^ (e - q)) by (apply Z.pow_pos_nonneg; lia).
      assert (Hub : m * 2 ^ (e - q) < 2 ^ (mb + 1)).
      { apply Z.lt_le_trans with (2 ^ Z.succ (Z.log2 m) * 2 ^ (e - q)); [nia|]. rewrite <- Z.pow_add_r by lia. apply Z.pow_le_mono_r; lia. }
      split; [nia|]. split; [|auto]. intros Hlt.
      apply Z.le_trans with (2 ^ Z.log2 m * 2 ^ (e - q)); [|nia]. rewrite <- Z.pow_add_r by lia. apply Z.pow_le_mono_r; lia.
    - assert (HP : 0 < 2 ^ (q - e)) by (apply Z.pow_pos_nonneg; lia).
      destruct (rne_nearest m (q - e) 0 ltac:(lia) ltac:(lia)) as (_ & _ & Hn & _). cbn zeta in Hn.
      pose proof (Z.div_mod m (2 ^ (q - e)) ltac:(lia)) as Hd. pose proof (Z.mod_pos_bound m (2 ^ (q - e)) HP) as Hr.
      assert (Hub : m < 2 ^ (mb + 1) * 2 ^ (q - e)).
      { apply Z.lt_le_trans with (2 ^ Z.succ (Z.log2 m)); [exact L2|]. rewrite <- Z.pow_add_r by lia. apply Z.pow_le_mono_r; lia. }
      set (P := 2 ^ (q - e)) in *. set (B := 2 ^ (mb + 1)) in *. pose proof (Z.div_pos m P ltac:(lia) HP) as Hd0.
      split; [|split; [|lia]].
      + assert (m / P < B) by (apply Z.div_lt_upper_bound; lia). lia.
      + intros Hlt. apply Z.le_trans with (m / P); [|lia]. apply Z.div_le_lower_bound; [lia|].
        apply Z.le_trans with (2 ^ Z.log2 m); [|exact L1]. unfold P. rewrite <- Z.pow_add_r by lia. apply Z.pow_le_mono_r; lia.
  Qed.

  (** No float lies nearer. *)
  Lemma near m e E k r : 0 < m -> E <= e -> E <= emin -> emin <= r -> Z.abs k < 2 ^ (mb + 1) ->
    let X := m * 2 ^ (e - E) in let Y := mant m e * 2 ^ (expo m e - E) in let K := k * 2 ^ (r - E) in
    Z.abs (Y - X) <= Z.abs (K - X) /\ (Z.abs (Y - X) = Z.abs (K - X) -> K <> Y -> Z.even (mant m e) = true).
  Proof using Hmb Heb.
    intros Hm HE1 HE2 Hr Hk. cbn zeta. unfold mant. cbn zeta. pose proof (Z.log2_spec m Hm) as [L1 L2]. pose proof (Z.log2_nonneg m) as L0.
    assert (Hq : expo m e = Z.max (Z.log2 m + e - mb) emin) by reflexivity. set (q := expo m e) in *.
    destruct (q <=? e) eqn:Eq.
    - assert (Hs : 2 ^ (e - E) = 2 ^ (e - q) * 2 ^ (q - E)) by (rewrite <- Z.pow_add_r by lia; f_equal; lia).
      rewrite Hs, <- Z.mul_assoc. lia.
    - assert (Hs : 2 ^ (q - E) = 2 ^ (q - e) * 2 ^ (e - E)) by (rewrite <- Z.pow_add_r by lia; f_equal; lia).
      set (s := q - e) in *. set (n := rne_shift m s). set (W := 2 ^ (e - E)) in *. assert (HW : 0 < W) by (apply Z.pow_pos_nonneg; lia).
      assert (HY : n * 2 ^ (q - E) - m * W = (n * 2 ^ s - m) * W) by (rewrite Hs; ring).
      rewrite HY, Z.abs_mul, (Z.abs_eq W) by lia.
      destruct (Z_le_gt_dec q r) as [Hqr|Hqr].
      + assert (HK : k * 2 ^ (r - E) = (k * 2 ^ (r - q)) * 2 ^ s * W).
        { replace (r - E) with ((r - q) + (q - E)) by lia. rewrite Z.pow_add_r by lia. rewrite Hs. ring. }
        rewrite HK. set (k' := k * 2 ^ (r - q)). replace (k' * 2 ^ s * W - m * W) with ((k' * 2 ^ s - m) * W) by ring.
        rewrite Z.abs_mul, (Z.abs_eq W) by lia. destruct (rne_nearest m s k' ltac:(lia) ltac:(lia)) as (N1 & N2 & _). fold n in N1, N2.
        split; [apply Z.mul_le_mono_nonneg_r; [clear - HW; lia|exact N1]|].
        intros He Hne. apply N2; [apply (Z.mul_reg_r _ _ W); [clear - HW; lia|exact He]|]. intros ->. apply Hne. rewrite Hs. ring.
      + assert (Hq2 : q = Z.log2 m + e - mb) by lia. destruct (rne_nearest m s (2 ^ mb) ltac:(lia) ltac:(lia)) as (N1 & _). fold n in N1.
        assert (HB : 2 ^ mb * 2 ^ s <= m) by (rewrite <- Z.pow_add_r by lia; replace (mb + s) with (Z.log2 m) by lia; exact L1).
        assert (HKs : Z.abs (k * 2 ^ (r - E)) < 2 ^ mb * 2 ^ s * W).
        { rewrite Z.abs_mul, (Z.abs_eq (2 ^ (r - E))) by (apply Z.pow_nonneg; lia). assert (0 < 2 ^ (r - E)) by (apply Z.pow_pos_nonneg; lia).
          apply Z.lt_le_trans with (2 ^ (mb + 1) * 2 ^ (r - E)); [apply Z.mul_lt_mono_pos_r; assumption|]. unfold W. rewrite <- !Z.pow_add_r by lia. apply Z.pow_le_mono_r; lia. }
        set (K := k * 2 ^ (r - E)) in *. set (B := 2 ^ mb * 2 ^ s) in *. assert (HA : Z.abs (n * 2 ^ s - m) * W <= (m - B) * W).
        { apply Z.mul_le_mono_nonneg_r; [clear - HW; lia|]. clearbody B n. clear - N1 HB. lia. }
        assert (HC : (m - B) * W < Z.abs (K - m * W)) by (rewrite Z.mul_sub_distr_r; clearbody K B W; clear - HKs; lia).
        clearbody K B W n. clear - HA HC. split; [lia|]. lia.
  Qed.

  Definition top : Z := emin + 2 ^ eb - 3.
  Definition body (m e : Z) : Z := (expo m e - emin) * 2 ^ mb + mant m e.
  Lemma eb4 : 4 <= 2 ^ eb.
  Proof using Hmb Heb. change 4 with (2 ^ 2). apply Z.pow_le_mono_r; lia. Qed.
  Lemma expo_min m e : emin <= expo m e.
  Proof using Hmb Heb. unfold expo. lia. Qed.

  (** Which numbers are too large. *)
  Lemma overflows m e E : 0 < m -> E <= e -> E <= emin ->
    (finf_bits mb eb <= body m e <-> (2 ^ (mb + 2) - 1) * 2 ^ (top - 1 - E) <= m * 2 ^ (e - E)).
  Proof using Hmb Heb.
    intros Hm HE1 HE2. destruct (mant_bounds m e Hm) as (B1 & B2 & B3). pose proof eb4 as H4. pose proof (expo_min m e) as Hmin.
    unfold finf_bits, body. assert (Hmp : 0 < 2 ^ mb) by (apply Z.pow_pos_nonneg; lia).
    assert (H2 : 2 ^ (mb + 2) = 4 * 2 ^ mb) by (rewrite Z.pow_add_r by lia; lia). assert (H1 : 2 ^ (mb + 1) = 2 * 2 ^ mb) by (rewrite Z.pow_add_r by lia; lia).
    pose proof (Z.log2_spec m Hm) as [L1 L2]. pose proof (Z.log2_nonneg m) as L0.
    assert (Hq : expo m e = Z.max (Z.log2 m + e - mb) emin) by reflexivity. unfold mant in *. cbn zeta in *. set (q := expo m e) in *.
    assert (HT : 0 < 2 ^ (top - 1 - E)) by (apply Z.pow_pos_nonneg; unfold top; lia). set (T := 2 ^ (top - 1 - E)) in *.
    set (n := if q <=? e then m * 2 ^ (e - q) else rne_shift m (q - e)) in *.
    destruct (Z_lt_le_dec top q) as [Hqt|Hqt]; [|destruct (Z.eq_dec q top) as [Hqe|Hqn]].
    - split; intros _.
      + assert (2 ^ mb * 2 ^ (q - E) <= m * 2 ^ (e - E)).
        { apply Z.le_trans with (2 ^ Z.log2 m * 2 ^ (e - E)); [rewrite <- !Z.pow_add_r by (unfold top in *; lia); apply Z.pow_le_mono_r; unfold top in *; lia|].
          apply Z.mul_le_mono_nonneg_r; [apply Z.pow_nonneg; lia|exact L1]. }
        assert (4 * T <= 2 ^ (q - E)).
        { unfold T. change 4 with (2 ^ 2). rewrite <- Z.pow_add_r by (unfold top in *; lia). apply Z.pow_le_mono_r; unfold top in *; lia. }
        nia.
      + specialize (B2 ltac:(unfold top in *; lia)). assert (2 ^ eb - 2 <= q - emin) by (unfold top in *; lia). nia.
    - assert (HqT : 2 ^ (q - E) = 2 * T) by (unfold T; replace (q - E) with (1 + (top - 1 - E)) by lia; rewrite Z.pow_add_r by (unfold top in *; lia); lia).
      assert (Hqe' : q - emin = 2 ^ eb - 3) by (unfold top in *; lia). rewrite Hqe'.
      destruct (q <=? e) eqn:Eq.
      + specialize (B3 ltac:(lia)).
        assert (Hs : m * 2 ^ (e - E) = n * (2 * T)) by (rewrite <- HqT; unfold n; rewrite <- Z.mul_assoc, <- Z.pow_add_r by lia; f_equal; f_equal; lia).
        rewrite Hs. split; nia.
      + assert (Hs : 2 * T = 2 ^ (q - e) * 2 ^ (e - E)) by (rewrite <- HqT, <- Z.pow_add_r by lia; f_equal; lia).
        set (s := q - e) in *. set (W := 2 ^ (e - E)) in *. assert (HW : 0 < W) by (apply Z.pow_pos_nonneg; lia).
        destruct (rne_nearest m s 0 ltac:(lia) ltac:(lia)) as (_ & _ & R1 & R2 & R3). cbn zeta in R1, R2, R3. fold n in R1, R2, R3.
        assert (HP : 2 ^ s = 2 * 2 ^ (s - 1)) by (replace s with (1 + (s - 1)) at 1 by lia; rewrite Z.pow_add_r by lia; lia).
        pose proof (Z.div_mod m (2 ^ s) ltac:(lia)) as Hd. pose proof (Z.mod_pos_bound m (2 ^ s) ltac:(lia)) as Hr.
        assert (Hub : m < 2 ^ (mb + 1) * 2 ^ s).
        { apply Z.lt_le_trans with (2 ^ Z.succ (Z.log2 m)); [exact L2|]. rewrite <- Z.pow_add_r by lia. apply Z.pow_le_mono_r; lia. }
        set (h := 2 ^ (s - 1)) in *. rewrite HP in *. set (d := m / (2 * h)) in *. set (r := m mod (2 * h)) in *.
        assert (Hs1 : 1 <= s) by (subst s; clear - Eq; lia).
        assert (Hh : 0 < h) by (apply Z.pow_pos_nonneg; clear - Hs1; lia).
        clearbody d r h W T n s. assert (HTh : T = h * W) by (clear - Hs; lia).
        assert (Hdu : d <= 2 * 2 ^ mb - 1) by nia.
        rewrite HTh. replace ((2 ^ (mb + 2) - 1) * (h * W)) with (((4 * 2 ^ mb - 1) * h) * W) by (rewrite H2; ring).
        rewrite <- (Z.mul_le_mono_pos_r _ _ W HW).
        split; intros Hx.
        * assert (Hn : n = 2 * 2 ^ mb) by lia. assert (Hd1 : d = 2 * 2 ^ mb - 1) by lia. specialize (R2 ltac:(lia)). subst d. nia.
        * assert (Hd1 : d = 2 * 2 ^ mb - 1) by nia. assert (Hr1 : h <= r) by (subst d; nia).
          assert (Hev : Z.even d = false) by (rewrite Hd1, Z.even_sub, Z.even_mul; reflexivity).
          specialize (R3 Hev Hr1). lia.
    - split; intros Hx; exfalso.
      + assert (q - emin + 2 <= 2 ^ eb - 2) by (unfold top in *; lia). nia.
      + assert (m * 2 ^ (e - E) < 2 ^ (mb + 1) * T); [|nia].
        apply Z.lt_le_trans with (2 ^ Z.succ (Z.log2 m) * 2 ^ (e - E)).
        { apply Z.mul_lt_mono_pos_r; [apply Z.pow_pos_nonneg; lia|exact L2]. }
        unfold T. rewrite <- !Z.pow_add_r by (unfold top in *; lia). apply Z.pow_le_mono_r; unfold top in *; lia.
  Qed.
End Round.

Lemma signed_parts mb eb (s : bool) y : 0 <= mb -> 0 <= eb -> 0 <= y < 2 ^ (mb + eb) -> let bits := fsign_bit mb eb s + y in
  0 <= bits < 2 ^ (mb + eb + 1) /\ ((bits / 2 ^ (mb + eb)) mod 2 =? 1) = s /\
  (bits / 2 ^ mb) mod 2 ^ eb = y / 2 ^ mb /\ bits mod 2 ^ mb = y mod 2 ^ mb.
Proof.
  intros Hm He Hy. cbn zeta. unfold fsign_bit.
  assert (Hp : 2 ^ (mb + eb + 1) = 2 * 2 ^ (mb + eb)) by (rewrite (Z.pow_add_r 2 (mb + eb)) by lia; lia).
  assert (Hmp : 0 < 2 ^ mb) by (apply Z.pow_pos_nonneg; lia). assert (Hep : 0 < 2 ^ eb) by (apply Z.pow_pos_nonneg; lia).
  assert (Hs : 2 ^ (mb + eb) = 2 ^ eb * 2 ^ mb) by (rewrite Z.pow_add_r by lia; lia).
  assert (Hyd : 0 <= y / 2 ^ mb < 2 ^ eb) by (split; [apply Z.div_pos; lia|apply Z.div_lt_upper_bound; lia]).
  destruct s; [|rewrite Z.add_0_l].
  - split; [lia|]. split.
    { replace (2 ^ (mb + eb) + y) with (y + 1 * 2 ^ (mb + eb)) by lia. rewrite Z.div_add, Z.div_small by lia. reflexivity. }
    replace (2 ^ (mb + eb) + y) with (y + 2 ^ eb * 2 ^ mb) by lia. rewrite Z.div_add, Z.mod_add by lia. split; [|reflexivity].
    replace (y / 2 ^ mb + 2 ^ eb) with (y / 2 ^ mb + 1 * 2 ^ eb) by lia. rewrite Z.mod_add by lia. apply Z.mod_small. exact Hyd.
  - split; [lia|]. split; [rewrite Z.div_small by lia; reflexivity|]. split; [apply Z.mod_small; exact Hyd|reflexivity].
Qed.

Lemma body_number mb eb (s : bool) m e : 1 <= mb -> 2 <= eb -> 0 < m -> body mb eb m e < finf_bits mb eb ->
  let bits := fsign_bit mb eb s + body mb eb m e in
  0 <= bits < 2 ^ (mb + eb + 1) /\
  exists y, float_number mb eb bits = Finite y /\ (y == qs (expo mb eb m e) (signed s (mant mb eb m e)))%Q.
Proof.
  intros Hm He Hp Hb. cbn zeta. destruct (mant_bounds mb eb Hm He m e Hp) as (B1 & B2 & B3). pose proof (expo_min mb eb Hm He m e) as Hmin.
  assert (Hmp : 0 < 2 ^ mb) by (apply Z.pow_pos_nonneg; lia). assert (Hep : 4 <= 2 ^ eb) by (apply (eb4 mb eb); assumption).
  assert (Hs : 2 ^ (mb + eb) = 2 ^ eb * 2 ^ mb) by (rewrite Z.pow_add_r by lia; lia).
  assert (H1 : 2 ^ (mb + 1) = 2 * 2 ^ mb) by (rewrite Z.pow_add_r by lia; lia).
  assert (Hbb : 0 <= body mb eb m e < 2 ^ (mb + eb)) by (unfold finf_bits, body in *; split; [nia|nia]).
  destruct (signed_parts mb eb s (body mb eb m e) ltac:(lia) ltac:(lia) Hbb) as (S1 & S2 & S3 & S4).
  split; [exact S1|]. unfold float_number. rewrite S2, S3, S4. cbn zeta. clear S1 S2 S3 S4.
  assert (Hu : ulp0 mb eb = femin mb eb) by (unfold ulp0, femin, fbias; lia). rewrite Hu. clear Hu.
  unfold finf_bits in Hb. unfold body in *. clear Hbb. set (a := expo mb eb m e - femin mb eb) in *. set (n := mant mb eb m e) in *.
  assert (Hparts : forall ex fr, 0 <= fr < 2 ^ mb -> a * 2 ^ mb + n = ex * 2 ^ mb + fr -> (a * 2 ^ mb + n) / 2 ^ mb = ex /\ (a * 2 ^ mb + n) mod 2 ^ mb = fr).
  { intros ex fr Hf ->. split; [rewrite Z.add_comm, Z.div_add, Z.div_small by lia; lia|rewrite Z.add_comm, Z.mod_add by lia; apply Z.mod_small; lia]. }
  assert (Hea : expo mb eb m e = femin mb eb + a) by lia. rewrite Hea. clear Hs B3. rewrite H1 in *. clear H1. set (P := 2 ^ mb) in *. clearbody P a n.
  destruct (Z_lt_le_dec n P) as [C1|C1]; [|destruct (Z_lt_le_dec n (2 * P)) as [C2|C2]].
  - assert (Ha : a = 0) by lia. destruct (Hparts 0 n ltac:(lia) ltac:(lia)) as [-> ->].
    replace (0 =? 2 ^ eb - 1) with false by lia. rewrite Z.eqb_refl. eexists. split; [reflexivity|]. rewrite signed_qs, Ha, Z.add_0_r. reflexivity.
  - destruct (Hparts (a + 1) (n - P) ltac:(lia) ltac:(lia)) as [-> ->].
    assert (a + 1 < 2 ^ eb - 1) by (apply Z.mul_lt_mono_pos_r with (p := P); lia).
    replace (a + 1 =? 2 ^ eb - 1) with false by lia. replace (a + 1 =? 0) with false by lia. eexists. split; [reflexivity|]. rewrite signed_qs.
    replace (P + (n - P)) with n by lia. replace (femin mb eb + (a + 1) - 1) with (femin mb eb + a) by lia. reflexivity.
  - assert (Hn : n = 2 * P) by lia. destruct (Hparts (a + 2) 0 ltac:(lia) ltac:(lia)) as [-> ->].
    assert (a + 2 < 2 ^ eb - 1) by (apply Z.mul_lt_mono_pos_r with (p := P); lia).
    replace (a + 2 =? 2 ^ eb - 1) with false by lia. replace (a + 2 =? 0) with false by lia. eexists. split; [reflexivity|]. rewrite signed_qs.
    replace (femin mb eb + (a + 2) - 1) with (femin mb eb + a + 1) by lia. unfold qs at 1. rewrite (qs_scale (femin mb eb + a)) by lia.
    replace (femin mb eb + a + 1 - (femin mb eb + a)) with 1 by lia. apply qs_eq. rewrite Hn. unfold signed. destruct s; lia.
Qed.

Lemma even_bits mb eb (s : bool) m e : 1 <= mb -> 2 <= eb -> Z.even (fsign_bit mb eb s + body mb eb m e) = Z.even (mant mb eb m e).
Proof.
  intros Hm He. unfold body, fsign_bit. rewrite !Z.even_add, Z.even_mul, (Z.even_pow 2 mb) by lia. cbn [Z.even].
  replace (Z.even (if s then 2 ^ (mb + eb) else 0)) with true by (destruct s; [rewrite Z.even_pow by lia|]; reflexivity).
  rewrite orb_true_r. destruct (Z.even (mant mb eb m e)); reflexivity.
Qed.

Theorem fround_nearest mb eb (s : bool) m e x : 1 <= mb -> 2 <= eb -> 0 <= m -> (x == qs e (signed s m))%Q ->
  nearest mb eb x (fround mb eb s m e).
Proof.
  intros Hmb Heb Hm Hx. unfold fround. cbn zeta.
  set (E := Z.min e (femin mb eb)). pose proof (eb4 mb eb Hmb Heb) as H4.
  assert (Hmp : 0 < 2 ^ mb) by (apply Z.pow_pos_nonneg; lia).
  assert (Hs : 2 ^ (mb + eb) = 2 ^ eb * 2 ^ mb) by (rewrite Z.pow_add_r by lia; lia).
  assert (Hu : ulp0 mb eb = femin mb eb) by (unfold ulp0, femin, fbias; lia).
  assert (HxE : (x == qs E (signed s m * 2 ^ (e - E)))%Q) by (rewrite Hx; apply qs_scale; unfold E; lia).
  assert (Hxa : (Qabs x == qs E (m * 2 ^ (e - E)))%Q).
  { rewrite HxE, qs_abs. apply qs_eq. rewrite Z.abs_mul, (Z.abs_eq (2 ^ _)) by (apply Z.pow_nonneg; lia). f_equal. unfold signed. destruct s; lia. }
  assert (Hov : (overflow mb eb == qs E ((2 ^ (mb + 2) - 1) * 2 ^ (top mb eb - 1 - E)))%Q).
  { unfold overflow. rewrite Hu. rewrite (qs_scale E) by (unfold E; lia). apply qs_eq. f_equal. f_equal. unfold top. lia. }
  destruct (m =? 0) eqn:Em.
  - assert (m = 0) by lia. subst m.
    pose proof (signed_parts mb eb s 0 ltac:(lia) ltac:(lia) ltac:(lia)) as (S1 & S2 & S3 & S4). cbn zeta in *. rewrite Z.add_0_r in *.
    unfold nearest. split; [exact S1|]. unfold float_number. rewrite S2, S3, S4. cbn zeta. rewrite Z.div_0_l, Z.mod_0_l by lia.
    replace (0 =? 2 ^ eb - 1) with false by lia. cbn [Z.eqb]. split.
    + rewrite Hxa, Hov, qs_lt. assert (T1 : 0 < 2 ^ (top mb eb - 1 - E)) by (apply Z.pow_pos_nonneg; unfold top, E; lia).
      assert (T2 : 2 ^ 3 <= 2 ^ (mb + 2)) by (apply Z.pow_le_mono_r; lia). clear - T1 T2. rewrite Z.mul_0_l. apply Z.mul_pos_pos; lia.
    + assert (Hy : ((if s then - (inject_Z 0 * pow2 (ulp0 mb eb)) else inject_Z 0 * pow2 (ulp0 mb eb)) - x == 0)%Q).
      { rewrite HxE. replace (signed s 0) with 0 by (destruct s; reflexivity). unfold qs. rewrite Z.mul_0_l. change (inject_Z 0) with 0%Q. destruct s; ring. }
      intros b' y' _. rewrite Hy. split; [apply Qabs_nonneg|]. intros _ _. unfold fsign_bit. destruct s; [rewrite Z.even_pow by lia|]; reflexivity.
  - assert (Hp : 0 < m) by lia. set (fsb := fsign_bit mb eb s).
    change (Z.max (Z.log2 m + e - mb) (femin mb eb)) with (expo mb eb m e).
    change (if expo mb eb m e <=? e then m * 2 ^ (e - expo mb eb m e) else rne_shift m (expo mb eb m e - e)) with (mant mb eb m e).
    change ((expo mb eb m e - femin mb eb) * 2 ^ mb + mant mb eb m e) with (body mb eb m e).
    pose proof (overflows mb eb Hmb Heb m e E Hp ltac:(unfold E; lia) ltac:(unfold E; lia)) as Hof.
    destruct (finf_bits mb eb <=? body mb eb m e) eqn:Ef.
    + unfold nearest, fsb. pose proof (signed_parts mb eb s (finf_bits mb eb) ltac:(lia) ltac:(lia) ltac:(unfold finf_bits; nia)) as (S1 & S2 & S3 & S4). cbn zeta in *.
      split; [exact S1|]. unfold float_number. rewrite S2, S3, S4. cbn zeta. unfold finf_bits. rewrite Z.div_mul, Z.mod_mul, Z.eqb_refl by lia. cbn [Z.eqb].
      split; [rewrite Hxa, Hov, qs_le; lia|]. rewrite (qle_bool_sign x e _ Hx). unfold signed. destruct s; lia.
    + destruct (body_number mb eb s m e Hmb Heb Hp ltac:(lia)) as (R1 & y & R2 & R3). fold fsb in R1, R2. unfold nearest. split; [exact R1|]. rewrite R2.
      split; [rewrite Hxa, Hov, qs_lt; lia|]. intros b' y' Hb'.
      destruct (float_shape mb eb b' y' ltac:(lia) ltac:(lia) Hb') as (k & r & K1 & K2 & K3).
      pose proof (expo_min mb eb Hmb Heb m e) as Hmin.
      assert (HyE : (y == qs E (signed s (mant mb eb m e) * 2 ^ (expo mb eb m e - E)))%Q) by (rewrite R3; apply qs_scale; unfold E; lia).
      assert (HkE : (y' == qs E (k * 2 ^ (r - E)))%Q) by (rewrite K3; apply qs_scale; unfold E; lia).
      destruct (near mb eb Hmb Heb m e E (signed s k) r Hp ltac:(unfold E; lia) ltac:(unfold E; lia) K2 ltac:(unfold signed; destruct s; lia)) as [N1 N2]. cbn zeta in N1, N2.
      rewrite HyE, HkE, HxE, !qs_sub, !qs_abs, qs_le, !qs_eq. unfold fsb. rewrite even_bits by assumption.
      clear - N1 N2. unfold signed in *. destruct s; rewrite ?Z.mul_opp_l in *;
        set (Y := mant mb eb m e * 2 ^ (expo mb eb m e - E)) in *; set (X := m * 2 ^ (e - E)) in *; set (K := k * 2 ^ (r - E)) in *; clearbody Y X K;
        (split; [lia|]; intros He Hne; apply N2; lia).
Qed.

(* ---------- the conversions ---------- *)

Lemma i64_to_f64 z : nearest 52 11 (inject_Z z) (f64_of_i64 z).
Proof.
  unfold f64_of_i64. apply fround_nearest; try lia. unfold qs, pow2. cbn [Qpower]. rewrite Qmult_1_r.
  replace (signed (z <? 0) (Z.abs z)) with z by (unfold signed; destruct (z <? 0) eqn:E; lia). reflexivity.
Qed.

Lemma inf_number mb eb (s : bool) : 1 <= mb -> 2 <= eb -> float_number mb eb (fsign_bit mb eb s + finf_bits mb eb) = Infinite s.
Proof.
  intros Hm He. pose proof (eb4 mb eb Hm He) as H4. assert (Hmp : 0 < 2 ^ mb) by (apply Z.pow_pos_nonneg; lia).
  assert (Hs : 2 ^ (mb + eb) = 2 ^ eb * 2 ^ mb) by (rewrite Z.pow_add_r by lia; lia).
  pose proof (signed_parts mb eb s (finf_bits mb eb) ltac:(lia) ltac:(lia) ltac:(unfold finf_bits; nia)) as (_ & S2 & S3 & S4).
  cbn zeta in *. unfold float_number. rewrite S2, S3, S4. cbn zeta. unfold finf_bits. rewrite Z.div_mul, Z.mod_mul, Z.eqb_refl by lia. reflexivity.
Qed.
Lemma nan_number mb eb (s : bool) p : 1 <= mb -> 2 <= eb -> 0 < p < 2 ^ mb -> float_number mb eb (fsign_bit mb eb s + finf_bits mb eb + p) = NaN.
Proof.
  intros Hm He Hp. pose proof (eb4 mb eb Hm He) as H4. assert (Hmp : 0 < 2 ^ mb) by (apply Z.pow_pos_nonneg; lia).
  assert (Hs : 2 ^ (mb + eb) = 2 ^ eb * 2 ^ mb) by (rewrite Z.pow_add_r by lia; lia). rewrite <- Z.add_assoc.
  pose proof (signed_parts mb eb s (finf_bits mb eb + p) ltac:(lia) ltac:(lia) ltac:(unfold finf_bits; nia)) as (_ & S2 & S3 & S4).
  cbn zeta in *. unfold float_number. rewrite S2, S3, S4. cbn zeta. unfold finf_bits.
  rewrite (Z.add_comm (_ * _) p), Z.div_add, Z.mod_add, Z.div_small, Z.mod_small, Z.add_0_l, Z.eqb_refl by lia.
  replace (p =? 0) with false by lia. reflexivity.
Qed.
Lemma fdecode_ranges mb eb bits : 0 <= mb -> 0 <= eb ->
  match fdecode mb eb bits with
  | FNan _ p => 0 < p < 2 ^ mb
  | FInf _ => True
  | FFin _ m e => 0 <= m < 2 ^ (mb + 1) /\ femin mb eb <= e <= femin mb eb + 2 ^ eb
  end.
Proof.
  intros Hm He. assert (Hmp : 0 < 2 ^ mb) by (apply Z.pow_pos_nonneg; lia). assert (Hep : 0 < 2 ^ eb) by (apply Z.pow_pos_nonneg; lia).
  pose proof (Z.mod_pos_bound bits _ Hmp) as Hf. pose proof (Z.mod_pos_bound (bits / 2 ^ mb) _ Hep) as Hx.
  assert (Hp : 2 ^ (mb + 1) = 2 * 2 ^ mb) by (rewrite Z.pow_add_r by lia; lia).
  unfold fdecode. cbn zeta. destruct (_ =? 2 ^ eb - 1); [destruct (bits mod 2 ^ mb =? 0) eqn:E; [exact I|lia]|].
  destruct (_ =? 0) eqn:E; lia.
Qed.
Lemma quiet_range mb p : 1 <= mb -> 0 <= p < 2 ^ mb -> 0 < fquiet mb p < 2 ^ mb.
Proof.
  intros Hm Hp. unfold fquiet. assert (Hh : 2 ^ mb = 2 * 2 ^ (mb - 1)) by (replace mb with (1 + (mb - 1)) at 1 by lia; rewrite Z.pow_add_r by lia; lia).
  assert (0 < 2 ^ (mb - 1)) by (apply Z.pow_pos_nonneg; lia). set (h := 2 ^ (mb - 1)) in *.
  destruct (p / h =? 0) eqn:E; [|split; [|lia]].
  - apply Z.eqb_eq, Z.div_small_iff in E; lia.
  - destruct (Z.eq_dec p 0) as [->|]; [rewrite Z.div_0_l in E by lia; discriminate|lia].
Qed.

Theorem f64_to_f32 b : 0 <= b < two64 -> rounded 23 8 (f64_number b) (f32_of_f64 b).
Proof.
  intros Hb. pose proof (float_class 52 11 b ltac:(lia) ltac:(lia) Hb) as Hc. pose proof (fdecode_ranges 52 11 b ltac:(lia) ltac:(lia)) as Hr.
  unfold f32_of_f64. destruct (fdecode 52 11 b) as [s p|s|s m e]; destruct (f64_number b) as [|s'|q]; cbn [same_number class_number rounded] in *; try contradiction.
  - apply nan_number; try lia. apply quiet_range; [lia|]. split; [apply Z.div_pos; lia|apply Z.div_lt_upper_bound; lia].
  - subst. apply inf_number; lia.
  - apply fround_nearest; try lia. exact Hc.
Qed.

Theorem f32_to_f64 b : 0 <= b < two32 -> same_number (f64_number (f64_of_f32 b)) (f32_number b).
Proof.
  intros Hb. pose proof (float_class 23 8 b ltac:(lia) ltac:(lia) Hb) as Hc. pose proof (fdecode_ranges 23 8 b ltac:(lia) ltac:(lia)) as Hr.
  unfold f64_of_f32. destruct (fdecode 23 8 b) as [s p|s|s m e]; destruct (f32_number b) as [|s'|q]; cbn [same_number class_number] in *; try contradiction.
  - rewrite nan_number; [exact I|lia|lia|]. apply quiet_range; [lia|]. split; [lia|]. change (2 ^ 52) with (2 ^ 23 * 2 ^ 29). nia.
  - subst. rewrite inf_number by lia. reflexivity.
  - destruct (Z.eq_dec m 0) as [->|Hm0].
    { assert (Hq : (0 == q)%Q) by (rewrite Hc; unfold qs; replace (signed s 0) with 0 by (destruct s; reflexivity); change (inject_Z 0) with 0%Q; ring).
      assert (Hy : exists y, f64_number (fsign_bit 52 11 s) = Finite y /\ (y == 0)%Q) by (destruct s; eexists; (split; [vm_compute; reflexivity|reflexivity])).
      destruct Hy as (y & Hy1 & Hy2). unfold fround. cbn [Z.eqb]. rewrite Hy1. cbn [same_number]. rewrite Hy2. exact Hq. }
    unfold fround. replace (m =? 0) with false by lia. cbn zeta.
    change (Z.max (Z.log2 m + e - 52) (femin 52 11)) with (expo 52 11 m e).
    change (if expo 52 11 m e <=? e then m * 2 ^ (e - expo 52 11 m e) else rne_shift m (expo 52 11 m e - e)) with (mant 52 11 m e).
    change ((expo 52 11 m e - femin 52 11) * 2 ^ 52 + mant 52 11 m e) with (body 52 11 m e).
    destruct Hr as [Hm He]. change (femin 23 8) with (-149) in He. change (2 ^ 8) with 256 in He.
    assert (Hl : Z.log2 m < 24) by (apply Z.log2_lt_pow2; lia). pose proof (Z.log2_nonneg m).
    assert (Hx : expo 52 11 m e = Z.log2 m + e - 52) by (unfold expo; change (femin 52 11) with (-1074); lia).
    assert (Hmant : mant 52 11 m e = m * 2 ^ (e - expo 52 11 m e)) by (unfold mant; cbn zeta; replace (expo 52 11 m e <=? e) with true by lia; reflexivity).
    destruct (mant_bounds 52 11 ltac:(lia) ltac:(lia) m e ltac:(lia)) as (_ & _ & B3). specialize (B3 ltac:(lia)).
    assert (Hf : body 52 11 m e < finf_bits 52 11).
    { unfold body, finf_bits. rewrite Hx in *. change (femin 52 11) with (-1074). change (2 ^ (52 + 1)) with (2 * 2 ^ 52) in B3.
      assert (Z.log2 m + e - 52 - -1074 <= 1200) by lia. assert (0 < 2 ^ 52) by reflexivity. set (P := 2 ^ 52) in *. change (2 ^ 11 - 1) with 2047. nia. }
    replace (finf_bits 52 11 <=? body 52 11 m e) with false by lia.
    destruct (body_number 52 11 s m e ltac:(lia) ltac:(lia) ltac:(lia) Hf) as (_ & y & -> & Hy). cbn [same_number]. rewrite Hy, Hc, Hmant.
    unfold qs at 2. rewrite (qs_scale (expo 52 11 m e)) by lia. apply qs_eq. unfold signed. destruct s; ring.
Qed.

(* ---------- the accessors ---------- *)

Lemma has_holds e v off bs : has_bytes e v off bs -> holds (e_data e) (v_pos v + off) bs.
Proof. intros (_ & _ & x & y & H1 & H2). exists x, y. auto. Qed.
Lemma has_tag e v tag : has_bytes e v 0 [tag] -> value_type e v = Ret (type_of_byte tag) /\ 1 <= v_len v /\ vbyte e v 0 = Ret tag /\ is_byte tag.
Proof.
  intros H. pose proof H as (Hl & Hb & _). apply has_holds in H. unfold lenZ in Hl. cbn [length] in Hl. rewrite Z.add_0_r in H.
  assert (Hv : vbyte e v 0 = Ret tag) by (destruct v as [p len]; cbn [v_pos v_len] in *; eapply holds_vbyte0; [exact H|lia]).
  split; [unfold value_type; rewrite Hv; reflexivity|]. split; [lia|]. split; [exact Hv|]. inversion Hb; assumption.
Qed.

Lemma cast_same lo hi x y z : same_number x y -> cast_to lo hi x z -> cast_to lo hi y z.
Proof.
  destruct x as [|s|q], y as [|s'|q']; cbn [same_number cast_to]; try contradiction; intros H; [auto|subst; auto|].
  intros (t & Ht & Hz). exists t. split; [|exact Hz]. unfold truncated in *.
  assert (Hs : Qle_bool 0 q' = Qle_bool 0 q) by (apply Bool.eq_iff_eq_true; rewrite !Qle_bool_iff, H; reflexivity).
  rewrite Hs. destruct (Qle_bool 0 q); destruct Ht as [Ht1 Ht2]; split; solve [rewrite <- H; assumption].
Qed.

Lemma float_reads e v t d x : value_type e v = Ret t -> is_float_type t = true -> float_payload e v t = Ret d -> 0 <= d < two64 ->
  same_number (f64_number d) x -> to_double e v = Ret d /\ to_float e v = Ret (f32_of_f64 d) /\ float_accessors e v x.
Proof.
  intros Ht Hf Hp Hd Hx.
  assert (Hdbl : to_double e v = Ret d) by (unfold to_double; rewrite Ht; cbn [bind]; destruct t; try discriminate; exact Hp).
  assert (Hint : to_int e v = Ret (i64_of_f64 d)) by (unfold to_int; rewrite Ht; cbn [bind]; destruct t; try discriminate; rewrite Hp; reflexivity).
  split; [exact Hdbl|]. split; [unfold to_float; rewrite Hdbl; reflexivity|]. split; [|split].
  - exists (i64_of_f64 d). split; [exact Hint|]. split; [apply (cast_same _ _ _ _ _ Hx); apply cast_spec; [lia|exact Hd]|].
    split; [unfold to_unsigned_int; rewrite Hint; reflexivity|]. unfold to_bool. rewrite Ht, Hint. destruct t; try discriminate; reflexivity.
  - exists (i16_of_f64 d). split; [unfold to_short; rewrite Ht, Hdbl; destruct t; try discriminate; reflexivity|].
    apply (cast_same _ _ _ _ _ Hx). apply cast_spec; [lia|exact Hd].
  - exists (u16_of_f64 d). split; [unfold to_unsigned_short; rewrite Ht, Hdbl; destruct t; try discriminate; reflexivity|].
    apply (cast_same _ _ _ _ _ Hx). apply cast_spec; [lia|exact Hd].
Qed.

Lemma float_tag tag : 0x20 <= tag < 0x30 ->
  type_of_byte tag = TyDouble64 /\ 0x28 <= tag \/ (type_of_byte tag = TyFloat \/ type_of_byte tag = TyDouble32) /\ tag < 0x28.
Proof.
  intros H.
  assert (E : (let k := tag - 32 in vtype_eqb (type_of_byte (k + 32)) (if k <? 8 then if k <? 4 then TyFloat else TyDouble32 else TyDouble64)) = true).
  { apply (range_sweep (fun k => vtype_eqb (type_of_byte (k + 32)) (if k <? 8 then if k <? 4 then TyFloat else TyDouble32 else TyDouble64)) 16); [reflexivity|lia]. }
  cbn zeta in E. replace (tag - 32 + 32) with tag in E by lia. apply vtype_eqb_eq in E. rewrite E. destruct (tag - 32 <? 8) eqn:E1; [|left; split; [reflexivity|lia]].
  right. split; [|lia]. destruct (tag - 32 <? 4); auto.
Qed.

Lemma float_bytes e v n bs : has_bytes e v 2 bs -> lenZ bs = n -> 0 < n -> (s <- vslice v 2 (2 + n) ;; slice_content e s) = Ret bs.
Proof.
  intros Hh Hl Hn. pose proof Hh as (Hv & _ & _). unfold vslice. replace ((2 <=? 2 + n) && (2 + n <=? v_len v)) with true by lia. cbn [bind].
  unfold slice_content. cbn [v_pos v_len]. apply holds_raw_bytes; [apply has_holds; exact Hh|lia].
Qed.

Theorem float32_reads e v b : float32_value e v b ->
  (exists d, to_double e v = Ret d /\ same_number (f64_number d) (f32_number b)) /\ to_float e v = Ret (quiet32 b) /\ float_accessors e v (f32_number b).
Proof.
  intros (tag & bs & Ht & Hr & Hh & Hl & ->). pose proof (has_tag _ _ _ Ht) as (Hty & _).
  destruct (float_tag tag ltac:(lia)) as [[_ Hx]|[Hx _]]; [lia|].
  assert (Hb : 0 <= le_val bs < two32). { pose proof Hh as (_ & Hb & _). apply le_val_bound in Hb. rewrite Hl in Hb. exact Hb. }
  assert (Hp : float_payload e v (type_of_byte tag) = Ret (f64_of_f32 (le_val bs))).
  { pose proof (float_bytes e v 4 bs Hh Hl ltac:(lia)) as Hfb. destruct (vslice v 2 (2 + 4)) eqn:E; cbn [bind] in Hfb; try discriminate.
    destruct Hx as [-> | ->]; cbn [float_payload]; change 6 with (2 + 4); rewrite E; cbn [bind]; rewrite Hfb; reflexivity. }
  assert (Hft : is_float_type (type_of_byte tag) = true) by (destruct Hx as [-> | ->]; reflexivity).
  destruct (float_reads e v _ _ (f32_number (le_val bs)) Hty Hft Hp (f64_of_f32_range _) (f32_to_f64 _ Hb)) as (R1 & R2 & R3).
  split; [exists (f64_of_f32 (le_val bs)); split; [exact R1|apply f32_to_f64; exact Hb]|]. split; [|exact R3].
  rewrite R2, f32_via_f64; auto.
Qed.

Theorem float64_reads e v b : float64_value e v b ->
  to_double e v = Ret b /\ (exists f, to_float e v = Ret f /\ rounded 23 8 (f64_number b) f) /\ float_accessors e v (f64_number b).
Proof.
  intros (tag & bs & Ht & Hr & Hh & Hl & ->). pose proof (has_tag _ _ _ Ht) as (Hty & _).
  destruct (float_tag tag ltac:(lia)) as [[Hx _]|[_ Hx]]; [|lia].
  assert (Hb : 0 <= le_val bs < two64). { pose proof Hh as (_ & Hb & _). apply le_val_bound in Hb. rewrite Hl in Hb. exact Hb. }
  assert (Hp : float_payload e v (type_of_byte tag) = Ret (le_val bs)).
  { pose proof (float_bytes e v 8 bs Hh Hl ltac:(lia)) as Hfb. destruct (vslice v 2 (2 + 8)) eqn:E; cbn [bind] in Hfb; try discriminate.
    rewrite Hx; cbn [float_payload]; change 10 with (2 + 8); rewrite E; cbn [bind]; rewrite Hfb; reflexivity. }
  assert (Hft : is_float_type (type_of_byte tag) = true) by (rewrite Hx; reflexivity).
  assert (Hsn : same_number (f64_number (le_val bs)) (f64_number (le_val bs))) by (destruct (f64_number (le_val bs)); cbn [same_number]; auto; reflexivity).
  destruct (float_reads e v _ _ (f64_number (le_val bs)) Hty Hft Hp Hb Hsn) as (R1 & R2 & R3).
  split; [exact R1|]. split; [|exact R3]. exists (f32_of_f64 (le_val bs)). split; [exact R2|]. apply f64_to_f32. exact Hb.
Qed.

(** Integers of less than 54 bits are floats. *)
Lemma i64_exact z : Z.abs z < 2 ^ 53 -> same_number (f64_number (f64_of_i64 z)) (Finite (inject_Z z)).
Proof.
  intros Hz. destruct (Z.eq_dec z 0) as [->|H0]; [vm_compute; reflexivity|].
  unfold f64_of_i64, fround. replace (Z.abs z =? 0) with false by lia. cbn zeta. set (m := Z.abs z) in *. set (s := z <? 0).
  change (Z.max (Z.log2 m + 0 - 52) (femin 52 11)) with (expo 52 11 m 0).
  change (if expo 52 11 m 0 <=? 0 then m * 2 ^ (0 - expo 52 11 m 0) else rne_shift m (expo 52 11 m 0 - 0)) with (mant 52 11 m 0).
  change ((expo 52 11 m 0 - femin 52 11) * 2 ^ 52 + mant 52 11 m 0) with (body 52 11 m 0).
  assert (Hm : 0 < m) by lia. assert (Hl : Z.log2 m < 53) by (apply Z.log2_lt_pow2; lia). pose proof (Z.log2_nonneg m).
  assert (Hx : expo 52 11 m 0 = Z.log2 m - 52) by (unfold expo; change (femin 52 11) with (-1074); lia).
  assert (Hmant : mant 52 11 m 0 = m * 2 ^ (0 - expo 52 11 m 0)) by (unfold mant; cbn zeta; replace (expo 52 11 m 0 <=? 0) with true by lia; reflexivity).
  destruct (mant_bounds 52 11 ltac:(lia) ltac:(lia) m 0 ltac:(lia)) as (_ & _ & B3). specialize (B3 ltac:(lia)).
  assert (Hf : body 52 11 m 0 < finf_bits 52 11).
  { unfold body, finf_bits. rewrite Hx in *. change (femin 52 11) with (-1074). change (2 ^ (52 + 1)) with (2 * 2 ^ 52) in B3.
    assert (0 < 2 ^ 52) by reflexivity. set (P := 2 ^ 52) in *. change (2 ^ 11 - 1) with 2047. nia. }
  replace (finf_bits 52 11 <=? body 52 11 m 0) with false by lia.
  destruct (body_number 52 11 s m 0 ltac:(lia) ltac:(lia) Hm Hf) as (_ & y & -> & Hy). cbn [same_number]. rewrite Hy, Hmant.
  rewrite (int_scale (expo 52 11 m 0)) by lia. apply qs_eq. rewrite Z.sub_0_l. unfold signed, s, m. destruct (z <? 0) eqn:E; nia.
Qed.

Lemma f64_of_i64_range z : 0 <= f64_of_i64 z < two64.
Proof. pose proof (i64_to_f64 z) as [H _]. exact H. Qed.

Theorem int_accessors e v t z : value_type e v = Ret t -> t = TyShort \/ t = TyInt \/ t = TyUnsignedInt -> to_int e v = Ret z ->
  to_unsigned_int e v = Ret (z mod 2 ^ 64) /\
  (exists d f, to_double e v = Ret d /\ nearest 52 11 (inject_Z z) d /\
     (Z.abs z < 2 ^ 53 -> same_number (f64_number d) (Finite (inject_Z z))) /\
     to_float e v = Ret f /\ rounded 23 8 (f64_number d) f) /\
  (t <> TyShort -> (exists s, to_short e v = Ret s /\ low16 z s) /\ to_unsigned_short e v = Ret (z mod 65536)).
Proof.
  intros Ht Hn Hz. split; [unfold to_unsigned_int; rewrite Hz; reflexivity|]. split.
  - exists (f64_of_i64 z), (f32_of_f64 (f64_of_i64 z)).
    assert (Hd : to_double e v = Ret (f64_of_i64 z)) by (unfold to_double; rewrite Ht, Hz; destruct Hn as [-> | [-> | ->]]; reflexivity).
    split; [exact Hd|]. split; [apply i64_to_f64|]. split; [apply i64_exact|]. split; [unfold to_float; rewrite Hd; reflexivity|].
    apply f64_to_f32. apply f64_of_i64_range.
  - intros Hns. split.
    + exists (wrap_i16 z). split; [unfold to_short; rewrite Ht, Hz; destruct Hn as [-> | [-> | ->]]; [congruence|reflexivity|reflexivity]|].
      unfold low16, wrap_i16, two16. change (2 ^ 16) with 65536. clear. lia.
    + unfold to_unsigned_short, to_unsigned_int. rewrite Ht, Hz. destruct Hn as [-> | [-> | ->]]; [congruence| |]; cbn [bind]; f_equal; unfold wrap_u16, wrap_u64, two64, two16; clear; lia.
Qed.

Theorem unsigned_reads e v n : unsigned_value e v n ->
  value_type e v = Ret TyUnsignedInt /\ to_unsigned_int e v = Ret n /\
  to_int e v = Ret (if n <? 2 ^ 63 then n else n - 2 ^ 64).
Proof.
  intros (bs & Hk & Ht & Hh & ->). pose proof (has_tag _ _ _ Ht) as (Hty & Hl & Hb0 & _).
  assert (Htag : type_of_byte (23 + lenZ bs) = TyUnsignedInt /\ Z.land (23 + lenZ bs) 7 + 1 = lenZ bs).
  { assert (E : (vtype_eqb (type_of_byte (24 + (lenZ bs - 1))) TyUnsignedInt && (Z.land (24 + (lenZ bs - 1)) 7 =? lenZ bs - 1)) = true).
    { apply (range_sweep (fun j => vtype_eqb (type_of_byte (24 + j)) TyUnsignedInt && (Z.land (24 + j) 7 =? j)) 8); [reflexivity|lia]. }
    replace (24 + (lenZ bs - 1)) with (23 + lenZ bs) in E by lia. apply andb_true_iff in E as [E1 E2]. split; [apply vtype_eqb_eq; exact E1|lia]. }
  destruct Htag as [Htag Hc]. rewrite Htag in Hty. split; [exact Hty|].
  assert (Hlv : 0 <= le_val bs < two64).
  { pose proof Hh as (_ & Hb & _). apply le_val_bound in Hb. assert (256 ^ lenZ bs <= 256 ^ 8) by (apply Z.pow_le_mono_r; lia). change (256 ^ 8) with two64 in *. lia. }
  assert (Hi : to_int e v = Ret (wrap_i64 (le_val bs))).
  { unfold to_int. rewrite Hty; cbn [bind]. unfold int_payload. rewrite Hb0; cbn [bind]. replace (v_len v <? 1) with false by lia. rewrite Hc.
    rewrite (holds_raw_bytes e (v_pos v + 1) bs) by (auto; apply has_holds; exact Hh). reflexivity. }
  split; [unfold to_unsigned_int; rewrite Hi; cbn [bind]; f_equal|rewrite Hi; f_equal]; unfold wrap_u64, wrap_i64, two63, two64 in *.
  - lia.
  - destruct (le_val bs <? 2 ^ 63) eqn:E; lia.
Qed.

(* ---------- refutations ---------- *)

(** 2^60 + 2^36 + 1 is nearer to 2^60 + 2^37, which an f32 can hold, than to 2^60. *)
Lemma twice_rounded : ~ nearest 23 8 (inject_Z (2 ^ 60 + 2 ^ 36 + 1)) (f32_of_f64 (f64_of_i64 (2 ^ 60 + 2 ^ 36 + 1))).
Proof.
  intros [_ H]. destruct (float_number 23 8 (f32_of_f64 (f64_of_i64 (2 ^ 60 + 2 ^ 36 + 1)))) as [| |y] eqn:E; [exact H|vm_compute in E; discriminate|].
  destruct H as [_ H]. specialize (H 1568669697). destruct (float_number 23 8 1568669697) as [| |y'] eqn:E'; [vm_compute in E'; discriminate..|].
  destruct (H y' eq_refl) as [H1 _]. vm_compute in E. vm_compute in E'. injection E as <-. injection E' as <-. vm_compute in H1. apply H1. reflexivity.
Qed.

Lemma true_reads e v : has_bytes e v 0 [0x38] ->
  to_int e v = Ret 1 /\ to_unsigned_int e v = Ret 1 /\ to_short e v = Ret 1 /\ to_unsigned_short e v = Ret 1 /\ to_bool e v = Ret true /\
  (exists d, to_double e v = Ret d /\ same_number (f64_number d) (Finite 1)) /\
  (exists f, to_float e v = Ret f /\ same_number (f32_number f) (Finite 1)).
Proof.
  intros H. apply has_tag in H as (Ht & _). change (type_of_byte 56) with TyTrue in Ht.
  unfold to_float, to_double, to_unsigned_int, to_int, to_short, to_unsigned_short, to_bool. rewrite Ht. cbn [bind].
  do 5 (split; [reflexivity|]). split; eexists; (split; [reflexivity|vm_compute; reflexivity]).
Qed.
