(** Proofs for OccupySpec.v. *)
From Coq Require Import ZifyBool ZifyNat ZifyN.
From Verif Require Import Prelude Lib Varint VarintProofs Utf8 Float SharedKeys Decode ReadSpec Safety Navigate
  BuildSpec Builds PanicSpec Panics GrammarSpec Grammar OccupySpec Holds Repr Encodable BuilderSpec EncodableProofs.
Ltac Zify.zify_post_hook ::= Z.div_mod_to_equations.
Local Open Scope Z_scope.

(* ---------- reading a prefix, in any build ---------- *)

Lemma prefix_read e v off n x : wf_env e -> inslice e v -> 0 <= off <= v_len v ->
  prefix (e_data e) (v_pos v + off) (v_pos v + v_len v) n x -> varint_at e v off = Ret (n, x).
Proof.
  intros Hwf Hin Ho Hp.
  assert (Hd : varint_at (with_debug e) v off = Ret (n, x)).
  { pose proof (varint_prefix (with_debug e) Hwf (or_introl eq_refl) v off Hin Ho) as H.
    destruct (varint_at (with_debug e) v off) as [[r y]| | |]; try contradiction.
    - destruct H as [(_ & _ & Hc)|(_ & Hq)].
      + exfalso. exact (prefix_not_cut (with_debug e) _ _ _ _ Hp Hc).
      + destruct (prefix_fun (with_debug e) _ _ _ _ _ _ Hp Hq) as (<- & <-). reflexivity.
    - exfalso. exact (proj2 H _ _ Hp). }
  destruct e as [dbg base data sk]. destruct dbg; [exact Hd|]. exact (ag_varint_at _ v off _ Hd).
Qed.

(* ---------- bytes and prefixes elsewhere ---------- *)

Lemma same_byte bs p bs' p' n b : same_bytes bs p bs' p' n -> 1 <= n -> byte_at bs p b -> byte_at bs' p' b.
Proof. intros H Hn Hb. unfold byte_at in *. specialize (H 0 ltac:(lia)). rewrite !Z.add_0_r in H. congruence. Qed.
Lemma same_later bs p bs' p' n k : same_bytes bs p bs' p' n -> 0 <= k -> same_bytes bs (p + k) bs' (p' + k) (n - k).
Proof. intros H Hk i Hi. rewrite <- !Z.add_assoc. apply H. lia. Qed.
Lemma same_less bs p bs' p' n m : same_bytes bs p bs' p' n -> m <= n -> same_bytes bs p bs' p' m.
Proof. intros H Hm i Hi. apply H. lia. Qed.
Lemma same_digits bs bs' p q ds : digits bs p q ds -> forall p' q', same_bytes bs p bs' p' (lenZ ds) -> p' + lenZ ds <= q' -> digits bs' p' q' ds.
Proof.
  intros H. induction H as [p q b Hq Hb H8|p q b ds Hq Hb H8 Hd IH]; intros p' q' Hs Hl.
  - change (lenZ [b]) with 1 in *. apply dg_last; [lia| |exact H8]. exact (same_byte _ _ _ _ _ _ Hs ltac:(lia) Hb).
  - rewrite lenZ_cons in *. pose proof (lenZ_nonneg ds). apply dg_more; [lia| |exact H8|].
    + exact (same_byte _ _ _ _ _ _ Hs ltac:(lia) Hb).
    + apply IH; [|lia]. eapply same_less; [apply (same_later _ _ _ _ _ 1 Hs); lia|lia].
Qed.
Lemma same_prefix bs bs' p q n x p' q' : prefix bs p q n x -> same_bytes bs p bs' p' n -> p' + n <= q' -> prefix bs' p' q' n x.
Proof. intros (ds & D1 & -> & D3 & D4) Hs Hq. exists ds. split; [|auto]. exact (same_digits _ _ _ _ _ D1 _ _ Hs Hq). Qed.

Lemma subl_same (bs bs' : list Z) n : forall p p', 0 <= p -> 0 <= p' -> p + Z.of_nat n <= lenZ bs -> p' + Z.of_nat n <= lenZ bs' ->
  same_bytes bs p bs' p' (Z.of_nat n) -> subl bs p (Z.of_nat n) = subl bs' p' (Z.of_nat n).
Proof.
  induction n as [|n IH]; intros p p' H1 H2 H3 H4 Hs; [rewrite !subl_0 by lia; reflexivity|].
  destruct (nthZ_in bs p ltac:(lia)) as [b Hb]. pose proof (same_byte _ _ _ _ _ _ Hs ltac:(lia) Hb) as Hb'.
  rewrite (subl_cons bs p _ b Hb), (subl_cons bs' p' _ b Hb') by lia. f_equal.
  replace (Z.of_nat (S n) - 1) with (Z.of_nat n) by lia. apply IH; try lia.
  eapply same_less; [apply (same_later _ _ _ _ _ 1 Hs); lia|lia].
Qed.

Section Alike.
Variables (e : env) (v : val) (e' : env) (v' : val) (n : Z).
Hypothesis Hwf : wf_env e.
Hypothesis Hwf' : wf_env e'.
Hypothesis Hin : inslice e v.
Hypothesis Hin' : inslice e' v'.
Hypothesis Hn : n <= v_len v.
Hypothesis Hn' : n <= v_len v'.
Hypothesis Hs : same_bytes (e_data e) (v_pos v) (e_data e') (v_pos v') n.

Lemma alike_bytes a k : 0 <= a -> 0 <= k -> a + k <= n -> exists l,
  raw_bytes e (v_pos v + a) k = Ret l /\ raw_bytes e' (v_pos v' + a) k = Ret l.
Proof using Hin Hin' Hn Hn' Hs.
  intros Ha Hk Hak. destruct Hin as (I1 & I2 & I3). destruct Hin' as (J1 & J2 & J3). unfold raw_bytes.
  destruct (k <=? 0) eqn:E; [eauto|].
  replace ((0 <=? v_pos v + a) && (v_pos v + a + k <=? lenZ (e_data e))) with true by lia.
  replace ((0 <=? v_pos v' + a) && (v_pos v' + a + k <=? lenZ (e_data e'))) with true by lia.
  eexists. split; [reflexivity|]. f_equal. symmetry. replace k with (Z.of_nat (Z.to_nat k)) by lia. apply subl_same; try lia.
  eapply same_less; [apply (same_later _ _ _ _ _ a Hs); lia|lia].
Qed.
Lemma alike_raw a : 0 <= a < n -> exists b, raw e (v_pos v + a) = Ret b /\ raw e' (v_pos v' + a) = Ret b /\ byte_at (e_data e) (v_pos v + a) b.
Proof using Hin Hin' Hn Hn' Hs.
  intros Ha. destruct Hin as (I1 & I2 & I3). destruct (nthZ_in (e_data e) (v_pos v + a) ltac:(lia)) as [b Hb]. exists b.
  unfold raw. rewrite Hb. pose proof (Hs a Ha) as E. rewrite Hb in E. rewrite <- E. auto.
Qed.
Lemma alike_byte : 1 <= n -> exists b, vbyte e v 0 = Ret b /\ vbyte e' v' 0 = Ret b /\ byte_at (e_data e) (v_pos v) b.
Proof using Hin Hin' Hn Hn' Hs.
  intros H1. destruct (alike_raw 0 ltac:(lia)) as (b & Hb & Hb' & Ha). rewrite Z.add_0_r in Ha. exists b. unfold vbyte.
  replace ((0 <=? 0) && (0 <? v_len v)) with true by lia. replace ((0 <=? 0) && (0 <? v_len v')) with true by lia. auto.
Qed.
Lemma alike_short : 2 <= n -> exists x, get_short e v = Ret x /\ get_short e' v' = Ret x.
Proof using Hin Hin' Hn Hn' Hs.
  intros H2. destruct (alike_raw 0 ltac:(lia)) as (b & Hb & Hb' & _). destruct (alike_raw 1 ltac:(lia)) as (c & Hc & Hc' & _).
  rewrite Z.add_0_r in Hb, Hb'. unfold get_short. destruct (v_len v <? 2) eqn:E; [lia|]. destruct (v_len v' <? 2) eqn:E'; [lia|].
  rewrite Hb, Hb', Hc, Hc'. cbn [bind]. eauto.
Qed.
Lemma alike_int b : 1 <= n -> byte_at (e_data e) (v_pos v) b -> 2 + Z.land b 7 <= n -> exists x, int_payload e v = Ret x /\ int_payload e' v' = Ret x.
Proof using Hin Hin' Hn Hn' Hs.
  intros H1 Hb Hz. destruct (alike_byte H1) as (b2 & B1 & B2 & B3). pose proof (at_fun e _ _ _ Hb B3) as <-. unfold int_payload.
  rewrite B1, B2. cbn [bind]. destruct (v_len v <? 1) eqn:E; [lia|]. destruct (v_len v' <? 1) eqn:E'; [lia|].
  pose proof (land_7 b). destruct (alike_bytes 1 (Z.land b 7 + 1) ltac:(lia) ltac:(lia) ltac:(lia)) as (l & L1 & L2). rewrite L1, L2. cbn [bind]. eauto.
Qed.
Lemma alike_slice a b : 0 <= a -> a <= b -> b <= n -> exists s s' l, vslice v a b = Ret s /\ vslice v' a b = Ret s' /\ v_len s = v_len s' /\ v_len s = b - a /\
  slice_content e s = Ret l /\ slice_content e' s' = Ret l.
Proof using Hin Hin' Hn Hn' Hs.
  intros Ha Hab Hb. destruct (alike_bytes a (b - a) Ha ltac:(lia) ltac:(lia)) as (l & L1 & L2). unfold vslice.
  replace ((a <=? b) && (b <=? v_len v)) with true by lia. replace ((a <=? b) && (b <=? v_len v')) with true by lia.
  exists (V (v_pos v + a) (b - a)), (V (v_pos v' + a) (b - a)), l. unfold slice_content. cbn [v_pos v_len]. auto 8.
Qed.
Lemma alike_float ty : (match ty with TyDouble64 => 10 | _ => 6 end) <= n -> exists x, float_payload e v ty = Ret x /\ float_payload e' v' ty = Ret x.
Proof using Hin Hin' Hn Hn' Hs.
  intros Hz. unfold float_payload.
  destruct ty;
    first [solve [destruct (alike_slice 2 6 ltac:(lia) ltac:(lia) ltac:(lia)) as (s & s' & l & S1 & S2 & S3 & _ & S4 & S5);
                  rewrite S1, S2; cbn [bind]; rewrite S4, S5; cbn [bind]; eauto]
          |destruct (alike_slice 2 10 ltac:(lia) ltac:(lia) ltac:(lia)) as (s & s' & l & S1 & S2 & S3 & _ & S4 & S5);
                  rewrite S1, S2; cbn [bind]; rewrite S4, S5; cbn [bind]; eauto].
Qed.
Lemma alike_data b : 2 <= n -> byte_at (e_data e) (v_pos v) b -> occupies (e_data e) (v_pos v) (v_len v) n -> 64 <= b < 96 ->
  exists s s' l, get_data e v = Ret s /\ get_data e' v' = Ret s' /\ v_len s = v_len s' /\ slice_content e s = Ret l /\ slice_content e' s' = Ret l.
Proof using Hin Hin' Hn Hn' Hs Hwf Hwf'.
  intros H2 Hb (_ & b2 & B & Ho) Hr. pose proof (at_fun e _ _ _ Hb B) as <-. clear B.
  destruct (alike_byte ltac:(lia)) as (b2 & B1 & B2 & B3). pose proof (at_fun e _ _ _ Hb B3) as <-. clear B3.
  pose proof (flags b (proj1 (at_byte e Hwf _ _ Hb))) as F. unfold flags_ok in F. assert (Hland : Z.land b 15 = b mod 16) by lia. clear F.
  unfold get_data. destruct (v_len v <? 2) eqn:E; [lia|]. destruct (v_len v' <? 2) eqn:E'; [lia|]. rewrite B1, B2. cbn [bind]. cbv zeta. rewrite Hland.
  destruct Ho as [Ho|[(_ & Hm & Hz)|(_ & Hm & m & x & Hp & Hz)]]; [lia| |].
  - destruct (b mod 16 =? 15) eqn:E15; [lia|]. destruct (alike_slice 1 (1 + b mod 16) ltac:(lia) ltac:(lia) ltac:(lia)) as (s & s' & l & S1 & S2 & S3 & _ & S4 & S5).
    exists s, s', l. auto 8.
  - replace (b mod 16 =? 15) with true by lia. pose proof (prefix_range e Hwf _ _ _ _ Hp) as (P1 & P2 & P3).
    rewrite (prefix_read e v 1 m x Hwf Hin ltac:(lia) Hp). cbn [bind].
    assert (Hp' : prefix (e_data e') (v_pos v' + 1) (v_pos v' + v_len v') m x).
    { apply (same_prefix _ _ _ _ _ _ _ _ Hp); [|lia]. eapply same_less; [apply (same_later _ _ _ _ _ 1 Hs); lia|lia]. }
    rewrite (prefix_read e' v' 1 m x Hwf' Hin' ltac:(lia) Hp'). cbn [bind]. destruct (m =? 0) eqn:Em; [lia|].
    assert (Hbig : 1 + m + x < two64).
    { destruct Hin as (I1 & I2 & I3). destruct Hwf as (W0 & W1 & W2). unfold two63, two64 in *. lia. }
    assert (Ha : forall d, usize_add d (1 + m) x = Ret (1 + m + x)) by (intros d; unfold usize_add; destruct (_ <? two64) eqn:Ea; [reflexivity|lia]).
    rewrite !Ha. cbn [bind]. destruct (alike_slice (1 + m) (1 + m + x) ltac:(lia) ltac:(lia) ltac:(lia)) as (s & s' & l & S1 & S2 & S3 & _ & S4 & S5).
    exists s, s', l. auto 8.
Qed.

Lemma alike : occupies (e_data e) (v_pos v) (v_len v) n -> answers_alike e v e' v'.
Proof using Hin Hin' Hn Hn' Hs Hwf Hwf'.
  intros Ho. assert (Hcopy := Ho). destruct Ho as (_ & b & Hb & Ho).
  pose proof (proj1 (at_byte e Hwf _ _ Hb)) as Hby. unfold is_byte in Hby. pose proof (kinds b Hby) as K.
  assert (H2 : 2 <= n).
  { destruct Ho as [(H & ->)|[(_ & _ & ->)|(_ & _ & m & x & Hp & ->)]]; [|lia|].
    - unfold scalar_size. repeat match goal with |- context [if ?c then _ else _] => destruct c end; lia.
    - pose proof (prefix_range e Hwf _ _ _ _ Hp). lia. }
  destruct (alike_byte ltac:(lia)) as (b2 & B1 & B2 & B3). pose proof (at_fun e _ _ _ Hb B3) as <-. clear B3.
  assert (T1 : value_type e v = Ret (type_of_byte b)) by (unfold value_type; rewrite B1; reflexivity).
  assert (T2 : value_type e' v' = Ret (type_of_byte b)) by (unfold value_type; rewrite B2; reflexivity).
  unfold answers_alike, to_float, to_unsigned_int, to_bool, to_short, to_unsigned_short, to_unsigned_int, to_double, to_int, to_str, to_data, required_size.
  unfold kind_ok in K.
  destruct (type_of_byte b) eqn:Ety; rewrite T1, T2; cbn [bind].
  all: try (exfalso; lia).
  all: try (destruct (alike_short H2) as (i & S1 & S2); rewrite S1, S2; cbn [bind]).
  all: try (assert (Hz : 2 + Z.land b 7 <= n) by lia; destruct (alike_int b ltac:(lia) Hb Hz) as (i2 & S3 & S4); rewrite S3, S4; cbn [bind]; rewrite B1, B2; cbn [bind]).
  all: try (match type of T1 with _ = Ret ?ty => assert (Hz : match ty with TyDouble64 => 10 | _ => 6 end <= n) by lia; destruct (alike_float ty Hz) as (i3 & S5 & S6) end; rewrite S5, S6; cbn [bind]).
  all: try (destruct (alike_data b H2 Hb Hcopy ltac:(lia)) as (s & s' & l & S7 & S8 & S9 & S10 & S11); rewrite S7, S8; cbn [bind]; rewrite S10, S11; cbn [bind]; rewrite S9).
  all: repeat match goal with |- _ /\ _ => split end; eexists; split; reflexivity.
Qed.
End Alike.

(* ---------- the size that is reported ---------- *)

Lemma varint_size_exact x m : 1 <= m -> 0 < x -> x < 128 ^ m -> (varint_size x = m <-> 128 ^ (m - 1) <= x).
Proof.
  intros Hm Hx Hu. unfold varint_size. destruct (x =? 0) eqn:E; [lia|].
  assert (Hl : Z.log2 x < 7 * m) by (apply Z.log2_lt_pow2; [lia|]; rewrite Z.pow_mul_r by lia; exact Hu).
  assert (Hi : 7 * (m - 1) <= Z.log2 x <-> 128 ^ (m - 1) <= x).
  { change 128 with (2 ^ 7). rewrite <- Z.pow_mul_r by lia. symmetry. apply Z.log2_le_pow2. lia. }
  clear Hu E. rewrite <- Hi. lia.
Qed.
Lemma occupied_size e v n : wf_env e -> inslice e v -> occupies (e_data e) (v_pos v) (v_len v) n ->
  exists m, required_size e v = Ret m /\ 2 <= m <= n /\ (m = n <-> concise (e_data e) (v_pos v) (v_len v)).
Proof.
  intros Hwf Hin (Hn & b & Hb & Ho). pose proof (proj1 (at_byte e Hwf _ _ Hb)) as Hby. assert (Hin2 := Hin). destruct Hin2 as (I1 & I2 & I3).
  destruct Ho as [(Hlt & ->)|Ho].
  { assert (Hsz : 2 <= scalar_size b) by (unfold scalar_size; repeat match goal with |- context [if ?c then _ else _] => destruct c end; unfold is_byte in Hby; lia).
    exists (scalar_size b). split; [apply scalar_required; try assumption; lia|]. split; [lia|]. split; [|lia]. intros _ b' m x Hb' Hr.
    pose proof (at_fun e _ _ _ Hb Hb'). lia. }
  assert (Hr : 64 <= b < 96) by tauto. assert (H2 : 2 <= v_len v).
  { destruct Ho as [(_ & _ & Hz)|(_ & _ & m & x & Hp & Hz)]; [lia|]. pose proof (prefix_range e Hwf _ _ _ _ Hp). lia. }
  assert (Hty : type_of_byte b = TyString \/ type_of_byte b = TyData).
  { pose proof (kinds b Hby) as K. unfold kind_ok in K. destruct (type_of_byte b); lia || auto. }
  assert (Hsz : required_size e v = s <- get_data e v ;; let len := v_len s in
      Ret (if len <=? 1 then 2 else if len <=? 14 then 1 + len else 1 + varint_size len + len)).
  { unfold required_size. rewrite (type_at e v b Hin ltac:(lia) Hb). cbn [bind]. destruct Hty as [-> | ->]; reflexivity. }
  rewrite Hsz. clear Hsz Hty. unfold get_data. destruct (v_len v <? 2) eqn:E2; [lia|].
  rewrite (proj2 (vbyte_at e v b Hin ltac:(lia)) Hb). cbn [bind]. cbv zeta.
  pose proof (flags b Hby) as F. unfold flags_ok in F. assert (Hland : Z.land b 15 = b mod 16) by lia. rewrite Hland. clear F Hland.
  destruct Ho as [(_ & Hm & Hz)|(_ & Hm & m & x & Hp & Hz)].
  - destruct (b mod 16 =? 15) eqn:E15; [lia|]. unfold vslice. replace ((1 <=? 1 + b mod 16) && (1 + b mod 16 <=? v_len v)) with true by lia.
    cbn [bind v_len]. replace (1 + b mod 16 - 1) with (b mod 16) by lia.
    exists n. split; [f_equal; destruct (_ <=? 1) eqn:E1; [lia|]; destruct (_ <=? 14) eqn:E14; lia|]. split; [lia|]. split; [|reflexivity].
    intros _ b' m x Hb' _ H15. pose proof (at_fun e _ _ _ Hb Hb') as <-. lia.
  - replace (b mod 16 =? 15) with true by lia. pose proof (prefix_range e Hwf _ _ _ _ Hp) as (P1 & P2 & P3).
    rewrite (prefix_read e v 1 m x Hwf Hin ltac:(lia) Hp). cbn [bind]. destruct (m =? 0) eqn:Em; [lia|].
    assert (Hbig : 1 + m + x < two64) by (destruct Hwf as (W0 & W1 & W2); unfold two63, two64 in *; lia).
    unfold usize_add. destruct (_ <? two64) eqn:Ea; [|lia]. cbn [bind]. unfold vslice.
    replace ((1 + m <=? 1 + m + x) && (1 + m + x <=? v_len v)) with true by lia. cbn [bind v_len]. replace (1 + m + x - (1 + m)) with x by lia.
    assert (Hc : concise (e_data e) (v_pos v) (v_len v) <-> 15 <= x /\ 128 ^ (m - 1) <= x \/ m = 1 /\ x = 0).
    { split; [intros H; exact (H b m x Hb Hr Hm Hp)|]. intros H b' m' x' _ _ _ Hp'. destruct (prefix_fun e _ _ _ _ _ _ Hp Hp') as (<- & <-). exact H. }
    eexists. split; [reflexivity|]. match goal with |- ?A /\ (?B <-> _) => cut (A /\ (B <-> 15 <= x /\ 128 ^ (m - 1) <= x \/ m = 1 /\ x = 0)) end.
    { intros (HA & HB). split; [exact HA|]. exact (iff_trans HB (iff_sym Hc)). }
    destruct (x <=? 1) eqn:X1; [|destruct (x <=? 14) eqn:X14].
    + clear - X1 P1 P2 Hz H2 Hn. lia.
    + clear - X1 X14 P1 P2 Hz H2 Hn. lia.
    + pose proof (varint_size_exact x m ltac:(lia) ltac:(lia) ltac:(lia)) as Hv. pose proof (varint_size_le x m ltac:(lia) ltac:(lia)).
      assert (0 <= Z.log2 x) by apply Z.log2_nonneg. assert (1 <= varint_size x) by (unfold varint_size; destruct (x =? 0) eqn:Ex; [|clear - H0]; lia).
      clear - H H1 Hv Hz X14 P1. split; [lia|]. split; [intros Hq; left; split; [lia|]; apply Hv; lia|]. intros [(_ & Hq)|Hq]; [apply Hv in Hq; lia|lia].
Qed.

(* ---------- the values of an accepted document ---------- *)

Lemma usize_add_back d a b c : 0 <= a -> 0 <= b < two64 -> a < two64 -> a <= c -> usize_add d a b = Ret c -> c = a + b.
Proof.
  intros Ha Hb Ha2 Hc H. unfold usize_add, wrap_u64 in H. generalize dependent two64. intros M Hb Ha2 H.
  destruct (a + b <? M) eqn:E; [apply ret_inj in H; lia|]. destruct d; [discriminate|]. apply ret_inj in H. exfalso.
  rewrite <- (Z.mod_add (a + b) (-1) M) in H by lia. rewrite Z.mod_small in H; lia.
Qed.
Lemma accepted_occupies e r v b : wf_env e -> from_bytes e = Ret (Ok r) -> reach e r v ->
  byte_at (e_data e) (v_pos v) b -> b < 96 ->
  (exists n, occupies (e_data e) (v_pos v) (v_len v) n /\ v_pos v + n <= lenZ (e_data e)) \/
  b < 64 /\ v_len v < scalar_size b /\ v_pos v + scalar_size b <= lenZ (e_data e) \/
  64 <= b /\ b mod 16 = 15 /\ forall m x, ~ prefix (e_data e) (v_pos v + 1) (v_pos v + v_len v) m x.
Proof.
  intros Hwf Hr Hv Hb Hlt. assert (Hg : gd e v) by (eapply reach_gd; [exact Hwf|apply root_gd; eassumption|exact Hv]).
  pose proof (gd_in e v Hg) as (Hin & H2). destruct Hg as (d & Hg & Hd). destruct (good_size e v d Hg) as (n & Hn & Hnd).
  pose proof (proj1 (at_byte e Hwf _ _ Hb)) as Hby. assert (Hin2 := Hin). destruct Hin2 as (I1 & I2 & I3).
  destruct (b <? 64) eqn:E64.
  { rewrite (scalar_required e Hwf v b Hin ltac:(lia) Hb ltac:(lia)) in Hn. apply ret_inj in Hn. subst n.
    destruct (v_len v <? scalar_size b) eqn:El; [right; left; lia|]. left. exists (scalar_size b). split; [|lia].
    split; [lia|]. exists b. split; [exact Hb|]. left. split; [lia|reflexivity]. }
  assert (Hty : type_of_byte b = TyString \/ type_of_byte b = TyData).
  { pose proof (kinds b Hby) as K. unfold kind_ok in K. unfold is_byte in Hby. destruct (type_of_byte b); lia || auto. }
  assert (Hdat : exists s, get_data e v = Ret s).
  { unfold required_size in Hn. rewrite (type_at e v b Hin ltac:(lia) Hb) in Hn. cbn [bind] in Hn.
    destruct Hty as [Ht|Ht]; rewrite Ht in Hn; binv Hn; eauto. }
  destruct Hdat as (s & Hs). unfold get_data in Hs. destruct (v_len v <? 2) eqn:E2; [lia|].
  rewrite (proj2 (vbyte_at e v b Hin ltac:(lia)) Hb) in Hs. cbn [bind] in Hs. cbv zeta in Hs.
  pose proof (flags b Hby) as F. unfold flags_ok in F. assert (Hland : Z.land b 15 = b mod 16) by lia. rewrite Hland in Hs. clear F Hland.
  destruct (b mod 16 =? 15) eqn:E15.
  - pose proof (varint_prefix (with_debug e) Hwf (or_introl eq_refl) v 1 Hin ltac:(lia)) as HV.
    destruct (varint_at (with_debug e) v 1) as [[m x]| | |]; try contradiction.
    + destruct HV as [(_ & _ & Hc)|(Hm & Hp)].
      * right. right. split; [lia|]. split; [lia|]. intros m' x' Hp. exact (prefix_not_cut (with_debug e) _ _ _ _ Hp Hc).
      * left. rewrite (prefix_read e v 1 m x Hwf Hin ltac:(lia) Hp) in Hs. cbn [bind] in Hs. destruct (m =? 0) eqn:Em; [lia|].
        pose proof (prefix_range e Hwf _ _ _ _ Hp) as (P1 & P2 & P3). apply bind_inv in Hs as (en & Hen & Hs). apply vslice_inv in Hs as [Hle _].
        assert (Hl2 : v_len v < two64) by (destruct Hwf as (W0 & W1 & W2); unfold two63, two64 in *; lia).
        apply usize_add_back in Hen as ->; [|lia|exact P2|unfold two64; lia|lia].
        exists (1 + m + x). split; [|lia]. split; [lia|]. exists b. split; [exact Hb|]. right. right. split; [lia|]. split; [lia|]. exists m, x. auto.
    + right. right. split; [lia|]. split; [lia|]. exact (proj2 HV).
  - apply vslice_inv in Hs as [Hle _]. left. exists (Z.max 2 (1 + b mod 16)). split; [|lia]. split; [lia|]. exists b. split; [exact Hb|]. right. left. lia.
Qed.

(* ---------- written values ---------- *)

Lemma written_size dbg v : wf_enc v -> enc_ok v = true -> to_sized_value v = None ->
  exists bs, write_to dbg v (fleece_size v) false = Ret (Some bs) /\ lenZ bs = fleece_size v /\
  forall e p l, holds (e_data e) p bs -> lenZ bs <= l -> required_size e (V p l) = Ret (fleece_size v).
Proof.
  intros H1 H2 H3. destruct (write_repr dbg v H1 H2 H3) as (bs & W1 & W2 & W3). exists bs. split; [exact W1|]. split; [exact W2|].
  intros e p l Hh Hl. destruct W3 as (_ & _ & R). rewrite <- W2. exact (proj1 (proj2 (R e p l Hh Hl))).
Qed.
Lemma u16_announced dbg z : 2047 < z <= 65535 ->
  wf_enc (EInt U16 z) /\ fleece_size (EInt U16 z) = 2 /\ write_to dbg (EInt U16 z) 2 false = Ret None.
Proof.
  intros Hz. split; [cbn [wf_enc ity_min ity_max]; lia|]. split; [reflexivity|]. cbn [write_to]. unfold write_u16.
  destruct (2047 <? z) eqn:E; [|lia]. unfold write_u64_big.
  pose proof (ctz64_bound z 16 ltac:(change (2 ^ 16) with 65536; lia) ltac:(lia)).
  assert (2 <? u64_fleece_size z = true) as ->; [|reflexivity].
  unfold u64_fleece_size. destruct (z <=? 2047) eqn:E2; lia.
Qed.
