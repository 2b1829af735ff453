(** Validation accepts exactly the documents of GrammarSpec. *)
From Coq Require Import ZifyBool ZifyNat ZifyN.
From Verif Require Import Prelude Varint Decode Lib VarintProofs ReadSpec Safety PanicSpec Panics GrammarSpec.
Ltac Zify.zify_post_hook ::= Z.div_mod_to_equations.
Local Open Scope Z_scope.

(* ---------- bytes ---------- *)

Definition kind_ok (b : Z) : bool :=
  match type_of_byte b with
  | TyPointer => 128 <=? b
  | TyDict => (112 <=? b) && (b <? 128)
  | TyArray => (96 <=? b) && (b <? 112)
  | TyData => (80 <=? b) && (b <? 96)
  | TyString => (64 <=? b) && (b <? 80)
  | TyNull | TyUndefined | TyFalse | TyTrue => (b <? 64) && (scalar_size b =? 2)
  | TyShort => (b <? 64) && (scalar_size b =? 2)
  | TyInt | TyUnsignedInt => (b <? 64) && (scalar_size b =? 2 + Z.land b 7)
  | TyFloat | TyDouble32 => (b <? 64) && (scalar_size b =? 6)
  | TyDouble64 => (b <? 64) && (scalar_size b =? 10)
  end.
Lemma kinds b : is_byte b -> kind_ok b = true.
Proof. intros Hb. revert b Hb. apply byte_sweep. vm_compute. reflexivity. Qed.
Definition flags_ok (b : Z) : bool :=
  Bool.eqb (Z.land b 8 =? 0) (b mod 16 <? 8) && Bool.eqb (Z.land b 64 =? 0) (b mod 128 <? 64) && (Z.land b 15 =? b mod 16) .
Lemma flags b : is_byte b -> flags_ok b = true.
Proof. intros Hb. revert b Hb. apply byte_sweep. vm_compute. reflexivity. Qed.

Lemma pointer_byte b : is_byte b -> vtype_eqb (type_of_byte b) TyPointer = (128 <=? b).
Proof. intros Hby. pose proof (kinds b Hby) as K. unfold kind_ok in K. destruct (type_of_byte b); cbn [vtype_eqb]; lia. Qed.
Lemma flag8 b : is_byte b -> negb (Z.land b 8 =? 0) = (8 <=? b mod 16).
Proof. intros Hb. pose proof (flags b Hb) as F. unfold flags_ok in F. apply andb_prop in F as [F _]. apply andb_prop in F as [F _]. apply Bool.eqb_prop in F. rewrite F. lia. Qed.
Lemma flag64 b : is_byte b -> negb (Z.land b 64 =? 0) = (64 <=? b mod 128).
Proof. intros Hb. pose proof (flags b Hb) as F. unfold flags_ok in F. apply andb_prop in F as [F _]. apply andb_prop in F as [_ F]. apply Bool.eqb_prop in F. rewrite F. lia. Qed.

Lemma shl_add res d n : 0 <= n < 64 -> 0 <= res < 2 ^ n -> 0 <= d -> Z.lor res (wrap_u64 (d * 2 ^ n)) = (res + d * 2 ^ n) mod 2 ^ 64.
Proof.
  intros Hn Hr Hd. unfold wrap_u64. change two64 with (2 ^ 64). replace (2 ^ 64) with (2 ^ (64 - n) * 2 ^ n) by (rewrite <- Z.pow_add_r by lia; f_equal; lia).
  assert (0 < 2 ^ n) by (apply Z.pow_pos_nonneg; lia). assert (0 < 2 ^ (64 - n)) by (apply Z.pow_pos_nonneg; lia).
  rewrite Z.mul_mod_distr_r by lia. pose proof (Z.mod_pos_bound d (2 ^ (64 - n)) ltac:(lia)).
  rewrite lor_add by lia. symmetry. rewrite (Z.div_mod d (2 ^ (64 - n))) at 1 by lia.
  replace (res + (2 ^ (64 - n) * (d / 2 ^ (64 - n)) + d mod 2 ^ (64 - n)) * 2 ^ n)
    with (res + d mod 2 ^ (64 - n) * 2 ^ n + d / 2 ^ (64 - n) * (2 ^ (64 - n) * 2 ^ n)) by ring.
  rewrite Z.mod_add by nia. apply Z.mod_small. nia.
Qed.

Section Grammar.
Variable e : env.
Hypothesis Hwf : wf_env e.
Hypothesis Hck : e_dbg e = true \/ modest e /\ no_long_run (e_data e).
Let bs := e_data e.

Lemma ck : e_dbg e = true \/ modest e.
Proof using Hck. destruct Hck as [H|[H _]]; auto. Qed.
Lemma raw_at p b : raw e p = Ret b <-> byte_at bs p b.
Proof using. unfold raw, byte_at, bs. destruct (nthZ (e_data e) p) as [x|]; split; intros H; try discriminate; injection H as ->; reflexivity. Qed.
Lemma at_byte p b : byte_at bs p b -> is_byte b /\ 0 <= p < lenZ bs.
Proof using Hwf.
  intros H. split; [|exact (nthZ_Some _ _ _ H)]. destruct Hwf as (Hb & _). exact (nthZ_Forall _ _ _ _ Hb H).
Qed.
Lemma at_in p : 0 <= p < lenZ bs -> exists b, byte_at bs p b /\ is_byte b.
Proof using Hwf. intros H. destruct (nthZ_in bs p H) as [b Hb]. exists b. split; [exact Hb|]. exact (proj1 (at_byte p b Hb)). Qed.
Lemma at_fun p b b' : byte_at bs p b -> byte_at bs p b' -> b = b'.
Proof using. unfold byte_at. intros H1 H2. rewrite H1 in H2. injection H2. auto. Qed.
Lemma vbyte_at v b : inslice e v -> 1 <= v_len v -> (vbyte e v 0 = Ret b <-> byte_at bs (v_pos v) b).
Proof using.
  intros (H1 & H2 & H3) Hl. unfold vbyte. destruct ((0 <=? 0) && (0 <? v_len v)) eqn:E; [|lia].
  rewrite Z.add_0_r. apply raw_at.
Qed.
Lemma type_at v b : inslice e v -> 1 <= v_len v -> byte_at bs (v_pos v) b -> value_type e v = Ret (type_of_byte b).
Proof using. intros H1 H2 H3. unfold value_type. rewrite (proj2 (vbyte_at v b H1 H2) H3). reflexivity. Qed.

(* ---------- length prefixes ---------- *)

Lemma digits_pos p q ds : digits bs p q ds -> 1 <= lenZ ds.
Proof using. intros H. destruct H; rewrite lenZ_cons; pose proof (lenZ_nonneg (@nil Z)); [unfold lenZ; cbn; lia|]. pose proof (lenZ_nonneg ds). lia. Qed.
Lemma digits_last p q ds : digits bs p q ds -> p + lenZ ds <= q /\ exists b, byte_at bs (p + lenZ ds - 1) b /\ b < 128.
Proof using.
  induction 1 as [p q b Hq Hb Hl|p q b ds Hq Hb Hl H IH].
  - unfold lenZ; cbn [length]. split; [lia|]. exists b. replace (p + Z.of_nat 1 - 1) with p by lia. auto.
  - rewrite lenZ_cons. destruct IH as (I1 & b' & I2 & I3). split; [lia|]. exists b'. split; [|exact I3].
    replace (p + (lenZ ds + 1) - 1) with (p + 1 + lenZ ds - 1) by lia. exact I2.
Qed.
Lemma digits_high p q ds : digits bs p q ds -> forall i, p <= i < p + lenZ ds - 1 -> exists b, byte_at bs i b /\ 128 <= b.
Proof using.
  induction 1 as [p q b Hq Hb Hl|p q b ds Hq Hb Hl H IH]; intros i Hi.
  - unfold lenZ in Hi; cbn [length] in Hi. lia.
  - rewrite lenZ_cons in Hi. destruct (Z.eq_dec i p) as [->|Hn]; [eauto|]. apply IH. lia.
Qed.
Lemma digits_fun p q ds : digits bs p q ds -> forall ds', digits bs p q ds' -> ds = ds'.
Proof using.
  induction 1 as [p q b Hq Hb Hl|p q b ds Hq Hb Hl H IH]; intros ds' H'; inversion H' as [? ? b' ? Hb' ?|? ? b' ds2 ? Hb' ? H2]; subst;
    pose proof (at_fun _ _ _ Hb Hb'); subst; try lia; [reflexivity|]. f_equal. apply IH. exact H2.
Qed.
Lemma digits_range p q ds : digits bs p q ds -> 0 <= digits_value ds < 128 ^ lenZ ds.
Proof using Hwf.
  induction 1 as [p q b Hq Hb Hl|p q b ds Hq Hb Hl H IH]; cbn [digits_value]; apply at_byte in Hb; destruct Hb as [Hb _]; unfold is_byte in Hb.
  - unfold lenZ; cbn [length]. change (128 ^ Z.of_nat 1) with 128. lia.
  - rewrite lenZ_cons, Z.pow_add_r by (try apply lenZ_nonneg; lia). change (128 ^ 1) with 128. lia.
Qed.
Lemma prefix_fun p q n x n' x' : prefix bs p q n x -> prefix bs p q n' x' -> n = n' /\ x = x'.
Proof using.
  intros (ds & H1 & -> & _ & ->) (ds' & H1' & -> & _ & ->). pose proof (digits_fun _ _ _ H1 _ H1'). subst. auto.
Qed.
Lemma prefix_not_cut p q n x : prefix bs p q n x -> ~ cut_prefix bs p q.
Proof using.
  intros (ds & H1 & -> & H3 & _) (C1 & C2). pose proof (digits_pos _ _ _ H1). destruct (digits_last _ _ _ H1) as (I1 & b & I2 & I3).
  destruct (C2 (p + lenZ ds - 1)) as (b' & B1 & B2); [lia|]. pose proof (at_fun _ _ _ I2 B1). lia.
Qed.

Lemma loop_prefix q0 len : (forall i, 0 <= i < len -> exists b, byte_at bs (q0 + i) b) -> forall k i res,
  Z.of_nat k + i = 10 -> 0 <= i <= 9 -> 0 <= res < 2 ^ (7 * (i + 1)) -> i < len ->
  (forall j, 0 <= j <= i -> exists b, byte_at bs (q0 + j) b /\ 128 <= b) ->
  match varint_read_loop (e_dbg e) (fun i => raw e (q0 + i)) len k i (7 * (i + 1)) res with
  | Ret (r, x) =>
      r = 0 /\ x = 0 /\ cut_prefix bs q0 (q0 + len) \/
      exists ds, digits bs (q0 + i + 1) (q0 + len) ds /\ r = i + 1 + lenZ ds /\ r <= 10 /\ x = (res + 2 ^ (7 * (i + 1)) * digits_value ds) mod 2 ^ 64
  | Panic => 10 < len /\ forall j, 0 <= j <= 9 -> exists b, byte_at bs (q0 + j) b /\ 128 <= b
  | _ => False
  end.
Proof using Hwf Hck.
  intros Hget. induction k as [|k IH]; intros i res Hk Hi Hres Hil Hhigh; [lia|]. cbn [varint_read_loop].
  destruct (i + 1 <? len) eqn:El.
  2:{ left. split; [reflexivity|]. split; [reflexivity|]. split; [lia|]. intros j Hj. destruct (Hhigh (j - q0)) as (b & Hb & H8); [lia|].
      exists b. replace (q0 + (j - q0)) with j in Hb by lia. auto. }
  destruct (Hget (i + 1)) as (b & Hb); [lia|]. rewrite (proj2 (raw_at _ _) Hb). cbn [bind].
  pose proof (at_byte _ _ Hb) as (Hby & _). unfold is_byte in Hby.
  assert (Hp : 1 <= 2 ^ (7 * (i + 1))) by (apply (Z.pow_le_mono_r 2 0); lia).
  destruct (Z.eq_dec i 9) as [->|Hi9].
  { assert (e_dbg e = true) as Hd.
    { destruct Hck as [H|[_ H]]; [exact H|]. exfalso. destruct (H q0) as (j & Hj & Hlow). destruct (Hhigh j) as (b' & Hb' & H8); [lia|].
      specialize (Hlow b' Hb'). lia. }
    rewrite Hd. change (7 * (9 + 1)) with 70. change (u64_shl true (Z.land b 127) 70) with (@Panic Z). change (u64_shl true b 70) with (@Panic Z).
    destruct (128 <=? b); cbn [bind]; (split; [lia|exact Hhigh]). }
  assert (Hs : 7 * (i + 1) <? 64 = true) by lia.
  destruct (128 <=? b) eqn:E8.
  - unfold u64_shl. rewrite Hs. cbn [bind]. rewrite land_127.
    replace (7 * (i + 1) + 7) with (7 * (i + 1 + 1)) by lia.
    assert (Hmod : b mod 128 = b - 128) by lia. rewrite Hmod.
    rewrite shl_add by lia. set (res' := (res + (b - 128) * 2 ^ (7 * (i + 1))) mod 2 ^ 64).
    assert (Hres' : 0 <= res' < 2 ^ (7 * (i + 1 + 1))).
    { unfold res'. split; [apply Z.mod_pos_bound; lia|]. apply Z.le_lt_trans with (res + (b - 128) * 2 ^ (7 * (i + 1))); [apply Z.mod_le; nia|].
      replace (7 * (i + 1 + 1)) with (7 * (i + 1) + 7) by lia. rewrite Z.pow_add_r by lia. change (2 ^ 7) with 128. nia. }
    assert (Hh : forall j, 0 <= j <= i + 1 -> exists b, byte_at bs (q0 + j) b /\ 128 <= b).
    { intros j Hj. destruct (Z.eq_dec j (i + 1)) as [->|Hn]; [exists b; split; [exact Hb|lia]|]. apply Hhigh. lia. }
    specialize (IH (i + 1) res' ltac:(lia) ltac:(lia) Hres' ltac:(lia) Hh).
    destruct (varint_read_loop _ _ _ k (i + 1) _ res') as [[r x]| | |]; try exact IH.
    destruct IH as [IH|(ds & D1 & D2 & D3 & D4)]; [left; exact IH|]. right. exists (b - 128 :: ds).
    split; [|split; [rewrite lenZ_cons; lia|split; [exact D3|]]].
    + apply dg_more; [lia|replace (q0 + i + 1) with (q0 + (i + 1)) by lia; exact Hb|lia|].
      replace (q0 + i + 1 + 1) with (q0 + (i + 1) + 1) by lia. exact D1.
    + rewrite D4. unfold res'. rewrite Z.add_mod_idemp_l by lia. cbn [digits_value]. f_equal.
      replace (7 * (i + 1 + 1)) with (7 * (i + 1) + 7) by lia. rewrite Z.pow_add_r by lia. change (2 ^ 7) with 128. ring.
  - unfold u64_shl. rewrite Hs. cbn [bind]. rewrite shl_add by lia.
    destruct ((i =? VARINT_MAX_LEN) && (1 <? b)) eqn:Em; [unfold VARINT_MAX_LEN in Em; lia|].
    right. exists [b]. split; [|split; [unfold lenZ; cbn [length]; lia|split; [lia|]]].
    + apply dg_last; [lia|replace (q0 + i + 1) with (q0 + (i + 1)) by lia; exact Hb|lia].
    + cbn [digits_value]. f_equal. ring.
Qed.

Lemma varint_prefix v off : inslice e v -> 0 <= off <= v_len v ->
  match varint_at e v off with
  | Ret (r, x) =>
      r = 0 /\ x = 0 /\ cut_prefix bs (v_pos v + off) (v_pos v + v_len v) \/
      1 <= r /\ prefix bs (v_pos v + off) (v_pos v + v_len v) r x
  | Panic => ~ cut_prefix bs (v_pos v + off) (v_pos v + v_len v) /\ forall n x, ~ prefix bs (v_pos v + off) (v_pos v + v_len v) n x
  | _ => False
  end.
Proof using Hwf Hck.
  intros (H1 & H2 & H3) Ho. unfold varint_at. destruct (v_len v <? off) eqn:E; [lia|]. unfold varint_read.
  set (q0 := v_pos v + off). set (len := v_len v - off). assert (Hq : v_pos v + v_len v = q0 + len) by (unfold q0, len; lia). rewrite Hq.
  destruct (len <=? 0) eqn:E0.
  { left. split; [reflexivity|]. split; [reflexivity|]. split; [lia|]. intros i Hi. lia. }
  assert (Hget : forall i, 0 <= i < len -> exists b, byte_at bs (q0 + i) b).
  { intros i Hi. destruct (at_in (q0 + i)) as (b & Hb & _); [unfold q0, len, bs in *; lia|]. eauto. }
  destruct (Hget 0) as (b & Hb); [lia|]. rewrite (proj2 (raw_at _ _) Hb). cbn [bind]. rewrite Z.add_0_r in Hb.
  pose proof (at_byte _ _ Hb) as (Hby & _). unfold is_byte in Hby.
  destruct (b <? 128) eqn:E8.
  { right. split; [lia|]. exists [b]. split; [apply dg_last; [lia|exact Hb|lia]|]. unfold lenZ. cbn [length digits_value]. split; [lia|]. split; [lia|].
    rewrite Z.mod_small; lia. }
  rewrite land_127.
  assert (Hres : 0 <= b mod 128 < 2 ^ (7 * (0 + 1))) by (change (2 ^ (7 * (0 + 1))) with 128; lia).
  assert (Hh : forall j, 0 <= j <= 0 -> exists b, byte_at bs (q0 + j) b /\ 128 <= b).
  { intros j Hj. exists b. replace (q0 + j) with q0 by lia. split; [exact Hb|lia]. }
  pose proof (loop_prefix q0 len Hget 10 0 (b mod 128) ltac:(lia) ltac:(lia) Hres ltac:(lia) Hh) as HL.
  change (7 * (0 + 1)) with 7 in HL. destruct (varint_read_loop _ _ _ 10 0 7 _) as [[r x]| | |]; try exact HL.
  - destruct HL as [HL|(ds & D1 & D2 & D3 & D4)]; [left; exact HL|]. right. pose proof (digits_pos _ _ _ D1). split; [lia|].
    exists (b - 128 :: ds). split; [|split; [rewrite lenZ_cons; lia|split; [exact D3|]]].
    + apply dg_more; [lia|exact Hb|lia|]. replace (q0 + 0 + 1) with (q0 + 1) in D1 by lia. exact D1.
    + rewrite D4. cbn [digits_value]. change (2 ^ 7) with 128. f_equal. lia.
  - destruct HL as [L1 L2]. split; [intros (C1 & _); lia|]. intros n x (ds & D1 & -> & D3 & _).
    destruct (digits_last _ _ _ D1) as (I1 & b' & I2 & I3). pose proof (digits_pos _ _ _ D1).
    destruct (L2 (lenZ ds - 1)) as (b2 & B1 & B2); [lia|]. replace (q0 + (lenZ ds - 1)) with (q0 + lenZ ds - 1) in B1 by lia.
    pose proof (at_fun _ _ _ I2 B1). lia.
Qed.

(* ---------- texts ---------- *)

Lemma varint_size_le x r : 0 <= x < 128 ^ r -> 1 <= r -> varint_size x <= r.
Proof using.
  clear. intros Hx Hr. unfold varint_size. destruct (x =? 0) eqn:E; [lia|]. assert (Z.log2 x < 7 * r); [|lia].
  apply Z.log2_lt_pow2; [lia|]. rewrite Z.pow_mul_r by lia. exact (proj2 Hx).
Qed.
Lemma prefix_range p q n x : prefix bs p q n x -> 1 <= n <= 10 /\ 0 <= x < two64 /\ x < 128 ^ n.
Proof using Hwf.
  intros (ds & D1 & -> & D3 & ->). pose proof (digits_pos _ _ _ D1). pose proof (digits_range _ _ _ D1) as R.
  pose proof (Z.mod_pos_bound (digits_value ds) (2 ^ 64) ltac:(lia)) as M. change two64 with (2 ^ 64).
  pose proof (Z.mod_le (digits_value ds) (2 ^ 64) ltac:(lia) ltac:(lia)). lia.
Qed.
Lemma text_reads v b : inslice e v -> 2 <= v_len v -> byte_at bs (v_pos v) b -> 64 <= b < 96 ->
  (text_within bs (v_pos v) (v_len v) -> exists n, required_size e v = Ret n /\ n <= v_len v) /\
  (forall n, required_size e v = Ret n -> text_within bs (v_pos v) (v_len v)).
Proof using Hwf Hck.
  intros Hin Hl Hb Hr. pose proof (at_byte _ _ Hb) as (Hby & _).
  assert (Hty : type_of_byte b = TyString \/ type_of_byte b = TyData).
  { pose proof (kinds b Hby) as K. unfold kind_ok in K. destruct (type_of_byte b); lia || auto. }
  assert (Hsz : required_size e v = s <- get_data e v ;; let len := v_len s in
      Ret (if len <=? 1 then 2 else if len <=? 14 then 1 + len else 1 + varint_size len + len)).
  { unfold required_size. rewrite (type_at v b Hin ltac:(lia) Hb). cbn [bind]. destruct Hty as [-> | ->]; reflexivity. }
  rewrite Hsz. clear Hsz Hty. unfold get_data. destruct (v_len v <? 2) eqn:E2; [lia|].
  rewrite (proj2 (vbyte_at v b Hin ltac:(lia)) Hb). cbn [bind]. cbv zeta.
  pose proof (flags b Hby) as F. unfold flags_ok in F. assert (Hland : Z.land b 15 = b mod 16) by lia. rewrite Hland. clear F Hland.
  destruct (b mod 16 =? 15) eqn:E15.
  - pose proof (varint_prefix v 1 Hin ltac:(lia)) as HV. destruct (varint_at e v 1) as [[r x]| | |]; try contradiction; cbn [bind].
    + destruct HV as [(-> & -> & Hc)|(Hr1 & Hp)].
      * cbn [Z.eqb bind v_len]. split; [intros _; exists 2; split; [reflexivity|lia]|]. intros n Hn. exists b. split; [exact Hb|]. split; [exact Hr|]. right. split; [lia|]. left. exact Hc.
      * destruct (r =? 0) eqn:Er; [lia|]. pose proof (prefix_range _ _ _ _ Hp) as (P1 & P2 & P3).
        assert (Hgo : usize_add (e_dbg e) (1 + r) x = Ret (1 + r + x) /\ 1 + r + x < two64 \/
                      (en <- usize_add (e_dbg e) (1 + r) x ;; vslice v (1 + r) en) = Panic /\ two64 <= 1 + r + x).
        { unfold usize_add. destruct (_ <? two64) eqn:Ea; [left; split; [reflexivity|lia]|]. right. split; [|lia]. destruct (e_dbg e); [reflexivity|].
          cbn [bind]. unfold vslice. destruct (_ && _) eqn:Es; [|reflexivity]. exfalso. unfold wrap_u64, two64 in *. lia. }
        assert (Hlen : v_len v < two64) by (destruct Hin as (I1 & I2 & I3); destruct Hwf as (W0 & W1 & W2); unfold two63, two64 in *; lia).
        destruct Hgo as [[-> Hs]|[Hs Hbig]].
        -- cbn [bind]. unfold vslice. destruct (_ && _) eqn:Es.
           ++ cbn [bind v_len]. replace (1 + r + x - (1 + r)) with x by lia. pose proof (varint_size_le x r ltac:(lia) Hr1).
              split; [intros _; eexists; split; [reflexivity|]; destruct (x <=? 1); [lia|]; destruct (x <=? 14); lia|].
              intros n _. exists b. split; [exact Hb|]. split; [exact Hr|]. right. split; [lia|]. right. exists r, x. split; [exact Hp|lia].
           ++ split; [|intros n Hn; discriminate]. intros (b' & B1 & _ & [B2|(_ & [B3|(n & y & B3 & B4)])]).
              ** pose proof (at_fun _ _ _ Hb B1). lia.
              ** exfalso. exact (prefix_not_cut _ _ _ _ Hp B3).
              ** destruct (prefix_fun _ _ _ _ _ _ Hp B3). lia.
        -- rewrite Hs. cbn [bind]. split; [|intros n Hn; discriminate]. intros (b' & B1 & _ & [B2|(_ & [B3|(n & y & B3 & B4)])]).
           ++ pose proof (at_fun _ _ _ Hb B1). lia.
           ++ exfalso. exact (prefix_not_cut _ _ _ _ Hp B3).
           ++ destruct (prefix_fun _ _ _ _ _ _ Hp B3). lia.
    + destruct HV as [V1 V2]. split; [|intros n Hn; discriminate]. intros (b' & B1 & _ & [B2|(_ & [B3|(n & y & B3 & B4)])]).
      * pose proof (at_fun _ _ _ Hb B1). lia.
      * contradiction.
      * exfalso. exact (V2 _ _ B3).
  - unfold vslice. destruct (_ && _) eqn:Es.
    + cbn [bind v_len]. replace (1 + b mod 16 - 1) with (b mod 16) by lia. split.
      * intros _. eexists; split; [reflexivity|]. destruct (_ <=? 1); [lia|]. destruct (_ <=? 14) eqn:E14; lia.
      * intros n _. exists b. split; [exact Hb|]. split; [exact Hr|]. left. lia.
    + split; [|intros n Hn; discriminate]. intros (b' & B1 & _ & [B2|(B2 & _)]); pose proof (at_fun _ _ _ Hb B1); lia.
Qed.

(* ---------- collections ---------- *)

Lemma header_fun p l w s f w' s' f' : header bs p l w s f -> header bs p l w' s' f' -> w = w' /\ s = s' /\ f = f'.
Proof using.
  intros (b0 & b1 & B0 & B1 & R & -> & H) (b0' & b1' & B0' & B1' & _ & -> & H'). pose proof (at_fun _ _ _ B0 B0'). pose proof (at_fun _ _ _ B1 B1'). subst b0' b1'.
  split; [reflexivity|]. cbv zeta in H, H'.
  destruct H as [(H1 & -> & ->)|[(H1 & H2 & -> & ->)|(H1 & n & x & H2 & -> & ->)]];
    destruct H' as [(H1' & -> & ->)|[(H1' & H2' & -> & ->)|(H1' & n' & x' & H2' & -> & ->)]]; try (split; reflexivity); try lia.
  - exfalso. exact (prefix_not_cut _ _ _ _ H2' H2).
  - exfalso. exact (prefix_not_cut _ _ _ _ H2 H2').
  - destruct (prefix_fun _ _ _ _ _ _ H2 H2') as [-> ->]. auto.
Qed.
Lemma short_at v b0 b1 : 2 <= v_len v -> byte_at bs (v_pos v) b0 -> byte_at bs (v_pos v + 1) b1 -> is_byte b0 -> get_short e v = Ret (b0 mod 16 * 256 + b1).
Proof using.
  intros Hl H0 H1 Hb. unfold get_short. destruct (_ <? 2) eqn:E; [lia|]. rewrite (proj2 (raw_at _ _) H0), (proj2 (raw_at _ _) H1). cbn [bind].
  pose proof (flags b0 Hb) as F. unfold flags_ok in F. assert (Z.land b0 15 = b0 mod 16) as -> by lia. reflexivity.
Qed.
Lemma header_read v b0 : inslice e v -> 2 <= v_len v -> byte_at bs (v_pos v) b0 -> 96 <= b0 < 128 ->
  forall w n fp, arr_is_wide e v = Ret w -> arr_len e v = Ret n -> first_pos e v = Ret fp ->
  header bs (v_pos v) (v_len v) w n (v_pos v + fp).
Proof using Hwf Hck.
  intros Hin Hl H0 Hr w n fp Hw Hn Hf. pose proof (at_byte _ _ H0) as (Hby & _).
  assert (exists b1, byte_at bs (v_pos v + 1) b1 /\ is_byte b1) as (b1 & H1 & Hb1) by (apply at_in; destruct Hin as (I1 & I2 & I3); unfold bs; lia).
  exists b0, b1. split; [exact H0|]. split; [exact H1|]. split; [exact Hr|].
  pose proof (flags b0 Hby) as F. unfold flags_ok in F.
  split. { unfold arr_is_wide in Hw. rewrite (proj2 (vbyte_at v b0 Hin ltac:(lia)) H0) in Hw. cbn [bind] in Hw. apply ret_inj in Hw. rewrite <- Hw. exact (flag8 b0 Hby). }
  clear F. unfold arr_len in Hn. unfold first_pos in Hf. destruct (v_len v <? 2) eqn:E2; [lia|].
  rewrite (short_at v b0 b1 Hl H0 H1 Hby) in Hn, Hf. cbn [bind] in Hn, Hf. cbv zeta in Hn.
  assert (Hc : Z.land (b0 mod 16 * 256 + b1) VARINT_COUNT = b0 mod 8 * 256 + b1).
  { unfold VARINT_COUNT. rewrite land_2047. unfold is_byte in Hb1. lia. }
  rewrite Hc in Hn, Hf. rewrite (type_at v b0 Hin ltac:(lia) H0) in Hn.
  assert (Hd : vtype_eqb (type_of_byte b0) TyDict = negb (b0 <? 112)).
  { pose proof (kinds b0 Hby) as K. unfold kind_ok in K. destruct (type_of_byte b0); cbn [vtype_eqb]; lia. }
  cbn [bind] in Hn. rewrite Hd in Hn. cbv zeta. unfold is_byte in *. unfold VARINT_COUNT in *.
  destruct (b0 mod 8 * 256 + b1 =? 2047) eqn:Ec.
  - pose proof (varint_prefix v 2 Hin ltac:(lia)) as HV.
    assert (Hm : forall r x, varint_at e v 2 = Ret (r, x) -> e_dbg e = true \/ x < 576460752303423488).
    { intros r x Hx. destruct Hck as [H|[H _]]; [left; exact H|right; exact (H v r x Hin Hx)]. }
    destruct (varint_at e v 2) as [[r x]| | |] eqn:Ev; try contradiction; cbn [bind] in *; [|discriminate].
    destruct HV as [(-> & -> & Hcut)|(Hr1 & Hp)].
    + cbn [Z.eqb] in *. cbn in Hf. apply ret_inj in Hn, Hf. right. left. split; [lia|]. split; [exact Hcut|]. lia.
    + right. right. split; [lia|]. exists r, x. split; [exact Hp|]. destruct (r =? 0) eqn:Er; [lia|]. split.
      * destruct (b0 <? 112); cbn [negb] in Hn; [apply ret_inj in Hn; lia|].
        specialize (Hm r x eq_refl). unfold usize_mul in Hn. destruct (_ <? two64) eqn:Em; [apply ret_inj in Hn; lia|].
        destruct Hm as [Hm|Hm]; [rewrite Hm in Hn; discriminate|]. unfold two64 in Em. lia.
      * apply ret_inj in Hf. destruct (negb (r mod 2 =? 0)) eqn:Eo; lia.
  - left. split; [lia|]. apply ret_inj in Hf. split; [|lia]. destruct (b0 <? 112); cbn [negb] in Hn; apply ret_inj in Hn; lia.
Qed.
Lemma header_end v w s f : inslice e v -> 2 <= v_len v -> header bs (v_pos v) (v_len v) w s f ->
  coll_end e v = Ret (e_base e + f + s * width_of w).
Proof using Hwf Hck.
  intros Hin Hl (b0 & b1 & H0 & H1 & R & -> & H). pose proof (at_byte _ _ H0) as (Hby & _). pose proof (at_byte _ _ H1) as (Hb1 & _).
  unfold coll_end. rewrite (type_at v b0 Hin ltac:(lia) H0). cbn [bind].
  assert (Hw : arr_is_wide e v = Ret (8 <=? b0 mod 16)).
  { unfold arr_is_wide. rewrite (proj2 (vbyte_at v b0 Hin ltac:(lia)) H0). cbn [bind]. f_equal. exact (flag8 b0 Hby). }
  rewrite Hw. cbn [bind]. rewrite (short_at v b0 b1 Hl H0 H1 Hby). cbn [bind]. cbv zeta in H |- *.
  assert (Hc : Z.land (b0 mod 16 * 256 + b1) VARINT_COUNT = b0 mod 8 * 256 + b1).
  { unfold VARINT_COUNT. rewrite land_2047. unfold is_byte in Hb1. lia. }
  rewrite Hc.
  assert (Hd : (if vtype_eqb (type_of_byte b0) TyDict then 2 else 1) = if b0 <? 112 then 1 else 2).
  { pose proof (kinds b0 Hby) as K. unfold kind_ok in K. destruct (type_of_byte b0); cbn [vtype_eqb]; destruct (b0 <? 112) eqn:E; lia. }
  rewrite Hd. set (w := 8 <=? b0 mod 16) in *. set (k := if b0 <? 112 then 1 else 2) in *. unfold VARINT_COUNT in *.
  pose proof (varint_prefix v 2 Hin ltac:(lia)) as HV.
  destruct H as [(Hc1 & -> & ->)|[(Hc1 & Hcut & -> & ->)|(Hc1 & n & x & Hp & -> & ->)]].
  - destruct (_ =? 2047) eqn:E; [lia|]. f_equal. ring.
  - destruct (_ =? 2047) eqn:E; [|lia]. destruct (varint_at e v 2) as [[r y]| | |]; try contradiction; [|destruct HV; contradiction].
    cbn [bind fst snd]. destruct HV as [(-> & -> & _)|(_ & Hp)]; [|exfalso; exact (prefix_not_cut _ _ _ _ Hp Hcut)].
    cbn [Z.eqb]. change (0 mod 2) with 0. f_equal. ring.
  - destruct (_ =? 2047) eqn:E; [|lia]. destruct (varint_at e v 2) as [[r y]| | |]; try contradiction; [|exfalso; exact (proj2 HV _ _ Hp)].
    cbn [bind fst snd]. destruct HV as [(-> & -> & Hcut)|(Hr1 & Hp')]; [exfalso; exact (prefix_not_cut _ _ _ _ Hp Hcut)|].
    destruct (prefix_fun _ _ _ _ _ _ Hp Hp') as [-> ->]. destruct (r =? 0) eqn:Er; [lia|]. f_equal. ring.
Qed.

(* ---------- pointers ---------- *)

Lemma distance_fun p w o o' : distance bs p w o -> distance bs p w o' -> o = o'.
Proof using.
  unfold distance. destruct w.
  - intros (b0 & b1 & b2 & b3 & A0 & A1 & A2 & A3 & ->) (c0 & c1 & c2 & c3 & B0 & B1 & B2 & B3 & ->).
    rewrite (at_fun _ _ _ A0 B0), (at_fun _ _ _ A1 B1), (at_fun _ _ _ A2 B2), (at_fun _ _ _ A3 B3). reflexivity.
  - intros (b0 & b1 & A0 & A1 & ->) (c0 & c1 & B0 & B1 & ->). rewrite (at_fun _ _ _ A0 B0), (at_fun _ _ _ A1 B1). reflexivity.
Qed.
Lemma offset_distance v w : inslice e v -> width_of w <= v_len v -> forall off, get_offset e v w = Ret off <-> distance bs (v_pos v) w off.
Proof using Hwf.
  intros (I1 & I2 & I3) Hl. assert (exists o, get_offset e v w = Ret o /\ distance bs (v_pos v) w o) as (o & Ho & Hd).
  { unfold get_offset, distance. destruct w; cbn [width_of] in Hl.
    - destruct (at_in (v_pos v)) as (b0 & A0 & _); [unfold bs; lia|]. destruct (at_in (v_pos v + 1)) as (b1 & A1 & _); [unfold bs; lia|].
      destruct (at_in (v_pos v + 2)) as (b2 & A2 & _); [unfold bs; lia|]. destruct (at_in (v_pos v + 3)) as (b3 & A3 & _); [unfold bs; lia|].
      eexists. split; [|exists b0, b1, b2, b3; split; [exact A0|]; split; [exact A1|]; split; [exact A2|]; split; [exact A3|reflexivity]].
      rewrite raw_bytes_ok by lia. fold bs. rewrite (subl_cons bs _ _ _ A0) by lia. rewrite (subl_cons bs _ _ _ A1) by lia.
      replace (v_pos v + 1 + 1) with (v_pos v + 2) by lia. rewrite (subl_cons bs _ _ _ A2) by lia.
      replace (v_pos v + 2 + 1) with (v_pos v + 3) by lia. rewrite (subl_cons bs _ _ _ A3) by lia. rewrite (subl_0 bs) by lia.
      cbn [bind]. rewrite land_3fffffff. f_equal. unfold be_val. cbn [rev app le_val].
      replace (b3 + 256 * (b2 + 256 * (b1 + 256 * (b0 + 256 * 0)))) with (b0 * 16777216 + b1 * 65536 + b2 * 256 + b3) by ring. ring.
    - destruct (at_in (v_pos v)) as (b0 & A0 & _); [unfold bs; lia|]. destruct (at_in (v_pos v + 1)) as (b1 & A1 & _); [unfold bs; lia|].
      eexists. split; [|exists b0, b1; split; [exact A0|]; split; [exact A1|reflexivity]].
      rewrite raw_bytes_ok by lia. fold bs. rewrite (subl_cons bs _ _ _ A0) by lia. rewrite (subl_cons bs _ _ _ A1) by lia. rewrite (subl_0 bs) by lia.
      cbn [bind]. rewrite land_3fff. f_equal. unfold be_val. cbn [rev app le_val].
      replace (b1 + 256 * (b0 + 256 * 0)) with (b0 * 256 + b1) by ring. ring. }
  intros off. split; intros H.
  - rewrite Ho in H. apply ret_inj in H. subst. exact Hd.
  - rewrite (distance_fun _ _ _ _ H Hd). exact Ho.
Qed.
Lemma leads : forall f v w t b, inslice e v -> 1 <= v_len v -> v_pos v < Z.of_nat f -> byte_at bs (v_pos v) b -> 128 <= b ->
  (deref_checked f e v w = Ret (Ok t) <-> leads_to bs (v_pos v) (v_len v) w (v_pos t) (v_len t)).
Proof using Hwf.
  induction f as [|f IH]; intros v w t b Hin Hl Hf Hb H8; [exfalso; destruct Hin; lia|]. cbn [deref_checked].
  pose proof (at_byte _ _ Hb) as (Hby & _).
  assert (Hwid : width_of w = if w then 4 else 2) by (destruct w; reflexivity).
  destruct ((w && (v_len v <? 4)) || (v_len v <? 2)) eqn:E.
  { split; [discriminate|]. intros H. exfalso. inversion H; subst; destruct w; cbn [andb] in *; lia. }
  assert (Hw : width_of w <= v_len v) by (destruct w; cbn [width_of andb] in *; lia).
  destruct (get_offset_spec e v w Hin Hw) as (off & Hoff & Ho & Hev). rewrite Hoff. cbn [bind].
  assert (Hdist := proj1 (offset_distance v w Hin Hw off) Hoff).
  assert (Hinv : forall t' tl', leads_to bs (v_pos v) (v_len v) w t' tl' -> 128 <= b < 192 /\ 0 < off <= v_pos v /\
     exists b', byte_at bs (v_pos v - off) b' /\ (b' < 128 /\ t' = v_pos v - off /\ tl' = off \/ 128 <= b' /\ leads_to bs (v_pos v - off) off true t' tl')).
  { intros t' tl' H. inversion H as [? ? ? c o c' L1 L2 L3 L4 L5 L6 L7|? ? ? c o c' ? ? L1 L2 L3 L4 L5 L6 L7 L8]; subst;
      pose proof (at_fun _ _ _ Hb L2); subst c; pose proof (distance_fun _ _ _ _ Hdist L4); subst off;
      (split; [exact L3|]; split; [exact L5|]; exists c'; split; [exact L6|]); [left|right]; auto. }
  destruct (off =? 0) eqn:E0.
  { split; [discriminate|]. intros H. exfalso. apply Hinv in H. lia. }
  rewrite (ptr_target_eq e Hwf v off Hin Hl Ho). rewrite (proj2 (vbyte_at v b Hin Hl) Hb). cbn [bind].
  assert (Hx : negb (Z.land b 64 =? 0) = (192 <=? b)).
  { rewrite (flag64 b Hby). unfold is_byte in Hby. lia. }
  rewrite Hx. destruct (192 <=? b) eqn:E9.
  { split; [discriminate|]. intros H. exfalso. apply Hinv in H. lia. }
  destruct (v_pos v - off <? 0) eqn:E1.
  { split; [discriminate|]. intros H. exfalso. apply Hinv in H. lia. }
  assert (Hin' : inslice e (V (v_pos v - off) off)).
  { destruct Hin as (H1 & H2 & H3). unfold inslice; cbn [v_pos v_len]. lia. }
  destruct (at_in (v_pos v - off)) as (b' & Hb' & Hby'); [destruct Hin as (I1 & I2 & I3); unfold bs; lia|].
  rewrite (type_at (V (v_pos v - off) off) b' Hin' ltac:(cbn [v_len]; lia) Hb'). cbn [bind]. rewrite (pointer_byte b' Hby').
  destruct (128 <=? b') eqn:E8'.
  - rewrite (IH (V (v_pos v - off) off) true t b' Hin') by (cbn [v_pos v_len]; assumption || lia). cbn [v_pos v_len]. split.
    + intros H. apply (lead_on bs (v_pos v) (v_len v) w b off b'); try assumption; lia.
    + intros H. apply Hinv in H. destruct H as (_ & _ & c' & C1 & [(C2 & _)|(_ & C2)]); [pose proof (at_fun _ _ _ Hb' C1); lia|exact C2].
  - split.
    + intros H. apply ret_inj in H. injection H as <-. cbn [v_pos v_len]. apply (lead_here bs (v_pos v) (v_len v) w b off b'); try assumption; lia.
    + intros H. apply Hinv in H. destruct H as (_ & _ & c' & C1 & [(C2 & C3 & C4)|(C2 & _)]); pose proof (at_fun _ _ _ Hb' C1); [|lia].
      destruct t as [tp tl]. cbn [v_pos v_len] in *. subst. reflexivity.
Qed.

(* ---------- one step of validation ---------- *)

Notation placed := (placed e).
Notation check := (check e).

Lemma raw_iff v : inslice e v -> 2 <= v_len v -> forall x, from_raw e (v_pos v) (v_len v) = Ret (Ok x) <-> x = v /\ exists n, required_size e v = Ret n /\ n <= v_len v.
Proof using Hwf.
  intros Hin Hl x. destruct v as [p l]. cbn [v_pos v_len] in *. split.
  - intros H. apply (from_raw_safe e Hwf p l Hin) in H. destruct H as (-> & _ & n & H1 & H2). eauto.
  - intros (-> & n & Hn & Hle). unfold from_raw. cbv zeta. cbn [v_len]. destruct (l <? 2) eqn:E; [lia|]. rewrite Hn. cbn [bind].
    destruct (l <? n) eqn:E2; [lia|reflexivity].
Qed.
Definition ends (v : val) (d : Z) : dres unit :=
  n <- required_size e v ;; en <- usize_add (e_dbg e) (e_base e + v_pos v) n ;;
  if en <=? e_base e + d then Ret (Ok tt)
  else _ <- usize_sub (e_dbg e) (e_base e + d) (e_base e + v_pos v) ;; Ret (@Err unit _ ValueOutOfBounds).
Lemma ends_iff v d : inslice e v -> (ends v d = Ret (Ok tt) <-> exists n, required_size e v = Ret n /\ v_pos v + n <= d).
Proof using Hwf.
  intros Hin. unfold ends. destruct (required_size e v) as [n| | |] eqn:Er; cbn [bind];
    try (split; [discriminate|intros (? & ? & _); discriminate]).
  apply (required_size_range e Hwf v n Hin) in Er. destruct Hin as (I1 & I2 & I3). destruct Hwf as (W0 & W1 & W2).
  assert (Hs : e_base e + v_pos v + n < two64) by (clear Hck; unfold two64, two63 in *; lia).
  unfold usize_add at 1. rewrite (proj2 (Z.ltb_lt _ _) Hs). cbn [bind]. destruct (_ <=? _) eqn:E.
  - split; [intros _; exists n; split; [reflexivity|lia]|reflexivity].
  - split; [|intros (m & Hm & H); apply ret_inj in Hm; lia]. intros H. apply bind_inv in H. destruct H as (? & _ & H). discriminate.
Qed.
Lemma plain_iff s w v d b f : placed (mk_place s w v d) -> byte_at bs (v_pos v) b -> b < 96 ->
  (check (S f) (mk_place s w v d) = Ret (Ok tt) <-> exists n, required_size e v = Ret n /\ if s then n <= v_len v else v_pos v + n <= d).
Proof using Hwf.
  intros (Hin & Hl & _) Hb H96. cbn [p_val] in *. pose proof (at_byte _ _ Hb) as (Hby & _). unfold check, Panics.check. cbn [p_slot p_wide p_val p_end].
  assert (Hv : forall s', validate (S f) e s' w v d = if s' then Ret (Ok tt) else ends v d).
  { intros s'. cbn [validate]. rewrite (type_at v b Hin ltac:(lia) Hb). cbn [bind]. pose proof (kinds b Hby) as K. unfold kind_ok in K.
    destruct (type_of_byte b); try reflexivity; lia. }
  destruct s.
  - split.
    + intros H. apply bindr_inv in H. destruct H as (x & Hx & _). apply (raw_iff v Hin Hl) in Hx. exact (proj2 Hx).
    + intros H. rewrite (proj2 (raw_iff v Hin Hl v)) by (split; [reflexivity|exact H]). cbn [bindr]. apply Hv.
  - rewrite Hv. apply ends_iff. exact Hin.
Qed.
Lemma scalar_required v b : inslice e v -> 1 <= v_len v -> byte_at bs (v_pos v) b -> b < 64 -> required_size e v = Ret (scalar_size b).
Proof using Hwf.
  intros Hin Hl Hb H. pose proof (at_byte _ _ Hb) as (Hby & _). unfold required_size. rewrite (type_at v b Hin Hl Hb). cbn [bind].
  rewrite (proj2 (vbyte_at v b Hin Hl) Hb). cbn [bind]. pose proof (kinds b Hby) as K. unfold kind_ok in K.
  destruct (type_of_byte b); try lia; f_equal; lia.
Qed.
Lemma complex_check s w v d b f : placed (mk_place s w v d) -> byte_at bs (v_pos v) b -> 96 <= b ->
  check f (mk_place s w v d) = validate f e s w v d.
Proof using Hwf.
  intros (Hin & Hl & _) Hb H96. cbn [p_val] in *. pose proof (at_byte _ _ Hb) as (Hby & _). unfold check, Panics.check. cbn [p_slot p_wide p_val p_end].
  destruct s; [|reflexivity]. rewrite (proj2 (raw_iff v Hin Hl v)); [reflexivity|]. split; [reflexivity|]. exists 2. split; [|lia].
  unfold required_size. rewrite (type_at v b Hin ltac:(lia) Hb). cbn [bind]. pose proof (kinds b Hby) as K. unfold kind_ok in K.
  destruct (type_of_byte b); try lia; reflexivity.
Qed.
Lemma loop_accepts stp w n : forall k i cur, n - i < Z.of_nat k -> 0 < Z.of_nat k ->
  (forall j, i <= j < n -> stp (cur + (j - i) * w) = Ret (Ok tt)) -> elems_loop stp k i n cur w = Ret (Ok tt).
Proof using.
  clear. induction k as [|k IH]; intros i cur Hk H0 H; cbn [elems_loop]; [exfalso; lia|].
  destruct (i <? n) eqn:E; [|reflexivity]. pose proof (H i ltac:(lia)) as Hi. replace (cur + (i - i) * w) with cur in Hi by lia. rewrite Hi. cbn [bindr].
  apply IH; [lia|lia|]. intros j Hj. replace (cur + w + (j - (i + 1)) * w) with (cur + (j - i) * w) by lia. apply H. lia.
Qed.
Definition slot_at (wide : bool) (q : Z) : place := mk_place true wide (V q (width_of wide)) (q + width_of wide).
Lemma slot_placed v d s w wide n first j : placed (mk_place s w v d) -> header bs (v_pos v) (v_len v) wide n first -> first + n * width_of wide <= d -> 0 <= j < n ->
  placed (slot_at wide (first + j * width_of wide)).
Proof using Hwf.
  intros (Hin & Hl & Hd & He & Hde) (b0 & b1 & _ & _ & _ & _ & H) Hfit Hj. cbn [p_val p_end] in *. cbv zeta in H.
  assert (Hf : v_pos v + 2 <= first /\ first mod 2 = 0).
  { destruct H as [(_ & _ & ->)|[(_ & _ & _ & ->)|(_ & m & x & Hp & _ & ->)]]; [lia|lia|]. pose proof (prefix_range _ _ _ _ Hp). lia. }
  assert (Hw24 : width_of wide = 2 \/ width_of wide = 4) by (destruct wide; cbn; lia). destruct Hin as (I1 & I2 & I3).
  assert (0 <= j * width_of wide /\ (j + 1) * width_of wide <= n * width_of wide) by nia.
  assert ((j * width_of wide) mod 2 = 0) by (destruct Hw24 as [-> | ->]; lia).
  unfold Panics.placed, inslice, slot_at; cbn [p_val p_end v_pos v_len]. split; [lia|]. split; [lia|]. split; [lia|]. split; lia.
Qed.
Lemma collection_iff s w v d b f : placed (mk_place s w v d) -> byte_at bs (v_pos v) b -> 96 <= b < 128 ->
  (check (S f) (mk_place s w v d) = Ret (Ok tt) <->
   exists wide n first, header bs (v_pos v) (v_len v) wide n first /\ first + n * width_of wide <= d /\
     forall j, 0 <= j < n -> check f (slot_at wide (first + j * width_of wide)) = Ret (Ok tt)).
Proof using Hwf Hck.
  intros Hpl Hb H96. rewrite (complex_check s w v d b (S f) Hpl Hb ltac:(lia)). pose proof Hpl as (Hin & Hl & Hd & _). cbn [p_val p_end] in *.
  pose proof (at_byte _ _ Hb) as (Hby & _).
  assert (Hct : coll_type e v).
  { unfold coll_type. rewrite (type_at v b Hin ltac:(lia) Hb). pose proof (kinds b Hby) as K. unfold kind_ok in K.
    destruct (type_of_byte b); try lia; auto. }
  rewrite (validate_coll e f s w v d Hct).
  destruct (limit_panics e Hwf ck v Hin Hl Hct) as [[Hlim Ho]|(wide & n & fp & lim & Hlim & _ & Hw & Hn & Hfp & ->)]; rewrite Hlim; cbn [bind].
  - split; [discriminate|]. intros (wide & n & first & Hh & Hfit & _). exfalso. destruct Ho as [_ Ho].
    rewrite (header_end v wide n first Hin Hl Hh) in Ho. destruct Ho as [Ho|(m & Hm & Ho)]; [discriminate|]. apply ret_inj in Hm.
    destruct Hwf as (W0 & W1 & W2). destruct Hin as (I1 & I2 & I3). unfold two64, two63 in *. lia.
  - assert (Hh := header_read v b Hin Hl Hb H96 wide n fp Hw Hn Hfp). cbn [coll_rest].
    destruct (_ <? _) eqn:E.
    + split; [intros H; apply bind_inv in H; destruct H as (? & _ & H); discriminate|].
      intros (wide' & n' & first & Hh' & Hfit & _). destruct (header_fun _ _ _ _ _ _ _ _ Hh Hh') as (-> & -> & <-). exfalso. lia.
    + split.
      * intros H. exists wide, n, (v_pos v + fp). split; [exact Hh|]. split; [lia|]. intros j Hj.
        pose proof (elems_loop_inv _ _ _ _ _ _ H j Hj) as Hs. replace (v_pos v + fp + (j - 0) * width_of wide) with (v_pos v + fp + j * width_of wide) in Hs by lia. exact Hs.
      * intros (wide' & n' & first & Hh' & Hfit & Hs). destruct (header_fun _ _ _ _ _ _ _ _ Hh Hh') as (-> & -> & <-).
        pose proof (first_pos_range e Hwf v fp Hin Hl Hfp) as (F1 & F2 & F3).
        assert (Hw24 : width_of wide' = 2 \/ width_of wide' = 4) by (destruct wide'; cbn; lia). pose proof (arr_len_range e Hwf v n' Hin Hn) as (N1 & _).
        apply loop_accepts; [destruct Hin as (I1 & I2 & I3); unfold lenZ in *; nia|lia|].
        intros j Hj. replace (v_pos v + fp + (j - 0) * width_of wide') with (v_pos v + fp + j * width_of wide') by lia. apply Hs. exact Hj.
Qed.
Lemma pointer_iff s w v d b f : placed (mk_place s w v d) -> byte_at bs (v_pos v) b -> 128 <= b ->
  (check (S f) (mk_place s w v d) = Ret (Ok tt) <->
   exists t, leads_to bs (v_pos v) (v_len v) w (v_pos t) (v_len t) /\ check f (mk_place false w t (v_pos v)) = Ret (Ok tt)).
Proof using Hwf.
  intros Hpl Hb H8. rewrite (complex_check s w v d b (S f) Hpl Hb ltac:(lia)). pose proof Hpl as (Hin & Hl & Hd & _). cbn [p_val p_end] in *.
  pose proof (at_byte _ _ Hb) as (Hby & _). cbn [validate]. rewrite (type_at v b Hin ltac:(lia) Hb). cbn [bind].
  assert (type_of_byte b = TyPointer) as ->.
  { pose proof (kinds b Hby) as K. unfold kind_ok in K. destruct (type_of_byte b); try lia; reflexivity. }
  assert (Hlead := fun t => leads (fuel_of e) v w t b Hin ltac:(lia) (fuel_enough e v Hin) Hb H8). split.
  - intros H. apply bindr_inv in H. destruct H as (t & Ht & H). exists t. split; [apply Hlead; exact Ht|exact H].
  - intros (t & Ht & H). apply Hlead in Ht. rewrite Ht. cbn [bindr]. exact H.
Qed.
Lemma target_placed s w v d b t : placed (mk_place s w v d) -> byte_at bs (v_pos v) b -> 128 <= b ->
  leads_to bs (v_pos v) (v_len v) w (v_pos t) (v_len t) -> placed (mk_place false w t (v_pos v)).
Proof using Hwf.
  intros (Hin & Hl & Hd & He & Hde) Hb H8 H. cbn [p_val p_end] in *.
  apply (leads (fuel_of e) v w t b Hin ltac:(lia) (fuel_enough e v Hin) Hb H8) in H.
  apply deref_checked_safe in H; [|exact Hwf|exact Hin|apply fuel_enough; exact Hin].
  destruct H as (A & B & C & D & _). destruct Hin as (I1 & I2 & I3). unfold Panics.placed. cbn [p_val p_end].
  split; [exact A|]. split; [exact B|]. split; [lia|]. split; lia.
Qed.
Lemma byte_here a : placed a -> exists b, byte_at bs (v_pos (p_val a)) b /\ is_byte b.
Proof using Hwf. intros (Hin & Hl & _). apply at_in. destruct Hin as (I1 & I2 & I3). unfold bs. lia. Qed.

(* ---------- both directions ---------- *)

Lemma accepted_valid : forall f s w v d, placed (mk_place s w v d) -> check f (mk_place s w v d) = Ret (Ok tt) -> valid bs s w (v_pos v) (v_len v) d.
Proof using Hwf Hck.
  induction f as [|f IH]; intros s w v d Hpl H.
  { exfalso. unfold check, Panics.check in H. cbn [p_slot p_wide p_val p_end validate] in H. destruct s; [|discriminate].
    apply bindr_inv in H. destruct H as (? & _ & H). discriminate. }
  destruct (byte_here _ Hpl) as (b & Hb & Hby). cbn [p_val] in Hb. pose proof Hpl as (Hin & Hl & Hd & _). cbn [p_val p_end] in *.
  destruct (Z_lt_ge_dec b 64) as [B1|B1]; [|destruct (Z_lt_ge_dec b 96) as [B2|B2]; [|destruct (Z_lt_ge_dec b 128) as [B3|B3]]].
  - apply (plain_iff s w v d b f Hpl Hb ltac:(lia)) in H. destruct H as (n & Hn & H). rewrite (scalar_required v b Hin ltac:(lia) Hb B1) in Hn.
    apply ret_inj in Hn. subst n. destruct s; [apply (valid_slot bs w _ _ _ b)|apply (valid_scalar bs w _ _ _ b)]; assumption.
  - apply (plain_iff s w v d b f Hpl Hb ltac:(lia)) in H. destruct H as (n & Hn & _). apply valid_text.
    apply (proj2 (text_reads v b Hin Hl Hb ltac:(lia)) n Hn).
  - apply (collection_iff s w v d b f Hpl Hb ltac:(lia)) in H. destruct H as (wide & n & first & Hh & Hfit & Hs).
    apply (valid_collection bs s w _ _ _ wide n first Hh); [exact Hfit|]. intros i Hi.
    apply (IH true wide (V (first + i * width_of wide) (width_of wide)) (first + i * width_of wide + width_of wide)); [|apply Hs; exact Hi].
    exact (slot_placed v d s w wide n first i Hpl Hh Hfit Hi).
  - apply (pointer_iff s w v d b f Hpl Hb ltac:(lia)) in H. destruct H as (t & Ht & Hc).
    apply (valid_pointer bs s w _ _ _ (v_pos t) (v_len t) Ht). apply IH; [|exact Hc]. exact (target_placed s w v d b t Hpl Hb ltac:(lia) Ht).
Qed.
Lemma text_byte p l : text_within bs p l -> exists b, byte_at bs p b /\ 64 <= b < 96.
Proof using. intros (b & B1 & B2 & _). eauto. Qed.
Lemma header_byte p l w s f : header bs p l w s f -> exists b, byte_at bs p b /\ 96 <= b < 128.
Proof using. intros (b & ? & B1 & _ & B2 & _). eauto. Qed.
Lemma leads_byte p l w t tl : leads_to bs p l w t tl -> exists b, byte_at bs p b /\ 128 <= b.
Proof using. intros H. inversion H; subst; eexists; split; try eassumption; lia. Qed.
Lemma valid_accepted s w p l d : valid bs s w p l d -> forall f, placed (mk_place s w (V p l) d) -> meas (V p l) d < Z.of_nat f ->
  check f (mk_place s w (V p l) d) = Ret (Ok tt).
Proof using Hwf Hck.
  induction 1 as [w p l d b B1 B2 B3|w p l d b B1 B2 B3|s w p l d Ht|s w p l d wide n first Hh width Hfit Hs IH|s w p l d t tl Ht Hv IH]; intros f Hpl Hf;
    pose proof Hpl as (Hin & Hl & Hd & _); cbn [p_val p_end v_pos v_len] in Hin, Hl, Hd;
    (destruct f as [|f]; [exfalso; unfold meas in Hf; cbn [v_pos] in Hf; destruct Hin as (I1 & _); cbn [v_pos] in I1; lia|]).
  - apply (plain_iff true w (V p l) d b f Hpl B1 ltac:(lia)). exists (scalar_size b). split; [|exact B3]. apply scalar_required; cbn [v_len v_pos]; assumption || lia.
  - apply (plain_iff false w (V p l) d b f Hpl B1 ltac:(lia)). exists (scalar_size b). split; [|exact B3]. apply scalar_required; cbn [v_len v_pos]; assumption || lia.
  - destruct (text_byte _ _ Ht) as (b & B1 & B2). apply (plain_iff s w (V p l) d b f Hpl B1 ltac:(lia)).
    destruct (proj1 (text_reads (V p l) b Hin Hl B1 B2) Ht) as (n & N1 & N2). exists n. split; [exact N1|]. cbn [v_pos v_len] in *. destruct s; lia.
  - destruct (header_byte _ _ _ _ _ Hh) as (b & B1 & B2). apply (collection_iff s w (V p l) d b f Hpl B1 B2).
    exists wide, n, first. split; [exact Hh|]. split; [exact Hfit|]. intros j Hj.
    pose proof (slot_placed (V p l) d s w wide n first j Hpl Hh Hfit Hj) as Hps. apply (IH j Hj f Hps).
    assert (p + 2 <= first).
    { destruct Hh as (b0 & b1 & _ & _ & _ & _ & Hh). cbv zeta in Hh. destruct Hh as [(_ & _ & ->)|[(_ & _ & _ & ->)|(_ & m & x & Hp & _ & ->)]]; [lia|lia|]. pose proof (prefix_range _ _ _ _ Hp). lia. }
    unfold meas in *; cbn [v_pos] in *. change width with (width_of wide) in *.
    assert (Hw24 : width_of wide = 2 \/ width_of wide = 4) by (destruct wide; cbn; lia).
    assert (0 <= j * width_of wide /\ (j + 1) * width_of wide <= n * width_of wide) by nia. lia.
  - destruct (leads_byte _ _ _ _ _ Ht) as (b & B1 & B2). apply (pointer_iff s w (V p l) d b f Hpl B1 B2). exists (V t tl). split; [exact Ht|].
    pose proof (target_placed s w (V p l) d b (V t tl) Hpl B1 B2 Ht) as Hpt. apply IH; [exact Hpt|].
    destruct Hpt as (P1 & P2 & P3 & _). cbn [p_val p_end v_pos v_len] in *. unfold meas in *; cbn [v_pos] in *. lia.
Qed.

(* ---------- the root ---------- *)

Lemma root_iff p l : find_root e = Ret (Ok (V p l)) <->
  let n := lenZ bs in 2 <= n /\ n mod 2 = 0 /\ (leads_to bs (n - 2) 2 false p l \/ n = 2 /\ p = 0 /\ l = 2 /\ exists b, byte_at bs 0 b /\ b < 128).
Proof using Hwf.
  unfold find_root. cbv zeta. fold bs. pose proof (lenZ_nonneg bs) as Hnn. destruct (_ || _) eqn:E.
  { split; [discriminate|]. intros (A & B & _). lia. }
  assert (Hin : inslice e (V (lenZ bs - 2) 2)) by (unfold inslice; cbn [v_pos v_len]; fold bs; lia).
  destruct (at_in (lenZ bs - 2)) as (b & Hb & Hby); [unfold bs in *; lia|].
  rewrite (type_at (V (lenZ bs - 2) 2) b Hin ltac:(cbn [v_len]; lia) Hb). cbn [bind]. rewrite (pointer_byte b Hby).
  destruct (128 <=? b) eqn:E8.
  - rewrite (leads (fuel_of e) (V (lenZ bs - 2) 2) false (V p l) b Hin) by (cbn [v_len v_pos]; assumption || lia || exact (fuel_enough e _ Hin)).
    cbn [v_pos v_len]. split; [intros H; split; [lia|]; split; [lia|]; left; exact H|].
    intros (_ & _ & [H|(H1 & _ & _ & b' & B1 & B2)]); [exact H|]. exfalso. rewrite H1 in Hb. pose proof (at_fun _ _ _ Hb B1). lia.
  - split.
    + destruct (_ =? 2) eqn:E2; [|discriminate]. intros H. apply ret_inj in H. injection H as <- <-. split; [lia|]. split; [lia|]. right.
      split; [lia|]. split; [lia|]. split; [reflexivity|]. exists b. split; [|lia]. replace 0 with (lenZ bs - 2) by lia. exact Hb.
    + intros (_ & _ & [H|(H1 & -> & -> & _)]).
      * exfalso. destruct (leads_byte _ _ _ _ _ H) as (b' & B1 & B2). pose proof (at_fun _ _ _ Hb B1). lia.
      * rewrite H1. reflexivity.
Qed.

Theorem accepted_exactly p l : from_bytes e = Ret (Ok (V p l)) <-> document bs p l.
Proof using Hwf Hck.
  unfold document. split.
  - intros H. unfold from_bytes in H. apply bindr_inv in H. destruct H as (r & Hr & H). apply bindr_inv in H. destruct H as ([] & Hv & H).
    apply ret_inj in H. injection H as ->. pose proof (root_placed e Hwf _ Hr) as Hpl. apply root_iff in Hr. destruct Hr as (R1 & R2 & R3).
    split; [exact R1|]. split; [exact R2|]. split; [exact R3|]. exact (accepted_valid (fuel_of e) false false (V p l) (lenZ bs) Hpl Hv).
  - intros (R1 & R2 & R3 & Hv). assert (Hr : find_root e = Ret (Ok (V p l))) by (apply root_iff; auto). unfold from_bytes. rewrite Hr. cbn [bindr].
    pose proof (root_placed e Hwf _ Hr) as Hpl. pose proof (valid_accepted _ _ _ _ _ Hv (fuel_of e) Hpl) as Hc.
    unfold check, Panics.check in Hc. cbn [p_slot p_wide p_val p_end] in Hc. fold bs. rewrite Hc; [reflexivity|].
    destruct Hpl as (A & _). cbn [p_val] in A. unfold meas, fuel_of. destruct A as (A1 & A2 & A3). unfold bs, lenZ in *. cbn [v_pos v_len] in *. lia.
Qed.
Theorem refused_exactly : (exists er, from_bytes e = Ret (Err er)) <->
  (forall p l, ~ document bs p l) /\ ~ root_external e /\ forall a, visits e a -> ~ mishap e a.
Proof using Hwf Hck.
  split.
  - intros (er & H). split; [intros p l Hd; apply accepted_exactly in Hd; congruence|].
    assert (N : from_bytes e <> Panic) by congruence. rewrite (panics_exactly e Hwf ck) in N. split; [auto|]. intros a Ha Hm. apply N. right. eauto.
  - intros (N1 & N2 & N3). destruct (otherwise_returns e Hwf ck N2 N3) as ([[p l]|er] & Hr); [|eauto]. exfalso. apply (N1 p l). apply accepted_exactly. exact Hr.
Qed.
End Grammar.

(** Where the bytes are and how the library was built makes no difference. *)
Theorem same_everywhere e e' : wf_env e -> wf_env e' -> e_data e = e_data e' ->
  (e_dbg e = true \/ modest e /\ no_long_run (e_data e)) -> (e_dbg e' = true \/ modest e' /\ no_long_run (e_data e')) ->
  forall v, from_bytes e = Ret (Ok v) <-> from_bytes e' = Ret (Ok v).
Proof.
  intros W W' Hd C C' [p l]. rewrite (accepted_exactly e W C p l), (accepted_exactly e' W' C' p l), Hd. reflexivity.
Qed.

(** Decidable check for [no_long_run]. *)
Definition no_long_runb (bs : list Z) : bool :=
  forallb (fun p => existsb (fun i => match nthZ bs (Z.of_nat p + Z.of_nat i) with Some b => b <? 128 | None => true end) (seq 0 10)) (seq 0 (length bs)).
Lemma no_long_runb_ok bs : no_long_runb bs = true -> no_long_run bs.
Proof.
  intros H p. destruct (Z_lt_ge_dec p 0) as [Hp|Hp].
  { exists 0. split; [lia|]. intros b Hb. exfalso. unfold byte_at, nthZ in Hb. destruct (_ <? 0) eqn:E; [discriminate|lia]. }
  destruct (Z_lt_ge_dec p (lenZ bs)) as [Hl|Hl].
  - unfold no_long_runb in H. rewrite forallb_forall in H. specialize (H (Z.to_nat p)). rewrite in_seq in H. unfold lenZ in Hl. specialize (H ltac:(lia)).
    apply existsb_exists in H. destruct H as (i & Hi & H). rewrite in_seq in Hi. exists (Z.of_nat i). split; [lia|]. intros b Hb. rewrite Z2Nat.id in H by lia.
    unfold byte_at in Hb. rewrite Hb in H. lia.
  - exists 0. split; [lia|]. intros b Hb. exfalso. replace (p + 0) with p in Hb by lia. unfold byte_at in Hb. apply nthZ_Some in Hb. lia.
Qed.
