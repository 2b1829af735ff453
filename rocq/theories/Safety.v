(** Decoding arbitrary bytes: bounds, termination, and what acceptance means. *)
From Coq Require Import ZifyBool ZifyNat ZifyN.
From Verif Require Import Prelude Lib Varint VarintProofs Utf8 Float SharedKeys Decode Read ReadSpec Repr.
Ltac Zify.zify_post_hook ::= Z.div_mod_to_equations.

Lemma safe_ret {A} (a : A) : safe (Ret a).
Proof. split; discriminate. Qed.
Lemma safe_panic {A} : safe (@Panic A).
Proof. split; discriminate. Qed.
Lemma safe_bind {A B} (m : outcome A) (k : A -> outcome B) :
  safe m -> (forall a, m = Ret a -> safe (k a)) -> safe (bind m k).
Proof. intros [H1 H2] Hk. destruct m; cbn [bind]; [apply Hk; reflexivity|apply safe_panic|congruence|congruence]. Qed.
Lemma safe_bindr {A B E} (m : outcome (result A E)) (k : A -> outcome (result B E)) :
  safe m -> (forall a, m = Ret (Ok a) -> safe (k a)) -> safe (bindr m k).
Proof.
  intros [H1 H2] Hk. destruct m as [[a|er]| | |]; cbn [bindr]; [apply Hk; reflexivity|apply safe_ret|apply safe_panic|congruence|congruence].
Qed.
Lemma ret_inj {A} (a b : A) : Ret a = Ret b -> a = b.
Proof. congruence. Qed.
Lemma bind_inv {A B} (m : outcome A) (k : A -> outcome B) b :
  bind m k = Ret b -> exists a, m = Ret a /\ k a = Ret b.
Proof. destruct m; cbn [bind]; try discriminate. eauto. Qed.
Lemma bindr_inv {A B E} (m : outcome (result A E)) (k : A -> outcome (result B E)) b :
  bindr m k = Ret (Ok b) -> exists a, m = Ret (Ok a) /\ k a = Ret (Ok b).
Proof. destruct m as [[a|er]| | |]; cbn [bindr]; try discriminate. eauto. Qed.

Ltac binv H :=
  match type of H with
  | bind _ _ = Ret _ => let x := fresh "x" in let Hx := fresh "Hx" in
      apply bind_inv in H; destruct H as (x & Hx & H); cbv beta in H
  | bindr _ _ = Ret (Ok _) => let x := fresh "x" in let Hx := fresh "Hx" in
      apply bindr_inv in H; destruct H as (x & Hx & H); cbv beta in H
  end.

Lemma usize_add_safe dbg a b : safe (usize_add dbg a b).
Proof. unfold usize_add. destruct (a + b <? two64), dbg; auto using safe_ret, safe_panic. Qed.
Lemma usize_mul_safe dbg a b : safe (usize_mul dbg a b).
Proof. unfold usize_mul. destruct (a * b <? two64), dbg; auto using safe_ret, safe_panic. Qed.
Lemma usize_sub_safe dbg a b : safe (usize_sub dbg a b).
Proof. unfold usize_sub. destruct (b <=? a), dbg; auto using safe_ret, safe_panic. Qed.
Lemma usize_add_dbg a b c : usize_add true a b = Ret c -> c = a + b /\ a + b < two64.
Proof. unfold usize_add. destruct (a + b <? two64) eqn:E; [|discriminate]. intros H; injection H as <-. lia. Qed.
Lemma usize_mul_dbg a b c : usize_mul true a b = Ret c -> c = a * b /\ a * b < two64.
Proof. unfold usize_mul. destruct (a * b <? two64) eqn:E; [|discriminate]. intros H; injection H as <-. lia. Qed.

Lemma lor_lt n a b : 0 <= n -> 0 <= a < 2 ^ n -> 0 <= b < 2 ^ n -> 0 <= Z.lor a b < 2 ^ n.
Proof.
  intros Hn Ha Hb. split; [apply Z.lor_nonneg; lia|].
  destruct (Z.eq_dec (Z.lor a b) 0) as [E|E]; [rewrite E; lia|].
  assert (H0 : 0 < Z.lor a b) by (pose proof (proj2 (Z.lor_nonneg a b) ltac:(lia)); lia).
  apply Z.log2_lt_pow2; [exact H0|]. rewrite Z.log2_lor by lia.
  destruct (Z.eq_dec a 0) as [->|Ha0]; destruct (Z.eq_dec b 0) as [->|Hb0].
  - cbn in E. congruence.
  - change (Z.log2 0) with 0. rewrite Z.max_r by apply Z.log2_nonneg. apply Z.log2_lt_pow2; lia.
  - change (Z.log2 0) with 0. rewrite Z.max_l by apply Z.log2_nonneg. apply Z.log2_lt_pow2; lia.
  - apply Z.max_lub_lt; apply Z.log2_lt_pow2; lia.
Qed.

(* ---------- slices inside the buffer ---------- *)

Section Env.
Variable e : env.
Hypothesis Hwf : wf_env e.

Lemma raw_ok p : 0 <= p < lenZ (e_data e) -> exists b, raw e p = Ret b /\ is_byte b.
Proof.
  intros Hp. destruct (nthZ_in (e_data e) p Hp) as [b Hb]. exists b. unfold raw. rewrite Hb.
  split; [reflexivity|]. destruct Hwf as [Hby _]. eapply nthZ_Forall; eauto.
Qed.
Lemma vbyte_safe v i : inslice e v -> safe (vbyte e v i).
Proof.
  intros (H1 & H2 & H3). unfold vbyte. destruct ((0 <=? i) && (i <? v_len v)) eqn:E; [|apply safe_panic].
  destruct (raw_ok (v_pos v + i)) as (b & -> & _); [lia|apply safe_ret].
Qed.
Lemma vbyte_byte v i b : vbyte e v i = Ret b -> is_byte b /\ 0 <= v_pos v + i < lenZ (e_data e).
Proof.
  unfold vbyte. destruct ((0 <=? i) && (i <? v_len v)) eqn:E; [|discriminate].
  unfold raw. destruct (nthZ (e_data e) (v_pos v + i)) eqn:En; [|discriminate]. intros H; injection H as <-.
  split; [|eapply nthZ_Some; eauto]. destruct Hwf as [Hby _]. eapply nthZ_Forall; eauto.
Qed.
Lemma value_type_safe v : inslice e v -> safe (value_type e v).
Proof. intros H. apply safe_bind; [apply vbyte_safe; exact H|intros; apply safe_ret]. Qed.
Lemma value_type_ok v : inslice e v -> 1 <= v_len v -> exists ty, value_type e v = Ret ty.
Proof.
  intros (H1 & H2 & H3) H4. unfold value_type, vbyte. destruct (raw_ok (v_pos v + 0)) as (b & Hb & _); [lia|].
  destruct ((0 <=? 0) && (0 <? v_len v)) eqn:E; [|lia]. rewrite Hb. cbn [bind]. eauto.
Qed.
Lemma get_short_safe v : inslice e v -> safe (get_short e v).
Proof.
  intros (H1 & H2 & H3). unfold get_short. destruct (v_len v <? 2) eqn:E; [apply safe_panic|].
  destruct (raw_ok (v_pos v)) as (b & -> & _); [lia|]. destruct (raw_ok (v_pos v + 1)) as (b1 & -> & _); [lia|]. apply safe_ret.
Qed.
Lemma get_short_range v s : get_short e v = Ret s -> 0 <= s < 4096 /\ 2 <= v_len v.
Proof.
  unfold get_short. destruct (v_len v <? 2) eqn:E; [discriminate|]. intros H. binv H. binv H. injection H as <-.
  assert (Hb : forall p b, raw e p = Ret b -> is_byte b).
  { intros p b. unfold raw. destruct (nthZ (e_data e) p) eqn:En; [|discriminate]. intros Hq; injection Hq as <-.
    destruct Hwf as [Hby _]. eapply nthZ_Forall; eauto. }
  apply Hb in Hx, Hx0. unfold is_byte in *. rewrite land_15. lia.
Qed.

Lemma varint_loop_safe dbg get len : (forall i, 0 <= i < len -> exists b, get i = Ret b /\ is_byte b) ->
  forall n i shift res, 0 <= i -> 0 <= shift -> 0 <= res < two64 ->
  safe (varint_read_loop dbg get len n i shift res) /\
  forall r v, varint_read_loop dbg get len n i shift res = Ret (r, v) ->
    0 <= v < two64 /\ 0 <= r <= Z.max 0 len /\ r <= i + Z.of_nat n + 1.
Proof.
  intros Hget. induction n as [|n IH]; intros i shift res Hi Hs Hr; cbn [varint_read_loop].
  { split; [apply safe_ret|]. intros r v H; injection H as <- <-. unfold two64; lia. }
  destruct (i + 1 <? len) eqn:El.
  2:{ split; [apply safe_ret|]. intros r v H; injection H as <- <-. unfold two64; lia. }
  destruct (Hget (i + 1)) as (b & Hb & Hby); [lia|]. rewrite Hb. cbn [bind]. unfold is_byte in Hby.
  assert (Hshl : forall x x', u64_shl dbg x shift = Ret x' -> 0 <= x' < two64).
  { intros x x'. unfold u64_shl, wrap_u64.
    destruct (shift <? 64); [|destruct dbg; [discriminate|]]; intros H; injection H as <-; apply Z.mod_pos_bound; reflexivity. }
  assert (Hshs : forall x, safe (u64_shl dbg x shift)).
  { intros x. unfold u64_shl. destruct (shift <? 64); [apply safe_ret|]. destruct dbg; [apply safe_panic|apply safe_ret]. }
  assert (Hlor : forall x', 0 <= x' < two64 -> 0 <= Z.lor res x' < two64) by (intros; apply (lor_lt 64); [lia|exact Hr|assumption]).
  destruct (128 <=? b).
  - split.
    + apply safe_bind; [apply Hshs|]. intros x' Hx'. apply IH; try lia; eauto.
    + intros r v H. binv H. apply IH in H; try lia; eauto.
  - split.
    + apply safe_bind; [apply Hshs|]. intros x' Hx'. destruct (_ && _); apply safe_ret.
    + intros r v H. binv H. destruct (_ && _); injection H as <- <-; [unfold two64; lia|]. specialize (Hlor _ (Hshl _ _ Hx)). lia.
Qed.
Lemma varint_at_safe v off : inslice e v -> 0 <= off ->
  safe (varint_at e v off) /\
  forall r x, varint_at e v off = Ret (r, x) -> 0 <= x < two64 /\ 0 <= r <= 11 /\ off <= v_len v /\ off + r <= v_len v.
Proof.
  intros (H1 & H2 & H3) Ho. unfold varint_at. destruct (v_len v <? off) eqn:E; [split; [apply safe_panic|discriminate]|].
  unfold varint_read. destruct (v_len v - off <=? 0) eqn:E0.
  { split; [apply safe_ret|]. intros r x H; injection H as <- <-. unfold two64; lia. }
  assert (Hget : forall i, 0 <= i < v_len v - off -> exists b, raw e (v_pos v + off + i) = Ret b /\ is_byte b)
    by (intros; apply raw_ok; lia).
  destruct (Hget 0) as (b & Hb & Hby); [lia|]. rewrite Hb. cbn [bind]. unfold is_byte in Hby.
  destruct (b <? 128) eqn:Eb.
  { split; [apply safe_ret|]. intros r x H; injection H as <- <-. unfold two64; lia. }
  assert (Hl : 0 <= Z.land b 127 < two64) by (rewrite land_127; unfold two64; lia).
  destruct (varint_loop_safe (e_dbg e) _ (v_len v - off) Hget 10 0 7 (Z.land b 127)) as [Hs Hr]; try lia.
  split; [exact Hs|]. intros r x H. apply Hr in H. lia.
Qed.
Lemma vslice_inv v a b s : vslice v a b = Ret s -> a <= b <= v_len v /\ s = V (v_pos v + a) (b - a).
Proof. unfold vslice. destruct (_ && _) eqn:E; [|discriminate]. intros H; injection H as <-. split; [lia|reflexivity]. Qed.
Lemma vslice_safe v a b : safe (vslice v a b).
Proof. unfold vslice. destruct (_ && _); auto using safe_ret, safe_panic. Qed.
Lemma get_data_safe v : inslice e v -> safe (get_data e v) /\
  forall s, get_data e v = Ret s -> inslice e s /\ v_pos v <= v_pos s /\ v_pos s + v_len s <= v_pos v + v_len v.
Proof.
  intros Hin. pose proof Hin as (H1 & H2 & H3). unfold get_data. destruct (v_len v <? 2) eqn:E.
  { split; [apply safe_ret|]. intros s H; injection H as <-. unfold inslice; cbn [v_pos v_len]. lia. }
  assert (Hsl : forall a b s, 0 <= a -> vslice v a b = Ret s -> inslice e s /\ v_pos v <= v_pos s /\ v_pos s + v_len s <= v_pos v + v_len v).
  { intros a b s Ha H. apply vslice_inv in H as [Hab ->]. unfold inslice; cbn [v_pos v_len]. lia. }
  assert (Hbs : safe (vbyte e v 0)) by (apply vbyte_safe; exact Hin).
  split.
  - apply safe_bind; [exact Hbs|]. intros b0 Hb0. cbv zeta. destruct (Z.land b0 15 =? 15); [|apply vslice_safe].
    apply safe_bind; [apply varint_at_safe; [exact Hin|lia]|]. intros [r x] Hr. destruct (r =? 0); [apply safe_ret|].
    apply safe_bind; [apply usize_add_safe|]. intros; apply vslice_safe.
  - intros s H. binv H. destruct (Z.land x 15 =? 15).
    + binv H. destruct x0 as [r y]. apply varint_at_safe in Hx0; [|exact Hin|lia].
      destruct (r =? 0); [injection H as <-; unfold inslice; cbn [v_pos v_len]; lia|]. binv H. eapply (Hsl (1 + r)); [lia|exact H].
    + eapply (Hsl 1); [lia|exact H].
Qed.
Lemma raw_bytes_safe p n : 0 <= p -> p + n <= lenZ (e_data e) -> safe (raw_bytes e p n).
Proof. intros H1 H2. unfold raw_bytes. destruct (n <=? 0); [apply safe_ret|]. destruct (_ && _) eqn:E; [apply safe_ret|lia]. Qed.
Lemma raw_bytes_ok p n : 0 <= p -> 0 < n -> p + n <= lenZ (e_data e) -> raw_bytes e p n = Ret (subl (e_data e) p n).
Proof. intros H1 H2 H3. unfold raw_bytes. destruct (n <=? 0) eqn:E1; [lia|]. destruct (_ && _) eqn:E; [reflexivity|lia]. Qed.
Lemma slice_content_safe s : inslice e s -> safe (slice_content e s).
Proof. intros (H1 & H2 & H3). apply raw_bytes_safe; lia. Qed.

Lemma required_size_safe v : inslice e v -> safe (required_size e v).
Proof.
  intros Hin. unfold required_size. apply safe_bind; [apply value_type_safe; exact Hin|]. intros ty _.
  destruct ty; try apply safe_ret.
  - apply safe_bind; [apply vbyte_safe; exact Hin|intros; apply safe_ret].
  - apply safe_bind; [apply vbyte_safe; exact Hin|intros; apply safe_ret].
  - apply safe_bind; [apply get_data_safe; exact Hin|intros; apply safe_ret].
  - apply safe_bind; [apply get_data_safe; exact Hin|intros; apply safe_ret].
Qed.
Lemma from_raw_safe p w : inslice e (V p w) -> safe (from_raw e p w) /\
  forall x, from_raw e p w = Ret (Ok x) -> x = V p w /\ 2 <= w /\ exists n, required_size e x = Ret n /\ n <= w.
Proof.
  intros Hin. unfold from_raw. cbv zeta. cbn [v_len]. destruct (w <? 2) eqn:E.
  - split; [|intros x H; binv H; binv H; discriminate].
    apply safe_bind; [apply value_type_safe; exact Hin|]. intros. apply safe_bind; [apply required_size_safe; exact Hin|]. intros; apply safe_ret.
  - split.
    + apply safe_bind; [apply required_size_safe; exact Hin|]. intros n _. destruct (w <? n); [|apply safe_ret].
      apply safe_bind; [apply value_type_safe; exact Hin|]. intros; apply safe_ret.
    + intros x H. binv H. destruct (w <? x0) eqn:E2; [binv H; discriminate|]. injection H as <-. split; [reflexivity|].
      split; [lia|]. exists x0. split; [exact Hx|lia].
Qed.

Lemma get_offset_spec v wide : inslice e v -> width_of wide <= v_len v ->
  exists off, get_offset e v wide = Ret off /\ 0 <= off < 2147483648 /\ off mod 2 = 0.
Proof.
  intros (H1 & H2 & H3) Hw. unfold get_offset. destruct wide; cbn [width_of] in Hw.
  - rewrite raw_bytes_ok by lia. cbn [bind]. eexists. split; [reflexivity|]. rewrite land_3fffffff. lia.
  - rewrite raw_bytes_ok by lia. cbn [bind]. eexists. split; [reflexivity|]. rewrite land_3fff. lia.
Qed.
Lemma ptr_target_eq v off : inslice e v -> 1 <= v_len v -> 0 <= off < 2147483648 ->
  ptr_target e v off = v_pos v - off.
Proof.
  intros (H1 & H2 & H3) Hl Ho. destruct Hwf as (_ & Hb & Hb2). unfold ptr_target, wrap_u64.
  rewrite Z.mod_small; [lia|]. unfold two63, two64 in *. lia.
Qed.

Lemma deref_checked_safe : forall f v wide, inslice e v -> v_pos v < Z.of_nat f ->
  safe (deref_checked f e v wide) /\
  forall t, deref_checked f e v wide = Ret (Ok t) ->
    inslice e t /\ 2 <= v_len t /\ v_pos t + v_len t <= v_pos v /\ v_pos t mod 2 = v_pos v mod 2 /\
    exists ty, value_type e t = Ret ty /\ ty <> TyPointer.
Proof.
  induction f as [|f IH]; intros v wide Hin Hf; [exfalso; destruct Hin; lia|]. cbn [deref_checked].
  destruct ((wide && (v_len v <? 4)) || (v_len v <? 2)) eqn:E; [split; [apply safe_ret|discriminate]|].
  assert (Hw : width_of wide <= v_len v) by (destruct wide; cbn [width_of andb] in *; lia).
  destruct (get_offset_spec v wide Hin Hw) as (off & -> & Ho & Hev). cbn [bind].
  destruct (off =? 0) eqn:E0; [split; [apply safe_ret|discriminate]|].
  assert (Hl : 2 <= v_len v) by (destruct wide; cbn [width_of] in *; lia).
  rewrite (ptr_target_eq v off Hin ltac:(lia) Ho).
  assert (Hb : safe (vbyte e v 0)) by (apply vbyte_safe; exact Hin).
  destruct (vbyte e v 0) as [b0| | |]; cbn [bind]; [|split; [apply safe_panic|discriminate]|destruct Hb; congruence|destruct Hb; congruence].
  destruct (negb _); [split; [apply safe_panic|discriminate]|].
  destruct (v_pos v - off <? 0) eqn:E1; [split; [apply safe_ret|discriminate]|].
  assert (Hin' : inslice e (V (v_pos v - off) off)).
  { destruct Hin as (H1 & H2 & H3). unfold inslice; cbn [v_pos v_len]. lia. }
  destruct (value_type_ok _ Hin') as [ty Hty]; [cbn [v_len]; lia|]. rewrite Hty. cbn [bind].
  destruct (vtype_eqb ty TyPointer) eqn:Et.
  - destruct (IH _ true Hin') as [Hs Ht]; [cbn [v_pos]; lia|]. split; [exact Hs|].
    intros t H. apply Ht in H. cbn [v_pos] in H. destruct H as (A & B & C & D & F).
    split; [exact A|]. split; [exact B|]. split; [lia|]. split; [lia|exact F].
  - split; [apply safe_ret|]. intros t H. injection H as <-. cbn [v_pos v_len]. split; [exact Hin'|].
    split; [lia|]. split; [lia|]. split; [lia|]. exists ty. split; [exact Hty|]. intros ->. discriminate.
Qed.

End Env.

Lemma deref_agree : forall f e v wide t,
  deref_checked f e v wide = Ret (Ok t) -> deref_unchecked f e v wide = Ret t.
Proof.
  induction f as [|f IH]; intros e v wide t H; cbn [deref_checked deref_unchecked] in *; [discriminate|].
  destruct (_ || _); [discriminate|]. binv H. rewrite Hx. cbn [bind].
  destruct (x =? 0); [discriminate|]. rewrite andb_false_r. binv H.
  destruct (negb _); [discriminate|]. destruct (_ <? 0); [discriminate|]. binv H. rewrite Hx1. cbn [bind].
  destruct (vtype_eqb x1 TyPointer); [apply IH; exact H|congruence].
Qed.

(** C24 *)
Lemma checked_unchecked e v : from_bytes e = Ret (Ok v) -> from_bytes_unchecked e = Ret v.
Proof.
  intros H. unfold from_bytes in H. binv H. binv H. injection H as <-.
  unfold find_root in Hx. cbv zeta in Hx. unfold from_bytes_unchecked. cbv zeta.
  destruct ((lenZ (e_data e) =? 0) || negb (lenZ (e_data e) mod 2 =? 0)) eqn:E; [discriminate|].
  pose proof (lenZ_nonneg (e_data e)). destruct (lenZ (e_data e) <? 2) eqn:E2; [lia|].
  binv Hx. rewrite Hx1. cbn [bind]. destruct (vtype_eqb x1 TyPointer); [apply deref_agree; exact Hx|].
  destruct (lenZ (e_data e) =? 2); [congruence|discriminate].
Qed.

(* ---------- collections ---------- *)

Lemma usize_mul_ok dbg a b c : usize_mul dbg a b = Ret c -> dbg = true \/ a * b < two64 -> c = a * b /\ c < two64.
Proof.
  unfold usize_mul. destruct (a * b <? two64) eqn:E; [intros H; injection H as <-; lia|].
  intros H [->|Hb]; [discriminate|lia].
Qed.
Lemma usize_add_ok dbg a b c : usize_add dbg a b = Ret c -> dbg = true \/ a + b < two64 -> c = a + b /\ c < two64.
Proof.
  unfold usize_add. destruct (a + b <? two64) eqn:E; [intros H; injection H as <-; lia|].
  intros H [->|Hb]; [discriminate|lia].
Qed.

Section Coll.
Variable e : env.
Hypothesis Hwf : wf_env e.

Lemma arr_is_wide_safe v : inslice e v -> safe (arr_is_wide e v).
Proof. intros H. apply safe_bind; [apply vbyte_safe; assumption|intros; apply safe_ret]. Qed.
Lemma arr_is_wide_ok v : inslice e v -> 1 <= v_len v -> exists w, arr_is_wide e v = Ret w.
Proof.
  intros (H1 & H2 & H3) H4. unfold arr_is_wide, vbyte. destruct (raw_ok e Hwf (v_pos v + 0)) as (b & Hb & _); [lia|].
  destruct ((0 <=? 0) && (0 <? v_len v)) eqn:E; [|lia]. rewrite Hb. cbn [bind]. eauto.
Qed.
Lemma arr_len_safe v : inslice e v -> safe (arr_len e v).
Proof.
  intros H. unfold arr_len. apply safe_bind; [apply get_short_safe; assumption|]. intros s Hs.
  destruct (_ =? _).
  - apply safe_bind; [apply varint_at_safe; [assumption|assumption|lia]|]. intros [r x] _. destruct (r =? 0); [apply safe_ret|].
    apply safe_bind; [apply value_type_safe; assumption|]. intros t _. destruct (vtype_eqb t TyDict); [apply usize_mul_safe|apply safe_ret].
  - apply safe_bind; [apply value_type_safe; assumption|]. intros t _. destruct (vtype_eqb t TyDict); apply safe_ret.
Qed.
Lemma arr_len_range v n : inslice e v -> arr_len e v = Ret n ->
  0 <= n < two64 /\ 2 <= v_len v /\ (modest e -> n < 1152921504606846976) /\
  (value_type e v = Ret TyDict -> n mod 2 = 0).
Proof.
  intros Hin H. unfold arr_len in H. binv H. pose proof (get_short_range e Hwf _ _ Hx) as [Hs Hl].
  assert (Hm : 0 <= Z.land x VARINT_COUNT < 2048) by (unfold VARINT_COUNT; rewrite land_2047; lia).
  destruct (_ =? _).
  - binv H. destruct x0 as [r y]. pose proof (proj2 (varint_at_safe e Hwf v 2 Hin ltac:(lia)) _ _ Hx0) as (Hy & _).
    destruct (r =? 0); [injection H as <-; unfold two64; repeat split; intros; lia|]. binv H.
    assert (Hmd : modest e -> y < 576460752303423488) by (intros Hmd; eapply Hmd; [exact Hin|exact Hx0]).
    destruct (vtype_eqb x0 TyDict) eqn:Et.
    + assert (Hu : 0 <= n < two64 /\ n mod 2 = 0 /\ n <= y * 2).
      { unfold usize_mul in H. destruct (y * 2 <? two64) eqn:E2; [injection H as <-; lia|].
        destruct (e_dbg e); [discriminate|]. apply ret_inj in H. subst n. unfold wrap_u64, two64 in *. lia. }
      split; [lia|]. split; [exact Hl|]. split; [intros Hmm; specialize (Hmd Hmm); lia|]. intros _. lia.
    + injection H as <-. split; [exact Hy|]. split; [exact Hl|]. split; [intros Hmm; specialize (Hmd Hmm); lia|].
      intros Hty. rewrite Hx1 in Hty. injection Hty as ->. discriminate.
  - binv H. destruct (vtype_eqb x0 TyDict) eqn:Et; injection H as <-; unfold two64; repeat split; intros; try lia.
    rewrite Hx0 in H. injection H as ->. discriminate.
Qed.
Lemma first_pos_safe v : inslice e v -> safe (first_pos e v).
Proof.
  intros H. unfold first_pos. destruct (_ <? 2); [apply safe_ret|].
  apply safe_bind; [apply get_short_safe; assumption|]. intros s Hs. destruct (_ =? _); [|apply safe_ret].
  apply safe_bind; [apply varint_at_safe; [assumption|assumption|lia]|]. intros [r x] _. apply safe_ret.
Qed.
Lemma first_pos_range v fp : inslice e v -> 2 <= v_len v -> first_pos e v = Ret fp ->
  2 <= fp <= 14 /\ fp <= v_len v + 1 /\ fp mod 2 = 0.
Proof.
  intros Hin Hl H. unfold first_pos in H. destruct (v_len v <? 2) eqn:E; [lia|]. binv H.
  destruct (_ =? _); [|injection H as <-; lia]. binv H. destruct x0 as [r y].
  pose proof (proj2 (varint_at_safe e Hwf v 2 Hin ltac:(lia)) _ _ Hx0) as (_ & Hr & _ & Hr2).
  destruct (r mod 2 =? 0) eqn:Er; cbn [negb] in H; apply ret_inj in H; subst fp; lia.
Qed.

(* ---------- what validation accepts ---------- *)

Definition is_coll (ty : vtype) : Prop := ty = TyArray \/ ty = TyDict.

Inductive good : val -> Z -> Prop :=
| good_scalar v dend ty n :
    inslice e v -> 2 <= v_len v -> v_pos v + v_len v <= dend ->
    value_type e v = Ret ty -> ty <> TyPointer -> ~ is_coll ty ->
    required_size e v = Ret n -> v_pos v + n <= dend -> good v dend
| good_coll v dend ty wide n fp :
    inslice e v -> 2 <= v_len v -> v_pos v + v_len v <= dend ->
    value_type e v = Ret ty -> is_coll ty ->
    arr_is_wide e v = Ret wide -> arr_len e v = Ret n -> first_pos e v = Ret fp ->
    v_pos v + fp + n * width_of wide <= dend ->
    (forall i, 0 <= i < n -> good_slot (V (v_pos v + fp + i * width_of wide) (width_of wide)) wide) ->
    good v dend
with good_slot : val -> bool -> Prop :=
| slot_inline s wide : good s (v_pos s + v_len s) -> v_len s = width_of wide -> good_slot s wide
| slot_ptr s wide t :
    inslice e s -> v_len s = width_of wide ->
    value_type e s = Ret TyPointer ->
    deref_checked (fuel_of e) e s wide = Ret (Ok t) -> good t (v_pos s) -> good_slot s wide.

Lemma fuel_enough v : inslice e v -> v_pos v < Z.of_nat (fuel_of e).
Proof. intros (H1 & H2 & H3). unfold fuel_of, lenZ in *. lia. Qed.

(** The recursion measure: the end of the region a value may occupy only moves down, and it
    stays put only when the value itself is a slot at its very end. *)
Definition meas (v : val) (dend : Z) : Z := 3 * dend + Z.min (dend - v_pos v) 6.

Lemma elems_loop_safe stp w n : w = 2 \/ w = 4 -> forall k i cur,
  0 <= i <= n -> n - i < Z.of_nat k ->
  (forall j, i <= j < n -> safe (stp (cur + (j - i) * w))) -> safe (elems_loop stp k i n cur w).
Proof.
  intros Hw. induction k as [|k IH]; intros i cur Hi Hk Hs; cbn [elems_loop].
  - lia.
  - destruct (i <? n) eqn:E; [|apply safe_ret]. apply safe_bindr.
    + specialize (Hs i ltac:(lia)). replace (cur + (i - i) * w) with cur in Hs by lia. exact Hs.
    + intros _ _. apply IH; [lia|lia|]. intros j Hj. specialize (Hs j ltac:(lia)).
      replace (cur + w + (j - (i + 1)) * w) with (cur + (j - i) * w) by lia. exact Hs.
Qed.
Lemma elems_loop_inv stp w n : forall k i cur, elems_loop stp k i n cur w = Ret (Ok tt) ->
  forall j, i <= j < n -> stp (cur + (j - i) * w) = Ret (Ok tt).
Proof.
  induction k as [|k IH]; intros i cur H j Hj; cbn [elems_loop] in H; [discriminate|].
  destruct (i <? n) eqn:E; [|lia]. binv H. destruct x.
  destruct (Z.eq_dec j i) as [->|Hne]; [replace (cur + (i - i) * w) with cur by lia; exact Hx|].
  specialize (IH _ _ H j ltac:(lia)). replace (cur + w + (j - (i + 1)) * w) with (cur + (j - i) * w) in IH by lia. exact IH.
Qed.

Lemma required_size_range v n : inslice e v -> required_size e v = Ret n -> 2 <= n <= lenZ (e_data e) + 80.
Proof.
  intros Hin H. unfold required_size in H. binv H. pose proof (lenZ_nonneg (e_data e)).
  assert (Hd : forall s, get_data e v = Ret s -> 2 <= (if v_len s <=? 1 then 2 else if v_len s <=? 14 then 1 + v_len s else 1 + varint_size (v_len s) + v_len s) <= lenZ (e_data e) + 80).
  { intros s Hs. apply get_data_safe in Hs; [|exact Hwf|exact Hin]. destruct Hs as ((A & B & C) & _).
    destruct (_ <=? 1) eqn:E1; [lia|]. destruct (_ <=? 14) eqn:E2; [lia|].
    assert (0 <= varint_size (v_len s) <= 64); [|lia]. unfold varint_size. destruct (_ =? 0) eqn:E0; [lia|].
    pose proof (Z.log2_nonneg (v_len s)). assert (Z.log2 (v_len s) < 64); [|lia].
    destruct Hwf as (_ & W1 & W2). apply Z.log2_lt_pow2; [lia|]. unfold two63 in *. lia. }
  destruct x; try (injection H as <-; lia).
  - binv H. apply ret_inj in H. subst n. rewrite land_7. lia.
  - binv H. apply ret_inj in H. subst n. rewrite land_7. lia.
  - binv H. apply ret_inj in H. subst n. apply Hd; assumption.
  - binv H. apply ret_inj in H. subst n. apply Hd; assumption.
Qed.

Section Validate.
Hypothesis Hck : e_dbg e = true \/ modest e.

Lemma lim_exact v wide n fp dend bytes lim : inslice e v -> 2 <= v_len v ->
  arr_len e v = Ret n -> first_pos e v = Ret fp ->
  usize_mul (e_dbg e) n (width_of wide) = Ret bytes ->
  usize_add (e_dbg e) (e_base e + (v_pos v + fp)) bytes = Ret lim ->
  (e_base e + dend <? lim) = false ->
  v_pos v + fp + n * width_of wide <= dend.
Proof.
  intros Hin Hl Hn Hf Hm Ha Hc. apply arr_len_range in Hn as (Hn & _ & Hmd & _); [|assumption].
  apply first_pos_range in Hf as (Hf & _); try assumption. destruct Hin as (I1 & I2 & I3). destruct Hwf as (_ & W1 & W2).
  assert (Hw : 0 <= width_of wide <= 4) by (destruct wide; cbn [width_of]; lia).
  assert (Hb : modest e -> n * width_of wide < 4611686018427387904) by (intros HH; specialize (Hmd HH); nia).
  apply usize_mul_ok in Hm as [-> Hm].
  2:{ destruct Hck as [Hd|Hmm]; [left; exact Hd|right; specialize (Hb Hmm); unfold two64; lia]. }
  apply usize_add_ok in Ha as [-> Ha]; [lia|].
  destruct Hck as [Hd|Hmm]; [left; exact Hd|right; specialize (Hb Hmm); unfold two64, two63 in *; lia].
Qed.

Lemma validate_safe : forall f is_elem is_wide v dend,
  inslice e v -> 2 <= v_len v -> v_pos v + v_len v <= dend <= lenZ (e_data e) ->
  meas v dend < Z.of_nat f -> safe (validate f e is_elem is_wide v dend).
Proof.
  induction f as [|f IH]; intros is_elem is_wide v dend Hin Hl Hd Hm.
  { exfalso. unfold meas in Hm. destruct Hin as (I1 & _). lia. }
  cbn [validate]. apply safe_bind; [apply value_type_safe; assumption|]. intros ty Hty.
  assert (Hscal : safe (if is_elem then Ret (Ok tt) else
            n <- required_size e v ;; en <- usize_add (e_dbg e) (e_base e + v_pos v) n ;;
            if en <=? e_base e + dend then Ret (Ok tt)
            else _ <- usize_sub (e_dbg e) (e_base e + dend) (e_base e + v_pos v) ;; Ret (@Err unit _ ValueOutOfBounds))).
  { destruct is_elem; [apply safe_ret|]. apply safe_bind; [apply required_size_safe; assumption|]. intros n _.
    apply safe_bind; [apply usize_add_safe|]. intros en _. destruct (_ <=? _); [apply safe_ret|].
    apply safe_bind; [apply usize_sub_safe|]. intros; apply safe_ret. }
  assert (Hcoll : safe (wide <- arr_is_wide e v ;;
          let width := width_of wide in
          n <- arr_len e v ;; fp <- first_pos e v ;;
          let first := v_pos v + fp in
          bytes <- usize_mul (e_dbg e) n width ;;
          lim <- usize_add (e_dbg e) (e_base e + first) bytes ;;
          if e_base e + dend <? lim then
            _ <- usize_sub (e_dbg e) (e_base e + dend) (e_base e + first) ;; Ret (@Err unit _ ArrayOutOfBounds)
          else elems_loop (fun cur => x <-? from_raw e cur width ;; validate f e true wide x (cur + width))
              (S (S (length (e_data e)))) 0 n first width)).
  { apply safe_bind; [apply arr_is_wide_safe; assumption|]. intros wide Hw. cbv zeta.
    apply safe_bind; [apply arr_len_safe; assumption|]. intros n Hn.
    apply safe_bind; [apply first_pos_safe; assumption|]. intros fp Hfp.
    apply safe_bind; [apply usize_mul_safe|]. intros bytes Hby. apply safe_bind; [apply usize_add_safe|]. intros lim Hlim.
    destruct (_ <? lim) eqn:El; [apply safe_bind; [apply usize_sub_safe|intros; apply safe_ret]|].
    pose proof (lim_exact _ _ _ _ _ _ _ Hin Hl Hn Hfp Hby Hlim El) as Hb.
    apply first_pos_range in Hfp; try assumption. apply arr_len_range in Hn as (Hn & _); [|assumption].
    assert (Hw24 : width_of wide = 2 \/ width_of wide = 4) by (destruct wide; cbn; lia).
    destruct Hin as (I1 & I2 & I3).
    apply elems_loop_safe; [exact Hw24|lia|unfold lenZ in *; nia|].
    intros j Hj. replace (v_pos v + fp + (j - 0) * width_of wide) with (v_pos v + fp + j * width_of wide) by lia.
    set (cur := v_pos v + fp + j * width_of wide).
    assert (Hcur : v_pos v + 2 <= cur /\ cur + width_of wide <= dend) by (unfold cur; nia).
    assert (Hc : inslice e (V cur (width_of wide))) by (unfold inslice; cbn [v_pos v_len]; lia).
    apply safe_bindr; [apply from_raw_safe; assumption|]. intros x Hx. apply from_raw_safe in Hx as (-> & _); try assumption.
    apply IH; [exact Hc|cbn [v_len]; lia|cbn [v_pos v_len]; lia|]. unfold meas in *; cbn [v_pos]. lia. }
  destruct ty; try exact Hscal; try exact Hcoll.
  apply safe_bindr; [apply deref_checked_safe; [assumption|assumption|apply fuel_enough; assumption]|].
  intros t Ht. apply deref_checked_safe in Ht; [|assumption|assumption|apply fuel_enough; assumption].
  destruct Ht as (T1 & T2 & T3 & _). apply IH; [assumption|assumption|destruct T1; lia|]. unfold meas in *. lia.
Qed.

Lemma find_root_safe : safe (find_root e) /\
  forall v, find_root e = Ret (Ok v) -> inslice e v /\ 2 <= v_len v /\ v_pos v + v_len v <= lenZ (e_data e) /\
    exists ty, value_type e v = Ret ty /\ ty <> TyPointer.
Proof.
  unfold find_root. cbv zeta. pose proof (lenZ_nonneg (e_data e)).
  destruct ((lenZ (e_data e) =? 0) || negb (lenZ (e_data e) mod 2 =? 0)) eqn:E; [split; [apply safe_ret|discriminate]|].
  assert (Hin : inslice e (V (lenZ (e_data e) - 2) 2)) by (unfold inslice; cbn [v_pos v_len]; lia).
  destruct (value_type_ok e Hwf _ Hin) as [ty Hty]; [cbn; lia|]. rewrite Hty. cbn [bind].
  destruct (vtype_eqb ty TyPointer) eqn:Et.
  - destruct (deref_checked_safe e Hwf (fuel_of e) _ false Hin (fuel_enough _ Hin)) as [Hs Hr]. split; [exact Hs|].
    intros v Hv. apply Hr in Hv as (A & B & C & _ & D). cbn [v_pos] in C. split; [exact A|]. split; [exact B|]. split; [lia|exact D].
  - destruct (_ =? 2); [|split; [apply safe_ret|discriminate]]. split; [apply safe_ret|]. intros v Hv; injection Hv as <-.
    split; [exact Hin|]. cbn [v_pos v_len]. split; [lia|]. split; [lia|]. exists ty. split; [exact Hty|intros ->; discriminate].
Qed.

(** C18, C19 *)
Lemma from_bytes_safe : safe (from_bytes e).
Proof.
  unfold from_bytes. apply safe_bindr; [apply find_root_safe|]. intros v Hv. apply find_root_safe in Hv as (A & B & C & _).
  apply safe_bindr; [|intros; apply safe_ret]. apply validate_safe; [assumption|assumption|lia|].
  unfold meas, fuel_of. destruct A as (A1 & A2 & A3). unfold lenZ in *. lia.
Qed.
End Validate.

(** A loop that ran to its end has read a byte of every element: a huge count cannot be
    accepted, whatever the build does about overflow. *)
Lemma from_raw_reads p w x : from_raw e p w = Ret (Ok x) -> 0 <= p < lenZ (e_data e).
Proof.
  assert (Hr : forall n, required_size e (V p w) = Ret n -> 0 <= p < lenZ (e_data e)).
  { intros n H. unfold required_size in H. binv H. unfold value_type in Hx. binv Hx. apply vbyte_byte in Hx0; [|exact Hwf].
    cbn [v_pos] in Hx0. lia. }
  unfold from_raw. cbv zeta. cbn [v_len]. destruct (w <? 2).
  - intros H. binv H. binv H. discriminate.
  - intros H. binv H. eauto.
Qed.
Lemma lim_exact_small v wide n fp dend bytes lim : inslice e v -> 2 <= v_len v ->
  arr_len e v = Ret n -> first_pos e v = Ret fp ->
  usize_mul (e_dbg e) n (width_of wide) = Ret bytes ->
  usize_add (e_dbg e) (e_base e + (v_pos v + fp)) bytes = Ret lim ->
  (e_base e + dend <? lim) = false ->
  (forall j, 0 <= j < n -> v_pos v + fp + j * width_of wide < lenZ (e_data e)) ->
  v_pos v + fp + n * width_of wide <= dend.
Proof.
  intros Hin Hl Hn Hf Hm Ha Hc Hs. apply arr_len_range in Hn as (Hn & _); [|assumption].
  apply first_pos_range in Hf as (Hf & _); try assumption. destruct Hin as (I1 & I2 & I3). destruct Hwf as (_ & W1 & W2).
  assert (Hw : 2 <= width_of wide <= 4) by (destruct wide; cbn [width_of]; lia). unfold two63 in W2.
  assert (Hb : n * width_of wide <= lenZ (e_data e) + 4).
  { destruct (Z.eq_dec n 0) as [->|Hn0]; [lia|]. specialize (Hs (n - 1) ltac:(lia)). nia. }
  assert (H0 : 0 <= n * width_of wide) by nia.
  apply usize_mul_ok in Hm as [-> Hm]; [|right; unfold two64; lia].
  apply usize_add_ok in Ha as [-> Ha]; [lia|right; unfold two64; lia].
Qed.

Lemma validate_good : forall f is_elem is_wide v dend,
  inslice e v -> 2 <= v_len v -> v_pos v + v_len v <= dend <= lenZ (e_data e) ->
  (is_elem = true -> dend = v_pos v + v_len v /\ v_len v = width_of is_wide /\
     exists n, required_size e v = Ret n /\ n <= v_len v) ->
  validate f e is_elem is_wide v dend = Ret (Ok tt) ->
  (is_elem = true -> good_slot v is_wide) /\
  (value_type e v <> Ret TyPointer -> good v dend).
Proof.
  induction f as [|f IH]; intros is_elem is_wide v dend Hin Hl Hd He H; [discriminate|].
  cbn [validate] in H. binv H. rename x into ty, Hx into Hty.
  assert (Hgs : (value_type e v <> Ret TyPointer -> good v dend) -> ty <> TyPointer ->
     (is_elem = true -> good_slot v is_wide) /\ (value_type e v <> Ret TyPointer -> good v dend)).
  { intros Hg Hp. split; [|exact Hg]. intros Hel. destruct (He Hel) as (-> & Hw & _).
    apply slot_inline; [apply Hg; congruence|exact Hw]. }
  assert (Hscal : (if is_elem then Ret (Ok tt) else
            n <- required_size e v ;; en <- usize_add (e_dbg e) (e_base e + v_pos v) n ;;
            if en <=? e_base e + dend then Ret (Ok tt)
            else _ <- usize_sub (e_dbg e) (e_base e + dend) (e_base e + v_pos v) ;; Ret (@Err unit _ ValueOutOfBounds)) = Ret (Ok tt) ->
        ty <> TyPointer -> ~ is_coll ty ->
       (is_elem = true -> good_slot v is_wide) /\ (value_type e v <> Ret TyPointer -> good v dend)).
  { intros Hs Hp Hnc. apply Hgs; [|exact Hp]. intros _. destruct is_elem.
    - destruct (He eq_refl) as (Hde & _ & n & Hn & Hnl). eapply good_scalar; try eassumption; lia.
    - binv Hs. binv Hs. destruct (x0 <=? _) eqn:El; [|binv Hs; discriminate].
      pose proof (required_size_range _ _ Hin Hx) as Hr. apply usize_add_ok in Hx0 as [-> _].
      + eapply good_scalar; try eassumption; lia.
      + right. destruct Hwf as (_ & W1 & W2). destruct Hin as (I1 & I2 & I3). unfold two63, two64 in *. lia. }
  assert (Hcoll : (wide <- arr_is_wide e v ;;
          let width := width_of wide in
          n <- arr_len e v ;; fp <- first_pos e v ;;
          let first := v_pos v + fp in
          bytes <- usize_mul (e_dbg e) n width ;;
          lim <- usize_add (e_dbg e) (e_base e + first) bytes ;;
          if e_base e + dend <? lim then
            _ <- usize_sub (e_dbg e) (e_base e + dend) (e_base e + first) ;; Ret (@Err unit _ ArrayOutOfBounds)
          else elems_loop (fun cur => x <-? from_raw e cur width ;; validate f e true wide x (cur + width))
              (S (S (length (e_data e)))) 0 n first width) = Ret (Ok tt) -> is_coll ty ->
       (is_elem = true -> good_slot v is_wide) /\ (value_type e v <> Ret TyPointer -> good v dend)).
  { intros Hs Hc. apply Hgs; [|destruct Hc; congruence]. intros _. binv Hs. rename x into wide, Hx into Hw. cbv zeta in Hs.
    binv Hs. rename x into n, Hx into Hn. binv Hs. rename x into fp, Hx into Hfp. binv Hs. rename x into bytes, Hx into Hby.
    binv Hs. rename x into lim, Hx into Hlim. destruct (_ <? lim) eqn:El; [binv Hs; discriminate|].
    assert (Hall : forall j, 0 <= j < n -> v_pos v + fp + j * width_of wide < lenZ (e_data e)).
    { intros j Hj. pose proof (elems_loop_inv _ _ _ _ _ _ Hs j ltac:(lia)) as Hstep. cbv beta in Hstep. binv Hstep.
      apply from_raw_reads in Hx. lia. }
    pose proof (lim_exact_small _ _ _ _ _ _ _ Hin Hl Hn Hfp Hby Hlim El Hall) as Hb.
    eapply good_coll; try eassumption; [lia|]. intros j Hj.
    pose proof (elems_loop_inv _ _ _ _ _ _ Hs j ltac:(lia)) as Hstep. cbv beta in Hstep.
    replace (v_pos v + fp + (j - 0) * width_of wide) with (v_pos v + fp + j * width_of wide) in Hstep by lia.
    set (cur := v_pos v + fp + j * width_of wide) in *.
    apply first_pos_range in Hfp; try assumption. apply arr_len_range in Hn as (Hn & _); [|assumption].
    assert (Hw24 : width_of wide = 2 \/ width_of wide = 4) by (destruct wide; cbn; lia).
    destruct Hin as (I1 & I2 & I3).
    assert (Hcur : v_pos v + 2 <= cur /\ cur + width_of wide <= dend) by (unfold cur; nia).
    assert (Hci : inslice e (V cur (width_of wide))) by (unfold inslice; cbn [v_pos v_len]; lia).
    binv Hstep. apply from_raw_safe in Hx as (-> & _ & m & Hm & Hml); try assumption.
    apply IH in Hstep; [apply Hstep; reflexivity|exact Hci|cbn [v_len]; lia|cbn [v_pos v_len]; lia|].
    intros _. cbn [v_pos v_len]. split; [reflexivity|]. split; [reflexivity|]. eauto. }
  destruct ty;
    try (apply Hscal; [exact H|discriminate|unfold is_coll; intuition discriminate]);
    try (apply Hcoll; [exact H|unfold is_coll; tauto]).
  split; [|congruence]. intros Hel. destruct (He Hel) as (_ & Hw & _). binv H.
  pose proof (proj2 (deref_checked_safe e Hwf (fuel_of e) v is_wide Hin (fuel_enough _ Hin)) _ Hx) as (T1 & T2 & T3 & _ & ty & T4 & T5).
  apply IH in H; [|assumption|assumption|destruct T1; lia|discriminate].
  eapply slot_ptr; try eassumption. apply H. congruence.
Qed.

Lemma from_bytes_good v : from_bytes e = Ret (Ok v) -> good v (lenZ (e_data e)).
Proof.
  intros H. unfold from_bytes in H. binv H. binv H. injection H as <-. destruct x0.
  apply find_root_safe in Hx as (A & B & C & ty & D & F). eapply validate_good; [..|exact Hx0|]; try assumption; [lia|discriminate|congruence].
Qed.

(* ---------- moving around in accepted data ---------- *)

Lemma good_in v dend : good v dend -> inslice e v /\ 2 <= v_len v /\ v_pos v + v_len v <= dend.
Proof. destruct 1; auto. Qed.

Lemma slot_resolve s wide : good_slot s wide ->
  exists x dend, resolve e s wide = Ret x /\ good x dend /\
    (x = s /\ dend = v_pos s + v_len s \/ dend = v_pos s) /\ inslice e s /\ v_len s = width_of wide.
Proof.
  intros H. inversion H as [s0 w0 Hg Hw|s0 w0 t Hin Hw Hty Hd Hg]; subst.
  - exists s, (v_pos s + v_len s). pose proof (good_in _ _ Hg) as (A & _). split; [|split; [exact Hg|split; [tauto|split; [exact A|exact Hw]]]].
    unfold resolve. inversion Hg; subst.
    + match goal with Hv : value_type e s = Ret ?t |- _ => rewrite Hv; cbn [bind]; destruct t; try reflexivity; congruence end.
    + match goal with Hv : value_type e s = Ret ?t, Hc : is_coll ?t |- _ => rewrite Hv; cbn [bind]; destruct Hc; subst; reflexivity end.
  - exists t, (v_pos s). pose proof (good_in _ _ Hg) as (A & B & C).
    split; [unfold resolve; rewrite Hty; cbn [bind vtype_eqb]; apply deref_agree; exact Hd|].
    split; [exact Hg|]. split; [tauto|]. split; [exact Hin|exact Hw].
Qed.

(* ---------- accessors ---------- *)

Definition gd (v : val) : Prop := exists d, good v d /\ d <= lenZ (e_data e).

Lemma gd_type v : gd v -> exists ty, value_type e v = Ret ty /\ ty <> TyPointer.
Proof.
  intros (d & Hg & _). inversion Hg; subst; eexists; (split; [eassumption|]); try assumption.
  match goal with Hc : is_coll _ |- _ => destruct Hc; congruence end.
Qed.
Lemma gd_in v : gd v -> inslice e v /\ 2 <= v_len v.
Proof. intros (d & Hg & _). apply good_in in Hg. tauto. Qed.

Lemma good_size v d : good v d -> exists n, required_size e v = Ret n /\ v_pos v + n <= d.
Proof.
  intros Hg. inversion Hg; subst; [eauto|]. exists 2.
  split; [|lia]. unfold required_size.
  match goal with Hv : value_type e v = Ret ?t, Hc : is_coll ?t |- _ => rewrite Hv; destruct Hc; subst; reflexivity end.
Qed.

Lemma int_payload_ok v : gd v -> (value_type e v = Ret TyInt \/ value_type e v = Ret TyUnsignedInt) ->
  exists z, int_payload e v = Ret z.
Proof.
  intros Hg Hty. pose proof (gd_in _ Hg) as (Hin & Hl). destruct Hg as (d & Hg & Hd).
  apply good_size in Hg as (n & Hn & Hnd). unfold required_size in Hn.
  assert (Hn' : exists b0, vbyte e v 0 = Ret b0 /\ n = 2 + Z.land b0 7).
  { destruct Hty as [Hty|Hty]; rewrite Hty in Hn; cbn [bind] in Hn; binv Hn; apply ret_inj in Hn; eauto. }
  destruct Hn' as (b0 & Hb & ->). unfold int_payload. rewrite Hb. cbn [bind]. destruct (_ <? 1) eqn:E; [lia|].
  destruct Hin as (I1 & I2 & I3). pose proof (land_7 b0). rewrite raw_bytes_ok by (assumption || lia). cbn [bind]. eauto.
Qed.
Lemma get_short_ok v : gd v -> exists z, get_short e v = Ret z.
Proof.
  intros Hg. pose proof (gd_in _ Hg) as ((I1 & I2 & I3) & Hl). unfold get_short. destruct (_ <? 2) eqn:E; [lia|].
  destruct (raw_ok e Hwf (v_pos v)) as (b & -> & _); [lia|]. destruct (raw_ok e Hwf (v_pos v + 1)) as (b1 & -> & _); [lia|].
  cbn [bind]. eauto.
Qed.
Lemma float_payload_safe v ty : gd v -> safe (float_payload e v ty).
Proof.
  intros Hg. pose proof (gd_in _ Hg) as ((I1 & I2 & I3) & Hl).
  assert (Hs : forall a b, 0 <= a -> forall s, vslice v a b = Ret s -> safe (slice_content e s)).
  { intros a b Ha s Hs. apply vslice_inv in Hs as [Hab ->]. apply slice_content_safe. unfold inslice; cbn [v_pos v_len]. lia. }
  unfold float_payload. destruct ty; (apply safe_bind; [apply vslice_safe|]; intros s Hv; apply safe_bind; [refine (Hs _ _ _ s Hv); lia|intros; apply safe_ret]).
Qed.
Lemma float_payload_ok v ty : gd v -> (if vtype_eqb ty TyDouble64 then 10 else 6) <= v_len v ->
  exists d, float_payload e v ty = Ret d.
Proof.
  intros Hg Hl. pose proof (gd_in _ Hg) as ((I1 & I2 & I3) & _).
  assert (Hs : forall b, 2 < b <= v_len v -> exists bs, (s <- vslice v 2 b ;; slice_content e s) = Ret bs).
  { intros b Hb. unfold vslice. destruct (_ && _) eqn:E; [|lia]. cbn [bind]. unfold slice_content; cbn [v_pos v_len].
    rewrite raw_bytes_ok by (assumption || lia). eauto. }
  assert (H6 : vtype_eqb ty TyDouble64 = false -> exists d, (s <- vslice v 2 6 ;; bs <- slice_content e s ;; Ret (f64_of_f32 (le_val bs))) = Ret d).
  { intros Ht. rewrite Ht in Hl. destruct (Hs 6) as (bs & Hbs); [lia|]. binv Hbs. rewrite Hx. cbn [bind]. rewrite Hbs. cbn [bind]. eauto. }
  unfold float_payload. destruct ty; try (apply H6; reflexivity). cbn [vtype_eqb] in Hl.
  destruct (Hs 10) as (bs & Hbs); [lia|]. binv Hbs. rewrite Hx. cbn [bind]. rewrite Hbs. cbn [bind]. eauto.
Qed.

(** All scalar accessors stay inside the buffer; they return normally unless the value is a
    float whose slice was cut short. *)
Lemma to_int_safe v : gd v -> safe (to_int e v) /\
  ((forall ty, value_type e v = Ret ty -> float_len ty <= v_len v) -> exists z, to_int e v = Ret z).
Proof.
  intros Hg. destruct (gd_type _ Hg) as (ty & Hty & Hnp). unfold to_int. rewrite Hty. cbn [bind].
  destruct (get_short_ok v Hg) as (sh & Hsh).
  assert (Hf : forall t, (if vtype_eqb t TyDouble64 then 10 else 6) = float_len t -> ty = t -> safe (d <- float_payload e v t ;; Ret (i64_of_f64 d)) /\
     ((forall t0, Ret ty = Ret t0 -> float_len t0 <= v_len v) -> exists z, (d <- float_payload e v t ;; Ret (i64_of_f64 d)) = Ret z)).
  { intros t Ht ->. split; [apply safe_bind; [apply float_payload_safe; exact Hg|intros; apply safe_ret]|].
    intros Hl. specialize (Hl t eq_refl). rewrite <- Ht in Hl. destruct (float_payload_ok v t Hg Hl) as (d & ->). cbn [bind]. eauto. }
  destruct ty; try (split; [apply safe_ret|eauto]); try (apply Hf; reflexivity).
  - rewrite Hsh. cbn [bind]. split; [apply safe_ret|eauto].
  - destruct (int_payload_ok v Hg) as (z & ->); [tauto|]. split; [apply safe_ret|eauto].
  - destruct (int_payload_ok v Hg) as (z & ->); [tauto|]. split; [apply safe_ret|eauto].
Qed.
Lemma to_unsigned_int_safe v : gd v -> safe (to_unsigned_int e v) /\
  ((forall ty, value_type e v = Ret ty -> float_len ty <= v_len v) -> exists z, to_unsigned_int e v = Ret z).
Proof.
  intros Hg. pose proof (to_int_safe v Hg) as [Hs Ho]. unfold to_unsigned_int.
  split; [apply safe_bind; [exact Hs|intros; apply safe_ret]|]. intros Hl. destruct (Ho Hl) as (z & ->). cbn [bind]. eauto.
Qed.
Lemma to_double_safe v : gd v -> safe (to_double e v) /\
  ((forall ty, value_type e v = Ret ty -> float_len ty <= v_len v) -> exists z, to_double e v = Ret z).
Proof.
  intros Hg. pose proof (to_int_safe v Hg) as [Hs Ho]. destruct (gd_type _ Hg) as (ty & Hty & Hnp). unfold to_double. rewrite Hty in *. cbn [bind].
  assert (Hi : safe (z <- to_int e v ;; Ret (f64_of_i64 z)) /\
     ((forall ty0, Ret ty = Ret ty0 -> float_len ty0 <= v_len v) -> exists z0, (z <- to_int e v ;; Ret (f64_of_i64 z)) = Ret z0)).
  { split; [apply safe_bind; [exact Hs|intros; apply safe_ret]|]. intros Hl. destruct (Ho Hl) as (z & ->). cbn [bind]. eauto. }
  destruct ty; try exact Hi; (split; [apply float_payload_safe; exact Hg|]; intros Hl; apply float_payload_ok; [exact Hg|specialize (Hl _ eq_refl); exact Hl]).
Qed.
Lemma to_float_safe v : gd v -> safe (to_float e v) /\
  ((forall ty, value_type e v = Ret ty -> float_len ty <= v_len v) -> exists z, to_float e v = Ret z).
Proof.
  intros Hg. pose proof (to_double_safe v Hg) as [Hs Ho]. unfold to_float.
  split; [apply safe_bind; [exact Hs|intros; apply safe_ret]|]. intros Hl. destruct (Ho Hl) as (z & ->). cbn [bind]. eauto.
Qed.
Lemma to_short_safe v : gd v -> safe (to_short e v) /\
  ((forall ty, value_type e v = Ret ty -> float_len ty <= v_len v) -> exists z, to_short e v = Ret z).
Proof.
  intros Hg. pose proof (to_int_safe v Hg) as [Hs Ho]. pose proof (to_double_safe v Hg) as [Hs2 Ho2].
  destruct (gd_type _ Hg) as (ty & Hty & Hnp). unfold to_short. rewrite Hty in *. cbn [bind].
  destruct (get_short_ok v Hg) as (sh & Hsh).
  destruct ty; try (split; [apply safe_ret|eauto]);
    try (split; [apply safe_bind; [first [exact Hs|exact Hs2]|intros; apply safe_ret]|]; intros Hl;
         first [destruct (Ho2 Hl) as (z & ->)|destruct (Ho Hl) as (z & ->)]; cbn [bind]; eauto).
  rewrite Hsh. cbn [bind]. split; [apply safe_ret|eauto].
Qed.
Lemma to_unsigned_short_safe v : gd v -> safe (to_unsigned_short e v) /\
  ((forall ty, value_type e v = Ret ty -> float_len ty <= v_len v) -> exists z, to_unsigned_short e v = Ret z).
Proof.
  intros Hg. pose proof (to_unsigned_int_safe v Hg) as [Hs Ho]. pose proof (to_double_safe v Hg) as [Hs2 Ho2].
  destruct (gd_type _ Hg) as (ty & Hty & Hnp). unfold to_unsigned_short. rewrite Hty in *. cbn [bind].
  destruct (get_short_ok v Hg) as (sh & Hsh).
  destruct ty; try (split; [apply safe_ret|eauto]);
    try (split; [apply safe_bind; [first [exact Hs|exact Hs2]|intros; apply safe_ret]|]; intros Hl;
         first [destruct (Ho2 Hl) as (z & ->)|destruct (Ho Hl) as (z & ->)]; cbn [bind]; eauto).
  rewrite Hsh. split; [apply safe_ret|eauto].
Qed.
Lemma to_bool_safe v : gd v -> safe (to_bool e v) /\
  ((forall ty, value_type e v = Ret ty -> float_len ty <= v_len v) -> exists z, to_bool e v = Ret z).
Proof.
  intros Hg. pose proof (to_int_safe v Hg) as [Hs Ho]. destruct (gd_type _ Hg) as (ty & Hty & Hnp). unfold to_bool. rewrite Hty in *. cbn [bind].
  destruct ty; try (split; [apply safe_ret|eauto]);
    (split; [apply safe_bind; [exact Hs|intros; apply safe_ret]|]; intros Hl; destruct (Ho Hl) as (z & ->); cbn [bind]; eauto).
Qed.
Lemma bytes_ok v : gd v -> (value_type e v = Ret TyString \/ value_type e v = Ret TyData) ->
  exists bs, (s <- get_data e v ;; slice_content e s) = Ret bs.
Proof.
  intros Hg Hty. pose proof (gd_in _ Hg) as (Hin & Hl). destruct Hg as (d & Hg & Hd).
  apply good_size in Hg as (n & Hn & _). unfold required_size in Hn.
  assert (Hgd : exists s, get_data e v = Ret s).
  { destruct Hty as [Hty|Hty]; rewrite Hty in Hn; cbn [bind] in Hn; binv Hn; eauto. }
  destruct Hgd as (s & Hs). rewrite Hs. cbn [bind]. apply get_data_safe in Hs as ((A & B & C) & _); try assumption.
  unfold slice_content, raw_bytes. destruct (_ <=? 0) eqn:E; [eauto|]. destruct (_ && _) eqn:E2; [eauto|lia].
Qed.
Lemma to_data_ok v : gd v -> exists bs, to_data e v = Ret bs.
Proof.
  intros Hg. destruct (gd_type _ Hg) as (ty & Hty & Hnp). unfold to_data. rewrite Hty. cbn [bind].
  destruct ty; eauto; (apply bytes_ok; [exact Hg|tauto]).
Qed.
Lemma to_str_ok v : gd v -> exists bs, to_str e v = Ret bs.
Proof.
  intros Hg. destruct (gd_type _ Hg) as (ty & Hty & Hnp). unfold to_str. rewrite Hty. cbn [bind].
  destruct ty; eauto. destruct (bytes_ok v Hg) as (bs & Hb); [tauto|]. binv Hb. rewrite Hx. cbn [bind]. rewrite Hb. cbn [bind]. eauto.
Qed.

(* ---------- elements ---------- *)

Lemma good_coll_inv v d ty : good v d -> value_type e v = Ret ty -> is_coll ty ->
  exists wide n fp, arr_is_wide e v = Ret wide /\ arr_len e v = Ret n /\ first_pos e v = Ret fp /\
    v_pos v + fp + n * width_of wide <= d /\ 0 <= n /\ 2 <= fp /\ 0 <= v_pos v /\
    (forall i, 0 <= i < n -> good_slot (V (v_pos v + fp + i * width_of wide) (width_of wide)) wide).
Proof.
  intros Hg Hty Hc. inversion Hg; subst; [congruence|]. exists wide, n, fp.
  match goal with Hn : arr_len e v = Ret n |- _ => pose proof (arr_len_range _ _ ltac:(eassumption) Hn) as (Hn0 & _) end.
  match goal with Hn : first_pos e v = Ret fp |- _ => pose proof (first_pos_range _ _ ltac:(eassumption) ltac:(eassumption) Hn) as (Hf0 & _) end.
  match goal with Hn : inslice e v |- _ => destruct Hn as (I1 & _) end.
  repeat (split; [first [assumption|lia]|]). assumption.
Qed.

(** The [i]-th element of a collection, as all of the reading functions compute it. *)
Definition elem (v : val) (wide : bool) (fp i : Z) : outcome val :=
  resolve e (V (v_pos v + fp + i * width_of wide) (width_of wide)) wide.

Lemma elem_good v d wide n fp i : good v d -> v_pos v + fp + n * width_of wide <= d -> 2 <= fp ->
  (forall i, 0 <= i < n -> good_slot (V (v_pos v + fp + i * width_of wide) (width_of wide)) wide) ->
  0 <= i < n -> exists x dx, elem v wide fp i = Ret x /\ good x dx /\ dx <= d /\ meas x dx < meas v d.
Proof.
  intros Hg Hb Hfp Hs Hi. destruct (slot_resolve _ _ (Hs i Hi)) as (x & dx & Hr & Hgx & Hdx & Hin & _).
  cbn [v_pos v_len] in *. exists x, dx. split; [exact Hr|]. split; [exact Hgx|].
  assert (Hw24 : width_of wide = 2 \/ width_of wide = 4) by (destruct wide; cbn; lia).
  assert (Hc : v_pos v + fp + i * width_of wide + width_of wide <= d /\ v_pos v + 2 <= v_pos v + fp + i * width_of wide) by nia.
  unfold meas. set (cur := v_pos v + fp + i * width_of wide) in *.
  destruct Hdx as [[-> ->] | ->]; cbn [v_pos]; split; lia.
Qed.

Lemma get_unchecked_eq v d wide n fp i : good v d -> d <= lenZ (e_data e) ->
  arr_is_wide e v = Ret wide -> first_pos e v = Ret fp ->
  v_pos v + fp + n * width_of wide <= d -> 2 <= fp -> 0 <= v_pos v -> 0 <= i < n ->
  arr_get_unchecked e v i = elem v wide fp i.
Proof.
  intros Hg Hd Hw Hfp Hb Hf2 Hp Hi. unfold arr_get_unchecked. rewrite Hw. cbn [bind].
  assert (Hw24 : width_of wide = 2 \/ width_of wide = 4) by (destruct wide; cbn; lia).
  destruct Hwf as (_ & W1 & W2). unfold two63 in W2.
  assert (Hi2 : 0 <= i * width_of wide /\ v_pos v + fp + i * width_of wide <= d) by nia.
  unfold usize_mul. destruct (_ <? two64) eqn:E; [|unfold two64 in E; lia]. cbn [bind]. rewrite Hfp. cbn [bind].
  unfold usize_add. destruct (fp + _ <? two64) eqn:E2; [|unfold two64 in E2; lia]. cbn [bind].
  unfold elem. replace (wrap_i64 (fp + i * width_of wide)) with (fp + i * width_of wide) by (unfold wrap_i64, two63, two64; lia). f_equal. f_equal. lia.
Qed.
Lemma arr_get_eq v d wide n fp i : good v d -> d <= lenZ (e_data e) ->
  arr_is_wide e v = Ret wide -> first_pos e v = Ret fp -> arr_len e v = Ret n ->
  v_pos v + fp + n * width_of wide <= d -> 2 <= fp -> 0 <= v_pos v -> 0 <= i < n ->
  arr_get e v i = (x <- elem v wide fp i ;; Ret (Some x)).
Proof.
  intros. unfold arr_get. match goal with Hn : arr_len e v = _ |- _ => rewrite Hn end. cbn [bind].
  destruct (n <? i) eqn:E; [lia|]. erewrite get_unchecked_eq by eassumption. reflexivity.
Qed.

(** The iterator after [i] steps. *)
Definition it_at (v : val) (wide : bool) (fp n i : Z) : aiter :=
  mk_aiter (if i <? n then Some (V (v_pos v + fp + i * width_of wide) (width_of wide)) else None) (width_of wide) i n.

Lemma arr_iter_eq v wide n fp : arr_is_wide e v = Ret wide -> arr_len e v = Ret n -> first_pos e v = Ret fp -> 0 <= n ->
  arr_iter e v = Ret (it_at v wide fp n 0).
Proof.
  intros Hw Hn Hf H0. unfold arr_iter, it_at. rewrite Hn. cbn [bind]. rewrite Hw. cbn [bind].
  destruct (n =? 0) eqn:E; destruct (0 <? n) eqn:E2; try lia; [reflexivity|]. rewrite Hf. cbn [bind].
  replace (v_pos v + fp + 0 * width_of wide) with (v_pos v + fp) by lia. reflexivity.
Qed.
Lemma iter_next_at v wide n fp i : 0 <= i < n ->
  iter_next e (it_at v wide fp n i) = (x <- elem v wide fp i ;; Ret (Some x, it_at v wide fp n (i + 1))).
Proof.
  intros Hi. unfold iter_next, it_at at 1; cbn [it_next it_len it_index it_width].
  destruct (i <? n) eqn:E; [|lia]. unfold it_at at 1 2 3 4 5 6 7 8; cbn [it_next it_len it_index it_width].
  destruct (n <=? i) eqn:E2; [lia|]. replace (width_of wide =? 4) with wide by (destruct wide; reflexivity).
  cbn [v_pos]. unfold elem, it_at.
  replace (v_pos v + fp + i * width_of wide + width_of wide) with (v_pos v + fp + (i + 1) * width_of wide) by lia. reflexivity.
Qed.
Lemma iter_next_end v wide n fp i : n <= i ->
  iter_next e (it_at v wide fp n i) = Ret (None, it_at v wide fp n i).
Proof.
  intros Hi. unfold iter_next, it_at at 1; cbn [it_next]. destruct (i <? n) eqn:E; [lia|]. reflexivity.
Qed.

End Coll.
