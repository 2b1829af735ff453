(** Proofs about varints. *)
From Verif Require Import Prelude Lib Spec Varint.
From Coq Require Import ZifyBool ZifyNat ZifyN.
Ltac Zify.zify_post_hook ::= Z.div_mod_to_equations.

Lemma wr_byte v : 0 <= v -> Z.lor (Z.land v 255) 128 = v mod 128 + 128.
Proof.
  intros Hv. rewrite land_255.
  assert (H : (Z.lor (v mod 256) 128 =? (v mod 256) mod 128 + 128) = true).
  { apply (byte_sweep (fun b => Z.lor b 128 =? b mod 128 + 128)); [reflexivity|unfold is_byte; lia]. }
  apply Z.eqb_eq in H. rewrite H. lia.
Qed.

Lemma write_loop_len f v : 1 <= lenZ (varint_write_loop f v) <= Z.of_nat f + 1.
Proof.
  revert v; induction f as [|f IH]; intros v; cbn [varint_write_loop]; [cbn; lia|].
  destruct (128 <=? v); [|cbn; lia]. rewrite lenZ_cons. specialize (IH (v / 128)). lia.
Qed.

Lemma write_loop_bytes f v : 0 <= v -> all_bytes (varint_write_loop f v).
Proof.
  revert v; induction f as [|f IH]; intros v Hv; cbn [varint_write_loop].
  - repeat constructor; unfold is_byte; lia.
  - destruct (128 <=? v) eqn:E.
    + constructor; [rewrite wr_byte by lia; unfold is_byte; lia|apply IH; lia].
    + repeat constructor; unfold is_byte; lia.
Qed.

(** Reading from a byte list. *)
Definition reads_list (get : Z -> outcome Z) (off : Z) (w : list Z) : Prop :=
  forall i b, nthZ w i = Some b -> get (off + i) = Ret b.

Lemma reads_cons get off b w :
  reads_list get off (b :: w) <-> get off = Ret b /\ reads_list get (off + 1) w.
Proof.
  split.
  - intros H; split.
    + rewrite <- (H 0 b) by reflexivity; f_equal; lia.
    + intros i x Hx. rewrite <- (H (i + 1) x); [f_equal; lia|].
      apply nthZ_Some in Hx as Hr. rewrite nthZ_cons_S by lia.
      replace (i + 1 - 1) with i by lia; assumption.
  - intros [H0 H] i x Hx. apply nthZ_Some in Hx as Hr.
    destruct (Z.eq_dec i 0) as [->|Hi].
    + rewrite nthZ_cons_0 in Hx; injection Hx as ->. rewrite Z.add_0_r; assumption.
    + rewrite nthZ_cons_S in Hx by lia. apply H in Hx. rewrite <- Hx; f_equal; lia.
Qed.

(** The main loop lemma: [n] iterations left, [f] is the writer's fuel. *)
Lemma read_write_loop dbg get len : forall f n v i res,
  0 <= i -> 0 <= v -> (f < n)%nat -> Z.of_nat f + i <= 8 ->
  v < 128 ^ (Z.of_nat f + 1) ->
  0 <= res < 128 ^ (i + 1) ->
  res + v * 128 ^ (i + 1) < two64 ->
  reads_list get (i + 1) (varint_write_loop f v) ->
  i + 1 + lenZ (varint_write_loop f v) <= len ->
  varint_read_loop dbg get len n i (7 * (i + 1)) res
    = Ret (i + 1 + lenZ (varint_write_loop f v), res + v * 128 ^ (i + 1)).
Proof.
  induction f as [|f IH]; intros n v i res Hi Hv Hn Hfi Hvb Hres Hb Hg Hl.
  - destruct n as [|n]; [lia|]. cbn [varint_write_loop varint_read_loop] in *.
    apply reads_cons in Hg as [Hg _]. rewrite lenZ_cons, lenZ_nil in Hl.
    destruct (i + 1 <? len) eqn:E; [|lia]. rewrite Hg; cbn [bind].
    replace (128 ^ (Z.of_nat 0 + 1)) with 128 in Hvb by reflexivity.
    destruct (128 <=? v mod 256) eqn:E2; [lia|].
    unfold u64_shl. destruct (7 * (i + 1) <? 64) eqn:E3; [|lia]. cbn [bind].
    unfold VARINT_MAX_LEN. destruct (i =? 10) eqn:E4; [lia|]. cbn [andb].
    replace (2 ^ (7 * (i + 1))) with (128 ^ (i + 1)) by (rewrite Z.pow_mul_r by lia; reflexivity).
    replace (v mod 256) with v by lia.
    assert (0 <= v * 128 ^ (i + 1)) by (apply Z.mul_nonneg_nonneg; lia).
    unfold wrap_u64. rewrite Z.mod_small by lia.
    replace (128 ^ (i + 1)) with (2 ^ (7 * (i + 1))) by (rewrite Z.pow_mul_r by lia; reflexivity).
    rewrite lor_add; [try reflexivity; rewrite lenZ_cons, lenZ_nil; f_equal; f_equal; lia|lia| |lia].
    replace (2 ^ (7 * (i + 1))) with (128 ^ (i + 1)) by (rewrite Z.pow_mul_r by lia; reflexivity).
    lia.
  - destruct n as [|n]; [lia|]. cbn [varint_write_loop varint_read_loop] in *.
    assert (Hpow : 128 ^ (i + 1 + 1) = 128 * 128 ^ (i + 1)).
    { rewrite (Z.pow_add_r 128 (i + 1) 1) by lia. lia. }
    assert (Hpos : 0 < 128 ^ (i + 1)) by (apply Z.pow_pos_nonneg; lia).
    destruct (128 <=? v) eqn:E.
    + apply reads_cons in Hg as [Hg0 Hg]. rewrite lenZ_cons in Hl |- *.
      pose proof (write_loop_len f (v / 128)) as Hwl.
      destruct (i + 1 <? len) eqn:E1; [|lia]. rewrite Hg0; cbn [bind].
      rewrite wr_byte by lia. destruct (128 <=? v mod 128 + 128) eqn:E2; [|lia].
      rewrite land_127. replace ((v mod 128 + 128) mod 128) with (v mod 128) by lia.
      unfold u64_shl. destruct (7 * (i + 1) <? 64) eqn:E3; [|lia]. cbn [bind].
      assert (Hvm : v = 128 * (v / 128) + v mod 128) by lia.
      assert (Hvd : v mod 128 * 128 ^ (i + 1) <= v * 128 ^ (i + 1)).
      { apply Z.mul_le_mono_nonneg_r; lia. }
      assert (0 <= v mod 128 * 128 ^ (i + 1)) by (apply Z.mul_nonneg_nonneg; lia).
      replace (2 ^ (7 * (i + 1))) with (128 ^ (i + 1)) by (rewrite Z.pow_mul_r by lia; reflexivity).
      unfold wrap_u64. rewrite (Z.mod_small (_ * _)) by lia.
      replace (Z.lor res (v mod 128 * 128 ^ (i + 1))) with (res + v mod 128 * 128 ^ (i + 1)).
      2:{ replace (128 ^ (i + 1)) with (2 ^ (7 * (i + 1))) by (rewrite Z.pow_mul_r by lia; reflexivity).
          rewrite lor_add; [try reflexivity; rewrite lenZ_cons, lenZ_nil; f_equal; f_equal; lia|lia| |lia].
          replace (2 ^ (7 * (i + 1))) with (128 ^ (i + 1)) by (rewrite Z.pow_mul_r by lia; reflexivity).
          lia. }
      replace (7 * (i + 1) + 7) with (7 * (i + 1 + 1)) by lia.
      assert (Hsum : res + v mod 128 * 128 ^ (i + 1) + v / 128 * 128 ^ (i + 1 + 1)
                     = res + v * 128 ^ (i + 1)).
      { rewrite Hpow. rewrite Hvm at 3. ring. }
      rewrite (IH n (v / 128) (i + 1)); try lia.
      * f_equal; f_equal; lia.
      * apply Z.div_lt_upper_bound; [lia|].
        replace (128 * 128 ^ (Z.of_nat f + 1)) with (128 ^ (Z.of_nat (S f) + 1)); [lia|].
        replace (Z.of_nat (S f) + 1) with (Z.succ (Z.of_nat f + 1)) by lia.
        rewrite Z.pow_succ_r; lia.
      * rewrite Hpow. assert (v mod 128 * 128 ^ (i + 1) <= 127 * 128 ^ (i + 1)) by
          (apply Z.mul_le_mono_nonneg_r; lia). lia.
      * replace (i + 1 + 1) with (i + 1 + 1) by lia. assumption.
    + apply reads_cons in Hg as [Hg _]. rewrite lenZ_cons, lenZ_nil in Hl.
      destruct (i + 1 <? len) eqn:E1; [|lia]. rewrite Hg; cbn [bind].
      destruct (128 <=? v mod 256) eqn:E2; [lia|].
      unfold u64_shl. destruct (7 * (i + 1) <? 64) eqn:E3; [|lia]. cbn [bind].
      unfold VARINT_MAX_LEN. destruct (i =? 10) eqn:E4; [lia|]. cbn [andb].
      replace (2 ^ (7 * (i + 1))) with (128 ^ (i + 1)) by (rewrite Z.pow_mul_r by lia; reflexivity).
      replace (v mod 256) with v by lia.
      assert (0 <= v * 128 ^ (i + 1)) by (apply Z.mul_nonneg_nonneg; lia).
      unfold wrap_u64. rewrite Z.mod_small by lia.
      replace (128 ^ (i + 1)) with (2 ^ (7 * (i + 1))) by (rewrite Z.pow_mul_r by lia; reflexivity).
      rewrite lor_add; [try reflexivity; rewrite lenZ_cons, lenZ_nil; f_equal; f_equal; lia|lia| |lia].
      replace (2 ^ (7 * (i + 1))) with (128 ^ (i + 1)) by (rewrite Z.pow_mul_r by lia; reflexivity).
      lia.
Qed.

Lemma write_loop_more f g v :
  0 <= v < 128 ^ (Z.of_nat f + 1) -> (f <= g)%nat -> varint_write_loop g v = varint_write_loop f v.
Proof.
  revert g v; induction f as [|f IH]; intros g v Hv Hg.
  - replace (128 ^ (Z.of_nat 0 + 1)) with 128 in Hv by reflexivity.
    destruct g; [reflexivity|]. cbn [varint_write_loop]. destruct (128 <=? v) eqn:E; [lia|reflexivity].
  - destruct g as [|g]; [lia|]. cbn [varint_write_loop]. destruct (128 <=? v) eqn:E; [|reflexivity].
    f_equal. apply IH; [|lia]. split; [lia|].
    apply Z.div_lt_upper_bound; [lia|].
    replace (128 * 128 ^ (Z.of_nat f + 1)) with (128 ^ (Z.of_nat (S f) + 1)); [lia|].
    replace (Z.of_nat (S f) + 1) with (Z.succ (Z.of_nat f + 1)) by lia.
    rewrite Z.pow_succ_r; lia.
Qed.

(** Any u64 takes at most 10 bytes: the writer never runs out of rounds. *)
Lemma write_9 v : 0 <= v < two64 -> varint_write v = varint_write_loop 9 v.
Proof.
  intros H. unfold varint_write. apply write_loop_more; [|lia].
  assert (two64 < 128 ^ (Z.of_nat 9 + 1)) by reflexivity. lia.
Qed.

Lemma varint_round_trip dbg get len v :
  0 <= v < two64 ->
  reads_list get 0 (varint_write v) ->
  lenZ (varint_write v) <= len ->
  varint_read dbg get len = Ret (lenZ (varint_write v), v).
Proof.
  intros Hv Hg Hl. rewrite (write_9 v Hv) in *.
  pose proof (write_loop_len 9 v) as Hwl.
  unfold varint_read. destruct (len <=? 0) eqn:E; [lia|].
  change (varint_write_loop 9 v) with
    (if 128 <=? v then Z.lor (Z.land v 255) 128 :: varint_write_loop 8 (v / 128) else [v mod 256]) in *.
  destruct (128 <=? v) eqn:Ev.
  - apply reads_cons in Hg as [Hg0 Hg]. rewrite Hg0; cbn [bind].
    rewrite wr_byte by lia. destruct (v mod 128 + 128 <? 128) eqn:E1; [lia|].
    rewrite land_127. replace ((v mod 128 + 128) mod 128) with (v mod 128) by lia.
    change 7 with (7 * (0 + 1)).
    rewrite lenZ_cons in Hl |- *.
    rewrite (read_write_loop dbg get len 8 10 (v / 128) 0 (v mod 128)).
    + f_equal; f_equal; [lia|]. change (128 ^ (0 + 1)) with 128. lia.
    + lia.
    + lia.
    + lia.
    + lia.
    + apply Z.div_lt_upper_bound; [lia|].
      assert (two64 < 128 * 128 ^ (Z.of_nat 8 + 1)) by reflexivity. lia.
    + change (128 ^ (0 + 1)) with 128. lia.
    + change (128 ^ (0 + 1)) with 128. lia.
    + exact Hg.
    + lia.
  - apply reads_cons in Hg as [Hg0 _]. rewrite Hg0; cbn [bind].
    destruct (v mod 256 <? 128) eqn:E1; [|lia]. rewrite lenZ_cons, lenZ_nil. f_equal; f_equal; lia.
Qed.

(** [size_required] is the number of bytes written. *)
Lemma log2_div128 v : 128 <= v -> Z.log2 v = 7 + Z.log2 (v / 128).
Proof.
  intros H. change 128 with (2 ^ 7). rewrite <- Z.shiftr_div_pow2 by lia.
  rewrite Z.log2_shiftr by lia. assert (7 <= Z.log2 v) by (apply Z.log2_le_pow2; lia). lia.
Qed.
Lemma size_loop f v : 0 <= v < 128 ^ (Z.of_nat f + 1) -> lenZ (varint_write_loop f v) = varint_size v.
Proof.
  revert v; induction f as [|f IH]; intros v Hv; unfold varint_size; cbn [varint_write_loop].
  - replace (128 ^ (Z.of_nat 0 + 1)) with 128 in Hv by reflexivity.
    destruct (v =? 0) eqn:E; [reflexivity|].
    assert (0 <= Z.log2 v < 7) by (split; [apply Z.log2_nonneg|apply Z.log2_lt_pow2; lia]).
    rewrite lenZ_cons, lenZ_nil. lia.
  - destruct (128 <=? v) eqn:E.
    + destruct (v =? 0) eqn:E0; [lia|]. rewrite lenZ_cons, IH.
      * unfold varint_size. destruct (v / 128 =? 0) eqn:E1; [lia|].
        rewrite (log2_div128 v) by lia. lia.
      * split; [lia|]. apply Z.div_lt_upper_bound; [lia|].
        replace (128 * 128 ^ (Z.of_nat f + 1)) with (128 ^ (Z.of_nat (S f) + 1)); [lia|].
        replace (Z.of_nat (S f) + 1) with (Z.succ (Z.of_nat f + 1)) by lia.
        rewrite Z.pow_succ_r; lia.
    + destruct (v =? 0) eqn:E0; [reflexivity|].
      assert (0 <= Z.log2 v < 7) by (split; [apply Z.log2_nonneg|apply Z.log2_lt_pow2; lia]).
      rewrite lenZ_cons, lenZ_nil. lia.
Qed.
Lemma varint_size_len v : 0 <= v < two64 -> lenZ (varint_write v) = varint_size v.
Proof.
  intros H. apply size_loop. assert (two64 < 128 ^ (Z.of_nat 10 + 1)) by reflexivity. lia.
Qed.
Lemma varint_write_len v : 0 <= v < two64 -> 1 <= lenZ (varint_write v) <= 10.
Proof. intros H. rewrite (write_9 v H). pose proof (write_loop_len 9 v). lia. Qed.
Lemma varint_write_bytes v : 0 <= v -> all_bytes (varint_write v).
Proof. apply write_loop_bytes. Qed.

(* ---------- reading arbitrary bytes ---------- *)

(** Whatever the bytes, [read] reports at most as many bytes as the slice has. *)
Lemma read_loop_len dbg get len n : forall i shift res r,
  0 <= i -> varint_read_loop dbg get len n i shift res = Ret r ->
  fst r = 0 \/ 2 <= fst r <= len.
Proof.
  induction n as [|n IH]; intros i shift res r Hi H; cbn [varint_read_loop] in H.
  - injection H as <-; left; reflexivity.
  - destruct (i + 1 <? len) eqn:E; [|injection H as <-; left; reflexivity].
    destruct (get (i + 1)); try discriminate. cbn [bind] in H.
    destruct (128 <=? a).
    + destruct (u64_shl dbg (Z.land a 127) shift); try discriminate. cbn [bind] in H.
      apply IH in H; lia.
    + destruct (u64_shl dbg a shift); try discriminate. cbn [bind] in H.
      destruct ((i =? VARINT_MAX_LEN) && (1 <? a)); injection H as <-; cbn; lia.
Qed.
Lemma varint_read_len dbg get len r :
  varint_read dbg get len = Ret r -> 0 <= fst r <= Z.max 0 len.
Proof.
  unfold varint_read. destruct (len <=? 0) eqn:E; [intros H; injection H as <-; cbn; lia|].
  destruct (get 0); try discriminate. cbn [bind].
  destruct (a <? 128); [intros H; injection H as <-; cbn; lia|].
  intros H. apply read_loop_len in H; lia.
Qed.

(** In release builds, [read] never fails as long as the bytes can be read, and the value is
    a u64. *)
Lemma lor_u64 a b : 0 <= a < two64 -> 0 <= b < two64 -> 0 <= Z.lor a b < two64.
Proof.
  intros Ha Hb. assert (0 <= Z.lor a b) by (apply Z.lor_nonneg; lia).
  split; [assumption|]. destruct (Z.eq_dec (Z.lor a b) 0); [unfold two64; lia|].
  change two64 with (2 ^ 64) in *. apply Z.log2_lt_pow2; [lia|].
  rewrite Z.log2_lor by lia.
  destruct (Z.eq_dec a 0) as [->|]; destruct (Z.eq_dec b 0) as [->|].
  - cbn; lia.
  - cbn [Z.log2]. assert (Z.log2 b < 64) by (apply Z.log2_lt_pow2; lia). lia.
  - cbn [Z.log2]. assert (Z.log2 a < 64) by (apply Z.log2_lt_pow2; lia). lia.
  - assert (Z.log2 b < 64) by (apply Z.log2_lt_pow2; lia).
    assert (Z.log2 a < 64) by (apply Z.log2_lt_pow2; lia). lia.
Qed.
Lemma u64_shl_release x s : exists y, u64_shl false x s = Ret y /\ 0 <= y < two64.
Proof.
  unfold u64_shl, wrap_u64. destruct (s <? 64); eexists; (split; [reflexivity|]);
    apply Z.mod_pos_bound; reflexivity.
Qed.
Lemma u64_shl_val dbg x s y : u64_shl dbg x s = Ret y -> 0 <= y < two64.
Proof.
  unfold u64_shl, wrap_u64. destruct (s <? 64); [|destruct dbg; [discriminate|]];
    intros H; injection H as <-; apply Z.mod_pos_bound; reflexivity.
Qed.
Lemma read_loop_val dbg get len n : forall i shift res r,
  0 <= res < two64 ->
  varint_read_loop dbg get len n i shift res = Ret r -> 0 <= snd r < two64.
Proof.
  induction n as [|n IH]; intros i shift res r Hres H; cbn [varint_read_loop] in H.
  - injection H as <-; cbn; unfold two64; lia.
  - destruct (i + 1 <? len) eqn:E; [|injection H as <-; cbn; unfold two64; lia].
    destruct (get (i + 1)); try discriminate. cbn [bind] in H.
    destruct (128 <=? a).
    + destruct (u64_shl dbg (Z.land a 127) shift) eqn:Es; try discriminate. cbn [bind] in H.
      apply u64_shl_val in Es. eapply IH; [|exact H]. apply lor_u64; assumption.
    + destruct (u64_shl dbg a shift) eqn:Es; try discriminate. cbn [bind] in H.
      apply u64_shl_val in Es.
      destruct ((i =? VARINT_MAX_LEN) && (1 <? a)); injection H as <-; cbn [snd].
      * unfold two64; lia.
      * apply lor_u64; assumption.
Qed.
Lemma varint_read_val dbg get len r :
  (forall i b, get i = Ret b -> is_byte b) ->
  varint_read dbg get len = Ret r -> 0 <= snd r < two64.
Proof.
  intros Hget. unfold varint_read. destruct (len <=? 0) eqn:E.
  - intros H; injection H as <-; cbn; unfold two64; lia.
  - destruct (get 0) eqn:Eg; try discriminate. cbn [bind]. apply Hget in Eg; unfold is_byte in Eg.
    destruct (a <? 128) eqn:Ea.
    + intros H; injection H as <-; cbn [snd]; unfold two64; lia.
    + apply read_loop_val. rewrite land_127. unfold two64; lia.
Qed.

Lemma reads_mem w rest : reads_list (mem (w ++ rest)) 0 w.
Proof.
  intros i b Hb. unfold mem. apply nthZ_Some in Hb as Hr.
  rewrite Z.add_0_l, nthZ_app_l by lia. rewrite Hb. reflexivity.
Qed.
Lemma varint_round_trip_mem : forall (dbg : bool) (v : Z) (rest : list Z),
  0 <= v < two64 ->
  let w := varint_write v in
  varint_read dbg (mem (w ++ rest)) (lenZ (w ++ rest)) = Ret (lenZ w, v)
  /\ lenZ w = varint_size v
  /\ 1 <= lenZ w <= VARINT_MAX_LEN
  /\ all_bytes w.
Proof.
  intros dbg v rest Hv w. split; [|split; [|split]].
  - apply varint_round_trip; [exact Hv|apply reads_mem|].
    fold w. rewrite lenZ_app. pose proof (lenZ_nonneg rest). lia.
  - apply varint_size_len; exact Hv.
  - apply varint_write_len; exact Hv.
  - apply varint_write_bytes; lia.
Qed.
