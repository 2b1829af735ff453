(** General lemmas: lists by integer position, bytes, masks. *)
From Verif Require Import Prelude.
From Coq Require Import ZifyBool ZifyNat ZifyN.
Ltac Zify.zify_post_hook ::= Z.div_mod_to_equations.

(* ---------- lists ---------- *)

Lemma lenZ_nonneg {A} (l : list A) : 0 <= lenZ l.
Proof. unfold lenZ; lia. Qed.
Lemma lenZ_nil {A} : lenZ (@nil A) = 0.
Proof. reflexivity. Qed.
Lemma lenZ_cons {A} (x : A) l : lenZ (x :: l) = lenZ l + 1.
Proof. unfold lenZ; cbn [length]; lia. Qed.
Lemma lenZ_app {A} (l m : list A) : lenZ (l ++ m) = lenZ l + lenZ m.
Proof. unfold lenZ; rewrite app_length; lia. Qed.
Lemma lenZ_map {A B} (f : A -> B) l : lenZ (map f l) = lenZ l.
Proof. unfold lenZ; rewrite map_length; reflexivity. Qed.
Lemma lenZ_rev {A} (l : list A) : lenZ (rev l) = lenZ l.
Proof. unfold lenZ; rewrite rev_length; reflexivity. Qed.
Lemma lenZ_0 {A} (l : list A) : lenZ l = 0 -> l = [].
Proof. destruct l; [reflexivity|rewrite lenZ_cons; pose proof (lenZ_nonneg l); lia]. Qed.

Lemma nthZ_Some {A} (l : list A) i x : nthZ l i = Some x -> 0 <= i < lenZ l.
Proof.
  unfold nthZ; destruct (i <? 0) eqn:E; [discriminate|].
  intros H. assert (H' : (Z.to_nat i < length l)%nat) by (apply nth_error_Some; congruence).
  unfold lenZ; lia.
Qed.
Lemma nthZ_in {A} (l : list A) i : 0 <= i < lenZ l -> exists x, nthZ l i = Some x.
Proof.
  unfold nthZ, lenZ; intros H. destruct (i <? 0) eqn:E; [lia|].
  destruct (nth_error l (Z.to_nat i)) eqn:E2; [eauto|].
  apply nth_error_None in E2; lia.
Qed.
Lemma nthZ_None {A} (l : list A) i : nthZ l i = None <-> i < 0 \/ lenZ l <= i.
Proof.
  split; intros H.
  - destruct (Z_lt_le_dec i 0); [left; lia|]. destruct (Z_lt_le_dec i (lenZ l)); [|right; lia].
    destruct (nthZ_in l i) as [x Hx]; [lia|congruence].
  - destruct (nthZ l i) eqn:E; [|reflexivity]. apply nthZ_Some in E; lia.
Qed.
Lemma nthZ_app_l {A} (l m : list A) i : i < lenZ l -> nthZ (l ++ m) i = nthZ l i.
Proof.
  unfold nthZ, lenZ; intros H. destruct (i <? 0) eqn:E; [reflexivity|].
  apply nth_error_app1; lia.
Qed.
Lemma nthZ_app_r {A} (l m : list A) i : lenZ l <= i -> nthZ (l ++ m) i = nthZ m (i - lenZ l).
Proof.
  unfold nthZ, lenZ; intros H. destruct (i <? 0) eqn:E; [lia|].
  destruct (i - Z.of_nat (length l) <? 0) eqn:E2; [lia|].
  rewrite nth_error_app2 by lia. f_equal; lia.
Qed.
Lemma nthZ_cons_0 {A} (x : A) l : nthZ (x :: l) 0 = Some x.
Proof. reflexivity. Qed.
Lemma nthZ_cons_S {A} (x : A) l i : 0 < i -> nthZ (x :: l) i = nthZ l (i - 1).
Proof.
  unfold nthZ; intros H. destruct (i <? 0) eqn:E; [lia|]. destruct (i - 1 <? 0) eqn:E2; [lia|].
  replace (Z.to_nat i) with (S (Z.to_nat (i - 1))) by lia. reflexivity.
Qed.
Lemma nthZ_In {A} (l : list A) i x : nthZ l i = Some x -> In x l.
Proof. unfold nthZ; destruct (i <? 0); [discriminate|apply nth_error_In]. Qed.
Lemma nthZ_Forall {A} (P : A -> Prop) l i x : Forall P l -> nthZ l i = Some x -> P x.
Proof. intros H Hn. apply nthZ_In in Hn. rewrite Forall_forall in H; auto. Qed.
Lemma nthZ_map {A B} (f : A -> B) l i : nthZ (map f l) i = option_map f (nthZ l i).
Proof. unfold nthZ; destruct (i <? 0); [reflexivity|apply nth_error_map]. Qed.
Lemma nthZ_nth {A} (l : list A) i d : 0 <= i < lenZ l -> nthZ l i = Some (nth (Z.to_nat i) l d).
Proof.
  unfold nthZ, lenZ; intros H. destruct (i <? 0) eqn:E; [lia|]. apply nth_error_nth'; lia.
Qed.

Lemma subl_len {A} (l : list A) p n :
  0 <= p -> 0 <= n -> p + n <= lenZ l -> lenZ (subl l p n) = n.
Proof.
  unfold subl, lenZ; intros. rewrite firstn_length, skipn_length; lia.
Qed.
Lemma subl_app_l {A} (l m : list A) p n :
  0 <= p -> 0 <= n -> p + n <= lenZ l -> subl (l ++ m) p n = subl l p n.
Proof.
  unfold subl, lenZ; intros. rewrite skipn_app, firstn_app.
  rewrite skipn_length.
  replace (Z.to_nat n - (length l - Z.to_nat p))%nat with 0%nat by lia.
  cbn [firstn]; apply app_nil_r.
Qed.
Lemma subl_app_r {A} (l m : list A) p n :
  lenZ l <= p -> subl (l ++ m) p n = subl m (p - lenZ l) n.
Proof.
  unfold subl, lenZ; intros. rewrite skipn_app.
  rewrite skipn_all2 by lia. cbn [app]. do 2 f_equal. lia.
Qed.
Lemma subl_all {A} (l : list A) : subl l 0 (lenZ l) = l.
Proof. unfold subl, lenZ. cbn [skipn]. rewrite Nat2Z.id; apply firstn_all. Qed.
Lemma subl_0 {A} (l : list A) p n : n <= 0 -> subl l p n = [].
Proof. unfold subl; intros. replace (Z.to_nat n) with 0%nat by lia; reflexivity. Qed.
Lemma subl_cons {A} (l : list A) p n x :
  nthZ l p = Some x -> 0 < n -> subl l p n = x :: subl l (p + 1) (n - 1).
Proof.
  unfold nthZ, subl; intros Hx Hn. destruct (p <? 0) eqn:E; [discriminate|].
  replace (Z.to_nat n) with (S (Z.to_nat (n - 1))) by lia.
  replace (Z.to_nat (p + 1)) with (S (Z.to_nat p)) by lia.
  assert (H : skipn (Z.to_nat p) l = x :: skipn (S (Z.to_nat p)) l).
  { clear E. revert Hx. generalize (Z.to_nat p) as k; clear p.
    induction l as [|y l IH]; intros k Hx; [destruct k; discriminate|].
    destruct k; cbn in *; [congruence|auto]. }
  rewrite H; reflexivity.
Qed.
Lemma skipn_skipn' {A} (a b : nat) (l : list A) : skipn a (skipn b l) = skipn (a + b) l.
Proof.
  revert l; induction b as [|b IH]; intros l.
  - rewrite Nat.add_0_r; reflexivity.
  - rewrite Nat.add_succ_r. destruct l as [|x l]; cbn [skipn]; [destruct a; reflexivity|apply IH].
Qed.
Lemma subl_split {A} (l : list A) p n m :
  0 <= p -> 0 <= n -> 0 <= m -> subl l p (n + m) = subl l p n ++ subl l (p + n) m.
Proof.
  unfold subl; intros.
  replace (Z.to_nat (p + n)) with (Z.to_nat n + Z.to_nat p)%nat by lia.
  replace (Z.to_nat (n + m)) with (Z.to_nat n + Z.to_nat m)%nat by lia.
  rewrite <- skipn_skipn'.
  generalize (skipn (Z.to_nat p) l) as l'; intros l'.
  generalize (Z.to_nat n) as a, (Z.to_nat m) as b; intros a b.
  revert l'; induction a as [|a IH]; intros l'; cbn [firstn skipn Nat.add app]; [reflexivity|].
  destruct l' as [|x l']; [cbn; destruct b; reflexivity|]. cbn [app]; f_equal; apply IH.
Qed.
Lemma subl_subl {A} (l : list A) p n q m :
  0 <= p -> 0 <= q -> 0 <= m -> q + m <= n ->
  subl (subl l p n) q m = subl l (p + q) m.
Proof.
  unfold subl; intros.
  rewrite skipn_firstn_comm, skipn_skipn', firstn_firstn.
  replace (Nat.min (Z.to_nat m) (Z.to_nat n - Z.to_nat q)) with (Z.to_nat m) by lia.
  f_equal; f_equal; lia.
Qed.
Lemma nthZ_subl {A} (l : list A) p n i :
  0 <= p -> 0 <= i < n -> nthZ (subl l p n) i = nthZ l (p + i).
Proof.
  unfold nthZ, subl; intros. destruct (i <? 0) eqn:E; [lia|]. destruct (p + i <? 0) eqn:E2; [lia|].
  assert (H1 : forall k j (m : list A), (k < j)%nat -> nth_error (firstn j m) k = nth_error m k).
  { clear. induction k as [|k IH]; intros [|j] [|x m] Hk; try lia; cbn; try reflexivity.
    apply IH; lia. }
  assert (H2 : forall k j (m : list A), nth_error (skipn j m) k = nth_error m (j + k)%nat).
  { clear. intros k j; revert k; induction j as [|j IH]; intros k [|x m]; cbn; try reflexivity.
    - destruct k; reflexivity. - apply IH. }
  rewrite H1 by lia. rewrite H2. f_equal; lia.
Qed.
Lemma subl_Forall {A} (P : A -> Prop) l p n : Forall P l -> Forall P (subl l p n).
Proof.
  intros H; unfold subl. apply Forall_forall; intros x Hx.
  rewrite Forall_forall in H; apply H.
  apply (In_nth_error) in Hx as [k Hk].
  assert (In x (skipn (Z.to_nat p) l)).
  { clear -Hk. rewrite <- (firstn_skipn (Z.to_nat n) (skipn (Z.to_nat p) l)).
    apply in_or_app; left; eapply nth_error_In; eauto. }
  rewrite <- (firstn_skipn (Z.to_nat p) l); apply in_or_app; right; assumption.
Qed.

(* ---------- bytes ---------- *)

Definition all_byte_values : list Z := map Z.of_nat (seq 0 256).
Lemma byte_in b : is_byte b -> In b all_byte_values.
Proof.
  unfold is_byte, all_byte_values; intros H. apply in_map_iff.
  exists (Z.to_nat b); split; [lia|apply in_seq; lia].
Qed.
(** A boolean fact about bytes may be proved by checking all 256. *)
Lemma byte_sweep (P : Z -> bool) :
  forallb P all_byte_values = true -> forall b, is_byte b -> P b = true.
Proof. intros H b Hb. rewrite forallb_forall in H. apply H, byte_in, Hb. Qed.

Lemma le_bytes_length n z : length (le_bytes n z) = n.
Proof. revert z; induction n; intros; cbn; [reflexivity|rewrite IHn; reflexivity]. Qed.
Lemma le_bytes_lenZ n z : lenZ (le_bytes n z) = Z.of_nat n.
Proof. unfold lenZ; rewrite le_bytes_length; reflexivity. Qed.
Lemma le_bytes_bytes n z : all_bytes (le_bytes n z).
Proof.
  revert z; induction n; intros; cbn [le_bytes]; constructor; [unfold is_byte; lia|apply IHn].
Qed.
Lemma le_val_le_bytes n z : 0 <= z -> le_val (le_bytes n z) = z mod 256 ^ Z.of_nat n.
Proof.
  revert z; induction n as [|n IH]; intros z Hz; cbn [le_bytes le_val].
  - cbn; lia.
  - rewrite IH by lia. replace (Z.of_nat (S n)) with (Z.succ (Z.of_nat n)) by lia.
    rewrite Z.pow_succ_r by lia.
    rewrite Z.rem_mul_r by (try apply Z.pow_pos_nonneg; lia). reflexivity.
Qed.
Lemma le_val_bound l : all_bytes l -> 0 <= le_val l < 256 ^ lenZ l.
Proof.
  induction 1 as [|b l Hb Hl IH]; [cbn; lia|].
  cbn [le_val]. rewrite lenZ_cons. unfold is_byte in Hb.
  replace (lenZ l + 1) with (Z.succ (lenZ l)) by lia.
  rewrite Z.pow_succ_r by apply lenZ_nonneg. lia.
Qed.
Lemma be_bytes_length n z : length (be_bytes n z) = n.
Proof. unfold be_bytes; rewrite rev_length; apply le_bytes_length. Qed.
Lemma be_val_be_bytes n z : 0 <= z -> be_val (be_bytes n z) = z mod 256 ^ Z.of_nat n.
Proof. intros; unfold be_val, be_bytes; rewrite rev_involutive; apply le_val_le_bytes; lia. Qed.
Lemma all_bytes_rev l : all_bytes l -> all_bytes (rev l).
Proof. apply Forall_rev. Qed.
Lemma be_bytes_bytes n z : all_bytes (be_bytes n z).
Proof. apply all_bytes_rev, le_bytes_bytes. Qed.
Lemma le_val_app l m : le_val (l ++ m) = le_val l + 256 ^ lenZ l * le_val m.
Proof.
  induction l as [|b l IH]; [cbn [app le_val]; change (256 ^ lenZ (@nil Z)) with 1; lia|].
  cbn [app le_val]. rewrite IH, lenZ_cons.
  rewrite Z.pow_add_r by (pose proof (lenZ_nonneg l); lia). lia.
Qed.
Lemma be_val_bound l : all_bytes l -> 0 <= be_val l < 256 ^ lenZ l.
Proof.
  intros H. unfold be_val. rewrite <- lenZ_rev. apply le_val_bound, all_bytes_rev, H.
Qed.
Lemma all_bytes_app l m : all_bytes (l ++ m) <-> all_bytes l /\ all_bytes m.
Proof. apply Forall_app. Qed.

(* ---------- masks ---------- *)

Lemma land_ones_mod x n m : 0 <= n -> m = 2 ^ n - 1 -> Z.land x m = x mod 2 ^ n.
Proof.
  intros Hn ->. replace (2 ^ n - 1) with (Z.ones n) by (rewrite Z.ones_equiv; lia).
  apply Z.land_ones; lia.
Qed.
Lemma land_127 x : Z.land x 127 = x mod 128.
Proof. apply (land_ones_mod x 7); reflexivity || lia. Qed.
Lemma land_255 x : Z.land x 255 = x mod 256.
Proof. apply (land_ones_mod x 8); reflexivity || lia. Qed.
Lemma land_15 x : Z.land x 15 = x mod 16.
Proof. apply (land_ones_mod x 4); reflexivity || lia. Qed.
Lemma land_7 x : Z.land x 7 = x mod 8.
Proof. apply (land_ones_mod x 3); reflexivity || lia. Qed.
Lemma land_2047 x : Z.land x 2047 = x mod 2048.
Proof. apply (land_ones_mod x 11); reflexivity || lia. Qed.
Lemma land_3fff x : Z.land x 0x3fff = x mod 16384.
Proof. apply (land_ones_mod x 14); reflexivity || lia. Qed.
Lemma land_3fffffff x : Z.land x 0x3fffffff = x mod 1073741824.
Proof. apply (land_ones_mod x 30); reflexivity || lia. Qed.

(** [a lor (b * 2^n)] is a sum when [a < 2^n]. *)
Lemma testbit_high a n k : 0 <= a < 2 ^ n -> 0 <= n <= k -> Z.testbit a k = false.
Proof.
  intros Ha Hk. apply Z.testbit_false; [lia|]. rewrite Z.div_small; [reflexivity|].
  split; [lia|]. apply Z.lt_le_trans with (2 ^ n); [lia|apply Z.pow_le_mono_r; lia].
Qed.
Lemma lor_add a b n : 0 <= n -> 0 <= a < 2 ^ n -> 0 <= b -> Z.lor a (b * 2 ^ n) = a + b * 2 ^ n.
Proof.
  intros Hn Ha Hb.
  assert (Hl : Z.land a (b * 2 ^ n) = 0).
  { apply Z.bits_inj'; intros k Hk; rewrite Z.land_spec, Z.bits_0.
    destruct (Z_lt_le_dec k n).
    - rewrite Z.mul_pow2_bits_low by lia; apply andb_false_r.
    - rewrite (testbit_high a n k) by lia; reflexivity. }
  rewrite <- Z.lxor_lor by exact Hl. symmetry; apply Z.add_nocarry_lxor; exact Hl.
Qed.

(** Byte lists given element by element. *)
Ltac bytes_tac :=
  unfold all_bytes; repeat (apply Forall_cons || apply Forall_nil);
  try assumption; try (unfold is_byte in *; lia).

Lemma bytes_eqb_eq a b : bytes_eqb a b = true <-> a = b.
Proof.
  revert b. induction a as [|x a IH]; intros [|y b]; cbn [bytes_eqb]; split; intros H; try discriminate; auto.
  - apply andb_prop in H as [H1 H2]. apply IH in H2. f_equal; [lia|exact H2].
  - injection H as -> ->. rewrite Z.eqb_refl. apply IH. reflexivity.
Qed.
Lemma bytes_eqb_refl a : bytes_eqb a a = true.
Proof. apply bytes_eqb_eq. reflexivity. Qed.
