(** Lemmas about the work of a dict lookup. *)
From Verif Require Import Prelude Lib Utf8 Float SharedKeys Decode Safety LookupCost.
From Coq Require Import Lia ZifyBool ZifyNat ZifyN.
Ltac Zify.zify_post_hook ::= Z.div_mod_to_equations.

Definition forget {A B} (m : outcome (A * B)) : outcome A := r <- m ;; Ret (fst r).

(** Recording changes nothing. *)
Lemma trace_search : forall f e v k l r s, dict_search f e v k l r s = forget (search_trace f e v k l r s).
Proof.
  induction f as [|f IH]; intros e v k l r s; cbn [dict_search search_trace]; [reflexivity|].
  unfold forget. destruct (l <? r); [|reflexivity]. cbv zeta.
  destruct (dict_pair e v (l + s / 2)) as [p| | |]; cbn [bind]; try reflexivity.
  destruct (arr_is_wide e v) as [w| | |]; cbn [bind]; try reflexivity.
  destruct (dict_key_cmp e k (fst p) w) as [c| | |]; cbn [bind]; try reflexivity.
  destruct c; cbn [bind fst]; try reflexivity.
  - rewrite IH. unfold forget. destruct (search_trace _ _ _ _ _ _ _) as [[o t]| | |]; reflexivity.
  - rewrite IH. unfold forget. destruct (search_trace _ _ _ _ _ _ _) as [[o t]| | |]; reflexivity.
Qed.
Lemma forget_bind {A B C} (m : outcome A) (f : A -> outcome (B * C)) : forget (x <- m ;; f x) = (x <- m ;; forget (f x)).
Proof. destruct m; reflexivity. Qed.
Lemma trace_get_key e v k : dict_get_key e v k = forget (get_key_trace 66 e v k).
Proof.
  unfold dict_get_key, get_key_trace. generalize 66%nat. intros f. rewrite forget_bind.
  destruct (dict_len e v); cbn [bind]; try reflexivity. apply trace_search.
Qed.
Lemma trace_get e v key : dict_get e v key = forget (get_trace 66 e v key).
Proof.
  unfold dict_get, get_trace. rewrite forget_bind. destruct (encode_key e v key None) as [k| | |]; cbn [bind]; [|reflexivity..].
  apply trace_get_key.
Qed.
Lemma trace_get_sk e v key sk : dict_get_sk e v key sk = forget (get_trace_sk 66 e v key sk).
Proof.
  unfold dict_get_sk, get_trace_sk. rewrite forget_bind. destruct (encode_key e v key (Some sk)) as [k| | |]; cbn [bind]; [|reflexivity..].
  apply trace_get_key.
Qed.

(** Rounds needed for [n] entries. *)
Definition need (n : Z) : Z := if n <=? 0 then 0 else Z.log2 n + 1.
Lemma need_mono a b : a <= b -> need a <= need b.
Proof.
  intros H. unfold need. destruct (a <=? 0) eqn:E1, (b <=? 0) eqn:E2; try lia.
  - assert (0 <= Z.log2 b) by apply Z.log2_nonneg. lia.
  - assert (Z.log2 a <= Z.log2 b) by (apply Z.log2_le_mono; lia). lia.
Qed.
Lemma need_half n : 0 < n -> need n = 1 + need (n / 2).
Proof.
  intros H. unfold need. destruct (n <=? 0) eqn:E1; [lia|].
  destruct (n / 2 <=? 0) eqn:E2.
  - assert (n = 1) as -> by lia. reflexivity.
  - assert (Z.log2 n = Z.succ (Z.log2 (n / 2))); [|lia].
    destruct (Z.Even_or_Odd n) as [[k Hk]|[k Hk]]; subst n.
    + replace (2 * k / 2) with k by lia. apply Z.log2_double. lia.
    + replace ((2 * k + 1) / 2) with k by lia. apply Z.log2_succ_double. lia.
Qed.
Lemma need_nonneg n : 0 <= need n.
Proof. unfold need. destruct (n <=? 0); [lia|]. assert (0 <= Z.log2 n) by apply Z.log2_nonneg. lia. Qed.

Lemma half l r : l < r -> l <= l + (r - l) / 2 < r /\
  need (l + (r - l) / 2 - l) + 1 <= need (r - l) /\
  need (r - (l + (r - l) / 2 + 1)) + 1 <= need (r - l) /\ 1 <= need (r - l).
Proof.
  intros H. assert (Hh : need (r - l) = 1 + need ((r - l) / 2)) by (apply need_half; clear - H; lia).
  split; [clear Hh; lia|]. rewrite Hh. split; [|split].
  - replace (l + (r - l) / 2 - l) with ((r - l) / 2) by (clear; lia). clear. rewrite Z.add_comm. apply Z.le_refl.
  - rewrite (Z.add_comm 1). apply Z.add_le_mono_r. apply need_mono. clear Hh. lia.
  - assert (Hx := need_nonneg ((r - l) / 2)). clear - Hx. set (n := need _) in *. clearbody n. lia.
Qed.

Lemma trace_bound : forall f e v k l r o t,
  search_trace f e v k l r (r - l) = Ret (o, t) ->
  lenZ t <= need (r - l) /\ Forall (fun i => l <= i < r) t /\ NoDup t.
Proof.
  induction f as [|f IH]; intros e v k l r o t H; cbn [search_trace] in H; [discriminate|].
  destruct (l <? r) eqn:Hlr.
  2:{ apply ret_inj in H. injection H as <- <-. unfold lenZ. cbn [length].
      split; [apply need_nonneg|]. split; constructor. }
  cbv zeta in H. apply Z.ltb_lt in Hlr.
  destruct (half l r Hlr) as (Hm & Ha & Hb & Hh). set (mid := l + (r - l) / 2) in *. clearbody mid.
  destruct (dict_pair e v mid) as [p| | |]; cbn [bind] in H; try discriminate.
  destruct (arr_is_wide e v) as [w| | |]; cbn [bind] in H; try discriminate.
  destruct (dict_key_cmp e k (fst p) w) as [c| | |]; cbn [bind] in H; try discriminate.
  destruct c.
  - apply ret_inj in H. injection H as <- <-. split; [|split].
    + change (lenZ [mid]) with 1. exact Hh.
    + constructor; [exact Hm|constructor].
    + constructor; [intros []|constructor].
  - apply bind_inv in H as ([o' t'] & Hs & H). apply ret_inj in H. cbn [fst snd] in H. injection H as <- <-.
    destruct (IH _ _ _ _ _ _ _ Hs) as (H1 & H2 & H3). clear IH Hs. split; [|split].
    + rewrite lenZ_cons. apply Z.le_trans with (need (mid - l) + 1); [now apply Z.add_le_mono_r|exact Ha].
    + constructor; [exact Hm|]. eapply Forall_impl; [|exact H2]. cbv beta. intros a Hi. destruct Hi, Hm. split; [assumption|]. now apply Z.lt_trans with mid.
    + constructor; [|exact H3]. intros Hin. rewrite Forall_forall in H2. destruct (H2 _ Hin) as [_ Hx]. now apply Z.lt_irrefl in Hx.
  - apply bind_inv in H as ([o' t'] & Hs & H). apply ret_inj in H. cbn [fst snd] in H. injection H as <- <-.
    destruct (IH _ _ _ _ _ _ _ Hs) as (H1 & H2 & H3). clear IH Hs. split; [|split].
    + rewrite lenZ_cons. apply Z.le_trans with (need (r - (mid + 1)) + 1); [now apply Z.add_le_mono_r|exact Hb].
    + constructor; [exact Hm|]. eapply Forall_impl; [|exact H2]. cbv beta. intros a [Hi Hj]. destruct Hm. split; [|assumption].
      apply Z.le_trans with (mid + 1); [|exact Hi]. clear - H. lia.
    + constructor; [|exact H3]. intros Hin. rewrite Forall_forall in H2. destruct (H2 _ Hin) as [Hx _]. clear - Hx. lia.
Qed.
(** Rounds beyond the bound are never used, whatever the outcome. *)
Lemma trace_fuel : forall f f' e v k l r,
  need (r - l) < Z.of_nat f -> need (r - l) < Z.of_nat f' ->
  search_trace f e v k l r (r - l) = search_trace f' e v k l r (r - l).
Proof.
  induction f as [|f IH]; intros f' e v k l r H H'.
  { assert (Hx := need_nonneg (r - l)). change (Z.of_nat 0) with 0 in H. exfalso. clear - H Hx. lia. }
  destruct f' as [|f'].
  { assert (Hx := need_nonneg (r - l)). change (Z.of_nat 0) with 0 in H'. exfalso. clear - H' Hx. lia. }
  cbn [search_trace]. destruct (l <? r) eqn:Hlr; [|reflexivity]. cbv zeta. apply Z.ltb_lt in Hlr.
  destruct (half l r Hlr) as (Hm & Ha & Hb & Hh). set (mid := l + (r - l) / 2) in *. clearbody mid.
  rewrite Nat2Z.inj_succ in H, H'.
  destruct (dict_pair e v mid) as [p| | |]; cbn [bind]; try reflexivity.
  destruct (arr_is_wide e v) as [w| | |]; cbn [bind]; try reflexivity.
  destruct (dict_key_cmp e k (fst p) w) as [c| | |]; cbn [bind]; try reflexivity.
  destruct c; [reflexivity| |].
  - rewrite (IH f'); [reflexivity| |]; clear - H H' Ha; lia.
  - rewrite (IH f'); [reflexivity| |]; clear - H H' Hb; lia.
Qed.

Lemma need_pow n t : lenZ t <= need n -> (n <= 0 /\ t = []) \/ (0 < n /\ 2 ^ lenZ (t : list Z) <= 2 * n).
Proof.
  intros H. unfold need in H. destruct (n <=? 0) eqn:E.
  - left. apply Z.leb_le in E. split; [exact E|]. destruct t as [|x t]; [reflexivity|].
    rewrite lenZ_cons in H. assert (Hx := lenZ_nonneg t). exfalso. clear - H Hx. lia.
  - right. apply Z.leb_gt in E. split; [exact E|].
    destruct (Z.log2_spec n E) as [Hl _].
    apply Z.le_trans with (2 ^ (Z.log2 n + 1)); [apply Z.pow_le_mono_r; [reflexivity|exact H]|].
    rewrite Z.pow_add_r; [|apply Z.log2_nonneg|discriminate]. change (2 ^ 1) with 2.
    rewrite (Z.mul_comm _ 2). apply Z.mul_le_mono_nonneg_l; [discriminate|exact Hl].
Qed.
Lemma key_trace_bound f e v k n o t : dict_len e v = Ret n -> get_key_trace f e v k = Ret (o, t) ->
  ((n <= 0 /\ t = []) \/ (0 < n /\ 2 ^ lenZ t <= 2 * n)) /\ NoDup t /\ Forall (fun i => 0 <= i < n) t.
Proof.
  intros Hn H. unfold get_key_trace in H. rewrite Hn in H. cbn [bind] in H.
  rewrite <- (Z.sub_0_r n) in H at 2. destruct (trace_bound _ _ _ _ _ _ _ _ H) as (H1 & H2 & H3).
  rewrite Z.sub_0_r in H1. split; [exact (need_pow _ _ H1)|]. split; assumption.
Qed.
Lemma get_trace_bound f e v key n o t : dict_len e v = Ret n -> get_trace f e v key = Ret (o, t) ->
  ((n <= 0 /\ t = []) \/ (0 < n /\ 2 ^ lenZ t <= 2 * n)) /\ NoDup t /\ Forall (fun i => 0 <= i < n) t.
Proof.
  intros Hn H. unfold get_trace in H. apply bind_inv in H as (k & _ & H). exact (key_trace_bound _ _ _ _ _ _ _ Hn H).
Qed.
Lemma get_trace_sk_bound f e v key sk n o t : dict_len e v = Ret n -> get_trace_sk f e v key sk = Ret (o, t) ->
  ((n <= 0 /\ t = []) \/ (0 < n /\ 2 ^ lenZ t <= 2 * n)) /\ NoDup t /\ Forall (fun i => 0 <= i < n) t.
Proof.
  intros Hn H. unfold get_trace_sk in H. apply bind_inv in H as (k & _ & H). exact (key_trace_bound _ _ _ _ _ _ _ Hn H).
Qed.
Lemma need_usize n : n < two64 -> need n < Z.of_nat 66.
Proof.
  intros H. unfold need. destruct (n <=? 0) eqn:E; [reflexivity|]. apply Z.leb_gt in E.
  assert (Hl : Z.log2 n < 64) by (apply Z.log2_lt_pow2; [exact E|exact H]).
  change (Z.of_nat 66) with 66. clear - Hl. lia.
Qed.
Lemma key_trace_rounds f e v k n : (66 <= f)%nat -> dict_len e v = Ret n -> n < two64 ->
  get_key_trace f e v k = get_key_trace 66 e v k.
Proof.
  intros Hf Hn H64. unfold get_key_trace. rewrite Hn. cbn [bind].
  assert (Hu := need_usize n H64). assert (E := trace_fuel f 66 e v k 0 n). rewrite Z.sub_0_r in E. apply E; [|exact Hu].
  apply Z.lt_le_trans with (1 := Hu). apply inj_le. exact Hf.
Qed.
Lemma get_trace_rounds f e v key n : (66 <= f)%nat -> dict_len e v = Ret n -> n < two64 ->
  get_trace f e v key = get_trace 66 e v key.
Proof.
  intros Hf Hn H64. unfold get_trace. destruct (encode_key e v key None) as [k| | |]; cbn [bind]; [|reflexivity..].
  exact (key_trace_rounds _ _ _ _ _ Hf Hn H64).
Qed.
