(** Proofs for C57: the views of a dict on any accepted data. *)
From Verif Require Import Prelude Lib SharedKeys Decode ReadSpec Safety Agree Navigate ViewSpec.

Section V.
Variable e : env.
Hypothesis Hwf : wf_env e.

Section C.
Variables (v : val) (d : Z) (wide : bool) (n fp : Z).
Hypothesis C : coll e v d wide n fp.
Notation elem := (elem e).

Lemma vw_key i kv : 0 <= i < n -> elem v wide fp i = Ret kv -> exists k, key_text e (e_sk e) kv = Ret k.
Proof using Hwf C.
  intros Hi Hkv. assert (Hg : gd e kv) by (eapply co_elem_gd; [exact C|exact Hi|exact Hkv]).
  pose proof (key_of_ok e Hwf kv Hg) as [k Hk]. destruct (gd_type e kv Hg) as (ty & Hty & _).
  exists k. unfold key_text. rewrite Hty in *. cbn [bind]. exact Hk.
Qed.

Lemma vw_next i kv k x : 0 <= i -> i + 1 < n -> elem v wide fp i = Ret kv -> key_text e (e_sk e) kv = Ret k ->
  elem v wide fp (i + 1) = Ret x ->
  match k with
  | Some s => dict_iter_next e (it_at v wide fp n i) = Ret (Some (s, x), it_at v wide fp n (i + 2))
  | None => exists it, dict_iter_next e (it_at v wide fp n i) = Ret (None, it)
  end.
Proof using Hwf C.
  intros H0 H1 Hkv Hk Hx. unfold key_text in Hk.
  assert (E : dict_iter_next e (it_at v wide fp n i) =
    match k with None => Ret (None, it_at v wide fp n (i + 1)) | Some s => Ret (Some (s, x), it_at v wide fp n (i + 2)) end).
  { unfold dict_iter_next. rewrite iter_next_at by lia. rewrite Hkv. cbn [bind].
    destruct (value_type e kv) as [ty| | |]; try discriminate. cbn [bind] in *. rewrite Hk. cbn [bind].
    destruct k as [s|]; [|reflexivity]. rewrite iter_next_at by lia. rewrite Hx. cbn [bind].
    replace (i + 1 + 1) with (i + 2) by lia. reflexivity. }
  rewrite E. destruct k; [reflexivity|eauto].
Qed.

(** Entries from position [i] on. *)
Definition from_pos (i : Z) (es : list (option (list Z) * val)) : Prop :=
  i + 2 * lenZ es = n /\
  forall j k x, nth_error es j = Some (k, x) ->
    exists kv, elem v wide fp (i + 2 * Z.of_nat j) = Ret kv /\ key_text e (e_sk e) kv = Ret k /\
      elem v wide fp (i + 2 * Z.of_nat j + 1) = Ret x.
Lemma from_pos_cons i k x es : from_pos i ((k, x) :: es) ->
  (exists kv, elem v wide fp i = Ret kv /\ key_text e (e_sk e) kv = Ret k /\ elem v wide fp (i + 1) = Ret x) /\
  from_pos (i + 2) es.
Proof.
  intros [H1 H2]. rewrite lenZ_cons in H1. split.
  - destruct (H2 0%nat k x eq_refl) as (kv & A & B & D). exists kv. rewrite Z.mul_0_r, Z.add_0_r in *. auto.
  - split; [lia|]. intros j k' x' Hj. destruct (H2 (S j) k' x' Hj) as (kv & A & B & D). exists kv.
    replace (i + 2 + 2 * Z.of_nat j) with (i + 2 * Z.of_nat (S j)) by lia. auto.
Qed.

Lemma vw_entries : forall m i, 0 <= i -> i + 2 * Z.of_nat m = n -> exists es, length es = m /\ from_pos i es.
Proof using Hwf C.
  induction m as [|m IH]; intros i H0 Hm.
  - exists []. split; [reflexivity|]. split; [cbn; lia|]. intros [|j] k x H; discriminate.
  - destruct (IH (i + 2)) as (es & Hl & H1 & H2); [lia|lia|].
    destruct (co_elem e _ _ _ _ _ C i) as (kv & dk & Hkv & _); [lia|].
    destruct (co_elem e _ _ _ _ _ C (i + 1)) as (x & dx & Hx & _); [lia|].
    destruct (vw_key i kv) as (k & Hk); [lia|exact Hkv|]. exists ((k, x) :: es). split; [cbn [length]; lia|].
    split; [rewrite lenZ_cons; lia|]. intros [|j] k' x' Hj; cbn [nth_error] in Hj.
    + injection Hj as <- <-. exists kv. rewrite Z.mul_0_r, Z.add_0_r. auto.
    + destruct (H2 j k' x' Hj) as (kv' & A & B & D). exists kv'.
      replace (i + 2 * Z.of_nat (S j)) with (i + 2 + 2 * Z.of_nat j) by lia. auto.
Qed.

Lemma vw_collect : forall f i es, 0 <= i -> from_pos i es -> (length es < f)%nat ->
  dict_collect f e (it_at v wide fp n i) = Ret (known es).
Proof using Hwf C.
  induction f as [|f IH]; intros i es H0 Hes Hf; [lia|]. cbn [dict_collect]. destruct es as [|[k x] es].
  - destruct Hes as [Hn _]. unfold dict_iter_next. rewrite iter_next_end by (unfold lenZ in Hn; cbn [length] in Hn; lia). reflexivity.
  - destruct (from_pos_cons _ _ _ _ Hes) as [(kv & A & B & D) Hes']. pose proof Hes' as [Hn _]. unfold lenZ in Hn.
    pose proof (vw_next i kv k x H0 ltac:(lia) A B D) as E. cbn [known]. destruct k as [s|].
    + rewrite E. cbn [bind]. rewrite (IH (i + 2) es); [reflexivity|lia|exact Hes'|cbn [length] in Hf; lia].
    + destruct E as [it E]. rewrite E. reflexivity.
Qed.
Lemma vw_run : forall k i es, 0 <= i -> from_pos i es -> (k <= length (known es))%nat ->
  dict_run k e (it_at v wide fp n i) = Ret (firstn k (known es), it_at v wide fp n (i + 2 * Z.of_nat k)).
Proof using Hwf C.
  induction k as [|k IH]; intros i es H0 Hes Hk; cbn [dict_run].
  - rewrite Z.mul_0_r, Z.add_0_r. reflexivity.
  - destruct es as [|[[s|] x] es]; cbn [known length] in Hk; try lia.
    destruct (from_pos_cons _ _ _ _ Hes) as [(kv & A & B & D) Hes']. pose proof Hes' as [Hn _]. unfold lenZ in Hn.
    pose proof (vw_next i kv (Some s) x H0 ltac:(lia) A B D) as E. cbn beta iota in E. rewrite E. cbn [bind fst snd known firstn].
    rewrite (IH (i + 2) es) by (auto; lia). cbn [bind fst snd].
    replace (i + 2 + 2 * Z.of_nat k) with (i + 2 * Z.of_nat (S k)) by lia. reflexivity.
Qed.
End C.

Lemma dict_views r v : from_bytes e = Ret (Ok r) -> reach e r v -> value_type e v = Ret TyDict ->
  exists es it0, entries e v es /\ arr_iter e v = Ret it0 /\
    dict_elems e v = Ret (known es) /\
    dict_first e v = match es with [] => Ret None | (_, x) :: _ => kv <- arr_get_unchecked e v 0 ;; Ret (Some (kv, x)) end /\
    (forall k, (k <= length (known es))%nat -> exists it,
       dict_run k e it0 = Ret (firstn k (known es), it) /\ dict_iter_size_hint it = lenZ es - Z.of_nat k /\
       (k = length es -> dict_iter_next e it = Ret (None, it))).
Proof using Hwf.
  intros Hr Hv Hty. destruct (here e Hwf r v Hr Hv) as (d & Hg & Hd).
  destruct (gd_coll e Hwf v d _ Hg Hd Hty ltac:(unfold is_coll; tauto)) as (wide & n & fp & C).
  pose proof (co_n _ _ _ _ _ _ C) as Hn0. pose proof (co_even e Hwf _ _ _ _ _ C Hty) as Hev.
  pose proof (co_small _ _ _ _ _ _ C) as [Hs Hs2].
  destruct (vw_entries v d wide n fp C (Z.to_nat (n / 2)) 0) as (es & Hl & Hes); [lia|lia|].
  assert (Hlz : n = 2 * lenZ es) by (destruct Hes; lia).
  exists es, (it_at v wide fp n 0). split; [|split; [|split; [|split]]].
  - split.
    + unfold dict_len. rewrite (co_len _ _ _ _ _ _ C). cbn [bind]. f_equal. lia.
    + intros j k x Hj. assert (Hj' : Z.of_nat j < lenZ es) by (assert (Hx : nth_error es j <> None) by congruence; apply nth_error_Some in Hx; unfold lenZ; lia).
      destruct Hes as [_ Hes]. destruct (Hes j k x Hj) as (kv & A & B & D). rewrite Z.add_0_l in A, D. exists kv.
      rewrite (co_get e Hwf _ _ _ _ _ C) by lia. rewrite A. split; [reflexivity|]. split; [exact B|].
      rewrite (co_get e Hwf _ _ _ _ _ C) by lia. rewrite D. reflexivity.
  - apply (co_iter e _ _ _ _ _ C).
  - unfold dict_elems. rewrite (co_iter e _ _ _ _ _ C). cbn [bind]. apply (vw_collect v d wide n fp C); [lia|exact Hes|unfold lenZ in *; lia].
  - unfold dict_first. rewrite (co_len _ _ _ _ _ _ C). cbn [bind]. destruct es as [|[k x] es].
    + cbn in Hlz. subst n. reflexivity.
    + rewrite lenZ_cons in Hlz. pose proof (lenZ_nonneg es). destruct (n =? 0) eqn:E; [lia|].
      destruct (co_pair e Hwf _ _ _ _ _ C 0) as (k' & x' & Hp & E1 & E2); [lia|lia|]. rewrite Hp. cbn [bind].
      rewrite (co_get_unchecked e Hwf _ _ _ _ _ C) by lia. rewrite Z.mul_0_r in E1. rewrite E1. cbn [bind].
      destruct Hes as [_ Hes]. destruct (Hes 0%nat k x eq_refl) as (kv & A & B & D). cbn in D, E2. rewrite E2 in D.
      injection D as ->. reflexivity.
  - intros k Hk. exists (it_at v wide fp n (0 + 2 * Z.of_nat k)). split; [apply (vw_run v d wide n fp C); [lia|exact Hes|exact Hk]|].
    split; [unfold dict_iter_size_hint, iter_size_hint, it_at; cbn [it_len it_index]; lia|].
    intros ->. unfold dict_iter_next. rewrite iter_next_end by (unfold lenZ in Hlz; lia). reflexivity.
Qed.
End V.
