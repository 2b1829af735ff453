(** Every value reached in a document is an even number of bytes from its start. *)
From Coq Require Import ZifyBool ZifyNat ZifyN.
From Verif Require Import Prelude Lib SharedKeys Decode Read ReadSpec Safety Navigate IsMutable.
Ltac Zify.zify_post_hook ::= Z.div_mod_to_equations.

Lemma get_offset_even e v wide off : get_offset e v wide = Ret off -> off mod 2 = 0.
Proof.
  unfold get_offset. intros H. destruct wide; apply bind_inv in H as (bs & _ & H); apply ret_inj in H; subst off; apply Z.mod_mul; lia.
Qed.
Lemma ptr_target_even e v off : off mod 2 = 0 -> v_pos v mod 2 = 0 -> ptr_target e v off mod 2 = 0.
Proof. unfold ptr_target, wrap_u64, two64. lia. Qed.

Lemma deref_checked_even e : forall f v wide r, v_pos v mod 2 = 0 -> deref_checked f e v wide = Ret (Ok r) -> v_pos r mod 2 = 0.
Proof.
  induction f as [|f IH]; intros v wide r Hv H; cbn [deref_checked] in H; [discriminate|].
  destruct (_ || _); [discriminate|]. apply bind_inv in H as (off & Ho & H). apply get_offset_even in Ho.
  destruct (off =? 0); [discriminate|]. cbv zeta in H. apply bind_inv in H as (b0 & _ & H).
  destruct (negb _); [discriminate|]. destruct (_ <? 0); [discriminate|]. apply bind_inv in H as (t & _ & H).
  pose proof (ptr_target_even e v off Ho Hv) as Ht.
  destruct (vtype_eqb t TyPointer); [exact (IH (V (ptr_target e v off) off) true r Ht H)|]. apply ret_inj in H. injection H as <-. exact Ht.
Qed.
Lemma deref_unchecked_even e : forall f v wide r, v_pos v mod 2 = 0 -> deref_unchecked f e v wide = Ret r -> v_pos r mod 2 = 0.
Proof.
  induction f as [|f IH]; intros v wide r Hv H; cbn [deref_unchecked] in H; [discriminate|].
  apply bind_inv in H as (off & Ho & H). apply get_offset_even in Ho. destruct (e_dbg e && _); [discriminate|].
  cbv zeta in H. apply bind_inv in H as (t & _ & H). pose proof (ptr_target_even e v off Ho Hv) as Ht.
  destruct (vtype_eqb t TyPointer); [exact (IH (V (ptr_target e v off) off) true r Ht H)|]. apply ret_inj in H. subst r. exact Ht.
Qed.
Lemma resolve_even e v wide r : v_pos v mod 2 = 0 -> resolve e v wide = Ret r -> v_pos r mod 2 = 0.
Proof.
  intros Hv H. unfold resolve in H. apply bind_inv in H as (t & _ & H).
  destruct (vtype_eqb t TyPointer); [exact (deref_unchecked_even _ _ _ _ _ Hv H)|]. apply ret_inj in H. subst r. exact Hv.
Qed.
Lemma first_pos_even e v fp : first_pos e v = Ret fp -> fp mod 2 = 0.
Proof.
  unfold first_pos. intros H. destruct (v_len v <? 2); [apply ret_inj in H; subst; reflexivity|].
  apply bind_inv in H as (s & _ & H). destruct (_ =? _); [|apply ret_inj in H; subst; reflexivity].
  apply bind_inv in H as ([rd x] & _ & H). apply ret_inj in H. destruct (rd mod 2 =? 0) eqn:E; cbn [negb] in H; lia.
Qed.
Lemma root_even e r : from_bytes e = Ret (Ok r) -> v_pos r mod 2 = 0.
Proof.
  unfold from_bytes. intros H. apply bindr_inv in H as (x & Hx & H). apply bindr_inv in H as (u & _ & H).
  apply ret_inj in H. injection H as ->. unfold find_root in Hx. destruct (_ || _) eqn:E; [discriminate|]. cbv zeta in Hx.
  apply bind_inv in Hx as (t & _ & Hx). assert (Hn : (lenZ (e_data e) - 2) mod 2 = 0) by lia.
  destruct (vtype_eqb t TyPointer); [eapply deref_checked_even in Hx; [exact Hx|exact Hn]|].
  destruct (_ =? 2); [|discriminate]. apply ret_inj in Hx. injection Hx as <-. exact Hn.
Qed.
Lemma reach_even e r v : wf_env e -> from_bytes e = Ret (Ok r) -> reach e r v -> v_pos v mod 2 = 0.
Proof.
  intros Hwf Hr Hv. pose proof (root_gd e Hwf r Hr) as Hg. pose proof (root_even e r Hr) as He.
  induction Hv as [|a b c Hab IH Hbc]; [exact He|].
  specialize (IH Hr Hg He). pose proof (reach_gd e Hwf a b Hg Hab) as (d & Hb & Hd).
  destruct (step_elem e Hwf b d c Hb Hd Hbc) as (wide & n & fp & i & C & Hi & Hx).
  pose proof (first_pos_even _ _ _ (co_fp _ _ _ _ _ _ C)) as Hf. unfold elem in Hx.
  eapply resolve_even; [|exact Hx]. cbn [v_pos]. destruct wide; cbn [width_of]; lia.
Qed.
Lemma is_mutable_base e r v : wf_env e -> from_bytes e = Ret (Ok r) -> reach e r v -> is_mutable e v = Z.odd (e_base e).
Proof.
  intros Hwf Hr Hv. pose proof (reach_even e r v Hwf Hr Hv) as H. unfold is_mutable.
  change 1 with (Z.ones 1). rewrite Z.land_ones by lia. change (2 ^ 1) with 2. rewrite Zodd_mod.
  assert (E : (e_base e + v_pos v) mod 2 = e_base e mod 2) by lia. rewrite E. destruct (Zeq_bool _ _) eqn:E1.
  - apply Zeq_bool_eq in E1. rewrite E1. reflexivity.
  - apply Zeq_bool_neq in E1. lia.
Qed.
