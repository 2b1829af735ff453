(** Insertion sort meets what is assumed of [sort_unstable_by]; used in the examples, to show
    that the assumption can be met. *)
From Coq Require Import Sorting.Permutation Sorting.Sorted.
From Coq Require Import ZifyBool.
From Verif Require Import Prelude Utf8 Float SharedKeys Decode Read Encodable Encoder BuilderSpec Lib.

Definition le_key (a b : delem) : bool :=
  match enc_key_cmp (de_key a) (de_key b) with Gt => false | _ => true end.
Fixpoint ins (d : delem) (l : list delem) : list delem :=
  match l with
  | [] => [d]
  | x :: l' => if le_key d x then d :: l else x :: ins d l'
  end.
Definition isort (l : list delem) : list delem := fold_right ins [] l.

Lemma bytes_cmp_sym a : forall b, bytes_cmp b a = CompOpp (bytes_cmp a b).
Proof.
  induction a as [|x a IH]; destruct b as [|y b]; cbn [bytes_cmp]; try reflexivity.
  rewrite (Z.compare_antisym x y). destruct (x ?= y); cbn [CompOpp]; auto.
Qed.
Lemma bytes_cmp_trans : forall a b c, bytes_cmp a b <> Gt -> bytes_cmp b c <> Gt -> bytes_cmp a c <> Gt.
Proof.
  induction a as [|x a IH]; intros [|y b] [|z c]; cbn [bytes_cmp]; try congruence.
  intros H1 H2. destruct (Z.compare_spec x y) as [E|E|E]; [subst y| |congruence].
  - destruct (x ?= z); [eapply IH; eauto|congruence|congruence].
  - assert (Hz : x < z) by (destruct (Z.compare_spec y z); try lia; congruence).
    apply Z.compare_lt_iff in Hz. rewrite Hz. discriminate.
Qed.
Lemma enc_key_cmp_sym a b : enc_key_cmp b a = CompOpp (enc_key_cmp a b).
Proof.
  destruct a, b; cbn [enc_key_cmp dictkey_str]; try reflexivity; try apply bytes_cmp_sym.
  apply Z.compare_antisym.
Qed.
Lemma enc_key_cmp_trans a b c : enc_key_cmp a b <> Gt -> enc_key_cmp b c <> Gt -> enc_key_cmp a c <> Gt.
Proof.
  destruct a, b, c; cbn [enc_key_cmp dictkey_str]; try congruence; try apply bytes_cmp_trans.
  rewrite !Z.compare_gt_iff. lia.
Qed.
Lemma ins_perm d l : Permutation (d :: l) (ins d l).
Proof.
  induction l as [|x l IH]; cbn [ins]; [reflexivity|]. destruct (le_key d x); [reflexivity|].
  rewrite perm_swap. constructor. exact IH.
Qed.
Lemma ins_forall (P : delem -> Prop) d l : P d -> Forall P l -> Forall P (ins d l).
Proof. intros H1 H2. eapply Permutation_Forall; [apply ins_perm|]. constructor; assumption. Qed.

Lemma isort_ok : sort_ok isort.
Proof.
  intros l. induction l as [|d l [IH1 IH2]]; cbn [isort fold_right]; [split; constructor|]. fold (isort l).
  split; [rewrite <- ins_perm; constructor; exact IH1|].
  revert IH2. generalize (isort l). clear. induction l as [|x l IH]; intros H; cbn [ins].
  - repeat constructor.
  - inversion H as [|? ? H1 H2]; subst. unfold le_key.
    destruct (enc_key_cmp (de_key d) (de_key x)) eqn:E.
    + constructor; [exact H|]. constructor; [congruence|]. eapply Forall_impl; [|exact H2].
      intros y Hy. eapply enc_key_cmp_trans; [|exact Hy]. congruence.
    + constructor; [exact H|]. constructor; [congruence|]. eapply Forall_impl; [|exact H2].
      intros y Hy. eapply enc_key_cmp_trans; [|exact Hy]. congruence.
    + constructor; [apply IH; exact H1|]. apply ins_forall; [|exact H2].
      rewrite enc_key_cmp_sym, E. discriminate.
Qed.

(** Computable versions of the conditions on calls, for the examples. *)
Fixpoint wf_encb (v : encodable) : bool :=
  match v with
  | EInt t z => (ity_min t <=? z) && (z <=? ity_max t)
  | EF32 b => (0 <=? b) && (b <? two32)
  | EF64 b => (0 <=? b) && (b <? two64)
  | EBool _ | ENull | EUndef | ENone => true
  | EStr s => forallb (fun b => (0 <=? b) && (b <? 256)) s && (lenZ s <? two63) && utf8_valid s
  | EData s => forallb (fun b => (0 <=? b) && (b <? 256)) s && (lenZ s <? two63)
  | ESome w => wf_encb w
  | ESized _ | EHdr _ _ => false
  end.
Definition good_opb (o : op) : bool :=
  match o with
  | OpKey k => wf_encb (EStr k)
  | OpValue v => wf_encb v && enc_ok v
  | OpBeginArray n => n * 4 <? two63
  | _ => true
  end.
Lemma all_bytesb s : forallb (fun b => (0 <=? b) && (b <? 256)) s = true -> all_bytes s.
Proof.
  intros H. rewrite forallb_forall in H. apply Forall_forall. intros x Hx. specialize (H x Hx). unfold is_byte. lia.
Qed.
Lemma wf_encb_ok v : wf_encb v = true -> wf_enc v.
Proof.
  induction v; cbn [wf_encb wf_enc]; try discriminate; auto; intros H; try lia.
  - apply andb_prop in H as [H H2]. apply andb_prop in H as [H H1]. apply all_bytesb in H. split; [assumption|]. split; [lia|assumption].
  - apply andb_prop in H as [H H1]. apply all_bytesb in H. split; [assumption|lia].
Qed.
Lemma good_opsb ops : forallb good_opb ops = true -> Forall good_op ops.
Proof.
  intros H. rewrite forallb_forall in H. apply Forall_forall. intros o Ho. specialize (H o Ho).
  destruct o; cbn [good_opb good_op] in *; auto.
  - apply wf_encb_ok in H. exact H.
  - apply andb_prop in H as [H H1]. apply wf_encb_ok in H. auto.
  - lia.
Qed.
