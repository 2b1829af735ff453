(** The typed constructors, indexing and the yes/no questions. *)
From Verif Require Import Prelude Lib Decode Read ReadSpec Safety Agree Navigate Alloced Repr ViewSpec Views.
From Coq Require Import Lia ZifyBool.
Ltac Zify.zify_post_hook ::= Z.div_mod_to_equations.

Lemma typed_root (ty : vtype) (bad : decode_error) (f : env -> dres val) e :
  f e = (v <-? from_bytes e ;; t <- value_type e v ;; if vtype_eqb t ty then Ret (Ok v) else Ret (Err bad)) ->
  (forall v, f e = Ret (Ok v) <-> from_bytes e = Ret (Ok v) /\ value_type e v = Ret ty) /\
  (forall x, f e = Ret (Err x) <-> from_bytes e = Ret (Err x) \/
     x = bad /\ exists v t, from_bytes e = Ret (Ok v) /\ value_type e v = Ret t /\ t <> ty).
Proof.
  intros ->. destruct (from_bytes e) as [[v|x]| | |]; cbn [bindr bind].
  - destruct (value_type e v) as [t| | |] eqn:Et; cbn [bind].
    + destruct (vtype_eqb t ty) eqn:Ev.
      * apply vtype_eqb_eq in Ev as ->. split; intros y; (split; [intros H|]).
        -- assert (y = v) as -> by congruence. auto.
        -- intros [H _]. exact H.
        -- discriminate.
        -- intros [H|(_ & w & t & H & H1 & H2)]; [discriminate|]. assert (w = v) as -> by congruence. congruence.
      * assert (Hn : t <> ty) by (intros ->; rewrite (proj2 (vtype_eqb_eq ty ty) eq_refl) in Ev; discriminate).
        split; intros y; (split; [intros H|]).
        -- discriminate.
        -- intros [H H1]. assert (y = v) as -> by congruence. congruence.
        -- right. split; [congruence|]. exists v, t. auto.
        -- intros [H|(-> & _)]; [discriminate|reflexivity].
    + split; intros y; (split; [discriminate|]); [intros [H H1]|intros [H|(_ & w & t & H & H1 & H2)]]; try discriminate; congruence.
    + split; intros y; (split; [discriminate|]); [intros [H H1]|intros [H|(_ & w & t & H & H1 & H2)]]; try discriminate; congruence.
    + split; intros y; (split; [discriminate|]); [intros [H H1]|intros [H|(_ & w & t & H & H1 & H2)]]; try discriminate; congruence.
  - split; intros y; (split; [intros H|]).
    + discriminate.
    + intros [H _]. discriminate.
    + left. congruence.
    + intros [H|(_ & w & t & H & _)]; congruence.
  - split; intros y; (split; [discriminate|]); [intros [H H1]|intros [H|(_ & w & t & H & H1 & H2)]]; discriminate.
  - split; intros y; (split; [discriminate|]); [intros [H H1]|intros [H|(_ & w & t & H & H1 & H2)]]; discriminate.
  - split; intros y; (split; [discriminate|]); [intros [H H1]|intros [H|(_ & w & t & H & H1 & H2)]]; discriminate.
Qed.

Lemma typed_array e :
  (forall v, array_from_bytes e = Ret (Ok v) <-> from_bytes e = Ret (Ok v) /\ value_type e v = Ret TyArray) /\
  (forall x, array_from_bytes e = Ret (Err x) <-> from_bytes e = Ret (Err x) \/
     x = IsNotArray /\ exists v t, from_bytes e = Ret (Ok v) /\ value_type e v = Ret t /\ t <> TyArray).
Proof. exact (typed_root TyArray IsNotArray array_from_bytes e eq_refl). Qed.
Lemma typed_dict e :
  (forall v, dict_from_bytes e = Ret (Ok v) <-> from_bytes e = Ret (Ok v) /\ value_type e v = Ret TyDict) /\
  (forall x, dict_from_bytes e = Ret (Err x) <-> from_bytes e = Ret (Err x) \/
     x = IsNotDict /\ exists v t, from_bytes e = Ret (Ok v) /\ value_type e v = Ret t /\ t <> TyDict).
Proof. exact (typed_root TyDict IsNotDict dict_from_bytes e eq_refl). Qed.

Lemma cloned (ty : vtype) (bad : decode_error) dbg base sk data (f : dres alloced) (to : alloced -> outcome (option alloced)) :
  (forall a, to a = (t <- value_type (al_env a) (al_val a) ;; Ret (if vtype_eqb t ty then Some a else None))) ->
  f = (a <-? clone_from_bytes dbg base sk data ;; r <- to a ;; Ret match r with Some x => Ok x | None => Err bad end) ->
  (forall v, from_bytes (mk_env dbg base data sk) = Ret (Ok v) -> value_type (mk_env dbg base data sk) v = Ret ty ->
     f = Ret (Ok (mk_alloced (mk_env dbg base data sk) v))) /\
  (forall x, from_bytes (mk_env dbg base data sk) = Ret (Err x) -> f = Ret (Err x)) /\
  (forall v t, from_bytes (mk_env dbg base data sk) = Ret (Ok v) -> value_type (mk_env dbg base data sk) v = Ret t -> t <> ty -> f = Ret (Err bad)).
Proof.
  intros Hto ->. unfold clone_from_bytes. split; [|split].
  - intros v Hv Ht. rewrite Hv. cbn [bindr bind]. rewrite Hto. cbn [al_env al_val]. rewrite Ht. cbn [bind].
    rewrite (proj2 (vtype_eqb_eq ty ty) eq_refl). reflexivity.
  - intros x ->. reflexivity.
  - intros v t Hv Ht Hn. rewrite Hv. cbn [bindr bind]. rewrite Hto. cbn [al_env al_val]. rewrite Ht. cbn [bind].
    destruct (vtype_eqb t ty) eqn:E; [apply vtype_eqb_eq in E; contradiction|reflexivity].
Qed.

Lemma contains_get e v key :
  (dict_contains e v key = Ret true <-> exists x, dict_get e v key = Ret (Some x)) /\
  (dict_contains e v key = Ret false <-> dict_get e v key = Ret None) /\
  (forall x, dict_index e v key = Ret x <-> dict_get e v key = Ret (Some x)).
Proof.
  unfold dict_contains, dict_index. destruct (dict_get e v key) as [[x|]| | |]; cbn [bind];
  (split; [|split]); try (intros y); split; intros H; try discriminate; try (destruct H as [y' H]; discriminate); eauto; congruence.
Qed.
Lemma contains_get_sk e v key sk :
  (dict_contains_sk e v key sk = Ret true <-> exists x, dict_get_sk e v key sk = Ret (Some x)) /\
  (dict_contains_sk e v key sk = Ret false <-> dict_get_sk e v key sk = Ret None).
Proof.
  unfold dict_contains_sk. destruct (dict_get_sk e v key sk) as [[x|]| | |]; cbn [bind];
  split; split; intros H; try discriminate; try (destruct H as [y' H]; discriminate); eauto; congruence.
Qed.

Lemma index_get e v i x : arr_index e v i = Ret x <-> arr_get e v i = Ret (Some x).
Proof.
  unfold arr_index. destruct (arr_get e v i) as [[y|]| | |]; cbn [bind]; split; intros H; congruence.
Qed.

Lemma is_empty_elems e r v : wf_env e -> from_bytes e = Ret (Ok r) -> reach e r v -> value_type e v = Ret TyArray ->
  exists xs, arr_elems e v = Ret xs /\ arr_is_empty e v = Ret (match xs with [] => true | _ => false end).
Proof.
  intros Hwf Hr Hv Ht. destruct (array_iter e Hwf r v Hr Hv Ht) as (n & it0 & Hn & _ & _ & _ & xs & Hx & Hl & _).
  exists xs. split; [exact Hx|]. unfold arr_is_empty. rewrite Hn. cbn [bind]. f_equal. subst n. destruct xs; unfold lenZ; cbn [length]; lia.
Qed.

Lemma dict_len_even e v n : value_type e v = Ret TyDict -> arr_len e v = Ret n -> n mod 2 = 0.
Proof.
  intros Ht H. unfold arr_len in H. rewrite Ht in H. cbn [bind vtype_eqb] in H. apply bind_inv in H as (s & Hs & H).
  destruct (Z.land s VARINT_COUNT =? VARINT_COUNT).
  - apply bind_inv in H as (r & Hr & H). destruct r as [rd size]. destruct (rd =? 0); [apply ret_inj in H; subst; reflexivity|].
    unfold usize_mul in H. destruct (size * 2 <? two64); [|destruct (e_dbg e); [discriminate|]]; apply ret_inj in H; subst n; unfold wrap_u64, two64; lia.
  - apply ret_inj in H. subst n. lia.
Qed.
Lemma dict_empty_entries e r v : wf_env e -> from_bytes e = Ret (Ok r) -> reach e r v -> value_type e v = Ret TyDict ->
  exists es, entries e v es /\ dict_is_empty e v = Ret (match es with [] => true | _ => false end).
Proof.
  intros Hwf Hr Hv Ht. destruct (dict_views e Hwf r v Hr Hv Ht) as (es & it & He & _). exists es. split; [exact He|].
  destruct He as [Hl _]. unfold dict_len in Hl. apply bind_inv in Hl as (n & Hn & Hl). apply ret_inj in Hl. pose proof (dict_len_even e v n Ht Hn) as He.
  unfold dict_is_empty, arr_is_empty. rewrite Hn. cbn [bind]. f_equal. destruct es; unfold lenZ in Hl; cbn [length] in Hl; lia.
Qed.

Lemma clone_array dbg base sk data : let m := mk_env dbg base data sk in
  (forall v, array_from_bytes m = Ret (Ok v) -> array_clone_from_bytes dbg base sk data = Ret (Ok (mk_alloced m v))) /\
  (forall x, array_from_bytes m = Ret (Err x) -> array_clone_from_bytes dbg base sk data = Ret (Err x)).
Proof.
  cbv zeta. destruct (cloned TyArray IsNotArray dbg base sk data (array_clone_from_bytes dbg base sk data) alloced_to_array (fun _ => eq_refl) eq_refl) as (H1 & H2 & H3).
  destruct (typed_array (mk_env dbg base data sk)) as [T1 T2]. split.
  - intros v H. apply T1 in H as [H Ht]. apply H1; assumption.
  - intros x H. apply T2 in H as [H|(-> & v & t & H & Ht & Hn)]; [apply H2; exact H|eapply H3; eauto].
Qed.
Lemma clone_dict dbg base sk data : let m := mk_env dbg base data sk in
  (forall v, dict_from_bytes m = Ret (Ok v) -> dict_clone_from_bytes dbg base sk data = Ret (Ok (mk_alloced m v))) /\
  (forall x, dict_from_bytes m = Ret (Err x) -> dict_clone_from_bytes dbg base sk data = Ret (Err x)).
Proof.
  cbv zeta. destruct (cloned TyDict IsNotDict dbg base sk data (dict_clone_from_bytes dbg base sk data) alloced_to_dict (fun _ => eq_refl) eq_refl) as (H1 & H2 & H3).
  destruct (typed_dict (mk_env dbg base data sk)) as [T1 T2]. split.
  - intros v H. apply T1 in H as [H Ht]. apply H1; assumption.
  - intros x H. apply T2 in H as [H|(-> & v & t & H & Ht & Hn)]; [apply H2; exact H|eapply H3; eauto].
Qed.
