(** Proofs about owners: the counts are the numbers of owners. *)
From Coq Require Import ZifyBool ZifyNat.
From Verif Require Import Prelude Owners OwnersSpec.

(* ---------- Lists ---------- *)

Definition b2n (b : bool) : nat := if b then 1 else 0.
Fixpoint cnt {A} (f : A -> bool) (l : list A) : nat :=
  match l with [] => O | x :: r => (b2n (f x) + cnt f r)%nat end.
Lemma cnt_app {A} (f : A -> bool) l l' : cnt f (l ++ l') = (cnt f l + cnt f l')%nat.
Proof. induction l as [|x l IH]; cbn [cnt app]; [reflexivity|]. rewrite IH. lia. Qed.
Lemma cnt_put {A} (f : A -> bool) l i x y : nth_error l i = Some y ->
  (cnt f (put l i x) + b2n (f y) = cnt f l + b2n (f x))%nat.
Proof.
  revert i; induction l as [|z l IH]; intros [|i] H; cbn [nth_error] in H; try discriminate.
  - injection H as ->. unfold put. cbn [firstn skipn app cnt]. lia.
  - specialize (IH i H). unfold put in *. cbn [firstn skipn app cnt] in *. lia.
Qed.
Lemma cnt_pos {A} (f : A -> bool) l : (0 < cnt f l)%nat -> exists i x, nth_error l i = Some x /\ f x = true.
Proof.
  induction l as [|x l IH]; cbn [cnt]; intros H; [lia|].
  destruct (f x) eqn:Hf; [exists O, x; split; [reflexivity|exact Hf]|].
  cbn [b2n] in H. destruct IH as (i & y & Hi & Hy); [lia|]. exists (S i), y. split; assumption.
Qed.
Lemma cnt_in {A} (f : A -> bool) l i x : nth_error l i = Some x -> f x = true -> (0 < cnt f l)%nat.
Proof.
  revert i; induction l as [|y l IH]; intros [|i] Hi Hx; cbn [nth_error] in Hi; try discriminate; cbn [cnt].
  - injection Hi as ->. rewrite Hx. cbn [b2n]. lia.
  - specialize (IH i Hi Hx). lia.
Qed.
Lemma put_length {A} (l : list A) i x : (i < length l)%nat -> length (put l i x) = length l.
Proof. intros H. unfold put. rewrite app_length, firstn_length. cbn [length]. rewrite skipn_length. lia. Qed.
Lemma nth_error_put {A} (l : list A) i x j : (i < length l)%nat ->
  nth_error (put l i x) j = if Nat.eqb j i then Some x else nth_error l j.
Proof.
  revert i j; induction l as [|y l IH]; intros [|i] [|j] H; cbn [length] in H; try lia; try reflexivity.
  specialize (IH i j). unfold put in *. cbn [firstn skipn app nth_error Nat.eqb] in *. apply IH. lia.
Qed.
Lemma at_put {A} (l : list (option A)) i x j : (i < length l)%nat ->
  at_opt (put l i x) j = if Nat.eqb j i then x else at_opt l j.
Proof. intros H. unfold at_opt. rewrite nth_error_put by exact H. destruct (Nat.eqb j i); reflexivity. Qed.
Lemma at_lt {A} (l : list (option A)) i x : at_opt l i = Some x -> (i < length l)%nat.
Proof.
  unfold at_opt. intros H. destruct (nth_error l i) eqn:E; [|discriminate].
  apply nth_error_Some. congruence.
Qed.
Lemma at_nth {A} (l : list (option A)) i x : at_opt l i = Some x -> nth_error l i = Some (Some x).
Proof. unfold at_opt. intros H. destruct (nth_error l i); [|discriminate]. congruence. Qed.
Lemma at_app1 {A} (l l' : list (option A)) j : (j < length l)%nat -> at_opt (l ++ l') j = at_opt l j.
Proof. intros H. unfold at_opt. rewrite nth_error_app1 by exact H. reflexivity. Qed.
Lemma at_app {A} (l : list (option A)) x j y : at_opt (l ++ [x]) j = Some y ->
  at_opt l j = Some y \/ (j = length l /\ x = Some y).
Proof.
  intros H. destruct (Nat.lt_ge_cases j (length l)) as [Hj|Hj].
  - rewrite at_app1 in H by exact Hj. left. exact H.
  - pose proof (at_lt _ _ _ H) as Hl. rewrite app_length in Hl. cbn [length] in Hl.
    assert (j = length l) as -> by lia. right. split; [reflexivity|].
    unfold at_opt in H. rewrite nth_error_app2 in H by lia. rewrite Nat.sub_diag in H. exact H.
Qed.
Lemma at_app2 {A} (l : list (option A)) x x' j y : at_opt (l ++ [x; x']) j = Some y ->
  at_opt l j = Some y \/ x = Some y \/ x' = Some y.
Proof.
  intros H. replace (l ++ [x; x']) with ((l ++ [x]) ++ [x']) in H by (rewrite <- app_assoc; reflexivity).
  apply at_app in H. destruct H as [H|[_ H]]; [|right; right; exact H].
  apply at_app in H. destruct H as [H|[_ H]]; [left; exact H|right; left; exact H].
Qed.
Lemma nth_app0 (l : list nat) x j : nth j (l ++ [x]) O = if Nat.eqb j (length l) then x else nth j l O.
Proof.
  destruct (Nat.eqb_spec j (length l)) as [->|Hn].
  - rewrite app_nth2 by lia. rewrite Nat.sub_diag. reflexivity.
  - destruct (Nat.lt_ge_cases j (length l)) as [Hj|Hj]; [apply app_nth1; exact Hj|].
    rewrite !nth_overflow; [reflexivity|lia|]. rewrite app_length. cbn [length]. lia.
Qed.
Lemma nth_put0 (l : list nat) i x j : (i < length l)%nat -> nth j (put l i x) O = if Nat.eqb j i then x else nth j l O.
Proof.
  intros H. rewrite !nth_default_eq || idtac.
  pose proof (nth_error_put l i x j H) as E.
  destruct (Nat.eqb_spec j i) as [->|Hn].
  - apply nth_error_nth. exact E.
  - destruct (nth_error l j) eqn:El.
    + rewrite (nth_error_nth _ _ _ E). symmetry. apply nth_error_nth. exact El.
    + apply nth_error_None in El. apply nth_error_None in E. rewrite !nth_overflow by assumption. reflexivity.
Qed.
Lemma nth_pos (l : list nat) i : (0 < nth i l 0)%nat -> exists n, nth_error l i = Some (S n) /\ nth i l O = S n.
Proof.
  intros H. destruct (Nat.lt_ge_cases i (length l)) as [Hi|Hi]; [|rewrite nth_overflow in H by exact Hi; lia].
  destruct (nth i l O) as [|n] eqn:E; [lia|]. exists n. split; [|reflexivity].
  rewrite (nth_error_nth' l O Hi). rewrite E. reflexivity.
Qed.

(* ---------- Owners counted ---------- *)

Definition is_tab (t : nat) (o : option nat) : bool := match o with Some t' => Nat.eqb t' t | None => false end.
Definition sc_tab (t : nat) (sc : oscope) : bool := (0 <? os_count sc)%nat && is_tab t (os_tab sc).
Definition sc_buf (b : nat) (sc : oscope) : bool := (0 <? os_count sc)%nat && Nat.eqb (os_buf sc) b.
Definition mut_tab (t : nat) (o : option (option nat)) : bool := match o with Some o => is_tab t o | None => false end.
Definition iter_tab (t : nat) (o : option (lender * option nat)) : bool := match o with Some (_, o) => is_tab t o | None => false end.

Definition n_tab (st : own) (t : nat) : nat :=
  (cnt (sc_tab t) (o_scopes st) + cnt (is_tab t) (o_handles st) + cnt (mut_tab t) (o_muts st) + cnt (iter_tab t) (o_iters st))%nat.
Definition n_buf (st : own) (b : nat) : nat :=
  (cnt (sc_buf b) (o_scopes st) + cnt (is_tab b) (o_owners st))%nat.

Definition ref_ok (st : own) (l : lender) (tg : target) : Prop :=
  match l, tg with
  | LBuf a, InBuf b => (a < length (o_owners st))%nat /\ (at_opt (o_owners st) a = Some b \/ at_opt (o_owners st) a = None)
  | LBuf a, InTab _ => (a < length (o_owners st))%nat
  | LMut m, InMut m' => m' = m /\ (m < length (o_muts st))%nat
  | LMut m, InTab t => (m < length (o_muts st))%nat /\ (at_opt (o_muts st) m = Some (Some t) \/ at_opt (o_muts st) m = None)
  | _, _ => False
  end.
Record own_inv (st : own) : Prop := mk_inv {
  inv_tabs : forall t, nth t (o_tabs st) O = n_tab st t;
  inv_bufs : forall b, nth b (o_bufs st) O = n_buf st b;
  inv_iters : forall i l t, at_opt (o_iters st) i = Some (l, t) ->
    lends st l /\ (forall m, l = LMut m -> at_opt (o_muts st) m = Some t);
  inv_refs : forall r l tg, at_opt (o_refs st) r = Some (l, tg) -> ref_ok st l tg }.

Lemma inv_new : own_inv own_new.
Proof.
  split; cbn.
  - intros [|t]; reflexivity.
  - intros [|b]; reflexivity.
  - intros [|i] l t H; discriminate.
  - intros [|i] l t H; discriminate.
Qed.

Lemma held_tab st t : own_inv st -> (keys_held st t <-> (0 < nth t (o_tabs st) 0)%nat).
Proof.
  intros I. rewrite (inv_tabs st I). unfold n_tab. split.
  - intros [s sc Hs Hc Ht|h Hh|m Hm|i l Hi].
    + assert (0 < cnt (sc_tab t) (o_scopes st))%nat; [|lia].
      apply (cnt_in _ _ s sc Hs). unfold sc_tab. rewrite Ht. cbn [is_tab]. rewrite Nat.eqb_refl. lia.
    + assert (0 < cnt (is_tab t) (o_handles st))%nat; [|lia].
      apply (cnt_in _ _ h _ (at_nth _ _ _ Hh)). apply Nat.eqb_refl.
    + assert (0 < cnt (mut_tab t) (o_muts st))%nat; [|lia].
      apply (cnt_in _ _ m _ (at_nth _ _ _ Hm)). apply Nat.eqb_refl.
    + assert (0 < cnt (iter_tab t) (o_iters st))%nat; [|lia].
      apply (cnt_in _ _ i _ (at_nth _ _ _ Hi)). apply Nat.eqb_refl.
  - intros H.
    destruct (cnt (sc_tab t) (o_scopes st)) as [|k] eqn:E1.
    2:{ destruct (cnt_pos (sc_tab t) (o_scopes st)) as (s & sc & Hs & Hf); [lia|].
        unfold sc_tab in Hf. apply andb_prop in Hf. destruct Hf as [Hf1 Hf2].
        apply (held_by_scope st t s sc Hs); [lia|].
        unfold is_tab in Hf2. destruct (os_tab sc) as [t'|]; [|discriminate]. f_equal. lia. }
    destruct (cnt (is_tab t) (o_handles st)) as [|k] eqn:E2.
    2:{ destruct (cnt_pos (is_tab t) (o_handles st)) as (s & [t'|] & Hs & Hf); [lia| |discriminate].
        cbn [is_tab] in Hf. apply (held_by_handle st t s). unfold at_opt. rewrite Hs. f_equal. lia. }
    destruct (cnt (mut_tab t) (o_muts st)) as [|k] eqn:E3.
    2:{ destruct (cnt_pos (mut_tab t) (o_muts st)) as (s & [[t'|]|] & Hs & Hf); [lia| |discriminate|discriminate].
        cbn [is_tab mut_tab] in Hf. apply (held_by_mut st t s). unfold at_opt. rewrite Hs. do 2 f_equal. lia. }
    destruct (cnt_pos (iter_tab t) (o_iters st)) as (s & [[l [t'|]]|] & Hs & Hf); [lia| |discriminate|discriminate].
    cbn [is_tab iter_tab] in Hf. apply (held_by_iter st t s l). unfold at_opt. rewrite Hs. do 3 f_equal. lia.
Qed.
Lemma held_buf st b : own_inv st -> (bytes_held st b <-> (0 < nth b (o_bufs st) 0)%nat).
Proof.
  intros I. rewrite (inv_bufs st I). unfold n_buf. split.
  - intros [s sc Hs Hc Hb|a Ha].
    + assert (0 < cnt (sc_buf b) (o_scopes st))%nat; [|lia].
      apply (cnt_in _ _ s sc Hs). unfold sc_buf. lia.
    + assert (0 < cnt (is_tab b) (o_owners st))%nat; [|lia].
      apply (cnt_in _ _ a _ (at_nth _ _ _ Ha)). apply Nat.eqb_refl.
  - intros H.
    destruct (cnt (sc_buf b) (o_scopes st)) as [|k] eqn:E1.
    2:{ destruct (cnt_pos (sc_buf b) (o_scopes st)) as (s & sc & Hs & Hf); [lia|].
        unfold sc_buf in Hf. apply andb_prop in Hf. destruct Hf as [Hf1 Hf2].
        apply (held_in_scope st b s sc Hs); lia. }
    destruct (cnt_pos (is_tab b) (o_owners st)) as (s & [t'|] & Hs & Hf); [lia| |discriminate].
    cbn [is_tab] in Hf. apply (held_by_owner st b s). unfold at_opt. rewrite Hs. f_equal. lia.
Qed.
Lemma alive_spec l i : alive l i = true <-> (0 < nth i l 0)%nat.
Proof.
  unfold alive. split.
  - destruct (nth_error l i) as [[|n]|] eqn:E; try discriminate. intros _. rewrite (nth_error_nth _ _ _ E). lia.
  - intros H. apply nth_pos in H. destruct H as (n & -> & _). reflexivity.
Qed.

Lemma clone_ok l i : (0 < nth i l 0)%nat -> exists l', arc_clone l i = Ret l' /\
  forall j, nth j l' O = (nth j l O + b2n (Nat.eqb i j))%nat.
Proof.
  intros H. apply nth_pos in H. destruct H as (n & He & Hn). unfold arc_clone. rewrite He.
  eexists; split; [reflexivity|]. intros j.
  rewrite nth_put0 by (apply nth_error_Some; congruence). rewrite (Nat.eqb_sym i j).
  destruct (Nat.eqb_spec j i) as [->|Hj]; cbn [b2n]; lia.
Qed.
Lemma drop_ok l i : (0 < nth i l 0)%nat -> exists l', arc_drop l i = Ret l' /\
  forall j, (nth j l' O + b2n (Nat.eqb i j) = nth j l O)%nat.
Proof.
  intros H. apply nth_pos in H. destruct H as (n & He & Hn). unfold arc_drop. rewrite He.
  eexists; split; [reflexivity|]. intros j.
  rewrite nth_put0 by (apply nth_error_Some; congruence). rewrite (Nat.eqb_sym i j).
  destruct (Nat.eqb_spec j i) as [->|Hj]; cbn [b2n]; lia.
Qed.
Lemma clone_opt_ok l i : (forall t, i = Some t -> (0 < nth t l 0)%nat) -> exists l', arc_clone_opt l i = Ret l' /\
  forall j, nth j l' O = (nth j l O + b2n (is_tab j i))%nat.
Proof.
  intros H. destruct i as [t|]; cbn [arc_clone_opt is_tab]; [apply clone_ok; apply H; reflexivity|].
  eexists; split; [reflexivity|]. intros j. cbn [b2n]. lia.
Qed.
Lemma drop_opt_ok l i : (forall t, i = Some t -> (0 < nth t l 0)%nat) -> exists l', arc_drop_opt l i = Ret l' /\
  forall j, (nth j l' O + b2n (is_tab j i) = nth j l O)%nat.
Proof.
  intros H. destruct i as [t|]; cbn [arc_drop_opt is_tab]; [apply drop_ok; apply H; reflexivity|].
  eexists; split; [reflexivity|]. intros j. cbn [b2n]. lia.
Qed.
Lemma found_held st s t : own_inv st -> (forall s', s = Some s' -> scope_lives st s') -> found_tab st s = Some t ->
  (0 < nth t (o_tabs st) 0)%nat.
Proof.
  intros I Hs Hf. apply (held_tab st t I). destruct s as [s|]; [|discriminate].
  destruct (Hs s eq_refl) as (sc & Hn & Hc). unfold found_tab in Hf. rewrite Hn in Hf.
  exact (held_by_scope st t s sc Hn Hc Hf).
Qed.

(* ---------- Steps ---------- *)

Ltac flds := cbn [o_bufs o_tabs o_scopes o_owners o_handles o_muts o_iters o_refs
  set_bufs set_tabs set_scopes set_owners set_handles set_muts set_iters set_refs bind].

(** What does not touch the lists that lenders are in keeps iterators and references in order. *)
Lemma keep_iters st st' : own_inv st ->
  (forall a b, at_opt (o_owners st) a = Some b -> at_opt (o_owners st') a = Some b) ->
  (forall m t, at_opt (o_muts st) m = Some t -> at_opt (o_muts st') m = Some t) ->
  forall i l t, at_opt (o_iters st) i = Some (l, t) ->
    lends st' l /\ (forall m, l = LMut m -> at_opt (o_muts st') m = Some t).
Proof.
  intros I Ho Hm i l t Hi. destruct (inv_iters st I i l t Hi) as [Hl Hk]. split.
  - destruct l as [a|m]; destruct Hl as [x Hx]; exists x; [apply Ho|apply Hm]; exact Hx.
  - intros m ->. apply Hm. apply Hk. reflexivity.
Qed.
Definition only_drops {A} (l l' : list (option A)) : Prop :=
  (length l <= length l')%nat /\
  forall i, (i < length l)%nat -> at_opt l' i = at_opt l i \/ at_opt l' i = None.
Lemma drops_refl {A} (l : list (option A)) : only_drops l l.
Proof. split; [lia|]. intros i _. left. reflexivity. Qed.
Lemma drops_app {A} (l : list (option A)) x : only_drops l (l ++ [x]).
Proof.
  split; [rewrite app_length; lia|]. intros i Hi. left. apply at_app1. exact Hi.
Qed.
Lemma drops_put {A} (l : list (option A)) j : (j < length l)%nat -> only_drops l (put l j None).
Proof.
  intros Hj. split; [rewrite put_length by exact Hj; lia|]. intros i Hi. rewrite at_put by exact Hj.
  destruct (Nat.eqb i j); [right|left]; reflexivity.
Qed.
Lemma ref_keep st st' l tg : only_drops (o_owners st) (o_owners st') -> only_drops (o_muts st) (o_muts st') ->
  ref_ok st l tg -> ref_ok st' l tg.
Proof.
  intros [Lo Ho] [Lm Hm] H. destruct l as [a|m], tg as [b|t|m']; cbn [ref_ok] in *; try contradiction.
  - destruct H as [H1 H2]. split; [lia|]. destruct (Ho a H1) as [->| ->]; [exact H2|right; reflexivity].
  - lia.
  - destruct H as [H1 H2]. split; [lia|]. destruct (Hm m H1) as [->| ->]; [exact H2|right; reflexivity].
  - destruct H as [-> H1]. split; [reflexivity|lia].
Qed.
Lemma keep_refs st st' : own_inv st -> only_drops (o_owners st) (o_owners st') -> only_drops (o_muts st) (o_muts st') ->
  forall r l tg, at_opt (o_refs st) r = Some (l, tg) -> ref_ok st' l tg.
Proof. intros I Ho Hm r l tg Hr. apply (ref_keep st st' l tg Ho Hm). exact (inv_refs st I r l tg Hr). Qed.

Lemma at_grow {A} (l : list (option A)) x i y : at_opt l i = Some y -> at_opt (l ++ [x]) i = Some y.
Proof. intros H. rewrite at_app1; [exact H|]. exact (at_lt _ _ _ H). Qed.

Definition fine (st : own) (c : ocall) : Prop := exists st', ostep st c = Ret st' /\ own_inv st'.

Ltac go := split; [flds|flds|idtac|idtac].

Section step.
Variable st : own.
Hypothesis I : own_inv st.
Let T t : nth t (o_tabs st) O = n_tab st t := inv_tabs st I t.
Let B b : nth b (o_bufs st) O = n_buf st b := inv_bufs st I b.

Lemma fine_new_bytes : fine st KNewBytes.
Proof.
  eexists; split; [reflexivity|]. go.
  - exact T.
  - intros b. rewrite nth_app0. unfold n_buf; flds. rewrite cnt_app. cbn [cnt is_tab].
    specialize (B b). unfold n_buf in B.
    rewrite (Nat.eqb_sym (length _) b). destruct (Nat.eqb_spec b (length (o_bufs st))) as [->|Hb]; cbn [b2n]; [|lia].
    rewrite nth_overflow in B by lia. lia.
  - apply (keep_iters st); flds; [exact I| |auto]. intros a b H. apply at_grow. exact H.
  - apply (keep_refs st); flds; [exact I|apply drops_app|apply drops_refl].
Qed.
Lemma fine_clone_bytes a : lends st (LBuf a) -> fine st (KCloneBytes a).
Proof.
  intros [b Hb]. unfold fine. cbn [ostep]. rewrite Hb.
  assert (0 < nth b (o_bufs st) 0)%nat as Hp by (apply (held_buf st b I); exact (held_by_owner st b a Hb)).
  destruct (clone_ok _ _ Hp) as (l & -> & Hl). eexists; split; [reflexivity|]. go.
  - exact T.
  - intros b'. rewrite Hl, B. unfold n_buf; flds. rewrite cnt_app. cbn [cnt is_tab]. lia.
  - apply (keep_iters st); flds; [exact I| |auto]. intros a' b' H. apply at_grow. exact H.
  - apply (keep_refs st); flds; [exact I|apply drops_app|apply drops_refl].
Qed.
Lemma put_none_keep {A} (l : list (option A)) a i x : (a < length l)%nat -> i <> a -> at_opt l i = Some x -> at_opt (put l a None) i = Some x.
Proof. intros Ha Hi H. rewrite at_put by exact Ha. apply Nat.eqb_neq in Hi. rewrite Hi. exact H. Qed.
Lemma drop_owner_iters a st' : at_opt (o_owners st) a <> None -> free_of_iters st (LBuf a) ->
  o_owners st' = put (o_owners st) a None -> o_muts st' = o_muts st ->
  forall i l t, at_opt (o_iters st) i = Some (l, t) ->
    lends st' l /\ (forall m, l = LMut m -> at_opt (o_muts st') m = Some t).
Proof.
  intros Ha Hf Ho Hm i l t Hi. destruct (inv_iters st I i l t Hi) as [Hl Hk]. rewrite Hm. split; [|exact Hk].
  destruct l as [a'|m]; destruct Hl as [x Hx].
  - exists x. rewrite Ho. apply put_none_keep; [|intros ->; exact (Hf i t Hi)|exact Hx].
    destruct (at_opt (o_owners st) a) eqn:E; [exact (at_lt _ _ _ E)|contradiction].
  - exists x. rewrite Hm. exact Hx.
Qed.
Lemma fine_drop_bytes a : lends st (LBuf a) -> free_of_iters st (LBuf a) -> fine st (KDropBytes a).
Proof.
  intros [b Hb] Hf. unfold fine. cbn [ostep]. rewrite Hb.
  assert (0 < nth b (o_bufs st) 0)%nat as Hp by (apply (held_buf st b I); exact (held_by_owner st b a Hb)).
  destruct (drop_ok _ _ Hp) as (l & -> & Hl). eexists; split; [reflexivity|]. go.
  - exact T.
  - intros b'. specialize (Hl b'). rewrite B in Hl. unfold n_buf in *; flds.
    pose proof (cnt_put (is_tab b') _ a None _ (at_nth _ _ _ Hb)) as E. cbn [is_tab b2n] in E. lia.
  - apply (drop_owner_iters a); flds; [congruence|exact Hf|reflexivity|reflexivity].
  - apply (keep_refs st); flds; [exact I|apply drops_put; exact (at_lt _ _ _ Hb)|apply drops_refl].
Qed.
Lemma fine_new_keys : fine st KNewKeys.
Proof.
  eexists; split; [reflexivity|]. go.
  - intros b. rewrite nth_app0. unfold n_tab; flds. rewrite cnt_app. cbn [cnt is_tab].
    specialize (T b). unfold n_tab in T.
    rewrite (Nat.eqb_sym (length _) b). destruct (Nat.eqb_spec b (length (o_tabs st))) as [->|Hb]; cbn [b2n]; [|lia].
    rewrite nth_overflow in T by lia. lia.
  - exact B.
  - apply (keep_iters st); flds; auto.
  - apply (keep_refs st); flds; [exact I|apply drops_refl|apply drops_refl].
Qed.
Lemma add_handle t : (0 < nth t (o_tabs st) 0)%nat -> exists st',
  (tabs <- arc_clone (o_tabs st) t ;; Ret (set_handles (set_tabs st tabs) (o_handles st ++ [Some t]))) = Ret st' /\ own_inv st'.
Proof.
  intros Hp. destruct (clone_ok _ _ Hp) as (l & -> & Hl). eexists; split; [reflexivity|]. go.
  - intros t'. rewrite Hl, T. unfold n_tab; flds. rewrite cnt_app. cbn [cnt is_tab]. lia.
  - exact B.
  - apply (keep_iters st); flds; auto.
  - apply (keep_refs st); flds; [exact I|apply drops_refl|apply drops_refl].
Qed.
Lemma fine_clone_keys h : handle_or_none st (Some h) -> fine st (KCloneKeys h).
Proof.
  intros [t Ht]. unfold fine. cbn [ostep]. rewrite Ht. apply add_handle.
  apply (held_tab st t I). exact (held_by_handle st t h Ht).
Qed.
Lemma fine_scope_keys s : scope_lives st s -> fine st (KScopeKeys s).
Proof.
  intros Hs. unfold fine. cbn [ostep]. destruct (found_tab st (Some s)) as [t|] eqn:E.
  - apply add_handle. apply (found_held st (Some s) t I); [|exact E]. intros s' H. injection H as <-. exact Hs.
  - eexists; split; [reflexivity|exact I].
Qed.
Lemma fine_drop_keys h : handle_or_none st (Some h) -> fine st (KDropKeys h).
Proof.
  intros [t Ht]. unfold fine. cbn [ostep]. rewrite Ht.
  assert (0 < nth t (o_tabs st) 0)%nat as Hp by (apply (held_tab st t I); exact (held_by_handle st t h Ht)).
  destruct (drop_ok _ _ Hp) as (l & -> & Hl). eexists; split; [reflexivity|]. go.
  - intros t'. specialize (Hl t'). rewrite T in Hl. unfold n_tab in *; flds.
    pose proof (cnt_put (is_tab t') _ h None _ (at_nth _ _ _ Ht)) as E. cbn [is_tab b2n] in E. lia.
  - exact B.
  - apply (keep_iters st); flds; auto.
  - apply (keep_refs st); flds; [exact I|apply drops_refl|apply drops_refl].
Qed.
Lemma fine_new_scope a h : lends st (LBuf a) -> free_of_iters st (LBuf a) -> handle_or_none st h -> fine st (KNewScope a h).
Proof.
  intros [b Hb] Hf Hh. unfold fine. cbn [ostep]. rewrite Hb. eexists; split; [reflexivity|].
  destruct h as [h|]; flds.
  - destruct Hh as [t Ht]. rewrite Ht. go.
    + intros t'. rewrite T. unfold n_tab; flds. rewrite cnt_app. cbn [cnt]. unfold sc_tab at 3. cbn [os_count os_tab is_tab].
      pose proof (cnt_put (is_tab t') _ h None _ (at_nth _ _ _ Ht)) as E. cbn [is_tab b2n] in E.
      replace ((0 <? 1)%nat && Nat.eqb t t') with (Nat.eqb t t') by lia. lia.
    + intros b'. rewrite B. unfold n_buf; flds. rewrite cnt_app. cbn [cnt]. unfold sc_buf at 3. cbn [os_count os_buf].
      pose proof (cnt_put (is_tab b') _ a None _ (at_nth _ _ _ Hb)) as E. cbn [is_tab b2n] in E.
      replace ((0 <? 1)%nat && Nat.eqb b b') with (Nat.eqb b b') by lia. lia.
    + apply (drop_owner_iters a); flds; [congruence|exact Hf|reflexivity|reflexivity].
    + apply (keep_refs st); flds; [exact I|apply drops_put; exact (at_lt _ _ _ Hb)|apply drops_refl].
  - go.
    + intros t'. rewrite T. unfold n_tab; flds. rewrite cnt_app. cbn [cnt]. unfold sc_tab at 3. cbn [os_count os_tab is_tab].
      rewrite andb_false_r. cbn [b2n]. lia.
    + intros b'. rewrite B. unfold n_buf; flds. rewrite cnt_app. cbn [cnt]. unfold sc_buf at 3. cbn [os_count os_buf].
      pose proof (cnt_put (is_tab b') _ a None _ (at_nth _ _ _ Hb)) as E. cbn [is_tab b2n] in E.
      replace ((0 <? 1)%nat && Nat.eqb b b') with (Nat.eqb b b') by lia. lia.
    + apply (drop_owner_iters a); flds; [congruence|exact Hf|reflexivity|reflexivity].
    + apply (keep_refs st); flds; [exact I|apply drops_put; exact (at_lt _ _ _ Hb)|apply drops_refl].
Qed.
Lemma fine_clone_scope s : scope_lives st s -> fine st (KCloneScope s).
Proof.
  intros ([n b t] & Hs & Hc). cbn [os_count] in Hc. destruct n as [|n]; [lia|]. unfold fine. cbn [ostep]. rewrite Hs.
  eexists; split; [reflexivity|]. go.
  - intros t'. rewrite T. unfold n_tab; flds.
    pose proof (cnt_put (sc_tab t') _ s (mk_oscope (S (S n)) b t) _ Hs) as E. unfold sc_tab at 2 4 in E. cbn [os_count os_tab] in E.
    replace (0 <? S (S n))%nat with true in E by lia. replace (0 <? S n)%nat with true in E by lia. lia.
  - intros t'. rewrite B. unfold n_buf; flds.
    pose proof (cnt_put (sc_buf t') _ s (mk_oscope (S (S n)) b t) _ Hs) as E. unfold sc_buf at 2 4 in E. cbn [os_count os_buf] in E.
    replace (0 <? S (S n))%nat with true in E by lia. replace (0 <? S n)%nat with true in E by lia. lia.
  - apply (keep_iters st); flds; auto.
  - apply (keep_refs st); flds; [exact I|apply drops_refl|apply drops_refl].
Qed.
Lemma fine_drop_scope s : scope_lives st s -> fine st (KDropScope s).
Proof.
  intros ([n b t] & Hs & Hc). pose proof Hc as Hc'. cbn [os_count] in Hc. destruct n as [|n]; [lia|]. unfold fine. cbn [ostep]. rewrite Hs.
  assert (forall t', (cnt (sc_tab t') (put (o_scopes st) s (mk_oscope n b t)) + b2n (is_tab t' t) =
                      cnt (sc_tab t') (o_scopes st) + b2n ((0 <? n)%nat && is_tab t' t))%nat) as Et.
  { intros t'. pose proof (cnt_put (sc_tab t') _ s (mk_oscope n b t) _ Hs) as E. unfold sc_tab at 2 4 in E.
    cbn [os_count os_tab] in E. replace (0 <? S n)%nat with true in E by lia. exact E. }
  assert (forall b', (cnt (sc_buf b') (put (o_scopes st) s (mk_oscope n b t)) + b2n (Nat.eqb b b') =
                      cnt (sc_buf b') (o_scopes st) + b2n ((0 <? n)%nat && Nat.eqb b b'))%nat) as Eb.
  { intros b'. pose proof (cnt_put (sc_buf b') _ s (mk_oscope n b t) _ Hs) as E. unfold sc_buf at 2 4 in E.
    cbn [os_count os_buf] in E. replace (0 <? S n)%nat with true in E by lia. exact E. }
  destruct n as [|n]; flds.
  - assert (forall t', t = Some t' -> (0 < nth t' (o_tabs st) 0)%nat) as Hp.
    { intros t' Ht. apply (held_tab st t' I). apply (held_by_scope st t' s _ Hs Hc'). exact Ht. }
    assert (0 < nth b (o_bufs st) 0)%nat as Hq.
    { apply (held_buf st b I). apply (held_in_scope st b s _ Hs Hc'). reflexivity. }
    destruct (drop_opt_ok _ _ Hp) as (lt & -> & Hlt). destruct (drop_ok _ _ Hq) as (lb & -> & Hlb).
    eexists; split; [reflexivity|]. go.
    + intros t'. specialize (Hlt t'). rewrite T in Hlt. unfold n_tab in *; flds. specialize (Et t').
      cbn [Nat.ltb Nat.leb andb b2n] in Et. lia.
    + intros b'. specialize (Hlb b'). rewrite B in Hlb. unfold n_buf in *; flds. specialize (Eb b').
      cbn [Nat.ltb Nat.leb andb b2n] in Eb. lia.
    + apply (keep_iters st); flds; auto.
    + apply (keep_refs st); flds; [exact I|apply drops_refl|apply drops_refl].
  - eexists; split; [reflexivity|]. go.
    + intros t'. rewrite T. unfold n_tab; flds. specialize (Et t'). replace (0 <? S n)%nat with true in Et by lia. cbn [andb] in Et. lia.
    + intros b'. rewrite B. unfold n_buf; flds. specialize (Eb b'). replace (0 <? S n)%nat with true in Eb by lia. cbn [andb] in Eb. lia.
    + apply (keep_iters st); flds; auto.
    + apply (keep_refs st); flds; [exact I|apply drops_refl|apply drops_refl].
Qed.
Lemma fine_root s : scope_lives st s -> fine st (KRoot s).
Proof.
  intros (sc & Hs & Hc). unfold fine. cbn [ostep]. rewrite Hs.
  assert (0 < nth (os_buf sc) (o_bufs st) 0)%nat as Hp.
  { apply (held_buf st _ I). apply (held_in_scope st _ s _ Hs Hc). reflexivity. }
  destruct (clone_ok _ _ Hp) as (l & -> & Hl). eexists; split; [reflexivity|]. go.
  - exact T.
  - intros b'. rewrite Hl, B. unfold n_buf; flds. rewrite cnt_app. cbn [cnt is_tab]. lia.
  - apply (keep_iters st); flds; [exact I| |auto]. intros a' b' H. apply at_grow. exact H.
  - apply (keep_refs st); flds; [exact I|apply drops_app|apply drops_refl].
Qed.
Lemma fine_new_mut h : handle_or_none st h -> fine st (KNewMut h).
Proof.
  intros Hh. eexists; split; [reflexivity|]. destruct h as [h|].
  - destruct Hh as [t Ht]. rewrite Ht. go.
    + intros t'. rewrite T. unfold n_tab; flds. rewrite cnt_app. cbn [cnt mut_tab is_tab].
      pose proof (cnt_put (is_tab t') _ h None _ (at_nth _ _ _ Ht)) as E. cbn [is_tab b2n] in E. lia.
    + exact B.
    + apply (keep_iters st); flds; [exact I|auto|]. intros m x H. apply at_grow. exact H.
    + apply (keep_refs st); flds; [exact I|apply drops_refl|apply drops_app].
  - go.
    + intros t'. rewrite T. unfold n_tab; flds. rewrite cnt_app. cbn [cnt mut_tab is_tab b2n]. lia.
    + exact B.
    + apply (keep_iters st); flds; [exact I|auto|]. intros m x H. apply at_grow. exact H.
    + apply (keep_refs st); flds; [exact I|apply drops_refl|apply drops_app].
Qed.
Lemma add_mut t : (forall t', t = Some t' -> (0 < nth t' (o_tabs st) 0)%nat) -> exists st',
  (tabs <- arc_clone_opt (o_tabs st) t ;; Ret (set_muts (set_tabs st tabs) (o_muts st ++ [Some t]))) = Ret st' /\ own_inv st'.
Proof.
  intros Hp. destruct (clone_opt_ok _ _ Hp) as (l & -> & Hl). eexists; split; [reflexivity|]. go.
  - intros t'. rewrite Hl, T. unfold n_tab; flds. rewrite cnt_app. cbn [cnt mut_tab]. lia.
  - exact B.
  - apply (keep_iters st); flds; [exact I|auto|]. intros m x H. apply at_grow. exact H.
  - apply (keep_refs st); flds; [exact I|apply drops_refl|apply drops_app].
Qed.
Lemma fine_mut_from s : (forall s', s = Some s' -> scope_lives st s') -> fine st (KMutFrom s).
Proof. intros Hs. apply add_mut. intros t Ht. exact (found_held st s t I Hs Ht). Qed.
Lemma mut_held m t : at_opt (o_muts st) m = Some t -> forall t', t = Some t' -> (0 < nth t' (o_tabs st) 0)%nat.
Proof. intros Hm t' ->. apply (held_tab st t' I). exact (held_by_mut st t' m Hm). Qed.
Lemma fine_clone_mut m : lends st (LMut m) -> fine st (KCloneMut m).
Proof. intros [t Ht]. unfold fine. cbn [ostep]. rewrite Ht. apply add_mut. exact (mut_held m t Ht). Qed.
Lemma fine_change_mut m : fine st (KChangeMut m).
Proof.
  eexists; split; [reflexivity|]. split; [exact T|exact B|apply (keep_iters st); flds; auto|].
  intros r l tg. flds. intros Hr. unfold at_opt in Hr. unfold end_refs in Hr. rewrite nth_error_map in Hr.
  destruct (nth_error (o_refs st) r) as [x|] eqn:E; cbn [option_map] in Hr; [|discriminate].
  assert (at_opt (o_refs st) r = Some (l, tg)) as H.
  { unfold at_opt. rewrite E. destruct x as [[[a|m'] tg']|]; try exact Hr. destruct (Nat.eqb m' m); [discriminate|exact Hr]. }
  exact (inv_refs st I r l tg H).
Qed.
Lemma fine_drop_mut m : lends st (LMut m) -> free_of_iters st (LMut m) -> fine st (KDropMut m).
Proof.
  intros [t Ht] Hf. unfold fine. cbn [ostep]. rewrite Ht.
  destruct (drop_opt_ok _ _ (mut_held m t Ht)) as (l & -> & Hl). eexists; split; [reflexivity|]. go.
  - intros t'. specialize (Hl t'). rewrite T in Hl. unfold n_tab in *; flds.
    pose proof (cnt_put (mut_tab t') _ m None _ (at_nth _ _ _ Ht)) as E. cbn [mut_tab b2n] in E. lia.
  - exact B.
  - intros i k x. flds. intros Hi. destruct (inv_iters st I i k x Hi) as [Hl' Hk].
    assert (forall m' y, k = LMut m' -> at_opt (o_muts st) m' = Some y -> at_opt (put (o_muts st) m None) m' = Some y) as P.
    { intros m' y -> Hy. apply put_none_keep; [exact (at_lt _ _ _ Ht)| |exact Hy]. intros ->. exact (Hf i x Hi). }
    split; [|intros m' ->; apply P; [reflexivity|apply Hk; reflexivity]].
    destruct k as [a|m']; destruct Hl' as [y Hy]; exists y; flds; [exact Hy|apply P; [reflexivity|exact Hy]].
  - apply (keep_refs st); flds; [exact I|apply drops_refl|apply drops_put; exact (at_lt _ _ _ Ht)].
Qed.
Lemma add_iter k t : lends st k -> (forall m, k = LMut m -> at_opt (o_muts st) m = Some t) ->
  (forall t', t = Some t' -> (0 < nth t' (o_tabs st) 0)%nat) -> exists st',
  (tabs <- arc_clone_opt (o_tabs st) t ;; Ret (set_iters (set_tabs st tabs) (o_iters st ++ [Some (k, t)]))) = Ret st' /\ own_inv st'.
Proof.
  intros Hk Hm Hp. destruct (clone_opt_ok _ _ Hp) as (l & -> & Hl). eexists; split; [reflexivity|]. go.
  - intros t'. rewrite Hl, T. unfold n_tab; flds. rewrite cnt_app. cbn [cnt iter_tab]. lia.
  - exact B.
  - intros i k' t'. flds. intros Hi. apply at_app in Hi. destruct Hi as [Hi|[_ Hi]].
    + exact (inv_iters st I i k' t' Hi).
    + injection Hi as <- <-. split; [exact Hk|exact Hm].
  - apply (keep_refs st); flds; [exact I|apply drops_refl|apply drops_refl].
Qed.
Lemma fine_iter a s : lends st (LBuf a) -> (forall s', s = Some s' -> scope_lives st s') -> fine st (KIter a s).
Proof.
  intros Ha Hs. apply add_iter; [exact Ha|discriminate|]. intros t Ht. exact (found_held st s t I Hs Ht).
Qed.
Lemma fine_iter_mut m : lends st (LMut m) -> fine st (KIterMut m).
Proof.
  intros Hm. pose proof Hm as [t Ht]. unfold fine. cbn [ostep]. rewrite Ht. apply add_iter; [exact Hm| |exact (mut_held m t Ht)].
  intros m' H. injection H as <-. exact Ht.
Qed.
Lemma add_refs x y : (forall l tg, x = Some (l, tg) \/ y = Some (l, tg) -> ref_ok st l tg) ->
  own_inv (set_refs st (o_refs st ++ [x; y])).
Proof.
  intros H. split; [exact T|exact B|apply (keep_iters st); flds; auto|].
  intros r l tg. flds. intros Hr. apply at_app2 in Hr. destruct Hr as [Hr|Hr]; [exact (inv_refs st I r l tg Hr)|].
  exact (H l tg Hr).
Qed.
Lemma owner_alive a b : at_opt (o_owners st) a = Some b -> alive (o_bufs st) b = true.
Proof. intros H. apply alive_spec. apply (held_buf st b I). exact (held_by_owner st b a H). Qed.
Lemma fine_next_text i it : at_opt (o_iters st) i = Some it -> fine st (KNextText i).
Proof.
  intros Hi. unfold fine. cbn [ostep]. rewrite Hi. destruct it as [[a|m] t]; destruct (inv_iters st I i _ _ Hi) as [[x Hx] Hk].
  - rewrite Hx, (owner_alive a x Hx). eexists; split; [reflexivity|]. apply add_refs.
    intros l tg [H|H]; injection H as <- <-; (split; [exact (at_lt _ _ _ Hx)|left; exact Hx]).
  - eexists; split; [reflexivity|]. apply add_refs.
    intros l tg [H|H]; injection H as <- <-; (split; [reflexivity|exact (at_lt _ _ _ Hx)]).
Qed.
Lemma fine_next_shared i it : at_opt (o_iters st) i = Some it -> fine st (KNextShared i).
Proof.
  intros Hi. unfold fine. cbn [ostep]. rewrite Hi. destruct it as [k [t|]]; [|eexists; split; [reflexivity|exact I]].
  assert (alive (o_tabs st) t = true) as ->.
  { apply alive_spec. apply (held_tab st t I). exact (held_by_iter st t i k Hi). }
  destruct k as [a|m]; destruct (inv_iters st I i _ _ Hi) as [[x Hx] Hk].
  - rewrite Hx, (owner_alive a x Hx). eexists; split; [reflexivity|]. apply add_refs.
    intros l tg [H|H]; injection H as <- <-; [exact (at_lt _ _ _ Hx)|split; [exact (at_lt _ _ _ Hx)|left; exact Hx]].
  - eexists; split; [reflexivity|]. apply add_refs. specialize (Hk m eq_refl).
    intros l tg [H|H]; injection H as <- <-; [split; [exact (at_lt _ _ _ Hx)|left; exact Hk]|split; [reflexivity|exact (at_lt _ _ _ Hx)]].
Qed.
Lemma fine_drop_iter i it : at_opt (o_iters st) i = Some it -> fine st (KDropIter i).
Proof.
  intros Hi. unfold fine. cbn [ostep]. rewrite Hi. destruct it as [k t].
  assert (forall t', t = Some t' -> (0 < nth t' (o_tabs st) 0)%nat) as Hp.
  { intros t' ->. apply (held_tab st t' I). exact (held_by_iter st t' i k Hi). }
  destruct (drop_opt_ok _ _ Hp) as (l & -> & Hl). eexists; split; [reflexivity|]. go.
  - intros t'. specialize (Hl t'). rewrite T in Hl. unfold n_tab in *; flds.
    pose proof (cnt_put (iter_tab t') _ i None _ (at_nth _ _ _ Hi)) as E. cbn [iter_tab b2n] in E. lia.
  - exact B.
  - intros j k' t'. flds. intros Hj. rewrite at_put in Hj by exact (at_lt _ _ _ Hi). destruct (Nat.eqb j i); [discriminate|].
    exact (inv_iters st I j k' t' Hj).
  - apply (keep_refs st); flds; [exact I|apply drops_refl|apply drops_refl].
Qed.
Lemma read_cases r l tg : at_opt (o_refs st) r = Some (l, tg) -> lends st l ->
  ostep st (KRead r) = Ret st \/ (exists t, reads_shared st (KRead r) t /\ alive (o_tabs st) t = false /\ ostep st (KRead r) = UB).
Proof.
  intros Hr Hl. pose proof (inv_refs st I r l tg Hr) as Hok. cbn [ostep]. rewrite Hr.
  destruct l as [a|m], tg as [b|t|m']; cbn [ref_ok] in Hok; try contradiction; destruct Hl as [x Hx].
  - destruct Hok as [_ [Ho|Ho]]; [|congruence]. rewrite (owner_alive a b Ho). left. reflexivity.
  - destruct (alive (o_tabs st) t) eqn:E; [left; reflexivity|right]. exists t.
    split; [exists r, a; split; [reflexivity|exact Hr]|split; [exact E|reflexivity]].
  - destruct Hok as [_ [Ho|Ho]]; [|congruence]. left.
    assert (alive (o_tabs st) t = true) as -> by (apply alive_spec; exact (mut_held m _ Ho t eq_refl)). reflexivity.
  - destruct Hok as [-> _]. rewrite Hx. left. reflexivity.
Qed.
Lemma step_cases c : accepted st c ->
  fine st c \/ (exists t, reads_shared st c t /\ ~ keys_held st t /\ ostep st c = UB).
Proof.
  assert (forall s s', Some s = Some s' -> scope_lives st s -> scope_lives st s') as Q.
  { intros s s' H. injection H as ->. auto. }
  intros A. destruct c; cbn [accepted] in A; try (left; first
    [ apply fine_new_bytes | apply fine_clone_bytes; exact A | apply fine_drop_bytes; apply A
    | apply fine_new_keys | apply fine_clone_keys; exact A | apply fine_drop_keys; exact A
    | apply fine_new_scope; apply A | apply fine_clone_scope; exact A | apply fine_drop_scope; exact A
    | apply fine_scope_keys; exact A | apply fine_root; exact A | apply fine_new_mut; exact A
    | apply fine_clone_mut; exact A | apply fine_change_mut | apply fine_drop_mut; apply A
    | apply fine_iter_mut; exact A ]; fail).
  - left. apply fine_mut_from. intros s' H. destruct s as [s|]; [exact (Q s s' H A)|discriminate].
  - left. destruct s as [s|].
    + apply fine_iter; [apply A|]. intros s' H. exact (Q s s' H (proj2 A)).
    + apply fine_iter; [exact A|discriminate].
  - left. destruct A as [it A]. exact (fine_next_text i it A).
  - left. destruct A as [it A]. exact (fine_next_shared i it A).
  - left. destruct A as [it A]. exact (fine_drop_iter i it A).
  - destruct A as (l & tg & Hr & Hl). destruct (read_cases r l tg Hr Hl) as [H|(t & H1 & H2 & H3)].
    + left. exists st. split; [exact H|exact I].
    + right. exists t. split; [exact H1|]. split; [|exact H3]. intros Hh. apply (held_tab st t I) in Hh. apply alive_spec in Hh. congruence.
Qed.
End step.

Lemma reached_inv st : reached st -> own_inv st.
Proof.
  induction 1 as [|st c st' R IH A E]; [exact inv_new|].
  destruct (step_cases st IH c A) as [(st2 & E2 & I2)|(t & _ & _ & E2)]; rewrite E in E2; [|discriminate].
  injection E2 as <-. exact I2.
Qed.

Theorem no_memory_error st c : reached st -> accepted st c ->
  (forall t, reads_shared st c t -> keys_held st t) -> exists st', ostep st c = Ret st'.
Proof.
  intros R A H. destruct (step_cases st (reached_inv st R) c A) as [(st2 & E2 & _)|(t & H1 & H2 & _)].
  - exists st2. exact E2.
  - contradiction (H2 (H t H1)).
Qed.
Theorem dangles_exactly st c t : reached st -> accepted st c -> reads_shared st c t -> ~ keys_held st t -> ostep st c = UB.
Proof.
  intros R A (r & a & -> & Hr) Hn. cbn [ostep]. rewrite Hr. destruct (alive (o_tabs st) t) eqn:E; [|reflexivity].
  apply alive_spec in E. apply (held_tab st t (reached_inv st R)) in E. contradiction.
Qed.
Theorem from_mutable st r m tg : reached st -> at_opt (o_refs st) r = Some (LMut m, tg) -> lends st (LMut m) ->
  ostep st (KRead r) = Ret st.
Proof.
  intros R Hr Hl. destruct (read_cases st (reached_inv st R) r _ _ Hr Hl) as [H|(t & (r' & a & E & Hr') & _)]; [exact H|].
  injection E as <-. congruence.
Qed.
Theorem freed_exactly st : reached st ->
  (forall t, (t < length (o_tabs st))%nat -> (nth_error (o_tabs st) t = Some O <-> ~ keys_held st t)) /\
  (forall b, (b < length (o_bufs st))%nat -> (nth_error (o_bufs st) b = Some O <-> ~ bytes_held st b)).
Proof.
  intros R. pose proof (reached_inv st R) as I. split.
  - intros t Ht. rewrite (held_tab st t I). rewrite (nth_error_nth' _ O Ht).
    split; [intros H; injection H as H; lia|intros H; f_equal; lia].
  - intros b Hb. rewrite (held_buf st b I). rewrite (nth_error_nth' _ O Hb).
    split; [intros H; injection H as H; lia|intros H; f_equal; lia].
Qed.
