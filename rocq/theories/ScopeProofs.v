(** Lemmas about scopes. *)
From Verif Require Import Prelude Lib Utf8 Float SharedKeys Decode Encodable Encoder BuilderSpec Scopes ScopeSpec.
From Coq Require Import ZifyBool ZifyNat ZifyN.

(* ---------- the range map ---------- *)

Definition covers (r : rng) (p : Z) : bool := (r_from r <=? p) && (p <? r_to r).
Lemma rm_get_app a b p : rm_get (a ++ b) p = match rm_get a p with Some i => Some i | None => rm_get b p end.
Proof. induction a as [|r a IH]; cbn [app rm_get]; [reflexivity|]. destruct (_ && _); [reflexivity|apply IH]. Qed.
Lemma rm_get_cut from to r p : from < to ->
  rm_get (rm_cut from to r) p = if (from <=? p) && (p <? to) then None else rm_get [r] p.
Proof.
  intros H. unfold rm_cut. destruct ((r_to r <=? from) || (to <=? r_from r)) eqn:E.
  - cbn [rm_get]. destruct ((from <=? p) && (p <? to)) eqn:E1; [|reflexivity]. destruct ((r_from r <=? p) && (p <? r_to r)) eqn:E2; [lia|reflexivity].
  - destruct (r_from r <? from) eqn:E1, (to <? r_to r) eqn:E2; cbn [app rm_get r_from r_to r_id];
      repeat match goal with |- context [if ?b then _ else _] => destruct b eqn:? end; try reflexivity; lia.
Qed.
Lemma rm_get_remove from to m p : from < to ->
  rm_get (flat_map (rm_cut from to) m) p = if (from <=? p) && (p <? to) then None else rm_get m p.
Proof.
  intros H. induction m as [|r m IH]; cbn [flat_map]; [cbn; destruct (_ && _); reflexivity|].
  rewrite rm_get_app, rm_get_cut, IH by exact H. cbn [rm_get]. destruct ((from <=? p) && (p <? to)); [reflexivity|].
  destruct ((r_from r <=? p) && (p <? r_to r)); reflexivity.
Qed.
Lemma rm_get_filter f m p : (forall r, In r m -> f r = false -> covers r p = false) -> rm_get (filter f m) p = rm_get m p.
Proof.
  induction m as [|r m IH]; intros H; [reflexivity|]. cbn [filter rm_get]. assert (IH' := IH (fun x Hx => H x (or_intror Hx))).
  destruct (f r) eqn:E; cbn [rm_get]; rewrite IH'; [reflexivity|]. specialize (H r (or_introl eq_refl) E). unfold covers in H. rewrite H. reflexivity.
Qed.
Lemma rm_get_in m p id : rm_get m p = Some id -> exists r, In r m /\ covers r p = true /\ r_id r = id.
Proof.
  induction m as [|r m IH]; cbn [rm_get]; [discriminate|]. destruct ((r_from r <=? p) && (p <? r_to r)) eqn:E.
  - intros H. injection H as <-. exists r. split; [left; reflexivity|]. split; [exact E|reflexivity].
  - intros H. destruct (IH H) as (x & H1 & H2). exists x. split; [right; exact H1|exact H2].
Qed.
Lemma rm_cut_in from to r x : In x (rm_cut from to r) -> r_id x = r_id r /\ r_from r <= r_from x /\ r_to x <= r_to r.
Proof.
  unfold rm_cut. destruct (_ || _) eqn:E; [intros [<-|[]]; split; [reflexivity|lia]|].
  destruct (r_from r <? from) eqn:E1, (to <? r_to r) eqn:E2; cbn [app]; intros H; cbn [In] in H;
    repeat (destruct H as [<-|H]; [cbn; split; [reflexivity|lia]|]); destruct H.
Qed.
Lemma rm_flat_in from to m x : In x (flat_map (rm_cut from to) m) -> exists r, In r m /\ r_id x = r_id r /\ r_from r <= r_from x /\ r_to x <= r_to r.
Proof. intros H. apply in_flat_map in H as (r & H1 & H2). exists r. split; [exact H1|]. eapply rm_cut_in. exact H2. Qed.

Lemma fold_min_eq from l : Forall (fun r => from <= r_from r) l -> fold_right (fun r a => Z.min (r_from r) a) from l = from.
Proof. induction 1 as [|r l H _ IH]; cbn [fold_right]; [reflexivity|]. rewrite IH. lia. Qed.
Lemma fold_max_eq to l : Forall (fun r => r_to r <= to) l -> fold_right (fun r a => Z.max (r_to r) a) to l = to.
Proof. induction 1 as [|r l H _ IH]; cbn [fold_right]; [reflexivity|]. rewrite IH. lia. Qed.

(** Inserting, when the entries that are merged lie within the new range. *)
Lemma rm_insert_in_range same m from to id m' :
  (from < to -> forall r, In r m -> same (r_id r) = true -> from <= r_from r /\ r_to r <= to) ->
  rm_insert same m from to id = Some m' ->
  from < to /\
  (forall p, rm_get m' p = if (from <=? p) && (p <? to) then Some id else rm_get m p) /\
  forall x, In x m' -> x = mk_rng from to id \/ exists r, In r m /\ r_id x = r_id r /\ r_from r <= r_from x /\ r_to x <= r_to r.
Proof.
  intros Hin H. unfold rm_insert in H. destruct (to <=? from) eqn:E; [discriminate|]. split; [lia|]. specialize (Hin ltac:(lia)).
  set (mine := filter _ m) in H. set (others := filter (fun r => negb _) m) in H.
  assert (Hm : forall r, In r mine -> from <= r_from r /\ r_to r <= to).
  { intros r Hr. apply filter_In in Hr as [H1 H2]. apply Hin; [exact H1|]. lia. }
  rewrite fold_min_eq, fold_max_eq in H by (apply Forall_forall; intros r Hr; apply Hm; exact Hr).
  injection H as <-. split.
  - intros p. cbn [rm_get r_from r_to r_id]. destruct ((from <=? p) && (p <? to)) eqn:E1; [reflexivity|].
    rewrite rm_get_remove by lia. rewrite E1. apply rm_get_filter. intros r Hr Hf. unfold covers.
    specialize (Hin r Hr). apply Bool.negb_false_iff in Hf. assert (same (r_id r) = true) as Hs by (destruct (same (r_id r)); [reflexivity|rewrite Bool.andb_false_r in Hf; discriminate]).
    specialize (Hin Hs). lia.
  - intros x [<-|Hx]; [left; reflexivity|]. right. apply rm_flat_in in Hx as (r & Hr & Hx). exists r. split; [|exact Hx]. eapply filter_In. exact Hr.
Qed.

(* ---------- scopes ---------- *)

Lemma upgrade_alive w id s : upgrade w id = Some s <-> alive w id s.
Proof.
  unfold upgrade, alive. destruct (nth_error (w_scopes w) id) as [s'|]; [|split; [discriminate|intros [H _]; discriminate]].
  destruct (sc_alive s') eqn:E; split; try discriminate.
  - intros H. injection H as ->. auto.
  - intros [H _]. exact H.
  - intros [H1 H2]. injection H1 as ->. congruence.
Qed.
Lemma nth_kill : forall l id j, nth_error (kill l id) j =
  match nth_error l j with
  | Some s => Some (if Nat.eqb j id then mk_scope (sc_start s) (sc_data s) (sc_sk s) (sc_root s) false else s)
  | None => None
  end.
Proof.
  induction l as [|s l IH]; intros [|id] [|j]; cbn [kill nth_error Nat.eqb]; try reflexivity.
  - destruct (nth_error l j); reflexivity.
  - apply IH.
Qed.
Lemma alive_drop w id j s : alive (scope_drop w id) j s <-> alive w j s /\ j <> id.
Proof.
  unfold alive, scope_drop. cbn [w_scopes]. rewrite nth_kill. destruct (nth_error (w_scopes w) j) as [s'|]; [|intuition discriminate].
  destruct (Nat.eqb_spec j id) as [->|Hn].
  - split; [intros [H1 H2]; injection H1 as <-; discriminate|tauto].
  - intuition.
Qed.
Lemma nth_app_last {A} (l : list A) x j y : nth_error (l ++ [x]) j = Some y -> nth_error l j = Some y \/ (j = length l /\ y = x).
Proof.
  intros H. destruct (Nat.lt_ge_cases j (length l)); [rewrite nth_error_app1 in H by lia; auto|]. rewrite nth_error_app2 in H by lia.
  destruct (j - length l)%nat as [|n] eqn:E; cbn in H; [injection H as <-; right; split; [lia|reflexivity]|destruct n; discriminate].
Qed.
Lemma nth_app_old {A} (l : list A) x j y : nth_error l j = Some y -> nth_error (l ++ [x]) j = Some y.
Proof. intros H. rewrite nth_error_app1; [exact H|]. apply nth_error_Some. congruence. Qed.

(** Every entry lies within the data of its scope. *)
Definition placed (w : world) : Prop := forall r, In r (w_map w) ->
  exists s, nth_error (w_scopes w) (r_id r) = Some s /\ sc_start s <= r_from r /\ r_to r <= sc_end s.

Lemma same_within w s : placed w -> allocated w (sc_start s) (sc_data s) -> sc_start s < sc_start s + lenZ (sc_data s) ->
  forall r, In r (w_map w) -> same_data (mk_world (w_scopes w ++ [s]) (w_map w) false) s (r_id r) = true ->
  sc_start s <= r_from r /\ r_to r <= sc_start s + lenZ (sc_data s).
Proof.
  intros Hp Ha Hlt r Hr Hs. destruct (Hp r Hr) as (s' & H1 & H2 & H3). unfold same_data in Hs.
  destruct (upgrade _ _) as [x|] eqn:E; [|discriminate]. apply upgrade_alive in E as [E1 E2]. cbn [w_scopes] in E1.
  rewrite (nth_app_old _ _ _ _ H1) in E1. injection E1 as <-. unfold sc_end in *. pose proof (lenZ_nonneg (sc_data s)).
  destruct (Ha (r_id r) s' (conj H1 E2)) as [Hap|[E3 E4]]; [|rewrite E4 in *; lia].
  unfold apart, sc_end in Hap. pose proof (lenZ_nonneg (sc_data s')). lia.
Qed.

Lemma new_split dbg w start data sk id w' : placed w -> allocated w start data -> scope_new dbg w start data sk = (Ret id, w') ->
  w_poisoned w = false /\ w_poisoned w' = false /\ id = length (w_scopes w) /\ 0 < lenZ data /\
  exists root, root_or_none dbg start data = Ret root /\ w_scopes w' = w_scopes w ++ [mk_scope start data sk root true] /\
  (forall p, rm_get (w_map w') p = if (start <=? p) && (p <? start + lenZ data) then Some id else rm_get (w_map w) p) /\
  placed w'.
Proof.
  intros Hp Ha H. unfold scope_new in H. destruct (w_poisoned w) eqn:Ep; [discriminate|].
  destruct (root_or_none dbg start data) as [root| | |] eqn:Er; try discriminate.
  set (s := mk_scope start data sk root true) in *.
  destruct (rm_insert _ (w_map w) start (start + lenZ data) (length (w_scopes w))) as [m|] eqn:Ei; [|discriminate].
  injection H as <- <-. apply rm_insert_in_range in Ei as (H1 & H2 & H3).
  2:{ intros Hlt r Hr Hs. exact (same_within w s Hp Ha Hlt r Hr Hs). }
  split; [reflexivity|]. split; [reflexivity|]. split; [reflexivity|]. split; [lia|]. exists root. split; [reflexivity|]. split; [reflexivity|]. split; [exact H2|].
  intros x Hx. cbn [w_map w_scopes] in *. destruct (H3 x Hx) as [-> | (r & Hr & E1 & E2 & E3)].
  - exists s. cbn [r_id r_from r_to]. split; [|unfold sc_end; cbn; lia]. rewrite nth_error_app2 by lia. rewrite Nat.sub_diag. reflexivity.
  - destruct (Hp r Hr) as (s' & F1 & F2 & F3). exists s'. rewrite E1. split; [apply nth_app_old; exact F1|]. lia.
Qed.
Lemma new_failed dbg w start data sk w' : scope_new dbg w start data sk = (Panic, w') ->
  w' = mk_world (w_scopes w) (w_map w) true.
Proof.
  unfold scope_new. destruct (w_poisoned w) eqn:Ep; [intros H; injection H as <-; destruct w; cbn in *; subst; reflexivity|].
  destruct (root_or_none dbg start data); try discriminate; [|intros H; injection H as <-; reflexivity].
  destruct (rm_insert _ _ _ _ _); [discriminate|]. intros H; injection H as <-; reflexivity.
Qed.
Lemma remove_split w id s r w' : alive w id s -> scope_remove w id = (r, w') ->
  w_scopes w' = w_scopes w /\
  (forall p, rm_get (w_map w') p = rm_get (w_map w) p \/ within s p /\ rm_get (w_map w') p = None) /\
  (forall x, In x (w_map w') -> exists y, In y (w_map w) /\ r_id x = r_id y /\ r_from y <= r_from x /\ r_to x <= r_to y) /\
  (sc_data s <> [] -> w_poisoned w = false -> r = Ret tt /\ w_poisoned w' = false).
Proof.
  intros Ha H. unfold scope_remove in H. destruct (w_poisoned w) eqn:Ep.
  { injection H as <- <-. split; [reflexivity|]. split; [auto|]. split; [|discriminate]. intros x Hx. exists x. split; [exact Hx|]. split; [reflexivity|lia]. }
  apply upgrade_alive in Ha. rewrite Ha in H. unfold rm_remove in H. destruct (sc_end s <=? sc_start s) eqn:E.
  - injection H as <- <-. split; [reflexivity|]. cbn [w_map]. split; [auto|]. split; [intros x Hx; exists x; split; [exact Hx|]; split; [reflexivity|lia]|].
    intros Hd _. unfold sc_end in E. destruct (sc_data s); [congruence|]. rewrite lenZ_cons in E. pose proof (lenZ_nonneg l). lia.
  - injection H as <- <-. split; [reflexivity|]. cbn [w_map w_poisoned]. split; [|split; [|auto]].
    + intros p. rewrite rm_get_remove by lia. destruct ((sc_start s <=? p) && (p <? sc_end s)) eqn:E1; [right; split; [unfold within; lia|reflexivity]|auto].
    + intros x Hx. apply rm_flat_in in Hx. exact Hx.
Qed.

(* ---------- soundness ---------- *)

Lemma reach_placed dbg (ok : world -> Z -> list Z -> Prop) w reg :
  (forall w s d, ok w s d -> allocated w s d) -> reach dbg ok w reg -> placed w.
Proof.
  intros Hok. induction 1 as [|w reg start data sk id w' _ IH Ho Hn|w reg start data sk w' _ IH Ho Hn|w reg id s r w' _ IH Ha Hn|w reg id s _ IH Ha].
  - intros r [].
  - destruct (new_split dbg w start data sk id w' IH (Hok _ _ _ Ho) Hn) as (_ & _ & _ & _ & root & _ & _ & _ & H). exact H.
  - apply new_failed in Hn. subst w'. exact IH.
  - destruct (remove_split w id s r w' Ha Hn) as (H1 & _ & H3 & _). intros x Hx. rewrite H1.
    destruct (H3 x Hx) as (y & Hy & E1 & E2 & E3). destruct (IH y Hy) as (s' & F1 & F2 & F3). exists s'. rewrite E1. split; [exact F1|]. lia.
  - intros x Hx. cbn [scope_drop w_map w_scopes] in *. destruct (IH x Hx) as (s' & F1 & F2 & F3). rewrite nth_kill, F1.
    eexists. split; [reflexivity|]. destruct (Nat.eqb _ _); exact (conj F2 F3).
Qed.

Lemma containing_sound dbg w reg p id : reach dbg allocated w reg -> scope_containing w p = Ret (Some id) ->
  exists s, alive w id s /\ within s p.
Proof.
  intros Hr H. pose proof (reach_placed dbg allocated w reg (fun _ _ _ x => x) Hr) as Hp. unfold scope_containing in H.
  destruct (w_poisoned w); [discriminate|]. destruct (rm_get (w_map w) p) as [i|] eqn:Eg; [|discriminate].
  destruct (upgrade w i) as [s|] eqn:Eu; [|discriminate]. injection H as ->. apply upgrade_alive in Eu. exists s. split; [exact Eu|].
  destruct (rm_get_in _ _ _ Eg) as (r & H1 & H2 & H3). destruct (Hp r H1) as (s' & F1 & F2 & F3). rewrite H3 in F1.
  destruct Eu as [Eu _]. rewrite Eu in F1. injection F1 as <-. unfold covers in H2. unfold within. lia.
Qed.
Lemma find_sound dbg w reg p k : reach dbg allocated w reg -> find_shared_keys w p = Ret (Some k) ->
  exists id s, alive w id s /\ within s p /\ sc_sk s = Some k.
Proof.
  intros Hr H. unfold find_shared_keys in H. destruct (scope_containing w p) as [[id|]| | |] eqn:E; try discriminate. cbn [bind] in H.
  destruct (containing_sound dbg w reg p id Hr E) as (s & H1 & H2). exists id, s. split; [exact H1|]. split; [exact H2|].
  apply upgrade_alive in H1. rewrite H1 in H. injection H as ->. reflexivity.
Qed.

(* ---------- completeness ---------- *)

Definition complete (w : world) (reg : list nat) : Prop :=
  (forall i j s t, alive w i s -> alive w j t -> i <> j -> sc_end s <= sc_start t \/ sc_end t <= sc_start s) /\
  forall id, In id reg -> exists s, alive w id s /\ forall p, within s p -> rm_get (w_map w) p = Some id.

Lemma reach_complete dbg w reg : reach dbg fresh w reg -> complete w reg.
Proof.
  assert (Hfa : forall w s d, fresh w s d -> allocated w s d) by (intros w0 s d H id x Hx; left; eapply H; exact Hx).
  induction 1 as [|w reg start data sk id w' Hre IH Ho Hn|w reg start data sk w' Hre IH Ho Hn|w reg id s r w' Hre IH Ha Hn|w reg id s Hre IH Ha].
  - split; [intros i j s t [H _]; destruct i; discriminate|intros id []].
  - pose proof (reach_placed dbg fresh w reg Hfa Hre) as Hp.
    destruct (new_split dbg w start data sk id w' Hp (Hfa _ _ _ Ho) Hn) as (_ & _ & Eid & Hlen & root & Er & Es & Hg & _).
    set (s0 := mk_scope start data sk root true) in *.
    assert (Hold : forall i x, alive w' i x -> alive w i x \/ (i = id /\ x = s0)).
    { intros i x [H1 H2]. rewrite Es in H1. apply nth_app_last in H1 as [H1|[H1 H1']]; [left; split; assumption|right; subst; auto]. }
    assert (Hnew : alive w' id s0) by (split; [rewrite Es, Eid, nth_error_app2, Nat.sub_diag by lia; reflexivity|reflexivity]).
    destruct IH as [IH1 IH2]. split.
    + intros i j x y Hx Hy Hij. destruct (Hold i x Hx) as [Hx'|[-> ->]], (Hold j y Hy) as [Hy'|[-> ->]].
      * eapply IH1; eauto.
      * exact (Ho i x Hx').
      * destruct (Ho j y Hy'); [right|left]; assumption.
      * congruence.
    + intros j [<-|Hj].
      * exists s0. split; [exact Hnew|]. intros p Hpw. rewrite Hg. unfold within, sc_end in Hpw. cbn in Hpw.
        destruct ((start <=? p) && (p <? start + lenZ data)) eqn:E; [reflexivity|lia].
      * destruct (IH2 j Hj) as (x & Hx & Hxg). exists x. split; [destruct Hx as [X1 X2]; split; [rewrite Es; apply nth_app_old; exact X1|exact X2]|].
        intros p Hpw. rewrite Hg. destruct ((start <=? p) && (p <? start + lenZ data)) eqn:E; [|apply Hxg; exact Hpw].
        specialize (Ho j x Hx). unfold apart in Ho. unfold within in Hpw. lia.
  - apply new_failed in Hn. subst w'. exact IH.
  - destruct (remove_split w id s r w' Ha Hn) as (H1 & H2 & _). destruct IH as [IH1 IH2].
    assert (Hal : forall i x, alive w' i x <-> alive w i x) by (intros i x; unfold alive; rewrite H1; reflexivity). split.
    + intros i j x y Hx Hy. rewrite Hal in Hx, Hy. eapply IH1; eauto.
    + intros j Hj. apply filter_In in Hj as [Hj Hne]. destruct (IH2 j Hj) as (x & Hx & Hxg). exists x. split; [apply Hal; exact Hx|].
      intros p Hpw. destruct (H2 p) as [E|[E1 E2]]; [rewrite E; apply Hxg; exact Hpw|].
      destruct (Nat.eqb_spec j id) as [|Hji]; [discriminate|]. specialize (IH1 j id x s Hx Ha Hji). unfold within in *. lia.
  - destruct IH as [IH1 IH2]. split.
    + intros i j x y Hx Hy. rewrite alive_drop in Hx, Hy. destruct Hx, Hy. eapply IH1; eauto.
    + intros j Hj. apply filter_In in Hj as [Hj Hne]. destruct (IH2 j Hj) as (x & Hx & Hxg). exists x.
      split; [apply alive_drop; split; [exact Hx|]; destruct (Nat.eqb_spec j id); [discriminate|assumption]|exact Hxg].
Qed.

Lemma containing_complete dbg w reg id : reach dbg fresh w reg -> w_poisoned w = false -> In id reg ->
  exists s, alive w id s /\ forall p, within s p -> scope_containing w p = Ret (Some id) /\ find_shared_keys w p = Ret (sc_sk s).
Proof.
  intros Hr Hp Hi. destruct (proj2 (reach_complete dbg w reg Hr) id Hi) as (s & H1 & H2). exists s. split; [exact H1|]. intros p Hpw.
  assert (scope_containing w p = Ret (Some id)) as E.
  { unfold scope_containing. rewrite Hp, (H2 p Hpw). apply upgrade_alive in H1. rewrite H1. reflexivity. }
  split; [exact E|]. unfold find_shared_keys. rewrite E. cbn [bind]. apply upgrade_alive in H1. rewrite H1. reflexivity.
Qed.

(* ---------- poisoning ---------- *)

Definition sturdy (w : world) : Prop := w_poisoned w = false /\ Forall (fun s => sc_data s <> []) (w_scopes w).
Lemma usable_new dbg w start data sk : w_poisoned w = false -> usable dbg start data ->
  exists id w', scope_new dbg w start data sk = (Ret id, w').
Proof.
  intros Hp (Hd & r & Hr). unfold scope_new, root_or_none. rewrite Hp, Hr. cbn [bind]. unfold rm_insert.
  destruct (start + lenZ data <=? start) eqn:E; [|eauto]. destruct data; [congruence|]. rewrite lenZ_cons in E. pose proof (lenZ_nonneg data). lia.
Qed.
Lemma alive_data w id s : Forall (fun s => sc_data s <> []) (w_scopes w) -> alive w id s -> sc_data s <> [].
Proof. intros HF [H _]. rewrite Forall_forall in HF. apply HF. eapply nth_error_In. exact H. Qed.
Lemma reach_sturdy dbg w reg : reach dbg (fun w s d => allocated w s d /\ usable dbg s d) w reg -> sturdy w.
Proof.
  induction 1 as [|w reg start data sk id w' Hre IH [Ho Hu] Hn|w reg start data sk w' Hre IH [Ho Hu] Hn|w reg id s r w' Hre IH Ha Hn|w reg id s Hre IH Ha].
  - split; [reflexivity|constructor].
  - pose proof (reach_placed dbg _ w reg (fun _ _ _ x => proj1 x) Hre) as Hp.
    destruct (new_split dbg w start data sk id w' Hp Ho Hn) as (_ & H1 & _ & _ & root & _ & Es & _). destruct IH as [_ IH]. split; [exact H1|].
    rewrite Es. apply Forall_app. split; [exact IH|]. constructor; [apply Hu|constructor].
  - destruct (usable_new dbg w start data sk (proj1 IH) Hu) as (i & x & E). congruence.
  - destruct (remove_split w id s r w' Ha Hn) as (H1 & _ & _ & H4). destruct IH as [IH1 IH2].
    destruct (H4 (alive_data w id s IH2 Ha) IH1) as [_ H5]. split; [exact H5|]. rewrite H1. exact IH2.
  - destruct IH as [IH1 IH2]. split; [exact IH1|]. cbn [scope_drop w_scopes]. clear -IH2. revert id.
    induction IH2 as [|x l H HF IH]; intros [|id]; cbn [kill]; constructor; first [exact H|exact HF|apply IH].
Qed.
Lemma never_poisoned dbg w reg : reach dbg (fun w s d => allocated w s d /\ usable dbg s d) w reg ->
  w_poisoned w = false /\
  (forall start data sk, usable dbg start data -> exists id w', scope_new dbg w start data sk = (Ret id, w')) /\
  (forall id s, alive w id s -> exists w', scope_remove w id = (Ret tt, w')) /\
  forall p, exists r, scope_containing w p = Ret r.
Proof.
  intros H. destruct (reach_sturdy dbg w reg H) as [H1 H2]. split; [exact H1|]. split; [intros; apply usable_new; assumption|]. split.
  - intros id s Ha. destruct (scope_remove w id) as [r w'] eqn:E. destruct (remove_split w id s r w' Ha E) as (_ & _ & _ & H4).
    destruct (H4 (alive_data w id s H2 Ha) H1) as [-> _]. eauto.
  - intros p. unfold scope_containing. rewrite H1. eauto.
Qed.
Lemma poisoned_for_ever w : w_poisoned w = true ->
  (forall dbg start data sk, scope_new dbg w start data sk = (Panic, w)) /\
  (forall id, scope_remove w id = (Panic, w)) /\
  (forall p, scope_containing w p = Panic /\ find_shared_keys w p = Panic) /\
  (forall id, w_poisoned (scope_drop w id) = true).
Proof.
  intros H. split; [intros; unfold scope_new; rewrite H; reflexivity|]. split; [intros; unfold scope_remove; rewrite H; reflexivity|].
  split; [|intros; exact H]. intros p. unfold find_shared_keys, scope_containing. rewrite H. auto.
Qed.
Lemma empty_poisons dbg w start sk : w_poisoned w = false -> exists w', scope_new dbg w start [] sk = (Panic, w') /\ w_poisoned w' = true.
Proof.
  intros H. unfold scope_new. rewrite H. unfold root_or_none.
  change (from_bytes (mk_env dbg start [] None)) with (@Ret (result val decode_error) (Err InputIncorrectlySized)). cbn [bind].
  unfold rm_insert. change (lenZ (@nil Z)) with 0. replace (start + 0 <=? start) with true by lia. eexists. split; reflexivity.
Qed.
Lemma panic_poisons dbg w start data sk : w_poisoned w = false -> from_bytes (mk_env dbg start data None) = Panic ->
  exists w', scope_new dbg w start data sk = (Panic, w') /\ w_poisoned w' = true.
Proof.
  intros H E. unfold scope_new. rewrite H. unfold root_or_none. rewrite E. cbn [bind]. eexists. split; reflexivity.
Qed.
Lemma new_holds dbg w start data sk id w' : scope_new dbg w start data sk = (Ret id, w') ->
  exists s, alive w' id s /\ scope_data s = Some data /\ sc_sk s = sk /\ scope_range s = Some (start, start + lenZ data) /\
    match from_bytes (mk_env dbg start data None) with
    | Ret (Ok v) => scope_root s = Some (data, v)
    | Ret (Err _) => scope_root s = None
    | _ => False
    end.
Proof.
  intros H. unfold scope_new in H. destruct (w_poisoned w) eqn:Ep; [discriminate|]. unfold root_or_none in H.
  destruct (from_bytes (mk_env dbg start data None)) as [r| | |]; try discriminate. cbn [bind] in H.
  destruct (rm_insert _ _ _ _ _); [|discriminate]. injection H as <- <-. eexists. split; [split; [cbn [w_scopes]; rewrite nth_error_app2, Nat.sub_diag by lia; reflexivity|reflexivity]|].
  split; [reflexivity|]. split; [reflexivity|]. split; [reflexivity|]. destruct r; reflexivity.
Qed.
