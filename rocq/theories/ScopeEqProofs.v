(** Lemmas about comparing scopes. *)
From Verif Require Import Prelude Lib Utf8 Float SharedKeys Decode Encodable Encoder BuilderSpec Scopes ScopeSpec ScopeProofs ScopeEq.
From Coq Require Import ZifyBool ZifyNat ZifyN.

(** Two scopes that are alive have data apart, or the same. *)
Definition separate (w : world) : Prop :=
  (forall i s, alive w i s -> sc_data s <> []) /\
  forall i j a b, alive w i a -> alive w j b -> apart a (sc_start b) (sc_data b) \/ sc_start a = sc_start b /\ sc_data a = sc_data b.

Lemma apart_sym a b : apart a (sc_start b) (sc_data b) -> apart b (sc_start a) (sc_data a).
Proof. unfold apart, sc_end. lia. Qed.

Lemma reach_separate dbg w reg : reach dbg allocated w reg -> separate w.
Proof.
  intros H. pose proof (fun w reg => reach_placed dbg allocated w reg (fun _ _ _ x => x)) as Hpl.
  induction H as [|w reg start data sk id w' Hr (IH1 & IH2) Ho Hn|w reg start data sk w' Hr IH Ho Hn|w reg id s r w' Hr (IH1 & IH2) Ha Hn|w reg id s Hr (IH1 & IH2) Ha].
  - split; [intros i s [H _]|intros i j a b [H _]]; destruct i; discriminate.
  - destruct (new_split dbg w start data sk id w' (Hpl _ _ Hr) Ho Hn) as (_ & _ & _ & Hlen & root & _ & Hs & _ & _).
    assert (Hone : forall i a, alive w' i a -> alive w i a \/ a = mk_scope start data sk root true).
    { intros i a (H1 & H2). rewrite Hs in H1. apply nth_app_last in H1 as [H1|(_ & ->)]; [left; split; assumption|right; reflexivity]. }
    split.
    + intros i a Hi. destruct (Hone i a Hi) as [Hi' | ->]; [exact (IH1 i a Hi')|]. cbn [sc_data]. intros ->. discriminate.
    + intros i j a b Hi Hj. destruct (Hone i a Hi) as [Hi' | ->], (Hone j b Hj) as [Hj' | ->]; cbn [sc_start sc_data].
      * exact (IH2 i j a b Hi' Hj').
      * exact (Ho i a Hi').
      * destruct (Ho j b Hj') as [Hap|(E1 & E2)]; [left|right; split; congruence].
        unfold apart, sc_end in *. cbn [sc_start sc_data]. lia.
      * right. split; reflexivity.
  - apply new_failed in Hn. subst w'. exact IH.
  - destruct (remove_split w id s r w' Ha Hn) as (H1 & _). assert (He : forall i a, alive w' i a -> alive w i a) by (intros i a (X & Y); split; [rewrite <- H1|]; assumption).
    split; [intros i a Hi; exact (IH1 i a (He i a Hi))|]. intros i j a b Hi Hj. exact (IH2 i j a b (He i a Hi) (He j b Hj)).
  - split; [intros i a Hi; apply alive_drop in Hi as (Hi & _); exact (IH1 i a Hi)|].
    intros i j a b Hi Hj. apply alive_drop in Hi as (Hi & _). apply alive_drop in Hj as (Hj & _). exact (IH2 i j a b Hi Hj).
Qed.

Lemma nonempty {A} (l : list A) : l <> [] -> 0 < lenZ l.
Proof. destruct l as [|x l]; [congruence|]. intros _. rewrite lenZ_cons. pose proof (lenZ_nonneg l). lia. Qed.

Lemma eq_same_data dbg w reg i j a b : reach dbg allocated w reg -> alive w i a -> alive w j b ->
  scope_eq a b = true <-> sc_start a = sc_start b /\ sc_data a = sc_data b.
Proof.
  intros Hr Hi Hj. destruct (reach_separate dbg w reg Hr) as (N & S). unfold scope_eq. split; [|intros (E & _); lia].
  intros E. destruct (S i j a b Hi Hj) as [Hap|H]; [|exact H]. exfalso.
  pose proof (nonempty _ (N i a Hi)). pose proof (nonempty _ (N j b Hj)). unfold apart, sc_end in Hap. lia.
Qed.
Lemma eq_overlap dbg w reg i j a b p : reach dbg allocated w reg -> alive w i a -> alive w j b -> within a p -> within b p -> scope_eq a b = true.
Proof.
  intros Hr Hi Hj Ha Hb. destruct (reach_separate dbg w reg Hr) as (N & S). unfold scope_eq.
  destruct (S i j a b Hi Hj) as [Hap|(E & _)]; [|lia]. exfalso. unfold apart, within, sc_end in *. lia.
Qed.
Lemma eq_found dbg w reg i a p id : reach dbg allocated w reg -> alive w i a -> within a p -> scope_containing w p = Ret (Some id) ->
  exists b, alive w id b /\ scope_eq a b = true.
Proof.
  intros Hr Hi Ha Hc. destruct (containing_sound dbg w reg p id Hr Hc) as (b & Hb & Hp). exists b. split; [exact Hb|]. eapply eq_overlap; eassumption.
Qed.
Lemma eq_own_memory dbg w reg i j a b : reach dbg fresh w reg -> alive w i a -> alive w j b -> scope_eq a b = true -> i = j.
Proof.
  intros Hr Hi Hj E. destruct (Nat.eq_dec i j) as [Hij|Hij]; [exact Hij|]. exfalso.
  destruct (reach_complete dbg w reg Hr) as (H & _). specialize (H i j a b Hi Hj Hij).
  assert (Hr' : reach dbg allocated w reg).
  { clear - Hr. induction Hr; [constructor|eapply re_new|eapply re_failed|eapply re_remove|eapply re_drop]; try eassumption; intros k s0 Hk; left; eauto. }
  destruct (reach_separate dbg w reg Hr') as (N & _). pose proof (nonempty _ (N i a Hi)). pose proof (nonempty _ (N j b Hj)).
  unfold scope_eq in E. unfold sc_end in H. lia.
Qed.
Lemma entry_eq_iff w i j : entry_eq w i j = true <-> exists a b, alive w i a /\ alive w j b /\ scope_eq a b = true.
Proof.
  unfold entry_eq. split.
  - destruct (upgrade w i) as [a|] eqn:Ei; [|discriminate]. destruct (upgrade w j) as [b|] eqn:Ej; [|discriminate]. intros H.
    exists a, b. split; [apply upgrade_alive; exact Ei|]. split; [apply upgrade_alive; exact Ej|exact H].
  - intros (a & b & Ha & Hb & H). apply upgrade_alive in Ha, Hb. rewrite Ha, Hb. exact H.
Qed.
Lemma eq_laws : (forall a, scope_eq a a = true) /\ (forall a b, scope_eq a b = scope_eq b a) /\
  (forall a b c, scope_eq a b = true -> scope_eq b c = true -> scope_eq a c = true).
Proof. unfold scope_eq. split; [intros; lia|]. split; [intros; lia|intros; lia]. Qed.
Lemma entry_laws w : (forall i, entry_eq w i i = true <-> exists s, alive w i s) /\ (forall i j, entry_eq w i j = entry_eq w j i) /\
  (forall i j k, entry_eq w i j = true -> entry_eq w j k = true -> entry_eq w i k = true).
Proof.
  destruct eq_laws as (R & S & T). split; [|split].
  - intros i. rewrite entry_eq_iff. split; [intros (a & _ & H & _); eauto|intros (s & H); exists s, s; auto].
  - intros i j. unfold entry_eq. destruct (upgrade w i), (upgrade w j); auto.
  - intros i j k. rewrite !entry_eq_iff. intros (a & b & Ha & Hb & E1) (b' & c & Hb' & Hc & E2).
    apply upgrade_alive in Hb, Hb'. rewrite Hb in Hb'. injection Hb' as <-. exists a, c. split; [exact Ha|]. split; [exact Hc|eauto].
Qed.
