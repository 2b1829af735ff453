(** Lemmas about scopes in several threads. *)
From Verif Require Import Prelude Lib Utf8 Float SharedKeys Decode Encodable Encoder BuilderSpec Scopes ScopeSpec ScopeProofs Threads ThreadsSpec.
From Coq Require Import ZifyBool ZifyNat ZifyN.

(* ---------- inserting does not depend on the comparisons ---------- *)

Definition full (m : list rng) : Prop := Forall (fun r => r_from r < r_to r) m.
Lemma full_cut from to m : full m -> full (flat_map (rm_cut from to) m).
Proof.
  unfold full. induction 1 as [|r m Hr _ IH]; cbn [flat_map]; [constructor|]. apply Forall_app. split; [|exact IH].
  unfold rm_cut. destruct ((r_to r <=? from) || (to <=? r_from r)) eqn:E; [constructor; [exact Hr|constructor]|].
  apply Forall_app. split; [destruct (r_from r <? from) eqn:E1|destruct (to <? r_to r) eqn:E1]; constructor; cbn; try lia; constructor.
Qed.
Lemma full_remove m from to m' : full m -> rm_remove m from to = Some m' -> full m'.
Proof. unfold rm_remove. destruct (to <=? from); [discriminate|]. intros H E. injection E as <-. apply full_cut, H. Qed.

(** The entries of equal value, if they all lie within the new range. *)
Lemma rm_insert_plain same m from to id : full m ->
  (from < to -> forall r, In r m -> same (r_id r) = true -> from <= r_from r /\ r_to r <= to) ->
  rm_insert same m from to id = if to <=? from then None else Some (mk_rng from to id :: flat_map (rm_cut from to) m).
Proof.
  intros Hf Hin. unfold rm_insert. destruct (to <=? from) eqn:E; [reflexivity|]. specialize (Hin ltac:(lia)). f_equal.
  assert (Hm : forall r, In r (filter (fun r => rm_touches from to r && same (r_id r)) m) -> from <= r_from r /\ r_to r <= to).
  { intros r Hr. apply filter_In in Hr as [H1 H2]. apply Hin; [exact H1|]. lia. }
  rewrite fold_min_eq, fold_max_eq by (apply Forall_forall; intros r Hr; apply Hm; exact Hr). f_equal. clear Hm.
  induction Hf as [|r m Hr Hf IH]; [reflexivity|]. cbn [filter flat_map].
  specialize (IH (fun r' H' => Hin r' (or_intror H'))). destruct (rm_touches from to r && same (r_id r)) eqn:Es; cbn [negb flat_map].
  - rewrite IH. destruct (Hin r (or_introl eq_refl)) as [H1 H2]; [lia|].
    unfold rm_cut at 2. destruct ((r_to r <=? from) || (to <=? r_from r)) eqn:E1; [lia|].
    destruct (r_from r <? from) eqn:E2; [lia|]. destruct (to <? r_to r) eqn:E3; [lia|]. reflexivity.
  - rewrite IH. reflexivity.
Qed.

(* ---------- cells ---------- *)

Lemma nth_at_cell f : forall l id j, nth_error (at_cell f l id) j =
  match nth_error l j with Some (s, n) => Some (s, if Nat.eqb j id then f n else n) | None => None end.
Proof.
  induction l as [|[s n] l IH]; intros [|id] [|j]; cbn [at_cell nth_error Nat.eqb]; try reflexivity.
  - destruct (nth_error l j) as [[? ?]|]; reflexivity.
  - apply IH.
Qed.
Lemma length_at_cell f : forall l id, length (at_cell f l id) = length l.
Proof. induction l as [|[s n] l IH]; intros [|id]; cbn; congruence. Qed.
Lemma at_cell_comm f g : forall l i j, i <> j -> at_cell f (at_cell g l i) j = at_cell g (at_cell f l j) i.
Proof.
  induction l as [|[s n] l IH]; intros [|i] [|j] H; cbn [at_cell]; try reflexivity; [congruence|]. rewrite IH by congruence. reflexivity.
Qed.
Lemma at_cell_same f g h k : forall l i, (forall s n, nth_error l i = Some (s, n) -> f (g n) = h (k n)) -> at_cell f (at_cell g l i) i = at_cell h (at_cell k l i) i.
Proof.
  induction l as [|[s n] l IH]; intros [|i] H; cbn [at_cell]; try reflexivity.
  - rewrite (H s n eq_refl). reflexivity.
  - rewrite (IH i H). reflexivity.
Qed.
Lemma at_cell_id f : forall l i, (forall s n, nth_error l i = Some (s, n) -> f n = n) -> at_cell f l i = l.
Proof.
  induction l as [|[s n] l IH]; intros [|i] H; cbn [at_cell]; try reflexivity.
  - rewrite (H s n eq_refl). reflexivity.
  - rewrite (IH i H). reflexivity.
Qed.

Lemma alive_of m id s : alive (world_of m) id s <-> exists s0 n, nth_error (m_cells m) id = Some (s0, S n) /\ s = cell_scope (s0, S n).
Proof.
  unfold alive, world_of. cbn [w_scopes]. rewrite nth_error_map. destruct (nth_error (m_cells m) id) as [[s0 n]|]; cbn [option_map].
  - split.
    + intros [H1 H2]. injection H1 as <-. cbn in H2. destruct n as [|n]; [discriminate|]. eauto.
    + intros (s1 & k & H1 & ->). injection H1 as -> ->. split; reflexivity.
  - split; [intros [H _]; discriminate|intros (? & ? & H & _); discriminate].
Qed.
(** Nothing is alive in [m'] that is not alive in [m]. *)
Definition fewer (m m' : mem) : Prop := forall id s, alive (world_of m') id s -> alive (world_of m) id s.
Lemma fewer_cells m m' : (forall id s n, nth_error (m_cells m') id = Some (s, S n) -> exists k, nth_error (m_cells m) id = Some (s, S k)) -> fewer m m'.
Proof.
  intros H id s Ha. apply alive_of in Ha as (s0 & n & H1 & ->). destruct (H _ _ _ H1) as [k Hk]. apply alive_of. exists s0, k. split; [exact Hk|reflexivity].
Qed.
Lemma fewer_inc m id : fewer m (inc m id).
Proof.
  apply fewer_cells. intros j s n. cbn [inc m_cells]. rewrite nth_at_cell. destruct (nth_error (m_cells m) j) as [[s0 k]|]; [|discriminate].
  intros H. injection H as -> H. destruct (Nat.eqb j id), k; try discriminate; eauto.
Qed.
Lemma fewer_dec m id : fewer m (dec m id).
Proof.
  apply fewer_cells. intros j s n. cbn [dec m_cells]. rewrite nth_at_cell. destruct (nth_error (m_cells m) j) as [[s0 k]|]; [|discriminate].
  intros H. injection H as -> H. destruct (Nat.eqb j id), k; try discriminate; eauto.
Qed.
Lemma allocated_fewer m m' start data : fewer m m' -> allocated (world_of m) start data -> allocated (world_of m') start data.
Proof. intros Hf Ha id s H. exact (Ha id s (Hf _ _ H)). Qed.

(* ---------- where the threads are ---------- *)

(** Which lock a thread has. *)
Definition mode (s : tstate) : option bool :=
  match s with
  | TLocked (ONew _ _ _) | TLocked (ORemove _) | TComparing _ _ _ _ _ _ | THolding _ _ _ _ _ _ _ | TPoison _ => Some true
  | TLocked (OFind _) | TGot _ _ => Some false
  | TUnlock (RFind _) => Some false
  | TUnlock _ => Some true
  | _ => None
  end.
Definition lockinv (l : lock) (th : nat -> tstate) : Prop :=
  match l with
  | LFree => forall t, mode (th t) = None
  | LWrite w => forall t, mode (th t) = if Nat.eqb t w then Some true else None
  | LRead rs => rs <> [] /\ forall t, mode (th t) = if in_dec Nat.eq_dec t rs then Some false else None
  end.
Definition poisoning1 (s : tstate) : bool := match s with TPoison _ => true | _ => false end.
Definition poisoning (l : lock) (th : nat -> tstate) : bool := match l with LWrite t => poisoning1 (th t) | _ => false end.

Lemma upd_same th t s : upd th t s t = s.
Proof. unfold upd. rewrite Nat.eqb_refl. reflexivity. Qed.
Lemma upd_other th t s i : i <> t -> upd th t s i = th i.
Proof. intros H. unfold upd. destruct (Nat.eqb_spec i t); [contradiction|reflexivity]. Qed.
Lemma aupd_same th t s : aupd th t s t = s.
Proof. unfold aupd. rewrite Nat.eqb_refl. reflexivity. Qed.
Lemma aupd_other th t s i : i <> t -> aupd th t s i = th i.
Proof. intros H. unfold aupd. destruct (Nat.eqb_spec i t); [contradiction|reflexivity]. Qed.

Lemma mode_upd th t s i : mode (upd th t s i) = if Nat.eqb i t then mode s else mode (th i).
Proof. unfold upd. destruct (Nat.eqb i t); reflexivity. Qed.
Lemma lock_same l th t s : lockinv l th -> mode s = mode (th t) -> lockinv l (upd th t s).
Proof.
  intros Hl Hm. assert (He : forall i, mode (upd th t s i) = mode (th i)).
  { intros i. rewrite mode_upd. destruct (Nat.eqb_spec i t) as [->|]; [exact Hm|reflexivity]. }
  destruct l as [|rs|w]; cbn [lockinv] in *; [intros i; rewrite He; apply Hl|split; [apply Hl|intros i; rewrite He; apply Hl]|intros i; rewrite He; apply Hl].
Qed.
Lemma lock_write th t s : lockinv LFree th -> mode s = Some true -> lockinv (LWrite t) (upd th t s).
Proof. intros Hl Hm i. rewrite mode_upd. destruct (Nat.eqb i t); [exact Hm|apply Hl]. Qed.
Lemma lock_read th t s : lockinv LFree th -> mode s = Some false -> lockinv (LRead [t]) (upd th t s).
Proof.
  intros Hl Hm. split; [discriminate|]. intros i. rewrite mode_upd. destruct (in_dec Nat.eq_dec i [t]) as [H|H]; destruct (Nat.eqb_spec i t) as [->|Hn]; auto.
  - destruct H as [H|[]]. congruence.
  - elim H. left. reflexivity.
Qed.
Lemma lock_read_more rs th t s : lockinv (LRead rs) th -> mode s = Some false -> lockinv (LRead (t :: rs)) (upd th t s).
Proof.
  intros [_ Hl] Hm. split; [discriminate|]. intros i. rewrite mode_upd. destruct (Nat.eqb_spec i t) as [->|Hn].
  - rewrite Hm. destruct (in_dec Nat.eq_dec t (t :: rs)) as [H|H]; [reflexivity|elim H; left; reflexivity].
  - rewrite Hl. destruct (in_dec Nat.eq_dec i rs) as [H|H], (in_dec Nat.eq_dec i (t :: rs)) as [H'|H']; try reflexivity.
    + elim H'. right. exact H.
    + destruct H' as [H'|H']; [congruence|contradiction].
Qed.
Lemma writer_lock l th t : lockinv l th -> mode (th t) = Some true -> l = LWrite t.
Proof.
  intros Hl Hm. destruct l as [|rs|w]; cbn [lockinv] in Hl.
  - rewrite Hl in Hm. discriminate.
  - destruct Hl as [_ Hl]. rewrite Hl in Hm. destruct (in_dec _ _ _); discriminate.
  - rewrite Hl in Hm. destruct (Nat.eqb_spec t w); [congruence|discriminate].
Qed.
Lemma reader_lock l th t : lockinv l th -> mode (th t) = Some false -> exists rs, l = LRead rs /\ In t rs.
Proof.
  intros Hl Hm. destruct l as [|rs|w]; cbn [lockinv] in Hl.
  - rewrite Hl in Hm. discriminate.
  - destruct Hl as [_ Hl]. rewrite Hl in Hm. destruct (in_dec _ _ _); [eauto|discriminate].
  - rewrite Hl in Hm. destruct (Nat.eqb t w); discriminate.
Qed.
Lemma lock_release l th t s b : lockinv l th -> mode (th t) = Some b -> mode s = None -> lockinv (unlock l t) (upd th t s).
Proof.
  intros Hl Hm Hs. destruct b.
  - pose proof (writer_lock _ _ _ Hl Hm). subst l. cbn [unlock lockinv] in *. intros i. rewrite mode_upd. destruct (Nat.eqb_spec i t) as [->|Hn]; [exact Hs|].
    rewrite Hl. destruct (Nat.eqb_spec i t); [contradiction|reflexivity].
  - destruct (reader_lock _ _ _ Hl Hm) as (rs & -> & Hi). destruct Hl as [_ Hl]. cbn [unlock].
    assert (Hmode : forall i, mode (upd th t s i) = if in_dec Nat.eq_dec i (remove Nat.eq_dec t rs) then Some false else None).
    { intros i. rewrite mode_upd. destruct (Nat.eqb_spec i t) as [->|Hn].
      - rewrite Hs. destruct (in_dec _ _ _) as [H|H]; [|reflexivity]. elim (remove_In _ _ _ H).
      - rewrite Hl. destruct (in_dec Nat.eq_dec i rs) as [H|H], (in_dec Nat.eq_dec i (remove Nat.eq_dec t rs)) as [H'|H']; try reflexivity.
        + elim H'. apply in_in_remove; assumption.
        + elim H. apply in_remove in H'. apply H'. }
    destruct (remove Nat.eq_dec t rs) as [|x r] eqn:E; [intros i; rewrite Hmode; reflexivity|]. split; [discriminate|exact Hmode].
Qed.
Lemma held_other l th t s : lockinv l th -> mode (th t) <> Some true -> held l (upd th t s) = held l th /\ poisoning l (upd th t s) = poisoning l th.
Proof.
  intros Hl Hm. destruct l as [|rs|w]; cbn [held poisoning]; auto. unfold upd. destruct (Nat.eqb_spec w t) as [->|]; [|auto].
  cbn [lockinv] in Hl. rewrite Hl, Nat.eqb_refl in Hm. congruence.
Qed.

(** What a thread knows about the memory. *)
Definition answers_ok (m : mem) (start : Z) (data : list Z) (acc : list (nat * bool)) : Prop :=
  start < start + lenZ data -> forall i, In (i, true) acc -> forall r, In r (m_map m) -> r_id r = i -> start <= r_from r /\ r_to r <= start + lenZ data.
Definition tinv (dbg : bool) (m : mem) (s : tstate) : Prop :=
  match s with
  | TLocked (ONew start data _) => allocated (world_of m) start data
  | TComparing start data _ root todo acc =>
      allocated (world_of m) start data /\ root_or_none dbg start data = Ret root /\ m_poisoned m = false /\ answers_ok m start data acc /\
      incl todo (map r_id (m_map m))
  | THolding start data _ root id todo acc =>
      allocated (world_of m) start data /\ root_or_none dbg start data = Ret root /\ m_poisoned m = false /\ answers_ok m start data acc /\
      incl (id :: todo) (map r_id (m_map m))
  | TGot p id => rm_get (m_map m) p = Some id /\ m_poisoned m = false
  | _ => True
  end.
Definition tpend (s : tstate) (p : pending) : Prop :=
  match s, p with
  | TIdle, PIdle => True
  | TStart o, PCalled o' => o = o'
  | TLocked o, PCalled o' => o = o' /\ mode s <> None
  | TComparing start data sk _ _ _, PCalled o | THolding start data sk _ _ _ _, PCalled o => o = ONew start data sk
  | TGot q _, PCalled o => o = OFind q
  | TUnlock r, PDone r' | TPoison r, PDone r' | TDone r, PDone r' => r = r'
  | _, _ => False
  end.
Lemma tinv_free dbg m s : mode s = None -> tinv dbg m s.
Proof. destruct s as [|o|o| | | | | |]; cbn; try discriminate; auto. destruct o; cbn; try discriminate; auto. Qed.
Lemma tinv_fewer dbg m m' s : fewer m m' -> m_map m' = m_map m -> m_poisoned m' = m_poisoned m -> tinv dbg m s -> tinv dbg m' s.
Proof.
  intros Hf Hm Hp. destruct s as [|o|o|start data sk root todo acc|start data sk root id todo acc|p id| | |]; cbn [tinv]; auto.
  - destruct o; auto. apply allocated_fewer, Hf.
  - intros (H1 & H2 & H3 & H4 & H5). split; [exact (allocated_fewer _ _ _ _ Hf H1)|]. split; [exact H2|]. split; [congruence|]. unfold answers_ok in *. rewrite Hm. split; assumption.
  - intros (H1 & H2 & H3 & H4 & H5). split; [exact (allocated_fewer _ _ _ _ Hf H1)|]. split; [exact H2|]. split; [congruence|]. unfold answers_ok in *. rewrite Hm. split; assumption.
  - intros [H1 H2]. rewrite Hm. split; [exact H1|congruence].
Qed.

(* ---------- the simulation ---------- *)

Definition bump (h : option nat) (l : list (scope * nat)) : list (scope * nat) := match h with Some i => at_cell S l i | None => l end.
Record sim (dbg : bool) (c : cstate) (a : astate) : Prop := mk_sim {
  si_cells : m_cells (c_mem c) = bump (held (c_lock c) (c_th c)) (m_cells (a_mem a));
  si_map : m_map (c_mem c) = m_map (a_mem a);
  si_poison : m_poisoned (a_mem a) = m_poisoned (c_mem c) || poisoning (c_lock c) (c_th c);
  si_pend : forall t, tpend (c_th c t) (a_th a t);
  si_inv : forall t, tinv dbg (c_mem c) (c_th c t);
  si_lock : lockinv (c_lock c) (c_th c);
  si_placed : placed (world_of (a_mem a));
  si_full : full (m_map (a_mem a));
}.
Lemma sim_init dbg : sim dbg c_init a_init.
Proof.
  constructor; cbn; auto; [intros r []|constructor].
Qed.

(** The scopes seen by the abstract machine, from those of the other one. *)
Lemma length_bump h l : length (bump h l) = length l.
Proof. destruct h; cbn [bump]; [apply length_at_cell|reflexivity]. Qed.
Lemma bump_fewer h m am : m_cells m = bump h (m_cells am) -> fewer m am.
Proof.
  intros H. apply fewer_cells. intros id s n Hn. rewrite H. destruct h as [i|]; cbn [bump]; [|eauto]. rewrite nth_at_cell, Hn. destruct (Nat.eqb id i); eauto.
Qed.
Lemma bump_scopes h m am : m_cells m = bump h (m_cells am) -> forall id s n, nth_error (m_cells m) id = Some (s, n) -> exists k, nth_error (m_cells am) id = Some (s, k).
Proof.
  intros H id s n Hn. rewrite H in Hn. destruct h as [i|]; cbn [bump] in Hn; [|eauto]. rewrite nth_at_cell in Hn.
  destruct (nth_error (m_cells am) id) as [[s0 k]|]; [|discriminate]. injection Hn as -> _. eauto.
Qed.
Lemma placed_cells m m' : m_map m' = m_map m -> (forall id s n, nth_error (m_cells m) id = Some (s, n) -> exists k, nth_error (m_cells m') id = Some (s, k)) ->
  placed (world_of m) -> placed (world_of m').
Proof.
  intros Hm Hc Hp r Hr. cbn [world_of w_map w_scopes] in *. rewrite Hm in Hr. destruct (Hp r Hr) as (s & H1 & H2). cbn [world_of w_scopes] in H1. rewrite nth_error_map in H1.
  destruct (nth_error (m_cells m) (r_id r)) as [[s0 n]|] eqn:E; [|discriminate]. cbn [option_map] in H1. injection H1 as <-. destruct (Hc _ _ _ E) as [k Hk].
  rewrite nth_error_map, Hk. cbn [option_map]. eexists. split; [reflexivity|]. exact H2.
Qed.
Lemma at_cell_scopes f l id : forall j s n, nth_error l j = Some (s, n) -> exists k, nth_error (at_cell f l id) j = Some (s, k).
Proof. intros j s n H. rewrite nth_at_cell, H. eauto. Qed.

Lemma sim_build dbg m l th am ath t s' m' l' am' ath' :
  sim dbg (mk_c m l th) (mk_a am ath) ->
  (forall i, i <> t -> ath' i = ath i) -> tpend s' (ath' t) ->
  m_cells m' = bump (held l' (upd th t s')) (m_cells am') -> m_map m' = m_map am' ->
  m_poisoned am' = m_poisoned m' || poisoning l' (upd th t s') ->
  tinv dbg m' s' -> (forall i, i <> t -> tinv dbg m' (th i)) -> lockinv l' (upd th t s') ->
  placed (world_of am') -> full (m_map am') ->
  sim dbg (mk_c m' l' (upd th t s')) (mk_a am' ath').
Proof.
  intros [H1 H2 H3 H4 H5 H6 H7 H8] Ho Ht Hc Hm Hp Hi Hio Hl Hpl Hf. constructor; cbn [c_mem c_lock c_th a_mem a_th] in *; try assumption.
  - intros i. destruct (Nat.eq_dec i t) as [->|Hn]; [rewrite upd_same; exact Ht|]. rewrite upd_other, Ho by exact Hn. apply H4.
  - intros i. destruct (Nat.eq_dec i t) as [->|Hn]; [rewrite upd_same; exact Hi|]. rewrite upd_other by exact Hn. apply Hio. exact Hn.
Qed.
Lemma sim_eq dbg m l th am ath : sim dbg (mk_c m l th) (mk_a am ath) -> held l th = None -> poisoning l th = false -> am = m.
Proof.
  intros [H1 H2 H3 _ _ _ _ _] Hh Hp. cbn [c_mem c_lock c_th a_mem a_th] in *. rewrite Hh in H1. rewrite Hp, Bool.orb_false_r in H3.
  destruct m as [a1 b1 d1], am as [a2 b2 d2]. cbn [m_cells m_map m_poisoned bump] in *. congruence.
Qed.
Lemma others_free l th t : lockinv l th -> mode (th t) = Some true -> forall i, i <> t -> mode (th i) = None.
Proof. intros Hl Hm i Hi. pose proof (writer_lock _ _ _ Hl Hm). subst l. rewrite Hl. destruct (Nat.eqb_spec i t); [contradiction|reflexivity]. Qed.
Lemma own_held l th t : lockinv l th -> mode (th t) <> None -> held1 (th t) = None -> poisoning1 (th t) = false -> held l th = None /\ poisoning l th = false.
Proof.
  intros Hl Hm Hh Hp. destruct (mode (th t)) as [[|]|] eqn:E; [| |congruence].
  - rewrite (writer_lock _ _ _ Hl E). split; assumption.
  - destruct (reader_lock _ _ _ Hl E) as (rs & -> & _). split; reflexivity.
Qed.
Lemma own_upd l th t s : lockinv l th -> mode (th t) <> None -> held1 s = None -> poisoning1 s = false -> held l (upd th t s) = None /\ poisoning l (upd th t s) = false.
Proof.
  intros Hl Hm Hh Hp. destruct (mode (th t)) as [[|]|] eqn:E; [| |congruence].
  - rewrite (writer_lock _ _ _ Hl E). cbn [held poisoning]. rewrite upd_same. split; assumption.
  - destruct (reader_lock _ _ _ Hl E) as (rs & -> & _). split; reflexivity.
Qed.
Lemma unlock_none l th t : held (unlock l t) th = None /\ poisoning (unlock l t) th = false.
Proof. destruct l as [|rs|w]; cbn [unlock]; [split; reflexivity| |split; reflexivity]. destruct (remove _ _ _); split; reflexivity. Qed.
Lemma at_pred_S l i : at_cell pred (at_cell S l i) i = l.
Proof. revert i. induction l as [|[s n] l IH]; intros [|i]; cbn [at_cell]; try reflexivity. rewrite IH. reflexivity. Qed.
Lemma at_ext f g l i : (forall s n, nth_error l i = Some (s, n) -> f n = g n) -> at_cell f l i = at_cell g l i.
Proof.
  revert i. induction l as [|[s n] l IH]; intros [|i] H; cbn [at_cell]; try reflexivity.
  - rewrite (H s n eq_refl). reflexivity.
  - rewrite (IH i H). reflexivity.
Qed.
Lemma bump_at f h l id : (forall n, (0 < n)%nat -> f (S n) = S (f n)) ->
  (exists s n, nth_error (bump h l) id = Some (s, n) /\ (match h with Some i => if Nat.eqb i id then 1 else 0 | None => 0 end < n)%nat) ->
  at_cell f (bump h l) id = bump h (at_cell f l id).
Proof.
  intros Hf (s & n & Hn & Hlt). destruct h as [i|]; cbn [bump] in *; [|reflexivity]. destruct (Nat.eq_dec i id) as [->|Hne].
  - rewrite Nat.eqb_refl in Hlt. apply at_cell_same. intros s' n' Hn'. apply Hf. rewrite nth_at_cell, Hn', Nat.eqb_refl in Hn. injection Hn as _ <-. lia.
  - apply at_cell_comm. congruence.
Qed.

Ltac upto := intros ?i ?Hi; first [rewrite aupd_other by assumption; reflexivity|reflexivity].

Lemma apply_poisoned dbg m o : m_poisoned m = true -> mode (TLocked o) <> None -> apply dbg m o = (m, panic_of o).
Proof.
  intros Hp Hm. destruct m as [cs mp po]. cbn [m_poisoned] in Hp. subst po. destruct o as [start data sk|id|p|id|id]; cbn [mode] in Hm; try congruence; cbn [apply panic_of].
  - unfold scope_new. cbn [world_of w_poisoned m_poisoned w_scopes w_map m_cells m_map]. rewrite skipn_all2 by (rewrite map_length; lia). cbn [map]. rewrite app_nil_r. reflexivity.
  - reflexivity.
  - reflexivity.
Qed.
Lemma apply_new_poison dbg m start data sk : m_poisoned m = false ->
  (root_or_none dbg start data = Panic \/ exists root, root_or_none dbg start data = Ret root /\ start + lenZ data <= start) ->
  apply dbg m (ONew start data sk) = (set_poisoned m, RNew Panic).
Proof.
  intros Hp H. cbn [apply]. unfold scope_new. cbn [world_of w_poisoned]. rewrite Hp. destruct H as [-> | (root & -> & Hr)].
  - cbn [world_of w_scopes w_map w_poisoned]. rewrite skipn_all2 by (rewrite map_length; lia). cbn [map]. rewrite app_nil_r. reflexivity.
  - unfold rm_insert. destruct (start + lenZ data <=? start) eqn:E; [|lia]. cbn [world_of w_scopes w_map w_poisoned]. rewrite skipn_all2 by (rewrite map_length; lia). cbn [map]. rewrite app_nil_r. reflexivity.
Qed.
Lemma same_of_true acc i : same_of acc i = true -> In (i, true) acc.
Proof.
  unfold same_of. intros H. apply existsb_exists in H as ([j b] & Hin & Hb). cbn [fst snd] in Hb. apply andb_prop in Hb as [H1 H2]. apply Nat.eqb_eq in H1. subst. exact Hin.
Qed.
(** The whole call and its small steps insert the same. *)
Lemma insert_same dbg m start data sk root acc : placed (world_of m) -> full (m_map m) -> allocated (world_of m) start data -> answers_ok m start data acc ->
  root_or_none dbg start data = Ret root -> m_poisoned m = false ->
  forall r, rm_insert (same_of acc) (m_map m) start (start + lenZ data) (length (m_cells m)) = Some r ->
  scope_new dbg (world_of m) start data sk =
    (Ret (length (m_cells m)), mk_world (map cell_scope (m_cells m) ++ [mk_scope start data sk root true]) r false) /\ full r.
Proof.
  intros Hp Hf Ha Hk Hr Hpo r Hi. unfold scope_new. cbn [world_of w_poisoned w_scopes w_map]. rewrite Hpo, Hr. cbn [map_length]. rewrite map_length.
  rewrite rm_insert_plain in Hi; [|exact Hf|intros Hlt x Hx Hs; exact (Hk Hlt _ (same_of_true _ _ Hs) x Hx eq_refl)].
  rewrite rm_insert_plain; [|exact Hf|].
  - destruct (start + lenZ data <=? start) eqn:E; [discriminate|]. injection Hi as <-. split; [reflexivity|]. constructor; [cbn; lia|]. apply full_cut, Hf.
  - intros Hlt x Hx Hs. apply (same_within (world_of m) (mk_scope start data sk root true) Hp Ha Hlt x Hx). exact Hs.
Qed.
Lemma apply_new dbg m start data sk root r : scope_new dbg (world_of m) start data sk =
    (Ret (length (m_cells m)), mk_world (map cell_scope (m_cells m) ++ [mk_scope start data sk root true]) r false) -> m_poisoned m = false ->
  apply dbg m (ONew start data sk) = (set_map (add_cell m (mk_scope start data sk root true)) r, RNew (Ret (length (m_cells m)))).
Proof.
  intros H Hp. cbn [apply]. rewrite H. cbn [w_scopes w_map w_poisoned]. rewrite skipn_app, map_length, Nat.sub_diag, skipn_all2 by (rewrite map_length; lia).
  cbn [skipn map app]. unfold set_map, add_cell. cbn [m_cells m_map m_poisoned]. rewrite Hp. reflexivity.
Qed.

Lemma sim_step dbg c o c' : step dbg c o c' -> forall a, sim dbg c a ->
  exists a', sim dbg c' a' /\ match o with Some e => astep dbg a (Some e) a' | None => a' = a \/ astep dbg a None a' end.
Proof.
  intros Hs [am ath] Hsim. pose proof Hsim as [Hc Hm Hp Hpend Hinv Hl Hpl Hf].
  (* a step that nobody sees, without effect on the memory *)
  assert (Hquiet : forall t s', c_lock c = c_lock c' -> c_mem c = c_mem c' -> c_th c' = upd (c_th c) t s' ->
     mode s' = mode (c_th c t) -> held1 (c_th c t) = None -> held1 s' = None -> poisoning1 (c_th c t) = false -> poisoning1 s' = false ->
     tpend s' (ath t) -> tinv dbg (c_mem c) s' -> sim dbg c' (mk_a am ath)).
  { intros t s' El Em Et Hmo Hh Hh' Hpo Hpo' Hpe Hi. destruct c as [m l th], c' as [m' l' th']. cbn [c_mem c_lock c_th a_mem a_th] in *. subst m' l' th'.
    assert (held l (upd th t s') = held l th /\ poisoning l (upd th t s') = poisoning l th) as [E1 E2].
    { destruct (mode (th t)) as [[|]|] eqn:E; [|apply held_other; [exact Hl|congruence]|apply held_other; [exact Hl|congruence]].
      pose proof (writer_lock _ _ _ Hl E). subst l. cbn [held poisoning]. rewrite upd_same. split; congruence. }
    eapply sim_build; [exact Hsim|upto|exact Hpe|rewrite E1; exact Hc|exact Hm|rewrite E2; exact Hp|exact Hi|intros i _; apply Hinv|apply lock_same; assumption|exact Hpl|exact Hf]. }
  (* a step of a thread that has the lock and whose effect is that of the whole call *)
  assert (Heffect : forall t s' q m', c_lock c = c_lock c' -> c_mem c' = m' -> c_th c' = upd (c_th c) t s' ->
     ath t = PCalled q -> mode s' = mode (c_th c t) -> mode s' <> None -> held1 (c_th c t) = None -> held1 s' = None -> poisoning1 (c_th c t) = false ->
     (forall start data sk, q = ONew start data sk -> allocated (world_of (c_mem c)) start data) ->
     tinv dbg m' s' -> tpend s' (PDone (snd (apply dbg (c_mem c) q))) ->
     (mode s' = Some false -> fewer (c_mem c) m' /\ m_map m' = m_map (c_mem c) /\ m_poisoned m' = m_poisoned (c_mem c)) ->
     fst (apply dbg (c_mem c) q) = (if poisoning1 s' then set_poisoned m' else m') ->
     placed (world_of m') -> full (m_map m') ->
     exists a', sim dbg c' a' /\ (a' = mk_a am ath \/ astep dbg (mk_a am ath) None a')).
  { intros t s' q m' El Em Et Hq Hmo Hmn Hh Hh' Hpo Hal Hi Hpe Hfew Hap Hpl' Hf'. destruct c as [m l th], c' as [m'' l' th']. cbn [c_mem c_lock c_th a_mem a_th] in *. subst m'' l' th'.
    destruct (own_held _ _ t Hl ltac:(congruence) Hh Hpo) as [E1 E2]. pose proof (sim_eq _ _ _ _ _ _ Hsim E1 E2). subst am.
    eexists. split; [|right; apply a_effect; [exact Hq|exact Hal]]. rewrite Hap.
    assert (held l (upd th t s') = None /\ poisoning l (upd th t s') = poisoning1 s') as [E3 E4].
    { destruct (mode (th t)) as [[|]|] eqn:E; [| |congruence].
      - pose proof (writer_lock _ _ _ Hl E). subst l. cbn [held poisoning]. rewrite upd_same. auto.
      - destruct (reader_lock _ _ _ Hl E) as (rs & -> & _). split; [reflexivity|]. cbn [poisoning]. destruct s'; cbn in Hmo |- *; congruence. }
    eapply sim_build; [exact Hsim|upto|rewrite aupd_same; exact Hpe| | | |exact Hi| |apply lock_same; assumption| |].
    - rewrite E3. destruct (poisoning1 s'); reflexivity.
    - destruct (poisoning1 s'); reflexivity.
    - rewrite E4. destruct (poisoning1 s'); cbn [set_poisoned m_poisoned]; [rewrite Bool.orb_true_r|rewrite Bool.orb_false_r]; reflexivity.
    - intros i Hi'. destruct (mode (th t)) as [[|]|] eqn:E; [| |congruence].
      + apply tinv_free. exact (others_free _ _ _ Hl E i Hi').
      + destruct (Hfew Hmo) as (F1 & F2 & F3). exact (tinv_fewer _ _ _ _ F1 F2 F3 (Hinv i)).
    - destruct (poisoning1 s'); exact Hpl'.
    - destruct (poisoning1 s'); exact Hf'. }
  (* the machine after an unlocked step on an [Arc] *)
  assert (Harc : forall t f q, c_lock c = c_lock c' -> c_mem c' = mk_mem (at_cell f (m_cells (c_mem c)) q) (m_map (c_mem c)) (m_poisoned (c_mem c)) ->
     forall o', c_th c' = upd (c_th c) t (TDone (RUnit (Ret tt))) -> c_th c t = TStart o' -> owned (c_mem c) (c_lock c) (c_th c) q ->
     (forall n, (0 < n)%nat -> f (S n) = S (f n)) -> fewer (c_mem c) (c_mem c') ->
     (forall m, apply dbg m o' = (mk_mem (at_cell f (m_cells m) q) (m_map m) (m_poisoned m), RUnit (Ret tt))) ->
     (forall start data sk, o' <> ONew start data sk) ->
     exists a', sim dbg c' a' /\ (a' = mk_a am ath \/ astep dbg (mk_a am ath) None a')).
  { intros t f q El Em o' Et Ht Hown Hff Hfew Hap Hnn. destruct c as [m l th], c' as [m'' l' th']. cbn [c_mem c_lock c_th a_mem a_th] in *. subst m'' l' th'.
    pose proof (Hpend t) as Hpt. rewrite Ht in Hpt. cbn [tpend] in Hpt. destruct (ath t) as [|o''|] eqn:Ea; try contradiction. subst o''.
    eexists. split; [|right; apply a_effect; [exact Ea|intros ? ? ? E; elim (Hnn _ _ _ E)]]. rewrite Hap. cbn [fst snd].
    destruct (held_other l th t (TDone (RUnit (Ret tt))) Hl) as [E1 E2]; [rewrite Ht; discriminate|].
    eapply sim_build; [exact Hsim|upto|rewrite aupd_same; reflexivity| |exact Hm|rewrite E2; exact Hp|exact I| |apply lock_same; [exact Hl|rewrite Ht; reflexivity]| |exact Hf].
    - cbn [m_cells]. rewrite E1, Hc. apply bump_at; [exact Hff|]. destruct Hown as (s & n & Hn & Hlt). exists s, n. rewrite <- Hc. auto.
    - intros i _. exact (tinv_fewer _ _ _ _ Hfew eq_refl eq_refl (Hinv i)).
    - eapply placed_cells; [| |exact Hpl]; [reflexivity|]. cbn [m_cells]. apply at_cell_scopes. }
  pose proof Hs as Hs'. destruct Hs'; cbn [c_mem c_lock c_th a_mem a_th] in *.
  - (* s_inv *) pose proof (Hpend t) as Ht. rewrite H in Ht. cbn in Ht. destruct (ath t) eqn:Ea; try contradiction.
    eexists. split; [|apply a_call; exact Ea]. destruct (held_other l th t (TStart o) Hl) as [E1 E2]; [rewrite H; discriminate|].
    eapply sim_build; [exact Hsim|upto|rewrite aupd_same; reflexivity|rewrite E1; exact Hc|exact Hm|rewrite E2; exact Hp|exact I|intros i _; apply Hinv|apply lock_same; [exact Hl|rewrite H; reflexivity]|exact Hpl|exact Hf].
  - (* s_res *) pose proof (Hpend t) as Ht. rewrite H in Ht. cbn in Ht. destruct (ath t) eqn:Ea; try contradiction. subst r0.
    eexists. split; [|apply a_answer; exact Ea]. destruct (held_other l th t TIdle Hl) as [E1 E2]; [rewrite H; discriminate|].
    eapply sim_build; [exact Hsim|upto|rewrite aupd_same; exact I|rewrite E1; exact Hc|exact Hm|rewrite E2; exact Hp|exact I|intros i _; apply Hinv|apply lock_same; [exact Hl|rewrite H; reflexivity]|exact Hpl|exact Hf].
  - (* s_clone *) apply (Harc t (fun n => match n with O => O | S _ => S n end) id eq_refl eq_refl (OClone id) eq_refl H H0); [intros [|n] Hn; [lia|reflexivity]|apply fewer_inc|reflexivity|discriminate].
  - (* s_drop *) apply (Harc t pred id eq_refl eq_refl (ODrop id) eq_refl H H0); [intros [|n] Hn; [lia|reflexivity]|apply fewer_dec|reflexivity|discriminate].
  - (* s_lock_new *) exists (mk_a am ath). split; [|left; reflexivity]. pose proof (Hpend t) as Ht. rewrite H in Ht. cbn [tpend] in Ht. destruct (ath t) eqn:Ea; try contradiction. subst o.
    eapply sim_build; [exact Hsim|upto|rewrite Ea; cbn; split; [reflexivity|discriminate]| |exact Hm| | |intros i _; apply Hinv|apply lock_write; [exact Hl|reflexivity]|exact Hpl|exact Hf].
    + cbn [held]. rewrite upd_same. exact Hc.
    + cbn [poisoning]. rewrite upd_same. exact Hp.
    + cbn [tinv]. intros id s Ha. apply upgrade_alive in Ha. unfold apart. destruct (H0 id s Ha) as [?|[?|?]]; auto.
  - (* s_lock_remove *) exists (mk_a am ath). split; [|left; reflexivity]. pose proof (Hpend t) as Ht. rewrite H in Ht. cbn [tpend] in Ht. destruct (ath t) eqn:Ea; try contradiction. subst o.
    eapply sim_build; [exact Hsim|upto|rewrite Ea; cbn; split; [reflexivity|discriminate]| |exact Hm| |exact I|intros i _; apply Hinv|apply lock_write; [exact Hl|reflexivity]|exact Hpl|exact Hf].
    + cbn [held]. rewrite upd_same. exact Hc.
    + cbn [poisoning]. rewrite upd_same. exact Hp.
  - (* s_lock_read *) exists (mk_a am ath). split; [|left; reflexivity]. pose proof (Hpend t) as Ht. rewrite H in Ht. cbn [tpend] in Ht. destruct (ath t) eqn:Ea; try contradiction. subst o.
    eapply sim_build; [exact Hsim|upto|rewrite Ea; cbn; split; [reflexivity|discriminate]|exact Hc|exact Hm|exact Hp|exact I|intros i _; apply Hinv|apply lock_read; [exact Hl|reflexivity]|exact Hpl|exact Hf].
  - (* s_lock_read_more *) exists (mk_a am ath). split; [|left; reflexivity]. pose proof (Hpend t) as Ht. rewrite H in Ht. cbn [tpend] in Ht. destruct (ath t) eqn:Ea; try contradiction. subst o.
    eapply sim_build; [exact Hsim|upto|rewrite Ea; cbn; split; [reflexivity|discriminate]|exact Hc|exact Hm|exact Hp|exact I|intros i _; apply Hinv|apply lock_read_more; [exact Hl|reflexivity]|exact Hpl|exact Hf].
  - (* s_poisoned *) pose proof (Hpend t) as Ht. rewrite H in Ht. cbn [tpend] in Ht. destruct (ath t) eqn:Ea; try contradiction. destruct Ht as [<- Hmo].
    pose proof (apply_poisoned dbg m o H0 Hmo) as Hap. assert (am = m) as ->. { destruct (own_held _ _ t Hl) as [E1 E2]; try (rewrite H; assumption || reflexivity). exact (sim_eq _ _ _ _ _ _ Hsim E1 E2). }
    eapply Heffect; try reflexivity; try eassumption.
    + rewrite H. destruct o; try (elim Hmo; reflexivity); reflexivity.
    + destruct o; try (elim Hmo; reflexivity); discriminate.
    + rewrite H; reflexivity.
    + rewrite H; reflexivity.
    + intros start data sk ->. pose proof (Hinv t) as Hi. rewrite H in Hi. exact Hi.
    + rewrite Hap. reflexivity.
    + intros _. split; [intros ? ? Hx; exact Hx|auto].
    + rewrite Hap. reflexivity.
  - (* s_new_root *) exists (mk_a am ath). split; [|left; reflexivity]. pose proof (Hpend t) as Ht. rewrite H in Ht. cbn [tpend] in Ht. destruct (ath t) eqn:Ea; try contradiction. destruct Ht as [<- _].
    pose proof (Hinv t) as Hi. rewrite H in Hi. eapply Hquiet; try reflexivity; try (rewrite H; reflexivity); [rewrite Ea; reflexivity|].
    split; [exact Hi|]. split; [assumption|]. split; [assumption|]. split; [intros _ i []|]. intros i Hin. apply in_map_iff in Hin as (x & <- & Hx). apply filter_In in Hx as [Hx _]. apply in_map. exact Hx.
  - (* s_new_panic *) pose proof (Hpend t) as Ht. rewrite H in Ht. cbn [tpend] in Ht. destruct (ath t) eqn:Ea; try contradiction. destruct Ht as [<- _].
    pose proof (Hinv t) as Hi. rewrite H in Hi. assert (am = m) as ->. { destruct (own_held _ _ t Hl) as [E1 E2]; try (rewrite H; discriminate || reflexivity). exact (sim_eq _ _ _ _ _ _ Hsim E1 E2). }
    pose proof (apply_new_poison dbg m start data sk H0 (or_introl H1)) as Hap.
    eapply Heffect; try reflexivity; try eassumption; try (rewrite H; reflexivity).
    + discriminate.
    + intros ? ? ? E. injection E as <- <- <-. exact Hi.
    + rewrite Hap. reflexivity.
    + discriminate.
    + rewrite Hap. reflexivity.
  - (* s_cmp_dead *) exists (mk_a am ath). split; [|left; reflexivity]. pose proof (Hpend t) as Ht. rewrite H in Ht. cbn [tpend] in Ht. destruct (ath t) eqn:Ea; try contradiction. subst o.
    pose proof (Hinv t) as Hi. rewrite H in Hi. destruct Hi as (I1 & I2 & I3 & I4 & I5). eapply Hquiet; try reflexivity; try (rewrite H; reflexivity); [rewrite Ea; reflexivity|].
    split; [exact I1|]. split; [assumption|]. split; [assumption|]. split; [intros Hlt i [E|Hin]; [discriminate|]; exact (I4 Hlt i Hin)|]. intros i Hin. apply I5. right. exact Hin.
  - (* s_cmp_alive *) exists (mk_a am ath). split; [|left; reflexivity]. pose proof (Hpend t) as Ht. rewrite H in Ht. cbn [tpend] in Ht. destruct (ath t) eqn:Ea; try contradiction. subst o.
    pose proof (Hinv t) as Hi. rewrite H in Hi. destruct Hi as (I1 & I2 & I3 & I4 & I5). assert (Hmw : mode (th t) = Some true) by (rewrite H; reflexivity).
    destruct (own_held _ _ t Hl) as [E1 E2]; try (rewrite H; discriminate || reflexivity). pose proof (sim_eq _ _ _ _ _ _ Hsim E1 E2). subst am.
    pose proof (writer_lock _ _ _ Hl Hmw). subst l.
    eapply sim_build; [exact Hsim|upto|rewrite Ea; reflexivity| |reflexivity| | | |apply lock_same; [exact Hl|rewrite H; reflexivity]|exact Hpl|exact Hf].
    + cbn [held]. rewrite upd_same. cbn [held1 bump inc m_cells]. apply at_ext. apply upgrade_alive, alive_of in H0 as (s0 & n0 & H0 & _). intros s1 n1 E. rewrite H0 in E. injection E as <- <-. reflexivity.
    + cbn [poisoning inc m_poisoned]. rewrite upd_same. cbn [poisoning1]. rewrite Bool.orb_false_r. reflexivity.
    + split; [exact (allocated_fewer _ _ _ _ (fewer_inc m id) I1)|]. split; [assumption|]. split; [assumption|]. split; [exact I4|exact I5].
    + intros i Hi. apply tinv_free. exact (others_free _ _ _ Hl Hmw i Hi).
  - (* s_cmp_done *) exists (mk_a am ath). split; [|left; reflexivity]. pose proof (Hpend t) as Ht. rewrite H in Ht. cbn [tpend] in Ht. destruct (ath t) eqn:Ea; try contradiction. subst o.
    pose proof (Hinv t) as Hi. rewrite H in Hi. destruct Hi as (I1 & I2 & I3 & I4 & I5). assert (Hmw : mode (th t) = Some true) by (rewrite H; reflexivity).
    pose proof (writer_lock _ _ _ Hl Hmw). subst l. cbn [held poisoning] in Hc, Hp. rewrite H in Hc, Hp. cbn [held1 bump poisoning1] in Hc, Hp.
    eapply sim_build; [exact Hsim|upto|rewrite Ea; reflexivity| |exact Hm| | | |apply lock_same; [exact Hl|rewrite H; reflexivity]|exact Hpl|exact Hf].
    + cbn [held]. rewrite upd_same. cbn [held1 bump dec m_cells]. rewrite Hc. apply at_pred_S.
    + cbn [poisoning dec m_poisoned]. rewrite upd_same. exact Hp.
    + split; [exact (allocated_fewer _ _ _ _ (fewer_dec m id) I1)|]. split; [assumption|]. split; [assumption|]. split; [|intros i Hin; apply I5; right; exact Hin]. intros Hlt i [E|Hin]; [|exact (I4 Hlt i Hin)].
      injection E as <- Es. intros r Hr Hid. cbn [dec m_map] in Hr. rewrite Hm in Hr. destruct (Hpl r Hr) as (s' & P1 & P2 & P3).
      apply upgrade_alive in H0. pose proof (I1 id s H0) as Hap. destruct H0 as [H0 _]. cbn [world_of w_scopes] in H0, P1. rewrite Hc, nth_error_map in H0. rewrite nth_error_map, Hid in P1.
      rewrite nth_at_cell in H0. destruct (nth_error (m_cells am) id) as [[s0 n0]|]; [|discriminate]. cbn [option_map] in H0, P1. injection H0 as <-. injection P1 as <-.
      unfold sc_end, cell_scope in *. cbn [sc_start sc_data fst snd] in *. destruct Hap as [Hap|[A1 A2]]; [|rewrite A2 in *; lia].
      unfold apart, sc_end in Hap. cbn [sc_start sc_data] in Hap. pose proof (lenZ_nonneg (sc_data s0)). lia.
    + intros i Hi. apply tinv_free. exact (others_free _ _ _ Hl Hmw i Hi).
  - (* s_insert *) pose proof (Hpend t) as Ht. rewrite H in Ht. cbn [tpend] in Ht. destruct (ath t) eqn:Ea; try contradiction. subst o.
    pose proof (Hinv t) as Hi. rewrite H in Hi. destruct Hi as (I1 & I2 & I3 & I4 & I5). assert (am = m) as ->. { destruct (own_held _ _ t Hl) as [E1 E2]; try (rewrite H; discriminate || reflexivity). exact (sim_eq _ _ _ _ _ _ Hsim E1 E2). }
    destruct (insert_same dbg m start data sk root acc Hpl Hf I1 I4 I2 I3 r H0) as [Hn Hfr]. pose proof (apply_new _ _ _ _ _ _ _ Hn I3) as Hap.
    eapply Heffect; try reflexivity; try eassumption; try (rewrite H; reflexivity).
    + discriminate.
    + intros ? ? ? E. injection E as <- <- <-. exact I1.
    + rewrite Hap. reflexivity.
    + discriminate.
    + rewrite Hap. reflexivity.
    + destruct (new_split dbg (world_of m) start data sk _ _ Hpl I1 Hn) as (_ & _ & _ & _ & root' & _ & _ & _ & Hpw). intros x Hx. specialize (Hpw x Hx). cbn [w_scopes] in Hpw. cbn [world_of set_map add_cell m_cells w_scopes]. rewrite map_app. exact Hpw.
  - (* s_insert_panic *) pose proof (Hpend t) as Ht. rewrite H in Ht. cbn [tpend] in Ht. destruct (ath t) eqn:Ea; try contradiction. subst o.
    pose proof (Hinv t) as Hi. rewrite H in Hi. destruct Hi as (I1 & I2 & I3 & I4 & I5). assert (am = m) as ->. { destruct (own_held _ _ t Hl) as [E1 E2]; try (rewrite H; discriminate || reflexivity). exact (sim_eq _ _ _ _ _ _ Hsim E1 E2). }
    assert (start + lenZ data <= start) as Hem. { unfold rm_insert in H0. destruct (start + lenZ data <=? start) eqn:E; [lia|discriminate]. }
    pose proof (apply_new_poison dbg m start data sk I3 (or_intror (ex_intro _ root (conj I2 Hem)))) as Hap.
    eapply Heffect; try reflexivity; try eassumption; try (rewrite H; reflexivity).
    + discriminate.
    + intros ? ? ? E. injection E as <- <- <-. exact I1.
    + rewrite Hap. reflexivity.
    + discriminate.
    + rewrite Hap. reflexivity.
  - (* s_remove_dead *) pose proof (Hpend t) as Ht. rewrite H in Ht. cbn [tpend] in Ht. destruct (ath t) eqn:Ea; try contradiction. destruct Ht as [<- _].
    assert (am = m) as ->. { destruct (own_held _ _ t Hl) as [E1 E2]; try (rewrite H; discriminate || reflexivity). exact (sim_eq _ _ _ _ _ _ Hsim E1 E2). }
    assert (apply dbg m (ORemove id) = (m, RUnit (Ret tt))) as Hap. { cbn [apply]. unfold scope_remove. unfold alive_cell in H1. cbn [world_of w_poisoned]. rewrite H0. change (upgrade _ id) with (upgrade (world_of m) id). rewrite H1. cbn [w_map w_poisoned]. destruct m; reflexivity. }
    eapply Heffect; try reflexivity; try eassumption; try (rewrite H; reflexivity).
    + discriminate.
    + discriminate.
    + rewrite Hap. reflexivity.
    + discriminate.
    + rewrite Hap. reflexivity.
  - (* s_remove *) pose proof (Hpend t) as Ht. rewrite H in Ht. cbn [tpend] in Ht. destruct (ath t) eqn:Ea; try contradiction. destruct Ht as [<- _].
    assert (am = m) as ->. { destruct (own_held _ _ t Hl) as [E1 E2]; try (rewrite H; discriminate || reflexivity). exact (sim_eq _ _ _ _ _ _ Hsim E1 E2). }
    assert (scope_remove (world_of m) id = (Ret tt, mk_world (map cell_scope (m_cells m)) r false)) as Hsr. { unfold scope_remove. unfold alive_cell in H1. cbn [world_of w_poisoned]. rewrite H0. change (upgrade _ id) with (upgrade (world_of m) id). rewrite H1. cbn [world_of w_map w_scopes]. rewrite H2. reflexivity. }
    assert (apply dbg m (ORemove id) = (set_map m r, RUnit (Ret tt))) as Hap. { cbn [apply]. rewrite Hsr. cbn [w_map w_poisoned]. unfold set_map. rewrite H0. reflexivity. }
    eapply Heffect; try reflexivity; try eassumption; try (rewrite H; reflexivity).
    + discriminate.
    + discriminate.
    + rewrite Hap. reflexivity.
    + discriminate.
    + rewrite Hap. reflexivity.
    + apply upgrade_alive in H1. destruct (remove_split (world_of m) id s _ _ H1 Hsr) as (R1 & _ & R3 & _). intros x Hx. destruct (R3 x Hx) as (y & Hy & F1 & F2 & F3). destruct (Hpl y Hy) as (s' & G1 & G2 & G3). exists s'. rewrite F1. split; [exact G1|]. lia.
    + cbn [set_map m_map]. exact (full_remove _ _ _ _ Hf H2).
  - (* s_remove_panic *) pose proof (Hpend t) as Ht. rewrite H in Ht. cbn [tpend] in Ht. destruct (ath t) eqn:Ea; try contradiction. destruct Ht as [<- _].
    assert (am = m) as ->. { destruct (own_held _ _ t Hl) as [E1 E2]; try (rewrite H; discriminate || reflexivity). exact (sim_eq _ _ _ _ _ _ Hsim E1 E2). }
    assert (apply dbg m (ORemove id) = (set_poisoned m, RUnit Panic)) as Hap. { cbn [apply]. unfold scope_remove. unfold alive_cell in H1. cbn [world_of w_poisoned]. rewrite H0. change (upgrade _ id) with (upgrade (world_of m) id). rewrite H1. cbn [world_of w_map w_scopes]. rewrite H2. reflexivity. }
    eapply Heffect; try reflexivity; try eassumption; try (rewrite H; reflexivity).
    + discriminate.
    + discriminate.
    + rewrite Hap. reflexivity.
    + discriminate.
    + rewrite Hap. reflexivity.
  - (* s_find_none *) pose proof (Hpend t) as Ht. rewrite H in Ht. cbn [tpend] in Ht. destruct (ath t) eqn:Ea; try contradiction. destruct Ht as [<- _].
    assert (am = m) as ->. { destruct (own_held _ _ t Hl) as [E1 E2]; try (rewrite H; discriminate || reflexivity). exact (sim_eq _ _ _ _ _ _ Hsim E1 E2). }
    assert (apply dbg m (OFind p) = (m, RFind (Ret None))) as Hap. { cbn [apply]. unfold scope_containing. cbn [world_of w_poisoned w_map]. rewrite H0, H1. reflexivity. }
    eapply Heffect; try reflexivity; try eassumption; try (rewrite H; reflexivity).
    + discriminate.
    + discriminate.
    + rewrite Hap. reflexivity.
    + intros _. split; [intros ? ? Hx; exact Hx|auto].
    + rewrite Hap. reflexivity.
  - (* s_find_entry *) exists (mk_a am ath). split; [|left; reflexivity]. pose proof (Hpend t) as Ht. rewrite H in Ht. cbn [tpend] in Ht. destruct (ath t) eqn:Ea; try contradiction. destruct Ht as [<- _].
    eapply Hquiet; try reflexivity; try (rewrite H; reflexivity); [rewrite Ea; reflexivity|]. split; assumption.
  - (* s_find_dead *) pose proof (Hpend t) as Ht. rewrite H in Ht. cbn [tpend] in Ht. destruct (ath t) eqn:Ea; try contradiction. subst o.
    pose proof (Hinv t) as Hi. rewrite H in Hi. destruct Hi as [I1 I2].
    assert (am = m) as ->. { destruct (own_held _ _ t Hl) as [E1 E2]; try (rewrite H; discriminate || reflexivity). exact (sim_eq _ _ _ _ _ _ Hsim E1 E2). }
    assert (apply dbg m (OFind p) = (m, RFind (Ret None))) as Hap. { cbn [apply]. unfold scope_containing. unfold alive_cell in H0. cbn [world_of w_poisoned w_map]. rewrite I1, I2. change (upgrade _ id) with (upgrade (world_of m) id). rewrite H0. reflexivity. }
    eapply Heffect; try reflexivity; try eassumption; try (rewrite H; reflexivity).
    + discriminate.
    + discriminate.
    + rewrite Hap. reflexivity.
    + intros _. split; [intros ? ? Hx; exact Hx|auto].
    + rewrite Hap. reflexivity.
  - (* s_find *) pose proof (Hpend t) as Ht. rewrite H in Ht. cbn [tpend] in Ht. destruct (ath t) eqn:Ea; try contradiction. subst o.
    pose proof (Hinv t) as Hi. rewrite H in Hi. destruct Hi as [I1 I2].
    assert (am = m) as ->. { destruct (own_held _ _ t Hl) as [E1 E2]; try (rewrite H; discriminate || reflexivity). exact (sim_eq _ _ _ _ _ _ Hsim E1 E2). }
    assert (apply dbg m (OFind p) = (inc m id, RFind (Ret (Some id)))) as Hap. { cbn [apply]. unfold scope_containing. unfold alive_cell in H0. cbn [world_of w_poisoned w_map]. rewrite I1, I2. change (upgrade _ id) with (upgrade (world_of m) id). rewrite H0. reflexivity. }
    eapply Heffect; try reflexivity; try eassumption; try (rewrite H; reflexivity).
    + discriminate.
    + discriminate.
    + rewrite Hap. reflexivity.
    + intros _. split; [apply fewer_inc|auto].
    + rewrite Hap. reflexivity.
    + eapply placed_cells; [| |exact Hpl]; [reflexivity|]. cbn [inc m_cells]. apply at_cell_scopes.
  - (* s_unlock *) exists (mk_a am ath). split; [|left; reflexivity]. pose proof (Hpend t) as Ht. rewrite H in Ht. cbn [tpend] in Ht. destruct (ath t) eqn:Ea; try contradiction. subst r0.
    assert (exists b, mode (th t) = Some b) as [b Hb] by (rewrite H; destruct r; cbn; eauto).
    destruct (own_held _ _ t Hl) as [E1 E2]; try (rewrite H; reflexivity); [congruence|]. rewrite E1 in Hc. rewrite E2 in Hp. destruct (unlock_none l (upd th t (TDone r)) t) as [E3 E4].
    eapply sim_build; [exact Hsim|upto|rewrite Ea; reflexivity|rewrite E3; exact Hc|exact Hm|rewrite E4; exact Hp|exact I|intros i _; apply Hinv|eapply lock_release; [exact Hl|exact Hb|reflexivity]|exact Hpl|exact Hf].
  - (* s_poison *) exists (mk_a am ath). split; [|left; reflexivity]. pose proof (Hpend t) as Ht. rewrite H in Ht. cbn [tpend] in Ht. destruct (ath t) eqn:Ea; try contradiction. subst r0.
    assert (Hmw : mode (th t) = Some true) by (rewrite H; reflexivity). pose proof (writer_lock _ _ _ Hl Hmw). subst l. cbn [held poisoning] in Hc, Hp. rewrite H in Hc, Hp. cbn [held1 bump poisoning1] in Hc, Hp.
    eapply sim_build; [exact Hsim|upto|rewrite Ea; reflexivity|exact Hc|exact Hm| |exact I| |eapply lock_release; [exact Hl|exact Hmw|reflexivity]|exact Hpl|exact Hf].
    + cbn [unlock poisoning set_poisoned m_poisoned]. rewrite Hp, Bool.orb_true_r. reflexivity.
    + intros i Hi. apply tinv_free. exact (others_free _ _ _ Hl Hmw i Hi).
Qed.

(* ---------- executions ---------- *)

Lemma sim_run dbg tr c : crun dbg c_init tr c -> exists a, arun dbg a_init tr a /\ sim dbg c a.
Proof.
  intros H. remember c_init as c0 eqn:E. induction H as [c|c1 tr c2 c3 _ IH Hs|c1 tr c2 e c3 _ IH Hs].
  - subst c. exists a_init. split; [constructor|apply sim_init].
  - destruct (IH E) as (a & Ha & Hsim). destruct (sim_step _ _ _ _ Hs a Hsim) as (a' & Hsim' & [-> | Hst]); [eauto|].
    exists a'. split; [eapply ar_tau; eassumption|exact Hsim'].
  - destruct (IH E) as (a & Ha & Hsim). destruct (sim_step _ _ _ _ Hs a Hsim) as (a' & Hsim' & Hst).
    exists a'. split; [eapply ar_event; eassumption|exact Hsim'].
Qed.
Lemma linearizable dbg tr c : crun dbg c_init tr c -> exists a, arun dbg a_init tr a.
Proof. intros H. destruct (sim_run _ _ _ H) as (a & Ha & _). eauto. Qed.

(** One atomic effect stays within the histories of ScopeSpec.v. *)
Lemma world_inc m id : world_of (inc m id) = world_of m.
Proof.
  unfold world_of, inc. cbn [m_cells m_map m_poisoned]. f_equal. generalize (m_cells m) as l. intros l. revert id.
  induction l as [|[s n] l IH]; intros [|id]; cbn [at_cell map]; try reflexivity; [destruct n; reflexivity|]. rewrite IH. reflexivity.
Qed.
Lemma world_dec m id : world_of (dec m id) = world_of m \/ world_of (dec m id) = scope_drop (world_of m) id /\ exists s, alive (world_of m) id s.
Proof.
  destruct (nth_error (m_cells m) id) as [[s [|[|n]]]|] eqn:E.
  - left. unfold dec. rewrite at_cell_id; [destruct m; reflexivity|]. intros s' n' E'. rewrite E in E'. injection E' as <- <-. reflexivity.
  - right. split; [|eexists; apply alive_of; do 2 eexists; split; [exact E|reflexivity]].
    unfold world_of, dec, scope_drop. cbn [m_cells m_map m_poisoned w_scopes w_map w_poisoned]. f_equal. revert id E. generalize (m_cells m) as l.
    induction l as [|[s' n'] l IH]; intros [|id] E; cbn [nth_error] in E; try discriminate; cbn [at_cell map kill].
    + injection E as -> ->. reflexivity.
    + rewrite (IH id E). reflexivity.
  - left. unfold world_of, dec. cbn [m_cells m_map m_poisoned]. f_equal. revert id E. generalize (m_cells m) as l.
    induction l as [|[s' n'] l IH]; intros [|id] E; cbn [nth_error] in E; try discriminate; cbn [at_cell map].
    + injection E as -> ->. reflexivity.
    + rewrite (IH id E). reflexivity.
  - left. unfold dec. rewrite at_cell_id; [destruct m; reflexivity|]. intros s' n' E'. rewrite E in E'. discriminate.
Qed.
Lemma new_scopes dbg w start data sk r w' : scope_new dbg w start data sk = (r, w') ->
  exists x, w_scopes w' = w_scopes w ++ x /\ Forall (fun s => sc_alive s = true) x.
Proof.
  unfold scope_new. destruct (w_poisoned w); [intros H; injection H as <- <-; exists []; rewrite app_nil_r; auto|].
  destruct (root_or_none dbg start data) as [root| | |]; [destruct (rm_insert _ _ _ _ _)| | |]; intros H; injection H as <- <-; cbn [w_scopes];
    try (exists []; rewrite app_nil_r; auto; fail). eexists. split; [reflexivity|]. constructor; [reflexivity|constructor].
Qed.
Lemma world_apply dbg m o : (forall start data sk, o = ONew start data sk -> allocated (world_of m) start data) ->
  forall reg, reach dbg allocated (world_of m) reg -> exists reg', reach dbg allocated (world_of (fst (apply dbg m o))) reg'.
Proof.
  intros Hal reg Hr. destruct o as [start data sk|id|p|id|id]; cbn [apply].
  - specialize (Hal _ _ _ eq_refl). destruct (scope_new dbg (world_of m) start data sk) as [r w] eqn:E. cbn [fst].
    assert (world_of (mk_mem (m_cells m ++ map (fun s => (s, 1%nat)) (skipn (length (m_cells m)) (w_scopes w))) (w_map w) (w_poisoned w)) = w) as ->.
    { destruct (new_scopes _ _ _ _ _ _ _ E) as (x & Ex & Hx). destruct w as [ws wm wp]. cbn [w_scopes w_map w_poisoned] in *. unfold world_of. cbn [m_cells m_map m_poisoned]. f_equal.
      cbn [world_of w_scopes] in Ex. subst ws. rewrite skipn_app, map_length, Nat.sub_diag, skipn_all2 by (rewrite map_length; lia). cbn [skipn app]. rewrite map_app. f_equal.
      clear - Hx. induction Hx as [|s x Hs _ IH]; [reflexivity|]. cbn [map]. rewrite IH. f_equal. unfold cell_scope. cbn [fst snd]. destruct s. cbn in *. subst. reflexivity. }
    destruct r as [id| | |].
    + eexists. eapply re_new; eassumption.
    + eexists. eapply re_failed; eassumption.
    + assert (w = world_of m) as ->; [|eauto]. unfold scope_new in E. destruct (w_poisoned _); [discriminate|]. destruct (root_or_none _ _ _); [destruct (rm_insert _ _ _ _ _)| | |]; congruence.
    + assert (w = world_of m) as ->; [|eauto]. unfold scope_new in E. destruct (w_poisoned _); [discriminate|]. destruct (root_or_none _ _ _); [destruct (rm_insert _ _ _ _ _)| | |]; congruence.
  - destruct (scope_remove (world_of m) id) as [r w] eqn:E. cbn [fst].
    assert (world_of (mk_mem (m_cells m) (w_map w) (w_poisoned w)) = w) as ->.
    { unfold world_of. cbn [m_cells m_map m_poisoned]. unfold scope_remove in E. destruct (w_poisoned _) eqn:Ep; [injection E as <- <-; cbn; reflexivity|].
      destruct (upgrade _ id); [|injection E as <- <-; reflexivity]. destruct (rm_remove _ _ _); injection E as <- <-; reflexivity. }
    destruct (upgrade (world_of m) id) as [s|] eqn:Eu.
    + eexists. eapply re_remove; [exact Hr|apply upgrade_alive; exact Eu|exact E].
    + unfold scope_remove in E. rewrite Eu in E. destruct (w_poisoned _) eqn:Ep; injection E as <- <-; eauto.
  - destruct (scope_containing (world_of m) p) as [[id|]| | |]; cbn [fst]; eauto. rewrite world_inc. eauto.
  - cbn [fst]. rewrite world_inc. eauto.
  - cbn [fst]. destruct (world_dec m id) as [-> | [-> [s Hs]]]; [eauto|]. eexists. eapply re_drop; eassumption.
Qed.
Lemma arun_reach dbg tr a : arun dbg a_init tr a -> exists reg, reach dbg allocated (world_of (a_mem a)) reg.
Proof.
  intros H. remember a_init as a0 eqn:E. induction H as [a|a1 tr a2 a3 _ IH Hs|a1 tr a2 e a3 _ IH Hs].
  - subst a. exists []. constructor.
  - destruct (IH E) as [reg Hr]. inversion Hs as [|m th t o Ht Hal E1 E2|]; subst. cbn [a_mem] in *. exact (world_apply _ _ _ Hal _ Hr).
  - destruct (IH E) as [reg Hr]. inversion Hs; subst; cbn [a_mem] in *; eauto.
Qed.

(* ---------- nobody waits for ever ---------- *)

Lemma no_deadlock dbg tr c : crun dbg c_init tr c ->
  (forall t o, c_th c t = TStart o \/ c_th c t = TLocked o ->
     match o with
     | ONew start data _ => apart_or_same (world_of (c_mem c)) start data /\ (root_or_none dbg start data = Panic \/ exists r, root_or_none dbg start data = Ret r)
     | OClone id | ODrop id => owned (c_mem c) (c_lock c) (c_th c) id
     | _ => True
     end) ->
  forall t, c_th c t <> TIdle -> exists e c', step dbg c e c' /\ (e = None \/ exists t' r, e = Some (ERes t' r)).
Proof.
  intros Hrun Hcan t Ht. destruct (sim_run _ _ _ Hrun) as (a & _ & [Hc Hm _ Hpend Hinv Hl Hpl _]).
  destruct c as [m l th]. cbn [c_mem c_lock c_th] in *. pose proof (Hpend t) as Hpt.
  (* a thread that has the lock can go on *)
  assert (Hown : forall h, mode (th h) <> None -> exists e c', step dbg (mk_c m l th) e c' /\ (e = None \/ exists t' r, e = Some (ERes t' r))).
  { intros h Hh. pose proof (Hpend h) as Hph. pose proof (Hinv h) as Hih.
    assert (Hn : forall c', step dbg (mk_c m l th) None c' -> exists e c', step dbg (mk_c m l th) e c' /\ (e = None \/ exists t' r, e = Some (ERes t' r))) by eauto.
    destruct (th h) as [|o|o|start data sk root [|id todo] acc|start data sk root id todo acc|p id|r|r|r] eqn:E; try (elim Hh; reflexivity).
    - destruct (m_poisoned m) eqn:Ep; [eapply Hn, s_poisoned; eassumption|]. destruct o as [start data sk|id|p|id|id]; try (elim Hh; reflexivity).
      + destruct (Hcan h _ (or_intror E)) as (_ & [Hr|[r Hr]]); [eapply Hn, s_new_panic; eassumption|eapply Hn, s_new_root; eassumption].
      + destruct (alive_cell m id) as [s|] eqn:Ea; [|eapply Hn, s_remove_dead; eassumption].
        destruct (rm_remove (m_map m) (sc_start s) (sc_end s)) as [r|] eqn:Er; [eapply Hn, s_remove; eassumption|eapply Hn, s_remove_panic; eassumption].
      + destruct (rm_get (m_map m) p) as [id|] eqn:Eg; [eapply Hn, s_find_entry; eassumption|eapply Hn, s_find_none; eassumption].
    - destruct (rm_insert (same_of acc) (m_map m) start (start + lenZ data) (length (m_cells m))) as [r|] eqn:Ei; [eapply Hn, s_insert; eassumption|eapply Hn, s_insert_panic; eassumption].
    - destruct (alive_cell m id) as [s|] eqn:Ea; [eapply Hn, s_cmp_alive; eassumption|eapply Hn, s_cmp_dead; eassumption].
    - assert (exists s, alive_cell m id = Some s) as [s Hs]; [|eapply Hn, s_cmp_done; eassumption].
      pose proof (writer_lock l th h Hl ltac:(rewrite E; reflexivity)). subst l. cbn [held] in Hc. rewrite E in Hc. cbn [held1 bump] in Hc.
      destruct Hih as (_ & _ & _ & _ & Hin). specialize (Hin id (or_introl eq_refl)). apply in_map_iff in Hin as (r & Er & Hr). rewrite Hm in Hr.
      destruct (Hpl r Hr) as (s & Hs & _). cbn [world_of w_scopes] in Hs. rewrite nth_error_map, Er in Hs. destruct (nth_error (m_cells (a_mem a)) id) as [[s0 n0]|] eqn:En; [|discriminate].
      eexists. apply upgrade_alive, alive_of. exists s0, n0. split; [|reflexivity]. rewrite Hc, nth_at_cell, En, Nat.eqb_refl. reflexivity.
    - destruct (alive_cell m id) as [s|] eqn:Ea; [eapply Hn, s_find; eassumption|eapply Hn, s_find_dead; eassumption].
    - eapply Hn, s_unlock; eassumption.
    - eapply Hn, s_poison; eassumption. }
  destruct (mode (th t)) as [b|] eqn:Em; [apply (Hown t); congruence|].
  destruct (th t) as [|o|o|start data sk root todo acc|start data sk root id todo acc|p id|r|r|r] eqn:E; try discriminate; [elim Ht; reflexivity| | | |].
  - pose proof (Hcan t o (or_introl E)) as Hgo. destruct o as [start data sk|id|p|id|id].
    + destruct Hgo as [Hgo _]. destruct l as [|[|h rs]|w]; [eexists _, _; split; [eapply s_lock_new; eassumption|auto]|destruct Hl as [Hl _]; congruence|apply (Hown h)|apply (Hown w)].
      * destruct Hl as [_ Hl]. rewrite Hl. destruct (in_dec _ _ _) as [?|Hx]; [discriminate|elim Hx; left; reflexivity].
      * rewrite Hl, Nat.eqb_refl. discriminate.
    + destruct l as [|[|h rs]|w]; [eexists _, _; split; [eapply s_lock_remove; eassumption|auto]|destruct Hl as [Hl _]; congruence|apply (Hown h)|apply (Hown w)].
      * destruct Hl as [_ Hl]. rewrite Hl. destruct (in_dec _ _ _) as [?|Hx]; [discriminate|elim Hx; left; reflexivity].
      * rewrite Hl, Nat.eqb_refl. discriminate.
    + destruct l as [|rs|w]; [eexists _, _; split; [eapply s_lock_read; eassumption|auto]|eexists _, _; split; [eapply s_lock_read_more; eassumption|auto]|apply (Hown w)].
      rewrite Hl, Nat.eqb_refl. discriminate.
    + eexists _, _. split; [eapply s_clone; eassumption|auto].
    + eexists _, _. split; [eapply s_drop; eassumption|auto].
  - cbn [tpend] in Hpt. destruct (a_th a t); try contradiction. destruct Hpt as [_ Hx]. congruence.
  - destruct r; discriminate.
  - eexists _, _. split; [eapply s_res; eassumption|]. right. eauto.
Qed.

Lemma mode_lock l th t : lockinv l th -> has_lock l t -> mode (th t) <> None.
Proof.
  intros Hl [-> | (rs & -> & Hi)]; cbn [lockinv] in Hl; [rewrite Hl, Nat.eqb_refl; discriminate|].
  destruct Hl as [_ Hl]. rewrite Hl. destruct (in_dec _ _ _); [discriminate|contradiction].
Qed.
Lemma length_filter {A} (f : A -> bool) l : (length (filter f l) <= length l)%nat.
Proof. induction l as [|x l IH]; cbn; [lia|]. destruct (f x); cbn; lia. Qed.
Lemma holder_step dbg tr c e c' t : crun dbg c_init tr c -> step dbg c e c' -> has_lock (c_lock c) t ->
  (c_th c' t = c_th c t /\ m_map (c_mem c') = m_map (c_mem c) /\ has_lock (c_lock c') t) \/
  (steps_left (c_mem c') (c_th c' t) < steps_left (c_mem c) (c_th c t))%nat.
Proof.
  intros Hrun Hs Ht. destruct (sim_run _ _ _ Hrun) as (a & _ & [_ _ _ _ _ Hl _ _]). pose proof (mode_lock _ _ _ Hl Ht) as Hm.
  assert (Hother : forall t', t' <> t -> mode (c_th c t') <> Some true).
  { intros t' Hn E. pose proof (writer_lock _ _ _ Hl E) as El. destruct Ht as [Ht|(rs & Ht & _)]; rewrite El in Ht; congruence. }
  assert (Hfree : c_lock c <> LFree) by (intros E; rewrite E in Ht; destruct Ht as [Ht|(rs & Ht & _)]; discriminate).
  assert (Hrel : forall t', t' <> t -> mode (c_th c t') = Some false -> has_lock (unlock (c_lock c) t') t).
  { intros t' Hn E. destruct (reader_lock _ _ _ Hl E) as (rs & El & _). rewrite El in *. destruct Ht as [Ht|(rs' & Ht & Hi)]; [discriminate|]. injection Ht as <-.
    cbn [unlock]. pose proof (in_in_remove Nat.eq_dec rs (not_eq_sym Hn) Hi) as Hr. destruct (remove Nat.eq_dec t' rs) as [|y r]; [destruct Hr|]. right. eauto. }
  destruct Hs; cbn [c_mem c_lock c_th] in *;
    (destruct (Nat.eq_dec t0 t) as [->|Hn]; [|try (elim (Hother t0 Hn); rewrite H; reflexivity)]);
    try (left; rewrite upd_other by (apply not_eq_sym; assumption); split; [reflexivity|split; [reflexivity|assumption]]);
    try (rewrite H in Hm; elim Hm; reflexivity);
    try (elim Hfree; reflexivity);
    try (right; rewrite upd_same, H; cbn [steps_left length]; lia).
  - left. rewrite upd_other by (apply not_eq_sym; assumption). split; [reflexivity|]. split; [reflexivity|].
    destruct Ht as [Ht|(rs & Ht & Hi)]; [discriminate|]. injection Ht as <-. right. eexists. split; [reflexivity|]. right. exact Hi.
  - right. rewrite upd_same, H. destruct o; cbn [steps_left]; lia.
  - right. rewrite upd_same, H. cbn [steps_left]. rewrite map_length. pose proof (length_filter (rm_touches start (start + lenZ data)) (m_map m)). lia.
  - left. rewrite upd_other by (apply not_eq_sym; assumption). split; [reflexivity|]. split; [reflexivity|].
    apply Hrel; [exact Hn|]. pose proof (Hother t0 Hn) as Ho. rewrite H in *. destruct r; cbn [mode] in *; congruence.
Qed.
