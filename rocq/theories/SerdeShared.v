(** Proofs about serializing with shared keys and deserializing in a scope. *)
From Verif Require Import Prelude Lib Varint VarintProofs Utf8 Float SharedKeys Decode Read Encodable Encoder BuilderSpec Holds Repr
  EncodableProofs Stored StoredRead SlotProofs EncoderProofs EncoderInv EncoderClean LayoutSpec EncoderLayout EncoderProtocol
  Scopes ScopeSpec ScopeProofs ScopeDoc PathSpec Lookup Path PathDoc Access Ser De SerdeSpec SerProofs DeProofs SerdeProofs.
From Coq Require Import ZifyBool ZifyNat ZifyN Permutation.
Ltac Zify.zify_post_hook ::= Z.div_mod_to_equations.

Definition op_keys (ops : list op) : list (list Z) :=
  flat_map (fun o => match o with OpKey k => [k] | _ => [] end) ops.

Lemma op_keys_In ops k : In k (op_keys ops) <-> In (OpKey k) ops.
Proof.
  unfold op_keys. rewrite in_flat_map. split.
  - intros (o & Ho & Hk). destruct o; cbn [In] in Hk; try contradiction. destruct Hk as [<-|[]]. exact Ho.
  - intros H. exists (OpKey k). split; [exact H|left; reflexivity].
Qed.

Lemma insert_keys ua t k : lenZ k <> 16 ->
  fst (encode_and_insert ua t k) = t \/ fst (encode_and_insert ua t k) = t ++ [k].
Proof.
  intros Hk. unfold encode_and_insert. destruct (negb _) eqn:E; cbn [fst]; [left; reflexivity|].
  destruct (sk_find _ 0 t); cbn [fst]; [left; reflexivity|]. right.
  apply negb_false_iff in E. unfold can_add, MAX_KEY_LEN in E. apply andb_true_iff in E as [E1 _].
  apply andb_true_iff in E1 as [_ E1]. rewrite zstr_make_id by lia. reflexivity.
Qed.

Lemma run_keys c : forall ops e e' rs t, enc_run c e ops = Ret (e', rs) -> (forall u, ~ In (OpSetSharedKeys u) ops) ->
  (forall k, In (OpKey k) ops -> lenZ k <> 16) -> en_sk e = Some t ->
  exists x, en_sk e' = Some (t ++ x) /\ lenZ x <= lenZ (op_keys ops) /\ (forall k, In k x -> In k (op_keys ops) /\ 2 <= lenZ k).
Proof.
  induction ops as [|o ops IH]; intros e e' rs t H Hno Hk Esk; cbn [enc_run] in H.
  - injection H as <- <-. exists []. rewrite app_nil_r. split; [exact Esk|]. split; [cbn; lia|intros k []].
  - destruct (enc_step c e o) as [[e1 r1]| | |] eqn:E; try discriminate. cbn [bind fst snd] in H.
    destruct (enc_run c e1 ops) as [[e2 r2]| | |] eqn:E2; try discriminate. cbn [bind fst snd] in H. injection H as <- <-.
    assert (Hs : exists x, en_sk e1 = Some (t ++ x) /\ lenZ x <= lenZ (op_keys [o]) /\ (forall k, In k x -> In k (op_keys [o]) /\ 2 <= lenZ k)).
    { assert (Hsame : en_sk e1 = Some t -> exists x, en_sk e1 = Some (t ++ x) /\ lenZ x <= lenZ (op_keys [o]) /\ (forall k, In k x -> In k (op_keys [o]) /\ 2 <= lenZ k)).
      { intros Ht. exists []. rewrite app_nil_r. split; [exact Ht|]. split; [rewrite lenZ_nil; apply lenZ_nonneg|intros k []]. }
      destruct o as [k|v|n| | | |u];
        try (apply Hsame; apply step_ext in E as (_ & _ & HS); rewrite HS; [exact Esk|discriminate|discriminate]).
      - apply key_sk_long with (t := t) in E; [|exact Esk]. destruct E as [E|[E E2k]]; [apply Hsame; exact E|].
        destruct (insert_keys (c_ua c) t k) as [Ei|Ei]; [apply Hk; left; reflexivity| |]; rewrite Ei in E; [apply Hsame; exact E|].
        exists [k]. split; [exact E|]. split; [apply Z.le_refl|]. intros k' [<-|[]]. split; [left; reflexivity|exact E2k].
      - exfalso. apply (Hno u). left. reflexivity. }
    destruct Hs as (x & Ex & Hx1 & Hx2).
    destruct (IH e1 e2 r2 (t ++ x) E2) as (y & Ey & Hy1 & Hy2); [| |exact Ex|].
    { intros u Hin. apply (Hno u). right. exact Hin. }
    { intros k Hin. apply Hk. right. exact Hin. }
    exists (x ++ y). rewrite app_assoc. split; [exact Ey|].
    change (op_keys (o :: ops)) with (op_keys ([o] ++ ops)).
    assert (Ea : op_keys ([o] ++ ops) = op_keys [o] ++ op_keys ops) by (unfold op_keys; apply flat_map_app).
    rewrite Ea, !lenZ_app. split; [lia|]. intros k Hin. rewrite in_app_iff. apply in_app_or in Hin as [Hin|Hin]; [apply Hx2 in Hin|apply Hy2 in Hin]; tauto.
Qed.

Lemma in_ops_of v k : bad_key v = None -> In (COp (OpKey k)) (calls v) -> In (OpKey k) (ops_of (calls v)).
Proof.
  intros Hb. assert (Hno : forall x, ~ In (CBadKey x) (calls v)).
  { revert Hb. induction v as [v Hb|v IHv|v IHv|n v IHv|l H|l H|l H|n l H|l H|l H|n l H] using sval_all; cbn [bad_key calls]; intros Hk x Hi;
      try (eapply IHv; eassumption).
    all: try (destruct v; try contradiction; cbn [calls In app] in Hi; try (destruct t); cbn [In] in Hi;
      repeat match goal with H : _ \/ _ |- _ => destruct H as [H|H]; try discriminate end; contradiction).
    all: repeat (apply in_app_or in Hi || (cbn [In] in Hi; match type of Hi with _ \/ _ => destruct Hi as [Hi|Hi]; try discriminate end)); try contradiction.
    all: try (eapply IHv; eassumption).
    all: apply in_flat_map in Hi as (y & Hy & Hi); rewrite Forall_forall in H; pose proof (first_bad_In _ _ Hk _ Hy) as Hb1; cbv beta in Hb1.
    all: try (exact (H _ Hy Hb1 x Hi)).
    - destruct Hi as [Hi|Hi]; unfold key_call in *; destruct (key_text (fst y)); try discriminate. exact (proj2 (H _ Hy) Hb1 x Hi).
    - destruct Hi as [Hi|Hi]; [discriminate|]. exact (H _ Hy Hb1 x Hi).
    - destruct Hi as [Hi|Hi]; [discriminate|]. exact (H _ Hy Hb1 x Hi). }
  clear Hb. induction (calls v) as [|[o|x] cs IH]; intros Hi; [destruct Hi| |].
  - cbn [ops_of]. destruct Hi as [E|Hi]; [injection E as ->; left; reflexivity|right]. apply IH; [|exact Hi].
    intros y Hy. apply (Hno y). right. exact Hy.
  - exfalso. apply (Hno x). left. reflexivity.
Qed.

Lemma shared_round c G n ty v w reg start :
  sort_ok (c_sort c) -> typed G n ty v -> restorable v = true -> collection v = true -> bad_key v = None ->
  Forall good_op (ser_ops v) -> layout_ok (c_ua c) 0 (OpSetSharedKeys [] :: ser_ops v) -> ops_size (ser_ops v) <= MAX_WIDE -> shareable (keys_written v) ->
  reach (c_dbg c) fresh w reg -> w_poisoned w = false ->
  exists bs, addressable start bs -> fresh w start bs ->
  exists id w', to_bytes_with_shared_keys c w start v = (Ret (Ok id), w') /\
    reach (c_dbg c) fresh w' (id :: reg) /\ w_poisoned w' = false /\
    (exists s, alive w' id s /\ scope_data s = Some bs) /\
    exists r, from_bytes_in G n w' (c_dbg c) start bs ty = Ret (Ok r) /\ same v r.
Proof.
  intros Hs Htyp Hr Hc Hb Hg Hl Hn (Hk1 & Hk2 & Hk3) Hre Hpo. pose proof (init_traced v Hc) as Ht. rewrite Hb in Ht. cbn [outcome_of] in Ht.
  destruct (btrace_run _ _ _ Ht) as [Hacc Hfin].
  assert (Hno : forall u, ~ In (OpSetSharedKeys u) (ser_ops v)) by (intros u; apply ser_ops_no_sets).
  assert (H16 : forall k, In (OpKey k) (ser_ops v) -> lenZ k <> 16).
  { intros k Hin. apply Hk2. apply op_keys_In. exact Hin. }
  set (ops := OpSetSharedKeys [] :: ser_ops v).
  assert (Hp : polite b_init ops).
  { apply accepted_polite; [intros Hx; exfalso; apply Hx; reflexivity|]. unfold ops. cbn [b_run b_step fst snd]. constructor; [reflexivity|exact Hacc]. }
  assert (Hg' : Forall good_op ops) by (constructor; [exact I|exact Hg]).
  assert (Hk : keys_ok false ops).
  { cbn [keys_ok ops]. split; [reflexivity|]. clear - Hno H16. induction (ser_ops v) as [|o ops IH]; [exact I|].
    assert (Ho : keys_ok true ops) by (apply IH; [intros u Hin; apply (Hno u)|intros k Hin; apply H16]; right; exact Hin).
    destruct o; cbn [keys_ok]; auto. split; [intros _; apply H16; left; reflexivity|exact Ho].
    exfalso. apply (Hno t). left. reflexivity. }
  assert (Hw : lenZ (@nil Z) + ops_size ops <= MAX_WIDE).
  { change (ops_size ops) with (0 + ops_size (ser_ops v)). rewrite lenZ_nil. lia. }
  destruct (@any_document any_key c [] ops Hs eq_refl Hg' Hk Hp (strings_any _ _ _) Hl Hw) as (e' & D & Er & Ef & _).
  cbn [app] in Ef.
  match type of Er with _ = Ret (_, ?l) => set (rs := l) in Er end.
  assert (Hrs : Forall (eq (Ok tt)) rs) by (unfold rs, ops; cbn [b_run b_step fst snd]; constructor; [reflexivity|exact Hacc]).
  assert (Er2 : exists rs2, enc_run c (set_shared_keys enc_new []) (ser_ops v) = Ret (e', rs2) /\ Forall (eq (Ok tt)) rs2).
  { unfold ops in Er. cbn [enc_run enc_step bind fst snd] in Er. change (enc_new_to_vec []) with enc_new in Er.
    destruct (enc_run c (set_shared_keys enc_new []) (ser_ops v)) as [[e2 r2]| | |] eqn:E; try discriminate.
    cbn [bind fst snd] in Er. exists r2. apply ret_inj in Er.
    assert (E1 : e2 = e') by exact (f_equal fst Er). assert (E2 : Ok tt :: r2 = rs) by exact (f_equal snd Er).
    subst e2. split; [reflexivity|]. rewrite <- E2 in Hrs. inversion Hrs; assumption. }
  destruct Er2 as (rs2 & Er2 & Hrs2).
  destruct (run_keys c _ _ _ _ [] Er2 Hno H16 eq_refl) as (tb & Etb & Hx1 & Hx2). cbn [app] in Etb.
  change (op_keys (ser_ops v)) with (keys_written v) in *.
  destruct (run_sk c _ _ _ _ [] Er2 Hno H16 eq_refl) as (tb' & Etb' & Hwf). cbn [app] in *. rewrite Etb in Etb'. injection Etb' as <-.
  assert (Htb : table_wf (c_ua c) tb) by (apply Hwf; split; constructor).
  assert (Ht2 : b_finish (fst (b_run b_init (ser_ops v))) = Some (stree v)).
  { unfold ser_ops. rewrite (Hfin _ eq_refl). reflexivity. }
  assert (Hser : ser c (set_shared_keys enc_new []) v = Ret (e', Ok tt)).
  { rewrite ser_calls. exact (run_calls_run c _ _ _ _ _ _ Er2 Hrs2 Ht). }
  destruct (small_shared_stored c [] [] (ser_ops v) e' rs (stree v) tb []) as (Htok & Hq & D' & root & t' & Ef' & Hts & HD); try assumption.
  { reflexivity. }
  { unfold MAX_KEYS. lia. }
  { rewrite app_nil_r. exact Htb. }
  { rewrite app_nil_r. intros k Hk0. split; [|intros Hl2 Hin; apply Hx2 in Hin; lia].
    intros Hl0 Hin. apply op_keys_In in Hk0. apply Hx2 in Hin as [Hin _].
    assert (H15 : lenZ k <> 16) by (apply Hk2; exact Hk0). apply (Hk3 k (firstn 15 k) Hk0 Hin); [lia|reflexivity]. }
  rewrite !app_nil_r in *. cbn [app] in *. rewrite Ef in Ef'. apply ret_inj in Ef'. subst D'.
  destruct (finish_scoped_document c [] ops e' rs (stree v) w reg start) as (D2 & Ef2 & Hdoc); try assumption; try reflexivity.
  cbn [app] in *. rewrite Ef in Ef2. apply ret_inj in Ef2. subst D2.
  exists D. intros Ha Hfr. destruct (Hdoc Ha Hfr) as (id & w' & Hfs & Hr' & Hp' & Hh). exists id, w'.
  unfold to_bytes_with_shared_keys. rewrite Hser. cbn [fst snd]. rewrite Hfs. cbn [bind].
  split; [reflexivity|]. split; [exact Hr'|]. split; [exact Hp'|].
  destruct Hh as (s & v0 & k0 & t0 & Hal & Hda & _ & _ & Hfind & _). split; [exists s; auto|].
  destruct (HD (c_dbg c) start Ha) as (Hok & Hf1 & Hf0 & Hv).
  pose proof (root_inside _ _ Hf0) as Hin. cbn [e_data] in Hin.
  destruct (round_tree G (fun k => existsb (bytes_eqb k) (keys_written v)) n ty v t' Htyp Hr Hb) as (r & Hdt & Hsm); [|exact Hts|].
  { intros k Hi. apply in_names. apply op_keys_In. unfold ser_ops. apply in_ops_of; [exact Hb|exact Hi]. }
  exists r. split; [|exact Hsm]. unfold from_bytes_in. rewrite Hf0. cbn [bind].
  destruct (Hfind (start + v_pos root)) as [_ Hfk]; [lia|]. rewrite Hfk, Etb. cbn [bind].
  unfold de_from_bytes. rewrite Hf1. cbn [bind]. set (m := mk_env (c_dbg c) start D (Some tb)) in *.
  rewrite de_new_resolve, (resolve_nonptr m root false) by (eapply vstored_nonptr; eauto). cbn [bind].
  eapply (@dtree_ref (text_keys tb) m (Some tb) Hok eq_refl Htok (fun k => existsb (bytes_eqb k) (keys_written v))); [|exact Hv|exact Hdt].
  intros k Hk0. apply Hq. apply existsb_exists in Hk0 as (k' & Hk0 & E). apply bytes_eqb_eq in E. subst k'.
  intros Hl0 Hin2. apply Hx2 in Hin2 as [Hin2 _]. assert (H15 : lenZ k <> 16) by (apply Hk2; exact Hk0).
  apply (Hk3 k (firstn 15 k) Hk0 Hin2); [lia|reflexivity].
Qed.
