(** Path queries, lookup and iteration on whole encoded documents, with and without shared keys. *)
From Verif Require Import Prelude Lib Varint VarintProofs Utf8 Float SharedKeys
  Decode Read Encodable Encoder BuilderSpec Holds Repr EncodableProofs Stored StoredRead SlotProofs
  EncoderProofs EncoderInv EncoderClean LayoutSpec EncoderLayout EncoderProtocol Isort PathSpec Lookup Path Access.
From Coq Require Import ZifyBool ZifyNat ZifyN Sorted Permutation.
Ltac Zify.zify_post_hook ::= Z.div_mod_to_equations.

(* ---------- from the layout to the answers ---------- *)

Section Answers.
Context {SP : KeyPred}.
Variables (m : env) (tb : option shared_keys) (t t' : tree) (root : val).
Hypothesis Hok : env_ok m.
Hypothesis Esk : e_sk m = tb.
Hypothesis Htb : table_ok tb.
Hypothesis Hts : tsim t t'.
Hypothesis Hv : vstored m tb t' root.
Hypothesis Hd : distinct t.

Lemma answers_go p : (forall k, In (PKey k) p -> query_ok tb k) -> answers m (go m root) t p.
Proof using All.
  intros Hq. pose proof (go_stored m tb Hok Esk Htb p t t' root Hts Hv Hd Hq) as H. unfold answers.
  destruct (tree_at t p) as [s|]; [|exact H]. destruct H as (x & s' & H1 & H2 & H3).
  exists x, s'. split; [exact H1|]. split; [|exact H2]. apply read_vstored; [exact Hok|]. rewrite Esk. exact H3.
Qed.
(** [get_with_shared_keys] needs no scope. *)
Lemma answers_go_sk m0 tbl p : env_ok m0 -> e_data m0 = e_data m -> tb = Some tbl ->
  (forall k, In (PKey k) p -> query_ok tb k) -> answers m (go_sk tbl m0 root) t p.
Proof using All.
  intros Hok0 Ed Etb Hq. assert (Hv0 : vstored m0 tb t' root) by (unfold vstored in *; rewrite Ed; exact Hv).
  pose proof (go_sk_stored m0 tb Hok0 tbl Etb Htb p t t' root Hts Hv0 Hd Hq) as H. unfold answers.
  destruct (tree_at t p) as [s|]; [|exact H]. destruct H as (x & s' & H1 & H2 & H3).
  exists x, s'. split; [exact H1|]. split; [|exact H2]. apply read_vstored; [exact Hok|]. rewrite Esk.
  unfold vstored in *. rewrite Ed in H3. exact H3.
Qed.

Lemma distinct_at p : forall u s, distinct u -> tree_at u p = Some s -> distinct s.
Proof.
  clear. induction p as [|[i|k] p IH]; intros u s Hu H; cbn [tree_at] in H.
  - injection H as <-. exact Hu.
  - destruct u; try discriminate. destruct (nthZ l i) as [x|] eqn:E; [|discriminate].
    apply (IH x s); [|exact H]. inversion Hu as [| | | | | | | |? HF|]; subst. rewrite Forall_forall in HF. apply HF.
    unfold nthZ in E. destruct (i <? 0); [discriminate|]. eapply nth_error_In; eauto.
  - destruct u; try discriminate. destruct (assoc k l) as [x|] eqn:E; [|discriminate].
    apply (IH x s); [|exact H]. inversion Hu as [| | | | | | | | |? Hn HF]; subst. rewrite Forall_forall in HF.
    apply assoc_In in E. apply (HF (k, x) E).
Qed.

Lemma iterates_at p l :
  (forall k, In (PKey k) p -> query_ok tb k) -> (forall k, In k (map fst l) -> query_ok tb k) ->
  tree_at t p = Some (TDict l) ->
  exists x, go m root p = Ret (Some x) /\ iterates m tb x l.
Proof using All.
  intros Hq Hq2 Hat. pose proof (go_stored m tb Hok Esk Htb p t t' root Hts Hv Hd Hq) as H.
  rewrite Hat in H. destruct H as (x & s' & H1 & H2 & H3). exists x. split; [exact H1|].
  pose proof (distinct_at p t _ Hd Hat) as Hdl. inversion Hdl as [| | | | | | | | |? Hnd HF]; subst.
  apply tsim_dict in H2 as (l' & ml & -> & Hp & HF2).
  assert (Ek : map fst ml = map fst l').
  { clear - HF2. induction HF2 as [|a b l' ml [E _] _ IH]; [reflexivity|]. cbn [map]. rewrite E, IH. reflexivity. }
  assert (Hpk : Permutation (map fst ml) (map fst l)) by (rewrite Ek; apply Permutation_map; apply Permutation_sym; exact Hp).
  assert (Hq3 : forall k, In k (map fst ml) -> query_ok (e_sk m) k) by (intros k Hk; apply Hq2; eapply Permutation_in; eauto).
  destruct (dict_elems_stored m (e_sk m) Hok ml x eq_refl H3 Htb Hq3) as (kvs & Hk1 & Hk2 & Hk3 & Hk4).
  exists kvs. split; [exact Hk1|]. split; [|split].
  - rewrite Hk2. apply sorted_before; auto. eapply Permutation_NoDup; [apply Permutation_sym; exact Hpk|exact Hnd].
  - rewrite Hk2. exact Hpk.
  - intros k y Hin. destruct (In_nth_error _ _ Hin) as [n Hn].
    assert (Hn2 : nthZ kvs (Z.of_nat n) = Some (k, y)) by (unfold nthZ; destruct (Z.of_nat n <? 0) eqn:?; [lia|]; rewrite Nat2Z.id; exact Hn).
    destruct (Forall2_nthZ _ _ _ Hk3 _ _ Hn2) as ([k2 s2] & Hs2 & Hvs). cbn [snd] in Hvs.
    assert (k2 = k).
    { assert (E1 : nthZ (map fst kvs) (Z.of_nat n) = Some k) by (rewrite nthZ_map, Hn2; reflexivity).
      assert (E2 : nthZ (map fst ml) (Z.of_nat n) = Some k2) by (rewrite nthZ_map, Hs2; reflexivity).
      rewrite Hk2 in E1. congruence. }
    subst k2. destruct (Forall2_nthZ_r _ _ _ _ _ HF2 Hs2) as ([k3 s3] & Hs3 & E & Hsim). cbn [fst snd] in *. subst k3.
    exists s3, s2. split; [|split; [|exact Hsim]].
    + apply (Permutation_in _ (Permutation_sym Hp)). unfold nthZ in Hs3. destruct (_ <? 0); [discriminate|]. eapply nth_error_In; eauto.
    + apply read_vstored; assumption.
Qed.
End Answers.

(* ---------- documents without shared keys ---------- *)

Lemma env_ok_doc dbg base prefix D sk n : addressable base (prefix ++ D) -> lenZ D <= n ->
  lenZ prefix + n <= MAX_WIDE -> env_ok (mk_env dbg base (prefix ++ D) sk).
Proof.
  intros [Hb1 Hb2] H1 H2. unfold env_ok; cbn [e_base e_data]. split; [exact Hb1|]. split; [exact Hb2|].
  rewrite lenZ_app in *. unfold MAX_WIDE, two63 in *. lia.
Qed.

Section Plain.
#[local] Existing Instance any_key.

Definition plain_doc (m : env) (t : tree) : Prop :=
  exists root, from_bytes m = Ret (Ok root) /\ from_bytes_unchecked m = Ret root /\
    (forall p, answers m (go m root) t p) /\
    (forall p l, tree_at t p = Some (TDict l) ->
       exists x, go m root p = Ret (Some x) /\ iterates m None x l).

Lemma stored_plain m t t' root : env_ok m -> e_sk m = None -> tsim t t' -> vstored m None t' root -> distinct t ->
  from_bytes m = Ret (Ok root) -> from_bytes_unchecked m = Ret root -> plain_doc m t.
Proof.
  intros Hok Esk Hts Hv Hd Hf Hfu. exists root. split; [exact Hf|]. split; [exact Hfu|]. split.
  - intros p. apply (answers_go m None t t' root Hok Esk I Hts Hv Hd). intros k _. left. reflexivity.
  - intros p l Hat. apply (iterates_at m None t t' root Hok Esk I Hts Hv Hd); auto; intros k _; left; reflexivity.
Qed.

Lemma no_sets_keys_ok ops : (forall t, ~ In (OpSetSharedKeys t) ops) -> keys_ok false ops.
Proof.
  induction ops as [|o ops IH]; intros H; [exact I|].
  assert (Ho : keys_ok false ops) by (apply IH; intros t Hin; apply (H t); right; exact Hin).
  destruct o; cbn [keys_ok]; auto. split; [discriminate|exact Ho]. exfalso. apply (H t). left. reflexivity.
Qed.

Lemma small_plain c prefix ops e' rs t :
  sort_ok (c_sort c) -> lenZ prefix mod 2 = 0 ->
  Forall good_op ops -> (forall t, ~ In (OpSetSharedKeys t) ops) ->
  layout_ok (c_ua c) (lenZ prefix) ops -> lenZ prefix + ops_size ops <= MAX_WIDE ->
  enc_run c (enc_new_to_vec prefix) ops = Ret (e', rs) -> Forall (eq (Ok tt)) rs ->
  b_finish (fst (b_run b_init ops)) = Some t -> distinct t ->
  exists D, finish c e' = Ret (prefix ++ D) /\
    forall dbg base, addressable base (prefix ++ D) -> plain_doc (mk_env dbg base (prefix ++ D) None) t.
Proof.
  intros Hs Hev Hg Hno Hn Hw Hrun Hok Ht Hdist.
  destruct (run_all_ok c ops _ _ _ _ Hrun (sh_init prefix) Hok) as [Hacc _].
  assert (Hp : polite b_init ops) by (apply accepted_polite; [intros Hx; exfalso; apply Hx; reflexivity|exact Hacc]).
  destruct (any_document c prefix ops Hs Hev Hg (no_sets_keys_ok ops Hno) Hp (strings_any _ _ _) Hn Hw) as (e2 & D & Er & Ef & _ & Hlen & Hd).
  rewrite Hrun in Er. injection Er as <- _.
  exists D. split; [exact Ef|]. intros dbg base Ha. pose proof Ha as [Hb1 Hb2].
  destruct (Hd t Ht) as (v & t' & H1 & Hall). destruct (Hall dbg base None Hb1 Hb2) as (H2 & H3 & H4).
  rewrite (sk_none_run c ops _ _ _ Hrun eq_refl Hno) in H4.
  eapply stored_plain; eauto. eapply env_ok_doc; eauto.
Qed.

(** Any size, see [fitting_document]. *)
Lemma fitting_plain c prefix ops t :
  sort_ok (c_sort c) -> lenZ prefix mod 2 = 0 ->
  calls_ok c (enc_new_to_vec prefix) b_init ops -> (forall t, ~ In (OpSetSharedKeys t) ops) ->
  lenZ prefix + ops_size ops <= MAX_WIDE -> (forall o, In o ops -> 0 <= op_size o) ->
  b_finish (fst (b_run b_init ops)) = Some t -> distinct t ->
  exists e', enc_run c (enc_new_to_vec prefix) ops = Ret (e', snd (b_run b_init ops)) /\
    (closes_ok (S (length (en_stack e'))) c e' ->
     exists D, finish c e' = Ret (prefix ++ D) /\
      forall dbg base, addressable base (prefix ++ D) -> plain_doc (mk_env dbg base (prefix ++ D) None) t).
Proof.
  intros Hs Hev Hc Hno Hw Hpos Ht Hdist.
  destruct (document c prefix ops Hs Hev Hc Hpos Hw) as (e' & Er & _ & H).
  exists e'. split; [exact Er|]. intros Hcl. destruct (H Hcl) as (D & Hf & _ & Hlen & Hd).
  exists D. split; [exact Hf|]. intros dbg base Ha. pose proof Ha as [Hb1 Hb2].
  destruct (Hd t Ht) as (v & t' & H1 & Hall). destruct (Hall dbg base None Hb1 Hb2) as (H2 & H3 & H4).
  rewrite (sk_none_run c ops _ _ _ Er eq_refl Hno) in H4.
  eapply stored_plain; eauto. eapply env_ok_doc; eauto.
Qed.
End Plain.

(* ---------- shared keys ---------- *)

Lemma table_wf_z ua t k : table_wf ua t -> In k t -> zstr_make k = k.
Proof. intros [_ H] Hin. rewrite Forall_forall in H. apply H in Hin as [? _]. apply zstr_make_id. lia. Qed.

Lemma insert_ext ua t k : exists x, fst (encode_and_insert ua t k) = t ++ x.
Proof.
  unfold encode_and_insert. destruct (negb _); cbn [fst]; [exists []; rewrite app_nil_r; reflexivity|].
  destruct (sk_find _ 0 t); cbn [fst]; [exists []; rewrite app_nil_r; reflexivity|eauto].
Qed.
Lemma insert_wf ua t k : lenZ k <> 16 -> table_wf ua t -> table_wf ua (fst (encode_and_insert ua t k)).
Proof.
  intros Hk Hw. unfold encode_and_insert. destruct (negb _) eqn:E; cbn [fst]; [exact Hw|].
  apply negb_false_iff in E. unfold can_add, MAX_KEY_LEN in E.
  destruct (sk_find _ 0 t) as [i|] eqn:Ef; cbn [fst]; [exact Hw|].
  apply andb_true_iff in E as [E1 E2]. apply andb_true_iff in E1 as [_ E1]. rewrite zstr_make_id in * by lia.
  destruct Hw as [Hn HF]. split.
  - apply sk_find_none in Ef. apply (Permutation_NoDup (Permutation_cons_append t k)). constructor; assumption.
  - apply Forall_app. split; [exact HF|]. constructor; [|constructor]. split; [lia|exact E2].
Qed.

Lemma key_sk_long c e k e' r t : enc_step c e (OpKey k) = Ret (e', r) -> en_sk e = Some t ->
  en_sk e' = Some t \/ (en_sk e' = Some (fst (encode_and_insert (c_ua c) t k)) /\ 2 <= lenZ k).
Proof.
  intros H Esk. cbn [enc_step] in H. unfold write_key in H. destruct (to_sized_value (EStr k)) as [s|] eqn:Ez.
  - left. apply ret_inj in H. replace e' with (fst (push_key e (DKInline s))) by (rewrite H; reflexivity).
    destruct (push_key_ext e (DKInline s)) as [_ ->]. exact Esk.
  - unfold write_key_long in H. rewrite Esk in H.
    destruct (en_stack e) as [|[vs|vs nk] st]; try (injection H as <- <-; left; exact Esk).
    right. split; [|destruct k as [|k0 [|k1 k]]; [discriminate|discriminate|unfold lenZ; cbn [length]; lia]].
    destruct (encode_and_insert (c_ua c) t k) as [t' [i|]]; cbn [fst].
    + apply ret_inj in H. replace e' with (fst (push_key (set_sk e (Some t')) (DKShared i))) by (rewrite H; reflexivity).
      destruct (push_key_ext (set_sk e (Some t')) (DKShared i)) as [_ ->]. reflexivity.
    + unfold write_key_pointer in H. destruct (enc_write c _ _ _ _) as [[e1 o1]| | |] eqn:E; try discriminate. cbn [bind] in H.
      apply enc_write_grown in E as [G _]. apply grown_ext in G as [_ G]. apply ret_inj in H.
      replace e' with (fst (push_key e1 (DKPointer k o1))) by (rewrite H; reflexivity).
      destruct (push_key_ext e1 (DKPointer k o1)) as [_ ->]. exact G.
Qed.
Lemma key_sk c e k e' r t : enc_step c e (OpKey k) = Ret (e', r) -> en_sk e = Some t ->
  en_sk e' = Some t \/ en_sk e' = Some (fst (encode_and_insert (c_ua c) t k)).
Proof. intros H1 H2. destruct (key_sk_long c e k e' r t H1 H2) as [H|[H _]]; auto. Qed.

Lemma step_sk c e o e' r t : enc_step c e o = Ret (e', r) -> (forall u, o <> OpSetSharedKeys u) ->
  (forall k, o = OpKey k -> lenZ k <> 16) -> en_sk e = Some t ->
  exists x, en_sk e' = Some (t ++ x) /\ (table_wf (c_ua c) t -> table_wf (c_ua c) (t ++ x)).
Proof.
  intros H Hno Hk Esk.
  assert (Hsame : en_sk e' = Some t -> exists x, en_sk e' = Some (t ++ x) /\ (table_wf (c_ua c) t -> table_wf (c_ua c) (t ++ x))).
  { intros E. exists []. rewrite app_nil_r. auto. }
  destruct o as [k|v|n| | | |u];
    try (apply Hsame; apply step_ext in H as (_ & _ & HS); rewrite HS; [exact Esk|discriminate|discriminate]).
  - apply key_sk with (t := t) in H; [|exact Esk]. destruct H as [H|H]; [apply Hsame; exact H|].
    destruct (insert_ext (c_ua c) t k) as [x Ex]. exists x. rewrite <- Ex. split; [exact H|].
    apply insert_wf. apply Hk. reflexivity.
  - exfalso. apply (Hno u). reflexivity.
Qed.

Lemma run_sk c : forall ops e e' rs t, enc_run c e ops = Ret (e', rs) -> (forall u, ~ In (OpSetSharedKeys u) ops) ->
  (forall k, In (OpKey k) ops -> lenZ k <> 16) -> en_sk e = Some t ->
  exists x, en_sk e' = Some (t ++ x) /\ (table_wf (c_ua c) t -> table_wf (c_ua c) (t ++ x)).
Proof.
  induction ops as [|o ops IH]; intros e e' rs t H Hno Hk Esk; cbn [enc_run] in H.
  - injection H as <- <-. exists []. rewrite app_nil_r. auto.
  - destruct (enc_step c e o) as [[e1 r1]| | |] eqn:E; try discriminate. cbn [bind fst snd] in H.
    destruct (enc_run c e1 ops) as [[e2 r2]| | |] eqn:E2; try discriminate. cbn [bind fst snd] in H. injection H as <- <-.
    destruct (step_sk c e o e1 r1 t E) as (x & Ex & Hx); auto.
    { intros u ->. apply (Hno u). left. reflexivity. }
    { intros k ->. apply Hk. left. reflexivity. }
    destruct (IH e1 e2 r2 (t ++ x) E2) as (y & Ey & Hy); [| |exact Ex|].
    { intros u Hin. apply (Hno u). right. exact Hin. }
    { intros k Hin. apply Hk. right. exact Hin. }
    exists (x ++ y). rewrite app_assoc. split; [exact Ey|]. auto.
Qed.

Lemma enc_run_app c : forall a e b e' rs, enc_run c e (a ++ b) = Ret (e', rs) ->
  exists e1 r1 r2, enc_run c e a = Ret (e1, r1) /\ enc_run c e1 b = Ret (e', r2).
Proof.
  induction a as [|o a IH]; intros e b e' rs H; cbn [app enc_run] in *.
  - exists e, [], rs. auto.
  - destruct (enc_step c e o) as [[e1 r1]| | |] eqn:E; try discriminate. cbn [bind fst snd] in *.
    destruct (enc_run c e1 (a ++ b)) as [[e2 r2]| | |] eqn:E2; try discriminate. cbn [bind fst snd] in H. injection H as <- <-.
    destruct (IH _ _ _ _ E2) as (e3 & r3 & r4 & H3 & H4). rewrite H3. cbn [bind fst snd]. eauto 6.
Qed.

Definition shared_doc (m m0 : env) (tb : shared_keys) (t : tree) : Prop :=
  exists root, from_bytes m = Ret (Ok root) /\ from_bytes m0 = Ret (Ok root) /\
    (forall p, (forall k, In (PKey k) p -> clear_of tb k) ->
       answers m (go m root) t p /\ answers m (go_sk tb m0 root) t p) /\
    (forall p l, (forall k, In (PKey k) p -> clear_of tb k) -> (forall k, In k (map fst l) -> clear_of tb k) ->
       tree_at t p = Some (TDict l) ->
       exists x, go m root p = Ret (Some x) /\ iterates m (Some tb) x l).

(** A key is written as a text when it is not in the table. *)
Definition text_keys (t : shared_keys) : KeyPred := fun k => sk_encode t k = None.
Lemma small_shared_stored c prefix t0 ops e' rs t tb later :
  sort_ok (c_sort c) -> lenZ prefix mod 2 = 0 ->
  Forall good_op ops -> (forall u, ~ In (OpSetSharedKeys u) ops) ->
  (forall k, In (OpKey k) ops -> lenZ k <> 16) ->
  layout_ok (c_ua c) (lenZ prefix) (OpSetSharedKeys t0 :: ops) -> lenZ prefix + ops_size ops <= MAX_WIDE ->
  enc_run c (enc_new_to_vec prefix) (OpSetSharedKeys t0 :: ops) = Ret (e', rs) -> Forall (eq (Ok tt)) rs ->
  b_finish (fst (b_run b_init ops)) = Some t ->
  en_sk e' = Some tb -> lenZ tb < MAX_KEYS ->
  table_wf (c_ua c) (tb ++ later) ->
  (forall k, In (OpKey k) ops -> apart_from (tb ++ later) k) ->
  @table_ok (text_keys (tb ++ later)) (Some (tb ++ later)) /\
  (forall k, clear_of (tb ++ later) k -> @query_ok (text_keys (tb ++ later)) (Some (tb ++ later)) k) /\
  exists D v t', finish c e' = Ret (prefix ++ D) /\ tsim t t' /\
    forall dbg base, addressable base (prefix ++ D) ->
    let m := mk_env dbg base (prefix ++ D) (Some (tb ++ later)) in
      env_ok m /\ from_bytes m = Ret (Ok v) /\ from_bytes (mk_env dbg base (prefix ++ D) None) = Ret (Ok v) /\
      @vstored (text_keys (tb ++ later)) m (Some (tb ++ later)) t' v.
Proof.
  intros Hs Hev Hg Hno H16 Hn Hw Hrun Hok Ht Etb Hfull Htw Hclr.
  set (tb2 := tb ++ later) in *.
  set (SPv := text_keys tb2).
  destruct (run_all_ok c _ _ _ _ _ Hrun (sh_init prefix) Hok) as [Hacc _].
  assert (Hp : polite b_init (OpSetSharedKeys t0 :: ops)) by (apply accepted_polite; [intros Hx; exfalso; apply Hx; reflexivity|exact Hacc]).
  assert (Hg' : Forall good_op (OpSetSharedKeys t0 :: ops)) by (constructor; [exact I|exact Hg]).
  assert (Hk : keys_ok false (OpSetSharedKeys t0 :: ops)).
  { cbn [keys_ok]. split; [reflexivity|]. clear - Hno H16. induction ops as [|o ops IH]; [exact I|].
    assert (Ho : keys_ok true ops) by (apply IH; [intros u Hin; apply (Hno u)|intros k Hin; apply H16]; right; exact Hin).
    destruct o; cbn [keys_ok]; auto. split; [intros _; apply H16; left; reflexivity|exact Ho].
    exfalso. apply (Hno t). left. reflexivity. }
  assert (Hstr : @strings_ok SPv c (enc_new_to_vec prefix) (OpSetSharedKeys t0 :: ops)).
  { intros ops1 k ops2 e1 r1 Eo Hr1 Has. unfold string_key, SPv, text_keys, sk_encode.
    destruct ops1 as [|o1 ops1]; [discriminate|]. injection Eo as <- ->.
    cbn [enc_run enc_step bind fst snd] in Hr1. cbn [app enc_run enc_step bind fst snd] in Hrun.
    destruct (enc_run c (set_shared_keys (enc_new_to_vec prefix) t0) ops1) as [[e2 r2]| | |] eqn:E1; try discriminate. cbn [bind fst snd] in Hr1. injection Hr1 as -> <-.
    destruct (enc_run c (set_shared_keys (enc_new_to_vec prefix) t0) (ops1 ++ OpKey k :: ops2)) as [[e3 r3]| | |] eqn:E2; try discriminate.
    cbn [bind fst snd] in Hrun. injection Hrun as -> <-.
    destruct (enc_run_app _ _ _ _ _ _ E2) as (e4 & r4 & r5 & H4 & H5). rewrite E1 in H4. injection H4 as <- <-.
    destruct (run_sk c ops1 _ _ _ t0 E1) as (x & Ex & _); [intros u Hin; apply (Hno u); apply in_or_app; left; exact Hin| |reflexivity|].
    { intros k' Hin; apply H16; apply in_or_app; left; exact Hin. }
    destruct (run_sk c _ _ _ _ (t0 ++ x) H5) as (y & Ey & _); [intros u Hin; apply (Hno u); apply in_or_app; right; exact Hin| |exact Ex|].
    { intros k' Hin; apply H16; apply in_or_app; right; exact Hin. }
    rewrite Etb in Ey. injection Ey as Ey.
    assert (Hin : In (OpKey k) (ops1 ++ OpKey k :: ops2)) by (apply in_or_app; right; left; reflexivity).
    rewrite Ex in Has. cbn [key_as_string] in Has.
    destruct Has as [Has|Has].
    { apply sk_find_none. destruct (Z_lt_ge_dec (lenZ k) 2) as [Hk2|Hk2].
      - rewrite zstr_make_id by lia. apply Hclr; assumption.
      - exfalso. apply Has. destruct k as [|k0 [|k1 k]]; [cbn in Hk2; lia|cbn in Hk2; lia|reflexivity]. }
    assert (Hl : lenZ (t0 ++ x) < MAX_KEYS).
    { rewrite Ey, lenZ_app in Hfull. pose proof (lenZ_nonneg y). lia. }
    apply sk_find_none. unfold encode_and_insert in Has.
    destruct (negb _) eqn:En; [|destruct (sk_find _ 0 _); discriminate].
    apply negb_true_iff in En. unfold can_add, sk_len in En.
    destruct (lenZ (t0 ++ x) <? MAX_KEYS) eqn:E5; [|lia]. cbn [andb] in En.
    destruct (Z_lt_ge_dec 15 (lenZ k)) as [Hgt|Hle]; [destruct (Hclr _ Hin) as [Hcl _]; apply Hcl; assumption|].
    unfold MAX_KEY_LEN in En. destruct (lenZ k <=? 16) eqn:E6; [|lia]. cbn [andb] in En.
    rewrite zstr_make_id by lia. intros Hx. destruct Htw as [_ HF]. rewrite Forall_forall in HF. apply HF in Hx as [_ Hx]. congruence. }
  destruct (@any_document SPv c prefix _ Hs Hev Hg' Hk Hp Hstr Hn Hw) as (e2 & D & Er & Ef & _ & Hlen & Hd).
  rewrite Hrun in Er. injection Er as <- _.
  split.
  { cbn [table_ok]. split; [apply Htw|]. split; [intros k Hin; eapply table_wf_z; eauto|]. auto. }
  split.
  { intros k Hc. right. destruct (Z_lt_ge_dec 15 (lenZ k)) as [Hgt|Hle]; [right|left; apply zstr_make_id; lia].
    unfold string_key, SPv, text_keys, sk_encode. apply sk_find_none. apply Hc. exact Hgt. }
  cbn [b_run b_step fst] in Hd. change (ops_size (OpSetSharedKeys t0 :: ops)) with (0 + ops_size ops) in Hlen.
  destruct (Hd t Ht) as (v & t' & H1 & Hall).
  exists D, v, t'. split; [exact Ef|]. split; [exact H1|]. intros dbg base Ha m. pose proof Ha as [Hb1 Hb2].
  destruct (Hall dbg base (Some tb2) Hb1 Hb2) as (H2 & H3 & H4). rewrite Etb in H4.
  split; [eapply (env_ok_doc _ _ _ _ _ (ops_size ops)); eauto; lia|]. split; [exact H2|]. split; [apply (Hall dbg base None Hb1 Hb2)|].
  destruct H4 as [H4|(lim & H4 & H5)]; [left; exact H4|right]. exists lim. split; [|exact H5].
  eapply stored_ext; [|exact H4]. exists later. reflexivity.
Qed.
Lemma small_shared c prefix t0 ops e' rs t tb later :
  sort_ok (c_sort c) -> lenZ prefix mod 2 = 0 ->
  Forall good_op ops -> (forall u, ~ In (OpSetSharedKeys u) ops) ->
  (forall k, In (OpKey k) ops -> lenZ k <> 16) ->
  layout_ok (c_ua c) (lenZ prefix) (OpSetSharedKeys t0 :: ops) -> lenZ prefix + ops_size ops <= MAX_WIDE ->
  enc_run c (enc_new_to_vec prefix) (OpSetSharedKeys t0 :: ops) = Ret (e', rs) -> Forall (eq (Ok tt)) rs ->
  b_finish (fst (b_run b_init ops)) = Some t -> distinct t ->
  en_sk e' = Some tb -> lenZ tb < MAX_KEYS ->
  table_wf (c_ua c) (tb ++ later) ->
  (forall k, In (OpKey k) ops -> apart_from (tb ++ later) k) ->
  exists D, finish c e' = Ret (prefix ++ D) /\
    forall dbg base, addressable base (prefix ++ D) ->
      shared_doc (mk_env dbg base (prefix ++ D) (Some (tb ++ later))) (mk_env dbg base (prefix ++ D) None) (tb ++ later) t.
Proof.
  intros Hs Hev Hg Hno H16 Hn Hw Hrun Hok Ht Hdist Etb Hfull Htw Hclr.
  destruct (small_shared_stored c prefix t0 ops e' rs t tb later Hs Hev Hg Hno H16 Hn Hw Hrun Hok Ht Etb Hfull Htw Hclr)
    as (Htok & Hq & D & v & t' & Ef & H1 & HD).
  set (tb2 := tb ++ later) in *. set (SPv := text_keys tb2) in *.
  exists D. split; [exact Ef|]. intros dbg base Ha. destruct (HD dbg base Ha) as (Hoke & H2 & H3 & Hv).
  exists v. split; [exact H2|]. split; [exact H3|]. split.
  - intros p Hc. split.
    + apply (@answers_go SPv _ (Some tb2) t t' v Hoke eq_refl Htok H1 Hv Hdist). auto.
    + apply (@answers_go_sk SPv _ (Some tb2) t t' v Hoke eq_refl Htok H1 Hv Hdist); auto.
  - intros p l Hc Hc2 Hat. apply (@iterates_at SPv _ (Some tb2) t t' v Hoke eq_refl Htok H1 Hv Hdist); auto.
Qed.

Lemma small_sorted c prefix ops e' rs t p l :
  sort_ok (c_sort c) -> lenZ prefix mod 2 = 0 ->
  Forall good_op ops -> (forall t, ~ In (OpSetSharedKeys t) ops) ->
  layout_ok (c_ua c) (lenZ prefix) ops -> lenZ prefix + ops_size ops <= MAX_WIDE ->
  enc_run c (enc_new_to_vec prefix) ops = Ret (e', rs) -> Forall (eq (Ok tt)) rs ->
  b_finish (fst (b_run b_init ops)) = Some t -> distinct t -> tree_at t p = Some (TDict l) ->
  exists D, finish c e' = Ret (prefix ++ D) /\
    forall dbg base, addressable base (prefix ++ D) ->
    let m := mk_env dbg base (prefix ++ D) None in
    exists root d kvs, from_bytes m = Ret (Ok root) /\ go m root p = Ret (Some d) /\
      dict_elems m d = Ret kvs /\
      StronglySorted (fun a b => bytes_cmp a b = Lt) (map fst kvs) /\
      Permutation (map fst kvs) (map fst l) /\
      forall k x, In (k, x) kvs -> exists s s', In (k, s) l /\ read_doc m x = Ret s' /\ tsim s s'.
Proof.
  intros Hs Hev Hg Hno Hn Hw Hrun Hok Ht Hdist Hat.
  destruct (small_plain c prefix ops e' rs t Hs Hev Hg Hno Hn Hw Hrun Hok Ht Hdist) as (D & Hf & HD).
  exists D. split; [exact Hf|]. intros dbg base Ha m. destruct (HD dbg base Ha) as (root & H1 & _ & _ & H4).
  destruct (H4 p l Hat) as (d & Hd & kvs & H5 & H6 & H7 & H8). exists root, d, kvs. auto 8.
Qed.
