(** Cost of validating what the encoder wrote; documents whose parts are shared. *)
From Verif Require Import Prelude Lib Varint VarintProofs Utf8 Float SharedKeys
  Decode Read Encodable Encoder BuilderSpec Holds Repr EncodableProofs Stored StoredRead SlotProofs EncoderProofs
  EncoderInv EncoderClean LayoutSpec EncoderLayout EncoderProtocol Cost CostSpec CostProofs.
From Coq Require Import ZifyBool ZifyNat ZifyN Sorted Permutation.
Ltac Zify.zify_post_hook ::= Z.div_mod_to_equations.

#[local] Existing Instance any_key.

Lemma tsim_size : forall t t', tsim t t' -> nodes t = nodes t' /\ height t = height t'.
Proof.
  fix IH 3. intros t t' H. destruct H as [t|l m HF|l l' m HP HF].
  - split; reflexivity.
  - cbn [nodes height]. enough (fold_right (fun x n => nodes x + n) 0 l = fold_right (fun x n => nodes x + n) 0 m /\
      fold_right (fun x n => Z.max (height x) n) 0 l = fold_right (fun x n => Z.max (height x) n) 0 m) as [-> ->] by (split; reflexivity).
    induction HF as [|x y l m Hxy HF IHF]; [split; reflexivity|]. cbn [fold_right].
    destruct (IH x y Hxy) as [-> ->]. destruct IHF as [-> ->]. split; reflexivity.
  - cbn [nodes height]. 
    enough (fold_right (fun kx n => 1 + nodes (snd kx) + n) 0 l = fold_right (fun kx n => 1 + nodes (snd kx) + n) 0 m /\
      fold_right (fun kx n => Z.max (Z.max 1 (height (snd kx))) n) 0 l = fold_right (fun kx n => Z.max (Z.max 1 (height (snd kx))) n) 0 m)
      as [-> ->] by (split; reflexivity).
    assert (fold_right (fun kx n => 1 + nodes (snd kx) + n) 0 l = fold_right (fun kx n => 1 + nodes (snd kx) + n) 0 l' /\
      fold_right (fun kx n => Z.max (Z.max 1 (height (snd kx))) n) 0 l = fold_right (fun kx n => Z.max (Z.max 1 (height (snd kx))) n) 0 l')
      as [-> ->].
    { clear IH HF. induction HP as [|x a a' HP IHP|x y a|a a1 a2 H1 I1 H2 I2]; cbn [fold_right]; lia. }
    clear HP. induction HF as [|x y a m Hxy HF IHF]; [split; reflexivity|]. cbn [fold_right].
    destruct Hxy as [_ Hxy]. destruct (IH _ _ Hxy) as [-> ->]. destruct IHF as [-> ->]. split; reflexivity.
Qed.

(* ---------- every value and key of a document comes from a call ---------- *)

Lemma nodes_pos t : 1 <= nodes t.
Proof.
  revert t. fix IH 1. intros t. destruct t; cbn [nodes]; try lia.
  - enough (0 <= fold_right (fun x n => nodes x + n) 0 l) by lia.
    induction l as [|x l IHl]; cbn [fold_right]; [lia|]. specialize (IH x). lia.
  - enough (0 <= fold_right (fun kx n => 1 + nodes (snd kx) + n) 0 l) by lia.
    induction l as [|[k x] l IHl]; cbn [fold_right snd]; [lia|]. specialize (IH x). lia.
Qed.
Definition frame_weight (f : frame) : Z :=
  nodes (close_frame f) + match f with FDict _ (Some _) => 1 | _ => 0 end.
Definition weight (b : bstate) : Z :=
  fold_right (fun f n => frame_weight f + n) 0 (b_stack b) + match b_root b with Some t => nodes t | None => 0 end.
Lemma sum_app {A} (f : A -> Z) l x : fold_right (fun y n => f y + n) 0 (l ++ [x]) = fold_right (fun y n => f y + n) 0 l + f x.
Proof. induction l as [|y l IH]; cbn [app fold_right]; lia. Qed.
Lemma add_child_weight f t : frame_weight (add_child f t) <= frame_weight f + nodes t.
Proof.
  pose proof (nodes_pos t). unfold frame_weight. destruct f as [l|l [k|]]; cbn [add_child close_frame nodes].
  - rewrite sum_app. lia.
  - rewrite (sum_app (fun kx : list Z * tree => 1 + nodes (snd kx))). cbn [snd]. lia.
  - lia.
Qed.
Lemma close_weight f : nodes (close_frame f) <= frame_weight f.
Proof. unfold frame_weight. destruct f as [l|l [k|]]; lia. Qed.
Lemma root_pos (o : option tree) : 0 <= match o with Some t => nodes t | None => 0 end.
Proof. destruct o as [t|]; [pose proof (nodes_pos t)|]; lia. Qed.
Lemma pop_weight b : weight (b_pop b) <= weight b.
Proof.
  unfold weight, b_pop. destruct (b_stack b) as [|f [|g st]] eqn:E; [rewrite E; lia| |]; cbn [b_stack b_root fold_right];
    pose proof (close_weight f); pose proof (root_pos (b_root b)).
  - lia.
  - pose proof (add_child_weight g (close_frame f)). lia.
Qed.
Lemma leaf_weight v : nodes (tree_of v) = 1.
Proof. induction v; cbn [tree_of nodes]; auto. Qed.
Lemma step_weight b o b' : b_step b o = Ok b' -> weight b' <= weight b + 1.
Proof.
  intros H. destruct o; cbn [b_step] in H.
  - destruct (b_stack b) as [|[l|l [k0|]] st] eqn:E; try discriminate. injection H as <-. unfold weight. rewrite E.
    cbn [b_stack b_root fold_right]. unfold frame_weight; cbn [close_frame]. lia.
  - destruct (b_stack b) as [|f st] eqn:E; [discriminate|].
    assert (Hgo : weight (mk_b (add_child f (tree_of v) :: st) (b_root b)) <= weight b + 1).
    { unfold weight. rewrite E. cbn [b_stack b_root fold_right]. pose proof (add_child_weight f (tree_of v)).
      rewrite leaf_weight in *. lia. }
    destruct f as [l|l [k|]]; try discriminate; injection H as <-; exact Hgo.
  - unfold b_begin in H. unfold weight. destruct (b_root b); [discriminate|]. destruct (b_stack b) as [|[l|l [k|]] st]; try discriminate;
      injection H as <-; cbn [b_stack b_root fold_right]; unfold frame_weight; cbn [close_frame nodes fold_right]; lia.
  - destruct (b_stack b) as [|[l|l [k|]] st]; try discriminate; injection H as <-; pose proof (pop_weight b); lia.
  - unfold b_begin in H. unfold weight. destruct (b_root b); [discriminate|]. destruct (b_stack b) as [|[l|l [k|]] st]; try discriminate;
      injection H as <-; cbn [b_stack b_root fold_right]; unfold frame_weight; cbn [close_frame nodes fold_right]; lia.
  - destruct (b_stack b) as [|[l|l [k|]] st]; try discriminate; injection H as <-; pose proof (pop_weight b); lia.
  - injection H as <-. lia.
Qed.
Lemma run_weight : forall ops b, weight (fst (b_run b ops)) <= weight b + lenZ ops.
Proof.
  induction ops as [|o ops IH]; intros b; cbn [b_run]; [cbn [fst]; rewrite lenZ_nil; lia|]. rewrite lenZ_cons.
  destruct (b_step b o) as [b'|er] eqn:E; cbn [fst].
  - apply step_weight in E. specialize (IH b'). lia.
  - specialize (IH b). lia.
Qed.
Lemma finish_weight b t : b_finish b = Some t -> nodes t <= weight b.
Proof.
  unfold b_finish, weight. destruct (b_stack b) as [|f st]; cbn [fold_right].
  - intros ->. lia.
  - intros H. injection H as <-. pose proof (root_pos (b_root b)). pose proof (close_weight f).
    enough (G : forall st t, nodes (fold_left (fun t g => close_frame (add_child g t)) st t) <=
      nodes t + fold_right (fun f n => frame_weight f + n) 0 st) by (specialize (G st (close_frame f)); lia).
    clear. induction st as [|g st IH]; intros t; cbn [fold_left fold_right]; [lia|].
    specialize (IH (close_frame (add_child g t))). pose proof (close_weight (add_child g t)). pose proof (add_child_weight g t). lia.
Qed.
Lemma calls_nodes ops t : b_finish (fst (b_run b_init ops)) = Some t -> nodes t <= lenZ ops.
Proof. intros H. apply finish_weight in H. pose proof (run_weight ops b_init). change (weight b_init) with 0 in *. lia. Qed.

(* ---------- documents the encoder wrote ---------- *)

Lemma encoded_cost c prefix ops :
  sort_ok (c_sort c) -> lenZ prefix mod 2 = 0 ->
  calls_ok c (enc_new_to_vec prefix) b_init ops ->
  lenZ prefix + ops_size ops <= MAX_WIDE -> (forall o, In o ops -> 0 <= op_size o) ->
  exists e', enc_run c (enc_new_to_vec prefix) ops = Ret (e', snd (b_run b_init ops)) /\
    (closes_ok (S (length (en_stack e'))) c e' ->
     exists D, finish c e' = Ret (prefix ++ D) /\
      forall t, b_finish (fst (b_run b_init ops)) = Some t ->
      forall dbg base sk, addressable base (prefix ++ D) ->
      exists cs v, from_bytes_n (mk_env dbg base (prefix ++ D) sk) = (cs, Ret (Ok v)) /\
        nodes t <= c_calls cs < 2 * nodes t /\ height t <= c_depth cs < 2 * height t).
Proof.
  intros Hs Hev Hc Hw Hpos.
  destruct (document c prefix ops Hs Hev Hc Hpos Hw) as (e' & Er & _ & H).
  exists e'. split; [exact Er|]. intros Hcl. destruct (H Hcl) as (D & Hf & _ & Hlen & Hd).
  exists D. split; [exact Hf|]. intros t Ht dbg base sk [Hb1 Hb2].
  destruct (Hd t Ht) as (v & t' & H1 & Hall). destruct (Hall dbg base sk Hb1 Hb2) as (H2 & H3 & H4).
  assert (Hok' : env_ok (mk_env dbg base (prefix ++ D) sk)).
  { unfold env_ok; cbn [e_base e_data]. rewrite lenZ_app in *. unfold MAX_WIDE, two63 in *. lia. }
  destruct (doc_cost _ _ _ _ Hok' H2 H4) as (cs & Hcs & Hfair).
  destruct (tsim_size _ _ H1) as [En Eh]. rewrite <- En, <- Eh in Hfair. unfold fair in Hfair.
  exists cs, v. split; [exact Hcs|]. lia.
Qed.

(** Small documents, in the terms of C07. *)
Lemma small_cost c prefix ops e' rs t :
  sort_ok (c_sort c) -> lenZ prefix mod 2 = 0 ->
  Forall good_op ops -> keys_ok false ops ->
  layout_ok (c_ua c) (lenZ prefix) ops -> lenZ prefix + ops_size ops <= MAX_WIDE ->
  enc_run c (enc_new_to_vec prefix) ops = Ret (e', rs) -> Forall (eq (Ok tt)) rs ->
  b_finish (fst (b_run b_init ops)) = Some t ->
  exists D, finish c e' = Ret (prefix ++ D) /\
    forall dbg base sk, addressable base (prefix ++ D) ->
      exists cs v, from_bytes_n (mk_env dbg base (prefix ++ D) sk) = (cs, Ret (Ok v)) /\
        nodes t <= c_calls cs < 2 * nodes t /\ height t <= c_depth cs < 2 * height t.
Proof.
  intros Hs Hev Hg Hk Hn Hw Hrun Hok Ht.
  destruct (run_all_ok c ops _ _ _ _ Hrun (sh_init prefix) Hok) as [Hacc _].
  assert (Hp : polite b_init ops) by (apply accepted_polite; [intros Hx; exfalso; apply Hx; reflexivity|exact Hacc]).
  destruct (any_document c prefix ops Hs Hev Hg Hk Hp (strings_any _ _ _) Hn Hw) as (e2 & D & Er & Ef & _ & Hlen & Hd).
  rewrite Hrun in Er. injection Er as <- _.
  exists D. split; [exact Ef|]. intros dbg base sk [Hb1 Hb2].
  destruct (Hd t Ht) as (v & t' & H1 & Hall). destruct (Hall dbg base sk Hb1 Hb2) as (H2 & H3 & H4).
  assert (Hok' : env_ok (mk_env dbg base (prefix ++ D) sk)).
  { unfold env_ok; cbn [e_base e_data]. rewrite lenZ_app in *. unfold MAX_WIDE, two63 in *. lia. }
  destruct (doc_cost _ _ _ _ Hok' H2 H4) as (cs & Hcs & Hfair).
  destruct (tsim_size _ _ H1) as [En Eh]. rewrite <- En, <- Eh in Hfair. unfold fair in Hfair.
  exists cs, v. split; [exact Hcs|]. lia.
Qed.

(* ---------- arrays that hold the same array twice ---------- *)

(** Six bytes per level: an array of two numbers, then arrays whose two elements both point to
    the level below. *)
Fixpoint levels (k : nat) : list Z :=
  match k with
  | O => [96; 2; 0; 0; 0; 0]
  | S k' => levels k' ++ [96; 2; 128; 4; 128; 5]
  end.
Definition doubling (k : nat) : list Z := levels k ++ [128; 3].
Fixpoint dup (k : nat) : tree :=
  match k with
  | O => TArr [TInt 0; TInt 0]
  | S k' => TArr [dup k'; dup k']
  end.

Lemma levels_len k : lenZ (levels k) = 6 * Z.of_nat k + 6.
Proof. induction k as [|k IH]; [reflexivity|]. cbn [levels]. rewrite lenZ_app, IH. change (lenZ [96; 2; 128; 4; 128; 5]) with 6. lia. Qed.
Lemma levels_bytes k : all_bytes (levels k).
Proof. induction k as [|k IH]; cbn [levels]; [repeat constructor; lia|]. apply Forall_app. split; [exact IH|repeat constructor; lia]. Qed.
Lemma dup_nodes k : nodes (dup k) = 2 ^ (Z.of_nat k + 2) - 1.
Proof.
  induction k as [|k IH]; [reflexivity|]. cbn [dup nodes fold_right]. rewrite IH, Nat2Z.inj_succ.
  replace (Z.succ (Z.of_nat k) + 2) with (Z.succ (Z.of_nat k + 2)) by lia. rewrite Z.pow_succ_r by lia. lia.
Qed.
Lemma dup_height k : height (dup k) = Z.of_nat k + 2.
Proof. induction k as [|k IH]; [reflexivity|]. cbn [dup height fold_right]. rewrite IH. lia. Qed.

Lemma two_cases {A} (x : A) (P : Z -> A -> Prop) : P 0 x -> P 1 x -> forall i t, nthZ [x; x] i = Some t -> P i t.
Proof.
  intros H0 H1 i t H. pose proof (nthZ_Some _ _ _ H) as Hi. cbn in Hi.
  assert (i = 0 \/ i = 1) as [-> | ->] by lia; cbn in H; injection H as <-; assumption.
Qed.
Lemma levels_stored k : stored (levels k) None (dup k) (6 * Z.of_nat k) (6 * Z.of_nat k + 6).
Proof.
  induction k as [|k IH].
  - apply (st_arr (levels 0) None [TInt 0; TInt 0] 0 false); [reflexivity|apply (holds_app_l _ _ [96;2] [0;0;0;0]), (holds_end [])|cbn; lia|].
    apply (two_cases (TInt 0) (fun i t => slot _ None false 0 (0 + hdr_size 2 + i * 2) t)).
    + apply (sl_inline _ _ _ _ _ _ 0 0); [apply (repr_short 0); lia|]. apply (holds_app_l _ _ [0;0] [0;0]), (holds_end [96;2]).
    + apply (sl_inline _ _ _ _ _ _ 0 0); [apply (repr_short 0); lia|]. apply (holds_end [96;2;0;0] [0;0]).
  - set (p := 6 * Z.of_nat (S k)). assert (Ep : p = lenZ (levels k)) by (rewrite levels_len; unfold p; lia).
    assert (H6 : holds (levels (S k)) p [96; 2; 128; 4; 128; 5]) by (rewrite Ep; apply holds_end).
    replace (p + 6) with (p + hdr_size (lenZ [dup k; dup k]) + lenZ [dup k; dup k] * width_of false) by (cbn; lia).
    apply (st_arr (levels (S k)) None [dup k; dup k] p false); [unfold p; lia|apply (holds_app_l _ _ [96;2] [128;4;128;5]); exact H6| |].
    + rewrite levels_len. unfold p. cbn. lia.
    + apply (stored_mono _ _ [96; 2; 128; 4; 128; 5]) in IH. change (levels k ++ [96; 2; 128; 4; 128; 5]) with (levels (S k)) in IH.
      apply (two_cases (dup k) (fun i t => slot _ None false p (p + hdr_size 2 + i * 2) t)).
      * apply (sl_ptr _ _ _ _ _ _ 8 (6 * Z.of_nat k + 6)); [lia|reflexivity|reflexivity| | |unfold p; lia].
        -- change (ptr_bytes false 8) with [128;4]. apply (holds_app_r _ _ [96;2]) in H6. change (lenZ [96;2]) with 2 in H6.
           change (hdr_size 2) with 2. replace (p + 2 + 0 * 2) with (p + 2) by lia. apply (holds_app_l _ _ [128;4] [128;5]); exact H6.
        -- change (hdr_size 2) with 2. replace (p + 2 + 0 * 2 - 8) with (6 * Z.of_nat k) by (unfold p; lia). exact IH.
      * apply (sl_ptr _ _ _ _ _ _ 10 (6 * Z.of_nat k + 6)); [lia|reflexivity|reflexivity| | |unfold p; lia].
        -- change (ptr_bytes false 10) with [128;5]. apply (holds_app_r _ _ [96;2;128;4]) in H6. change (lenZ [96;2;128;4]) with 4 in H6.
           change (hdr_size 2) with 2. replace (p + 2 + 1 * 2) with (p + 4) by lia. exact H6.
        -- change (hdr_size 2) with 2. replace (p + 2 + 1 * 2 - 10) with (6 * Z.of_nat k) by (unfold p; lia). exact IH.
Qed.

Lemma doubling_len k : lenZ (doubling k) = 6 * Z.of_nat k + 8.
Proof. unfold doubling. rewrite lenZ_app, levels_len. change (lenZ [128; 3]) with 2. lia. Qed.
Lemma doubling_bytes k : all_bytes (doubling k).
Proof. apply Forall_app. split; [apply levels_bytes|repeat constructor; lia]. Qed.

Lemma doubling_cost k dbg base sk : addressable base (doubling k) -> 6 * Z.of_nat k + 8 < two63 ->
  exists cs v, from_bytes_n (mk_env dbg base (doubling k) sk) = (cs, Ret (Ok v)) /\
    2 ^ (Z.of_nat k + 2) - 1 <= c_calls cs /\ Z.of_nat k + 2 <= c_depth cs.
Proof.
  intros [Hb1 Hb2] Hk.
  assert (Hr : rooted (doubling k) None (dup k)).
  { exists (dup k), (levels k), (6 * Z.of_nat k), (6 * Z.of_nat k + 6). split; [apply ts_refl|]. split; [apply levels_stored|].
    rewrite levels_len. split; [lia|]. split; [unfold MAX_WIDE; lia|].
    replace (6 * Z.of_nat k + 6 - 6 * Z.of_nat k) with 6 by lia. reflexivity. }
  apply rooted_read in Hr as (v & t' & Hts & Hrd).
  assert (Hok : env_ok (mk_env dbg base (doubling k) sk)).
  { unfold env_ok; cbn [e_base e_data]. rewrite doubling_len in *. lia. }
  destruct (Hrd (mk_env dbg base (doubling k) sk) eq_refl Hok) as (H1 & _ & H2).
  destruct (doc_cost _ _ _ _ Hok H1 H2) as (cs & Hcs & Hfair).
  destruct (tsim_size _ _ Hts) as [En Eh]. rewrite <- En, <- Eh, dup_nodes, dup_height in Hfair. unfold fair in Hfair.
  exists cs, v. split; [exact Hcs|]. lia.
Qed.

Lemma exponential : forall k dbg base sk,
  0 <= base -> base + (6 * Z.of_nat k + 8) < two63 ->
  exists data, lenZ data = 6 * Z.of_nat k + 8 /\ all_bytes data /\
    exists cs v, from_bytes_n (mk_env dbg base data sk) = (cs, Ret (Ok v)) /\ 2 ^ Z.of_nat k < c_calls cs.
Proof.
  intros k dbg base sk H0 H. exists (doubling k). split; [apply doubling_len|]. split; [apply doubling_bytes|].
  destruct (doubling_cost k dbg base sk) as (cs & v & H1 & H2 & _).
  - unfold addressable. rewrite doubling_len. unfold two63, two64 in *. lia.
  - lia.
  - exists cs, v. split; [exact H1|]. assert (0 < 2 ^ Z.of_nat k) by (apply Z.pow_pos_nonneg; lia).
    rewrite Z.pow_add_r in H2 by lia. change (2 ^ 2) with 4 in H2. lia.
Qed.
Lemma deep : forall k dbg base sk,
  0 <= base -> base + (6 * Z.of_nat k + 8) < two63 ->
  exists data, lenZ data = 6 * Z.of_nat k + 8 /\ all_bytes data /\
    exists cs v, from_bytes_n (mk_env dbg base data sk) = (cs, Ret (Ok v)) /\ Z.of_nat k < c_depth cs.
Proof.
  intros k dbg base sk H0 H. exists (doubling k). split; [apply doubling_len|]. split; [apply doubling_bytes|].
  destruct (doubling_cost k dbg base sk) as (cs & v & H1 & _ & H2).
  - unfold addressable. rewrite doubling_len. unfold two63, two64 in *. lia.
  - lia.
  - exists cs, v. split; [exact H1|]. lia.
Qed.
Lemma depth_linear e : c_depth (fst (from_bytes_n e)) <= 4 * lenZ (e_data e) + 2.
Proof.
  unfold from_bytes_n. pose proof (lenZ_nonneg (e_data e)).
  destruct (find_root e) as [[r|er]| | |]; cbn [cbindr fst no_calls c_depth]; try lia.
  pose proof (validate_n_depth e (fuel_of e) false false r (lenZ (e_data e))) as [_ H1].
  unfold fuel_of in *. unfold lenZ in *. lia.
Qed.
Lemma small_depth c prefix ops e' rs t :
  sort_ok (c_sort c) -> lenZ prefix mod 2 = 0 ->
  Forall good_op ops -> keys_ok false ops ->
  layout_ok (c_ua c) (lenZ prefix) ops -> lenZ prefix + ops_size ops <= MAX_WIDE ->
  enc_run c (enc_new_to_vec prefix) ops = Ret (e', rs) -> Forall (eq (Ok tt)) rs ->
  b_finish (fst (b_run b_init ops)) = Some t ->
  exists D, finish c e' = Ret (prefix ++ D) /\
    forall dbg base sk, addressable base (prefix ++ D) ->
      height t <= c_depth (fst (from_bytes_n (mk_env dbg base (prefix ++ D) sk))) < 2 * height t.
Proof.
  intros H1 H2 H3 H4 H5 H6 H7 H8 H9. destruct (small_cost c prefix ops e' rs t H1 H2 H3 H4 H5 H6 H7 H8 H9) as (D & Hf & H).
  exists D. split; [exact Hf|]. intros dbg base sk Hb. destruct (H dbg base sk Hb) as (cs & v & -> & _ & Hd). exact Hd.
Qed.
