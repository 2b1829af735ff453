(** Reading a document into a mutable collection, changing it and writing it out again. *)
From Verif Require Import Prelude Lib Varint VarintProofs Utf8 Float SharedKeys Decode Read Encodable Encoder BuilderSpec
  Holds Repr EncodableProofs EncoderProofs EncoderInv EncoderClean LayoutSpec EncoderLayout EncoderProtocol Isort ValueSpec
  PathSpec Lookup Path Access FloatRange CopySpec Copy Mutable MutableSpec MutableSlot MutableProofs MutableValue
  StableSpec Stable OrderProofs EditSpec.
From Verif Require Stored.
From Coq Require Import ZifyBool ZifyNat ZifyN Permutation Sorted.
Ltac Zify.zify_post_hook ::= Z.div_mod_to_equations.
#[local] Existing Instance any_key.

Lemma xb_run_app : forall xs ys b, xb_run b (xs ++ ys) = match xb_run b xs with Some b' => xb_run b' ys | None => None end.
Proof.
  induction xs as [|x xs IH]; intros ys b; cbn [app xb_run]; [reflexivity|]. cbv zeta.
  match goal with |- match ?r with _ => _ end = _ => destruct r end; [apply IH|reflexivity].
Qed.

(** The slots the iterator of a dict yields, beside the entries they show. *)
Lemma elems_show T m sk l' : sk_in T sk -> Forall2 (entry T sk) m l' ->
  Forall2 (fun a b => fst a = fst b /\ shows T (snd a) (snd b)) (md_elems m sk) l'.
Proof.
  intros Hk Hf. unfold md_elems, md_iter_new. assert (Hl : (length m < S (length m))%nat) by lia. revert Hl. generalize (S (length m)).
  induction Hf as [|[mk s] [k x] m l [[H1 H2] H3] Hf IH]; intros f Hl; (destruct f as [|f]; [lia|]); cbn [md_collect md_iter_next mdi_rest mdi_sk]; [constructor|].
  cbn in H1. subst mk. cbn [fst snd] in *. rewrite (own_decode T sk k H2 Hk). cbn [length] in Hl. constructor; [split; [reflexivity|exact H3]|]. apply IH. lia.
Qed.

(** What the calls describe: the tree, its dict entries in the order of the iterator. *)
Definition writes (xs : list xop) (t : tree) : Prop := forall b b', b_put b t = Ok b' -> xb_run b xs = Some b'.

Lemma begin_put_arr b ts b' : b_put b (TArr ts) = Ok b' ->
  exists st, b_step b (OpBeginArray 0) = Ok (mk_b (FArr [] :: st) None) /\ b_pop (mk_b (FArr ts :: st) None) = b'.
Proof.
  intros Hp. unfold b_put in Hp. destruct b as [st [r|]]; cbn [b_root b_stack] in *; [discriminate|]. exists st. cbn [b_step]. unfold b_begin, b_pop. cbn [b_root b_stack close_frame].
  destruct st as [|[?|? [?|]] ?]; try discriminate; injection Hp as <-; split; reflexivity.
Qed.
Lemma begin_put_dict b ts b' : b_put b (TDict ts) = Ok b' ->
  exists st, b_step b OpBeginDict = Ok (mk_b (FDict [] None :: st) None) /\ b_pop (mk_b (FDict ts None :: st) None) = b'.
Proof.
  intros Hp. unfold b_put in Hp. destruct b as [st [r|]]; cbn [b_root b_stack] in *; [discriminate|]. exists st. cbn [b_step]. unfold b_begin, b_pop. cbn [b_root b_stack close_frame].
  destruct st as [|[?|? [?|]] ?]; try discriminate; injection Hp as <-; split; reflexivity.
Qed.

Lemma writes_elems st : forall xss ts, Forall2 writes xss ts ->
  forall l0, xb_run (mk_b (FArr l0 :: st) None) (concat xss) = Some (mk_b (FArr (l0 ++ ts) :: st) None).
Proof.
  induction 1 as [|xs t xss ts H Hf IH]; intros l0; cbn [concat xb_run]; [rewrite app_nil_r; reflexivity|].
  rewrite xb_run_app. rewrite (H _ _ (b_put_open (FArr l0) st t I)). cbn [add_child]. rewrite IH, <- app_assoc. reflexivity.
Qed.
Lemma writes_entries st : forall (es : list (list Z * slot)) xss ts, Forall2 (fun p t => fst (fst p) = fst t /\ writes (snd p) (snd t)) (combine es xss) ts ->
  forall l0, xb_run (mk_b (FDict l0 None :: st) None) (concat (map (fun p => XOp (OpKey (fst (fst p))) :: snd p) (combine es xss))) =
    Some (mk_b (FDict (l0 ++ ts) None :: st) None).
Proof.
  intros es xss ts. generalize (combine es xss). clear es xss. intros ps.
  induction 1 as [|[[k s] xs] [k' t] ps ts [E H] Hf IH]; intros l0; cbn [map concat xb_run]; [rewrite app_nil_r; reflexivity|].
  cbn [fst snd] in *. subst k'. cbn [app xb_run b_step b_stack b_root].
  rewrite xb_run_app. rewrite (H _ _ (b_put_open (FDict l0 (Some k)) st t I)). cbn [add_child]. rewrite IH, <- app_assoc. reflexivity.
Qed.

Lemma export_writes T dbg : forall t s xs, shows T s t -> exports dbg s xs -> exists t', tsim t t' /\ writes xs t'.
Proof.
  induction t as [t Hsc|l IH|l IH] using tree_nested; intros s xs Hs Hx.
  - assert (Hone : forall bs base, reads_as bs t -> writes [XCopy (mk_env dbg base bs None) (V 0 (lenZ bs))] t).
    { intros bs base Hr b b' Hb. cbn [xb_run]. rewrite (Hr dbg base), Hb. reflexivity. }
    exists t. split; [apply ts_refl|]. inversion Hs; subst; try (destruct Hsc; fail); inversion Hx; subst; apply Hone; assumption.
  - inversion Hs as [? ? Hc|? ? Hc|sl ? Hf|]; subst; try discriminate Hc. inversion Hx as [| |? xss He|]; subst. rewrite ma_elems_id in He.
    assert (G : exists ts, Forall2 tsim l ts /\ Forall2 writes xss ts).
    { clear Hs Hx. revert xss He. induction Hf as [|s x sl l Hsx Hf IHf]; intros xss He; inversion He as [|? xs ? xss' He1 He2]; subst; [exists []; split; constructor|].
      inversion IH as [|? ? IH1 IH2]; subst. destruct (IH1 _ _ Hsx He1) as (x' & H1 & H2). destruct (IHf IH2 _ He2) as (ts & H3 & H4).
      exists (x' :: ts). split; constructor; assumption. }
    destruct G as (ts & H1 & H2). exists (TArr ts). split; [apply ts_arr; exact H1|]. intros b b' Hb.
    destruct (begin_put_arr _ _ _ Hb) as (st & E1 & E2). cbn [xb_run]. change (b_step b (OpBeginArray (ma_len sl))) with (b_step b (OpBeginArray 0)). rewrite E1.
    rewrite xb_run_app, (writes_elems st xss ts H2 []). cbn [app xb_run b_step b_stack]. rewrite E2. reflexivity.
  - destruct s as [bs|bs|sl|m sk]; try (inversion Hs as [? ? Hc|? ? Hc| |]; discriminate Hc).
    destruct (shows_dict _ _ _ _ Hs) as (l1 & l' & E & Hp & Hf & _ & Hk & _). injection E as <-.
    inversion Hx as [| | |? ? xss He]; subst. pose proof (elems_show T m sk l' Hk Hf) as Hes.
    assert (IH2 : Forall (fun kx => forall s xs, shows T s (snd kx) -> exports dbg s xs -> exists t', tsim (snd kx) t' /\ writes xs t') l') by (eapply Permutation_Forall; eassumption).
    assert (G : exists ts, Forall2 esim l' ts /\ Forall2 (fun p t => fst (fst p) = fst t /\ writes (snd p) (snd t)) (combine (md_elems m sk) xss) ts).
    { clear Hs Hx Hf Hp IH. revert xss He. induction Hes as [|[k s] [k' x] es l' [E Hsx] Hf IHf]; intros xss He; inversion He as [|? xs ? xss' He1 He2]; subst; [exists []; split; constructor|].
      inversion IH2 as [|? ? IH1 IH3]; subst. cbn [fst snd] in *. subst k'. destruct (IH1 _ _ Hsx He1) as (x' & H1 & H2). destruct (IHf IH3 _ He2) as (ts & H3 & H4).
      exists ((k, x') :: ts). split; (constructor; [split; [reflexivity|assumption]|assumption]). }
    destruct G as (ts & H1 & H2). exists (TDict ts). split; [eapply ts_dict; eassumption|]. intros b b' Hb.
    destruct (begin_put_dict _ _ _ Hb) as (st & E1 & E2). cbn [xb_run]. rewrite E1.
    rewrite xb_run_app, (writes_entries st _ xss ts H2 []). cbn [app xb_run b_step b_stack]. rewrite E2. reflexivity.
Qed.

(** The program can always be written down. *)
Lemma export_exists T dbg : forall t s, shows T s t -> exists xs, exports dbg s xs.
Proof.
  induction t as [t Hsc|l IH|l IH] using tree_nested; intros s Hs.
  - inversion Hs; subst; try (destruct Hsc; fail); eexists; [apply (ex_inline dbg _ 0)|apply (ex_pointer dbg _ 0)].
  - inversion Hs as [? ? Hc|? ? Hc|sl ? Hf|]; subst; try discriminate Hc.
    assert (G : exists xss, Forall2 (exports dbg) sl xss).
    { clear Hs. induction Hf as [|s x sl l Hsx Hf IHf]; [exists []; constructor|]. inversion IH as [|? ? IH1 IH2]; subst.
      destruct (IH1 _ Hsx) as (xs & H1). destruct (IHf IH2) as (xss & H2). exists (xs :: xss). constructor; assumption. }
    destruct G as (xss & G). eexists. apply ex_arr. rewrite ma_elems_id. exact G.
  - destruct s as [bs|bs|sl|m sk]; try (inversion Hs as [? ? Hc|? ? Hc| |]; discriminate Hc).
    destruct (shows_dict _ _ _ _ Hs) as (l1 & l' & E & Hp & Hf & _ & Hk & _). injection E as <-.
    pose proof (elems_show T m sk l' Hk Hf) as Hes.
    assert (IH2 : Forall (fun kx => forall s, shows T s (snd kx) -> exists xs, exports dbg s xs) l') by (eapply Permutation_Forall; eassumption).
    assert (G : exists xss, Forall2 (fun kx xs => exports dbg (snd kx) xs) (md_elems m sk) xss).
    { clear Hs Hf Hp IH. induction Hes as [|a b es l' [E Hsx] Hf IHf]; [exists []; constructor|]. inversion IH2 as [|? ? IH1 IH3]; subst.
      destruct (IH1 _ Hsx) as (xs & H1). destruct (IHf IH3) as (xss & H2). exists (xs :: xss). constructor; assumption. }
    destruct G as (xss & G). eexists. apply ex_dict. exact G.
Qed.

(* ---------- the calls are ones the encoder handles ---------- *)

Lemma scalar_calls src f v t : scalar t -> writable t -> read_tree (S f) src v = Ret t ->
  exists w, value_calls (S f) src v = Ret [OpValue w] /\ good_op (OpValue w) /\ plain_op (OpValue w) = true.
Proof.
  intros Hsc Hw H. cbn [read_tree value_calls] in *.
  assert (Hone : forall w, wf_enc w -> enc_ok w = true -> no_short_text w = true -> exists w', Ret [OpValue w] = Ret [OpValue w'] /\ good_op (OpValue w') /\ plain_op (OpValue w') = true).
  { intros w H1 H2 H3. exists w. split; [reflexivity|]. split; [split; assumption|exact H3]. }
  destruct (value_type src v) as [ty| | |] eqn:Et; try discriminate. cbn [bind] in *.
  destruct ty; try discriminate;
    repeat (match type of H with bind ?m _ = _ => destruct m eqn:?Em; try discriminate; cbn [bind] in H end);
    apply ret_inj in H; subst t; cbn [bind]; try (destruct Hsc; fail).
  - apply Hone; try reflexivity; exact I.
  - apply Hone; try reflexivity; exact I.
  - apply Hone; try reflexivity; exact I.
  - apply Hone; try reflexivity; exact I.
  - assert (to_short src v = Ret a) as ->.
    { unfold to_int in Em. unfold to_short. rewrite Et in *. cbn [bind] in *. exact Em. }
    inversion Hw; subst. cbn [bind]. apply Hone; [cbn; lia|cbn; lia|reflexivity].
  - inversion Hw; subst. apply Hone; [cbn; unfold two63; lia|cbn; lia|reflexivity].
  - inversion Hw; subst. unfold to_unsigned_int in Em. destruct (to_int src v); try discriminate.
    cbn [bind] in Em. apply ret_inj in Em. apply Hone; [cbn; unfold wrap_u64, two64 in *; lia|cbn; lia|reflexivity].
  - apply Hone; [|reflexivity|reflexivity]. unfold to_float in Em. destruct (to_double src v); try discriminate.
    cbn [bind] in Em. apply ret_inj in Em. subst a. apply f32_range.
  - inversion Hw; subst. apply Hone; [assumption|reflexivity..].
  - inversion Hw; subst. apply Hone; [assumption|reflexivity..].
  - inversion Hw; subst. apply Hone; [assumption|reflexivity|cbn; lia].
  - inversion Hw; subst. apply Hone; [assumption|reflexivity|cbn; lia].
Qed.

(** Calls the encoder handles, of at most [n] bytes, with keys that satisfy [P]. *)
Definition okop (P : list Z -> Prop) (o : op) : Prop :=
  (good_op o /\ plain_op o = true) /\ match o with OpSetSharedKeys _ => False | OpKey k => P k | _ => True end.
Definition fine (P : list Z -> Prop) (xs : list xop) (n : Z) : Prop :=
  exists ll, mapM xcalls xs = Ret ll /\ Forall (okop P) (concat ll) /\ ops_size (concat ll) <= n.

Lemma mapM_app {A B} (f : A -> outcome B) : forall l m a b, mapM f l = Ret a -> mapM f m = Ret b -> mapM f (l ++ m) = Ret (a ++ b).
Proof.
  induction l as [|x l IH]; intros m a b Ha Hb; cbn [mapM app] in *; [apply ret_inj in Ha; subst; exact Hb|].
  destruct (f x); try discriminate. cbn [bind] in *. destruct (mapM f l) as [c| | |]; try discriminate. cbn [bind] in Ha. apply ret_inj in Ha. subst a.
  rewrite (IH m c b eq_refl Hb). reflexivity.
Qed.
Lemma fine_app P xs ys n m : fine P xs n -> fine P ys m -> fine P (xs ++ ys) (n + m).
Proof.
  intros (l1 & H1 & H2 & H3) (l2 & H4 & H5 & H6). exists (l1 ++ l2). split; [apply mapM_app; assumption|]. rewrite concat_app, ops_size_app.
  split; [apply Forall_app; split; assumption|lia].
Qed.
Lemma fine_nil P : fine P [] 0.
Proof. exists []. split; [reflexivity|]. split; [constructor|]. cbn. lia. Qed.
Lemma fine_op P o : okop P o -> fine P [XOp o] (op_size o).
Proof. intros H. exists [[o]]. split; [reflexivity|]. cbn [concat app]. split; [constructor; [exact H|constructor]|]. cbn [ops_size fold_right]. lia. Qed.
Lemma fine_concat P : forall xss ns, Forall2 (fine P) xss ns -> fine P (concat xss) (fold_right Z.add 0 ns).
Proof. induction 1 as [|xs n xss ns H Hf IH]; cbn [concat fold_right]; [apply fine_nil|]. apply fine_app; assumption. Qed.
Lemma fine_weaken P xs n m : fine P xs n -> n <= m -> fine P xs m.
Proof. intros (ll & H1 & H2 & H3) H. exists ll. repeat (split; [assumption|]). lia. Qed.

Lemma bytes_size_pos n : 0 <= n < two64 -> 0 <= bytes_fleece_size n.
Proof. intros H. pose proof (Stored.varint_size_pos n H). unfold bytes_fleece_size. repeat (match goal with |- context [if ?b then _ else _] => destruct b end); lia. Qed.
Lemma str_size s : wf_enc (EStr s) -> 0 <= bytes_fleece_size (lenZ s).
Proof. intros H. apply bytes_size_pos. cbn [wf_enc] in H. unfold lenZ, two64, two63 in *. lia. Qed.
Lemma data_size s : wf_enc (EData s) -> 0 <= bytes_fleece_size (lenZ s).
Proof. intros H. apply bytes_size_pos. cbn [wf_enc] in H. unfold lenZ, two64, two63 in *. lia. Qed.

Lemma writable_size : forall t, writable t -> 5 <= tree_size t.
Proof.
  induction t as [t Hsc|l IH|l IH] using tree_nested; intros Hw.
  - inversion Hw; subst; cbn [tree_size]; try lia; try (destruct Hsc; fail).
    + pose proof (str_size _ H). lia.
    + pose proof (data_size _ H). lia.
  - inversion Hw as [| | | | | | | |? Hl|]; subst. cbn [tree_size]. assert (0 <= fold_right (fun x n => tree_size x + n) 0 l); [|lia]. clear Hw.
    induction l as [|x l IHl]; cbn [fold_right]; [lia|]. inversion IH; inversion Hl; subst. pose proof (H1 H5). specialize (IHl H2 H6). lia.
  - inversion Hw as [| | | | | | | | |? Hl]; subst. cbn [tree_size]. assert (0 <= fold_right (fun kx n => bytes_fleece_size (lenZ (fst kx)) + 5 + tree_size (snd kx) + n) 0 l); [|lia]. clear Hw.
    induction l as [|x l IHl]; cbn [fold_right]; [lia|]. inversion IH as [|? ? H1 H2]; inversion Hl as [|? ? [[H3 _] H4] H5]; subst. pose proof (H1 H4). pose proof (str_size _ H3). specialize (IHl H2 H5). lia.
Qed.
Lemma elems_count l : Forall writable l -> lenZ l <= fold_right (fun x n => tree_size x + n) 0 l.
Proof. induction 1 as [|x l H Hf IH]; cbn [fold_right]; [cbn; lia|]. pose proof (writable_size _ H). rewrite lenZ_cons. lia. Qed.

Lemma export_fine T dbg P : forall t s xs, shows T s t -> writable t -> keys_all P t -> tree_size t < two63 / 4 -> exports dbg s xs -> fine P xs (tree_size t).
Proof.
  induction t as [t Hsc|l IH|l IH] using tree_nested; intros s xs Hs Hw Hk Hz Hx.
  - assert (Hone : forall bs base, reads_as bs t -> fine P [XCopy (mk_env dbg base bs None) (V 0 (lenZ bs))] (tree_size t)).
    { intros bs base Hr. specialize (Hr dbg base). unfold read_doc, fuel_of in Hr. cbn [e_data] in Hr.
      destruct (scalar_calls _ _ _ _ Hsc Hw Hr) as (w & H1 & H2 & H3). exists [[OpValue w]]. split; [cbn [mapM xcalls]; unfold fuel_of; cbn [e_data]; rewrite H1; reflexivity|].
      cbn [concat app]. split; [constructor; [split; [split; assumption|exact I]|constructor]|]. eapply calls_size; [exact Hr|exact H1|]. constructor; [exact H2|constructor]. }
    inversion Hs; subst; try (destruct Hsc; fail); inversion Hx; subst; apply Hone; assumption.
  - inversion Hs as [? ? Hc|? ? Hc|sl ? Hf|]; subst; try discriminate Hc. inversion Hx as [| |? xss He|]; subst. rewrite ma_elems_id in He.
    inversion Hw as [| | | | | | | |? Hl|]; subst. inversion Hk as [? Hc|? Hkl|]; subst; [discriminate Hc|]. cbn [tree_size] in *.
    assert (Hlen : ma_len sl = lenZ l) by (unfold ma_len; exact (F2_len _ _ _ Hf)).
    pose proof (elems_count l Hl) as Hcnt.
    assert (G : fine P (concat xss) (fold_right (fun x n => tree_size x + n) 0 l)).
    { assert (Hz' : fold_right (fun x n => tree_size x + n) 0 l < two63 / 4) by lia.
      clear Hs Hx Hw Hk Hz Hlen Hcnt. revert xss He. induction Hf as [|s x sl l Hsx Hf IHf]; intros xss He; inversion He as [|? xs ? xss' He1 He2]; subst; cbn [concat fold_right] in *; [apply fine_nil|].
      inversion IH as [|? ? IH1 IH2]; inversion Hl as [|? ? Hl1 Hl2]; inversion Hkl as [|? ? Hk1 Hk2]; subst.
      pose proof (writable_size _ Hl1). pose proof (elems_count l Hl2). unfold lenZ in *.
      apply fine_app; [eapply IH1; eauto; lia|]. apply IHf; auto; lia. }
    eapply fine_weaken; [apply (fine_app P [_] (concat xss ++ _)); [apply fine_op|apply fine_app; [exact G|apply fine_op]]|cbn [op_size]; lia].
    + split; [split; [|reflexivity]|exact I]. cbn [good_op]. rewrite Hlen. revert Hz Hcnt. unfold two63. lia.
    + split; [split; [exact I|reflexivity]|exact I].
  - destruct s as [bs|bs|sl|m sk]; try (inversion Hs as [? ? Hc|? ? Hc| |]; discriminate Hc).
    destruct (shows_dict _ _ _ _ Hs) as (l1 & l' & E & Hp & Hf & _ & Hki & _). injection E as <-.
    inversion Hx as [| | |? ? xss He]; subst. pose proof (elems_show T m sk l' Hki Hf) as Hes.
    inversion Hw as [| | | | | | | | |? Hl0]; subst. inversion Hk as [? Hc| |? Hkl0]; subst; [discriminate Hc|].
    assert (Hz' : tree_size (TDict l') = tree_size (TDict l)).
    { symmetry. apply tree_size_tsim. eapply ts_dict; [exact Hp|]. clear. induction l'; constructor; [split; [reflexivity|apply ts_refl]|assumption]. }
    rewrite <- Hz' in Hz |- *. clear Hz' Hs Hx Hw Hk Hf.
    pose proof (Permutation_Forall Hp Hl0) as Hl. pose proof (Permutation_Forall Hp Hkl0) as Hkl. pose proof (Permutation_Forall Hp IH) as IH'.
    cbn [tree_size] in *.
    assert (G : fine P (concat (map (fun p => XOp (OpKey (fst (fst p))) :: snd p) (combine (md_elems m sk) xss)))
      (fold_right (fun kx n => bytes_fleece_size (lenZ (fst kx)) + 5 + tree_size (snd kx) + n) 0 l')).
    { assert (Hz' : fold_right (fun kx n => bytes_fleece_size (lenZ (fst kx)) + 5 + tree_size (snd kx) + n) 0 l' < two63 / 4) by lia.
      clear Hz Hp IH Hl0 Hkl0. revert xss He. induction Hes as [|[k s] [k' x] es l' [E Hsx] Hf IHf]; intros xss He; inversion He as [|? xs ? xss' He1 He2]; subst; cbn [combine map concat fold_right] in *; [apply fine_nil|].
      inversion IH' as [|? ? IH1 IH2]; inversion Hl as [|? ? Hl1 Hl2]; inversion Hkl as [|? ? Hk1 Hk2]; subst. cbn [fst snd] in *. subst k'.
      destruct Hl1 as [[Hk3 Hk4] Hl1]. destruct Hk1 as [Hk1 Hk5]. pose proof (writable_size _ Hl1). pose proof (str_size _ Hk3).
      assert (0 <= fold_right (fun kx n => bytes_fleece_size (lenZ (fst kx)) + 5 + tree_size (snd kx) + n) 0 l').
      { clear - Hl2. induction Hl2 as [|[k x] l [[H1 _] H2] Hf IH]; cbn [fold_right fst snd] in *; [lia|]. pose proof (writable_size _ H2). pose proof (str_size _ H1). lia. }
      eapply fine_weaken; [apply (fine_app P (_ :: xs)); [apply (fine_app P [_] xs); [apply fine_op|eapply IH1; eauto; lia]|apply IHf; auto; lia]|cbn [op_size]; lia].
      split; [split; [exact Hk3|cbn [plain_op]; lia]|exact Hk1]. }
    eapply fine_weaken; [apply (fine_app P [_] (_ ++ _)); [apply fine_op|apply fine_app; [exact G|apply fine_op]]|cbn [op_size]; lia]; (split; [split; [exact I|reflexivity]|exact I]).
Qed.

(* ---------- writing a collection out ---------- *)

Lemma coll_put t : is_coll t = true -> b_put b_init t = Ok (mk_b [] (Some t)).
Proof. destruct t; try discriminate; reflexivity. Qed.
Lemma decodes_sim d base bs sk t t' : tsim t t' -> decodes_to d base bs sk t' -> decodes_to d base bs sk t.
Proof. intros H (v & x & H1 & H2 & H3 & H4). exists v, x. split; [exact H1|]. split; [exact H2|]. split; [exact H3|]. eapply tsim_trans; eassumption. Qed.

Lemma with_keys_writes sk xs b : xb_run b (with_keys sk xs) = xb_run b xs.
Proof. destruct sk; reflexivity. Qed.

Lemma write_out_any T dbg c s t sk : sort_ok (c_sort c) -> shows T s t -> is_coll t = true ->
  forall xs, exports dbg s xs -> forall ll, mapM xcalls (with_keys sk xs) = Ret ll ->
  Forall good_op (concat ll) -> keys_ok false (concat ll) -> layout_ok (c_ua c) 0 (concat ll) -> ops_size (concat ll) <= MAX_WIDE ->
  exists e' bs, xrun c enc_new (with_keys sk xs) = Ret (e', Ok tt) /\ finish c e' = Ret bs /\
    forall d base, addressable base bs -> decodes_to d base bs (en_sk e') t.
Proof.
  intros Hs Hsh Hcoll xs Hx ll Hc Hg Hk Hl Hz. destruct (export_writes T dbg t s xs Hsh Hx) as (t' & Hts & Hw).
  assert (Hcoll' : is_coll t' = true) by (destruct Hts; try exact Hcoll; reflexivity).
  pose proof (Hw _ _ (coll_put t' Hcoll')) as Hxb. rewrite <- (with_keys_writes sk xs) in Hxb.
  destruct (copy_round_trip c [] (with_keys sk xs) ll _ t' Hs eq_refl Hc Hg Hk Hl ltac:(cbn [lenZ length Z.of_nat]; exact Hz) Hxb eq_refl) as (e' & D & H1 & H2 & H3).
  exists e', D. split; [exact H1|]. split; [exact H2|]. intros d base Ha. eapply decodes_sim; [exact Hts|]. exact (H3 d base Ha).
Qed.

Lemma okop_keys (P : list Z -> Prop) b ops : (b = true -> forall k, P k -> lenZ k <> 16) -> Forall (okop P) ops -> keys_ok b ops.
Proof.
  intros Hb. induction 1 as [|o ops [_ H] Hf IH]; [exact I|]. destruct o; cbn [keys_ok]; try exact IH; try (destruct H; fail). split; [|exact IH]. intros E. exact (Hb E _ H).
Qed.
Lemma keys_all_true : forall t, keys_all (fun _ => True) t.
Proof.
  induction t as [t Hsc|l IH|l IH] using tree_nested; [apply ka_scalar; destruct t; try reflexivity; destruct Hsc|apply ka_arr; exact IH|].
  apply ka_dict. eapply Forall_impl; [|exact IH]. cbn beta. auto.
Qed.

Lemma write_out T dbg c s t sk : sort_ok (c_sort c) -> shows T s t -> is_coll t = true ->
  writable t -> tree_size t <= MAX_NARROW -> fits_keys sk t ->
  (exists xs, exports dbg s xs) /\
  forall xs, exports dbg s xs ->
  exists e' bs, xrun c enc_new (with_keys sk xs) = Ret (e', Ok tt) /\ finish c e' = Ret bs /\
    (sk = None -> en_sk e' = None) /\
    forall d base, addressable base bs -> decodes_to d base bs (en_sk e') t.
Proof.
  intros Hs Hsh Hcoll Hw Hz Hf. split; [eapply export_exists; exact Hsh|]. intros xs Hx.
  set (P := fun k : list Z => match sk with Some _ => lenZ k <> 16 | None => True end).
  assert (HP : keys_all P t) by (subst P; destruct sk; [exact Hf|apply keys_all_true]).
  destruct (export_fine T dbg P t s xs Hsh Hw HP ltac:(unfold MAX_NARROW, two63 in *; lia) Hx) as (ll0 & H1 & H2 & H3).
  set (ll := match sk with Some tb => [OpSetSharedKeys tb] :: ll0 | None => ll0 end).
  assert (Hm : mapM xcalls (with_keys sk xs) = Ret ll) by (subst ll; destruct sk; cbn [with_keys mapM xcalls bind]; [rewrite H1; reflexivity|exact H1]).
  assert (Hok : Forall (fun o => good_op o /\ plain_op o = true) (concat ll)).
  { assert (G : Forall (fun o => good_op o /\ plain_op o = true) (concat ll0)) by (eapply Forall_impl; [|exact H2]; intros o [Ho _]; exact Ho).
    subst ll; destruct sk; [|exact G]. cbn [concat app]. constructor; [split; [exact I|reflexivity]|exact G]. }
  assert (Hsz : ops_size (concat ll) = ops_size (concat ll0)) by (subst ll; destruct sk; reflexivity).
  assert (Hk : keys_ok false (concat ll)).
  { subst ll P. destruct sk; cbn [concat app keys_ok]; [split; [reflexivity|]|]; (eapply okop_keys; [|exact H2]); [intros _ k Hk; exact Hk|discriminate]. }
  assert (Hg : Forall good_op (concat ll)) by (eapply Forall_impl; [|exact Hok]; cbn beta; tauto).
  destruct (write_out_any T dbg c s t sk Hs Hsh Hcoll xs Hx ll Hm Hg Hk) as (e' & bs & R1 & R2 & R3).
  { left. split; [|lia]. apply forallb_forall. intros o Hin. rewrite Forall_forall in Hok. apply Hok. exact Hin. }
  { unfold MAX_WIDE, MAX_NARROW in *. lia. }
  exists e', bs. split; [exact R1|]. split; [exact R2|]. split; [|exact R3]. intros ->. cbn [with_keys] in R1. subst ll.
  assert (Hrun : enc_run c enc_new (concat ll0) = Ret (e', repeat (Ok tt) (length (concat ll0)))).
  { apply for_each_run. rewrite <- (xrun_calls c xs ll0 Hm enc_new). exact R1. }
  apply (sk_none_run c _ _ _ _ Hrun); [reflexivity|]. intros tb Hin. rewrite Forall_forall in H2. destruct (H2 _ Hin) as [_ []].
Qed.

(* ---------- changing a collection ---------- *)

Lemma apply_coll o t t' : sop_apply o t = Ret (Some t') -> is_coll t' = true.
Proof.
  intros H. unfold sop_apply in H. destruct t, o; try discriminate H; try (destruct (_ <? _) in H; [|discriminate H]); apply ret_inj in H; injection H as <-; reflexivity.
Qed.
Lemma sop_coll o : forall p t t', sop_at p o t = Ret (Some t') -> is_coll t' = true.
Proof.
  intros [|[i|k] p] t t' H; cbn [sop_at] in H; [eapply apply_coll; exact H| |]; destruct t; try discriminate.
  - destruct (nthZ l i); try discriminate. destruct (sop_at p o t) as [[x|]| | |]; try discriminate; cbn [bind] in H; apply ret_inj in H; injection H as <-; reflexivity.
  - destruct (assoc k l); try discriminate. destruct (sop_at p o t) as [[x|]| | |]; try discriminate; cbn [bind] in H; apply ret_inj in H; injection H as <-; reflexivity.
Qed.
Lemma srun_coll : forall ops t t', is_coll t = true -> srun t ops = Ret t' -> is_coll t' = true.
Proof.
  induction ops as [|[p o] ops IH]; intros t t' Hc H; cbn [srun] in H; [apply ret_inj in H; subst; exact Hc|].
  destruct (sop_at p o t) as [r| | |] eqn:E; try discriminate. cbn [bind] in H. refine (IH _ _ _ H). destruct r; [eapply sop_coll; exact E|exact Hc].
Qed.

Lemma set_at_other {A} (x : A) : forall l n i, 0 <= i -> i <> Z.of_nat n -> nthZ (set_at n x l) i = nthZ l i.
Proof.
  induction l as [|y l IH]; intros n i Hi Hn; [destruct n; reflexivity|]. destruct n as [|n]; cbn [set_at].
  - rewrite !nthZ_cons_S by lia. reflexivity.
  - destruct (Z.eq_dec i 0) as [->|H0]; [rewrite !nthZ_cons_0; reflexivity|]. rewrite !nthZ_cons_S by lia. apply IH; lia.
Qed.
Lemma set_at_same {A} (x y : A) : forall l n, nthZ l (Z.of_nat n) = Some y -> nthZ (set_at n x l) (Z.of_nat n) = Some x.
Proof.
  induction l as [|z l IH]; intros n H; [apply nthZ_Some in H; cbn in H; lia|]. destruct n as [|n]; cbn [set_at]; [reflexivity|].
  rewrite nthZ_cons_S in * by lia. replace (Z.of_nat (S n) - 1) with (Z.of_nat n) in * by lia. apply IH. exact H.
Qed.
Lemma nthZ_neg {A} (l : list A) i : i < 0 -> nthZ l i = None.
Proof. intros H. apply nthZ_None. lia. Qed.
Lemma put_same k x l : assoc k (put k x l) = Some x.
Proof.
  induction l as [|[k' y] l IH]; cbn [put assoc]; [rewrite bytes_eqb_refl; reflexivity|].
  destruct (bytes_eqb k' k) eqn:E; cbn [assoc]; [rewrite bytes_eqb_refl; reflexivity|rewrite E; exact IH].
Qed.
Lemma put_other k k' x l : k <> k' -> assoc k' (put k x l) = assoc k' l.
Proof.
  intros Hn. induction l as [|[j y] l IH]; cbn [put assoc].
  - destruct (bytes_eqb k k') eqn:E; [apply bytes_eqb_eq in E; congruence|reflexivity].
  - destruct (bytes_eqb j k) eqn:E; cbn [assoc]; [|destruct (bytes_eqb j k'); [reflexivity|exact IH]].
    apply bytes_eqb_eq in E. subst j. destruct (bytes_eqb k k') eqn:E; [apply bytes_eqb_eq in E; congruence|reflexivity].
Qed.

Lemma sop_elsewhere o : forall p q t t', apart p q -> sop_at p o t = Ret (Some t') -> tree_at t' (to_path q) = tree_at t (to_path q).
Proof.
  intros p q t t' Ha. revert t t'. induction Ha as [s s' p q Hne|s p q Ha IH]; intros t t' H; cbn [sop_at] in H.
  - destruct s as [i|k]; destruct t; try discriminate.
    + destruct (nthZ l i) as [x|] eqn:En; try discriminate. destruct (sop_at p o x) as [[x'|]| | |]; try discriminate; cbn [bind] in H; apply ret_inj in H; injection H as <-.
      destruct s' as [j|k]; cbn [to_path map tree_at]; [|reflexivity].
      assert (Hi : 0 <= i) by (destruct (Z_lt_le_dec i 0) as [Hlt|]; [rewrite (nthZ_neg l i Hlt) in En; discriminate|assumption]).
      destruct (Z_lt_le_dec j 0) as [Hj|Hj]; [rewrite !(nthZ_neg _ j Hj); reflexivity|]. rewrite set_at_other; [reflexivity|exact Hj|]. intros E. apply Hne. f_equal. lia.
    + destruct (assoc k l) as [x|] eqn:En; try discriminate. destruct (sop_at p o x) as [[x'|]| | |]; try discriminate; cbn [bind] in H; apply ret_inj in H; injection H as <-.
      destruct s' as [j|k']; cbn [to_path map tree_at]; [reflexivity|]. rewrite put_other by congruence. reflexivity.
  - destruct s as [i|k]; destruct t; try discriminate.
    + destruct (nthZ l i) as [x|] eqn:En; try discriminate. destruct (sop_at p o x) as [[x'|]| | |] eqn:Es; try discriminate; cbn [bind] in H; apply ret_inj in H; injection H as <-.
      assert (Hi : 0 <= i) by (destruct (Z_lt_le_dec i 0) as [Hlt|]; [rewrite (nthZ_neg l i Hlt) in En; discriminate|assumption]).
      unfold to_path in *. cbn [map tree_at]. pose proof (set_at_same x' x l (Z.to_nat i)) as Hse. rewrite Z2Nat.id in Hse by exact Hi.
      rewrite (Hse En), En. exact (IH _ _ Es).
    + destruct (assoc k l) as [x|] eqn:En; try discriminate. destruct (sop_at p o x) as [[x'|]| | |] eqn:Es; try discriminate; cbn [bind] in H; apply ret_inj in H; injection H as <-.
      unfold to_path in *. cbn [map tree_at]. rewrite En, put_same. exact (IH _ _ Es).
Qed.
Lemma srun_elsewhere q : forall ops t t', Forall (fun po => apart (fst po) q) ops -> srun t ops = Ret t' -> tree_at t' (to_path q) = tree_at t (to_path q).
Proof.
  induction ops as [|[p o] ops IH]; intros t t' Hf H; cbn [srun] in H; [apply ret_inj in H; subst; reflexivity|].
  inversion Hf as [|? ? H1 H2]; subst. destruct (sop_at p o t) as [r| | |] eqn:E; try discriminate. cbn [bind] in H. rewrite (IH _ _ H2 H).
  destruct r; [eapply sop_elsewhere; [exact H1|exact E]|reflexivity].
Qed.

(* ---------- together ---------- *)

Lemma edit_shows T dbg src v t ops ops' t' : holdable T src v t -> is_coll t = true -> means_all T ops ops' -> srun t ops' = Ret t' ->
  exists s0 s, slot_from_fleece (fuel_of src) dbg src v false = Ret s0 /\ mrun dbg s0 ops = Ret s /\ shows T s t' /\ is_coll t' = true.
Proof.
  intros Hh Hc Hm Hr. destruct (holdable_shows T dbg src v t Hh) as (s0 & H1 & H2). pose proof (run_sim T dbg _ _ Hm _ _ H2) as H3. rewrite Hr in H3.
  destruct H3 as (s & H3 & H4). exists s0, s. split; [exact H1|]. split; [exact H3|]. split; [exact H4|]. eapply srun_coll; eassumption.
Qed.
Lemma edit_document T dbg c src v t ops ops' t' sk :
  holdable T src v t -> is_coll t = true -> means_all T ops ops' -> srun t ops' = Ret t' ->
  writable t' -> tree_size t' <= MAX_NARROW -> fits_keys sk t' -> sort_ok (c_sort c) ->
  exists s0 s, slot_from_fleece (fuel_of src) dbg src v false = Ret s0 /\ mrun dbg s0 ops = Ret s /\
  (exists xs, exports dbg s xs) /\
  forall xs, exports dbg s xs ->
  exists e' bs, xrun c enc_new (with_keys sk xs) = Ret (e', Ok tt) /\ finish c e' = Ret bs /\
    (sk = None -> en_sk e' = None) /\
    forall d base, addressable base bs -> decodes_to d base bs (en_sk e') t'.
Proof.
  intros Hh Hc Hm Hr Hw Hz Hf Hs. destruct (edit_shows T dbg src v t ops ops' t' Hh Hc Hm Hr) as (s0 & s & H1 & H2 & H3 & H4).
  exists s0, s. split; [exact H1|]. split; [exact H2|]. eapply write_out; eassumption.
Qed.
Lemma edit_document_any T dbg c src v t ops ops' t' sk :
  holdable T src v t -> is_coll t = true -> means_all T ops ops' -> srun t ops' = Ret t' -> sort_ok (c_sort c) ->
  exists s0 s, slot_from_fleece (fuel_of src) dbg src v false = Ret s0 /\ mrun dbg s0 ops = Ret s /\
  (exists xs, exports dbg s xs) /\
  forall xs ll, exports dbg s xs -> mapM xcalls (with_keys sk xs) = Ret ll ->
  Forall good_op (concat ll) -> keys_ok false (concat ll) -> layout_ok (c_ua c) 0 (concat ll) -> ops_size (concat ll) <= MAX_WIDE ->
  exists e' bs, xrun c enc_new (with_keys sk xs) = Ret (e', Ok tt) /\ finish c e' = Ret bs /\
    forall d base, addressable base bs -> decodes_to d base bs (en_sk e') t'.
Proof.
  intros Hh Hc Hm Hr Hs. destruct (edit_shows T dbg src v t ops ops' t' Hh Hc Hm Hr) as (s0 & s & H1 & H2 & H3 & H4).
  exists s0, s. split; [exact H1|]. split; [exact H2|]. split; [eapply export_exists; exact H3|]. intros xs ll Hx Hl. eapply write_out_any; eassumption.
Qed.
Lemma new_document T dbg c s0 t0 ops ops' t' sk : shows T s0 t0 -> is_coll t0 = true ->
  means_all T ops ops' -> srun t0 ops' = Ret t' ->
  writable t' -> tree_size t' <= MAX_NARROW -> fits_keys sk t' -> sort_ok (c_sort c) ->
  exists s, mrun dbg s0 ops = Ret s /\
  (exists xs, exports dbg s xs) /\
  forall xs, exports dbg s xs ->
  exists e' bs, xrun c enc_new (with_keys sk xs) = Ret (e', Ok tt) /\ finish c e' = Ret bs /\
    (sk = None -> en_sk e' = None) /\
    forall d base, addressable base bs -> decodes_to d base bs (en_sk e') t'.
Proof.
  intros H0 Hc Hm Hr Hw Hz Hf Hs. pose proof (run_sim T dbg _ _ Hm _ _ H0) as H3. rewrite Hr in H3. destruct H3 as (s & H3 & H4).
  exists s. split; [exact H3|]. eapply write_out; try eassumption. eapply srun_coll; eassumption.
Qed.
