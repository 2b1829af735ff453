(** [Debug] shows what reading reads. *)
From Verif Require Import Prelude Lib Utf8 Float SharedKeys Decode Read Encodable Encoder ReadSpec BuilderSpec LayoutSpec EncoderInv EncoderClean EncoderProtocol De UntrustedSpec Safety Navigate Untrusted Show ShowSpec.
From Coq Require Import ZifyBool ZifyNat ZifyN.
Ltac Zify.zify_post_hook ::= Z.div_mod_to_equations.

Lemma mapM_content {A B C D} (f : A -> outcome B) (g : A -> outcome C) (h : D -> option C) (k : B -> D) l m :
  (forall x t, In x l -> g x = Ret t -> exists s, f x = Ret s /\ h (k s) = Some t) -> mapM g l = Ret m ->
  exists s, mapM f l = Ret s /\ all_some (map (fun s => h (k s)) s) = Some m.
Proof.
  revert m. induction l as [|x l IH]; intros m Hx Hm; cbn [mapM] in *.
  - apply ret_inj in Hm. subst m. exists []. auto.
  - apply bind_inv in Hm as (t & E1 & Hm). apply bind_inv in Hm as (ts & E2 & Hm). apply ret_inj in Hm. subst m.
    destruct (Hx x t (or_introl eq_refl) E1) as (s & Es & Hs).
    destruct (IH ts) as (ss & Ess & Hss); [intros; apply Hx; [right|]; assumption|exact E2|].
    rewrite Es, Ess. cbn [bind]. exists (s :: ss). split; [reflexivity|]. cbn [map all_some]. rewrite Hs, Hss. reflexivity.
Qed.
Lemma mapM_read {A B C D} (f : A -> outcome B) (g : A -> outcome C) (h : D -> option C) (k : B -> D) l s m :
  (forall x s t, In x l -> f x = Ret s -> h (k s) = Some t -> g x = Ret t) -> mapM f l = Ret s ->
  all_some (map (fun s => h (k s)) s) = Some m -> mapM g l = Ret m.
Proof.
  revert s m. induction l as [|x l IH]; intros s m Hx Hm Ha; cbn [mapM] in *.
  - apply ret_inj in Hm. subst s. cbn in Ha. injection Ha as <-. reflexivity.
  - apply bind_inv in Hm as (t & E1 & Hm). apply bind_inv in Hm as (ts & E2 & Hm). apply ret_inj in Hm. subst s.
    cbn [map all_some] in Ha. destruct (h (k t)) as [y|] eqn:Ey; [|discriminate].
    destruct (all_some (map _ ts)) as [ys|] eqn:Eys; [|discriminate]. injection Ha as <-.
    rewrite (Hx x t y (or_introl eq_refl) E1 Ey). cbn [bind]. rewrite (IH ts ys); [reflexivity| |exact E2|exact Eys].
    intros; eapply Hx; [right; eassumption| |]; eassumption.
Qed.

Lemma show_read e : forall f v t, read_tree f e v = Ret t -> exists s, show f e v = Ret s /\ content s = Some t.
Proof.
  induction f as [|f IH]; intros v t H; cbn [read_tree show] in *; [discriminate|].
  apply bind_inv in H as (ty & Et & H). rewrite Et. cbn [bind].
  destruct ty.
  all: try (apply ret_inj in H; subst t; eexists; split; [reflexivity|reflexivity]).
  all: try (unfold to_bool in H; rewrite Et in H; cbn [bind] in H; apply ret_inj in H; subst t; eexists; split; [reflexivity|reflexivity]).
  - unfold to_int in H. rewrite Et in H. cbn [bind] in H. unfold to_short. rewrite Et. cbn [bind].
    apply bind_inv in H as (z & Ez & H). apply ret_inj in H. subst t. rewrite Ez. cbn [bind]. eexists; split; reflexivity.
  - apply bind_inv in H as (z & Ez & H). apply ret_inj in H. subst t. rewrite Ez. cbn [bind]. eexists; split; reflexivity.
  - apply bind_inv in H as (z & Ez & H). apply ret_inj in H. subst t. rewrite Ez. cbn [bind]. eexists; split; reflexivity.
  - apply bind_inv in H as (z & Ez & H). apply ret_inj in H. subst t. unfold to_float in Ez. apply bind_inv in Ez as (d & Ed & Ez).
    apply ret_inj in Ez. subst z. rewrite Ed. cbn [bind]. eexists; split; reflexivity.
  - apply bind_inv in H as (z & Ez & H). apply ret_inj in H. subst t. rewrite Ez. cbn [bind]. eexists; split; reflexivity.
  - apply bind_inv in H as (z & Ez & H). apply ret_inj in H. subst t. rewrite Ez. cbn [bind]. eexists; split; reflexivity.
  - apply bind_inv in H as (z & Ez & H). apply ret_inj in H. subst t. rewrite Ez. cbn [bind]. eexists; split; reflexivity.
  - apply bind_inv in H as (z & Ez & H). apply ret_inj in H. subst t. rewrite Ez. cbn [bind]. eexists; split; reflexivity.
  - apply bind_inv in H as (vs & Evs & H). apply bind_inv in H as (l & El & H). apply ret_inj in H. subst t. rewrite Evs. cbn [bind].
    destruct (mapM_content (show f e) (read_tree f e) content (fun x => x) vs l) as (s & Es & Hs); [intros; apply IH; assumption|exact El|].
    rewrite Es. cbn [bind]. eexists. split; [reflexivity|]. cbn [content]. change (map content s) with (map (fun s => content s) s). rewrite Hs. reflexivity.
  - apply bind_inv in H as (vs & Evs & H). apply bind_inv in H as (l & El & H). apply ret_inj in H. subst t. rewrite Evs. cbn [bind].
    destruct (mapM_content (fun kv => x <- show f e (snd kv) ;; Ret (fst kv, x)) (fun kv => x <- read_tree f e (snd kv) ;; Ret (fst kv, x))
                (fun kv => option_map (pair (fst kv)) (content (snd kv))) (fun x => x) vs l) as (s & Es & Hs); [|exact El|].
    { intros x t _ Hx. apply bind_inv in Hx as (y & Ey & Hx). apply ret_inj in Hx. subst t. destruct (IH _ _ Ey) as (z & Ez & Hz).
      rewrite Ez. cbn [bind]. eexists. split; [reflexivity|]. cbn [fst snd]. rewrite Hz. reflexivity. }
    rewrite Es. cbn [bind]. eexists. split; [reflexivity|]. cbn [content]. rewrite Hs. reflexivity.
  - discriminate.
Qed.

Lemma read_show e : forall f v s t, show f e v = Ret s -> content s = Some t -> read_tree f e v = Ret t.
Proof.
  induction f as [|f IH]; intros v s t H Hc; cbn [read_tree show] in *; [discriminate|].
  apply bind_inv in H as (ty0 & _ & H). apply bind_inv in H as (ty & Et & H). rewrite Et. cbn [bind].
  destruct ty.
  all: try (apply ret_inj in H; subst s; cbn [content] in Hc; injection Hc as <-; try reflexivity; unfold to_bool; rewrite Et; reflexivity).
  - unfold to_short in H. rewrite Et in H. cbn [bind] in H. apply bind_inv in H as (z & Ez & H). apply ret_inj in H. subst s. cbn [content] in Hc. injection Hc as <-.
    unfold to_int. rewrite Et. cbn [bind]. rewrite Ez. reflexivity.
  - apply bind_inv in H as (z & Ez & H). apply ret_inj in H. subst s. cbn [content] in Hc. injection Hc as <-. rewrite Ez. reflexivity.
  - apply bind_inv in H as (z & Ez & H). apply ret_inj in H. subst s. cbn [content] in Hc. injection Hc as <-. rewrite Ez. reflexivity.
  - apply bind_inv in H as (z & Ez & H). apply ret_inj in H. subst s. cbn [content] in Hc. injection Hc as <-. unfold to_float. rewrite Ez. reflexivity.
  - apply bind_inv in H as (z & Ez & H). apply ret_inj in H. subst s. cbn [content] in Hc. injection Hc as <-. rewrite Ez. reflexivity.
  - apply bind_inv in H as (z & Ez & H). apply ret_inj in H. subst s. cbn [content] in Hc. injection Hc as <-. rewrite Ez. reflexivity.
  - apply bind_inv in H as (z & Ez & H). apply ret_inj in H. subst s. cbn [content] in Hc. injection Hc as <-. rewrite Ez. reflexivity.
  - apply bind_inv in H as (z & Ez & H). apply ret_inj in H. subst s. cbn [content] in Hc. injection Hc as <-. rewrite Ez. reflexivity.
  - apply bind_inv in H as (vs & Evs & H). apply bind_inv in H as (l & El & H). apply ret_inj in H. subst s. cbn [content] in Hc.
    destruct (all_some (map content l)) as [m|] eqn:Em; [|discriminate]. injection Hc as <-. rewrite Evs. cbn [bind].
    rewrite (mapM_read (show f e) (read_tree f e) content (fun x => x) vs l m); [reflexivity|intros; eapply IH; eassumption|exact El|exact Em].
  - apply bind_inv in H as (vs & Evs & H). apply bind_inv in H as (l & El & H). apply ret_inj in H. subst s. cbn [content] in Hc.
    destruct (all_some (map _ l)) as [m|] eqn:Em; [|discriminate]. injection Hc as <-. rewrite Evs. cbn [bind].
    rewrite (mapM_read (fun kv => x <- show f e (snd kv) ;; Ret (fst kv, x)) (fun kv => x <- read_tree f e (snd kv) ;; Ret (fst kv, x))
                (fun kv => option_map (pair (fst kv)) (content (snd kv))) (fun x => x) vs l m); [reflexivity| |exact El|exact Em].
    intros x s t _ Hx Hs. apply bind_inv in Hx as (y & Ey & Hx). apply ret_inj in Hx. subst s. cbn [fst snd] in Hs.
    destruct (content y) as [z|] eqn:Ez; [|discriminate]. injection Hs as <-. rewrite (IH _ _ _ Ey Ez). reflexivity.
  - apply bind_inv in H as (n & _ & H). apply bind_inv in H as (w & _ & H). apply ret_inj in H. subst s. discriminate.
Qed.

Theorem shown_content e v t : read_doc e v = Ret t <-> exists s, show_doc e v = Ret s /\ content s = Some t.
Proof.
  split; [apply show_read|]. intros (s & H1 & H2). exact (read_show e _ v s t H1 H2).
Qed.
Theorem accepted_shown e r v : wf_env e -> from_bytes e = Ret (Ok r) -> whole_floats e r -> within e r v ->
  exists s t, show_doc e v = Ret s /\ content s = Some t /\ read_doc e v = Ret t.
Proof.
  intros Hwf Hr Hw Hv. destruct (read_returns e r Hwf Hr Hw v Hv (within_gd e r Hwf Hr v Hv)) as (t & Ht).
  destruct (proj1 (shown_content e v t) Ht) as (s & H1 & H2). exists s, t. auto.
Qed.
Theorem looks_decide e v e' v' s t :
  show_doc e v = Ret s -> show_doc e' v' = Ret s -> read_doc e v = Ret t -> read_doc e' v' = Ret t.
Proof.
  intros H1 H2 Ht. destruct (proj1 (shown_content e v t) Ht) as (s' & H3 & H4). rewrite H1 in H3. apply ret_inj in H3. subst s'.
  apply shown_content. exists s. auto.
Qed.
Theorem decoded_shown dbg base bs sk t : decodes_to dbg base bs sk t ->
  exists v s t', from_bytes (mk_env dbg base bs sk) = Ret (Ok v) /\ show_doc (mk_env dbg base bs sk) v = Ret s /\ content s = Some t' /\ tsim t t'.
Proof.
  intros (v & t' & H1 & _ & H2 & H3). apply shown_content in H2 as (s & H4 & H5). exists v, s, t'. auto.
Qed.
Theorem written_shown c prefix ops e' rs t :
  sort_ok (c_sort c) -> lenZ prefix mod 2 = 0 ->
  Forall good_op ops -> keys_ok false ops ->
  layout_ok (c_ua c) (lenZ prefix) ops -> lenZ prefix + ops_size ops <= MAX_WIDE ->
  enc_run c (enc_new_to_vec prefix) ops = Ret (e', rs) -> Forall (eq (Ok tt)) rs ->
  b_finish (fst (b_run b_init ops)) = Some t ->
  exists D, finish c e' = Ret (prefix ++ D) /\
    forall dbg base, addressable base (prefix ++ D) ->
      let m := mk_env dbg base (prefix ++ D) (en_sk e') in
      exists v s t', from_bytes m = Ret (Ok v) /\ show_doc m v = Ret s /\ content s = Some t' /\ tsim t t'.
Proof.
  intros. destruct (small_round_trip c prefix ops e' rs t) as (D & HD & H'); try assumption.
  exists D. split; [exact HD|]. intros dbg base Ha. exact (decoded_shown _ _ _ _ _ (H' dbg base Ha)).
Qed.

Lemma shown_type e v s : show_doc e v = Ret s -> value_type e v = Ret (type_shown s).
Proof.
  unfold show_doc. destruct (fuel_of e) as [|f]; cbn [show]; [discriminate|]. intros H.
  destruct (value_type e v) as [t| | |] eqn:Ht; cbn [bind] in H; try discriminate.
  f_equal. destruct t; repeat (apply bind_inv in H as (? & ? & H)); apply ret_inj in H; now subst s.
Qed.
