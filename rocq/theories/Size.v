(** The space a document takes. *)
From Verif Require Import Prelude Lib Varint VarintProofs Utf8 Float SharedKeys
  Decode Read Encodable Encoder BuilderSpec LayoutSpec Holds Repr EncodableProofs Stored StoredRead SlotProofs
  EncoderProofs EncoderInv EncoderClean EncoderLayout PathDoc StableSpec Stable SizeSpec.
From Coq Require Import ZifyBool ZifyNat ZifyN Sorted Permutation.
Ltac Zify.zify_post_hook ::= Z.div_mod_to_equations.

(* ---------- the arithmetic predicts the encoder ---------- *)

Section KP.
Context {SP : KeyPred}.

Lemma finish_len c : sort_ok (c_sort c) -> forall f e b l,
  inv e b -> lrel e l -> pot e <= MAX_WIDE -> (length (en_stack e) <= f)%nat -> l_finish_ok f l = true ->
  forall f' e', enc_end f' c e = Ret e' -> lrel e' (l_finish f l).
Proof.
  intros Hso. induction f as [|f IH]; intros e b l Hi Hl Hmx Hf Hok [|f'] e' H; cbn [enc_end l_finish] in *; try discriminate.
  - destruct (en_stack e); [|cbn in Hf; lia]. apply Ret_inj in H. subst. exact Hl.
  - destruct (en_stack e) as [|top cs] eqn:Est.
    { apply Ret_inj in H. subst. pose proof (lr_stack _ _ Hl) as Hfr. rewrite Est in Hfr. inversion Hfr. exact Hl. }
    cbn [length] in Hf.
    pose proof (lr_stack _ _ Hl) as Hfr. rewrite Est in Hfr.
    inversion Hfr as [|? fx ? ls Hc Hcs E1 Els]; subst. symmetry in Els. try rewrite Els.
    cbn [l_finish_ok] in Hok. rewrite Els in Hok. apply andb_prop in Hok as [Hfit Hok].
    unfold l_drop in *. rewrite Els in *.
    inversion Hc as [vs sh Hcl|vs nk sh Hcl]; subst.
    + destruct (layout_top c e b l _ ls Hso Hi Hl Hmx Els) as [_ Htf]. specialize (Htf Hfit).
      pose proof (i_stack _ _ Hi) as Hst. rewrite Est in Hst. inversion Hst as [|? gx ? fr Hx Hy Hz Eb]; subst.
      inversion Hx; subst.
      destruct (close_array c e b ts fr Hi (eq_sym Eb) Htf Hmx) as (e1 & E & Hi1 & Hp1 & Hn1). rewrite E in H. cbn [bind fst] in H.
      assert (Hl1 : lrel e1 (l_close l)).
      { eapply (close_layout c e b l _ ls e1 (Ok tt) Hso Hi Hl Hmx Els Hfit). left. exists vs, cs. auto. }
      eapply IH; [exact Hi1|exact Hl1|lia| |exact Hok|exact H]. rewrite Est in Hn1. cbn [length] in Hn1. lia.
    + set (e0 := set_stack e (CDict vs None :: cs)) in *.
      destruct (drop_pending e b vs nk cs Hi Est) as (kts & fr & pk & Eb & Hr & Hi0 & Hp0). fold e0 in Hi0, Hp0.
      set (l0 := l_set_stack l _) in *.
      assert (Hl0 : lrel e0 l0).
      { destruct Hl as [L1 L2 L3 L4]. constructor; cbn [e0 l0 set_stack l_set_stack l_pos l_sk l_closed l_stack en_out en_sk en_closed en_stack]; auto.
        constructor; [|exact Hcs]. apply (fr_dict vs None sh). intros Hsh. destruct (Hcl Hsh) as [H1 _]. split; [exact H1|exact I]. }
      assert (Hfit0 : l_fits (l_pos l0) (LDict (lenZ vs) sh (rev (flat_map (fun d => ptr_of (de_val d)) vs)) (rev (flat_map (fun d => kptr_of (de_key d)) vs)) None) = true)
        by exact Hfit.
      destruct (layout_top c e0 _ l0 _ ls Hso Hi0 Hl0 ltac:(lia) eq_refl) as [_ Htf]. specialize (Htf Hfit0).
      destruct (close_dict c e0 _ kts fr Hso Hi0 eq_refl Htf ltac:(lia)) as (e1 & E & Hi1 & Hp1 & Hn1). rewrite E in H. cbn [bind fst] in H.
      assert (Hl1 : lrel e1 (l_close l0)).
      { eapply (close_layout c e0 _ l0 _ ls e1 (Ok tt) Hso Hi0 Hl0 ltac:(lia) eq_refl Hfit0). right. exists vs, cs. auto. }
      eapply IH; [exact Hi1|exact Hl1|lia| |exact Hok|exact H].
      cbn [e0 set_stack en_stack length] in Hn1. lia.
Qed.

Lemma ops_size_nonneg ops : Forall good_op ops -> 0 <= ops_size ops.
Proof.
  intros Hg. pose proof (good_ops_size _ Hg) as Hpos. clear Hg. induction ops as [|x l IHl]; cbn [ops_size fold_right]; [lia|].
  pose proof (Hpos x (or_introl eq_refl)). assert (0 <= ops_size l) by (apply IHl; intros; apply Hpos; right; assumption).
  unfold ops_size in *. lia.
Qed.

Lemma run_len c : sort_ok (c_sort c) -> forall ops e b l,
  inv e b -> lrel e l -> Forall good_op ops -> polite b ops -> keys_ok (has_sk e) ops -> strings_ok c e ops ->
  pot e + ops_size ops <= MAX_WIDE -> l_ops_ok (c_ua c) l ops = true ->
  forall e' rs, enc_run c e ops = Ret (e', rs) ->
  lrel e' (l_run (c_ua c) l ops) /\ forall bs, finish c e' = Ret bs ->
    lenZ bs = l_pos (l_finish (length (l_stack (l_run (c_ua c) l ops))) (l_run (c_ua c) l ops)).
Proof.
  intros Hs. induction ops as [|o ops IH]; intros e b l Hi Hl Hg Hp Hk Hso Hw Hok e' rs H; cbn [enc_run l_ops_ok l_run fold_left] in *.
  { injection H as <- <-. split; [exact Hl|]. intros bs Hf. unfold finish in Hf.
    destruct (enc_end _ c e) as [e2| | |] eqn:Ee; try discriminate. cbn [bind] in Hf. apply Ret_inj in Hf. subst bs.
    symmetry. apply lr_pos. eapply (finish_len c Hs _ e b l Hi Hl); [unfold ops_size in Hw; cbn [fold_right] in Hw; lia| |exact Hok|exact Ee].
    pose proof (Forall2_lenZ _ _ _ (lr_stack _ _ Hl)) as Hll. unfold lenZ in Hll. lia. }
  pose proof (good_ops_size _ Hg) as Hpos. inversion Hg as [|? ? Hg1 Hg2]; subst. cbn [polite] in Hp. destruct Hp as [Hp1 Hp2].
  apply andb_prop in Hok as [Hok1 Hok2].
  pose proof (ops_size_nonneg _ Hg2) as Hrest.
  change (ops_size (o :: ops)) with (op_size o + ops_size ops) in *.
  pose proof (Hpos o (or_introl eq_refl)) as Ho.
  assert (Hcall : call_ok c e b o).
  { eapply layout_call_ok; eauto; try lia.
    - eapply keys_ok_head; eauto.
    - intros k -> Hks. eapply strings_ok_here; eauto. }
  assert (Ha : op_args_wf o) by (destruct o; cbn [op_args_wf good_op] in *; tauto).
  pose proof (step_ok c e b o Hs Hi Hcall ltac:(lia)) as Hst. unfold step_rel in Hst.
  destruct (enc_step c e o) as [[e1 r1]| | |] eqn:E; try discriminate. cbn [bind fst snd] in H.
  destruct (enc_run c e1 ops) as [[e2 r2]| | |] eqn:E2; try discriminate. cbn [bind fst snd] in H. injection H as <- <-.
  assert (Hl' : lrel e1 (l_step (c_ua c) l o)) by (eapply step_layout; eauto; lia).
  assert (Hso' : strings_ok c e1 ops) by (eapply strings_ok_next; eauto).
  assert (Hk' : keys_ok (has_sk e1) ops) by (eapply keys_ok_next; eauto).
  destruct (b_step b o) as [b'|er]; destruct Hst as (e3 & E3 & Hi1 & Hp1'); injection E3 as -> ->;
    (eapply IH; eauto; lia).
Qed.
End KP.

(* ---------- small documents are laid out well ---------- *)

Definition within (n hi : Z) (l : list Z) : Prop := Forall (fun p => n <= p <= hi) l.
Definition fplain (n hi : Z) (f : lframe) : Prop :=
  match f with
  | LArr k sh vals => 0 <= k /\ sh = false /\ within n hi vals
  | LDict k sh vals keys pend =>
      0 <= k /\ sh = false /\ within n hi vals /\ within n hi keys /\ within n hi (match pend with Some p => opt_cons p [] | None => [] end)
  end.
Definition lplain (n : Z) (l : lstate) : Prop := n <= l_pos l /\ Forall (fplain n (l_pos l)) (l_stack l).
Definition fpot (f : lframe) : Z :=
  22 + 4 * l_slots f + match f with LDict _ _ _ _ (Some _) => 4 | _ => 0 end.
Definition lpot (l : lstate) : Z := l_pos l + fold_right (fun f n => fpot f + n) 0 (l_stack l).

Lemma within_mono n hi hi' l : hi <= hi' -> within n hi l -> within n hi' l.
Proof. intros H. apply Forall_impl. intros; lia. Qed.
Lemma fplain_mono n hi hi' f : hi <= hi' -> fplain n hi f -> fplain n hi' f.
Proof.
  intros H. destruct f; cbn [fplain]; intros Hf; intuition eauto using within_mono.
Qed.
Lemma stack_mono_l n hi hi' st : hi <= hi' -> Forall (fplain n hi) st -> Forall (fplain n hi') st.
Proof. intros H. apply Forall_impl. intros f. apply fplain_mono, H. Qed.

Lemma even_up_bounds n : n <= even_up n <= n + 1.
Proof. unfold even_up. lia. Qed.
Lemma header_bounds n : 0 <= n <= MAX_WIDE -> 2 <= header_size n <= 12.
Proof.
  intros H. rewrite header_size_hdr. split; [|apply hdr_size_le; lia].
  unfold hdr_size. destruct (2047 <=? n) eqn:E; [|lia]. unfold varint_size. pose proof (Z.log2_nonneg n). destruct (n =? 0); lia.
Qed.

Lemma fpot_nonneg n hi f : fplain n hi f -> 0 <= l_slots f /\ 22 <= fpot f.
Proof. unfold fpot. destruct f as [k sh v|k sh v ks [p|]]; cbn [fplain l_slots]; intros H; split; lia. Qed.
Lemma fpots_nonneg n hi st : Forall (fplain n hi) st -> 0 <= fold_right (fun f n => fpot f + n) 0 st.
Proof. induction 1 as [|f st H _ IH]; cbn [fold_right]; [lia|]. pose proof (fpot_nonneg _ _ _ H). lia. Qed.

Lemma add_plain n hi st p sh : Forall (fplain n hi) st -> sh = false -> (forall q, p = Some q -> n <= q <= hi) ->
  Forall (fplain n hi) (l_add st p sh).
Proof.
  intros H -> Hq. assert (Hin : within n hi (opt_cons p [])) by (destruct p; cbn [opt_cons]; repeat constructor; apply Hq; reflexivity).
  destruct H as [|f st Hf Hst]; [constructor|].
  destruct f as [k s v|k s v ks [q|]]; cbn [l_add fplain] in *.
  - constructor; [|exact Hst]. destruct Hf as (H1 & -> & H2). split; [lia|]. split; [reflexivity|]. destruct p; [constructor; [apply Hq; reflexivity|]|]; exact H2.
  - constructor; [|exact Hst]. destruct Hf as (H1 & -> & H2 & H3 & H4). split; [lia|]. split; [reflexivity|].
    split; [destruct p; [constructor; [apply Hq; reflexivity|]|]; exact H2|]. split; [|constructor].
    destruct q; cbn [opt_cons] in *; [inversion H4; constructor; assumption|exact H3].
  - constructor; assumption.
Qed.
Lemma add_key_plain n hi st p sh : Forall (fplain n hi) st -> sh = false -> (forall q, p = Some q -> n <= q <= hi) ->
  Forall (fplain n hi) (l_add_key st p sh).
Proof.
  intros H -> Hq. assert (Hin : within n hi (opt_cons p [])) by (destruct p; cbn [opt_cons]; repeat constructor; apply Hq; reflexivity).
  destruct H as [|f st Hf Hst]; [constructor|].
  destruct f as [k s v|k s v ks [q|]]; cbn [l_add_key fplain] in *; (constructor; [|exact Hst]); try exact Hf.
  destruct Hf as (H1 & -> & H2 & H3 & H4). cbn [fplain orb]. auto 8.
Qed.
Lemma add_pot st p sh : fold_right (fun f n => fpot f + n) 0 (l_add st p sh) <= fold_right (fun f n => fpot f + n) 0 st + 4.
Proof. unfold fpot. destruct st as [|[k s v|k s v ks [q|]] st]; cbn [l_add fold_right l_slots]; lia. Qed.
Lemma add_key_pot st p sh : fold_right (fun f n => fpot f + n) 0 (l_add_key st p sh) <= fold_right (fun f n => fpot f + n) 0 st + 4.
Proof. unfold fpot. destruct st as [|[k s v|k s v ks [q|]] st]; cbn [l_add_key fold_right l_slots]; lia. Qed.

Lemma fits_plain n l f st : lplain n l -> l_stack l = f :: st -> lpot l - n <= MAX_NARROW -> l_fits (l_pos l) f = true.
Proof.
  intros [Hn Hp] E Hm. rewrite E in Hp. inversion Hp as [|? ? H1 H2]; subst. unfold lpot in Hm. rewrite E in Hm. cbn [fold_right] in Hm.
  pose proof (fpots_nonneg _ _ _ H2) as HR. set (R := fold_right _ 0 st) in *. clearbody R. unfold fpot in Hm. unfold l_fits. apply orb_true_intro. right.
  destruct f as [k sh v|k sh v ks pend]; cbn [fplain l_slots] in *; destruct H1 as (H3 & -> & H4); cbn [negb andb];
    pose proof (header_bounds k) as Hh; assert (Hk : 2 <= header_size k <= 12) by (apply Hh; unfold MAX_NARROW, MAX_WIDE in *; try destruct pend; lia).
  - apply forallb_forall. intros p Hi. unfold within in H4. rewrite Forall_forall in H4. specialize (H4 p Hi). lia.
  - destruct H4 as (H5 & H6 & _). apply forallb_forall. intros p Hi. unfold within in *. rewrite Forall_forall in *.
    assert (n <= p <= l_pos l) by (apply in_app_or in Hi as [Hi|Hi]; auto). destruct pend; lia.
Qed.

Lemma close_plain n l f st : lplain n l -> l_stack l = f :: st -> lpot l - n <= MAX_WIDE ->
  lplain n (l_close l) /\ lpot (l_close l) <= lpot l.
Proof.
  intros [Hn Hp] E Hm. unfold lplain, lpot in *. unfold l_close. rewrite E in *. inversion Hp as [|? ? H1 H2]; subst. cbn [fold_right] in *.
  pose proof (fpots_nonneg _ _ _ H2) as HR. destruct (fpot_nonneg _ _ _ H1) as [Hs _].
  assert (Hc : 0 <= l_count f <= MAX_WIDE).
  { set (R := fold_right _ 0 st) in *. clearbody R. unfold fpot in Hm. destruct f as [k sh v|k sh v ks pend]; cbn [fplain l_slots l_count] in *; [lia|destruct pend; lia]. }
  pose proof (header_bounds _ Hc) as Hh.
  assert (Hf : 22 + 4 * l_slots f <= fpot f) by (unfold fpot; destruct f as [k sh v|k sh v ks [p|]]; lia).
  set (x := l_slots f * (if l_wide (l_pos l) f then 4 else 2)).
  assert (Hx : 0 <= x <= 4 * l_slots f) by (unfold x; destruct (l_wide (l_pos l) f); lia).
  set (y := if _ <=? MAX_NARROW then 2 else 6). assert (Hy : 2 <= y <= 6) by (unfold y; destruct (_ <=? MAX_NARROW); lia).
  clearbody x y. destruct st as [|g st].
  - cbn [l_pos l_stack fold_right] in *. split; [split; [lia|constructor]|lia].
  - set (st' := g :: st) in *. cbn [l_pos l_stack]. pose proof (add_pot st' (Some (l_pos l)) false). split; [|lia]. split; [lia|].
    apply add_plain; [|reflexivity|intros q [= <-]; lia]. eapply stack_mono_l; [|exact H2]. lia.
Qed.

Lemma bytes_size_nonneg (k : list Z) : 0 <= bytes_fleece_size (lenZ k).
Proof.
  unfold bytes_fleece_size, varint_size. pose proof (lenZ_nonneg k). pose proof (Z.log2_nonneg (lenZ k)).
  destruct (lenZ k <=? 1); [lia|]. destruct (lenZ k <=? 14); [lia|]. destruct (lenZ k =? 0); lia.
Qed.

Lemma step_plain ua n l o : lplain n l -> good_op o -> plain_op o = true -> lpot l + op_size o - n <= MAX_WIDE ->
  lplain n (l_step ua l o) /\ lpot (l_step ua l o) <= lpot l + op_size o.
Proof.
  intros [Hn Hp] Hg Hpl Hm. pose proof (fpots_nonneg _ _ _ Hp) as H0.
  assert (Hkey : forall l1 k, l_pos l1 = l_pos l -> l_stack l1 = l_stack l ->
    lplain n (l_key_outside l1 k) /\ lpot (l_key_outside l1 k) <= lpot l + (bytes_fleece_size (lenZ k) + 1 + 4)).
  { intros l1 k E1 E2. unfold l_key_outside, lplain, lpot. cbn [l_pos l_stack]. rewrite E1, E2.
    pose proof (even_up_bounds (l_pos l + bytes_fleece_size (lenZ k))) as Hu.
    pose proof (bytes_size_nonneg k).
    pose proof (add_key_pot (l_stack l) (Some (l_pos l)) false). split; [|lia]. split; [lia|].
    apply add_key_plain; [|reflexivity|intros q [= <-]; lia]. eapply stack_mono_l; [|exact Hp]. lia. }
  assert (Hsame : 0 <= op_size o -> lplain n l /\ lpot l <= lpot l + op_size o) by (intros; split; [split; assumption|lia]).
  pose proof (good_ops_size [o] ltac:(constructor; auto) o (or_introl eq_refl)) as Hsz.
  destruct o as [k|v|m| | | |t]; cbn [l_step op_size plain_op] in *.
  - assert (Hk2 : to_sized_value (EStr k) = None).
    { cbn [to_sized_value]. unfold bytes_to_sized. destruct k as [|b [|b2 k]]; [discriminate Hpl|discriminate Hpl|reflexivity]. }
    rewrite Hk2. destruct (l_sk l) as [t|]; [|apply Hkey; reflexivity].
    destruct (l_stack l) as [|[a1 a2 a3|a1 a2 a3 a4 a5] st] eqn:E; try (apply Hsame; exact Hsz). rewrite <- E in *.
    destruct (encode_and_insert ua t k) as [t' [i|]]; [|apply Hkey; reflexivity].
    unfold lplain, lpot, l_set_stack. cbn [l_pos l_stack]. pose proof (add_key_pot (l_stack l) None false). pose proof (bytes_size_nonneg k).
    split; [|lia]. split; [exact Hn|]. apply add_key_plain; [exact Hp|reflexivity|discriminate].
  - destruct (l_stack l) as [|f st] eqn:E; [apply Hsame; exact Hsz|]. rewrite <- E in *.
    destruct (to_sized_value v) as [s|] eqn:Es.
    + unfold lplain, lpot, l_set_stack. cbn [l_pos l_stack]. rewrite Hpl. cbn [negb]. pose proof (add_pot (l_stack l) None false).
      assert (0 <= fleece_size v) by (pose proof (fleece_size_pos v (proj1 Hg) (proj2 Hg)); lia).
      split; [|lia]. split; [exact Hn|]. apply add_plain; [exact Hp|reflexivity|discriminate].
    + unfold lplain, lpot. cbn [l_pos l_stack]. pose proof (add_pot (l_stack l) (Some (l_pos l)) false).
      pose proof (even_up_bounds (l_pos l + fleece_size v)). assert (0 <= fleece_size v) by (pose proof (fleece_size_pos v (proj1 Hg) (proj2 Hg)); lia).
      split; [|lia]. split; [lia|]. apply add_plain; [|reflexivity|intros q [= <-]; lia]. eapply stack_mono_l; [|exact Hp]. lia.
  - destruct (l_closed l); [apply Hsame; lia|].
    destruct (l_stack l) as [|[a1 a2 a3|a1 a2 a3 a4 [a5|]] st] eqn:E; try (apply Hsame; exact Hsz); rewrite <- E in *;
      unfold lplain, lpot, l_set_stack; cbn [l_pos l_stack fold_right]; change (fpot (LArr 0 false [])) with 22; (split; [split; [exact Hn|]|lia]);
      (constructor; [|exact Hp]); cbn [fplain]; repeat split; try lia; constructor.
  - destruct (l_stack l) as [|[a1 a2 a3|a1 a2 a3 a4 a5] st] eqn:E; try (apply Hsame; lia).
    rewrite <- E in *. destruct (close_plain n l _ _ (conj Hn Hp) E ltac:(lia)). split; [assumption|lia].
  - destruct (l_closed l); [apply Hsame; lia|].
    destruct (l_stack l) as [|[a1 a2 a3|a1 a2 a3 a4 [a5|]] st] eqn:E; try (apply Hsame; exact Hsz); rewrite <- E in *;
      unfold lplain, lpot, l_set_stack; cbn [l_pos l_stack fold_right]; change (fpot (LDict 0 false [] [] None)) with 22; (split; [split; [exact Hn|]|lia]);
      (constructor; [|exact Hp]); cbn [fplain]; repeat split; try lia; constructor.
  - destruct (l_stack l) as [|[a1 a2 a3|a1 a2 a3 a4 [a5|]] st] eqn:E; try (apply Hsame; lia).
    rewrite <- E in *. destruct (close_plain n l _ _ (conj Hn Hp) E ltac:(lia)). split; [assumption|lia].
  - unfold lplain, lpot. cbn [l_pos l_stack]. split; [split; assumption|lia].
Qed.

Lemma drop_plain n l : lplain n l -> lplain n (l_drop l) /\ lpot (l_drop l) <= lpot l /\ length (l_stack (l_drop l)) = length (l_stack l) /\ l_pos (l_drop l) = l_pos l.
Proof.
  intros [Hn Hp]. unfold l_drop, lplain, lpot. destruct (l_stack l) as [|[a1 a2 a3|a1 a2 a3 a4 a5] st] eqn:E; try (rewrite ?E; repeat split; auto; lia).
  cbn [l_set_stack l_pos l_stack fold_right length fpot l_slots]. inversion Hp as [|? ? H1 H2]; subst. repeat split; auto; [|unfold fpot; cbn [l_slots]; destruct a5; lia].
  constructor; [|exact H2]. cbn [fplain] in *. destruct H1 as (B1 & B2 & B3 & B4 & B5). repeat split; auto. constructor.
Qed.

Lemma finish_plain n : forall f l, lplain n l -> lpot l - n <= MAX_NARROW -> l_finish_ok f l = true.
Proof.
  induction f as [|f IH]; intros l Hl Hm; cbn [l_finish_ok]; [reflexivity|].
  destruct (l_stack l) as [|top st] eqn:E; [reflexivity|]. rewrite (fits_plain n l top st Hl E Hm). cbn [andb].
  destruct (drop_plain n l Hl) as (H1 & H2 & H3 & _). rewrite E in H3. cbn [length] in H3.
  destruct (l_stack (l_drop l)) as [|g st'] eqn:E2; [discriminate|].
  destruct (close_plain n (l_drop l) g st' H1 E2 ltac:(unfold MAX_NARROW, MAX_WIDE in *; lia)) as [H4 H5].
  apply IH; [exact H4|lia].
Qed.

Lemma run_plain ua n : forall ops l, lplain n l -> Forall good_op ops -> forallb plain_op ops = true ->
  lpot l + ops_size ops - n <= MAX_NARROW -> l_ops_ok ua l ops = true.
Proof.
  induction ops as [|o ops IH]; intros l Hl Hg Hpl Hm; cbn [l_ops_ok].
  { unfold ops_size in Hm. cbn [fold_right] in Hm. eapply finish_plain; [exact Hl|lia]. }
  inversion Hg as [|? ? Hg1 Hg2]; subst. cbn [forallb] in Hpl. apply andb_prop in Hpl as [Hp1 Hp2].
  change (ops_size (o :: ops)) with (op_size o + ops_size ops) in *.
  pose proof (ops_size_nonneg _ Hg2). pose proof (good_ops_size [o] ltac:(constructor; auto) o (or_introl eq_refl)) as Hsz.
  destruct (step_plain ua n l o Hl Hg1 Hp1 ltac:(unfold MAX_NARROW, MAX_WIDE in *; lia)) as [H1 H2].
  rewrite (IH _ H1 Hg2 Hp2 ltac:(lia)), andb_true_r. unfold l_call_ok.
  destruct o; try reflexivity; destruct (l_stack l) as [|[a1 a2 a3|a1 a2 a3 a4 [a5|]] st] eqn:E; try reflexivity;
    (eapply fits_plain; [exact Hl|exact E|lia]).
Qed.

(** Every document that survives being written is laid out well. *)
Theorem layout_decided ua n ops : Forall good_op ops -> layout_ok ua n ops -> l_ops_ok ua (l_init n) ops = true.
Proof.
  intros Hg [[Hp Hs]|H]; [|exact H]. apply (run_plain ua n); auto.
  - split; [cbn; lia|constructor].
  - unfold lpot. cbn [l_init l_pos l_stack fold_right]. lia.
Qed.

(* ---------- the space of a document in closed form ---------- *)

Lemma padded_add p s : p mod 2 = 0 -> even_up (p + s) = p + padded s.
Proof. unfold even_up, padded. lia. Qed.
Lemma header_space n : 0 <= n -> header_size n = collection_header n.
Proof.
  intros H. unfold header_size, hdr_fleece_size, collection_header, padded, even_up, VARINT_COUNT, varint_size, length_bytes.
  replace (n <? 2047) with (negb (2047 <=? n)) by lia. destruct (2047 <=? n) eqn:E; [|reflexivity]. cbn [negb].
  destruct (n =? 0) eqn:E2; [lia|reflexivity].
Qed.
Lemma text_space_size (s : list Z) : 2 <= lenZ s -> padded (bytes_fleece_size (lenZ s)) = text_space (lenZ s).
Proof.
  intros H. unfold bytes_fleece_size, text_space, varint_size, length_bytes. destruct (lenZ s <=? 1) eqn:E; [lia|].
  destruct (lenZ s <=? 14) eqn:E2; [f_equal; lia|]. destruct (lenZ s =? 0) eqn:E3; [lia|]. f_equal.
Qed.
Lemma sized_short tag (s : list Z) : bytes_to_sized tag s = None <-> 2 <= lenZ s.
Proof.
  unfold lenZ. destruct s as [|a [|b s]]; cbn [bytes_to_sized length]; (split; [intros H|intros H; try reflexivity]); try discriminate; lia.
Qed.
Lemma text_space_short n : n < 2 -> text_space n = 0.
Proof. intros H. unfold text_space. destruct (n <=? 1) eqn:E; [reflexivity|lia]. Qed.

Lemma value_space w v : wf_enc v -> enc_ok v = true ->
  match to_sized_value v with
  | Some _ => space w (tree_of v) = 0
  | None => padded (fleece_size v) = space w (tree_of v)
  end.
Proof.
  induction v as [t z|b|b|b| | |s|s| |v IH|s|d n]; intros Hw Ho; cbn [to_sized_value tree_of fleece_size wf_enc enc_ok space] in *; try reflexivity; try contradiction; auto.
  - unfold number_space.
    assert (Hsm : forall z, z <= 2047 -> (if z <=? 2047 then 0 else padded (1 + (8 - (ctz64 z + 7) / 8))) = 0)
      by (intros x Hx; destruct (x <=? 2047) eqn:E; [reflexivity|lia]).
    assert (Hi16 : forall z, -2048 <= z <= 2047 -> exists s, i16_to_sized z = Some s).
    { intros x Hx. unfold i16_to_sized. destruct ((2047 <? x) || (x <? -2048)) eqn:E; [lia|]. eauto. }
    assert (Hu16 : forall z, 0 <= z <= 2047 -> exists s, u16_to_sized z = Some s).
    { intros x Hx. unfold u16_to_sized. destruct (2047 <? x) eqn:E; [lia|]. eauto. }
    rewrite i64_is_short_true. unfold u64_fleece_size.
    assert (Hbig : (z <=? 2047) = false -> padded (if z <=? 2047 then 2 else 8 - (ctz64 z + 7) / 8 + 1) = (if z <=? 2047 then 0 else padded (1 + (8 - (ctz64 z + 7) / 8)))).
    { intros ->. f_equal. lia. }
    destruct t; cbn [ity_min ity_max] in Hw; try (apply andb_prop in Ho as [Ho1 Ho2]);
      rewrite ?wrap_i16_id by lia;
      try (destruct (Hi16 z ltac:(lia)) as [s0 ->]; apply Hsm; lia);
      try (destruct (Hu16 z ltac:(lia)) as [s0 ->]; apply Hsm; lia);
      (destruct (z <=? 2047) eqn:E; [|apply Hbig; reflexivity]; unfold wrap_u16; rewrite Z.mod_small by (unfold two16; lia); destruct (Hu16 z ltac:(lia)) as [s0 ->]; reflexivity).
  - destruct (bytes_to_sized TAG_STRING s) eqn:E.
    + apply text_space_short. destruct (Z.le_gt_cases 2 (lenZ s)) as [H|H]; [|lia]. apply (sized_short TAG_STRING) in H. congruence.
    + apply text_space_size. apply (sized_short TAG_STRING). exact E.
  - destruct (bytes_to_sized TAG_DATA s) eqn:E.
    + apply text_space_short. destruct (Z.le_gt_cases 2 (lenZ s)) as [H|H]; [|lia]. apply (sized_short TAG_DATA) in H. congruence.
    + apply text_space_size. apply (sized_short TAG_DATA). exact E.
  - apply IH; assumption.
Qed.

(** What an open collection has put into the output so far. *)
Definition frame_space (w : Z) (f : frame) : Z :=
  match f with
  | FArr l => fold_right (fun x n => space w x + n) 0 l
  | FDict l p => fold_right (fun kv n => text_space (lenZ (fst kv)) + space w (snd kv) + n) 0 l +
                 match p with Some k => text_space (lenZ k) | None => 0 end
  end.
Definition b_space (w r : Z) (b : bstate) : Z :=
  fold_right (fun f n => frame_space w f + n) 0 (b_stack b) + match b_root b with Some t => space w t + r | None => 0 end.

Definition fshape (f : frame) (g : lframe) : Prop :=
  match f, g with
  | FArr l, LArr n _ _ => n = lenZ l
  | FDict l p, LDict n _ _ _ q => n = lenZ l /\ (p = None <-> q = None)
  | _, _ => False
  end.
Record shaped (b : bstate) (l : lstate) : Prop := mk_shaped {
  sp_sk : l_sk l = None;
  sp_closed : l_closed l = match b_root b with Some _ => true | None => false end;
  sp_open : b_root b <> None -> b_stack b = [];
  sp_stack : Forall2 fshape (b_stack b) (l_stack l);
  sp_even : l_pos l mod 2 = 0;
}.

(** The innermost collection gets narrow slots, and the root a narrow pointer. *)
Definition narrow (l : lstate) : Prop :=
  match l_stack l with
  | [] => True
  | f :: _ => l_wide (l_pos l) f = false /\ header_size (l_count f) + 2 * l_slots f <= MAX_NARROW
  end.

Lemma sum_app {A} (g : A -> Z) l x : fold_right (fun y n => g y + n) 0 (l ++ [x]) = fold_right (fun y n => g y + n) 0 l + g x.
Proof. induction l as [|y l IH]; cbn [app fold_right]; [lia|]. rewrite IH. lia. Qed.
Lemma add_child_space w f t : frame_space w (add_child f t) =
  frame_space w f + match f with FDict _ None => 0 | _ => space w t end.
Proof.
  destruct f as [l|l [k|]]; cbn [add_child frame_space]; [rewrite (sum_app (space w)); lia| |lia].
  rewrite (sum_app (fun kv => text_space (lenZ (fst kv)) + space w (snd kv))). cbn [fst snd]. lia.
Qed.
Lemma add_shape st lst t p sh : Forall2 fshape st lst ->
  match st with [] => True | f :: fr => Forall2 fshape (add_child f t :: fr) (l_add lst p sh) end.
Proof.
  intros H. destruct H as [|f g st lst Hf H]; [exact I|].
  destruct f as [l|l p0], g as [n s v|n s v ks q0]; cbn [fshape] in Hf; try contradiction.
  - subst n. cbn [add_child l_add]. constructor; [|exact H]. cbn [fshape]. rewrite lenZ_app. reflexivity.
  - destruct Hf as [-> [Hf2 Hf3]]. destruct p0 as [k|], q0 as [q|]; cbn [add_child l_add].
    + constructor; [|exact H]. cbn [fshape]. rewrite lenZ_app. split; [reflexivity|tauto].
    + specialize (Hf3 eq_refl). discriminate.
    + specialize (Hf2 eq_refl). discriminate.
    + constructor; [|exact H]. cbn [fshape]. split; [reflexivity|tauto].
Qed.

Lemma close_space b l f fr : shaped b l -> b_stack b = f :: fr ->
  (match f with FDict _ (Some _) => False | _ => True end) ->
  Forall (fun g => match g with FDict _ None => False | _ => True end) fr ->
  shaped (b_pop b) (l_close l) /\
  b_space 2 2 (b_pop b) - b_space 2 2 b <= l_pos (l_close l) - l_pos l <= b_space 4 6 (b_pop b) - b_space 4 6 b /\
  (narrow l -> l_pos (l_close l) - l_pos l = b_space 2 2 (b_pop b) - b_space 2 2 b).
Proof.
  intros [S1 S2 S3 S4 S5] E Hf Hfr. assert (Hr : b_root b = None).
  { destruct (b_root b); [|reflexivity]. rewrite S3 in E by discriminate. discriminate. }
  unfold b_pop, l_close, narrow, b_space. rewrite E, Hr in *. inversion S4 as [|? g ? lst Hg Hst E1 E2]; subst.
  assert (Hn : 0 <= l_count g /\ 0 <= l_slots g /\ forall w, space w (close_frame f) = frame_space w f + collection_header (l_count g) + w * l_slots g).
  { destruct f as [ll|ll [k|]], g as [n s v|n s v ks q]; cbn [fshape] in Hg; try contradiction.
    - subst n. cbn [l_count l_slots close_frame space frame_space]. pose proof (lenZ_nonneg ll). repeat split; intros; lia.
    - destruct Hg as [-> _]. cbn [l_count l_slots close_frame space frame_space]. pose proof (lenZ_nonneg ll). repeat split; intros; lia. }
  destruct Hn as (Hc & Hs & Hsp). rewrite (header_space _ Hc).
  assert (Hev : collection_header (l_count g) mod 2 = 0) by (unfold collection_header, padded; lia).
  set (e := l_pos l + collection_header (l_count g) + l_slots g * (if l_wide (l_pos l) g then 4 else 2)) in *.
  assert (He : e mod 2 = 0 /\ collection_header (l_count g) + 2 * l_slots g <= e - l_pos l <= collection_header (l_count g) + 4 * l_slots g /\
     (l_wide (l_pos l) g = false -> e - l_pos l = collection_header (l_count g) + 2 * l_slots g)).
  { unfold e. destruct (l_wide (l_pos l) g); repeat split; intros; try discriminate; lia. }
  destruct He as (He1 & He2 & He3). clearbody e. destruct Hst as [|f2 g2 st lst Hf2 Hst].
  - cbn [fold_right b_stack b_root l_pos l_stack l_closed l_sk]. rewrite !Hsp. split; [constructor; cbn; auto|].
    { destruct (e - l_pos l <=? MAX_NARROW); lia. }
    split; [destruct (e - l_pos l <=? MAX_NARROW); lia|]. intros [H1 H2]. specialize (He3 H1).
    destruct (e - l_pos l <=? MAX_NARROW) eqn:E3; lia.
  - cbn [fold_right b_stack b_root l_pos l_stack l_closed l_sk]. inversion Hfr as [|? ? Hx _]; subst.
    rewrite !add_child_space, !Hsp.
    assert (Hm : forall w, match f2 with FDict _ None => 0 | _ => space w (close_frame f) end = space w (close_frame f)) by (intros; destruct f2 as [|? [|]]; [reflexivity|reflexivity|contradiction]).
    split.
    { constructor; cbn [b_root b_stack l_sk l_stack l_closed l_pos]; auto; try congruence.
      exact (add_shape (f2 :: st) (g2 :: lst) (close_frame f) (Some (l_pos l)) false ltac:(constructor; assumption)). }
    pose proof (Hsp 2). pose proof (Hsp 4).
    destruct f2 as [|? [|]]; try contradiction; (split; [lia|]; intros [H1 H2]; specialize (He3 H1); lia).
Qed.

Definition outer_ok (b : bstate) : Prop :=
  Forall (fun g => match g with FDict _ None => False | _ => True end) (tl (b_stack b)).

Lemma pop_outer b f fr : b_stack b = f :: fr -> outer_ok b -> outer_ok (b_pop b).
Proof.
  unfold outer_ok, b_pop. intros ->. cbn [tl]. destruct fr as [|g fr]; cbn [b_stack tl]; [constructor|]. intros H. inversion H; assumption.
Qed.

Lemma step_space ua b l o b' : shaped b l -> outer_ok b -> good_op o -> (forall t, o <> OpSetSharedKeys t) -> b_step b o = Ok b' ->
  shaped b' (l_step ua l o) /\ outer_ok b' /\
  b_space 2 2 b' - b_space 2 2 b <= l_pos (l_step ua l o) - l_pos l <= b_space 4 6 b' - b_space 4 6 b /\
  (narrow l -> l_pos (l_step ua l o) - l_pos l = b_space 2 2 b' - b_space 2 2 b).
Proof.
  intros Hs Ho Hg Hno H. pose proof Hs as [S1 S2 S3 S4 S5].
  assert (Hrt : forall f fr, b_stack b = f :: fr -> b_root b = None).
  { intros f fr E. destruct (b_root b); [|reflexivity]. rewrite S3 in E by discriminate. discriminate. }
  assert (Hend : forall b2 d, (forall w r, b_space w r b2 - b_space w r b = d) -> forall l2, l_pos l2 - l_pos l = d ->
    b_space 2 2 b2 - b_space 2 2 b <= l_pos l2 - l_pos l <= b_space 4 6 b2 - b_space 4 6 b /\
    (narrow l -> l_pos l2 - l_pos l = b_space 2 2 b2 - b_space 2 2 b)).
  { intros b2 d Hd l2 Hl2. rewrite !Hd. lia. }
  assert (Hbegin : forall f g, fshape f g -> (forall w, frame_space w f = 0) -> b_begin b f = Ok b' ->
    let l2 := if l_closed l then l else match l_stack l with LDict _ _ _ _ None :: _ => l | st => l_set_stack l (g :: st) end in
    shaped b' l2 /\ outer_ok b' /\
    b_space 2 2 b' - b_space 2 2 b <= l_pos l2 - l_pos l <= b_space 4 6 b' - b_space 4 6 b /\
    (narrow l -> l_pos l2 - l_pos l = b_space 2 2 b' - b_space 2 2 b)).
  { intros f g Hfg Hz Hb. unfold b_begin in Hb. rewrite S2. destruct (b_root b) eqn:Er; [discriminate|].
    assert (E1 : b' = mk_b (f :: b_stack b) None /\ match b_stack b with FDict _ None :: _ => False | _ => True end).
    { destruct (b_stack b) as [|[x|x [y|]] fr]; try discriminate; injection Hb as <-; auto. }
    destruct E1 as [-> Hw].
    assert (E2 : match l_stack l with LDict _ _ _ _ None :: _ => l | st => l_set_stack l (g :: st) end = l_set_stack l (g :: l_stack l)).
    { destruct S4 as [|x y fr lst Hx _]; [reflexivity|]. destruct y as [|? ? ? ? [q|]]; try reflexivity.
      destruct x as [|? [k|]]; cbn [fshape] in Hx; try contradiction. destruct Hx as [_ [_ Hx]]. specialize (Hx eq_refl). discriminate. }
    cbv zeta. rewrite E2. split; [constructor; cbn [l_set_stack b_root b_stack l_sk l_stack l_closed l_pos]; auto; congruence|].
    split.
    { unfold outer_ok in *. cbn [b_stack tl]. destruct (b_stack b) as [|x fr]; [constructor|]. constructor; [|exact Ho]. destruct x as [|? [|]]; auto. }
    apply (Hend _ 0); [|cbn [l_set_stack l_pos]; lia]. intros w r. unfold b_space. cbn [b_stack b_root fold_right]. rewrite Er, Hz. lia. }
  destruct o as [k|v|m| | | |t]; cbn [b_step l_step good_op] in *.
  - destruct (b_stack b) as [|[x|x [y|]] fr] eqn:Eb; try discriminate. injection H as <-. rewrite (Hrt _ _ eq_refl) in *.
    inversion S4 as [|? g ? lst Hfg Hst E1 E2]; subst. destruct g as [|n s v ks q]; cbn [fshape] in Hfg; [contradiction|]. destruct Hfg as [-> Hq].
    rewrite S1. rewrite (proj1 Hq eq_refl) in *.
    assert (Hsh : forall p sh pos, pos mod 2 = 0 -> shaped (mk_b (FDict x (Some k) :: fr) None)
       (mk_l pos (l_sk l) (l_add_key (LDict (lenZ x) s v ks None :: lst) p sh) (l_closed l))).
    { intros p sh pos Hpos. constructor; cbn [b_root b_stack l_sk l_stack l_closed l_pos l_add_key]; auto; try congruence.
      constructor; [|exact Hst]. cbn [fshape]. split; [reflexivity|split; discriminate]. }
    assert (Ho' : outer_ok (mk_b (FDict x (Some k) :: fr) None)) by (unfold outer_ok in *; rewrite Eb in Ho; exact Ho).
    assert (Hd : forall w r, b_space w r (mk_b (FDict x (Some k) :: fr) None) - b_space w r b = text_space (lenZ k)).
    { intros w r. unfold b_space. rewrite Eb, (Hrt _ _ eq_refl). cbn [b_stack b_root fold_right frame_space]. lia. }
    destruct (to_sized_value (EStr k)) as [s0|] eqn:Es; cbn [to_sized_value] in Es.
    + split; [apply Hsh; exact S5|]. split; [exact Ho'|]. apply (Hend _ _ Hd). cbn [l_set_stack l_pos].
      rewrite text_space_short; [lia|]. destruct (Z.le_gt_cases 2 (lenZ k)) as [H|H]; [|lia]. apply (sized_short TAG_STRING) in H. congruence.
    + apply sized_short in Es. unfold l_key_outside. rewrite (padded_add _ _ S5), (text_space_size _ Es). rewrite <- E2.
      split; [apply Hsh; unfold text_space, padded; destruct (lenZ k <=? 1); lia|]. split; [exact Ho'|]. apply (Hend _ _ Hd). cbn [l_pos]. lia.
  - destruct Hg as [Hw Hok].
    assert (Hv : exists f fr, b_stack b = f :: fr /\ b' = mk_b (add_child f (tree_of v) :: fr) (b_root b) /\ match f with FDict _ None => False | _ => True end).
    { destruct (b_stack b) as [|[x|x [y|]] fr] eqn:Eb; try discriminate; injection H as <-; eauto 6. }
    destruct Hv as (f & fr & Eb & -> & Hf). rewrite Eb in S4. pose proof (Hrt _ _ Eb) as Hr. rewrite Hr.
    inversion S4 as [|? g ? lst Hfg Hst E1 E2]; subst. rewrite E2.
    assert (Hsh : forall p sh pos, pos mod 2 = 0 -> shaped (mk_b (add_child f (tree_of v) :: fr) None)
       (mk_l pos (l_sk l) (l_add (l_stack l) p sh) (l_closed l))).
    { intros p sh pos Hpos. constructor; cbn [b_root b_stack l_sk l_stack l_closed l_pos]; auto; try congruence; try (rewrite S2, Hr; reflexivity).
      apply (add_shape (f :: fr) (l_stack l) (tree_of v) p sh). exact S4. }
    assert (Ho' : outer_ok (mk_b (add_child f (tree_of v) :: fr) None)) by (unfold outer_ok in *; rewrite Eb in Ho; exact Ho).
    assert (Hd0 : forall d, (forall w, space w (tree_of v) = d) -> forall w r, b_space w r (mk_b (add_child f (tree_of v) :: fr) None) - b_space w r b = d).
    { intros d Hd w r. unfold b_space. rewrite Eb, Hr. cbn [b_stack b_root fold_right]. rewrite add_child_space.
      pose proof (Hd w). destruct f as [|? [|]]; try contradiction; lia. }
    pose proof (fun w => value_space w v Hw Hok) as Hvs.
    destruct (to_sized_value v) as [s0|].
    + split; [apply Hsh; exact S5|]. split; [exact Ho'|]. apply (Hend _ 0 (Hd0 0 Hvs)). cbn [l_set_stack l_pos]. lia.
    + rewrite (padded_add _ _ S5). split; [apply Hsh; unfold padded; lia|]. split; [exact Ho'|].
      apply (Hend _ (padded (fleece_size v))); [apply Hd0; intros w; symmetry; apply Hvs|]. cbn [l_pos]. lia.
  - apply (Hbegin (FArr []) (LArr 0 false [])); [reflexivity|reflexivity|exact H].
  - destruct (b_stack b) as [|[x|x p] fr] eqn:Eb; try discriminate. injection H as <-.
    destruct (close_space b l _ _ Hs Eb I ltac:(unfold outer_ok in Ho; rewrite Eb in Ho; exact Ho)) as (C1 & C2 & C3).
    assert (El : match l_stack l with LArr _ _ _ :: _ => l_close l | _ => l end = l_close l).
    { inversion S4 as [|? g ? lst Hfg Hst E1 E2]; subst. destruct g; [reflexivity|contradiction]. }
    rewrite El. split; [exact C1|]. split; [eapply pop_outer; eauto|]. auto.
  - apply (Hbegin (FDict [] None) (LDict 0 false [] [] None)); [cbn [fshape]; split; [reflexivity|tauto]|reflexivity|exact H].
  - destruct (b_stack b) as [|[x|x [y|]] fr] eqn:Eb; try discriminate. injection H as <-.
    destruct (close_space b l _ _ Hs Eb I ltac:(unfold outer_ok in Ho; rewrite Eb in Ho; exact Ho)) as (C1 & C2 & C3).
    assert (El : match l_stack l with LDict _ _ _ _ None :: _ => l_close l | _ => l end = l_close l).
    { inversion S4 as [|? g ? lst Hfg Hst E1 E2]; subst. destruct g as [|n s v ks q]; [contradiction|]. cbn [fshape] in Hfg. rewrite (proj1 (proj2 Hfg) eq_refl). reflexivity. }
    rewrite El. split; [exact C1|]. split; [eapply pop_outer; eauto|]. auto.
  - exfalso. exact (Hno t eq_refl).
Qed.

Lemma plain_narrow n l : 0 <= n -> lplain n l -> lpot l <= MAX_NARROW -> narrow l.
Proof.
  intros H0 [Hn Hp] Hm. unfold narrow, lpot in *. destruct (l_stack l) as [|f st] eqn:E; [exact I|]. inversion Hp as [|? ? H1 H2]; subst.
  cbn [fold_right] in Hm. pose proof (fpots_nonneg _ _ _ H2) as HR. set (R := fold_right _ 0 st) in *. clearbody R.
  destruct (fpot_nonneg _ _ _ H1) as [Hs _].
  assert (Hf : 22 + 4 * l_slots f <= fpot f) by (unfold fpot; destruct f as [k sh v|k sh v ks [p|]]; lia).
  assert (Hc : 0 <= l_count f <= MAX_WIDE) by (unfold MAX_NARROW, MAX_WIDE in *; destruct f; cbn [fplain l_slots l_count] in *; lia).
  pose proof (header_bounds _ Hc). split; [|lia].
  assert (Hex : forall (q : Z -> bool) vals, within n (l_pos l) vals -> (forall p, n <= p <= l_pos l -> q p = false) -> existsb q vals = false).
  { intros q vals Hw Hq. induction Hw as [|p vals Hx _ IH]; [reflexivity|]. cbn [existsb]. rewrite (Hq p Hx), IH. reflexivity. }
  destruct f as [k sh v|k sh v ks pend]; cbn [fplain l_wide] in *.
  - apply Hex; [apply H1|]. intros p Hx. lia.
  - destruct H1 as (_ & _ & B1 & B2 & _). rewrite !Hex with (vals := v), Hex with (vals := ks); auto; intros; lia.
Qed.

Lemma run_space ua : forall ops b l, shaped b l -> outer_ok b -> Forall good_op ops -> (forall t, ~ In (OpSetSharedKeys t) ops) ->
  Forall (eq (Ok tt)) (snd (b_run b ops)) ->
  let b' := fst (b_run b ops) in let l' := l_run ua l ops in
  shaped b' l' /\
  b_space 2 2 b' - b_space 2 2 b <= l_pos l' - l_pos l <= b_space 4 6 b' - b_space 4 6 b /\
  (forall n, 0 <= n -> lplain n l -> forallb plain_op ops = true -> lpot l + ops_size ops <= MAX_NARROW ->
    l_pos l' - l_pos l = b_space 2 2 b' - b_space 2 2 b).
Proof.
  induction ops as [|o ops IH]; intros b l Hs Ho Hg Hno Hok; cbv zeta.
  { cbn [b_run fst l_run fold_left]. split; [exact Hs|]. split; [lia|]. intros; lia. }
  cbn [b_run] in *. unfold l_run. cbn [fold_left]. change (fold_left (l_step ua) ops (l_step ua l o)) with (l_run ua (l_step ua l o) ops).
  inversion Hg as [|? ? Hg1 Hg2]; subst. destruct (b_step b o) as [b1|er] eqn:Eb; cbn [fst snd] in *; inversion Hok as [|? ? Hk1 Hk2]; subst; [|discriminate].
  destruct (step_space ua b l o b1 Hs Ho Hg1) as (S1 & O1 & B1 & X1); [intros t ->; apply (Hno t); left; reflexivity|exact Eb|].
  destruct (IH b1 _ S1 O1 Hg2) as (S2 & B2 & X2); [intros t Hin; apply (Hno t); right; exact Hin|exact Hk2|].
  split; [exact S2|]. split; [lia|]. intros n Hn Hpl Hpp Hm. cbn [forallb] in Hpp. apply andb_prop in Hpp as [Hp1 Hp2].
  change (ops_size (o :: ops)) with (op_size o + ops_size ops) in *.
  pose proof (ops_size_nonneg _ Hg2). pose proof (good_ops_size [o] ltac:(constructor; auto) o (or_introl eq_refl)) as Hsz.
  destruct (step_plain ua n l o Hpl Hg1 Hp1 ltac:(unfold MAX_NARROW, MAX_WIDE in *; lia)) as [H1 H2].
  specialize (X1 (plain_narrow n l Hn Hpl ltac:(lia))). specialize (X2 n Hn H1 Hp2 ltac:(lia)). lia.
Qed.

Theorem len_predicted c prefix ops e' rs :
  sort_ok (c_sort c) -> lenZ prefix mod 2 = 0 ->
  Forall good_op ops -> keys_ok false ops -> polite b_init ops ->
  layout_ok (c_ua c) (lenZ prefix) ops -> lenZ prefix + ops_size ops <= MAX_WIDE ->
  enc_run c (enc_new_to_vec prefix) ops = Ret (e', rs) ->
  lenZ (en_out e') = written_len (c_ua c) (lenZ prefix) ops /\
  forall bs, finish c e' = Ret bs -> lenZ bs = finished_len (c_ua c) (lenZ prefix) ops.
Proof.
  intros Hs Hev Hg Hk Hp Hl Hw Hr. apply layout_decided in Hl; [|exact Hg].
  destruct (@run_len any_key c Hs ops _ _ _ (inv_init prefix Hev) (lrel_init prefix) Hg Hp Hk (strings_any _ _ _)) with (e' := e') (rs := rs) as [H1 H2]; auto.
  { unfold pot. cbn [enc_new_to_vec en_out en_stack stack_pot]. lia. }
  split; [symmetry; apply H1|exact H2].
Qed.

Lemma step_root b o b' : (b_root b <> None -> b_stack b = []) -> b_step b o = Ok b' -> b_root b' <> None -> b_stack b' = [].
Proof.
  intros H E. destruct o as [k|v|m| | | |t]; cbn [b_step] in E; [| | | | | |injection E as <-; exact H];
    unfold b_begin, b_pop in E; destruct (b_root b) eqn:Er;
    try (rewrite H in E by discriminate); try destruct (b_stack b) as [|[x|x [y|]] [|g fr]]; try discriminate; injection E as <-; cbn [b_root b_stack]; try congruence; try (intros _; apply H; discriminate); auto.
Qed.
Lemma accepted_polite : forall ops b, (b_root b <> None -> b_stack b = []) -> Forall (eq (Ok tt)) (snd (b_run b ops)) -> polite b ops.
Proof.
  induction ops as [|o ops IH]; intros b Hb H; cbn [polite b_run] in *; [exact I|].
  destruct (b_step b o) as [b'|er] eqn:E; cbn [snd] in H; inversion H; subst; [|discriminate].
  split; [|apply IH; [eapply step_root; eauto|assumption]].
  destruct o; cbn [polite_op b_step] in *; auto; unfold b_begin in *; destruct (b_root b) eqn:Er; auto; try rewrite Hb in E by discriminate; try discriminate;
    destruct (b_stack b) as [|[x|x [y|]] fr]; auto; discriminate.
Qed.

Theorem size_of_document c prefix ops t e' rs bs :
  sort_ok (c_sort c) -> lenZ prefix mod 2 = 0 ->
  Forall good_op ops -> (forall t, ~ In (OpSetSharedKeys t) ops) ->
  Forall (eq (Ok tt)) (snd (b_run b_init ops)) -> fst (b_run b_init ops) = mk_b [] (Some t) ->
  layout_ok (c_ua c) (lenZ prefix) ops -> lenZ prefix + ops_size ops <= MAX_WIDE ->
  enc_run c (enc_new_to_vec prefix) ops = Ret (e', rs) -> finish c e' = Ret bs ->
  space 2 t + 2 <= lenZ bs - lenZ prefix <= space 4 t + 6 /\
  (forallb plain_op ops = true -> lenZ prefix + ops_size ops <= MAX_NARROW -> lenZ bs = lenZ prefix + space 2 t + 2).
Proof.
  intros Hs Hev Hg Hno Hok Ht Hl Hw Hr Hf.
  destruct (len_predicted c prefix ops e' rs Hs Hev Hg (no_sets_keys_ok ops Hno) (accepted_polite ops b_init (fun _ => eq_refl) Hok) Hl Hw Hr) as [_ H2].
  rewrite (H2 _ Hf). clear H2.
  assert (H0 : shaped b_init (l_init (lenZ prefix))).
  { constructor; cbn; auto. }
  destruct (run_space (c_ua c) ops b_init _ H0 ltac:(constructor) Hg Hno Hok) as (S1 & B1 & X1).
  rewrite Ht in *. unfold finished_len. set (l := l_run _ _ _) in *.
  assert (El : l_stack l = []) by (destruct S1 as [_ _ _ S4 _]; inversion S4; reflexivity). rewrite El. cbn [length l_finish].
  assert (Hb : forall w r, b_space w r (mk_b [] (Some t)) = space w t + r) by (intros; unfold b_space; cbn [b_stack b_root fold_right]; lia).
  assert (Hb0 : forall w r, b_space w r b_init = 0) by reflexivity.
  rewrite !Hb, !Hb0 in *. cbn [l_init l_pos] in *. split; [lia|]. intros Hpl Hsz.
  pose proof (lenZ_nonneg prefix). rewrite <- (Z.sub_add (lenZ prefix) (l_pos l)), (X1 (lenZ prefix)); auto; try lia.
  - split; [cbn; lia|constructor].
  - unfold lpot. cbn [l_init l_pos l_stack fold_right]. lia.
Qed.

Lemma sum_perm {A} (g : A -> Z) l l' : Permutation l l' ->
  fold_right (fun y n => g y + n) 0 l = fold_right (fun y n => g y + n) 0 l'.
Proof. induction 1; cbn [fold_right]; lia. Qed.
Theorem space_tsim w : forall t t', tsim t t' -> space w t = space w t'.
Proof.
  induction t as [t Hsc|l IH|l IH] using tree_nested; intros t' H; inversion H as [|? m Hl|? l' m Hp Hl]; subst; try reflexivity; try contradiction.
  - cbn [space]. rewrite (Forall2_lenZ _ _ _ Hl). f_equal.
    clear H. induction Hl as [|x y l m Hx Hl IHl]; [reflexivity|]. inversion IH as [|? ? I1 I2]; subst. cbn [fold_right]. rewrite (I1 _ Hx), (IHl I2). reflexivity.
  - cbn [space]. rewrite (Permutation_lenZ _ _ Hp), (sum_perm _ _ _ Hp), (Forall2_lenZ _ _ _ Hl). f_equal.
    pose proof (Permutation_Forall Hp IH) as IH'. clear H Hp IH. induction Hl as [|x y l' m [Hx1 Hx2] Hl IHl]; [reflexivity|].
    inversion IH' as [|? ? I1 I2]; subst. cbn [fold_right]. rewrite Hx1, (I1 _ Hx2), (IHl I2). reflexivity.
Qed.
