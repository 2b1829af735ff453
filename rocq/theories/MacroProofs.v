(** The [fleece!] macro. *)
From Verif Require Import Prelude Lib Varint VarintProofs Utf8 Float SharedKeys Decode Read Encodable Encoder BuilderSpec LayoutSpec TotalSpec
  Holds Repr EncodableProofs Stored StoredRead SlotProofs EncoderProofs EncoderInv EncoderClean EncoderLayout EncoderProtocol EncoderLimit EncoderTotal
  ReadSpec Safety Navigate Isort Values SerProofs FromScopeProofs Alloced Macro MacroSpec.
From Coq Require Import ZifyBool ZifyNat ZifyN.
Ltac Zify.zify_post_hook ::= Z.div_mod_to_equations.
#[local] Existing Instance any_key.

(* ---------- literals as calls ---------- *)

Section lit_ind.
  Variable P : lit -> Prop.
  Hypothesis Hv : forall v, P (LitVal v).
  Hypothesis Hd : forall l, Forall (fun kv => P (snd kv)) l -> P (LitDict l).
  Hypothesis Ha : forall l, Forall P l -> P (LitArr l).
  Fixpoint lit_all (x : lit) : P x :=
    match x with
    | LitVal v => Hv v
    | LitDict l => Hd l ((fix go l : Forall (fun kv => P (snd kv)) l :=
        match l with [] => Forall_nil _ | kv :: l' => Forall_cons kv (lit_all (snd kv)) (go l') end) l)
    | LitArr l => Ha l ((fix go l : Forall P l :=
        match l with [] => Forall_nil _ | y :: l' => Forall_cons y (lit_all y) (go l') end) l)
    end.
End lit_ind.

Fixpoint unchecked_run (c : cfg) (e : enc) (ops : list op) : outcome enc :=
  match ops with
  | [] => Ret e
  | o :: ops' => e1 <- unchecked_call c e o ;; unchecked_run c e1 ops'
  end.
Lemma bind_assoc {A B C} (m : outcome A) (f : A -> outcome B) (g : B -> outcome C) :
  bind (bind m f) g = bind m (fun x => bind (f x) g).
Proof. destruct m; reflexivity. Qed.
Lemma unchecked_app c : forall a e b, unchecked_run c e (a ++ b) = (e1 <- unchecked_run c e a ;; unchecked_run c e1 b).
Proof.
  induction a as [|o a IH]; intros e b; cbn [app unchecked_run]; [reflexivity|].
  rewrite bind_assoc. destruct (unchecked_call c e o); cbn [bind]; [apply IH|reflexivity..].
Qed.
Lemma bind_ret {A} (m : outcome A) : bind m Ret = m.
Proof. destruct m; reflexivity. Qed.
Lemma lit_write_run c : forall x e, lit_write c e x = unchecked_run c e (lit_ops x).
Proof.
  intros x. induction x as [v|l IH|l IH] using lit_all; intros e; cbn [lit_write lit_ops unchecked_run].
  - rewrite bind_ret. reflexivity.
  - destruct (unchecked_call c e OpBeginDict) as [e1| | |]; cbn [bind]; try reflexivity. rewrite unchecked_app. cbn [unchecked_run].
    assert (Hi : forall e, (fix inserts (e : enc) (l : list (list Z * lit)) : outcome enc :=
               match l with
               | [] => Ret e
               | kv :: l' => e1 <- unchecked_call c e (OpKey (fst kv)) ;; e2 <- lit_write c e1 (snd kv) ;; inserts e2 l'
               end) e l = unchecked_run c e (flat_map (fun kv => OpKey (fst kv) :: lit_ops (snd kv)) l)).
    { induction IH as [|kv l Hk _ IHl]; intros e0; cbn [flat_map]; [reflexivity|].
      cbn [app unchecked_run]. destruct (unchecked_call c e0 (OpKey (fst kv))) as [e2| | |]; cbn [bind]; try reflexivity.
      rewrite unchecked_app, Hk. destruct (unchecked_run c e2 (lit_ops (snd kv))) as [e3| | |]; cbn [bind]; try reflexivity. apply IHl. }
    rewrite Hi. destruct (unchecked_run c e1 _) as [e2| | |]; cbn [bind]; try reflexivity. symmetry. apply bind_ret.
  - destruct (unchecked_call c e (OpBeginArray 10)) as [e1| | |]; cbn [bind]; try reflexivity. rewrite unchecked_app. cbn [unchecked_run].
    assert (Hi : forall e, (fix pushes (e : enc) (l : list lit) : outcome enc :=
               match l with
               | [] => Ret e
               | x :: l' => e1 <- lit_write c e x ;; pushes e1 l'
               end) e l = unchecked_run c e (flat_map lit_ops l)).
    { induction IH as [|y l Hk _ IHl]; intros e0; cbn [flat_map]; [reflexivity|].
      rewrite unchecked_app, Hk. destruct (unchecked_run c e0 (lit_ops y)) as [e3| | |]; cbn [bind]; try reflexivity. apply IHl. }
    rewrite Hi. destruct (unchecked_run c e1 _) as [e2| | |]; cbn [bind]; try reflexivity. symmetry. apply bind_ret.
Qed.
Lemma unchecked_enc_run c : forall ops e e' rs, enc_run c e ops = Ret (e', rs) -> Forall (eq (Ok tt)) rs -> unchecked_run c e ops = Ret e'.
Proof.
  induction ops as [|o ops IH]; intros e e' rs H Hok; cbn [enc_run unchecked_run] in *; [injection H as <- _; reflexivity|].
  unfold unchecked_call. destruct (enc_step c e o) as [[e1 r1]| | |]; try discriminate. cbn [bind fst snd] in *.
  destruct (enc_run c e1 ops) as [[e2 r2]| | |] eqn:E2; try discriminate. cbn [bind fst snd] in H. injection H as <- <-.
  inversion Hok as [|? ? H1 H2]; subst. cbn [bind]. eapply IH; eauto.
Qed.

(* ---------- what the calls describe ---------- *)

(** Every call of the list is allowed; the state they lead to. *)
Fixpoint bwalk (b : bstate) (ops : list op) : option bstate :=
  match ops with
  | [] => Some b
  | o :: ops' => match b_step b o with Ok b' => bwalk b' ops' | Err _ => None end
  end.
Lemma bwalk_app : forall a b ops, bwalk b (a ++ ops) = match bwalk b a with Some b' => bwalk b' ops | None => None end.
Proof. induction a as [|o a IH]; intros b ops; cbn [app bwalk]; [reflexivity|]. destruct (b_step b o); [apply IH|reflexivity]. Qed.
Lemma bwalk_run : forall ops b b', bwalk b ops = Some b' -> fst (b_run b ops) = b' /\ Forall (eq (Ok tt)) (snd (b_run b ops)).
Proof.
  induction ops as [|o ops IH]; intros b b' H; cbn [bwalk b_run] in *; [injection H as <-; split; [reflexivity|constructor]|].
  destruct (b_step b o) as [b1|]; [|discriminate]. destruct (IH _ _ H) as [H1 H2]. cbn [fst snd]. split; [exact H1|]. constructor; [reflexivity|exact H2].
Qed.
Definition lit_ready (x : lit) (b : bstate) : Prop := ready b (match x with LitVal _ => false | _ => true end).
Definition walked (x : lit) : Prop := forall b, lit_ready x b -> bwalk b (lit_ops x) = Some (put b (lit_tree x)).
Lemma items_walked : forall l, Forall walked l -> forall l0 st,
  bwalk (mk_b (FArr l0 :: st) None) (flat_map lit_ops l) = Some (mk_b (FArr (l0 ++ map lit_tree l) :: st) None).
Proof.
  induction 1 as [|x l Hx _ IH]; intros l0 st; cbn [flat_map map]; [rewrite app_nil_r; reflexivity|].
  rewrite bwalk_app, (Hx _ (ready_arr _ _ _)). unfold put; cbn [b_stack add_child]. rewrite IH, <- app_assoc. reflexivity.
Qed.
Lemma pairs_walked : forall l, Forall (fun kv => walked (snd kv)) l -> forall l0 st,
  bwalk (mk_b (FDict l0 None :: st) None) (flat_map (fun kv : list Z * lit => OpKey (fst kv) :: lit_ops (snd kv)) l) =
  Some (mk_b (FDict (l0 ++ map (fun kv => (fst kv, lit_tree (snd kv))) l) None :: st) None).
Proof.
  induction 1 as [|[k x] l Hx _ IH]; intros l0 st; cbn [flat_map map fst snd] in *; [rewrite app_nil_r; reflexivity|].
  cbn [app bwalk b_step b_stack b_root]. rewrite bwalk_app, (Hx _ (ready_dict _ _ _ _)). unfold put; cbn [b_stack add_child]. rewrite IH, <- app_assoc. reflexivity.
Qed.
Lemma all_walked : forall x, walked x.
Proof.
  intros x. induction x as [v|l H|l H] using lit_all; intros b [Hw Hc]; cbn [lit_ops lit_tree].
  - cbn [bwalk b_step]. destruct Hw as [Hr Hs]. unfold put. destruct b as [st rt]. cbn [b_stack b_root] in *. subst rt.
    destruct st as [|[l|l [k|]] st]; [discriminate (Hc eq_refl)|reflexivity|reflexivity|destruct Hs].
  - cbn [bwalk b_step]. rewrite begin_ready by exact Hw. rewrite bwalk_app, pairs_walked by exact H.
    cbn [bwalk b_step b_stack app]. rewrite pop_put by exact Hw. reflexivity.
  - cbn [bwalk b_step]. rewrite begin_ready by exact Hw. rewrite bwalk_app, items_walked by exact H.
    cbn [bwalk b_step b_stack app]. rewrite pop_put by exact Hw. reflexivity.
Qed.
Definition is_coll (x : lit) : Prop := match x with LitVal _ => False | _ => True end.
Lemma lit_walk x : is_coll x -> bwalk b_init (lit_ops x) = Some (mk_b [] (Some (lit_tree x))).
Proof.
  intros H. rewrite (all_walked x b_init); [reflexivity|]. split; [split; [reflexivity|exact I]|]. intros _. destruct x; [destruct H|reflexivity..].
Qed.

(* ---------- no call of an accepted sequence returns an error ---------- *)

Lemma accepted_regular b o b' : b_step b o = Ok b' -> regular b o.
Proof.
  destruct o; cbn [b_step regular]; auto.
  - destruct (b_stack b) as [|[l|l [k|]] st]; auto; discriminate.
  - unfold b_begin. destruct (b_root b); [discriminate|reflexivity].
Qed.
Lemma accepted_written o : rust_op o -> written_op o.
Proof. destruct o; cbn; auto. Qed.
Lemma ops_size_cons o ops : ops_size (o :: ops) = op_size o + ops_size ops.
Proof. reflexivity. Qed.
Lemma rust_sizes ops : Forall rust_op ops -> 0 <= ops_size ops.
Proof.
  intros H. apply ops_size_nonneg. eapply Forall_impl; [|exact H]. intros o. apply accepted_written.
Qed.

Definition stuck {A} (m : outcome A) : Prop := m = Panic \/ m = Diverge.
Definition opened (dbg : bool) (o : op) : bool := match o with OpValue v => can_write dbg v | _ => true end.

Lemma call_safe c e b o b' : sort_ok (c_sort c) -> b_step b o = Ok b' -> sh e b -> tame e -> rust_op o -> pot e + op_size o <= MAX_WIDE ->
  (opened (c_dbg c) o = false /\ stuck (unchecked_call c e o)) \/
  (opened (c_dbg c) o = true /\ exists e', unchecked_call c e o = Ret e' /\ enc_step c e o = Ret (e', Ok tt) /\ tame e' /\ sh e' b' /\ pot e' <= pot e + op_size o).
Proof.
  intros Hs Hb Hsh Ht Ho Hp. unfold unchecked_call.
  assert (Ha : answered_op (c_dbg c) o \/ (opened (c_dbg c) o = false /\ exists v, o = OpValue v)).
  { destruct o; cbn [answered_op rust_op opened] in *; auto. destruct (can_write (c_dbg c) v); [left; auto|right; eauto]. }
  destruct Ha as [Ha|[Hn [v ->]]].
  - right. split; [destruct o; try reflexivity; exact (proj2 Ha)|].
    destruct (step_total c e o Hs Ht Ha Hp) as (e' & r & E & Ht').
    destruct (step_below c e o e' r Hs E (tame_below _ Ht) (accepted_written _ Ho) Hp) as (Hne & _ & Hp').
    pose proof (step_sh c e b o e' r E Hsh (accepted_regular _ _ _ Hb)) as Hst. unfold sh_step in Hst. rewrite Hb in Hst.
    destruct Hst as [[-> Hsh']|Hx]; [|congruence]. exists e'. rewrite E. cbn [bind fst snd].
    split; [reflexivity|]. split; [reflexivity|]. split; [exact Ht'|]. split; [exact Hsh'|exact Hp'].
  - left. split; [exact Hn|]. cbn [enc_step]. cbn [b_step] in Hb. destruct Hsh as [H1 _ _ _].
    assert (Hne : en_stack e <> []) by (intros Hx; rewrite Hx in H1; destruct (b_stack b); discriminate).
    destruct (not_writable c e v Ho Hn Hne) as [-> | ->]; cbn [bind]; unfold stuck; auto.
Qed.
Lemma run_safe c : sort_ok (c_sort c) -> forall ops e b b', bwalk b ops = Some b' -> sh e b -> tame e -> Forall rust_op ops ->
  pot e + ops_size ops <= MAX_WIDE ->
  (forallb (opened (c_dbg c)) ops = false /\ stuck (unchecked_run c e ops)) \/
  (forallb (opened (c_dbg c)) ops = true /\ exists e', unchecked_run c e ops = Ret e' /\ tame e' /\ sh e' b' /\ pot e' <= pot e + ops_size ops).
Proof.
  intros Hs. induction ops as [|o ops IH]; intros e b b' Hb Hsh Ht Ho Hp; cbn [bwalk unchecked_run forallb] in *.
  - injection Hb as <-. right. split; [reflexivity|]. exists e. split; [reflexivity|]. split; [exact Ht|]. split; [exact Hsh|]. cbn. lia.
  - rewrite ops_size_cons in *. inversion Ho as [|? ? Ho1 Ho2]; subst. pose proof (rust_sizes _ Ho2) as Hz.
    destruct (b_step b o) as [b1|] eqn:Eb; [|discriminate].
    destruct (call_safe c e b o b1 Hs Eb Hsh Ht Ho1 ltac:(lia)) as [[Hn Hst]|[Hn (e1 & -> & _ & Ht1 & Hsh1 & Hp1)]].
    + left. rewrite Hn. split; [reflexivity|]. destruct Hst as [-> | ->]; cbn [bind]; unfold stuck; auto.
    + rewrite Hn. cbn [bind andb]. destruct (IH e1 b1 b' Hb Hsh1 Ht1 Ho2 ltac:(lia)) as [K|[K0 (e2 & K1 & K2 & K3 & K4)]]; [left; exact K|].
      right. split; [exact K0|]. exists e2. split; [exact K1|]. split; [exact K2|]. split; [exact K3|lia].
Qed.

(** The literal without its last call. *)
Definition lit_body (x : lit) : list op :=
  match x with
  | LitVal v => []
  | LitDict l => OpBeginDict :: flat_map (fun kv => OpKey (fst kv) :: lit_ops (snd kv)) l
  | LitArr l => OpBeginArray 10 :: flat_map lit_ops l
  end.
Definition lit_close (x : lit) : op := match x with LitArr _ => OpEndArray | _ => OpEndDict end.
Definition is_dict_lit (x : lit) : bool := match x with LitDict _ => true | _ => false end.
Lemma lit_ops_split x : is_coll x -> lit_ops x = lit_body x ++ [lit_close x].
Proof. destruct x; [intros []|reflexivity..]. Qed.
Lemma body_walk x : is_coll x -> exists f, bwalk b_init (lit_body x) = Some (mk_b [f] None) /\
  if is_dict_lit x then exists l, f = FDict l None else exists l, f = FArr l.
Proof.
  destruct x as [v|l|l]; [intros []| |]; intros _; cbn [lit_body is_dict_lit bwalk b_step b_begin b_init b_root b_stack].
  - eexists. split; [apply pairs_walked; apply Forall_forall; intros kv _; apply all_walked|eauto].
  - eexists. split; [apply items_walked; apply Forall_forall; intros kv _; apply all_walked|eauto].
Qed.
Lemma tame_new : tame enc_new.
Proof. constructor; cbn; [reflexivity|constructor|constructor]. Qed.

Lemma literal_written c x : sort_ok (c_sort c) -> is_coll x -> rust_lit x -> ops_size (lit_ops x) <= MAX_WIDE ->
  (forallb (opened (c_dbg c)) (lit_ops x) = false /\ stuck (lit_write c enc_new x)) \/
  (forallb (opened (c_dbg c)) (lit_ops x) = true /\
   exists e', lit_write c enc_new x = Ret e' /\ tame e' /\ root_at (is_dict_lit x) e' /\ lenZ (en_out e') <= ops_size (lit_ops x)).
Proof.
  intros Hs Hc Hr Hsz. rewrite lit_write_run. unfold rust_lit in Hr. rewrite lit_ops_split in * by exact Hc.
  apply Forall_app in Hr as [Hr1 Hr2]. rewrite unchecked_app, forallb_app.
  assert (Hsa : ops_size (lit_body x ++ [lit_close x]) = ops_size (lit_body x)).
  { clear. induction (lit_body x) as [|o l IH]; cbn [app]; rewrite ?ops_size_cons; [destruct x; reflexivity|lia]. }
  rewrite Hsa in *. destruct (body_walk x Hc) as (f & Hw & Hf).
  assert (Hp0 : pot enc_new = 0) by reflexivity.
  destruct (run_safe c Hs (lit_body x) enc_new b_init _ Hw (sh_init []) tame_new Hr1 ltac:(lia)) as [[K0 K]|[K0 (e1 & -> & Ht & Hsh & Hp)]].
  { left. rewrite K0. split; [reflexivity|]. destruct K as [-> | ->]; cbn [bind]; unfold stuck; auto. }
  right. rewrite K0. split; [destruct x; reflexivity|]. cbn [bind unchecked_run]. rewrite bind_ret. unfold unchecked_call.
  assert (He : exists e', enc_step c e1 (lit_close x) = Ret (e', Ok tt) /\ tame e' /\ root_at (is_dict_lit x) e').
  { destruct (sh_cases _ _ Hsh) as [[H1 H2]|[(vs & st & l & fr & H1 & H2 & H3)|[(vs & st & l & fr & H1 & H2 & H3)|(vs & k & st & l & k2 & fr & H1 & H2 & H3)]]];
      cbn [b_stack] in H2; try discriminate; injection H2 as -> <-; destruct st; try discriminate H3.
    - destruct x as [v|ll|ll]; [destruct Hc| |]; cbn [is_dict_lit lit_close enc_step] in *; [destruct Hf; discriminate|].
      destruct (end_array_total c e1 vs [] Ht ltac:(lia) H1) as (e' & E & T & R). exists e'. auto.
    - destruct x as [v|ll|ll]; [destruct Hc| |]; cbn [is_dict_lit lit_close enc_step] in *; [|destruct Hf; discriminate].
      destruct (end_dict_total c e1 vs [] Hs Ht ltac:(lia) H1) as (e' & E & T & R). exists e'. auto.
    - destruct x as [v|ll|ll]; [destruct Hc| |]; destruct Hf; discriminate. }
  destruct He as (e' & E & T & R). rewrite E. cbn [bind fst snd]. exists e'. split; [reflexivity|]. split; [exact T|]. split; [exact R|].
  assert (Hz : op_size (lit_close x) = 0) by (destruct x; reflexivity).
  assert (Hwr : written_op (lit_close x)) by (destruct x; exact I).
  destruct (step_below c e1 _ e' _ Hs E (tame_below _ Ht) Hwr ltac:(lia)) as (_ & _ & Hp').
  destruct R as [Rs _]. assert (Hpe : pot e' = lenZ (en_out e')) by (unfold pot; rewrite Rs; cbn [stack_pot]; lia). lia.
Qed.

(* ---------- the root value ---------- *)

Lemma root_typed isd e base : root_at isd e -> addressable base (en_out e) -> lenZ (en_out e) < two63 ->
  exists v, forall dbg sk, let m := mk_env dbg base (en_out e) sk in
    find_root m = Ret (Ok v) /\ from_bytes_unchecked m = Ret v /\ value_type m v = Ret (if isd then TyDict else TyArray).
Proof.
  intros (_ & _ & D0 & p & n & w & HD & Hp & Hpe & Hde & Hmx & Hn & Hh & Hhold) [Ha1 Ha2] Hl63.
  exists (V p (lenZ D0 - p)). intros dbg sk m.
  assert (Hok : env_ok m) by (unfold env_ok; cbn [m e_base e_data]; auto).
  assert (Hty : value_type m (V p (lenZ D0 - p)) = Ret (if isd then TyDict else TyArray)).
  { destruct (hdr_size_bounds n) as [Hz _]; [unfold two63, two64 in *; lia|].
    assert (Hh2 : holds (e_data m) p (hdr_bytes (if isd then 112 else 96) n w)) by (cbn [m e_data]; rewrite HD; destruct Hhold as (x & y & -> & Hx); exists x, (y ++ root_tail (lenZ (x ++ hdr_bytes (if isd then 112 else 96) n w ++ y) - p)); rewrite !app_assoc; auto).
    unfold hdr_bytes in Hh2. rewrite (holds_type _ _ _ _ _ Hh2) by lia. destruct isd.
    - rewrite <- Z.add_assoc, type_dict by (destruct w; lia). reflexivity.
    - rewrite <- Z.add_assoc, type_array by (destruct w; lia). reflexivity. }
  destruct (tail_read m D0 p HD Hok Hp Hpe Hde Hmx) as [T1 T2].
  { exists (if isd then TyDict else TyArray). split; [exact Hty|destruct isd; discriminate]. }
  auto.
Qed.

Definition of_kind (x : lit) (a : alloced) : outcome (option alloced) := if is_dict_lit x then alloced_to_dict a else alloced_to_array a.
Definition fleece_lit (c : cfg) (base : Z) (x : lit) : outcome alloced :=
  e <- lit_write c enc_new x ;;
  r <- finish_value c base e ;;
  d <- of_kind x (mk_alloced (fst r) (snd r)) ;;
  match d with Some a => Ret a | None => UB end.
Lemma closed_finish isd c e : root_at isd e -> finish c e = Ret (en_out e).
Proof. intros [H _]. rewrite finish_unfold, H. reflexivity. Qed.

Lemma literal_outcome c base x : sort_ok (c_sort c) -> is_coll x -> rust_lit x -> ops_size (lit_ops x) <= MAX_WIDE ->
  2147483648 <= base -> base + ops_size (lit_ops x) < two63 ->
  fleece_lit c base x = Panic \/
  (forallb (opened (c_dbg c)) (lit_ops x) = false /\ fleece_lit c base x = Diverge) \/
  exists a, fleece_lit c base x = Ret a.
Proof.
  intros Hs Hc Hr Hsz Hb1 Hb2. unfold fleece_lit.
  destruct (literal_written c x Hs Hc Hr Hsz) as [[K0 [-> | ->]]|[K0 (e' & -> & Ht & Hroot & Hl)]]; cbn [bind]; auto.
  unfold finish_value. rewrite (closed_finish _ _ _ Hroot). cbn [bind].
  pose proof (lenZ_nonneg (en_out e')) as Hz.
  destruct (root_typed _ e' base Hroot) as (v & Hv); [unfold addressable, two63, two64 in *; lia|unfold two63 in *; lia|].
  specialize (Hv (c_dbg c) None). cbv zeta in Hv. destruct Hv as (V1 & V2 & V3). set (m := mk_env (c_dbg c) base (en_out e') None) in *.
  assert (Hk : of_kind x (mk_alloced m v) = Ret (Some (mk_alloced m v))).
  { unfold of_kind, alloced_to_dict, alloced_to_array. cbn [al_env al_val]. rewrite V3. destruct (is_dict_lit x); reflexivity. }
  destruct (c_dbg c) eqn:Ed.
  - assert (Hwf : wf_env m).
    { destruct Ht as [_ T2 _]. unfold wf_env; cbn [m e_data e_base]. split; [exact T2|]. lia. }
    destruct (from_bytes_checked m Hwf (or_introl eq_refl)) as [U1 U2].
    destruct (from_bytes m) as [[r|er]| | |] eqn:Ef; cbn [bind]; try congruence; auto.
    unfold from_bytes in Ef. rewrite V1 in Ef. cbn [bindr bind] in Ef.
    destruct (validate _ m _ _ _ _) as [[u|]| | |]; cbn [bindr bind] in Ef; try discriminate. injection Ef as <-.
    cbn [fst snd]. rewrite Hk. cbn [bind]. right; right. eauto.
  - rewrite V2. cbn [bind fst snd]. rewrite Hk. cbn [bind]. right; right. eauto.
Qed.

Lemma answered_opened dbg ops : Forall (answered_op dbg) ops -> forallb (opened dbg) ops = true.
Proof.
  intros H. apply forallb_forall. rewrite Forall_forall in H. intros o Ho. specialize (H o Ho). destruct o; try reflexivity. exact (proj2 H).
Qed.
Lemma literal_result c base x : sort_ok (c_sort c) -> is_coll x -> rust_lit x -> ops_size (lit_ops x) <= MAX_WIDE ->
  2147483648 <= base -> base + ops_size (lit_ops x) < two63 ->
  fleece_lit c base x = Panic \/
  (~ Forall (answered_op (c_dbg c)) (lit_ops x) /\ fleece_lit c base x = Diverge) \/
  exists a, fleece_lit c base x = Ret a.
Proof.
  intros Hs Hc Hr Hsz Hb1 Hb2. destruct (literal_outcome c base x Hs Hc Hr Hsz Hb1 Hb2) as [H|[[H1 H2]|H]]; auto.
  right; left. split; [|exact H2]. intros H. rewrite (answered_opened _ _ H) in H1. discriminate.
Qed.

(* ---------- what it reads as ---------- *)

Lemma no_set x : forall t, ~ In (OpSetSharedKeys t) (lit_ops x).
Proof.
  induction x as [v|l H|l H] using lit_all; intros t; cbn [lit_ops In].
  - intros [Hx|[]]. discriminate.
  - intros [Hx|Hx]; [discriminate|]. apply in_app_or in Hx as [Hx|[Hx|[]]]; [|discriminate].
    apply in_flat_map in Hx as (kv & Hi & [Hx|Hx]); [discriminate|]. rewrite Forall_forall in H. exact (H kv Hi t Hx).
  - intros [Hx|Hx]; [discriminate|]. apply in_app_or in Hx as [Hx|[Hx|[]]]; [|discriminate].
    apply in_flat_map in Hx as (y & Hi & Hx). rewrite Forall_forall in H. exact (H y Hi t Hx).
Qed.
Lemma no_set_keys_ok : forall ops, (forall t, ~ In (OpSetSharedKeys t) ops) -> keys_ok false ops.
Proof.
  induction ops as [|o ops IH]; intros H; cbn [keys_ok]; [exact I|].
  assert (Hk : keys_ok false ops) by (apply IH; intros t Hx; exact (H t (or_intror Hx))).
  destruct o; auto; [split; [discriminate|exact Hk]|]. destruct (H t (or_introl eq_refl)).
Qed.
Lemma good_rust o : good_op o -> rust_op o.
Proof. destruct o; cbn; tauto. Qed.

Lemma good_rust_lit x : good_lit x -> rust_lit x.
Proof. intros Hg. eapply Forall_impl; [|exact Hg]. intros o. apply good_rust. Qed.

Lemma literal_reads c base x : sort_ok (c_sort c) -> is_coll x -> good_lit x -> layout_ok (c_ua c) 0 (lit_ops x) ->
  ops_size (lit_ops x) <= MAX_WIDE -> 0 <= base -> base + ops_size (lit_ops x) < two64 ->
  exists a t', fleece_lit c base x = Ret a /\ read_doc (al_env a) (al_val a) = Ret t' /\ tsim (lit_tree x) t'.
Proof.
  intros Hs Hc Hg Hl Hsz Hb1 Hb2.
  pose proof (good_rust_lit x Hg) as Hr.
  destruct (bwalk_run _ _ _ (lit_walk x Hc)) as [Hw1 Hw2].
  assert (Hp : polite b_init (lit_ops x)) by (apply accepted_polite; [intros Hx; exfalso; apply Hx; reflexivity|exact Hw2]).
  pose proof (no_set_keys_ok _ (no_set x)) as Hk.
  destruct (any_document c [] (lit_ops x) Hs eq_refl Hg Hk Hp (strings_any _ _ _) Hl Hsz) as (e2 & D0 & Er & _).
  assert (Hf : b_finish (fst (b_run b_init (lit_ops x))) = Some (lit_tree x)) by (rewrite Hw1; reflexivity).
  assert (Hsz0 : lenZ (@nil Z) + ops_size (lit_ops x) <= MAX_WIDE) by exact Hsz.
  destruct (plain_value c [] (lit_ops x) e2 _ _ Hs eq_refl Hg Hk (no_set x) Hl Hsz0 Er Hw2 Hf) as (D & v & t' & Ef & Hts & Hv).
  pose proof (unchecked_enc_run c _ _ _ _ Er Hw2) as Hu.
  destruct (literal_written c x Hs Hc Hr Hsz) as [[_ [K|K]]|[_ (e' & K & Ht & Hroot & Hlen)]];
    rewrite lit_write_run in K; unfold enc_new in K; rewrite Hu in K; try discriminate.
  apply Ret_inj in K. subst e2.
  rewrite (closed_finish _ _ _ Hroot) in Ef. apply Ret_inj in Ef. cbn [app] in *. subst D.
  pose proof (lenZ_nonneg (en_out e')) as Hz.
  assert (Ha : addressable base (en_out e')) by (unfold addressable; lia).
  destruct (Hv base Ha) as [Hfv Hread]. destruct (Hread (c_dbg c) None) as [Hfb Hrd].
  destruct (root_typed _ e' base Hroot Ha) as (v1 & V); [unfold two63, MAX_WIDE in *; lia|].
  destruct (V (c_dbg c) None) as (V1 & _ & V3). cbv zeta in *.
  assert (v1 = v) as ->.
  { unfold from_bytes in Hfb. rewrite V1 in Hfb. cbn [bindr bind] in Hfb.
    destruct (validate _ _ _ _ _ _) as [[u|]| | |]; cbn [bindr bind] in Hfb; try discriminate. injection Hfb as <-. reflexivity. }
  exists (mk_alloced (mk_env (c_dbg c) base (en_out e') None) v), t'. split; [|split; [exact Hrd|exact Hts]].
  unfold fleece_lit. rewrite lit_write_run. unfold enc_new. rewrite Hu. cbn [bind]. rewrite Hfv. cbn [bind fst snd].
  unfold of_kind, alloced_to_dict, alloced_to_array. cbn [al_env al_val]. rewrite V3. destruct (is_dict_lit x); reflexivity.
Qed.

(* ---------- too large ---------- *)

Lemma too_large_unreachable c base big e : enc_run c enc_new [OpBeginArray 0; OpValue big] = Ret (e, [Ok tt; Ok tt]) ->
  en_stack e <> [] -> lenZ (en_out e) mod 2 = 0 -> MAX_WIDE < lenZ (en_out e) < two32 ->
  fleece_array c base [LitVal big; LitVal (EF64 4611686018427387904)] = UB.
Proof.
  intros Hr Hst Hev Hl. unfold fleece_array. rewrite lit_write_run. cbn [lit_ops flat_map app unchecked_run].
  cbn [enc_run] in Hr. unfold unchecked_call.
  assert (Hb : enc_step c enc_new (OpBeginArray 10) = enc_step c enc_new (OpBeginArray 0)) by reflexivity. rewrite Hb.
  destruct (enc_step c enc_new (OpBeginArray 0)) as [[e1 r1]| | |]; try discriminate. cbn [bind fst snd] in *.
  destruct (enc_step c e1 (OpValue big)) as [[e2 r2]| | |] eqn:E2; try discriminate. cbn [bind fst snd] in *.
  apply Ret_inj in Hr. injection Hr as -> -> ->. cbn [bind]. rewrite E2. cbn [bind fst snd].
  destruct (value_too_large c e (EF64 4611686018427387904) (TF64 4611686018427387904)) as (e' & He); try assumption; try reflexivity.
  { apply wf_encb_ok. reflexivity. }
  cbn [enc_step]. rewrite He. reflexivity.
Qed.
Lemma oversized_literal c base : fleece_array c base [LitVal (EData (zeros (2 ^ 30))); LitVal (EF64 4611686018427387904)] = UB.
Proof. destruct (oversized_reached c) as (e & Hr & Hst & Hev & Hl). exact (too_large_unreachable c base _ e Hr Hst Hev Hl). Qed.
