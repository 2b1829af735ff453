(** [write_fleece] makes exactly the calls [value_calls]. *)
From Verif Require Import Prelude Lib Varint VarintProofs Utf8 Float SharedKeys
  Decode Read Encodable Encoder BuilderSpec Holds Repr EncodableProofs Stored StoredRead SlotProofs
  EncoderProofs EncoderInv EncoderClean LayoutSpec EncoderLayout EncoderProtocol Isort ValueSpec PathSpec Lookup Path Access FloatRange CopySpec.
From Coq Require Import ZifyBool ZifyNat ZifyN.
Ltac Zify.zify_post_hook ::= Z.div_mod_to_equations.
#[local] Existing Instance any_key.

Lemma eseq_assoc m k1 k2 : eseq (eseq m k1) k2 = eseq m (fun e => eseq (k1 e) k2).
Proof. unfold eseq. destruct m as [[e [u|r]]| | |]; cbn [bind fst snd]; reflexivity. Qed.
Lemma eseq_ext m k1 k2 : (forall e, k1 e = k2 e) -> eseq m k1 = eseq m k2.
Proof. intros H. unfold eseq. destruct m as [[e [u|r]]| | |]; cbn [bind fst snd]; auto. Qed.
Lemma eseq_ret m : eseq m (fun e => Ret (e, Ok tt)) = m.
Proof. unfold eseq. destruct m as [[e [[]|r]]| | |]; reflexivity. Qed.
Lemma for_each_app {A} (b : enc -> A -> eres) : forall l1 e l2,
  for_each b e (l1 ++ l2) = eseq (for_each b e l1) (fun e' => for_each b e' l2).
Proof.
  induction l1 as [|x l1 IH]; intros e l2; cbn [app for_each]; [reflexivity|].
  rewrite eseq_assoc. apply eseq_ext. intros e'. apply IH.
Qed.
Lemma for_each_concat {A} (b : enc -> A -> eres) : forall (ll : list (list A)) e,
  for_each b e (concat ll) = for_each (for_each b) e ll.
Proof.
  induction ll as [|l ll IH]; intros e; cbn [concat for_each]; [reflexivity|].
  rewrite for_each_app. apply eseq_ext. exact IH.
Qed.
Lemma for_each_mapM {A B} (g : A -> outcome B) (b1 : enc -> A -> eres) (b2 : enc -> B -> eres) :
  forall l l', mapM g l = Ret l' -> (forall x y e, In x l -> g x = Ret y -> b1 e x = b2 e y) ->
  forall e, for_each b1 e l = for_each b2 e l'.
Proof.
  induction l as [|x l IH]; intros l' H Hb e; cbn [mapM] in H.
  - apply ret_inj in H. subst. reflexivity.
  - destruct (g x) as [y| | |] eqn:Ey; try discriminate. cbn [bind] in H.
    destruct (mapM g l) as [ys| | |]; try discriminate. cbn [bind] in H. apply ret_inj in H. subst. cbn [for_each].
    rewrite (Hb x y e (or_introl eq_refl) Ey). apply eseq_ext. intros e'. apply (IH ys eq_refl). intros; apply Hb; [right|]; assumption.
Qed.

Lemma for_each_one {A} (b : enc -> A -> eres) e x : for_each b e [x] = b e x.
Proof. cbn [for_each]. apply eseq_ret. Qed.

Lemma write_fleece_calls c src : forall f v ops, value_calls f src v = Ret ops ->
  forall e, write_fleece f c e src v = for_each (enc_step c) e ops.
Proof.
  induction f as [|f IH]; intros v ops H e; [discriminate|]. cbn [value_calls] in H. cbn [write_fleece].
  destruct (value_type src v) as [t| | |] eqn:Et; try discriminate. cbn [bind] in *.
  assert (Hemp : en_stack e = [] -> t <> TyArray -> t <> TyDict -> vtype_eqb t TyArray || vtype_eqb t TyDict = false).
  { intros _ H1 H2. destruct t; try reflexivity; congruence. }
  destruct t; try discriminate;
    repeat (match type of H with bind ?m _ = _ => destruct m eqn:?Em; try discriminate; cbn [bind] in H end);
    apply ret_inj in H; subst ops; cbn [vtype_eqb orb] in *;
    try (rewrite for_each_one; cbn [enc_step]; unfold write_value; destruct (en_stack e) eqn:Es; cbn [to_sized_value bind]; try rewrite Es; reflexivity).
  - (* array *)
    match goal with Hl : mapM _ _ = Ret _ |- _ => rename Hl into El end.
    assert (Hgoal : eseq (begin_array e a) (fun e1 => eseq (for_each (fun e' x => write_fleece f c e' src x) e1 a0) (fun e2 => end_array c e2)) =
      for_each (enc_step c) e (OpBeginArray a :: concat a1 ++ [OpEndArray])).
    { cbn [for_each enc_step]. apply eseq_ext. intros e1. rewrite for_each_app, for_each_concat.
      rewrite (for_each_mapM _ (fun e' x => write_fleece f c e' src x) (for_each (enc_step c)) _ _ El).
      - apply eseq_ext. intros e2. rewrite for_each_one. reflexivity.
      - intros x y e' _ Hx. apply IH, Hx. }
    destruct (en_stack e); exact Hgoal.
  - (* dict *)
    match goal with Hl : mapM _ _ = Ret _ |- _ => rename Hl into El end.
    assert (Hgoal : eseq (begin_dict e) (fun e1 => eseq (for_each (fun e' kv => eseq (write_key c e' (fst kv)) (fun e'' => write_fleece f c e'' src (snd kv))) e1 a) (fun e2 => end_dict c e2)) =
      for_each (enc_step c) e (OpBeginDict :: concat a0 ++ [OpEndDict])).
    { cbn [for_each enc_step]. apply eseq_ext. intros e1. rewrite for_each_app, for_each_concat.
      rewrite (for_each_mapM _ (fun e' kv => eseq (write_key c e' (fst kv)) (fun e'' => write_fleece f c e'' src (snd kv))) (for_each (enc_step c)) _ _ El).
      - apply eseq_ext. intros e2. rewrite for_each_one. reflexivity.
      - intros x y e' _ Hx. cbn beta in Hx. destruct (value_calls f src (snd x)) as [cs| | |] eqn:Ec; try discriminate. cbn [bind] in Hx. apply ret_inj in Hx. subst y.
        cbn [for_each enc_step]. apply eseq_ext. intros e''. apply IH, Ec. }
    destruct (en_stack e); exact Hgoal.
Qed.

Lemma for_each_run c : forall ops e e', enc_run c e ops = Ret (e', repeat (Ok tt) (length ops)) <->
  for_each (enc_step c) e ops = Ret (e', Ok tt).
Proof.
  induction ops as [|o ops IH]; intros e e'; cbn [enc_run for_each length repeat].
  - split; intros H; injection H as <-; reflexivity.
  - unfold eseq. destruct (enc_step c e o) as [[e1 r1]| | |]; cbn [bind fst snd]; try (split; discriminate).
    destruct r1 as [[]|er].
    + rewrite <- IH. destruct (enc_run c e1 ops) as [[e2 r2]| | |]; cbn [bind fst snd]; try (split; discriminate).
      split; intros H; injection H as <- H; subst; reflexivity.
    + split; [|discriminate]. destruct (enc_run c e1 ops) as [[e2 r2]| | |]; cbn [bind fst snd]; discriminate.
Qed.

(* ---------- the abstract side ---------- *)

Definition b_ok (b : bstate) (ops : list op) (b' : bstate) : Prop := b_run b ops = (b', repeat (Ok tt) (length ops)).
Lemma b_ok_nil b : b_ok b [] b. Proof. reflexivity. Qed.
Lemma b_ok_cons b o ops b1 b' : b_step b o = Ok b1 -> b_ok b1 ops b' -> b_ok b (o :: ops) b'.
Proof. unfold b_ok. intros H1 H2. cbn [b_run length repeat]. rewrite H1, H2. reflexivity. Qed.
Lemma b_ok_app b ops1 b1 ops2 b2 : b_ok b ops1 b1 -> b_ok b1 ops2 b2 -> b_ok b (ops1 ++ ops2) b2.
Proof.
  unfold b_ok. intros H1 H2. rewrite b_run_app, H1. cbn [fst snd]. rewrite H2. cbn [fst snd]. rewrite app_length, repeat_app. reflexivity.
Qed.

Lemma to_float_quiet e v x : to_float e v = Ret x -> quiet32 x = x.
Proof. unfold to_float. destruct (to_double e v); try discriminate. cbn [bind]. intros H. apply ret_inj in H. subst. apply f32_quiet. Qed.

Definition open_frame (f : frame) : Prop := match f with FDict _ None => False | _ => True end.
Lemma b_put_open f st t : open_frame f -> b_put (mk_b (f :: st) None) t = Ok (mk_b (add_child f t :: st) None).
Proof. intros H. unfold b_put. cbn [b_root b_stack]. destruct f as [fl|fl [k|]]; [| |destruct H]; destruct t; reflexivity. Qed.

Lemma short_int e v z : value_type e v = Ret TyShort -> to_short e v = Ret z -> to_int e v = Ret z.
Proof.
  intros Ht H. unfold to_short in H. unfold to_int. rewrite Ht in *. cbn [bind] in *.
  destruct (get_short e v); try discriminate; cbn [bind] in *. exact H.
Qed.

Section Elements.
Context (src : env) (f : nat).
Hypothesis IH : forall v ops t, value_calls f src v = Ret ops -> read_tree f src v = Ret t ->
  forall b b', b_put b t = Ok b' -> b_ok b ops b'.
Lemma calls_elems st : forall vs l ts, mapM (value_calls f src) vs = Ret l -> mapM (read_tree f src) vs = Ret ts ->
  forall l0, b_ok (mk_b (FArr l0 :: st) None) (concat l) (mk_b (FArr (l0 ++ ts) :: st) None).
Proof using IH.
  induction vs as [|v vs IHv]; intros l ts Hl Ht l0; cbn [mapM] in *.
  - apply ret_inj in Hl, Ht. subst. rewrite app_nil_r. apply b_ok_nil.
  - destruct (value_calls f src v) as [cs| | |] eqn:Ec; try discriminate. cbn [bind] in Hl.
    destruct (mapM (value_calls f src) vs) as [l'| | |]; try discriminate. cbn [bind] in Hl. apply ret_inj in Hl. subst l.
    destruct (read_tree f src v) as [t| | |] eqn:Er; try discriminate. cbn [bind] in Ht.
    destruct (mapM (read_tree f src) vs) as [ts'| | |]; try discriminate. cbn [bind] in Ht. apply ret_inj in Ht. subst ts.
    cbn [concat] in *.
    eapply b_ok_app; [apply (IH _ _ _ Ec Er); apply b_put_open; exact I|]. cbn [add_child].
    replace (l0 ++ t :: ts') with ((l0 ++ [t]) ++ ts') by (rewrite <- app_assoc; reflexivity). apply IHv; auto.
Qed.
Lemma calls_entries st : forall kvs l ts,
  mapM (fun kv => cs <- value_calls f src (snd kv) ;; Ret (OpKey (fst kv) :: cs)) kvs = Ret l ->
  mapM (fun kv => x <- read_tree f src (snd kv) ;; Ret (fst kv, x)) kvs = Ret ts ->
  forall l0, b_ok (mk_b (FDict l0 None :: st) None) (concat l) (mk_b (FDict (l0 ++ ts) None :: st) None).
Proof using IH.
  induction kvs as [|[k v] kvs IHv]; intros l ts Hl Ht l0; cbn [mapM fst snd] in *.
  - apply ret_inj in Hl, Ht. subst. rewrite app_nil_r. apply b_ok_nil.
  - destruct (value_calls f src v) as [cs| | |] eqn:Ec; try discriminate. cbn [bind] in Hl.
    match type of Hl with bind ?m _ = _ => destruct m as [l'| | |]; try discriminate end. cbn [bind] in Hl. apply ret_inj in Hl. subst l.
    destruct (read_tree f src v) as [t| | |] eqn:Er; try discriminate. cbn [bind] in Ht.
    match type of Ht with bind ?m _ = _ => destruct m as [ts'| | |]; try discriminate end. cbn [bind] in Ht. apply ret_inj in Ht. subst ts.
    cbn [concat] in *.
    cbn [app]. apply (b_ok_cons _ _ _ (mk_b (FDict l0 (Some k) :: st) None)); [reflexivity|].
    eapply b_ok_app; [apply (IH _ _ _ Ec Er); apply b_put_open; exact I|]. cbn [add_child].
    replace (l0 ++ (k, t) :: ts') with ((l0 ++ [(k, t)]) ++ ts') by (rewrite <- app_assoc; reflexivity). apply IHv; auto.
Qed.
End Elements.

Lemma calls_tree src : forall f v ops t, value_calls f src v = Ret ops -> read_tree f src v = Ret t ->
  forall b b', b_put b t = Ok b' -> b_ok b ops b'.
Proof.
  induction f as [|f IH]; intros v ops t H Hr b b' Hp; [discriminate|]. cbn [value_calls] in H. cbn [read_tree] in Hr.
  destruct (value_type src v) as [ty| | |] eqn:Et; try discriminate. cbn [bind] in *.
  assert (Hval : forall w, tree_of w = t -> is_coll t = false -> b_ok b [OpValue w] b').
  { intros w Hw Hc. apply (b_ok_cons _ _ _ b'); [|apply b_ok_nil]. cbn [b_step]. rewrite Hw.
    unfold b_put in Hp. destruct t; try discriminate Hc; exact Hp. }
  destruct ty; try discriminate;
    repeat (match type of H with bind ?m _ = _ => destruct m eqn:?Em; try discriminate; cbn [bind] in H end);
    apply ret_inj in H; subst ops;
    repeat (match type of Hr with bind ?m _ = _ => destruct m eqn:?Er; try discriminate; cbn [bind] in Hr end).
  all: try (apply ret_inj in Hr; subst t; apply Hval; [|reflexivity]; cbn [tree_of]; congruence).
  - apply ret_inj in Hr; subst t. apply Hval; [|reflexivity]. cbn [tree_of]. unfold to_bool in Er. rewrite Et in Er. cbn [bind] in Er. congruence.
  - apply ret_inj in Hr; subst t. apply Hval; [|reflexivity]. cbn [tree_of]. unfold to_bool in Er. rewrite Et in Er. cbn [bind] in Er. congruence.
  - apply ret_inj in Hr; subst t. apply Hval; [|reflexivity]. cbn [tree_of]. rewrite (short_int _ _ _ Et Em) in Er. congruence.
  - apply ret_inj in Hr; subst t. apply Hval; [|reflexivity]. cbn [tree_of]. apply ret_inj in Er. subst. rewrite (to_float_quiet _ _ _ Em). reflexivity.
  - match goal with Hl : mapM (value_calls _ _) _ = Ret _ |- _ => rename Hl into El end.
    match goal with Hl : mapM (read_tree _ _) _ = Ret _ |- _ => rename Hl into Et2 end.
    apply ret_inj in Er. apply ret_inj in Hr. subst t. subst.
    assert (Hb : exists st, b = mk_b st None /\ b_begin b (FArr []) = Ok (mk_b (FArr [] :: st) None)).
    { unfold b_put in Hp. destruct b as [st [r|]]; cbn [b_root b_stack] in *; [discriminate|]. exists st. split; [reflexivity|].
      unfold b_begin. cbn [b_root b_stack]. destruct st as [|[?|? [?|]] ?]; try reflexivity; discriminate. }
    destruct Hb as (st & -> & Hb).
    eapply b_ok_cons; [exact Hb|]. eapply b_ok_app; [apply (calls_elems src f IH st _ _ _ El Et2)|]. cbn [app].
    eapply b_ok_cons; [reflexivity|]. replace (b_pop _) with b'; [apply b_ok_nil|].
    unfold b_put in Hp. cbn [b_root b_stack] in Hp. unfold b_pop. cbn [b_stack b_root close_frame].
    destruct st as [|[?|? [?|]] ?]; try discriminate; injection Hp as <-; reflexivity.
  - match goal with Hl : mapM (fun kv => cs <- value_calls _ _ _ ;; _) _ = Ret _ |- _ => rename Hl into El end.
    match goal with Hl : mapM (fun kv => cs <- read_tree _ _ _ ;; _) _ = Ret _ |- _ => rename Hl into Et2 end.
    apply ret_inj in Er. apply ret_inj in Hr. subst t. subst.
    assert (Hb : exists st, b = mk_b st None /\ b_begin b (FDict [] None) = Ok (mk_b (FDict [] None :: st) None)).
    { unfold b_put in Hp. destruct b as [st [r|]]; cbn [b_root b_stack] in *; [discriminate|]. exists st. split; [reflexivity|].
      unfold b_begin. cbn [b_root b_stack]. destruct st as [|[?|? [?|]] ?]; try reflexivity; discriminate. }
    destruct Hb as (st & -> & Hb).
    eapply b_ok_cons; [exact Hb|]. eapply b_ok_app; [apply (calls_entries src f IH st _ _ _ El Et2)|]. cbn [app].
    eapply b_ok_cons; [reflexivity|]. replace (b_pop _) with b'; [apply b_ok_nil|].
    unfold b_put in Hp. cbn [b_root b_stack] in Hp. unfold b_pop. cbn [b_stack b_root close_frame].
    destruct st as [|[?|? [?|]] ?]; try discriminate; injection Hp as <-; reflexivity.
Qed.

(* ---------- programs with copies ---------- *)

Lemma xrun_calls c : forall xs ll, mapM xcalls xs = Ret ll -> forall e, xrun c e xs = for_each (enc_step c) e (concat ll).
Proof.
  intros xs ll H e. rewrite for_each_concat. unfold xrun. apply (for_each_mapM xcalls (xstep c) _ _ _ H).
  intros x y e' _ Hx. destruct x as [o|src v]; cbn [xcalls xstep] in *.
  - apply ret_inj in Hx. subst y. rewrite for_each_one. reflexivity.
  - apply write_fleece_calls, Hx.
Qed.
Lemma xb_calls : forall xs ll b b', mapM xcalls xs = Ret ll -> xb_run b xs = Some b' ->
  b_ok b (concat ll) b'.
Proof.
  induction xs as [|x xs IH]; intros ll b b' H Hx; cbn [mapM xb_run] in *.
  - apply ret_inj in H. injection Hx as <-. subst. apply b_ok_nil.
  - destruct (xcalls x) as [cs| | |] eqn:Ec; try discriminate. cbn [bind] in H.
    destruct (mapM xcalls xs) as [l| | |]; try discriminate. cbn [bind] in H. apply ret_inj in H. subst ll.
    cbn [concat] in *.
    destruct x as [o|src v]; cbn [xcalls] in Ec.
    + apply ret_inj in Ec. subst cs. destruct (b_step b o) as [b1|] eqn:Eb; [|discriminate].
      eapply b_ok_app; [eapply b_ok_cons; [exact Eb|apply b_ok_nil]|]. apply (IH _ _ _ eq_refl Hx).
    + destruct (read_doc src v) as [t| | |] eqn:Er; try discriminate. destruct (b_put b t) as [b1|] eqn:Eb; [|discriminate].
      eapply b_ok_app; [apply (calls_tree src _ _ _ _ Ec Er _ _ Eb)|]. apply (IH _ _ _ eq_refl Hx).
Qed.

Lemma copy_round_trip c prefix xs ll b t :
  sort_ok (c_sort c) -> lenZ prefix mod 2 = 0 ->
  mapM xcalls xs = Ret ll -> Forall good_op (concat ll) -> keys_ok false (concat ll) ->
  layout_ok (c_ua c) (lenZ prefix) (concat ll) -> lenZ prefix + ops_size (concat ll) <= MAX_WIDE ->
  xb_run b_init xs = Some b -> b_finish b = Some t ->
  exists e' D, xrun c (enc_new_to_vec prefix) xs = Ret (e', Ok tt) /\ finish c e' = Ret (prefix ++ D) /\
    forall dbg base, addressable base (prefix ++ D) -> decodes_to dbg base (prefix ++ D) (en_sk e') t.
Proof.
  intros Hs Hev Hc Hg Hk Hn Hw Hx Ht. pose proof (xb_calls xs ll _ _ Hc Hx) as Hb.
  assert (Hp : polite b_init (concat ll)).
  { apply polite_all_ok; [intros Hy; exfalso; apply Hy; reflexivity|]. rewrite Hb. cbn [snd]. apply Forall_forall. intros r Hr. apply repeat_spec in Hr. auto. }
  destruct (any_document c prefix _ Hs Hev Hg Hk Hp (strings_any _ _ _) Hn Hw) as (e2 & D & Er & _).
  rewrite Hb in Er. cbn [snd] in Er.
  assert (Hok : Forall (eq (Ok tt)) (repeat (@Ok unit encode_error tt) (length (concat ll)))).
  { apply Forall_forall. intros r Hr. apply repeat_spec in Hr. auto. }
  assert (Hfin : b_finish (fst (b_run b_init (concat ll))) = Some t) by (rewrite Hb; exact Ht).
  destruct (small_round_trip c prefix _ e2 _ t Hs Hev Hg Hk Hn Hw Er Hok Hfin) as (D' & Ef & Hd).
  exists e2, D'. split; [|auto]. rewrite (xrun_calls c xs ll Hc). apply for_each_run, Er.
Qed.

(* ---------- which values can be copied ---------- *)

Lemma subl_bytes D p n : all_bytes D -> all_bytes (subl D p n).
Proof. intros H. unfold subl.
  rewrite <- (firstn_skipn (Z.to_nat p) D) in H. apply Forall_app in H as [_ H].
  rewrite <- (firstn_skipn (Z.to_nat n) (skipn (Z.to_nat p) D)) in H. apply Forall_app in H as [H _]. exact H.
Qed.
Lemma raw_bytes_wf e p n bs : all_bytes (e_data e) -> raw_bytes e p n = Ret bs -> all_bytes bs /\ lenZ bs <= lenZ (e_data e).
Proof.
  intros Hb H. unfold raw_bytes in H. destruct (n <=? 0); [apply ret_inj in H; subst; split; [constructor|cbn; apply lenZ_nonneg]|].
  destruct (_ && _); [|discriminate]. apply ret_inj in H. subst. split; [apply subl_bytes, Hb|].
  unfold subl, lenZ. rewrite firstn_length, skipn_length. lia.
Qed.
Lemma slice_wf e s bs : all_bytes (e_data e) -> slice_content e s = Ret bs -> all_bytes bs /\ lenZ bs <= lenZ (e_data e).
Proof. unfold slice_content. apply raw_bytes_wf. Qed.

Lemma double_range e v x t : all_bytes (e_data e) -> value_type e v = Ret t -> t = TyDouble32 \/ t = TyDouble64 ->
  to_double e v = Ret x -> 0 <= x < two64.
Proof.
  intros Hb Ht Hc H. unfold to_double in H. rewrite Ht in H. cbn [bind] in H.
  assert (float_payload e v t = Ret x) as Hf by (destruct Hc as [-> | ->]; exact H). clear H. unfold float_payload in Hf.
  destruct Hc as [-> | ->].
  - destruct (vslice v 2 6) as [s| | |]; try discriminate. cbn [bind] in Hf. destruct (slice_content e s) as [bs| | |]; try discriminate.
    cbn [bind] in Hf. apply ret_inj in Hf. subst x. apply f64_of_f32_range.
  - destruct (vslice v 2 10) as [s| | |] eqn:Es; try discriminate. cbn [bind] in Hf. destruct (slice_content e s) as [bs| | |] eqn:Eb; try discriminate.
    cbn [bind] in Hf. apply ret_inj in Hf. subst x.
    assert (Hs : v_len s = 8) by (unfold vslice in Es; destruct (_ && _); [|discriminate]; apply ret_inj in Es; subst s; reflexivity).
    unfold slice_content in Eb. pose proof (raw_bytes_wf _ _ _ _ Hb Eb) as [Hw _]. unfold raw_bytes in Eb. rewrite Hs in Eb. cbn in Eb.
    destruct (_ && _) eqn:E2; [|discriminate]. apply ret_inj in Eb.
    pose proof (le_val_bound bs Hw) as Hle. assert (length bs = 8%nat).
    { subst bs. unfold subl. rewrite firstn_length, skipn_length. unfold lenZ in E2. lia. }
    unfold lenZ in Hle. rewrite H in Hle. exact Hle.
Qed.
Lemma to_str_wf e v s : src_ok e -> to_str e v = Ret s -> wf_enc (EStr s).
Proof.
  intros (Hb & Hl & _) H. unfold to_str in H. destruct (value_type e v) as [t| | |]; try discriminate. cbn [bind] in H.
  assert (Hnil : wf_enc (EStr [])) by (cbn; split; [constructor|split; [unfold two63; lia|reflexivity]]).
  destruct t; try (apply ret_inj in H; subst s; exact Hnil).
  destruct (get_data e v) as [d| | |]; try discriminate. cbn [bind] in H.
  destruct (slice_content e d) as [bs| | |] eqn:Es; try discriminate. cbn [bind] in H. apply ret_inj in H. subst s.
  destruct (utf8_valid bs) eqn:Eu; [|exact Hnil]. apply slice_wf in Es as [H1 H2]; [|exact Hb]. split; [exact H1|].
  split; [unfold two63; lia|exact Eu].
Qed.
Lemma to_data_wf e v s : src_ok e -> to_data e v = Ret s -> wf_enc (EData s).
Proof.
  intros (Hb & Hl & _) H. unfold to_data in H. destruct (value_type e v) as [t| | |]; try discriminate. cbn [bind] in H.
  assert (Hnil : wf_enc (EData [])) by (cbn; split; [constructor|unfold two63; lia]).
  destruct t; try (apply ret_inj in H; subst s; exact Hnil);
  (destruct (get_data e v) as [d| | |]; try discriminate; cbn [bind] in H;
  apply slice_wf in H as [H1 H2]; [|exact Hb]; split; [exact H1|unfold two63; lia]).
Qed.
Lemma dict_keys_wf e : src_ok e -> forall f it kvs, dict_collect f e it = Ret kvs -> Forall (fun kv => wf_enc (EStr (fst kv))) kvs.
Proof.
  intros Hs. induction f as [|f IH]; intros it kvs H; cbn [dict_collect] in H; [discriminate|].
  destruct (dict_iter_next e it) as [[[[k x]|] it']| | |] eqn:E; try discriminate; cbn [bind] in H.
  - destruct (dict_collect f e it') as [l| | |] eqn:El; try discriminate. cbn [bind] in H. apply ret_inj in H. subst kvs.
    constructor; [|apply (IH _ _ El)]. cbn [fst]. unfold dict_iter_next in E.
    destruct (iter_next e it) as [[[kv|] it1]| | |]; try discriminate; cbn [bind] in E.
    destruct (value_type e kv) as [t| | |]; try discriminate. cbn [bind] in E.
    destruct (vtype_eqb t TyShort).
    + destruct Hs as (_ & _ & Hs). destruct (e_sk e) as [tb|]; cbn [bind] in E; [|discriminate].
      destruct (to_unsigned_short e kv) as [i| | |]; try discriminate. cbn [bind] in E. unfold sk_decode in E.
      destruct (nthZ tb i) as [s|] eqn:En; [|discriminate]. destruct (iter_next e it1) as [[[xv|] it2]| | |]; try discriminate; cbn [bind] in E.
      apply ret_inj in E. injection E as <- _ _. apply nthZ_In in En. exact (proj1 (Forall_forall _ _) Hs _ En).
    + destruct (to_str e kv) as [s| | |] eqn:Et; try discriminate. cbn [bind] in E.
      destruct (iter_next e it1) as [[[xv|] it2]| | |]; try discriminate; cbn [bind] in E. apply ret_inj in E. injection E as <- _ _.
      apply (to_str_wf e kv s Hs Et).
  - apply ret_inj in H. subst. constructor.
Qed.
Lemma iter_count e : forall f it vs, iter_collect f e it = Ret vs -> (it_index it < it_len it -> it_next it <> None) ->
  it_len it <= it_index it + Z.of_nat f.
Proof.
  induction f as [|f IH]; intros it vs H Hn; cbn [iter_collect] in H; [discriminate|].
  unfold iter_next in H. destruct (it_next it) as [cur|] eqn:En.
  - destruct (it_len it <=? it_index it) eqn:E; [lia|]. destruct (resolve e cur _) as [r| | |]; try discriminate. cbn [bind] in H.
    match type of H with bind (iter_collect f e ?i) _ = _ => destruct (iter_collect f e i) as [l| | |] eqn:El; try discriminate;
      assert (Hi := IH i l El) end. cbn [it_index it_len it_next] in Hi.
    assert (it_len it <= it_index it + 1 + Z.of_nat f); [|lia]. apply Hi. intros Hlt. destruct (it_index it + 1 <? it_len it) eqn:E2; [discriminate|lia].
  - destruct (Z_lt_le_dec (it_index it) (it_len it)); [exfalso; apply Hn; auto|lia].
Qed.
Lemma arr_count e v vs : arr_elems e v = Ret vs -> exists n, arr_len e v = Ret n /\ n <= lenZ (e_data e) + 1.
Proof.
  unfold arr_elems, arr_iter. destruct (arr_len e v) as [n| | |]; try discriminate. cbn [bind].
  destruct (arr_is_wide e v) as [w| | |]; try discriminate. cbn [bind]. destruct (n =? 0) eqn:E.
  - intros _. exists n. split; [reflexivity|]. pose proof (lenZ_nonneg (e_data e)). lia.
  - destruct (first_pos e v) as [fp| | |]; try discriminate. cbn [bind]. intros H. apply iter_count in H; [|discriminate].
    cbn [it_len it_index] in H. exists n. split; [reflexivity|]. unfold lenZ. lia.
Qed.

Lemma copyable_arr l : copyable (TArr l) <-> Forall copyable l.
Proof. induction l as [|x l IH]; cbn; [split; auto; constructor|]. cbn in IH. rewrite IH. split; [intros [H1 H2]; constructor; auto|intros H; inversion H; auto]. Qed.
Lemma copyable_dict l : copyable (TDict l) <-> Forall (fun kx => 2 <= lenZ (fst kx) /\ copyable (snd kx)) l.
Proof. induction l as [|x l IH]; cbn; [split; auto; constructor|]. cbn in IH. rewrite IH. split; [intros [H1 [H2 H3]]; constructor; auto|intros H; inversion H; tauto]. Qed.

Lemma calls_exist src : src_ok src -> forall f v t, read_tree f src v = Ret t -> copyable t ->
  exists ops, value_calls f src v = Ret ops /\ Forall (fun o => good_op o /\ plain_op o = true) ops.
Proof.
  intros Hs. induction f as [|f IH]; intros v t H Hc; cbn [read_tree value_calls] in *; [discriminate|].
  assert (Hone : forall w, wf_enc w -> enc_ok w = true -> no_short_text w = true -> Forall (fun o => good_op o /\ plain_op o = true) [OpValue w]).
  { intros w H1 H2 H3. constructor; [cbn; auto|constructor]. }
  destruct (value_type src v) as [ty| | |] eqn:Et; try discriminate. cbn [bind] in *.
  destruct ty; try discriminate;
    repeat (match type of H with bind ?m _ = _ => destruct m eqn:?Em; try discriminate; cbn [bind] in H end);
    apply ret_inj in H; subst t; cbn [bind].
  - eexists; split; [reflexivity|]; apply Hone; auto; exact I.
  - eexists; split; [reflexivity|]; apply Hone; auto; exact I.
  - eexists; split; [reflexivity|]; apply Hone; auto; exact I.
  - eexists; split; [reflexivity|]; apply Hone; auto; exact I.
  - assert (to_short src v = Ret a) as ->.
    { unfold to_int in Em. unfold to_short. rewrite Et in *. cbn [bind] in *. exact Em. }
    cbn [bind copyable] in *. eexists; split; [reflexivity|]. apply Hone; [cbn; lia|cbn; lia|reflexivity].
  - cbn [copyable] in Hc. eexists; split; [reflexivity|]. apply Hone; [cbn; unfold two63; lia|cbn; lia|reflexivity].
  - cbn [copyable] in Hc. eexists; split; [reflexivity|]. unfold to_unsigned_int in Em. destruct (to_int src v); try discriminate.
    cbn [bind] in Em. apply ret_inj in Em. apply Hone; [cbn; unfold wrap_u64, two64 in *; lia|cbn; lia|reflexivity].
  - eexists; split; [reflexivity|]. apply Hone; [|reflexivity|reflexivity]. unfold to_float in Em. destruct (to_double src v); try discriminate.
    cbn [bind] in Em. apply ret_inj in Em. subst a. apply f32_range.
  - eexists; split; [reflexivity|]. apply Hone; [|reflexivity|reflexivity]. cbn [wf_enc]. eapply double_range; eauto. apply Hs.
  - eexists; split; [reflexivity|]. apply Hone; [|reflexivity|reflexivity]. cbn [wf_enc]. eapply double_range; eauto. apply Hs.
  - eexists; split; [reflexivity|]. cbn [copyable] in Hc. apply Hone; [|reflexivity|cbn; lia]. eapply to_str_wf; eauto.
  - eexists; split; [reflexivity|]. cbn [copyable] in Hc. apply Hone; [|reflexivity|cbn; lia]. eapply to_data_wf; eauto.
  - (* array *)
    match goal with Hl : mapM _ _ = Ret _ |- _ => rename Hl into El end.
    destruct (arr_count _ _ _ Em) as (n & -> & Hn). cbn [bind]. apply copyable_arr in Hc.
    assert (Hll : exists ll, mapM (value_calls f src) a = Ret ll /\ Forall (fun o => good_op o /\ plain_op o = true) (concat ll)).
    { clear Em. revert a0 El Hc. induction a as [|x a IHa]; intros ts El Hc; cbn [mapM] in *.
      - exists []. split; [reflexivity|constructor].
      - destruct (read_tree f src x) as [tx| | |] eqn:Ex; try discriminate. cbn [bind] in El.
        destruct (mapM (read_tree f src) a) as [ts'| | |]; try discriminate. cbn [bind] in El. apply ret_inj in El. subst ts.
        inversion Hc as [|? ? Hc1 Hc2]; subst. destruct (IH _ _ Ex Hc1) as (ox & -> & Hox). cbn [bind].
        destruct (IHa ts' eq_refl Hc2) as (ll & -> & Hll). cbn [bind]. exists (ox :: ll). split; [reflexivity|]. cbn [concat]. apply Forall_app; auto. }
    destruct Hll as (ll & -> & Hll). cbn [bind]. eexists; split; [reflexivity|].
    destruct Hs as (_ & Hlen & _). constructor; [split; [cbn [good_op]; unfold two63; lia|reflexivity]|]. apply Forall_app. split; [exact Hll|constructor; [split; [exact I|reflexivity]|constructor]].
  - (* dict *)
    match goal with Hl : mapM _ _ = Ret _ |- _ => rename Hl into El end.
    apply copyable_dict in Hc. assert (Hk : Forall (fun kv => wf_enc (EStr (fst kv))) a).
    { unfold dict_elems in Em. destruct (arr_iter src v); try discriminate. cbn [bind] in Em. eapply dict_keys_wf; eauto. }
    assert (Hll : exists ll, mapM (fun kv => cs <- value_calls f src (snd kv) ;; Ret (OpKey (fst kv) :: cs)) a = Ret ll /\ Forall (fun o => good_op o /\ plain_op o = true) (concat ll)).
    { clear Em. revert a0 El Hc Hk. induction a as [|[k x] a IHa]; intros ts El Hc Hk; cbn [mapM fst snd] in *.
      - exists []. split; [reflexivity|constructor].
      - destruct (read_tree f src x) as [tx| | |] eqn:Ex; try discriminate. cbn [bind] in El.
        match type of El with bind ?m _ = _ => destruct m as [ts'| | |] eqn:Em2; try discriminate end. cbn [bind] in El. apply ret_inj in El. subst ts.
        inversion Hc as [|? ? [Hc0 Hc1] Hc2]; subst. inversion Hk as [|? ? Hk1 Hk2]; subst. cbn [fst snd] in *.
        destruct (IH _ _ Ex Hc1) as (ox & -> & Hox). cbn [bind].
        destruct (IHa ts' eq_refl Hc2 Hk2) as (ll & -> & Hll). cbn [bind]. eexists. split; [reflexivity|]. cbn [concat app].
        constructor; [split; [cbn [good_op]; auto|cbn [plain_op]; lia]|]. apply Forall_app; auto. }
    destruct Hll as (ll & -> & Hll). cbn [bind]. eexists; split; [reflexivity|].
    constructor; [split; [exact I|reflexivity]|]. apply Forall_app. split; [exact Hll|constructor; [split; [exact I|reflexivity]|constructor]].
Qed.

Lemma ops_size_app a b : ops_size (a ++ b) = ops_size a + ops_size b.
Proof. unfold ops_size. induction a as [|o a IH]; cbn [app fold_right]; lia. Qed.
Lemma int_fleece_size i z : wf_enc (EInt i z) -> fleece_size (EInt i z) <= 10.
Proof.
  assert (Hc : forall p, 0 <= ctz_pos p) by (induction p; cbn [ctz_pos]; lia).
  assert (Hz : 0 <= ctz64 z) by (destruct z; cbn [ctz64]; auto; lia).
  intros _. cbn [fleece_size]. destruct i; unfold i64_fleece_size, u64_fleece_size, i64_is_short; try lia;
    repeat (match goal with |- context [if ?b then _ else _] => destruct b eqn:? end); try lia.
Qed.
Lemma calls_size src : forall f v t ops, read_tree f src v = Ret t -> value_calls f src v = Ret ops -> Forall good_op ops -> ops_size ops <= tree_size t.
Proof.
  induction f as [|f IH]; intros v t ops H Hc Hg; cbn [read_tree value_calls] in *; [discriminate|].
  destruct (value_type src v) as [ty| | |] eqn:Et; try discriminate. cbn [bind] in *.
  assert (Hint : forall w, Forall good_op [OpValue w] -> (exists i z, w = EInt i z) -> ops_size [OpValue w] <= 15).
  { intros w Hw (i & z & ->). inversion Hw as [|? ? Hw1 _]; subst. destruct Hw1 as (Hwf & _). cbn [ops_size fold_right op_size].
    assert (fleece_size (EInt i z) <= 10); [|lia]. apply int_fleece_size; exact Hwf. }
  destruct ty; try discriminate;
    repeat (match type of H with bind ?m _ = _ => destruct m eqn:?Em; try discriminate; cbn [bind] in H end);
    repeat (match type of Hc with bind ?m _ = _ => destruct m eqn:?Ec; try discriminate; cbn [bind] in Hc end);
    apply ret_inj in H; subst t; apply ret_inj in Hc; subst ops;
    try (cbn [tree_size]; apply Hint; [exact Hg|eauto]; fail);
    try (cbn [ops_size fold_right op_size tree_size fleece_size]; lia).
  - cbn [ops_size fold_right op_size tree_size fleece_size]. apply ret_inj in Ec. subst. lia.
  - cbn [ops_size fold_right op_size tree_size fleece_size]. apply ret_inj in Ec. subst. lia.
  - repeat match goal with H1 : Ret _ = Ret _ |- _ => apply ret_inj in H1; subst end.
    match goal with Hl : mapM (read_tree _ _) _ = Ret _ |- _ => rename Hl into El end.
    match goal with Hl : mapM (value_calls _ _) _ = Ret _ |- _ => rename Hl into Ev end.
    inversion Hg as [|? ? _ Hg1]; subst. apply Forall_app in Hg1 as [Hg1 _].
    cbn [ops_size fold_right op_size]. fold (ops_size (concat a2 ++ [OpEndArray])). rewrite ops_size_app. change (ops_size [OpEndArray]) with 0. cbn [tree_size].
    assert (ops_size (concat a2) <= fold_right (fun x n => tree_size x + n) 0 a0); [|lia].
    clear Hg. revert El Ev Hg1. match goal with |- mapM _ ?l = _ -> _ => generalize l end. intros l El. revert a0 a2 El.
    induction l as [|x l IHl]; intros ts cs El Ev Hg1; cbn [mapM] in *.
    + apply ret_inj in El, Ev. subst. cbn. lia.
    + destruct (read_tree f src x) as [tx| | |] eqn:Ex; try discriminate. cbn [bind] in El.
      destruct (mapM (read_tree f src) l) as [ts'| | |]; try discriminate. cbn [bind] in El. apply ret_inj in El. subst ts.
      destruct (value_calls f src x) as [cx| | |] eqn:Ecx; try discriminate. cbn [bind] in Ev.
      destruct (mapM (value_calls f src) l) as [cs'| | |]; try discriminate. cbn [bind] in Ev. apply ret_inj in Ev. subst cs.
      cbn [concat fold_right] in *. apply Forall_app in Hg1 as [Hg0 Hg1]. rewrite ops_size_app. specialize (IH _ _ _ Ex Ecx Hg0). specialize (IHl _ _ eq_refl eq_refl Hg1). lia.
  - repeat match goal with H1 : Ret _ = Ret _ |- _ => apply ret_inj in H1; subst end.
    match goal with Hl : mapM (fun kv => y <- read_tree _ _ _ ;; _) _ = Ret _ |- _ => rename Hl into El end.
    match goal with Hl : mapM (fun kv => y <- value_calls _ _ _ ;; _) _ = Ret _ |- _ => rename Hl into Ev end.
    inversion Hg as [|? ? _ Hg1]; subst. apply Forall_app in Hg1 as [Hg1 _].
    cbn [ops_size fold_right op_size]. fold (ops_size (concat a2 ++ [OpEndDict])). rewrite ops_size_app. change (ops_size [OpEndDict]) with 0. cbn [tree_size].
    assert (ops_size (concat a2) <= fold_right (fun kx n => bytes_fleece_size (lenZ (fst kx)) + 5 + tree_size (snd kx) + n) 0 a0); [|lia].
    clear Hg. revert El Ev Hg1. match goal with |- mapM _ ?l = _ -> _ => generalize l end. intros l El. revert a0 a2 El.
    induction l as [|[k x] l IHl]; intros ts cs El Ev Hg1; cbn [mapM fst snd] in *.
    + apply ret_inj in El, Ev. subst. cbn. lia.
    + destruct (read_tree f src x) as [tx| | |] eqn:Ex; try discriminate. cbn [bind] in El.
      match type of El with bind ?m _ = _ => destruct m as [ts'| | |] eqn:Em2; try discriminate end. cbn [bind] in El. apply ret_inj in El. subst ts.
      destruct (value_calls f src x) as [cx| | |] eqn:Ecx; try discriminate. cbn [bind] in Ev.
      match type of Ev with bind ?m _ = _ => destruct m as [cs'| | |] eqn:Em3; try discriminate end. cbn [bind] in Ev. apply ret_inj in Ev. subst cs.
      cbn [concat app fold_right fst snd] in *. inversion Hg1 as [|? ? _ Hg2]; subst. apply Forall_app in Hg2 as [Hg0 Hg2].
      change (ops_size (OpKey k :: cx ++ concat cs')) with (op_size (OpKey k) + ops_size (cx ++ concat cs')). cbn [op_size].
      rewrite ops_size_app. specialize (IH _ _ _ Ex Ecx Hg0). specialize (IHl _ _ eq_refl eq_refl Hg2). lia.
Qed.

Lemma calls_no_set src : forall f v ops, value_calls f src v = Ret ops -> Forall (fun o => match o with OpSetSharedKeys _ => False | _ => True end) ops.
Proof.
  induction f as [|f IH]; intros v ops H; cbn [value_calls] in *; [discriminate|].
  destruct (value_type src v) as [ty| | |]; try discriminate. cbn [bind] in *.
  assert (Hm : forall {A} (g : A -> outcome (list op)) (l : list A) ll, mapM g l = Ret ll ->
    (forall x y, g x = Ret y -> Forall (fun o => match o with OpSetSharedKeys _ => False | _ => True end) y) ->
    Forall (fun o => match o with OpSetSharedKeys _ => False | _ => True end) (concat ll)).
  { intros A g. induction l as [|x l IHl]; intros ll Hl Hg; cbn [mapM] in Hl.
    - apply ret_inj in Hl. subst. constructor.
    - destruct (g x) eqn:E; try discriminate. cbn [bind] in Hl. destruct (mapM g l) eqn:E2; try discriminate. cbn [bind] in Hl. apply ret_inj in Hl. subst.
      cbn [concat]. apply Forall_app. split; [eapply Hg; eauto|eapply IHl; eauto]. }
  destruct ty; try discriminate;
    repeat (match type of H with bind ?m _ = _ => destruct m eqn:?Em; try discriminate; cbn [bind] in H end);
    apply ret_inj in H; subst ops; try (constructor; [exact I|constructor]; fail).
  - constructor; [exact I|]. apply Forall_app. split; [|constructor; [exact I|constructor]]. eapply Hm; eauto.
  - constructor; [exact I|]. apply Forall_app. split; [|constructor; [exact I|constructor]]. eapply Hm; [eassumption|].
    intros x y Hx. cbn beta in Hx. destruct (value_calls f src (snd x)) eqn:E; try discriminate. cbn [bind] in Hx. apply ret_inj in Hx. subst. constructor; [exact I|eauto].
Qed.
Lemma no_set_keys ops : Forall (fun o => match o with OpSetSharedKeys _ => False | _ => True end) ops -> keys_ok false ops.
Proof. induction 1 as [|o ops Ho H IH]; [exact I|]. destruct o; cbn [keys_ok]; auto; [split; [discriminate|exact IH]|destruct Ho]. Qed.

Lemma copy_document c src v t : sort_ok (c_sort c) -> src_ok src -> read_doc src v = Ret t -> copyable t -> is_coll t = true ->
  tree_size t <= MAX_NARROW ->
  exists e' bs, write_fleece (fuel_of src) c enc_new src v = Ret (e', Ok tt) /\ finish c e' = Ret bs /\
    forall dbg base, addressable base bs -> decodes_to dbg base bs None t.
Proof.
  intros Hs Hsrc Hr Hc Hcoll Hsz. destruct (calls_exist src Hsrc _ _ _ Hr Hc) as (ops & Ho & Hgp).
  assert (Hg : Forall good_op ops) by (eapply Forall_impl; [|exact Hgp]; cbn beta; tauto).
  assert (Hpl : forallb plain_op ops = true) by (apply forallb_forall; intros o Hin; rewrite Forall_forall in Hgp; apply Hgp; exact Hin).
  assert (Hm : mapM xcalls [XCopy src v] = Ret [ops]) by (cbn [mapM xcalls]; rewrite Ho; reflexivity).
  assert (Hcat : concat [ops] = ops) by (cbn [concat]; apply app_nil_r).
  pose proof (calls_size src _ _ _ _ Hr Ho Hg) as Hz.
  assert (Hx : xb_run b_init [XCopy src v] = Some (mk_b [] (Some t))).
  { cbn [xb_run]. rewrite Hr. destruct t; try discriminate; reflexivity. }
  assert (Hk : keys_ok false ops) by (apply no_set_keys; eapply calls_no_set; eauto).
  pose proof (copy_round_trip c [] [XCopy src v] [ops] (mk_b [] (Some t)) t Hs eq_refl Hm) as H. rewrite Hcat in H.
  destruct (H Hg Hk ltac:(left; split; [exact Hpl|lia]) ltac:(cbn [lenZ length Z.of_nat]; unfold MAX_WIDE, MAX_NARROW in *; lia) Hx eq_refl) as (e' & D & H1 & H2 & H3).
  cbn [app] in H2, H3. exists e', D.
  assert (Hxr : xrun c (enc_new_to_vec []) [XCopy src v] = write_fleece (fuel_of src) c enc_new src v) by (unfold xrun; rewrite for_each_one; reflexivity).
  rewrite Hxr in H1. split; [exact H1|]. split; [exact H2|]. intros dbg base Ha. specialize (H3 dbg base Ha).
  assert (Hsk : en_sk e' = None); [|rewrite Hsk in H3; exact H3].
  assert (Hrun : enc_run c enc_new ops = Ret (e', repeat (Ok tt) (length ops))).
  { apply for_each_run. rewrite <- (write_fleece_calls c src _ _ _ Ho). exact H1. }
  apply (sk_none_run c _ _ _ _ Hrun); [reflexivity|]. intros tb Hin. pose proof (proj1 (Forall_forall _ _) (calls_no_set src _ _ _ Ho) _ Hin) as Hf. exact Hf.
Qed.
