(** The encoder's answers follow the call protocol, whatever values are written. *)
From Coq Require Import Sorting.Permutation Sorting.Sorted ZifyBool.
From Verif Require Import Prelude Utf8 Float SharedKeys Decode Read Encodable Encoder BuilderSpec
  Lib VarintProofs FloatProofs Holds Repr EncodableProofs Stored StoredRead SlotProofs EncoderProofs
  EncoderInv EncoderClean LayoutSpec EncoderLayout.
Ltac Zify.zify_post_hook ::= Z.div_mod_to_equations.
#[local] Existing Instance any_key.

Definition ckind (c : coll) : option bool :=
  match c with CArr _ => None | CDict _ None => Some false | CDict _ (Some _) => Some true end.
Definition fkind (f : frame) : option bool :=
  match f with FArr _ => None | FDict _ None => Some false | FDict _ (Some _) => Some true end.

Record sh (e : enc) (b : bstate) : Prop := mk_sh {
  sh_stack : map ckind (en_stack e) = map fkind (b_stack b);
  sh_tl : Forall (fun k => k <> Some false) (map ckind (tl (en_stack e)));
  sh_closed : en_closed e = match b_root b with Some _ => true | None => false end;
  sh_root : b_root b <> None -> b_stack b = [];
}.

Definition sh_step (e' : enc) (r : result unit encode_error) (b : bstate) (o : op) : Prop :=
  match b_step b o with
  | Ok b' => (r = Ok tt /\ sh e' b') \/ r = Err PointerTooLarge
  | Err er => (r = Err er /\ sh e' b) \/ r = Err PointerTooLarge
  end.

Lemma sh_same e e' b : en_stack e' = en_stack e -> en_closed e' = en_closed e -> sh e b -> sh e' b.
Proof. intros H1 H2 [A B C D]. constructor; rewrite ?H1, ?H2; assumption. Qed.
Lemma sh_grown e e' b : grown e e' -> sh e b -> sh e' b.
Proof. intros (H1 & H2 & H3 & _). apply sh_same; congruence. Qed.
Lemma sh_sk e t b : sh e b -> sh (set_sk e t) b.
Proof. apply sh_same; reflexivity. Qed.

Lemma sh_cases e b : sh e b ->
  (en_stack e = [] /\ b_stack b = []) \/
  (exists vs st l fr, en_stack e = CArr vs :: st /\ b_stack b = FArr l :: fr /\ map ckind st = map fkind fr) \/
  (exists vs st l fr, en_stack e = CDict vs None :: st /\ b_stack b = FDict l None :: fr /\ map ckind st = map fkind fr) \/
  (exists vs k st l k2 fr, en_stack e = CDict vs (Some k) :: st /\ b_stack b = FDict l (Some k2) :: fr /\ map ckind st = map fkind fr).
Proof.
  intros [H _ _ _]. destruct (en_stack e) as [|cc st], (b_stack b) as [|f fr]; cbn [map] in H; try discriminate; auto.
  right. injection H as H1 H2.
  destruct cc as [vs|vs [k|]], f as [l|l [k2|]]; cbn [ckind fkind] in H1; try discriminate; eauto 15.
Qed.

Lemma push_key_sh e b k kb :
  sh e b -> sh_step (fst (push_key e k)) (snd (push_key e k)) b (OpKey kb).
Proof.
  intros H. pose proof H as [H1 H2 H3 H4]. unfold sh_step, push_key; cbn [b_step].
  destruct (sh_cases e b H) as [[E1 E2]|[(vs & st & l & fr & E1 & E2 & E3)|[(vs & st & l & fr & E1 & E2 & E3)|(vs & k1 & st & l & k2 & fr & E1 & E2 & E3)]]];
    rewrite E1, E2; cbn [fst snd]; left; split; auto.
  rewrite E1 in H2. cbn [tl] in H2.
  constructor; cbn [set_stack en_stack en_closed b_stack b_root map ckind fkind tl]; auto; [congruence|].
  intros Hr. rewrite (H4 Hr) in E2. discriminate.
Qed.
Lemma push_value_sh e b s v :
  sh e b -> sh_step (fst (push_value e s)) (snd (push_value e s)) b (OpValue v).
Proof.
  intros H. pose proof H as [H1 H2 H3 H4]. unfold sh_step, push_value; cbn [b_step].
  destruct (sh_cases e b H) as [[E1 E2]|[(vs & st & l & fr & E1 & E2 & E3)|[(vs & st & l & fr & E1 & E2 & E3)|(vs & k1 & st & l & k2 & fr & E1 & E2 & E3)]]];
    rewrite E1, E2; cbn [fst snd]; left; split; auto; rewrite E1 in H2; cbn [tl] in H2;
    (constructor; cbn [set_stack en_stack en_closed b_stack b_root map ckind fkind tl add_child]; auto; [congruence|];
     intros Hr; rewrite (H4 Hr) in E2; discriminate).
Qed.

Lemma finished_sh c e p e' r b f fr :
  finished_collection c e p = Ret (e', r) ->
  b_stack b = f :: fr -> map ckind (en_stack e) = map fkind fr ->
  Forall (fun k => k <> Some false) (map ckind (en_stack e)) ->
  en_closed e = false -> b_root b = None ->
  (r = Ok tt /\ sh e' (b_pop b)) \/ r = Err PointerTooLarge.
Proof.
  intros H Eb Hm Ht Hc Hr. unfold finished_collection in H. unfold b_pop. rewrite Eb.
  destruct fr as [|g fr]; cbn [map] in Hm; destruct (en_stack e) as [|top st] eqn:Est; cbn [map] in Hm; try discriminate.
  - destruct (u32_sub _ _ _) as [off| | |]; try discriminate. cbn [bind] in H.
    destruct (off <=? MAX_NARROW).
    + destruct (new_pointer off); [|discriminate].
      destruct (enc_write c e _ _ _) as [[e1 o1]| | |] eqn:E; try discriminate. cbn [bind fst] in H.
      injection H as <- <-. apply enc_write_grown in E as [(G & _) _]. left. split; [reflexivity|].
      constructor; cbn [set_closed en_stack en_closed b_stack b_root]; rewrite ?G, ?Est; auto; try constructor.
    + destruct (new_pointer off); [|injection H as <- <-; auto].
      destruct (enc_write c e _ _ _) as [[e1 o1]| | |] eqn:E; try discriminate. cbn [bind fst] in H.
      destruct (new_pointer 4); [|discriminate].
      destruct (enc_write c e1 _ _ _) as [[e2 o2]| | |] eqn:E2; try discriminate. cbn [bind fst] in H.
      injection H as <- <-. apply enc_write_grown in E as [(G & _) _]. apply enc_write_grown in E2 as [(G2 & _) _].
      left. split; [reflexivity|].
      constructor; cbn [set_closed en_stack en_closed b_stack b_root]; rewrite ?G2, ?G, ?Est; auto; try constructor.
  - destruct (new_pointer p); [|injection H as <- <-; auto].
    cbn [map] in Ht. inversion Ht as [|? ? Ht1 Ht2]; subst. injection Hm as Hm1 Hm2.
    destruct top as [vs|vs [k|]]; cbn [ckind] in *; [| |congruence];
      destruct g as [l2|l2 [k2|]]; cbn [fkind] in *; try discriminate;
      injection H as <- <-; left; (split; [reflexivity|]);
      (constructor; cbn [set_stack en_stack en_closed b_stack b_root map ckind fkind tl add_child]; auto;
       [congruence|rewrite Hr; assumption|intros Hx; congruence]).
Qed.

Lemma write_entries_err c : forall vs e w e' er,
  write_entries c e w vs = Ret (e', Err er) -> er = PointerTooLarge.
Proof.
  induction vs as [|d vs IH]; intros e w e' er H; cbn [write_entries] in H; [discriminate|].
  destruct (dictkey_sized (de_key d)) as [[ks|]| | |]; try discriminate; cbn [bind] in H.
  - destruct (enc_write c e _ _ _) as [[e1 o1]| | |]; try discriminate. cbn [bind fst] in H.
    destruct (enc_write c e1 _ _ _) as [[e2 o2]| | |]; try discriminate. cbn [bind fst] in H. eauto.
  - congruence.
Qed.

Lemma step_sh c e b o e' r :
  enc_step c e o = Ret (e', r) -> sh e b -> regular b o -> sh_step e' r b o.
Proof.
  intros H Hsh Hreg. pose proof Hsh as [H1 H2 H3 H4].
  destruct o as [k|v|n| | | |t]; cbn [enc_step regular] in *.
  - unfold write_key in H. destruct (to_sized_value (EStr k)) as [s|].
    + apply Ret_inj in H. pose proof (push_key_sh e b (DKInline s) k Hsh) as Hk. rewrite H in Hk. exact Hk.
    + assert (Hp : forall e0, sh e0 b -> write_key_pointer c e0 k = Ret (e', r) -> sh_step e' r b (OpKey k)).
      { intros e0 Hs0 H0. unfold write_key_pointer in H0.
        destruct (enc_write c e0 _ _ _) as [[e1 o1]| | |] eqn:E; try discriminate. cbn [bind] in H0.
        apply enc_write_grown in E as [G _]. apply Ret_inj in H0.
        pose proof (push_key_sh e1 b (DKPointer k o1) k (sh_grown _ _ _ G Hs0)) as Hk. rewrite H0 in Hk. exact Hk. }
      unfold write_key_long in H. destruct (en_sk e) as [t|]; [|eauto].
      destruct (sh_cases e b Hsh) as [[E1 E2]|[(vs & st & l & fr & E1 & E2 & E3)|Hd]].
      * rewrite E1 in H. injection H as <- <-. unfold sh_step. cbn [b_step]. rewrite E2. auto.
      * rewrite E1 in H. injection H as <- <-. unfold sh_step. cbn [b_step]. rewrite E2. auto.
      * assert (Hx : (let '(t', i) := encode_and_insert (c_ua c) t k in
                      match i with Some i => Ret (push_key (set_sk e (Some t')) (DKShared i))
                      | None => write_key_pointer c (set_sk e (Some t')) k end) = Ret (e', r)).
        { destruct Hd as [(vs & st & l & fr & E1 & E2 & E3)|(vs & k1 & st & l & k2 & fr & E1 & E2 & E3)];
            rewrite E1 in H; exact H. }
        destruct (encode_and_insert (c_ua c) t k) as [t' [i|]].
        -- apply Ret_inj in Hx. pose proof (push_key_sh _ b (DKShared i) k (sh_sk e (Some t') b Hsh)) as Hk. rewrite Hx in Hk. exact Hk.
        -- eapply Hp; [|exact Hx]. apply sh_sk; assumption.
  - unfold write_value in H. destruct (en_stack e) as [|cc st] eqn:Est.
    { injection H as <- <-. destruct (b_stack b) as [|f fr] eqn:Eb; [|discriminate]. unfold sh_step; cbn [b_step]. rewrite Eb. auto. }
    destruct (to_sized_value v) as [s|].
    + apply Ret_inj in H. pose proof (push_value_sh e b s v Hsh) as Hk. rewrite H in Hk. exact Hk.
    + destruct (enc_write c e v false false) as [[e1 o1]| | |] eqn:E; try discriminate. cbn [bind] in H.
      apply enc_write_grown in E as [G _].
      destruct (new_pointer o1) as [p|]; apply Ret_inj in H.
      * pose proof (push_value_sh e1 b p v (sh_grown _ _ _ G Hsh)) as Hk. rewrite H in Hk. exact Hk.
      * injection H as <- <-. unfold sh_step. destruct (b_step _ _); auto.
  - unfold begin_array in H. unfold sh_step; cbn [b_step]; unfold b_begin. rewrite H3 in H.
    destruct (b_root b) as [t|] eqn:Er; [injection H as <- <-; auto|].
    destruct (sh_cases e b Hsh) as [[E1 E2]|[(vs & st & l & fr & E1 & E2 & E3)|[(vs & st & l & fr & E1 & E2 & E3)|(vs & k1 & st & l & k2 & fr & E1 & E2 & E3)]]];
      rewrite E2; rewrite E1 in H; cbn [top_waits_for_key] in H;
      try (injection H as <- <-; auto; fail); destruct (two63 <=? n * 4); try discriminate; injection H as <- <-; left;
      (split; [reflexivity|]); rewrite E1 in H2; cbn [tl] in H2;
      (constructor; cbn [set_stack en_stack en_closed b_stack b_root map ckind fkind tl]; auto;
       try congruence; try (repeat constructor; auto; discriminate); cbn [map] in *; congruence).
  - unfold end_array in H. unfold sh_step; cbn [b_step].
    destruct (sh_cases e b Hsh) as [[E1 E2]|[(vs & st & l & fr & E1 & E2 & E3)|[(vs & st & l & fr & E1 & E2 & E3)|(vs & k1 & st & l & k2 & fr & E1 & E2 & E3)]]];
      rewrite E2 in *; rewrite E1 in H; cbn [stack_pop] in H.
    + injection H as <- <-. left. split; [reflexivity|]. apply (sh_same e); auto.
    + destruct (b_root b) as [t|] eqn:Er; [specialize (H4 ltac:(discriminate)); discriminate|].
      cbn [set_stack en_out] in H.
      destruct (array_should_be_wide _ _ _) as [w| | |]; try discriminate. cbn [bind] in H.
      destruct (enc_write c _ _ _ _) as [[e1 o1]| | |] eqn:E; try discriminate. cbn [bind] in H.
      destruct (fix_array_pointers _ _ _ _) as [vs'| | |]; try discriminate. cbn [bind] in H.
      destruct (write_slots c e1 w vs') as [e2| | |] eqn:Ew; try discriminate. cbn [bind] in H.
      apply enc_write_grown in E as [G _]. apply write_slots_grown in Ew as G2.
      destruct (grown_trans _ _ _ G G2) as (G3 & _ & G4 & _). cbn [set_stack en_stack en_closed] in G3, G4.
      eapply finished_sh; [exact H|exact E2|rewrite G3; exact E3| | |exact Er].
      * rewrite G3. rewrite E1 in H2. exact H2.
      * congruence.
    + destruct Hreg.
    + injection H as <- <-. left. split; [reflexivity|]. apply (sh_same e); auto.
  - unfold begin_dict in H. unfold sh_step; cbn [b_step]; unfold b_begin. rewrite H3 in H. rewrite Hreg in *.
    destruct (sh_cases e b Hsh) as [[E1 E2]|[(vs & st & l & fr & E1 & E2 & E3)|[(vs & st & l & fr & E1 & E2 & E3)|(vs & k1 & st & l & k2 & fr & E1 & E2 & E3)]]];
      rewrite E2; rewrite E1 in H; cbn [top_waits_for_key] in H; injection H as <- <-; auto; left;
      (split; [reflexivity|]); rewrite E1 in H2; cbn [tl] in H2;
      (constructor; cbn [set_stack en_stack en_closed b_stack b_root map ckind fkind tl]; auto;
       try congruence; try (repeat constructor; auto; discriminate); cbn [map] in *; congruence).
  - unfold end_dict in H. unfold sh_step; cbn [b_step].
    destruct (sh_cases e b Hsh) as [[E1 E2]|[(vs & st & l & fr & E1 & E2 & E3)|[(vs & st & l & fr & E1 & E2 & E3)|(vs & k1 & st & l & k2 & fr & E1 & E2 & E3)]]];
      rewrite E2 in *; rewrite E1 in H; try (injection H as <- <-; auto; fail).
    destruct (b_root b) as [t|] eqn:Er; [specialize (H4 ltac:(discriminate)); discriminate|].
    cbn [set_stack en_out] in H.
    destruct (dict_should_be_wide _ _ _ _) as [w| | |]; try discriminate. cbn [bind] in H.
    destruct (enc_write c _ _ _ _) as [[e1 o1]| | |] eqn:E; try discriminate. cbn [bind] in H.
    destruct (fix_dict_pointers _ _ _ _) as [vs'| | |]; try discriminate. cbn [bind] in H.
    destruct (write_entries c e1 w vs') as [[e2 r2]| | |] eqn:Ew; try discriminate. unfold eseq in H; cbn [bind fst snd] in H.
    destruct r2 as [[]|er]; [|apply write_entries_err in Ew; injection H as <- <-; right; congruence].
    apply enc_write_grown in E as [G _]. apply write_entries_grown in Ew as G2.
    destruct (grown_trans _ _ _ G G2) as (G3 & _ & G4 & _). cbn [set_stack en_stack en_closed] in G3, G4.
    eapply finished_sh; [exact H|exact E2|rewrite G3; exact E3| | |exact Er].
    + rewrite G3. rewrite E1 in H2. exact H2.
    + congruence.
  - injection H as <- <-. unfold sh_step; cbn [b_step]. left. split; [reflexivity|]. apply sh_sk; assumption.
Qed.

Lemma run_sh c : forall ops e b e' rs,
  enc_run c e ops = Ret (e', rs) -> sh e b -> regulars b ops -> ~ In (Err PointerTooLarge) rs ->
  rs = snd (b_run b ops) /\ sh e' (fst (b_run b ops)).
Proof.
  induction ops as [|o ops IH]; intros e b e' rs H Hsh Hreg Hn; cbn [enc_run] in H.
  { injection H as <- <-. auto. }
  destruct (enc_step c e o) as [[e1 r1]| | |] eqn:E; try discriminate. cbn [bind fst snd] in H.
  destruct (enc_run c e1 ops) as [[e2 r2]| | |] eqn:E2; try discriminate. cbn [bind fst snd] in H.
  injection H as <- <-. destruct Hreg as [Hr1 Hr2].
  pose proof (step_sh _ _ _ _ _ _ E Hsh Hr1) as Hst. unfold sh_step in Hst. cbn [b_run].
  assert (Hn1 : r1 <> Err PointerTooLarge) by (intros ->; apply Hn; left; reflexivity).
  assert (Hn2 : ~ In (Err PointerTooLarge) r2) by (intros Hx; apply Hn; right; exact Hx).
  destruct (b_step b o) as [b'|er]; cbn [fst snd]; destruct Hst as [[-> Hst]|Hst]; try contradiction;
    destruct (IH _ _ _ _ E2 Hst Hr2 Hn2) as [-> ?]; auto.
Qed.
Lemma sh_init prefix : sh (enc_new_to_vec prefix) b_init.
Proof. constructor; cbn; auto; constructor. Qed.

(** If the encoder accepts every call then so does the protocol. *)
Lemma run_all_ok c : forall ops e b e' rs,
  enc_run c e ops = Ret (e', rs) -> sh e b -> Forall (eq (Ok tt)) rs ->
  Forall (eq (Ok tt)) (snd (b_run b ops)) /\ sh e' (fst (b_run b ops)).
Proof.
  induction ops as [|o ops IH]; intros e b e' rs H Hsh Hok; cbn [enc_run] in H.
  { injection H as <- <-. cbn [b_run fst snd]. auto. }
  destruct (enc_step c e o) as [[e1 r1]| | |] eqn:E; try discriminate. cbn [bind fst snd] in H.
  destruct (enc_run c e1 ops) as [[e2 r2]| | |] eqn:E2; try discriminate. cbn [bind fst snd] in H.
  injection H as <- <-. inversion Hok as [|? ? H1 H2]; subst.
  assert (Hreg : regular b o).
  { destruct o; cbn [regular]; auto; cbn [enc_step] in E.
    - destruct (b_stack b) as [|[l|l [k|]] fr] eqn:Eb; auto. exfalso.
      pose proof (sh_stack _ _ Hsh) as Hs. rewrite Eb in Hs. unfold end_array in E.
      destruct (en_stack e) as [|[vs|vs [k|]] st]; cbn [map ckind fkind] in Hs; try discriminate;
        cbn [stack_pop] in E; congruence.
    - destruct (b_root b) eqn:Er; auto. exfalso. pose proof (sh_closed _ _ Hsh) as Hc. rewrite Er in Hc.
      unfold begin_dict in E. rewrite Hc in E. congruence. }
  pose proof (step_sh _ _ _ _ _ _ E Hsh Hreg) as Hst. unfold sh_step in Hst. cbn [b_run].
  destruct (b_step b o) as [b'|er]; cbn [fst snd]; destruct Hst as [[Hx Hst]|Hst]; try discriminate.
  destruct (IH _ _ _ _ E2 Hst H2) as [? ?]. split; [constructor; auto|assumption].
Qed.

(* ---------- statements about whole documents ---------- *)

Lemma small_round_trip c prefix ops e' rs t :
  sort_ok (c_sort c) -> lenZ prefix mod 2 = 0 ->
  Forall good_op ops -> keys_ok false ops ->
  layout_ok (c_ua c) (lenZ prefix) ops -> lenZ prefix + ops_size ops <= MAX_WIDE ->
  enc_run c (enc_new_to_vec prefix) ops = Ret (e', rs) -> Forall (eq (Ok tt)) rs ->
  b_finish (fst (b_run b_init ops)) = Some t ->
  exists D, finish c e' = Ret (prefix ++ D) /\
    forall dbg base, addressable base (prefix ++ D) -> decodes_to dbg base (prefix ++ D) (en_sk e') t.
Proof.
  intros Hs Hev Hg Hk Hn Hw Hrun Hok Ht.
  destruct (run_all_ok c ops _ _ _ _ Hrun (sh_init prefix) Hok) as [Hacc _].
  assert (Hp : polite b_init ops) by (apply accepted_polite; [intros Hx; exfalso; apply Hx; reflexivity|exact Hacc]).
  destruct (any_document c prefix ops Hs Hev Hg Hk Hp (strings_any _ _ _) Hn Hw) as (e2 & D & Er & Ef & _ & Hlen & Hd).
  rewrite Hrun in Er. injection Er as <- _.
  exists D. split; [exact Ef|]. intros dbg base [Hb1 Hb2].
  destruct (Hd t Ht) as (v & t' & H1 & Hall). destruct (Hall dbg base (en_sk e') Hb1 Hb2) as (H2 & H3 & H4).
  exists v, t'. split; [exact H2|]. split; [exact H3|]. split; [|exact H1].
  apply read_vstored; [|exact H4].
  unfold env_ok; cbn [e_base e_data]. split; [exact Hb1|]. split; [exact Hb2|].
  rewrite lenZ_app in *. unfold MAX_WIDE, two63 in *. lia.
Qed.

(** The same for any run, refused calls included. *)
Lemma small_any c prefix ops :
  sort_ok (c_sort c) -> lenZ prefix mod 2 = 0 ->
  Forall good_op ops -> keys_ok false ops -> polite b_init ops ->
  layout_ok (c_ua c) (lenZ prefix) ops -> lenZ prefix + ops_size ops <= MAX_WIDE ->
  exists e' D, enc_run c (enc_new_to_vec prefix) ops = Ret (e', snd (b_run b_init ops)) /\
    finish c e' = Ret (prefix ++ D) /\
    forall t, b_finish (fst (b_run b_init ops)) = Some t ->
    forall dbg base, addressable base (prefix ++ D) -> decodes_to dbg base (prefix ++ D) (en_sk e') t.
Proof.
  intros Hs Hev Hg Hk Hp Hn Hw.
  destruct (any_document c prefix ops Hs Hev Hg Hk Hp (strings_any _ _ _) Hn Hw) as (e2 & D & Er & Ef & _ & Hlen & Hd).
  exists e2, D. split; [exact Er|]. split; [exact Ef|]. intros t Ht dbg base [Hb1 Hb2].
  destruct (Hd t Ht) as (v & t' & H1 & Hall). destruct (Hall dbg base (en_sk e2) Hb1 Hb2) as (H2 & H3 & H4).
  exists v, t'. split; [exact H2|]. split; [exact H3|]. split; [|exact H1].
  apply read_vstored; [|exact H4].
  unfold env_ok; cbn [e_base e_data]. split; [exact Hb1|]. split; [exact Hb2|].
  rewrite lenZ_app in *. unfold MAX_WIDE, two63 in *. lia.
Qed.

(** Any size, as long as no collection is damaged when it is written. *)
Lemma fitting_document c prefix ops :
  sort_ok (c_sort c) -> lenZ prefix mod 2 = 0 ->
  calls_ok c (enc_new_to_vec prefix) b_init ops ->
  lenZ prefix + ops_size ops <= MAX_WIDE -> (forall o, In o ops -> 0 <= op_size o) ->
  exists e', enc_run c (enc_new_to_vec prefix) ops = Ret (e', snd (b_run b_init ops)) /\
    (closes_ok (S (length (en_stack e'))) c e' ->
     exists D, finish c e' = Ret (prefix ++ D) /\
      forall t, b_finish (fst (b_run b_init ops)) = Some t ->
      forall dbg base, addressable base (prefix ++ D) -> decodes_to dbg base (prefix ++ D) (en_sk e') t).
Proof.
  intros Hs Hev Hc Hw Hpos.
  destruct (document c prefix ops Hs Hev Hc Hpos Hw) as (e' & Er & _ & H).
  exists e'. split; [exact Er|]. intros Hcl. destruct (H Hcl) as (D & Hf & _ & Hlen & Hd).
  exists D. split; [exact Hf|]. intros t Ht dbg base [Hb1 Hb2].
  destruct (Hd t Ht) as (v & t' & H1 & Hall). destruct (Hall dbg base (en_sk e') Hb1 Hb2) as (H2 & H3 & H4).
  exists v, t'. split; [exact H2|]. split; [exact H3|]. split; [|exact H1].
  apply read_vstored; [|exact H4].
  unfold env_ok; cbn [e_base e_data]. split; [exact Hb1|]. split; [exact Hb2|].
  rewrite lenZ_app in *. unfold MAX_WIDE, two63 in *. lia.
Qed.

(* ---------- finish is a sequence of ordinary end calls ---------- *)

Lemma finished_length c e p e' r : finished_collection c e p = Ret (e', r) -> length (en_stack e') = length (en_stack e).
Proof.
  unfold finished_collection. intros H. destruct (en_stack e) as [|top st] eqn:Est.
  - destruct (u32_sub _ _ _) as [off| | |]; try discriminate. cbn [bind] in H.
    destruct (off <=? MAX_NARROW).
    + destruct (new_pointer off); [|discriminate].
      destruct (enc_write c e _ _ _) as [[e1 o1]| | |] eqn:E; try discriminate. cbn [bind fst] in H.
      injection H as <- <-. apply enc_write_grown in E as [(G & _) _]. cbn [set_closed en_stack]. rewrite G, Est. reflexivity.
    + destruct (new_pointer off); [|injection H as <- <-; rewrite Est; reflexivity].
      destruct (enc_write c e _ _ _) as [[e1 o1]| | |] eqn:E; try discriminate. cbn [bind fst] in H.
      destruct (new_pointer 4); [|discriminate].
      destruct (enc_write c e1 _ _ _) as [[e2 o2]| | |] eqn:E2; try discriminate. cbn [bind fst] in H.
      injection H as <- <-. apply enc_write_grown in E as [(G & _) _]. apply enc_write_grown in E2 as [(G2 & _) _].
      cbn [set_closed en_stack]. rewrite G2, G, Est. reflexivity.
  - destruct (new_pointer p); [|injection H as <- <-; rewrite Est; reflexivity].
    destruct top as [vs|vs [k|]]; injection H as <- <-; cbn [set_stack en_stack length]; rewrite ?Est; reflexivity.
Qed.

(** The end call for the innermost open collection. *)
Definition end_of (cc : coll) : op := match cc with CArr _ => OpEndArray | CDict _ _ => OpEndDict end.
(** A key still waiting for its value is forgotten. *)
Definition forget_key (e : enc) : enc :=
  match en_stack e with CDict vs (Some _) :: st => set_stack e (CDict vs None :: st) | _ => e end.

Lemma end_length c e cc st e' r :
  en_stack e = cc :: st -> enc_step c (forget_key e) (end_of cc) = Ret (e', r) -> length (en_stack e') = length st.
Proof.
  intros Est H. unfold forget_key in H. rewrite Est in H.
  destruct cc as [vs|vs nk]; cbn [end_of enc_step] in H.
  - unfold end_array in H. rewrite Est in H. cbn [stack_pop] in H. cbn [set_stack en_out] in H.
    destruct (array_should_be_wide _ _ _) as [w| | |]; try discriminate. cbn [bind] in H.
    destruct (enc_write c _ _ _ _) as [[e1 o1]| | |] eqn:E; try discriminate. cbn [bind] in H.
    destruct (fix_array_pointers _ _ _ _) as [vs'| | |]; try discriminate. cbn [bind] in H.
    destruct (write_slots c e1 w vs') as [e2| | |] eqn:Ew; try discriminate. cbn [bind] in H.
    apply enc_write_grown in E as [G _]. apply write_slots_grown in Ew as G2.
    destruct (grown_trans _ _ _ G G2) as (G3 & _). cbn [set_stack en_stack] in G3.
    apply finished_length in H. congruence.
  - assert (Hx : end_dict c (set_stack e (CDict vs None :: st)) = Ret (e', r)).
    { destruct nk as [k|]; [exact H|]. destruct e as [o sk stk cl]; cbn [en_stack] in Est; subst stk. exact H. }
    clear H. rename Hx into H. unfold end_dict in H. cbn [set_stack en_stack en_out] in H.
    destruct (dict_should_be_wide _ _ _ _) as [w| | |]; try discriminate. cbn [bind] in H.
    destruct (enc_write c _ _ _ _) as [[e1 o1]| | |] eqn:E; try discriminate. cbn [bind] in H.
    destruct (fix_dict_pointers _ _ _ _) as [vs'| | |]; try discriminate. cbn [bind] in H.
    destruct (write_entries c e1 w vs') as [[e2 r2]| | |] eqn:Ew; try discriminate. unfold eseq in H; cbn [bind fst snd] in H.
    apply enc_write_grown in E as [G _]. apply write_entries_grown in Ew as G2.
    destruct (grown_trans _ _ _ G G2) as (G3 & _). cbn [set_stack en_stack] in G3.
    destruct r2; [apply finished_length in H; congruence|]. injection H as <- <-. congruence.
Qed.

Lemma finish_unfold c e :
  finish c e =
  match en_stack e with
  | [] => Ret (en_out e)
  | cc :: _ => r <- enc_step c (forget_key e) (end_of cc) ;; finish c (fst r)
  end.
Proof.
  unfold finish at 1. destruct (en_stack e) as [|cc st] eqn:Est; cbn [length enc_end]; rewrite Est; [reflexivity|].
  pose proof (fun e' r => end_length c e cc st e' r Est) as Hlen.
  assert (Hs : enc_end (S (length (cc :: st))) c e =
               (r <- enc_step c (forget_key e) (end_of cc) ;; enc_end (S (length st)) c (fst r))).
  { cbn [enc_end length]. rewrite Est. unfold forget_key. rewrite Est.
    destruct cc as [vs|vs [k|]]; cbn [end_of enc_step]; try reflexivity.
    destruct e as [o sk stk cl]; cbn [en_stack] in Est; subst stk. reflexivity. }
  cbn [length enc_end] in Hs. rewrite Est in Hs. cbn [length enc_end]. rewrite Hs.
  destruct (enc_step c (forget_key e) (end_of cc)) as [[e1 r1]| | |]; try reflexivity. cbn [bind fst].
  unfold finish. rewrite (Hlen e1 r1 eq_refl). reflexivity.
Qed.

(* ---------- a refused call ---------- *)

Lemma b_run_app : forall ops1 b ops2,
  b_run b (ops1 ++ ops2) =
  (fst (b_run (fst (b_run b ops1)) ops2), snd (b_run b ops1) ++ snd (b_run (fst (b_run b ops1)) ops2)).
Proof.
  induction ops1 as [|o ops IH]; intros b ops2; cbn [app b_run fst snd].
  - destruct (b_run b ops2); reflexivity.
  - destruct (b_step b o) as [b'|er]; cbn [fst snd]; rewrite IH; cbn [fst snd app]; reflexivity.
Qed.
Lemma polite_app : forall ops1 b ops2,
  polite b (ops1 ++ ops2) <-> polite b ops1 /\ polite (fst (b_run b ops1)) ops2.
Proof.
  induction ops1 as [|o ops IH]; intros b ops2; cbn [app polite b_run fst]; [tauto|].
  destruct (b_step b o) as [b'|er]; cbn [fst]; rewrite IH; tauto.
Qed.
Lemma keys_ok_drop : forall ops1 h o ops2,
  (forall t, o <> OpSetSharedKeys t) -> keys_ok h (ops1 ++ o :: ops2) -> keys_ok h (ops1 ++ ops2).
Proof.
  induction ops1 as [|o1 ops IH]; intros h o ops2 Hn H; cbn [app] in *.
  - destruct o; cbn [keys_ok] in H; try tauto. exfalso. eapply Hn; reflexivity.
  - destruct o1; cbn [keys_ok] in *; try (eapply IH; eauto; fail); destruct H; (split; [assumption|eapply IH; eauto]).
Qed.
Lemma ops_size_app a b : ops_size (a ++ b) = ops_size a + ops_size b.
Proof. induction a as [|o a IH]; cbn [app ops_size fold_right]; [reflexivity|]. fold (ops_size (a ++ b)) (ops_size a). lia. Qed.

Lemma run_firstn c : forall a e b e' rs, enc_run c e (a ++ b) = Ret (e', rs) ->
  exists e1, enc_run c e a = Ret (e1, firstn (length a) rs).
Proof.
  induction a as [|o a IH]; intros e b e' rs H; cbn [app enc_run length firstn] in *; [eauto|].
  destruct (enc_step c e o) as [[e1 r1]| | |] eqn:E; try discriminate. cbn [bind fst snd] in *.
  destruct (enc_run c e1 (a ++ b)) as [[e2 r2]| | |] eqn:E2; try discriminate. cbn [bind fst snd] in H.
  injection H as <- <-. destruct (IH _ _ _ _ E2) as (e3 & E3). rewrite E3. cbn [bind fst snd firstn]. eauto.
Qed.
Lemma b_run_length : forall ops b, length (snd (b_run b ops)) = length ops.
Proof.
  induction ops as [|o ops IH]; intros b; cbn [b_run]; [reflexivity|].
  destruct (b_step b o); cbn [snd length]; rewrite IH; reflexivity.
Qed.

Lemma refused_call c ops1 o ops2 er e1 rs :
  sort_ok (c_sort c) ->
  let ops := ops1 ++ o :: ops2 in
  Forall good_op ops -> keys_ok false ops -> polite b_init ops ->
  layout_ok (c_ua c) 0 ops -> layout_ok (c_ua c) 0 (ops1 ++ ops2) -> ops_size ops <= MAX_WIDE ->
  enc_run c enc_new (ops1 ++ [o]) = Ret (e1, rs ++ [Err er]) ->
  exists eA bsA rA eB bsB rB,
    enc_run c enc_new ops = Ret (eA, rs ++ [Err er] ++ rA) /\ finish c eA = Ret bsA /\
    enc_run c enc_new (ops1 ++ ops2) = Ret (eB, rs ++ rB) /\ finish c eB = Ret bsB /\
    rA = rB /\
    forall t, b_finish (fst (b_run b_init (ops1 ++ ops2))) = Some t -> forall dbg base,
      (addressable base bsA -> decodes_to dbg base bsA (en_sk eA) t) /\
      (addressable base bsB -> decodes_to dbg base bsB (en_sk eB) t).
Proof.
  intros Hs ops Hg Hk Hp Hl Hl2 Hn Hrun. change enc_new with (enc_new_to_vec []) in *.
  assert (Hpos := good_ops_size ops Hg).
  assert (Hso : 0 <= op_size o) by (apply Hpos; apply in_or_app; right; left; reflexivity).
  unfold ops in *. rewrite ops_size_app in Hn. change (ops_size (o :: ops2)) with (op_size o + ops_size ops2) in Hn.
  destruct (small_any c [] (ops1 ++ o :: ops2) Hs eq_refl Hg Hk Hp) as (eA & DA & ErA & HfA & HdA); [exact Hl| |].
  { rewrite ops_size_app. change (ops_size (o :: ops2)) with (op_size o + ops_size ops2). change (lenZ (@nil Z)) with 0. lia. }
  (* the call is refused by the protocol *)
  destruct (run_firstn c (ops1 ++ [o]) (enc_new_to_vec []) ops2 eA (snd (b_run b_init (ops1 ++ o :: ops2)))) as (e1' & Er1).
  { rewrite <- app_assoc. exact ErA. }
  rewrite Hrun in Er1. injection Er1 as <- Hrs.
  change (o :: ops2) with ([o] ++ ops2) in Hrs. rewrite app_assoc, (b_run_app (ops1 ++ [o]) b_init ops2) in Hrs. cbn [snd] in Hrs.
  rewrite <- (b_run_length (ops1 ++ [o]) b_init), firstn_app, firstn_all, Nat.sub_diag in Hrs.
  cbn [firstn] in Hrs. rewrite app_nil_r in Hrs.
  rewrite b_run_app in Hrs. cbn [snd b_run] in Hrs.
  destruct (b_step (fst (b_run b_init ops1)) o) as [b'|er'] eqn:Eb; cbn [snd] in Hrs;
    apply app_inj_tail in Hrs as [Hrs1 Hrs2]; [discriminate|]. injection Hrs2 as <-.
  assert (Hno : forall t, o <> OpSetSharedKeys t) by (intros t ->; discriminate).
  assert (Hp2 : polite b_init (ops1 ++ ops2)).
  { rewrite polite_app in Hp |- *. cbn [polite] in Hp. rewrite Eb in Hp. tauto. }
  assert (Hg2 : Forall good_op (ops1 ++ ops2)).
  { rewrite Forall_app in Hg |- *. destruct Hg as [Hx Hy]. inversion Hy; auto. }
  destruct (small_any c [] (ops1 ++ ops2) Hs eq_refl Hg2 (keys_ok_drop _ _ _ _ Hno Hk) Hp2) as (eB & DB & ErB & HfB & HdB); [exact Hl2| |].
  { rewrite ops_size_app. change (lenZ (@nil Z)) with 0. lia. }
  rewrite b_run_app in ErA, HdA, ErB, HdB |- *. cbn [b_run fst snd] in *. rewrite Eb in *. cbn [fst snd] in *.
  exists eA, DA, (snd (b_run (fst (b_run b_init ops1)) ops2)), eB, DB, (snd (b_run (fst (b_run b_init ops1)) ops2)).
  subst rs. split; [exact ErA|]. split; [exact HfA|]. split; [exact ErB|]. split; [exact HfB|].
  split; [reflexivity|]. intros t Ht dbg base. split; intros Ha; [apply HdA|apply HdB]; assumption.
Qed.

(* ---------- corollaries used by the property files ---------- *)

Lemma small_valid c ops e' rs :
  sort_ok (c_sort c) -> Forall good_op ops -> keys_ok false ops ->
  layout_ok (c_ua c) 0 ops -> ops_size ops <= MAX_WIDE ->
  enc_run c enc_new ops = Ret (e', rs) -> Forall (eq (Ok tt)) rs ->
  b_finish (fst (b_run b_init ops)) <> None ->
  exists bs, finish c e' = Ret bs /\
    forall dbg base, addressable base bs ->
    exists v, from_bytes (mk_env dbg base bs (en_sk e')) = Ret (Ok v).
Proof.
  intros Hs Hg Hk Hl Hn Hr Hok Ht. destruct (b_finish _) as [t|] eqn:Et; [|congruence].
  destruct (small_round_trip c [] ops e' rs t) as (D & Hf & Hd); auto.
  exists D. split; [exact Hf|]. intros dbg base Ha. destruct (Hd dbg base Ha) as (v & t' & Hv & _). eauto.
Qed.
Lemma run_protocol c prefix ops e' rs :
  enc_run c (enc_new_to_vec prefix) ops = Ret (e', rs) ->
  regulars b_init ops -> ~ In (Err PointerTooLarge) rs -> rs = snd (b_run b_init ops).
Proof. intros H H1 H2. apply (run_sh c ops _ _ _ _ H (sh_init prefix) H1 H2). Qed.
Lemma run_accepted c prefix ops e' rs :
  enc_run c (enc_new_to_vec prefix) ops = Ret (e', rs) -> Forall (eq (Ok tt)) rs ->
  Forall (eq (Ok tt)) (snd (b_run b_init ops)).
Proof. intros H H1. apply (run_all_ok c ops _ _ _ _ H (sh_init prefix) H1). Qed.
Lemma polite_regular : forall ops b, polite b ops -> regulars b ops.
Proof.
  induction ops as [|o ops IH]; intros b; cbn [polite regulars]; [auto|].
  intros [H1 H2]. split; [|auto]. destruct o; cbn [polite_op regular] in *; auto.
Qed.
Lemma run_allowed c prefix ops e' rs :
  enc_run c (enc_new_to_vec prefix) ops = Ret (e', rs) -> ~ In (Err PointerTooLarge) rs ->
  Forall (eq (Ok tt)) (snd (b_run b_init ops)) -> rs = snd (b_run b_init ops).
Proof.
  intros H Hn Hok. eapply run_protocol; eauto. apply polite_regular.
  apply accepted_polite; [|exact Hok]. intros Hx. exfalso. apply Hx. reflexivity.
Qed.
Lemma run_all_even c prefix ops e' rs :
  lenZ prefix mod 2 = 0 -> enc_run c (enc_new_to_vec prefix) ops = Ret (e', rs) ->
  lenZ (en_out e') mod 2 = 0 /\ forall bs, finish c e' = Ret bs -> lenZ bs mod 2 = 0.
Proof.
  intros Hp Hr. split; [eapply run_even; eauto|]. intros bs Hf. eapply run_finish_even; eauto.
Qed.
Lemma run_prefix_kept c prefix ops e' rs bs :
  enc_run c (enc_new_to_vec prefix) ops = Ret (e', rs) -> finish c e' = Ret bs ->
  exists D, bs = prefix ++ D.
Proof.
  intros Hr Hf. apply run_ext in Hr as [X HX]. cbn [enc_new_to_vec en_out] in HX. unfold finish in Hf.
  destruct (enc_end _ c e') as [e2| | |] eqn:E; try discriminate. cbn [bind] in Hf. injection Hf as <-.
  apply enc_end_ext in E as [[Y HY] _]. exists (X ++ Y). rewrite HY, HX, app_assoc. reflexivity.
Qed.
