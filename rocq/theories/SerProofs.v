(** Proofs about serializing. *)
From Verif Require Import Prelude Lib Utf8 Float SharedKeys Decode Read Encodable Encoder BuilderSpec Holds Repr
  EncodableProofs Stored StoredRead SlotProofs EncoderProofs EncoderInv EncoderClean LayoutSpec EncoderLayout EncoderProtocol
  Scopes Ser De SerdeSpec.
From Coq Require Import ZifyBool ZifyNat ZifyN.

(* ---------- induction on values ---------- *)

Section Ind.
Variable P : sval -> Prop.
Hypothesis Hbase : forall v, match v with
  | SSome _ | SNewtype _ | SNewtypeVariant _ _ | SSeq _ | STuple _ | STupleStruct _ | STupleVariant _ _
  | SMap _ | SStruct _ | SStructVariant _ _ => False | _ => True end -> P v.
Hypothesis Hsome : forall v, P v -> P (SSome v).
Hypothesis Hnew : forall v, P v -> P (SNewtype v).
Hypothesis Hnewv : forall n v, P v -> P (SNewtypeVariant n v).
Hypothesis Hseq : forall l, Forall P l -> P (SSeq l).
Hypothesis Htup : forall l, Forall P l -> P (STuple l).
Hypothesis Htups : forall l, Forall P l -> P (STupleStruct l).
Hypothesis Htupv : forall n l, Forall P l -> P (STupleVariant n l).
Hypothesis Hmap : forall l, Forall (fun kv => P (fst kv) /\ P (snd kv)) l -> P (SMap l).
Hypothesis Hstr : forall l, Forall (fun f => P (snd f)) l -> P (SStruct l).
Hypothesis Hstrv : forall n l, Forall (fun f => P (snd f)) l -> P (SStructVariant n l).
Fixpoint sval_all (v : sval) : P v :=
  let list_all := fix go (l : list sval) : Forall P l :=
    match l with [] => Forall_nil _ | x :: l' => Forall_cons _ (sval_all x) (go l') end in
  let fields_all := fix go (l : list (list Z * sval)) : Forall (fun f => P (snd f)) l :=
    match l with [] => Forall_nil _ | x :: l' => Forall_cons x (sval_all (snd x)) (go l') end in
  let map_all := fix go (l : list (sval * sval)) : Forall (fun kv => P (fst kv) /\ P (snd kv)) l :=
    match l with [] => Forall_nil _ | x :: l' => Forall_cons x (conj (sval_all (fst x)) (sval_all (snd x))) (go l') end in
  match v with
  | SSome w => Hsome w (sval_all w)
  | SNewtype w => Hnew w (sval_all w)
  | SNewtypeVariant n w => Hnewv n w (sval_all w)
  | SSeq l => Hseq l (list_all l)
  | STuple l => Htup l (list_all l)
  | STupleStruct l => Htups l (list_all l)
  | STupleVariant n l => Htupv n l (list_all l)
  | SMap l => Hmap l (map_all l)
  | SStruct l => Hstr l (fields_all l)
  | SStructVariant n l => Hstrv n l (fields_all l)
  | SBool b => Hbase (SBool b) I
  | SInt t z => Hbase (SInt t z) I
  | SF32 b => Hbase (SF32 b) I
  | SF64 b => Hbase (SF64 b) I
  | SChar s => Hbase (SChar s) I
  | SStr s => Hbase (SStr s) I
  | SBytes s => Hbase (SBytes s) I
  | SNone => Hbase SNone I
  | SUnit => Hbase SUnit I
  | SUnitStruct => Hbase SUnitStruct I
  | SUnitVariant n => Hbase (SUnitVariant n) I
  end.
End Ind.

(* ---------- serializing makes the calls ---------- *)

Fixpoint run_calls (c : cfg) (e : enc) (cs : list call) : sres :=
  match cs with
  | [] => Ret (e, Ok tt)
  | COp o :: cs' => sseq (lift (enc_step c e o)) (fun e' => run_calls c e' cs')
  | CBadKey k :: _ => Ret (e, Err (SeKeyNotString k))
  end.

Lemma sseq_assoc m k1 k2 : sseq (sseq m k1) k2 = sseq m (fun e => sseq (k1 e) k2).
Proof.
  unfold sseq. destruct m as [[e [u|x]]| | |]; cbn [bind fst snd]; try reflexivity.
Qed.
Lemma sseq_ext m k1 k2 : (forall e, k1 e = k2 e) -> sseq m k1 = sseq m k2.
Proof. intros H. unfold sseq. destruct m as [[e [u|x]]| | |]; cbn [bind fst snd]; auto. Qed.
Lemma sseq_ret m : sseq m (fun e => Ret (e, Ok tt)) = m.
Proof. unfold sseq. destruct m as [[e [[]|x]]| | |]; reflexivity. Qed.
Lemma run_calls_app c : forall a e b, run_calls c e (a ++ b) = sseq (run_calls c e a) (fun e' => run_calls c e' b).
Proof.
  induction a as [|[o|k] a IH]; intros e b; cbn [app run_calls].
  - reflexivity.
  - rewrite sseq_assoc. apply sseq_ext. intros e'. apply IH.
  - reflexivity.
Qed.
Lemma run_calls_one c e o : run_calls c e [COp o] = lift (enc_step c e o).
Proof. cbn [run_calls]. apply sseq_ret. Qed.

Lemma sfor_calls {A} c (body : enc -> A -> sres) (f : A -> list call) : forall l e,
  Forall (fun x => forall e, body e x = run_calls c e (f x)) l ->
  sfor body e l = run_calls c e (flat_map f l).
Proof.
  induction l as [|x l IH]; intros e H; cbn [sfor flat_map]; [reflexivity|].
  inversion H as [|? ? H1 H2]; subst. rewrite run_calls_app, <- H1. apply sseq_ext. intros e'. apply IH. exact H2.
Qed.

Lemma ser_key_call c e k : ser_key c e k = run_calls c e [key_call k].
Proof.
  unfold key_call. induction k as [v H|k IHk|k IHk| | | | | | | |] using sval_all; cbn [key_text ser_key]; try (rewrite run_calls_one); try reflexivity; try exact IHk.
  destruct v; try contradiction; cbn [key_text ser_key]; try (rewrite run_calls_one); reflexivity.
Qed.

Ltac one_op := rewrite ?sseq_ret; reflexivity.
Lemma ser_calls c : forall v e, ser c e v = run_calls c e (calls v).
Proof.
  intros v. induction v as [v Hb|v IHv|v IHv|n v IHv|l H|l H|l H|n l H|l H|l H|n l H] using sval_all; intros e; cbn [ser calls].
  - destruct v; try contradiction; cbn [ser calls]; try (cbn [run_calls]; symmetry; apply sseq_ret).
    + destruct t; cbn [run_calls]; symmetry; apply sseq_ret.
    + cbn [app run_calls enc_step]. apply sseq_ext. intros e1. apply sseq_ext. intros e2. symmetry. apply sseq_ret.
  - apply IHv.
  - apply IHv.
  - cbn [run_calls enc_step]. apply sseq_ext. intros e1. apply sseq_ext. intros e2. rewrite run_calls_app, IHv.
    apply sseq_ext. intros e3. rewrite run_calls_one. reflexivity.
  - cbn [run_calls enc_step]. apply sseq_ext. intros e1. rewrite run_calls_app.
    rewrite (sfor_calls c (ser c) calls l e1 H). apply sseq_ext. intros e3. rewrite run_calls_one. reflexivity.
  - cbn [run_calls enc_step]. apply sseq_ext. intros e1. rewrite run_calls_app.
    rewrite (sfor_calls c (ser c) calls l e1 H). apply sseq_ext. intros e3. rewrite run_calls_one. reflexivity.
  - cbn [run_calls enc_step]. apply sseq_ext. intros e1. rewrite run_calls_app.
    rewrite (sfor_calls c (ser c) calls l e1 H). apply sseq_ext. intros e3. rewrite run_calls_one. reflexivity.
  - cbn [app run_calls enc_step]. apply sseq_ext. intros e1. apply sseq_ext. intros e2. rewrite sseq_assoc. apply sseq_ext. intros e3.
    rewrite <- app_assoc, run_calls_app, sseq_assoc. rewrite (sfor_calls c (ser c) calls l e3 H). apply sseq_ext. intros e4.
    cbn [app run_calls enc_step]. apply sseq_ext. intros e5. symmetry. apply sseq_ret.
  - cbn [run_calls enc_step]. apply sseq_ext. intros e1. rewrite run_calls_app.
    rewrite (sfor_calls c _ (fun kv => key_call (fst kv) :: calls (snd kv)) l e1).
    + apply sseq_ext. intros e3. rewrite run_calls_one. reflexivity.
    + eapply Forall_impl; [|exact H]. intros [k v] [_ Hv] e2. cbn [fst snd] in *.
      change (key_call k :: calls v) with ([key_call k] ++ calls v). rewrite run_calls_app, ser_key_call.
      apply sseq_ext. intros e3. apply Hv.
  - cbn [run_calls enc_step]. apply sseq_ext. intros e1. rewrite run_calls_app.
    rewrite (sfor_calls c _ (fun f => COp (OpKey (fst f)) :: calls (snd f)) l e1).
    + apply sseq_ext. intros e3. rewrite run_calls_one. reflexivity.
    + eapply Forall_impl; [|exact H]. intros [k v] Hv e2. cbn [fst snd run_calls enc_step] in *.
      apply sseq_ext. intros e3. apply Hv.
  - cbn [app run_calls enc_step]. apply sseq_ext. intros e1. apply sseq_ext. intros e2. rewrite sseq_assoc. apply sseq_ext. intros e3.
    rewrite <- app_assoc, run_calls_app, sseq_assoc.
    rewrite (sfor_calls c _ (fun f => COp (OpKey (fst f)) :: calls (snd f)) l e3).
    + apply sseq_ext. intros e4. cbn [app run_calls enc_step]. apply sseq_ext. intros e5. symmetry. apply sseq_ret.
    + eapply Forall_impl; [|exact H]. intros [k v] Hv e4. cbn [fst snd run_calls enc_step] in *.
      apply sseq_ext. intros e5. apply Hv.
Qed.

(* ---------- the protocol accepts them ---------- *)

(** [inl] when all calls are accepted, [inr] when a bad key comes first, [None] if some call is refused. *)
Fixpoint btrace (b : bstate) (cs : list call) : option (bstate + key_kind) :=
  match cs with
  | [] => Some (inl b)
  | CBadKey k :: _ => Some (inr k)
  | COp o :: cs' => match b_step b o with Ok b' => btrace b' cs' | Err _ => None end
  end.
Lemma btrace_app : forall a b cs, btrace b (a ++ cs) =
  match btrace b a with Some (inl b') => btrace b' cs | r => r end.
Proof.
  induction a as [|[o|k] a IH]; intros b cs; cbn [app btrace]; try reflexivity.
  destruct (b_step b o); [apply IH|reflexivity].
Qed.

(** Adding a value where one is expected. *)
Definition put (b : bstate) (t : tree) : bstate :=
  match b_stack b with
  | [] => mk_b [] (Some t)
  | f :: st => mk_b (add_child f t :: st) None
  end.
Definition waiting (b : bstate) : Prop :=
  b_root b = None /\ match b_stack b with FDict _ None :: _ => False | _ => True end.
Definition ready (b : bstate) (coll : bool) : Prop := waiting b /\ (b_stack b = [] -> coll = true).
Definition outcome_of (bad : option key_kind) (b : bstate) : option (bstate + key_kind) :=
  match bad with Some k => Some (inr k) | None => Some (inl b) end.

Lemma begin_ready b f : waiting b -> b_begin b f = Ok (mk_b (f :: b_stack b) None).
Proof. intros [H1 H2]. unfold b_begin. rewrite H1. destruct (b_stack b) as [|[l|l [k|]] st]; try reflexivity. destruct H2. Qed.
Lemma pop_put b f : waiting b -> b_pop (mk_b (f :: b_stack b) None) = put b (close_frame f).
Proof. intros _. unfold b_pop, put. cbn [b_stack b_root]. destruct (b_stack b); reflexivity. Qed.

Definition traced (v : sval) : Prop := forall b, ready b (collection v) ->
  btrace b (calls v) = outcome_of (bad_key v) (put b (stree v)).

Lemma ready_arr l st c0 : ready (mk_b (FArr l :: st) None) c0.
Proof. repeat split; cbn; auto. discriminate. Qed.
Lemma ready_dict l k st c0 : ready (mk_b (FDict l (Some k) :: st) None) c0.
Proof. repeat split; cbn; auto. discriminate. Qed.

Lemma seq_traced : forall l, Forall traced l -> forall l0 st,
  btrace (mk_b (FArr l0 :: st) None) (flat_map calls l) =
  outcome_of (first_bad bad_key l) (mk_b (FArr (l0 ++ map stree l) :: st) None).
Proof.
  induction 1 as [|v l Hv _ IH]; intros l0 st; cbn [flat_map first_bad map].
  - rewrite app_nil_r. reflexivity.
  - rewrite btrace_app, (Hv _ (ready_arr _ _ _)). destruct (bad_key v); cbn [outcome_of]; [reflexivity|].
    unfold put; cbn [b_stack add_child]. rewrite IH, <- app_assoc. reflexivity.
Qed.
Lemma fields_traced : forall l, Forall (fun f => traced (snd f)) l -> forall l0 st,
  btrace (mk_b (FDict l0 None :: st) None) (flat_map (fun f : list Z * sval => COp (OpKey (fst f)) :: calls (snd f)) l) =
  outcome_of (first_bad (fun f => bad_key (snd f)) l)
    (mk_b (FDict (l0 ++ map (fun f => (fst f, stree (snd f))) l) None :: st) None).
Proof.
  induction 1 as [|[k v] l Hv _ IH]; intros l0 st; cbn [flat_map first_bad map fst snd] in *.
  - rewrite app_nil_r. reflexivity.
  - cbn [app btrace b_step b_stack b_root]. rewrite btrace_app, (Hv _ (ready_dict _ _ _ _)).
    destruct (bad_key v); cbn [outcome_of]; [reflexivity|].
    unfold put; cbn [b_stack add_child]. rewrite IH, <- app_assoc. reflexivity.
Qed.
Lemma entries_traced : forall l, Forall (fun f : sval * sval => traced (snd f)) l -> forall l0 st,
  btrace (mk_b (FDict l0 None :: st) None) (flat_map (fun kv : sval * sval => key_call (fst kv) :: calls (snd kv)) l) =
  outcome_of (first_bad (fun kv : sval * sval => match key_text (fst kv) with Err k => Some k | Ok _ => bad_key (snd kv) end) l)
    (mk_b (FDict (l0 ++ map (fun kv : sval * sval => (text_of (fst kv), stree (snd kv))) l) None :: st) None).
Proof.
  induction 1 as [|[k v] l Hv _ IH]; intros l0 st; cbn [flat_map first_bad map fst snd] in *.
  - rewrite app_nil_r. reflexivity.
  - unfold key_call, text_of. destruct (key_text k) as [s|x]; cbn [app btrace]; [|reflexivity].
    cbn [b_step b_stack b_root]. rewrite btrace_app, (Hv _ (ready_dict _ _ _ _)).
    destruct (bad_key v); cbn [outcome_of]; [reflexivity|].
    unfold put; cbn [b_stack add_child]. rewrite IH, <- app_assoc. reflexivity.
Qed.

Lemma arr_traced l b cap : Forall traced l -> waiting b ->
  btrace b (COp (OpBeginArray cap) :: flat_map calls l ++ [COp OpEndArray]) =
  outcome_of (first_bad bad_key l) (put b (TArr (map stree l))).
Proof.
  intros Hl Hw. cbn [btrace b_step]. rewrite begin_ready by exact Hw. rewrite btrace_app, seq_traced by exact Hl.
  destruct (first_bad bad_key l); cbn [outcome_of]; [reflexivity|].
  cbn [btrace b_step b_stack]. rewrite pop_put by exact Hw. reflexivity.
Qed.
Lemma dict_traced l b : Forall (fun f => traced (snd f)) l -> waiting b ->
  btrace b (COp OpBeginDict :: flat_map (fun f : list Z * sval => COp (OpKey (fst f)) :: calls (snd f)) l ++ [COp OpEndDict]) =
  outcome_of (first_bad (fun f => bad_key (snd f)) l) (put b (TDict (map (fun f => (fst f, stree (snd f))) l))).
Proof.
  intros Hl Hw. cbn [btrace b_step]. rewrite begin_ready by exact Hw. rewrite btrace_app, fields_traced by exact Hl.
  destruct (first_bad _ l); cbn [outcome_of]; [reflexivity|].
  cbn [btrace b_step b_stack]. rewrite pop_put by exact Hw. reflexivity.
Qed.
Lemma named_traced b cap name inner t bad : waiting b ->
  (btrace (mk_b (FArr [TStr name] :: b_stack b) None) inner = outcome_of bad (mk_b (FArr (TStr name :: t) :: b_stack b) None)) ->
  btrace b (COp (OpBeginArray cap) :: COp (OpValue (EStr name)) :: inner ++ [COp OpEndArray]) =
  outcome_of bad (put b (TArr (TStr name :: t))).
Proof.
  intros Hw Hi. cbn [btrace b_step]. rewrite begin_ready by exact Hw. cbn [b_step b_stack add_child tree_of app b_root].
  rewrite btrace_app, Hi. destruct bad; cbn [outcome_of]; [reflexivity|].
  cbn [btrace b_step b_stack]. rewrite pop_put by exact Hw. reflexivity.
Qed.

Lemma all_traced : forall v, traced v.
Proof.
  intros v. induction v as [v Hb|v IHv|v IHv|n v IHv|l H|l H|l H|n l H|l H|l H|n l H] using sval_all; intros b [Hw Hc]; cbn [calls bad_key stree].
  - destruct v; try contradiction; cbn [calls bad_key stree collection] in *;
      try (destruct b as [[|[l|l [k|]] st] r]; destruct Hw as [Hw1 Hw2]; cbn [b_stack b_root] in *;
           [specialize (Hc eq_refl); discriminate|subst r; first [reflexivity|destruct t; reflexivity]..|destruct Hw2]).
    apply (named_traced b 1 name [] [] None Hw). reflexivity.
  - apply IHv. split; assumption.
  - apply IHv. split; assumption.
  - apply (named_traced b 2 n _ [stree v] _ Hw). rewrite (IHv _ (ready_arr _ _ _)). reflexivity.
  - apply arr_traced; assumption.
  - apply arr_traced; assumption.
  - apply arr_traced; assumption.
  - change (COp (OpBeginArray 3) :: COp (OpValue (EStr n)) ::
      (COp (OpBeginArray (lenZ l)) :: flat_map calls l ++ [COp OpEndArray]) ++ [COp OpEndArray]) with
      (COp (OpBeginArray 3) :: COp (OpValue (EStr n)) :: (COp (OpBeginArray (lenZ l)) :: flat_map calls l ++ [COp OpEndArray]) ++ [COp OpEndArray]).
    apply (named_traced b 3 n _ [TArr (map stree l)] _ Hw). rewrite arr_traced; [reflexivity|exact H|].
    split; cbn; auto.
  - cbn [btrace b_step]. rewrite begin_ready by exact Hw. rewrite btrace_app, entries_traced.
    2:{ eapply Forall_impl; [|exact H]. intros a [_ Ha]. exact Ha. }
    destruct (first_bad _ l); cbn [outcome_of]; [reflexivity|].
    cbn [btrace b_step b_stack]. rewrite pop_put by exact Hw. reflexivity.
  - apply dict_traced; assumption.
  - apply (named_traced b _ n _ [TDict (map (fun f => (fst f, stree (snd f))) l)] _ Hw). rewrite dict_traced; [reflexivity|exact H|].
    split; cbn; auto.
Qed.

(* ---------- what serializing answers ---------- *)

Lemma accepted_regular b o b' : b_step b o = Ok b' -> regular b o.
Proof.
  destruct o; cbn [b_step regular]; auto.
  - destruct (b_stack b) as [|[l|l [k|]] st]; auto; discriminate.
  - unfold b_begin. destruct (b_root b); [discriminate|reflexivity].
Qed.
Lemma run_calls_sh c : forall cs e b e' r, run_calls c e cs = Ret (e', r) -> sh e b -> btrace b cs <> None ->
  r = Err (SeEncode PointerTooLarge) \/
  match btrace b cs with
  | Some (inl b') => r = Ok tt /\ sh e' b'
  | Some (inr k) => r = Err (SeKeyNotString k)
  | None => False
  end.
Proof.
  induction cs as [|[o|k] cs IH]; intros e b e' r H Hsh Ht; cbn [run_calls btrace] in *.
  - apply Ret_inj in H. injection H as <- <-. auto.
  - destruct (b_step b o) as [b1|x] eqn:Eb; [|congruence].
    unfold sseq, lift in H. destruct (enc_step c e o) as [[e1 r1]| | |] eqn:Es; try discriminate. cbn [bind fst snd] in H.
    pose proof (step_sh c e b o e1 r1 Es Hsh (accepted_regular _ _ _ Eb)) as Hs. unfold sh_step in Hs. rewrite Eb in Hs.
    destruct Hs as [[-> Hs]| ->]; cbn [bind fst snd] in H.
    + eapply IH; eauto.
    + injection H as <- <-. left. reflexivity.
  - injection H as <- <-. right. reflexivity.
Qed.

Lemma scalar_refused c v e' r : collection v = false -> ser c enc_new v = Ret (e', r) -> r = Err (SeEncode CollectionNotOpen).
Proof.
  assert (Hval : forall x e' r, enc_step c enc_new (OpValue x) = Ret (e', r) -> r = Err CollectionNotOpen).
  { intros x e1 r1 H. pose proof (step_sh c enc_new b_init _ _ _ H (sh_init []) I) as Hs.
    unfold sh_step in Hs. cbn [b_step b_init b_stack] in Hs. destruct Hs as [[-> _]| ->]; [reflexivity|].
    exfalso. revert H. cbn [enc_step]. unfold write_value. 
    destruct (to_sized_value x); [unfold push_value; cbn; discriminate|].
    cbn [enc_new enc_new_to_vec en_stack]. discriminate. }
  rewrite ser_calls. induction v as [v Hb|v IHv|v IHv|n v IHv|l H|l H|l H|n l H|l H|l H|n l H] using sval_all; intros Hc Hq; cbn [collection] in Hc; try discriminate; cbn [calls] in Hq; auto.
  destruct v; try contradiction; try discriminate; cbn [calls] in Hq;
    try (rewrite run_calls_one in Hq; unfold lift in Hq;
         match type of Hq with context [enc_step c enc_new ?o] => destruct (enc_step c enc_new o) as [[e1 r1]| | |] eqn:E; try discriminate end;
         apply Hval in E; subst r1; cbn [bind fst snd] in Hq; injection Hq as _ <-; reflexivity).
  destruct t; (rewrite run_calls_one in Hq; unfold lift in Hq;
         match type of Hq with context [enc_step c enc_new ?o] => destruct (enc_step c enc_new o) as [[e1 r1]| | |] eqn:E; try discriminate end;
         apply Hval in E; subst r1; cbn [bind fst snd] in Hq; injection Hq as _ <-; reflexivity).
Qed.

(** Whenever serializing returns, the answer is the expected one. *)
Lemma to_bytes_answer c v r : to_bytes c v = Ret r ->
  if collection v then
    r = Err (SeEncode PointerTooLarge) \/
    match bad_key v with Some k => r = Err (SeKeyNotString k) | None => exists bs, r = Ok bs end
  else r = Err SeValueNotCollection.
Proof.
  unfold to_bytes. intros H. destruct (ser c enc_new v) as [[e' r']| | |] eqn:E; try discriminate. cbn [bind fst snd] in H.
  destruct (collection v) eqn:Ec.
  - rewrite ser_calls in E.
    assert (Ht : btrace b_init (calls v) = outcome_of (bad_key v) (put b_init (stree v))).
    { apply all_traced. split; [split; cbn; auto|]. intros _. exact Ec. }
    destruct (run_calls_sh c _ _ b_init _ _ E (sh_init [])) as [Hr|Hr].
    + rewrite Ht. destruct (bad_key v); discriminate.
    + subst r'. apply Ret_inj in H. subst r. left. reflexivity.
    + right. rewrite Ht in Hr. destruct (bad_key v) as [k|]; cbn [outcome_of] in Hr.
      * subst r'. apply Ret_inj in H. subst r. reflexivity.
      * destruct Hr as [-> Hs]. destruct (finish c e') as [bs| | |]; try discriminate. cbn [bind] in H.
        apply Ret_inj in H. subst r. eauto.
  - apply scalar_refused in E; [|exact Ec]. subst r'. apply Ret_inj in H. subst r. reflexivity.
Qed.

(* ---------- documents the encoder writes correctly ---------- *)

Lemma btrace_run : forall cs b x, btrace b cs = Some x ->
  Forall (eq (Ok tt)) (snd (b_run b (ops_of cs))) /\ (forall b', x = inl b' -> fst (b_run b (ops_of cs)) = b').
Proof.
  induction cs as [|[o|k] cs IH]; intros b x H; cbn [btrace ops_of b_run] in *.
  - injection H as <-. split; [constructor|]. intros b' E. injection E as <-. reflexivity.
  - destruct (b_step b o) as [b1|er]; [|discriminate]. destruct (IH b1 x H) as [H1 H2]. cbn [fst snd].
    split; [constructor; [reflexivity|exact H1]|exact H2].
  - injection H as <-. split; [constructor|]. discriminate.
Qed.
Lemma run_calls_run c : forall cs e b x e' rs, enc_run c e (ops_of cs) = Ret (e', rs) -> Forall (eq (Ok tt)) rs ->
  btrace b cs = Some x ->
  run_calls c e cs = Ret (e', match x with inl _ => Ok tt | inr k => Err (SeKeyNotString k) end).
Proof.
  induction cs as [|[o|k] cs IH]; intros e b x e' rs H Hok Ht; cbn [ops_of enc_run run_calls btrace] in *.
  - injection H as <- <-. injection Ht as <-. reflexivity.
  - destruct (enc_step c e o) as [[e1 r1]| | |] eqn:Es; try discriminate. cbn [bind fst snd] in H.
    destruct (enc_run c e1 (ops_of cs)) as [[e2 r2]| | |] eqn:Er; try discriminate. cbn [bind fst snd] in H. injection H as <- <-.
    inversion Hok as [|? ? H1 H2]; subst. destruct (b_step b o) as [b1|er]; [|discriminate].
    unfold sseq, lift. cbn [bind fst snd]. eapply IH; eauto.
  - injection H as <- <-. injection Ht as <-. reflexivity.
Qed.

Lemma calls_no_sets v : forall t, ~ In (COp (OpSetSharedKeys t)) (calls v).
Proof.
  intros t. induction v as [v Hb|v IHv|v IHv|n v IHv|l H|l H|l H|n l H|l H|l H|n l H] using sval_all; cbn [calls];
    rewrite ?in_app_iff; cbn [In]; rewrite ?in_app_iff, ?in_flat_map; cbn [In]; rewrite ?in_app_iff, ?in_flat_map; cbn [In].
  - destruct v; try contradiction; cbn [calls]; cbn; try (intuition discriminate). destruct t0; cbn; intuition discriminate.
  - exact IHv.
  - exact IHv.
  - intuition discriminate.
  - intros [Hx|[(x & Hx & Hi)|[Hx|[]]]]; try discriminate. rewrite Forall_forall in H. exact (H x Hx Hi).
  - intros [Hx|[(x & Hx & Hi)|[Hx|[]]]]; try discriminate. rewrite Forall_forall in H. exact (H x Hx Hi).
  - intros [Hx|[(x & Hx & Hi)|[Hx|[]]]]; try discriminate. rewrite Forall_forall in H. exact (H x Hx Hi).
  - rewrite Forall_forall in H. intros [Hx|[Hx|[[Hx|[(x & Hx & Hi)|[Hx|[]]]]|[Hx|[]]]]]; try discriminate. exact (H x Hx Hi).
  - rewrite Forall_forall in H. intros [Hx|[(x & Hx & [Hi|Hi])|[Hx|[]]]]; try discriminate.
    + unfold key_call in Hi. destruct (key_text (fst x)); discriminate.
    + exact (proj2 (H x Hx) Hi).
  - rewrite Forall_forall in H. intros [Hx|[(x & Hx & [Hi|Hi])|[Hx|[]]]]; try discriminate. exact (H x Hx Hi).
  - rewrite Forall_forall in H. intros [Hx|[Hx|[[Hx|[(x & Hx & [Hi|Hi])|[Hx|[]]]]|[Hx|[]]]]]; try discriminate. exact (H x Hx Hi).
Qed.
Lemma ops_of_In o : forall cs, In o (ops_of cs) -> In (COp o) cs.
Proof.
  induction cs as [|[o'|k] cs IH]; cbn [ops_of]; [intros []| |intros []].
  intros [->|H]; [left; reflexivity|right; auto].
Qed.
Lemma ser_ops_no_sets v t : ~ In (OpSetSharedKeys t) (ser_ops v).
Proof. intros H. apply ops_of_In in H. exact (calls_no_sets v t H). Qed.

Lemma scalar_returns c v : collection v = false -> to_bytes c v = Ret (Err SeValueNotCollection).
Proof.
  intros Hc.
  assert (Hval : forall x, exists e', enc_step c enc_new (OpValue x) = Ret (e', Err CollectionNotOpen)).
  { intros x. cbn [enc_step]. unfold write_value. destruct (to_sized_value x); eexists; reflexivity. }
  assert (Hser : exists e', ser c enc_new v = Ret (e', Err (SeEncode CollectionNotOpen))).
  { rewrite ser_calls. revert Hc. induction v as [v Hb|v IHv|v IHv|n v IHv|l H|l H|l H|n l H|l H|l H|n l H] using sval_all;
      intros Hc; cbn [collection] in Hc; try discriminate; cbn [calls]; auto.
    destruct v; try contradiction; try discriminate; cbn [calls];
      try (match goal with |- context [COp ?o] => destruct (Hval (match o with OpValue x => x | _ => ENull end)) as [e' E] end;
           exists e'; rewrite run_calls_one, E; reflexivity).
    destruct t; (match goal with |- context [COp ?o] => destruct (Hval (match o with OpValue x => x | _ => ENull end)) as [e' E] end;
           exists e'; rewrite run_calls_one, E; reflexivity). }
  destruct Hser as [e' E]. unfold to_bytes. rewrite E. reflexivity.
Qed.

Lemma init_traced v : collection v = true ->
  btrace b_init (calls v) = outcome_of (bad_key v) (put b_init (stree v)).
Proof. intros Hc. apply all_traced. split; [split; cbn; auto|]. intros _. exact Hc. Qed.

Section Small.
#[local] Existing Instance any_key.

(** The bytes [bs] hold value [v]. *)
Definition serialized (v : sval) (bs : list Z) : Prop :=
  exists root t', tsim (stree v) t' /\
    forall dbg base sk, addressable base bs ->
      let m := mk_env dbg base bs sk in
      env_ok m /\ from_bytes m = Ret (Ok root) /\ vstored m None t' root.

Lemma to_bytes_small c v : sort_ok (c_sort c) -> Forall good_op (ser_ops v) -> layout_ok (c_ua c) 0 (ser_ops v) -> ops_size (ser_ops v) <= MAX_WIDE ->
  collection v = true ->
  match bad_key v with
  | Some k => to_bytes c v = Ret (Err (SeKeyNotString k))
  | None => exists bs, to_bytes c v = Ret (Ok bs) /\ serialized v bs
  end.
Proof.
  intros Hs Hg Hl Hn Hc. pose proof (init_traced v Hc) as Ht.
  assert (Hx : exists x, btrace b_init (calls v) = Some x) by (rewrite Ht; destruct (bad_key v); eexists; reflexivity).
  destruct Hx as [x Hx]. destruct (btrace_run _ _ _ Hx) as [Hacc Hfin].
  assert (Hp : polite b_init (ser_ops v)) by (apply accepted_polite; [intros Hy; exfalso; apply Hy; reflexivity|exact Hacc]).
  assert (Hk : keys_ok false (ser_ops v)).
  { assert (Hgen : forall ops, (forall t, ~ In (OpSetSharedKeys t) ops) -> keys_ok false ops).
    { induction ops as [|o ops IH]; intros H; [exact I|].
      assert (Ho : keys_ok false ops) by (apply IH; intros t Hin; apply (H t); right; exact Hin).
      destruct o; cbn [keys_ok]; auto. split; [discriminate|exact Ho]. exfalso. apply (H t). left. reflexivity. }
    apply Hgen. intros t. apply ser_ops_no_sets. }
  destruct (any_document c [] (ser_ops v) Hs eq_refl Hg Hk Hp (strings_any _ _ _) Hl Hn) as (e' & D & Er & Ef & Hev & Hlen & Hd).
  cbn [app] in *.
  assert (Hser : ser c enc_new v = Ret (e', match x with inl _ => Ok tt | inr k => Err (SeKeyNotString k) end)).
  { rewrite ser_calls. eapply run_calls_run; eauto. }
  rewrite Ht in Hx. destruct (bad_key v) as [k|]; cbn [outcome_of] in Hx; injection Hx as <-.
  - unfold to_bytes. rewrite Hser. reflexivity.
  - exists D. unfold to_bytes. rewrite Hser. cbn [bind fst snd]. rewrite Ef. cbn [bind]. split; [reflexivity|].
    unfold ser_ops in Hd. rewrite (Hfin _ eq_refl) in Hd. destruct (Hd (stree v) eq_refl) as (root & t' & Hts & Hm).
    exists root, t'. split; [exact Hts|]. intros dbg base sk [Hb1 Hb2] m. destruct (Hm dbg base sk Hb1 Hb2) as (H1 & _ & H2).
    assert (Esk : en_sk e' = None).
    { assert (Hr : forall ops e e1 rs, enc_run c e ops = Ret (e1, rs) -> (forall t, ~ In (OpSetSharedKeys t) ops) -> en_sk e = None -> en_sk e1 = None).
      { induction ops as [|o ops IH]; intros e e1 rs H Hno Hsk; cbn [enc_run] in H.
        - injection H as <- <-. exact Hsk.
        - destruct (enc_step c e o) as [[e2 r2]| | |] eqn:Es; try discriminate. cbn [bind fst snd] in H.
          destruct (enc_run c e2 ops) as [[e3 r3]| | |] eqn:Es2; try discriminate. cbn [bind fst snd] in H. injection H as <- <-.
          eapply IH; [exact Es2|intros t Hin; apply (Hno t); right; exact Hin|].
          apply step_ext in Es as (_ & Hi & _). apply Hi. split; [exact Hsk|]. intros t ->. apply (Hno t). left. reflexivity. }
      eapply Hr; [exact Er| |reflexivity]. intros t. apply ser_ops_no_sets. }
    rewrite Esk in H2. split; [|split; [exact H1|exact H2]].
    unfold m, env_ok; cbn [e_base e_data]. split; [exact Hb1|]. split; [exact Hb2|].
    unfold MAX_WIDE, two63 in *. lia.
Qed.
End Small.
