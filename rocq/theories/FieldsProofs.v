(** Proofs for C95. *)
From Verif Require Import Prelude Lib SharedKeys Decode Read ReadSpec Encodable Ser De UntrustedSpec Safety StableSpec Stable AlikeSpec AlikeProofs FieldsSpec.
From Coq Require Import ZifyBool ZifyNat ZifyN Permutation.

(* ---------- ignoring a value succeeds ---------- *)

Lemma max_le {A} (f : A -> nat) l x : In x l -> (f x <= fold_right (fun x n => Nat.max (f x) n) 0 l)%nat.
Proof. induction l as [|y l IH]; [easy|]. cbn [In fold_right]. intros [->|H]; [lia|specialize (IH H); lia]. Qed.
Lemma gives_nil e it : gives e it [] -> exists it', next_value e it = Ret (None, it').
Proof. intros H. inversion H; subst. eauto. Qed.
Lemma gives_cons e it v vs : gives e it (v :: vs) -> exists it', next_value e it = Ret (Some v, it') /\ gives e it' vs.
Proof. intros H. inversion H; subst. eauto. Qed.
Lemma seq_all_ok e (R : tree -> val -> Prop) g : forall l vs k it, (forall t x, In t l -> R t x -> exists s, g x = Ret (Ok s)) ->
  Forall2 R l vs -> gives e it vs -> (length vs < k)%nat -> exists s, seq_all g e k it = Ret (Ok s).
Proof.
  induction l as [|t l IH]; intros vs k it Hg H Hy Hk; inversion H as [|? y ? ys Hy1 Hys]; subst;
    (destruct k as [|k]; [cbn [length] in Hk; lia|]); cbn [seq_all]; fold (seq_all g e).
  - destruct (gives_nil _ _ Hy) as (it' & ->). cbn [bind fst]. eauto.
  - destruct (gives_cons _ _ _ _ Hy) as (it' & -> & Hy'). cbn [bind fst snd].
    destruct (Hg t y (or_introl eq_refl) Hy1) as (s & ->). cbn [bindr].
    destruct (IH ys k it') as (s' & ->); [intros; eapply Hg; [right; eassumption|eassumption]|assumption..|cbn [length] in Hk; lia|].
    cbn [bindr]. eauto.
Qed.
Lemma map_all_ok e (R : tree -> val -> Prop) gk g : forall l vs n it,
  (forall k t kv x, In (k, t) l -> kd e k kv -> R t x -> (exists s, gk kv = Ret (Ok s)) /\ exists s, g x = Ret (Ok s)) ->
  ents_by e R l vs -> gives e it vs -> (length vs < n)%nat -> exists s, map_all gk g e n it = Ret (Ok s).
Proof.
  induction l as [|[k t] l IH]; intros vs n it Hg H Hy Hn; inversion H as [|? ? ? kv x xs Hk Hx He]; subst;
    (destruct n as [|n]; [cbn [length] in Hn; lia|]); cbn [map_all]; fold (map_all gk g e).
  - destruct (gives_nil _ _ Hy) as (it' & ->). cbn [bind fst]. eauto.
  - destruct (gives_cons _ _ _ _ Hy) as (it' & -> & Hy'). cbn [bind fst snd]. destruct (gives_cons _ _ _ _ Hy') as (it2 & Hn2 & Hy2).
    destruct (Hg k t kv x (or_introl eq_refl) Hk Hx) as [(s1 & ->) (s2 & Hs2)]. cbn [bindr]. rewrite Hn2. cbn [bind fst snd]. rewrite Hs2. cbn [bindr].
    destruct (IH xs n it2) as (s' & ->); [intros; eapply Hg; [right; eassumption|eassumption..]|assumption..|cbn [length] in Hn; lia|].
    cbn [bindr]. eauto.
Qed.
Lemma nesting_pos t : (1 <= nesting t)%nat.
Proof. destruct t; cbn [nesting]; lia. Qed.
Lemma ignore_ok e : forall f t v, rd e t v -> (nesting t <= f)%nat -> exists s, ignore_any f e false v = Ret (Ok s).
Proof.
  induction f as [|f IH]; intros t v H Hf; [pose proof (nesting_pos t); lia|]. cbn [ignore_any].
  destruct (rd_any _ _ _ H) as (ev & -> & E). cbn [bindr].
  destruct t; cbn [tree_ev] in E; try (subst; eauto).
  - destruct E as (u & ->). eauto.
  - destruct (rd_arr _ _ _ H) as (it & vs & -> & G & F & L). cbn [bind]. cbn [nesting] in Hf.
    destruct (seq_all_ok e (rd e) (ignore_any f e false) l vs (S (S (length (e_data e)))) it) as (s & ->); [|assumption..|lia|cbn [bindr]; eauto].
    intros t x Hin Hx. apply (IH t x Hx). pose proof (max_le nesting l t Hin). lia.
  - destruct (rd_dict _ _ _ H) as (it & vs & -> & G & F & L). cbn [bind]. cbn [nesting] in Hf.
    destruct (map_all_ok e (rd e) (ignore_any f e true) (ignore_any f e false) l vs (S (S (length (e_data e)))) it) as (s & ->); [|assumption..|lia|cbn [bindr]; eauto].
    intros k t kv x Hin Hk Hx. pose proof (max_le (fun kx => nesting (snd kx)) l (k, t) Hin) as Hm. cbn [snd] in Hm. pose proof (nesting_pos t). split.
    + destruct f as [|f]; [lia|]. cbn [ignore_any]. rewrite (proj1 Hk). cbn [bindr]. eauto.
    + apply (IH t x Hx). lia.
Qed.

(* ---------- the loop over the entries ---------- *)

Lemma names_lookup {A} (fields : list (list Z * A)) k : existsb (bytes_eqb k) (map fst fields) = match lookup k fields with Some _ => true | None => false end.
Proof.
  induction fields as [|[n ty] fs IH]; [reflexivity|]. cbn [map fst existsb lookup].
  assert (Hs : bytes_eqb k n = bytes_eqb n k).
  { destruct (bytes_eqb k n) eqn:E1, (bytes_eqb n k) eqn:E2; try reflexivity; [apply bytes_eqb_eq in E1|apply bytes_eqb_eq in E2]; subst;
      rewrite (proj2 (bytes_eqb_eq _ _) eq_refl) in *; discriminate. }
  rewrite Hs. destruct (bytes_eqb n k); [reflexivity|exact IH].
Qed.
Lemma lookup_app {A} (a b : list (list Z * A)) k : lookup k (a ++ b) = match lookup k a with Some x => Some x | None => lookup k b end.
Proof. induction a as [|[n x] a IH]; [reflexivity|]. cbn [app lookup]. destruct (bytes_eqb n k); [reflexivity|exact IH]. Qed.
Lemma lookup_none {A} (a : list (list Z * A)) k : lookup k a = None <-> ~ In k (map fst a).
Proof.
  induction a as [|[n x] a IH]; [cbn; tauto|]. cbn [lookup map fst In]. destruct (bytes_eqb n k) eqn:E.
  - apply bytes_eqb_eq in E. subst. split; [discriminate|tauto].
  - rewrite IH. assert (n <> k) by (intros ->; rewrite (proj2 (bytes_eqb_eq _ _) eq_refl) in E; discriminate). tauto.
Qed.
Lemma lookup_some {A} (a : list (list Z * A)) k x : NoDup (map fst a) -> In (k, x) a -> lookup k a = Some x.
Proof.
  induction a as [|[n y] a IH]; [easy|]. cbn [map fst In lookup]. intros Hn [H|H]; inversion Hn as [|? ? Hni Hnd]; subst.
  - injection H as -> ->. rewrite (proj2 (bytes_eqb_eq _ _) eq_refl). reflexivity.
  - destruct (bytes_eqb n k) eqn:E; [|auto]. apply bytes_eqb_eq in E. subst. exfalso. apply Hni. apply (in_map fst _ _ H).
Qed.

Lemma null_option e G f t x ty : (2 <= f)%nat -> is_option G ty = true -> t = TNull -> rd e t x -> de G f e false x ty = Ret (Ok SNone) /\ missing_field G ty = Ok SNone.
Proof.
  intros Hf Ho -> Hx. destruct (rd_kind _ _ _ Hx) as (vt & Hvt & [_ Hnull] & _). specialize (Hnull eq_refl). subst vt.
  destruct f as [|[|f0]]; [lia|lia|]. destruct ty; try discriminate; cbn [is_option] in Ho.
  - split; [|reflexivity]. cbn [de]. rewrite Hvt. reflexivity.
  - cbn [missing_field]. cbn [de]. destruct (G n); try discriminate. split; [rewrite Hvt|]; reflexivity.
Qed.

Section Side.
Variables (e : env) (G : nat -> sty) (fields : list (list Z * sty)) (f : nat) (R : tree -> val -> Prop).
Hypothesis HR : forall t x, R t x -> rd e t x.
Notation g := (fun x t => de G f e false x t).

(** The fields found in the entries, with what they deserialize to. *)
Inductive picked : list (list Z * tree) -> list val -> list (list Z * sval) -> Prop :=
| pk_nil : picked [] [] []
| pk_skip k t l kv x vs acc : lookup k fields = None -> picked l vs acc -> picked ((k, t) :: l) (kv :: x :: vs) acc
| pk_take k t ty l kv x vs s acc : lookup k fields = Some ty -> R t x -> g x ty = Ret (Ok s) -> picked l vs acc ->
    picked ((k, t) :: l) (kv :: x :: vs) ((k, s) :: acc).

Lemma loop_ok : forall l vs n it acc r, ents_by e R l vs -> gives e it vs ->
  struct_loop G g (ignore_any f e false) e fields n it acc = Ret (Ok r) ->
  exists acc', picked l vs acc' /\ fields_of G fields (acc ++ acc') = Ok r.
Proof.
  induction l as [|[k t] l IH]; intros vs n it acc r H Hy Hr; inversion H as [|? ? ? kv x xs Hk Hx He]; subst;
    (destruct n as [|n]; [discriminate|]); cbn [struct_loop] in Hr; fold (struct_loop G g (ignore_any f e false) e fields) in Hr.
  - destruct (gives_nil _ _ Hy) as (it' & Hn). rewrite Hn in Hr. cbn [bind fst] in Hr. exists []. rewrite app_nil_r. split; [constructor|congruence].
  - destruct (gives_cons _ _ _ _ Hy) as (it' & Hn & Hy'). destruct (gives_cons _ _ _ _ Hy') as (it2 & Hn2 & Hy2).
    rewrite Hn in Hr. cbn [bind fst snd] in Hr. rewrite (proj1 Hk) in Hr. cbn [bindr ident] in Hr. rewrite names_lookup in Hr.
    destruct (lookup k fields) as [ty|] eqn:El.
    + cbn [bind bindr] in Hr. destruct (lookup k acc) eqn:Ea; [discriminate|]. rewrite Hn2 in Hr. cbn [bind fst snd] in Hr. rewrite El in Hr.
      destruct (de G f e false x ty) as [[s|s]| | |] eqn:Eg; try discriminate. cbn [bindr] in Hr.
      destruct (IH _ _ _ _ _ He Hy2 Hr) as (acc' & Hp & Hf). exists ((k, s) :: acc'). split; [econstructor; eassumption|].
      rewrite <- app_assoc in Hf. exact Hf.
    + cbn [bind bindr] in Hr. rewrite Hn2 in Hr. cbn [bind fst snd] in Hr.
      destruct (ignore_any f e false x) as [[s|s]| | |]; try discriminate. cbn [bindr] in Hr.
      destruct (IH _ _ _ _ _ He Hy2 Hr) as (acc' & Hp & Hf). exists acc'. split; [econstructor; eassumption|exact Hf].
Qed.
Lemma loop_back : forall l vs n it acc acc' r, ents_by e R l vs -> gives e it vs -> (length vs < n)%nat ->
  (forall k t, In (k, t) l -> (nesting t <= f)%nat) ->
  picked l vs acc' -> NoDup (map fst acc') -> (forall k, In k (map fst acc') -> lookup k acc = None) -> fields_of G fields (acc ++ acc') = Ok r ->
  struct_loop G g (ignore_any f e false) e fields n it acc = Ret (Ok r).
Proof.
  induction l as [|[k t] l IH]; intros vs n it acc acc' r H Hy Hn Hd Hp Hnd Hnew Hf; inversion H as [|? ? ? kv x xs Hk Hx He]; subst;
    (destruct n as [|n]; [cbn [length] in Hn; lia|]); cbn [struct_loop]; fold (struct_loop G g (ignore_any f e false) e fields).
  - inversion Hp; subst. destruct (gives_nil _ _ Hy) as (it' & ->). cbn [bind fst]. rewrite app_nil_r in Hf. congruence.
  - destruct (gives_cons _ _ _ _ Hy) as (it' & -> & Hy'). destruct (gives_cons _ _ _ _ Hy') as (it2 & Hn2 & Hy2).
    cbn [bind fst snd]. rewrite (proj1 Hk). cbn [bindr ident]. rewrite names_lookup. cbn [length] in Hn.
    inversion Hp as [|? ? ? ? ? ? ? El Hp'|? ? ty ? ? ? ? s acc2 El Hrd Hg Hp']; subst; rewrite El; cbn [bind bindr].
    + rewrite Hn2. cbn [bind fst snd].
      destruct (ignore_ok e f t x (HR _ _ Hx)) as (s & ->); [apply (Hd k); left; reflexivity|]. cbn [bindr].
      eapply (IH xs n it2 acc acc'); try eassumption; [lia|]. intros k' t' Hin. apply (Hd k'). right. exact Hin.
    + rewrite (Hnew k (or_introl eq_refl)). rewrite Hn2. cbn [bind fst snd]. rewrite El, Hg. cbn [bindr]. cbn [map fst] in Hnd. inversion Hnd as [|? ? Hni Hnd']; subst.
      eapply (IH xs n it2 (acc ++ [(k, s)]) acc2); try eassumption; [lia| | |].
      * intros k' t' Hin. apply (Hd k'). right. exact Hin.
      * intros k' Hin. rewrite lookup_app, (Hnew k' (or_intror Hin)). apply lookup_none. cbn [map fst In]. intros [->|[]]. contradiction.
      * rewrite <- app_assoc. exact Hf.
Qed.

Lemma picked_keys l vs acc : picked l vs acc -> incl (map fst acc) (map fst l).
Proof. induction 1; intros k' Hin; cbn [map fst In] in *; [exact Hin|right; auto|destruct Hin as [->|Hin]; [left; reflexivity|right; auto]]. Qed.
Lemma picked_nodup l vs acc : picked l vs acc -> NoDup (map fst l) -> NoDup (map fst acc).
Proof.
  induction 1; intros Hn; cbn [map fst] in *; [constructor|inversion Hn; auto|]. inversion Hn as [|? ? Hni Hnd]; subst. constructor; [|auto].
  intros Hin. apply Hni. eapply picked_keys; eassumption.
Qed.
Lemma picked_in l vs acc : picked l vs acc -> forall k s, In (k, s) acc -> exists t x ty, In (k, t) l /\ lookup k fields = Some ty /\ R t x /\ g x ty = Ret (Ok s).
Proof.
  induction 1 as [|k t l kv x vs acc El Hp IH|k t ty l kv x vs s acc El Hrd Hg Hp IH]; intros k' s' Hin; [easy| |destruct Hin as [Hin|Hin]].
  - destruct (IH _ _ Hin) as (t' & x' & ty' & A & B & C & D). exists t', x', ty'. cbn [In]. auto.
  - injection Hin as <- <-. exists t, x, ty. cbn [In]. auto.
  - destruct (IH _ _ Hin) as (t' & x' & ty' & A & B & C & D). exists t', x', ty'. cbn [In]. auto.
Qed.
Lemma picked_has l vs acc : picked l vs acc -> forall k t ty, In (k, t) l -> lookup k fields = Some ty -> exists x s, R t x /\ g x ty = Ret (Ok s) /\ In (k, s) acc.
Proof.
  induction 1 as [|k t l kv x vs acc El Hp IH|k t ty l kv x vs s acc El Hrd Hg Hp IH]; intros k' t' ty' Hin Hl; [easy| |].
  - destruct Hin as [Hin|Hin]; [congruence|]. exact (IH _ _ _ Hin Hl).
  - destruct Hin as [Hin|Hin].
    + injection Hin as <- <-. assert (ty' = ty) by congruence. subst. exists x, s. cbn [In]. auto.
    + destruct (IH _ _ _ Hin Hl) as (x' & s' & A & B & C). exists x', s'. cbn [In]. auto.
Qed.
Lemma picked_all l vs : ents_by e R l vs ->
  (forall k t ty x, In (k, t) l -> lookup k fields = Some ty -> R t x -> exists s, g x ty = Ret (Ok s)) -> exists acc, picked l vs acc.
Proof.
  induction 1 as [|k t l kv x xs Hk Hx He IH]; intros Hg; [exists []; constructor|].
  destruct IH as (acc & Hp); [intros; eapply Hg; [right; eassumption|eassumption..]|]. destruct (lookup k fields) as [ty|] eqn:El.
  - destruct (Hg k t ty x (or_introl eq_refl) El Hx) as (s & Hs). exists ((k, s) :: acc). econstructor; eassumption.
  - exists acc. constructor; assumption.
Qed.

(** What a field gets. *)
Definition gets (acc : list (list Z * sval)) (name : list Z) (ty : sty) : result sval de_error :=
  match lookup name acc with Some x => Ok x | None => missing_field G ty end.
Lemma gets_spec l vs acc name ty : (2 <= f)%nat -> NoDup (map fst l) -> picked l vs acc -> lookup name fields = Some ty ->
  (exists t x s, In (name, t) l /\ matters G fields (name, t) = true /\ R t x /\ g x ty = Ret (Ok s) /\ gets acc name ty = Ok s) \/
  ((forall t, In (name, t) l -> matters G fields (name, t) = false) /\ gets acc name ty = missing_field G ty).
Proof.
  intros Hf Hnd Hp Hl. unfold gets. destruct (lookup name acc) as [s|] eqn:Ea.
  - assert (Hin : In (name, s) acc).
    { clear - Ea. induction acc as [|[n y] acc IH]; [discriminate|]. cbn [lookup] in Ea. destruct (bytes_eqb n name) eqn:E; [|right; auto].
      apply bytes_eqb_eq in E. injection Ea as ->. subst. left. reflexivity. }
    destruct (picked_in _ _ _ Hp _ _ Hin) as (t & x & ty' & A & B & C & D). assert (ty' = ty) by congruence. subst ty'.
    destruct (matters G fields (name, t)) eqn:Em; [left; exists t, x, s; auto 6|right].
    assert (Ho : is_option G ty = true /\ t = TNull).
    { unfold matters in Em. cbn [fst snd] in Em. rewrite Hl in Em. destruct (is_option G ty); [|discriminate]. destruct t; try discriminate. auto. }
    destruct Ho as [Ho Ht]. destruct (null_option e G f t x ty Hf Ho Ht (HR _ _ C)) as [Hs Hm]. cbv beta in D. rewrite Hs in D. split; [|congruence].
    intros t' Hin'. assert (t' = t); [|subst; exact Em].
    pose proof (lookup_some l name t Hnd A) as L1. pose proof (lookup_some l name t' Hnd Hin') as L2. congruence.
  - right. split; [|reflexivity]. intros t Hin. exfalso. destruct (picked_has _ _ _ Hp _ _ _ Hin Hl) as (x & s & _ & _ & Hs).
    apply lookup_none in Ea. apply Ea. apply (in_map fst _ _ Hs).
Qed.
Lemma fields_gets fs acc1 acc2 : (forall n ty, In (n, ty) fs -> gets acc1 n ty = gets acc2 n ty) -> fields_of G fs acc1 = fields_of G fs acc2.
Proof.
  induction fs as [|[n ty] fs IH]; intros H; [reflexivity|]. cbn [fields_of]. fold (gets acc1 n ty). fold (gets acc2 n ty).
  rewrite (H n ty (or_introl eq_refl)). rewrite IH; [reflexivity|]. intros. apply H. right. assumption.
Qed.
End Side.

Lemma struct_one e1 e2 l1 l2 G K fields fuel s :
  doc_reads e1 (TDict l1) -> doc_reads e2 (TDict l2) -> types_ok G K NoEnums (YStruct fields) ->
  NoDup (map fst fields) -> NoDup (map fst l1) -> NoDup (map fst l2) ->
  Permutation (filter (matters G fields) l1) (filter (matters G fields) l2) ->
  (3 <= fuel)%nat -> (nesting (TDict l2) <= fuel)%nat ->
  de_from_bytes G fuel e1 (YStruct fields) = Ret (Ok s) -> de_from_bytes G fuel e2 (YStruct fields) = Ret (Ok s).
Proof.
  intros (r1 & d1 & F1 & R1 & K1) (r2 & d2 & F2 & R2 & K2) (_ & Hty & HG) Nf N1 N2 HP Hf3 Hf. unfold de_from_bytes. rewrite F1, F2. cbn [bind].
  assert (H1 : rd e1 (TDict l1) r1) by (split; [exists (fuel_of e1)|eexists]; eauto). assert (H2 : rd e2 (TDict l2) r2) by (split; [exists (fuel_of e2)|eexists]; eauto).
  rewrite (nonptr_new e1 _ r1 (rd_nonptr _ _ _ H1)), (nonptr_new e2 _ r2 (rd_nonptr _ _ _ H2)). cbn [bind].
  destruct fuel as [|f]; [lia|]. cbn [de]. unfold as_dict.
  destruct (rd_kind _ _ _ H1) as (t1 & T1 & _ & _ & [_ D1]). specialize (D1 (ex_intro _ l1 eq_refl)). subst t1.
  destruct (rd_kind _ _ _ H2) as (t2 & T2 & _ & _ & [_ D2]). specialize (D2 (ex_intro _ l2 eq_refl)). subst t2.
  rewrite T1, T2. cbn [bind vtype_eqb].
  destruct (rd_dict _ _ _ H1) as (it1 & vs1 & -> & G1 & E1 & L1). destruct (rd_dict _ _ _ H2) as (it2 & vs2 & -> & G2 & E2 & L2). cbn [bind].
  intros Hr. destruct (struct_loop _ _ _ e1 _ _ _ _) as [[r|x]| | |] eqn:El; try discriminate. cbn [bindr] in Hr.
  destruct (loop_ok e1 G fields f (rd e1) l1 vs1 _ it1 [] r E1 G1 El) as (acc1 & P1 & Hf1). cbn [app] in Hf1.
  assert (Hff : forall n ty, lookup n fields = Some ty -> ty_ok G K NoEnums ty).
  { intros n ty Hl. inversion Hty as [| | | | | | | | | | | | | | |fs Hfs| |]; subst. rewrite Forall_forall in Hfs. apply lookup_in in Hl as (n' & Hin). exact (Hfs _ Hin). }
  assert (Hnest : forall k t, In (k, t) l2 -> (nesting t <= f)%nat).
  { intros k t Hin. cbn [nesting] in Hf. pose proof (max_le (fun kx => nesting (snd kx)) l2 (k, t) Hin) as Hm. cbn [snd] in Hm. lia. }
  assert (Hin12 : forall k t, In (k, t) l2 -> matters G fields (k, t) = true -> In (k, t) l1).
  { intros k t Hin Hm. assert (Hx : In (k, t) (filter (matters G fields) l2)) by (apply filter_In; auto). apply (Permutation_in _ (Permutation_sym HP)) in Hx.
    apply filter_In in Hx. tauto. }
  assert (Hin21 : forall k t, In (k, t) l1 -> matters G fields (k, t) = true -> In (k, t) l2).
  { intros k t Hin Hm. assert (Hx : In (k, t) (filter (matters G fields) l1)) by (apply filter_In; auto). apply (Permutation_in _ HP) in Hx.
    apply filter_In in Hx. tauto. }
  destruct (picked_all e2 G fields f (rd e2) l2 vs2 E2) as (acc2 & P2).
  { intros k t ty x Hin Hl Hx. destruct (matters G fields (k, t)) eqn:Em.
    - destruct (picked_has _ _ _ _ _ _ _ _ P1 k t ty (Hin12 _ _ Hin Em) Hl) as (x1 & s1 & Rx1 & Hg1 & _). exists s1.
      pose proof (de_same e1 e2 G K HG f ty (Hff _ _ Hl) t x1 x Rx1 Hx) as Hs. cbv beta in *. congruence.
    - assert (Ho : is_option G ty = true /\ t = TNull).
      { unfold matters in Em. cbn [fst snd] in Em. rewrite Hl in Em. destruct (is_option G ty); [|discriminate]. destruct t; try discriminate. auto. }
      destruct Ho as [Ho Ht]. exists SNone. apply (null_option e2 G f t x ty); [lia|assumption..]. }
  rewrite (loop_back e2 G fields f (rd e2) (fun t x H => H) l2 vs2 _ it2 [] acc2 r E2 G2); [exact Hr|lia|exact Hnest|exact P2|eapply picked_nodup; eassumption|intros; reflexivity|].
  cbn [app]. rewrite <- Hf1. symmetry. apply fields_gets. intros n ty Hin.
  assert (Hl : lookup n fields = Some ty) by (apply lookup_some; assumption).
  destruct (gets_spec e1 G fields f (rd e1) (fun t x H => H) l1 vs1 acc1 n ty ltac:(lia) N1 P1 Hl) as [(t & x & s1 & A & B & C & D & E)|[A B]];
  destruct (gets_spec e2 G fields f (rd e2) (fun t x H => H) l2 vs2 acc2 n ty ltac:(lia) N2 P2 Hl) as [(t' & x' & s2 & A' & B' & C' & D' & E')|[A' B']].
  - assert (t' = t). { pose proof (lookup_some l2 n t N2 (Hin21 _ _ A B)) as Q1. pose proof (lookup_some l2 n t' N2 A') as Q2. congruence. } subst t'.
    pose proof (de_same e1 e2 G K HG f ty (Hff _ _ Hl) t x x' C C') as Hs. cbv beta in *. congruence.
  - exfalso. rewrite (A' t (Hin21 _ _ A B)) in B. discriminate.
  - exfalso. rewrite (A t' (Hin12 _ _ A' B')) in B'. discriminate.
  - congruence.
Qed.

Lemma struct_names e1 e2 l1 l2 G K fields fuel s :
  doc_reads e1 (TDict l1) -> doc_reads e2 (TDict l2) -> types_ok G K NoEnums (YStruct fields) ->
  NoDup (map fst fields) -> NoDup (map fst l1) -> NoDup (map fst l2) ->
  Permutation (filter (matters G fields) l1) (filter (matters G fields) l2) ->
  (3 <= fuel)%nat -> (nesting (TDict l1) <= fuel)%nat -> (nesting (TDict l2) <= fuel)%nat ->
  (de_from_bytes G fuel e1 (YStruct fields) = Ret (Ok s) <-> de_from_bytes G fuel e2 (YStruct fields) = Ret (Ok s)).
Proof.
  intros H1 H2 Ht Nf N1 N2 HP Hf F1 F2. split.
  - exact (struct_one e1 e2 l1 l2 G K fields fuel s H1 H2 Ht Nf N1 N2 HP Hf F2).
  - exact (struct_one e2 e1 l2 l1 G K fields fuel s H2 H1 Ht Nf N2 N1 (Permutation_sym HP) Hf F1).
Qed.
