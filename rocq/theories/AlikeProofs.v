(** Proofs for C94: what a document reads as determines what it deserializes to. *)
From Verif Require Import Prelude Lib SharedKeys Decode Read ReadSpec Encodable Ser De UntrustedSpec Safety AlikeSpec.
From Coq Require Import ZifyBool ZifyNat ZifyN.

Lemma mapM_F2 {A B} (f : A -> outcome B) : forall l r, mapM f l = Ret r -> Forall2 (fun x y => f x = Ret y) l r.
Proof.
  induction l as [|x l IH]; intros r H; cbn [mapM] in H; [apply ret_inj in H; subst; constructor|].
  binv H. binv H. apply ret_inj in H. subst r. constructor; [assumption|auto].
Qed.

(* ---------- one document ---------- *)

Definition rd (e : env) (t : tree) (v : val) : Prop :=
  (exists f, (f <= fuel_of e)%nat /\ read_tree f e v = Ret t) /\ exists d, keys_are_texts d e v = true.

(** What an iterator hands out. *)
Inductive runs (e : env) : aiter -> list val -> Prop :=
| runs_nil it it' : iter_next e it = Ret (None, it') -> runs e it []
| runs_cons it it' v vs : iter_next e it = Ret (Some v, it') -> runs e it' vs -> runs e it (v :: vs).
Inductive gives (e : env) : aiter -> list val -> Prop :=
| gives_nil it it' : next_value e it = Ret (None, it') -> gives e it []
| gives_cons it it' v vs : next_value e it = Ret (Some v, it') -> gives e it' vs -> gives e it (v :: vs).

Lemma collect_runs e : forall f it xs, iter_collect f e it = Ret xs -> runs e it xs /\ (length xs < f)%nat.
Proof.
  induction f as [|f IH]; intros it xs H; cbn [iter_collect] in H; [discriminate|]. binv H. destruct x as [[v|] it'].
  - binv H. apply ret_inj in H. subst xs. destruct (IH _ _ Hx0). split; [econstructor; eassumption|cbn [length]; lia].
  - apply ret_inj in H. subst xs. split; [econstructor; eassumption|cbn [length]; lia].
Qed.

Definition nonptr (e : env) (v : val) : Prop := exists ty, value_type e v = Ret ty /\ ty <> TyPointer.
Lemma nonptr_new e w v : nonptr e v -> de_new e w v = Ret v.
Proof. intros (ty & H & Hn). unfold de_new. rewrite H. cbn [bind]. destruct ty; try reflexivity. congruence. Qed.
Lemma rd_nonptr e t v : rd e t v -> nonptr e v.
Proof.
  intros [(f & _ & H) _]. destruct f as [|f]; [discriminate|]. cbn [read_tree] in H. binv H. exists x. split; [assumption|].
  intros ->. discriminate.
Qed.
Lemma runs_gives e : forall it vs, runs e it vs -> Forall (nonptr e) vs -> gives e it vs.
Proof.
  induction 1 as [it it' H|it it' v vs H Hr IH]; intros Hn.
  - econstructor. unfold next_value. rewrite H. cbn [bind]. reflexivity.
  - inversion Hn; subst. econstructor; [|auto]. unfold next_value. rewrite H. cbn [bind]. rewrite nonptr_new by assumption. reflexivity.
Qed.

(** A key shows the text [k]. *)
Definition kd (e : env) (k : list Z) (kv : val) : Prop :=
  de_any e true kv = Ret (Ok (VisStr k)) /\ exists ty, value_type e kv = Ret ty /\ (ty = TyString \/ ty = TyShort).
Lemma kd_nonptr e k kv : kd e k kv -> nonptr e kv.
Proof. intros (_ & ty & H & [-> | ->]); eexists; (split; [eassumption|discriminate]). Qed.
Lemma kd_key e kv k : key_is_text e kv = true -> key_text e (e_sk e) kv = Ret (Some k) -> kd e k kv.
Proof.
  unfold key_is_text, key_text, kd, de_any. destruct (value_type e kv) as [ty| | |] eqn:Ht; try discriminate. cbn [bind].
  destruct ty; try discriminate; cbn [vtype_eqb]; intros Hk H.
  - split; [|eauto]. destruct (e_sk e) as [tb|]; [|discriminate]. binv H. apply ret_inj in H. rewrite Hx. cbn [bind]. rewrite H. reflexivity.
  - split; [|eauto]. binv H. apply ret_inj in H. injection H as <-. rewrite Hx. reflexivity.
Qed.

Inductive ents_by (e : env) (R : tree -> val -> Prop) : list (list Z * tree) -> list val -> Prop :=
| ents_nil : ents_by e R [] []
| ents_cons k t l kv x xs : kd e k kv -> R t x -> ents_by e R l xs -> ents_by e R ((k, t) :: l) (kv :: x :: xs).
Notation ents e := (ents_by e (rd e)).

Lemma ents_nonptr e l xs : ents e l xs -> Forall (nonptr e) xs.
Proof. induction 1; constructor; [eapply kd_nonptr; eassumption|]. constructor; [eapply rd_nonptr; eassumption|assumption]. Qed.

Lemma runs_det e it x it' xs : runs e it xs -> iter_next e it = Ret (x, it') ->
  match x with None => xs = [] | Some v => exists vs, xs = v :: vs /\ runs e it' vs end.
Proof. intros H Hn. inversion H; subst; rewrite Hn in *; match goal with Q : Ret _ = Ret _ |- _ => injection Q as -> -> end; eauto. Qed.

Lemma dict_ents e f d : (f <= fuel_of e)%nat -> forall fk it kvs xs l, dict_collect fk e it = Ret kvs -> runs e it xs ->
  entries_are (key_is_text e) (keys_are_texts d e) xs = true ->
  mapM (fun kv => x <- read_tree f e (snd kv) ;; Ret (fst kv, x)) kvs = Ret l -> ents e l xs.
Proof.
  intros Hf. induction fk as [|fk IH]; intros it kvs xs l Hd Hr He Hm; cbn [dict_collect] in Hd; [discriminate|].
  binv Hd. destruct x as [o it2]. unfold dict_iter_next in Hx. binv Hx. destruct x as [kv it1].
  pose proof (runs_det _ _ _ _ _ Hr Hx0) as Hk. destruct kv as [kv|].
  2:{ apply ret_inj in Hx. injection Hx as <- <-. apply ret_inj in Hd. subst. apply ret_inj in Hm. subst. constructor. }
  destruct Hk as (vs & -> & Hr1). destruct vs as [|xv vs]; [discriminate|]. cbn [entries_are] in He.
  apply andb_prop in He as [He Hrest]. apply andb_prop in He as [Hkt Hxt].
  binv Hx. binv Hx.
  assert (Hkey : key_text e (e_sk e) kv = Ret x0) by (unfold key_text; rewrite Hx1; cbn [bind]; exact Hx2).
  assert (Hs : exists s, x0 = Some s).
  { unfold key_is_text in Hkt. rewrite Hx1 in Hkt. rewrite Hkey in Hkt. destruct x0; [eauto|]. destruct x; try discriminate.
    unfold vtype_eqb in Hx2. binv Hx2. discriminate. }
  destruct Hs as (s & ->). binv Hx. destruct x0 as [x0 it3]. pose proof (runs_det _ _ _ _ _ Hr1 Hx3) as Hv. destruct x0 as [x0|]; [|discriminate].
  destruct Hv as (vs' & Hvs & Hr2). injection Hvs as <- <-. apply ret_inj in Hx. injection Hx as <- <-.
  binv Hd. apply ret_inj in Hd. subst kvs. cbn [mapM snd fst] in Hm. binv Hm. binv Hx4. apply ret_inj in Hx4. subst. binv Hm. apply ret_inj in Hm. subst.
  constructor; [apply kd_key; assumption|split; [exists f; split; assumption|eauto]|]. eapply IH; eassumption.
Qed.

(** The interface: what a visitor sees. *)
Definition tree_ev (t : tree) (ev : event) : Prop :=
  match t with
  | TNull => ev = VisNone
  | TUndef => ev = VisUnit
  | TBool b => ev = VisBool b
  | TInt z => exists u, ev = VisInt u z
  | TF32 b => ev = VisF32 b
  | TF64 b => ev = VisF64 b
  | TStr s => ev = VisStr s
  | TData s => ev = VisBytes s
  | TArr _ => ev = VisSeq
  | TDict _ => ev = VisMap
  end.
Lemma rd_any e t v : rd e t v -> exists ev, de_any e false v = Ret (Ok ev) /\ tree_ev t ev.
Proof.
  intros [(f & _ & H) _]. destruct f as [|f]; [discriminate|]. cbn [read_tree] in H. unfold de_any.
  destruct (value_type e v) as [ty| | |] eqn:Ht; try discriminate. cbn [bind] in *.
  destruct ty; try discriminate; try (apply ret_inj in H; subst t; eexists; split; [reflexivity|reflexivity]).
  all: repeat (match type of H with bind ?m _ = _ => destruct m eqn:?Em; try discriminate; cbn [bind] in H end).
  all: apply ret_inj in H; subst t; try (eexists; split; [reflexivity|cbn [tree_ev]; eauto]).
  unfold to_short. unfold to_int in Em. rewrite Ht in *. cbn [bind] in *. rewrite Em. cbn [bind].
  eexists. split; [reflexivity|cbn [tree_ev]; eauto].
Qed.
Definition kind (t : tree) (ty : vtype) : Prop :=
  (ty = TyNull <-> t = TNull) /\ (ty = TyArray <-> exists l, t = TArr l) /\ (ty = TyDict <-> exists l, t = TDict l).
Lemma rd_kind e t v : rd e t v -> exists ty, value_type e v = Ret ty /\ kind t ty.
Proof.
  intros [(f & _ & H) _]. destruct f as [|f]; [discriminate|]. cbn [read_tree] in H.
  destruct (value_type e v) as [ty| | |] eqn:Ht; try discriminate. cbn [bind] in *. exists ty. split; [reflexivity|].
  destruct ty; try discriminate;
    repeat (match type of H with bind ?m _ = _ => destruct m eqn:?Em; try discriminate; cbn [bind] in H end);
    apply ret_inj in H; subst t; (split; [|split]); split; intros HH; try discriminate; try reflexivity; eauto;
    destruct HH; discriminate.
Qed.
Lemma rd_arr e l v : rd e (TArr l) v -> exists it vs, arr_iter e v = Ret it /\ gives e it vs /\ Forall2 (rd e) l vs /\
  (length vs <= length (e_data e))%nat.
Proof.
  intros Hr. destruct (rd_kind _ _ _ Hr) as (ty & Ht & _ & [_ Ha] & _). specialize (Ha (ex_intro _ l eq_refl)). subst ty.
  destruct Hr as [(f & Hf & H) (d & Hk)]. destruct f as [|f]; [discriminate|]. destruct d as [|d]; [discriminate|]. cbn [read_tree keys_are_texts] in *.
  rewrite Ht in *. cbn [bind] in *. binv H. binv H. apply ret_inj in H. injection H as <-. rewrite Hx in Hk.
  unfold arr_elems in Hx. binv Hx. destruct (collect_runs _ _ _ _ Hx) as [Hr Hl]. exists x1, x.
  assert (HF : Forall2 (rd e) x0 x).
  { apply mapM_F2 in Hx0. clear - Hx0 Hk Hf. induction Hx0; [constructor|]. cbn [forallb] in Hk. apply andb_prop in Hk as [Hk1 Hk2].
    constructor; [split; [exists f; split; [lia|assumption]|eauto]|auto]. }
  split; [exact Hx1|]. split; [|split; [exact HF|lia]]. apply runs_gives; [exact Hr|].
  clear - HF. induction HF; constructor; [eapply rd_nonptr; eassumption|assumption].
Qed.
Lemma rd_dict e l v : rd e (TDict l) v -> exists it vs, arr_iter e v = Ret it /\ gives e it vs /\ ents e l vs /\
  (length vs <= length (e_data e))%nat.
Proof.
  intros Hr. destruct (rd_kind _ _ _ Hr) as (ty & Ht & _ & _ & [_ Ha]). specialize (Ha (ex_intro _ l eq_refl)). subst ty.
  destruct Hr as [(f & Hf & H) (d & Hk)]. destruct f as [|f]; [discriminate|]. destruct d as [|d]; [discriminate|]. cbn [read_tree keys_are_texts] in *.
  rewrite Ht in *. cbn [bind] in *. binv H. binv H. apply ret_inj in H. injection H as <-.
  unfold arr_elems in Hk. unfold dict_elems in Hx. binv Hx. rewrite Hx1 in Hk. cbn [bind] in Hk.
  destruct (iter_collect _ e x1) as [xs| | |] eqn:Hc; try discriminate. destruct (collect_runs _ _ _ _ Hc) as [Hr Hl].
  exists x1, xs. pose proof (dict_ents e f d ltac:(lia) _ _ _ _ _ Hx Hr Hk Hx0) as He.
  split; [exact Hx1|]. split; [|split; [exact He|lia]]. apply runs_gives; [exact Hr|]. eapply ents_nonptr; eassumption.
Qed.

(* ---------- two documents ---------- *)

Lemma lookup_in {A} (l : list (list Z * A)) : forall s x, lookup s l = Some x -> exists n, In (n, x) l.
Proof.
  induction l as [|[n t] l IH]; intros s x H; cbn [lookup] in H; [discriminate|].
  destruct (bytes_eqb n s); [injection H as <-; exists n; left; reflexivity|]. destruct (IH _ _ H) as (m & Hm). exists m. right. exact Hm.
Qed.

Section Two.
Variables (e1 e2 : env).

Section Loops.
Variables (R1 R2 : tree -> val -> Prop).

Definition same_at {A} (t : tree) (g1 g2 : val -> A) : Prop := forall v1 v2, R1 t v1 -> R2 t v2 -> g1 v1 = g2 v2.
Definition same_key {A} (g1 g2 : val -> A) : Prop := forall k v1 v2, kd e1 k v1 -> kd e2 k v2 -> g1 v1 = g2 v2.

Lemma seq_all_same g1 g2 : forall l vs1 vs2 k1 k2 it1 it2,
  (forall t, In t l -> same_at t g1 g2) -> Forall2 R1 l vs1 -> Forall2 R2 l vs2 -> gives e1 it1 vs1 -> gives e2 it2 vs2 ->
  (length vs1 < k1)%nat -> (length vs2 < k2)%nat -> seq_all g1 e1 k1 it1 = seq_all g2 e2 k2 it2.
Proof.
  induction l as [|t l IH]; intros vs1 vs2 k1 k2 it1 it2 Hg H1 H2 Hy1 Hy2 Hk1 Hk2;
    inversion H1; subst; inversion H2; subst; inversion Hy1; subst; inversion Hy2; subst;
    (destruct k1 as [|k1]; [cbn [length] in Hk1; lia|]); (destruct k2 as [|k2]; [cbn [length] in Hk2; lia|]); cbn [seq_all];
    repeat match goal with Q : next_value _ _ = _ |- _ => rewrite Q; clear Q end; cbn [bind fst snd]; [reflexivity|].
  fold (seq_all g1 e1). fold (seq_all g2 e2).
  erewrite (Hg t (or_introl eq_refl)) by eassumption. cbn [length] in *.
  erewrite IH; [reflexivity|intros; apply Hg; right; assumption|eassumption..|lia|lia].
Qed.
Inductive each_same (g1 g2 : val -> sty -> dser sval) : list sty -> list tree -> Prop :=
| es_nil l : each_same g1 g2 [] l
| es_end ty ts : each_same g1 g2 (ty :: ts) []
| es_cons ty ts t l : same_at t (fun v => g1 v ty) (fun v => g2 v ty) -> each_same g1 g2 ts l -> each_same g1 g2 (ty :: ts) (t :: l).
Lemma seq_n_same g1 g2 ts : forall l vs1 vs2 it1 it2, each_same g1 g2 ts l ->
  Forall2 R1 l vs1 -> Forall2 R2 l vs2 -> gives e1 it1 vs1 -> gives e2 it2 vs2 ->
  seq_n g1 e1 ts it1 = seq_n g2 e2 ts it2.
Proof.
  induction ts as [|ty ts IH]; intros l vs1 vs2 it1 it2 Hg H1 H2 Hy1 Hy2; cbn [seq_n]; [reflexivity|].
  destruct l as [|t l]; inversion H1; subst; inversion H2; subst; inversion Hy1; subst; inversion Hy2; subst;
    repeat match goal with Q : next_value _ _ = _ |- _ => rewrite Q; clear Q end; cbn [bind fst snd]; [reflexivity|].
  fold (seq_n g1 e1). fold (seq_n g2 e2).
  inversion Hg as [| |? ? ? ? Hh Ht]; subst. unfold same_at in Hh. erewrite Hh by eassumption. erewrite IH; [reflexivity|eassumption..].
Qed.
Lemma map_all_same k1 k2 g1 g2 : same_key k1 k2 -> forall l vs1 vs2 n1 n2 it1 it2,
  (forall kx, In kx l -> same_at (snd kx) g1 g2) ->
  ents_by e1 R1 l vs1 -> ents_by e2 R2 l vs2 -> gives e1 it1 vs1 -> gives e2 it2 vs2 ->
  (length vs1 < n1)%nat -> (length vs2 < n2)%nat -> map_all k1 g1 e1 n1 it1 = map_all k2 g2 e2 n2 it2.
Proof.
  intros Hk. induction l as [|[k t] l IH]; intros vs1 vs2 n1 n2 it1 it2 Hg H1 H2 Hy1 Hy2 Hn1 Hn2;
    inversion H1; subst; inversion H2; subst; inversion Hy1; subst; inversion Hy2; subst;
    (destruct n1 as [|n1]; [cbn [length] in Hn1; lia|]); (destruct n2 as [|n2]; [cbn [length] in Hn2; lia|]); cbn [map_all];
    repeat match goal with Q : next_value _ _ = _ |- _ => rewrite Q; clear Q end; cbn [bind fst snd]; [reflexivity|].
  fold (map_all k1 g1 e1). fold (map_all k2 g2 e2).
  erewrite (Hk k) by eassumption. destruct (k2 _) as [[y|y]| | |]; cbn [bindr]; try reflexivity.
  repeat match goal with Q : gives _ _ (_ :: _) |- _ => inversion Q; subst; clear Q end.
  repeat match goal with Q : next_value _ _ = _ |- _ => rewrite Q; clear Q end; cbn [bind fst snd].
  erewrite (Hg (k, t) (or_introl eq_refl)) by eassumption. cbn [length] in *.
  erewrite IH; [reflexivity|intros; apply Hg; right; assumption|eassumption..|lia|lia].
Qed.
Lemma struct_same G g1 g2 i1 i2 fields : (forall t, same_at t i1 i2) ->
  forall l vs1 vs2 n1 n2 it1 it2 acc,
  (forall k t ty, In (k, t) l -> lookup k fields = Some ty -> same_at t (fun v => g1 v ty) (fun v => g2 v ty)) ->
  ents_by e1 R1 l vs1 -> ents_by e2 R2 l vs2 -> gives e1 it1 vs1 -> gives e2 it2 vs2 ->
  (length vs1 < n1)%nat -> (length vs2 < n2)%nat ->
  struct_loop G g1 i1 e1 fields n1 it1 acc = struct_loop G g2 i2 e2 fields n2 it2 acc.
Proof.
  intros Hi.
  induction l as [|[k t] l IH]; intros vs1 vs2 n1 n2 it1 it2 acc Hg H1 H2 Hy1 Hy2 Hn1 Hn2;
    inversion H1; subst; inversion H2; subst; inversion Hy1; subst; inversion Hy2; subst;
    (destruct n1 as [|n1]; [cbn [length] in Hn1; lia|]); (destruct n2 as [|n2]; [cbn [length] in Hn2; lia|]); cbn [struct_loop];
    repeat match goal with Q : next_value _ _ = _ |- _ => rewrite Q; clear Q end; cbn [bind fst snd]; [reflexivity|].
  fold (struct_loop G g1 i1 e1 fields). fold (struct_loop G g2 i2 e2 fields).
  repeat match goal with Q : kd _ _ _ |- _ => destruct Q as [Q _]; rewrite Q; clear Q end. cbn [bindr ident].
  destruct (existsb (bytes_eqb k) (map fst fields)); [destruct (lookup k acc); [reflexivity|]|].
  all: repeat match goal with Q : gives _ _ (_ :: _) |- _ => inversion Q; subst; clear Q end;
    repeat match goal with Q : next_value _ _ = _ |- _ => rewrite Q; clear Q end; cbn [bind fst snd]; cbn [length] in *.
  1: destruct (lookup k fields) as [ty|] eqn:El;
    [erewrite (Hg k t ty (or_introl eq_refl) El) by eassumption; destruct (g2 _ ty) as [[y|y]| | |]; cbn [bindr]; try reflexivity|].
  1: eapply IH; try eassumption; [|lia|lia]; intros ? ? ? Hin; apply Hg; right; exact Hin.
  all: erewrite (Hi t) by eassumption; destruct (i2 _) as [[y|y]| | |]; cbn [bindr]; try reflexivity;
    eapply IH; try eassumption; [|lia|lia]; intros ? ? ? Hin; apply Hg; right; exact Hin.
Qed.
End Loops.
Notation same_on g1 g2 := (forall t, same_at (rd e1) (rd e2) t g1 g2).

Lemma ignore_key f : same_key (ignore_any f e1 true) (ignore_any f e2 true).
Proof.
  intros k v1 v2 (H1 & _) (H2 & _). destruct f as [|f]; [reflexivity|]. cbn [ignore_any]. rewrite H1, H2. reflexivity.
Qed.
Lemma ignore_same : forall f, same_on (ignore_any f e1 false) (ignore_any f e2 false).
Proof.
  induction f as [|f IH]; intros t v1 v2 H1 H2; [reflexivity|]. cbn [ignore_any].
  destruct (rd_any _ _ _ H1) as (ev1 & -> & E1). destruct (rd_any _ _ _ H2) as (ev2 & -> & E2). cbn [bindr].
  destruct t; cbn [tree_ev] in E1, E2; try (subst; reflexivity).
  - destruct E1 as (u1 & ->), E2 as (u2 & ->). reflexivity.
  - subst. destruct (rd_arr _ _ _ H1) as (it1 & vs1 & -> & G1 & F1 & L1). destruct (rd_arr _ _ _ H2) as (it2 & vs2 & -> & G2 & F2 & L2).
    cbn [bind]. erewrite seq_all_same; [reflexivity|intros ? _; apply IH|eassumption..|lia|lia].
  - subst. destruct (rd_dict _ _ _ H1) as (it1 & vs1 & -> & G1 & F1 & L1). destruct (rd_dict _ _ _ H2) as (it2 & vs2 & -> & G2 & F2 & L2).
    cbn [bind]. erewrite map_all_same; [reflexivity|apply ignore_key|intros ? _; apply IH|eassumption..|lia|lia].
Qed.

Section Types.
Variables (G : nat -> sty) (K : nat).
Hypothesis HG : forall n, ty_ok G K NoEnums (G n).

Lemma kd_as e k v : kd e k v -> as_array e v = Ret None /\ as_dict e v = Ret None.
Proof. intros (_ & ty & H & Ht). unfold as_array, as_dict. rewrite H. cbn [bind]. destruct Ht as [-> | ->]; auto. Qed.
Lemma de_key_same : forall f ty, same_key (fun v => de G f e1 true v ty) (fun v => de G f e2 true v ty).
Proof.
  induction f as [|f IH]; intros ty k v1 v2 H1 H2; [reflexivity|].
  pose proof (kd_as _ _ _ H1) as [A1 D1]. pose proof (kd_as _ _ _ H2) as [A2 D2].
  destruct ty; cbn [de]; try (rewrite A1, A2; reflexivity); try (rewrite D1, D2; reflexivity);
    try (rewrite (proj1 H1), (proj1 H2); reflexivity).
  - assert (HK : same_key (fun v => x <-? de G f e1 true v ty ;; Ret (Ok (SSome x))) (fun v => x <-? de G f e2 true v ty ;; Ret (Ok (SSome x)))).
    { intros k' w1 w2 W1 W2. erewrite (IH ty k'); [reflexivity|assumption..]. }
    specialize (HK k v1 v2 H1 H2). cbv beta in HK.
    destruct H1 as (_ & ty1 & -> & T1), H2 as (_ & ty2 & -> & T2). cbn [bind].
    destruct T1 as [-> | ->], T2 as [-> | ->]; exact HK.
  - eapply (IH (G n)); eauto.
Qed.

Lemma de_same : forall f ty, ty_ok G K NoEnums ty -> same_on (fun v => de G f e1 false v ty) (fun v => de G f e2 false v ty).
Proof.
  induction f as [|f IH]; intros ty Hty t v1 v2 H1 H2; [reflexivity|].
  destruct (rd_any _ _ _ H1) as (ev1 & A1 & E1). destruct (rd_any _ _ _ H2) as (ev2 & A2 & E2).
  destruct (rd_kind _ _ _ H1) as (t1 & T1 & N1 & R1 & D1). destruct (rd_kind _ _ _ H2) as (t2 & T2 & N2 & R2 & D2).
  assert (Hsc : forall ty', visit_scalar ty' ev1 = visit_scalar ty' ev2).
  { intros ty'. destruct t; cbn [tree_ev] in E1, E2; try (subst; reflexivity).
    destruct E1 as (u1 & ->), E2 as (u2 & ->). destruct ty'; reflexivity. }
  assert (Hseq : forall ty', (forall l, t = TArr l -> ev1 = VisSeq /\ ev2 = VisSeq) /\
     ((forall l, t <> TArr l) -> forall (a1 a2 : dser sval),
        match ev1 with VisSeq => a1 | _ => Ret (visit_scalar ty' ev1) end = match ev2 with VisSeq => a2 | _ => Ret (visit_scalar ty' ev2) end)).
  { intros ty'. split; [intros l ->; auto|]. intros Hn a1 a2. specialize (Hsc ty').
    destruct t; cbn [tree_ev] in E1, E2; try (subst; congruence); try (exfalso; eapply Hn; reflexivity).
    destruct E1 as (u1 & ->), E2 as (u2 & ->). congruence. }
  assert (Hn : forall ty' tys (a : list sval -> sval), (forall x, In x tys -> ty_ok G K NoEnums x) ->
     match ev1 with VisSeq => it <- arr_iter e1 v1 ;; l <-? seq_n (fun x t => de G f e1 false x t) e1 tys it ;; Ret (Ok (a l)) | _ => Ret (visit_scalar ty' ev1) end =
     match ev2 with VisSeq => it <- arr_iter e2 v2 ;; l <-? seq_n (fun x t => de G f e2 false x t) e2 tys it ;; Ret (Ok (a l)) | _ => Ret (visit_scalar ty' ev2) end).
  { intros ty' tys a Htys. destruct (Hseq ty') as [Ha Hna]. destruct t; try (apply Hna; intros; discriminate).
    destruct (Ha l eq_refl) as [-> ->].
    destruct (rd_arr _ _ _ H1) as (it1 & vs1 & -> & G1 & F1 & L1). destruct (rd_arr _ _ _ H2) as (it2 & vs2 & -> & G2 & F2 & L2).
    cbn [bind]. rewrite (seq_n_same (rd e1) (rd e2) _ (fun x t => de G f e2 false x t) tys l vs1 vs2 it1 it2); [reflexivity| |assumption..]. clear - IH Htys. revert l.
    induction tys as [|x tys IHt]; intros l; [constructor|]. destruct l; constructor; [apply IH, Htys; left; reflexivity|].
    apply IHt. intros; apply Htys; right; assumption. }
  destruct ty; cbn [de]; try (rewrite A1, A2; cbn [bindr]; rewrite Hsc; reflexivity).
  - (* YBytes *) rewrite A1, A2; cbn [bindr]. destruct (Hseq YBytes) as [Ha Hna]. destruct t; try (apply Hna; intros; discriminate).
    destruct (Ha l eq_refl) as [-> ->].
    destruct (rd_arr _ _ _ H1) as (it1 & vs1 & -> & G1 & F1 & L1). destruct (rd_arr _ _ _ H2) as (it2 & vs2 & -> & G2 & F2 & L2).
    cbn [bind]. erewrite seq_all_same; [reflexivity|intros ? _; apply IH; constructor|eassumption..|lia|lia].
  - (* YOpt *) rewrite T1, T2. cbn [bind]. inversion Hty; subst.
    assert (HK : (x <-? de G f e1 false v1 ty ;; Ret (Ok (SSome x))) = (x <-? de G f e2 false v2 ty ;; Ret (Ok (SSome x)))).
    { pose proof (IH ty ltac:(assumption) t v1 v2 H1 H2) as HH. cbv beta in HH. rewrite HH. reflexivity. }
    assert (Hnull : t1 = TyNull <-> t2 = TyNull) by tauto.
    destruct t1, t2; try exact HK; try reflexivity; exfalso; (assert (HX : TyNull = TyNull) by reflexivity); apply Hnull in HX; discriminate.
  - (* YNewtype *) rewrite A1, A2; cbn [bindr]. inversion Hty; subst. apply (Hn (YNewtype ty) [ty] (fun l => SNewtype (nth 0 l SUnit))).
    intros x [<-|[]]; assumption.
  - (* YSeq *) unfold as_array. rewrite T1, T2. cbn [bind]. inversion Hty; subst.
    assert (Hc : t1 = TyArray <-> t2 = TyArray) by tauto.
    destruct (vtype_eqb t1 TyArray) eqn:V1.
    + assert (t1 = TyArray) by (destruct t1; try discriminate; reflexivity). subst t1. rewrite (proj1 Hc eq_refl). cbn [vtype_eqb].
      destruct (proj1 R1 eq_refl) as (l & ->).
      destruct (rd_arr _ _ _ H1) as (it1 & vs1 & -> & G1 & F1 & L1). destruct (rd_arr _ _ _ H2) as (it2 & vs2 & -> & G2 & F2 & L2).
      cbn [bind]. erewrite seq_all_same; [reflexivity|intros ? _; apply IH; assumption|eassumption..|lia|lia].
    + destruct (vtype_eqb t2 TyArray) eqn:V2; [|reflexivity].
      assert (t2 = TyArray) by (destruct t2; try discriminate; reflexivity). subst t2. rewrite (proj2 Hc eq_refl) in V1. discriminate.
  - (* YTuple *) rewrite A1, A2; cbn [bindr]. inversion Hty; subst. apply (Hn (YTuple ts) ts STuple). apply Forall_forall. assumption.
  - rewrite A1, A2; cbn [bindr]. inversion Hty; subst. apply (Hn (YTupleStruct ts) ts STupleStruct). apply Forall_forall. assumption.
  - (* YMap *) unfold as_dict. rewrite T1, T2. cbn [bind]. inversion Hty; subst.
    assert (Hc : t1 = TyDict <-> t2 = TyDict) by tauto.
    destruct (vtype_eqb t1 TyDict) eqn:V1.
    + assert (t1 = TyDict) by (destruct t1; try discriminate; reflexivity). subst t1. rewrite (proj1 Hc eq_refl). cbn [vtype_eqb].
      destruct (proj1 D1 eq_refl) as (l & ->).
      destruct (rd_dict _ _ _ H1) as (it1 & vs1 & -> & G1 & F1 & L1). destruct (rd_dict _ _ _ H2) as (it2 & vs2 & -> & G2 & F2 & L2).
      cbn [bind]. erewrite map_all_same; [reflexivity|apply de_key_same|intros ? _; apply IH; assumption|eassumption..|lia|lia].
    + destruct (vtype_eqb t2 TyDict) eqn:V2; [|reflexivity].
      assert (t2 = TyDict) by (destruct t2; try discriminate; reflexivity). subst t2. rewrite (proj2 Hc eq_refl) in V1. discriminate.
  - (* YStruct *) unfold as_dict. rewrite T1, T2. cbn [bind]. inversion Hty as [| | | | | | | | | | | | | | |fs Hfs| |]; subst.
    assert (Hc : t1 = TyDict <-> t2 = TyDict) by tauto.
    destruct (vtype_eqb t1 TyDict) eqn:V1.
    + assert (t1 = TyDict) by (destruct t1; try discriminate; reflexivity). subst t1. rewrite (proj1 Hc eq_refl). cbn [vtype_eqb].
      destruct (proj1 D1 eq_refl) as (l & ->).
      destruct (rd_dict _ _ _ H1) as (it1 & vs1 & -> & G1 & F1 & L1). destruct (rd_dict _ _ _ H2) as (it2 & vs2 & -> & G2 & F2 & L2).
      cbn [bind]. erewrite struct_same; [reflexivity|apply ignore_same| |eassumption..|lia|lia].
      intros k t ty _ Hlk. apply IH. destruct (lookup_in _ _ _ Hlk) as (n & Hin). rewrite Forall_forall in Hfs. apply (Hfs _ Hin).
    + destruct (vtype_eqb t2 TyDict) eqn:V2; [|reflexivity].
      assert (t2 = TyDict) by (destruct t2; try discriminate; reflexivity). subst t2. rewrite (proj2 Hc eq_refl) in V1. discriminate.
  - (* YEnum *) inversion Hty; subst. match goal with Q : 1 <= level NoEnums |- _ => cbn [level] in Q; lia end.
  - (* YNamed *) apply (IH (G n) (HG n) t v1 v2 H1 H2).
Qed.
End Types.
End Two.

Lemma alike_same e1 e2 t G K ty : doc_reads e1 t -> doc_reads e2 t -> types_ok G K NoEnums ty ->
  forall fuel, de_from_bytes G fuel e1 ty = de_from_bytes G fuel e2 ty.
Proof.
  intros (r1 & d1 & F1 & R1 & K1) (r2 & d2 & F2 & R2 & K2) (_ & Hty & HG) fuel. unfold de_from_bytes. rewrite F1, F2. cbn [bind].
  assert (H1 : rd e1 t r1) by (split; [exists (fuel_of e1)|eexists]; eauto). assert (H2 : rd e2 t r2) by (split; [exists (fuel_of e2)|eexists]; eauto).
  rewrite (nonptr_new e1 _ r1 (rd_nonptr _ _ _ H1)), (nonptr_new e2 _ r2 (rd_nonptr _ _ _ H2)). cbn [bind].
  apply (de_same e1 e2 G K HG fuel ty Hty t); assumption.
Qed.
