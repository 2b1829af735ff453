(** Proofs about deserializing: on an encoded document it only depends on the content. *)
From Verif Require Import Prelude Lib Varint VarintProofs Utf8 Float SharedKeys Decode Read Encodable Encoder BuilderSpec Holds Repr
  EncodableProofs Stored StoredRead SlotProofs EncoderProofs EncoderInv EncoderClean EncoderProtocol
  Scopes PathSpec Lookup Path Access Ser De SerdeSpec.
From Coq Require Import ZifyBool ZifyNat ZifyN Permutation.
Ltac Zify.zify_post_hook ::= Z.div_mod_to_equations.

(* ---------- deserializing a tree ---------- *)

(** Partial results: [None] where the content does not determine what happens. *)
Definition pres (A : Type) : Type := option (result A de_error).
Definition pbind {A B} (m : pres A) (k : A -> pres B) : pres B :=
  match m with
  | None => None
  | Some (Err x) => Some (Err x)
  | Some (Ok x) => k x
  end.
Notation "x <-p m ;; k" := (pbind m (fun x => k)) (at level 61, m at next level, right associativity).

Definition tree_event (t : tree) : event :=
  match t with
  | TNull => VisNone
  | TUndef => VisUnit
  | TBool b => VisBool b
  | TInt z => VisInt false z
  | TF32 b => VisF32 b
  | TF64 b => VisF64 b
  | TStr s => VisStr s
  | TData s => VisBytes s
  | TArr _ => VisSeq
  | TDict _ => VisMap
  end.

Fixpoint tdepth (t : tree) : nat :=
  match t with
  | TArr l => S (fold_right (fun x n => Nat.max (tdepth x) n) O l)
  | TDict l => S (fold_right (fun x n => Nat.max (tdepth (snd x)) n) O l)
  | _ => O
  end.

Fixpoint tseq_all (g : tree -> pres sval) (l : list tree) : pres (list sval) :=
  match l with
  | [] => Some (Ok [])
  | t :: l' => x <-p g t ;; xs <-p tseq_all g l' ;; Some (Ok (x :: xs))
  end.
Fixpoint tseq_n (g : tree -> sty -> pres sval) (ts : list sty) (l : list tree) : pres (list sval) :=
  match ts, l with
  | [], _ => Some (Ok [])
  | _ :: _, [] => Some (Err DeInvalidLength)
  | ty :: ts', t :: l' => x <-p g t ty ;; xs <-p tseq_n g ts' l' ;; Some (Ok (x :: xs))
  end.
Fixpoint tmap_all (gk : list Z -> pres sval) (gv : tree -> pres sval) (l : list (list Z * tree)) : pres (list (sval * sval)) :=
  match l with
  | [] => Some (Ok [])
  | kt :: l' => x <-p gk (fst kt) ;; y <-p gv (snd kt) ;; xs <-p tmap_all gk gv l' ;; Some (Ok ((x, y) :: xs))
  end.
Fixpoint tstruct (G : nat -> sty) (f : nat) (g : tree -> sty -> pres sval) (fields : list (list Z * sty))
  (l : list (list Z * tree)) (acc : list (list Z * sval)) : pres (list (list Z * sval)) :=
  match l with
  | [] => Some (fields_of G fields acc)
  | (k, t) :: l' =>
      if existsb (bytes_eqb k) (map fst fields) then
        match lookup k acc with
        | Some _ => Some (Err DeDuplicateField)
        | None =>
            match lookup k fields with
            | Some ty => x <-p g t ty ;; tstruct G f g fields l' (acc ++ [(k, x)])
            | None => None
            end
        end
      else if (tdepth t <? f)%nat then tstruct G f g fields l' acc else None
  end.

(** A dict key: a text. *)
Fixpoint tkey (G : nat -> sty) (fuel : nat) (ty : sty) (k : list Z) : pres sval :=
  match fuel with
  | O => None
  | S f =>
      match ty with
      | YNamed n => tkey G f (G n) k
      | YOpt t => x <-p tkey G f t k ;; Some (Ok (SSome x))
      | YSeq _ => Some (Err DeNotArray)
      | YMap _ _ | YStruct _ => Some (Err DeNotDict)
      | YEnum _ => Some (Err DeInvalidEnumType)
      | _ => Some (visit_scalar ty (VisStr k))
      end
  end.

Section Tree.
Variables (G : nat -> sty) (q : list Z -> bool).
Fixpoint dtree (fuel : nat) (ty : sty) (t : tree) : pres sval :=
  match fuel with
  | O => None
  | S f =>
      match ty with
      | YNamed n => dtree f (G n) t
      | YOpt ty' =>
          match t with
          | TNull => Some (Ok SNone)
          | _ => x <-p dtree f ty' t ;; Some (Ok (SSome x))
          end
      | YSeq ty' =>
          match t with
          | TArr l => xs <-p tseq_all (dtree f ty') l ;; Some (Ok (SSeq xs))
          | _ => Some (Err DeNotArray)
          end
      | YMap kt vt =>
          match t with
          | TDict l => xs <-p tmap_all (tkey G f kt) (dtree f vt) l ;; Some (Ok (SMap xs))
          | _ => Some (Err DeNotDict)
          end
      | YStruct fields =>
          match t with
          | TDict l => xs <-p tstruct G f (fun t ty => dtree f ty t) fields l [] ;; Some (Ok (SStruct xs))
          | _ => Some (Err DeNotDict)
          end
      | YEnum variants =>
          match t with
          | TArr [] => None
          | TArr (t0 :: rest) =>
              match t0 with
              | TStr s | TData s =>
                  if existsb (bytes_eqb s) (map fst variants) then
                    match lookup s variants with
                    | None => None
                    | Some VUnit =>
                        match rest with [] => Some (Ok (SUnitVariant s)) | _ => Some (Err DeInvalidEnumLayout) end
                    | Some vt =>
                        match rest with
                        | [] => None
                        | t1 :: _ =>
                            match vt with
                            | VUnit => None
                            | VNewtype ty' => y <-p dtree f ty' t1 ;; Some (Ok (SNewtypeVariant s y))
                            | VTuple ts =>
                                match t1 with
                                | TArr l =>
                                    if lenZ l =? lenZ ts then
                                      xs <-p tseq_n (fun t ty => dtree f ty t) ts l ;; Some (Ok (STupleVariant s xs))
                                    else Some (Err DeInvalidEnumLayout)
                                | _ => Some (Err DeInvalidEnumLayout)
                                end
                            | VStruct fields =>
                                match t1 with
                                | TDict l =>
                                    if forallb (fun fd => q (fst fd)) fields then
                                      if (lenZ l =? lenZ fields) &&
                                         forallb (fun fd => existsb (bytes_eqb (fst fd)) (map fst l)) fields then
                                        xs <-p tstruct G f (fun t ty => dtree f ty t) fields l [] ;;
                                        Some (Ok (SStructVariant s xs))
                                      else Some (Err DeInvalidEnumLayout)
                                    else None
                                | _ => Some (Err DeInvalidEnumLayout)
                                end
                            end
                        end
                    end
                  else Some (Err DeUnknownVariant)
              | TInt _ => None
              | _ => Some (Err DeInvalidType)
              end
          | _ => Some (Err DeInvalidEnumType)
          end
      | YNewtype ty' =>
          match t with
          | TArr l => xs <-p tseq_n (fun t ty => dtree f ty t) [ty'] l ;; Some (Ok (SNewtype (nth 0 xs SUnit)))
          | _ => Some (visit_scalar ty (tree_event t))
          end
      | YTuple ts =>
          match t with
          | TArr l => xs <-p tseq_n (fun t ty => dtree f ty t) ts l ;; Some (Ok (STuple xs))
          | _ => Some (visit_scalar ty (tree_event t))
          end
      | YTupleStruct ts =>
          match t with
          | TArr l => xs <-p tseq_n (fun t ty => dtree f ty t) ts l ;; Some (Ok (STupleStruct xs))
          | _ => Some (visit_scalar ty (tree_event t))
          end
      | YBytes =>
          match t with
          | TArr l =>
              xs <-p tseq_all (dtree f (YInt U8)) l ;;
              Some (Ok (SBytes (map (fun x => match x with SInt _ z => z | _ => 0 end) xs)))
          | _ => Some (visit_scalar ty (tree_event t))
          end
      | _ => Some (visit_scalar ty (tree_event t))
      end
  end.
End Tree.

(* ---------- iterating ---------- *)

Lemma de_new_resolve e w v : de_new e w v = resolve e v w.
Proof. reflexivity. Qed.

Inductive yields (e : env) : aiter -> list val -> Prop :=
| yields_nil it it' : next_value e it = Ret (None, it') -> yields e it []
| yields_cons it it' v vs : next_value e it = Ret (Some v, it') -> yields e it' vs -> yields e it (v :: vs).

Lemma yields_list e w wide : (w =? 4) = wide -> forall vs cur i n,
  n = i + lenZ vs ->
  (forall j v, nthZ vs j = Some v -> resolve e (V (cur + j * w) w) wide = Ret v /\ nonptr e v) ->
  yields e (mk_aiter (match vs with [] => None | _ => Some (V cur w) end) w i n) vs.
Proof.
  intros Hw. induction vs as [|v vs IH]; intros cur i n Hn H.
  - eapply yields_nil. unfold next_value, iter_next; cbn [it_next bind]. reflexivity.
  - rewrite lenZ_cons in Hn. pose proof (lenZ_nonneg vs).
    destruct (H 0 v (nthZ_cons_0 v vs)) as [Hr0 Hnp]. replace (cur + 0 * w) with cur in Hr0 by lia.
    eapply yields_cons.
    + unfold next_value, iter_next; cbn [it_next it_len it_index it_width]. destruct (n <=? i) eqn:E; [lia|].
      rewrite Hw, Hr0; cbn [bind it_width]. rewrite de_new_resolve, Hw, (resolve_nonptr e v wide Hnp). cbn [bind]. reflexivity.
    + replace (if i + 1 <? n then Some (V (v_pos (V cur w) + w) w) else None)
        with (match vs with [] => None | _ => Some (V (cur + w) w) end).
      * apply IH; [lia|]. intros j x Hx. apply nthZ_Some in Hx as Hb.
        destruct (H (j + 1) x) as [H1 H2].
        { rewrite nthZ_cons_S by lia. replace (j + 1 - 1) with j by lia. exact Hx. }
        split; [|exact H2]. rewrite <- H1. f_equal. f_equal. lia.
      * destruct vs as [|x vs']; [rewrite lenZ_nil in Hn; destruct (i + 1 <? n) eqn:E2; [lia|reflexivity]|].
        rewrite lenZ_cons in Hn. pose proof (lenZ_nonneg vs'). destruct (i + 1 <? n) eqn:E2; [reflexivity|lia].
Qed.

Lemma coll_yields e v ty n wide first vs : coll_at e v ty n wide first -> lenZ vs = n ->
  (forall j x, nthZ vs j = Some x -> resolve e (V (first + j * width_of wide) (width_of wide)) wide = Ret x /\ nonptr e x) ->
  (length vs <= length (e_data e))%nat /\ exists it, arr_iter e v = Ret it /\ yields e it vs.
Proof.
  intros Hc Hn H. split.
  { destruct Hc as [_ _ _ _ H2 H3 H4 H5]. pose proof (width_bounds wide) as [Hw _]. unfold lenZ in *. nia. }
  unfold arr_iter. rewrite (ca_len _ _ _ _ _ _ Hc); cbn [bind]. rewrite (ca_wide _ _ _ _ _ _ Hc); cbn [bind].
  assert (Hw : (width_of wide =? 4) = wide) by (destruct wide; reflexivity).
  pose proof (yields_list e (width_of wide) wide Hw vs first 0 n ltac:(lia) H) as Hy.
  destruct vs as [|x vs].
  - rewrite lenZ_nil in Hn. destruct (n =? 0) eqn:E; [|lia]. eexists. split; [reflexivity|exact Hy].
  - rewrite lenZ_cons in Hn. pose proof (lenZ_nonneg vs). destruct (n =? 0) eqn:E; [lia|].
    rewrite (ca_fp _ _ _ _ _ _ Hc); cbn [bind]. eexists. split; [reflexivity|].
    replace (v_pos v + (first - v_pos v)) with first by lia. exact Hy.
Qed.

(* ---------- stored values ---------- *)

Section KP.
Context {SP : KeyPred}.
Section Doc.
Variables (e : env) (tb : option shared_keys).
Hypothesis Hok : env_ok e.
Hypothesis Esk : e_sk e = tb.

Lemma arr_yields l v : vstored e tb (TArr l) v ->
  exists it vs, arr_iter e v = Ret it /\ yields e it vs /\ Forall2 (vstored e tb) l vs /\
    (length vs <= length (e_data e))%nat.
Proof using Hok.
  intros Hv. destruct (vstored_arr e tb Hok l v Hv) as (wide & first & Hc & H).
  destruct (list_choice (fun i t x => resolve e (V (first + i * width_of wide) (width_of wide)) wide = Ret x /\ vstored e tb t x) l) as (vs & Hlv & Hvs).
  { intros i x Hi. destruct (H i x Hi) as (y & H1 & H2). exists y. split; assumption. }
  destruct (coll_yields e v TyArray (lenZ l) wide first vs Hc Hlv) as (Hlen & it & Hit & Hy).
  { intros j x Hj. apply nthZ_Some in Hj as Hb. destruct (nthZ_in l j ltac:(lia)) as [t Ht].
    destruct (Hvs j t Ht) as (y & Hy & H1 & H2). rewrite Hj in Hy. injection Hy as <-. split; [exact H1|].
    eapply vstored_nonptr; eauto. }
  exists it, vs. split; [exact Hit|]. split; [exact Hy|]. split; [|exact Hlen].
  apply nth_Forall2; [exact Hlv|]. intros i t Ht. destruct (Hvs i t Ht) as (y & Hy1 & _ & H2). eauto.
Qed.

(** The keys and values of a dict alternate. *)
Inductive entries : list (list Z * tree) -> list val -> Prop :=
| entries_nil : entries [] []
| entries_cons k t l kk kv xv vs :
    vkey e tb kk k kv -> vstored e tb t xv -> entries l vs -> entries ((k, t) :: l) (kv :: xv :: vs).

Lemma vkey_nonptr kk k v : vkey e tb kk k v -> nonptr e v.
Proof. destruct kk; cbn [vkey]; intros (H & _); eexists; split; [exact H|discriminate|exact H|discriminate]. Qed.

Lemma dict_yields l v : vstored e tb (TDict l) v ->
  exists it vs, arr_iter e v = Ret it /\ yields e it vs /\ entries l vs /\
    (length vs <= length (e_data e))%nat.
Proof using Hok.
  intros Hv. destruct (vstored_dict e tb Hok l v Hv) as (kts & wide & first & -> & Hsrt & Hc & Hent).
  destruct (list_choice (fun i x (p : val * val) =>
      resolve e (V (first + 2 * i * width_of wide) (width_of wide)) wide = Ret (fst p) /\
      resolve e (V (first + (2 * i + 1) * width_of wide) (width_of wide)) wide = Ret (snd p) /\
      vkey e tb (fst x) (fst (snd x)) (fst p) /\ vstored e tb (snd (snd x)) (snd p)) kts) as (ps & Hlp & Hps).
  { intros i x Hi. destruct (Hent i x Hi) as (kv & xv & H1 & H2 & H3 & H4). exists (kv, xv). auto. }
  assert (Hl2 : @lenZ entry kts = lenZ ps) by (symmetry; exact Hlp).
  set (vs := flat_map (fun p : val * val => [fst p; snd p]) ps).
  assert (Hlv : lenZ vs = 2 * lenZ ps).
  { unfold vs. clear. induction ps as [|p ps IH]; [reflexivity|]. cbn [flat_map app]. rewrite !lenZ_cons, IH. lia. }
  assert (Hnth : forall ps j x, nthZ (flat_map (fun p : val * val => [fst p; snd p]) ps) j = Some x ->
    exists p, nthZ ps (j / 2) = Some p /\ ((j = 2 * (j / 2) /\ x = fst p) \/ (j = 2 * (j / 2) + 1 /\ x = snd p))).
  { clear. induction ps as [|p ps IH]; intros j x Hj; cbn [flat_map app] in Hj.
    - apply nthZ_Some in Hj. cbn in Hj. lia.
    - apply nthZ_Some in Hj as Hb. destruct (Z.eq_dec j 0) as [->|H0].
      + rewrite nthZ_cons_0 in Hj. injection Hj as <-. exists p. split; [apply nthZ_cons_0|left; auto].
      + destruct (Z.eq_dec j 1) as [->|H1].
        * rewrite nthZ_cons_S in Hj by lia. rewrite nthZ_cons_0 in Hj. injection Hj as <-. exists p. split; [apply nthZ_cons_0|right; auto].
        * rewrite nthZ_cons_S in Hj by lia. rewrite nthZ_cons_S in Hj by lia.
          destruct (IH _ _ Hj) as (p' & H2 & H3). exists p'. rewrite nthZ_cons_S by lia.
          replace ((j - 1 - 1) / 2) with (j / 2 - 1) in * by lia. split; [exact H2|]. destruct H3 as [[? ?]|[? ?]]; [left|right]; split; auto; lia. }
  destruct (coll_yields e v TyDict (2 * lenZ kts) wide first vs Hc) as (Hlen & it & Hit & Hy).
  { change (lenZ vs = 2 * @lenZ entry kts). lia. }
  { intros j x Hj. destruct (Hnth ps j x Hj) as (p & Hp & Hcase). apply nthZ_Some in Hp as Hb.
    destruct (@nthZ_in entry kts (j / 2) ltac:(lia)) as [y Hy].
    destruct (Hps _ _ Hy) as (p' & Hp' & H1 & H2 & H3 & H4). rewrite Hp in Hp'. injection Hp' as <-.
    destruct Hcase as [[Ej ->]|[Ej ->]].
    - rewrite <- Ej in H1. split; [exact H1|]. eapply vkey_nonptr; eauto.
    - rewrite <- Ej in H2. split; [exact H2|]. eapply vstored_nonptr; eauto. }
  exists it, vs. split; [exact Hit|]. split; [exact Hy|]. split; [|exact Hlen].
  assert (HF : Forall2 (fun (x : entry) p => vkey e tb (fst x) (fst (snd x)) (fst p) /\ vstored e tb (snd (snd x)) (snd p)) kts ps).
  { apply nth_Forall2; [exact Hlp|]. intros i t Ht. destruct (Hps i t Ht) as (y & Hy1 & _ & _ & H2). eauto. }
  unfold vs. clear - HF. induction HF as [|[kk [k t]] p kts ps [H1 H2] HF IH]; cbn [map flat_map app]; [constructor|].
  cbn [fst snd] in *. econstructor; eauto.
Qed.

Lemma any_scalar t v : is_coll t = false -> vstored e tb t v ->
  exists ev, de_any e false v = Ret (Ok ev) /\
    match t with TInt z => exists u, ev = VisInt u z | _ => ev = tree_event t end.
Proof using Hok.
  intros Hc Hv. destruct (vstored_scalar e tb t v Hc Hv) as (ty & Hty & Hsc & Hr). specialize (Hr O).
  unfold de_any. cbn [read_tree] in Hr. rewrite Hty in *; cbn [bind] in *.
  destruct ty; try discriminate Hsc;
    try (match type of Hr with bind ?m _ = _ => destruct m as [x| | |] eqn:Ex; try discriminate; cbn [bind] in * end);
    try (apply ret_inj in Hr; subst t); try (eexists; split; [reflexivity|]; first [reflexivity|eexists; reflexivity]).
  (* short *)
  unfold to_int in Ex. rewrite Hty in Ex; cbn [bind] in Ex. unfold to_short. rewrite Hty; cbn [bind].
  destruct (get_short e v) as [i| | |]; try discriminate. cbn [bind] in *. apply ret_inj in Ex. subst x. eauto.
Qed.
Lemma any_value t v : vstored e tb t v ->
  exists ev, de_any e false v = Ret (Ok ev) /\
    match t with TInt z => exists u, ev = VisInt u z | _ => ev = tree_event t end.
Proof using Hok.
  intros Hv. destruct (is_coll t) eqn:Ec; [|apply any_scalar; assumption].
  destruct t; try discriminate; unfold de_any.
  - destruct (vstored_arr e tb Hok l v Hv) as (wide & first & Hc & _). rewrite (ca_type _ _ _ _ _ _ Hc). cbn [bind]. eauto.
  - destruct (vstored_dict e tb Hok l v Hv) as (kts & wide & first & _ & _ & Hc & _). rewrite (ca_type _ _ _ _ _ _ Hc). cbn [bind]. eauto.
Qed.
Lemma any_key_event kk k v : vkey e tb kk k v -> de_any e true v = Ret (Ok (VisStr k)).
Proof using Esk.
  unfold de_any. destruct kk as [i|s]; cbn [vkey].
  - intros (-> & -> & t & Et & Hd). cbn [bind]. rewrite Esk, Et, Hd. reflexivity.
  - intros (-> & -> & -> & _). reflexivity.
Qed.
Lemma visit_int ty u z : visit_scalar ty (VisInt u z) = visit_scalar ty (VisInt false z).
Proof. destruct ty; reflexivity. Qed.

Lemma type_null t v : vstored e tb t v -> exists ty, value_type e v = Ret ty /\ (ty = TyNull <-> t = TNull).
Proof using Hok.
  intros Hv. destruct (is_coll t) eqn:Ec.
  - destruct t; try discriminate.
    + destruct (vstored_arr e tb Hok l v Hv) as (wide & first & Hc & _). exists TyArray. split; [apply (ca_type _ _ _ _ _ _ Hc)|]. split; discriminate.
    + destruct (vstored_dict e tb Hok l v Hv) as (kts & wide & first & _ & _ & Hc & _). exists TyDict. split; [apply (ca_type _ _ _ _ _ _ Hc)|]. split; discriminate.
  - destruct (vstored_scalar e tb t v Ec Hv) as (ty & Hty & Hsc & Hr). exists ty. split; [exact Hty|]. specialize (Hr O).
    cbn [read_tree] in Hr. rewrite Hty in Hr; cbn [bind] in Hr. split.
    + intros ->. apply ret_inj in Hr. congruence.
    + intros ->. destruct ty; try discriminate Hsc; try reflexivity; try discriminate;
        match type of Hr with bind ?m _ = _ => destruct m; discriminate end.
Qed.

(* ---------- the loops ---------- *)

Definition refines {A} (m : dser A) (p : pres A) : Prop := forall r, p = Some r -> m = Ret r.

Lemma refines_bind {A B} (m : dser A) (p : pres A) (k : A -> dser B) (k' : A -> pres B) :
  refines m p -> (forall x, refines (k x) (k' x)) -> refines (bindr m k) (pbind p k').
Proof.
  intros Hm Hk r H. destruct p as [[x|er]|]; cbn [pbind] in H; [| |discriminate].
  - rewrite (Hm _ eq_refl). unfold bindr; cbn [bind]. apply Hk. exact H.
  - injection H as <-. rewrite (Hm _ eq_refl). reflexivity.
Qed.
Lemma refines_ret {A} (r : result A de_error) : refines (Ret r) (Some r).
Proof. intros x H. injection H as <-. reflexivity. Qed.
Lemma refines_none {A} (m : dser A) : refines m None.
Proof. discriminate. Qed.

Lemma seq_all_ref g g' : (forall t v, vstored e tb t v -> refines (g v) (g' t)) ->
  forall l vs, Forall2 (vstored e tb) l vs -> forall it k, yields e it vs -> (length vs < k)%nat ->
  refines (seq_all g e k it) (tseq_all g' l).
Proof.
  intros Hg. induction 1 as [|t v l vs Hv HF IH]; intros it k Hy Hk; (destruct k; [cbn [length] in Hk; lia|]); cbn [seq_all tseq_all].
  - inversion Hy as [? ? Hn|]; subst. rewrite Hn; cbn [bind fst]. apply refines_ret.
  - inversion Hy as [|? ? ? ? Hn Hy']; subst. rewrite Hn; cbn [bind fst snd]. apply refines_bind; [apply Hg; exact Hv|].
    intros x. apply refines_bind; [apply IH; [exact Hy'|cbn [length] in Hk; lia]|]. intros xs. apply refines_ret.
Qed.
Lemma seq_n_ref g g' : (forall t v ty, vstored e tb t v -> refines (g v ty) (g' t ty)) ->
  forall l vs, Forall2 (vstored e tb) l vs -> forall ts it, yields e it vs ->
  refines (seq_n g e ts it) (tseq_n g' ts l).
Proof.
  intros Hg. induction 1 as [|t v l vs Hv HF IH]; intros [|ty ts] it Hy; cbn [seq_n tseq_n]; try apply refines_ret.
  - inversion Hy as [? ? Hn|]; subst. rewrite Hn; cbn [bind fst]. apply refines_ret.
  - inversion Hy as [|? ? ? ? Hn Hy']; subst. rewrite Hn; cbn [bind fst snd]. apply refines_bind; [apply Hg; exact Hv|].
    intros x. apply refines_bind; [apply IH; exact Hy'|]. intros xs. apply refines_ret.
Qed.
Lemma map_all_ref gk gv gk' gv' :
  (forall kk k v, vkey e tb kk k v -> refines (gk v) (gk' k)) ->
  (forall t v, vstored e tb t v -> refines (gv v) (gv' t)) ->
  forall l vs, entries l vs -> forall it n, yields e it vs -> (length vs < n)%nat ->
  refines (map_all gk gv e n it) (tmap_all gk' gv' l).
Proof.
  intros Hgk Hgv. induction 1 as [|k t l kk kv xv vs Hk Hv HF IH]; intros it n Hy Hn; (destruct n; [cbn [length] in Hn; lia|]); cbn [map_all tmap_all].
  - inversion Hy as [? ? Hx|]; subst. rewrite Hx; cbn [bind fst]. apply refines_ret.
  - inversion Hy as [|? it1 ? ? Hx Hy']; subst. rewrite Hx; cbn [bind fst snd]. inversion Hy' as [|? it2 ? ? Hx2 Hy2]; subst.
    apply refines_bind; [eapply Hgk; exact Hk|]. intros x. rewrite Hx2; cbn [bind fst snd].
    apply refines_bind; [apply Hgv; exact Hv|]. intros y.
    apply refines_bind; [apply IH; [exact Hy2|cbn [length] in Hn; lia]|]. intros xs. apply refines_ret.
Qed.

Lemma max_le (f : tree -> nat) l n : (fold_right (fun x m => Nat.max (f x) m) O l <= n)%nat -> Forall (fun t => (f t <= n)%nat) l.
Proof.
  induction l as [|t l IH]; cbn [fold_right]; intros H; constructor; [lia|apply IH; lia].
Qed.
Lemma max_le2 (f : tree -> nat) (l : list (list Z * tree)) n :
  (fold_right (fun x m => Nat.max (f (snd x)) m) O l <= n)%nat -> Forall (fun t => (f (snd t) <= n)%nat) l.
Proof.
  induction l as [|t l IH]; cbn [fold_right]; intros H; constructor; [lia|apply IH; lia].
Qed.

Lemma seq_all_total g : forall l vs, Forall2 (vstored e tb) l vs ->
  (forall t v, In t l -> vstored e tb t v -> g v = Ret (Ok SUnit)) -> forall it k, yields e it vs -> (length vs < k)%nat ->
  exists xs, seq_all g e k it = Ret (Ok xs).
Proof.
  induction 1 as [|t v l vs Hv HF IH]; intros Hg it k Hy Hk; (destruct k; [cbn [length] in Hk; lia|]); cbn [seq_all].
  - inversion Hy as [? ? Hn|]; subst. rewrite Hn; cbn [bind fst]. eauto.
  - inversion Hy as [|? ? ? ? Hn Hy']; subst. rewrite Hn; cbn [bind fst snd]. rewrite (Hg t v (or_introl eq_refl) Hv). unfold bindr; cbn [bind].
    edestruct (IH ltac:(intros; apply Hg with (t := t0); [right; assumption|assumption]) _ k Hy') as [xs Hx]; [cbn [length] in Hk; lia|].
    unfold bindr in Hx. rewrite Hx. cbn [bind]. eauto.
Qed.
Lemma map_all_total gk gv : forall l vs, entries l vs ->
  (forall kk k v, vkey e tb kk k v -> gk v = Ret (Ok SUnit)) ->
  (forall t v, In t (map snd l) -> vstored e tb t v -> gv v = Ret (Ok SUnit)) -> forall it k, yields e it vs -> (length vs < k)%nat ->
  exists xs, map_all gk gv e k it = Ret (Ok xs).
Proof.
  induction 1 as [|k t l kk kv xv vs Hk Hv HF IH]; intros Hgk Hgv it n Hy Hn; (destruct n; [cbn [length] in Hn; lia|]); cbn [map_all].
  - inversion Hy as [? ? Hx|]; subst. rewrite Hx; cbn [bind fst]. eauto.
  - inversion Hy as [|? it1 ? ? Hx Hy']; subst. rewrite Hx; cbn [bind fst snd]. inversion Hy' as [|? it2 ? ? Hx2 Hy2]; subst.
    rewrite (Hgk kk k kv Hk). unfold bindr; cbn [bind]. rewrite Hx2; cbn [bind fst snd].
    rewrite (Hgv t xv (or_introl eq_refl) Hv); cbn [bind].
    edestruct (IH Hgk ltac:(intros; apply Hgv with (t := t0); [right; assumption|assumption]) _ n Hy2) as [xs Hxs]; [cbn [length] in Hn; lia|].
    unfold bindr in Hxs. rewrite Hxs. cbn [bind]. eauto.
Qed.

Lemma ignore_any_ok : forall f t v, vstored e tb t v -> (tdepth t < f)%nat -> ignore_any f e false v = Ret (Ok SUnit).
Proof using Hok Esk.
  induction f as [|f IH]; intros t v Hv Hd; [lia|]. cbn [ignore_any].
  destruct (any_value t v Hv) as (ev & He & Hev). rewrite He. unfold bindr; cbn [bind].
  assert (Hkey : (1 <= f)%nat -> forall kk k v, vkey e tb kk k v -> ignore_any f e true v = Ret (Ok SUnit)).
  { intros Hf kk k x Hk. destruct f; [lia|]. cbn [ignore_any]. rewrite (any_key_event kk k x Hk). reflexivity. }
  destruct t; try (subst ev; reflexivity); try (destruct Hev as [u Hu]; subst ev; reflexivity); subst ev; cbn [tree_event].
  - destruct (arr_yields l v Hv) as (it & vs & Hit & Hy & HF & Hlen). rewrite Hit; cbn [bind].
    destruct (seq_all_total (ignore_any f e false) l vs HF) with (it := it) (k := S (S (length (e_data e)))) as [xs Hx]; [|exact Hy|lia|].
    + cbn [tdepth] in Hd. pose proof (max_le tdepth l (f - 1) ltac:(lia)) as HM. rewrite Forall_forall in HM.
      intros t x Hin Hx. apply IH with (t := t); [exact Hx|]. specialize (HM t Hin). lia.
    + rewrite Hx. reflexivity.
  - destruct (dict_yields l v Hv) as (it & vs & Hit & Hy & HF & Hlen). rewrite Hit; cbn [bind].
    destruct (map_all_total (ignore_any f e true) (ignore_any f e false) l vs HF) with (it := it) (k := S (S (length (e_data e)))) as [xs Hx]; [| |exact Hy|lia|].
    + apply Hkey. cbn [tdepth] in Hd. lia.
    + cbn [tdepth] in Hd. pose proof (max_le2 tdepth l (f - 1) ltac:(lia)) as HM. rewrite Forall_forall in HM.
      intros t x Hin Hx. apply IH with (t := t); [exact Hx|]. apply in_map_iff in Hin as (y & <- & Hin). specialize (HM y Hin). lia.
    + rewrite Hx. reflexivity.
Qed.

Lemma lookup_exists {A} s (l : list (list Z * A)) : existsb (bytes_eqb s) (map fst l) = false -> lookup s l = None.
Proof.
  induction l as [|[k x] l IH]; cbn [map existsb fst lookup]; [reflexivity|]. intros H. apply orb_false_iff in H as [H1 H2].
  destruct (bytes_eqb k s) eqn:E; [|auto]. apply bytes_eqb_eq in E. subst. rewrite (proj2 (bytes_eqb_eq s s) eq_refl) in H1. discriminate.
Qed.

Lemma struct_ref G f g g' fields :
  (forall t v ty, vstored e tb t v -> refines (g v ty) (g' t ty)) ->
  forall l vs, entries l vs -> forall it n acc, yields e it vs -> (length vs < n)%nat ->
  refines (struct_loop G g (ignore_any f e false) e fields n it acc) (tstruct G f g' fields l acc).
Proof using Hok Esk.
  intros Hg. induction 1 as [|k t l kk kv xv vs Hk Hv HF IH]; intros it n acc Hy Hn; (destruct n; [cbn [length] in Hn; lia|]); cbn [struct_loop tstruct].
  - inversion Hy as [? ? Hx|]; subst. rewrite Hx; cbn [bind fst]. apply refines_ret.
  - inversion Hy as [|? it1 ? ? Hx Hy']; subst. rewrite Hx; cbn [bind fst snd]. inversion Hy' as [|? it2 ? ? Hx2 Hy2]; subst.
    rewrite (any_key_event kk k kv Hk). unfold bindr at 1; cbn [bind]. unfold bindr at 1; cbn [bind ident].
    destruct (existsb (bytes_eqb k) (map fst fields)) eqn:Ex.
    + destruct (lookup k acc); [apply refines_ret|]. rewrite Hx2; cbn [bind fst snd].
      destruct (lookup k fields) as [ty|]; [|apply refines_none].
      apply refines_bind; [apply Hg; exact Hv|]. intros x. apply IH; [exact Hy2|cbn [length] in Hn; lia].
    + rewrite Hx2; cbn [bind fst snd]. destruct (tdepth t <? f)%nat eqn:Ed; [|apply refines_none].
      rewrite (ignore_any_ok f t xv Hv ltac:(apply Nat.ltb_lt; exact Ed)). unfold bindr; cbn [bind].
      apply IH; [exact Hy2|cbn [length] in Hn; lia].
Qed.

(* ---------- whole values ---------- *)

Lemma as_array_key kk k v : vkey e tb kk k v -> as_array e v = Ret None /\ as_dict e v = Ret None /\
  exists ty, value_type e v = Ret ty /\ ty <> TyNull.
Proof. unfold as_array, as_dict. destruct kk; cbn [vkey]; intros (-> & _); cbn [bind]; repeat split; eexists; split; try reflexivity; discriminate. Qed.

Lemma key_ref G : forall f kk k v ty, vkey e tb kk k v -> refines (de G f e true v ty) (tkey G f ty k).
Proof using Esk.
  induction f as [|f IH]; intros kk k v ty Hk; [apply refines_none|]. cbn [de tkey].
  destruct (as_array_key kk k v Hk) as (Ha & Hd & vt & Hvt & Hnn). pose proof (any_key_event kk k v Hk) as He.
  destruct ty; try (rewrite He; unfold bindr; cbn [bind]; apply refines_ret).
  - rewrite Hvt; cbn [bind].
    assert (Hx : refines (bindr (de G f e true v ty) (fun x => Ret (Ok (SSome x)))) (pbind (tkey G f ty k) (fun x => Some (Ok (SSome x))))).
    { apply refines_bind; [eapply IH; eauto|]. intros x. apply refines_ret. }
    destruct vt; try exact Hx. congruence.
  - rewrite Ha; cbn [bind]. apply refines_ret.
  - rewrite Hd; cbn [bind]. apply refines_ret.
  - rewrite Hd; cbn [bind]. apply refines_ret.
  - rewrite Ha; cbn [bind]. apply refines_ret.
  - eapply IH; eauto.
Qed.

Hypothesis Htb : table_ok tb.
Variable q : list Z -> bool.
Hypothesis Hq : forall k, q k = true -> query_ok tb k.

Lemma contains_stored l v k : vstored e tb (TDict l) v -> q k = true ->
  match e_sk e with Some t => dict_contains_sk e v k t | None => dict_contains e v k end =
  Ret (existsb (bytes_eqb k) (map fst l)).
Proof using All.
  intros Hv Hk. specialize (Hq k Hk).
  assert (Hin : forall s, In (k, s) l -> existsb (bytes_eqb k) (map fst l) = true).
  { intros s Hs. apply existsb_exists. exists k. split; [apply in_map_iff; exists (k, s); auto|]. apply bytes_eqb_eq. reflexivity. }
  assert (Hnin : ~ In k (map fst l) -> existsb (bytes_eqb k) (map fst l) = false).
  { intros Hn. destruct (existsb _ _) eqn:E; [|reflexivity]. apply existsb_exists in E as (x & Hx & E2). apply bytes_eqb_eq in E2. subst. contradiction. }
  destruct (e_sk e) as [t|] eqn:Et.
  - unfold dict_contains_sk.
    destruct (dict_get_sk_stored e tb Hok l v k t (eq_sym Esk) Hv Htb Hq) as [(s & xv & H1 & H2 & _)|[H1 H2]]; rewrite H2; cbn [bind].
    + rewrite (Hin s H1). reflexivity.
    + rewrite (Hnin H1). reflexivity.
  - unfold dict_contains. 
    destruct (dict_get_stored e tb Hok l v k ltac:(congruence) Hv Htb Hq) as [(s & xv & H1 & H2 & _)|[H1 H2]]; rewrite H2; cbn [bind].
    + rewrite (Hin s H1). reflexivity.
    + rewrite (Hnin H1). reflexivity.
Qed.
Lemma all_contained l v : vstored e tb (TDict l) v -> forall fields : list (list Z * sty), forallb (fun fd => q (fst fd)) fields = true ->
  (fix all (fs : list (list Z * sty)) : outcome bool :=
     match fs with
     | [] => Ret true
     | f0 :: l' =>
         c <- match e_sk e with
              | Some tb => dict_contains_sk e v (fst f0) tb
              | None => dict_contains e v (fst f0)
              end ;;
         if c then all l' else Ret false
     end) fields = Ret (forallb (fun fd => existsb (bytes_eqb (fst fd)) (map fst l)) fields).
Proof using All.
  intros Hv. induction fields as [|[k ty] fields IH]; intros H; cbn [forallb fst] in *; [reflexivity|].
  apply andb_true_iff in H as [H1 H2]. rewrite (contains_stored l v k Hv H1). cbn [bind].
  destruct (existsb _ _); [apply IH; exact H2|reflexivity].
Qed.

Lemma debug_ok l v : vstored e tb (TArr l) v -> debug_fmt e v = Ret tt.
Proof using Hok Esk. intros Hv. unfold debug_fmt. rewrite (read_vstored e (TArr l) v Hok); [reflexivity|]. rewrite Esk. exact Hv. Qed.

Lemma wide_any l v : vstored e tb (TArr l) v -> exists w, arr_is_wide e v = Ret w.
Proof using Hok. intros Hv. destruct (vstored_arr e tb Hok l v Hv) as (wide & first & Hc & _). exists wide. apply (ca_wide _ _ _ _ _ _ Hc). Qed.

Theorem dtree_ref G : forall f ty t v, vstored e tb t v -> refines (de G f e false v ty) (dtree G q f ty t).
Proof using All.
  induction f as [|f IH]; intros ty t v Hv; [apply refines_none|]. cbn [de dtree].
  assert (Hseq : forall it vs l ts, yields e it vs -> Forall2 (vstored e tb) l vs ->
    refines (seq_n (fun x t => de G f e false x t) e ts it) (tseq_n (fun t ty => dtree G q f ty t) ts l)).
  { intros it vs l ts Hy HF. eapply seq_n_ref; eauto. }
  assert (Hall : forall ty it vs l, yields e it vs -> Forall2 (vstored e tb) l vs -> (length vs <= length (e_data e))%nat ->
    refines (seq_all (fun x => de G f e false x ty) e (S (S (length (e_data e)))) it) (tseq_all (dtree G q f ty) l)).
  { intros ty0 it vs l Hy HF Hlen. eapply seq_all_ref; eauto. lia. }
  destruct (any_value t v Hv) as (ev & He & Hev).
  assert (Hscal : is_coll t = false -> forall ty, refines (Ret (visit_scalar ty ev)) (Some (visit_scalar ty (tree_event t)))).
  { intros Hc ty0. destruct t; try discriminate; try (subst ev; apply refines_ret). destruct Hev as [u ->].
    cbn [tree_event]. rewrite visit_int. apply refines_ret. }
  destruct ty.
  1-9, 11, 13, 14: rewrite He; unfold bindr at 1; cbn [bind].
  - destruct t; try (apply (Hscal eq_refl)); subst ev; apply refines_ret.
  - destruct t; try (apply (Hscal eq_refl)); subst ev; apply refines_ret.
  - destruct t; try (apply (Hscal eq_refl)); subst ev; apply refines_ret.
  - destruct t; try (apply (Hscal eq_refl)); subst ev; apply refines_ret.
  - destruct t; try (apply (Hscal eq_refl)); subst ev; apply refines_ret.
  - destruct t; try (apply (Hscal eq_refl)); subst ev; apply refines_ret.
  - (* bytes *)
    destruct t; try (subst ev; apply (Hscal eq_refl)); try (destruct Hev as [u Hu]; subst ev; apply (Hscal eq_refl)); subst ev; cbn [tree_event]; [|apply refines_ret].
    destruct (arr_yields l v Hv) as (it & vs & Hit & Hy & HF & Hlen). rewrite Hit; cbn [bind].
    apply refines_bind; [eapply Hall; eauto|]. intros xs. apply refines_ret.
  - destruct t; try (apply (Hscal eq_refl)); subst ev; apply refines_ret.
  - destruct t; try (apply (Hscal eq_refl)); subst ev; apply refines_ret.
  - (* newtype *)
    destruct t; try (subst ev; apply (Hscal eq_refl)); try (destruct Hev as [u Hu]; subst ev; apply (Hscal eq_refl)); subst ev; cbn [tree_event]; [|apply refines_ret].
    destruct (arr_yields l v Hv) as (it & vs & Hit & Hy & HF & Hlen). rewrite Hit; cbn [bind].
    apply refines_bind; [eapply Hseq; eauto|]. intros xs. apply refines_ret.
  - (* tuple *)
    destruct t; try (subst ev; apply (Hscal eq_refl)); try (destruct Hev as [u Hu]; subst ev; apply (Hscal eq_refl)); subst ev; cbn [tree_event]; [|apply refines_ret].
    destruct (arr_yields l v Hv) as (it & vs & Hit & Hy & HF & Hlen). rewrite Hit; cbn [bind].
    apply refines_bind; [eapply Hseq; eauto|]. intros xs. apply refines_ret.
  - (* tuple struct *)
    destruct t; try (subst ev; apply (Hscal eq_refl)); try (destruct Hev as [u Hu]; subst ev; apply (Hscal eq_refl)); subst ev; cbn [tree_event]; [|apply refines_ret].
    destruct (arr_yields l v Hv) as (it & vs & Hit & Hy & HF & Hlen). rewrite Hit; cbn [bind].
    apply refines_bind; [eapply Hseq; eauto|]. intros xs. apply refines_ret.
  - (* option *)
    destruct (type_null t v Hv) as (vt & Hvt & Hnull). rewrite Hvt; cbn [bind].
    assert (Hx : refines (bindr (de G f e false v ty) (fun x => Ret (Ok (SSome x)))) (pbind (dtree G q f ty t) (fun x => Some (Ok (SSome x))))).
    { apply refines_bind; [apply IH; exact Hv|]. intros x. apply refines_ret. }
    destruct t; destruct vt; try exact Hx; try (exfalso; destruct Hnull as [Hn1 Hn2]; first [discriminate (Hn1 eq_refl)|discriminate (Hn2 eq_refl)]).
    apply refines_ret.
  - (* seq *)
    rewrite (as_array_any e tb Hok t v Hv); cbn [bind]. destruct t; try apply refines_ret.
    destruct (arr_yields l v Hv) as (it & vs & Hit & Hy & HF & Hlen). rewrite Hit; cbn [bind].
    apply refines_bind; [eapply Hall; eauto|]. intros xs. apply refines_ret.
  - (* map *)
    rewrite (as_dict_any e tb Hok t v Hv); cbn [bind]. destruct t; try apply refines_ret.
    destruct (dict_yields l v Hv) as (it & vs & Hit & Hy & HF & Hlen). rewrite Hit; cbn [bind].
    apply refines_bind; [|intros xs; apply refines_ret].
    eapply map_all_ref; eauto; [|lia]. intros kk k x Hk. eapply key_ref; eauto.
  - (* struct *)
    rewrite (as_dict_any e tb Hok t v Hv); cbn [bind]. destruct t; try apply refines_ret.
    destruct (dict_yields l v Hv) as (it & vs & Hit & Hy & HF & Hlen). rewrite Hit; cbn [bind].
    apply refines_bind; [|intros xs; apply refines_ret]. eapply struct_ref; eauto. lia.
  - (* enum *)
    rewrite (as_array_any e tb Hok t v Hv); cbn [bind]. destruct t; try apply refines_ret.
    destruct l as [|t0 rest]; [apply refines_none|].
    destruct (wide_any _ v Hv) as (w & Hw). rewrite Hw; cbn [bind].
    destruct (arr_get_stored e tb Hok _ v 0 t0 Hv (nthZ_cons_0 _ _)) as (x0 & _ & Hx0 & Hv0). rewrite Hx0; cbn [bind].
    rewrite (debug_ok _ v Hv); cbn [bind]. rewrite de_new_resolve, (resolve_nonptr e x0 w) by (eapply vstored_nonptr; eauto). cbn [bind].
    destruct (any_value t0 x0 Hv0) as (ev0 & He0 & Hev0). rewrite He0. unfold bindr at 1; cbn [bind]. unfold bindr at 1; cbn [bind].
    destruct t0; try (subst ev0; apply refines_ret); try apply refines_none; subst ev0; cbn [tree_event ident].
    all: destruct (existsb (bytes_eqb s) (map fst variants)); [|apply refines_ret].
    all: cbv zeta; destruct (lookup s variants) as [vt|]; [|apply refines_none].
    all: destruct vt as [|ty|ts|fields].
    1, 5: rewrite (arr_len_stored e tb Hok _ v Hv); cbn [bind]; rewrite lenZ_cons; pose proof (lenZ_nonneg rest);
        (destruct rest as [|t1 rest]; [apply refines_ret|]); rewrite lenZ_cons in *; pose proof (lenZ_nonneg rest);
        (destruct (lenZ rest + 1 + 1 =? 1) eqn:E; [lia|]); apply refines_ret.
    all: destruct rest as [|t1 rest]; [apply refines_none|];
        destruct (arr_get_stored e tb Hok _ v 1 t1 Hv eq_refl) as (x1 & _ & Hx1 & Hv1); rewrite Hx1; cbn [bind].
    1, 4: rewrite de_new_resolve, (resolve_nonptr e x1 w) by (eapply vstored_nonptr; eauto); cbn [bind];
        (apply refines_bind; [apply IH; exact Hv1|]); intros y; apply refines_ret.
    1, 3: rewrite (as_array_any e tb Hok t1 x1 Hv1); cbn [bind]; destruct t1; try apply refines_ret;
        rewrite (arr_len_stored e tb Hok _ x1 Hv1); cbn [bind]; (destruct (lenZ l =? lenZ ts); [|apply refines_ret]);
        rewrite de_new_resolve, (resolve_nonptr e x1 w) by (eapply vstored_nonptr; eauto); cbn [bind];
        destruct (arr_yields l x1 Hv1) as (it & vs & Hit & Hy & HF & Hlen); rewrite Hit; cbn [bind];
        (apply refines_bind; [eapply Hseq; eauto|]); intros xs; apply refines_ret.
    all: rewrite (as_dict_any e tb Hok t1 x1 Hv1); cbn [bind]; destruct t1; try apply refines_ret;
        rewrite (dict_len_stored e tb Hok _ x1 Hv1); cbn [bind]; (destruct (forallb (fun fd => q (fst fd)) fields) eqn:Eq; [|apply refines_none]);
        (destruct (lenZ l =? lenZ fields); cbn [andb bind]; [|apply refines_ret]);
        rewrite (all_contained l x1 Hv1 fields Eq); cbn [bind];
        (destruct (forallb (fun fd => existsb (bytes_eqb (fst fd)) (map fst l)) fields); [|apply refines_ret]);
        rewrite de_new_resolve, (resolve_nonptr e x1 w) by (eapply vstored_nonptr; eauto); cbn [bind];
        destruct (dict_yields l x1 Hv1) as (it & vs & Hit & Hy & HF & Hlen); rewrite Hit; cbn [bind];
        (apply refines_bind; [|intros xs; apply refines_ret]); eapply struct_ref; eauto; lia.
  - apply IH. exact Hv.
Qed.
End Doc.
End KP.
