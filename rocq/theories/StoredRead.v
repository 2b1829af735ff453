(** Reading and validating stored values. *)
From Verif Require Import Prelude Lib Varint VarintProofs Utf8 Float SharedKeys
  Decode Read Encodable Holds Repr EncodableProofs Stored.
From Coq Require Import ZifyBool ZifyNat ZifyN Sorted.
Ltac Zify.zify_post_hook ::= Z.div_mod_to_equations.

Section KP.
Context {SP : KeyPred}.

(* ---------- lists ---------- *)

Lemma list_choice {A B} (R : Z -> A -> B -> Prop) (l : list A) :
  (forall i x, nthZ l i = Some x -> exists y, R i x y) ->
  exists m, lenZ m = lenZ l /\
    forall i x, nthZ l i = Some x -> exists y, nthZ m i = Some y /\ R i x y.
Proof.
  revert R. induction l as [|a l IH]; intros R H.
  - exists []. split; [reflexivity|]. intros i x Hx. apply nthZ_Some in Hx. cbn in Hx. lia.
  - destruct (H 0 a (nthZ_cons_0 a l)) as (y0 & Hy0).
    destruct (IH (fun i x y => R (i + 1) x y)) as (m & Hm & Hr).
    { intros i x Hx. apply H. apply nthZ_Some in Hx as Hb. rewrite nthZ_cons_S by lia.
      replace (i + 1 - 1) with i by lia. exact Hx. }
    exists (y0 :: m). split; [rewrite !lenZ_cons; lia|].
    intros i x Hx. apply nthZ_Some in Hx as Hb. destruct (Z.eq_dec i 0) as [->|Hi].
    + rewrite nthZ_cons_0 in Hx. injection Hx as <-. exists y0. split; [reflexivity|exact Hy0].
    + rewrite nthZ_cons_S in Hx by lia. destruct (Hr _ _ Hx) as (y & Hy & HR).
      exists y. rewrite nthZ_cons_S by lia. split; [exact Hy|].
      replace (i - 1 + 1) with i in HR by lia. exact HR.
Qed.

Lemma nth_Forall2 {A B} (R : A -> B -> Prop) (l : list A) (m : list B) :
  lenZ m = lenZ l ->
  (forall i x, nthZ l i = Some x -> exists y, nthZ m i = Some y /\ R x y) ->
  Forall2 R l m.
Proof.
  revert m; induction l as [|a l IH]; intros m Hl H.
  - rewrite (lenZ_0 m) by exact Hl. constructor.
  - destruct m as [|b m]; [rewrite lenZ_cons, lenZ_nil in Hl; pose proof (lenZ_nonneg l); lia|].
    constructor.
    + destruct (H 0 a (nthZ_cons_0 a l)) as (y & Hy & HR). rewrite nthZ_cons_0 in Hy.
      injection Hy as <-. exact HR.
    + apply IH; [rewrite !lenZ_cons in Hl; lia|]. intros i x Hx. apply nthZ_Some in Hx as Hb.
      destruct (H (i + 1) x) as (y & Hy & HR).
      { rewrite nthZ_cons_S by lia. replace (i + 1 - 1) with i by lia. exact Hx. }
      rewrite nthZ_cons_S in Hy by lia. replace (i + 1 - 1) with i in Hy by lia. eauto.
Qed.

Lemma mapM_Forall2 {A B} (f : A -> outcome B) (l : list A) (m : list B) :
  Forall2 (fun x y => f x = Ret y) l m -> mapM f l = Ret m.
Proof.
  induction 1 as [|x y l m Hxy H IH]; [reflexivity|]. cbn [mapM]. rewrite Hxy; cbn [bind].
  rewrite IH; reflexivity.
Qed.

(* ---------- iteration ---------- *)

Lemma iter_list e w wide : (w =? 4) = wide -> forall vs cur i n k,
  n = i + lenZ vs -> (length vs < k)%nat ->
  (forall j v, nthZ vs j = Some v -> resolve e (V (cur + j * w) w) wide = Ret v) ->
  iter_collect k e
    (mk_aiter (match vs with [] => None | _ => Some (V cur w) end) w i n) = Ret vs.
Proof.
  intros Hw. induction vs as [|v vs IH]; intros cur i n k Hn Hk H.
  - destruct k; [cbn [length] in Hk; lia|]. cbn [iter_collect]. unfold iter_next; cbn [it_next bind].
    reflexivity.
  - destruct k; [cbn [length] in Hk; lia|]. cbn [iter_collect]. unfold iter_next; cbn [it_next it_len it_index it_width].
    rewrite lenZ_cons in Hn. pose proof (lenZ_nonneg vs).
    destruct (n <=? i) eqn:E; [lia|].
    pose proof (H 0 v (nthZ_cons_0 v vs)) as Hr0. replace (cur + 0 * w) with cur in Hr0 by lia. rewrite Hw, Hr0.
    cbn [bind].
    specialize (IH (cur + w) (i + 1) n k).
    replace (if i + 1 <? n then Some (V (v_pos (V cur w) + w) w) else None)
      with (match vs with [] => None | _ => Some (V (cur + w) w) end).
    + rewrite IH; [reflexivity|lia|cbn [length] in Hk; lia|].
      intros j x Hx. apply nthZ_Some in Hx as Hb.
      rewrite <- (H (j + 1) x); [f_equal; f_equal; lia|].
      rewrite nthZ_cons_S by lia. replace (j + 1 - 1) with j by lia. exact Hx.
    + destruct vs as [|x vs']; [rewrite lenZ_nil in Hn; destruct (i + 1 <? n) eqn:E2; [lia|reflexivity]|].
      rewrite lenZ_cons in Hn. pose proof (lenZ_nonneg vs'). destruct (i + 1 <? n) eqn:E2; [reflexivity|lia].
Qed.

(** What one dict entry looks like through [resolve]. *)
Definition dentry_at (e : env) (tb : option shared_keys) (cur w : Z) (wide : bool)
  (x : entry) (xv : val) : Prop :=
  exists kv, resolve e (V cur w) wide = Ret kv /\ vkey e tb (fst x) (fst (snd x)) kv /\
             resolve e (V (cur + w) w) wide = Ret xv.

Lemma dict_next_at e cur w wide x xv i n :
  (w =? 4) = wide -> dentry_at e (e_sk e) cur w wide x xv -> i + 2 <= n ->
  dict_iter_next e (mk_aiter (Some (V cur w)) w i n) =
  Ret (Some (fst (snd x), xv),
       mk_aiter (if i + 2 <? n then Some (V (cur + 2 * w) w) else None) w (i + 2) n).
Proof.
  intros Hw (kv & Hk & Hkey & Hx) Hn. unfold dict_iter_next, iter_next.
  cbn [it_next it_len it_index it_width]. destruct (n <=? i) eqn:E; [lia|].
  rewrite Hw, Hk; cbn [bind v_pos]. destruct (i + 1 <? n) eqn:E1; [|lia].
  assert (Hdec : (t <- value_type e kv ;;
     (if vtype_eqb t TyShort then
        match e_sk e with
        | Some tb => i <- to_unsigned_short e kv ;; Ret (sk_decode tb i)
        | None => Ret None
        end
      else s <- to_str e kv ;; Ret (Some s))) = Ret (Some (fst (snd x)))).
  { destruct (fst x) as [j|s]; cbn [vkey] in Hkey.
    - destruct Hkey as (Ht & Hu & t & Etb & Hd). rewrite Ht; cbn [bind vtype_eqb]. rewrite Etb, Hu; cbn [bind].
      rewrite Hd. reflexivity.
    - destruct Hkey as (Ht & Hs & -> & _). rewrite Ht; cbn [bind vtype_eqb]. rewrite Hs; reflexivity. }
  destruct (value_type e kv) as [t| | |]; cbn [bind] in Hdec |- *; try discriminate.
  match type of Hdec with ?m = _ => replace m with (@Ret (option (list Z)) (Some (fst (snd x)))) end.
  cbn [bind it_next it_len it_index it_width]. destruct (n <=? i + 1) eqn:E2; [lia|].
  rewrite Hw, Hx; cbn [bind v_pos].
  replace (i + 1 + 1) with (i + 2) by lia. replace (cur + w + w) with (cur + 2 * w) by lia. reflexivity.
Qed.

Lemma dict_list e w wide : (w =? 4) = wide -> forall (kts : list entry) vs cur i n k,
  lenZ vs = lenZ kts -> n = i + 2 * lenZ kts -> (length kts < k)%nat ->
  (forall j x, nthZ kts j = Some x -> exists v, nthZ vs j = Some v /\
     dentry_at e (e_sk e) (cur + 2 * j * w) w wide x v) ->
  dict_collect k e
    (mk_aiter (match kts with [] => None | _ => Some (V cur w) end) w i n)
  = Ret (combine (map (fun x => fst (snd x)) kts) vs).
Proof.
  intros Hw. induction kts as [|x kts IH]; intros vs cur i n k Hl Hn Hk H.
  - destruct k; [cbn [length] in Hk; lia|]. reflexivity.
  - destruct k; [cbn [length] in Hk; lia|].
    destruct vs as [|v vs]; [rewrite lenZ_cons, lenZ_nil in Hl; pose proof (lenZ_nonneg kts); lia|].
    rewrite !lenZ_cons in *. pose proof (lenZ_nonneg kts).
    cbn [dict_collect].
    destruct (H 0 x (nthZ_cons_0 x kts)) as (v0 & Hv0 & Hd). rewrite nthZ_cons_0 in Hv0. injection Hv0 as <-.
    replace (cur + 2 * 0 * w) with cur in Hd by lia.
    rewrite (dict_next_at e cur w wide x v i n Hw Hd) by lia. cbn [bind].
    replace (if i + 2 <? n then Some (V (cur + 2 * w) w) else None)
      with (match kts with [] => None | _ => Some (V (cur + 2 * w) w) end).
    + rewrite (IH vs (cur + 2 * w) (i + 2) n k); [reflexivity|lia|lia|cbn [length] in Hk; lia|].
      intros j y Hy. apply nthZ_Some in Hy as Hb.
      destruct (H (j + 1) y) as (u & Hu & Hdu).
      { rewrite nthZ_cons_S by lia. replace (j + 1 - 1) with j by lia. exact Hy. }
      exists u. rewrite nthZ_cons_S in Hu by lia. replace (j + 1 - 1) with j in Hu by lia.
      split; [exact Hu|]. replace (cur + 2 * w + 2 * j * w) with (cur + 2 * (j + 1) * w) by lia. exact Hdu.
    + destruct kts as [|y kts']; [rewrite lenZ_nil in Hn; destruct (i + 2 <? n) eqn:E2; [lia|reflexivity]|].
      rewrite lenZ_cons in Hn. pose proof (lenZ_nonneg kts'). destruct (i + 2 <? n) eqn:E2; [reflexivity|lia].
Qed.

(* ---------- collections in the buffer ---------- *)

(** The concrete facts about an array or dict header in the buffer. *)
Record coll_at (e : env) (v : val) (ty : vtype) (n : Z) (wide : bool) (first : Z) : Prop := {
  ca_type : value_type e v = Ret ty;
  ca_wide : arr_is_wide e v = Ret wide;
  ca_len : arr_len e v = Ret n;
  ca_fp : first_pos e v = Ret (first - v_pos v);
  ca_first : v_pos v + 2 <= first;
  ca_n : 0 <= n;
  ca_end : first + n * width_of wide <= lenZ (e_data e);
  ca_pos : 0 <= v_pos v;
}.

Lemma hdr_coll_at e p len (is_dict : bool) m wide :
  env_ok e -> 0 <= m ->
  holds (e_data e) p (hdr_bytes (if is_dict then 112 else 96) m wide) ->
  p + hdr_size m + (if is_dict then 2 * m else m) * width_of wide <= lenZ (e_data e) ->
  p + hdr_size m <= p + len ->
  coll_at e (V p len) (if is_dict then TyDict else TyArray) (if is_dict then 2 * m else m) wide
    (p + hdr_size m).
Proof.
  intros (_ & _ & H63) Hm Hh Hend Hlen.
  pose proof (holds_bounds _ _ _ Hh) as [Hp _]. pose proof (width_bounds wide) as [Hw _].
  assert (Hs0 : 2 <= hdr_size m).
  { unfold hdr_size. destruct (2047 <=? m) eqn:E; [|lia]. unfold varint_size.
    destruct (m =? 0); [lia|]. pose proof (Z.log2_nonneg m). lia. }
  assert (Hm63 : 0 <= m < two63) by (destruct is_dict; nia).
  assert (Htag : (if is_dict then 112 else 96) = 96 \/ (if is_dict then 112 else 96) = 112)
    by (destruct is_dict; lia).
  assert (Hl2 : hdr_size m <= len) by lia.
  pose proof (hdr_type e p len _ m wide Hm63 Htag Hh Hl2) as Ht.
  pose proof (hdr_wide e p len _ m wide Hm63 Htag Hh Hl2) as Hwd.
  pose proof (hdr_arr_len e p len _ m wide Hm63 Htag Hh Hl2) as Hal.
  pose proof (hdr_first e p len _ m wide Hm63 Htag Hh Hl2) as Hf.
  split; cbn [v_pos]; auto; try lia.
  - rewrite Ht. destruct is_dict; reflexivity.
  - rewrite Hal. destruct is_dict; reflexivity.
  - rewrite Hf. f_equal. lia.
  - destruct is_dict; lia.
Qed.

Lemma width_is4 wide : (width_of wide =? 4) = wide.
Proof. destruct wide; reflexivity. Qed.

Lemma coll_iter e v ty n wide first :
  coll_at e v ty n wide first ->
  arr_iter e v = Ret (mk_aiter (if 0 <? n then Some (V first (width_of wide)) else None)
                        (width_of wide) 0 n).
Proof.
  intros [Ht Hw Hl Hf H2 Hn He Hp]. unfold arr_iter. rewrite Hl; cbn [bind]. rewrite Hw; cbn [bind].
  destruct (n =? 0) eqn:E; destruct (0 <? n) eqn:E2; try lia; [reflexivity|].
  rewrite Hf; cbn [bind]. replace (v_pos v + (first - v_pos v)) with first by lia. reflexivity.
Qed.

Lemma coll_get_unchecked e v ty n wide first i :
  env_ok e -> coll_at e v ty n wide first -> 0 <= i < n ->
  arr_get_unchecked e v i = resolve e (V (first + i * width_of wide) (width_of wide)) wide.
Proof.
  intros (_ & _ & H63) [Ht Hw Hl Hf H2 Hn He Hp] Hi. unfold arr_get_unchecked. rewrite Hw; cbn [bind].
  pose proof (width_bounds wide) as [Hwb _].
  assert (Hb : i * width_of wide <= n * width_of wide) by nia.
  assert (Hb0 : 0 <= i * width_of wide) by nia.
  unfold usize_mul. unfold two63, two64 in *.
  destruct (i * width_of wide <? 18446744073709551616) eqn:E1; [|lia]. cbn [bind].
  rewrite Hf; cbn [bind]. unfold usize_add, two64.
  destruct (first - v_pos v + i * width_of wide <? 18446744073709551616) eqn:E2; [|lia]. cbn [bind].
  f_equal. f_equal. unfold wrap_i64, two63, two64. rewrite Z.mod_small by lia. lia.
Qed.

Lemma coll_array_elems e v n wide first vs :
  coll_at e v TyArray n wide first -> lenZ vs = n ->
  (forall j x, nthZ vs j = Some x ->
     resolve e (V (first + j * width_of wide) (width_of wide)) wide = Ret x) ->
  arr_elems e v = Ret vs.
Proof.
  intros Hc Hl H. unfold arr_elems. rewrite (coll_iter _ _ _ _ _ _ Hc); cbn [bind].
  destruct Hc as [Ht Hw Hln Hf H2 Hn He Hp]. pose proof (width_bounds wide) as [Hwb _].
  replace (if 0 <? n then Some (V first (width_of wide)) else None)
    with (match vs with [] => None | _ => Some (V first (width_of wide)) end).
  - apply (iter_list e (width_of wide) wide (width_is4 wide)); [lia| |exact H].
    unfold lenZ in *. nia.
  - destruct vs as [|x vs']; [change (lenZ (@nil entry)) with 0 in *; change (lenZ (@nil val)) with 0 in *; destruct (0 <? n) eqn:E; [lia|reflexivity]|].
    rewrite lenZ_cons in Hl. pose proof (lenZ_nonneg vs'). destruct (0 <? n) eqn:E; [reflexivity|lia].
Qed.

Lemma coll_dict_elems e v n wide first (kts : list entry) vs :
  coll_at e v TyDict n wide first -> n = 2 * lenZ kts -> lenZ vs = lenZ kts ->
  (forall j x, nthZ kts j = Some x -> exists xv, nthZ vs j = Some xv /\
     dentry_at e (e_sk e) (first + 2 * j * width_of wide) (width_of wide) wide x xv) ->
  dict_elems e v = Ret (combine (map (fun x => fst (snd x)) kts) vs).
Proof.
  intros Hc Hl Hl2 H. unfold dict_elems. rewrite (coll_iter _ _ _ _ _ _ Hc); cbn [bind].
  destruct Hc as [Ht Hw Hln Hf H2 Hn He Hp]. pose proof (width_bounds wide) as [Hwb _].
  replace (if 0 <? n then Some (V first (width_of wide)) else None)
    with (match kts with [] => None | _ => Some (V first (width_of wide)) end).
  - apply (dict_list e (width_of wide) wide (width_is4 wide)); [lia|lia| |exact H].
    unfold lenZ in *. nia.
  - destruct kts as [|x kts']; [change (lenZ (@nil entry)) with 0 in *; change (lenZ (@nil val)) with 0 in *; destruct (0 <? n) eqn:E; [lia|reflexivity]|].
    rewrite lenZ_cons in Hl. pose proof (lenZ_nonneg kts'). destruct (0 <? n) eqn:E; [reflexivity|lia].
Qed.

(* ---------- read_tree ---------- *)

Lemma read_stored_aux e : env_ok e ->
  (forall t p lim, stored (e_data e) (e_sk e) t p lim ->
     forall f len, p + 1 < Z.of_nat f -> lim <= p + len -> read_tree f e (V p len) = Ret t) /\
  (forall wide b q t, slot (e_data e) (e_sk e) wide b q t ->
     b <= q -> exists v, resolve e (V q (width_of wide)) wide = Ret v /\
       vstored e (e_sk e) t v /\
       forall f, 0 <= b < Z.of_nat f -> read_tree f e v = Ret t).
Proof.
  intros Hok.
  apply (stored_slot_ind (e_data e) (e_sk e)
    (fun t p lim _ => forall f len, p + 1 < Z.of_nat f -> lim <= p + len -> read_tree f e (V p len) = Ret t)
    (fun wide b q t _ => b <= q -> exists v, resolve e (V q (width_of wide)) wide = Ret v /\
       vstored e (e_sk e) t v /\ forall f, 0 <= b < Z.of_nat f -> read_tree f e v = Ret t)).
  - intros t bs p Hr Hh Hp f len Hf Hl. apply holds_bounds in Hh as Hb. pose proof (lenZ_nonneg bs).
    destruct f; [lia|]. destruct Hr as (_ & _ & Hr).
    destruct (Hr e p len Hh) as (Ht & _); [lia|]. apply Ht.
  - intros ts p wide Hp Hh Hlim Hsl IH f len Hf Hl.
    pose proof (holds_bounds _ _ _ Hh) as [Hp0 _]. destruct f; [lia|]. pose proof (width_bounds wide) as [Hw _].
    pose proof (lenZ_nonneg ts).
    assert (Hc : coll_at e (V p len) TyArray (lenZ ts) wide (p + hdr_size (lenZ ts))).
    { apply (hdr_coll_at e p len false (lenZ ts) wide); auto; try lia; try nia. }
    destruct (list_choice (fun i t v =>
        resolve e (V (p + hdr_size (lenZ ts) + i * width_of wide) (width_of wide)) wide = Ret v /\
        forall f, 0 <= p < Z.of_nat f -> read_tree f e v = Ret t) ts) as (vs & Hlv & Hvs).
    { intros i t Hi. apply nthZ_Some in Hi as Hb.
      destruct (IH i t Hi) as (v & Hv & _ & Hr).
      - destruct Hc as [_ _ _ _ H2 _ _ _]. cbn [v_pos] in H2. nia.
      - eauto. }
    cbn [read_tree]. rewrite (ca_type _ _ _ _ _ _ Hc); cbn [bind].
    rewrite (coll_array_elems e (V p len) (lenZ ts) wide _ vs Hc Hlv).
    + cbn [bind]. rewrite (mapM_Forall2 _ vs ts); [reflexivity|].
      apply nth_Forall2; [lia|]. intros i v Hi. apply nthZ_Some in Hi as Hb.
      destruct (nthZ_in ts i) as [t Ht]; [lia|].
      destruct (Hvs i t Ht) as (v' & Hv' & _ & Hr). rewrite Hi in Hv'. injection Hv' as <-.
      exists t. split; [exact Ht|]. apply Hr. lia.
    + intros j x Hj. apply nthZ_Some in Hj as Hb. destruct (nthZ_in ts j) as [t Ht]; [lia|].
      destruct (Hvs j t Ht) as (v' & Hv' & Hr & _). rewrite Hj in Hv'. injection Hv' as <-. exact Hr.
  - intros kts p wide Hp Hh Hlim Hsrt Hk Hsl IH f len Hf Hl.
    pose proof (holds_bounds _ _ _ Hh) as [Hp0 _]. destruct f; [lia|]. pose proof (width_bounds wide) as [Hw _].
    pose proof (lenZ_nonneg kts).
    assert (Hc : coll_at e (V p len) TyDict (2 * lenZ kts) wide (p + hdr_size (lenZ kts))).
    { apply (hdr_coll_at e p len true (lenZ kts) wide); auto; try lia; try nia. }
    assert (H2 : p + 2 <= p + hdr_size (lenZ kts)) by (destruct Hc as [_ _ _ _ H2 _ _ _]; exact H2).
    destruct (list_choice (fun i x v =>
        dentry_at e (e_sk e) (p + hdr_size (lenZ kts) + 2 * i * width_of wide) (width_of wide) wide x v /\
        forall f, 0 <= p < Z.of_nat f -> read_tree f e v = Ret (snd (snd x))) kts) as (vs & Hlv & Hvs).
    { intros i [kk [k t]] Hi. apply nthZ_Some in Hi as Hb.
      destruct (IH i kk k t Hi) as (v & Hv & _ & Hr); [nia|].
      assert (Hbq : p <= p + hdr_size (lenZ kts) + 2 * i * width_of wide) by nia.
      destruct (key_slot_resolve e (e_sk e) wide p _ kk k Hok Hbq (Hk i kk k t Hi)) as (kv & Hkv & Hkey).
      exists v. split; [|exact Hr]. exists kv. cbn [fst snd]. split; [exact Hkv|]. split; [exact Hkey|].
      rewrite <- Hv. f_equal. f_equal. lia. }
    cbn [read_tree]. rewrite (ca_type _ _ _ _ _ _ Hc); cbn [bind].
    rewrite (coll_dict_elems e (V p len) (2 * lenZ kts) wide _ kts vs Hc eq_refl Hlv).
    + cbn [bind]. rewrite (mapM_Forall2 _ _ (map snd kts)); [reflexivity|].
      apply nth_Forall2.
      * rewrite lenZ_map. unfold lenZ in *. rewrite combine_length, map_length. unfold entry in *. lia.
      * intros i [k v] Hi.
        assert (Hi' : 0 <= i < lenZ kts).
        { apply nthZ_Some in Hi. unfold lenZ in Hi. rewrite combine_length, map_length in Hi. unfold lenZ, entry in *. lia. }
        destruct (nthZ_in kts i Hi') as [[kk [k' t]] Hx].
        destruct (Hvs i _ Hx) as (v' & Hv' & _ & Hr).
        exists (k', t). split; [rewrite nthZ_map; change (option_map snd (@nthZ entry kts i) = Some (k', t)); rewrite Hx; reflexivity|].
        assert (Hkv : k = k' /\ v = v').
        { unfold nthZ in *. destruct (i <? 0); [discriminate|].
          assert (E : nth_error (combine (map (fun x : entry => fst (snd x)) kts) vs) (Z.to_nat i) = Some (k', v')).
          { clear - Hx Hv'. revert vs kts Hx Hv'. induction (Z.to_nat i) as [|m IHm]; intros vs kts Hx Hv';
              destruct kts as [|y kts], vs as [|u vs]; try discriminate; cbn [nth_error map combine] in *.
            - injection Hx as ->. injection Hv' as ->. reflexivity.
            - apply IHm; assumption. }
          pose proof (eq_trans (eq_sym Hi) E) as E2. injection E2 as -> ->. auto. }
        destruct Hkv as [-> ->]. cbn [fst snd]. cbn [snd] in Hr. rewrite (Hr f) by lia. reflexivity.
    + intros j x Hj. destruct (Hvs j x Hj) as (v & Hv & Hd & _). eauto.
  - intros wide b q t b0 b1 Hr Hh Hb. pose proof (width_bounds wide) as [Hw _].
    exists (V q (width_of wide)). split; [|split].
    + apply resolve_nonptr. eapply repr_type_nonptr; eauto. cbn; lia.
    + left. exists [b0; b1]. cbn [v_pos v_len]. split; [exact Hr|]. split; [exact Hh|]. cbn; lia.
    + intros f Hf. destruct f; [lia|]. destruct Hr as (_ & _ & Hr).
      destruct (Hr e q (width_of wide) Hh) as (Ht & _); [cbn; lia|]. apply Ht.
  - intros wide b q t off lim Ho He Hlt Hh Hst IH Hlim Hb.
    pose proof (stored_bounds _ _ _ _ _ Hst). pose proof (width_bounds wide) as [Hw _].
    exists (V (q - off) off). split; [|split].
    + apply resolve_ptr; try assumption; try lia. eapply stored_nonptr; eauto. lia.
    + right. exists lim. cbn [v_pos v_len]. split; [exact Hst|lia].
    + intros f Hf. apply IH; lia.
Qed.

Lemma read_stored e t p lim len f :
  env_ok e -> stored (e_data e) (e_sk e) t p lim -> lim <= p + len -> p + 1 < Z.of_nat f ->
  read_tree f e (V p len) = Ret t.
Proof. intros Hok Hs Hl Hf. destruct (read_stored_aux e Hok) as [H _]. eapply H; eauto. Qed.

Lemma read_vstored e t v :
  env_ok e -> vstored e (e_sk e) t v -> read_doc e v = Ret t.
Proof.
  intros Hok [(bs & Hr & Hh & Hl)|(lim & Hs & Hl)]; destruct v as [p len]; cbn [v_pos v_len] in *;
    unfold read_doc.
  - destruct Hr as (_ & _ & Hr). destruct (Hr e p len Hh Hl) as (Ht & _).
    unfold fuel_of. apply Ht.
  - eapply read_stored; eauto. apply stored_lim in Hs as Hb. apply stored_bounds in Hs.
    unfold fuel_of. unfold lenZ in Hb. lia.
Qed.

(* ---------- validate ---------- *)

Lemma elems_loop_ok step w : forall m k i n cur,
  Z.of_nat m = n - i -> (m < k)%nat ->
  (forall j, 0 <= j < n - i -> step (cur + j * w) = Ret (Ok tt)) ->
  elems_loop step k i n cur w = Ret (Ok tt).
Proof.
  induction m as [|m IH]; intros k i n cur Hm Hk H.
  - destruct k; [lia|]. cbn [elems_loop]. destruct (i <? n) eqn:E; [lia|reflexivity].
  - destruct k; [lia|]. cbn [elems_loop]. destruct (i <? n) eqn:E; [|lia].
    replace cur with (cur + 0 * w) at 1 by lia. rewrite H by lia. cbn [bindr].
    apply IH; [lia|lia|]. intros j Hj. replace (cur + w + j * w) with (cur + (j + 1) * w) by lia.
    apply H; lia.
Qed.

Lemma validate_coll e f is_elem is_wide v ty n wide first dend :
  env_ok e -> coll_at e v ty n wide first -> ty = TyArray \/ ty = TyDict ->
  first + n * width_of wide <= dend ->
  (forall j, 0 <= j < n ->
     exists x, from_raw e (first + j * width_of wide) (width_of wide) = Ret (Ok x) /\
       validate f e true wide x (first + j * width_of wide + width_of wide) = Ret (Ok tt)) ->
  validate (S f) e is_elem is_wide v dend = Ret (Ok tt).
Proof.
  intros (Hb0 & Hb1 & H63) [Ht Hw Hl Hf H2 Hn He Hp] Hty Hend H.
  pose proof (width_bounds wide) as [Hwb _].
  assert (Hnw : 0 <= n * width_of wide) by nia.
  assert (Hgo : (wide0 <- arr_is_wide e v ;;
          let width := width_of wide0 in
          n0 <- arr_len e v ;;
          fp <- first_pos e v ;;
          let first0 := v_pos v + fp in
          bytes <- usize_mul (e_dbg e) n0 width ;;
          lim <- usize_add (e_dbg e) (e_base e + first0) bytes ;;
          if e_base e + dend <? lim then
            _ <- usize_sub (e_dbg e) (e_base e + dend) (e_base e + first0) ;;
            Ret (Err ArrayOutOfBounds)
          else
            elems_loop
              (fun cur =>
                 x <-? from_raw e cur width ;;
                 validate f e true wide0 x (cur + width))
              (S (S (length (e_data e)))) 0 n0 first0 width) = Ret (Ok tt)).
  { rewrite Hw; cbn [bind]. cbv zeta. rewrite Hl; cbn [bind]. rewrite Hf; cbn [bind].
    replace (v_pos v + (first - v_pos v)) with first by lia.
    unfold usize_mul, usize_add. unfold two63, two64 in *.
    destruct (n * width_of wide <? 18446744073709551616) eqn:E1; [|lia]. cbn [bind].
    destruct (e_base e + first + n * width_of wide <? 18446744073709551616) eqn:E2; [|lia]. cbn [bind].
    destruct (e_base e + dend <? e_base e + first + n * width_of wide) eqn:E3; [lia|].
    apply (elems_loop_ok _ _ (Z.to_nat n)); [lia|unfold lenZ in *; nia|].
    intros j Hj. destruct (H j) as (x & Hx & Hv); [lia|]. rewrite Hx; cbn [bindr]. exact Hv. }
  cbn [validate]. rewrite Ht; cbn [bind]. destruct Hty as [-> | ->]; exact Hgo.
Qed.

Lemma from_raw_ok e p w n : 2 <= w -> required_size e (V p w) = Ret n -> n <= w ->
  from_raw e p w = Ret (Ok (V p w)).
Proof.
  intros Hw Hr Hn. unfold from_raw; cbn [v_len]. destruct (w <? 2) eqn:E; [lia|].
  rewrite Hr; cbn [bind]. destruct (w <? n) eqn:E2; [lia|reflexivity].
Qed.

Lemma validate_scalar_elem e f is_wide v dend ty :
  value_type e v = Ret ty -> scalar_ty ty = true ->
  validate (S f) e true is_wide v dend = Ret (Ok tt).
Proof.
  intros Ht Hs. cbn [validate]. rewrite Ht; cbn [bind]. destruct ty; try discriminate; reflexivity.
Qed.

Lemma validate_scalar e f is_wide p len t bs dend :
  env_ok e -> repr t bs -> holds (e_data e) p bs -> lenZ bs <= len -> p + lenZ bs <= dend ->
  validate (S f) e false is_wide (V p len) dend = Ret (Ok tt).
Proof.
  intros (Hb0 & Hb1 & _) (_ & _ & Hr) Hh Hl Hd. destruct (Hr e p len Hh Hl) as (_ & Hsz & ty & Ht & Hs).
  apply holds_bounds in Hh.
  assert (Hgo : (n <- required_size e (V p len) ;;
            en <- usize_add (e_dbg e) (e_base e + v_pos (V p len)) n ;;
            if en <=? e_base e + dend then Ret (Ok tt)
            else
              _ <- usize_sub (e_dbg e) (e_base e + dend) (e_base e + v_pos (V p len)) ;;
              Ret (Err ValueOutOfBounds)) = Ret (Ok tt)).
  { rewrite Hsz; cbn [bind v_pos]. unfold usize_add. unfold two64 in *.
    destruct (e_base e + p + lenZ bs <? 18446744073709551616) eqn:E; [|lia]. cbn [bind].
    destruct (e_base e + p + lenZ bs <=? e_base e + dend) eqn:E2; [reflexivity|lia]. }
  cbn [validate]. rewrite Ht; cbn [bind]. destruct ty; try discriminate; exact Hgo.
Qed.

(** A pointer slot whose target validates. *)
Lemma validate_ptr e f is_elem wide q off dend :
  env_ok e -> 0 < off -> off mod 2 = 0 -> off / 2 < ptr_limit wide ->
  holds (e_data e) q (ptr_bytes wide off) -> off <= q ->
  nonptr e (V (q - off) off) ->
  validate f e false wide (V (q - off) off) q = Ret (Ok tt) ->
  from_raw e q (width_of wide) = Ret (Ok (V q (width_of wide))) /\
  validate (S f) e is_elem wide (V q (width_of wide)) dend = Ret (Ok tt).
Proof.
  intros Hok Ho He Hlt Hh Hle Hn Hv. pose proof (width_bounds wide) as [Hw _].
  assert (Hty : value_type e (V q (width_of wide)) = Ret TyPointer)
    by (apply (ptr_type e q (width_of wide) wide off); auto; lia).
  split.
  - apply (from_raw_ok e q (width_of wide) 2); [lia| |lia].
    unfold required_size. rewrite Hty; reflexivity.
  - cbn [validate]. rewrite Hty; cbn [bind]. destruct (fuel_of_S e) as [g ->].
    rewrite (deref_checked_ok e q (width_of wide) off wide) by (assumption || lia). cbn [bindr v_pos]. exact Hv.
Qed.

Lemma inline_slot_ok e f wide q t b0 b1 dend :
  repr t [b0; b1] -> holds (e_data e) q [b0; b1] ->
  from_raw e q (width_of wide) = Ret (Ok (V q (width_of wide))) /\
  validate (S f) e true wide (V q (width_of wide)) dend = Ret (Ok tt).
Proof.
  intros (_ & _ & Hr) Hh. pose proof (width_bounds wide) as [Hw _].
  destruct (Hr e q (width_of wide) Hh) as (_ & Hsz & ty & Ht & Hs); [cbn; lia|].
  split.
  - apply (from_raw_ok e q (width_of wide) 2); [lia|exact Hsz|lia].
  - eapply validate_scalar_elem; eauto.
Qed.

Lemma key_slot_validate e tb wide b q kk k f dend :
  env_ok e -> key_slot (e_data e) tb wide b q kk k -> b <= q -> 0 <= b < Z.of_nat f ->
  exists x, from_raw e q (width_of wide) = Ret (Ok x) /\
    validate f e true wide x dend = Ret (Ok tt).
Proof.
  intros Hok Hk Hb Hf. destruct Hk as [k b0 b1 Hsp Hr Hh|k off bs Hsp Ho He Hlt Hh Hr Hh2 Hev Hlim|k i t Hi Htb Hdec Hh].
  - exists (V q (width_of wide)). destruct f; [lia|]. eapply inline_slot_ok; eauto.
  - pose proof (repr_len _ _ Hr). pose proof (holds_bounds _ _ _ Hh2).
    exists (V q (width_of wide)). destruct f; [lia|]. apply (validate_ptr e f true wide q off); auto; try lia.
    + eapply repr_type_nonptr; eauto. lia.
    + destruct f; [lia|]. eapply validate_scalar; eauto; lia.
  - exists (V q (width_of wide)). destruct f; [lia|]. unfold short_bytes in Hh. 
    eapply inline_slot_ok; [|exact Hh]. apply repr_short. lia.
Qed.

Lemma validate_stored_aux e tb : env_ok e ->
  (forall t p lim, stored (e_data e) tb t p lim ->
     forall f w len dend, p + 1 < Z.of_nat f -> lim <= p + len -> lim <= dend ->
       validate f e false w (V p len) dend = Ret (Ok tt)) /\
  (forall wide b q t, slot (e_data e) tb wide b q t ->
     b <= q -> forall f dend, 0 <= b < Z.of_nat f ->
       exists x, from_raw e q (width_of wide) = Ret (Ok x) /\
         validate f e true wide x dend = Ret (Ok tt)).
Proof.
  intros Hok.
  apply (stored_slot_ind (e_data e) tb
    (fun t p lim _ => forall f w len dend, p + 1 < Z.of_nat f -> lim <= p + len -> lim <= dend ->
       validate f e false w (V p len) dend = Ret (Ok tt))
    (fun wide b q t _ => b <= q -> forall f dend, 0 <= b < Z.of_nat f ->
       exists x, from_raw e q (width_of wide) = Ret (Ok x) /\
         validate f e true wide x dend = Ret (Ok tt))).
  - intros t bs p Hr Hh Hp f w len dend Hf Hl Hd. destruct f; [apply holds_bounds in Hh; lia|].
    eapply validate_scalar; eauto. lia.
  - intros ts p wide Hp Hh Hlim Hsl IH f w len dend Hf Hl Hd.
    pose proof (holds_bounds _ _ _ Hh) as [Hp0 _]. pose proof (width_bounds wide) as [Hw _].
    pose proof (lenZ_nonneg ts). destruct f; [lia|].
    assert (Hc : coll_at e (V p len) TyArray (lenZ ts) wide (p + hdr_size (lenZ ts))).
    { apply (hdr_coll_at e p len false (lenZ ts) wide); auto; try lia; try nia. }
    assert (H2 : p + 2 <= p + hdr_size (lenZ ts)) by (destruct Hc as [_ _ _ _ H2 _ _ _]; exact H2).
    eapply validate_coll; eauto. intros j Hj. destruct (nthZ_in ts j Hj) as [t Ht].
    apply (IH j t Ht); [nia|lia].
  - intros kts p wide Hp Hh Hlim Hsrt Hk Hsl IH f w len dend Hf Hl Hd.
    pose proof (holds_bounds _ _ _ Hh) as [Hp0 _]. pose proof (width_bounds wide) as [Hw _].
    pose proof (lenZ_nonneg kts). destruct f; [lia|].
    assert (Hc : coll_at e (V p len) TyDict (2 * lenZ kts) wide (p + hdr_size (lenZ kts))).
    { apply (hdr_coll_at e p len true (lenZ kts) wide); auto; try lia; try nia. }
    assert (H2 : p + 2 <= p + hdr_size (lenZ kts)) by (destruct Hc as [_ _ _ _ H2 _ _ _]; exact H2).
    eapply validate_coll; eauto. intros j Hj.
    destruct (nthZ_in kts (j / 2)) as [[kk [k t]] Hx]; [lia|].
    destruct (Z.eq_dec (j mod 2) 0) as [Hm|Hm].
    + replace j with (2 * (j / 2)) by lia.
      eapply key_slot_validate; eauto; [nia|lia].
    + replace j with (2 * (j / 2) + 1) by lia. apply (IH (j / 2) kk k t Hx); [nia|lia].
  - intros wide b q t b0 b1 Hr Hh Hb f dend Hf. destruct f; [lia|].
    exists (V q (width_of wide)). eapply inline_slot_ok; eauto.
  - intros wide b q t off lim Ho He Hlt Hh Hst IH Hlim Hb f dend Hf. destruct f; [lia|].
    pose proof (stored_bounds _ _ _ _ _ Hst).
    exists (V q (width_of wide)). apply (validate_ptr e f true wide q off); auto; try lia.
    + eapply stored_nonptr; eauto. lia.
    + apply IH; lia.
Qed.

Lemma validate_stored e tb t p lim f w len dend :
  env_ok e -> stored (e_data e) tb t p lim -> p + 1 < Z.of_nat f -> lim <= p + len -> lim <= dend ->
  validate f e false w (V p len) dend = Ret (Ok tt).
Proof. intros Hok Hs. destruct (validate_stored_aux e tb Hok) as [H _]. eauto. Qed.
End KP.
