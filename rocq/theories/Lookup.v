(** Looking entries up in stored collections, by index and by key. *)
From Verif Require Import Prelude Lib Varint VarintProofs Utf8 Float SharedKeys
  Decode Read Encodable Encoder BuilderSpec Holds Repr EncodableProofs Stored StoredRead SlotProofs
  EncoderProofs Isort PathSpec.
From Coq Require Import ZifyBool ZifyNat ZifyN Sorted Permutation.
Ltac Zify.zify_post_hook ::= Z.div_mod_to_equations.

(* ---------- the key order ---------- *)

Lemma bytes_cmp_refl a : bytes_cmp a a = Eq.
Proof. induction a as [|x a IH]; cbn [bytes_cmp]; [reflexivity|]. rewrite Z.compare_refl. exact IH. Qed.
Lemma bytes_cmp_Eq a : forall b, bytes_cmp a b = Eq -> a = b.
Proof.
  induction a as [|x a IH]; intros [|y b]; cbn [bytes_cmp]; try congruence.
  destruct (Z.compare_spec x y) as [->|?|?]; try discriminate. intros H. f_equal. apply IH. exact H.
Qed.
Lemma dkey_cmp_refl k : dkey_cmp k k = Eq.
Proof. destruct k; cbn [dkey_cmp]; [apply Z.compare_refl|apply bytes_cmp_refl]. Qed.
Lemma dkey_cmp_Eq a b : dkey_cmp a b = Eq -> a = b.
Proof.
  destruct a, b; cbn [dkey_cmp]; try discriminate; intros H; f_equal.
  - apply Z.compare_eq; exact H.
  - apply bytes_cmp_Eq; exact H.
Qed.
Lemma dkey_cmp_sym a b : dkey_cmp b a = CompOpp (dkey_cmp a b).
Proof. destruct a, b; cbn [dkey_cmp]; try reflexivity; [apply Z.compare_antisym|apply bytes_cmp_sym]. Qed.
Lemma dkey_cmp_trans a b c : dkey_cmp a b <> Gt -> dkey_cmp b c <> Gt -> dkey_cmp a c <> Gt.
Proof.
  destruct a, b, c; cbn [dkey_cmp]; try congruence; try apply bytes_cmp_trans.
  rewrite !Z.compare_gt_iff. lia.
Qed.

Lemma search_unfold e v f k l r size : dict_search (S f) e v k l r size =
  if l <? r then
    let mid := l + size / 2 in
    p <- dict_pair e v mid ;;
    w <- arr_is_wide e v ;;
    c <- dict_key_cmp e k (fst p) w ;;
    match c with
    | Eq => Ret (Some (snd p))
    | Lt => dict_search f e v k l mid (mid - l)
    | Gt => dict_search f e v k (mid + 1) r (r - (mid + 1))
    end
  else Ret None.
Proof.
  cbn [dict_search]. destruct (l <? r); [|reflexivity]. cbv zeta. destruct (dict_pair e v (l + size / 2)); try reflexivity. cbn [bind].
  destruct (arr_is_wide e v); try reflexivity. cbn [bind]. destruct (dict_key_cmp e k (fst a) a0) as [[]| | |]; reflexivity.
Qed.

Section KP.
Context {SP : KeyPred}.

Lemma vkey_cmp e tb kk k kv q wide : vkey e tb kk k kv -> dict_key_cmp e q kv wide = Ret (dkey_cmp q kk).
Proof.
  intros H. unfold dict_key_cmp. destruct kk as [i|s]; cbn [vkey] in H.
  - destruct H as (Ht & Hu & _). rewrite Ht; cbn [bind vtype_eqb orb negb]. rewrite andb_false_r.
    destruct q; cbn [dkey_cmp]; [|reflexivity]. rewrite Hu; reflexivity.
  - destruct H as (Ht & Hs & _). rewrite Ht; cbn [bind vtype_eqb orb negb]. rewrite andb_false_r.
    destruct q; cbn [dkey_cmp]; [reflexivity|]. rewrite Hs; reflexivity.
Qed.

(* ---------- stored collections, opened up ---------- *)

Section Coll.
Variables (e : env) (tb : option shared_keys).
Hypothesis Hok : env_ok e.

Lemma vstored_arr l v : vstored e tb (TArr l) v ->
  exists wide first, coll_at e v TyArray (lenZ l) wide first /\
    forall i t, nthZ l i = Some t -> exists x,
      resolve e (V (first + i * width_of wide) (width_of wide)) wide = Ret x /\ vstored e tb t x.
Proof using Hok.
  intros [(bs & Hr & Hh & Hl)|(lim & Hs & Hl)]; destruct v as [p len]; cbn [v_pos v_len] in *.
  - exfalso. destruct Hr as (_ & _ & Hr). destruct (Hr e p len Hh Hl) as (Ht & _ & ty & Hty & Hsc).
    specialize (Ht O). cbn [read_tree] in Ht. rewrite Hty in Ht; cbn [bind] in Ht.
    destruct ty; try discriminate Hsc;
      match type of Ht with context [bind ?m _] => destruct m; discriminate | _ => discriminate end.
  - remember (TArr l) as t eqn:Et. destruct Hs as [t bs p Hr Hh Hp|ts p wide Hp Hh Hlim Hsl|kts p wide Hp Hh Hlim Hsrt Hk Hsl].
    + exfalso. subst t. destruct Hr as (_ & _ & Hr). destruct (Hr e p len Hh ltac:(lia)) as (Ht & _ & ty & Hty & Hsc).
      specialize (Ht O). cbn [read_tree] in Ht. rewrite Hty in Ht; cbn [bind] in Ht.
      destruct ty; try discriminate Hsc;
        match type of Ht with context [bind ?m _] => destruct m; discriminate | _ => discriminate end.
    + injection Et as ->. pose proof (holds_bounds _ _ _ Hh) as [Hp0 _]. pose proof (width_bounds wide) as [Hw _].
      pose proof (lenZ_nonneg l).
      assert (Hc : coll_at e (V p len) TyArray (lenZ l) wide (p + hdr_size (lenZ l))).
      { apply (hdr_coll_at e p len false (lenZ l) wide); auto; try lia; try nia. }
      exists wide, (p + hdr_size (lenZ l)). split; [exact Hc|]. intros i t Hi. apply nthZ_Some in Hi as Hb.
      destruct Hc as [_ _ _ _ H2 _ _ _]. cbn [v_pos] in H2.
      destruct (slot_resolve e tb wide p (p + hdr_size (lenZ l) + i * width_of wide) t Hok ltac:(nia) (Hsl i t Hi)) as (x & Hx & Hvs & _). eauto.
    + discriminate.
Qed.

Lemma vstored_dict l v : vstored e tb (TDict l) v ->
  exists (kts : list entry) wide first, l = map snd kts /\ StronglySorted key_le kts /\
    coll_at e v TyDict (2 * lenZ kts) wide first /\
    forall i x, nthZ kts i = Some x -> exists kv xv,
      resolve e (V (first + 2 * i * width_of wide) (width_of wide)) wide = Ret kv /\
      resolve e (V (first + (2 * i + 1) * width_of wide) (width_of wide)) wide = Ret xv /\
      vkey e tb (fst x) (fst (snd x)) kv /\ vstored e tb (snd (snd x)) xv.
Proof using Hok.
  intros [(bs & Hr & Hh & Hl)|(lim & Hs & Hl)]; destruct v as [p len]; cbn [v_pos v_len] in *.
  - exfalso. destruct Hr as (_ & _ & Hr). destruct (Hr e p len Hh Hl) as (Ht & _ & ty & Hty & Hsc).
    specialize (Ht O). cbn [read_tree] in Ht. rewrite Hty in Ht; cbn [bind] in Ht.
    destruct ty; try discriminate Hsc;
      match type of Ht with context [bind ?m _] => destruct m; discriminate | _ => discriminate end.
  - remember (TDict l) as t eqn:Et. destruct Hs as [t bs p Hr Hh Hp|ts p wide Hp Hh Hlim Hsl|kts p wide Hp Hh Hlim Hsrt Hk Hsl].
    + exfalso. subst t. destruct Hr as (_ & _ & Hr). destruct (Hr e p len Hh ltac:(lia)) as (Ht & _ & ty & Hty & Hsc).
      specialize (Ht O). cbn [read_tree] in Ht. rewrite Hty in Ht; cbn [bind] in Ht.
      destruct ty; try discriminate Hsc;
        match type of Ht with context [bind ?m _] => destruct m; discriminate | _ => discriminate end.
    + discriminate.
    + injection Et as <-. pose proof (holds_bounds _ _ _ Hh) as [Hp0 _]. pose proof (width_bounds wide) as [Hw _].
      pose proof (lenZ_nonneg kts).
      assert (Hc : coll_at e (V p len) TyDict (2 * lenZ kts) wide (p + hdr_size (lenZ kts))).
      { apply (hdr_coll_at e p len true (lenZ kts) wide); auto; try lia; try nia. }
      exists kts, wide, (p + hdr_size (lenZ kts)). split; [reflexivity|]. split; [exact Hsrt|]. split; [exact Hc|].
      intros i [kk [k t]] Hi. apply nthZ_Some in Hi as Hb. destruct Hc as [_ _ _ _ H2 _ _ _]. cbn [v_pos] in H2.
      destruct (key_slot_resolve e tb wide p (p + hdr_size (lenZ kts) + 2 * i * width_of wide) kk k Hok ltac:(nia) (Hk i kk k t Hi)) as (kv & Hkv & Hkey).
      destruct (slot_resolve e tb wide p (p + hdr_size (lenZ kts) + (2 * i + 1) * width_of wide) t Hok ltac:(nia) (Hsl i kk k t Hi)) as (x & Hx & Hvs & _).
      exists kv, x. cbn [fst snd]. auto.
Qed.

Lemma coll_pair v n wide first i :
  coll_at e v TyDict n wide first -> 0 <= i -> 2 * i + 1 < n ->
  dict_pair e v i =
    (key <- resolve e (V (first + 2 * i * width_of wide) (width_of wide)) wide ;;
     x <- resolve e (V (first + (2 * i + 1) * width_of wide) (width_of wide)) wide ;; Ret (key, x)).
Proof using Hok.
  intros Hc Hi Hn. unfold dict_pair. pose proof Hok as (_ & _ & H63). pose proof (width_bounds wide) as [Hw _].
  assert (Hb : n <= lenZ (e_data e)).
  { destruct Hc as [_ _ _ _ H2 H3 He Hp]. nia. }
  unfold usize_mul, usize_add. unfold two63, two64 in *.
  destruct (2 * i <? 18446744073709551616) eqn:E; [|lia]. cbn [bind].
  rewrite (coll_get_unchecked e v TyDict n wide first (2 * i) Hok Hc) by lia.
  destruct (resolve e (V (first + 2 * i * width_of wide) (width_of wide)) wide); cbn [bind]; try reflexivity.
  destruct (2 * i + 1 <? 18446744073709551616) eqn:E2; [|lia]. cbn [bind].
  rewrite (coll_get_unchecked e v TyDict n wide first (2 * i + 1) Hok Hc) by lia. reflexivity.
Qed.

(* ---------- array indexing ---------- *)

Lemma arr_get_stored l v i t : vstored e tb (TArr l) v -> nthZ l i = Some t ->
  exists x, as_array e v = Ret (Some v) /\ arr_get e v i = Ret (Some x) /\ vstored e tb t x.
Proof using Hok.
  intros Hv Hi. destruct (vstored_arr l v Hv) as (wide & first & Hc & H). destruct (H i t Hi) as (x & Hx & Hvs).
  apply nthZ_Some in Hi as Hb. exists x. split; [|split; [|exact Hvs]].
  - unfold as_array. rewrite (ca_type _ _ _ _ _ _ Hc). reflexivity.
  - unfold arr_get. rewrite (ca_len _ _ _ _ _ _ Hc); cbn [bind]. destruct (lenZ l <? i) eqn:E; [lia|].
    rewrite (coll_get_unchecked e v TyArray (lenZ l) wide first i Hok Hc) by lia. rewrite Hx. reflexivity.
Qed.
Lemma arr_get_beyond l v i : vstored e tb (TArr l) v -> lenZ l < i -> arr_get e v i = Ret None.
Proof using Hok.
  intros Hv Hi. destruct (vstored_arr l v Hv) as (wide & first & Hc & H).
  unfold arr_get. rewrite (ca_len _ _ _ _ _ _ Hc); cbn [bind]. destruct (lenZ l <? i) eqn:E; [reflexivity|lia].
Qed.
Lemma arr_len_stored l v : vstored e tb (TArr l) v -> arr_len e v = Ret (lenZ l).
Proof using Hok. intros Hv. destruct (vstored_arr l v Hv) as (wide & first & Hc & H). apply (ca_len _ _ _ _ _ _ Hc). Qed.

(* ---------- dict lookup by stored key ---------- *)

Lemma search_stored v (kts : list entry) wide first q :
  StronglySorted key_le kts -> coll_at e v TyDict (2 * lenZ kts) wide first ->
  (forall i x, nthZ kts i = Some x -> exists kv xv,
      resolve e (V (first + 2 * i * width_of wide) (width_of wide)) wide = Ret kv /\
      resolve e (V (first + (2 * i + 1) * width_of wide) (width_of wide)) wide = Ret xv /\
      vkey e tb (fst x) (fst (snd x)) kv /\ vstored e tb (snd (snd x)) xv) ->
  forall f l r, 0 <= l -> l <= r -> r <= lenZ kts -> r - l < 2 ^ Z.of_nat f ->
  (forall i x, nthZ kts i = Some x -> fst x = q -> l <= i < r) ->
  (exists x xv, In x kts /\ fst x = q /\ dict_search (S f) e v q l r (r - l) = Ret (Some xv) /\
     vstored e tb (snd (snd x)) xv) \/
  ((forall x, In x kts -> fst x <> q) /\ dict_search (S f) e v q l r (r - l) = Ret None).
Proof using Hok.
  intros Hsrt Hc Hent. induction f as [|f IH]; intros l r Hl Hlr Hr Hf Hin.
  - change (2 ^ Z.of_nat 0) with 1 in Hf. right. split.
    + intros x Hx Hq. apply In_nth_error in Hx as [n Hn]. destruct (Hin (Z.of_nat n) x); auto; [|lia].
      unfold nthZ. destruct (Z.of_nat n <? 0) eqn:E; [lia|]. rewrite Nat2Z.id. exact Hn.
    + rewrite search_unfold. destruct (l <? r) eqn:E; [lia|reflexivity].
  - replace (Z.of_nat (S f)) with (Z.of_nat f + 1) in Hf by lia. rewrite Z.pow_add_r in Hf by lia. change (2 ^ 1) with 2 in Hf.
    rewrite search_unfold. destruct (l <? r) eqn:E.
    2:{ right. split; [|reflexivity]. intros x Hx Hq. apply In_nth_error in Hx as [n Hn]. destruct (Hin (Z.of_nat n) x); auto; [|lia].
        unfold nthZ. destruct (Z.of_nat n <? 0) eqn:E2; [lia|]. rewrite Nat2Z.id. exact Hn. }
    cbv zeta. set (mid := l + (r - l) / 2). assert (Hmid : l <= mid < r) by (unfold mid; lia).
    destruct (nthZ_in kts mid ltac:(lia)) as [x Hx]. destruct (Hent mid x Hx) as (kv & xv & Hk & Hxv & Hkey & Hvs).
    rewrite (coll_pair v (2 * lenZ kts) wide first mid Hc) by lia. rewrite Hk; cbn [bind]. rewrite Hxv; cbn [bind fst snd].
    rewrite (ca_wide _ _ _ _ _ _ Hc); cbn [bind]. rewrite (vkey_cmp e tb _ _ kv q wide Hkey); cbn [bind].
    destruct (dkey_cmp q (fst x)) eqn:Ec.
    + left. exists x, xv. apply dkey_cmp_Eq in Ec. split; [|auto]. unfold nthZ in Hx. destruct (mid <? 0); [discriminate|]. eapply nth_error_In; eauto.
    + apply IH; try (unfold mid in *; lia). intros i y Hy Hq. pose proof (Hin i y Hy Hq) as Hb. split; [lia|].
      destruct (Z_lt_le_dec i mid) as [|Hge]; [assumption|exfalso].
      assert (Hle : dkey_cmp (fst x) (fst y) <> Gt).
      { destruct (Z.eq_dec i mid) as [->|Hne].
        - rewrite Hx in Hy. injection Hy as <-. rewrite dkey_cmp_refl. discriminate.
        - apply (StronglySorted_nth_inv key_le kts Hsrt mid i x y); auto; lia. }
      rewrite Hq in Hle. rewrite dkey_cmp_sym, Ec in Hle. apply Hle. reflexivity.
    + apply IH; try (unfold mid in *; lia). intros i y Hy Hq. pose proof (Hin i y Hy Hq) as Hb. split; [|lia].
      destruct (Z_lt_le_dec mid i) as [|Hge]; [lia|exfalso].
      assert (Hle : dkey_cmp (fst y) (fst x) <> Gt).
      { destruct (Z.eq_dec i mid) as [->|Hne].
        - rewrite Hx in Hy. injection Hy as <-. rewrite dkey_cmp_refl. discriminate.
        - apply (StronglySorted_nth_inv key_le kts Hsrt i mid y x); auto; lia. }
      rewrite Hq in Hle. congruence.
Qed.

(** What a search for the stored key [q] gives. *)
Lemma get_key_stored v (kts : list entry) wide first q :
  StronglySorted key_le kts -> coll_at e v TyDict (2 * lenZ kts) wide first ->
  (forall i x, nthZ kts i = Some x -> exists kv xv,
      resolve e (V (first + 2 * i * width_of wide) (width_of wide)) wide = Ret kv /\
      resolve e (V (first + (2 * i + 1) * width_of wide) (width_of wide)) wide = Ret xv /\
      vkey e tb (fst x) (fst (snd x)) kv /\ vstored e tb (snd (snd x)) xv) ->
  (exists x xv, In x kts /\ fst x = q /\ dict_get_key e v q = Ret (Some xv) /\
     vstored e tb (snd (snd x)) xv) \/
  ((forall x, In x kts -> fst x <> q) /\ dict_get_key e v q = Ret None).
Proof using Hok.
  intros Hsrt Hc Hent. unfold dict_get_key, dict_len. rewrite (ca_len _ _ _ _ _ _ Hc); cbn [bind].
  replace (2 * lenZ kts / 2) with (lenZ kts) by lia.
  pose proof Hok as (_ & _ & H63). pose proof (lenZ_nonneg kts). pose proof (width_bounds wide) as [Hw _].
  assert (Hb : 2 * lenZ kts <= lenZ (e_data e)).
  { destruct Hc as [_ _ _ _ H2 H3 He Hp]. nia. }
  assert (Hp : lenZ kts - 0 < 2 ^ Z.of_nat 65) by (change (2 ^ Z.of_nat 65) with 36893488147419103232; unfold two63 in *; lia).
  pose proof (search_stored v kts wide first q Hsrt Hc Hent 65 0 (lenZ kts) ltac:(lia) ltac:(lia) ltac:(lia) Hp) as Hs.
  rewrite Z.sub_0_r in Hs. apply Hs. intros i x Hx _. apply nthZ_Some in Hx. lia.
Qed.
End Coll.

(* ---------- dict lookup by text ---------- *)

(** What the table must be for the stored kind of a key to be found again: no key twice, none
    longer than the table can hold, and none of the keys stored as strings. *)
Definition table_ok (tb : option shared_keys) : Prop :=
  match tb with
  | None => True
  | Some t => NoDup t /\ (forall k, In k t -> zstr_make k = k) /\
              (forall k, string_key k -> sk_encode t k = None)
  end.
Definition query_ok (tb : option shared_keys) (k : list Z) : Prop :=
  tb = None \/ zstr_make k = k \/ string_key k.

Lemma sk_find_nth k : forall t i j, sk_find k i t = Some j -> nthZ t (j - i) = Some k /\ i <= j.
Proof.
  induction t as [|x t IH]; intros i j H; cbn [sk_find] in H; [discriminate|].
  destruct (bytes_eqb x k) eqn:E.
  - injection H as <-. replace (i - i) with 0 by lia. apply bytes_eqb_eq in E. subst x. split; [reflexivity|lia].
  - apply IH in H as [H1 H2]. split; [|lia]. rewrite nthZ_cons_S by lia. replace (j - i - 1) with (j - (i + 1)) by lia. exact H1.
Qed.
Lemma sk_find_nodup k : forall t i j, NoDup t -> nthZ t j = Some k -> sk_find k i t = Some (i + j).
Proof.
  induction t as [|x t IH]; intros i j Hnd Hj; [apply nthZ_Some in Hj; cbn in Hj; lia|].
  cbn [sk_find]. inversion Hnd as [|? ? Hni Hnd2]; subst. apply nthZ_Some in Hj as Hb.
  destruct (Z.eq_dec j 0) as [->|Hne].
  - rewrite nthZ_cons_0 in Hj. injection Hj as ->. rewrite bytes_eqb_refl. f_equal; lia.
  - rewrite nthZ_cons_S in Hj by lia. destruct (bytes_eqb x k) eqn:E.
    + apply bytes_eqb_eq in E. subst x. exfalso. apply Hni. unfold nthZ in Hj. destruct (j - 1 <? 0); [discriminate|]. eapply nth_error_In; eauto.
    + rewrite (IH (i + 1) (j - 1) Hnd2 Hj). f_equal; lia.
Qed.
Lemma sk_find_none k : forall t i, sk_find k i t = None <-> ~ In k t.
Proof.
  induction t as [|x t IH]; intros i; cbn [sk_find]; [split; auto|].
  destruct (bytes_eqb x k) eqn:E.
  - apply bytes_eqb_eq in E. subst x. split; [discriminate|]. intros H; exfalso; apply H; left; reflexivity.
  - rewrite IH. split; intros H; [intros [->|Hx]; [rewrite bytes_eqb_refl in E; discriminate|auto]|intros Hx; apply H; right; exact Hx].
Qed.

Definition key_kind (tb : option shared_keys) (k : list Z) : dkey :=
  match tb with
  | None => KString k
  | Some t => match sk_encode t k with Some i => KShared i | None => KString k end
  end.

Lemma kind_of_text e tb kk k k0 kv : table_ok tb -> query_ok tb k -> vkey e tb kk k0 kv ->
  k0 = k <-> kk = key_kind tb k.
Proof.
  intros Ht Hq Hk. unfold key_kind. destruct kk as [i|s]; cbn [vkey] in Hk.
  - destruct Hk as (_ & _ & t & -> & Hd). cbn [table_ok] in Ht. destruct Ht as (Hnd & Hz & Hs).
    assert (Hin : In k0 t) by (unfold sk_decode, nthZ in Hd; destruct (i <? 0); [discriminate|]; eapply nth_error_In; eauto).
    split.
    + intros ->. unfold sk_encode. rewrite (Hz k Hin). rewrite (sk_find_nodup k t 0 i Hnd Hd). reflexivity.
    + intros H. destruct (sk_encode t k) as [j|] eqn:E; [|discriminate]. injection H as ->.
      destruct Hq as [Hq|[Hq|Hq]]; [discriminate| |rewrite (Hs k Hq) in E; discriminate].
      unfold sk_encode in E. rewrite Hq in E. apply sk_find_nth in E as [E _]. rewrite Z.sub_0_r in E.
      unfold sk_decode in Hd. congruence.
  - destruct Hk as (_ & _ & -> & Hsp). split.
    + intros ->. destruct tb as [t|]; [|reflexivity]. destruct Ht as (_ & _ & Hs). rewrite (Hs k Hsp). reflexivity.
    + destruct tb as [t|]; [|congruence]. destruct (sk_encode t k); congruence.
Qed.

Section Text.
Variables (e : env) (tb : option shared_keys).
Hypothesis Hok : env_ok e.

Lemma get_key_text v (kts : list entry) wide first q k :
  StronglySorted key_le kts -> coll_at e v TyDict (2 * lenZ kts) wide first ->
  (forall i x, nthZ kts i = Some x -> exists kv xv,
      resolve e (V (first + 2 * i * width_of wide) (width_of wide)) wide = Ret kv /\
      resolve e (V (first + (2 * i + 1) * width_of wide) (width_of wide)) wide = Ret xv /\
      vkey e tb (fst x) (fst (snd x)) kv /\ vstored e tb (snd (snd x)) xv) ->
  (forall x, In x kts -> fst (snd x) = k <-> fst x = q) ->
  (exists t xv, In (k, t) (map snd kts) /\ dict_get_key e v q = Ret (Some xv) /\ vstored e tb t xv) \/
  (~ In k (map fst (map snd kts)) /\ dict_get_key e v q = Ret None).
Proof using Hok.
  intros Hsrt Hc Hent Hq. destruct (get_key_stored e tb Hok v kts wide first q Hsrt Hc Hent) as [(x & xv & Hin & Hx & Hg & Hv)|[Hn Hg]].
  - left. exists (snd (snd x)), xv. split; [|auto]. apply in_map_iff. exists x. split; [|exact Hin].
    apply Hq in Hx; [|exact Hin]. destruct x as [kk [k' t]]; cbn [fst snd] in *. congruence.
  - right. split; [|exact Hg]. rewrite map_map. intros Hi. apply in_map_iff in Hi as (x & Hx & Hin).
    apply (Hn x Hin). apply Hq; assumption.
Qed.

(** [get_with_shared_keys] with the table the dict was written with; [get] without one. *)
Lemma dict_get_sk_stored l v k t : tb = Some t ->
  vstored e tb (TDict l) v -> table_ok tb -> query_ok tb k ->
  (exists s xv, In (k, s) l /\ dict_get_sk e v k t = Ret (Some xv) /\ vstored e tb s xv) \/
  (~ In k (map fst l) /\ dict_get_sk e v k t = Ret None).
Proof using Hok.
  intros Etb Hv Ht Hq. destruct (vstored_dict e tb Hok l v Hv) as (kts & wide & first & -> & Hsrt & Hc & Hent).
  unfold dict_get_sk, encode_key; cbn [bind].
  replace (match sk_encode t k with Some i => KShared i | None => KString k end) with (key_kind tb k) by (rewrite Etb; reflexivity).
  apply (get_key_text v kts wide first _ k Hsrt Hc Hent).
  intros x Hin. apply In_nth_error in Hin as [n Hn].
  destruct (Hent (Z.of_nat n) x) as (kv & xv & _ & _ & Hkey & _).
  { unfold nthZ. destruct (Z.of_nat n <? 0) eqn:E; [lia|]. rewrite Nat2Z.id. exact Hn. }
  eapply kind_of_text; eauto.
Qed.

Lemma dict_get_stored l v k : e_sk e = tb ->
  vstored e tb (TDict l) v -> table_ok tb -> query_ok tb k ->
  (exists s xv, In (k, s) l /\ dict_get e v k = Ret (Some xv) /\ vstored e tb s xv) \/
  (~ In k (map fst l) /\ dict_get e v k = Ret None).
Proof using Hok.
  intros Etb Hv Ht Hq. destruct (vstored_dict e tb Hok l v Hv) as (kts & wide & first & -> & Hsrt & Hc & Hent).
  assert (Hu : exists u, uses_shared_keys e v = Ret u /\ (u = false -> forall x, In x kts -> exists s, fst x = KString s)).
  { unfold uses_shared_keys. rewrite (ca_len _ _ _ _ _ _ Hc); cbn [bind]. pose proof (lenZ_nonneg kts).
    destruct kts as [|x0 kts'] eqn:Ek.
    - exists false. split; [reflexivity|]. intros _ x [].
    - rewrite lenZ_cons in *. pose proof (lenZ_nonneg kts'). destruct (2 * (lenZ kts' + 1) =? 0) eqn:E; [lia|].
      destruct (Hent 0 x0 (nthZ_cons_0 _ _)) as (kv & xv & Hk & Hx & Hkey & _).
      rewrite (coll_pair e Hok v _ wide first 0 Hc) by lia. rewrite Hk; cbn [bind]. rewrite Hx; cbn [bind fst].
      destruct x0 as [kk0 [k0 t0]]. cbn [fst snd] in *. destruct kk0 as [i|s]; cbn [vkey] in Hkey.
      + destruct Hkey as (-> & _). cbn [bind vtype_eqb]. exists true. split; [reflexivity|discriminate].
      + destruct Hkey as (-> & _). cbn [bind vtype_eqb]. exists false. split; [reflexivity|]. intros _ x Hx'.
        destruct Hx' as [<-|Hin]; [exists s; reflexivity|]. inversion Hsrt as [|? ? _ Hfa]; subst.
        rewrite Forall_forall in Hfa. specialize (Hfa x Hin). unfold key_le in Hfa; cbn [fst] in Hfa.
        destruct (fst x) as [i|s']; [cbn [dkey_cmp] in Hfa; congruence|exists s'; reflexivity]. }
  destruct Hu as (u & Hu & Hall). unfold dict_get, encode_key. rewrite Hu; cbn [bind].
  assert (Hkey_of : forall x, In x kts -> exists kv, vkey e tb (fst x) (fst (snd x)) kv).
  { intros x Hin. apply In_nth_error in Hin as [n Hn].
    destruct (Hent (Z.of_nat n) x) as (kv & xv & _ & _ & Hkey & _); [|eauto].
    unfold nthZ. destruct (Z.of_nat n <? 0) eqn:E; [lia|]. rewrite Nat2Z.id. exact Hn. }
  destruct u; cbn [bind].
  - replace (match e_sk e with Some t => match sk_encode t k with Some i => KShared i | None => KString k end | None => KString k end)
      with (key_kind tb k) by (rewrite <- Etb; reflexivity).
    apply (get_key_text v kts wide first _ k Hsrt Hc Hent). intros x Hin.
    destruct (Hkey_of x Hin) as (kv & Hkey). eapply kind_of_text; eauto.
  - apply (get_key_text v kts wide first _ k Hsrt Hc Hent). intros x Hin.
    destruct (Hkey_of x Hin) as (kv & Hkey). destruct (Hall eq_refl x Hin) as (s & Es). rewrite Es in *.
    cbn [vkey] in Hkey. destruct Hkey as (_ & _ & <- & _). split; congruence.
Qed.

Lemma as_dict_stored l v : vstored e tb (TDict l) v -> as_dict e v = Ret (Some v).
Proof using Hok.
  intros Hv. destruct (vstored_dict e tb Hok l v Hv) as (kts & wide & first & _ & _ & Hc & _).
  unfold as_dict. rewrite (ca_type _ _ _ _ _ _ Hc). reflexivity.
Qed.
Lemma as_array_stored l v : vstored e tb (TArr l) v -> as_array e v = Ret (Some v).
Proof using Hok.
  intros Hv. destruct (vstored_arr e tb Hok l v Hv) as (wide & first & Hc & _).
  unfold as_array. rewrite (ca_type _ _ _ _ _ _ Hc). reflexivity.
Qed.
Lemma dict_len_stored l v : vstored e tb (TDict l) v -> dict_len e v = Ret (lenZ l).
Proof using Hok.
  intros Hv. destruct (vstored_dict e tb Hok l v Hv) as (kts & wide & first & -> & _ & Hc & _).
  unfold dict_len. rewrite (ca_len _ _ _ _ _ _ Hc); cbn [bind]. rewrite lenZ_map. f_equal.
  change (@lenZ (dkey * (list Z * tree)) kts) with (@lenZ entry kts). lia.
Qed.
End Text.
End KP.
