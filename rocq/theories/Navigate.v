(** Navigation of accepted data. *)
From Coq Require Import ZifyBool ZifyNat ZifyN.
From Verif Require Import Prelude Lib Varint VarintProofs Utf8 Float SharedKeys Decode Read ReadSpec Repr Safety Agree.
Ltac Zify.zify_post_hook ::= Z.div_mod_to_equations.

Lemma bytes_cmp_eq : forall a b, bytes_cmp a b = Eq -> a = b.
Proof.
  induction a as [|x a IH]; intros [|y b]; cbn [bytes_cmp]; try discriminate; [reflexivity|].
  destruct (x ?= y) eqn:E; try discriminate. intros H. apply Z.compare_eq in E. subst y. f_equal. apply IH; exact H.
Qed.

Section Nav.
Variable e : env.
Hypothesis Hwf : wf_env e.

Notation good := (good e).
Notation gd := (gd e).
Notation elem := (elem e).

(** A collection whose elements have been validated. *)
Record coll (v : val) (d : Z) (wide : bool) (n fp : Z) : Prop := {
  co_good : good v d;
  co_d : d <= lenZ (e_data e);
  co_wide : arr_is_wide e v = Ret wide;
  co_len : arr_len e v = Ret n;
  co_fp : first_pos e v = Ret fp;
  co_bound : v_pos v + fp + n * width_of wide <= d;
  co_n : 0 <= n;
  co_fp2 : 2 <= fp;
  co_pos : 0 <= v_pos v;
  co_slots : forall i, 0 <= i < n -> good_slot e (V (v_pos v + fp + i * width_of wide) (width_of wide)) wide }.

Lemma gd_coll v d ty : good v d -> d <= lenZ (e_data e) -> value_type e v = Ret ty -> is_coll ty ->
  exists wide n fp, coll v d wide n fp.
Proof.
  intros Hg Hd Hty Hc. destruct (good_coll_inv e Hwf v d ty Hg Hty Hc) as (wide & n & fp & H1 & H2 & H3 & H4 & H5 & H6 & H7 & H8).
  exists wide, n, fp. constructor; assumption.
Qed.

Section C.
Variables (v : val) (d : Z) (wide : bool) (n fp : Z).
Hypothesis C : coll v d wide n fp.

Lemma co_small : n <= lenZ (e_data e) /\ 2 * n + 2 <= lenZ (e_data e).
Proof.
  destruct C as [_ Hd _ _ _ Hb Hn Hf Hp _]. assert (2 <= width_of wide) by (destruct wide; cbn; lia). nia.
Qed.
Lemma co_elem i : 0 <= i < n -> exists x dx, elem v wide fp i = Ret x /\ good x dx /\ dx <= d /\ meas x dx < meas v d.
Proof. destruct C. intros Hi. eapply elem_good; eassumption. Qed.
Lemma co_elem_gd i x : 0 <= i < n -> elem v wide fp i = Ret x -> gd x.
Proof.
  intros Hi Hx. destruct (co_elem i Hi) as (x' & dx & Hx' & Hg & Hd & _). rewrite Hx in Hx'. injection Hx' as <-.
  exists dx. split; [exact Hg|]. destruct C. lia.
Qed.
Lemma co_get_unchecked i : 0 <= i < n -> arr_get_unchecked e v i = elem v wide fp i.
Proof. destruct C. intros Hi. eapply get_unchecked_eq; eassumption. Qed.
Lemma co_get i : 0 <= i < n -> arr_get e v i = (x <- elem v wide fp i ;; Ret (Some x)).
Proof. destruct C. intros Hi. eapply arr_get_eq; eassumption. Qed.
Lemma co_get_above i : n < i -> arr_get e v i = Ret None.
Proof. intros Hi. unfold arr_get. rewrite (co_len _ _ _ _ _ C). cbn [bind]. destruct (n <? i) eqn:E; [reflexivity|lia]. Qed.
Lemma co_iter : arr_iter e v = Ret (it_at v wide fp n 0).
Proof. destruct C. apply arr_iter_eq; assumption. Qed.

(* ---------- iteration ---------- *)

Lemma co_run : forall k i, 0 <= i -> i + Z.of_nat k <= n ->
  exists xs, iter_run k e (it_at v wide fp n i) = Ret (xs, it_at v wide fp n (i + Z.of_nat k)) /\
    length xs = k /\ forall j, (j < k)%nat -> exists x, nth_error xs j = Some x /\ elem v wide fp (i + Z.of_nat j) = Ret x.
Proof.
  induction k as [|k IH]; intros i Hi Hk; cbn [iter_run].
  - exists []. replace (i + Z.of_nat 0) with i by lia. split; [reflexivity|]. split; [reflexivity|]. lia.
  - rewrite iter_next_at by lia. destruct (co_elem i) as (x & dx & Hx & _); [lia|]. rewrite Hx. cbn [bind fst snd].
    destruct (IH (i + 1)) as (xs & Hxs & Hl & Hn); [lia|lia|]. rewrite Hxs. cbn [bind fst snd].
    exists (x :: xs). replace (i + 1 + Z.of_nat k) with (i + Z.of_nat (S k)) by lia. split; [reflexivity|].
    split; [cbn [length]; lia|]. intros [|j] Hj; cbn [nth_error].
    + exists x. replace (i + Z.of_nat 0) with i by lia. split; [reflexivity|exact Hx].
    + destruct (Hn j ltac:(lia)) as (y & Hy & Hey). exists y. split; [exact Hy|].
      replace (i + Z.of_nat (S j)) with (i + 1 + Z.of_nat j) by lia. exact Hey.
Qed.
Lemma co_collect : forall f i, 0 <= i <= n -> n - i < Z.of_nat f ->
  exists xs, iter_collect f e (it_at v wide fp n i) = Ret xs /\ lenZ xs = n - i /\
    (forall j x, nth_error xs j = Some x -> i + Z.of_nat j < n /\ elem v wide fp (i + Z.of_nat j) = Ret x).
Proof.
  induction f as [|f IH]; intros i Hi Hf; [lia|]. cbn [iter_collect].
  destruct (Z.eq_dec i n) as [->|Hne].
  - rewrite iter_next_end by lia. cbn [bind]. exists []. split; [reflexivity|]. split; [cbn; lia|]. intros [|j] x; discriminate.
  - rewrite iter_next_at by lia. destruct (co_elem i) as (x & dx & Hx & _); [lia|]. rewrite Hx. cbn [bind].
    destruct (IH (i + 1)) as (xs & Hxs & Hl & Hn); [lia|lia|]. rewrite Hxs. cbn [bind].
    exists (x :: xs). split; [reflexivity|]. split; [rewrite lenZ_cons; lia|]. intros [|j] y; cbn [nth_error].
    + intros H; injection H as <-. replace (i + Z.of_nat 0) with i by lia. split; [lia|exact Hx].
    + intros H. apply Hn in H. replace (i + Z.of_nat (S j)) with (i + 1 + Z.of_nat j) by lia. exact H.
Qed.
Lemma co_elems : exists xs, arr_elems e v = Ret xs /\ lenZ xs = n /\
  forall j x, nth_error xs j = Some x -> Z.of_nat j < n /\ elem v wide fp (Z.of_nat j) = Ret x.
Proof.
  unfold arr_elems. rewrite co_iter. cbn [bind]. pose proof co_small as [Hs _]. pose proof (co_n _ _ _ _ _ C).
  destruct (co_collect (S (length (e_data e))) 0) as (xs & Hx & Hl & Hn); [lia|unfold lenZ in *; lia|].
  exists xs. split; [exact Hx|]. split; [lia|]. intros j x Hj. apply (Hn j x Hj).
Qed.

(* ---------- dicts ---------- *)

Lemma key_of_safe kv : gd kv ->
  safe (if vtype_eqb (match value_type e kv with Ret t => t | _ => TyNull end) TyShort then
          match e_sk e with Some tb => i <- to_unsigned_short e kv ;; Ret (sk_decode tb i) | None => Ret None end
        else s <- to_str e kv ;; Ret (Some s)).
Proof.
  intros Hg. destruct (vtype_eqb _ _).
  - destruct (e_sk e); [|apply safe_ret]. apply safe_bind; [apply to_unsigned_short_safe; assumption|intros; apply safe_ret].
  - destruct (to_str_ok e Hwf kv Hg) as (s & ->). cbn [bind]. apply safe_ret.
Qed.

Lemma co_dict_next i : 0 <= i <= n ->
  safe (dict_iter_next e (it_at v wide fp n i)) /\
  forall o it', dict_iter_next e (it_at v wide fp n i) = Ret (o, it') ->
    match o with
    | None => True
    | Some (k, x) => it' = it_at v wide fp n (i + 2) /\ i + 1 < n /\ elem v wide fp (i + 1) = Ret x /\
        exists kv, elem v wide fp i = Ret kv /\ key_text e (e_sk e) kv = Ret (Some k)
    end.
Proof.
  intros Hi. unfold dict_iter_next. destruct (Z.eq_dec i n) as [->|Hne].
  { rewrite iter_next_end by lia. cbn [bind]. split; [apply safe_ret|]. intros o it' H; injection H as <- <-. exact I. }
  rewrite iter_next_at by lia. destruct (co_elem i) as (kv & dx & Hx & Hgx & Hdx & _); [lia|]. rewrite Hx. cbn [bind].
  assert (Hg : gd kv) by (eapply co_elem_gd; [|exact Hx]; lia).
  destruct (gd_type e kv Hg) as (ty & Hty & _). pose proof (key_of_safe kv Hg) as Hk. rewrite Hty in *. cbn [bind].
  assert (Hkt : forall key, (if vtype_eqb ty TyShort then
      match e_sk e with Some tb => i <- to_unsigned_short e kv ;; Ret (sk_decode tb i) | None => Ret None end
      else s <- to_str e kv ;; Ret (Some s)) = Ret key -> key_text e (e_sk e) kv = Ret key).
  { intros key H. unfold key_text. rewrite Hty. cbn [bind]. exact H. }
  split.
  - apply safe_bind; [exact Hk|]. intros [s|] _; [|apply safe_ret].
    destruct (Z.eq_dec (i + 1) n) as [->|Hne2]; [rewrite iter_next_end by lia; cbn [bind]; apply safe_ret|].
    rewrite iter_next_at by lia. destruct (co_elem (i + 1)) as (xv & dx' & Hx' & _); [lia|]. rewrite Hx'. cbn [bind]. apply safe_ret.
  - intros o it' H. binv H. destruct x as [s|]; [|injection H as <- <-; exact I].
    destruct (Z.eq_dec (i + 1) n) as [En|Hne2]; [rewrite iter_next_end in H by lia; cbn [bind] in H; injection H as <- <-; exact I|].
    rewrite iter_next_at in H by lia. binv H. destruct x as [y it2]. binv Hx1. apply ret_inj in Hx1. injection Hx1 as <- <-.
    apply ret_inj in H. injection H as <- <-. replace (i + 1 + 1) with (i + 2) by lia. split; [reflexivity|]. split; [lia|].
    split; [assumption|]. exists kv. split; [reflexivity|]. apply Hkt. exact Hx0.
Qed.
Lemma co_dict_collect : forall f i, 0 <= i <= n -> n - i < Z.of_nat f ->
  safe (dict_collect f e (it_at v wide fp n i)) /\
  forall kvs, dict_collect f e (it_at v wide fp n i) = Ret kvs ->
    forall k x, In (k, x) kvs -> exists j kv, 0 <= j /\ j + 1 < n /\ elem v wide fp j = Ret kv /\ elem v wide fp (j + 1) = Ret x /\
      key_text e (e_sk e) kv = Ret (Some k).
Proof.
  induction f as [|f IH]; intros i Hi Hf; [lia|]. cbn [dict_collect]. destruct (co_dict_next i Hi) as [Hs Hr]. split.
  - apply safe_bind; [exact Hs|]. intros [o it'] Ho. apply Hr in Ho. destruct o as [[k x]|]; [|apply safe_ret].
    destruct Ho as (-> & Hlt & _). apply safe_bind; [apply IH; lia|intros; apply safe_ret].
  - intros kvs H k x Hin. binv H. destruct x0 as [o it']. apply Hr in Hx. destruct o as [[k0 x0]|].
    + destruct Hx as (-> & Hlt & He & kv & Hkv & Hk). binv H. apply ret_inj in H. subst kvs. destruct Hin as [Heq|Hin].
      * injection Heq as -> ->. exists i, kv. repeat (split; [first [lia|assumption]|]). assumption.
      * destruct (IH (i + 2) ltac:(lia) ltac:(lia)) as [_ IH2]. eapply IH2; eassumption.
    + apply ret_inj in H. subst kvs. destruct Hin.
Qed.
Lemma co_dict_elems : safe (dict_elems e v) /\ forall kvs, dict_elems e v = Ret kvs ->
  forall k x, In (k, x) kvs -> exists j kv, 0 <= j /\ j + 1 < n /\ elem v wide fp j = Ret kv /\ elem v wide fp (j + 1) = Ret x /\
    key_text e (e_sk e) kv = Ret (Some k).
Proof.
  unfold dict_elems. rewrite co_iter. cbn [bind]. pose proof co_small as [Hs _]. pose proof (co_n _ _ _ _ _ C).
  apply co_dict_collect; [lia|unfold lenZ in *; lia].
Qed.

Lemma co_pair i : 0 <= i -> 2 * i + 1 < n ->
  exists k x, dict_pair e v i = Ret (k, x) /\ elem v wide fp (2 * i) = Ret k /\ elem v wide fp (2 * i + 1) = Ret x.
Proof.
  intros H0 Hi. unfold dict_pair. pose proof co_small as [Hs _]. destruct Hwf as (_ & W1 & W2). unfold two63 in W2.
  unfold usize_mul. destruct (_ <? two64) eqn:E; [|unfold two64 in E; lia]. cbn [bind].
  rewrite co_get_unchecked by lia. destruct (co_elem (2 * i)) as (k & dk & Hk & _); [lia|]. rewrite Hk. cbn [bind].
  unfold usize_add. destruct (2 * i + 1 <? two64) eqn:E2; [|unfold two64 in E2; lia]. cbn [bind].
  rewrite co_get_unchecked by lia. destruct (co_elem (2 * i + 1)) as (x & dx & Hx & _); [lia|]. rewrite Hx. cbn [bind]. eauto.
Qed.
Lemma key_cmp_safe k kv w : gd kv -> safe (dict_key_cmp e k kv w).
Proof.
  intros Hg. unfold dict_key_cmp. destruct (gd_type e kv Hg) as (ty & Hty & Hnp). rewrite Hty. cbn [bind].
  destruct (_ && _); [apply safe_panic|].
  destruct (to_str_ok e Hwf kv Hg) as (s & Hs).
  destruct k; destruct ty; try apply safe_ret; try apply safe_panic; try congruence.
  - apply safe_bind; [apply to_unsigned_short_safe; assumption|intros; apply safe_ret].
  - rewrite Hs. cbn [bind]. apply safe_ret.
Qed.
Lemma key_cmp_eq k kv w : gd kv -> dict_key_cmp e k kv w = Ret Eq ->
  match k with
  | KString s => value_type e kv = Ret TyString /\ to_str e kv = Ret s
  | KShared i => value_type e kv = Ret TyShort /\ to_unsigned_short e kv = Ret i
  end.
Proof.
  intros Hg H. unfold dict_key_cmp in H. destruct (gd_type e kv Hg) as (ty & Hty & Hnp). rewrite Hty in *. cbn [bind] in H.
  destruct (_ && _); [discriminate|]. destruct k; destruct ty; try discriminate; try congruence.
  - binv H. apply ret_inj in H. apply Z.compare_eq in H. subst x. split; [reflexivity|exact Hx].
  - binv H. apply ret_inj in H. apply bytes_cmp_eq in H. subst x. split; [reflexivity|exact Hx].
Qed.
Lemma search_step f k l r size : dict_search (S f) e v k l r size =
  if l <? r then
    let mid := l + size / 2 in
    p <- dict_pair e v mid ;;
    w <- arr_is_wide e v ;;
    c <- dict_key_cmp e k (fst p) w ;;
    match c with
    | Eq => Ret (Some (snd p))
    | Lt => dict_search f e v k l mid (mid - l)
    | Gt => dict_search f e v k (mid + 1) r (r - (mid + 1))
    end
  else Ret None.
Proof.
  cbn [dict_search]. destruct (l <? r); [|reflexivity]. cbv zeta. destruct (dict_pair e v (l + size / 2)); try reflexivity. cbn [bind].
  destruct (arr_is_wide e v); try reflexivity. cbn [bind]. destruct (dict_key_cmp e k (fst a) a0) as [[]| | |]; reflexivity.
Qed.
Lemma co_search : forall f k l r, 0 <= l -> l <= r -> 2 * r <= n -> r - l < 2 ^ Z.of_nat f ->
  safe (dict_search (S f) e v k l r (r - l)) /\
  forall x, dict_search (S f) e v k l r (r - l) = Ret (Some x) ->
    exists i kv, 0 <= i /\ 2 * i + 1 < n /\ dict_pair e v i = Ret (kv, x) /\ gd kv /\
      elem v wide fp (2 * i) = Ret kv /\ elem v wide fp (2 * i + 1) = Ret x /\ dict_key_cmp e k kv wide = Ret Eq.
Proof.
  induction f as [|f IH]; intros k l r Hl Hr Hn Hf.
  { change (2 ^ Z.of_nat 0) with 1 in Hf. cbn [dict_search]. destruct (l <? r) eqn:E; [lia|]. split; [apply safe_ret|discriminate]. }
  replace (Z.of_nat (S f)) with (Z.of_nat f + 1) in Hf by lia. rewrite Z.pow_add_r in Hf by lia. change (2 ^ 1) with 2 in Hf.
  rewrite search_step. destruct (l <? r) eqn:E; [|split; [apply safe_ret|discriminate]]. cbv zeta.
  set (mid := l + (r - l) / 2). assert (Hmid : l <= mid < r) by (unfold mid; lia).
  destruct (co_pair mid) as (kv & x0 & Hp & Hk & Hx); [lia|lia|]. rewrite Hp. cbn [bind fst snd].
  rewrite (co_wide _ _ _ _ _ C). cbn [bind]. assert (Hg : gd kv) by (eapply co_elem_gd; [|exact Hk]; lia).
  pose proof (key_cmp_safe k kv wide Hg) as Hs.
  destruct (dict_key_cmp e k kv wide) as [c| | |] eqn:Ec; cbn [bind]; [|split; [apply safe_panic|discriminate]|destruct Hs; congruence|destruct Hs; congruence].
  destruct c.
  - split; [apply safe_ret|]. intros x H. injection H as <-. exists mid, kv. repeat (split; [first [lia|assumption]|]). assumption.
  - apply IH; unfold mid in *; lia.
  - apply IH; unfold mid in *; lia.
Qed.
Lemma co_get_key k : safe (dict_get_key e v k) /\
  forall x, dict_get_key e v k = Ret (Some x) ->
    exists i kv, 0 <= i /\ 2 * i + 1 < n /\ dict_pair e v i = Ret (kv, x) /\ gd kv /\
      elem v wide fp (2 * i) = Ret kv /\ elem v wide fp (2 * i + 1) = Ret x /\ dict_key_cmp e k kv wide = Ret Eq.
Proof.
  unfold dict_get_key, dict_len. rewrite (co_len _ _ _ _ _ C). cbn [bind]. pose proof co_small as [Hs _]. pose proof (co_n _ _ _ _ _ C).
  destruct Hwf as (_ & W1 & W2). unfold two63 in W2.
  assert (Hp : n / 2 - 0 < 2 ^ Z.of_nat 65) by (change (2 ^ Z.of_nat 65) with 36893488147419103232; lia).
  pose proof (co_search 65 k 0 (n / 2) ltac:(lia) ltac:(lia) ltac:(lia) Hp) as Hc. rewrite Z.sub_0_r in Hc. exact Hc.
Qed.

Hypothesis Hdict : value_type e v = Ret TyDict.

Lemma co_even : n mod 2 = 0.
Proof.
  pose proof (good_in e v d (co_good _ _ _ _ _ C)) as (Hin & _).
  apply (arr_len_range e Hwf v n Hin (co_len _ _ _ _ _ C)). exact Hdict.
Qed.
Lemma co_first_pair : 0 < n -> exists k x, dict_pair e v 0 = Ret (k, x) /\ gd k /\ gd x.
Proof.
  intros Hn. pose proof co_even. destruct (co_pair 0) as (k & x & Hp & Hk & Hx); [lia|lia|].
  exists k, x. split; [exact Hp|]. split; eapply co_elem_gd; try eassumption; lia.
Qed.
Lemma co_uses : exists u, uses_shared_keys e v = Ret u.
Proof.
  unfold uses_shared_keys. rewrite (co_len _ _ _ _ _ C). cbn [bind]. destruct (n =? 0) eqn:E; [eauto|].
  pose proof (co_n _ _ _ _ _ C). destruct co_first_pair as (k & x & -> & Hk & _); [lia|]. cbn [bind fst].
  destruct (gd_type e k Hk) as (ty & -> & _). cbn [bind]. eauto.
Qed.
Lemma co_encode_key key sk : exists k, encode_key e v key sk = Ret k /\
  (k = KString key \/ exists tb i, (sk = Some tb \/ e_sk e = Some tb /\ sk = None) /\ sk_encode tb key = Some i /\ k = KShared i).
Proof.
  unfold encode_key. destruct sk as [tb|].
  - destruct (sk_encode tb key) eqn:E; eexists; (split; [reflexivity|]); [right; eauto 8|left; reflexivity].
  - destruct co_uses as (u & ->). cbn [bind]. destruct u; [|eexists; split; [reflexivity|left; reflexivity]].
    destruct (e_sk e) as [tb|] eqn:Es; [|eexists; split; [reflexivity|left; reflexivity]].
    destruct (sk_encode tb key) eqn:E; eexists; (split; [reflexivity|]); [right; eauto 8|left; reflexivity].
Qed.
Lemma co_dict_get key : safe (dict_get e v key).
Proof.
  unfold dict_get. destruct (co_encode_key key None) as (k & -> & _). cbn [bind]. apply co_get_key.
Qed.
Lemma co_dict_get_sk key sk : safe (dict_get_sk e v key sk).
Proof.
  unfold dict_get_sk. destruct (co_encode_key key (Some sk)) as (k & -> & _). cbn [bind]. apply co_get_key.
Qed.
Lemma co_lookup key sk x :
  match sk with None => dict_get e v key | Some tb => dict_get_sk e v key tb end = Ret (Some x) ->
  exists i kv, 0 <= i /\ 2 * i + 1 < n /\ dict_pair e v i = Ret (kv, x) /\ gd kv /\
      elem v wide fp (2 * i) = Ret kv /\ elem v wide fp (2 * i + 1) = Ret x /\
      ((value_type e kv = Ret TyString /\ to_str e kv = Ret key) \/
       exists tb id, (sk = Some tb \/ e_sk e = Some tb /\ sk = None) /\ value_type e kv = Ret TyShort /\
         to_unsigned_short e kv = Ret id /\ sk_encode tb key = Some id).
Proof.
  intros H. destruct (co_encode_key key sk) as (k & Hk & Hkk).
  assert (Hg : dict_get_key e v k = Ret (Some x)).
  { destruct sk; unfold dict_get, dict_get_sk in H; rewrite Hk in H; exact H. }
  apply co_get_key in Hg as (i & kv & H1 & H2 & H3 & H4 & H5 & H6 & H7). exists i, kv.
  repeat (split; [assumption|]). apply key_cmp_eq in H7; [|exact H4].
  destruct Hkk as [->|(tb & id & Htb & Hid & ->)]; [left; exact H7|]. right. exists tb, id. tauto.
Qed.

End C.

(* ---------- reachable values ---------- *)

(** Every step of navigation lands on a validated element. *)
Lemma step_elem a d x : good a d -> d <= lenZ (e_data e) -> step_to e a x ->
  exists wide n fp i, coll a d wide n fp /\ 0 <= i < n /\ elem a wide fp i = Ret x.
Proof.
  intros Hg Hd Hst.
  assert (Hcoll : forall ty, value_type e a = Ret ty -> is_coll ty -> exists wide n fp, coll a d wide n fp)
    by (intros ty Hty Hc; eapply gd_coll; eassumption).
  destruct Hst as [a n i x Hty Hn Hi Hx|a xs x Hty Hxs Hin|a kvs k x Hty Hkv Hin|a k x Hty Hx|a k sk x Hty Hx|a k x Hty Hx|a k x Hty Hx];
    destruct (Hcoll _ Hty ltac:(unfold is_coll; tauto)) as (wide & m & fp & C).
  - pose proof (co_len _ _ _ _ _ C) as Hm. rewrite Hn in Hm. injection Hm as <-.
    rewrite (co_get _ _ _ _ _ C i Hi) in Hx. binv Hx. injection Hx as <-. exists wide, n, fp, i. tauto.
  - destruct (co_elems _ _ _ _ _ C) as (ys & Hys & Hl & Hn). rewrite Hxs in Hys. injection Hys as <-.
    apply In_nth_error in Hin as (j & Hj). apply Hn in Hj as [Hj1 Hj2]. exists wide, m, fp, (Z.of_nat j). split; [exact C|]. split; [lia|exact Hj2].
  - destruct (proj2 (co_dict_elems _ _ _ _ _ C) _ Hkv _ _ Hin) as (j & kv & H0 & H1 & _ & H2 & _).
    exists wide, m, fp, (j + 1). split; [exact C|]. split; [lia|exact H2].
  - destruct (co_lookup _ _ _ _ _ C Hty k None x Hx) as (i & kv & H0 & H1 & _ & _ & _ & H2 & _).
    exists wide, m, fp, (2 * i + 1). split; [exact C|]. split; [lia|exact H2].
  - destruct (co_lookup _ _ _ _ _ C Hty k (Some sk) x Hx) as (i & kv & H0 & H1 & _ & _ & _ & H2 & _).
    exists wide, m, fp, (2 * i + 1). split; [exact C|]. split; [lia|exact H2].
  - unfold dict_first in Hx. rewrite (co_len _ _ _ _ _ C) in Hx. cbn [bind] in Hx. destruct (m =? 0) eqn:E; [discriminate|].
    pose proof (co_n _ _ _ _ _ C). pose proof (co_even _ _ _ _ _ C Hty). destruct (co_pair _ _ _ _ _ C 0) as (k' & x' & Hp & Hgk & Hgx); [lia|lia|].
    rewrite Hp in Hx. cbn [bind] in Hx. injection Hx as <- <-. exists wide, m, fp, (2 * 0 + 1). split; [exact C|]. split; [lia|exact Hgx].
  - unfold dict_first in Hx. rewrite (co_len _ _ _ _ _ C) in Hx. cbn [bind] in Hx. destruct (m =? 0) eqn:E; [discriminate|].
    pose proof (co_n _ _ _ _ _ C). pose proof (co_even _ _ _ _ _ C Hty). destruct (co_pair _ _ _ _ _ C 0) as (k' & x' & Hp & Hgk & Hgx); [lia|lia|].
    rewrite Hp in Hx. cbn [bind] in Hx. injection Hx as <- <-. exists wide, m, fp, (2 * 0). split; [exact C|]. split; [lia|exact Hgk].
Qed.
Lemma step_good a d x : good a d -> d <= lenZ (e_data e) -> step_to e a x ->
  exists dx, good x dx /\ dx <= d /\ meas x dx < meas a d.
Proof.
  intros Hg Hd Hst. destruct (step_elem a d x Hg Hd Hst) as (wide & n & fp & i & C & Hi & Hx).
  destruct (co_elem _ _ _ _ _ C i Hi) as (x' & dx & Hx' & H1 & H2 & H3). rewrite Hx in Hx'. injection Hx' as <-. eauto.
Qed.
Lemma step_gd a x : gd a -> step_to e a x -> gd x.
Proof.
  intros (d & Hg & Hd) Hst. destruct (step_good a d x Hg Hd Hst) as (dx & H1 & H2 & _). exists dx. split; [exact H1|lia].
Qed.
Lemma good_acc : forall k v d, good v d -> d <= lenZ (e_data e) -> meas v d < Z.of_nat k -> Acc (fun y x => step_to e x y) v.
Proof.
  induction k as [|k IH]; intros v d Hg Hd Hm.
  { exfalso. apply good_in in Hg as ((I1 & I2 & _) & I3 & I4). unfold meas in Hm. lia. }
  constructor. intros y Hy. destruct (step_good v d y Hg Hd Hy) as (dy & H1 & H2 & H3). eapply IH; [exact H1|lia|lia].
Qed.
Lemma root_acc r : from_bytes e = Ret (Ok r) -> Acc (fun y x => step_to e x y) r.
Proof.
  intros H. apply from_bytes_good in H; [|assumption].
  apply (good_acc (S (Z.to_nat (meas r (lenZ (e_data e))))) r (lenZ (e_data e))); [exact H|lia|lia].
Qed.
Lemma reach_gd a x : gd a -> reach e a x -> gd x.
Proof. induction 2; eauto using step_gd. Qed.
Lemma with_debug_wf : wf_env (with_debug e).
Proof. exact Hwf. Qed.

Lemma from_bytes_checked : checked e -> safe (from_bytes e).
Proof.
  intros [Hd|[Hm|Hp]].
  - apply from_bytes_safe; tauto.
  - apply from_bytes_safe; tauto.
  - assert (Hda : e_dbg (with_debug e) = true \/ modest (with_debug e)) by (left; reflexivity).
    pose proof (from_bytes_safe (with_debug e) with_debug_wf Hda) as [Hu Hdv].
    pose proof (from_bytes_leq (e_dbg e) (e_base e) (e_data e) (e_sk e)) as Hl.
    assert (Hee : mk_env (e_dbg e) (e_base e) (e_data e) (e_sk e) = e) by (destruct e; reflexivity). cbv zeta in Hl. rewrite Hee in Hl.
    change (mk_env true (e_base e) (e_data e) (e_sk e)) with (with_debug e) in Hl. destruct Hl as [Hl|Hl]; [congruence|].
    rewrite <- Hl; split; assumption.
Qed.
Lemma root_gd r : from_bytes e = Ret (Ok r) -> gd r.
Proof. intros H. exists (lenZ (e_data e)). split; [apply from_bytes_good; assumption|lia]. Qed.

(* ---------- walking the whole document ---------- *)

Lemma mapM_safe {A B} (f : A -> outcome B) l : (forall x, In x l -> safe (f x)) -> safe (mapM f l).
Proof.
  induction l as [|x l IH]; intros H; cbn [mapM]; [apply safe_ret|]. apply safe_bind; [apply H; left; reflexivity|]. intros y _.
  apply safe_bind; [apply IH; intros; apply H; right; assumption|]. intros; apply safe_ret.
Qed.

Lemma read_safe : forall f v d, good v d -> d <= lenZ (e_data e) -> meas v d < Z.of_nat f -> safe (read_tree f e v).
Proof.
  induction f as [|f IH]; intros v d Hg Hd Hm.
  { exfalso. apply good_in in Hg as ((I1 & I2 & _) & I3 & I4). unfold meas in Hm. lia. }
  assert (Hgd : gd v) by (exists d; tauto). cbn [read_tree]. destruct (gd_type e v Hgd) as (ty & Hty & Hnp). rewrite Hty. cbn [bind].
  destruct (to_str_ok e Hwf v Hgd) as (s & Hs). destruct (to_data_ok e Hwf v Hgd) as (s2 & Hs2).
  assert (Hb : forall {A B} (m : outcome A) (k : A -> B), safe m -> safe (x <- m ;; Ret (k x)))
    by (intros; apply safe_bind; [assumption|intros; apply safe_ret]).
  assert (Hsub : forall wide n fp i x, coll v d wide n fp -> 0 <= i < n -> elem v wide fp i = Ret x -> safe (read_tree f e x)).
  { intros wide n fp i x C Hi Hx. destruct (co_elem _ _ _ _ _ C i Hi) as (x' & dx & Hx' & Hgx & Hdx & Hmx).
    rewrite Hx in Hx'. injection Hx' as <-. eapply IH; [exact Hgx|lia|lia]. }
  destruct ty; try apply safe_ret; try congruence.
  - apply Hb. apply to_bool_safe; assumption.
  - apply Hb. apply to_bool_safe; assumption.
  - apply Hb. apply to_int_safe; assumption.
  - apply Hb. apply to_int_safe; assumption.
  - apply Hb. apply to_unsigned_int_safe; assumption.
  - apply Hb. apply to_float_safe; assumption.
  - apply Hb. apply to_double_safe; assumption.
  - apply Hb. apply to_double_safe; assumption.
  - rewrite Hs. apply safe_ret.
  - rewrite Hs2. apply safe_ret.
  - destruct (gd_coll v d _ Hg Hd Hty ltac:(unfold is_coll; tauto)) as (wide & n & fp & C).
    destruct (co_elems _ _ _ _ _ C) as (xs & Hxs & Hl & Hn). rewrite Hxs. cbn [bind]. apply Hb. apply mapM_safe.
    intros x Hin. apply In_nth_error in Hin as (j & Hj). apply Hn in Hj as [Hj1 Hj2]. eapply Hsub; [exact C| |exact Hj2]. lia.
  - destruct (gd_coll v d _ Hg Hd Hty ltac:(unfold is_coll; tauto)) as (wide & n & fp & C).
    destruct (co_dict_elems _ _ _ _ _ C) as [Hse Hin]. apply safe_bind; [exact Hse|]. intros kvs Hkv. apply Hb. apply mapM_safe.
    intros [k x] Hkx. destruct (Hin _ Hkv _ _ Hkx) as (j & kv & H0 & H1 & _ & H2 & _). cbn [snd fst]. apply Hb.
    eapply Hsub; [exact C| |exact H2]. lia.
Qed.
Lemma walk_safe r : from_bytes e = Ret (Ok r) -> safe (read_doc e r).
Proof.
  intros H. pose proof (from_bytes_good e Hwf r H) as Hg. apply read_safe with (d := lenZ (e_data e)); [exact Hg|lia|].
  apply good_in in Hg as ((I1 & I2 & I3) & _). unfold meas, fuel_of. unfold lenZ in *. lia.
Qed.

(* ---------- everything in one place ---------- *)

Lemma good_extent v d : good v d -> d <= lenZ (e_data e) ->
  exists n, extent e v = Ret n /\ 2 <= n /\ 0 <= v_pos v /\ v_pos v + n <= d.
Proof.
  intros Hg Hd. pose proof (good_in e v d Hg) as (Hin & Hl & _). unfold extent.
  destruct (gd_type e v) as (ty & Hty & Hnp); [exists d; tauto|].
  assert (Hsc : exists n, required_size e v = Ret n /\ 2 <= n /\ 0 <= v_pos v /\ v_pos v + n <= d).
  { destruct (good_size e v d Hg) as (n & Hn & Hnd). exists n. pose proof (required_size_range e Hwf v n Hin Hn).
    destruct Hin as (I1 & _). split; [exact Hn|]. lia. }
  assert (Hco : is_coll ty -> exists n, (wide <- arr_is_wide e v;; n0 <- arr_len e v;; fp <- first_pos e v;; Ret (fp + n0 * width_of wide)) = Ret n /\
     2 <= n /\ 0 <= v_pos v /\ v_pos v + n <= d).
  { intros Hc. destruct (gd_coll v d ty Hg Hd Hty Hc) as (wide & n & fp & C). destruct C as [_ _ Hw Hn Hf Hb Hn0 Hf2 Hp _].
    rewrite Hw. cbn [bind]. rewrite Hn. cbn [bind]. rewrite Hf. cbn [bind]. eexists. split; [reflexivity|].
    assert (2 <= width_of wide) by (destruct wide; cbn; lia). nia. }
  destruct Hsc as (n & Hn & Hn2 & Hp & Hnd). pose proof (good_in e v d Hg) as (_ & _ & Hvd).
  unfold required_size in Hn. rewrite Hty in *. cbn [bind] in *.
  assert (Hint : (b0 <- vbyte e v 0 ;; Ret (2 + Z.land b0 7)) = Ret n ->
    exists m, (b <- vbyte e v 0 ;; Ret (2 + b mod 8)) = Ret m /\ 2 <= m /\ 0 <= v_pos v /\ v_pos v + m <= d).
  { intros H. binv H. apply ret_inj in H. subst n. rewrite Hx. cbn [bind]. eexists. split; [reflexivity|]. rewrite land_7 in *. lia. }
  assert (Htext : forall f, (s <- get_data e v ;; Ret (f s)) = Ret n ->
    exists m, (s <- get_data e v ;; Ret (Z.max 2 (v_pos s + v_len s - v_pos v))) = Ret m /\ 2 <= m /\ 0 <= v_pos v /\ v_pos v + m <= d).
  { intros f H. binv H. rewrite Hx. cbn [bind]. eexists. split; [reflexivity|].
    destruct (proj2 (get_data_safe e Hwf v Hin) _ Hx) as (_ & H1 & H2). lia. }
  destruct ty; try congruence; try (apply Hco; unfold is_coll; tauto); try (apply Hint; exact Hn);
    try (exact (Htext (fun s => if v_len s <=? 1 then 2 else if v_len s <=? 14 then 1 + v_len s else 1 + varint_size (v_len s) + v_len s) Hn));
    try (apply ret_inj in Hn; subst n); eexists; (split; [reflexivity|]); lia.
Qed.

Lemma gd_extent v : gd v -> exists n, extent e v = Ret n /\ 2 <= n /\ 0 <= v_pos v /\ v_pos v + n <= lenZ (e_data e).
Proof. intros (d & Hg & Hd). destruct (good_extent v d Hg Hd) as (n & ? & ? & ? & ?). exists n. intuition lia. Qed.

(** An element is its slot, or ends before it. *)
Lemma co_before v d wide n fp : coll v d wide n fp -> forall i x, 0 <= i < n -> elem v wide fp i = Ret x ->
  exists m, extent e x = Ret m /\ let s := v_pos v + fp + i * width_of wide in
    (x = V s (width_of wide) /\ m <= width_of wide) \/ v_pos x + m <= s.
Proof.
  intros C i x Hi Hx. destruct (slot_resolve e _ _ (co_slots _ _ _ _ _ C i Hi)) as (x' & dx & Hr & Hg & Hdx & _). unfold elem in Hx.
  rewrite Hx in Hr. injection Hr as <-. cbn [v_pos v_len] in *. destruct C as [Hgv Hd Hw Hn Hf Hb Hn0 Hf2 Hp Hs].
  assert (Hw2 : width_of wide = 2 \/ width_of wide = 4) by (destruct wide; cbn; lia).
  assert (Hdl : dx <= lenZ (e_data e)) by (destruct Hdx as [[_ ->] | ->]; nia).
  destruct (good_extent x dx Hg Hdl) as (m & Hm & M1 & M2 & M3). exists m. split; [exact Hm|]. cbv zeta.
  destruct Hdx as [[-> ->] | ->]; [left|right; exact M3]. split; [reflexivity|]. cbn [v_pos] in M3. lia.
Qed.

Lemma returns_safe {A} (m : outcome A) : returns m -> safe m.
Proof. intros [a ->]. apply safe_ret. Qed.

Lemma key_of_ok kv : gd kv -> returns (if vtype_eqb (match value_type e kv with Ret t => t | _ => TyNull end) TyShort then
          match e_sk e with Some tb => i <- to_unsigned_short e kv ;; Ret (sk_decode tb i) | None => Ret None end
        else s <- to_str e kv ;; Ret (Some s)).
Proof.
  intros Hg. destruct (gd_type e kv Hg) as (ty & Hty & _). rewrite Hty. destruct (vtype_eqb ty TyShort) eqn:E.
  - destruct ty; try discriminate. destruct (e_sk e); [|eexists; reflexivity].
    destruct (proj2 (to_unsigned_short_safe e Hwf kv Hg)) as (z & ->); [|eexists; reflexivity].
    intros ty H. rewrite Hty in H. injection H as <-. cbn. destruct (gd_in e kv Hg). lia.
  - destruct (to_str_ok e Hwf kv Hg) as (s & ->). eexists; reflexivity.
Qed.
Lemma co_dict_collect_ok v d wide n fp (C : coll v d wide n fp) : forall f i, 0 <= i <= n -> n - i < Z.of_nat f ->
  returns (dict_collect f e (it_at v wide fp n i)).
Proof.
  induction f as [|f IH]; intros i Hi Hf; [lia|]. cbn [dict_collect].
  assert (Hn : returns (dict_iter_next e (it_at v wide fp n i))).
  { unfold dict_iter_next. destruct (Z.eq_dec i n) as [->|Hne]; [rewrite iter_next_end by lia; eexists; reflexivity|].
    rewrite iter_next_at by lia. destruct (co_elem _ _ _ _ _ C i) as (kv & dx & Hx & Hgx & Hdx & _); [lia|]. rewrite Hx. cbn [bind].
    assert (Hg : gd kv) by (eapply co_elem_gd; [exact C| |exact Hx]; lia).
    pose proof (key_of_ok kv Hg) as [key Hk]. destruct (gd_type e kv Hg) as (ty & Hty & _). rewrite Hty in *. cbn [bind]. rewrite Hk. cbn [bind].
    destruct key as [s|]; [|eexists; reflexivity].
    destruct (Z.eq_dec (i + 1) n) as [->|Hne2]; [rewrite iter_next_end by lia; eexists; reflexivity|].
    rewrite iter_next_at by lia. destruct (co_elem _ _ _ _ _ C (i + 1)) as (xv & dx' & Hx' & _); [lia|]. rewrite Hx'. eexists; reflexivity. }
  destruct Hn as [[o it'] Ho]. rewrite Ho. cbn [bind]. apply (co_dict_next _ _ _ _ _ C i Hi) in Ho. destruct o as [[k x]|]; [|eexists; reflexivity].
  destruct Ho as (-> & Hlt & _). destruct (IH (i + 2)) as [l ->]; [lia|lia|]. eexists; reflexivity.
Qed.

Lemma gd_no_panic v : gd v -> no_panic e v.
Proof.
  intros Hgd. pose proof Hgd as (d & Hg & Hd). unfold no_panic.
  destruct (gd_type e v Hgd) as (ty & Hty & Hnp).
  split; [eexists; exact Hty|]. split; [apply to_str_ok; assumption|]. split; [apply to_data_ok; assumption|].
  split; intros Hv; (destruct (gd_coll v d _ Hg Hd Hv ltac:(unfold is_coll; tauto)) as (wide & n & fp & C)).
  - split; [eexists; apply C|]. split; [destruct (co_elems _ _ _ _ _ C) as (xs & Hxs & _); eexists; exact Hxs|].
    intros n' i Hn Hi. pose proof (co_len _ _ _ _ _ C) as Hm. rewrite Hn in Hm. injection Hm as ->.
    rewrite (co_get _ _ _ _ _ C i Hi). destruct (co_elem _ _ _ _ _ C i Hi) as (x & dx & -> & _). eexists; reflexivity.
  - split; [unfold dict_len; rewrite (co_len _ _ _ _ _ C); eexists; reflexivity|]. split.
    + unfold dict_elems. rewrite (co_iter _ _ _ _ _ C). cbn [bind]. pose proof (co_small _ _ _ _ _ C) as [Hs _]. pose proof (co_n _ _ _ _ _ C).
      apply (co_dict_collect_ok _ _ _ _ _ C); [lia|unfold lenZ in *; lia].
    + unfold dict_first. rewrite (co_len _ _ _ _ _ C). cbn [bind]. pose proof (co_n _ _ _ _ _ C).
      destruct (n =? 0) eqn:E; [eexists; reflexivity|]. destruct (co_first_pair _ _ _ _ _ C Hv) as (k & x & -> & _); [lia|]. eexists; reflexivity.
Qed.
Lemma gd_numbers v ty : gd v -> value_type e v = Ret ty -> float_len ty <= v_len v -> numbers_no_panic e v.
Proof.
  intros Hg Hty Hf. assert (Hl : forall ty0, value_type e v = Ret ty0 -> float_len ty0 <= v_len v) by (intros ty0 H; rewrite Hty in H; injection H as <-; exact Hf).
  unfold numbers_no_panic, returns.
  split; [apply to_bool_safe; assumption|]. split; [apply to_short_safe; assumption|]. split; [apply to_unsigned_short_safe; assumption|].
  split; [apply to_int_safe; assumption|]. split; [apply to_unsigned_int_safe; assumption|]. split; [apply to_float_safe; assumption|].
  apply to_double_safe; assumption.
Qed.
Lemma gd_in_bounds v : gd v -> in_bounds e v.
Proof.
  intros Hgd. pose proof Hgd as (d & Hg & Hd). pose proof (gd_no_panic v Hgd) as (H1 & H2 & H3 & H4 & H5). unfold in_bounds.
  split; [apply returns_safe; exact H1|]. split; [apply to_bool_safe; assumption|]. split; [apply to_short_safe; assumption|].
  split; [apply to_unsigned_short_safe; assumption|]. split; [apply to_int_safe; assumption|]. split; [apply to_unsigned_int_safe; assumption|].
  split; [apply to_float_safe; assumption|]. split; [apply to_double_safe; assumption|]. split; [apply returns_safe; exact H2|].
  split; [apply returns_safe; exact H3|]. split.
  - intros Hv. destruct (H4 Hv) as (A & B & D). split; [apply returns_safe; exact A|]. split; [apply returns_safe; exact B|].
    intros n i Hn Hi. apply returns_safe. eapply D; eassumption.
  - intros Hv. destruct (H5 Hv) as (A & B & D). split; [apply returns_safe; exact A|]. split; [apply returns_safe; exact B|].
    split; [apply returns_safe; exact D|]. destruct (gd_coll v d _ Hg Hd Hv ltac:(unfold is_coll; tauto)) as (wide & n & fp & C).
    split; intros; [apply (co_dict_get _ _ _ _ _ C Hv)|apply (co_dict_get_sk _ _ _ _ _ C Hv)].
Qed.

(* ---------- the properties, for values reachable from an accepted root ---------- *)

Section Root.
Variables (r v : val).
Hypothesis Hr : from_bytes e = Ret (Ok r).
Hypothesis Hv : reach e r v.

Lemma here : gd v.
Proof. eapply reach_gd; [apply root_gd; exact Hr|exact Hv]. Qed.
Lemma reach_in_bounds : in_bounds e v.
Proof. apply gd_in_bounds, here. Qed.
Lemma reach_no_panic : no_panic e v /\ forall ty, value_type e v = Ret ty -> float_len ty <= v_len v -> numbers_no_panic e v.
Proof. split; [apply gd_no_panic, here|]. intros ty Ht Hf. eapply gd_numbers; [apply here|exact Ht|exact Hf]. Qed.
Lemma reach_extent : exists n, extent e v = Ret n /\ 2 <= n /\ 0 <= v_pos v /\ v_pos v + n <= lenZ (e_data e).
Proof. apply gd_extent, here. Qed.
Lemma elements_before : value_type e v = Ret TyArray \/ value_type e v = Ret TyDict ->
  exists wide n fp, arr_is_wide e v = Ret wide /\ arr_len e v = Ret n /\ first_pos e v = Ret fp /\
    forall i x, 0 <= i < n -> arr_get e v i = Ret (Some x) ->
      exists m, extent e x = Ret m /\
        ((x = V (v_pos v + fp + i * width_of wide) (width_of wide) /\ m <= width_of wide) \/
         v_pos x + m <= v_pos v + fp + i * width_of wide).
Proof.
  intros Hty. destruct here as (d & Hg & Hd).
  assert (exists wide n fp, coll v d wide n fp) as (wide & n & fp & C)
    by (destruct Hty as [Hty|Hty]; (eapply gd_coll; [exact Hg|exact Hd|exact Hty|unfold is_coll; tauto])).
  exists wide, n, fp. split; [apply C|]. split; [apply C|]. split; [apply C|]. intros i x Hi Hx.
  rewrite (co_get _ _ _ _ _ C i Hi) in Hx. destruct (elem v wide fp i) as [x'| | |] eqn:E; try discriminate. cbn [bind] in Hx. injection Hx as ->.
  exact (co_before _ _ _ _ _ C i x Hi E).
Qed.
Lemma array_get : value_type e v = Ret TyArray -> exists n, arr_len e v = Ret n /\ 0 <= n /\
  (forall i, 0 <= i < n -> exists x, arr_get e v i = Ret (Some x)) /\ (forall i, n < i -> arr_get e v i = Ret None).
Proof.
  intros Hty. destruct here as (d & Hg & Hd). destruct (gd_coll v d _ Hg Hd Hty ltac:(unfold is_coll; tauto)) as (wide & n & fp & C).
  exists n. split; [apply C|]. split; [apply C|]. split.
  - intros i Hi. rewrite (co_get _ _ _ _ _ C i Hi). destruct (co_elem _ _ _ _ _ C i Hi) as (x & dx & -> & _). exists x. reflexivity.
  - apply (co_get_above _ _ _ _ _ C).
Qed.
Lemma array_iter : value_type e v = Ret TyArray -> exists n it0,
  arr_len e v = Ret n /\ arr_iter e v = Ret it0 /\ 0 <= n /\
  (forall k, Z.of_nat k <= n -> exists xs it, iter_run k e it0 = Ret (xs, it) /\ length xs = k /\
     iter_size_hint it = n - Z.of_nat k /\
     (forall j, (j < k)%nat -> arr_get e v (Z.of_nat j) = Ret (nth_error xs j)) /\
     (Z.of_nat k = n -> iter_next e it = Ret (None, it))) /\
  exists xs, arr_elems e v = Ret xs /\ lenZ xs = n /\
     (forall j, Z.of_nat j < n -> arr_get e v (Z.of_nat j) = Ret (nth_error xs j)).
Proof.
  intros Hty. destruct here as (d & Hg & Hd). destruct (gd_coll v d _ Hg Hd Hty ltac:(unfold is_coll; tauto)) as (wide & n & fp & C).
  exists n, (it_at v wide fp n 0). split; [apply C|]. split; [apply (co_iter _ _ _ _ _ C)|]. split; [apply C|]. split.
  - intros k Hk. destruct (co_run _ _ _ _ _ C k 0) as (xs & Hx & Hl & Hn); [lia|lia|].
    exists xs, (it_at v wide fp n (0 + Z.of_nat k)). split; [exact Hx|]. split; [exact Hl|]. split; [unfold iter_size_hint, it_at; cbn [it_len it_index]; lia|].
    split; [|intros Hkn; apply iter_next_end; lia]. intros j Hj. destruct (Hn j Hj) as (x & Hx1 & Hx2).
    rewrite (co_get _ _ _ _ _ C) by lia. rewrite Hx1. rewrite <- (Z.add_0_l (Z.of_nat j)). rewrite Hx2. reflexivity.
  - destruct (co_elems _ _ _ _ _ C) as (xs & Hx & Hl & Hn). exists xs. split; [exact Hx|]. split; [exact Hl|]. intros j Hj.
    destruct (nth_error xs j) as [x|] eqn:Ej.
    + destruct (Hn j x Ej) as [_ Hx2]. rewrite (co_get _ _ _ _ _ C) by lia. rewrite Hx2. reflexivity.
    + apply nth_error_None in Ej. unfold lenZ in Hl. lia.
Qed.
Lemma dict_lookup key sk x : value_type e v = Ret TyDict ->
  match sk with None => dict_get e v key | Some tb => dict_get_sk e v key tb end = Ret (Some x) ->
  exists i n kv, arr_len e v = Ret n /\ 0 <= i /\ 2 * i + 1 < n /\ arr_get e v (2 * i) = Ret (Some kv) /\ arr_get e v (2 * i + 1) = Ret (Some x) /\
      ((value_type e kv = Ret TyString /\ to_str e kv = Ret key) \/
       exists tb id, (sk = Some tb \/ e_sk e = Some tb /\ sk = None) /\ value_type e kv = Ret TyShort /\
         to_unsigned_short e kv = Ret id /\ sk_encode tb key = Some id).
Proof.
  intros Hty H. destruct here as (d & Hg & Hd). destruct (gd_coll v d _ Hg Hd Hty ltac:(unfold is_coll; tauto)) as (wide & n & fp & C).
  destruct (co_lookup _ _ _ _ _ C Hty key sk x H) as (i & kv & H1 & H2 & H3 & H4 & H5 & H6 & H7).
  exists i, n, kv. split; [apply C|]. split; [exact H1|]. split; [exact H2|].
  split; [rewrite (co_get _ _ _ _ _ C) by lia; rewrite H5; reflexivity|].
  split; [rewrite (co_get _ _ _ _ _ C) by lia; rewrite H6; reflexivity|exact H7].
Qed.
End Root.

End Nav.

(* ---------- C25: malformed roots ---------- *)

Lemma root_bad_size e : lenZ (e_data e) = 0 \/ lenZ (e_data e) mod 2 = 1 -> from_bytes e = Ret (Err InputIncorrectlySized).
Proof.
  intros H. unfold from_bytes, find_root. cbv zeta. destruct (_ || _) eqn:E; [reflexivity|]. lia.
Qed.
Section LastTwo.
Variables (e : env) (pre : list Z) (b0 b1 : Z).
Hypothesis Hwf : wf_env e.
Hypothesis Hdata : e_data e = pre ++ [b0; b1].
Hypothesis Heven : lenZ pre mod 2 = 0.

Lemma last_len : lenZ (e_data e) = lenZ pre + 2.
Proof. rewrite Hdata, lenZ_app. cbn. lia. Qed.
Lemma last_type : value_type e (V (lenZ (e_data e) - 2) 2) = Ret (type_of_byte b0).
Proof.
  unfold value_type, vbyte. cbn [v_len v_pos]. destruct (_ && _) eqn:E; [|lia]. unfold raw. rewrite last_len.
  replace (lenZ pre + 2 - 2 + 0) with (lenZ pre) by lia. rewrite Hdata. rewrite nthZ_app_r by lia.
  replace (lenZ pre - lenZ pre) with 0 by lia. reflexivity.
Qed.
Lemma last_byte : vbyte e (V (lenZ (e_data e) - 2) 2) 0 = Ret b0.
Proof.
  unfold vbyte. cbn [v_len v_pos]. destruct (_ && _) eqn:E; [|lia]. unfold raw. rewrite last_len.
  replace (lenZ pre + 2 - 2 + 0) with (lenZ pre) by lia. rewrite Hdata. rewrite nthZ_app_r by lia.
  replace (lenZ pre - lenZ pre) with 0 by lia. reflexivity.
Qed.
Lemma last_offset : get_offset e (V (lenZ (e_data e) - 2) 2) false = Ret (((b0 mod 64) * 256 + b1) * 2).
Proof.
  unfold get_offset. cbn [v_pos]. pose proof (lenZ_nonneg pre). rewrite raw_bytes_ok by (pose proof last_len; lia). cbn [bind].
  rewrite last_len. replace (lenZ pre + 2 - 2) with (lenZ pre) by lia. rewrite Hdata. rewrite subl_app_r by lia.
  replace (lenZ pre - lenZ pre) with 0 by lia. change (subl [b0; b1] 0 2) with [b0; b1]. f_equal. f_equal.
  rewrite land_3fff. destruct Hwf as (Hb & _). rewrite Hdata in Hb. apply Forall_app in Hb as [_ Hb]. inversion Hb as [|? ? B0 Hb']; subst. inversion Hb' as [|? ? B1 _]; subst.
  unfold is_byte in *. unfold be_val. cbn [rev app le_val]. lia.
Qed.
Lemma pointer_byte b : 0 <= b < 256 -> vtype_eqb (type_of_byte b) TyPointer = (128 <=? b).
Proof.
  intros Hb. apply eqb_prop. change 256 with (Z.of_nat 256) in Hb.
  exact (range_sweep (fun b => Bool.eqb (vtype_eqb (type_of_byte b) TyPointer) (128 <=? b)) 256 ltac:(vm_compute; reflexivity) b Hb).
Qed.
Lemma last_bytes : is_byte b0 /\ is_byte b1.
Proof.
  destruct Hwf as (Hb & _). rewrite Hdata in Hb. apply Forall_app in Hb as [_ Hb]. inversion Hb as [|? ? B0 Hb']; subst.
  inversion Hb' as [|? ? B1 _]; subst. split; assumption.
Qed.
Lemma root_not_pointer : pre <> [] -> b0 < 128 -> from_bytes e = Ret (Err RootNotPointer).
Proof.
  intros Hp Hb. unfold from_bytes, find_root. cbv zeta. pose proof (lenZ_nonneg pre). pose proof last_len. destruct last_bytes as [B0 _]. unfold is_byte in B0.
  assert (lenZ pre <> 0) by (destruct pre; [congruence|rewrite lenZ_cons; pose proof (lenZ_nonneg l); lia]).
  destruct (_ || _) eqn:E; [lia|]. rewrite last_type. cbn [bind]. rewrite pointer_byte by lia. destruct (128 <=? b0) eqn:Eb; [lia|].
  destruct (_ =? 2) eqn:E2; [lia|]. reflexivity.
Qed.
Lemma root_pointer er : 128 <= b0 ->
  (((b0 mod 64) * 256 + b1) * 2 = 0 /\ er = PointerOffsetZero \/
   0 < ((b0 mod 64) * 256 + b1) * 2 /\ b0 < 192 /\ lenZ pre < ((b0 mod 64) * 256 + b1) * 2 /\ er = PointerTargetOutOfBounds) ->
  from_bytes e = Ret (Err er).
Proof.
  intros Hb H. unfold from_bytes, find_root. cbv zeta. pose proof (lenZ_nonneg pre). pose proof last_len. destruct last_bytes as [B0 B1]. unfold is_byte in *.
  destruct (_ || _) eqn:E; [lia|]. rewrite last_type. cbn [bind]. rewrite pointer_byte by lia. destruct (128 <=? b0) eqn:Eb; [|lia].
  unfold fuel_of. cbn [deref_checked]. cbn [v_len]. change ((false && (2 <? 4)) || (2 <? 2)) with false. cbv iota.
  rewrite last_offset. cbn [bind]. set (off := (b0 mod 64 * 256 + b1) * 2) in *.
  destruct H as [[G0 ->] | (G0 & G1 & G2 & ->)].
  { destruct (off =? 0) eqn:E0; [reflexivity|lia]. }
  destruct (off =? 0) eqn:E0; [lia|]. rewrite last_byte. cbn [bind].
  assert (Hx : Z.land b0 64 = 0).
  { assert (Hs : 0 <= b0 - 128 < Z.of_nat 64) by lia.
    pose proof (range_sweep (fun b => Z.land (b + 128) 64 =? 0) 64 ltac:(vm_compute; reflexivity) (b0 - 128) Hs) as Hx. cbv beta in Hx.
    replace (b0 - 128 + 128) with b0 in Hx by lia. lia. }
  rewrite Hx. change (negb (0 =? 0)) with false. cbv iota.
  rewrite (ptr_target_eq e Hwf); [|unfold inslice; cbn [v_pos v_len]; lia|cbn; lia|unfold off; lia].
  cbn [v_pos]. destruct (_ <? 0) eqn:E1; [reflexivity|]. lia.
Qed.
End LastTwo.

(* ---------- C17: when validation cannot panic ---------- *)

Section Calm.
Variable e : env.
Hypothesis Hwf : wf_env e.
Hypothesis Hrel : e_dbg e = false.
Hypothesis Hm : modest e.
Hypothesis Hcalm : calm e.

Lemma raw_calm p b : raw e p = Ret b -> is_byte b /\ b < 192 /\ ~ 64 <= b < 96.
Proof.
  unfold raw. destruct (nthZ (e_data e) p) as [x|] eqn:E; [|discriminate]. intros H; injection H as <-.
  split; [destruct Hwf as [Hb _]; eapply nthZ_Forall; eauto|]. eapply (nthZ_Forall (fun b => b < 192 /\ ~ 64 <= b < 96)); eauto.
Qed.
Lemma type_calm b : 0 <= b < 256 -> ~ 64 <= b < 96 -> type_of_byte b <> TyString /\ type_of_byte b <> TyData.
Proof.
  intros Hb Hn. change 256 with (Z.of_nat 256) in Hb.
  pose proof (range_sweep (fun b => ((64 <=? b) && (b <? 96)) || negb (vtype_eqb (type_of_byte b) TyString || vtype_eqb (type_of_byte b) TyData)) 256 ltac:(vm_compute; reflexivity) b Hb) as H.
  cbv beta in H. destruct (_ && _) eqn:E; [lia|]. cbn [orb] in H. split; intros Ht; rewrite Ht in H; discriminate.
Qed.
Lemma vbyte_first v : inslice e v -> 1 <= v_len v -> exists b, vbyte e v 0 = Ret b /\ is_byte b /\ b < 192 /\ ~ 64 <= b < 96.
Proof.
  intros (H1 & H2 & H3) H4. unfold vbyte. destruct ((0 <=? 0) && (0 <? v_len v)) eqn:E; [|lia].
  destruct (raw_ok e Hwf (v_pos v + 0)) as (b & Hb & _); [lia|]. exists b. split; [exact Hb|eapply raw_calm; exact Hb].
Qed.
Lemma required_size_calm v : inslice e v -> 1 <= v_len v -> returns (required_size e v).
Proof.
  intros Hin Hl. destruct (vbyte_first v Hin Hl) as (b & Hb & B1 & B2 & B3). unfold required_size, value_type. rewrite Hb. cbn [bind].
  destruct (type_calm b) as [T1 T2]; [unfold is_byte in B1; lia|exact B3|].
  destruct (type_of_byte b); try congruence; eexists; reflexivity.
Qed.
Lemma from_raw_calm p w : inslice e (V p w) -> 2 <= w -> returns (from_raw e p w).
Proof.
  intros Hin Hw. unfold from_raw. cbv zeta. cbn [v_len]. destruct (w <? 2) eqn:E; [lia|].
  destruct (required_size_calm _ Hin) as [n ->]; [cbn; lia|]. cbn [bind]. destruct (w <? n); [|eexists; reflexivity].
  destruct (value_type_ok e Hwf _ Hin) as [ty ->]; [cbn; lia|]. eexists; reflexivity.
Qed.
Lemma deref_calm : forall f v wide, inslice e v -> 1 <= v_len v -> value_type e v = Ret TyPointer -> v_pos v < Z.of_nat f -> returns (deref_checked f e v wide).
Proof.
  induction f as [|f IH]; intros v wide Hin Hl Hty Hf; [exfalso; destruct Hin; lia|]. cbn [deref_checked].
  destruct ((wide && (v_len v <? 4)) || (v_len v <? 2)) eqn:E; [eexists; reflexivity|].
  assert (Hw : width_of wide <= v_len v) by (destruct wide; cbn [width_of andb] in *; lia).
  destruct (get_offset_spec e v wide Hin Hw) as (off & -> & Ho & Hev). cbn [bind].
  destruct (off =? 0) eqn:E0; [eexists; reflexivity|].
  rewrite (ptr_target_eq e Hwf v off Hin Hl Ho).
  destruct (vbyte_first v Hin Hl) as (b & Hb & B1 & B2 & B3). rewrite Hb. cbn [bind]. unfold is_byte in B1.
  assert (Hp : 128 <= b).
  { unfold value_type in Hty. rewrite Hb in Hty. cbn [bind] in Hty. apply ret_inj in Hty. pose proof (pointer_byte b ltac:(lia)) as Hp. rewrite Hty in Hp. cbn in Hp. lia. }
  assert (Hx : Z.land b 64 = 0).
  { assert (Hs : 0 <= b - 128 < Z.of_nat 64) by lia.
    pose proof (range_sweep (fun b => Z.land (b + 128) 64 =? 0) 64 ltac:(vm_compute; reflexivity) (b - 128) Hs) as Hx. cbv beta in Hx.
    replace (b - 128 + 128) with b in Hx by lia. lia. }
  rewrite Hx. change (negb (0 =? 0)) with false. cbv iota.
  destruct (v_pos v - off <? 0) eqn:E1; [eexists; reflexivity|].
  assert (Hin' : inslice e (V (v_pos v - off) off)).
  { destruct Hin as (H1 & H2 & H3). unfold inslice; cbn [v_pos v_len]. lia. }
  destruct (value_type_ok e Hwf _ Hin') as [ty Hty']; [cbn [v_len]; lia|]. rewrite Hty'. cbn [bind].
  destruct (vtype_eqb ty TyPointer) eqn:Et; [|eexists; reflexivity].
  apply IH; [exact Hin'|cbn; lia|destruct ty; try discriminate; exact Hty'|cbn [v_pos]; lia].
Qed.
Lemma rel_add a b : returns (usize_add (e_dbg e) a b).
Proof. rewrite Hrel. unfold usize_add. destruct (_ <? _); eexists; reflexivity. Qed.
Lemma rel_mul a b : returns (usize_mul (e_dbg e) a b).
Proof. rewrite Hrel. unfold usize_mul. destruct (_ <? _); eexists; reflexivity. Qed.
Lemma rel_sub a b : returns (usize_sub (e_dbg e) a b).
Proof. rewrite Hrel. unfold usize_sub. destruct (_ <=? _); eexists; reflexivity. Qed.

Lemma varint_calm v : inslice e v -> 2 <= v_len v -> returns (varint_at e v 2).
Proof.
  intros (H1 & H2 & H3) Hl. unfold varint_at. destruct (v_len v <? 2) eqn:E; [lia|]. clear E. unfold varint_read. destruct (_ <=? 0) eqn:E0; [eexists; reflexivity|].
  assert (Hget : forall i, 0 <= i < v_len v - 2 -> exists b, raw e (v_pos v + 2 + i) = Ret b) by (intros i Hi; destruct (raw_ok e Hwf (v_pos v + 2 + i)) as (b & Hb & _); [lia|eauto]).
  destruct (Hget 0) as (b & ->); [lia|]. cbn [bind]. destruct (_ <? 128); [eexists; reflexivity|]. rewrite Hrel.
  assert (Hloop : forall n i s x, 0 <= i -> returns (varint_read_loop false (fun i => raw e (v_pos v + 2 + i)) (v_len v - 2) n i s x)).
  { induction n as [|n IH]; intros i s x Hi; cbn [varint_read_loop]; [eexists; reflexivity|].
    destruct (i + 1 <? v_len v - 2) eqn:El; [|eexists; reflexivity]. destruct (Hget (i + 1)) as (y & ->); [lia|]. cbn [bind].
    assert (Hsh : forall z, exists q, u64_shl false z s = Ret q) by (intros z; unfold u64_shl; destruct (s <? 64); eexists; reflexivity).
    destruct (128 <=? y).
    - destruct (Hsh (Z.land y 127)) as [q ->]. cbn [bind]. apply IH. lia.
    - destruct (Hsh y) as [q ->]. cbn [bind]. destruct (_ && _); eexists; reflexivity. }
  apply Hloop. lia.
Qed.
Lemma arr_calm v : inslice e v -> 2 <= v_len v -> returns (arr_len e v) /\ returns (first_pos e v) /\ returns (arr_is_wide e v).
Proof.
  intros Hin Hl. pose proof Hin as (I1 & I2 & I3).
  assert (Hs : returns (get_short e v)).
  { unfold get_short. destruct (_ <? 2) eqn:E; [lia|]. destruct (raw_ok e Hwf (v_pos v)) as (b & -> & _); [lia|].
    destruct (raw_ok e Hwf (v_pos v + 1)) as (b1 & -> & _); [lia|]. eexists; reflexivity. }
  destruct Hs as [s Hs]. destruct (varint_calm v Hin Hl) as [[r x] Hx]. destruct (value_type_ok e Hwf v Hin) as [ty Hty]; [lia|].
  unfold arr_len, first_pos. rewrite Hs. cbn [bind]. destruct (v_len v <? 2) eqn:E2; [lia|]. rewrite Hx. cbn [bind]. rewrite Hty. cbn [bind].
  split; [|split].
  - destruct (_ =? _); [|destruct (vtype_eqb _ _); eexists; reflexivity]. destruct (r =? 0); [eexists; reflexivity|].
    destruct (vtype_eqb _ _); [|eexists; reflexivity]. apply rel_mul.
  - destruct (_ =? _); eexists; reflexivity.
  - unfold arr_is_wide. destruct (vbyte_first v Hin) as (b & -> & _); [lia|]. eexists; reflexivity.
Qed.
Lemma elems_loop_returns stp w n : forall k i cur,
  0 <= i <= n -> n - i < Z.of_nat k ->
  (forall j, i <= j < n -> returns (stp (cur + (j - i) * w))) -> returns (elems_loop stp k i n cur w).
Proof.
  induction k as [|k IH]; intros i cur Hi Hk Hs; cbn [elems_loop]; [lia|].
  destruct (i <? n) eqn:E; [|eexists; reflexivity]. destruct (Hs i ltac:(lia)) as [x Hx]. replace (cur + (i - i) * w) with cur in Hx by lia.
  rewrite Hx. destruct x; cbn [bindr]; [|eexists; reflexivity]. apply IH; [lia|lia|]. intros j Hj. specialize (Hs j ltac:(lia)).
  replace (cur + w + (j - (i + 1)) * w) with (cur + (j - i) * w) by lia. exact Hs.
Qed.
Lemma validate_calm : forall f is_elem is_wide v dend,
  inslice e v -> 2 <= v_len v -> v_pos v + v_len v <= dend <= lenZ (e_data e) ->
  meas v dend < Z.of_nat f -> returns (validate f e is_elem is_wide v dend).
Proof.
  induction f as [|f IH]; intros is_elem is_wide v dend Hin Hl Hd Hme.
  { exfalso. unfold meas in Hme. destruct Hin as (I1 & _). lia. }
  cbn [validate]. destruct (value_type_ok e Hwf v Hin) as [ty Hty]; [lia|]. rewrite Hty. cbn [bind].
  assert (Hscal : returns (if is_elem then Ret (Ok tt) else
            n <- required_size e v ;; en <- usize_add (e_dbg e) (e_base e + v_pos v) n ;;
            if en <=? e_base e + dend then Ret (Ok tt)
            else _ <- usize_sub (e_dbg e) (e_base e + dend) (e_base e + v_pos v) ;; Ret (@Err unit _ ValueOutOfBounds))).
  { destruct is_elem; [eexists; reflexivity|]. destruct (required_size_calm v Hin) as [n ->]; [lia|]. cbn [bind].
    destruct (rel_add (e_base e + v_pos v) n) as [en ->]. cbn [bind]. destruct (_ <=? _); [eexists; reflexivity|].
    destruct (rel_sub (e_base e + dend) (e_base e + v_pos v)) as [q ->]. eexists; reflexivity. }
  assert (Hcoll : returns (wide <- arr_is_wide e v ;;
          let width := width_of wide in
          n <- arr_len e v ;; fp <- first_pos e v ;;
          let first := v_pos v + fp in
          bytes <- usize_mul (e_dbg e) n width ;;
          lim <- usize_add (e_dbg e) (e_base e + first) bytes ;;
          if e_base e + dend <? lim then
            _ <- usize_sub (e_dbg e) (e_base e + dend) (e_base e + first) ;; Ret (@Err unit _ ArrayOutOfBounds)
          else elems_loop (fun cur => x <-? from_raw e cur width ;; validate f e true wide x (cur + width))
              (S (S (length (e_data e)))) 0 n first width)).
  { destruct (arr_calm v Hin Hl) as ([n Hn] & [fp Hfp] & [wide Hw]). rewrite Hw. cbn [bind]. cbv zeta. rewrite Hn. cbn [bind]. rewrite Hfp. cbn [bind].
    destruct (rel_mul n (width_of wide)) as [bytes Hby]. rewrite Hby. cbn [bind].
    destruct (rel_add (e_base e + (v_pos v + fp)) bytes) as [lim Hlim]. rewrite Hlim. cbn [bind].
    destruct (_ <? lim) eqn:El; [destruct (rel_sub (e_base e + dend) (e_base e + (v_pos v + fp))) as [q ->]; eexists; reflexivity|].
    pose proof (lim_exact e Hwf (or_intror Hm) _ _ _ _ _ _ _ Hin Hl Hn Hfp Hby Hlim El) as Hb.
    apply first_pos_range in Hfp; try assumption. apply arr_len_range in Hn as (Hn & _); [|assumption|assumption].
    assert (Hw24 : width_of wide = 2 \/ width_of wide = 4) by (destruct wide; cbn; lia).
    destruct Hin as (I1 & I2 & I3).
    apply elems_loop_returns; [lia|unfold lenZ in *; nia|].
    intros j Hj. replace (v_pos v + fp + (j - 0) * width_of wide) with (v_pos v + fp + j * width_of wide) by lia.
    set (cur := v_pos v + fp + j * width_of wide).
    assert (Hcur : v_pos v + 2 <= cur /\ cur + width_of wide <= dend) by (unfold cur; nia).
    assert (Hc : inslice e (V cur (width_of wide))) by (unfold inslice; cbn [v_pos v_len]; lia).
    destruct (from_raw_calm cur (width_of wide) Hc) as [x Hx]; [lia|]. rewrite Hx. destruct x as [x|er]; cbn [bindr]; [|eexists; reflexivity].
    apply from_raw_safe in Hx as (-> & _); try assumption.
    apply IH; [exact Hc|cbn [v_len]; lia|cbn [v_pos v_len]; lia|]. unfold meas in *; cbn [v_pos]. lia. }
  destruct ty; try exact Hscal; try exact Hcoll.
  destruct (deref_calm (fuel_of e) v is_wide Hin ltac:(lia) Hty (fuel_enough e v Hin)) as [x Hx]. rewrite Hx.
  destruct x as [t|er]; cbn [bindr]; [|eexists; reflexivity].
  apply deref_checked_safe in Hx; [|assumption|assumption|apply fuel_enough; assumption].
  destruct Hx as (T1 & T2 & T3 & _). apply IH; [assumption|assumption|destruct T1; lia|]. unfold meas in *. lia.
Qed.
Lemma from_bytes_calm : returns (from_bytes e).
Proof.
  unfold from_bytes.
  assert (Hf : returns (find_root e)).
  { unfold find_root. cbv zeta. pose proof (lenZ_nonneg (e_data e)). destruct (_ || _) eqn:E; [eexists; reflexivity|].
    assert (Hin : inslice e (V (lenZ (e_data e) - 2) 2)) by (unfold inslice; cbn [v_pos v_len]; lia).
    destruct (value_type_ok e Hwf _ Hin) as [ty Hty]; [cbn; lia|]. rewrite Hty. cbn [bind].
    destruct (vtype_eqb ty TyPointer) eqn:Et; [|destruct (_ =? 2); eexists; reflexivity].
    apply deref_calm; [exact Hin|cbn; lia|destruct ty; try discriminate; exact Hty|apply fuel_enough; exact Hin]. }
  destruct Hf as [[r|er] Hr]; rewrite Hr; cbn [bindr]; [|eexists; reflexivity].
  apply (find_root_safe e Hwf) in Hr as (A & B & C & _).
  destruct (validate_calm (fuel_of e) false false r (lenZ (e_data e)) A B) as [x Hx]; [lia| |rewrite Hx; destruct x; eexists; reflexivity].
  unfold meas, fuel_of. destruct A as (A1 & A2 & A3). unfold lenZ in *. lia.
Qed.
End Calm.

(* ---------- C10 ---------- *)

Lemma sk_find_at k : forall t i j, sk_find k i t = Some j -> nthZ t (j - i) = Some k /\ i <= j.
Proof.
  induction t as [|x t IH]; intros i j H; cbn [sk_find] in H; [discriminate|].
  destruct (bytes_eqb x k) eqn:E.
  - injection H as <-. replace (i - i) with 0 by lia. apply bytes_eqb_eq in E. subst x. split; [reflexivity|lia].
  - apply IH in H as [H1 H2]. split; [|lia]. rewrite nthZ_cons_S by lia. replace (j - i - 1) with (j - (i + 1)) by lia. exact H1.
Qed.
Lemma zstr_short k : lenZ k <= 15 -> zstr_make k = k.
Proof. intros H. apply firstn_all2. unfold lenZ in H. lia. Qed.

Lemma lookup_key_text e r v key sk x : wf_env e -> from_bytes e = Ret (Ok r) -> reach e r v ->
  value_type e v = Ret TyDict ->
  lenZ key <= 15 \/ (sk = None /\ e_sk e = None) ->
  match sk with None => dict_get e v key | Some tb => dict_get_sk e v key tb end = Ret (Some x) ->
  exists i n kv, dict_len e v = Ret n /\ 0 <= i < n /\ arr_get e v (2 * i) = Ret (Some kv) /\ arr_get e v (2 * i + 1) = Ret (Some x) /\
    key_text e (match sk with None => e_sk e | Some tb => Some tb end) kv = Ret (Some key).
Proof.
  intros Hwf Hr Hv Hty Hk H. destruct (dict_lookup e Hwf r v Hr Hv key sk x Hty H) as (i & n & kv & H1 & H2 & H3 & H4 & H5 & H6).
  exists i, (n / 2), kv. unfold dict_len. rewrite H1. split; [reflexivity|]. split; [lia|]. split; [exact H4|]. split; [exact H5|].
  unfold key_text. destruct H6 as [(Ht & Hs)|(tb & id & Htb & Ht & Hs & He)].
  - rewrite Ht. cbn [bind vtype_eqb]. rewrite Hs. reflexivity.
  - rewrite Ht. cbn [bind vtype_eqb]. assert (Hl : lenZ key <= 15) by (destruct Hk as [Hk|[-> Hk]]; [exact Hk|destruct Htb as [Htb|[Htb _]]; congruence]).
    replace (match sk with Some tb0 => Some tb0 | None => e_sk e end) with (Some tb) by (destruct Htb as [-> | [-> ->]]; reflexivity).
    rewrite Hs. cbn [bind]. unfold sk_encode in He. apply sk_find_at in He as [He _]. rewrite zstr_short in He by exact Hl.
    unfold sk_decode. rewrite Z.sub_0_r in He. rewrite He. reflexivity.
Qed.

(* ---------- C19: a release build that recurses for ever ---------- *)

Definition huge14 : list Z := [0x67;0xFF;0x80;0x80;0x80;0x80;0x80;0x80;0x80;0x80;0x80;0x01;0x80;0x06].
Definition huge_env : env := mk_env false 4294967296 huge14 None.

Lemma huge_step f el dend : 12 <= dend <= 14 -> validate (S f) huge_env el false (V 0 12) dend =
  elems_loop (fun cur => x <-? from_raw huge_env cur 2 ;; validate f huge_env true false x (cur + 2)) 16 0 two63 12 2.
Proof.
  intros Hd. cbn [validate].
  change (value_type huge_env (V 0 12)) with (Ret TyArray). cbn [bind].
  change (arr_is_wide huge_env (V 0 12)) with (Ret false). cbn [bind width_of]. cbv zeta.
  replace (arr_len huge_env (V 0 12)) with (Ret two63) by (vm_compute; reflexivity). cbn [bind].
  replace (first_pos huge_env (V 0 12)) with (Ret 12) by (vm_compute; reflexivity). cbn [bind v_pos e_dbg e_base huge_env].
  change (usize_mul false two63 2) with (Ret 0). cbn [bind]. change (usize_add false (4294967296 + (0 + 12)) 0) with (Ret 4294967308). cbn [bind].
  destruct (4294967296 + dend <? 4294967308) eqn:E; [lia|]. reflexivity.
Qed.
Lemma huge_diverges : forall f el dend, 12 <= dend <= 14 -> validate f huge_env el false (V 0 12) dend = Diverge /\
  validate f huge_env true false (V 12 2) 14 = Diverge.
Proof.
  induction f as [|f IH]; intros el dend Hd; [split; reflexivity|]. split.
  - rewrite huge_step by exact Hd. cbn [elems_loop]. change (0 <? two63) with true. cbv iota.
    replace (from_raw huge_env 12 2) with (@Ret (result val decode_error) (Ok (V 12 2))) by (vm_compute; reflexivity). cbn [bindr].
    change (12 + 2) with 14. rewrite (proj2 (IH true 14 ltac:(lia))). reflexivity.
  - cbn [validate]. change (value_type huge_env (V 12 2)) with (Ret TyPointer). cbn [bind].
    replace (deref_checked (fuel_of huge_env) huge_env (V 12 2) false) with (@Ret (result val decode_error) (Ok (V 0 12))) by (vm_compute; reflexivity).
    cbn [bindr v_pos]. apply (IH false 12). lia.
Qed.
Lemma huge_loops : wf_env huge_env /\ find_root huge_env = Ret (Ok (V 0 12)) /\
  forall depth, validate depth huge_env false false (V 0 12) 14 = Diverge.
Proof.
  split; [|split; [vm_compute; reflexivity|intros; apply huge_diverges; lia]].
  split; [repeat constructor; lia|]. cbn. unfold two63. lia.
Qed.
