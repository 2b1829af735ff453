(** Proofs about the inputs that make [from_bytes] panic. *)
From Coq Require Import ZifyBool ZifyNat.
From Verif Require Import Prelude Lib Varint SharedKeys Decode ReadSpec Safety PanicSpec.
Ltac Zify.zify_post_hook ::= Z.div_mod_to_equations.

(** Panics or runs out of fuel. *)
Definition fails {A} (m : outcome A) : Prop := m = Panic \/ m = Diverge.
Lemma fails_bind {A B} (m : outcome A) (k : A -> outcome B) : fails m -> fails (x <- m ;; k x).
Proof. intros [-> | ->]; [left|right]; reflexivity. Qed.
Lemma fails_bindr {A B E} (m : outcome (result A E)) (k : A -> outcome (result B E)) : fails m -> fails (x <-? m ;; k x).
Proof. intros [-> | ->]; [left|right]; reflexivity. Qed.

Section Panics.
Variable e : env.
Hypothesis Hwf : wf_env e.
Hypothesis Hck : e_dbg e = true \/ modest e.

Lemma vbyte0_ok v : inslice e v -> 1 <= v_len v -> exists b, vbyte e v 0 = Ret b /\ is_byte b.
Proof.
  intros (H1 & H2 & H3) H4. unfold vbyte. destruct ((0 <=? 0) && (0 <? v_len v)) eqn:E; [|lia].
  apply raw_ok; [exact Hwf|lia].
Qed.
Lemma get_short_returns v : inslice e v -> 2 <= v_len v -> exists s, get_short e v = Ret s.
Proof.
  intros (H1 & H2 & H3) Hl. unfold get_short. destruct (_ <? 2) eqn:E; [lia|].
  destruct (raw_ok e Hwf (v_pos v)) as (b & -> & _); [lia|].
  destruct (raw_ok e Hwf (v_pos v + 1)) as (b1 & -> & _); [lia|]. eexists; reflexivity.
Qed.
Lemma safe_cases {A} (m : outcome A) : safe m -> m = Panic \/ exists x, m = Ret x.
Proof. intros [H1 H2]. destruct m; try congruence; [right; eexists; reflexivity|left; reflexivity]. Qed.

(* ---------- pointers ---------- *)

Lemma deref_panics : forall f v w, inslice e v -> 1 <= v_len v -> v_pos v < Z.of_nat f ->
  (deref_checked f e v w = Panic <-> external e w v).
Proof.
  induction f as [|f IH]; intros v w Hin Hl Hf; [exfalso; destruct Hin; lia|]. cbn [deref_checked].
  destruct ((w && (v_len v <? 4)) || (v_len v <? 2)) eqn:E.
  { split; [discriminate|]. intros H. exfalso. inversion H; subst; destruct w; cbn [width_of andb] in *; lia. }
  assert (Hw : width_of w <= v_len v) by (destruct w; cbn [width_of andb] in *; lia).
  destruct (get_offset_spec e v w Hin Hw) as (off & Hoff & Ho & Hev). rewrite Hoff. cbn [bind].
  destruct (off =? 0) eqn:E0.
  { split; [discriminate|]. intros H. exfalso. inversion H as [? ? o b ? Ho' ?|? ? o b ? Ho' ?]; subst; rewrite Hoff in Ho'; injection Ho' as <-; lia. }
  rewrite (ptr_target_eq e Hwf v off Hin Hl Ho).
  destruct (vbyte0_ok v Hin Hl) as (b & Hb & _). rewrite Hb. cbn [bind].
  destruct (negb (Z.land b 64 =? 0)) eqn:Ex.
  { split; [|reflexivity]. intros _. apply (ext_here e w v off b Hw Hoff); [lia|exact Hb|lia]. }
  destruct (v_pos v - off <? 0) eqn:E1.
  { split; [discriminate|]. intros H. exfalso.
    inversion H as [? ? o b' ? Ho' ? Hb' ?|? ? o b' ? Ho' ? Hb' ? ?]; subst; rewrite Hoff in Ho'; injection Ho' as <-;
      rewrite Hb in Hb'; injection Hb' as <-; lia. }
  assert (Hin' : inslice e (V (v_pos v - off) off)).
  { destruct Hin as (H1 & H2 & H3). unfold inslice; cbn [v_pos v_len]. lia. }
  destruct (value_type_ok e Hwf _ Hin') as [ty Hty']; [cbn [v_len]; lia|]. rewrite Hty'. cbn [bind].
  destruct (vtype_eqb ty TyPointer) eqn:Et.
  - assert (ty = TyPointer) as -> by (destruct ty; try discriminate; reflexivity).
    rewrite (IH _ true Hin') by (cbn [v_pos v_len]; lia). split.
    + intros H. apply (ext_next e w v off b Hw Hoff); [lia|exact Hb|lia|lia|exact Hty'|exact H].
    + intros H. inversion H as [? ? o b' ? Ho' ? Hb' ?|? ? o b' ? Ho' ? Hb' ? ? Hty2 Hx]; subst; rewrite Hoff in Ho'; injection Ho' as <-;
        rewrite Hb in Hb'; injection Hb' as <-; [lia|exact Hx].
  - split; [discriminate|]. intros H. exfalso.
    inversion H as [? ? o b' ? Ho' ? Hb' ?|? ? o b' ? Ho' ? Hb' ? ? Hty2 Hx]; subst; rewrite Hoff in Ho'; injection Ho' as <-;
      rewrite Hb in Hb'; injection Hb' as <-; [lia|]. rewrite Hty' in Hty2. injection Hty2 as ->. discriminate.
Qed.

(* ---------- texts ---------- *)

Lemma get_data_panics v : inslice e v -> 2 <= v_len v -> (get_data e v = Panic <-> too_long e v).
Proof.
  intros Hin Hl. unfold get_data, too_long, text_end. destruct (v_len v <? 2) eqn:E; [lia|].
  destruct (vbyte0_ok v Hin) as (b & -> & Hb); [lia|]. cbn [bind]. cbv zeta.
  assert (Hland : 0 <= Z.land b 15 < 16) by (unfold is_byte in Hb; change 15 with (Z.ones 4); rewrite (Z.land_ones b 4) by lia; change (2 ^ 4) with 16; lia).
  destruct (Z.land b 15 =? 15) eqn:E15.
  - destruct (safe_cases _ (proj1 (varint_at_safe e Hwf v 1 Hin ltac:(lia)))) as [Hv|[[r x] Hv]]; rewrite Hv; cbn [bind fst snd].
    { split; [left; reflexivity|reflexivity]. }
    pose proof (proj2 (varint_at_safe e Hwf v 1 Hin ltac:(lia)) _ _ Hv) as (Hx & Hr & _ & Hr2).
    destruct (r =? 0) eqn:Er.
    { split; [discriminate|]. intros [H|(n & H & Hn)]; [discriminate|]. apply ret_inj in H. lia. }
    unfold usize_add. destruct (1 + r + x <? two64) eqn:Eo.
    + cbn [bind]. unfold vslice. destruct (_ && _) eqn:Es.
      * split; [discriminate|]. intros [H|(n & H & Hn)]; [discriminate|]. apply ret_inj in H. lia.
      * split; [|reflexivity]. intros _. right. eexists; split; [reflexivity|]. lia.
    + assert (v_len v < 1 + r + x).
      { destruct Hin as (I1 & I2 & I3). destruct Hwf as (_ & W1 & W2). unfold two63, two64 in *. lia. }
      split; [intros _; right; eexists; split; [reflexivity|assumption]|]. intros _.
      destruct (e_dbg e); [reflexivity|]. cbn [bind]. unfold vslice.
      destruct (_ && _) eqn:Es; [|reflexivity]. exfalso. unfold wrap_u64, two64 in *. lia.
  - unfold vslice. destruct (_ && _) eqn:Es.
    + split; [discriminate|]. intros [H|(n & H & Hn)]; [discriminate|]. apply ret_inj in H. lia.
    + split; [|reflexivity]. intros _. right. eexists; split; [reflexivity|]. lia.
Qed.
Lemma size_panics v : inslice e v -> 2 <= v_len v ->
  (required_size e v = Panic <-> (value_type e v = Ret TyString \/ value_type e v = Ret TyData) /\ too_long e v).
Proof.
  intros Hin Hl. unfold required_size. destruct (value_type_ok e Hwf v Hin) as [ty Hty]; [lia|]. rewrite Hty. cbn [bind].
  destruct (vbyte0_ok v Hin) as (b & Hb & _); [lia|].
  assert (Hno : ty <> TyString -> ty <> TyData -> ~ ((Ret ty = Ret TyString \/ Ret ty = Ret TyData) /\ too_long e v)).
  { intros N1 N2 [[H|H] _]; injection H; assumption. }
  assert (Htx : ty = TyString \/ ty = TyData -> ((s <- get_data e v ;; let len := v_len s in
      Ret (if len <=? 1 then 2 else if len <=? 14 then 1 + len else 1 + varint_size len + len)) = Panic <->
      (Ret ty = Ret TyString \/ Ret ty = Ret TyData) /\ too_long e v)).
  { intros Ht. rewrite <- (get_data_panics v Hin Hl). split.
    - intros H. split; [destruct Ht as [-> | ->]; auto|]. destruct (get_data e v); try discriminate. reflexivity.
    - intros [_ ->]. reflexivity. }
  destruct ty; try (apply Htx; auto; fail); try (rewrite Hb; cbn [bind]);
    (split; [discriminate|intros H; exfalso; revert H; apply Hno; discriminate]).
Qed.

(* ---------- collections ---------- *)

Definition coll_type (v : val) : Prop := value_type e v = Ret TyArray \/ value_type e v = Ret TyDict.

Lemma varint_modest v : e_dbg e = false -> inslice e v -> 2 <= v_len v -> exists r, varint_at e v 2 = Ret r.
Proof.
  intros Hrel (H1 & H2 & H3) Hl. unfold varint_at. destruct (v_len v <? 2) eqn:E; [lia|]. clear E. unfold varint_read. destruct (_ <=? 0) eqn:E0; [eexists; reflexivity|].
  assert (Hget : forall i, 0 <= i < v_len v - 2 -> exists b, raw e (v_pos v + 2 + i) = Ret b) by (intros i Hi; destruct (raw_ok e Hwf (v_pos v + 2 + i)) as (b & Hb & _); [lia|eauto]).
  destruct (Hget 0) as (b & ->); [lia|]. cbn [bind]. destruct (_ <? 128); [eexists; reflexivity|]. rewrite Hrel.
  assert (Hloop : forall n i s x, 0 <= i -> exists r, varint_read_loop false (fun i => raw e (v_pos v + 2 + i)) (v_len v - 2) n i s x = Ret r).
  { induction n as [|n IH]; intros i s x Hi; cbn [varint_read_loop]; [eexists; reflexivity|].
    destruct (i + 1 <? v_len v - 2) eqn:El; [|eexists; reflexivity]. destruct (Hget (i + 1)) as (y & ->); [lia|]. cbn [bind].
    assert (Hsh : forall z, exists q, u64_shl false z s = Ret q) by (intros z; unfold u64_shl; destruct (s <? 64); eexists; reflexivity).
    destruct (128 <=? y).
    - destruct (Hsh (Z.land y 127)) as [q ->]. cbn [bind]. apply IH. lia.
    - destruct (Hsh y) as [q ->]. cbn [bind]. destruct (_ && _); eexists; reflexivity. }
  apply Hloop. lia.
Qed.

(** The arithmetic before the loop over the slots. *)
Definition limit (v : val) : outcome (bool * Z * Z * Z) :=
  wide <- arr_is_wide e v ;;
  n <- arr_len e v ;;
  fp <- first_pos e v ;;
  bytes <- usize_mul (e_dbg e) n (width_of wide) ;;
  lim <- usize_add (e_dbg e) (e_base e + (v_pos v + fp)) bytes ;;
  Ret (wide, n, fp, lim).
Definition overflows (v : val) : Prop :=
  e_dbg e = true /\ (coll_end e v = Panic \/ exists n, coll_end e v = Ret n /\ two64 <= n).

Lemma add_over dbg a b : dbg = true -> two64 <= a + b -> usize_add dbg a b = Panic.
Proof. intros -> H. unfold usize_add. destruct (_ <? _) eqn:E; [lia|reflexivity]. Qed.
Lemma mul_over dbg a b : dbg = true -> two64 <= a * b -> usize_mul dbg a b = Panic.
Proof. intros -> H. unfold usize_mul. destruct (_ <? _) eqn:E; [lia|reflexivity]. Qed.
Lemma add_under dbg a b : a + b < two64 -> usize_add dbg a b = Ret (a + b).
Proof. intros H. unfold usize_add. destruct (_ <? _) eqn:E; [reflexivity|lia]. Qed.
Lemma mul_under dbg a b : a * b < two64 -> usize_mul dbg a b = Ret (a * b).
Proof. intros H. unfold usize_mul. destruct (_ <? _) eqn:E; [reflexivity|lia]. Qed.

Lemma limit_panics v : inslice e v -> 2 <= v_len v -> coll_type v ->
  (limit v = Panic /\ overflows v) \/
  (exists wide n fp lim, limit v = Ret (wide, n, fp, lim) /\ ~ overflows v /\
     arr_is_wide e v = Ret wide /\ arr_len e v = Ret n /\ first_pos e v = Ret fp /\
     lim = e_base e + (v_pos v + fp) + n * width_of wide).
Proof.
  intros Hin Hl Hty. destruct (value_type_ok e Hwf v Hin) as [ty Ht]; [lia|].
  assert (ty = TyArray \/ ty = TyDict) as Htc by (destruct Hty as [H|H]; rewrite Ht in H; injection H; auto).
  destruct (arr_is_wide_ok e Hwf v Hin) as [wide Hw]; [lia|].
  destruct (get_short_returns v Hin Hl) as [s Hs].
  pose proof (get_short_range e Hwf _ _ Hs) as [Hsr _].
  assert (Hw24 : width_of wide = 2 \/ width_of wide = 4) by (destruct wide; cbn; lia).
  set (k := if vtype_eqb ty TyDict then 2 else 1).
  assert (Hk : k = 1 \/ k = 2) by (unfold k; destruct (vtype_eqb ty TyDict); lia).
  pose proof Hin as (I1 & I2 & I3). pose proof Hwf as (_ & W1 & W2).
  destruct (Z.land s VARINT_COUNT =? VARINT_COUNT) eqn:Ec.
  - destruct (safe_cases _ (proj1 (varint_at_safe e Hwf v 2 Hin ltac:(lia)))) as [Hv|[[r x] Hv]].
    { left. assert (e_dbg e = true) as Hd.
      { destruct (e_dbg e) eqn:Hd; [reflexivity|]. destruct (varint_modest v Hd Hin Hl) as [q Hq]. congruence. }
      split.
      - unfold limit. rewrite Hw. cbn [bind]. unfold arr_len. rewrite Hs. cbn [bind]. cbv zeta. rewrite Ec, Hv. reflexivity.
      - split; [exact Hd|]. left. unfold coll_end. rewrite Ht. cbn [bind]. rewrite Hw. cbn [bind]. rewrite Hs. cbn [bind]. cbv zeta. rewrite Ec, Hv. reflexivity. }
    pose proof (proj2 (varint_at_safe e Hwf v 2 Hin ltac:(lia)) _ _ Hv) as (Hx & Hr & _ & Hr2).
    assert (Hfp : first_pos e v = Ret (2 + r + r mod 2)).
    { unfold first_pos. destruct (v_len v <? 2) eqn:E; [lia|]. rewrite Hs. cbn [bind]. rewrite Ec, Hv. cbn [bind].
      f_equal. destruct (negb (r mod 2 =? 0)) eqn:En; lia. }
    set (c := if r =? 0 then 0 else x).
    assert (Hce : coll_end e v = Ret (e_base e + v_pos v + 2 + r + r mod 2 + c * (k * width_of wide))).
    { unfold coll_end. rewrite Ht. cbn [bind]. rewrite Hw. cbn [bind]. rewrite Hs. cbn [bind]. cbv zeta. rewrite Ec, Hv. reflexivity. }
    assert (Hal : arr_len e v = if r =? 0 then Ret 0 else if vtype_eqb ty TyDict then usize_mul (e_dbg e) x 2 else Ret x).
    { unfold arr_len. rewrite Hs. cbn [bind]. cbv zeta. rewrite Ec, Hv. cbn [bind]. destruct (r =? 0); [reflexivity|]. rewrite Ht. reflexivity. }
    assert (Hmod : e_dbg e = false -> x < 576460752303423488).
    { intros Hd. destruct Hck as [H|H]; [congruence|]. exact (H v r x Hin Hv). }
    assert (Hfit : e_dbg e = false -> e_base e + v_pos v + 2 + r + r mod 2 + c * (k * width_of wide) < two64).
    { intros Hd. specialize (Hmod Hd). unfold c. unfold two63, two64 in *. destruct (r =? 0); nia. }
    assert (Hc0 : 0 <= c < two64) by (unfold c, two64 in *; destruct (r =? 0); lia).
    destruct (Z_lt_ge_dec (e_base e + v_pos v + 2 + r + r mod 2 + c * (k * width_of wide)) two64) as [Hlt|Hge].
    + right. exists wide, (c * k), (2 + r + r mod 2). eexists.
      assert (Hn : arr_len e v = Ret (c * k)).
      { rewrite Hal. unfold c, k in *. destruct (r =? 0); [f_equal; lia|]. destruct (vtype_eqb ty TyDict); [|f_equal; lia].
        apply mul_under. unfold two64, two63 in *. nia. }
      split.
      { unfold limit. rewrite Hw. cbn [bind]. rewrite Hn. cbn [bind]. rewrite Hfp. cbn [bind].
        rewrite mul_under by (unfold two64, two63 in *; nia). cbn [bind]. rewrite add_under by (unfold two64, two63 in *; nia). reflexivity. }
      split; [|split; [exact Hw|split; [exact Hn|split; [exact Hfp|nia]]]].
      intros [_ [H|(n & H & Hn')]]; rewrite Hce in H; [discriminate|]. apply ret_inj in H. lia.
    + left. assert (e_dbg e = true) as Hd.
      { destruct (e_dbg e) eqn:Hd; [reflexivity|]. specialize (Hfit eq_refl). lia. }
      split; [|split; [exact Hd|right; eexists; split; [exact Hce|lia]]].
      unfold limit. rewrite Hw. cbn [bind].
      assert (Hn : arr_len e v = Panic \/ arr_len e v = Ret (c * k)).
      { rewrite Hal. unfold c, k in *. destruct (r =? 0); [right; f_equal; lia|]. destruct (vtype_eqb ty TyDict); [|right; f_equal; lia].
        destruct (Z_lt_ge_dec (x * 2) two64); [right; apply mul_under; assumption|left; apply mul_over; [exact Hd|lia]]. }
      destruct Hn as [-> | ->]; [reflexivity|]. cbn [bind]. rewrite Hfp. cbn [bind].
      destruct (Z_lt_ge_dec (c * k * width_of wide) two64) as [H1|H1]; [|rewrite mul_over by (assumption || lia); reflexivity].
      rewrite mul_under by assumption. cbn [bind]. rewrite add_over; [reflexivity|exact Hd|nia].
  - assert (Hc : 0 <= Z.land s VARINT_COUNT < 2048).
    { unfold VARINT_COUNT. rewrite land_2047. lia. }
    set (c := Z.land s VARINT_COUNT) in *.
    assert (Hn : arr_len e v = Ret (c * k)).
    { unfold arr_len. rewrite Hs. cbn [bind]. cbv zeta. fold c. rewrite Ec. rewrite Ht. cbn [bind]. unfold k. destruct (vtype_eqb ty TyDict); f_equal; lia. }
    assert (Hfp : first_pos e v = Ret 2).
    { unfold first_pos. destruct (v_len v <? 2) eqn:E; [lia|]. rewrite Hs. cbn [bind]. fold c. rewrite Ec. reflexivity. }
    right. exists wide, (c * k), 2. eexists. split.
    { unfold limit. rewrite Hw. cbn [bind]. rewrite Hn. cbn [bind]. rewrite Hfp. cbn [bind].
      rewrite mul_under by (unfold two64, two63 in *; nia). cbn [bind]. rewrite add_under by (unfold two64, two63 in *; nia). reflexivity. }
    split; [|split; [exact Hw|split; [exact Hn|split; [exact Hfp|reflexivity]]]].
    assert (Hce : coll_end e v = Ret (e_base e + v_pos v + 2 + c * (k * width_of wide))).
    { unfold coll_end. rewrite Ht. cbn [bind]. rewrite Hw. cbn [bind]. rewrite Hs. cbn [bind]. cbv zeta. fold c. rewrite Ec. reflexivity. }
    intros [_ [H|(n & H & Hn')]]; rewrite Hce in H; [discriminate|]. apply ret_inj in H. unfold two64, two63 in *. nia.
Qed.

(* ---------- places ---------- *)

Definition check (f : nat) (a : place) : dres unit :=
  if p_slot a then x <-? from_raw e (v_pos (p_val a)) (v_len (p_val a)) ;; validate f e true (p_wide a) x (p_end a)
  else validate f e false (p_wide a) (p_val a) (p_end a).
Definition placed (a : place) : Prop :=
  inslice e (p_val a) /\ 2 <= v_len (p_val a) /\ v_pos (p_val a) + v_len (p_val a) <= p_end a <= lenZ (e_data e) /\
  v_pos (p_val a) mod 2 = 0 /\ p_end a mod 2 = 0.
Inductive steps : place -> place -> Prop :=
| steps_refl a : steps a a
| steps_next a b c : next_place e a b -> steps b c -> steps a c.

Lemma next_placed a b : placed a -> next_place e a b -> placed b.
Proof.
  intros (Hin & Hl & Hd & Hp & He) H. destruct H as [s w v d t Ht Hr|s w v d wide n fp i p Ht Hw Hn Hf Hfit Hi Hj ->];
    unfold placed in *; cbn [p_val p_end] in *.
  - apply deref_checked_safe in Hr; [|exact Hwf|exact Hin|apply fuel_enough; exact Hin].
    destruct Hr as (A & B & C & D & _). destruct Hin as (I1 & I2 & I3).
    split; [exact A|]. split; [exact B|]. split; [lia|]. split; lia.
  - apply first_pos_range in Hf as (Hf & _ & Hfe); [|exact Hwf|exact Hin|exact Hl]. destruct Hin as (I1 & I2 & I3).
    assert (Hw24 : width_of wide = 2 \/ width_of wide = 4) by (destruct wide; cbn; lia).
    unfold inslice; cbn [v_pos v_len].
    assert (0 <= i * width_of wide /\ (i + 1) * width_of wide <= n * width_of wide) by nia.
    assert ((i * width_of wide) mod 2 = 0) by (destruct Hw24 as [-> | ->]; lia).
    split; [lia|]. split; [lia|]. split; [lia|]. split; lia.
Qed.

Definition coll_rest (f : nat) (v : val) (d : Z) (q : bool * Z * Z * Z) : dres unit :=
  let '(wide, n, fp, lim) := q in
  if e_base e + d <? lim then
    _ <- usize_sub (e_dbg e) (e_base e + d) (e_base e + (v_pos v + fp)) ;; Ret (Err ArrayOutOfBounds)
  else elems_loop (fun cur => check f (mk_place true wide (V cur (width_of wide)) (cur + width_of wide)))
         (S (S (length (e_data e)))) 0 n (v_pos v + fp) (width_of wide).
Lemma validate_coll f el w v d : coll_type v -> validate (S f) e el w v d = q <- limit v ;; coll_rest f v d q.
Proof.
  intros Ht. assert (exists ty, value_type e v = Ret ty /\ (ty = TyArray \/ ty = TyDict)) as (ty & Hty & Hc).
  { destruct Ht as [H|H]; eexists; split; [exact H|auto|exact H|auto]. }
  cbn [validate]. rewrite Hty. cbn [bind]. unfold limit.
  destruct Hc as [-> | ->];
    (destruct (arr_is_wide e v); cbn [bind]; try reflexivity; destruct (arr_len e v); cbn [bind]; try reflexivity;
     destruct (first_pos e v); cbn [bind]; try reflexivity; destruct (usize_mul _ _ _); cbn [bind]; try reflexivity;
     destruct (usize_add _ _ _); cbn [bind]; reflexivity).
Qed.
Lemma loop_panics stp w n : forall k i cur, elems_loop stp k i n cur w = Panic ->
  exists j, i <= j < n /\ stp (cur + (j - i) * w) = Panic /\ forall j', i <= j' < j -> stp (cur + (j' - i) * w) = Ret (Ok tt).
Proof.
  induction k as [|k IH]; intros i cur H; cbn [elems_loop] in H; [discriminate|].
  destruct (i <? n) eqn:E; [|discriminate].
  destruct (stp cur) as [[[]|er]| | |] eqn:Es; cbn [bindr] in H; try discriminate.
  - apply IH in H. destruct H as (j & Hj & Hp & Hb). exists j. split; [lia|]. split.
    + replace (cur + (j - i) * w) with (cur + w + (j - (i + 1)) * w) by lia. exact Hp.
    + intros j' Hj'. destruct (Z.eq_dec j' i) as [->|Hne]; [replace (cur + (i - i) * w) with cur by lia; exact Es|].
      specialize (Hb j' ltac:(lia)). replace (cur + (j' - i) * w) with (cur + w + (j' - (i + 1)) * w) by lia. exact Hb.
  - exists i. split; [lia|]. split; [replace (cur + (i - i) * w) with cur by lia; exact Es|]. intros j' Hj'. lia.
Qed.
Lemma loop_fails stp w n : forall k i cur j, i <= j < n ->
  (forall j', i <= j' < j -> stp (cur + (j' - i) * w) = Ret (Ok tt) \/ stp (cur + (j' - i) * w) = Diverge) ->
  fails (stp (cur + (j - i) * w)) -> fails (elems_loop stp k i n cur w).
Proof.
  induction k as [|k IH]; intros i cur j Hj Hb Hf; cbn [elems_loop]; [right; reflexivity|].
  destruct (i <? n) eqn:E; [|lia]. destruct (Z.eq_dec j i) as [->|Hne].
  - replace (cur + (i - i) * w) with cur in Hf by lia. apply fails_bindr. exact Hf.
  - destruct (Hb i ltac:(lia)) as [H|H]; replace (cur + (i - i) * w) with cur in H by lia; rewrite H; cbn [bindr]; [|right; reflexivity].
    apply (IH (i + 1) (cur + w) j); [lia| |].
    + intros j' Hj'. specialize (Hb j' ltac:(lia)). replace (cur + (j' - i) * w) with (cur + w + (j' - (i + 1)) * w) in Hb by lia. exact Hb.
    + replace (cur + w + (j - (i + 1)) * w) with (cur + (j - i) * w) by lia. exact Hf.
Qed.

(* ---------- fuel ---------- *)

Lemma loop_mono stp stp' w n : (forall c, stp c <> Diverge -> stp' c = stp c) -> forall k i cur,
  elems_loop stp k i n cur w <> Diverge -> elems_loop stp' k i n cur w = elems_loop stp k i n cur w.
Proof.
  intros Hs. induction k as [|k IH]; intros i cur H; cbn [elems_loop] in *; [reflexivity|].
  destruct (i <? n); [|reflexivity].
  assert (stp cur <> Diverge) as Hn by (intros E; rewrite E in H; apply H; reflexivity).
  rewrite (Hs _ Hn). destruct (stp cur) as [[[]|er]| | |]; cbn [bindr] in *; try reflexivity. apply IH. exact H.
Qed.
Lemma validate_mono : forall f g el w v d, (f <= g)%nat -> validate f e el w v d <> Diverge ->
  validate g e el w v d = validate f e el w v d.
Proof.
  induction f as [|f IH]; intros g el w v d Hg H; [cbn [validate] in H; congruence|].
  destruct g as [|g]; [lia|]. cbn [validate] in *. destruct (value_type e v) as [ty| | |]; cbn [bind] in *; try reflexivity.
  assert (Hcoll : forall wide n first, (elems_loop (fun cur => x <-? from_raw e cur (width_of wide) ;; validate f e true wide x (cur + width_of wide))
      (S (S (length (e_data e)))) 0 n first (width_of wide)) <> Diverge ->
      (elems_loop (fun cur => x <-? from_raw e cur (width_of wide) ;; validate g e true wide x (cur + width_of wide))
      (S (S (length (e_data e)))) 0 n first (width_of wide)) =
      (elems_loop (fun cur => x <-? from_raw e cur (width_of wide) ;; validate f e true wide x (cur + width_of wide))
      (S (S (length (e_data e)))) 0 n first (width_of wide))).
  { intros wide n first Hn. apply loop_mono; [|exact Hn]. intros c Hc. destruct (from_raw e c (width_of wide)) as [[x|er]| | |]; cbn [bindr] in *; try reflexivity.
    apply IH; [lia|exact Hc]. }
  destruct ty; try reflexivity.
  - destruct (arr_is_wide e v); cbn [bind] in *; try reflexivity. destruct (arr_len e v); cbn [bind] in *; try reflexivity.
    destruct (first_pos e v); cbn [bind] in *; try reflexivity. destruct (usize_mul _ _ _); cbn [bind] in *; try reflexivity.
    destruct (usize_add _ _ _); cbn [bind] in *; try reflexivity. destruct (_ <? _); [reflexivity|]. apply Hcoll. exact H.
  - destruct (arr_is_wide e v); cbn [bind] in *; try reflexivity. destruct (arr_len e v); cbn [bind] in *; try reflexivity.
    destruct (first_pos e v); cbn [bind] in *; try reflexivity. destruct (usize_mul _ _ _); cbn [bind] in *; try reflexivity.
    destruct (usize_add _ _ _); cbn [bind] in *; try reflexivity. destruct (_ <? _); [reflexivity|]. apply Hcoll. exact H.
  - destruct (deref_checked (fuel_of e) e v w) as [[t|er]| | |]; cbn [bindr] in *; try reflexivity. apply IH; [lia|exact H].
Qed.

(* ---------- a panic has a cause ---------- *)

Lemma raw_panics p w : inslice e (V p w) -> 2 <= w -> from_raw e p w = Panic ->
  (value_type e (V p w) = Ret TyString \/ value_type e (V p w) = Ret TyData) /\ too_long e (V p w).
Proof.
  intros Hin Hw H. apply size_panics; [exact Hin|exact Hw|]. unfold from_raw in H. cbv zeta in H. cbn [v_len] in H.
  destruct (w <? 2) eqn:E; [lia|]. destruct (required_size e (V p w)) as [n| | |]; cbn [bind] in H; try discriminate; [|reflexivity].
  destruct (w <? n); [|discriminate]. destruct (value_type_ok e Hwf _ Hin) as [ty Hty]; [cbn; lia|]. rewrite Hty in H. discriminate.
Qed.
Lemma cause : forall f a, placed a -> check f a = Panic -> exists b, steps a b /\ mishap e b.
Proof.
  induction f as [|f IH]; intros a Hpl H.
  { unfold check in H. destruct a as [[|] w v d]; cbn [p_slot p_wide p_val p_end validate] in H; [|discriminate].
    destruct Hpl as (Hin & Hl & _). cbn [p_val] in *.
    destruct (from_raw e (v_pos v) (v_len v)) as [[x|er]| | |] eqn:Er; cbn [bindr] in H; try discriminate.
    destruct v as [p len]; cbn [v_pos v_len] in *. destruct (raw_panics p len Hin Hl Er) as [H1 H2].
    eexists; split; [apply steps_refl|]. apply mis_long; assumption. }
  assert (Hv : validate (S f) e (p_slot a) (p_wide a) (p_val a) (p_end a) = Panic \/
    (p_slot a = true /\ from_raw e (v_pos (p_val a)) (v_len (p_val a)) = Panic)).
  { destruct a as [s w [p len] d]. unfold check in H. destruct Hpl as (Hin & _). cbn [p_slot p_wide p_val p_end v_pos v_len] in *. destruct s; [|left; exact H].
    destruct (from_raw e p len) as [[x|er]| | |] eqn:Er; cbn [bindr] in H; try discriminate; [|right; auto].
    left. apply (from_raw_safe e Hwf p len Hin) in Er. destruct Er as (-> & _). exact H. }
  clear H. destruct a as [s w v d]; cbn [p_slot p_wide p_val p_end] in *. pose proof Hpl as (Hin & Hl & Hd & Hpe & Hde). cbn [p_val p_end] in *.
  destruct Hv as [H|[_ H]].
  2:{ destruct v as [p len]; cbn [v_pos v_len] in *. destruct (raw_panics p len Hin Hl H) as [H1 H2].
      eexists; split; [apply steps_refl|]. apply mis_long; assumption. }
  destruct (value_type_ok e Hwf v Hin) as [ty Hty]; [lia|].
  assert (Hcoll : coll_type v -> exists b, steps (mk_place s w v d) b /\ mishap e b).
  { intros Hc. rewrite (validate_coll f s w v d Hc) in H.
    destruct (limit_panics v Hin Hl Hc) as [[_ [Hdb Ho]]|(wide & n & fp & lim & Hlim & _ & Hw & Hn & Hfp & ->)].
    - eexists; split; [apply steps_refl|]. apply mis_count; assumption.
    - rewrite Hlim in H. cbn [bind coll_rest] in H.
      pose proof (first_pos_range e Hwf v fp Hin Hl Hfp) as (F1 & F2 & F3).
      destruct (_ <? _) eqn:El.
      + exfalso. unfold usize_sub in H. destruct (_ <=? _) eqn:Es; [discriminate|]. lia.
      + apply loop_panics in H. destruct H as (j & Hj & Hp & Hb).
        replace (v_pos v + fp + (j - 0) * width_of wide) with (v_pos v + fp + j * width_of wide) in Hp by lia.
        assert (Hnp : next_place e (mk_place s w v d) (mk_place true wide (V (v_pos v + fp + j * width_of wide) (width_of wide)) (v_pos v + fp + j * width_of wide + width_of wide))).
        { apply (np_slot e s w v d wide n fp j); try assumption; [lia| |reflexivity].
          intros j' Hj'. specialize (Hb j' Hj'). replace (v_pos v + fp + (j' - 0) * width_of wide) with (v_pos v + fp + j' * width_of wide) in Hb by lia.
          unfold check in Hb. cbn [p_slot p_wide p_val p_end v_pos v_len] in Hb. unfold slot_accepted.
          destruct (from_raw e (v_pos v + fp + j' * width_of wide) (width_of wide)) as [[x|er]| | |] eqn:Er; cbn [bindr] in Hb; try discriminate.
          assert (x = V (v_pos v + fp + j' * width_of wide) (width_of wide)) as ->.
          { unfold from_raw in Er. cbv zeta in Er. destruct (_ <? 2); [apply bind_inv in Er; destruct Er as (? & _ & Er); apply bind_inv in Er; destruct Er as (? & _ & Er); discriminate|].
            apply bind_inv in Er. destruct Er as (q & _ & Er). destruct (_ <? q); [apply bind_inv in Er; destruct Er as (? & _ & Er); discriminate|].
            apply ret_inj in Er. injection Er as <-. reflexivity. }
          split; [reflexivity|exists f; exact Hb]. }
        destruct (IH _ (next_placed _ _ Hpl Hnp) Hp) as (b & Hs & Hm).
        exists b. split; [exact (steps_next _ _ _ Hnp Hs)|exact Hm]. }
  assert (Hscal : ty <> TyPointer -> ~ (ty = TyArray \/ ty = TyDict) -> exists b, steps (mk_place s w v d) b /\ mishap e b).
  { intros N1 N2. cbn [validate] in H. rewrite Hty in H. cbn [bind] in H.
    assert (H' : (if s then Ret (Ok tt) else
            n <- required_size e v ;; en <- usize_add (e_dbg e) (e_base e + v_pos v) n ;;
            if en <=? e_base e + d then Ret (Ok tt)
            else _ <- usize_sub (e_dbg e) (e_base e + d) (e_base e + v_pos v) ;; Ret (@Err unit _ ValueOutOfBounds)) = Panic).
    { destruct ty; try exact H; exfalso; auto. }
    destruct s; [discriminate|]. destruct (safe_cases _ (required_size_safe e Hwf v Hin)) as [Hr|[n Hr]].
    - apply (size_panics v Hin Hl) in Hr. destruct Hr as [H1 H2]. eexists; split; [apply steps_refl|]. apply mis_long; assumption.
    - exfalso. rewrite Hr in H'. cbn [bind] in H'. apply (required_size_range e Hwf v n Hin) in Hr.
      destruct Hin as (I1 & I2 & I3). destruct Hwf as (_ & W1 & W2).
      rewrite add_under in H' by (unfold two64, two63 in *; lia). cbn [bind] in H'. destruct (_ <=? _); [discriminate|].
      unfold usize_sub in H'. destruct (_ <=? _) eqn:Es; [discriminate|lia]. }
  destruct ty; try (apply Hscal; [discriminate|intros [?|?]; discriminate]; fail);
    [apply Hcoll; left; exact Hty|apply Hcoll; right; exact Hty|].
  cbn [validate] in H. rewrite Hty in H. cbn [bind] in H.
  destruct (deref_checked (fuel_of e) e v w) as [[t|er]| | |] eqn:Er; cbn [bindr] in H; try discriminate.
  - assert (Hnp : next_place e (mk_place s w v d) (mk_place false w t (v_pos v))) by (apply np_target; assumption).
    destruct (IH _ (next_placed _ _ Hpl Hnp) H) as (b & Hs & Hm). exists b. split; [exact (steps_next _ _ _ Hnp Hs)|exact Hm].
  - apply (deref_panics (fuel_of e) v w Hin) in Er; [|lia|apply fuel_enough; exact Hin].
    eexists; split; [apply steps_refl|]. apply mis_external; assumption.
Qed.

(* ---------- a mishap panics ---------- *)

Lemma raw_passes p w ty : inslice e (V p w) -> 2 <= w -> value_type e (V p w) = Ret ty -> ty = TyPointer \/ ty = TyArray \/ ty = TyDict ->
  from_raw e p w = Ret (Ok (V p w)).
Proof.
  intros Hin Hw Hty Hc. unfold from_raw. cbv zeta. cbn [v_len]. destruct (w <? 2) eqn:E; [lia|].
  assert (required_size e (V p w) = Ret 2) as ->.
  { unfold required_size. rewrite Hty. cbn [bind]. destruct Hc as [-> |[-> | ->]]; reflexivity. }
  cbn [bind]. rewrite E. reflexivity.
Qed.
Lemma check_fails s w v d f : placed (mk_place s w v d) ->
  value_type e v = Ret TyPointer \/ value_type e v = Ret TyArray \/ value_type e v = Ret TyDict ->
  fails (validate f e s w v d) -> fails (check f (mk_place s w v d)).
Proof.
  intros (Hin & Hl & _) Hty H. cbn [p_val] in *. unfold check. cbn [p_slot p_wide p_val p_end]. destruct s; [|exact H].
  destruct v as [p len]; cbn [v_pos v_len] in *.
  assert (from_raw e p len = Ret (Ok (V p len))) as ->.
  { destruct Hty as [H1|[H1|H1]]; eapply raw_passes; try exact H1; auto. }
  exact H.
Qed.
Lemma mishap_fails a f : placed a -> mishap e a -> fails (check f a).
Proof.
  intros Hpl Hm. destruct f as [|f].
  { unfold check. destruct (p_slot a); [|right; reflexivity]. destruct Hm as [s w v d Ht Hx|s w v d Ht Hx|s w v d Hd Ht Hx]; cbn [p_val p_wide p_end].
    - destruct Hpl as (Hin & Hl & _). cbn [p_val] in *. destruct v as [p len]; cbn [v_pos v_len] in *. erewrite raw_passes; eauto. right. reflexivity.
    - destruct Hpl as (Hin & Hl & _). cbn [p_val] in *. destruct v as [p len]; cbn [v_pos v_len] in *. left. unfold from_raw. cbv zeta. cbn [v_len].
      destruct (len <? 2) eqn:E; [lia|]. rewrite (proj2 (size_panics (V p len) Hin Hl)) by auto. reflexivity.
    - destruct Hpl as (Hin & Hl & _). cbn [p_val] in *. destruct v as [p len]; cbn [v_pos v_len] in *. destruct Ht as [Ht|Ht]; erewrite raw_passes; eauto; right; reflexivity. }
  destruct Hm as [s w v d Ht Hx|s w v d Ht Hx|s w v d Hd Ht Hx].
  - apply check_fails; [exact Hpl|left; exact Ht|]. destruct Hpl as (Hin & Hl & _). cbn [p_val] in *.
    left. cbn [validate]. rewrite Ht. cbn [bind].
    rewrite (proj2 (deref_panics (fuel_of e) v w Hin ltac:(lia) (fuel_enough e v Hin)) Hx). reflexivity.
  - destruct Hpl as (Hin & Hl & _). cbn [p_val] in *.
    assert (Hr : required_size e v = Panic) by (apply size_panics; auto).
    unfold check. cbn [p_slot p_wide p_val p_end]. destruct s.
    + destruct v as [p len]; cbn [v_pos v_len] in *. left. unfold from_raw. cbv zeta. cbn [v_len].
      destruct (len <? 2) eqn:E; [lia|]. rewrite Hr. reflexivity.
    + left. cbn [validate]. destruct Ht as [Ht|Ht]; rewrite Ht; cbn [bind]; rewrite Hr; reflexivity.
  - apply check_fails; [exact Hpl|right; exact Ht|]. destruct Hpl as (Hin & Hl & _). cbn [p_val] in *.
    rewrite (validate_coll f s w v d Ht).
    destruct (limit_panics v Hin Hl Ht) as [[H _]|(wide & n & fp & lim & _ & H & _)].
    + rewrite H. left. reflexivity.
    + exfalso. apply H. split; assumption.
Qed.
Lemma next_fails a b : placed a -> next_place e a b -> (forall f, fails (check f b)) -> forall f, fails (check f a).
Proof.
  intros Hpl Hn Hb f. assert (Hpb := next_placed a b Hpl Hn).
  destruct Hn as [s w v d t Ht Hr|s w v d wide n fp i p Ht Hw Hn Hf Hfit Hi Hj ->].
  - apply check_fails; [exact Hpl|left; exact Ht|]. destruct f as [|f]; [right; reflexivity|].
    cbn [validate]. rewrite Ht. cbn [bind]. rewrite Hr. cbn [bindr]. exact (Hb f).
  - apply check_fails; [exact Hpl|right; exact Ht|]. destruct f as [|f]; [right; reflexivity|].
    rewrite (validate_coll f s w v d Ht). pose proof Hpl as (Hin & Hl & Hd & _). cbn [p_val p_end] in *.
    destruct (limit_panics v Hin Hl Ht) as [[H Ho]|(wide' & n' & fp' & lim & Hlim & _ & Hw' & Hn' & Hf' & ->)].
    { rewrite H. left. reflexivity. }
    rewrite Hw in Hw'. injection Hw' as <-. rewrite Hn in Hn'. apply ret_inj in Hn'. subst n'. rewrite Hf in Hf'. apply ret_inj in Hf'. subst fp'.
    rewrite Hlim. cbn [bind coll_rest]. destruct (_ <? _) eqn:El; [lia|].
    apply (loop_fails _ _ _ _ 0 _ i); [lia| |].
    + intros j Hjj. destruct (Hj j Hjj) as (Hr & g & Hg).
      replace (v_pos v + fp + (j - 0) * width_of wide) with (v_pos v + fp + j * width_of wide) by lia.
      unfold check. cbn [p_slot p_wide p_val p_end v_pos v_len]. rewrite Hr. cbn [bindr].
      destruct (Nat.le_ge_cases f g) as [Hfg|Hfg].
      * destruct (validate f e true wide (V (v_pos v + fp + j * width_of wide) (width_of wide)) (v_pos v + fp + j * width_of wide + width_of wide)) eqn:Ev;
          try (right; reflexivity); left; rewrite <- Hg; symmetry; rewrite <- Ev; apply validate_mono; try assumption; congruence.
      * left. rewrite <- Hg. apply validate_mono; [exact Hfg|congruence].
    + replace (v_pos v + fp + (i - 0) * width_of wide) with (v_pos v + fp + i * width_of wide) by lia. apply Hb.
Qed.

Lemma root_placed r : find_root e = Ret (Ok r) -> placed (mk_place false false r (lenZ (e_data e))).
Proof.
  intros H. pose proof (proj2 (find_root_safe e Hwf) r H) as (A & B & C & _). unfold placed. cbn [p_val p_end].
  split; [exact A|]. split; [exact B|]. split; [lia|].
  unfold find_root in H. cbv zeta in H. destruct (_ || _) eqn:E; [discriminate|].
  assert (Hev : lenZ (e_data e) mod 2 = 0) by lia. split; [|exact Hev]. pose proof (lenZ_nonneg (e_data e)) as Hnn.
  assert (Hin : inslice e (V (lenZ (e_data e) - 2) 2)) by (unfold inslice; cbn [v_pos v_len]; lia).
  apply bind_inv in H. destruct H as (ty & Hty & H). destruct (vtype_eqb ty TyPointer).
  - apply deref_checked_safe in H; [|exact Hwf|exact Hin|apply fuel_enough; exact Hin]. cbn [v_pos] in H. lia.
  - destruct (_ =? 2) eqn:E2; [|discriminate]. apply ret_inj in H. injection H as <-. cbn [v_pos]. lia.
Qed.
Lemma visits_placed a : visits e a -> placed a.
Proof. induction 1 as [r H|a b Hv IH Hn]; [exact (root_placed r H)|exact (next_placed a b IH Hn)]. Qed.
Lemma visits_fails a : visits e a -> (forall f, fails (check f a)) -> exists r, find_root e = Ret (Ok r) /\
  forall f, fails (check f (mk_place false false r (lenZ (e_data e)))).
Proof.
  induction 1 as [r H|a b Hv IH Hn]; intros Hf; [exists r; split; assumption|].
  apply IH. exact (next_fails a b (visits_placed a Hv) Hn Hf).
Qed.
Lemma steps_visits a b : steps a b -> visits e a -> visits e b.
Proof. induction 1 as [a|a b c Hn Hs IH]; intros Hv; [exact Hv|]. apply IH. exact (vis_next e a b Hv Hn). Qed.
Lemma find_root_panics : find_root e = Panic <-> root_external e.
Proof.
  unfold find_root, root_external. cbv zeta. pose proof (lenZ_nonneg (e_data e)) as Hnn. destruct (_ || _) eqn:E.
  { split; [discriminate|]. intros (A & B & _). lia. }
  assert (Hin : inslice e (V (lenZ (e_data e) - 2) 2)) by (unfold inslice; cbn [v_pos v_len]; lia).
  destruct (value_type_ok e Hwf _ Hin) as [ty Hty]; [cbn; lia|]. rewrite Hty. cbn [bind].
  destruct (vtype_eqb ty TyPointer) eqn:Et.
  - assert (ty = TyPointer) as -> by (destruct ty; try discriminate; reflexivity).
    rewrite (deref_panics (fuel_of e) _ false Hin) by (cbn [v_len]; lia || apply fuel_enough; exact Hin).
    split; [intros H; repeat (split; [lia || reflexivity|]); exact H|]. intros (_ & _ & _ & H). exact H.
  - split; [destruct (_ =? 2); discriminate|]. intros (_ & _ & H & _). injection H as ->. discriminate.
Qed.

Theorem panics_exactly : from_bytes e = Panic <-> root_external e \/ exists a, visits e a /\ mishap e a.
Proof.
  rewrite <- find_root_panics. split.
  - intros H. unfold from_bytes in H. destruct (find_root e) as [[r|er]| | |] eqn:Er; cbn [bindr] in H; try discriminate; [|left; reflexivity].
    right. destruct (validate (fuel_of e) e false false r (lenZ (e_data e))) as [[x|er]| | |] eqn:Ev; cbn [bindr] in H; try discriminate.
    destruct (cause (fuel_of e) (mk_place false false r (lenZ (e_data e))) (root_placed r Er) Ev) as (b & Hs & Hm).
    exists b. split; [|exact Hm]. apply (steps_visits _ _ Hs). apply vis_root. exact Er.
  - intros H. pose proof (from_bytes_safe e Hwf Hck) as [S1 S2]. unfold from_bytes in *. destruct H as [->|(a & Hv & Hm)]; [reflexivity|].
    destruct (visits_fails a Hv) as (r & Hr & Hf); [intros f; apply mishap_fails; [exact (visits_placed a Hv)|exact Hm]|].
    rewrite Hr in *. cbn [bindr] in *. specialize (Hf (fuel_of e)). unfold check in Hf. cbn [p_slot p_wide p_val p_end] in Hf.
    destruct Hf as [-> |Hf]; [reflexivity|]. rewrite Hf in S2. exfalso. apply S2. reflexivity.
Qed.
Theorem otherwise_returns : ~ root_external e -> (forall a, visits e a -> ~ mishap e a) -> exists r, from_bytes e = Ret r.
Proof.
  intros H1 H2. destruct (safe_cases _ (from_bytes_safe e Hwf Hck)) as [H|H]; [|exact H].
  apply panics_exactly in H. destruct H as [H|(a & Hv & Hm)]; [contradiction|]. contradiction (H2 a Hv Hm).
Qed.
End Panics.
