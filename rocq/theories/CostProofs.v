(** Counting the calls of validation: forgetting the counts; bounds for laid-out documents;
    documents that share parts. *)
From Verif Require Import Prelude Lib Varint VarintProofs Utf8 Float SharedKeys
  Decode Read Encodable Holds Repr EncodableProofs Stored StoredRead Cost CostSpec.
From Coq Require Import ZifyBool ZifyNat ZifyN Sorted.
Ltac Zify.zify_post_hook ::= Z.div_mod_to_equations.

Lemma ret_inj {A} (a b : A) : Ret a = Ret b -> a = b.
Proof. congruence. Qed.

(* ---------- forgetting the counts ---------- *)

Lemma snd_cbind {A B} (m : outcome A) (k : A -> cost * outcome B) k' :
  (forall a, snd (k a) = k' a) -> snd (cbind m k) = bind m k'.
Proof. intros H. destruct m; cbn [cbind bind snd]; auto. Qed.
Lemma snd_cbindr {A B E} (m : outcome (result A E)) (k : A -> cost * outcome (result B E)) k' :
  (forall a, snd (k a) = k' a) -> snd (cbindr m k) = bindr m k'.
Proof. intros H. destruct m as [[a|er]| | |]; cbn [cbindr bindr bind snd]; auto. Qed.
Lemma snd_loop (stp : Z -> cost * dres unit) stp' w : (forall c, snd (stp c) = stp' c) ->
  forall k i n cur, snd (elems_loop_n stp k i n cur w) = elems_loop stp' k i n cur w.
Proof.
  intros H. induction k as [|k IH]; intros i n cur; [reflexivity|]. cbn [elems_loop_n elems_loop].
  destruct (i <? n); [|reflexivity]. unfold cseq. rewrite H.
  destruct (stp' cur) as [[[]|er]| | |] eqn:E; cbn [bindr snd]; try (rewrite <- IH; reflexivity); rewrite H; exact E.
Qed.
Lemma validate_n_snd e : forall f el w v dend, snd (validate_n f e el w v dend) = validate f e el w v dend.
Proof.
  induction f as [|f IH]; intros el w v dend; [reflexivity|]. cbn [validate_n validate snd].
  apply snd_cbind. intros t.
  assert (Hcoll : forall g, (forall wide x d, snd (g wide x d) = validate f e true wide x d) ->
    snd (cbind (arr_is_wide e v) (fun wide =>
            let width := width_of wide in
            cbind (arr_len e v) (fun n =>
            cbind (first_pos e v) (fun fp =>
            let first := v_pos v + fp in
            cbind (usize_mul (e_dbg e) n width) (fun bytes =>
            cbind (usize_add (e_dbg e) (e_base e + first) bytes) (fun lim =>
            if e_base e + dend <? lim then
              cbind (usize_sub (e_dbg e) (e_base e + dend) (e_base e + first)) (fun _ =>
              (no_calls, Ret (Err ArrayOutOfBounds)))
            else
              elems_loop_n
                (fun cur =>
                   cbindr (from_raw e cur width) (fun x =>
                   g wide x (cur + width)))
                (S (S (length (e_data e)))) 0 n first width)))))) =
    (wide <- arr_is_wide e v ;;
          let width := width_of wide in
          n <- arr_len e v ;;
          fp <- first_pos e v ;;
          let first := v_pos v + fp in
          bytes <- usize_mul (e_dbg e) n width ;;
          lim <- usize_add (e_dbg e) (e_base e + first) bytes ;;
          if e_base e + dend <? lim then
            _ <- usize_sub (e_dbg e) (e_base e + dend) (e_base e + first) ;;
            Ret (Err ArrayOutOfBounds)
          else
            elems_loop
              (fun cur =>
                 x <-? from_raw e cur width ;;
                 validate f e true wide x (cur + width))
              (S (S (length (e_data e)))) 0 n first width)).
  { intros g Hg. apply snd_cbind; intros wide. cbv zeta. apply snd_cbind; intros n. apply snd_cbind; intros fp.
    apply snd_cbind; intros bytes. apply snd_cbind; intros lim.
    destruct (_ <? _); [apply snd_cbind; reflexivity|]. apply snd_loop. intros c. apply snd_cbindr. intros x. apply Hg. }
  assert (Hsc : snd (if el then (no_calls, Ret (Ok tt))
            else
              cbind (required_size e v) (fun n =>
              cbind (usize_add (e_dbg e) (e_base e + v_pos v) n) (fun en =>
              if en <=? e_base e + dend then (no_calls, Ret (Ok tt))
              else
                cbind (usize_sub (e_dbg e) (e_base e + dend) (e_base e + v_pos v)) (fun _ =>
                (no_calls, Ret (Err ValueOutOfBounds)))))) =
       (if el then Ret (Ok tt)
          else
            n <- required_size e v ;;
            en <- usize_add (e_dbg e) (e_base e + v_pos v) n ;;
            if en <=? e_base e + dend then Ret (Ok tt)
            else
              _ <- usize_sub (e_dbg e) (e_base e + dend) (e_base e + v_pos v) ;;
              Ret (Err ValueOutOfBounds))).
  { destruct el; [reflexivity|]. apply snd_cbind; intros n. apply snd_cbind; intros en.
    destruct (_ <=? _); [reflexivity|]. apply snd_cbind; reflexivity. }
  destruct t; try exact Hsc.
  - apply (Hcoll (fun w => validate_n f e true w)). intros; apply IH.
  - apply (Hcoll (fun w => validate_n f e true w)). intros; apply IH.
  - apply snd_cbindr. intros x. apply IH.
Qed.
Lemma from_bytes_n_snd e : snd (from_bytes_n e) = from_bytes e.
Proof. unfold from_bytes_n, from_bytes. apply snd_cbindr. intros r. cbn [snd]. rewrite validate_n_snd. reflexivity. Qed.

(* ---------- depth is bounded by the fuel ---------- *)

Definition costs (c : cost) (d : Z) : Prop := 0 <= c_depth c <= d.
Lemma fst_cbind {A B} (m : outcome A) (k : A -> cost * outcome B) d : 0 <= d ->
  (forall a, costs (fst (k a)) d) -> costs (fst (cbind m k)) d.
Proof. intros H0 H. unfold costs in *. destruct m; cbn [cbind fst no_calls c_depth]; auto; lia. Qed.
Lemma fst_cbindr {A B E} (m : outcome (result A E)) (k : A -> cost * outcome (result B E)) d : 0 <= d ->
  (forall a, costs (fst (k a)) d) -> costs (fst (cbindr m k)) d.
Proof. intros H0 H. unfold costs in *. destruct m as [[a|er]| | |]; cbn [cbindr fst no_calls c_depth]; auto; lia. Qed.
Lemma after_costs a b d : costs a d -> costs b d -> costs (after a b) d.
Proof. unfold costs, after; cbn [c_depth]. lia. Qed.
Lemma fst_loop (stp : Z -> cost * dres unit) w d : 0 <= d -> (forall c, costs (fst (stp c)) d) ->
  forall k i n cur, costs (fst (elems_loop_n stp k i n cur w)) d.
Proof.
  intros H0 H. induction k as [|k IH]; intros i n cur; [unfold costs; cbn; lia|]. cbn [elems_loop_n].
  destruct (i <? n); [|unfold costs; cbn; lia]. unfold cseq. specialize (IH (i + 1) n (cur + w)). specialize (H cur).
  match goal with |- context [match ?x with Ret _ => _ | _ => _ end] => destruct x as [[u|er]| | |] end; auto. cbn [fst].
  apply after_costs; assumption.
Qed.
Lemma no_costs d : 0 <= d -> costs no_calls d.
Proof. unfold costs; cbn; lia. Qed.
Lemma validate_n_depth e : forall f el w v dend, costs (fst (validate_n f e el w v dend)) (Z.of_nat f).
Proof.
  induction f as [|f IH]; intros el w v dend; [unfold costs; cbn; lia|]. cbn [validate_n fst].
  match goal with |- costs (inside ?c) _ => cut (costs c (Z.of_nat f)); [generalize c; intros c0; unfold costs, inside; cbn [c_depth]; lia|] end.
  pose proof (no_costs (Z.of_nat f) ltac:(lia)) as Hn.
  apply fst_cbind; [lia|]. intros t. destruct t;
    repeat (first [exact Hn | apply IH | apply fst_loop; [lia|intros ?] | apply fst_cbindr; [lia|intros ?] | apply fst_cbind; [lia|intros ?]
      | match goal with |- context [if ?b then _ else _] => destruct b end | cbv zeta]).
Qed.

(* ---------- laid-out documents ---------- *)

Definition between (lo c hi : Z) : Prop := lo <= c <= hi.
(** The cost of validating something laid out that has [n] values in it and height [h]. *)
Definition fair (c : cost) (n h slack : Z) : Prop :=
  n <= c_calls c <= 2 * n - slack /\ h <= c_depth c <= 2 * h - slack.

Lemma loop_fair step w (f g : Z -> Z) : forall m k i n cur,
  Z.of_nat m = n - i -> (m < k)%nat ->
  (forall j, i <= j < n -> exists c, step (cur + (j - i) * w) = (c, Ret (Ok tt)) /\ fair c (f j) (g j) 0) ->
  exists c, elems_loop_n step k i n cur w = (c, Ret (Ok tt)) /\
    between (fold_right (fun j s => f j + s) 0 (map (fun j => i + Z.of_nat j) (seq 0 m))) (c_calls c)
      (2 * fold_right (fun j s => f j + s) 0 (map (fun j => i + Z.of_nat j) (seq 0 m))) /\
    between (fold_right (fun j s => Z.max (g j) s) 0 (map (fun j => i + Z.of_nat j) (seq 0 m))) (c_depth c)
      (2 * fold_right (fun j s => Z.max (g j) s) 0 (map (fun j => i + Z.of_nat j) (seq 0 m))).
Proof.
  induction m as [|m IH]; intros k i n cur Hm Hk H.
  - destruct k; [lia|]. cbn [elems_loop_n]. destruct (i <? n) eqn:E; [lia|]. eexists. split; [reflexivity|].
    unfold between; cbn; lia.
  - destruct k; [lia|]. cbn [elems_loop_n]. destruct (i <? n) eqn:E; [|lia].
    destruct (H i) as (c & Hc & Hf); [lia|]. rewrite Z.sub_diag, Z.mul_0_l, Z.add_0_r in Hc.
    destruct (IH k (i + 1) n (cur + w)) as (c2 & Hc2 & H1 & H2); [lia|lia| |].
    { intros j Hj. destruct (H j) as (cj & Hcj & Hfj); [lia|]. exists cj. split; [|exact Hfj].
      rewrite <- Hcj. f_equal. lia. }
    rewrite Hc. unfold cseq; cbn [snd fst]. rewrite Hc2. eexists. split; [reflexivity|].
    cbn [seq map fold_right after c_calls c_depth fst snd].
    assert (Es : map (fun j => i + Z.of_nat j) (seq 1 m) = map (fun j => i + 1 + Z.of_nat j) (seq 0 m)).
    { rewrite <- seq_shift, map_map. apply map_ext. intros; lia. }
    rewrite Es. replace (i + Z.of_nat 0) with i by lia. unfold between, fair in *. lia.
Qed.

Lemma wrap_eq {A} (r : cost * A) c x : r = (c, x) -> (inside (fst r), snd r) = (inside c, x).
Proof. intros ->. reflexivity. Qed.
Lemma coll_fair e f is_elem is_wide v ty n wide first dend fn gn :
  env_ok e -> coll_at e v ty n wide first -> ty = TyArray \/ ty = TyDict ->
  first + n * width_of wide <= dend ->
  (forall j, 0 <= j < n ->
     exists x c, from_raw e (first + j * width_of wide) (width_of wide) = Ret (Ok x) /\
       validate_n f e true wide x (first + j * width_of wide + width_of wide) = (c, Ret (Ok tt)) /\ fair c (fn j) (gn j) 0) ->
  exists c, validate_n (S f) e is_elem is_wide v dend = (c, Ret (Ok tt)) /\
    let s := fold_right (fun j s => fn j + s) 0 (map Z.of_nat (seq 0 (Z.to_nat n))) in
    let d := fold_right (fun j s => Z.max (gn j) s) 0 (map Z.of_nat (seq 0 (Z.to_nat n))) in
    fair c (1 + s) (1 + d) 1.
Proof.
  intros (Hb0 & Hb1 & H63) [Ht Hw Hl Hf H2 Hn He Hp] Hty Hend H.
  pose proof (width_bounds wide) as [Hwb _].
  assert (Hnw : 0 <= n * width_of wide) by nia.
  assert (Hgo : exists c, cbind (arr_is_wide e v) (fun wide =>
            let width := width_of wide in
            cbind (arr_len e v) (fun n =>
            cbind (first_pos e v) (fun fp =>
            let first := v_pos v + fp in
            cbind (usize_mul (e_dbg e) n width) (fun bytes =>
            cbind (usize_add (e_dbg e) (e_base e + first) bytes) (fun lim =>
            if e_base e + dend <? lim then
              cbind (usize_sub (e_dbg e) (e_base e + dend) (e_base e + first)) (fun _ =>
              (no_calls, Ret (Err ArrayOutOfBounds)))
            else
              elems_loop_n
                (fun cur =>
                   cbindr (from_raw e cur width) (fun x =>
                   validate_n f e true wide x (cur + width)))
                (S (S (length (e_data e)))) 0 n first width))))) = (c, Ret (Ok tt)) /\
     let s := fold_right (fun j s => fn j + s) 0 (map Z.of_nat (seq 0 (Z.to_nat n))) in
     let d := fold_right (fun j s => Z.max (gn j) s) 0 (map Z.of_nat (seq 0 (Z.to_nat n))) in
     between s (c_calls c) (2 * s) /\ between d (c_depth c) (2 * d)).
  { rewrite Hw; cbn [cbind]. cbv zeta. rewrite Hl; cbn [cbind]. rewrite Hf; cbn [cbind].
    replace (v_pos v + (first - v_pos v)) with first by lia.
    unfold usize_mul, usize_add. unfold two63, two64 in *.
    destruct (n * width_of wide <? 18446744073709551616) eqn:E1; [|lia]. cbn [cbind].
    destruct (e_base e + first + n * width_of wide <? 18446744073709551616) eqn:E2; [|lia]. cbn [cbind].
    destruct (e_base e + dend <? e_base e + first + n * width_of wide) eqn:E3; [lia|].
    destruct (loop_fair (fun cur => cbindr (from_raw e cur (width_of wide)) (fun x => validate_n f e true wide x (cur + width_of wide)))
       (width_of wide) fn gn (Z.to_nat n) (S (S (length (e_data e)))) 0 n first) as (c & Hc & H1 & H1'); [lia|unfold lenZ in *; nia| |].
    { intros j Hj. destruct (H j) as (x & c & Hx & Hv & Hfc); [lia|]. exists c. rewrite Z.sub_0_r.
      rewrite Hx; cbn [cbindr]. split; [exact Hv|exact Hfc]. }
    exists c. split; [exact Hc|]. split; [exact H1|exact H1']. }
  destruct Hgo as (c & Hc & H1 & H3).
  exists (inside c). split.
  - cbn [validate_n]. rewrite Ht; cbn [cbind]. destruct Hty as [-> | ->]; apply wrap_eq; exact Hc.
  - cbv zeta. cbv zeta in H1, H3. unfold between, fair, inside in *; cbn [c_calls c_depth]. lia.
Qed.

Lemma one_fair slack : slack <= 1 -> fair (inside no_calls) 1 1 slack.
Proof. intros. unfold fair, inside; cbn [c_calls c_depth no_calls]. lia. Qed.

Lemma scalar_elem_fair e f is_wide v dend ty :
  value_type e v = Ret ty -> scalar_ty ty = true ->
  validate_n (S f) e true is_wide v dend = (inside no_calls, Ret (Ok tt)).
Proof.
  intros Ht Hs. cbn [validate_n]. rewrite Ht; cbn [cbind]. destruct ty; try discriminate; reflexivity.
Qed.

Lemma scalar_fair e f is_wide p len t bs dend :
  env_ok e -> repr t bs -> holds (e_data e) p bs -> lenZ bs <= len -> p + lenZ bs <= dend ->
  validate_n (S f) e false is_wide (V p len) dend = (inside no_calls, Ret (Ok tt)).
Proof.
  intros (Hb0 & Hb1 & _) (_ & _ & Hr) Hh Hl Hd. destruct (Hr e p len Hh Hl) as (_ & Hsz & ty & Ht & Hs).
  apply holds_bounds in Hh.
  assert (Hgo : cbind (required_size e (V p len)) (fun n =>
              cbind (usize_add (e_dbg e) (e_base e + v_pos (V p len)) n) (fun en =>
              if en <=? e_base e + dend then (no_calls, Ret (Ok tt))
              else
                cbind (usize_sub (e_dbg e) (e_base e + dend) (e_base e + v_pos (V p len))) (fun _ =>
                (no_calls, Ret (Err ValueOutOfBounds))))) = (no_calls, Ret (Ok tt))).
  { rewrite Hsz; cbn [cbind v_pos]. unfold usize_add. unfold two64 in *.
    destruct (e_base e + p + lenZ bs <? 18446744073709551616) eqn:E; [|lia]. cbn [cbind].
    destruct (e_base e + p + lenZ bs <=? e_base e + dend) eqn:E2; [reflexivity|lia]. }
  cbn [validate_n]. rewrite Ht; cbn [cbind]. destruct ty; try discriminate; apply wrap_eq; exact Hgo.
Qed.

Lemma ptr_fair e f is_elem wide q off dend c :
  env_ok e -> 0 < off -> off mod 2 = 0 -> off / 2 < ptr_limit wide ->
  holds (e_data e) q (ptr_bytes wide off) -> off <= q ->
  nonptr e (V (q - off) off) ->
  validate_n f e false wide (V (q - off) off) q = (c, Ret (Ok tt)) ->
  from_raw e q (width_of wide) = Ret (Ok (V q (width_of wide))) /\
  validate_n (S f) e is_elem wide (V q (width_of wide)) dend = (inside c, Ret (Ok tt)).
Proof.
  intros Hok Ho He Hlt Hh Hle Hn Hv. pose proof (width_bounds wide) as [Hw _].
  assert (Hty : value_type e (V q (width_of wide)) = Ret TyPointer)
    by (apply (ptr_type e q (width_of wide) wide off); auto; lia).
  split.
  - apply (from_raw_ok e q (width_of wide) 2); [lia| |lia].
    unfold required_size. rewrite Hty; reflexivity.
  - cbn [validate_n]. rewrite Hty; cbn [cbind]. destruct (fuel_of_S e) as [g ->].
    rewrite (deref_checked_ok e q (width_of wide) off wide) by (assumption || lia). cbn [cbindr v_pos]. apply wrap_eq. exact Hv.
Qed.

Lemma inline_fair e f wide q t b0 b1 dend :
  repr t [b0; b1] -> holds (e_data e) q [b0; b1] ->
  from_raw e q (width_of wide) = Ret (Ok (V q (width_of wide))) /\
  validate_n (S f) e true wide (V q (width_of wide)) dend = (inside no_calls, Ret (Ok tt)).
Proof.
  intros (_ & _ & Hr) Hh. pose proof (width_bounds wide) as [Hw _].
  destruct (Hr e q (width_of wide) Hh) as (_ & Hsz & ty & Ht & Hs); [cbn; lia|].
  split.
  - apply (from_raw_ok e q (width_of wide) 2); [lia|exact Hsz|lia].
  - eapply scalar_elem_fair; eauto.
Qed.

Lemma repr_leaf t bs : repr t bs -> nodes t = 1 /\ height t = 1.
Proof.
  intros (_ & _ & H). destruct (H (mk_env true 0 ([] ++ bs) None) 0 (lenZ bs)) as (H1 & _ & ty & H2 & H3); [apply (holds_end [] bs)|lia|].
  specialize (H1 O). cbn [read_tree] in H1. rewrite H2 in H1; cbn [bind] in H1.
  destruct ty; try discriminate H3;
    try (apply ret_inj in H1; subst t; split; reflexivity);
    match type of H1 with bind ?m _ = _ => destruct m; try discriminate H1; cbn [bind] in H1; apply ret_inj in H1; subst t; split; reflexivity end.
Qed.

(** Sums over the positions of a list. *)
Lemma sum_seq {A} (op : Z -> Z -> Z) (f : A -> Z) (g : Z -> Z) : forall (l : list A) (i : nat),
  (forall j x, nthZ l j = Some x -> g (Z.of_nat i + j) = f x) ->
  fold_right (fun j s => op (g j) s) 0 (map Z.of_nat (seq i (length l))) = fold_right (fun x s => op (f x) s) 0 l.
Proof.
  induction l as [|x l IH]; intros i H; [reflexivity|]. cbn [length seq map fold_right]. f_equal.
  - rewrite <- (H 0 x); [f_equal; lia|reflexivity].
  - apply IH. intros j y Hj. rewrite <- (H (j + 1) y); [f_equal; lia|].
    rewrite nthZ_cons_S by (apply nthZ_Some in Hj; lia). rewrite <- Hj. f_equal. lia.
Qed.
Lemma sum_pairs {A} (op : Z -> Z -> Z) (f g : A -> Z) (h : Z -> Z) : forall (l : list A),
  (forall j x, nthZ l j = Some x -> h (2 * j) = f x /\ h (2 * j + 1) = g x) ->
  fold_right (fun j s => op (h j) s) 0 (map Z.of_nat (seq 0 (Z.to_nat (2 * lenZ l)))) =
  fold_right (fun x s => op (f x) (op (g x) s)) 0 l.
Proof.
  intros l. assert (G : forall (l : list A) (i : nat),
    (forall j x, nthZ l j = Some x -> h (Z.of_nat i + 2 * j) = f x /\ h (Z.of_nat i + 2 * j + 1) = g x) ->
    fold_right (fun j s => op (h j) s) 0 (map Z.of_nat (seq i (2 * length l))) =
    fold_right (fun x s => op (f x) (op (g x) s)) 0 l).
  { clear l. induction l as [|x l IH]; intros i H; [reflexivity|].
    replace (2 * length (x :: l))%nat with (S (S (2 * length l))) by (cbn [length]; lia). cbn [seq map fold_right].
    destruct (H 0 x) as [H1 H2]; [reflexivity|]. f_equal; [rewrite <- H1; f_equal; lia|]. f_equal; [rewrite <- H2; f_equal; lia|].
    apply IH. intros j y Hj. destruct (H (j + 1) y) as [H3 H4].
    { rewrite nthZ_cons_S by (apply nthZ_Some in Hj; lia). rewrite <- Hj. f_equal. lia. }
    rewrite <- H3, <- H4. split; f_equal; lia. }
  intros H. unfold lenZ. replace (Z.to_nat (2 * Z.of_nat (length l))) with (2 * length l)%nat by lia. apply G.
  intros j x Hj. exact (H j x Hj).
Qed.

Section KP.
Context {SP : KeyPred}.

Lemma key_slot_fair e tb wide b q kk k f dend :
  env_ok e -> key_slot (e_data e) tb wide b q kk k -> b <= q -> 0 <= b < Z.of_nat f ->
  exists x c, from_raw e q (width_of wide) = Ret (Ok x) /\
    validate_n f e true wide x dend = (c, Ret (Ok tt)) /\ fair c 1 1 0.
Proof.
  intros Hok Hk Hb Hf. destruct Hk as [k b0 b1 Hsp Hr Hh|k off bs Hsp Ho He Hlt Hh Hr Hh2 Hev Hlim|k i t Hi Htb Hdec Hh].
  - exists (V q (width_of wide)). destruct f; [lia|].
    destruct (inline_fair e f wide q (TStr k) b0 b1 dend Hr Hh) as [H1 H2]. eexists. split; [exact H1|]. split; [exact H2|]. apply one_fair; lia.
  - pose proof (repr_len _ _ Hr). pose proof (holds_bounds _ _ _ Hh2).
    exists (V q (width_of wide)). destruct f; [lia|]. exists (inside (inside no_calls)).
    destruct (ptr_fair e f true wide q off dend (inside no_calls)) as [H1 H2]; auto; try lia.
    + eapply repr_type_nonptr; eauto. lia.
    + destruct f; [lia|]. eapply scalar_fair; eauto; lia.
    + split; [exact H1|]. split; [exact H2|]. unfold fair, inside; cbn [c_calls c_depth no_calls]. lia.
  - exists (V q (width_of wide)). destruct f; [lia|]. unfold short_bytes in Hh.
    eapply inline_fair in Hh; [|apply repr_short; lia]. destruct Hh as [H1 H2]. eexists. split; [exact H1|]. split; [exact H2|]. apply one_fair; lia.
Qed.

Lemma stored_fair e tb : env_ok e ->
  (forall t p lim, stored (e_data e) tb t p lim ->
     forall f w len dend, p + 1 < Z.of_nat f -> lim <= p + len -> lim <= dend ->
       exists c, validate_n f e false w (V p len) dend = (c, Ret (Ok tt)) /\ fair c (nodes t) (height t) 1) /\
  (forall wide b q t, slot (e_data e) tb wide b q t ->
     b <= q -> forall f dend, 0 <= b < Z.of_nat f ->
       exists x c, from_raw e q (width_of wide) = Ret (Ok x) /\
         validate_n f e true wide x dend = (c, Ret (Ok tt)) /\ fair c (nodes t) (height t) 0).
Proof.
  intros Hok.
  apply (stored_slot_ind (e_data e) tb
    (fun t p lim _ => forall f w len dend, p + 1 < Z.of_nat f -> lim <= p + len -> lim <= dend ->
       exists c, validate_n f e false w (V p len) dend = (c, Ret (Ok tt)) /\ fair c (nodes t) (height t) 1)
    (fun wide b q t _ => b <= q -> forall f dend, 0 <= b < Z.of_nat f ->
       exists x c, from_raw e q (width_of wide) = Ret (Ok x) /\
         validate_n f e true wide x dend = (c, Ret (Ok tt)) /\ fair c (nodes t) (height t) 0)).
  - intros t bs p Hr Hh Hp f w len dend Hf Hl Hd. destruct f; [apply holds_bounds in Hh; lia|].
    exists (inside no_calls). split; [eapply scalar_fair; eauto; lia|].
    destruct (repr_leaf _ _ Hr) as [-> ->]. apply one_fair; lia.
  - intros ts p wide Hp Hh Hlim Hsl IH f w len dend Hf Hl Hd.
    pose proof (holds_bounds _ _ _ Hh) as [Hp0 _]. pose proof (width_bounds wide) as [Hw _].
    pose proof (lenZ_nonneg ts). destruct f; [lia|].
    assert (Hc : coll_at e (V p len) TyArray (lenZ ts) wide (p + hdr_size (lenZ ts))).
    { apply (hdr_coll_at e p len false (lenZ ts) wide); auto; try lia; try nia. }
    assert (H2 : p + 2 <= p + hdr_size (lenZ ts)) by (destruct Hc as [_ _ _ _ H2 _ _ _]; exact H2).
    destruct (coll_fair e f false w (V p len) TyArray (lenZ ts) wide (p + hdr_size (lenZ ts)) dend
      (fun j => match nthZ ts j with Some t => nodes t | None => 0 end)
      (fun j => match nthZ ts j with Some t => height t | None => 0 end) Hok Hc) as (c & Hv & Hf'); [left; reflexivity|lia| |].
    { intros j Hj. destruct (nthZ_in ts j Hj) as [t Ht]. cbv beta. rewrite Ht. apply (IH j t Ht); [nia|lia]. }
    exists c. split; [exact Hv|]. cbv zeta in Hf'. unfold lenZ in Hf'. rewrite Nat2Z.id in Hf'.
    rewrite (sum_seq Z.add nodes) in Hf' by (intros j x E; cbv beta; rewrite Z.add_0_l, E; reflexivity).
    rewrite (sum_seq Z.max height) in Hf' by (intros j x E; cbv beta; rewrite Z.add_0_l, E; reflexivity). exact Hf'.
  - intros kts p wide Hp Hh Hlim Hsrt Hk Hsl IH f w len dend Hf Hl Hd.
    pose proof (holds_bounds _ _ _ Hh) as [Hp0 _]. pose proof (width_bounds wide) as [Hw _].
    pose proof (lenZ_nonneg kts). destruct f; [lia|].
    assert (Hc : coll_at e (V p len) TyDict (2 * lenZ kts) wide (p + hdr_size (lenZ kts))).
    { apply (hdr_coll_at e p len true (lenZ kts) wide); auto; try lia; try nia. }
    assert (H2 : p + 2 <= p + hdr_size (lenZ kts)) by (destruct Hc as [_ _ _ _ H2 _ _ _]; exact H2).
    destruct (coll_fair e f false w (V p len) TyDict (2 * lenZ kts) wide (p + hdr_size (lenZ kts)) dend
      (fun j => if j mod 2 =? 0 then 1 else match nthZ kts (j / 2) with Some (_, (_, t)) => nodes t | None => 0 end)
      (fun j => if j mod 2 =? 0 then 1 else match nthZ kts (j / 2) with Some (_, (_, t)) => height t | None => 0 end) Hok Hc)
      as (c & Hv & Hf'); [right; reflexivity|lia| |].
    { intros j Hj.
      destruct (nthZ_in kts (j / 2)) as [[kk [k t]] Hx]; [lia|]. cbv beta. rewrite Hx.
      destruct (j mod 2 =? 0) eqn:Em.
      + assert (Ej : j = 2 * (j / 2)) by lia. rewrite Ej.
        eapply key_slot_fair; eauto; [nia|lia].
      + assert (Ej : j = 2 * (j / 2) + 1) by lia. rewrite Ej. apply (IH (j / 2) kk k t Hx); [nia|lia]. }
    exists c. split; [exact Hv|]. cbv zeta in Hf'.
    rewrite (sum_pairs Z.add (fun _ => 1) (fun x : entry => nodes (snd (snd x))) _ kts), (sum_pairs Z.max (fun _ => 1) (fun x : entry => height (snd (snd x))) _ kts) in Hf'.
    2-3: intros j [kk [k t]] Hx; split;
      [replace (2 * j mod 2) with 0 by lia; reflexivity
      |replace ((2 * j + 1) mod 2) with 1 by lia; replace ((2 * j + 1) / 2) with j by lia; rewrite Hx; reflexivity].
    replace (nodes (TDict (map snd kts))) with (1 + fold_right (fun x s => 1 + (nodes (snd (snd x)) + s)) 0 kts).
    2:{ cbn [nodes]. f_equal. clear. induction kts as [|x l IH]; [reflexivity|]. cbn [map fold_right]. rewrite <- IH. lia. }
    replace (height (TDict (map snd kts))) with (1 + fold_right (fun x s => Z.max 1 (Z.max (height (snd (snd x))) s)) 0 kts).
    2:{ cbn [height]. f_equal. clear. induction kts as [|x l IH]; [reflexivity|]. cbn [map fold_right]. rewrite <- IH. lia. }
    exact Hf'.
  - intros wide b q t b0 b1 Hr Hh Hb f dend Hf. destruct f; [lia|].
    exists (V q (width_of wide)). destruct (inline_fair e f wide q t b0 b1 dend Hr Hh) as [H1 H2].
    eexists. split; [exact H1|]. split; [exact H2|]. destruct (repr_leaf _ _ Hr) as [-> ->]. apply one_fair; lia.
  - intros wide b q t off lim Ho He Hlt Hh Hst IH Hlim Hb f dend Hf. destruct f; [lia|].
    pose proof (stored_bounds _ _ _ _ _ Hst).
    destruct (IH f wide off q) as (c & Hc & Hfc); [lia|lia|lia|].
    destruct (ptr_fair e f true wide q off dend c) as [H1 H2]; auto; try lia.
    + eapply stored_nonptr; eauto. lia.
    + exists (V q (width_of wide)), (inside c). split; [exact H1|]. split; [exact H2|].
      unfold fair, inside in *; cbn [c_calls c_depth]. lia.
Qed.
End KP.

(* ---------- documents ---------- *)

Section KP2.
Context {SP : KeyPred}.

Lemma doc_cost e tb t v : env_ok e -> from_bytes e = Ret (Ok v) -> vstored e tb t v ->
  exists c, from_bytes_n e = (c, Ret (Ok v)) /\ fair c (nodes t) (height t) 1.
Proof.
  intros Hok Hfb Hv. unfold from_bytes in Hfb. unfold from_bytes_n.
  destruct (find_root e) as [[r|er]| | |]; cbn [bindr] in Hfb; try discriminate. cbn [cbindr].
  assert (r = v) as -> by (destruct (validate _ _ _ _ _ _) as [[[]|]| | |]; cbn [bindr] in Hfb; congruence).
  destruct v as [p len].
  assert (exists c, validate_n (fuel_of e) e false false (V p len) (lenZ (e_data e)) = (c, Ret (Ok tt)) /\ fair c (nodes t) (height t) 1)
    as (c & Hc & Hf).
  { destruct Hv as [(bs & Hr & Hh & Hl)|(lim & Hst & Hl)]; cbn [v_pos v_len] in *.
    - pose proof (holds_bounds _ _ _ Hh). destruct (fuel_of_S e) as [g ->]. exists (inside no_calls).
      split; [eapply scalar_fair; eauto; lia|]. destruct (repr_leaf _ _ Hr) as [-> ->]. apply one_fair; lia.
    - pose proof (stored_lim _ _ _ _ _ Hst) as [H1 _]. pose proof (stored_bounds _ _ _ _ _ Hst).
      destruct (stored_fair e tb Hok) as [H2 _]. apply (H2 t p lim Hst); try lia. unfold fuel_of. unfold lenZ in *. lia. }
  rewrite Hc. cbn [fst snd bindr]. exists c. split; [reflexivity|exact Hf].
Qed.
End KP2.
