(** Proofs about Strict.v. *)
From Coq Require Import ZifyBool ZifyNat ZifyN.
From Verif Require Import Prelude Lib Varint Utf8 Float SharedKeys Decode Read ReadSpec Repr Safety Agree Navigate Strict.
Ltac Zify.zify_post_hook ::= Z.div_mod_to_equations.

(** The strict reading does what the other does, or (when stray pointers count) is undefined. *)
Definition as_loose {A} (ar : bool) (s l : outcome A) : Prop := s = l \/ (ar = true /\ s = UB).

Lemma al_refl {A} ar (m : outcome A) : as_loose ar m m.
Proof. left. reflexivity. Qed.
Lemma al_bind {A B} ar (s l : outcome A) (ks kl : A -> outcome B) :
  as_loose ar s l -> (forall x, l = Ret x -> as_loose ar (ks x) (kl x)) -> as_loose ar (bind s ks) (bind l kl).
Proof.
  intros [->|[-> ->]] Hk; [|right; split; reflexivity]. destruct l as [x| | |]; try (left; reflexivity). apply Hk. reflexivity.
Qed.
Lemma al_bindr {A B E} ar (s l : outcome (result A E)) (ks kl : A -> outcome (result B E)) :
  as_loose ar s l -> (forall x, l = Ret (Ok x) -> as_loose ar (ks x) (kl x)) -> as_loose ar (bindr s ks) (bindr l kl).
Proof.
  intros [->|[-> ->]] Hk; [|right; split; reflexivity]. destruct l as [[x|x]| | |]; try (left; reflexivity). apply Hk. reflexivity.
Qed.
Lemma al_mkptr {B} ar e p (ks : unit -> outcome B) l : as_loose ar (ks tt) l -> as_loose ar (bind (mkptr ar e p) ks) l.
Proof.
  intros H. unfold mkptr. destruct ar; cbn [andb]; [|exact H]. destruct (negb _); [right; split; reflexivity|exact H].
Qed.
Lemma mkslice_in {B} e p n (k : val -> outcome B) : inslice e (V p n) -> bind (mkslice e p n) k = k (V p n).
Proof.
  intros (A & C & D). cbn [v_pos v_len] in *. unfold mkslice.
  destruct ((0 <=? p) && (0 <=? n) && (p + n <=? lenZ (e_data e))) eqn:E; [reflexivity|lia].
Qed.
Lemma mkptr_in {B} ar e p (k : unit -> outcome B) : 0 <= p <= lenZ (e_data e) -> bind (mkptr ar e p) k = k tt.
Proof.
  intros H. unfold mkptr. replace (0 <=? p) with true by lia. replace (p <=? lenZ (e_data e)) with true by lia.
  destruct ar; reflexivity.
Qed.
Lemma bind_ext {A B} (m : outcome A) (k1 k2 : A -> outcome B) : (forall x, k1 x = k2 x) -> bind m k1 = bind m k2.
Proof. intros H. destruct m; cbn [bind]; [apply H|reflexivity..]. Qed.
Lemma mkslice_inv e p n v : mkslice e p n = Ret v -> v = V p n /\ inslice e v.
Proof.
  unfold mkslice. destruct ((0 <=? p) && (0 <=? n) && (p + n <=? lenZ (e_data e))) eqn:E; [|discriminate].
  intros H. apply ret_inj in H. subst v. split; [reflexivity|]. unfold inslice. cbn [v_pos v_len]. lia.
Qed.

Section Env.
Variable e : env.
Hypothesis Hwf : wf_env e.

Lemma deref_al ar : forall f v wide, inslice e v -> as_loose ar (deref_checked_s ar f e v wide) (deref_checked f e v wide).
Proof.
  induction f as [|f IH]; intros v wide Hin; [apply al_refl|]. cbn [deref_checked deref_checked_s].
  destruct ((wide && (v_len v <? 4)) || (v_len v <? 2)) eqn:E; [apply al_refl|].
  assert (Hw : width_of wide <= v_len v) by (destruct wide; cbn [width_of andb] in *; lia).
  destruct (get_offset_spec e v wide Hin Hw) as (off & -> & Ho & Hev). cbn [bind].
  destruct (off =? 0) eqn:E0; [apply al_refl|]. cbv zeta.
  assert (Hl : 2 <= v_len v) by (destruct wide; cbn [width_of] in *; lia).
  rewrite (ptr_target_eq e Hwf v off Hin ltac:(lia) Ho). apply al_mkptr.
  apply al_bind; [apply al_refl|]. intros b0 _. destruct (negb _); [apply al_refl|].
  destruct (v_pos v - off <? 0) eqn:E1; [apply al_refl|].
  assert (Hin' : inslice e (V (v_pos v - off) off)).
  { destruct Hin as (H1 & H2 & H3). unfold inslice; cbn [v_pos v_len]. lia. }
  rewrite mkslice_in by exact Hin'. apply al_bind; [apply al_refl|]. intros ty _.
  destruct (vtype_eqb ty TyPointer); [apply IH; exact Hin'|apply al_refl].
Qed.

Lemma elems_al ar s l w n : forall k i cur,
  (forall j, i <= j < n -> as_loose ar (s (cur + (j - i) * w)) (l (cur + (j - i) * w))) ->
  as_loose ar (elems_loop s k i n cur w) (elems_loop l k i n cur w).
Proof.
  induction k as [|k IH]; intros i cur H; cbn [elems_loop]; [apply al_refl|].
  destruct (i <? n) eqn:E; [|apply al_refl]. apply al_bindr.
  - specialize (H i ltac:(lia)). replace (cur + (i - i) * w) with cur in H by lia. exact H.
  - intros _ _. apply IH. intros j Hj. specialize (H j ltac:(lia)).
    replace (cur + w + (j - (i + 1)) * w) with (cur + (j - i) * w) by lia. exact H.
Qed.

Lemma validate_al ar (Hck : e_dbg e = true \/ modest e) : forall f is_elem is_wide v dend,
  inslice e v -> 2 <= v_len v -> v_pos v + v_len v <= dend <= lenZ (e_data e) ->
  as_loose ar (validate_s ar f e is_elem is_wide v dend) (validate f e is_elem is_wide v dend).
Proof.
  induction f as [|f IH]; intros is_elem is_wide v dend Hin Hl Hd; [apply al_refl|].
  cbn [validate validate_s]. apply al_bind; [apply al_refl|]. intros ty Hty.
  assert (Hcoll : as_loose ar
         (wide <- arr_is_wide e v ;;
          let width := width_of wide in
          n <- arr_len e v ;; fp <- first_pos e v ;;
          let first := v_pos v + fp in
          _ <- mkptr ar e first ;;
          bytes <- usize_mul (e_dbg e) n width ;;
          lim <- usize_add (e_dbg e) (e_base e + first) bytes ;;
          if e_base e + dend <? lim then
            _ <- usize_sub (e_dbg e) (e_base e + dend) (e_base e + first) ;; Ret (@Err unit _ ArrayOutOfBounds)
          else elems_loop (fun cur => _ <- mkptr ar e (cur + width) ;;
                                      x <-? from_raw_s e cur width ;; validate_s ar f e true wide x (cur + width))
              (S (S (length (e_data e)))) 0 n first width)
         (wide <- arr_is_wide e v ;;
          let width := width_of wide in
          n <- arr_len e v ;; fp <- first_pos e v ;;
          let first := v_pos v + fp in
          bytes <- usize_mul (e_dbg e) n width ;;
          lim <- usize_add (e_dbg e) (e_base e + first) bytes ;;
          if e_base e + dend <? lim then
            _ <- usize_sub (e_dbg e) (e_base e + dend) (e_base e + first) ;; Ret (@Err unit _ ArrayOutOfBounds)
          else elems_loop (fun cur => x <-? from_raw e cur width ;; validate f e true wide x (cur + width))
              (S (S (length (e_data e)))) 0 n first width)).
  { apply al_bind; [apply al_refl|]. intros wide Hw. cbv zeta.
    apply al_bind; [apply al_refl|]. intros n Hn. apply al_bind; [apply al_refl|]. intros fp Hfp.
    apply al_mkptr. apply al_bind; [apply al_refl|]. intros bytes Hby. apply al_bind; [apply al_refl|]. intros lim Hlim.
    destruct (_ <? lim) eqn:El; [apply al_refl|].
    pose proof (lim_exact e Hwf Hck _ _ _ _ _ _ _ Hin Hl Hn Hfp Hby Hlim El) as Hb.
    apply (first_pos_range e Hwf) in Hfp; try assumption. apply (arr_len_range e Hwf) in Hn as (Hn & _); [|assumption].
    assert (Hw24 : width_of wide = 2 \/ width_of wide = 4) by (destruct wide; cbn; lia).
    destruct Hin as (I1 & I2 & I3).
    apply elems_al. intros j Hj. replace (v_pos v + fp + (j - 0) * width_of wide) with (v_pos v + fp + j * width_of wide) by lia.
    set (cur := v_pos v + fp + j * width_of wide).
    assert (Hcur : v_pos v + 2 <= cur /\ cur + width_of wide <= dend) by (unfold cur; nia).
    assert (Hc : inslice e (V cur (width_of wide))) by (unfold inslice; cbn [v_pos v_len]; lia).
    apply al_mkptr. unfold from_raw_s. rewrite mkslice_in by exact Hc.
    apply al_bindr; [apply al_refl|]. intros x Hx. apply (from_raw_safe e Hwf) in Hx as (-> & _); try assumption.
    apply IH; [exact Hc|cbn [v_len]; lia|cbn [v_pos v_len]; lia]. }
  destruct ty; try apply al_refl; try exact Hcoll.
  apply al_bindr; [apply deref_al; assumption|].
  intros t Ht. apply (deref_checked_safe e Hwf) in Ht; [|assumption|apply fuel_enough; assumption].
  destruct Ht as (T1 & T2 & T3 & _). apply IH; [assumption|assumption|destruct T1; lia].
Qed.

Lemma find_root_al ar : as_loose ar (find_root_s ar e) (find_root e).
Proof.
  unfold find_root_s, find_root. cbv zeta. pose proof (lenZ_nonneg (e_data e)).
  destruct ((lenZ (e_data e) =? 0) || negb (lenZ (e_data e) mod 2 =? 0)) eqn:E; [apply al_refl|].
  apply al_bind; [apply al_refl|]. intros ty _. destruct (vtype_eqb ty TyPointer); [|apply al_refl].
  apply deref_al. unfold inslice; cbn [v_pos v_len]. lia.
Qed.
Lemma from_bytes_al ar : e_dbg e = true \/ modest e -> as_loose ar (from_bytes_s ar e) (from_bytes e).
Proof.
  intros Hck. unfold from_bytes_s, from_bytes. apply al_bindr; [apply find_root_al|]. intros v Hv.
  apply (find_root_safe e Hwf) in Hv as (A & B & C & _).
  apply al_bindr; [|intros; apply al_refl]. apply validate_al; [assumption|assumption|assumption|lia].
Qed.
Lemma from_bytes_slices : e_dbg e = true \/ modest e -> from_bytes_s false e = from_bytes e.
Proof. intros H. destruct (from_bytes_al false H) as [E|[E _]]; [exact E|discriminate]. Qed.

(* ---------- accepted data ---------- *)

Lemma deref_acc ar : forall f v wide t, inslice e v -> deref_checked f e v wide = Ret (Ok t) ->
  deref_checked_s ar f e v wide = Ret (Ok t) /\ deref_unchecked_s f e v wide = Ret t.
Proof.
  induction f as [|f IH]; intros v wide t Hin H; [discriminate|]. cbn [deref_checked deref_checked_s deref_unchecked_s] in *.
  destruct ((wide && (v_len v <? 4)) || (v_len v <? 2)) eqn:E; [discriminate|].
  assert (Hw : width_of wide <= v_len v) by (destruct wide; cbn [width_of andb] in *; lia).
  destruct (get_offset_spec e v wide Hin Hw) as (off & Hoff & Ho & Hev). rewrite Hoff in *. cbn [bind] in *.
  destruct (off =? 0) eqn:E0; [discriminate|]. rewrite andb_false_r. cbv zeta in *.
  assert (Hl : 2 <= v_len v) by (destruct wide; cbn [width_of] in *; lia).
  rewrite (ptr_target_eq e Hwf v off Hin ltac:(lia) Ho) in *. binv H.
  destruct (negb _) eqn:Eb; [discriminate|]. destruct (v_pos v - off <? 0) eqn:E1; [discriminate|].
  assert (Hin' : inslice e (V (v_pos v - off) off)).
  { destruct Hin as (H1 & H2 & H3). unfold inslice; cbn [v_pos v_len]. lia. }
  assert (Hp : 0 <= v_pos v - off <= lenZ (e_data e)) by (destruct Hin as (H1 & H2 & H3); lia).
  rewrite !(mkptr_in _ _ _ _ Hp). try rewrite Hx. cbn [bind]. rewrite Eb. rewrite !(mkslice_in _ _ _ _ Hin'). binv H. rewrite Hx0. cbn [bind].
  destruct (vtype_eqb x0 TyPointer).
  - apply IH; [exact Hin'|exact H].
  - split; [exact H|congruence].
Qed.

Lemma elems_acc s l w n : (forall c, l c = Ret (Ok tt) -> s c = Ret (Ok tt)) \/ True -> forall k i cur,
  (forall j, i <= j < n -> l (cur + (j - i) * w) = Ret (Ok tt) -> s (cur + (j - i) * w) = Ret (Ok tt)) ->
  elems_loop l k i n cur w = Ret (Ok tt) -> elems_loop s k i n cur w = Ret (Ok tt).
Proof.
  intros _. induction k as [|k IH]; intros i cur H Hl; cbn [elems_loop] in *; [discriminate|].
  destruct (i <? n) eqn:E; [|exact Hl]. binv Hl. destruct x.
  pose proof (H i ltac:(lia)) as H0. replace (cur + (i - i) * w) with cur in H0 by lia. rewrite (H0 Hx). cbn [bindr].
  apply IH; [|exact Hl]. intros j Hj. specialize (H j ltac:(lia)).
  replace (cur + w + (j - (i + 1)) * w) with (cur + (j - i) * w) by lia. exact H.
Qed.

Lemma validate_acc ar : forall f is_elem is_wide v dend,
  inslice e v -> 2 <= v_len v -> v_pos v + v_len v <= dend <= lenZ (e_data e) ->
  validate f e is_elem is_wide v dend = Ret (Ok tt) -> validate_s ar f e is_elem is_wide v dend = Ret (Ok tt).
Proof.
  induction f as [|f IH]; intros is_elem is_wide v dend Hin Hl Hd H; [discriminate|].
  cbn [validate validate_s] in *. binv H. rename x into ty, Hx into Hty. rewrite ?Hty. cbn [bind].
  assert (Hcoll : (wide <- arr_is_wide e v ;;
          let width := width_of wide in
          n <- arr_len e v ;; fp <- first_pos e v ;;
          let first := v_pos v + fp in
          bytes <- usize_mul (e_dbg e) n width ;;
          lim <- usize_add (e_dbg e) (e_base e + first) bytes ;;
          if e_base e + dend <? lim then
            _ <- usize_sub (e_dbg e) (e_base e + dend) (e_base e + first) ;; Ret (@Err unit _ ArrayOutOfBounds)
          else elems_loop (fun cur => x <-? from_raw e cur width ;; validate f e true wide x (cur + width))
              (S (S (length (e_data e)))) 0 n first width) = Ret (Ok tt) ->
         (wide <- arr_is_wide e v ;;
          let width := width_of wide in
          n <- arr_len e v ;; fp <- first_pos e v ;;
          let first := v_pos v + fp in
          _ <- mkptr ar e first ;;
          bytes <- usize_mul (e_dbg e) n width ;;
          lim <- usize_add (e_dbg e) (e_base e + first) bytes ;;
          if e_base e + dend <? lim then
            _ <- usize_sub (e_dbg e) (e_base e + dend) (e_base e + first) ;; Ret (@Err unit _ ArrayOutOfBounds)
          else elems_loop (fun cur => _ <- mkptr ar e (cur + width) ;;
                                      x <-? from_raw_s e cur width ;; validate_s ar f e true wide x (cur + width))
              (S (S (length (e_data e)))) 0 n first width) = Ret (Ok tt)).
  { intros Hs. binv Hs. rename x into wide, Hx into Hw. rewrite ?Hw. cbn [bind]. cbv zeta in *.
    binv Hs. rename x into n, Hx into Hn. rewrite ?Hn. cbn [bind]. binv Hs. rename x into fp, Hx into Hfp. rewrite ?Hfp. cbn [bind].
    binv Hs. rename x into bytes, Hx into Hby. cbn [bind].
    binv Hs. rename x into lim, Hx into Hlim. cbn [bind]. destruct (_ <? lim) eqn:El; [binv Hs; discriminate|].
    assert (Hall : forall j, 0 <= j < n -> v_pos v + fp + j * width_of wide < lenZ (e_data e)).
    { intros j Hj. pose proof (elems_loop_inv _ _ _ _ _ _ Hs j ltac:(lia)) as Hstep. cbv beta in Hstep. binv Hstep.
      apply (from_raw_reads e Hwf) in Hx. lia. }
    pose proof (lim_exact_small e Hwf _ _ _ _ _ _ _ Hin Hl Hn Hfp Hby Hlim El Hall) as Hb.
    apply (first_pos_range e Hwf) in Hfp; try assumption. apply (arr_len_range e Hwf) in Hn as (Hn & _); [|assumption].
    assert (Hw24 : width_of wide = 2 \/ width_of wide = 4) by (destruct wide; cbn; lia).
    destruct Hin as (I1 & I2 & I3).
    rewrite mkptr_in by nia. rewrite Hby; cbn [bind]; rewrite Hlim; cbn [bind]; rewrite El.
    revert Hs. apply elems_acc; [tauto|]. intros j Hj.
    replace (v_pos v + fp + (j - 0) * width_of wide) with (v_pos v + fp + j * width_of wide) by lia.
    set (cur := v_pos v + fp + j * width_of wide).
    assert (Hcur : v_pos v + 2 <= cur /\ cur + width_of wide <= dend) by (unfold cur; nia).
    assert (Hc : inslice e (V cur (width_of wide))) by (unfold inslice; cbn [v_pos v_len]; lia).
    intros Hst. rewrite mkptr_in by lia. unfold from_raw_s. rewrite mkslice_in by exact Hc.
    binv Hst. pose proof Hx as Hx'. rewrite ?Hx. cbn [bindr]. apply (from_raw_safe e Hwf) in Hx' as (-> & _); try assumption.
    apply IH; [exact Hc|cbn [v_len]; lia|cbn [v_pos v_len]; lia|exact Hst]. }
  destruct ty; try exact H; try (apply Hcoll; exact H).
  binv H. pose proof Hx as Hx'. apply (deref_checked_safe e Hwf) in Hx'; [|assumption|apply fuel_enough; assumption].
  destruct Hx' as (T1 & T2 & T3 & _). rewrite (proj1 (deref_acc ar _ _ _ _ Hin Hx)). cbn [bindr].
  apply IH; [assumption|assumption|destruct T1; lia|exact H].
Qed.

Lemma from_bytes_acc ar v : from_bytes e = Ret (Ok v) -> from_bytes_s ar e = Ret (Ok v).
Proof.
  intros H. unfold from_bytes, from_bytes_s in *. binv H. rename x into r.
  assert (Hr : find_root_s ar e = Ret (Ok r)).
  { unfold find_root_s, find_root in *. cbv zeta in *. pose proof (lenZ_nonneg (e_data e)).
    destruct ((lenZ (e_data e) =? 0) || negb (lenZ (e_data e) mod 2 =? 0)) eqn:E; [discriminate|].
    binv Hx. rewrite Hx0. cbn [bind]. destruct (vtype_eqb x TyPointer); [|exact Hx].
    apply (deref_acc ar) in Hx; [apply Hx|]. unfold inslice; cbn [v_pos v_len]. lia. }
  rewrite Hr. cbn [bindr]. apply (find_root_safe e Hwf) in Hx as (A & B & C & _). binv H. destruct x.
  rewrite (validate_acc ar _ false false r (lenZ (e_data e)) A B ltac:(lia) Hx). exact H.
Qed.

(* ---------- navigation ---------- *)

Lemma resolve_acc s wide : good_slot e s wide -> resolve_s e s wide = resolve e s wide.
Proof.
  intros H. destruct (slot_resolve e s wide H) as (x & dx & Hr & _). rewrite Hr.
  unfold resolve_s, resolve in *. inversion H as [s0 w0 Hg Hw|s0 w0 t Hin Hw Hty Hd Hg]; subst.
  - binv Hr. rewrite Hx. cbn [bind]. destruct (vtype_eqb x0 TyPointer) eqn:E; [|exact Hr].
    inversion Hg; subst; destruct x0; try discriminate; try congruence.
    match goal with Hc : is_coll ?t |- _ => destruct Hc; congruence end.
  - rewrite Hty in *. cbn [bind vtype_eqb] in *. rewrite (deref_agree _ _ _ _ _ Hd) in Hr. apply ret_inj in Hr. subst x.
    apply (deref_acc true _ _ _ _ Hin Hd).
Qed.

Section C.
Variables (v : val) (d : Z) (wide : bool) (n fp : Z).
Hypothesis C : coll e v d wide n fp.

Lemma slot_in i : 0 <= i < n -> inslice e (V (v_pos v + fp + i * width_of wide) (width_of wide)).
Proof. intros Hi. destruct (slot_resolve e _ _ (co_slots _ _ _ _ _ _ C i Hi)) as (x & dx & _ & _ & _ & H & _). exact H. Qed.
Lemma slot_acc {B} i (k : val -> outcome B) : 0 <= i < n ->
  bind (offset_unchecked_s e v (fp + i * width_of wide) (width_of wide)) k = k (V (v_pos v + fp + i * width_of wide) (width_of wide)).
Proof.
  intros Hi. pose proof (slot_in i Hi) as Hin. unfold offset_unchecked_s.
  assert (Hw : 0 <= width_of wide) by (destruct wide; cbn; lia). destruct Hin as (A & A2 & A3). cbn [v_pos v_len] in *.
  rewrite mkptr_in by lia. replace (v_pos v + (fp + i * width_of wide)) with (v_pos v + fp + i * width_of wide) by lia.
  apply mkslice_in. unfold inslice; cbn [v_pos v_len]. lia.
Qed.
Lemma get_unchecked_acc i : 0 <= i < n -> arr_get_unchecked_s e v i = elem e v wide fp i.
Proof.
  intros Hi. pose proof (slot_in i Hi) as (A & A2 & A3). cbn [v_pos v_len] in *. unfold arr_get_unchecked_s.
  rewrite (co_wide _ _ _ _ _ _ C). cbn [bind]. pose proof (co_bound _ _ _ _ _ _ C). pose proof (co_d _ _ _ _ _ _ C).
  pose proof (co_pos _ _ _ _ _ _ C). pose proof (co_fp2 _ _ _ _ _ _ C).
  assert (Hw24 : width_of wide = 2 \/ width_of wide = 4) by (destruct wide; cbn; lia).
  destruct Hwf as (_ & W1 & W2). unfold two63 in W2.
  assert (Hi2 : 0 <= i * width_of wide) by nia.
  unfold usize_mul. destruct (_ <? two64) eqn:E; [|unfold two64 in E; lia]. cbn [bind]. rewrite (co_fp _ _ _ _ _ _ C). cbn [bind].
  unfold usize_add. destruct (fp + _ <? two64) eqn:E2; [|unfold two64 in E2; lia]. cbn [bind].
  replace (wrap_i64 (fp + i * width_of wide)) with (fp + i * width_of wide) by (unfold wrap_i64, two63, two64; lia).
  rewrite slot_acc by exact Hi. apply resolve_acc. apply (co_slots _ _ _ _ _ _ C i Hi).
Qed.
Lemma get_unchecked_both i : 0 <= i < n -> arr_get_unchecked_s e v i = arr_get_unchecked e v i.
Proof. intros Hi. rewrite get_unchecked_acc by exact Hi. symmetry. apply (co_get_unchecked e Hwf _ _ _ _ _ C i Hi). Qed.
Lemma get_acc i : 0 <= i < n -> arr_get_s e v i = arr_get e v i.
Proof.
  intros Hi. unfold arr_get_s, arr_get. rewrite (co_len _ _ _ _ _ _ C). cbn [bind].
  destruct (n <? i); [reflexivity|]. rewrite get_unchecked_both by exact Hi. reflexivity.
Qed.
Lemma iter_acc : arr_iter_s e v = Ret (it_at v wide fp n 0).
Proof.
  unfold arr_iter_s, it_at. rewrite (co_len _ _ _ _ _ _ C), (co_wide _ _ _ _ _ _ C). cbn [bind].
  pose proof (co_n _ _ _ _ _ _ C). destruct (n =? 0) eqn:E; destruct (0 <? n) eqn:E2; try lia; [reflexivity|].
  rewrite (co_fp _ _ _ _ _ _ C). cbn [bind]. replace fp with (fp + 0 * width_of wide) at 1 by lia.
  rewrite slot_acc by lia. reflexivity.
Qed.
Lemma next_acc i : 0 <= i <= n -> iter_next_s e (it_at v wide fp n i) = iter_next e (it_at v wide fp n i).
Proof.
  intros Hi. destruct (Z.eq_dec i n) as [->|Hne].
  { rewrite iter_next_end by lia. unfold iter_next_s, it_at at 1; cbn [it_next]. destruct (n <? n) eqn:E; [lia|]. reflexivity. }
  rewrite iter_next_at by lia. unfold iter_next_s, it_at at 1; cbn [it_next it_len it_index it_width].
  destruct (i <? n) eqn:E; [|lia]. unfold it_at at 1 2 3 4 5 6 7 8; cbn [it_next it_len it_index it_width].
  destruct (n <=? i) eqn:E2; [lia|]. replace (width_of wide =? 4) with wide by (destruct wide; reflexivity).
  rewrite resolve_acc by (apply (co_slots _ _ _ _ _ _ C); lia). unfold elem.
  destruct (resolve e _ wide); try reflexivity. cbn [bind]. unfold it_at.
  destruct (i + 1 <? n) eqn:E3; [|reflexivity]. unfold offset_unchecked_s. cbn [v_pos].
  pose proof (slot_in (i + 1) ltac:(lia)) as Hin.
  replace (v_pos v + fp + i * width_of wide + width_of wide) with (v_pos v + fp + (i + 1) * width_of wide) by lia.
  assert (Hw : 0 <= width_of wide) by (destruct wide; cbn; lia). pose proof Hin as (A & A2 & A3). cbn [v_pos v_len] in *.
  rewrite mkptr_in by lia. rewrite mkslice_in by exact Hin. reflexivity.
Qed.
Lemma collect_acc : forall f i, 0 <= i <= n -> iter_collect_s f e (it_at v wide fp n i) = iter_collect f e (it_at v wide fp n i).
Proof.
  induction f as [|f IH]; intros i Hi; [reflexivity|]. cbn [iter_collect iter_collect_s]. rewrite next_acc by exact Hi.
  destruct (Z.eq_dec i n) as [->|Hne]; [rewrite iter_next_end by lia; reflexivity|].
  rewrite iter_next_at by lia. destruct (elem e v wide fp i); try reflexivity. cbn [bind]. rewrite IH by lia. reflexivity.
Qed.
Lemma elems_nav : arr_elems_s e v = arr_elems e v.
Proof.
  unfold arr_elems_s, arr_elems. rewrite iter_acc, (co_iter e _ _ _ _ _ C). cbn [bind]. apply collect_acc.
  pose proof (co_n _ _ _ _ _ _ C). lia.
Qed.
Lemma pair_acc i : 0 <= i -> 2 * i + 1 < n -> dict_pair_s e v i = dict_pair e v i.
Proof.
  intros H0 Hi. pose proof (co_small e _ _ _ _ _ C) as [Hs _]. destruct Hwf as (_ & W1 & W2). unfold two63 in W2.
  unfold dict_pair_s, dict_pair, usize_mul. destruct (2 * i <? two64) eqn:E; [|unfold two64 in E; lia]. cbn [bind].
  rewrite get_unchecked_both by lia. destruct (arr_get_unchecked e v (2 * i)); try reflexivity. cbn [bind].
  unfold usize_add. destruct (2 * i + 1 <? two64) eqn:E2; [|unfold two64 in E2; lia]. cbn [bind].
  rewrite get_unchecked_both by lia. reflexivity.
Qed.
Lemma pair_key i p : 0 <= i -> 2 * i + 1 < n -> dict_pair e v i = Ret p -> gd e (fst p).
Proof.
  intros H0 Hi H. pose proof (co_small e _ _ _ _ _ C) as [Hs _]. destruct Hwf as (_ & W1 & W2). unfold two63 in W2.
  unfold dict_pair, usize_mul in H. destruct (2 * i <? two64) eqn:E; [|unfold two64 in E; lia]. cbn [bind] in H.
  rewrite (co_get_unchecked e Hwf _ _ _ _ _ C) in H by lia. binv H. binv H. binv H. apply ret_inj in H. subst p. cbn [fst].
  eapply (co_elem_gd e _ _ _ _ _ C); [|eassumption]. lia.
Qed.
Lemma cmp_acc k kv w : gd e kv -> dict_key_cmp_s e k kv w = dict_key_cmp e k kv w.
Proof.
  intros Hg. destruct (gd_type e kv Hg) as (ty & Hty & Hp). unfold dict_key_cmp_s, dict_key_cmp. rewrite Hty. cbn [bind].
  destruct (_ && _); [reflexivity|]. destruct k, ty; try reflexivity. congruence.
Qed.
Lemma search_acc k : forall f l r size, 0 <= l -> r <= n / 2 -> size = r - l ->
  dict_search_s f e v k l r size = dict_search f e v k l r size.
Proof.
  induction f as [|f IH]; intros l r size Hl Hr Hs; [reflexivity|]. cbn [dict_search dict_search_s].
  destruct (l <? r) eqn:E; [|reflexivity]. cbv zeta.
  assert (Hm : l <= l + size / 2 /\ l + size / 2 < r) by (clear - E Hs; lia).
  assert (Hm2 : 2 * (l + size / 2) + 1 < n) by (generalize dependent (l + size / 2); clear - Hr; intros; lia).
  set (mid := l + size / 2) in *. clearbody mid. rewrite pair_acc by (clear - Hl Hm Hm2; lia).
  destruct (dict_pair e v mid) as [p| | |] eqn:Ep; try reflexivity. cbn [bind].
  rewrite (co_wide _ _ _ _ _ _ C). cbn [bind].
  rewrite cmp_acc by (eapply pair_key; [| |exact Ep]; clear - Hl Hm Hm2; lia).
  destruct (dict_key_cmp e k (fst p) wide) as [[]| | |]; try reflexivity; cbn [bind]; apply IH; try reflexivity; clear - Hl Hr Hm; lia.
Qed.
Lemma get_key_acc k : dict_get_key_s e v k = dict_get_key e v k.
Proof.
  unfold dict_get_key_s, dict_get_key, dict_len. rewrite (co_len _ _ _ _ _ _ C). cbn [bind].
  generalize 66%nat. intros f. apply search_acc; lia.
Qed.
Hypothesis Hd : value_type e v = Ret TyDict.
Lemma even_n : n mod 2 = 0. Proof. apply (co_even e Hwf _ _ _ _ _ C Hd). Qed.
Lemma encode_acc key sk : encode_key_s e v key sk = encode_key e v key sk.
Proof.
  unfold encode_key_s, encode_key. destruct sk; [reflexivity|]. unfold uses_shared_keys_s, uses_shared_keys.
  rewrite (co_len _ _ _ _ _ _ C). cbn [bind]. destruct (n =? 0) eqn:E; [reflexivity|].
  pose proof even_n. pose proof (co_n _ _ _ _ _ _ C). rewrite pair_acc by lia. reflexivity.
Qed.
Lemma dget_acc key : dict_get_s e v key = dict_get e v key.
Proof.
  unfold dict_get_s, dict_get. rewrite encode_acc. apply bind_ext. intros k. apply get_key_acc.
Qed.
Lemma dget_sk_acc key sk : dict_get_sk_s e v key sk = dict_get_sk e v key sk.
Proof.
  unfold dict_get_sk_s, dict_get_sk. rewrite encode_acc. apply bind_ext. intros k. apply get_key_acc.
Qed.
Lemma first_acc : dict_first_s e v = dict_first e v.
Proof.
  unfold dict_first_s, dict_first. rewrite (co_len _ _ _ _ _ _ C). cbn [bind]. destruct (n =? 0) eqn:E; [reflexivity|].
  pose proof even_n. pose proof (co_n _ _ _ _ _ _ C). rewrite pair_acc by lia. reflexivity.
Qed.
Lemma dnext_acc i : 0 <= i <= n -> dict_iter_next_s e (it_at v wide fp n i) = dict_iter_next e (it_at v wide fp n i).
Proof.
  intros Hi. unfold dict_iter_next_s, dict_iter_next. rewrite next_acc by exact Hi.
  destruct (Z.eq_dec i n) as [->|Hne]; [rewrite iter_next_end by lia; reflexivity|].
  rewrite iter_next_at by lia. destruct (elem e v wide fp i) as [kv| | |]; try reflexivity. cbn [bind].
  destruct (value_type e kv) as [ty| | |]; try reflexivity. cbn [bind].
  destruct (if vtype_eqb ty TyShort then _ else _) as [[s|]| | |]; try reflexivity. cbn [bind]. rewrite next_acc by lia. reflexivity.
Qed.
Lemma dcollect_acc : forall f i, 0 <= i <= n -> dict_collect_s f e (it_at v wide fp n i) = dict_collect f e (it_at v wide fp n i).
Proof.
  induction f as [|f IH]; intros i Hi; [reflexivity|]. cbn [dict_collect dict_collect_s]. rewrite dnext_acc by exact Hi.
  destruct (dict_iter_next e (it_at v wide fp n i)) as [[[[k x]|] it']| | |] eqn:E; try reflexivity. cbn [bind].
  destruct (co_dict_next e Hwf _ _ _ _ _ C i Hi) as [_ Hnx]. specialize (Hnx _ _ E). cbv beta iota in Hnx.
  destruct Hnx as (-> & Hlt & _). rewrite IH by lia. reflexivity.
Qed.
Lemma delems_acc : dict_elems_s e v = dict_elems e v.
Proof.
  unfold dict_elems_s, dict_elems. rewrite iter_acc, (co_iter e _ _ _ _ _ C). cbn [bind]. apply dcollect_acc.
  pose proof (co_n _ _ _ _ _ _ C). lia.
Qed.
End C.

Section Here.
Variables (r v : val).
Hypothesis Hr : from_bytes e = Ret (Ok r).
Hypothesis Hv : reach e r v.
Lemma nav_here : exists d, good e v d /\ d <= lenZ (e_data e).
Proof. eapply (reach_gd e Hwf); [|exact Hv]. exists (lenZ (e_data e)). split; [apply from_bytes_good; assumption|lia]. Qed.

Lemma nav_array : value_type e v = Ret TyArray ->
  (forall n i, arr_len e v = Ret n -> 0 <= i < n -> arr_get_s e v i = arr_get e v i) /\ arr_elems_s e v = arr_elems e v.
Proof.
  intros Hty. destruct nav_here as (d & Hg & Hd). destruct (gd_coll e Hwf v d _ Hg Hd Hty ltac:(unfold is_coll; tauto)) as (wide & n & fp & C).
  split; [|eapply elems_nav; exact C]. intros m i Hm Hi. rewrite (co_len _ _ _ _ _ _ C) in Hm. apply ret_inj in Hm. subst m.
  eapply get_acc; eassumption.
Qed.
Lemma nav_dict : value_type e v = Ret TyDict ->
  (forall k, dict_get_s e v k = dict_get e v k) /\
  (forall k sk, dict_get_sk_s e v k sk = dict_get_sk e v k sk) /\
  dict_first_s e v = dict_first e v /\ dict_elems_s e v = dict_elems e v.
Proof.
  intros Hty. destruct nav_here as (d & Hg & Hd). destruct (gd_coll e Hwf v d _ Hg Hd Hty ltac:(unfold is_coll; tauto)) as (wide & n & fp & C).
  split; [intros; eapply dget_acc; eassumption|]. split; [intros; eapply dget_sk_acc; eassumption|].
  split; [eapply first_acc; eassumption|eapply delems_acc; eassumption].
Qed.
End Here.
End Env.

Lemma nav_array_safe e r v : wf_env e -> from_bytes e = Ret (Ok r) -> reach e r v -> value_type e v = Ret TyArray ->
  (forall n i, arr_len e v = Ret n -> 0 <= i < n -> arr_get_s e v i = arr_get e v i /\ arr_get_s e v i <> UB) /\
  arr_elems_s e v = arr_elems e v /\ arr_elems_s e v <> UB.
Proof.
  intros Hwf Hr Hv Hty. destruct (nav_array e Hwf r v Hr Hv Hty) as [A B].
  pose proof (reach_in_bounds e Hwf r v Hr Hv) as (_ & _ & _ & _ & _ & _ & _ & _ & _ & _ & Ha & _).
  destruct (Ha Hty) as (_ & He & Hg). split.
  - intros n i Hn Hi. rewrite (A n i Hn Hi). split; [reflexivity|]. apply (Hg n i Hn Hi).
  - rewrite B. split; [reflexivity|apply He].
Qed.
Lemma nav_dict_safe e r v : wf_env e -> from_bytes e = Ret (Ok r) -> reach e r v -> value_type e v = Ret TyDict ->
  (forall k, dict_get_s e v k = dict_get e v k /\ dict_get_s e v k <> UB) /\
  (forall k sk, dict_get_sk_s e v k sk = dict_get_sk e v k sk /\ dict_get_sk_s e v k sk <> UB) /\
  (dict_first_s e v = dict_first e v /\ dict_first_s e v <> UB) /\
  (dict_elems_s e v = dict_elems e v /\ dict_elems_s e v <> UB).
Proof.
  intros Hwf Hr Hv Hty. destruct (nav_dict e Hwf r v Hr Hv Hty) as (A & B & C & D).
  pose proof (reach_in_bounds e Hwf r v Hr Hv) as (_ & _ & _ & _ & _ & _ & _ & _ & _ & _ & _ & Ha).
  destruct (Ha Hty) as (_ & He & Hf & Hg & Hs).
  split; [intros k; rewrite A; split; [reflexivity|apply Hg]|].
  split; [intros k sk; rewrite B; split; [reflexivity|apply Hs]|].
  split; [rewrite C; split; [reflexivity|apply Hf]|rewrite D; split; [reflexivity|apply He]].
Qed.
