(** Proofs about deserializing untrusted data. *)
From Coq Require Import ZifyBool ZifyNat ZifyN.
From Verif Require Import Prelude Lib Varint VarintProofs Utf8 Float SharedKeys Decode Read Encodable Encoder Scopes Ser De ReadSpec Repr Safety Agree Navigate UntrustedSpec.
Ltac Zify.zify_post_hook ::= Z.div_mod_to_equations.

(** [b]: it terminates; [p]: it does not panic.  Never [UB]. *)
Definition okd (b p : bool) {A} (m : outcome A) : Prop :=
  match m with Ret _ => True | Panic => p = false | UB => False | Diverge => b = false end.

Lemma okd_bind b p {A B} (m : outcome A) (k : A -> outcome B) :
  okd b p m -> (forall x, m = Ret x -> okd b p (k x)) -> okd b p (bind m k).
Proof. destruct m; cbn; auto. Qed.
Lemma okd_bindr b p {A B E} (m : outcome (result A E)) (k : A -> outcome (result B E)) :
  okd b p m -> (forall x, m = Ret (Ok x) -> okd b p (k x)) -> okd b p (bindr m k).
Proof. destruct m as [[x|x]| | |]; cbn; auto. Qed.
Lemma okd_safe b {A} (m : outcome A) : safe m -> okd b false m.
Proof. intros [H1 H2]. destruct m; cbn; congruence || auto. Qed.
Lemma okd_returns b p {A} (m : outcome A) : returns m -> okd b p m.
Proof. intros [a ->]. exact I. Qed.
Lemma okd_both b p {A} (m : outcome A) : safe m -> (p = true -> returns m) -> okd b p m.
Proof. destruct p; intros H1 H2; [apply okd_returns; auto|apply okd_safe; exact H1]. Qed.
Lemma okd_weak b p {A} (m : outcome A) : okd true p m -> okd b p m.
Proof. destruct m; cbn; auto. discriminate. Qed.

Section U.
Variable e : env.
Hypothesis Hwf : wf_env e.

Notation good := (good e).
Notation gd := (gd e).
Notation elem := (elem e).

Lemma co_member v d wide n fp i x ty : value_type e v = Ret ty -> ty = TyArray \/ ty = TyDict ->
  coll e v d wide n fp -> 0 <= i < n -> elem v wide fp i = Ret x -> member e v x.
Proof using.
  intros Hty Hc C Hi Hx. destruct (co_run e v d wide n fp C (S (Z.to_nat i)) 0) as (xs & Hrun & Hl & Hn); [lia|lia|].
  destruct (Hn (Z.to_nat i)) as (y & Hy & Hey); [lia|]. replace (0 + Z.of_nat (Z.to_nat i)) with i in Hey by lia.
  rewrite Hx in Hey. apply ret_inj in Hey. subst y.
  econstructor; [exact Hty|exact Hc|exact (co_iter e v d wide n fp C)|exact Hrun|]. eapply nth_error_In; exact Hy.
Qed.

Variable r : val.
(** What the deserializer knows of a value it looks at. *)
Definition at_ (v : val) (d : Z) : Prop := good v d /\ d <= lenZ (e_data e) /\ within e r v.

Lemma at_gd v d : at_ v d -> gd v.
Proof using. intros (H & H1 & _). exists d. tauto. Qed.
Lemma at_meas v d : at_ v d -> 0 <= meas v d.
Proof using. intros (H & _). apply good_in in H as ((I1 & I2 & _) & I3 & I4). unfold meas. lia. Qed.
Lemma at_coll v d ty : at_ v d -> value_type e v = Ret ty -> ty = TyArray \/ ty = TyDict ->
  exists wide n fp, coll e v d wide n fp /\
    forall i, 0 <= i < n -> exists x dx, elem v wide fp i = Ret x /\ at_ x dx /\ meas x dx < meas v d.
Proof using Hwf.
  intros (Hg & Hd & Hw) Hty Hc. destruct (gd_coll e Hwf v d ty Hg Hd Hty Hc) as (wide & n & fp & C). exists wide, n, fp.
  split; [exact C|]. intros i Hi. destruct (co_elem e v d wide n fp C i Hi) as (x & dx & Hx & Hgx & Hdx & Hm).
  exists x, dx. split; [exact Hx|]. split; [|exact Hm]. split; [exact Hgx|]. split; [lia|]. econstructor; [exact Hw|].
  eapply co_member; eassumption.
Qed.

Lemma de_new_gd wide v : gd v -> de_new e wide v = Ret v.
Proof using.
  intros Hg. unfold de_new. destruct (gd_type e v Hg) as (ty & Hty & Hnp). rewrite Hty. cbn [bind]. destruct ty; try reflexivity. congruence.
Qed.
Variables b p : bool.
Hypothesis Hfl : p = true -> whole_floats e r.
Notation ok := (okd b p).

Lemma at_whole v d : at_ v d -> p = true -> forall ty, value_type e v = Ret ty -> float_len ty <= v_len v.
Proof using Hfl b p. intros (_ & _ & Hw) Hp ty Hty. exact (Hfl Hp v ty Hw Hty). Qed.

Lemma numbers_ok v d : at_ v d ->
  ok (to_bool e v) /\ ok (to_short e v) /\ ok (to_unsigned_short e v) /\ ok (to_int e v) /\ ok (to_unsigned_int e v) /\
  ok (to_float e v) /\ ok (to_double e v).
Proof using Hfl Hwf b p.
  intros Ha. pose proof (at_gd v d Ha) as Hg. pose proof (at_whole v d Ha) as Hw.
  split; [apply okd_both; [apply to_bool_safe; assumption|intros Hp; apply to_bool_safe; auto]|].
  split; [apply okd_both; [apply to_short_safe; assumption|intros Hp; apply to_short_safe; auto]|].
  split; [apply okd_both; [apply to_unsigned_short_safe; assumption|intros Hp; apply to_unsigned_short_safe; auto]|].
  split; [apply okd_both; [apply to_int_safe; assumption|intros Hp; apply to_int_safe; auto]|].
  split; [apply okd_both; [apply to_unsigned_int_safe; assumption|intros Hp; apply to_unsigned_int_safe; auto]|].
  split; [apply okd_both; [apply to_float_safe; assumption|intros Hp; apply to_float_safe; auto]|].
  apply okd_both; [apply to_double_safe; assumption|intros Hp; apply to_double_safe; auto].
Qed.

Lemma de_any_ok key v d : at_ v d -> ok (de_any e key v) /\
  (de_any e key v = Ret (Ok VisSeq) -> value_type e v = Ret TyArray) /\ (de_any e key v = Ret (Ok VisMap) -> value_type e v = Ret TyDict).
Proof using Hfl Hwf b p.
  intros Ha. pose proof (at_gd v d Ha) as Hg. destruct (numbers_ok v d Ha) as (N1 & N2 & N3 & N4 & N5 & N6 & N7).
  destruct (to_str_ok e Hwf v Hg) as (s & Hs). destruct (to_data_ok e Hwf v Hg) as (s2 & Hs2).
  unfold de_any. destruct (gd_type e v Hg) as (ty & Hty & Hnp). rewrite Hty. cbn [bind].
  assert (Hb : forall A (m : outcome A) (k : A -> event), ok m -> (forall x, k x <> VisSeq /\ k x <> VisMap) ->
     ok (x <- m ;; Ret (@Ok event de_error (k x))) /\ ((x <- m ;; Ret (@Ok event de_error (k x))) = Ret (Ok VisSeq) -> Ret ty = Ret TyArray) /\
     ((x <- m ;; Ret (@Ok event de_error (k x))) = Ret (Ok VisMap) -> Ret ty = Ret TyDict)).
  { intros A m k Hm Hk. destruct m as [y| | |]; cbn in *; (split; [exact I || exact Hm|]); split; try discriminate;
      intros H; injection H as H; destruct (Hk y); congruence. }
  destruct ty; try (apply Hb; [assumption|intros; split; discriminate]); try (split; [exact I|split; congruence]); try congruence.
  - destruct key; [|apply Hb; [assumption|intros; split; discriminate]].
    destruct (to_unsigned_short e v) as [i| | |]; cbn in *; (split; [exact I || exact N3|]); split; try discriminate;
      (destruct (e_sk e) as [tb|]; [destruct (sk_decode tb i)|]; discriminate).
  - rewrite Hs. split; [exact I|split; discriminate].
  - rewrite Hs2. split; [exact I|split; discriminate].
Qed.

Section Loops.
Variables (v : val) (d : Z) (wide : bool) (n fp : Z).
Hypothesis C : coll e v d wide n fp.
Hypothesis El : forall i, 0 <= i < n -> exists x dx, elem v wide fp i = Ret x /\ at_ x dx /\ meas x dx < meas v d.

Lemma next_at i : 0 <= i <= n ->
  (i = n /\ next_value e (it_at v wide fp n i) = Ret (None, it_at v wide fp n i)) \/
  (i < n /\ exists x dx, next_value e (it_at v wide fp n i) = Ret (Some x, it_at v wide fp n (i + 1)) /\ at_ x dx /\ meas x dx < meas v d).
Proof using El b p.
  intros Hi. unfold next_value. destruct (Z.eq_dec i n) as [->|Hne].
  - left. split; [reflexivity|]. rewrite iter_next_end by lia. reflexivity.
  - right. split; [lia|]. rewrite iter_next_at by lia. destruct (El i) as (x & dx & Hx & Ha & Hm); [lia|]. rewrite Hx. cbn [bind].
    exists x, dx. rewrite (de_new_gd _ x (at_gd x dx Ha)). cbn [bind]. tauto.
Qed.

Lemma seq_all_ok (g : val -> dser sval) : (forall x dx, at_ x dx -> meas x dx < meas v d -> ok (g x)) ->
  forall k i, 0 <= i <= n -> n - i < Z.of_nat k -> ok (seq_all g e k (it_at v wide fp n i)).
Proof using El b p.
  intros Hgx. induction k as [|k IH]; intros i Hi Hk; [lia|]. cbn [seq_all].
  destruct (next_at i Hi) as [[_ ->]|(Hlt & x & dx & -> & Ha & Hm)]; cbn [bind fst snd]; [exact I|].
  apply okd_bindr; [eauto|]. intros y _. apply okd_bindr; [apply IH; lia|]. intros; exact I.
Qed.
Lemma seq_n_ok (g : val -> sty -> dser sval) (P : sty -> Prop) :
  (forall x dx t, at_ x dx -> meas x dx < meas v d -> P t -> ok (g x t)) ->
  forall ts i, Forall P ts -> 0 <= i <= n -> ok (seq_n g e ts (it_at v wide fp n i)).
Proof using El b p.
  intros Hgx. induction ts as [|t ts IH]; intros i Hp Hi; cbn [seq_n]; [exact I|]. inversion Hp; subst.
  destruct (next_at i Hi) as [[_ ->]|(Hlt & x & dx & -> & Ha & Hm)]; cbn [bind fst snd]; [exact I|].
  apply okd_bindr; [eauto|]. intros y _. apply okd_bindr; [apply IH; [assumption|lia]|]. intros; exact I.
Qed.
Lemma map_all_ok (gk gv : val -> dser sval) : (forall x dx, at_ x dx -> meas x dx < meas v d -> ok (gk x)) ->
  (forall x dx, at_ x dx -> meas x dx < meas v d -> ok (gv x)) ->
  forall k i, 0 <= i <= n -> n - i < Z.of_nat k -> ok (map_all gk gv e k (it_at v wide fp n i)).
Proof using El b p.
  intros Hgk Hgv. induction k as [|k IH]; intros i Hi Hk; [lia|]. cbn [map_all].
  destruct (next_at i Hi) as [[_ ->]|(Hlt & x & dx & -> & Ha & Hm)]; cbn [bind fst snd]; [exact I|].
  apply okd_bindr; [eauto|]. intros y _.
  destruct (next_at (i + 1)) as [[_ ->]|(Hlt2 & x2 & dx2 & -> & Ha2 & Hm2)]; [lia| |]; cbn [bind fst snd]; [exact I|].
  apply okd_bindr; [eauto|]. intros z _. apply okd_bindr; [apply IH; lia|]. intros; exact I.
Qed.
Lemma lookup_in {A} (s : list Z) (l : list (list Z * A)) x : lookup s l = Some x -> exists k, In (k, x) l.
Proof using b p.
  induction l as [|[k y] l IH]; cbn [lookup]; [discriminate|]. destruct (bytes_eqb k s).
  - intros H; injection H as ->. exists k. left; reflexivity.
  - intros H. destruct (IH H) as (k' & Hk). exists k'. right; exact Hk.
Qed.
Lemma struct_ok (G : nat -> sty) (g : val -> sty -> dser sval) (ign : val -> dser sval) (P : sty -> Prop) fields :
  (forall x dx t, at_ x dx -> meas x dx < meas v d -> P t -> ok (g x t)) ->
  (forall x dx, at_ x dx -> meas x dx < meas v d -> ok (ign x)) -> Forall (fun f => P (snd f)) fields ->
  forall k i acc, 0 <= i <= n -> n - i < Z.of_nat k -> ok (struct_loop G g ign e fields k (it_at v wide fp n i) acc).
Proof using El Hfl Hwf b p.
  intros Hg Hign HP. induction k as [|k IH]; intros i acc Hi Hk; [lia|]. cbn [struct_loop].
  destruct (next_at i Hi) as [[_ ->]|(Hlt & x & dx & -> & Ha & Hm)]; cbn [bind fst snd]; [exact I|].
  apply okd_bindr; [apply (de_any_ok true x dx Ha)|]. intros ev _. apply okd_bindr; [exact I|]. intros name _.
  destruct (match name with Some s => lookup s acc | None => None end); [exact I|].
  destruct (next_at (i + 1)) as [[_ ->]|(Hlt2 & x2 & dx2 & -> & Ha2 & Hm2)]; [lia| |]; cbn [bind fst snd]; [exact I|].
  destruct name as [s|]; [|apply okd_bindr; [eauto|]; intros; apply IH; lia].
  destruct (lookup s fields) as [t|] eqn:El2; [|apply okd_bindr; [eauto|]; intros; apply IH; lia].
  apply okd_bindr; [|intros; apply IH; lia]. apply lookup_in in El2 as (k0 & Hin). eapply Forall_forall in HP; [|exact Hin]. eauto.
Qed.
Lemma loop_fuel : n - 0 < Z.of_nat (S (S (length (e_data e)))).
Proof using C. clear El; clear p Hfl; pose proof (co_small e v d wide n fp C) as [H _]. unfold lenZ in H. lia. Qed.
Lemma loop_start : 0 <= 0 <= n.
Proof using C. clear El; clear p Hfl; pose proof (co_n e v d wide n fp C). lia. Qed.
End Loops.

Lemma ignore_ok : forall f key v d, at_ v d -> (b = true -> meas v d < Z.of_nat f) -> ok (ignore_any f e key v).
Proof using Hfl Hwf b p.
  induction f as [|f IH]; intros key v d Ha Hf.
  { cbn [ignore_any okd]. destruct b; [|reflexivity]. pose proof (at_meas v d Ha). lia. }
  cbn [ignore_any]. destruct (de_any_ok key v d Ha) as (H1 & H2 & H3). apply okd_bindr; [exact H1|]. intros ev Hev.
  assert (Hsub : forall key' x dx, at_ x dx -> meas x dx < meas v d -> ok (ignore_any f e key' x)).
  { intros key' x dx Hx Hm. apply IH with (d := dx); [exact Hx|]. intros Hb. specialize (Hf Hb). lia. }
  destruct ev; try exact I.
  - destruct (at_coll v d _ Ha (H2 Hev) ltac:(tauto)) as (wide & n & fp & C & El). rewrite (co_iter e v d wide n fp C). cbn [bind].
    apply okd_bindr; [|intros; exact I]. eapply seq_all_ok; [exact El| |eapply loop_start; exact C|eapply loop_fuel; exact C].
    intros; eapply Hsub; eassumption.
  - destruct (at_coll v d _ Ha (H3 Hev) ltac:(tauto)) as (wide & n & fp & C & El). rewrite (co_iter e v d wide n fp C). cbn [bind].
    apply okd_bindr; [|intros; exact I]. eapply map_all_ok; [exact El| | |eapply loop_start; exact C|eapply loop_fuel; exact C];
    intros; eapply Hsub; eassumption.
Qed.

(* ---------- reading and formatting ---------- *)

Lemma mapM_ok {A B} (f : A -> outcome B) l : (forall x, In x l -> ok (f x)) -> ok (mapM f l).
Proof using b p.
  induction l as [|x l IH]; intros H; cbn [mapM]; [exact I|]. apply okd_bind; [apply H; left; reflexivity|]. intros y _.
  apply okd_bind; [apply IH; intros; apply H; right; assumption|]. intros; exact I.
Qed.
Lemma read_ok : forall f v d, at_ v d -> (b = true -> meas v d < Z.of_nat f) -> ok (read_tree f e v).
Proof using Hfl Hwf b p.
  induction f as [|f IH]; intros v d Ha Hf.
  { cbn [read_tree okd]. destruct b; [|reflexivity]. pose proof (at_meas v d Ha). lia. }
  pose proof (at_gd v d Ha) as Hg. destruct (numbers_ok v d Ha) as (N1 & N2 & N3 & N4 & N5 & N6 & N7).
  destruct (to_str_ok e Hwf v Hg) as (s & Hs). destruct (to_data_ok e Hwf v Hg) as (s2 & Hs2).
  cbn [read_tree]. destruct (gd_type e v Hg) as (ty & Hty & Hnp). rewrite Hty. cbn [bind].
  assert (Hb : forall {A B} (m : outcome A) (k : A -> B), ok m -> ok (x <- m ;; Ret (k x)))
    by (intros; apply okd_bind; [assumption|intros; exact I]).
  assert (Hsub : forall wide n fp i x, coll e v d wide n fp -> 0 <= i < n -> elem v wide fp i = Ret x ->
    (exists x' dx, elem v wide fp i = Ret x' /\ at_ x' dx /\ meas x' dx < meas v d) -> ok (read_tree f e x)).
  { intros wide n fp i x C Hi Hx (x' & dx & Hx' & Hax & Hmx).
    rewrite Hx in Hx'. apply ret_inj in Hx'. subst x'. apply IH with (d := dx); [exact Hax|]. intros Hbt. specialize (Hf Hbt). lia. }
  destruct ty; try exact I; try congruence; try (apply Hb; assumption).
  - rewrite Hs. exact I.
  - rewrite Hs2. exact I.
  - destruct (at_coll v d _ Ha Hty ltac:(tauto)) as (wide & n & fp & C & El).
    destruct (co_elems e _ _ _ _ _ C) as (xs & Hxs & Hl & Hn). rewrite Hxs. cbn [bind]. apply Hb. apply mapM_ok.
    intros x Hin. apply In_nth_error in Hin as (j & Hj). apply Hn in Hj as [Hj1 Hj2]. eapply Hsub; [exact C| |exact Hj2|apply El]; lia.
  - destruct (at_coll v d _ Ha Hty ltac:(tauto)) as (wide & n & fp & C & El).
    destruct (co_dict_elems e Hwf _ _ _ _ _ C) as [Hse Hin]. apply okd_bind; [apply okd_both; [exact Hse|]|].
    { intros _. destruct (gd_no_panic e Hwf v Hg) as (_ & _ & _ & _ & H5). apply H5. exact Hty. }
    intros kvs Hkv. apply Hb. apply mapM_ok.
    intros [k x] Hkx. destruct (Hin _ Hkv _ _ Hkx) as (j & kv & H0 & H1 & _ & H2 & _). cbn [snd fst]. apply Hb.
    eapply Hsub; [exact C| |exact H2|apply El]; lia.
Qed.
Lemma meas_fuel v d : at_ v d -> meas v d < Z.of_nat (fuel_of e).
Proof using b p.
  intros (Hg & Hd & _). apply good_in in Hg as ((I1 & I2 & I3) & _). unfold meas, fuel_of. unfold lenZ in *. lia.
Qed.
Lemma debug_ok v d : at_ v d -> ok (debug_fmt e v).
Proof using Hfl Hwf b p.
  intros Ha. unfold debug_fmt. apply okd_bind; [|intros; exact I]. eapply read_ok; [exact Ha|]. intros _. eapply meas_fuel; exact Ha.
Qed.

(* ---------- deserializing ---------- *)

Variables (G : nat -> sty) (K : nat) (al : variants_allowed).
Hypothesis HG : forall n, ty_ok G K al (G n).
Hypothesis HK : (1 <= K)%nat.
Hypothesis Har : arrays_have e r (enum_len al).
Hypothesis Hps : p = true -> level al <= 2.

Lemma arr_enough v d wide n fp : at_ v d -> value_type e v = Ret TyArray -> coll e v d wide n fp -> enum_len al <= n.
Proof using Har HG HK b p. intros (_ & _ & Hw) Hty C. eapply Har; [exact Hw|exact Hty|apply C]. Qed.
Lemma ok_opens t : ty_ok G K al t -> opens G K t.
Proof using HK HG b p. intros H. destruct K as [|K']; [lia|]. destruct H; try exact I; assumption. Qed.

Lemma all_fields_ok v d wide n fp l : at_ v d -> coll e v d wide n fp -> value_type e v = Ret TyDict -> p = false ->
  ok ((fix all (l : list (list Z * sty)) : outcome bool :=
        match l with
        | [] => Ret true
        | f0 :: l' =>
            c <- match e_sk e with
                 | Some tb => dict_contains_sk e v (fst f0) tb
                 | None => dict_contains e v (fst f0)
                 end ;;
            if c then all l' else Ret false
        end) l).
Proof using Hwf b p.
  intros Ha C Hty Hp. induction l as [|f0 l IH]; [exact I|]. apply okd_bind.
  - rewrite Hp. apply okd_safe. destruct (e_sk e) as [tb|]; unfold dict_contains_sk, dict_contains; (apply safe_bind; [|intros; apply safe_ret]).
    + apply (co_dict_get_sk e Hwf _ _ _ _ _ C Hty).
    + apply (co_dict_get e Hwf _ _ _ _ _ C Hty).
  - intros c _. destruct c; [exact IH|exact I].
Qed.

Lemma de_ok : forall f key v d ty k, at_ v d -> ty_ok G K al ty -> opens G k ty -> (k <= K)%nat ->
  (b = true -> meas v d * (Z.of_nat K + 1) + Z.of_nat k < Z.of_nat f) -> ok (de G f e key v ty).
Proof using HG HK Har Hfl Hps Hwf b p.
  induction f as [|f IH]; intros key v d ty k Ha Hty Ho Hk Hf.
  { cbn [de okd]. destruct b; [|reflexivity]. pose proof (at_meas v d Ha). specialize (Hf eq_refl). nia. }
  pose proof (at_gd v d Ha) as Hg.
  assert (Hsub : forall x dx t, at_ x dx -> meas x dx < meas v d -> ty_ok G K al t -> ok (de G f e false x t)).
  { intros x dx t Hx Hm Ht. apply IH with (d := dx) (k := K); [exact Hx|exact Ht|apply ok_opens; exact Ht|lia|]. intros Hb. specialize (Hf Hb). nia. }
  assert (Hsubk : forall x dx t, at_ x dx -> meas x dx < meas v d -> ty_ok G K al t -> ok (de G f e true x t)).
  { intros x dx t Hx Hm Ht. apply IH with (d := dx) (k := K); [exact Hx|exact Ht|apply ok_opens; exact Ht|lia|]. intros Hb. specialize (Hf Hb). nia. }
  assert (Hign : forall x dx, at_ x dx -> meas x dx < meas v d -> ok (ignore_any f e false x)).
  { intros x dx Hx Hm. apply ignore_ok with (d := dx); [exact Hx|]. intros Hb. specialize (Hf Hb). pose proof (at_meas x dx Hx). nia. }
  destruct (gd_type e v Hg) as (vt & Hvt & Hnp). destruct (de_any_ok key v d Ha) as (D1 & D2 & D3).
  assert (Hseqn : forall ts (kk : list sval -> sval), Forall (ty_ok G K al) ts -> value_type e v = Ret TyArray ->
    ok (it <- arr_iter e v ;; l <-? seq_n (fun x t => de G f e false x t) e ts it ;; Ret (@Ok sval de_error (kk l)))).
  { intros ts kk Hts Hva. destruct (at_coll v d _ Ha Hva ltac:(tauto)) as (wide & n & fp & C & El). rewrite (co_iter e v d wide n fp C). cbn [bind].
    apply okd_bindr; [|intros; exact I]. eapply seq_n_ok with (P := ty_ok G K al); [exact El| |exact Hts|eapply loop_start; exact C].
    intros; eapply Hsub; eassumption. }
  assert (Hseqa : forall t (kk : list sval -> sval), ty_ok G K al t -> value_type e v = Ret TyArray ->
    ok (it <- arr_iter e v ;; l <-? seq_all (fun x => de G f e false x t) e (S (S (length (e_data e)))) it ;; Ret (@Ok sval de_error (kk l)))).
  { intros t kk Ht Hva. destruct (at_coll v d _ Ha Hva ltac:(tauto)) as (wide & n & fp & C & El). rewrite (co_iter e v d wide n fp C). cbn [bind].
    apply okd_bindr; [|intros; exact I]. eapply seq_all_ok; [exact El| |eapply loop_start; exact C|eapply loop_fuel; exact C].
    intros; eapply Hsub; eassumption. }
  assert (Hscalar : forall (kk : event -> dser sval), (forall ev, de_any e key v = Ret (Ok ev) -> ok (kk ev)) -> ok (bindr (de_any e key v) kk))
    by (intros; apply okd_bindr; assumption).
  destruct Hty as [|t|  | | | | | | |t Ht Ho2|t Ht|t Ht|ts Hts|ts Hts|kt wt Hkt Hwt|fs Hfs|vs Hlev Hvs|nm Ho2]; cbn [de]; cbv zeta;
    try (apply Hscalar; intros ev Hev; destruct ev; exact I).
  - (* YBytes *) apply Hscalar. intros ev Hev. destruct ev; try exact I. apply Hseqa; [constructor|auto].
  - (* YOpt *) rewrite Hvt. cbn [bind]. destruct k as [|k]; [destruct Ho|]. cbn [opens] in Ho.
    assert (Hin : ok (x <-? de G f e key v t ;; Ret (@Ok sval de_error (SSome x)))).
    { apply okd_bindr; [|intros; exact I]. apply IH with (d := d) (k := k); [exact Ha|exact Ht|exact Ho|lia|]. intros Hb. specialize (Hf Hb). lia. }
    destruct vt; exact I || exact Hin.
  - (* YNewtype *) apply Hscalar. intros ev Hev. destruct ev; try exact I. apply (Hseqn [t] (fun l => SNewtype (nth 0 l SUnit))); [constructor; [exact Ht|constructor]|auto].
  - (* YSeq *) unfold as_array. rewrite Hvt. cbn [bind]. destruct (vtype_eqb vt TyArray) eqn:E; [|exact I]. destruct vt; try discriminate. apply Hseqa; assumption.
  - (* YTuple *) apply Hscalar. intros ev Hev. destruct ev; try exact I. apply (Hseqn ts STuple); auto.
  - (* YTupleStruct *) apply Hscalar. intros ev Hev. destruct ev; try exact I. apply (Hseqn ts STupleStruct); auto.
  - (* YMap *) unfold as_dict. rewrite Hvt. cbn [bind]. destruct (vtype_eqb vt TyDict) eqn:E; [|exact I]. destruct vt; try discriminate.
    destruct (at_coll v d _ Ha Hvt ltac:(tauto)) as (wide & n & fp & C & El). rewrite (co_iter e v d wide n fp C). cbn [bind].
    apply okd_bindr; [|intros; exact I]. eapply map_all_ok; [exact El| | |eapply loop_start; exact C|eapply loop_fuel; exact C]; intros; eauto.
  - (* YStruct *) unfold as_dict. rewrite Hvt. cbn [bind]. destruct (vtype_eqb vt TyDict) eqn:E; [|exact I]. destruct vt; try discriminate.
    destruct (at_coll v d _ Ha Hvt ltac:(tauto)) as (wide & n & fp & C & El). rewrite (co_iter e v d wide n fp C). cbn [bind].
    apply okd_bindr; [|intros; exact I].
    eapply struct_ok with (P := ty_ok G K al); [exact El| | |exact Hfs|eapply loop_start; exact C|eapply loop_fuel; exact C]; intros; eauto.
  - (* YEnum *) unfold as_array at 1. rewrite Hvt. cbn [bind]. destruct (vtype_eqb vt TyArray) eqn:E; [|exact I]. destruct vt; try discriminate.
    destruct (at_coll v d _ Ha Hvt ltac:(tauto)) as (wide & n & fp & C & El). pose proof (arr_enough v d wide n fp Ha Hvt C) as Hn.
    assert (Hdbg : ok (debug_fmt e v)) by (eapply debug_ok; exact Ha).
    assert (Hn1 : 1 <= n) by (destruct al; cbn in *; lia).
    rewrite (co_wide e v d wide n fp C). cbn [bind]. rewrite (co_get e Hwf v d wide n fp C 0) by lia.
    destruct (El 0) as (x0 & d0 & Hx0 & Ha0 & Hm0); [lia|]. rewrite Hx0. cbn [bind]. apply okd_bind; [exact Hdbg|]. intros _ _.
    rewrite (de_new_gd wide x0 (at_gd _ _ Ha0)). cbn [bind]. apply okd_bindr; [apply (de_any_ok false x0 d0 Ha0)|]. intros ev _.
    apply okd_bindr; [exact I|]. intros name _. destruct name as [s|]; [|exact I].
    destruct (lookup s vs) as [var|] eqn:Elk; [|exact I]. apply lookup_in in Elk as (s' & Hin). eapply Forall_forall in Hvs; [|exact Hin]. cbn [snd] in Hvs.
    assert (Hinner : 2 <= level al -> forall kk : val -> dser sval, (forall x1 d1, at_ x1 d1 -> meas x1 d1 < meas v d -> ok (kk x1)) ->
      ok (x1 <- arr_get e v 1 ;; _ <- debug_fmt e v ;; match x1 with None => Ret (Err DeInvalidEnumLayout) | Some x1 => kk x1 end)).
    { intros Hl kk Hkk. assert (Hn2 : 2 <= n) by (destruct al; cbn in *; lia). rewrite (co_get e Hwf v d wide n fp C 1) by lia.
      destruct (El 1) as (x1 & d1 & Hx1 & Ha1 & Hm1); [lia|]. rewrite Hx1. cbn [bind]. apply okd_bind; [exact Hdbg|]. intros _ _. eauto. }
    assert (Herr : ok (_ <- debug_fmt e v ;; Ret (@Err sval de_error DeInvalidEnumLayout))) by (apply okd_bind; [exact Hdbg|intros; exact I]).
    destruct Hvs as [|t Hl Ht|ts Hl Hts|fs Hl Hfs].
    + rewrite (co_len e v d wide n fp C). cbn [bind]. destruct (n =? 1); [exact I|exact Herr].
    + apply (Hinner Hl). intros x1 d1 Ha1 Hm1. rewrite (de_new_gd wide x1 (at_gd _ _ Ha1)). cbn [bind]. apply okd_bindr; [|intros; exact I]. eauto.
    + apply (Hinner Hl). intros x1 d1 Ha1 Hm1. unfold as_array. destruct (gd_type e x1 (at_gd _ _ Ha1)) as (t1 & Ht1 & _). rewrite Ht1. cbn [bind].
      destruct (vtype_eqb t1 TyArray) eqn:E1; [|exact Herr]. destruct t1; try discriminate.
      destruct (at_coll x1 d1 _ Ha1 Ht1 ltac:(tauto)) as (wide1 & n1 & fp1 & C1 & El1). rewrite (co_len e _ _ _ _ _ C1). cbn [bind].
      destruct (n1 =? lenZ ts); [|exact Herr]. rewrite (de_new_gd wide x1 (at_gd _ _ Ha1)). cbn [bind]. rewrite (co_iter e _ _ _ _ _ C1). cbn [bind].
      apply okd_bindr; [|intros; exact I]. eapply seq_n_ok with (P := ty_ok G K al); [exact El1| |exact Hts|eapply loop_start; exact C1].
      intros x dx t Hx Hm Ht. eapply Hsub; [exact Hx|lia|exact Ht].
    + apply (Hinner ltac:(lia)). intros x1 d1 Ha1 Hm1. unfold as_dict. destruct (gd_type e x1 (at_gd _ _ Ha1)) as (t1 & Ht1 & _). rewrite Ht1. cbn [bind].
      destruct (vtype_eqb t1 TyDict) eqn:E1; [|exact Herr]. destruct t1; try discriminate.
      assert (Hpf : p = false) by (destruct p; [specialize (Hps eq_refl); lia|reflexivity]).
      destruct (at_coll x1 d1 _ Ha1 Ht1 ltac:(tauto)) as (wide1 & n1 & fp1 & C1 & El1).
      unfold dict_len. rewrite (co_len e _ _ _ _ _ C1). cbn [bind]. apply okd_bind.
      { destruct (_ =? lenZ fs); [|exact I]. eapply all_fields_ok; eassumption. }
      intros okk _. destruct okk; [|exact Herr]. rewrite (de_new_gd wide x1 (at_gd _ _ Ha1)). cbn [bind]. rewrite (co_iter e _ _ _ _ _ C1). cbn [bind].
      apply okd_bindr; [|intros; exact I].
      eapply struct_ok with (P := ty_ok G K al); [exact El1| | |exact Hfs|eapply loop_start; exact C1|eapply loop_fuel; exact C1].
      * intros x dx t Hx Hm Ht. eapply Hsub; [exact Hx|lia|exact Ht].
      * intros x dx Hx Hm. eapply Hign; [exact Hx|lia].
  - (* YNamed *) destruct k as [|k]; [destruct Ho|]. cbn [opens] in Ho.
    apply IH with (d := d) (k := k); [exact Ha|apply HG|exact Ho|lia|]. intros Hb. specialize (Hf Hb). lia.
Qed.
End U.

(* ---------- whole documents ---------- *)

Section Doc.
Variable e : env.
Hypothesis Hwf : wf_env e.
Variables (G : nat -> sty) (K : nat) (al : variants_allowed) (ty : sty).
Hypothesis Hty : types_ok G K al ty.

Lemma root_at r : from_bytes e = Ret (Ok r) -> at_ e r r (lenZ (e_data e)).
Proof using Hwf. intros Hr. split; [apply from_bytes_good; assumption|]. split; [lia|constructor]. Qed.
Lemma de_root b p fuel r : from_bytes e = Ret (Ok r) -> arrays_have e r (enum_len al) ->
  (p = true -> whole_floats e r /\ level al <= 2) ->
  (b = true -> ((K + 1) * fuel_of e <= fuel)%nat) -> okd b p (de_from_bytes G fuel e ty).
Proof.
  intros Hr Har Hp Hf. pose proof (root_at r Hr) as Ha. destruct Hty as (HK & Ht & HG).
  unfold de_from_bytes. rewrite Hr. cbn [bind]. rewrite (de_new_gd e false r (at_gd e r r _ Ha)). cbn [bind].
  apply (de_ok e Hwf r b p (fun H => proj1 (Hp H)) G K al HG HK Har (fun H => proj2 (Hp H)) fuel false r _ ty K Ha Ht);
    [apply (ok_opens true false G K al HG HK); exact Ht|lia|].
  intros Hb. specialize (Hf Hb). pose proof (meas_fuel e r true true r _ Ha). nia.
Qed.
Lemma de_bytes_bounds : checked e -> (forall r, from_bytes e = Ret (Ok r) -> arrays_have e r (enum_len al)) ->
  (forall fuel, de_from_bytes G fuel e ty <> UB) /\
  (forall fuel, ((K + 1) * fuel_of e <= fuel)%nat -> safe (de_from_bytes G fuel e ty)).
Proof.
  intros Hc Har. pose proof (from_bytes_checked e Hwf Hc) as [Hs1 Hs2].
  assert (H : forall b fuel, (b = true -> ((K + 1) * fuel_of e <= fuel)%nat) -> okd b false (de_from_bytes G fuel e ty)).
  { intros b fuel Hb. destruct (from_bytes e) as [[r|x]| | |] eqn:E; try congruence.
    - apply de_root with (r := r); [exact E|apply Har; reflexivity|discriminate|exact Hb].
    - unfold de_from_bytes. rewrite E. exact I.
    - unfold de_from_bytes. rewrite E. reflexivity. }
  split; intros fuel.
  - intros Hu. specialize (H false fuel ltac:(discriminate)). rewrite Hu in H. exact H.
  - intros Hf. specialize (H true fuel (fun _ => Hf)). split; intros Hu; rewrite Hu in H; [exact H|discriminate].
Qed.
Lemma de_bytes_returns r fuel : from_bytes e = Ret (Ok r) -> arrays_have e r (enum_len al) -> whole_floats e r -> level al <= 2 ->
  ((K + 1) * fuel_of e <= fuel)%nat -> returns (de_from_bytes G fuel e ty).
Proof.
  intros Hr Har Hw Hl Hf. pose proof (de_root true true fuel r Hr Har ltac:(tauto) (fun _ => Hf)) as H.
  destruct (de_from_bytes G fuel e ty); [eexists; reflexivity| | |]; cbn in H; congruence || contradiction.
Qed.
End Doc.
Lemma read_returns e r : wf_env e -> from_bytes e = Ret (Ok r) -> whole_floats e r -> forall v, within e r v -> gd e v ->
  returns (read_doc e v).
Proof.
  intros Hwf Hr Hw v Hv (d & Hg & Hd). unfold read_doc.
  pose proof (read_ok e Hwf r true true (fun _ => Hw) (fuel_of e) v d ltac:(split; [exact Hg|split; [exact Hd|exact Hv]])) as H.
  destruct (read_tree (fuel_of e) e v); [eexists; reflexivity| | |]; cbn in H; try (specialize (H (fun _ => meas_fuel e r true true v d ltac:(split; [exact Hg|split; [exact Hd|exact Hv]]))));
    congruence || contradiction.
Qed.
Lemma within_gd e r : wf_env e -> from_bytes e = Ret (Ok r) -> forall v, within e r v -> gd e v.
Proof.
  intros Hwf Hr v Hv. induction Hv as [|a x _ IH Hm]; [apply root_gd; assumption|].
  destruct IH as (d & Hg & Hd). destruct Hm as [ty it k xs it' Hty Hc Hit Hrun Hin].
  destruct (gd_coll e Hwf a d ty Hg Hd Hty Hc) as (wide & n & fp & C). rewrite (co_iter e a d wide n fp C) in Hit. apply ret_inj in Hit. subst it.
  assert (Hgen : forall k i xs it', 0 <= i <= n -> iter_run k e (it_at a wide fp n i) = Ret (xs, it') -> In x xs -> gd e x).
  { clear k xs it' Hrun Hin. induction k as [|k IHk]; intros i xs it' Hi Hrun Hin; cbn [iter_run] in Hrun.
    - injection Hrun as <- _. destruct Hin.
    - destruct (Z.eq_dec i n) as [->|Hne].
      + rewrite iter_next_end in Hrun by lia. cbn [bind fst] in Hrun. injection Hrun as <- _. destruct Hin.
      + rewrite iter_next_at in Hrun by lia. destruct (co_elem e a d wide n fp C i) as (y & dy & Hy & _); [lia|].
        rewrite Hy in Hrun. cbn [bind fst snd] in Hrun. binv Hrun. apply ret_inj in Hrun. injection Hrun as <- _. destruct Hin as [->|Hin].
        * eapply co_elem_gd; [exact C| |exact Hy]. lia.
        * destruct x0 as [q1 q2]. eapply IHk with (i := i + 1); [lia|exact Hx|exact Hin]. }
  eapply Hgen; [|exact Hrun|exact Hin]. pose proof (co_n e a d wide n fp C). lia.
Qed.
Lemma debug_returns e r : wf_env e -> from_bytes e = Ret (Ok r) -> whole_floats e r -> forall v, within e r v -> debug_fmt e v = Ret tt.
Proof.
  intros Hwf Hr Hw v Hv. destruct (read_returns e r Hwf Hr Hw v Hv (within_gd e r Hwf Hr v Hv)) as (t & Ht).
  unfold debug_fmt. rewrite Ht. reflexivity.
Qed.
Lemma debug_safe e r : wf_env e -> from_bytes e = Ret (Ok r) -> forall v, within e r v -> safe (debug_fmt e v).
Proof.
  intros Hwf Hr v Hv. destruct (within_gd e r Hwf Hr v Hv) as (d & Hg & Hd). unfold debug_fmt, read_doc.
  apply safe_bind; [|intros; apply safe_ret]. apply read_safe with (d := d); [assumption|assumption|assumption|].
  apply (meas_fuel e r true true v d). split; [exact Hg|split; [exact Hd|exact Hv]].
Qed.

(* ---------- checking a document ---------- *)

(** All values of a document satisfy [P]; for examples. *)
Fixpoint all_within (fuel : nat) (e : env) (P : val -> bool) (v : val) : bool :=
  match fuel with
  | O => false
  | S f =>
      P v && match value_type e v with
             | Ret TyArray | Ret TyDict =>
                 match it <- arr_iter e v ;; iter_collect (S (length (e_data e))) e it with
                 | Ret xs => forallb (all_within f e P) xs
                 | _ => false
                 end
             | _ => true
             end
  end.
Lemma run_collect e : forall f k it ys xs it', iter_collect f e it = Ret ys -> iter_run k e it = Ret (xs, it') -> incl xs ys.
Proof.
  induction f as [|f IH]; intros k it ys xs it' Hc Hr; cbn [iter_collect] in Hc; [discriminate|].
  destruct k as [|k]; cbn [iter_run] in Hr; [injection Hr as <- _; intros x []|].
  binv Hc. rewrite Hx in Hr. cbn [bind] in Hr. destruct x as [[x|] it2]; cbn [fst snd] in Hr.
  - binv Hc. apply ret_inj in Hc. subst ys. binv Hr. destruct x1 as [q1 q2]. apply ret_inj in Hr. injection Hr as <- _.
    intros y [->|Hy]; [left; reflexivity|]. right. eapply IH; eassumption.
  - injection Hr as <- _. intros x [].
Qed.
Lemma all_within_ok e P : forall r f, all_within f e P r = true -> forall v, within e r v -> P v = true /\ exists f', all_within f' e P v = true.
Proof.
  intros r f H v Hv. induction Hv as [|a x _ (_ & f' & IH) Hm].
  - destruct f; [discriminate|]. pose proof H as H'. cbn [all_within] in H'. apply andb_prop in H' as [H' _]. split; [exact H'|]. exists (S f). exact H.
  - destruct f' as [|f']; [discriminate|]. cbn [all_within] in IH. apply andb_prop in IH as [_ IH].
    destruct Hm as [ty it k xs it' Hty Hc Hit Hrun Hin]. rewrite Hty in IH.
    assert (Hx : all_within f' e P x = true).
    { destruct Hc as [-> | ->]; rewrite Hit in IH; cbn [bind] in IH; (destruct (iter_collect _ e it) as [ys| | |] eqn:Ec; try discriminate);
        rewrite forallb_forall in IH; apply IH; eapply run_collect; eassumption. }
    split; [|exists f'; exact Hx]. destruct f'; [discriminate|]. cbn [all_within] in Hx. apply andb_prop in Hx as [Hx _]. exact Hx.
Qed.
Definition wholeb (e : env) (v : val) : bool := match value_type e v with Ret ty => float_len ty <=? v_len v | _ => true end.
Definition longb (e : env) (m : Z) (v : val) : bool :=
  match value_type e v with Ret TyArray => match arr_len e v with Ret n => m <=? n | _ => true end | _ => true end.
Lemma whole_floatsb e r : all_within (fuel_of e) e (wholeb e) r = true -> whole_floats e r.
Proof.
  intros H x ty Hx Hty. destruct (all_within_ok e _ r _ H x Hx) as [Hp _]. unfold wholeb in Hp. rewrite Hty in Hp. lia.
Qed.
Lemma arrays_haveb e r m : all_within (fuel_of e) e (longb e m) r = true -> arrays_have e r m.
Proof.
  intros H x n Hx Hty Hn. destruct (all_within_ok e _ r _ H x Hx) as [Hp _]. unfold longb in Hp. rewrite Hty, Hn in Hp. lia.
Qed.
Lemma arrays_have_0 e r : wf_env e -> from_bytes e = Ret (Ok r) -> arrays_have e r 0.
Proof.
  intros Hwf Hr x n Hx _ Hn. destruct (within_gd e r Hwf Hr x Hx) as (d & Hg & _). apply good_in in Hg as (Hin & _).
  pose proof (arr_len_range e Hwf x n Hin Hn). lia.
Qed.
