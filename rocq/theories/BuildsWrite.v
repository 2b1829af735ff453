(** The same for the writing half, mutable collections, serde and key tables. *)
From Verif Require Import Prelude Varint SharedKeys Decode Read Encodable Encoder Agree SharedKeysState Safety Alloced Scopes Ser De Mutable FromScope Macro CopySpec BuildSpec Builds.

(* ---------- encoder ---------- *)

Lemma ag_big d z n : agrees (write_u64_big d z n) (write_u64_big false z n).
Proof. unfold write_u64_big. rewrite andb_false_r. ag. Qed.
#[export] Hint Resolve ag_big : builds.
Lemma ag_w16 d z n w : agrees (write_u16 d z n w) (write_u16 false z n w).
Proof. unfold write_u16. ag. Qed.
#[export] Hint Resolve ag_w16 : builds.
Lemma ag_w64 d z n w : agrees (write_u64 d z n w) (write_u64 false z n w).
Proof. unfold write_u64. ag. Qed.
#[export] Hint Resolve ag_w64 : builds.
Lemma ag_write_to d v n w : agrees (write_to d v n w) (write_to false v n w).
Proof. induction v; cbn [write_to]; ag. Qed.
Lemma ag_actual d s n : agrees (actual_pointer_offset d s n) (actual_pointer_offset false s n).
Proof. unfold actual_pointer_offset. ag. Qed.
#[export] Hint Resolve ag_write_to ag_actual : builds.
Lemma ag_array_wide d n vs : agrees (array_should_be_wide d n vs) (array_should_be_wide false n vs).
Proof. induction vs; cbn [array_should_be_wide]; ag. Qed.
Lemma ag_dict_wide d n vs : forall len, agrees (dict_should_be_wide d n len vs) (dict_should_be_wide false n len vs).
Proof. induction vs; intros len; cbn [dict_should_be_wide]; ag. Qed.
Lemma ag_fix d s n : agrees (fix_pointer d s n) (fix_pointer false s n).
Proof. unfold fix_pointer. ag. Qed.
#[export] Hint Resolve ag_array_wide ag_dict_wide ag_fix : builds.
Lemma ag_fix_array d w vs : forall len, agrees (fix_array_pointers d len w vs) (fix_array_pointers false len w vs).
Proof. induction vs; intros len; cbn [fix_array_pointers]; ag. Qed.
Lemma ag_fix_dict d w vs : forall len, agrees (fix_dict_pointers d len w vs) (fix_dict_pointers false len w vs).
Proof. induction vs; intros len; cbn [fix_dict_pointers]; ag. Qed.
#[export] Hint Resolve ag_fix_array ag_fix_dict : builds.

Lemma ag_eseq m m' k k' : agrees m m' -> (forall x, agrees (k x) (k' x)) -> agrees (eseq m k) (eseq m' k').
Proof. intros Hm Hk. unfold eseq. apply ag_bind; [exact Hm|]. intros [x [u|u]]; cbn [fst snd]; [apply Hk|apply ag_refl]. Qed.
Lemma ag_for {A} (f f' : enc -> A -> eres) : (forall e x, agrees (f e x) (f' e x)) -> forall l e, agrees (for_each f e l) (for_each f' e l).
Proof. intros Hf. induction l as [|x l IH]; intros e; cbn [for_each]; [apply ag_refl|]. apply ag_eseq; auto. Qed.
Ltac age := repeat (first [progress ag | apply ag_eseq; [|intros ?] | apply ag_for; intros ? ?]).

Section Encode.
Variable c : cfg.
Notation r := (release_cfg c).
Lemma ag_write e v a b : agrees (enc_write c e v a b) (enc_write r e v a b).
Proof. unfold enc_write. change (c_dbg r) with false. ag. Qed.
Hint Resolve ag_write : builds.
Lemma ag_key_ptr e k : agrees (write_key_pointer c e k) (write_key_pointer r e k).
Proof. unfold write_key_pointer. ag. Qed.
Hint Resolve ag_key_ptr : builds.
Lemma ag_key_long e k : agrees (write_key_long c e k) (write_key_long r e k).
Proof. unfold write_key_long. change (c_ua r) with (c_ua c). ag. Qed.
Hint Resolve ag_key_long : builds.
Lemma ag_key e k : agrees (write_key c e k) (write_key r e k).
Proof. unfold write_key. ag. Qed.
Lemma ag_value e v : agrees (write_value c e v) (write_value r e v).
Proof. unfold write_value. ag. Qed.
Lemma ag_slots w vs : forall e, agrees (write_slots c e w vs) (write_slots r e w vs).
Proof. induction vs; intros e; cbn [write_slots]; ag. Qed.
Lemma ag_entries w vs : forall e, agrees (write_entries c e w vs) (write_entries r e w vs).
Proof. induction vs; intros e; cbn [write_entries]; ag. Qed.
Lemma ag_finished e off : agrees (finished_collection c e off) (finished_collection r e off).
Proof. unfold finished_collection. change (c_dbg r) with false. ag. Qed.
Hint Resolve ag_key ag_value ag_slots ag_entries ag_finished : builds.
Lemma ag_end_array e : agrees (end_array c e) (end_array r e).
Proof. unfold end_array. change (c_dbg r) with false. ag. Qed.
Lemma ag_end_dict e : agrees (end_dict c e) (end_dict r e).
Proof. unfold end_dict. change (c_dbg r) with false. change (c_sort r) with (c_sort c). age. Qed.
Hint Resolve ag_end_array ag_end_dict : builds.
Lemma ag_end f : forall e, agrees (enc_end f c e) (enc_end f r e).
Proof. induction f as [|f IH]; intros e; cbn [enc_end]; ag. Qed.
Hint Resolve ag_end : builds.
Lemma ag_finish e : agrees (finish c e) (finish r e).
Proof. unfold finish. ag. Qed.
Lemma ag_step e o : agrees (enc_step c e o) (enc_step r e o).
Proof. destruct o; cbn [enc_step]; ag. Qed.
Hint Resolve ag_finish ag_step : builds.
Lemma ag_run ops : forall e, agrees (enc_run c e ops) (enc_run r e ops).
Proof. induction ops; intros e; cbn [enc_run]; ag. Qed.
Lemma ag_write_fleece src f : forall e v, agrees (write_fleece f c e src v) (write_fleece f r e (release src) v).
Proof.
  induction f as [|f IH]; intros e v; cbn [write_fleece]; [apply ag_refl|]. change (fuel_of (release src)) with (fuel_of src). age.
Qed.
Hint Resolve ag_run ag_write_fleece : builds.

Lemma ag_finish_value base e m v : finish_value c base e = Ret (m, v) -> finish_value r base e = Ret (release m, v).
Proof.
  unfold finish_value. intros H. destruct (finish c e) as [bs| | |] eqn:Ef; try discriminate. rewrite (ag_finish e bs Ef). cbn [bind] in *.
  change (c_dbg r) with false. cbn iota. destruct (c_dbg c) eqn:Ed.
  - destruct (from_bytes (mk_env true base bs None)) as [[x|x]| | |] eqn:Eb; try discriminate. cbn [bind] in H.
    assert (Hm : m = mk_env true base bs None) by congruence. assert (Hv : v = x) by congruence. subst m v.
    apply ag_from_bytes in Eb. apply checked_unchecked in Eb. change (release (mk_env true base bs None)) with (mk_env false base bs None) in *.
    rewrite Eb. reflexivity.
  - destruct (from_bytes_unchecked (mk_env false base bs None)) as [x| | |]; try discriminate. cbn [bind] in *.
    assert (Hm : m = mk_env false base bs None) by congruence. assert (Hv : v = x) by congruence. subst m v. reflexivity.
Qed.

Lemma ag_call e o : agrees (unchecked_call c e o) (unchecked_call r e o).
Proof. unfold unchecked_call. ag. Qed.
Hint Resolve ag_call : builds.
Lemma ag_lit : forall x e, agrees (lit_write c e x) (lit_write r e x).
Proof.
  fix IH 1. intros [v|l|l] e; cbn [lit_write].
  - ag.
  - apply ag_bind; [ag|]. intros e1. apply ag_bind; [|intros e2; ag]. revert e1.
    induction l as [|[k x] l IHl]; intros e1; [apply ag_refl|]. apply ag_bind; [ag|]. intros e2. apply ag_bind; [apply IH|]. intros e3. apply IHl.
  - apply ag_bind; [ag|]. intros e1. apply ag_bind; [|intros e2; ag]. revert e1.
    induction l as [|x l IHl]; intros e1; [apply ag_refl|]. apply ag_bind; [apply IH|]. intros e3. apply IHl.
Qed.
Lemma to_dict_release a : alloced_to_dict (release_alloced a) = (r <- alloced_to_dict a ;; Ret match r with Some x => Some (release_alloced x) | None => None end).
Proof. unfold alloced_to_dict. cbn [release_alloced al_env al_val]. change (value_type (release (al_env a)) (al_val a)) with (value_type (al_env a) (al_val a)).
  destruct (value_type (al_env a) (al_val a)) as [t| | |]; cbn [bind]; [|reflexivity..]. destruct (vtype_eqb t TyDict); reflexivity. Qed.
Lemma to_array_release a : alloced_to_array (release_alloced a) = (r <- alloced_to_array a ;; Ret match r with Some x => Some (release_alloced x) | None => None end).
Proof. unfold alloced_to_array. cbn [release_alloced al_env al_val]. change (value_type (release (al_env a)) (al_val a)) with (value_type (al_env a) (al_val a)).
  destruct (value_type (al_env a) (al_val a)) as [t| | |]; cbn [bind]; [|reflexivity..]. destruct (vtype_eqb t TyArray); reflexivity. Qed.
Lemma ag_macro_dict base l a : fleece_dict c base l = Ret a -> fleece_dict r base l = Ret (release_alloced a).
Proof.
  unfold fleece_dict. intros H. destruct (lit_write c enc_new (LitDict l)) as [e| | |] eqn:E1; try discriminate. cbn [bind] in H. rewrite (ag_lit _ _ _ E1). cbn [bind].
  destruct (finish_value c base e) as [[m v]| | |] eqn:E2; try discriminate. cbn [bind] in H. rewrite (ag_finish_value _ _ _ _ E2). cbn [bind fst snd] in *.
  change (mk_alloced (release m) v) with (release_alloced (mk_alloced m v)). rewrite to_dict_release.
  destruct (alloced_to_dict (mk_alloced m v)) as [[x|]| | |]; cbn [bind] in *; try discriminate. congruence.
Qed.
Lemma ag_macro_array base l a : fleece_array c base l = Ret a -> fleece_array r base l = Ret (release_alloced a).
Proof.
  unfold fleece_array. intros H. destruct (lit_write c enc_new (LitArr l)) as [e| | |] eqn:E1; try discriminate. cbn [bind] in H. rewrite (ag_lit _ _ _ E1). cbn [bind].
  destruct (finish_value c base e) as [[m v]| | |] eqn:E2; try discriminate. cbn [bind] in H. rewrite (ag_finish_value _ _ _ _ E2). cbn [bind fst snd] in *.
  change (mk_alloced (release m) v) with (release_alloced (mk_alloced m v)). rewrite to_array_release.
  destruct (alloced_to_array (mk_alloced m v)) as [[x|]| | |]; cbn [bind] in *; try discriminate. congruence.
Qed.

(* ---------- serializing ---------- *)

Lemma ag_lift m m' : agrees m m' -> agrees (lift m) (lift m').
Proof. intros H. unfold lift. apply ag_bind; [exact H|]. intros x. apply ag_refl. Qed.
Lemma ag_sseq m m' k k' : agrees m m' -> (forall x, agrees (k x) (k' x)) -> agrees (sseq m k) (sseq m' k').
Proof. intros Hm Hk. unfold sseq. apply ag_bind; [exact Hm|]. intros [x [u|u]]; cbn [fst snd]; [apply Hk|apply ag_refl]. Qed.
Lemma ag_ser_key k : forall e, agrees (ser_key c e k) (ser_key r e k).
Proof. induction k; intros e; cbn [ser_key]; first [apply ag_refl | apply ag_lift; apply ag_key | auto]. Qed.
Ltac ags := repeat (first [apply ag_refl | progress (auto 2 with builds nocore) | apply ag_lift | apply ag_sseq; [|intros ?]]).

Lemma ag_sfor {A} (f f' : enc -> A -> sres) l : Forall (fun x => forall e, agrees (f e x) (f' e x)) l -> forall e, agrees (sfor f e l) (sfor f' e l).
Proof. induction 1 as [|x l Hx Hl IH]; intros e; [apply ag_refl|]. apply ag_sseq; [apply Hx|]. exact IH. Qed.
Lemma ag_ser : forall v e, agrees (ser c e v) (ser r e v).
Proof.
  fix IH 1.
  intros v e. destruct v; cbn [ser]; try solve [ags]; try apply IH.
  - destruct t; ags.
  - ags. apply ag_sfor. induction l; constructor; auto.
  - ags. apply ag_sfor. induction l; constructor; auto.
  - ags. apply ag_sfor. induction l; constructor; auto.
  - ags. apply ag_sfor. induction l; constructor; auto.
  - ags. apply ag_sfor. induction l as [|[k v] l IHl]; constructor; auto. intros e1. cbn [fst snd]. apply ag_sseq; [apply ag_ser_key|]. intros e2. apply IH.
  - ags. apply ag_sfor. induction l as [|[k v] l IHl]; constructor; auto. intros e1. cbn [fst snd]. ags.
  - ags. apply ag_sfor. induction l as [|[k v] l IHl]; constructor; auto. intros e1. cbn [fst snd]. ags.
Qed.
Hint Resolve ag_ser : builds.
Lemma ag_to_bytes v : agrees (to_bytes c v) (to_bytes r v).
Proof. unfold to_bytes. ag. Qed.

(* ---------- saving a key table ---------- *)
Lemma ag_write_keys t : forall e, agrees (write_keys c e t) (write_keys r e t).
Proof. induction t; intros e; cbn [write_keys]; ag. Qed.
Hint Resolve ag_write_keys : builds.
Lemma ag_write_state e t : agrees (write_state c e t) (write_state r e t).
Proof. unfold write_state. ag. Qed.
Hint Resolve ag_write_state : builds.
Lemma ag_state_bytes t : agrees (get_state_bytes c t) (get_state_bytes r t).
Proof. unfold get_state_bytes. ag. Qed.
End Encode.

(* ---------- mutable collections ---------- *)

Lemma ag_slot_new d v : agrees (slot_new d v) (slot_new false v).
Proof. unfold slot_new. ag. Qed.
#[export] Hint Resolve ag_slot_new : builds.
Lemma ag_slot_from src f d : forall v w, agrees (slot_from_fleece f d src v w) (slot_from_fleece f false (release src) v w).
Proof.
  induction f as [|f IH]; intros v w; cbn [slot_from_fleece]; [apply ag_refl|].
  change (fuel_of (release src)) with (fuel_of src). change (e_sk (release src)) with (e_sk src). ag.
Qed.
#[export] Hint Resolve ag_slot_from : builds.
Lemma ag_mop d o s : agrees (mop_apply d o s) (mop_apply false (release_mop o) s).
Proof.
  destruct s; cbn [mop_apply]; try apply ag_refl; destruct o; cbn [release_mop]; try apply ag_refl;
    unfold ma_push, ma_push_fleece, ma_set, ma_set_fleece, md_insert; try change (fuel_of (release src)) with (fuel_of src); ag.
Qed.
#[export] Hint Resolve ag_mop : builds.
Lemma ag_mop_at d o p : forall s, agrees (mop_at d p o s) (mop_at false p (release_mop o) s).
Proof. induction p as [|[i|k] p IH]; intros s; cbn [mop_at]; [ag|..]; destruct s; ag. Qed.
#[export] Hint Resolve ag_mop_at : builds.
Lemma ag_mrun d ops : forall s, agrees (mrun d s ops) (mrun false s (release_ops ops)).
Proof.
  induction ops as [|[p o] ops IH]; intros s; unfold release_ops; cbn [mrun map fst snd]; [apply ag_refl|]. fold (release_ops ops). ag.
Qed.
Lemma ag_dict_copy d src v sk : agrees (dict_copy d src v sk) (dict_copy false (release src) v sk).
Proof. unfold dict_copy. change (fuel_of (release src)) with (fuel_of src). ag. Qed.
Lemma ag_array_copy d src v : agrees (array_copy d src v) (array_copy false (release src) v).
Proof. unfold array_copy. change (fuel_of (release src)) with (fuel_of src). ag. Qed.
#[export] Hint Resolve ag_dict_copy ag_array_copy : builds.

(* ---------- restoring a key table ---------- *)

Lemma ag_state_loop ua m f : forall it t, agrees (state_loop f ua m it t) (state_loop f ua (release m) it t).
Proof. induction f as [|f IH]; intros it t; cbn [state_loop]; [apply ag_refl|]. change (e_dbg (release m)) with false. cbn [andb]. ag. Qed.
#[export] Hint Resolve ag_state_loop : builds.
Lemma ag_as_array e v : agrees (as_array e v) (as_array (release e) v).
Proof. apply ag_refl. Qed.
Lemma ag_as_dict e v : agrees (as_dict e v) (as_dict (release e) v).
Proof. apply ag_refl. Qed.
#[export] Hint Resolve ag_as_array ag_as_dict : builds.
Lemma ag_state_value ua m v : agrees (from_state_value ua m v) (from_state_value ua (release m) v).
Proof. unfold from_state_value. change (e_data (release m)) with (e_data m). ag. Qed.
#[export] Hint Resolve ag_state_value : builds.
Lemma ag_state ua m : agrees (from_state_bytes ua m) (from_state_bytes ua (release m)).
Proof. unfold from_state_bytes. ag. Qed.

(* ---------- deserializing ---------- *)

Section De.
Variable e : env.
Notation r := (release e).
Lemma ag_de_new w v : agrees (de_new e w v) (de_new r w v).
Proof. unfold de_new. change (fuel_of r) with (fuel_of e). ag. Qed.
Lemma ag_de_any k v : agrees (de_any e k v) (de_any r k v).
Proof. unfold de_any. change (e_sk r) with (e_sk e). ag. Qed.
Hint Resolve ag_de_new ag_de_any : builds.
Lemma ag_next_value it : agrees (next_value e it) (next_value r it).
Proof. unfold next_value. ag. Qed.
Hint Resolve ag_next_value : builds.
Lemma ag_seq_all g g' : (forall v, agrees (g v) (g' v)) -> forall k it, agrees (seq_all g e k it) (seq_all g' r k it).
Proof. intros Hg. induction k as [|k IH]; intros it; cbn [seq_all]; [apply ag_refl|]. ag. Qed.
Lemma ag_seq_n g g' : (forall v t, agrees (g v t) (g' v t)) -> forall ts it, agrees (seq_n g e ts it) (seq_n g' r ts it).
Proof. intros Hg. induction ts as [|t ts IH]; intros it; cbn [seq_n]; [apply ag_refl|]. ag. Qed.
Lemma ag_map_all gk gk' gv gv' : (forall v, agrees (gk v) (gk' v)) -> (forall v, agrees (gv v) (gv' v)) ->
  forall k it, agrees (map_all gk gv e k it) (map_all gk' gv' r k it).
Proof. intros Hk Hv. induction k as [|k IH]; intros it; cbn [map_all]; [apply ag_refl|]. ag. Qed.
Hint Resolve ag_seq_all ag_seq_n ag_map_all : builds.
Lemma ag_ignore f : forall k v, agrees (ignore_any f e k v) (ignore_any f r k v).
Proof. induction f as [|f IH]; intros k v; cbn [ignore_any]; [apply ag_refl|]. change (e_data r) with (e_data e). ag. Qed.
Hint Resolve ag_ignore : builds.
Lemma ag_struct G g g' i i' fs : (forall v t, agrees (g v t) (g' v t)) -> (forall v, agrees (i v) (i' v)) ->
  forall k it acc, agrees (struct_loop G g i e fs k it acc) (struct_loop G g' i' r fs k it acc).
Proof. intros Hg Hi. induction k as [|k IH]; intros it acc; cbn [struct_loop]; [apply ag_refl|]. ag. Qed.
Hint Resolve ag_struct : builds.
Lemma ag_debug v : agrees (debug_fmt e v) (debug_fmt r v).
Proof. unfold debug_fmt. ag. Qed.
Hint Resolve ag_debug : builds.
Lemma ag_de G f : forall k v t, agrees (de G f e k v t) (de G f r k v t).
Proof.
  induction f as [|f IH]; intros k v t; cbn [de]; [apply ag_refl|]. change (e_data r) with (e_data e). change (e_sk r) with (e_sk e).
  assert (Hall : forall b l, agrees
     ((fix all (l : list (list Z * sty)) : outcome bool :=
        match l with
        | [] => Ret true
        | f0 :: l' =>
            c <- match e_sk e with Some tb => dict_contains_sk e b (fst f0) tb | None => dict_contains e b (fst f0) end ;;
            if c then all l' else Ret false
        end) l)
     ((fix all (l : list (list Z * sty)) : outcome bool :=
        match l with
        | [] => Ret true
        | f0 :: l' =>
            c <- match e_sk e with Some tb => dict_contains_sk r b (fst f0) tb | None => dict_contains r b (fst f0) end ;;
            if c then all l' else Ret false
        end) l)).
  { intros b. induction l as [|f0 l IHl]; [apply ag_refl|]. ag. }
  destruct t; ag.
Qed.
Hint Resolve ag_de : builds.
Lemma ag_de_bytes G f t : agrees (de_from_bytes G f e t) (de_from_bytes G f r t).
Proof. unfold de_from_bytes. ag. Qed.
End De.
