(** Lemmas about documents taken out of a scope or finished into a value. *)
From Verif Require Import Prelude Lib Utf8 Float SharedKeys Decode Read Encodable Encoder BuilderSpec Holds Stored StoredRead EncoderProofs EncoderInv EncoderClean LayoutSpec EncoderLayout EncoderProtocol
  Access CopySpec PathSpec ValueSpec Mutable MutableSpec MutableSlot MutableProofs MutableValue Alloced Scopes ScopeSpec ScopeProofs ScopeDoc FromScope.
From Coq Require Import ZifyBool ZifyNat ZifyN.
#[local] Existing Instance any_key.

Lemma read_kind e v t : read_doc e v = Ret t ->
  exists ty, value_type e v = Ret ty /\
    vtype_eqb ty TyArray = match t with TArr _ => true | _ => false end /\
    vtype_eqb ty TyDict = match t with TDict _ => true | _ => false end.
Proof.
  unfold read_doc, fuel_of. cbn [read_tree]. destruct (value_type e v) as [ty| | |]; try discriminate. cbn [bind]. intros H. exists ty. split; [reflexivity|].
  destruct ty; try discriminate;
    repeat match type of H with bind ?x _ = _ => destruct x; try discriminate; cbn [bind] in H end; apply ret_inj in H; subst t; auto.
Qed.
Lemma dict_copy_slot dbg src v : value_type src v = Ret TyDict ->
  dict_copy dbg src v (e_sk src) = slot_from_fleece (fuel_of src) dbg src v false.
Proof. intros H. unfold dict_copy, fuel_of. cbn [Nat.pred]. change (slot_from_fleece (S (S (4 * length (e_data src)))) dbg src v false) with
  (t <- value_type src v ;;
      match t with
      | TyNull => slot_new dbg ENull
      | TyUndefined => slot_new dbg EUndef
      | TyFalse => slot_new dbg (EBool false)
      | TyTrue => slot_new dbg (EBool true)
      | TyShort => z <- to_short src v ;; slot_new dbg (EInt I16 z)
      | TyInt => z <- to_int src v ;; slot_new dbg (EInt I64 z)
      | TyUnsignedInt => z <- to_unsigned_int src v ;; slot_new dbg (EInt U64 z)
      | TyFloat => x <- to_float src v ;; slot_new dbg (EF32 x)
      | TyDouble32 | TyDouble64 => x <- to_double src v ;; slot_new dbg (EF64 x)
      | TyString => s <- to_str src v ;; slot_new dbg (EStr s)
      | TyData => s <- to_data src v ;; slot_new dbg (EData s)
      | TyArray =>
          wide <- arr_is_wide src v ;;
          vs <- arr_elems src v ;;
          l <- mapM (fun x => slot_from_fleece (S (4 * length (e_data src))) dbg src x wide) vs ;;
          Ret (SArr l)
      | TyDict =>
          wide <- arr_is_wide src v ;;
          kvs <- dict_elems src v ;;
          l <- mapM (fun kv => s <- slot_from_fleece (S (4 * length (e_data src))) dbg src (snd kv) wide ;; Ret (fst kv, s)) kvs ;;
          Ret (SDict (fold_left (fun m ks => bt_insert (encode_key (e_sk src) (fst ks)) (snd ks) m) l [])
                 (e_sk src))
      | TyPointer =>
          x <- deref_unchecked (fuel_of src) src v false ;; slot_from_fleece (S (4 * length (e_data src))) dbg src x false
      end).
  rewrite H. reflexivity.
Qed.

(** A scope's document as a mutable collection. *)
Lemma from_scope_ok T dbg w s v t ops ops' :
  scope_root s = Some (sc_data s, v) ->
  find_shared_keys w (sc_start s + v_pos v) = Ret (sc_sk s) ->
  holdable T (mk_env dbg (sc_start s) (sc_data s) (sc_sk s)) v t -> means_all T ops ops' ->
  exists ma md, array_from_scope dbg w s = Ret ma /\ dict_from_scope dbg w s = Ret md /\
    match t with
    | TArr _ => md = None /\ exists x, ma = Some x /\ agrees T x t /\
        match srun t ops' with
        | Ret t' => exists y, mrun dbg x ops = Ret y /\ agrees T y t'
        | Panic => mrun dbg x ops = Panic
        | _ => False
        end
    | TDict _ => ma = None /\ exists x, md = Some x /\ agrees T x t /\
        match srun t ops' with
        | Ret t' => exists y, mrun dbg x ops = Ret y /\ agrees T y t'
        | Panic => mrun dbg x ops = Panic
        | _ => False
        end
    | _ => ma = None /\ md = None
    end.
Proof.
  intros Hroot Hk Hh Hm. unfold array_from_scope, dict_from_scope, seen. rewrite Hroot, Hk. cbn [bind].
  set (e := mk_env dbg (sc_start s) (sc_data s) (sc_sk s)) in *. unfold alloced_to_array, alloced_to_dict. cbn [al_env al_val].
  destruct (holdable_shows T dbg e v t Hh) as (x & Hx & Hs). destruct Hh as (_ & _ & Hr & _).
  destruct (read_kind e v t Hr) as (ty & Hty & Ha & Hd). rewrite Hty. cbn [bind]. rewrite Ha, Hd.
  destruct t as [| | | | | | | |l|l]; cbn [bind al_env al_val].
  1-8: eexists _, _; split; [reflexivity|]; split; [reflexivity|]; auto.
  - unfold array_copy. rewrite Hx. cbn [bind]. eexists _, _. split; [reflexivity|]. split; [reflexivity|]. split; [reflexivity|].
    eexists. split; [reflexivity|]. split; [apply shows_agrees; exact Hs|]. eapply programs; eauto.
  - destruct ty; try discriminate. change (sc_sk s) with (e_sk e). rewrite (dict_copy_slot dbg e v Hty), Hx. cbn [bind]. eexists _, _. split; [reflexivity|]. split; [reflexivity|]. split; [reflexivity|].
    eexists. split; [reflexivity|]. split; [apply shows_agrees; exact Hs|]. eapply programs; eauto.
Qed.
Lemma from_scope_none dbg w s : scope_root s = None -> array_from_scope dbg w s = Ret None /\ dict_from_scope dbg w s = Ret None.
Proof. unfold array_from_scope, dict_from_scope. intros ->. auto. Qed.

(* ---------- without shared keys ---------- *)

Lemma vstored_ext e tb tb' t v : sk_ext tb tb' -> vstored e tb t v -> vstored e tb' t v.
Proof. intros H [H1|(lim & H1 & H2)]; [left; exact H1|right; exists lim; split; [eapply stored_ext; eauto|exact H2]]. Qed.

(** Calls without shared keys: the document is finished into a value that reads as the tree, and
    so it does with any table. *)
Lemma plain_value c prefix ops e' rs t :
  sort_ok (c_sort c) -> lenZ prefix mod 2 = 0 ->
  Forall good_op ops -> keys_ok false ops -> (forall k, ~ In (OpSetSharedKeys k) ops) ->
  layout_ok (c_ua c) (lenZ prefix) ops -> lenZ prefix + ops_size ops <= MAX_WIDE ->
  enc_run c (enc_new_to_vec prefix) ops = Ret (e', rs) -> Forall (eq (Ok tt)) rs ->
  b_finish (fst (b_run b_init ops)) = Some t ->
  exists D v t', finish c e' = Ret (prefix ++ D) /\ tsim t t' /\
    forall base, addressable base (prefix ++ D) ->
      finish_value c base e' = Ret (mk_env (c_dbg c) base (prefix ++ D) None, v) /\
      forall dbg k, from_bytes (mk_env dbg base (prefix ++ D) k) = Ret (Ok v) /\ read_doc (mk_env dbg base (prefix ++ D) k) v = Ret t'.
Proof.
  intros Hs Hev Hg Hk Hno Hn Hw Er Hok Ht.
  destruct (run_all_ok c ops _ _ _ _ Er (sh_init prefix) Hok) as [Hacc _].
  assert (Hp : polite b_init ops) by (apply accepted_polite; [intros Hx; exfalso; apply Hx; reflexivity|exact Hacc]).
  destruct (any_document c prefix ops Hs Hev Hg Hk Hp (strings_any _ _ _) Hn Hw) as (e2 & D & Er2 & Ef & _ & Hlen & Hd).
  rewrite Er in Er2. injection Er2 as <- Hrs.
  destruct (Hd t Ht) as (v & t' & H1 & Hall). exists D, v, t'. split; [exact Ef|]. split; [exact H1|]. intros base [Hb1 Hb2].
  assert (Hsk : en_sk e' = None) by (eapply sk_none_run; eauto).
  split.
  - unfold finish_value. rewrite Ef. cbn [bind]. destruct (Hall (c_dbg c) base None Hb1 Hb2) as (H2 & H3 & _).
    destruct (c_dbg c); [rewrite H2; reflexivity|rewrite H3; reflexivity].
  - intros dbg k. destruct (Hall dbg base k Hb1 Hb2) as (H2 & _ & H4). split; [exact H2|]. apply read_vstored.
    + unfold env_ok; cbn [e_base e_data]. split; [exact Hb1|]. split; [exact Hb2|]. rewrite lenZ_app in *. unfold MAX_WIDE, two63 in *. lia.
    + cbn [e_sk]. eapply vstored_ext; [|exact H4]. rewrite Hsk. exact I.
Qed.

(* ---------- after the scope is gone ---------- *)

Lemma dropped_finds_none w id p : scope_containing w p = Ret (Some id) -> find_shared_keys (scope_drop w id) p = Ret None.
Proof.
  unfold find_shared_keys, scope_containing. cbn [scope_drop w_poisoned w_map]. destruct (w_poisoned w); [discriminate|].
  destruct (rm_get (w_map w) p) as [i|]; [|discriminate]. destruct (upgrade w i); [|discriminate]. intros H. injection H as ->.
  cbn [bind]. destruct (upgrade (scope_drop w id) id) as [s0|] eqn:E; [|reflexivity]. apply upgrade_alive in E. apply alive_drop in E as [_ E]. congruence.
Qed.
Lemma removed_finds_none w id s r w' p : alive w id s -> w_poisoned w = false -> within s p -> scope_remove w id = (r, w') -> find_shared_keys w' p = Ret None.
Proof.
  intros Ha Hp Hw H. unfold scope_remove in H. rewrite Hp in H. apply upgrade_alive in Ha. rewrite Ha in H. unfold rm_remove in H. unfold within in Hw.
  destruct (sc_end s <=? sc_start s) eqn:E; [lia|]. injection H as <- <-. unfold find_shared_keys, scope_containing. cbn [w_poisoned w_map].
  rewrite rm_get_remove by lia. replace ((sc_start s <=? p) && (p <? sc_end s)) with true by lia. reflexivity.
Qed.

Lemma scoped_plain c prefix ops e' rs t start w id w' :
  sort_ok (c_sort c) -> lenZ prefix mod 2 = 0 ->
  Forall good_op ops -> keys_ok false ops -> (forall k, ~ In (OpSetSharedKeys k) ops) ->
  layout_ok (c_ua c) (lenZ prefix) ops -> lenZ prefix + ops_size ops <= MAX_WIDE ->
  enc_run c (enc_new_to_vec prefix) ops = Ret (e', rs) -> Forall (eq (Ok tt)) rs ->
  b_finish (fst (b_run b_init ops)) = Some t ->
  finish_scoped c w start e' = (Ret id, w') ->
  exists bs, finish c e' = Ret bs /\
    (addressable start bs -> exists s v t', alive w' id s /\ scope_root s = Some (bs, v) /\ tsim t t' /\
       forall later k dbg, find_shared_keys later (start + v_pos v) = Ret k -> read_doc (mk_env dbg start bs k) v = Ret t').
Proof.
  intros H1 H2 H3 H4 H5 H6 H7 H8 H9 H10 Hs.
  destruct (plain_value c prefix ops e' rs t H1 H2 H3 H4 H5 H6 H7 H8 H9 H10) as (D & v & t' & Hf & Ht & H).
  exists (prefix ++ D). split; [exact Hf|]. intros Hb. destruct (H start Hb) as [_ Hr]. clear H.
  unfold finish_scoped in Hs. rewrite Hf in Hs. destruct (new_holds _ _ _ _ _ _ _ Hs) as (s & Ha & _ & _ & _ & Hroot).
  rewrite (proj1 (Hr (c_dbg c) None)) in Hroot. exists s, v, t'. split; [exact Ha|]. split; [exact Hroot|]. split; [exact Ht|].
  intros later k dbg _. apply Hr.
Qed.
