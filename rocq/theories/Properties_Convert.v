(** C58-C60: documents handed over as a value, as a mutable collection, or kept beyond the life
    of their scope. *)
From Verif Require Import Prelude Utf8 Float SharedKeys Decode Read Encodable Encoder BuilderSpec LayoutSpec
  EncoderInv EncoderClean EncoderProtocol Isort CopySpec PathSpec ValueSpec Mutable MutableSpec Alloced Scopes ScopeSpec FromScope
  FromScopeProofs Properties_Encoder.
#[local] Existing Instance any_key.

(* ---------- C58 ---------- *)

(** Finishing into a value: it owns the bytes [finish] gives and reads as the tree the calls
    describe.  Missing: what is missing from C07, and documents with shared keys, refuted
    below. *)
Theorem C58_finish_value_partial : forall c prefix ops e' rs t,
  sort_ok (c_sort c) -> lenZ prefix mod 2 = 0 ->
  Forall good_op ops -> keys_ok false ops -> (forall k, ~ In (OpSetSharedKeys k) ops) ->
  layout_ok (c_ua c) (lenZ prefix) ops -> lenZ prefix + ops_size ops <= MAX_WIDE ->
  enc_run c (enc_new_to_vec prefix) ops = Ret (e', rs) -> Forall (eq (Ok tt)) rs ->
  b_finish (fst (b_run b_init ops)) = Some t ->
  exists bs v t', finish c e' = Ret bs /\ tsim t t' /\
    forall base, addressable base bs ->
      let m := mk_env (c_dbg c) base bs None in
      finish_value c base e' = Ret (m, v) /\ from_bytes m = Ret (Ok v) /\ read_doc m v = Ret t'.
Proof.
  intros c prefix ops e' rs t H1 H2 H3 H4 H5 H6 H7 H8 H9 H10.
  destruct (plain_value c prefix ops e' rs t H1 H2 H3 H4 H5 H6 H7 H8 H9 H10) as (D & v & t' & Hf & Ht & H).
  exists (prefix ++ D), v, t'. split; [exact Hf|]. split; [exact Ht|]. intros base Hb. destruct (H base Hb) as [Hv Hr].
  split; [exact Hv|]. apply Hr.
Qed.
Print Assumptions C58_finish_value_partial.
Definition value_of (c : cfg) (base : Z) (ops : list op) : outcome (env * val) :=
  r <- enc_run c enc_new ops ;; finish_value c base (fst r).
(** [C07_example] meets the hypotheses. *)
Example C58_example : forall dbg, exists m v,
  (forall k, ~ In (OpSetSharedKeys k) ex_ops) /\ value_of (ex_cfg dbg) 4096 ex_ops = Ret (m, v) /\ read_doc m v = Ret ex_tree.
Proof.
  intros dbg. destruct dbg; eexists _, _; (split; [intros k Hi; cbn [In ex_ops] in Hi; repeat (destruct Hi as [Hi|Hi]; [discriminate Hi|]); exact Hi|]);
    (split; [vm_compute; reflexivity|vm_compute; reflexivity]).
Qed.
(** A dict written with shared keys has no entries any more: the value is in no scope. *)
Theorem C58_refuted_shared_keys : forall dbg, exists m v t,
  value_of (ex_cfg dbg) 4096 [OpSetSharedKeys []; OpBeginDict; OpKey [97;98]; OpValue (EInt U8 1); OpEndDict] = Ret (m, v) /\
  b_finish (fst (b_run b_init [OpSetSharedKeys []; OpBeginDict; OpKey [97;98]; OpValue (EInt U8 1); OpEndDict])) = Some t /\
  t = TDict [([97;98], TInt 1)] /\ read_doc m v = Ret (TDict []) /\ dict_get m v [97;98] = Ret None.
Proof.
  intros dbg. destruct dbg; eexists _, _, _; (split; [vm_compute; reflexivity|]);
    (split; [vm_compute; reflexivity|]); (split; [reflexivity|]); split; vm_compute; reflexivity.
Qed.
Print Assumptions C58_refuted_shared_keys.
(** With nothing written it panics. *)
Theorem C58_refuted_nothing : forall c base, finish_value c base enc_new = Panic.
Proof. intros c base. unfold finish_value, finish. cbn. destruct (c_dbg c); vm_compute; reflexivity. Qed.
Print Assumptions C58_refuted_nothing.

(* ---------- C59 ---------- *)

(** A scope's document as a mutable collection: [MutableArray::from_scope] gives one exactly if
    the root is an array, [MutableDict::from_scope] exactly if it is a dict; it shows the tree
    the document reads as, and programs of calls act on it as on the tree.  [v] is the scope's
    root, which is found in this scope; for such documents see C52.  [holdable]: see C38. *)
Theorem C59_from_scope_partial : forall T dbg w s v t ops ops',
  scope_root s = Some (sc_data s, v) ->
  find_shared_keys w (sc_start s + v_pos v) = Ret (sc_sk s) ->
  holdable T (mk_env dbg (sc_start s) (sc_data s) (sc_sk s)) v t -> means_all T ops ops' ->
  exists ma md, array_from_scope dbg w s = Ret ma /\ dict_from_scope dbg w s = Ret md /\
    match t with
    | TArr _ => md = None /\ exists x, ma = Some x /\ agrees T x t /\
        match srun t ops' with
        | Ret t' => exists y, mrun dbg x ops = Ret y /\ agrees T y t'
        | Panic => mrun dbg x ops = Panic
        | _ => False
        end
    | TDict _ => ma = None /\ exists x, md = Some x /\ agrees T x t /\
        match srun t ops' with
        | Ret t' => exists y, mrun dbg x ops = Ret y /\ agrees T y t'
        | Panic => mrun dbg x ops = Panic
        | _ => False
        end
    | _ => ma = None /\ md = None
    end.
Proof. exact from_scope_ok. Qed.
Print Assumptions C59_from_scope_partial.
(** Data that is not a valid document: neither. *)
Theorem C59_no_document : forall dbg w s, scope_root s = None ->
  array_from_scope dbg w s = Ret None /\ dict_from_scope dbg w s = Ret None.
Proof. exact from_scope_none. Qed.
Print Assumptions C59_no_document.

(** [{"ab": "xyz"}] with a shared key, in a scope at 4096. *)
Definition cv_bytes : list Z := [67;120;121;122; 112;1;0;0;128;4; 128;3].
Definition cv_world : world := snd (scope_new true world_new 4096 cv_bytes (Some [[97;98]])).
Definition cv_scope : scope := nth 0 (w_scopes cv_world) (mk_scope 0 [] None None false).
Definition cv_calls : list (list mstep * mop) := [([], MInsert [99;100] (EInt U8 7)); ([], MRemoveKey [97;98])].
Example C59_example : exists v t ops',
  scope_root cv_scope = Some (sc_data cv_scope, v) /\
  find_shared_keys cv_world (sc_start cv_scope + v_pos v) = Ret (sc_sk cv_scope) /\
  holdable [[[97;98]]] (mk_env true (sc_start cv_scope) (sc_data cv_scope) (sc_sk cv_scope)) v t /\
  means_all [[[97;98]]] cv_calls ops' /\ t = TDict [([97;98], TStr [120;121;122])] /\
  srun t ops' = Ret (TDict [([99;100], TInt 7)]).
Proof.
  exists (V 4 6), (TDict [([97;98], TStr [120;121;122])]), [([], SPut [99;100] (TInt 7)); ([], SDrop [97;98])].
  split; [vm_compute; reflexivity|]. split; [vm_compute; reflexivity|]. split; [|split].
  - change (holdable [[[97;98]]] (mk_env true 4096 cv_bytes (Some [[97;98]])) (V 4 6) (TDict [([97;98], TStr [120;121;122])])).
    split; [split; [apply all_bytesb; reflexivity|split; [reflexivity|]]|].
    + constructor; [apply wf_encb_ok; reflexivity|constructor].
    + split; [left; reflexivity|]. split; [vm_compute; reflexivity|].
      split; [repeat (constructor; cbn [map fst snd]); intros []|].
      split; [repeat (constructor; cbn [map fst snd]); vm_compute; discriminate|].
      eexists. split; [vm_compute; reflexivity|]. repeat constructor.
  - constructor; [|constructor; [|constructor]]; (split; [reflexivity|]; split; [constructor|]).
    + apply me_insert; [left; vm_compute; discriminate|apply wf_encb_ok; reflexivity|reflexivity].
    + apply me_remove_key. left. vm_compute. discriminate.
  - split; [reflexivity|vm_compute; reflexivity].
Qed.
(** A scope that was removed from the map, but is still there with its data and its keys: the
    copy is empty. *)
Theorem C59_refuted_removed : forall dbg, exists w s x v,
  (exists w0, reach dbg fresh w0 [0%nat] /\ alive w0 0 s /\ scope_remove w0 0 = (Ret tt, w)) /\ alive w 0 s /\
  scope_root s = Some (sc_data s, v) /\
  read_doc (mk_env dbg (sc_start s) (sc_data s) (sc_sk s)) v = Ret (TDict [([97;98], TStr [120;121;122])]) /\
  dict_from_scope dbg w s = Ret (Some x) /\ x = SDict [] (sc_sk s).
Proof.
  intros dbg. exists (snd (scope_remove (snd (scope_new dbg world_new 4096 cv_bytes (Some [[97;98]]))) 0)).
  eexists _, _, _. split.
  { exists (snd (scope_new dbg world_new 4096 cv_bytes (Some [[97;98]]))). split; [|split].
    - eapply re_new with (w := world_new) (reg := []) (start := 4096) (data := cv_bytes) (sk := Some [[97;98]]); [apply re_start| |destruct dbg; vm_compute; reflexivity].
      intros id s [H _]. destruct id; discriminate.
    - destruct dbg; vm_compute; split; reflexivity.
    - destruct dbg; vm_compute; reflexivity. }
  split; [destruct dbg; vm_compute; split; reflexivity|].
  split; [destruct dbg; vm_compute; reflexivity|].
  split; [destruct dbg; vm_compute; reflexivity|].
  split; [destruct dbg; vm_compute; reflexivity|]. destruct dbg; reflexivity.
Qed.
Print Assumptions C59_refuted_removed.

(* ---------- C60 ---------- *)

(** The root taken from a scope owns the data and may be kept when the scope is gone.  A document
    written without shared keys reads the same in every world, before and after.  Missing:
    documents with shared keys, refuted below. *)
Theorem C60_root_outlives_scope_partial : forall c prefix ops e' rs t start w id w',
  sort_ok (c_sort c) -> lenZ prefix mod 2 = 0 ->
  Forall good_op ops -> keys_ok false ops -> (forall k, ~ In (OpSetSharedKeys k) ops) ->
  layout_ok (c_ua c) (lenZ prefix) ops -> lenZ prefix + ops_size ops <= MAX_WIDE ->
  enc_run c (enc_new_to_vec prefix) ops = Ret (e', rs) -> Forall (eq (Ok tt)) rs ->
  b_finish (fst (b_run b_init ops)) = Some t ->
  finish_scoped c w start e' = (Ret id, w') ->
  exists bs, finish c e' = Ret bs /\
    (addressable start bs -> exists s v t', alive w' id s /\ scope_root s = Some (bs, v) /\ tsim t t' /\
       forall later k dbg, find_shared_keys later (start + v_pos v) = Ret k -> read_doc (mk_env dbg start bs k) v = Ret t').
Proof. exact scoped_plain. Qed.
Print Assumptions C60_root_outlives_scope_partial.

(** From the moment a scope is dropped or removed its keys are not found any more, although
    values in its data live on ... *)
Theorem C60_dropped : forall w id p,
  scope_containing w p = Ret (Some id) -> find_shared_keys (scope_drop w id) p = Ret None.
Proof. exact dropped_finds_none. Qed.
Print Assumptions C60_dropped.
Theorem C60_removed : forall w id s r w' p,
  alive w id s -> w_poisoned w = false -> within s p -> scope_remove w id = (r, w') -> find_shared_keys w' p = Ret None.
Proof. exact removed_finds_none. Qed.
Print Assumptions C60_removed.
(** ... and a lookup that found an entry finds none. *)
Theorem C60_refuted : forall dbg, exists w s v x k k',
  alive w 0 s /\ scope_root s = Some (sc_data s, v) /\
  find_shared_keys w (sc_start s + v_pos v) = Ret k /\ find_shared_keys (scope_drop w 0) (sc_start s + v_pos v) = Ret k' /\
  dict_get (mk_env dbg (sc_start s) (sc_data s) k) v [97;98] = Ret (Some x) /\
  dict_get (mk_env dbg (sc_start s) (sc_data s) k') v [97;98] = Ret None.
Proof.
  intros dbg. exists (snd (scope_new dbg world_new 4096 cv_bytes (Some [[97;98]]))). eexists _, _, _, _, _.
  split; [destruct dbg; vm_compute; split; reflexivity|].
  do 4 (split; [destruct dbg; vm_compute; reflexivity|]). destruct dbg; vm_compute; reflexivity.
Qed.
Print Assumptions C60_refuted.
(** The example of C07, finished into a scope that is then dropped. *)
Definition cv_doc : outcome (outcome (option nat) * outcome tree) :=
  r <- enc_run (ex_cfg true) enc_new ex_ops ;;
  let '(id, w) := finish_scoped (ex_cfg true) cv_world 8192 (fst r) in
  i <- id ;;
  match upgrade w i with
  | Some s =>
      match scope_root s with
      | Some (bs, v) =>
          k <- find_shared_keys (scope_drop w i) (8192 + v_pos v) ;;
          Ret (scope_containing (scope_drop w i) (8192 + v_pos v), read_doc (mk_env true 8192 bs k) v)
      | None => Panic
      end
  | None => Panic
  end.
Example C60_example : cv_doc = Ret (Ret None, Ret ex_tree).
Proof. vm_compute. reflexivity. Qed.
