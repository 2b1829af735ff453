(** C81: what a copy depends on, and when copying changes nothing any more. *)
From Verif Require Import Prelude Utf8 Float SharedKeys Decode Read Encodable Encoder BuilderSpec LayoutSpec
  PathSpec Isort CopySpec AscendSpec Path Ascend StableSpec Stable StableAny Properties_Encoder.
From Coq Require Import Sorted.

(** Two values that read the same, in whatever documents, layouts and builds, are copied the
    same: [write_fleece] answers alike and leaves the encoder [e] in the same state. *)
Theorem C81_by_reading_partial : forall c e src src' v v' t,
  not_huge src -> not_huge src' -> read_doc src v = Ret t -> read_doc src' v' = Ret t -> small_ints t ->
  write_fleece (fuel_of src) c e src v = write_fleece (fuel_of src') c e src' v'.
Proof. exact copy_by_reading. Qed.
Print Assumptions C81_by_reading_partial.
(** It makes the calls one would write by hand. *)
Theorem C81_by_hand_partial : forall c src v t, not_huge src -> read_doc src v = Ret t -> small_ints t ->
  forall e, write_fleece (fuel_of src) c e src v = for_each (enc_step c) e (tree_calls t).
Proof. exact (fun c src v t H => copy_calls c src H (fuel_of src) v t). Qed.
Print Assumptions C81_by_hand_partial.

(** C07 up to the last detail: without shared and repeated keys the document reads as the one
    tree that has every dict in order, at any address and in any build. *)
Theorem C81_reads_in_order_partial : forall c prefix ops e' rs t,
  sort_ok (c_sort c) -> lenZ prefix mod 2 = 0 ->
  Forall good_op ops -> (forall t, ~ In (OpSetSharedKeys t) ops) ->
  layout_ok (c_ua c) (lenZ prefix) ops -> lenZ prefix + ops_size ops <= MAX_WIDE ->
  enc_run c (enc_new_to_vec prefix) ops = Ret (e', rs) -> Forall (eq (Ok tt)) rs ->
  b_finish (fst (b_run b_init ops)) = Some t -> distinct t ->
  exists D t', finish c e' = Ret (prefix ++ D) /\ tsim t t' /\ ascending t' /\
    forall dbg base, addressable base (prefix ++ D) ->
    let m := mk_env dbg base (prefix ++ D) None in
    exists root, from_bytes m = Ret (Ok root) /\ from_bytes_unchecked m = Ret root /\ read_doc m root = Ret t'.
Proof. exact exact_document. Qed.
Print Assumptions C81_reads_in_order_partial.
(** There is only one such tree. *)
Theorem C81_one_order : forall a b, tsim a b -> ascending a -> ascending b -> a = b.
Proof. exact ascending_unique. Qed.
Print Assumptions C81_one_order.

(** The copy of a document that is in order reads as exactly that document, and copying the copy
    gives the same bytes again. *)
Theorem C81_stable_partial : forall c src v t,
  sort_ok (c_sort c) -> src_ok src -> read_doc src v = Ret t -> copyable t -> is_coll t = true ->
  tree_size t <= MAX_NARROW -> ascending t ->
  exists bs, copied c src v = Ret bs /\
    forall dbg base, addressable base bs ->
    let m := mk_env dbg base bs None in
    exists root, from_bytes m = Ret (Ok root) /\ read_doc m root = Ret t /\ copied c m root = Ret bs.
Proof. exact copy_stable. Qed.
Print Assumptions C81_stable_partial.
(** If it is not in order, the copy of the copy is where it ends. *)
Theorem C81_second_copy_partial : forall c src v t,
  sort_ok (c_sort c) -> src_ok src -> read_doc src v = Ret t -> copyable t -> is_coll t = true ->
  tree_size t <= MAX_NARROW -> distinct t ->
  exists bs bs', copied c src v = Ret bs /\
    forall dbg base, addressable base bs ->
    let m := mk_env dbg base bs None in
    exists root, from_bytes m = Ret (Ok root) /\ copied c m root = Ret bs' /\
    forall dbg' base', addressable base' bs' ->
    let m' := mk_env dbg' base' bs' None in
    exists root', from_bytes m' = Ret (Ok root') /\ read_doc m' root' = read_doc m root /\ copied c m' root' = Ret bs'.
Proof. exact copy_twice. Qed.
Print Assumptions C81_second_copy_partial.

(** The same for documents of any size, and also with texts and keys of less than two bytes, as
    long as the encoder handles what is written ([tree_calls t]) and its layout works out (as C07). *)
Theorem C81_stable_any_partial : forall c src v t,
  sort_ok (c_sort c) -> not_huge src -> read_doc src v = Ret t -> is_coll t = true ->
  Forall good_op (tree_calls t) -> layout_ok (c_ua c) 0 (tree_calls t) -> ops_size (tree_calls t) <= MAX_WIDE ->
  ascending t ->
  exists bs, copied c src v = Ret bs /\
    forall dbg base, addressable base bs ->
    let m := mk_env dbg base bs None in
    exists root, from_bytes m = Ret (Ok root) /\ read_doc m root = Ret t /\ copied c m root = Ret bs.
Proof. exact copy_stable_any. Qed.
Print Assumptions C81_stable_any_partial.
(** The first copy is made in the order of the source, the second one in ascending order: both
    layouts have to work out. *)
Theorem C81_second_copy_any_partial : forall c src v t,
  sort_ok (c_sort c) -> not_huge src -> read_doc src v = Ret t -> is_coll t = true ->
  Forall good_op (tree_calls t) -> layout_ok (c_ua c) 0 (tree_calls t) -> ops_size (tree_calls t) <= MAX_WIDE ->
  distinct t -> (forall u, tsim t u -> ascending u -> layout_ok (c_ua c) 0 (tree_calls u)) ->
  exists bs bs', copied c src v = Ret bs /\
    forall dbg base, addressable base bs ->
    let m := mk_env dbg base bs None in
    exists root, from_bytes m = Ret (Ok root) /\ copied c m root = Ret bs' /\
    forall dbg' base', addressable base' bs' ->
    let m' := mk_env dbg' base' bs' None in
    exists root', from_bytes m' = Ret (Ok root') /\ read_doc m' root' = read_doc m root /\ copied c m' root' = Ret bs'.
Proof. exact copy_twice_any. Qed.
Print Assumptions C81_second_copy_any_partial.

(** [{"ab": "xyz", "cd": [5, null]}], laid out as no encoder does: the array before the strings. *)
Definition odd_layout : env :=
  mk_env true 2147483648 [96;2;0;5;48;0; 67;120;121;122; 66;97;98;0; 66;99;100;0; 112;2;128;5;128;8;128;5;128;13; 128;5] None.
Example C81_example : exists t bs, src_ok odd_layout /\ from_bytes odd_layout = Ret (Ok (V 18 10)) /\ read_doc odd_layout (V 18 10) = Ret t /\
  t = TDict [([97;98], TStr [120;121;122]); ([99;100], TArr [TInt 5; TNull])] /\
  copyable t /\ small_ints t /\ is_coll t = true /\ tree_size t <= MAX_NARROW /\ ascending t /\ distinct t /\
  copied (ex_cfg true) odd_layout (V 18 10) = Ret bs /\ bs <> e_data odd_layout.
Proof.
  eexists _, _. split; [split; [apply all_bytesb; reflexivity|split; [reflexivity|exact I]]|].
  split; [vm_compute; reflexivity|]. split; [vm_compute; reflexivity|]. split; [reflexivity|].
  assert (Hc : copyable (TDict [([97;98], TStr [120;121;122]); ([99;100], TArr [TInt 5; TNull])])) by (vm_compute; intuition congruence).
  assert (Ha : ascending (TDict [([97;98], TStr [120;121;122]); ([99;100], TArr [TInt 5; TNull])])).
  { apply asc_dict.
    - cbn [map fst]. repeat first [apply SSorted_nil | apply SSorted_cons | apply Forall_nil | apply Forall_cons | apply bytes_lt_cmp; reflexivity].
    - repeat first [apply Forall_nil | apply Forall_cons | apply asc_arr | apply asc_scalar; exact I]. }
  split; [exact Hc|]. split; [apply copyable_small; exact Hc|]. split; [reflexivity|]. split; [vm_compute; discriminate|].
  split; [exact Ha|]. split; [apply ascending_distinct; exact Ha|]. split; [vm_compute; reflexivity|]. vm_compute. discriminate.
Qed.
(** Keys written in descending order. *)
Definition down_ops : list op :=
  [OpBeginDict; OpKey [99;99]; OpValue (EInt U8 1); OpKey [98;98]; OpValue ENull; OpEndDict].
Example C81_order_example :
  Forall good_op down_ops /\ layout_ok (fun _ => false) 0 down_ops /\ ops_size down_ops <= MAX_WIDE /\
  exists t, b_finish (fst (b_run b_init down_ops)) = Some t /\ distinct t /\ ~ ascending t.
Proof.
  split; [apply good_opsb; vm_compute; reflexivity|]. split; [right; vm_compute; reflexivity|]. split; [vm_compute; discriminate|].
  eexists. split; [vm_compute; reflexivity|]. split.
  - constructor; [cbn [map fst]; repeat constructor; cbn [In]; intuition discriminate|]. repeat constructor.
  - intros H. inversion H as [? Hs| |? Hs]; subst; [destruct Hs|]. cbn [map fst] in Hs. inversion Hs as [|? ? _ Hf]; subst.
    inversion Hf as [|? ? Hb]; subst. apply bytes_lt_cmp in Hb. vm_compute in Hb. discriminate.
Qed.

(** The document [big_ops] of [Properties_Encoder], of more than 40000 bytes with keys and texts
    of less than two bytes, meets the conditions for copies of any size. *)
Definition bytes_of (r : outcome (list (result unit encode_error) * list Z * option shared_keys)) : list Z :=
  match r with Ret (_, bs, _) => bs | _ => [] end.
Definition big_src : env := mk_env true 2147483648 (bytes_of (run_doc (ex_cfg true) [] big_ops)) None.
Definition big_order : tree :=
  TDict [([], TStr (firstn (Z.to_nat 300) big_text)); ([97], TStr big_text);
         ([98], TArr [TStr [121;121]; TStr big_text; TStr [122]])].
Example C81_any_example : (v <- from_bytes big_src ;; match v with Ok v => read_doc big_src v | Err _ => Panic end) = Ret big_order /\
  is_coll big_order = true /\ Forall good_op (tree_calls big_order) /\ layout_ok (fun _ => false) 0 (tree_calls big_order) /\
  MAX_NARROW < ops_size (tree_calls big_order) <= MAX_WIDE /\ ascending big_order.
Proof.
  split; [vm_compute; reflexivity|]. split; [reflexivity|]. split; [apply good_opsb; vm_compute; reflexivity|].
  split; [right; vm_compute; reflexivity|]. split; [vm_compute; split; [reflexivity|discriminate]|].
  apply asc_dict.
  - cbn [map fst]. repeat constructor; apply bytes_lt_cmp; reflexivity.
  - repeat (constructor; [cbn [snd]; try (apply asc_scalar; exact I)|]); [|constructor].
    apply asc_arr. repeat (constructor; [apply asc_scalar; exact I|]). constructor.
Qed.

(** Both documents read as [[70000]]; one of them cannot be copied. *)
Theorem C81_refuted_int : exists src src' v v' r,
  from_bytes src = Ret (Ok v) /\ from_bytes src' = Ret (Ok v') /\
  read_doc src v = Ret (TArr [TInt 70000]) /\ read_doc src' v' = Ret (TArr [TInt 70000]) /\
  copied (ex_cfg true) src v = Ret r /\ copied (ex_cfg true) src' v' = Diverge.
Proof.
  exists (mk_env true 2147483648 [26;112;17;1; 96;1;128;3; 128;2] None), (mk_env true 2147483648 [18;112;17;1; 96;1;128;3; 128;2] None).
  eexists _, _, _. split; [vm_compute; reflexivity|]. split; [vm_compute; reflexivity|]. split; [vm_compute; reflexivity|].
  split; [vm_compute; reflexivity|]. split; [vm_compute; reflexivity|]. vm_compute. reflexivity.
Qed.
Print Assumptions C81_refuted_int.

(** A dict with numbered keys is read in the order of the numbers: its copy, copied again, changes. *)
Theorem C81_refuted_first_copy : exists src v bs root bs',
  from_bytes src = Ret (Ok v) /\ read_doc src v = Ret (TDict [([122;122], TStr [120;121;122]); ([97;97], TStr [117;118;119])]) /\
  copied (ex_cfg true) src v = Ret bs /\ from_bytes (mk_env true 4096 bs None) = Ret (Ok root) /\
  copied (ex_cfg true) (mk_env true 4096 bs None) root = Ret bs' /\ bs' <> bs.
Proof.
  exists (mk_env true 2147483648 [67;120;121;122; 67;117;118;119; 112;2;0;0;128;6;0;1;128;6; 128;5] (Some [[122;122];[97;97]])).
  eexists _, _, _, _. split; [vm_compute; reflexivity|]. split; [vm_compute; reflexivity|]. split; [vm_compute; reflexivity|].
  split; [vm_compute; reflexivity|]. split; [vm_compute; reflexivity|]. vm_compute. discriminate.
Qed.
Print Assumptions C81_refuted_first_copy.
