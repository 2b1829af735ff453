(** Where the bytes of a document go, computed from the calls alone: how long the output is
    after each call and at which positions the values and keys lie that do not fit their slot.
    A collection is written with slots of two or of four bytes; with this arithmetic one can tell
    from the calls whether every collection of a document survives being written. *)
From Verif Require Import Prelude Utf8 SharedKeys Decode Encodable Encoder BuilderSpec.

(** An open collection: the number of its entries, whether some slot holds a text, data blob or
    key of less than two bytes, the positions of the values and of the keys written outside the
    slots, and, for a dict, the key that waits for its value (with its position, if it has one). *)
Inductive lframe :=
| LArr (n : Z) (short : bool) (vals : list Z)
| LDict (n : Z) (short : bool) (vals keys : list Z) (pending : option (option Z)).

(** The length of the output, the shared keys, the open collections, and whether the root has
    been closed. *)
Record lstate := mk_l {
  l_pos : Z;
  l_sk : option shared_keys;
  l_stack : list lframe;
  l_closed : bool;
}.
Definition l_init (n : Z) : lstate := mk_l n None [] false.

(** Everything is padded to an even number of bytes. *)
Definition even_up (n : Z) : Z := n + n mod 2.
Definition header_size (n : Z) : Z := even_up (hdr_fleece_size n).

Definition opt_cons (p : option Z) (l : list Z) : list Z :=
  match p with Some x => x :: l | None => l end.

(** A value is added to the innermost collection. *)
Definition l_add (st : list lframe) (p : option Z) (short : bool) : list lframe :=
  match st with
  | LArr n s vals :: st' => LArr (n + 1) (s || short) (opt_cons p vals) :: st'
  | LDict n s vals keys (Some k) :: st' =>
      LDict (n + 1) (s || short) (opt_cons p vals) (opt_cons k keys) None :: st'
  | _ => st
  end.
Definition l_add_key (st : list lframe) (p : option Z) (short : bool) : list lframe :=
  match st with
  | LDict n s vals keys None :: st' => LDict n (s || short) vals keys (Some p) :: st'
  | _ => st
  end.

(** The slots are four bytes wide when a value lies more than 16383 bytes before the
    collection, or when a key lies at a position greater than 16383. *)
Definition l_wide (pos : Z) (f : lframe) : bool :=
  match f with
  | LArr _ _ vals => existsb (fun p => MAX_NARROW <? pos - p) vals
  | LDict _ _ vals keys _ =>
      existsb (fun p => MAX_NARROW <? pos - p) vals || existsb (fun p => MAX_NARROW <? p) keys
  end.
Definition l_count (f : lframe) : Z :=
  match f with LArr n _ _ => n | LDict n _ _ _ _ => n end.
Definition l_slots (f : lframe) : Z :=
  match f with LArr n _ _ => n | LDict n _ _ _ _ => 2 * n end.
(** The collection survives: its slots are wide, or it has no texts shorter than two bytes and
    everything outside is within reach of the last of its slots of two bytes. *)
Definition l_fits (pos : Z) (f : lframe) : bool :=
  l_wide pos f ||
  match f with
  | LArr n short vals =>
      negb short && forallb (fun p => pos + header_size n + 2 * n - 2 - p <=? MAX_NARROW) vals
  | LDict n short vals keys _ =>
      negb short && forallb (fun p => pos + header_size n + 4 * n - 2 - p <=? MAX_NARROW) (vals ++ keys)
  end.
(** The innermost collection is closed. *)
Definition l_close (l : lstate) : lstate :=
  match l_stack l with
  | [] => l
  | f :: st =>
      let e := l_pos l + header_size (l_count f) + l_slots f * (if l_wide (l_pos l) f then 4 else 2) in
      match st with
      | [] => mk_l (e + if e - l_pos l <=? MAX_NARROW then 2 else 6) (l_sk l) [] true
      | _ => mk_l e (l_sk l) (l_add st (Some (l_pos l)) false) (l_closed l)
      end
  end.

Definition l_set_stack (l : lstate) (st : list lframe) : lstate :=
  mk_l (l_pos l) (l_sk l) st (l_closed l).

(** A key written to the output. *)
Definition l_key_outside (l : lstate) (k : list Z) : lstate :=
  mk_l (even_up (l_pos l + bytes_fleece_size (lenZ k))) (l_sk l)
       (l_add_key (l_stack l) (Some (l_pos l)) false) (l_closed l).

Definition l_step (ua : Z -> bool) (l : lstate) (o : op) : lstate :=
  match o with
  | OpKey k =>
      match to_sized_value (EStr k) with
      | Some _ => l_set_stack l (l_add_key (l_stack l) None true)
      | None =>
          match l_sk l, l_stack l with
          | None, _ => l_key_outside l k
          | Some t, LDict _ _ _ _ _ :: _ =>
              let '(t', i) := encode_and_insert ua t k in
              let l1 := mk_l (l_pos l) (Some t') (l_stack l) (l_closed l) in
              match i with
              | Some _ => l_set_stack l1 (l_add_key (l_stack l1) None false)
              | None => l_key_outside l1 k
              end
          | Some _, _ => l
          end
      end
  | OpValue v =>
      match l_stack l with
      | [] => l
      | _ =>
          match to_sized_value v with
          | Some _ => l_set_stack l (l_add (l_stack l) None (negb (no_short_text v)))
          | None => mk_l (even_up (l_pos l + fleece_size v)) (l_sk l)
                         (l_add (l_stack l) (Some (l_pos l)) false) (l_closed l)
          end
      end
  | OpBeginArray _ | OpBeginDict =>
      if l_closed l then l
      else match l_stack l with
           | LDict _ _ _ _ None :: _ => l
           | st => l_set_stack l (match o with
                                  | OpBeginDict => LDict 0 false [] [] None
                                  | _ => LArr 0 false []
                                  end :: st)
           end
  | OpEndArray => match l_stack l with LArr _ _ _ :: _ => l_close l | _ => l end
  | OpEndDict => match l_stack l with LDict _ _ _ _ None :: _ => l_close l | _ => l end
  | OpSetSharedKeys t => mk_l (l_pos l) (Some t) (l_stack l) (l_closed l)
  end.

(** The call closes a collection that does not survive. *)
Definition l_call_ok (l : lstate) (o : op) : bool :=
  match o, l_stack l with
  | OpEndArray, (LArr _ _ _ as f) :: _ => l_fits (l_pos l) f
  | OpEndDict, (LDict _ _ _ _ None as f) :: _ => l_fits (l_pos l) f
  | _, _ => true
  end.
(** [finish]: the collections still open are closed (a key without a value is dropped). *)
Definition l_drop (l : lstate) : lstate :=
  match l_stack l with
  | LDict n s vals keys _ :: st => l_set_stack l (LDict n s vals keys None :: st)
  | _ => l
  end.
Fixpoint l_finish_ok (fuel : nat) (l : lstate) : bool :=
  match fuel with
  | O => true
  | S f =>
      match l_stack l with
      | [] => true
      | top :: _ => l_fits (l_pos l) top && l_finish_ok f (l_close (l_drop l))
      end
  end.
Fixpoint l_ops_ok (ua : Z -> bool) (l : lstate) (ops : list op) : bool :=
  match ops with
  | [] => l_finish_ok (length (l_stack l)) l
  | o :: ops' => l_call_ok l o && l_ops_ok ua (l_step ua l o) ops'
  end.

(** Texts and keys have at least two bytes. *)
Definition plain_op (o : op) : bool :=
  match o with
  | OpKey k => 2 <=? lenZ k
  | OpValue v => no_short_text v
  | _ => true
  end.

(** The documents that survive being written after [n] bytes: those of at most 16383 bytes
    without texts and keys of less than two bytes, and all those whose layout works out. *)
Definition layout_ok (ua : Z -> bool) (n : Z) (ops : list op) : Prop :=
  (forallb plain_op ops = true /\ ops_size ops <= MAX_NARROW) \/
  l_ops_ok ua (l_init n) ops = true.
