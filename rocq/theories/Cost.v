(** What validation costs: [validate] (Decode.v) counting its own calls.  [CostProofs.v] shows
    that forgetting the counts gives [validate] back. *)
From Verif Require Import Prelude SharedKeys Decode.

(** Calls of [_validate] made, and how many of them are open at the same time at most (the
    frames on the stack). *)
Record cost := mk_cost { c_calls : Z; c_depth : Z }.
Definition no_calls : cost := mk_cost 0 0.
(** One after the other, and one inside a call. *)
Definition after (a b : cost) : cost :=
  mk_cost (c_calls a + c_calls b) (Z.max (c_depth a) (c_depth b)).
Definition inside (a : cost) : cost := mk_cost (1 + c_calls a) (1 + c_depth a).

(** Steps that call nothing that is counted. *)
Definition cbind {A B} (m : outcome A) (k : A -> cost * outcome B) : cost * outcome B :=
  match m with
  | Ret a => k a | Panic => (no_calls, Panic) | UB => (no_calls, UB) | Diverge => (no_calls, Diverge)
  end.
Definition cbindr {A B E} (m : outcome (result A E)) (k : A -> cost * outcome (result B E))
  : cost * outcome (result B E) :=
  match m with
  | Ret (Ok a) => k a | Ret (Err er) => (no_calls, Ret (Err er))
  | Panic => (no_calls, Panic) | UB => (no_calls, UB) | Diverge => (no_calls, Diverge)
  end.
(** [?] after a counted step. *)
Definition cseq {E} (m : cost * outcome (result unit E)) (k : cost * outcome (result unit E))
  : cost * outcome (result unit E) :=
  match snd m with
  | Ret (Ok _) => (after (fst m) (fst k), snd k)
  | _ => m
  end.

(** array.rs:196-200, as [elems_loop] in Decode.v *)
Fixpoint elems_loop_n (step : Z -> cost * dres unit) (k : nat) (i n cur width : Z) : cost * dres unit :=
  match k with
  | O => (no_calls, Diverge)
  | S k' =>
      if i <? n then cseq (step cur) (elems_loop_n step k' (i + 1) n (cur + width) width)
      else (no_calls, Ret (Ok tt))
  end.

(** value/mod.rs:373-403 and array.rs:179-203, as [validate] in Decode.v *)
Fixpoint validate_n (fuel : nat) (e : env) (is_elem is_wide : bool) (v : val) (dend : Z)
  : cost * dres unit :=
  match fuel with
  | O => (no_calls, Diverge)
  | S f =>
      let r :=
        cbind (value_type e v) (fun t =>
        match t with
        | TyArray | TyDict =>
            cbind (arr_is_wide e v) (fun wide =>
            let width := width_of wide in
            cbind (arr_len e v) (fun n =>
            cbind (first_pos e v) (fun fp =>
            let first := v_pos v + fp in
            cbind (usize_mul (e_dbg e) n width) (fun bytes =>
            cbind (usize_add (e_dbg e) (e_base e + first) bytes) (fun lim =>
            if e_base e + dend <? lim then
              cbind (usize_sub (e_dbg e) (e_base e + dend) (e_base e + first)) (fun _ =>
              (no_calls, Ret (Err ArrayOutOfBounds)))
            else
              elems_loop_n
                (fun cur =>
                   cbindr (from_raw e cur width) (fun x =>
                   validate_n f e true wide x (cur + width)))
                (S (S (length (e_data e)))) 0 n first width)))))
        | TyPointer =>
            cbindr (deref_checked (fuel_of e) e v is_wide) (fun target =>
            validate_n f e false is_wide target (v_pos v))
        | _ =>
            if is_elem then (no_calls, Ret (Ok tt))
            else
              cbind (required_size e v) (fun n =>
              cbind (usize_add (e_dbg e) (e_base e + v_pos v) n) (fun en =>
              if en <=? e_base e + dend then (no_calls, Ret (Ok tt))
              else
                cbind (usize_sub (e_dbg e) (e_base e + dend) (e_base e + v_pos v)) (fun _ =>
                (no_calls, Ret (Err ValueOutOfBounds)))))
        end)
      in (inside (fst r), snd r)
  end.

(** value/mod.rs:139-147 [from_bytes] *)
Definition from_bytes_n (e : env) : cost * dres val :=
  cbindr (find_root e) (fun root =>
  let r := validate_n (fuel_of e) e false false root (lenZ (e_data e)) in
  (fst r, _ <-? snd r ;; Ret (Ok root))).
