(** C01: length prefixes round-trip (src/value/varint.rs). *)
From Verif Require Import Prelude Spec Varint VarintProofs.

(** For every 64-bit length [v] and every continuation [rest] of the buffer, reading the
    prefix written for [v] gives [v] and the number of bytes written, which is what
    [size_required] announces and at most 10; nothing outside the buffer is read. *)
Theorem C01_varint_round_trip : forall (dbg : bool) (v : Z) (rest : list Z),
  0 <= v < two64 ->
  let w := varint_write v in
  varint_read dbg (mem (w ++ rest)) (lenZ (w ++ rest)) = Ret (lenZ w, v)
  /\ lenZ w = varint_size v
  /\ 1 <= lenZ w <= VARINT_MAX_LEN
  /\ all_bytes w.
Proof. exact varint_round_trip_mem. Qed.
Print Assumptions C01_varint_round_trip.

Example C01_example :
  varint_write 300 = [172; 2] /\ varint_size 300 = 2 /\
  varint_read true (mem ([172; 2] ++ [255; 7])) 4 = Ret (2, 300).
Proof. vm_compute. repeat split. Qed.
Example C01_example_max :
  lenZ (varint_write 18446744073709551615) = 10 /\
  varint_read true (mem (varint_write 18446744073709551615 ++ [255])) 11
  = Ret (10, 18446744073709551615).
Proof. vm_compute. repeat split. Qed.
