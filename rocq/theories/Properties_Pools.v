(** Property theorems for bit_pool.go (C29) and link_table.go (C30). *)
From Verif Require Import Go BitPool BitPoolProofs LinkTable LinkTableProofs.
Local Open Scope N_scope.

(** C29. A history of allocate/set either panics because it sets a bit beyond
    the allocated words, or afterwards get reads at every position the last bit
    set there (false if none), panicking only beyond the allocated words. *)
Theorem C29_bitpool_array os :
  match brun NewBitPool os with
  | Ok p => forall i, bp_get p i =
              if i <? bit_capacity (allocs os) then Ok (last_set os i) else Panic
  | Panic => exists os1 i b os2, os = os1 ++ SetBit i b :: os2 /\ bit_capacity (allocs os1) <= i
  | Hang => False
  end.
Proof. exact (bitpool_array os). Qed.
Print Assumptions C29_bitpool_array.
Example C29_case :
  let os := replicate 70 Alloc ++ [SetBit 3 true; SetBit 65 true; SetBit 3 false; SetBit 69 true] in
  exists p, brun NewBitPool os = Ok p /\ bp_get p 3 = Ok false /\ bp_get p 65 = Ok true /\
            bp_get p 64 = Ok false /\ bp_get p 69 = Ok true /\ bp_get p 128 = Panic.
Proof. eexists. vm_compute. done. Qed.

(** C30. For a table of [size] slots and a history of inserts of non-zero
    indices: the history runs to the end iff it has at most [size] distinct
    indices (else it hangs); then Find gives the last offset inserted, and for
    an index never inserted 0, or no answer when the table is full. *)
Theorem C30_linktable_map size ops : 0 < size < two32 -> Forall (fun p => fst p <> 0) ops ->
  match lt_run (NewLinkTable size) ops with
  | Ok lt => (length (indices ops) <= N.to_nat size)%nat /\
      forall i, i <> 0 ->
        lt_find lt i = match last_insert ops i with
                       | Some o => Ok o
                       | None => if Nat.ltb (length (indices ops)) (N.to_nat size) then Ok 0 else Hang
                       end
  | Panic => False
  | Hang => (N.to_nat size < length (indices ops))%nat
  end.
Proof. exact (linktable_map size ops). Qed.
Print Assumptions C30_linktable_map.
Example C30_case :
  let ops := [(5, 7); (9, 8); (5, 11)] in
  Forall (fun p => fst p <> 0) ops /\
  exists lt, lt_run (NewLinkTable 3) ops = Ok lt /\
    lt_find lt 5 = Ok 11 /\ lt_find lt 9 = Ok 8 /\ lt_find lt 6 = Ok 0.
Proof. split; [by repeat constructor|]. eexists. vm_compute. done. Qed.
