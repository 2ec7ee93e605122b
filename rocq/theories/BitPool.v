(** Model of bit_pool.go. *)
From Verif Require Import Go.
Local Open Scope N_scope.

(** bit_pool.go:5-8.  A uint64 is an [N] below 2^64. *)
Record bitpool := mkBP { bp_words : list N; bp_size : N }.

(** bit_pool.go:10-15 NewBitPool *)
Definition NewBitPool : bitpool := mkBP [] 0.
(** bit_pool.go:17-20 clear *)
Definition bp_clear (p : bitpool) : bitpool := mkBP [] 0.
(** bit_pool.go:22-27 allocate *)
Definition bp_allocate (p : bitpool) : bitpool :=
  mkBP (if bp_size p mod 64 =? 0 then bp_words p ++ [0] else bp_words p) (bp_size p + 1).
(** bit_pool.go:29-31 get.  [1 << uint8(index&63)] is an untyped constant shifted
    in uint64. *)
Definition bp_get (p : bitpool) (index : N) : res bool :=
  w ← get (bp_words p) (N.shiftr index 6);
  Ok (negb (N.land w (N.shiftl 1 (N.land index 63)) =? 0)).
(** bit_pool.go:33-39 set *)
Definition bp_set (p : bitpool) (index : N) (bit : bool) : res bitpool :=
  w ← get (bp_words p) (N.shiftr index 6);
  let m := N.shiftl 1 (N.land index 63) in
  ws ← set (bp_words p) (N.shiftr index 6) (if bit then N.lor w m else N.ldiff w m);
  Ok (mkBP ws (bp_size p)).
