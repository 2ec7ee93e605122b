(** Model of the package-level state of utfc.go: sharedState and sharedBuffer
    (utfc.go:126-130), with the backing arrays of slices made explicit, and of
    the two callers whose observable behaviour depends on it: UtfcEncode
    (utfc.go:301-306) and the -u comparison function of cmd/dawgtool/main.go:82-103. *)
From Verif Require Import Go Utfc.

(** A slice header: which backing array, and the length (offset is always 0 for
    the slices involved; capacity is the length of the backing array). *)
Record slice := mkSl { s_arr : nat; s_len : nat }.
Record uheap := mkH { arrays : list (list N); shared : slice; gstate : ustate }.

(** The bytes seen through a slice. *)
Definition read (h : uheap) (s : slice) : list N :=
  match arrays h !! s_arr s with Some a => take (s_len s) a | None => [] end.

Section Heap.
  (** Go's growth policy: any function; the new capacity is at least
      [S (s_len s)] whatever it is. *)
  Context (grow : nat -> nat).

  (** utfc.go:11-14 (bb *byteBuffer) Follow: bb.buf = append(bb.buf, b) *)
  Definition buf_append (h : uheap) (b : N) : uheap * bool :=
    let s := shared h in
    match arrays h !! s_arr s with
    | None => (h, true)   (* unreachable: the array of a slice exists *)
    | Some a =>
        if Nat.ltb (s_len s) (length a) then
          (mkH (<[s_arr s := <[s_len s := b]> a]> (arrays h)) (mkSl (s_arr s) (S (s_len s))) (gstate h), true)
        else
          let cap' := Nat.max (S (s_len s)) (grow (length a)) in
          let a' := take (s_len s) a ++ b :: replicate (cap' - S (s_len s)) 0%N in
          (mkH (arrays h ++ [a']) (mkSl (length (arrays h)) (S (s_len s))) (gstate h), true)
    end.

  (** utfc.go:302-306 UtfcEncode: truncates the shared buffer, follows, returns
      the shared slice.  Also returns the new package-level state. *)
  Definition UtfcEncode (h : uheap) (str : list Z) : slice * uheap :=
    let h0 := mkH (arrays h) (mkSl (s_arr (shared h)) 0) (gstate h) in
    let '(h1, st, _) := utfc_follow buf_append str h0 in
    let h2 := mkH (arrays h1) (shared h1) st in
    (shared h2, h2).

  (** Package initialisation: utfc.go:127-130 *)
  Definition uheap_init : uheap :=
    mkH [replicate (Z.to_nat 1024) 0%N] (mkSl 0 0) (mkU 0 0 false).

  (** A history of earlier calls. *)
  Definition run_encodes (h : uheap) (strs : list (list Z)) : uheap :=
    fold_left (fun h s => snd (UtfcEncode h s)) strs h.

  (** cmd/dawgtool/main.go:86-102: the comparison used by -s -u, on the two
      results read after both calls.  Byte-wise comparison loop: *)
  Fixpoint bytes_less (n : nat) (b1 b2 : list N) : option bool :=
    match n, b1, b2 with
    | S n', x :: b1', y :: b2' =>
        if (x <? y)%N then Some true else if (y <? x)%N then Some false else bytes_less n' b1' b2'
    | _, _, _ => None
    end.
  Definition utfc_sort_less (h : uheap) (line1 line2 : list Z) : bool * uheap :=
    let '(s1, h1) := UtfcEncode h line1 in
    let '(s2, h2) := UtfcEncode h1 line2 in
    let bytes1 := read h2 s1 in
    let bytes2 := read h2 s2 in
    match bytes_less (Nat.min (length bytes1) (length bytes2)) bytes1 bytes2 with
    | Some r => (r, h2)
    | None => (Nat.ltb (length bytes1) (length bytes2), h2)
    end.
End Heap.
