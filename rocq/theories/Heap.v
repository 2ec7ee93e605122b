(** container/heap (Go standard library) on a slice with [less]: Push, Pop, up and
    down as in its source, used by ranked_completer.go:105 and :122 with the methods
    of ranked_completer_candidate.go.  Lengths below 2^62, so that the test for
    overflow in down never applies. *)
From Verif Require Import Go.
Local Open Scope nat_scope.

Section heap.
  Context {A : Type} (less : A -> A -> bool).
  (** ranked_completer_candidate.go:31-33 Swap *)
  Definition hp_Swap (q : list A) (i j : nat) : res (list A) :=
    match q !! i, q !! j with Some a, Some b => Ok (<[i := b]> (<[j := a]> q)) | _, _ => Panic end.
  (** ranked_completer_candidate.go:24-29 Less *)
  Definition hp_Less (q : list A) (i j : nat) : res bool :=
    match q !! i, q !! j with Some a, Some b => Ok (less a b) | _, _ => Panic end.
  (** heap.up; (0 - 1) / 2 is 0 in Go and here.  Each turn halves j. *)
  Fixpoint hp_up (fuel : nat) (q : list A) (j : nat) : res (list A) :=
    match fuel with
    | O => Hang
    | S fuel' =>
        let i := Nat.div2 (j - 1) in
        if Nat.eqb i j then Ok q else
        b ← hp_Less q j i;
        if negb b then Ok q else
        q ← hp_Swap q i j;
        hp_up fuel' q i
    end.
  (** heap.down from i to n.  Each turn doubles i. *)
  Fixpoint hp_down (fuel : nat) (q : list A) (i n : nat) : res (list A) :=
    match fuel with
    | O => Hang
    | S fuel' =>
        let j1 := 2 * i + 1 in
        if n <=? j1 then Ok q else
        let j2 := j1 + 1 in
        b ← (if j2 <? n then hp_Less q j2 j1 else Ok false);
        let j := if (b : bool) then j2 else j1 in
        b ← hp_Less q j i;
        if negb b then Ok q else
        q ← hp_Swap q i j;
        hp_down fuel' q j n
    end.
  (** heap.Push; ranked_completer_candidate.go:35-37 Push *)
  Definition hp_Push (q : list A) (x : A) : res (list A) := hp_up (S (length q)) (q ++ [x]) (length q).
  (** heap.Pop; ranked_completer_candidate.go:39-46 Pop.  On an empty slice Swap(0, -1) panics. *)
  Definition hp_Pop (q : list A) : res (A * list A) :=
    match q with
    | [] => Panic
    | _ =>
        let n := length q - 1 in
        q ← hp_Swap q 0 n;
        q ← hp_down (S n) q 0 n;
        match q !! n with Some x => Ok (x, take n q) | None => Panic end
    end.
End heap.
