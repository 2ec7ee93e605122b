(** Model of index.go (Read/Write are in Serial.v), index_builder.go and indexer.go.
    An Index is its units.  The guide is a SomeGuide: a Guide or a RankedGuide, of
    which only Root (0), Child and Sibling are used. *)
From Verif Require Import Go Dawg Dict Guide.
Local Open Scope N_scope.

(** A loop; [step] makes one turn and gives the next state or the result.  No more than
    2^k turns are made, where a loop with fewer states goes on for ever. *)
Fixpoint turns {S A} (k : nat) (step : S -> res (S + A)) (s : S) : res (S + A) :=
  match k with
  | O => step s
  | S k' => r ← turns k' step s; match r with inl s' => turns k' step s' | inr a => Ok (inr a) end
  end.
Definition loop {S A} (k : nat) (step : S -> res (S + A)) (s : S) : res A :=
  r ← turns k step s; match r with inl _ => Hang | inr a => Ok a end.

(** index.go:37-39 ChildCount, :41-43 TotalCount; uint32 *)
Definition ix_ChildCount (ix : list N) (i : N) : res N := get ix i.
Definition ix_TotalCount (ix : list N) : res N := get ix 0.

(** index_builder.go:36-48: the loop over the children of [i]; [rec] is the
    recursive call.  A label met twice comes again for ever, so 256 turns suffice. *)
Definition ib_loop (rec : list N -> N -> res (bool * list N)) (us : dict) (g : guide) (i : N) :=
  fix loop (n : nat) (ix : list N) (child : N) : res (bool * list N) :=
    if child =? 0 then Ok (true, ix) else
    match n with
    | O => Hang
    | S n' =>
        '(ok, childIndex) ← dc_Follow us child i;
        if negb ok then Ok (false, ix) else
        n0 ← get ix childIndex;
        '(ok, ix) ← (if n0 =? 0 then rec ix childIndex else Ok (true, ix));
        if negb ok then Ok (false, ix) else
        c ← get ix childIndex;
        ix ← upd ix i (fun x => u32 (x + c));
        s ← gd_Sibling g childIndex;
        loop n' ix s
    end.
(** index_builder.go:30-51 buildIndices.  The depth is bounded by the number of units
    for every guide of the dictionary (proved); a corrupt guide may go deeper. *)
Fixpoint ib_buildIndices (fuel : nat) (us : dict) (g : guide) (ix : list N) (i : N) : res (bool * list N) :=
  match fuel with
  | O => Hang
  | S fuel' =>
      has ← dc_HasValue us i;
      ix ← (if (has : bool) then upd ix i (fun x => u32 (x + 1)) else Ok ix);
      child ← gd_Child g i;
      ib_loop (ib_buildIndices fuel' us g) us g i 256 ix child
  end.
(** index_builder.go:17-23 BuildIndex, :25-28 Build: None when nil is returned. *)
Definition BuildIndex (us : dict) (g : guide) : res (option (list N)) :=
  '(ok, ix) ← ib_buildIndices (S (length us)) us g (replicate (length us) 0) 0;
  Ok (if (ok : bool) then Some ix else None).

(** indexer.go:17-18 *)
Definition NotFound : N := 4294967295.
Definition Failed : N := 4294967294.
(** indexer.go:40-48: children with labels below [c].  The result is the label
    stopped at and the sum, or None when Failed is returned.  256 turns as above. *)
Fixpoint ir_skip (n : nat) (us : dict) (g : guide) (ix : list N) (i c : N) (child result : N) : res (option (N * N)) :=
  if (child <? c) && negb (child =? 0) then
    match n with
    | O => Hang
    | S n' =>
        '(ok, childIndex) ← dc_Follow us child i;
        if negb ok then Ok None else
        k ← ix_ChildCount ix childIndex;
        s ← gd_Sibling g childIndex;
        ir_skip n' us g ix i c s (u32 (result + k))
    end
  else Ok (Some (child, result)).
(** indexer.go:32-66 BytesToIndex from a position on. *)
Fixpoint ir_walk (us : dict) (g : guide) (ix : list N) (bytes : list N) (i result : N) : res N :=
  match bytes with
  | [] => has ← dc_HasValue us i; Ok (if (has : bool) then result else NotFound)
  | c :: rest =>
      has ← dc_HasValue us i;
      child ← gd_Child g i;
      r ← ir_skip 256 us g ix i c child (if (has : bool) then u32 (result + 1) else result);
      match r with
      | None => Ok Failed
      | Some (child, result) =>
          if child =? 0 then Ok NotFound else
          '(ok, j) ← dc_Follow us c i;
          if negb ok then Ok NotFound else
          ir_walk us g ix rest j result
      end
  end.
Definition ir_BytesToIndex (us : dict) (g : guide) (ix : list N) (bytes : list N) : res N := ir_walk us g ix bytes 0 0.
(** indexer.go:24-26 *)
Definition ir_StringToIndex := ir_BytesToIndex.

(** indexer.go:80-95, one turn: None: return nil; Some (label, child, cur): the child
    whose keys include the wanted one.  The state is childLabel and cur; at most 2^40
    states have a label below 256 and a cur below 2^32. *)
Definition ir_look (us : dict) (g : guide) (ix : list N) (w i : N) (s : N * N) : res (N * N + option (N * N * N)) :=
  let '(child, cur) := s in
  if child =? 0 then Ok (inr None) else
  '(ok, childIndex) ← dc_Follow us child i;
  if negb ok then Ok (inr None) else
  count ← ix_ChildCount ix childIndex;
  if w <? u32 (cur + count) then Ok (inr (Some (child, childIndex, cur))) else
  s ← gd_Sibling g childIndex;
  Ok (inl (s, u32 (cur + count))).
Definition ir_find (us : dict) (g : guide) (ix : list N) (w i child cur : N) : res (option (N * N * N)) :=
  loop 40 (ir_look us g ix w i) (child, cur).
(** indexer.go:72-99, one turn: None for nil.  The state is index, cur and buf; what
    follows depends on the first two, and a turn is made only if index is below the number of units. *)
Definition ir_level (us : dict) (g : guide) (ix : list N) (w : N) (s : N * N * list N) : res (N * N * list N + option (list N)) :=
  let '(i, cur, buf) := s in
  if w <? cur then Ok (inr None) else
  has ← dc_HasValue us i;
  if (has : bool) && (cur =? w) then Ok (inr (Some buf)) else
  let cur := if (has : bool) then u32 (cur + 1) else cur in
  child ← gd_Child g i;
  r ← ir_find us g ix w i child cur;
  match r with
  | None => Ok (inr None)
  | Some (l, j, cur) => Ok (inl (j, cur, buf ++ [l]))
  end.
(** indexer.go:68-103 IndexToBytes *)
Definition ir_IndexToBytes (us : dict) (g : guide) (ix : list N) (w : N) : res (option (list N)) :=
  loop (N.size_nat (N.of_nat (length us)) + 32) (ir_level us g ix w) (0, 0, []).
(** indexer.go:28-30 *)
Definition ir_IndexToString (us : dict) (g : guide) (ix : list N) (w : N) : res (list N) :=
  o ← ir_IndexToBytes us g ix w; Ok (default [] o).
