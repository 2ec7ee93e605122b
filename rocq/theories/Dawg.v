(** Model of base_unit.go, dawg_unit.go, dawg.go and dawg_builder.go. *)
From Verif Require Import Go BitPool LinkTable.
Local Open Scope N_scope.

(** ** base_unit.go.  A BaseUnit is a uint32. *)
(** base_unit.go:5-7 child *)
Definition bu_child (b : N) : N := N.shiftr b 2.
(** base_unit.go:9-11 hasSibling *)
Definition bu_hasSibling (b : N) : bool := negb (N.land b 1 =? 0).
(** base_unit.go:13-15 isState *)
Definition bu_isState (b : N) : bool := negb (N.land b 2 =? 0).
(** base_unit.go:17-19 value: the unit shifted right by 1, as an int32 *)
Definition bu_value (b : N) : Z := i32_of_u32 (N.shiftr b 1).

(** ** dawg_unit.go:3-9 *)
Record dunit := mkDU { u_child : N; u_sibling : N; u_label : N; u_isState : bool; u_hasSibling : bool }.
(** dawg_unit.go:39-45 clear; also the zero value DawgUnit{} *)
Definition du_zero : dunit := mkDU 0 0 0 false false.
(** dawg_unit.go:12-29 base *)
Definition du_base (u : dunit) : N :=
  if u_label u =? 0 then
    let base := shl32 (u_child u) 1 in
    if u_hasSibling u then N.lor base 1 else base
  else
    let base := shl32 (u_child u) 2 in
    let base := if u_isState u then N.lor base 2 else base in
    if u_hasSibling u then N.lor base 1 else base.

(** Field updates. *)
Definition du_set_child (u : dunit) (c : N) := mkDU c (u_sibling u) (u_label u) (u_isState u) (u_hasSibling u).
Definition du_set_sibling (u : dunit) (s : N) := mkDU (u_child u) s (u_label u) (u_isState u) (u_hasSibling u).
Definition du_set_label (u : dunit) (l : N) := mkDU (u_child u) (u_sibling u) l (u_isState u) (u_hasSibling u).
Definition du_set_isState (u : dunit) (b : bool) := mkDU (u_child u) (u_sibling u) (u_label u) b (u_hasSibling u).
Definition du_set_hasSibling (u : dunit) (b : bool) := mkDU (u_child u) (u_sibling u) (u_label u) (u_isState u) b.

(** [s[i].field = ...]: read-modify-write of a slice element. *)
Definition upd {A} (l : list A) (i : N) (f : A -> A) : res (list A) :=
  x ← get l i; set l i (f x).

(** ** dawg.go:3-11.  sizeType (Go int) counters; numOfMergedStates is computed by
    a subtraction, so it is a [Z]. *)
Record dawg := mkDawg {
  d_base : list N; d_label : list N; d_flag : bitpool;
  d_states : N; d_mergedTrans : N; d_mergedStates : Z; d_merging : N }.
(** dawg.go:13-23 NewDawg *)
Definition NewDawg : dawg := mkDawg [] [] NewBitPool 0 0 0 0.
(** dawg.go:26-28 *)
Definition dawg_root : N := 0.
(** dawg.go:31-33 *)
Definition dawg_size (d : dawg) : N := N.of_nat (length (d_base d)).
(** dawg.go:56-58 NumOfTransitions *)
Definition dawg_transitions (d : dawg) : Z := Z.of_nat (length (d_base d)) - 1.
(** dawg.go:61-63 Child *)
Definition dawg_child (d : dawg) (i : N) : res N := b ← get (d_base d) i; Ok (bu_child b).
(** dawg.go:64-69 Sibling *)
Definition dawg_sibling (d : dawg) (i : N) : res N :=
  b ← get (d_base d) i; Ok (if bu_hasSibling b then u32 (i + 1) else 0).
(** dawg.go:70-72 Value *)
Definition dawg_value (d : dawg) (i : N) : res Z := b ← get (d_base d) i; Ok (bu_value b).
(** dawg.go:77-79 Label *)
Definition dawg_lbl (d : dawg) (i : N) : res N := get (d_label d) i.
(** dawg.go:74-76 IsLeaf *)
Definition dawg_isLeaf (d : dawg) (i : N) : res bool := l ← dawg_lbl d i; Ok (l =? 0).
(** dawg.go:80-82 IsMerging *)
Definition dawg_isMerging (d : dawg) (i : N) : res bool := bp_get (d_flag d) i.
(** dawg.go:85-91 Clear: the two merging counters are left as they are. *)
Definition dawg_clear (d : dawg) : dawg :=
  mkDawg [] [] (bp_clear (d_flag d)) 0 (d_mergedTrans d) 0 (d_merging d).

(** ** dawg_builder.go:5-17.  The two stacks unfixedUnits and unusedUnits are lists
    whose head is the last element of the Go slice. *)
Record builder := mkB {
  b_init : Z; b_base : list N; b_label : list N; b_flag : bitpool; b_unit : list dunit;
  b_hash : list N; b_unfixed : list N; b_unused : list N;
  b_states : N; b_mergedTrans : N; b_merging : N }.

Definition set_pools b bs ls fl := mkB (b_init b) bs ls fl (b_unit b) (b_hash b) (b_unfixed b) (b_unused b) (b_states b) (b_mergedTrans b) (b_merging b).
Definition set_flag b fl := mkB (b_init b) (b_base b) (b_label b) fl (b_unit b) (b_hash b) (b_unfixed b) (b_unused b) (b_states b) (b_mergedTrans b) (b_merging b).
Definition set_unit b us := mkB (b_init b) (b_base b) (b_label b) (b_flag b) us (b_hash b) (b_unfixed b) (b_unused b) (b_states b) (b_mergedTrans b) (b_merging b).
Definition set_hash b h := mkB (b_init b) (b_base b) (b_label b) (b_flag b) (b_unit b) h (b_unfixed b) (b_unused b) (b_states b) (b_mergedTrans b) (b_merging b).
Definition set_unfixed b s := mkB (b_init b) (b_base b) (b_label b) (b_flag b) (b_unit b) (b_hash b) s (b_unused b) (b_states b) (b_mergedTrans b) (b_merging b).
Definition set_unused b s := mkB (b_init b) (b_base b) (b_label b) (b_flag b) (b_unit b) (b_hash b) (b_unfixed b) s (b_states b) (b_mergedTrans b) (b_merging b).
Definition set_states b n := mkB (b_init b) (b_base b) (b_label b) (b_flag b) (b_unit b) (b_hash b) (b_unfixed b) (b_unused b) n (b_mergedTrans b) (b_merging b).
Definition set_mergedTrans b n := mkB (b_init b) (b_base b) (b_label b) (b_flag b) (b_unit b) (b_hash b) (b_unfixed b) (b_unused b) (b_states b) n (b_merging b).
Definition set_merging b n := mkB (b_init b) (b_base b) (b_label b) (b_flag b) (b_unit b) (b_hash b) (b_unfixed b) (b_unused b) (b_states b) (b_mergedTrans b) n.

(** dawg_builder.go:22-36 NewDawgBuilderWithSize *)
Definition NewDawgBuilderWithSize (size : Z) : builder :=
  mkB size [] [] NewBitPool [] [] [] [] 1 0 0.
(** dawg_builder.go:3,19-21 NewDawgBuilder *)
Definition NewDawgBuilder : builder := NewDawgBuilderWithSize 256.

(** dawg_builder.go:38-44 *)
Definition b_numOfTransitions (b : builder) : Z := Z.of_nat (length (b_base b)) - 1.
Definition b_numOfMergedStates (b : builder) : Z :=
  (b_numOfTransitions b + Z.of_N (b_mergedTrans b) + 1 - Z.of_N (b_states b))%Z.

(** dawg_builder.go:47-58 allocateUnit *)
Definition allocateUnit (b : builder) : res (N * builder) :=
  match b_unused b with
  | [] => Ok (len32 (b_unit b), set_unit b (b_unit b ++ [du_zero]))
  | index :: rest =>
      us ← set (b_unit b) index du_zero;
      Ok (index, set_unit (set_unused b rest) us)
  end.
(** dawg_builder.go:61-63 freeUnit *)
Definition freeUnit (b : builder) (index : N) : builder := set_unused b (index :: b_unused b).
(** dawg_builder.go:66-71 allocateTransition *)
Definition allocateTransition (b : builder) : N * builder :=
  let b' := set_pools b (b_base b ++ [0]) (b_label b ++ [0]) (bp_allocate (b_flag b)) in
  (u32 (N.of_nat (length (b_label b'))  - 1), b').

(** dawg_builder.go:73-79 init.  make panics on a negative size. *)
Definition db_init (b : builder) : res builder :=
  if (b_init b <? 0)%Z then Panic else
  let b := set_hash b (replicate (Z.to_nat (b_init b)) 0) in
  '(_, b) ← allocateUnit b;
  let '(_, b) := allocateTransition b in
  us ← upd (b_unit b) 0 (fun u => du_set_label u 0xff);
  let b := set_unit b us in
  Ok (set_unfixed b (0 :: b_unfixed b)).

(** dawg_builder.go:94-107 hashTransition.  The index grows at every step and the
    pools are indexed, so [S (length base)] steps are enough to leave the pool. *)
Fixpoint hashTransition_loop (fuel : nat) (base label : list N) (index hashValue : N) : res N :=
  match fuel with
  | O => Hang
  | S fuel' =>
      if index =? 0 then Ok hashValue else
      bs ← get base index;
      l ← get label index;
      let hashValue := N.lxor hashValue (intHash (N.lxor (shl32 l 24) bs)) in
      if bu_hasSibling bs then hashTransition_loop fuel' base label (u32 (index + 1)) hashValue
      else Ok hashValue
  end.
Definition hashTransition (b : builder) (index : N) : res N :=
  hashTransition_loop (S (length (b_base b))) (b_base b) (b_label b) index 0.

(** dawg_builder.go:110-119 hashUnit.  A sibling chain longer than the pool is
    cyclic, so running out of fuel means that the Go loop never ends. *)
Fixpoint hashUnit_loop (fuel : nat) (us : list dunit) (index hashValue : N) : res N :=
  match fuel with
  | O => Hang
  | S fuel' =>
      if index =? 0 then Ok hashValue else
      u ← get us index;
      hashUnit_loop fuel' us (u_sibling u)
        (N.lxor hashValue (intHash (N.lxor (shl32 (u_label u) 24) (du_base u))))
  end.
Definition hashUnit (b : builder) (index : N) : res N :=
  hashUnit_loop (S (length (b_unit b))) (b_unit b) index 0.

(** dawg_builder.go:122-143 areEqual.  First loop: 124-129. *)
Fixpoint areEqual_count (fuel : nat) (us : list dunit) (base : list N) (i t : N) : res (option N) :=
  match fuel with
  | O => Hang
  | S fuel' =>
      if i =? 0 then Ok (Some t) else
      bs ← get base t;
      if bu_hasSibling bs then
        u ← get us i; areEqual_count fuel' us base (u_sibling u) (u32 (t + 1))
      else Ok None
  end.
(** Second loop: 135-142. *)
Fixpoint areEqual_cmp (fuel : nat) (us : list dunit) (base label : list N) (i t : N) : res bool :=
  match fuel with
  | O => Hang
  | S fuel' =>
      if i =? 0 then Ok true else
      u ← get us i;
      bs ← get base t;
      if negb (du_base u =? bs) then Ok false else
      l ← get label t;
      if negb (u_label u =? l) then Ok false else
      areEqual_cmp fuel' us base label (u_sibling u) (dec32 t)
  end.
Definition areEqual (b : builder) (unitIndex transitionIndex : N) : res bool :=
  u ← get (b_unit b) unitIndex;
  r ← areEqual_count (S (length (b_unit b))) (b_unit b) (b_base b) (u_sibling u) transitionIndex;
  match r with
  | None => Ok false
  | Some t =>
      bs ← get (b_base b) t;
      if bu_hasSibling bs then Ok false else
      areEqual_cmp (S (length (b_unit b))) (b_unit b) (b_base b) (b_label b) unitIndex t
  end.

(** dawg_builder.go:146-158 findTransition: the slot where the loop stops.
    [S (length table)] steps visit every slot. *)
Fixpoint findTransition_loop (fuel : nat) (tbl : list N) (hashId : N) : res N :=
  match fuel with
  | O => Hang
  | S fuel' =>
      t ← get tbl hashId;
      if t =? 0 then Ok hashId
      else h ← rem32 (u32 (hashId + 1)) (len32 tbl); findTransition_loop fuel' tbl h
  end.
Definition findTransition (b : builder) (index : N) : res N :=
  hv ← hashTransition b index;
  h ← rem32 hv (len32 (b_hash b));
  findTransition_loop (S (length (b_hash b))) (b_hash b) h.

(** dawg_builder.go:161-175 findUnit: (matched transition or 0, slot). *)
Fixpoint findUnit_loop (fuel : nat) (b : builder) (unitIndex hashId : N) : res (N * N) :=
  match fuel with
  | O => Hang
  | S fuel' =>
      t ← get (b_hash b) hashId;
      if t =? 0 then Ok (0, hashId) else
      eq ← areEqual b unitIndex t;
      if (eq : bool) then Ok (t, hashId)
      else h ← rem32 (u32 (hashId + 1)) (len32 (b_hash b)); findUnit_loop fuel' b unitIndex h
  end.
Definition findUnit (b : builder) (unitIndex : N) : res (N * N) :=
  hv ← hashUnit b unitIndex;
  h ← rem32 hv (len32 (b_hash b));
  findUnit_loop (S (length (b_hash b))) b unitIndex h.

(** dawg_builder.go:178-193 expandHashTable (the unused local count is omitted).
    [k] iterations remain, starting at transition [i]. *)
Fixpoint expand_loop (k : nat) (b : builder) (i : N) : res builder :=
  match k with
  | O => Ok b
  | S k' =>
      let index := u32 i in
      l ← get (b_label b) index;
      bs ← get (b_base b) index;
      if (l =? 0) || bu_isState bs then
        h ← findTransition b index;
        tbl ← set (b_hash b) h index;
        expand_loop k' (set_hash b tbl) (i + 1)
      else expand_loop k' b (i + 1)
  end.
Definition expandHashTable (b : builder) : res builder :=
  let size := N.shiftl (N.of_nat (length (b_hash b))) 1 in
  let b := set_hash b (replicate (N.to_nat size) 0) in
  expand_loop (length (b_base b) - 1) b 1.

(** dawg_builder.go:206-209: length of a sibling chain. *)
Fixpoint countSiblings (fuel : nat) (us : list dunit) (i : N) : res nat :=
  match fuel with
  | O => Hang
  | S fuel' => if i =? 0 then Ok O else u ← get us i; n ← countSiblings fuel' us (u_sibling u); Ok (S n)
  end.
(** dawg_builder.go:223-226 *)
Fixpoint allocateTransitions (n : nat) (b : builder) (t : N) : N * builder :=
  match n with O => (t, b) | S n' => let '(t', b') := allocateTransition b in allocateTransitions n' b' t' end.
(** dawg_builder.go:227-231 *)
Fixpoint writeTransitions (fuel : nat) (us : list dunit) (base label : list N) (i t : N)
  : res (list N * list N * N) :=
  match fuel with
  | O => Hang
  | S fuel' =>
      if i =? 0 then Ok (base, label, t) else
      u ← get us i;
      base ← set base t (du_base u);
      label ← set label t (u_label u);
      writeTransitions fuel' us base label (u_sibling u) (dec32 t)
  end.
(** dawg_builder.go:238-242 *)
Fixpoint freeUnits (fuel : nat) (b : builder) (current : N) : res builder :=
  match fuel with
  | O => Hang
  | S fuel' =>
      if current =? 0 then Ok b else
      u ← get (b_unit b) current; freeUnits fuel' (freeUnit b current) (u_sibling u)
  end.

(** dawg_builder.go:199-244: one iteration of the loop of fixUnits, after the top
    [unfixedIndex] of the stack has been popped ([b_unfixed b] is the rest). *)
Definition fixUnit (b : builder) (unfixedIndex : N) : res builder :=
  let len := N.of_nat (length (b_hash b)) in
  b ← (if len - N.shiftr len 2 <=? b_states b then expandHashTable b else Ok b);
  n ← countSiblings (S (length (b_unit b))) (b_unit b) unfixedIndex;
  '(matched, hashId) ← findUnit b unfixedIndex;
  '(matchedIndex, b) ←
    (if negb (matched =? 0) then
       let b := set_mergedTrans b (b_mergedTrans b + N.of_nat n) in
       fl ← bp_get (b_flag b) matched;
       if (fl : bool) then Ok (matched, b) else
       let b := set_merging b (b_merging b + 1) in
       fp ← bp_set (b_flag b) matched true;
       Ok (matched, set_flag b fp)
     else
       let '(t, b) := allocateTransitions n b 0 in
       '(bs, ls, t) ← writeTransitions (S (length (b_unit b))) (b_unit b) (b_base b) (b_label b) unfixedIndex t;
       let b := set_pools b bs ls (b_flag b) in
       let matchedIndex := u32 (t + 1) in
       tbl ← set (b_hash b) hashId matchedIndex;
       Ok (matchedIndex, set_states (set_hash b tbl) (b_states b + 1)));
  b ← freeUnits (S (length (b_unit b))) b unfixedIndex;
  match b_unfixed b with
  | [] => Panic
  | top :: _ =>
      us ← upd (b_unit b) top (fun u => du_set_child u matchedIndex);
      Ok (set_unit b us)
  end.

(** dawg_builder.go:197-247 fixUnits.  Structural on the stack, which the loop
    pops at every iteration. *)
Fixpoint fixUnits_loop (stack : list N) (b : builder) (index : N) : res builder :=
  match stack with
  | [] => Panic
  | top :: rest =>
      if top =? index then Ok (set_unfixed b rest)
      else b' ← fixUnit (set_unfixed b rest) top; fixUnits_loop rest b' index
  end.
Definition fixUnits (b : builder) (index : N) : res builder :=
  fixUnits_loop (b_unfixed b) b index.

(** dawg_builder.go:249-262 clear *)
Definition db_clear (b : builder) : builder :=
  mkB (b_init b) [] [] (bp_clear (b_flag b)) [] [0] [] [] 1 0 0.

(** [key[keyPos]] when keyPos < length, else 0 (dawg_builder.go:280-283, 301-304). *)
Definition key_label (key : list N) (length keyPos : Z) : res N :=
  if (keyPos <? length)%Z then
    match key !! Z.to_nat keyPos with Some l => Ok l | None => Panic end
  else Ok 0.

(** dawg_builder.go:274-297.  [k] iterations remain.  Result: None for "return
    false", otherwise (index, keyPos, builder). *)
Fixpoint insert_find (k : nat) (b : builder) (key : list N) (length : Z) (index : N) (keyPos : Z)
  : res (option (N * Z * builder)) :=
  match k with
  | O => Ok (Some (index, keyPos, b))
  | S k' =>
      u ← get (b_unit b) index;
      let childIndex := u_child u in
      if childIndex =? 0 then Ok (Some (index, keyPos, b)) else
      keyLabel ← key_label key length keyPos;
      cu ← get (b_unit b) childIndex;
      let unitLabel := u_label cu in
      if keyLabel <? unitLabel then Ok None
      else if unitLabel <? keyLabel then
        us ← upd (b_unit b) childIndex (fun u => du_set_hasSibling u true);
        b ← fixUnits (set_unit b us) childIndex;
        Ok (Some (index, keyPos, b))
      else insert_find k' b key length childIndex (keyPos + 1)
  end.
(** dawg_builder.go:300-317 *)
Fixpoint insert_add (k : nat) (b : builder) (key : list N) (length : Z) (index : N) (keyPos : Z)
  : res (N * builder) :=
  match k with
  | O => Ok (index, b)
  | S k' =>
      keyLabel ← key_label key length keyPos;
      '(childIndex, b) ← allocateUnit b;
      u ← get (b_unit b) index;
      us ← (if u_child u =? 0 then upd (b_unit b) childIndex (fun c => du_set_isState c true) else Ok (b_unit b));
      us ← upd us childIndex (fun c => du_set_label (du_set_sibling c (u_child u)) keyLabel);
      us ← upd us index (fun u => du_set_child u childIndex);
      let b := set_unfixed (set_unit b us) (childIndex :: b_unfixed b) in
      insert_add k' b key length childIndex (keyPos + 1)
  end.
(** dawg_builder.go:264-320 InsertKeyValue *)
Definition InsertKeyValue (b : builder) (key : list N) (length : Z) (value : Z) : res (bool * builder) :=
  b ← (match b_hash b with [] => db_init b | _ => Ok b end);
  r ← insert_find (Z.to_nat (length + 1)) b key length 0 0;
  match r with
  | None => Ok (false, b)
  | Some (index, keyPos, b) =>
      '(index, b) ← insert_add (Z.to_nat (length + 1 - keyPos)) b key length index keyPos;
      us ← upd (b_unit b) index (fun u => du_set_child u (u32_of_i32 value));
      Ok (true, set_unit b us)
  end.
(** dawg_builder.go:322-328 InsertStringValue, InsertString *)
Definition InsertStringValue (b : builder) (key : list N) (value : Z) : res (bool * builder) :=
  InsertKeyValue b key (Z.of_nat (length key)) value.
Definition InsertString (b : builder) (key : list N) : res (bool * builder) :=
  InsertKeyValue b key (Z.of_nat (length key)) 0.

(** dawg_builder.go:331-351 Finish: (dawg, builder). *)
Definition Finish (b : builder) (d : dawg) : res (dawg * builder) :=
  b ← (match b_hash b with [] => db_init b | _ => Ok b end);
  b ← fixUnits b 0;
  u ← get (b_unit b) 0;
  bs ← set (b_base b) 0 (du_base u);
  ls ← set (b_label b) 0 (u_label u);
  let b := set_pools b bs ls (b_flag b) in
  let d' := mkDawg (b_base b) (b_label b) (b_flag b) (b_states b) (b_mergedTrans b)
                   (b_numOfMergedStates b) (b_merging b) in
  Ok (d', db_clear (set_pools b (d_base d) (d_label d) (d_flag d))).
