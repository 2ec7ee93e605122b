(** Model of dictionary_unit.go, dictionary_extra_unit.go, dictionary.go (queries;
    Read/Write are in Serial.v) and dictionary_builder.go. *)
From Verif Require Import Go BitPool LinkTable Dawg.
Local Open Scope N_scope.

(** ** dictionary_unit.go.  A DictionaryUnit is a uint32; the setters return the
    new unit. *)
(** dictionary_unit.go:3-6 *)
Definition offsetMax : N := 2097152.
Definition isLeafBit : N := 2147483648.
Definition hasLeafBit : N := 256.
Definition extensionBit : N := 512.
(** dictionary_unit.go:13-15 dictSetHasLeaf *)
Definition dictSetHasLeaf (base : N) : N := N.lor base hasLeafBit.
(** dictionary_unit.go:18-20 dictSetValue *)
Definition dictSetValue (value : Z) : N := N.lor (u32_of_i32 value) isLeafBit.
(** dictionary_unit.go:23-25 dictSetLabel *)
Definition dictSetLabel (base label : N) : N := N.lor (andnot base 255) label.
(** dictionary_unit.go:28-40 dictSetOffset *)
Definition dictSetOffset (base offset : N) : bool * N :=
  if shl32 offsetMax 8 <=? offset then (false, base) else
  let base := N.land base (N.lor (N.lor isLeafBit hasLeafBit) 255) in
  if offset <? offsetMax then (true, N.lor base (shl32 offset 10))
  else (true, N.lor base (N.lor (shl32 offset 2) extensionBit)).
(** dictionary_unit.go:43-45 dictHasLeaf *)
Definition dictHasLeaf (base : N) : bool := negb (N.land base hasLeafBit =? 0).
(** dictionary_unit.go:48-50 dictValue *)
Definition dictValue (base : N) : Z := i32_of_u32 (andnot base isLeafBit).
(** dictionary_unit.go:53-55 dictLabel: ucharType truncates to 8 bits. *)
Definition dictLabel (base : N) : N := u8 (N.land base (N.lor isLeafBit 255)).
(** dictionary_unit.go:58-60 dictOffset *)
Definition dictOffset (base : N) : N :=
  shl32 (N.shiftr base 10) (N.shiftr (N.land base extensionBit) 6).
(** dictionary_unit.go:62-64 dictHasExtBit *)
Definition dictHasExtBit (base : N) : bool := negb (N.land base extensionBit =? 0).
(** dictionary_unit.go:66-68 dictIsLeaf *)
Definition dictIsLeaf (base : N) : bool := negb (N.land base isLeafBit =? 0).

(** ** dictionary_extra_unit.go: (loValues, hiValues) *)
Notation extra := (N * N)%type.
(** :15-17 setIsFixed *)
Definition ex_setIsFixed (e : extra) : extra := (N.lor e.1 1, e.2).
(** :20-22 setNext *)
Definition ex_setNext (next : N) (e : extra) : extra := (N.lor (N.land e.1 1) (shl32 next 1), e.2).
(** :25-27 setIsUsed *)
Definition ex_setIsUsed (e : extra) : extra := (e.1, N.lor e.2 1).
(** :30-32 setPrev *)
Definition ex_setPrev (prev : N) (e : extra) : extra := (e.1, N.lor (N.land e.2 1) (shl32 prev 1)).
(** :35-37 isFixed, :40-42 next, :45-47 isUsed, :50-52 prev *)
Definition ex_isFixed (e : extra) : bool := N.land e.1 1 =? 1.
Definition ex_next (e : extra) : N := N.shiftr e.1 1.
Definition ex_isUsed (e : extra) : bool := N.land e.2 1 =? 1.
Definition ex_prev (e : extra) : N := N.shiftr e.2 1.

(** ** dictionary.go.  A Dictionary is its units: [size] always equals
    [len(units)] (setUnits, :16-19). *)
Notation dict := (list N).
(** :38-40 HasValue, :43-45 Value *)
Definition dc_HasValue (d : dict) (index : N) : res bool := u ← get d index; Ok (dictHasLeaf u).
Definition dc_Value (d : dict) (index : N) : res Z :=
  u ← get d index; v ← get d (N.lxor index (dictOffset u)); Ok (dictValue v).
(** :146-153 Follow: (result, index) *)
Definition dc_Follow (d : dict) (label index : N) : res (bool * N) :=
  u ← get d index;
  let nextIndex := N.lxor (N.lxor index (dictOffset u)) label in
  n ← get d nextIndex;
  if negb (dictLabel n =? label) then Ok (false, index) else Ok (true, nextIndex).
(** :156-163 FollowString *)
Fixpoint dc_FollowString (d : dict) (key : list N) (index : N) : res (bool * N) :=
  match key with
  | [] => Ok (true, index)
  | c :: key' =>
      '(ok, index) ← dc_Follow d c index;
      if (ok : bool) then dc_FollowString d key' index else Ok (false, index)
  end.
(** :164-172 FollowStringCount: (result, index, count) *)
Fixpoint dc_FollowStringCount (d : dict) (key : list N) (index : N) (count : Z) : res (bool * N * Z) :=
  match key with
  | [] => Ok (true, index, count)
  | c :: key' =>
      '(ok, index) ← dc_Follow d c index;
      if (ok : bool) then dc_FollowStringCount d key' index (count + 1) else Ok (false, index, count)
  end.
(** :175-182 FollowStringLen: [n] iterations remain, at position [i]. *)
Fixpoint follow_len (n : nat) (d : dict) (key : list N) (i : nat) (index : N) (count : Z) : res (bool * N * Z) :=
  match n with
  | O => Ok (true, index, count)
  | S n' =>
      c ← get key (N.of_nat i);
      '(ok, index) ← dc_Follow d c index;
      if (ok : bool) then follow_len n' d key (S i) index (count + 1) else Ok (false, index, count)
  end.
Definition dc_FollowStringLen (d : dict) (key : list N) (length : Z) (index : N) : res (bool * N) :=
  '(ok, index, _) ← follow_len (Z.to_nat length) d key 0 index 0; Ok (ok, index).
(** :183-191 FollowStringLenCount *)
Definition dc_FollowStringLenCount (d : dict) (key : list N) (length : Z) (index : N) (count : Z) : res (bool * N * Z) :=
  follow_len (Z.to_nat length) d key 0 index count.
(** :90-96 ContainsString, :97-103 ContainsStringLen *)
Definition dc_ContainsString (d : dict) (key : list N) : res bool :=
  '(ok, index) ← dc_FollowString d key 0;
  if negb ok then Ok false else dc_HasValue d index.
Definition dc_ContainsStringLen (d : dict) (key : list N) (length : Z) : res bool :=
  '(ok, index) ← dc_FollowStringLen d key length 0;
  if negb ok then Ok false else dc_HasValue d index.
(** :106-115 FindString, :116-125 FindStringLen *)
Definition dc_FindString (d : dict) (key : list N) : res Z :=
  '(ok, index) ← dc_FollowString d key 0;
  if negb ok then Ok (-1)%Z else
  h ← dc_HasValue d index;
  if (h : bool) then dc_Value d index else Ok (-1)%Z.
Definition dc_FindStringLen (d : dict) (key : list N) (length : Z) : res Z :=
  '(ok, index) ← dc_FollowStringLen d key length 0;
  if negb ok then Ok (-1)%Z else
  h ← dc_HasValue d index;
  if (h : bool) then dc_Value d index else Ok (-1)%Z.
(** :126-133 FindStringValue, :134-141 FindStringLenValue: (result, *value) *)
Definition dc_FindStringValue (d : dict) (key : list N) (value : Z) : res (bool * Z) :=
  '(ok, index) ← dc_FollowString d key 0;
  if negb ok then Ok (false, value) else
  h ← dc_HasValue d index;
  if negb h then Ok (false, value) else
  v ← dc_Value d index; Ok (true, v).
Definition dc_FindStringLenValue (d : dict) (key : list N) (length : Z) (value : Z) : res (bool * Z) :=
  '(ok, index) ← dc_FollowStringLen d key length 0;
  if negb ok then Ok (false, value) else
  h ← dc_HasValue d index;
  if negb h then Ok (false, value) else
  v ← dc_Value d index; Ok (true, v).

(** ** dictionary_builder.go.  [labels] (:22) is a scratch field that
    arrangeChildNodes refills before every use; here it is a local list. *)
Definition blockSize : N := 256.
Definition numOfUnfixedBlocks : N := 16.
Definition upperMask : N := not32 (offsetMax - 1).
Definition lowerMask : N := 255.
Record dbuilder := mkDB {
  db_units : list N; db_extras : list (list extra); db_link : linktable;
  db_unfixed : N; db_unused : N }.
Definition dbset_units b us := mkDB us (db_extras b) (db_link b) (db_unfixed b) (db_unused b).
Definition dbset_extras b es := mkDB (db_units b) es (db_link b) (db_unfixed b) (db_unused b).
Definition dbset_link b l := mkDB (db_units b) (db_extras b) l (db_unfixed b) (db_unused b).
Definition dbset_unfixed b i := mkDB (db_units b) (db_extras b) (db_link b) i (db_unused b).
Definition dbset_unused b n := mkDB (db_units b) (db_extras b) (db_link b) (db_unfixed b) n.

(** :52-54 numOfUnits, :56-58 numOfBlocks *)
Definition numOfUnits (b : dbuilder) : N := len32 (db_units b).
Definition numOfBlocks (b : dbuilder) : N := len32 (db_extras b).
(** :60-62 extra: a nil block has no elements. *)
Definition db_extra (b : dbuilder) (index : N) : res extra :=
  blk ← get (db_extras b) (index / blockSize); get blk (index mod blockSize).
Definition db_extra_upd (b : dbuilder) (index : N) (f : extra -> extra) : res dbuilder :=
  blk ← get (db_extras b) (index / blockSize);
  blk ← upd blk (index mod blockSize) f;
  es ← set (db_extras b) (index / blockSize) blk;
  Ok (dbset_extras b es).

(** [f] on begin, begin+1, ..., n values. *)
Fixpoint for_range (n : nat) (i : N) (f : N -> dbuilder -> res dbuilder) (b : dbuilder) : res dbuilder :=
  match n with O => Ok b | S n' => b ← f i b; for_range n' (u32 (i + 1)) f b end.

(** :216-224: the part of reserveUnit after the expansion. *)
Definition unlinkUnit (b : dbuilder) (index : N) : res dbuilder :=
  b ← (if index =? db_unfixed b then
         e ← db_extra b index;
         Ok (dbset_unfixed b (if ex_next e =? index then numOfUnits b else ex_next e))
       else Ok b);
  e ← db_extra b index;
  b ← db_extra_upd b (ex_prev e) (ex_setNext (ex_next e));
  e ← db_extra b index;
  b ← db_extra_upd b (ex_next e) (ex_setPrev (ex_prev e));
  db_extra_upd b index ex_setIsFixed.

(** :285-292: the first offset of the block that is not used, else 0. *)
Fixpoint findUnused (n : nat) (b : dbuilder) (i : N) : res N :=
  match n with
  | O => Ok 0
  | S n' => e ← db_extra b i; if negb (ex_isUsed e) then Ok i else findUnused n' b (u32 (i + 1))
  end.
(** :279-303 fixBlock, given reserveUnit. *)
Definition fixBlock_with (reserve : dbuilder -> N -> res dbuilder) (b : dbuilder) (blockId : N) : res dbuilder :=
  let begin := u32 (blockId * blockSize) in
  unusedOffset ← findUnused 256 b begin;
  for_range 256 begin (fun index b =>
    e ← db_extra b index;
    if ex_isFixed e then Ok b else
    b ← reserve b index;
    us ← upd (db_units b) index (fun u => dictSetLabel u (u8 (N.lxor index unusedOffset)));
    Ok (dbset_unused (dbset_units b us) (u32 (db_unused b + 1)))) b.

(** :239-252 of expandDictionary: a new block of units, and extras for it. *)
Definition addBlock (srcUnits srcBlocks destBlocks : N) (b : dbuilder) : res dbuilder :=
  let b := dbset_units b (db_units b ++ replicate 256 0) in
  let b := dbset_extras b (db_extras b ++ [[]]) in
  if numOfUnfixedBlocks <? destBlocks then
    let blockId := srcBlocks - numOfUnfixedBlocks in
    old ← get (db_extras b) blockId;
    es ← set (db_extras b) blockId [];
    es ← set es (N.of_nat (length es) - 1) old;
    for_range 256 srcUnits (fun i b => db_extra_upd b i (fun _ => (0, 0))) (dbset_extras b es)
  else
    es ← set (db_extras b) (N.of_nat (length (db_extras b)) - 1) (replicate 256 (0, 0));
    Ok (dbset_extras b es).
(** :254-264 of expandDictionary: the new units enter the circular list. *)
Definition linkBlock (srcUnits destUnits : N) (b : dbuilder) : res dbuilder :=
  b ← for_range 255 (u32 (srcUnits + 1)) (fun i b =>
        b ← db_extra_upd b (dec32 i) (ex_setNext i); db_extra_upd b i (ex_setPrev (dec32 i))) b;
  b ← db_extra_upd b srcUnits (ex_setPrev (dec32 destUnits));
  b ← db_extra_upd b (dec32 destUnits) (ex_setNext srcUnits);
  e ← db_extra b (db_unfixed b);
  b ← db_extra_upd b srcUnits (ex_setPrev (ex_prev e));
  b ← db_extra_upd b (dec32 destUnits) (ex_setNext (db_unfixed b));
  e ← db_extra b (db_unfixed b);
  b ← db_extra_upd b (ex_prev e) (ex_setNext srcUnits);
  db_extra_upd b (db_unfixed b) (ex_setPrev (dec32 destUnits)).
(** :227-265 expandDictionary, given reserveUnit. *)
Definition expand_with (reserve : dbuilder -> N -> res dbuilder) (b : dbuilder) : res dbuilder :=
  let srcUnits := numOfUnits b in
  let srcBlocks := numOfBlocks b in
  let destUnits := u32 (srcUnits + blockSize) in
  let destBlocks := u32 (srcBlocks + 1) in
  b ← (if numOfUnfixedBlocks <? destBlocks then fixBlock_with reserve b (srcBlocks - numOfUnfixedBlocks) else Ok b);
  b ← addBlock srcUnits srcBlocks destBlocks b;
  linkBlock srcUnits destUnits b.

(** :208-225 reserveUnit.  It is called again, through expandDictionary and
    fixBlock, on units below numOfUnits only, where it expands no further; the
    inner call of the model is [Hang] otherwise. *)
Definition reserve_in (b : dbuilder) (index : N) : res dbuilder :=
  if numOfUnits b <=? index then Hang else unlinkUnit b index.
Definition reserveUnit (b : dbuilder) (index : N) : res dbuilder :=
  b ← (if numOfUnits b <=? index then expand_with reserve_in b else Ok b);
  unlinkUnit b index.
Definition fixBlock (b : dbuilder) (blockId : N) : res dbuilder := fixBlock_with reserveUnit b blockId.

(** :268-278 fixAllBlocks *)
Definition fixAllBlocks (b : dbuilder) : res dbuilder :=
  let begin := if numOfUnfixedBlocks <? numOfBlocks b then numOfBlocks b - numOfUnfixedBlocks else 0 in
  for_range (N.to_nat (numOfBlocks b - begin)) begin (fun i b => fixBlock b i) b.

(** :188-205 isGoodOffset *)
Fixpoint no_collision (b : dbuilder) (offset : N) (labels : list N) : res bool :=
  match labels with
  | [] => Ok true
  | l :: ls => e ← db_extra b (N.lxor offset l); if ex_isFixed e then Ok false else no_collision b offset ls
  end.
Definition isGoodOffset (b : dbuilder) (labels : list N) (index offset : N) : res bool :=
  e ← db_extra b offset;
  if ex_isUsed e then Ok false else
  let rel := N.lxor index offset in
  if negb (N.land rel lowerMask =? 0) && negb (N.land rel upperMask =? 0) then Ok false
  else no_collision b offset (tail labels).

(** :164-185 findGoodOffset.  The loop walks the circular list of unfixed units,
    which has at most [length units] elements. *)
Fixpoint findGood_loop (fuel : nat) (b : dbuilder) (labels : list N) (index cur : N) : res N :=
  match fuel with
  | O => Hang
  | S fuel' =>
      l0 ← get labels 0;
      let offset := N.lxor cur l0 in
      good ← isGoodOffset b labels index offset;
      if (good : bool) then Ok offset else
      e ← db_extra b cur;
      if ex_next e =? db_unfixed b then Ok (N.lor (numOfUnits b) (N.land index 255))
      else findGood_loop fuel' b labels index (ex_next e)
  end.
Definition findGoodOffset (b : dbuilder) (labels : list N) (index : N) : res N :=
  if numOfUnits b <=? db_unfixed b then Ok (N.lor (numOfUnits b) (N.land index 255))
  else findGood_loop (S (length (db_units b))) b labels index (db_unfixed b).

(** :132-136: labels of a sibling chain. *)
Fixpoint chainLabels (fuel : nat) (d : dawg) (c : N) : res (list N) :=
  match fuel with
  | O => Hang
  | S fuel' =>
      if c =? 0 then Ok [] else
      l ← dawg_lbl d c; n ← dawg_sibling d c; ls ← chainLabels fuel' d n; Ok (l :: ls)
  end.
(** :145-157 *)
Fixpoint placeChildren (d : dawg) (dictIndex offset : N) (labels : list N) (b : dbuilder) (c : N) : res dbuilder :=
  match labels with
  | [] => Ok b
  | l :: ls =>
      let child := N.lxor offset l in
      b ← reserveUnit b child;
      leaf ← dawg_isLeaf d c;
      us ← (if (leaf : bool) then
              us ← upd (db_units b) dictIndex dictSetHasLeaf;
              v ← dawg_value d c;
              upd us child (fun _ => dictSetValue v)
            else upd (db_units b) child (fun u => dictSetLabel u l));
      n ← dawg_sibling d c;
      placeChildren d dictIndex offset ls (dbset_units b us) n
  end.
(** :128-161 arrangeChildNodes *)
Definition arrangeChildNodes (d : dawg) (b : dbuilder) (dawgIndex dictIndex : N) : res (N * dbuilder) :=
  c ← dawg_child d dawgIndex;
  labels ← chainLabels (S (length (d_base d))) d c;
  offset ← findGoodOffset b labels dictIndex;
  u ← get (db_units b) dictIndex;
  let '(ok, u') := dictSetOffset u (N.lxor dictIndex offset) in
  if negb ok then Ok (0, b) else
  us ← set (db_units b) dictIndex u';
  b ← placeChildren d dictIndex offset labels (dbset_units b us) c;
  b ← db_extra_upd b offset ex_setIsUsed;
  Ok (offset, b).

(** :84-125 buildDictionaryIndices.  [fuel] bounds the depth of the recursion and
    [n] the length of a sibling chain. *)
Fixpoint buildIndices (fuel : nat) (d : dawg) (b : dbuilder) (dawgIndex dictIndex : N) : res (bool * dbuilder) :=
  match fuel with
  | O => Hang
  | S fuel' =>
      leaf ← dawg_isLeaf d dawgIndex;
      if (leaf : bool) then Ok (true, b) else
      c ← dawg_child d dawgIndex;
      merging ← dawg_isMerging d c;
      reuse ← (if (merging : bool) then
                 offset ← lt_find (db_link b) c;
                 if offset =? 0 then Ok None else
                 let rel := N.lxor offset dictIndex in
                 Ok (if (N.land rel upperMask =? 0) || (N.land rel lowerMask =? 0) then Some rel else None)
               else Ok None);
      match reuse with
      | Some rel =>
          cleaf ← dawg_isLeaf d c;
          us ← (if (cleaf : bool) then upd (db_units b) dictIndex dictSetHasLeaf else Ok (db_units b));
          us ← upd us dictIndex (fun u => (dictSetOffset u rel).2);
          Ok (true, dbset_units b us)
      | None =>
          '(offset, b) ← arrangeChildNodes d b dawgIndex dictIndex;
          if offset =? 0 then Ok (false, b) else
          b ← (if (merging : bool) then lt ← lt_insert (db_link b) c offset; Ok (dbset_link b lt) else Ok b);
          (fix loop (n : nat) (b : dbuilder) (c : N) : res (bool * dbuilder) :=
             match n with
             | O => Hang
             | S n' =>
                 l ← dawg_lbl d c;
                 '(ok, b) ← buildIndices fuel' d b c (N.lxor offset l);
                 if negb ok then Ok (false, b) else
                 next ← dawg_sibling d c;
                 if next =? 0 then Ok (true, b) else loop n' b next
             end) (S (length (d_base d))) b c
      end
  end.

(** :65-81 BuildDictionary: (units, numOfUnusedUnits), or None. *)
Definition BuildDictionary (d : dawg) : res (option (dict * N)) :=
  let b := mkDB [] [] (NewLinkTable (d_merging d + N.shiftr (d_merging d) 1)) 0 0 in
  b ← reserveUnit b 0;
  b ← db_extra_upd b 0 ex_setIsUsed;
  us ← upd (db_units b) 0 (fun u => (dictSetOffset u 1).2);
  us ← upd us 0 (fun u => dictSetLabel u 0);
  let b := dbset_units b us in
  '(ok, b) ← (if 1 <? dawg_size d then buildIndices (S (length (d_base d))) d b dawg_root 0 else Ok (true, b));
  if negb ok then Ok None else
  b ← fixAllBlocks b;
  Ok (Some (db_units b, db_unused b)).
(** :34-40 Build, :42-49 BuildWithUnused *)
Definition dict_Build (d : dawg) : res (option dict) :=
  r ← BuildDictionary d; Ok (match r with Some (us, _) => Some us | None => None end).
Definition dict_BuildWithUnused (d : dawg) : res (option (dict * N)) := BuildDictionary d.
