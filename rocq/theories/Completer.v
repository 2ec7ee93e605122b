(** Model of completer.go.  The index stack is kept top first; slices that are cut
    and grown again ([indexStack[:0]], [path[:len-1]]) have no other reader, so
    they are plain lists. *)
From Verif Require Import Go Dict Guide.
Local Open Scope N_scope.

(** completer.go:10-17 *)
Record comp := mkComp { cp_path : list N; cp_stack : list N; cp_last : N }.
(** completer.go:19-24 *)
Definition NewCompleter : comp := mkComp [] [] 0.
(** completer.go:27-29 Length, :30-32 Key, :33-35 Value *)
Definition cp_Length (c : comp) : Z := Z.of_nat (length (cp_path c)) - 1.
Definition cp_Key (c : comp) : list N := cp_path c.
Definition cp_Value (us : dict) (c : comp) : res Z := dc_Value us (cp_last c).

(** completer.go:44-56 StartStringLen.  A negative length panics in make or at
    path[length]; a length beyond the prefix panics at prefix[i]. *)
Definition cp_StartStringLen (g : guide) (c : comp) (index : N) (prefix : list N) (length : Z) : res comp :=
  if (length <? 0)%Z then Panic else
  if (Z.of_nat (List.length prefix) <? length)%Z then Panic else
  let path := take (Z.to_nat length) prefix ++ [0] in
  Ok (match g with [] => mkComp path [] (cp_last c) | _ => mkComp path [index] 0 end).
(** completer.go:41-43 StartString, :38-40 Start *)
Definition cp_StartString (g : guide) (c : comp) (index : N) (prefix : list N) : res comp :=
  cp_StartStringLen g c index prefix (Z.of_nat (List.length prefix)).
Definition cp_Start (g : guide) (c : comp) (index : N) : res comp := cp_StartStringLen g c index [] 0.

(** completer.go:106-108: path[len(path)-1] = label; append(path, 0). *)
Definition path_push (path : list N) (l : N) : res (list N) :=
  match path with [] => Panic | _ => Ok (removelast path ++ [l; 0]) end.
(** completer.go:101-110 Follow.  The index is returned; it is changed only on
    success (dictionary.go, Follow). *)
Definition cp_Follow (us : dict) (c : comp) (label index : N) : res (bool * N * comp) :=
  '(ok, j) ← dc_Follow us label index;
  if negb ok then Ok (false, j, c) else
  path ← path_push (cp_path c) label;
  Ok (true, j, mkComp path (j :: cp_stack c) (cp_last c)).
(** completer.go:113-127 FindTerminal.  The index decides all that follows and must
    be below the number of units, so that more than [length us] steps mean that the
    loop never ends. *)
Fixpoint cp_FindTerminal (fuel : nat) (us : dict) (g : guide) (c : comp) (index : N) : res (bool * comp) :=
  match fuel with
  | O => Hang
  | S fuel' =>
      has ← dc_HasValue us index;
      if (has : bool) then Ok (true, mkComp (cp_path c) (cp_stack c) index) else
      l ← gd_Child g index;
      '(ok, j, c) ← cp_Follow us c l index;
      if negb ok then Ok (false, c) else
      cp_FindTerminal fuel' us g c j
  end.
(** completer.go:75-93: back to the first node with a sibling.  The result is what
    to return at once, or the index to go on from. *)
Fixpoint cp_back (us : dict) (g : guide) (path : list N) (last : N) (index : N) (stack : list N) : res (option N * comp) :=
  s ← gd_Sibling g index;
  let path := if Nat.ltb 1 (length path) then removelast (removelast path) ++ [0] else path in
  match stack with
  | [] => Panic
  | _ :: stack =>
      match stack with
      | [] => Ok (None, mkComp path [] last)
      | index :: _ =>
          if negb (s =? 0) then
            '(ok, j, c) ← cp_Follow us (mkComp path stack last) s index;
            Ok (if (ok : bool) then Some j else None, c)
          else cp_back us g path last index stack
      end
  end.
(** completer.go:59-98 Next *)
Definition cp_Next (us : dict) (g : guide) (c : comp) : res (bool * comp) :=
  match cp_stack c with
  | [] => Ok (false, c)
  | index :: _ =>
      '(o, c) ← (if negb (cp_last c =? 0) then
          l ← gd_Child g index;
          if negb (l =? 0) then
            '(ok, j, c) ← cp_Follow us c l index;
            Ok (if (ok : bool) then Some j else None, c)
          else cp_back us g (cp_path c) (cp_last c) index (cp_stack c)
        else Ok (Some index, c));
      match o with
      | None => Ok (false, c)
      | Some index => cp_FindTerminal (S (length us)) us g c index
      end
  end.
