(** Model of link_table.go (and of intHash, dawg_builder.go:81-91, which it uses). *)
From Verif Require Import Go.
Local Open Scope N_scope.

(** dawg_builder.go:83-91 intHash, with uint32 wrap-around. *)
Definition intHash (key : N) : N :=
  let key := u32 (not32 key + shl32 key 15) in
  let key := N.lxor key (N.shiftr key 12) in
  let key := u32 (key + shl32 key 2) in
  let key := N.lxor key (N.shiftr key 4) in
  let key := u32 (key * 2057) in
  N.lxor key (N.shiftr key 16).

(** link_table.go:3-10.  A linkPair is (index, offset). *)
Notation linktable := (list (N * N)).

(** link_table.go:12-16 NewLinkTable *)
Definition NewLinkTable (tableSize : N) : linktable := replicate (N.to_nat tableSize) (0, 0).

(** link_table.go:21-27: the loop of findId.  [S (length lt)] steps visit every
    slot, so running out of fuel means that the Go loop never ends. *)
Fixpoint findId_loop (fuel : nat) (lt : linktable) (index hashId : N) : res N :=
  match fuel with
  | O => Hang
  | S fuel' =>
      '(i, _) ← get lt hashId;
      if i =? 0 then Ok hashId
      else if index =? i then Ok hashId
      else h ← rem32 (u32 (hashId + 1)) (len32 lt); findId_loop fuel' lt index h
  end.
(** link_table.go:19-28 findId *)
Definition findId (lt : linktable) (index : N) : res N :=
  h ← rem32 (intHash index) (len32 lt); findId_loop (S (length lt)) lt index h.
(** link_table.go:31-35 Insert *)
Definition lt_insert (lt : linktable) (index offset : N) : res linktable :=
  h ← findId lt index; set lt h (index, offset).
(** link_table.go:38-41 Find *)
Definition lt_find (lt : linktable) (index : N) : res N :=
  h ← findId lt index; '(_, o) ← get lt h; Ok o.
