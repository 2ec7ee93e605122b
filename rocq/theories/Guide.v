(** Model of guide.go (Read/Write are in Serial.v), guide_unit.go and
    guide_builder.go.  A Guide is its units (Child, Sibling): [size] always equals
    [len(units)] (setUnits, guide.go:31-34). *)
From Verif Require Import Go Dawg Dict.
Local Open Scope N_scope.

Notation guide := (list (N * N)).
(** guide.go:54-56 Child, :58-60 Sibling; also ranked_guide.go:38-44 *)
Definition gd_Child (g : guide) (i : N) : res N := u ← get g i; Ok u.1.
Definition gd_Sibling (g : guide) (i : N) : res N := u ← get g i; Ok u.2.

(** guide_builder.go:86-88 setIsFixed, :90-92 isFixed (also
    ranked_guide_builder.go:148-154) *)
Definition gb_setIsFixed (tbl : list N) (i : N) : res (list N) := upd tbl (i / 8) (fun b => N.lor b (u8 (N.shiftl 1 (i mod 8)))).
Definition gb_isFixed (tbl : list N) (i : N) : res bool :=
  b ← get tbl (i / 8); Ok (negb (N.land b (u8 (N.shiftl 1 (i mod 8))) =? 0)).

(** guide_builder.go:64-81, the loop over siblings in buildIndices; [rec] is the
    recursive call.  Siblings have increasing indices. *)
Definition gb_loop (rec : guide * list N -> N -> N -> res (bool * (guide * list N))) (d : dawg) (us : dict) (dictIndex : N) :=
  fix loop (n : nat) (g : guide * list N) (c : N) : res (bool * (guide * list N)) :=
    match n with
    | O => Hang
    | S n' =>
        l ← dawg_lbl d c;
        '(ok, dictChild) ← dc_Follow us l dictIndex;
        if negb ok then Ok (false, g) else
        '(ok, g) ← rec g c dictChild;
        if negb ok then Ok (false, g) else
        s ← dawg_sibling d c;
        sl ← dawg_lbl d s;
        units ← (if negb (s =? 0) then upd g.1 dictChild (fun u => (u.1, sl)) else Ok g.1);
        if s =? 0 then Ok (true, (units, g.2)) else loop n' (units, g.2) s
    end.
(** guide_builder.go:46-84 buildIndices on (units, isFixedTable).  Every nested
    call that goes on has marked another index below 8*len(isFixedTable), so
    [S (length us)] levels suffice. *)
Fixpoint gb_buildIndices (fuel : nat) (d : dawg) (us : dict) (g : guide * list N) (dawgIndex dictIndex : N) : res (bool * (guide * list N)) :=
  match fuel with
  | O => Hang
  | S fuel' =>
      fixed ← gb_isFixed g.2 dictIndex;
      if (fixed : bool) then Ok (true, g) else
      tbl ← gb_setIsFixed g.2 dictIndex;
      c ← dawg_child d dawgIndex;
      l ← dawg_lbl d c;
      first ← (if l =? 0 then s ← dawg_sibling d c; Ok (if s =? 0 then None else Some s) else Ok (Some c));
      match first with
      | None => Ok (true, (g.1, tbl))
      | Some c =>
          l ← dawg_lbl d c;
          units ← upd g.1 dictIndex (fun u => (l, u.2));
          gb_loop (gb_buildIndices fuel' d us) d us dictIndex (S (length (d_base d))) (units, tbl) c
      end
  end.
(** guide_builder.go:21-27 BuildGuide, :29-43 Build: None when false is returned.
    A Dawg of one transition gives a guide without units. *)
Definition BuildGuide (d : dawg) (us : dict) : res (option guide) :=
  let units := replicate (length us) (0, 0) in
  let tbl := replicate (length us / 8) 0 in
  if dawg_size d <=? 1 then Ok (Some []) else
  '(ok, g) ← gb_buildIndices (S (length us)) d us (units, tbl) dawg_root 0;
  Ok (if (ok : bool) then Some g.1 else None).
