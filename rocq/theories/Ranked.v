(** Model of ranked_guide_builder.go, ranked_guide_link.go and ranked_guide.go
    (Read/Write are in Serial.v; ranked_guide_unit.go makes the units those of a
    Guide, so that a RankedGuide is a [guide]).  sort.SliceStable is a parameter
    [sort]: the theorems are about every function with its contract ([sorter]).
    Comparators are pure functions. *)
From Verif Require Import Go Dawg Dict Guide.
Local Open Scope N_scope.

(** ranked_guide_link.go:3-6: (label, value) *)
Notation link := (N * Z)%type.
(** ranked_guide_link.go:8-15 makeRankedGuideLinkCmp *)
Definition link_less (cmp : Z -> Z -> bool) (a b : link) : bool :=
  if negb (a.2 =? b.2)%Z then cmp b.2 a.2 else a.1 <? b.1.
(** Strict weak orders: what sort.SliceStable asks of [less].  Two elements are
    equivalent when neither is less than the other. *)
Definition equiv {A} (less : A -> A -> bool) (a b : A) : Prop := less a b = false /\ less b a = false.
Definition weak_order {A} (less : A -> A -> bool) : Prop :=
  (forall a, less a a = false) /\ (forall a b c, less a b = true -> less b c = true -> less a c = true) /\
  (forall a b c, equiv less a b -> equiv less b c -> equiv less a c).
(** The contract of sort.SliceStable used here: the elements are permuted, whatever
    [less] is; they come out in order when it is a strict weak order. *)
Definition sorter (sort : (link -> link -> bool) -> list link -> list link) : Prop :=
  (forall less l, sort less l ≡ₚ l) /\
  (forall less l i j a b, weak_order less -> (i < j)%nat -> sort less l !! i = Some a -> sort less l !! j = Some b -> less b a = false).

(** ranked_guide_builder.go:144-146 followWithoutCheck (also ranked_completer.go:166-168) *)
Definition fwc (us : dict) (index label : N) : res N := u ← get us index; Ok (N.lxor (N.lxor index (dictOffset u)) label).

(** ranked_guide_builder.go:5-13: units, links, isFixedTable *)
Record rst := mkRst { r_units : guide; r_links : list link; r_tbl : list N }.

(** ranked_guide_builder.go:80-93 findMaxValue: None when false is returned.  The
    index decides what follows and must be below the number of units. *)
Fixpoint rb_findMax (fuel : nat) (us : dict) (units : guide) (i : N) : res (option Z) :=
  match fuel with
  | O => Hang
  | S fuel' =>
      c ← gd_Child units i;
      if negb (c =? 0) then
        '(ok, j) ← dc_Follow us c i;
        if negb ok then Ok None else rb_findMax fuel' us units j
      else
        has ← dc_HasValue us i;
        if negb has then Ok None else
        v ← dc_Value us i; Ok (Some v)
  end.

(** ranked_guide_builder.go:132-138: the other children, after [prev]. *)
Fixpoint rb_turn (us : dict) (i : N) (units : guide) (prev : N) (labels : list N) : res guide :=
  match labels with
  | [] => Ok units
  | l :: rest =>
      j ← fwc us i l;
      units ← upd units prev (fun u => (u.1, l));
      rb_turn us i units j rest
  end.
(** ranked_guide_builder.go:124-141 turnLinksToUnits on the links from linksBegin on *)
Definition rb_turnLinks (us : dict) (i : N) (units : guide) (links : list link) : res guide :=
  match links with
  | [] => Panic
  | l0 :: rest =>
      units ← upd units i (fun u => (l0.1, u.2));
      j ← fwc us i l0.1;
      rb_turn us i units j rest.*1
  end.

Section builder.
  Context (sort : (link -> link -> bool) -> list link -> list link) (cmp : Z -> Z -> bool).
  (** ranked_guide_builder.go:95-122 enumerateLinks; [rec] is buildIndices.  Siblings
      have increasing indices. *)
  Definition rb_enum (rec : rst -> N -> N -> res (option Z * rst)) (d : dawg) (us : dict) (dictIndex : N) :=
    fix loop (n : nat) (s : rst) (c : N) : res (bool * rst) :=
      if c =? 0 then Ok (true, s) else
      match n with
      | O => Hang
      | S n' =>
          l ← dawg_lbl d c;
          '(o, s) ← (if l =? 0 then
              has ← dc_HasValue us dictIndex;
              if negb has then Ok (None, s) else
              v ← dc_Value us dictIndex; Ok (Some v, s)
            else
              '(ok, j) ← dc_Follow us l dictIndex;
              if negb ok then Ok (None, s) else rec s c j);
          match o with
          | None => Ok (false, s)
          | Some v =>
              c' ← dawg_sibling d c;
              loop n' (mkRst (r_units s) (r_links s ++ [(l, v)]) (r_tbl s)) c'
          end
      end.
  (** ranked_guide_builder.go:50-78 buildIndices: the maximum value, or None when
      false is returned.  Every nested call that enumerates has marked another index. *)
  Fixpoint rb_buildIndices (fuel : nat) (d : dawg) (us : dict) (s : rst) (dawgIndex dictIndex : N) : res (option Z * rst) :=
    match fuel with
    | O => Hang
    | S fuel' =>
        fixed ← gb_isFixed (r_tbl s) dictIndex;
        if (fixed : bool) then o ← rb_findMax (S (length us)) us (r_units s) dictIndex; Ok (o, s) else
        tbl ← gb_setIsFixed (r_tbl s) dictIndex;
        let initial := length (r_links s) in
        c ← dawg_child d dawgIndex;
        '(ok, s) ← rb_enum (rb_buildIndices fuel' d us) d us dictIndex (S (length (d_base d))) (mkRst (r_units s) (r_links s) tbl) c;
        if negb ok then Ok (None, s) else
        let sorted := sort (link_less cmp) (drop initial (r_links s)) in
        units ← rb_turnLinks us dictIndex (r_units s) sorted;
        match sorted with
        | [] => Panic
        | l0 :: _ => Ok (Some l0.2, mkRst units (take initial (r_links s)) (r_tbl s))
        end
    end.
  (** ranked_guide_builder.go:15-25 BuildRankedGuideCmp, :32-48 Build: None when nil
      is returned *)
  Definition BuildRankedGuideCmp (d : dawg) (us : dict) : res (option guide) :=
    let units := replicate (length us) (0, 0) in
    let tbl := replicate (length us / 8) 0 in
    if dawg_size d <=? 1 then Ok (Some []) else
    '(o, s) ← rb_buildIndices (S (length us)) d us (mkRst units [] tbl) dawg_root 0;
    Ok (match o with Some _ => Some (r_units s) | None => None end).
End builder.
(** ranked_guide_builder.go:26-30 BuildRankedGuide *)
Definition BuildRankedGuide (sort : (link -> link -> bool) -> list link -> list link) := BuildRankedGuideCmp sort Z.ltb.
