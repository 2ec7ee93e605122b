(** Go run-time conventions used by the whole model.
    No part of /repo is modelled here; this file fixes how Go's values,
    panics and non-termination are represented. *)
From Coq Require Export ZArith NArith Lia ZifyBool ZifyNat ZifyN.
From stdpp Require Export prelude numbers option.
From stdpp Require Export list.

(** Outcome of a Go call.  [Panic]: a run-time panic (index out of range,
    division by zero).  [Hang]: the call does not return. *)
Inductive res (A : Type) : Type := Ok (a : A) | Panic | Hang.
Global Arguments Ok {_} _.
Global Arguments Panic {_}.
Global Arguments Hang {_}.

Global Instance res_ret : MRet res := fun A a => Ok a.
Global Instance res_bind : MBind res := fun A B f m =>
  match m with Ok a => f a | Panic => Panic | Hang => Hang end.
Global Instance res_fmap : FMap res := fun A B f m =>
  match m with Ok a => Ok (f a) | Panic => Panic | Hang => Hang end.

(** uint32 / uint8 arithmetic: a uint32 is an [N] below [2^32]. *)
Definition two32 : N := 4294967296.
Definition u32 (x : N) : N := (x mod two32)%N.
Definition u8 (x : N) : N := (x mod 256)%N.
(** [x << k] on uint32. *)
Definition shl32 (x k : N) : N := u32 (N.shiftl x k).
(** [^x] on uint32. *)
Definition not32 (x : N) : N := N.lxor (u32 x) 4294967295.
(** [x &^ y] *)
Definition andnot (x y : N) : N := N.ldiff x y.
(** [x - 1] on uint32 with wrap-around. *)
Definition dec32 (x : N) : N := u32 (x + 4294967295).

(** int32 <-> uint32 conversions. *)
Definition u32_of_i32 (v : Z) : N := Z.to_N (v mod 4294967296)%Z.
Definition i32_of_u32 (x : N) : Z :=
  let z := Z.of_N (u32 x) in if (z <? 2147483648)%Z then z else (z - 4294967296)%Z.

(** Slice indexing [s[i]] with an unsigned index: panics when out of range. *)
Definition get {A} (l : list A) (i : N) : res A :=
  match l !! N.to_nat i with Some x => Ok x | None => Panic end.
(** Assignment [s[i] = x]. *)
Definition set {A} (l : list A) (i : N) (x : A) : res (list A) :=
  match l !! N.to_nat i with Some _ => Ok (<[N.to_nat i := x]> l) | None => Panic end.

(** [x % n] on uint32: panics when n = 0. *)
Definition rem32 (x n : N) : res N := if (n =? 0)%N then Panic else Ok (x mod n)%N.

(** uint32 of a slice length. *)
Definition len32 {A} (l : list A) : N := u32 (N.of_nat (length l)).
