(** Ranging over a Go string ("for _, ch := range str", utfc.go:293): UTF-8 decoding
    as in the language specification and unicode/utf8.  A byte that starts no valid
    encoding gives U+FFFD and is skipped alone.  No part of /repo is modelled here. *)
From Verif Require Import Go.
Local Open Scope Z_scope.

(** Continuation bytes of the byte string, as values 0-63. *)
Definition cont (lo hi : N) (b : N) : option Z := if ((lo <=? b) && (b <=? hi))%N then Some (Z.of_N b - 128) else None.
(** One rune and what is left. *)
Definition decode_rune (b0 : N) (bs : list N) : Z * list N :=
  let bad := (0xFFFD, bs) in
  let c0 := Z.of_N b0 in
  let two lo hi := match bs with b1 :: r => match cont lo hi b1 with Some x => Some (x, r) | None => None end | [] => None end in
  let next (s : Z * list N) := match s.2 with b :: r => match cont 128 191 b with Some x => Some (s.1 * 64 + x, r) | None => None end | [] => None end in
  if (b0 <? 128)%N then (c0, bs) else
  if ((194 <=? b0) && (b0 <=? 223))%N then
    match two 128%N 191%N with Some (x, r) => ((c0 - 192) * 64 + x, r) | None => bad end else
  if ((224 <=? b0) && (b0 <=? 239))%N then
    match two (if (b0 =? 224)%N then 160%N else 128%N) (if (b0 =? 237)%N then 159%N else 191%N) with
    | Some s => match next s with Some (x, r) => ((c0 - 224) * 4096 + x, r) | None => bad end
    | None => bad
    end else
  if ((240 <=? b0) && (b0 <=? 244))%N then
    match two (if (b0 =? 240)%N then 144%N else 128%N) (if (b0 =? 244)%N then 143%N else 191%N) with
    | Some s => match next s with
                | Some s => match next s with Some (x, r) => ((c0 - 240) * 262144 + x, r) | None => bad end
                | None => bad
                end
    | None => bad
    end else bad.
Fixpoint runes_from (fuel : nat) (bs : list N) : list Z :=
  match fuel, bs with
  | S n, b :: r => let '(c, r') := decode_rune b r in c :: runes_from n r'
  | _, _ => []
  end.
(** Every step consumes a byte. *)
Definition runes (bs : list N) : list Z := runes_from (length bs) bs.

(** The UTF-8 encoding of a scalar value, for comparison. *)
Definition utf8_rune (c : Z) : list N :=
  if c <? 128 then [Z.to_N c] else
  if c <? 2048 then [Z.to_N (192 + c / 64); Z.to_N (128 + c mod 64)] else
  if c <? 65536 then [Z.to_N (224 + c / 4096); Z.to_N (128 + c / 64 mod 64); Z.to_N (128 + c mod 64)] else
  [Z.to_N (240 + c / 262144); Z.to_N (128 + c / 4096 mod 64); Z.to_N (128 + c / 64 mod 64); Z.to_N (128 + c mod 64)].
Definition utf8 (s : list Z) : list N := flat_map utf8_rune s.
