(** What a UTF-C text looks like, in arithmetic: specification vocabulary for the
    format properties.  Nothing here comes from the model: code points and bytes
    are numbers, alphabets are lists of code points. *)
From Verif Require Import Go.
Local Open Scope Z_scope.

(** The 64 characters of the Latin alphabet, in the order of their bytes: capital
    letters, small letters, digits, space, hyphen. *)
Definition latin64 : list Z := seqZ 0x41 26 ++ seqZ 0x61 26 ++ seqZ 0x30 10 ++ [0x20; 0x2D].

(** The characters numbered one after the other for the two-byte form: general
    punctuation to geometric shapes, kana, variation selectors, pictographs. *)
Definition specials : list Z :=
  seqZ 0x2000 0x600 ++ seqZ 0x3000 0x100 ++ seqZ 0xFE00 0x10 ++ seqZ 0x1F300 0x2F0.

(** Blocks of 128 code points with the place where their 64 characters start that
    keep a one-byte form after the block is left.  Other blocks keep their first
    64 characters. *)
Definition alphabets : list (Z * Z) :=
  [ (0x0080, 0x00C0); (0x0380, 0x0391); (0x0400, 0x0410); (0x0580, 0x05BE); (0x0600, 0x060B);
    (0x0900, 0x090D); (0x0980, 0x098F); (0x0A00, 0x0A02); (0x0A80, 0x0A8F); (0x0B00, 0x0B0F);
    (0x0B80, 0x0B8E); (0x0C80, 0x0C8E); (0x0D00, 0x0D0E); (0x0D80, 0x0D9B); (0x0E00, 0x0E01);
    (0x0E80, 0x0E81); (0x0F00, 0x0F40); (0x0F80, 0x0F90); (0x1080, 0x10B0); (0x3000, 0x3040) ].
Definition kept (b a : Z) : Prop :=
  In (b, a) alphabets \/ (forall x, ~ In (b, x) alphabets) /\ a = b.

(** What is remembered between characters: the current block, the start of the
    second alphabet (0 is the Latin one), and whether the block is a wide one (of
    32768 code points above U+2600) or a narrow one (of 128). *)
Definition place : Type := Z * Z * bool.
Definition start : place := (0, 0x410, false).

(** One, two or three bytes, of which those after the first may be zero; zero
    bytes are never written, a mark in front tells which ones are missing. *)
Definition one (x : Z) : list Z := if x =? 0 then [0xBB] else [x].
Definition two (m lo : Z) : list Z := if lo =? 0 then [0xBE; m] else [m; lo].
Definition both (hi lo : Z) : list Z :=
  if hi =? 0 then (if lo =? 0 then [0xBB] else [0xBC; lo])
  else (if lo =? 0 then [0xBE; hi] else [hi; lo]).
Definition three (m hi lo : Z) : list Z :=
  if hi =? 0 then (if lo =? 0 then [0xBF; m] else [0xBE; m; lo])
  else (if lo =? 0 then [0xBD; m; hi] else [m; hi; lo]).

(** [c] has a one-byte form in the second alphabet. *)
Definition second (a c : Z) : Prop := (a = 0 /\ In c latin64) \/ (a <> 0 /\ a <= c < a + 64).

(** [coded p c bs q]: at place [p], the character [c] is written as [bs] and the
    place becomes [q]. *)
Inductive coded : place -> Z -> list Z -> place -> Prop :=
| coded_latin b w c i : latin64 !! i = Some c ->
    coded (b, 0, w) c [0xC0 + Z.of_nat i] (b, 0, w)
| coded_near b a w c : a <> 0 -> a <= c < a + 64 ->
    coded (b, a, w) c [0xC0 + (c - a)] (b, a, w)
| coded_block b a c : ~ second a c -> (c < 0x2600 \/ In c specials) -> c - c mod 128 = b ->
    coded (b, a, false) c (one (c mod 128)) (b, a, false)
| coded_special b a w c n : ~ second a c -> ~ (w = false /\ c - c mod 128 = b) ->
    specials !! n = Some c -> ~ (0x3000 <= c < 0x3100) ->
    coded (b, a, w) c (two (0xB1 + Z.of_nat n / 256) (Z.of_nat n mod 256)) (b, a, w)
| coded_kana b a w c n a' : ~ second a c -> ~ (w = false /\ c - c mod 128 = b) ->
    specials !! n = Some c -> 0x3000 <= c < 0x3100 -> kept b a' ->
    coded (b, a, w) c (two (0xB1 + Z.of_nat n / 256) (Z.of_nat n mod 256)) (c - c mod 128, a', false)
| coded_wide_again b a c v : ~ second a c -> ~ In c specials -> v = c - 0x2600 -> b <= v < b + 32768 ->
    coded (b, a, true) c (both (v / 256 mod 128) (v mod 256)) (b, a, true)
| coded_wide b a w c v : ~ second a c -> ~ In c specials -> v = c - 0x2600 -> 0 <= v ->
    ~ (w = true /\ b <= v < b + 32768) ->
    coded (b, a, w) c (three (0xA0 + v / 65536) (v / 256 mod 256) (v mod 256)) (v - v mod 32768, b, true)
| coded_narrow b a w c a' : ~ second a c -> ~ In c specials -> 0 <= c < 0x2600 ->
    ~ (w = false /\ c - c mod 128 = b) -> kept b a' ->
    coded (b, a, w) c (two (0x80 + c / 256) (c mod 256))
      (if c <? 0x300 then 0 else c - c mod 128, a', false).

(** A whole text. *)
Inductive written : place -> list Z -> list Z -> place -> Prop :=
| written_nil p : written p [] [] p
| written_cons p c bs q s bs' r :
    coded p c bs q -> written q s bs' r -> written p (c :: s) (bs ++ bs') r.

(** Bytes of a code point in UTF-8 (RFC 3629). *)
Definition utf8_size (c : Z) : nat :=
  if c <? 0x80 then 1 else if c <? 0x800 then 2 else if c <? 0x10000 then 3 else 4.
Definition utf8_length (s : list Z) : nat := sum_list (map utf8_size s).

(** The alphabets listed in the source, block and first character. *)
Definition listed_alphabets : list (Z * Z) :=
  [ (0x0080, 0x00C0); (0x0380, 0x0391); (0x0400, 0x0410); (0x0580, 0x05BE); (0x0530, 0x0531); (0x0600, 0x060B);
    (0x0900, 0x090D); (0x0980, 0x098F); (0x0A00, 0x0A02); (0x0A80, 0x0A8F); (0x0B00, 0x0B0F); (0x0B80, 0x0B8E);
    (0x0C80, 0x0C8E); (0x0D00, 0x0D0E); (0x0D80, 0x0D9B); (0x0E00, 0x0E01); (0x0E80, 0x0E81); (0x0F00, 0x0F40);
    (0x0F80, 0x0F90); (0x1080, 0x10B0); (0x3000, 0x3040) ].
