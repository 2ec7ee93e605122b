(** Model of utfc.go (UTF-C codec). *)
From Verif Require Import Go.
Local Open Scope Z_scope.

(** ** Constants: utfc.go:26-48 *)
Definition maxLatinCp : Z := 0x02FF.          (* utfc.go:27 *)
Definition min21BitCp : Z := 0x2600.          (* utfc.go:30 *)
Definition offsMask13Bit : Z := 0xFFFFFF80.   (* utfc.go:33 *)
Definition offsMask21Bit : Z := 0xFFFF8000.   (* utfc.go:34 *)
Definition markerAux : Z := 0xc0.             (* utfc.go:36 *)
Definition marker13Bit : Z := 0x80.           (* utfc.go:37 *)
Definition marker21Bit : Z := 0xa0.           (* utfc.go:38 *)
Definition markerExtra : Z := 0xb0.           (* utfc.go:39 *)
Definition marker0 : Z := 0xbb.               (* utfc.go:41, 0b10111011 *)
Definition marker00 : Z := 0xbc.              (* utfc.go:42, 0b10111100 *)
Definition marker10 : Z := 0xbe.              (* utfc.go:43, 0b10111110 *)
Definition marker01 : Z := 0xbd.              (* utfc.go:44, 0b10111101 *)
Definition marker11 : Z := 0xbf.              (* utfc.go:45, 0b10111111 *)
Definition offsInitAux : Z := 0x0410.         (* utfc.go:48 *)

(** utfc.go:53-76, the map auxOffset. *)
Definition auxOffset : list (Z * Z) :=
  [ (0x0080, 0x00C0); (0x0380, 0x0391); (0x0400, 0x0410); (0x0580, 0x05BE);
    (0x0530, 0x0531); (0x0600, 0x060B); (0x0900, 0x090D); (0x0980, 0x098F);
    (0x0A00, 0x0A02); (0x0A80, 0x0A8F); (0x0B00, 0x0B0F); (0x0B80, 0x0B8E);
    (0x0C80, 0x0C8E); (0x0D00, 0x0D0E); (0x0D80, 0x0D9B); (0x0E00, 0x0E01);
    (0x0E80, 0x0E81); (0x0F00, 0x0F40); (0x0F80, 0x0F90); (0x1080, 0x10B0);
    (0x3000, 0x3040) ].

(** utfc.go:79 *)
Definition rangeHK0 : Z := 0x3000.
Definition rangeHK1 : Z := 0x3100.
(** utfc.go:81-84 *)
Definition rangesLatin : list (Z * Z) :=
  [ (0x41, 0x5B); (0x61, 0x7B); (0x30, 0x3A); (0x20, 0x21); (0x2D, 0x2E) ].
(** utfc.go:85-87 *)
Definition rangesExtra : list (Z * Z) :=
  [ (0x2000, 0x2600); (rangeHK0, rangeHK1); (0xFE00, 0xFE10); (0x1F300, 0x1F5F0) ].

(** utfc.go:89-96 inRanges *)
Fixpoint inRanges (cp : Z) (ranges : list (Z * Z)) : bool :=
  match ranges with
  | [] => false
  | (a, b) :: rs => if (a <=? cp) && (cp <? b) then true else inRanges cp rs
  end.

(** utfc.go:98-107 encodeRanges; [v] is the accumulator of the loop. *)
Fixpoint encodeRangesFrom (v cp : Z) (ranges : list (Z * Z)) : Z :=
  match ranges with
  | [] => -1
  | (a, b) :: rs =>
      if (a <=? cp) && (cp <? b) then v + (cp - a) else encodeRangesFrom (v + (b - a)) cp rs
  end.
Definition encodeRanges (cp : Z) (ranges : list (Z * Z)) : Z := encodeRangesFrom 0 cp ranges.

(** utfc.go:109-117 decodeRanges *)
Fixpoint decodeRanges (v : Z) (ranges : list (Z * Z)) : Z :=
  match ranges with
  | [] => -1
  | (a, b) :: rs => if v <? b - a then a + v else decodeRanges (v - (b - a)) rs
  end.

(** utfc.go:119-124 getAuxOffset (map lookup). *)
Fixpoint assocZ (k : Z) (m : list (Z * Z)) : option Z :=
  match m with
  | [] => None
  | (k', v) :: m' => if k =? k' then Some v else assocZ k m'
  end.
Definition getAuxOffset (offs : Z) : Z :=
  match assocZ offs auxOffset with Some r => r | None => offs end.

(** utfc.go:20-24 UtfcState *)
Record ustate := mkU { offs : Z; auxOffs : Z; is21Bit : bool }.

(** utfc.go:132-144 NewUtfcState / Clear *)
Definition ustate0 : ustate := mkU 0 offsInitAux false.

(** The Go conversion byte(x). *)
Definition byte (x : Z) : N := Z.to_N (x mod 256).

(** ** Encoder.  A follower (utfc.go:3-5) is any state [F] with a transition
    [fol] that consumes a byte and says whether it was accepted. *)
Section Follower.
  Context {F : Type} (fol : F -> N -> F * bool).

  (** [!f.Follow(b1) || !f.Follow(b2) ...]: short-circuit sequence of calls. *)
  Fixpoint feed (f : F) (bs : list N) : F * bool :=
    match bs with
    | [] => (f, true)
    | b :: bs' => let '(f', ok) := fol f b in if ok then feed f' bs' else (f', false)
    end.

  (** Emit [bs]; when all are accepted continue with state [st'] and return
      true, otherwise return false with the state still [st]. *)
  Definition emit (f : F) (st : ustate) (bs : list N) (st' : ustate) : F * ustate * bool :=
    let '(f', ok) := feed f bs in if ok then (f', st', true) else (f', st, false).

  (** utfc.go:152-285 (st *UtfcState) Follow *)
  Definition ustate_follow (st : ustate) (ch : Z) (f : F) : F * ustate * bool :=
    let cp := ch in
    if (auxOffs st =? 0) && inRanges cp rangesLatin then                 (* 155 *)
      emit f st [byte (Z.lor markerAux (encodeRanges cp rangesLatin))] st
    else if negb (auxOffs st =? 0) && (auxOffs st <=? cp) && (cp <=? auxOffs st + 0x3F) then (* 160 *)
      emit f st [byte (Z.lor markerAux (cp - auxOffs st))] st
    else if inRanges cp rangesExtra then                                  (* 168 *)
      let newOffs := Z.land cp offsMask13Bit in
      if negb (is21Bit st) && (newOffs =? offs st) then                   (* 170 *)
        let lo := byte (Z.land cp 0x7F) in
        if (lo =? 0)%N then emit f st [byte marker0] st else emit f st [lo] st
      else
        let extra := encodeRanges cp rangesExtra in                       (* 183 *)
        let lo := byte extra in
        let st' := if (rangeHK0 <=? cp) && (cp <? rangeHK1)               (* 194-198 *)
                   then mkU newOffs (getAuxOffset (offs st)) false else st in
        if (lo =? 0)%N
        then emit f st [byte marker10; byte (Z.lor markerExtra (1 + Z.shiftr extra 8))] st'
        else emit f st [byte (Z.lor markerExtra (1 + Z.shiftr extra 8)); lo] st'
    else if min21BitCp <=? cp then                                        (* 202 *)
      let cp := cp - min21BitCp in
      let newOffs := Z.land cp offsMask21Bit in
      if is21Bit st && (newOffs =? offs st) then                          (* 207 *)
        let hi := byte (Z.land (Z.shiftr cp 8) 0x7F) in
        let lo := byte cp in
        if (hi =? 0)%N && (lo =? 0)%N then emit f st [byte marker0] st
        else if (hi =? 0)%N then emit f st [byte marker00; lo] st
        else if (lo =? 0)%N then emit f st [byte marker10; hi] st
        else emit f st [hi; lo] st
      else                                                                (* 227 *)
        let hi := byte (Z.shiftr cp 8) in
        let lo := byte cp in
        let m := byte (Z.lor marker21Bit (Z.shiftr cp 16)) in
        let st' := mkU newOffs (offs st) true in                          (* 247-249 *)
        if (hi =? 0)%N && (lo =? 0)%N then emit f st [byte marker11; m] st'
        else if (hi =? 0)%N then emit f st [byte marker10; m; lo] st'
        else if (lo =? 0)%N then emit f st [byte marker01; m; hi] st'
        else emit f st [m; hi; lo] st'
    else                                                                  (* 251 *)
      let newOffs := Z.land cp offsMask13Bit in
      if negb (is21Bit st) && (newOffs =? offs st) then
        let lo := byte (Z.land cp 0x7F) in
        if (lo =? 0)%N then emit f st [byte marker0] st else emit f st [lo] st
      else
        let lo := byte (Z.land cp 0xFF) in
        let m := byte (Z.lor marker13Bit (Z.shiftr cp 8)) in
        let st' := mkU (if cp <=? maxLatinCp then 0 else newOffs)         (* 275-281 *)
                       (getAuxOffset (offs st)) false in
        if (lo =? 0)%N then emit f st [byte marker10; m] st'
        else emit f st [m; lo] st'.

  (** utfc.go:291-299 UtfcFollow.  The string is the list of code points that
      [range str] yields; returns also the final package-level state. *)
  Fixpoint utfc_follow_from (st : ustate) (str : list Z) (f : F) : F * ustate * bool :=
    match str with
    | [] => (f, st, true)
    | ch :: str' =>
        let '(f', st', ok) := ustate_follow st ch f in
        if ok then utfc_follow_from st' str' f' else (f', st', false)
    end.
  Definition utfc_follow (str : list Z) (f : F) : F * ustate * bool :=
    utfc_follow_from ustate0 str f.
End Follower.

(** utfc.go:7-14 byteBuffer and its Follow (content only; the sharing of the
    backing array is modelled in UtfcHeap.v). *)
Definition buf_follow (buf : list N) (b : N) : list N * bool := (buf ++ [b], true).

(** utfc.go:302-306 UtfcEncode: content of the returned slice. *)
Definition utfc_encode (str : list Z) : list N :=
  let '(buf, _, _) := utfc_follow buf_follow str [] in buf.

(** ** Decoder: utfc.go:309-387.  The position [i] is represented by the list of
    bytes from [buf[i]] on. *)
Definition next_byte (bs : list N) : res (Z * list N) :=
  match bs with [] => Panic | b :: bs' => Ok (Z.of_N b, bs') end.

(** One iteration of the loop: utfc.go:316-383, giving the code point, the new
    state and the remaining bytes. *)
Definition utfc_decode_step (st : ustate) (bs : list N) : res (Z * ustate * list N) :=
  '(b0, bs0) ← next_byte bs;
  let '(zm, bs1) := if (marker0 <=? b0) && (b0 <=? marker11) then (b0, bs0) else (0, bs) in
  '(cp, bs2) ← (if negb (zm =? marker0) && negb (zm =? marker00)        (* 321-325 *)
                then next_byte bs1 else Ok (0, bs1));
  if Z.land cp markerAux =? markerAux then                                (* 326 *)
    let cp' := if auxOffs st =? 0 then decodeRanges (Z.lxor cp markerAux) rangesLatin
               else auxOffs st + Z.lxor cp markerAux in
    Ok (cp', st, bs2)
  else if (Z.land cp markerExtra =? markerExtra) && negb (Z.lxor cp markerExtra =? 0) then (* 332 *)
    '(lo, bs3) ← (if negb (zm =? marker10) then next_byte bs2 else Ok (0, bs2));
    let cp' := decodeRanges (Z.lor (Z.shiftl (Z.lxor cp markerExtra - 1) 8) lo) rangesExtra in
    let st' := if (rangeHK0 <=? cp') && (cp' <? rangeHK1)
               then mkU (Z.land cp' offsMask13Bit) (getAuxOffset (offs st)) false else st in
    Ok (cp', st', bs3)
  else if Z.land cp marker21Bit =? marker21Bit then                       (* 344 *)
    '(hi, bs3) ← (if negb (zm =? marker10) && negb (zm =? marker11) then next_byte bs2 else Ok (0, bs2));
    '(lo, bs4) ← (if negb (zm =? marker01) && negb (zm =? marker11) then next_byte bs3 else Ok (0, bs3));
    let cp' := Z.lor (Z.lor (Z.shiftl (Z.lxor cp marker21Bit) 16) (Z.shiftl hi 8)) lo in
    Ok (cp' + min21BitCp, mkU (Z.land cp' offsMask21Bit) (offs st) true, bs4)
  else if Z.land cp marker13Bit =? marker13Bit then                       (* 360 *)
    '(hi, bs3) ← (if negb (zm =? marker10) then next_byte bs2 else Ok (0, bs2));
    let cp' := Z.lor (Z.shiftl (Z.lxor cp marker13Bit) 8) hi in
    Ok (cp', mkU (if cp' <=? maxLatinCp then 0 else Z.land cp' offsMask13Bit)
                 (getAuxOffset (offs st)) false, bs3)
  else if is21Bit st then                                                 (* 374 *)
    '(hi, bs3) ← (if negb (zm =? marker10) then next_byte bs2 else Ok (0, bs2));
    Ok (min21BitCp + Z.lor (Z.lor (offs st) (Z.shiftl cp 8)) hi, st, bs3)
  else
    Ok (Z.lor (offs st) cp, st, bs2).                                     (* 382 *)

(** [string(rune(cp))], utfc.go:384: conversion to int32, then to UTF-8; a value
    that is no Unicode scalar value becomes U+FFFD.  The string is represented
    by its code points. *)
Definition is_scalar (cp : Z) : bool :=
  (0 <=? cp) && (cp <=? 0x10FFFF) && negb ((0xD800 <=? cp) && (cp <=? 0xDFFF)).
Definition rune_of_int (cp : Z) : Z :=
  let w := cp mod 4294967296 in if w <? 2147483648 then w else w - 4294967296.
Definition string_of_rune (cp : Z) : Z :=
  let r := rune_of_int cp in if is_scalar r then r else 0xFFFD.

(** utfc.go:309-387 UtfcDecode.  Every iteration consumes at least one byte, so
    the fuel [length buf] suffices. *)
Fixpoint utfc_decode_loop (fuel : nat) (st : ustate) (bs : list N) : res (list Z) :=
  match bs with
  | [] => Ok []
  | _ =>
      match fuel with
      | O => Hang
      | S fuel' =>
          '(cp, st', bs') ← utfc_decode_step st bs;
          rest ← utfc_decode_loop fuel' st' bs';
          Ok (string_of_rune cp :: rest)
      end
  end.
Definition utfc_decode (buf : list N) : res (list Z) :=
  utfc_decode_loop (length buf) ustate0 buf.
