(** UtfcFollow with followers that use the package: sharedState (utfc.go:127) is a
    variable of the package, so that a follower that calls UtfcFollow or UtfcEncode
    changes it while a character is written.  [ustate_follow] (Utfc.v) takes a follower
    that cannot; here a follower gets the variable with each byte and returns it.  Fields
    are read where utfc.go reads them: those in conditions and bytes before the first
    call, those in assignments after the last. *)
From Verif Require Import Go Utfc UtfcSpec UtfcProofs UtfcMain.
Local Open Scope Z_scope.

Section Shared.
  Context {F : Type} (fol : F * ustate -> N -> F * ustate * bool).
  (** f.Follow(b1), ..., until one returns false; then the assignments [up]. *)
  Fixpoint feed_shared (f : F) (st : ustate) (bs : list N) (up : ustate -> ustate) : F * ustate * bool :=
    match bs with
    | [] => (f, up st, true)
    | b :: bs' => let '(f', st', ok) := fol (f, st) b in if ok then feed_shared f' st' bs' up else (f', st', false)
    end.
  (** utfc.go:152-285 (st *UtfcState) Follow, st being &sharedState *)
  Definition shared_follow (st : ustate) (ch : Z) (f : F) : F * ustate * bool :=
    let cp := ch in
    let keep := fun st : ustate => st in
    if (auxOffs st =? 0) && inRanges cp rangesLatin then                 (* 155 *)
      feed_shared f st [byte (Z.lor markerAux (encodeRanges cp rangesLatin))] keep
    else if negb (auxOffs st =? 0) && (auxOffs st <=? cp) && (cp <=? auxOffs st + 0x3F) then (* 160 *)
      feed_shared f st [byte (Z.lor markerAux (cp - auxOffs st))] keep
    else if inRanges cp rangesExtra then                                  (* 168 *)
      let newOffs := Z.land cp offsMask13Bit in
      if negb (is21Bit st) && (newOffs =? offs st) then                   (* 170 *)
        let lo := byte (Z.land cp 0x7F) in
        if (lo =? 0)%N then feed_shared f st [byte marker0] keep else feed_shared f st [lo] keep
      else
        let extra := encodeRanges cp rangesExtra in                       (* 183 *)
        let lo := byte extra in
        let up := fun st => if (rangeHK0 <=? cp) && (cp <? rangeHK1)      (* 194-198 *)
                   then mkU newOffs (getAuxOffset (offs st)) false else st in
        if (lo =? 0)%N
        then feed_shared f st [byte marker10; byte (Z.lor markerExtra (1 + Z.shiftr extra 8))] up
        else feed_shared f st [byte (Z.lor markerExtra (1 + Z.shiftr extra 8)); lo] up
    else if min21BitCp <=? cp then                                        (* 202 *)
      let cp := cp - min21BitCp in
      let newOffs := Z.land cp offsMask21Bit in
      if is21Bit st && (newOffs =? offs st) then                          (* 207 *)
        let hi := byte (Z.land (Z.shiftr cp 8) 0x7F) in
        let lo := byte cp in
        if (hi =? 0)%N && (lo =? 0)%N then feed_shared f st [byte marker0] keep
        else if (hi =? 0)%N then feed_shared f st [byte marker00; lo] keep
        else if (lo =? 0)%N then feed_shared f st [byte marker10; hi] keep
        else feed_shared f st [hi; lo] keep
      else                                                                (* 227 *)
        let hi := byte (Z.shiftr cp 8) in
        let lo := byte cp in
        let m := byte (Z.lor marker21Bit (Z.shiftr cp 16)) in
        let up := fun st => mkU newOffs (offs st) true in                 (* 247-249 *)
        if (hi =? 0)%N && (lo =? 0)%N then feed_shared f st [byte marker11; m] up
        else if (hi =? 0)%N then feed_shared f st [byte marker10; m; lo] up
        else if (lo =? 0)%N then feed_shared f st [byte marker01; m; hi] up
        else feed_shared f st [m; hi; lo] up
    else                                                                  (* 251 *)
      let newOffs := Z.land cp offsMask13Bit in
      if negb (is21Bit st) && (newOffs =? offs st) then
        let lo := byte (Z.land cp 0x7F) in
        if (lo =? 0)%N then feed_shared f st [byte marker0] keep else feed_shared f st [lo] keep
      else
        let lo := byte (Z.land cp 0xFF) in
        let m := byte (Z.lor marker13Bit (Z.shiftr cp 8)) in
        let up := fun st => mkU (if cp <=? maxLatinCp then 0 else newOffs)  (* 275-281 *)
                       (getAuxOffset (offs st)) false in
        if (lo =? 0)%N then feed_shared f st [byte marker10; m] up
        else feed_shared f st [m; lo] up.
  (** utfc.go:291-299 UtfcFollow *)
  Fixpoint shared_follow_from (st : ustate) (str : list Z) (f : F) : F * ustate * bool :=
    match str with
    | [] => (f, st, true)
    | ch :: str' =>
        let '(f', st', ok) := shared_follow st ch f in
        if ok then shared_follow_from st' str' f' else (f', st', false)
    end.
  Definition SharedFollow (str : list Z) (f : F) : F * ustate * bool := shared_follow_from ustate0 str f.
End Shared.

(** A follower that keeps the bytes in order and calls UtfcEncode for texts of its own,
    which ends with sharedState as the last character leaves it. *)
Definition calling (texts : list N -> option (list Z)) (fst : list N * ustate) (b : N) : list N * ustate * bool :=
  let '(f, st) := fst in (f ++ [b], match texts (f ++ [b]) with Some t => (utfc_follow buf_follow t []).1.2 | None => st end, true).
(** One that leaves the variable alone. *)
Definition undisturbed {F} (fol : F -> N -> F * bool) (fst : F * ustate) (b : N) : F * ustate * bool :=
  let '(f, ok) := fol fst.1 b in (f, fst.2, ok).

Lemma feed_undisturbed {F} (fol : F -> N -> F * bool) f st bs up : feed_shared (undisturbed fol) f st bs up = emit fol f st bs (up st).
Proof.
  unfold emit. revert f. induction bs as [|b bs IH]; intros f; cbn [feed_shared feed]; [done|]. unfold undisturbed at 1. cbn [fst snd]. destruct (fol f b) as [f' []]; [apply IH|done].
Qed.
Lemma shared_undisturbed {F} (fol : F -> N -> F * bool) st ch f : shared_follow (undisturbed fol) st ch f = ustate_follow fol st ch f.
Proof. unfold shared_follow, ustate_follow. cbv zeta. by rewrite !feed_undisturbed. Qed.
Lemma shared_from_undisturbed {F} (fol : F -> N -> F * bool) st s f : shared_follow_from (undisturbed fol) st s f = utfc_follow_from fol st s f.
Proof. revert st f. induction s as [|c s IH]; intros st f; cbn [shared_follow_from utfc_follow_from]; [done|]. rewrite shared_undisturbed. destruct (ustate_follow fol st c f) as [[f' st'] []]; [apply IH|done]. Qed.
