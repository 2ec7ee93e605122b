(** Proofs about the UTF-C codec model. *)
From Verif Require Import Go Utfc UtfcArith.
Local Open Scope Z_scope.
Local Ltac Zify.zify_post_hook ::= Z.div_mod_to_equations.

(** ** Pure form of the encoder: the bytes and next state for one character. *)
Definition enc1 (st : ustate) (cp : Z) : list N * ustate :=
  if (auxOffs st =? 0) && inRanges cp rangesLatin then
    ([byte (Z.lor markerAux (encodeRanges cp rangesLatin))], st)
  else if negb (auxOffs st =? 0) && (auxOffs st <=? cp) && (cp <=? auxOffs st + 0x3F) then
    ([byte (Z.lor markerAux (cp - auxOffs st))], st)
  else if inRanges cp rangesExtra then
    let newOffs := Z.land cp offsMask13Bit in
    if negb (is21Bit st) && (newOffs =? offs st) then
      (if (byte (Z.land cp 0x7F) =? 0)%N then [byte marker0] else [byte (Z.land cp 0x7F)], st)
    else
      let extra := encodeRanges cp rangesExtra in
      (if (byte extra =? 0)%N then [byte marker10; byte (Z.lor markerExtra (1 + Z.shiftr extra 8))]
       else [byte (Z.lor markerExtra (1 + Z.shiftr extra 8)); byte extra],
       if (rangeHK0 <=? cp) && (cp <? rangeHK1) then mkU newOffs (getAuxOffset (offs st)) false else st)
  else if min21BitCp <=? cp then
    let cp := cp - min21BitCp in
    let newOffs := Z.land cp offsMask21Bit in
    if is21Bit st && (newOffs =? offs st) then
      let hi := byte (Z.land (Z.shiftr cp 8) 0x7F) in
      let lo := byte cp in
      (if (hi =? 0)%N && (lo =? 0)%N then [byte marker0]
       else if (hi =? 0)%N then [byte marker00; lo]
       else if (lo =? 0)%N then [byte marker10; hi] else [hi; lo], st)
    else
      let hi := byte (Z.shiftr cp 8) in
      let lo := byte cp in
      let m := byte (Z.lor marker21Bit (Z.shiftr cp 16)) in
      (if (hi =? 0)%N && (lo =? 0)%N then [byte marker11; m]
       else if (hi =? 0)%N then [byte marker10; m; lo]
       else if (lo =? 0)%N then [byte marker01; m; hi] else [m; hi; lo],
       mkU newOffs (offs st) true)
  else
    let newOffs := Z.land cp offsMask13Bit in
    if negb (is21Bit st) && (newOffs =? offs st) then
      (if (byte (Z.land cp 0x7F) =? 0)%N then [byte marker0] else [byte (Z.land cp 0x7F)], st)
    else
      let lo := byte (Z.land cp 0xFF) in
      let m := byte (Z.lor marker13Bit (Z.shiftr cp 8)) in
      (if (lo =? 0)%N then [byte marker10; m] else [m; lo],
       mkU (if cp <=? maxLatinCp then 0 else newOffs) (getAuxOffset (offs st)) false).

Lemma follow_enc1 {F} (fol : F -> N -> F * bool) st cp f :
  ustate_follow fol st cp f = emit fol f st (enc1 st cp).1 (enc1 st cp).2.
Proof.
  unfold ustate_follow, enc1. cbv zeta.
  repeat match goal with
  | |- context [if ?c then emit _ _ _ _ _ else _] => destruct c eqn:?
  | |- context [if ?c then (if _ then _ else _) else _] => destruct c eqn:?
  end; cbn [fst snd]; try reflexivity;
  repeat match goal with |- context [if ?c then _ else _] => destruct c eqn:? end; reflexivity.
Qed.

(** Bytes and state of a whole text. *)
Fixpoint encs (st : ustate) (s : list Z) : list N * ustate :=
  match s with
  | [] => ([], st)
  | c :: s' => let '(bs, st') := enc1 st c in let '(r, st'') := encs st' s' in (bs ++ r, st'')
  end.

Lemma encs_cons st c s :
  encs st (c :: s) = ((enc1 st c).1 ++ (encs (enc1 st c).2 s).1, (encs (enc1 st c).2 s).2).
Proof. cbn [encs]. destruct (enc1 st c) as [b st']. cbn. by destruct (encs st' s). Qed.

Lemma feed_buf buf bs : feed buf_follow buf bs = (buf ++ bs, true).
Proof.
  revert buf; induction bs as [|b bs IH]; intros buf; cbn [feed].
  - by rewrite app_nil_r.
  - unfold buf_follow at 1. rewrite IH, <- app_assoc. done.
Qed.

Lemma follow_from_buf st s buf :
  utfc_follow_from buf_follow st s buf = (buf ++ (encs st s).1, (encs st s).2, true).
Proof.
  revert st buf; induction s as [|c s IH]; intros st buf; cbn [utfc_follow_from].
  - cbn. by rewrite app_nil_r.
  - rewrite follow_enc1. unfold emit. rewrite feed_buf. rewrite IH, encs_cons. cbn [fst snd].
    by rewrite <- app_assoc.
Qed.

Lemma encode_encs s : utfc_encode s = (encs ustate0 s).1.
Proof. unfold utfc_encode, utfc_follow. rewrite follow_from_buf. done. Qed.

(** ** C05: any follower *)
Lemma feed_app {F} (fol : F -> N -> F * bool) f xs ys :
  feed fol f (xs ++ ys) =
  let '(f', ok) := feed fol f xs in if ok then feed fol f' ys else (f', false).
Proof.
  revert f; induction xs as [|x xs IH]; intros f; cbn [feed app]; [done|].
  destruct (fol f x) as [f' []]; [apply IH|done].
Qed.

Lemma follow_from_feed {F} (fol : F -> N -> F * bool) st s f :
  let '(f', st', ok) := utfc_follow_from fol st s f in
  (f', ok) = feed fol f (encs st s).1.
Proof.
  revert st f; induction s as [|c s IH]; intros st f; cbn [utfc_follow_from]; [done|].
  rewrite follow_enc1. unfold emit. rewrite encs_cons. cbn [fst snd]. rewrite feed_app.
  destruct (feed fol f (enc1 st c).1) as [f' []] eqn:He; [|done].
  apply IH.
Qed.

(** ** Invariant of reachable codec states *)
Definition uinv (st : ustate) : Prop :=
  0 <= offs st < 4294967296 /\ 0 <= auxOffs st < 4294967296 /\
  (is21Bit st = false -> offs st mod 128 = 0) /\
  (is21Bit st = true -> offs st mod 32768 = 0).

Lemma uinv0 : uinv ustate0.
Proof. unfold uinv, ustate0, offsInitAux; cbn. lia. Qed.

Lemma getAux_bound o : 0 <= o < 4294967296 -> 0 <= getAuxOffset o < 4294967296.
Proof.
  intros Ho. unfold getAuxOffset, auxOffset, assocZ.
  repeat match goal with |- context [if ?c then _ else _] => destruct c eqn:? end; lia.
Qed.

Definition scalar (cp : Z) : Prop := is_scalar cp = true.

Lemma scalar_bound cp : scalar cp -> 0 <= cp <= 0x10FFFF.
Proof. unfold scalar, is_scalar. lia. Qed.

Lemma enc1_uinv st cp : uinv st -> 0 <= cp <= 0x10FFFF -> uinv (enc1 st cp).2.
Proof.
  intros (Ho & Ha & H13 & H21) Hcp. pose proof (getAux_bound _ Ho) as Hg.
  unfold enc1. cbv zeta.
  rewrite ?land13 by lia.
  repeat match goal with |- context [if ?c then (_, _) else _] => destruct c eqn:? end;
   cbn [fst snd]; unfold uinv; try done;
   repeat match goal with |- context [if ?c then _ else _] => destruct c eqn:? end;
   cbn [offs auxOffs is21Bit]; rewrite ?land21 by (unfold min21BitCp in *; lia); try done;
   unfold min21BitCp, maxLatinCp in *; lia.
Qed.

(** ** Decoder with the marker0 case of 21-bit mode repaired ([fixed = true])
    or as in the code ([fixed = false]); split in the zero-marker prefix and the
    body. *)
Definition dbody (fixed : bool) (st : ustate) (zm cp : Z) (bs2 : list N) : res (Z * ustate * list N) :=
  if Z.land cp markerAux =? markerAux then
    let cp' := if auxOffs st =? 0 then decodeRanges (Z.lxor cp markerAux) rangesLatin
               else auxOffs st + Z.lxor cp markerAux in
    Ok (cp', st, bs2)
  else if (Z.land cp markerExtra =? markerExtra) && negb (Z.lxor cp markerExtra =? 0) then
    '(lo, bs3) ← (if negb (zm =? marker10) then next_byte bs2 else Ok (0, bs2));
    let cp' := decodeRanges (Z.lor (Z.shiftl (Z.lxor cp markerExtra - 1) 8) lo) rangesExtra in
    let st' := if (rangeHK0 <=? cp') && (cp' <? rangeHK1)
               then mkU (Z.land cp' offsMask13Bit) (getAuxOffset (offs st)) false else st in
    Ok (cp', st', bs3)
  else if Z.land cp marker21Bit =? marker21Bit then
    '(hi, bs3) ← (if negb (zm =? marker10) && negb (zm =? marker11) then next_byte bs2 else Ok (0, bs2));
    '(lo, bs4) ← (if negb (zm =? marker01) && negb (zm =? marker11) then next_byte bs3 else Ok (0, bs3));
    let cp' := Z.lor (Z.lor (Z.shiftl (Z.lxor cp marker21Bit) 16) (Z.shiftl hi 8)) lo in
    Ok (cp' + min21BitCp, mkU (Z.land cp' offsMask21Bit) (offs st) true, bs4)
  else if Z.land cp marker13Bit =? marker13Bit then
    '(hi, bs3) ← (if negb (zm =? marker10) then next_byte bs2 else Ok (0, bs2));
    let cp' := Z.lor (Z.shiftl (Z.lxor cp marker13Bit) 8) hi in
    Ok (cp', mkU (if cp' <=? maxLatinCp then 0 else Z.land cp' offsMask13Bit)
                 (getAuxOffset (offs st)) false, bs3)
  else if is21Bit st then
    '(hi, bs3) ← (if fixed && (zm =? marker0) then Ok (0, bs2)
                  else if negb (zm =? marker10) then next_byte bs2 else Ok (0, bs2));
    Ok (min21BitCp + Z.lor (Z.lor (offs st) (Z.shiftl cp 8)) hi, st, bs3)
  else
    Ok (Z.lor (offs st) cp, st, bs2).

Definition dstep (fixed : bool) (st : ustate) (bs : list N) : res (Z * ustate * list N) :=
  '(b0, bs0) ← next_byte bs;
  let '(zm, bs1) := if (marker0 <=? b0) && (b0 <=? marker11) then (b0, bs0) else (0, bs) in
  '(cp, bs2) ← (if negb (zm =? marker0) && negb (zm =? marker00)
                then next_byte bs1 else Ok (0, bs1));
  dbody fixed st zm cp bs2.

Lemma dstep_false st bs : dstep false st bs = utfc_decode_step st bs.
Proof. reflexivity. Qed.

(** The characters the decoder gets wrong: encoded by [marker0] in 21-bit mode. *)
Definition bad1 (st : ustate) (cp : Z) : bool :=
  is21Bit st && negb (inRanges cp rangesExtra) &&
  (min21BitCp <=? cp) && (cp - min21BitCp =? offs st) &&
  negb (negb (auxOffs st =? 0) && (auxOffs st <=? cp) && (cp <=? auxOffs st + 0x3F)).

Lemma scalar_string cp : scalar cp -> string_of_rune cp = cp.
Proof.
  intros H. pose proof (scalar_bound _ H). unfold string_of_rune, rune_of_int.
  rewrite Z.mod_small by lia. destruct (_ <? _) eqn:E; [|lia]. by rewrite H.
Qed.

Lemma dstep_plain fx st (x : Z) rest : 0 <= x < 256 -> ~ (187 <= x <= 191) ->
  dstep fx st (byte x :: rest) = dbody fx st 0 x rest.
Proof.
  intros Hx Hm. unfold dstep. cbn [next_byte mbind res_bind]. rewrite of_byte, Z.mod_small by lia.
  unfold marker0, marker11. destruct ((187 <=? x) && _) eqn:E; [lia|].
  cbn [next_byte mbind res_bind Z.eqb negb andb marker0 marker00]. by rewrite of_byte, Z.mod_small by lia.
Qed.
Lemma dstep_zero fx st (m : Z) rest : m = marker0 \/ m = marker00 ->
  dstep fx st (byte m :: rest) = dbody fx st m 0 rest.
Proof. by intros [-> | ->]. Qed.
Lemma dstep_mark fx st (m x : Z) rest : m = marker10 \/ m = marker01 \/ m = marker11 -> 0 <= x < 256 ->
  dstep fx st (byte m :: byte x :: rest) = dbody fx st m x rest.
Proof.
  intros Hm Hx. unfold dstep.
  destruct Hm as [-> | [-> | ->]];
  cbn [next_byte mbind res_bind]; rewrite of_byte, Z.mod_small by (unfold marker10, marker01, marker11; lia);
  cbn -[byte dbody Z.of_N]; by rewrite of_byte, Z.mod_small by lia.
Qed.

Lemma dbody_aux fx st zm x rest : 192 <= x < 256 ->
  dbody fx st zm x rest =
  Ok (if auxOffs st =? 0 then decodeRanges (x - 192) rangesLatin else auxOffs st + (x - 192), st, rest).
Proof.
  intros Hx. unfold dbody. destruct (byte_class x) as (C1 & _ & _ & _ & C5 & _); [lia|].
  rewrite C1, C5 by lia. destruct (192 <=? _) eqn:E2; [done|lia].
Qed.

Lemma next_byte_byte x rest : 0 <= x < 256 -> next_byte (byte x :: rest) = Ok (x, rest).
Proof. intros Hx. cbn. by rewrite of_byte, Z.mod_small by lia. Qed.

Lemma dbody_extra fx st zm x lo bs rest : 177 <= x < 192 -> 0 <= lo < 256 ->
  (if negb (zm =? marker10) then next_byte bs else Ok (0, bs)) = Ok (lo, rest) ->
  dbody fx st zm x bs =
  let cp' := decodeRanges ((x - 177) * 256 + lo) rangesExtra in
  Ok (cp', if (rangeHK0 <=? cp') && (cp' <? rangeHK1)
           then mkU (Z.land cp' offsMask13Bit) (getAuxOffset (offs st)) false else st, rest).
Proof.
  intros Hx Hlo Hn. unfold dbody. destruct (byte_class x) as (C1 & C2 & _ & _ & _ & C6 & _); [lia|].
  rewrite C1, C2, C6 by lia. destruct (192 <=? _) eqn:?; [lia|]. destruct (177 <=? _) eqn:?; [|lia].
  rewrite Hn. cbn [mbind res_bind]. rewrite shiftl8, lor_256 by lia.
  replace (x - 176 - 1) with (x - 177) by lia. done.
Qed.

Lemma dbody_21 fx st zm x hi lo bs bs' rest : 160 <= x < 177 -> 0 <= hi < 256 -> 0 <= lo < 256 ->
  (if negb (zm =? marker10) && negb (zm =? marker11) then next_byte bs else Ok (0, bs)) = Ok (hi, bs') ->
  (if negb (zm =? marker01) && negb (zm =? marker11) then next_byte bs' else Ok (0, bs')) = Ok (lo, rest) ->
  dbody fx st zm x bs =
  let cp' := (x - 160) * 65536 + hi * 256 + lo in
  Ok (cp' + min21BitCp, mkU (Z.land cp' offsMask21Bit) (offs st) true, rest).
Proof.
  intros Hx Hhi Hlo Hn Hn'. unfold dbody.
  destruct (byte_class x) as (C1 & C2 & C3 & _ & _ & _ & C7 & _); [lia|].
  rewrite C1, C2, C3, C7 by lia. destruct (192 <=? _) eqn:?; [lia|]. destruct (177 <=? _) eqn:?; [lia|].
  destruct (160 <=? _) eqn:?; [|lia].
  rewrite Hn. cbn [mbind res_bind]. rewrite Hn'. cbn [mbind res_bind].
  rewrite shiftl16, shiftl8. rewrite lor_65536 by lia.
  replace ((x - 160) * 65536 + hi * 256) with (((x - 160) * 256 + hi) * 256) by lia.
  rewrite lor_256 by lia. done.
Qed.

Lemma dbody_13 fx st zm x hi bs rest : 128 <= x < 160 -> 0 <= hi < 256 ->
  (if negb (zm =? marker10) then next_byte bs else Ok (0, bs)) = Ok (hi, rest) ->
  dbody fx st zm x bs =
  let cp' := (x - 128) * 256 + hi in
  Ok (cp', mkU (if cp' <=? maxLatinCp then 0 else Z.land cp' offsMask13Bit)
               (getAuxOffset (offs st)) false, rest).
Proof.
  intros Hx Hhi Hn. unfold dbody.
  destruct (byte_class x) as (C1 & C2 & C3 & C4 & _ & _ & _ & C8); [lia|].
  rewrite C1, C2, C3, C4, C8 by lia. destruct (192 <=? _) eqn:?; [lia|]. destruct (177 <=? _) eqn:?; [lia|].
  destruct (160 <=? _) eqn:?; [lia|]. destruct (128 <=? _) eqn:?; [|lia].
  rewrite Hn. cbn [mbind res_bind]. rewrite shiftl8, lor_256 by lia. done.
Qed.

Lemma dbody_low fx st zm x bs : 0 <= x < 128 ->
  dbody fx st zm x bs =
  if is21Bit st then
    '(hi, bs3) ← (if fx && (zm =? marker0) then Ok (0, bs)
                  else if negb (zm =? marker10) then next_byte bs else Ok (0, bs));
    Ok (min21BitCp + Z.lor (Z.lor (offs st) (Z.shiftl x 8)) hi, st, bs3)
  else Ok (Z.lor (offs st) x, st, bs).
Proof.
  intros Hx. unfold dbody.
  destruct (byte_class x) as (C1 & C2 & C3 & C4 & _); [lia|].
  rewrite C1, C2, C3, C4 by lia. destruct (192 <=? _) eqn:?; [lia|]. destruct (177 <=? _) eqn:?; [lia|].
  destruct (160 <=? _) eqn:?; [lia|]. destruct (128 <=? _) eqn:?; [lia|]. done.
Qed.

Lemma dbody_low13 fx st zm x bs : uinv st -> is21Bit st = false -> 0 <= x < 128 ->
  dbody fx st zm x bs = Ok (offs st + x, st, bs).
Proof.
  intros (Ho & Ha & H13 & _) H21 Hx. rewrite dbody_low, H21 by done.
  rewrite (lor_offs 7) by (try lia; apply H13; done). done.
Qed.

Lemma dbody_low21 fx st zm x hi bs rest : uinv st -> is21Bit st = true -> 0 <= x < 128 -> 0 <= hi < 256 ->
  (if fx && (zm =? marker0) then Ok (0, bs)
   else if negb (zm =? marker10) then next_byte bs else Ok (0, bs)) = Ok (hi, rest) ->
  dbody fx st zm x bs = Ok (min21BitCp + (offs st + x * 256 + hi), st, rest).
Proof.
  intros (Ho & Ha & _ & H21m) H21 Hx Hhi Hn. rewrite dbody_low, H21, Hn by done. cbn [mbind res_bind].
  specialize (H21m H21).
  rewrite shiftl8. rewrite (lor_offs 15 (offs st)) by (try done; lia).
  rewrite (lor_offs 8) by lia. done.
Qed.

Lemma low13_bytes fx st x rest : uinv st -> is21Bit st = false -> 0 <= x < 128 ->
  dstep fx st ((if (byte x =? 0)%N then [byte marker0] else [byte x]) ++ rest) =
  Ok (offs st + x, st, rest).
Proof.
  intros Hi H21 Hx. rewrite byte_eqb0, Z.mod_small by lia.
  destruct (Z.eqb_spec x 0) as [->|Hnz]; cbn [app].
  - rewrite dstep_zero by auto. apply dbody_low13; [done..|lia].
  - rewrite dstep_plain by lia. by apply dbody_low13.
Qed.

(** One character: the decoder undoes the encoder, except in the bad case. *)
Lemma dstep_enc1 fx st cp rest :
  uinv st -> 0 <= cp <= 0x10FFFF -> fx = true \/ bad1 st cp = false ->
  dstep fx st ((enc1 st cp).1 ++ rest) = Ok (cp, (enc1 st cp).2, rest).
Proof.
  intros Hinv Hcp Hbad. pose proof Hinv as (Ho & Ha & H13 & H21).
  unfold enc1. cbv zeta.
  destruct ((auxOffs st =? 0) && inRanges cp rangesLatin) eqn:E1; cbn [fst snd].
  { apply andb_true_iff in E1 as [E0 E1]. apply inLatin in E1 as (R1 & R2 & R3).
    cbn [app]. rewrite lor_aux by done. rewrite dstep_plain by lia. rewrite dbody_aux by lia.
    rewrite E0. replace (192 + _ - 192) with (encodeRanges cp rangesLatin) by lia. by rewrite R2. }
  destruct (negb (auxOffs st =? 0) && (auxOffs st <=? cp) && (cp <=? auxOffs st + 0x3F)) eqn:E2; cbn [fst snd].
  { cbn [app]. rewrite lor_aux by lia. rewrite dstep_plain by lia. rewrite dbody_aux by lia.
    destruct (auxOffs st =? 0) eqn:E0; [lia|]. repeat f_equal. lia. }
  destruct (inRanges cp rangesExtra) eqn:E3.
  { pose proof (inExtra _ E3) as (R1 & R2 & R3). rewrite land13 by lia.
    destruct (negb (is21Bit st) && (cp - cp mod 128 =? offs st)) eqn:E4; cbn [fst snd].
    - apply andb_true_iff in E4 as [E4 E5]. apply negb_true_iff in E4. rewrite land7F.
      rewrite low13_bytes by (try done; lia). repeat f_equal. lia.
    - rewrite shiftr8. set (e := encodeRanges cp rangesExtra) in *.
      rewrite lor_ex by lia. rewrite byte_eqb0.
      assert (Hst : forall lo bs zm, 0 <= lo < 256 -> lo = e mod 256 ->
        (if negb (zm =? marker10) then next_byte bs else Ok (0, bs)) = Ok (lo, rest) ->
        dbody fx st zm (177 + e / 256) bs =
        Ok (cp, if (rangeHK0 <=? cp) && (cp <? rangeHK1)
           then mkU (cp - cp mod 128) (getAuxOffset (offs st)) false else st, rest)).
      { intros lo bs zm Hlo -> Hn. rewrite (dbody_extra fx st zm _ (e mod 256) bs rest); [|lia|lia|exact Hn]. cbv zeta.
        replace ((177 + e / 256 - 177) * 256 + e mod 256) with e by lia. cbv zeta. rewrite R2.
        destruct ((rangeHK0 <=? cp) && (cp <? rangeHK1)); [|done]. by rewrite land13 by lia. }
      replace (176 + (1 + e / 256)) with (177 + e / 256) by lia.
      destruct (e mod 256 =? 0) eqn:E5; cbn [app].
      + rewrite dstep_mark by (auto; lia). apply (Hst 0); [lia..|done].
      + rewrite dstep_plain by lia. apply (Hst (e mod 256)); [lia..|].
        cbn [Z.eqb negb marker10]. unfold byte. cbn [next_byte]. repeat f_equal. lia. }
  destruct (min21BitCp <=? cp) eqn:E4.
  { unfold min21BitCp in *. set (c := cp - 9728). assert (Hc : 0 <= c <= 1104895) by lia.
    rewrite land21 by lia.
    destruct (is21Bit st && (c - c mod 32768 =? offs st)) eqn:E5; cbn [fst snd].
    - apply andb_true_iff in E5 as [E5 E6].
      rewrite shiftr8, land7F, !byte_eqb0.
      assert (Hmm : c / 256 mod 128 mod 256 = c / 256 mod 128) by lia. rewrite Hmm.
      destruct (c / 256 mod 128 =? 0) eqn:E7; cbn [andb].
      + destruct (c mod 256 =? 0) eqn:E8; cbn [app].
        * rewrite dstep_zero by auto.
          assert (fx = true) as ->.
          { destruct Hbad as [Hb|Hb]; [done|]. unfold bad1 in Hb.
            rewrite E5, E3, E2 in Hb. unfold min21BitCp in Hb. lia. }
          rewrite (dbody_low21 true st marker0 0 0 rest rest) by (try done; lia).
          unfold min21BitCp. repeat f_equal. lia.
        * rewrite dstep_zero by auto.
          rewrite (dbody_low21 fx st marker00 0 (c mod 256) (byte c :: rest) rest); [|done|done|lia|lia|].
          -- unfold min21BitCp. repeat f_equal. lia.
          -- cbn [next_byte marker00 marker0 marker10 Z.eqb negb]. rewrite of_byte.
             destruct fx; done.
      + destruct (c mod 256 =? 0) eqn:E8; cbn [app].
        * rewrite dstep_mark by (auto; lia).
          rewrite (dbody_low21 fx st marker10 (c / 256 mod 128) 0 rest rest); [|done|done|lia|lia|].
          -- unfold min21BitCp. repeat f_equal. lia.
          -- destruct fx; done.
        * rewrite dstep_plain by lia.
          rewrite (dbody_low21 fx st 0 (c / 256 mod 128) (c mod 256) (byte c :: rest) rest); [|done|done|lia|lia|].
          -- unfold min21BitCp. repeat f_equal. lia.
          -- cbn [next_byte marker00 marker0 marker10 Z.eqb negb]. rewrite of_byte.
             destruct fx; done.
    - rewrite shiftr8, shiftr16, !byte_eqb0. rewrite lor_21 by lia.
      assert (Hst : forall zm hi lo bs bs',
        hi = c / 256 mod 256 -> lo = c mod 256 ->
        (if negb (zm =? marker10) && negb (zm =? marker11) then next_byte bs else Ok (0, bs)) = Ok (hi, bs') ->
        (if negb (zm =? marker01) && negb (zm =? marker11) then next_byte bs' else Ok (0, bs')) = Ok (lo, rest) ->
        dbody fx st zm (160 + c / 65536) bs =
        Ok (cp, mkU (c - c mod 32768) (offs st) true, rest)).
      { intros zm hi lo bs bs' -> -> Hn Hn'.
        rewrite (dbody_21 fx st zm _ (c / 256 mod 256) (c mod 256) bs bs' rest); [|lia|lia|lia|exact Hn|exact Hn']. cbv zeta.
        replace ((160 + c / 65536 - 160) * 65536 + c / 256 mod 256 * 256 + c mod 256) with c by lia.
        rewrite land21 by lia. unfold min21BitCp. repeat f_equal. lia. }
      destruct (c / 256 mod 256 =? 0) eqn:E7; cbn [andb]; destruct (c mod 256 =? 0) eqn:E8; cbn [app].
      + rewrite dstep_mark by (auto; lia). apply (Hst _ 0 0 _ rest); [lia|lia|done|done].
      + rewrite dstep_mark by (auto; lia). apply (Hst _ 0 (c mod 256) _ (byte c :: rest)); [lia|lia|done|].
        cbn [next_byte marker01 marker11 marker10 Z.eqb negb andb]. by rewrite of_byte.
      + rewrite dstep_mark by (auto; lia). apply (Hst _ (c / 256 mod 256) 0 _ rest); [lia|lia| |done].
        cbn [next_byte marker01 marker11 marker10 Z.eqb negb andb]. by rewrite of_byte.
      + rewrite dstep_plain by lia. apply (Hst _ (c / 256 mod 256) (c mod 256) _ (byte c :: rest)); [lia|lia| |];
        cbn [next_byte marker01 marker11 marker10 Z.eqb negb andb]; by rewrite of_byte. }
  unfold min21BitCp in *. rewrite inRanges_extra in E3.
  assert (Hc : 0 <= cp < 0x2000) by lia.
  rewrite land13 by lia.
  destruct (negb (is21Bit st) && (cp - cp mod 128 =? offs st)) eqn:E5; cbn [fst snd].
  - apply andb_true_iff in E5 as [E6 E5]. apply negb_true_iff in E6. rewrite land7F.
    rewrite low13_bytes by (try done; lia). repeat f_equal. lia.
  - rewrite landFF, shiftr8, byte_eqb0, lor_13 by lia.
    assert (Hst : forall lo bs zm, 0 <= lo < 256 -> lo = cp mod 256 ->
        (if negb (zm =? marker10) then next_byte bs else Ok (0, bs)) = Ok (lo, rest) ->
        dbody fx st zm (128 + cp / 256) bs =
        Ok (cp, mkU (if cp <=? maxLatinCp then 0 else cp - cp mod 128) (getAuxOffset (offs st)) false, rest)).
    { intros lo bs zm Hlo -> Hn. rewrite (dbody_13 fx st zm _ (cp mod 256) bs rest); [|lia|lia|exact Hn]. cbv zeta.
      replace ((128 + cp / 256 - 128) * 256 + cp mod 256) with cp by lia. by rewrite land13 by lia. }
    destruct (cp mod 256 mod 256 =? 0) eqn:E6; cbn [app].
    + rewrite dstep_mark by (auto; lia). apply (Hst 0); [lia..|done].
    + rewrite dstep_plain by lia. apply (Hst (cp mod 256)); [lia..|].
      cbn [next_byte marker10 Z.eqb negb]. rewrite of_byte, Z.mod_mod by lia. done.
Qed.

(** ** Shape of one character's code *)
Lemma enc1_cases st cp : exists bs, (enc1 st cp).1 = bs /\ (1 <= length bs <= 3)%nat /\
  (0 <= cp <= 0x10FFFF -> uinv st -> Forall (fun b => b <> 0%N /\ (b < 256)%N) bs).
Proof.
  eexists; split; [reflexivity|].
  assert (Hb : forall x, (byte x < 256)%N) by (intros x; unfold byte; lia).
  assert (Hnz : forall x, (byte x =? 0)%N = false -> byte x <> 0%N) by (intros x; lia).
  assert (Hm : byte marker0 <> 0%N /\ byte marker00 <> 0%N /\ byte marker10 <> 0%N /\
               byte marker01 <> 0%N /\ byte marker11 <> 0%N) by done.
  destruct Hm as (M0 & M00 & M10 & M01 & M11).
  unfold enc1. cbv zeta.
  destruct ((auxOffs st =? 0) && inRanges cp rangesLatin) eqn:E1; cbn [fst length].
  { split; [lia|]. intros _ _. apply andb_true_iff in E1 as [E0 E1].
    apply inLatin in E1 as (R1 & R2 & R3). rewrite lor_aux by done.
    repeat constructor; [unfold byte; lia|done]. }
  destruct (negb (auxOffs st =? 0) && (auxOffs st <=? cp) && (cp <=? auxOffs st + 0x3F)) eqn:E2; cbn [fst length].
  { split; [lia|]. intros _ _. rewrite lor_aux by lia. repeat constructor; [unfold byte; lia|done]. }
  destruct (inRanges cp rangesExtra) eqn:E3.
  { destruct (_ && (_ =? offs st)) eqn:E4; cbn [fst].
    - destruct (byte _ =? 0)%N eqn:E5; cbn; split; try lia; intros; repeat constructor; auto.
    - pose proof (inExtra _ E3) as (R1 & R2 & R3). rewrite shiftr8.
      rewrite lor_ex by lia.
      assert (byte (176 + (1 + encodeRanges cp rangesExtra / 256)) <> 0%N) by (unfold byte; lia).
      destruct (byte (encodeRanges _ _) =? 0)%N eqn:E5; cbn; split; try lia; intros; repeat constructor; auto. }
  destruct (min21BitCp <=? cp) eqn:E4.
  { destruct (_ && (_ =? offs st)) eqn:E5; cbn [fst].
    - destruct (byte (Z.land _ _) =? 0)%N eqn:E6, (byte (cp - _) =? 0)%N eqn:E7; cbn; split; try lia;
        intros; repeat constructor; auto.
    - assert (H : 0 <= cp <= 0x10FFFF -> byte (Z.lor marker21Bit (Z.shiftr (cp - min21BitCp) 16)) <> 0%N).
      { intros. unfold min21BitCp in *. rewrite shiftr16, lor_21 by lia. unfold byte. lia. }
      destruct (byte (Z.shiftr _ 8) =? 0)%N eqn:E6, (byte (cp - _) =? 0)%N eqn:E7; cbn; split; try lia;
        intros; repeat constructor; auto. }
  destruct (_ && (_ =? offs st)) eqn:E5; cbn [fst].
  - destruct (byte _ =? 0)%N eqn:E6; cbn; split; try lia; intros; repeat constructor; auto.
  - assert (H : 0 <= cp <= 0x10FFFF -> byte (Z.lor marker13Bit (Z.shiftr cp 8)) <> 0%N).
    { intros. unfold min21BitCp in *. rewrite shiftr8, lor_13 by lia. unfold byte. lia. }
    destruct (byte (Z.land _ _) =? 0)%N eqn:E6; cbn; split; try lia; intros; repeat constructor; auto.
Qed.

Lemma enc1_length st cp : (1 <= length (enc1 st cp).1 <= 3)%nat.
Proof. destruct (enc1_cases st cp) as (bs & <- & H & _). done. Qed.
Lemma enc1_bytes st cp : uinv st -> 0 <= cp <= 0x10FFFF ->
  Forall (fun b => b <> 0%N /\ (b < 256)%N) (enc1 st cp).1.
Proof. destruct (enc1_cases st cp) as (bs & <- & _ & H). auto. Qed.

Lemma encs_uinv st s : uinv st -> Forall scalar s -> uinv (encs st s).2.
Proof.
  intros Hi Hs. revert st Hi. induction Hs as [|c s Hc Hs IH]; intros st Hi; [done|].
  rewrite encs_cons. cbn [snd]. apply IH. apply enc1_uinv; [done|by apply scalar_bound].
Qed.

Lemma encs_bytes st s : uinv st -> Forall scalar s ->
  Forall (fun b => b <> 0%N /\ (b < 256)%N) (encs st s).1.
Proof.
  intros Hi Hs. revert st Hi. induction Hs as [|c s Hc Hs IH]; intros st Hi; [constructor|].
  rewrite encs_cons. cbn [fst]. apply scalar_bound in Hc. apply Forall_app. split.
  - by apply enc1_bytes.
  - apply IH. by apply enc1_uinv.
Qed.

Lemma encs_length st s : (length s <= length (encs st s).1 <= 3 * length s)%nat.
Proof.
  revert st; induction s as [|c s IH]; intros st; [cbn; lia|].
  rewrite encs_cons. cbn [fst length]. rewrite app_length.
  pose proof (enc1_length st c). specialize (IH (enc1 st c).2). lia.
Qed.

Lemma encs_app st s t :
  encs st (s ++ t) = ((encs st s).1 ++ (encs (encs st s).2 t).1, (encs (encs st s).2 t).2).
Proof.
  revert st; induction s as [|c s IH]; intros st.
  - cbn. by destruct (encs st t).
  - cbn [app]. rewrite !encs_cons, IH. cbn [fst snd]. by rewrite <- app_assoc.
Qed.

(** ** C03: injectivity, via the repaired decoder *)
Lemma encs_inj st s t : uinv st -> Forall scalar s -> Forall scalar t ->
  (encs st s).1 = (encs st t).1 -> s = t.
Proof.
  intros Hi Hs. revert st t Hi. induction Hs as [|c s Hc Hs IH]; intros st t Hi Ht Heq.
  - destruct t as [|d t]; [done|]. rewrite encs_cons in Heq. cbn [fst] in Heq. symmetry in Heq.
    apply app_eq_nil in Heq as [Heq _]. pose proof (enc1_length st d). rewrite Heq in *. cbn in *; lia.
  - destruct Ht as [|d t Hd Ht].
    { rewrite encs_cons in Heq. cbn [fst] in Heq.
      apply app_eq_nil in Heq as [Heq _]. pose proof (enc1_length st c). rewrite Heq in *. cbn in *; lia. }
    apply scalar_bound in Hc, Hd.
    rewrite !encs_cons in Heq. cbn [fst] in Heq.
    pose proof (dstep_enc1 true st c (encs (enc1 st c).2 s).1 Hi Hc (or_introl eq_refl)) as D1.
    pose proof (dstep_enc1 true st d (encs (enc1 st d).2 t).1 Hi Hd (or_introl eq_refl)) as D2.
    rewrite Heq in D1. rewrite D2 in D1. injection D1 as -> _ Hr.
    f_equal. apply (IH (enc1 st c).2); [by apply enc1_uinv|done|]. done.
Qed.

(** ** C01: round trip *)
Fixpoint bads (st : ustate) (s : list Z) : bool :=
  match s with [] => false | c :: s' => bad1 st c || bads (enc1 st c).2 s' end.

Lemma decode_loop_encs fuel st s : uinv st -> Forall scalar s -> bads st s = false ->
  (length (encs st s).1 <= fuel)%nat -> utfc_decode_loop fuel st (encs st s).1 = Ok s.
Proof.
  intros Hi Hs. revert fuel st Hi. induction Hs as [|c s Hc Hs IH]; intros fuel st Hi Hb Hf.
  - destruct fuel; done.
  - rewrite encs_cons in *. cbn [fst] in *. rewrite app_length in Hf. cbn [bads] in Hb.
    apply orb_false_iff in Hb as [Hb1 Hb2].
    pose proof (scalar_bound _ Hc) as Hc'. pose proof (enc1_length st c) as Hl.
    pose proof (dstep_enc1 false st c (encs (enc1 st c).2 s).1 Hi Hc' (or_intror Hb1)) as D.
    rewrite dstep_false in D.
    destruct fuel as [|fuel]; [lia|].
    destruct ((enc1 st c).1 ++ (encs (enc1 st c).2 s).1) as [|b bs] eqn:E.
    { apply (f_equal length) in E. rewrite app_length in E. cbn in E. lia. }
    cbn [utfc_decode_loop]. rewrite D. cbn [mbind res_bind].
    rewrite IH; [|by apply enc1_uinv|done|lia]. cbn [mbind res_bind].
    by rewrite scalar_string.
Qed.

Lemma bad1_code st c : uinv st -> 0 <= c <= 0x10FFFF -> bad1 st c = true -> enc1 st c = ([byte marker0], st).
Proof.
  intros (Ho & Ha & _ & H21) Hc Hb. unfold bad1 in Hb.
  repeat rewrite andb_true_iff in Hb. destruct Hb as [[[[B1 B2] B3] B4] B5].
  apply negb_true_iff in B2, B5. specialize (H21 B1). unfold min21BitCp in *.
  unfold enc1. cbv zeta.
  destruct ((auxOffs st =? 0) && inRanges c rangesLatin) eqn:E1.
  { apply andb_true_iff in E1 as [_ E1]. apply inLatin in E1. lia. }
  rewrite B5, B2. unfold min21BitCp. rewrite B3. rewrite land21 by lia.
  apply Z.eqb_eq in B4. rewrite B1, B4. cbn [andb]. rewrite H21, Z.sub_0_r, Z.eqb_refl.
  rewrite shiftr8, land7F, !byte_eqb0.
  assert (offs st / 256 mod 128 mod 256 = 0) as -> by lia.
  assert (offs st mod 256 = 0) as -> by lia. done.
Qed.

Lemma bad1_iff st c : uinv st -> 0 <= c <= 0x10FFFF ->
  bad1 st c = true <-> (is21Bit st = true /\ (enc1 st c).1 = [0xBB%N]).
Proof.
  intros Hi Hc. split.
  - intros Hb. rewrite (bad1_code _ _ Hi Hc Hb). split; [|done]. unfold bad1 in Hb.
    by destruct (is21Bit st).
  - intros [H21 He]. pose proof Hi as (Ho & Ha & _ & Hm). specialize (Hm H21).
    destruct (bad1 st c) eqn:E; [done|exfalso].
    pose proof (dstep_enc1 false st c [] Hi Hc (or_intror E)) as D.
    rewrite He in D. cbn [app] in D. change 0xBB%N with (byte marker0) in D. rewrite (dstep_zero false st marker0 []) in D by auto.
    rewrite dbody_low in D by lia. rewrite H21 in D. cbn in D. done.
Qed.

Lemma decode_loop_bad fuel st s : uinv st -> Forall scalar s -> bads st s = true ->
  utfc_decode_loop fuel st (encs st s).1 <> Ok s.
Proof.
  intros Hi Hs. revert fuel st Hi. induction Hs as [|c s Hc Hs IH]; intros fuel st Hi Hb; [done|].
  rewrite encs_cons in *. cbn [fst] in *. cbn [bads] in Hb.
  pose proof (scalar_bound _ Hc) as Hc'. pose proof (enc1_length st c) as Hl.
  destruct fuel as [|fuel].
  { destruct ((enc1 st c).1 ++ (encs (enc1 st c).2 s).1) as [|b bs] eqn:E.
    { apply (f_equal length) in E. rewrite app_length in E. cbn in E. lia. }
    done. }
  destruct (bad1 st c) eqn:Hb1.
  - assert (Hb21 := Hb1). apply (bad1_iff _ _ Hi Hc') in Hb21 as [H21 _].
    rewrite (bad1_code _ _ Hi Hc' Hb1). cbn [fst snd app].
    cbn [utfc_decode_loop]. rewrite <- dstep_false. rewrite dstep_zero by auto.
    rewrite dbody_low, H21 by lia. change (false && (marker0 =? marker0)) with false.
    change (negb (marker0 =? marker10)) with true. cbv iota.
    pose proof (encs_bytes st s Hi Hs) as Hbs.
    destruct (encs st s).1 as [|b bs]; [discriminate|]. cbn [next_byte mbind res_bind].
    destruct (utfc_decode_loop fuel st bs) as [r| |]; [|discriminate|discriminate]. cbn [mbind res_bind].
    inversion Hbs as [|? ? [Hnz Hlt] ?]; subst. intros Heq. injection Heq as Heq _.
    pose proof Hi as (Ho & Ha & _ & Hm). specialize (Hm H21).
    assert (B4 : c - min21BitCp = offs st).
    { unfold bad1 in Hb1. lia. }
    rewrite shiftl8 in Heq. rewrite Z.mul_0_l, Z.lor_0_r in Heq.
    rewrite (lor_offs 15) in Heq by lia. unfold min21BitCp in *.
    unfold string_of_rune, rune_of_int in Heq. rewrite Z.mod_small in Heq by lia.
    destruct (_ <? _) eqn:E1 in Heq; [|lia].
    destruct (is_scalar _) eqn:E2 in Heq; lia.
  - cbn [orb] in Hb.
    pose proof (dstep_enc1 false st c (encs (enc1 st c).2 s).1 Hi Hc' (or_intror Hb1)) as D.
    rewrite dstep_false in D.
    destruct ((enc1 st c).1 ++ (encs (enc1 st c).2 s).1) as [|b bs] eqn:E; [done|].
    cbn [utfc_decode_loop]. rewrite D. cbn [mbind res_bind].
    specialize (IH fuel (enc1 st c).2 (enc1_uinv _ _ Hi Hc') Hb).
    destruct (utfc_decode_loop fuel _ _) as [r| |]; [|discriminate|discriminate]. cbn [mbind res_bind].
    intros Heq. injection Heq as _ ->. done.
Qed.

Lemma bads_spec st s : uinv st -> Forall scalar s ->
  bads st s = true <->
  exists p c q, s = p ++ c :: q /\ is21Bit (encs st p).2 = true /\
    (encs st (p ++ [c])).1 = (encs st p).1 ++ [0xBB%N].
Proof.
  intros Hi Hs. revert st Hi. induction Hs as [|c s Hc Hs IH]; intros st Hi.
  - split; [done|]. intros (p & c & q & He & _). by destruct p.
  - pose proof (scalar_bound _ Hc) as Hc'. cbn [bads]. rewrite orb_true_iff.
    rewrite (IH _ (enc1_uinv _ _ Hi Hc')). rewrite (bad1_iff _ _ Hi Hc'). split.
    + intros [[H1 H2]|(p & d & q & -> & H1 & H2)].
      * exists [], c, s. split; [done|]. cbn [encs app snd fst]. split; [done|].
        destruct (enc1 st c) as [b ?]. cbn [fst] in *. by rewrite H2.
      * exists (c :: p), d, q. split; [done|]. cbn [app]. rewrite !encs_cons. cbn [fst snd].
        split; [done|]. by rewrite H2, app_assoc.
    + intros (p & d & q & He & H1 & H2). destruct p as [|c' p].
      * injection He as -> ->. left. cbn [encs app snd fst] in *. split; [done|].
        destruct (enc1 st d) as [b ?]. cbn [fst] in *. by rewrite app_nil_r in H2.
      * injection He as -> ->. right. exists p, d, q. split; [done|].
        cbn [app] in H2. rewrite encs_cons in H1. rewrite (encs_cons st c' (p ++ [d])), (encs_cons st c' p) in H2. cbn [fst snd] in *.
        split; [done|]. rewrite <- app_assoc in H2. by apply app_inv_head in H2.
Qed.

Lemma decode_encode_iff s : Forall scalar s ->
  utfc_decode (utfc_encode s) = Ok s <-> bads ustate0 s = false.
Proof.
  intros Hs. unfold utfc_decode. rewrite encode_encs. split.
  - intros H. destruct (bads ustate0 s) eqn:E; [|done]. exfalso.
    by apply (decode_loop_bad (length (encs ustate0 s).1) _ _ uinv0 Hs E).
  - intros H. apply decode_loop_encs; auto using uinv0.
Qed.

Lemma bads_mod st s : uinv st -> Forall scalar s ->
  Forall (fun c => ~ (0x2600 <= c /\ (c - 0x2600) mod 0x8000 = 0)) s -> bads st s = false.
Proof.
  intros Hi Hs. revert st Hi. induction Hs as [|c s Hc Hs IH]; intros st Hi Hn; [done|].
  inversion Hn; subst. cbn [bads]. apply orb_false_iff. split.
  - destruct (bad1 st c) eqn:E; [|done]. exfalso. unfold bad1 in E. pose proof Hi as (_ & _ & _ & Hm).
    unfold min21BitCp in *. destruct (is21Bit st); [|done]. specialize (Hm eq_refl). lia.
  - apply IH; [|done]. apply enc1_uinv; [done|by apply scalar_bound].
Qed.
