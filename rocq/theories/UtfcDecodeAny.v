(** UtfcDecode on byte arrays that need not come from UtfcEncode. *)
From Verif Require Import Go Utfc UtfcArith UtfcProofs UtfcSpec.
Local Open Scope Z_scope.

(** How many bytes are read after the marker byte and the first value byte. *)
Definition need (st : ustate) (zm cp : Z) : nat :=
  if Z.land cp markerAux =? markerAux then 0%nat
  else if (Z.land cp markerExtra =? markerExtra) && negb (Z.lxor cp markerExtra =? 0) then
    (if negb (zm =? marker10) then 1%nat else 0%nat)
  else if Z.land cp marker21Bit =? marker21Bit then
    Nat.add (if negb (zm =? marker10) && negb (zm =? marker11) then 1%nat else 0%nat)
            (if negb (zm =? marker01) && negb (zm =? marker11) then 1%nat else 0%nat)
  else if Z.land cp marker13Bit =? marker13Bit then (if negb (zm =? marker10) then 1%nat else 0%nat)
  else if is21Bit st then (if negb (zm =? marker10) then 1%nat else 0%nat) else 0%nat.

Lemma dbody_need st zm cp bs :
  (length bs = need st zm cp -> exists c st', forall y, dbody false st zm cp (bs ++ y) = Ok (c, st', y)) /\
  ((length bs < need st zm cp)%nat -> dbody false st zm cp bs = Panic).
Proof.
  unfold dbody, need. cbv zeta. cbn [andb].
  destruct (Z.land cp markerAux =? markerAux); [split; [destruct bs; [|done]; cbn; eauto|lia]|].
  destruct (_ && _);
    [destruct bs as [|x [|y bs]]; destruct (zm =? marker10); cbn; split; try lia; intros; try done; eauto; fail|].
  destruct (Z.land cp marker21Bit =? marker21Bit);
    [destruct bs as [|x [|y [|z bs]]]; destruct (zm =? marker10), (zm =? marker11), (zm =? marker01); cbn;
      split; try lia; intros; try done; eauto; fail|].
  destruct (Z.land cp marker13Bit =? marker13Bit);
    [destruct bs as [|x [|y bs]]; destruct (zm =? marker10); cbn; split; try lia; intros; try done; eauto; fail|].
  destruct (is21Bit st);
    [destruct bs as [|x [|y bs]]; destruct (zm =? marker10); cbn; split; try lia; intros; try done; eauto; fail|].
  destruct bs; cbn; split; try lia; intros; try done; eauto.
Qed.
Lemma need_le st zm cp : (need st zm cp <= 2)%nat /\
  (zm = marker01 \/ zm = marker10 \/ zm = marker11 -> (need st zm cp <= 1)%nat) /\ (need st zm 0 <= 1)%nat.
Proof.
  unfold need. split; [|split].
  - repeat match goal with |- context [if ?c then _ else _] => destruct c end; lia.
  - intros [-> | [-> | ->]]; cbn [negb andb Z.eqb marker01 marker10 marker11 Pos.eqb];
      repeat match goal with |- context [if ?c then _ else _] => destruct c end; lia.
  - change (Z.land 0 markerAux =? markerAux) with false. change (Z.land 0 markerExtra =? markerExtra) with false.
    change (Z.land 0 marker21Bit =? marker21Bit) with false. change (Z.land 0 marker13Bit =? marker13Bit) with false.
    cbn [andb]. repeat match goal with |- context [if ?c then _ else _] => destruct c end; lia.
Qed.


(** [bs] is one complete form at [st]. *)
Definition complete (st : ustate) (bs : list N) : Prop :=
  exists c st', forall y, utfc_decode_step st (bs ++ y) = Ok (c, st', y).

Lemma step_shape st b r : utfc_decode_step st (b :: r) =
  if (marker0 <=? Z.of_N b) && (Z.of_N b <=? marker11) then
    if negb (Z.of_N b =? marker0) && negb (Z.of_N b =? marker00)
    then match r with [] => Panic | c :: r' => dbody false st (Z.of_N b) (Z.of_N c) r' end
    else dbody false st (Z.of_N b) 0 r
  else dbody false st 0 (Z.of_N b) r.
Proof.
  rewrite <- dstep_false. unfold dstep. cbn [next_byte mbind res_bind].
  destruct (_ && (_ <=? _)); [|done]. destruct (_ && _); [|done]. by destruct r.
Qed.

(** The body after the bytes [hd], of which the step reads all. *)
Lemma tail_any st hd zm cp bs : (1 <= length hd)%nat ->
  (forall r, utfc_decode_step st (hd ++ r) = dbody false st zm cp r) ->
  (length hd + need st zm cp <= 3)%nat ->
  (exists used rest, hd ++ bs = used ++ rest /\ (1 <= length used <= 3)%nat /\ complete st used) \/
  (utfc_decode_step st (hd ++ bs) = Panic /\ (length (hd ++ bs) <= 2)%nat /\
   exists more, (1 <= length more <= 2)%nat /\ complete st ((hd ++ bs) ++ more)).
Proof.
  intros Hh Hd Hle. destruct (Nat.le_gt_cases (need st zm cp) (length bs)) as [Hn|Hn].
  - left. exists (hd ++ take (need st zm cp) bs), (drop (need st zm cp) bs).
    rewrite <- app_assoc, take_drop. split; [done|].
    assert (Hl : length (take (need st zm cp) bs) = need st zm cp) by (rewrite take_length; lia).
    split; [rewrite app_length, Hl; lia|].
    destruct (proj1 (dbody_need st zm cp _) Hl) as (c & st' & H). exists c, st'. intros y.
    rewrite <- app_assoc, Hd. apply H.
  - right. split; [rewrite Hd; by apply dbody_need|]. split; [rewrite app_length; lia|].
    exists (repeat 1%N (need st zm cp - length bs)). split; [rewrite repeat_length; lia|].
    assert (Hl : length (bs ++ repeat 1%N (need st zm cp - length bs)) = need st zm cp)
      by (rewrite app_length, repeat_length; lia).
    destruct (proj1 (dbody_need st zm cp _) Hl) as (c & st' & H). exists c, st'. intros y.
    rewrite <- !app_assoc, Hd, app_assoc. apply H.
Qed.

(** One step: a complete form is read, or the array ends in the middle of one. *)
Lemma step_any st bs : bs <> [] ->
  (exists used rest, bs = used ++ rest /\ (1 <= length used <= 3)%nat /\ complete st used) \/
  (utfc_decode_step st bs = Panic /\ (length bs <= 2)%nat /\
   exists more, (1 <= length more <= 2)%nat /\ complete st (bs ++ more)).
Proof.
  intros Hne. destruct bs as [|b bs]; [done|]. clear Hne.
  pose proof (fun r => step_shape st b r) as Hs.
  destruct ((marker0 <=? Z.of_N b) && (Z.of_N b <=? marker11)) eqn:Ez;
   [destruct (negb (Z.of_N b =? marker0) && negb (Z.of_N b =? marker00)) eqn:E0|].
  - assert (Hzm : Z.of_N b = marker01 \/ Z.of_N b = marker10 \/ Z.of_N b = marker11)
      by (unfold marker0, marker00, marker01, marker10, marker11 in *; lia).
    destruct bs as [|c bs].
    + right. split; [apply Hs|]. split; [cbn; lia|].
      destruct (need_le st (Z.of_N b) 1) as (_ & Hle & _). specialize (Hle Hzm).
      exists (1%N :: repeat 1%N (need st (Z.of_N b) 1)). split; [cbn [length]; rewrite repeat_length; lia|].
      destruct (proj1 (dbody_need st (Z.of_N b) 1 _) (repeat_length 1%N _)) as (c & st' & H).
      exists c, st'. intros y. cbn [app]. rewrite Hs. apply H.
    + destruct (need_le st (Z.of_N b) (Z.of_N c)) as (_ & Hle & _). specialize (Hle Hzm).
      apply (tail_any st [b; c] (Z.of_N b) (Z.of_N c) bs); [cbn; lia|intros r; apply (Hs (c :: r))|cbn [length]; lia].
  - destruct (need_le st (Z.of_N b) 0) as (_ & _ & Hle).
    apply (tail_any st [b] (Z.of_N b) 0 bs); [cbn; lia|exact Hs|cbn [length]; lia].
  - destruct (need_le st 0 (Z.of_N b)) as (Hle & _).
    apply (tail_any st [b] 0 (Z.of_N b) bs); [cbn; lia|exact Hs|cbn [length]; lia].
Qed.

Lemma string_of_rune_text c : is_text [string_of_rune c].
Proof.
  constructor; [|constructor]. unfold string_of_rune, is_scalar. cbv zeta.
  destruct (_ && _) eqn:E; cbn in *; lia.
Qed.

(** The loop, with any sufficient fuel. *)
Lemma loop_used fuel st used rest c st' : used <> [] ->
  (forall y, utfc_decode_step st (used ++ y) = Ok (c, st', y)) ->
  utfc_decode_loop (S fuel) st (used ++ rest) =
    (t ← utfc_decode_loop fuel st' rest; Ok (string_of_rune c :: t)).
Proof.
  intros Hne H. cbn [utfc_decode_loop]. destruct (used ++ rest) as [|x l] eqn:E.
  - by apply app_eq_nil in E as [? _].
  - rewrite <- E, H. done.
Qed.

Lemma loop_fuel fuel st bs : (length bs <= fuel)%nat ->
  utfc_decode_loop fuel st bs = utfc_decode_loop (length bs) st bs.
Proof.
  revert st bs. induction fuel as [fuel IH] using lt_wf_ind. intros st bs Hl.
  destruct (decide (bs = [])) as [->|Hne]; [by destruct fuel|].
  destruct fuel as [|fuel]; [destruct bs; [done|cbn in Hl; lia]|].
  destruct (length bs) as [|m] eqn:Em; [by destruct bs|].
  destruct (step_any st bs Hne) as [(used & rest & -> & Hu & c & st' & Hc)|(Hp & _)].
  - assert (used <> []) by (intros ->; cbn in Hu; lia).
    rewrite !(loop_used _ st used rest c st') by done. rewrite app_length in *.
    rewrite (IH fuel) by lia. rewrite (IH m) by lia. done.
  - cbn [utfc_decode_loop]. destruct bs; [done|]. by rewrite Hp.
Qed.

Lemma loop_any bs st :
  (exists t, utfc_decode_loop (length bs) st bs = Ok t /\ is_text t /\ (length t <= length bs <= 3 * length t)%nat) \/
  (utfc_decode_loop (length bs) st bs = Panic /\
   exists pre rest t, bs = pre ++ rest /\ (1 <= length rest <= 2)%nat /\
     utfc_decode_loop (length pre) st pre = Ok t /\ is_text t /\
     exists more t', (1 <= length more <= 2)%nat /\
       utfc_decode_loop (length (bs ++ more)) st (bs ++ more) = Ok (t ++ [t'])).
Proof.
  remember (length bs) as n eqn:En. revert st bs En.
  induction n as [n IH] using lt_wf_ind. intros st bs ->.
  destruct (decide (bs = [])) as [->|Hne].
  { left. exists []. cbn. split; [done|]. split; [constructor|lia]. }
  destruct (length bs) as [|m] eqn:Em; [by destruct bs|].
  destruct (step_any st bs Hne) as [(used & rest & -> & Hu & c & st' & Hc)|(Hp & Hl & more & Hm & c & st' & Hc)].
  - assert (Hune : used <> []) by (intros ->; cbn in Hu; lia).
    rewrite app_length in Em.
    rewrite (loop_used m st used rest c st') by done. rewrite (loop_fuel m) by lia.
    pose proof (string_of_rune_text c) as Ht.
    destruct (IH (length rest) ltac:(lia) st' rest eq_refl) as [(t & -> & Htt & Hlen)|(-> & pre & rest' & t & -> & Hr & Ho & Htt & more & t' & Hm & Ho')].
    + left. exists (string_of_rune c :: t). split; [done|]. split; [|cbn [length]; lia].
      inversion Ht; subst. by constructor.
    + right. split; [done|]. exists (used ++ pre), rest', (string_of_rune c :: t).
      split; [by rewrite app_assoc|]. split; [done|].
      assert (Hl : forall x, exists k, length (used ++ x) = S k /\ (length x <= k)%nat).
      { intros x. exists (length used + length x - 1)%nat. rewrite app_length. lia. }
      destruct (Hl pre) as (k & -> & Hk). rewrite (loop_used k st used pre c st') by done.
      rewrite (loop_fuel k), Ho by lia. split; [done|]. split; [inversion Ht; subst; by constructor|].
      exists more, t'. split; [done|]. rewrite <- app_assoc. 
      destruct (Hl ((pre ++ rest') ++ more)) as (k' & -> & Hk'). rewrite (loop_used k' st used _ c st') by done.
      rewrite (loop_fuel k'), Ho' by lia. done.
  - right. split; [cbn [utfc_decode_loop]; destruct bs; [done|]; by rewrite Hp|].
    exists [], bs, []. split; [done|]. split; [lia|]. split; [done|]. split; [constructor|].
    exists more, (string_of_rune c). split; [done|].
    destruct (length (bs ++ more)) as [|k] eqn:Ek; [rewrite app_length in Ek; lia|].
    rewrite <- (app_nil_r (bs ++ more)). rewrite (loop_used k st (bs ++ more) [] c st'); [|by destruct bs|done].
    by destruct k.
Qed.
