(** The encoder writes exactly the format of UtfcFormatSpec.v. *)
From Verif Require Import Go Utfc UtfcArith UtfcProofs UtfcSpec UtfcFormatSpec.
Local Open Scope Z_scope.
Local Ltac Zify.zify_post_hook ::= Z.div_mod_to_equations.

Lemma in_seqZ c m n : In c (seqZ m n) <-> m <= c < m + n.
Proof. rewrite <- elem_of_list_In, elem_of_seqZ. done. Qed.

Lemma latin64_in c : In c latin64 <-> inRanges c rangesLatin = true.
Proof.
  unfold latin64. rewrite !in_app_iff, !in_seqZ. unfold inRanges, rangesLatin. cbn [In].
  repeat match goal with |- context [if ?c then _ else _] => destruct c eqn:? end; split; intros; try done; try lia.
Qed.
Lemma specials_in c : In c specials <-> inRanges c rangesExtra = true.
Proof. unfold specials. rewrite !in_app_iff, !in_seqZ, inRanges_extra. lia. Qed.

Lemma lookup_seqZ_app m n (l : list Z) i c : 0 <= n -> (seqZ m n ++ l) !! i = Some c <->
  (Z.of_nat i < n /\ c = m + Z.of_nat i) \/ (n <= Z.of_nat i /\ l !! (i - Z.to_nat n)%nat = Some c).
Proof.
  intros Hn. rewrite lookup_app_Some, lookup_seqZ, seqZ_length.
  split; intros [[H1 H2]|[H1 H2]]; [left|right|left|right]; split; try done; lia.
Qed.

Lemma latin64_at i c : latin64 !! i = Some c ->
  inRanges c rangesLatin = true /\ encodeRanges c rangesLatin = Z.of_nat i.
Proof.
  unfold latin64. rewrite !lookup_seqZ_app by lia. intros H.
  assert (H' : (Z.of_nat i < 26 /\ c = 65 + Z.of_nat i) \/ (26 <= Z.of_nat i < 52 /\ c = 97 + (Z.of_nat i - 26)) \/
    (52 <= Z.of_nat i < 62 /\ c = 48 + (Z.of_nat i - 52)) \/ (Z.of_nat i = 62 /\ c = 32) \/ (Z.of_nat i = 63 /\ c = 45)).
  { destruct H as [H|[H1 [H|[H2 [H|[H3 H]]]]]]; [lia|lia|lia|].
    destruct (i - Z.to_nat 26 - Z.to_nat 26 - Z.to_nat 10)%nat as [|[|k]] eqn:E; cbn in H; [injection H as <-; lia|injection H as <-; lia|].
    done. }
  unfold inRanges, encodeRanges, rangesLatin, encodeRangesFrom.
  repeat match goal with |- context [if ?c then _ else _] => destruct c eqn:? end; split; try done; lia.
Qed.
Lemma specials_at n c : specials !! n = Some c ->
  inRanges c rangesExtra = true /\ encodeRanges c rangesExtra = Z.of_nat n.
Proof.
  unfold specials. rewrite !lookup_seqZ_app by lia. rewrite lookup_seqZ. intros H.
  assert (H' : (Z.of_nat n < 1536 /\ c = 0x2000 + Z.of_nat n) \/ (1536 <= Z.of_nat n < 1792 /\ c = 0x3000 + (Z.of_nat n - 1536)) \/
    (1792 <= Z.of_nat n < 1808 /\ c = 0xFE00 + (Z.of_nat n - 1792)) \/ (1808 <= Z.of_nat n < 2560 /\ c = 0x1F300 + (Z.of_nat n - 1808))) by lia.
  clear H. rewrite inRanges_extra.
  unfold encodeRanges, rangesExtra, encodeRangesFrom, rangeHK0, rangeHK1.
  repeat match goal with |- context [if ?c then _ else _] => destruct c eqn:? end; split; try done; lia.
Qed.
Lemma latin64_ex c : inRanges c rangesLatin = true -> exists i, latin64 !! i = Some c.
Proof. intros H. apply latin64_in, elem_of_list_In, elem_of_list_lookup in H. done. Qed.
Lemma specials_ex c : inRanges c rangesExtra = true -> exists i, specials !! i = Some c.
Proof. intros H. apply specials_in, elem_of_list_In, elem_of_list_lookup in H. done. Qed.

(** The entry for Armenian (0x0530) is not the start of a block. *)
Lemma kept_in b x : b mod 128 = 0 -> In (b, x) alphabets <-> assocZ b auxOffset = Some x.
Proof.
  intros Hb. unfold alphabets, auxOffset, assocZ. cbn [In].
  repeat match goal with |- context [b =? ?k] =>
    destruct (Z.eqb_spec b k) as [->|?];
      [split; [intros H; repeat (destruct H as [H|H]; [inversion H; subst; try reflexivity; try (vm_compute in Hb; discriminate)|]); try done
              |intros [= <-]; first [vm_compute in Hb; discriminate|tauto]]|] end.
  split; [|done]. intros H. repeat (destruct H as [H|H]; [injection H; intros; congruence|]). done.
Qed.
Lemma kept_aux b a : b mod 128 = 0 -> kept b a <-> a = getAuxOffset b.
Proof.
  intros Hb. unfold getAuxOffset, kept. rewrite kept_in by done.
  destruct (assocZ b auxOffset) as [x|] eqn:E.
  - split; [intros [[= <-]|[H _]]; [done|]|intros ->; by left].
    exfalso. by apply (H x), kept_in.
  - split; [intros [H|[_ H]]; done|]. intros ->. right. split; [|done]. intros x. rewrite kept_in, E by done. done.
Qed.

Definition place_of (st : ustate) : place := (offs st, auxOffs st, is21Bit st).

Lemma mapN_one x : 0 <= x < 256 -> map Z.to_N (one x) = if (byte x =? 0)%N then [byte marker0] else [byte x].
Proof. intros H. unfold one. rewrite byte_eqb0, Z.mod_small by done. destruct (x =? 0); [done|]. unfold byte. by rewrite Z.mod_small. Qed.
Lemma mapN_two m x : 0 <= m < 256 -> 0 <= x < 256 ->
  map Z.to_N (two m x) = if (byte x =? 0)%N then [byte marker10; byte m] else [byte m; byte x].
Proof.
  intros Hm H. unfold two. rewrite byte_eqb0, (Z.mod_small x) by done.
  destruct (x =? 0); cbn [map]; unfold byte; by rewrite ?Z.mod_small by (unfold marker10; lia).
Qed.
Lemma mapN_both hi lo : 0 <= hi < 256 -> 0 <= lo < 256 ->
  map Z.to_N (both hi lo) =
    if (byte hi =? 0)%N && (byte lo =? 0)%N then [byte marker0]
    else if (byte hi =? 0)%N then [byte marker00; byte lo]
    else if (byte lo =? 0)%N then [byte marker10; byte hi] else [byte hi; byte lo].
Proof.
  intros Hm H. unfold both. rewrite !byte_eqb0, !(Z.mod_small _ 256) by done.
  destruct (hi =? 0), (lo =? 0); cbn [map andb]; unfold byte; by rewrite ?Z.mod_small by (unfold marker10, marker00, marker0; lia).
Qed.
Lemma mapN_three m hi lo : 0 <= m < 256 -> 0 <= hi < 256 -> 0 <= lo < 256 ->
  map Z.to_N (three m hi lo) =
    if (byte hi =? 0)%N && (byte lo =? 0)%N then [byte marker11; byte m]
    else if (byte hi =? 0)%N then [byte marker10; byte m; byte lo]
    else if (byte lo =? 0)%N then [byte marker01; byte m; byte hi] else [byte m; byte hi; byte lo].
Proof.
  intros Hm Hh H. unfold three. rewrite !byte_eqb0, !(Z.mod_small _ 256) by done.
  destruct (hi =? 0), (lo =? 0); cbn [map andb]; unfold byte;
    by rewrite ?Z.mod_small by (unfold marker10, marker01, marker11; lia).
Qed.

Lemma byte_mod x y : x mod 256 = y mod 256 -> byte x = byte y.
Proof. unfold byte. by intros ->. Qed.

(** The two conditions of the first branches. *)
Lemma second_spec a c : 
  ((a =? 0) && inRanges c rangesLatin || negb (a =? 0) && (a <=? c) && (c <=? a + 63) = true) <-> second a c.
Proof.
  unfold second. rewrite latin64_in. destruct (inRanges c rangesLatin); lia.
Qed.

Lemma uinv_mod st : uinv st -> offs st mod 128 = 0.
Proof. intros (_ & _ & H1 & H2). destruct (is21Bit st); [specialize (H2 eq_refl)|by apply H1]. lia. Qed.

Lemma coded_enc1 st c bs q : uinv st -> 0 <= c <= 0x10FFFF -> coded (place_of st) c bs q ->
  enc1 st c = (map Z.to_N bs, mkU q.1.1 q.1.2 q.2).
Proof.
  intros Hu Hc H. pose proof (uinv_mod st Hu) as Hm. destruct Hu as (Ho & Ha & H13 & H21). destruct st as [b a w]. unfold place_of in H.
  cbn [offs auxOffs is21Bit] in *.
  unfold enc1. cbv zeta. cbn [offs auxOffs is21Bit].
  assert (Hns : ~ second a c -> ((a =? 0) && inRanges c rangesLatin = false) /\
    (negb (a =? 0) && (a <=? c) && (c <=? a + 63) = false)).
  { rewrite <- second_spec. destruct (_ && inRanges _ _), (_ && (_ <=? _ + _)); done. }
  rewrite !land13, !land7F, landFF by lia.
  inversion H as [b0 w0 c0 i Hl|b0 a0 w0 c0 H1 H2|b0 a0 c0 H1 H2 H3|b0 a0 w0 c0 n H1 H2 H3 H4|b0 a0 w0 c0 n a' H1 H2 H3 H4 H5|
     b0 a0 c0 v H1 H2 H3 H4|b0 a0 w0 c0 v H1 H2 H3 H4 H5|b0 a0 w0 c0 a' H1 H2 H3 H4 H5]; subst; cbn [fst snd].
  - destruct (latin64_at _ _ Hl) as [-> ->]. cbn [Z.eqb andb].
    assert (Z.of_nat i < 64). { apply lookup_lt_Some in Hl. change (length latin64) with 64%nat in Hl. lia. }
    rewrite lor_aux by lia. cbn [map]. unfold byte. by rewrite Z.mod_small by lia.
  - replace (a =? 0) with false by lia. cbn [andb negb]. replace ((a <=? c) && (c <=? a + 63)) with true by lia.
    rewrite lor_aux by lia. cbn [map]. unfold byte. by rewrite Z.mod_small by lia.
  - destruct (Hns H1) as [-> ->]. rewrite Z.eqb_refl. cbn [negb andb].
    rewrite specials_in in H2. rewrite mapN_one by lia.
    destruct (inRanges c rangesExtra) eqn:E; [done|]. replace (min21BitCp <=? c) with false by (unfold min21BitCp; lia). done.
  - destruct (Hns H1) as [-> ->]. destruct (specials_at _ _ H3) as [E ->]. rewrite E.
    replace (negb w && (c - c mod 128 =? b)) with false by (destruct w; cbn; lia).
    apply lookup_lt_Some in H3. change (length specials) with (Z.to_nat 2560) in H3.
    rewrite shiftr8, lor_ex by lia. rewrite mapN_two by lia. 
    replace (176 + (1 + Z.of_nat n / 256)) with (177 + Z.of_nat n / 256) by lia.
    rewrite (byte_mod (Z.of_nat n) (Z.of_nat n mod 256)) by lia.
    replace ((rangeHK0 <=? c) && (c <? rangeHK1)) with false by (unfold rangeHK0, rangeHK1; lia). done.
  - destruct (Hns H1) as [-> ->]. destruct (specials_at _ _ H3) as [E ->]. rewrite E.
    replace (negb w && (c - c mod 128 =? b)) with false by (destruct w; cbn; lia).
    apply lookup_lt_Some in H3. change (length specials) with (Z.to_nat 2560) in H3.
    rewrite shiftr8, lor_ex by lia. rewrite mapN_two by lia. 
    replace (176 + (1 + Z.of_nat n / 256)) with (177 + Z.of_nat n / 256) by lia.
    rewrite (byte_mod (Z.of_nat n) (Z.of_nat n mod 256)) by lia.
    replace ((rangeHK0 <=? c) && (c <? rangeHK1)) with true by (unfold rangeHK0, rangeHK1; lia).
    apply kept_aux in H5; [|done]. by subst a'.
  - destruct (Hns H1) as [-> ->]. rewrite specials_in in H2. apply not_true_is_false in H2. rewrite H2.
    specialize (H21 eq_refl). rewrite land21 by (unfold min21BitCp; lia).
    replace (min21BitCp <=? c) with true by (unfold min21BitCp; lia). unfold min21BitCp.
    cbn [andb]. replace (_ =? b) with true by lia.
    rewrite shiftr8. rewrite mapN_both by lia.
    by rewrite (byte_mod (c - 9728) ((c - 9728) mod 256)) by lia.
  - destruct (Hns H1) as [-> ->]. rewrite specials_in in H2. apply not_true_is_false in H2. rewrite H2.
    rewrite land21 by (unfold min21BitCp; lia).
    replace (min21BitCp <=? c) with true by (unfold min21BitCp; lia). unfold min21BitCp.
    replace (w && (_ =? b)) with false by (destruct w; cbn [andb]; [specialize (H21 eq_refl)|]; lia).
    rewrite shiftr8, shiftr16, lor_21 by lia. rewrite mapN_three by lia.
    rewrite (byte_mod (c - 9728) ((c - 9728) mod 256)) by lia.
    by rewrite (byte_mod ((c - 9728) / 256) ((c - 9728) / 256 mod 256)) by lia.
  - destruct (Hns H1) as [-> ->]. rewrite specials_in in H2. apply not_true_is_false in H2. rewrite H2.
    replace (min21BitCp <=? c) with false by (unfold min21BitCp; lia).
    replace (negb w && (c - c mod 128 =? b)) with false by (destruct w; cbn; lia).
    rewrite shiftr8, lor_13 by lia. rewrite mapN_two by lia.
    apply kept_aux in H5; [|done]. subst a'. unfold maxLatinCp.
    by replace (c <=? 767) with (c <? 768) by lia.
Qed.

Lemma coded_ex st c : uinv st -> 0 <= c <= 0x10FFFF -> exists bs q, coded (place_of st) c bs q.
Proof.
  intros Hu Hc. pose proof (uinv_mod st Hu) as Hm. destruct st as [b a w]. unfold place_of. cbn [offs auxOffs is21Bit] in *.
  assert (Hk : kept b (getAuxOffset b)) by (by apply kept_aux).
  destruct (decide (a = 0 /\ inRanges c rangesLatin = true)) as [[-> Hl]|Hl].
  { destruct (latin64_ex c Hl) as [i Hi]. eexists _, _. by apply coded_latin. }
  destruct (decide (a <> 0 /\ a <= c < a + 64)) as [[? ?]|Hn].
  { eexists _, _. by apply coded_near. }
  assert (Hs : ~ second a c). { unfold second. rewrite latin64_in. tauto. }
  destruct (decide (w = false /\ c - c mod 128 = b)) as [[-> Hb]|Hb].
  - destruct (inRanges c rangesExtra) eqn:Hx.
    { eexists _, _. apply coded_block; [done|right; by apply specials_in|done]. }
    destruct (Z.lt_ge_cases c 0x2600).
    { eexists _, _. apply coded_block; [done|by left|done]. }
    assert (~ In c specials) by (rewrite specials_in, Hx; done).
    eexists _, _. eapply coded_wide; [done|done|reflexivity|lia|]. intros [? _]; done.
  - destruct (inRanges c rangesExtra) eqn:Hx.
    + destruct (specials_ex c Hx) as [n Hn']. destruct (decide (0x3000 <= c < 0x3100)).
      * eexists _, _. eapply coded_kana; done.
      * eexists _, _. eapply coded_special; done.
    + assert (~ In c specials) by (rewrite specials_in, Hx; done).
      destruct (Z.lt_ge_cases c 0x2600); [eexists _, _; eapply coded_narrow; done || lia|].
      destruct (decide (w = true /\ b <= c - 0x2600 < b + 32768)) as [[-> ?]|?].
      * eexists _, _. eapply coded_wide_again; done.
      * eexists _, _. eapply coded_wide; try done. lia.
Qed.

Lemma written_encs st s bs q : uinv st -> is_text s -> written (place_of st) s bs q ->
  encs st s = (map Z.to_N bs, mkU q.1.1 q.1.2 q.2).
Proof.
  intros Hu Ht H. remember (place_of st) as p eqn:Ep. revert st Hu Ep.
  induction H as [p|p c b q s bs r Hc Hw IH]; intros st Hu ->.
  - by destruct st.
  - inversion Ht as [|? ? [Hc' _] Ht']; subst.
    pose proof (enc1_uinv _ _ Hu Hc') as Hu'. pose proof (coded_enc1 _ _ _ _ Hu Hc' Hc) as He.
    rewrite encs_cons, He in *. cbn [fst snd] in *. rewrite (IH Ht' _ Hu').
    + by rewrite map_app.
    + destruct q as [[? ?] ?]. done.
Qed.
Lemma written_ex st s : uinv st -> is_text s -> exists bs q, written (place_of st) s bs q.
Proof.
  intros Hu Ht. revert st Hu. induction Ht as [|c s [Hc _] Ht IH]; intros st Hu.
  - eexists _, _. constructor.
  - destruct (coded_ex st c Hu Hc) as (b & q & Hq). pose proof (coded_enc1 _ _ _ _ Hu Hc Hq) as He.
    pose proof (enc1_uinv _ _ Hu Hc) as Hu'. rewrite He in Hu'. cbn [snd] in Hu'.
    destruct (IH _ Hu') as (b' & q' & H'). eexists _, _. econstructor; [exact Hq|].
    destruct q as [[? ?] ?]. exact H'.
Qed.

Lemma place0 : place_of ustate0 = start. Proof. done. Qed.
