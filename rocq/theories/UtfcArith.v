(** Arithmetic facts used in the proofs about the UTF-C codec model. *)
From Verif Require Import Go Utfc.
Local Open Scope Z_scope.
Local Ltac Zify.zify_post_hook ::= Z.div_mod_to_equations.

(** ** Bit lemmas *)
Lemma lor_add k n b : 0 <= n -> 0 <= b < 2 ^ n -> Z.lor (k * 2 ^ n) b = k * 2 ^ n + b.
Proof.
  intros Hn Hb.
  assert (Hd : Z.land (k * 2 ^ n) b = 0).
  { rewrite <- Z.shiftl_mul_pow2 by lia. apply Z.bits_inj'. intros i Hi.
    rewrite Z.land_spec, Z.shiftl_spec, Z.bits_0 by lia.
    destruct (Z.ltb_spec i n) as [H|H].
    - rewrite (Z.testbit_neg_r k) by lia. done.
    - assert (Z.testbit b i = false) as ->; [|apply andb_false_r].
      destruct (Z.eq_dec b 0) as [->|Hnz]; [apply Z.bits_0|].
      apply Z.bits_above_log2; [lia|]. apply Z.log2_lt_pow2; [lia|].
      apply Z.lt_le_trans with (2 ^ n); [lia|]. apply Z.pow_le_mono_r; lia. }
  rewrite <- Z.lxor_lor by done. rewrite Z.add_nocarry_lxor by done. done.
Qed.

Lemma land_high n m cp : 0 <= n <= m -> 0 <= cp < 2 ^ m ->
  Z.land cp (2 ^ m - 2 ^ n) = cp - cp mod 2 ^ n.
Proof.
  intros Hn Hcp.
  assert (Hm : 2 ^ m - 2 ^ n = Z.shiftl (Z.ones (m - n)) n).
  { rewrite Z.shiftl_mul_pow2, Z.ones_equiv by lia.
    replace (2 ^ m) with (2 ^ (m - n) * 2 ^ n) by (rewrite <- Z.pow_add_r by lia; f_equal; lia).
    lia. }
  assert (Hq : cp - cp mod 2 ^ n = Z.shiftl (Z.shiftr cp n) n).
  { rewrite Z.shiftl_mul_pow2, Z.shiftr_div_pow2 by lia.
    pose proof (Z.div_mod cp (2 ^ n)) as H. assert (2 ^ n <> 0) by lia. specialize (H H0). lia. }
  rewrite Hm, Hq. apply Z.bits_inj'. intros i Hi.
  rewrite Z.land_spec, !Z.shiftl_spec by lia.
  destruct (Z.ltb_spec i n) as [H|H].
  - rewrite !(Z.testbit_neg_r _ (i - n)) by lia. apply andb_false_r.
  - rewrite Z.shiftr_spec by lia. replace (i - n + n) with i by lia.
    rewrite Z.testbit_ones by lia.
    destruct (Z.ltb_spec i m) as [H'|H'].
    + replace (_ && _) with (Z.testbit cp i); [done|].
      assert ((0 <=? i - n) && (i - n <? m - n) = true) as -> by lia. by rewrite andb_true_r.
    + assert (Z.testbit cp i = false) as ->; [|done].
      destruct (Z.eq_dec cp 0) as [->|Hnz]; [apply Z.bits_0|].
      apply Z.bits_above_log2; [lia|]. apply Z.log2_lt_pow2; [lia|].
      apply Z.lt_le_trans with (2 ^ m); [lia|]. apply Z.pow_le_mono_r; lia.
Qed.

Lemma land13 cp : 0 <= cp < 4294967296 -> Z.land cp offsMask13Bit = cp - cp mod 128.
Proof. intros H. apply (land_high 7 32 cp); lia. Qed.
Lemma land21 cp : 0 <= cp < 4294967296 -> Z.land cp offsMask21Bit = cp - cp mod 32768.
Proof. intros H. apply (land_high 15 32 cp); lia. Qed.
Lemma land7F cp : Z.land cp 0x7F = cp mod 128.
Proof. apply (Z.land_ones cp 7). lia. Qed.
Lemma landFF cp : Z.land cp 0xFF = cp mod 256.
Proof. apply (Z.land_ones cp 8). lia. Qed.
Lemma shiftr8 x : Z.shiftr x 8 = x / 256.
Proof. apply Z.shiftr_div_pow2. lia. Qed.
Lemma shiftr16 x : Z.shiftr x 16 = x / 65536.
Proof. apply Z.shiftr_div_pow2. lia. Qed.
Lemma shiftl8 x : Z.shiftl x 8 = x * 256.
Proof. apply Z.shiftl_mul_pow2. lia. Qed.
Lemma shiftl16 x : Z.shiftl x 16 = x * 65536.
Proof. apply Z.shiftl_mul_pow2. lia. Qed.
Lemma of_byte x : Z.of_N (byte x) = x mod 256.
Proof. unfold byte. lia. Qed.
Lemma byte_eqb0 x : (byte x =? 0)%N = (x mod 256 =? 0).
Proof. unfold byte. lia. Qed.

Lemma lor_aux x : 0 <= x < 64 -> Z.lor markerAux x = 192 + x.
Proof. intros H. apply (lor_add 3 6 x); lia. Qed.
Lemma lor_13 x : 0 <= x < 128 -> Z.lor marker13Bit x = 128 + x.
Proof. intros H. apply (lor_add 1 7 x); lia. Qed.
Lemma lor_21 x : 0 <= x < 32 -> Z.lor marker21Bit x = 160 + x.
Proof. intros H. apply (lor_add 5 5 x); lia. Qed.
Lemma lor_ex x : 0 <= x < 16 -> Z.lor markerExtra x = 176 + x.
Proof. intros H. apply (lor_add 11 4 x); lia. Qed.
Lemma lor_256 k b : 0 <= b < 256 -> Z.lor (k * 256) b = k * 256 + b.
Proof. intros H. apply (lor_add k 8 b); lia. Qed.
Lemma lor_65536 k b : 0 <= b < 65536 -> Z.lor (k * 65536) b = k * 65536 + b.
Proof. intros H. apply (lor_add k 16 b); lia. Qed.
Lemma lor_offs n o b : 0 <= n -> o mod 2 ^ n = 0 -> 0 <= b < 2 ^ n -> Z.lor o b = o + b.
Proof.
  intros Hn Ho Hb. assert (Hp : 0 < 2 ^ n) by lia.
  assert (o = (o / 2 ^ n) * 2 ^ n) as Heq.
  { pose proof (Z.div_mod o (2 ^ n)). lia. }
  rewrite Heq. rewrite lor_add by lia. done.
Qed.

(** Classification of a byte by the decoder's mask tests: exhaustive over the
    256 byte values. *)
Lemma byte_forall (P : Z -> bool) :
  forallb (fun n => P (Z.of_nat n)) (seq 0 256) = true -> forall b, 0 <= b < 256 -> P b = true.
Proof.
  intros H b Hb. rewrite forallb_forall in H.
  specialize (H (Z.to_nat b)). rewrite Z2Nat.id in H by lia. apply H.
  apply in_seq. lia.
Qed.

Lemma byte_class b : 0 <= b < 256 ->
  (Z.land b markerAux =? markerAux) = (192 <=? b) /\
  (b < 192 -> (Z.land b markerExtra =? markerExtra) && negb (Z.lxor b markerExtra =? 0) = (177 <=? b)) /\
  (b < 177 -> (Z.land b marker21Bit =? marker21Bit) = (160 <=? b)) /\
  (b < 160 -> (Z.land b marker13Bit =? marker13Bit) = (128 <=? b)) /\
  (192 <= b -> Z.lxor b markerAux = b - 192) /\
  (177 <= b < 192 -> Z.lxor b markerExtra = b - 176) /\
  (160 <= b < 177 -> Z.lxor b marker21Bit = b - 160) /\
  (128 <= b < 160 -> Z.lxor b marker13Bit = b - 128).
Proof.
  intros Hb.
  pose (P := fun b =>
    eqb (Z.land b markerAux =? markerAux) (192 <=? b) &&
    (implb (b <? 192) (eqb ((Z.land b markerExtra =? markerExtra) && negb (Z.lxor b markerExtra =? 0)) (177 <=? b))) &&
    (implb (b <? 177) (eqb (Z.land b marker21Bit =? marker21Bit) (160 <=? b))) &&
    (implb (b <? 160) (eqb (Z.land b marker13Bit =? marker13Bit) (128 <=? b))) &&
    (implb (192 <=? b) (Z.lxor b markerAux =? b - 192)) &&
    (implb ((177 <=? b) && (b <? 192)) (Z.lxor b markerExtra =? b - 176)) &&
    (implb ((160 <=? b) && (b <? 177)) (Z.lxor b marker21Bit =? b - 160)) &&
    (implb ((128 <=? b) && (b <? 160)) (Z.lxor b marker13Bit =? b - 128))).
  assert (HP : P b = true).
  { apply (byte_forall P); [vm_compute; reflexivity|done]. }
  unfold P in HP.
  repeat rewrite andb_true_iff in HP.
  destruct HP as [[[[[[[H1 H2] H3] H4] H5] H6] H7] H8].
  apply eqb_prop in H1.
  split; [exact H1|].
  split; [intros H; rewrite (proj2 (Z.ltb_lt _ _) H) in H2; apply eqb_prop in H2; exact H2|].
  split; [intros H; rewrite (proj2 (Z.ltb_lt _ _) H) in H3; apply eqb_prop in H3; exact H3|].
  split; [intros H; rewrite (proj2 (Z.ltb_lt _ _) H) in H4; apply eqb_prop in H4; exact H4|].
  split; [intros H; rewrite (proj2 (Z.leb_le _ _) H) in H5; apply Z.eqb_eq; exact H5|].
  split; [intros H; replace ((177 <=? b) && (b <? 192)) with true in H6 by lia; apply Z.eqb_eq; exact H6|].
  split; [intros H; replace ((160 <=? b) && (b <? 177)) with true in H7 by lia; apply Z.eqb_eq; exact H7|].
  intros H; replace ((128 <=? b) && (b <? 160)) with true in H8 by lia; apply Z.eqb_eq; exact H8.
Qed.

(** ** Ranges *)
Lemma inLatin cp : inRanges cp rangesLatin = true ->
  0 <= encodeRanges cp rangesLatin < 64 /\
  decodeRanges (encodeRanges cp rangesLatin) rangesLatin = cp /\ 0 <= cp < 128.
Proof.
  unfold encodeRanges, rangesLatin, inRanges, encodeRangesFrom.
  repeat (let H := fresh in destruct (_ && _) eqn:H at 1; [intros _; unfold decodeRanges|]); try done;
  repeat match goal with |- context [if ?c then _ else _] => destruct c eqn:? end; lia.
Qed.
Lemma inExtra cp : inRanges cp rangesExtra = true ->
  0 <= encodeRanges cp rangesExtra < 2560 /\
  decodeRanges (encodeRanges cp rangesExtra) rangesExtra = cp /\ 0x2000 <= cp < 0x1F5F0.
Proof.
  unfold encodeRanges, rangesExtra, inRanges, encodeRangesFrom, rangeHK0, rangeHK1.
  repeat (let H := fresh in destruct (_ && _) eqn:H at 1; [intros _; unfold decodeRanges|]); try done;
  repeat match goal with |- context [if ?c then _ else _] => destruct c eqn:? end; lia.
Qed.
Lemma inRanges_extra cp : inRanges cp rangesExtra =
  ((0x2000 <=? cp) && (cp <? 0x2600) || (0x3000 <=? cp) && (cp <? 0x3100) ||
   (0xFE00 <=? cp) && (cp <? 0xFE10) || (0x1F300 <=? cp) && (cp <? 0x1F5F0)).
Proof.
  unfold rangesExtra, inRanges, rangeHK0, rangeHK1.
  repeat match goal with |- context [if ?c then _ else _] => destruct c eqn:? end; lia.
Qed.

