(** Bit fields of dictionary units and of the builder's extra units. *)
From Verif Require Import Go BitPool LinkTable Dawg Dict.
Local Open Scope N_scope.
Local Ltac Zify.zify_post_hook ::= Z.div_mod_to_equations.

(** ** Bits *)
Lemma u32_bits x k : N.testbit (u32 x) k = (k <? 32) && N.testbit x k.
Proof.
  unfold u32, two32. change 4294967296 with (2 ^ 32). destruct (N.ltb_spec k 32).
  - by rewrite N.mod_pow2_bits_low.
  - by rewrite N.mod_pow2_bits_high.
Qed.
Lemma u8_bits x k : N.testbit (u8 x) k = (k <? 8) && N.testbit x k.
Proof.
  unfold u8. change 256 with (2 ^ 8). destruct (N.ltb_spec k 8).
  - by rewrite N.mod_pow2_bits_low.
  - by rewrite N.mod_pow2_bits_high.
Qed.
Lemma shiftl_bits x n k : N.testbit (N.shiftl x n) k = (n <=? k) && N.testbit x (k - n).
Proof.
  destruct (N.leb_spec n k).
  - by rewrite N.shiftl_spec_high'.
  - by rewrite N.shiftl_spec_low.
Qed.
Lemma shl32_bits x n k : N.testbit (shl32 x n) k = (k <? 32) && ((n <=? k) && N.testbit x (k - n)).
Proof. unfold shl32. by rewrite u32_bits, shiftl_bits. Qed.
Lemma shiftr_bits x n k : N.testbit (N.shiftr x n) k = N.testbit x (k + n).
Proof. apply N.shiftr_spec'. Qed.
Lemma pow2_bits n k : N.testbit (2 ^ n) k = (k =? n).
Proof. rewrite N.pow2_bits_eqb. apply N.eqb_sym. Qed.
Lemma ones_bits n k : N.testbit (2 ^ n - 1) k = (k <? n).
Proof.
  rewrite <- N.pred_sub, <- N.ones_equiv. destruct (N.ltb_spec k n).
  - by apply N.ones_spec_low.
  - by apply N.ones_spec_high.
Qed.
Lemma lt_bits n x : x < 2 ^ n <-> forall k, n <= k -> N.testbit x k = false.
Proof.
  split.
  - intros H k Hk. destruct (decide (x = 0)) as [->|]; [apply N.bits_0|]. apply N.bits_above_log2.
    apply N.log2_lt_pow2; [lia|]. eapply N.lt_le_trans; [exact H|]. apply N.pow_le_mono_r; lia.
  - intros H. destruct (decide (x = 0)) as [->|Hx]; [apply N.neq_0_lt_0; by apply N.pow_nonzero|].
    apply N.log2_lt_pow2; [lia|]. destruct (N.lt_ge_cases (N.log2 x) n) as [|Hge]; [done|].
    specialize (H _ Hge). rewrite N.bit_log2 in H by done. done.
Qed.
Lemma test_pow2 x n : negb (N.land x (2 ^ n) =? 0) = N.testbit x n.
Proof.
  destruct (N.testbit x n) eqn:E.
  - destruct (N.eqb_spec (N.land x (2 ^ n)) 0) as [H|]; [|done]. exfalso.
    apply (f_equal (fun y => N.testbit y n)) in H. rewrite N.land_spec, pow2_bits, E, N.eqb_refl, N.bits_0 in H. done.
  - destruct (N.eqb_spec (N.land x (2 ^ n)) 0) as [|H]; [done|]. exfalso. apply H. apply N.bits_inj. intros k.
    rewrite N.land_spec, pow2_bits, N.bits_0. destruct (N.eqb_spec k n) as [->|]; [by rewrite E|by rewrite andb_false_r].
Qed.
Lemma low_bits x n : N.land x (2 ^ n - 1) = x mod 2 ^ n.
Proof. rewrite <- N.pred_sub, <- N.ones_equiv. apply N.land_ones. Qed.

Lemma c255 : 255 = 2 ^ 8 - 1. Proof. done. Qed.
Lemma c256 : hasLeafBit = 2 ^ 8. Proof. done. Qed.
Lemma c512 : extensionBit = 2 ^ 9. Proof. done. Qed.
Lemma c31 : isLeafBit = 2 ^ 31. Proof. done. Qed.

(** Decides equations between words, bit by bit. *)
Ltac bit_eq := rewrite ?c255, ?c256, ?c512, ?c31; apply N.bits_inj; intros ?k;
  repeat first [rewrite N.lor_spec|rewrite N.land_spec|rewrite N.ldiff_spec|rewrite u8_bits|rewrite u32_bits|rewrite shl32_bits
               |rewrite shiftr_bits|rewrite pow2_bits|rewrite ones_bits].
Ltac bcase := repeat match goal with
  | |- context [?a <? ?b] => destruct (N.ltb_spec a b)
  | |- context [?a <=? ?b] => destruct (N.leb_spec a b)
  | |- context [?a =? ?b] => destruct (N.eqb_spec a b)
  end; rewrite ?andb_true_l, ?andb_false_l, ?orb_false_l, ?orb_true_l, ?andb_true_r, ?andb_false_r, ?orb_false_r, ?orb_true_r;
  cbn [negb]; rewrite ?andb_true_l, ?andb_false_l, ?orb_false_l, ?orb_true_l, ?andb_true_r, ?andb_false_r, ?orb_false_r, ?orb_true_r.

Lemma dictLabel_mod u : dictLabel u = u mod 256.
Proof.
  unfold dictLabel. change (u mod 256) with (u8 u). bit_eq. bcase; try done; lia.
Qed.
Lemma dictHasLeaf_bit u : dictHasLeaf u = N.testbit u 8.
Proof. unfold dictHasLeaf. rewrite c256. apply test_pow2. Qed.
Lemma dictIsLeaf_bit u : dictIsLeaf u = N.testbit u 31.
Proof. unfold dictIsLeaf. rewrite c31. apply test_pow2. Qed.
Lemma dictHasExtBit_bit u : dictHasExtBit u = N.testbit u 9.
Proof. unfold dictHasExtBit. rewrite c512. apply test_pow2. Qed.
Lemma ext_shift u : N.shiftr (N.land u extensionBit) 6 = if N.testbit u 9 then 8 else 0.
Proof.
  rewrite c512. destruct (N.testbit u 9) eqn:E.
  - change 8 with (2 ^ 3). bit_eq. destruct (N.eqb_spec (k + 6) 9) as [H|], (N.eqb_spec k 3); try lia;
      rewrite ?andb_false_r, ?andb_true_r; try done. by rewrite H.
  - bit_eq. rewrite N.bits_0. destruct (N.eqb_spec (k + 6) 9) as [->|]; [by rewrite E|apply andb_false_r].
Qed.
Lemma dictOffset_eq u : dictOffset u = if N.testbit u 9 then shl32 (N.shiftr u 10) 8 else u32 (N.shiftr u 10).
Proof. unfold dictOffset. rewrite ext_shift. destruct (N.testbit u 9); [done|]. unfold shl32. by rewrite N.shiftl_0_r. Qed.

(** ** The setters *)
Lemma setLabel_label u l : l < 256 -> dictLabel (dictSetLabel u l) = l.
Proof.
  intros Hl. rewrite dictLabel_mod. change (dictSetLabel u l mod 256) with (u8 (dictSetLabel u l)). unfold dictSetLabel, andnot.
  bit_eq. bcase; try done. symmetry. by apply (proj1 (lt_bits 8 l)).
Qed.
Lemma setLabel_high u l k : l < 256 -> 8 <= k -> N.testbit (dictSetLabel u l) k = N.testbit u k.
Proof.
  intros Hl Hk. unfold dictSetLabel, andnot. rewrite c255, N.lor_spec, N.ldiff_spec, ones_bits.
  rewrite (proj1 (lt_bits 8 l) Hl k Hk). bcase; [lia|done].
Qed.
Lemma setLabel_hasLeaf u l : l < 256 -> dictHasLeaf (dictSetLabel u l) = dictHasLeaf u.
Proof. intros Hl. rewrite !dictHasLeaf_bit. by apply setLabel_high. Qed.
Lemma setLabel_isLeaf u l : l < 256 -> dictIsLeaf (dictSetLabel u l) = dictIsLeaf u.
Proof. intros Hl. rewrite !dictIsLeaf_bit. by apply setLabel_high. Qed.
Lemma shiftr_high u u' n : (forall k, n <= k -> N.testbit u k = N.testbit u' k) -> N.shiftr u n = N.shiftr u' n.
Proof. intros H. apply N.bits_inj. intros k. rewrite !shiftr_bits. apply H. lia. Qed.
Lemma setLabel_offset u l : l < 256 -> dictOffset (dictSetLabel u l) = dictOffset u.
Proof.
  intros Hl. rewrite !dictOffset_eq. rewrite setLabel_high by done.
  rewrite (shiftr_high (dictSetLabel u l) u 10); [done|]. intros k Hk. apply setLabel_high; [done|lia].
Qed.
Lemma setLabel_lt u l : l < 256 -> u < two32 -> dictSetLabel u l < two32.
Proof.
  intros Hl Hu. change two32 with (2 ^ 32) in *. apply lt_bits. intros k Hk. rewrite setLabel_high by (done || lia).
  by apply (proj1 (lt_bits 32 u)).
Qed.

Lemma setHasLeaf_bits u k : N.testbit (dictSetHasLeaf u) k = N.testbit u k || (k =? 8).
Proof. unfold dictSetHasLeaf. by rewrite c256, N.lor_spec, pow2_bits. Qed.
Lemma setHasLeaf_hasLeaf u : dictHasLeaf (dictSetHasLeaf u) = true.
Proof. rewrite dictHasLeaf_bit, setHasLeaf_bits. apply orb_true_r. Qed.
Lemma setHasLeaf_isLeaf u : dictIsLeaf (dictSetHasLeaf u) = dictIsLeaf u.
Proof. rewrite !dictIsLeaf_bit, setHasLeaf_bits. apply orb_false_r. Qed.
Lemma setHasLeaf_label u : dictLabel (dictSetHasLeaf u) = dictLabel u.
Proof.
  rewrite !dictLabel_mod. change (u8 (dictSetHasLeaf u) = u8 u). apply N.bits_inj. intros k.
  rewrite !u8_bits, setHasLeaf_bits. bcase; try done; lia.
Qed.
Lemma setHasLeaf_offset u : dictOffset (dictSetHasLeaf u) = dictOffset u.
Proof.
  rewrite !dictOffset_eq, setHasLeaf_bits. cbn [N.eqb Pos.eqb]. rewrite orb_false_r.
  rewrite (shiftr_high (dictSetHasLeaf u) u 10); [done|]. intros k Hk. rewrite setHasLeaf_bits.
  destruct (N.eqb_spec k 8); [lia|apply orb_false_r].
Qed.
Lemma setHasLeaf_lt u : u < two32 -> dictSetHasLeaf u < two32.
Proof.
  change two32 with (2 ^ 32). rewrite !lt_bits. intros Hu k Hk. rewrite setHasLeaf_bits, Hu by done.
  destruct (N.eqb_spec k 8); [lia|done].
Qed.

(** A value is stored in 31 bits, with the leaf bit. *)
Lemma setValue_bits v k : N.testbit (dictSetValue v) k = N.testbit (u32_of_i32 v) k || (k =? 31).
Proof. unfold dictSetValue. by rewrite c31, N.lor_spec, pow2_bits. Qed.
Lemma u32_of_i32_lt v : u32_of_i32 v < two32.
Proof. unfold u32_of_i32, two32. lia. Qed.
Lemma setValue_isLeaf v : dictIsLeaf (dictSetValue v) = true.
Proof. rewrite dictIsLeaf_bit, setValue_bits. apply orb_true_r. Qed.
Lemma setValue_lt v : dictSetValue v < two32.
Proof.
  change two32 with (2 ^ 32). apply lt_bits. intros k Hk. rewrite setValue_bits.
  rewrite (proj1 (lt_bits 32 (u32_of_i32 v)) (u32_of_i32_lt v) k Hk). destruct (N.eqb_spec k 31); [lia|done].
Qed.
Lemma andnot31 u : u < two32 -> andnot u isLeafBit = u mod 2147483648.
Proof.
  intros Hu. unfold andnot. rewrite c31. change 2147483648 with (2 ^ 31). apply N.bits_inj. intros k.
  rewrite N.ldiff_spec, pow2_bits. destruct (N.ltb_spec k 31).
  - rewrite N.mod_pow2_bits_low by done. bcase; [lia|done].
  - rewrite N.mod_pow2_bits_high by done. bcase; [done|]. apply (proj1 (lt_bits 32 u) Hu). lia.
Qed.
Lemma dictValue_mod u : u < two32 -> dictValue u = Z.of_N (u mod 2147483648).
Proof.
  intros Hu. unfold dictValue. rewrite andnot31 by done. unfold i32_of_u32, u32, two32.
  rewrite (N.mod_small _ 4294967296) by lia. destruct (Z.ltb_spec (Z.of_N (u mod 2147483648)) 2147483648); [done|lia].
Qed.
Lemma lor31_mod v : dictSetValue v mod 2147483648 = u32_of_i32 v mod 2147483648.
Proof.
  change 2147483648 with (2 ^ 31). apply N.bits_inj. intros k. destruct (N.ltb_spec k 31).
  - rewrite !N.mod_pow2_bits_low, setValue_bits by done. destruct (N.eqb_spec k 31); [lia|apply orb_false_r].
  - by rewrite !N.mod_pow2_bits_high.
Qed.
Lemma setValue_value v : dictValue (dictSetValue v) = (v mod 2147483648)%Z.
Proof. rewrite dictValue_mod by apply setValue_lt. rewrite lor31_mod. unfold u32_of_i32. lia. Qed.
Lemma setValue_label v : Z.of_N (dictLabel (dictSetValue v)) = (v mod 256)%Z.
Proof.
  rewrite dictLabel_mod. replace (dictSetValue v mod 256) with ((dictSetValue v mod 2147483648) mod 256) by lia.
  rewrite lor31_mod. unfold u32_of_i32. lia.
Qed.

(** dictSetOffset *)
Lemma shl_offsetMax : shl32 offsetMax 8 = 536870912.
Proof. reflexivity. Qed.
Lemma setOffset_refused u o : 536870912 <= o <-> (dictSetOffset u o).1 = false.
Proof.
  unfold dictSetOffset. rewrite shl_offsetMax. destruct (N.leb_spec 536870912 o); [done|].
  destruct (o <? offsetMax); cbn [fst]; split; try done; lia.
Qed.
Lemma setOffset_refused_unit u o : (dictSetOffset u o).1 = false -> (dictSetOffset u o).2 = u.
Proof.
  unfold dictSetOffset. destruct (shl32 offsetMax 8 <=? o); [done|]. by destruct (o <? offsetMax).
Qed.
(** Offsets the format can hold. *)
Definition fits (o : N) : Prop := o < 2097152 \/ (o < 536870912 /\ o mod 256 = 0).
Lemma setOffset_keep u k :
  N.testbit (N.land u (N.lor (N.lor isLeafBit hasLeafBit) 255)) k = N.testbit u k && ((k =? 31) || (k =? 8) || (k <? 8)).
Proof. by rewrite c31, c256, c255, N.land_spec, !N.lor_spec, !pow2_bits, ones_bits. Qed.
Lemma setOffset_small u o : o < 2097152 -> dictSetOffset u o =
  (true, N.lor (N.land u (N.lor (N.lor isLeafBit hasLeafBit) 255)) (shl32 o 10)).
Proof.
  intros H. unfold dictSetOffset. rewrite shl_offsetMax. destruct (N.leb_spec 536870912 o); [lia|].
  unfold offsetMax. destruct (N.ltb_spec o 2097152); [done|lia].
Qed.
Lemma setOffset_big u o : 2097152 <= o < 536870912 -> dictSetOffset u o =
  (true, N.lor (N.land u (N.lor (N.lor isLeafBit hasLeafBit) 255)) (N.lor (shl32 o 2) extensionBit)).
Proof.
  intros H. unfold dictSetOffset. rewrite shl_offsetMax. destruct (N.leb_spec 536870912 o); [lia|].
  unfold offsetMax. destruct (N.ltb_spec o 2097152); [lia|done].
Qed.
Lemma mod256_bits o k : o mod 256 = 0 -> k < 8 -> N.testbit o k = false.
Proof.
  intros Ho Hk. rewrite <- (N.mod_pow2_bits_low o 8 k Hk). change (2 ^ 8) with 256. rewrite Ho. apply N.bits_0.
Qed.
Lemma setOffset_low u o k : fits o -> k <= 8 -> N.testbit (dictSetOffset u o).2 k = N.testbit u k.
Proof.
  intros Hf Hk. destruct (N.lt_ge_cases o 2097152).
  - rewrite setOffset_small by done. cbn [snd]. rewrite N.lor_spec, setOffset_keep, shl32_bits.
    bcase; try done; lia.
  - destruct Hf as [|[Hf Ho]]; [lia|]. rewrite setOffset_big by done. cbn [snd].
    rewrite c512, !N.lor_spec, setOffset_keep, shl32_bits, pow2_bits.
    destruct (N.leb_spec 2 k).
    + rewrite (mod256_bits o (k - 2) Ho) by lia. bcase; try done; lia.
    + bcase; try done; lia.
Qed.
Lemma setOffset_31 u o : fits o -> N.testbit (dictSetOffset u o).2 31 = N.testbit u 31.
Proof.
  intros Hf. destruct (N.lt_ge_cases o 2097152).
  - rewrite setOffset_small by done. cbn [snd]. rewrite N.lor_spec, setOffset_keep, shl32_bits.
    cbn [N.eqb N.ltb N.compare Pos.eqb Pos.compare Pos.compare_cont]. change (31 - 10) with 21.
    rewrite (proj1 (lt_bits 21 o) ltac:(done) 21) by lia. by rewrite !andb_false_r, orb_false_r, andb_true_r.
  - destruct Hf as [|[Hf Ho]]; [lia|]. rewrite setOffset_big by done. cbn [snd].
    rewrite c512, !N.lor_spec, setOffset_keep, shl32_bits, pow2_bits. change (31 - 2) with 29.
    rewrite (proj1 (lt_bits 29 o) ltac:(done) 29) by lia. cbn. by rewrite orb_false_r, andb_true_r.
Qed.
Lemma setOffset_label u o : fits o -> dictLabel (dictSetOffset u o).2 = dictLabel u.
Proof.
  intros Hf. rewrite !dictLabel_mod. change (u8 (dictSetOffset u o).2 = u8 u). apply N.bits_inj. intros k.
  rewrite !u8_bits. destruct (N.ltb_spec k 8); [|done]. rewrite setOffset_low; [done|done|lia].
Qed.
Lemma setOffset_hasLeaf u o : fits o -> dictHasLeaf (dictSetOffset u o).2 = dictHasLeaf u.
Proof. intros Hf. rewrite !dictHasLeaf_bit. by apply setOffset_low. Qed.
Lemma setOffset_isLeaf u o : fits o -> dictIsLeaf (dictSetOffset u o).2 = dictIsLeaf u.
Proof. intros Hf. rewrite !dictIsLeaf_bit. by apply setOffset_31. Qed.
Lemma setOffset_lt u o : u < two32 -> (dictSetOffset u o).2 < two32.
Proof.
  change two32 with (2 ^ 32). intros Hu. unfold dictSetOffset. destruct (_ <=? _); [done|].
  apply lt_bits. intros k Hk. destruct (o <? offsetMax); cbn [snd];
    rewrite ?c512, !N.lor_spec, setOffset_keep, shl32_bits, ?pow2_bits, (proj1 (lt_bits 32 u) Hu k Hk);
    bcase; try done; lia.
Qed.
Lemma setOffset_ok u o : fits o -> (dictSetOffset u o).1 = true.
Proof.
  intros Hf. destruct (dictSetOffset u o).1 eqn:E; [done|]. apply setOffset_refused in E. destruct Hf; lia.
Qed.
(** In a unit that is not a leaf, an offset that fits is read back. *)
Lemma setOffset_offset u o : fits o -> u < two32 -> dictIsLeaf u = false -> dictOffset (dictSetOffset u o).2 = o.
Proof.
  intros Hf Hu Hleaf. rewrite dictIsLeaf_bit in Hleaf. change two32 with (2 ^ 32) in Hu.
  pose proof (proj1 (lt_bits 32 u) Hu) as Hu'. rewrite dictOffset_eq.
  destruct (N.lt_ge_cases o 2097152).
  - rewrite setOffset_small by done. cbn [snd]. pose proof (proj1 (lt_bits 21 o) ltac:(done)) as Ho.
    rewrite N.lor_spec, setOffset_keep, shl32_bits. cbn [N.eqb N.ltb N.leb N.compare Pos.eqb Pos.compare Pos.compare_cont orb andb].
    rewrite andb_false_r. cbn [orb]. apply N.bits_inj. intros k. rewrite u32_bits, shiftr_bits, N.lor_spec, setOffset_keep, shl32_bits. replace (k + 10 - 10) with k by lia.
    destruct (N.ltb_spec k 21) as [Hk|Hk]; [|rewrite (Ho k Hk)]; bcase; try done; try lia.
    all: replace (k + 10) with 31 by lia; by rewrite Hleaf.
  - destruct Hf as [|[Hf Hm]]; [lia|]. rewrite setOffset_big by done. cbn [snd].
    pose proof (proj1 (lt_bits 29 o) ltac:(done)) as Ho.
    rewrite c512, !N.lor_spec, pow2_bits. change (9 =? 9) with true. rewrite !orb_true_r.
    apply N.bits_inj. intros k. rewrite shl32_bits, shiftr_bits, !N.lor_spec, setOffset_keep, shl32_bits, pow2_bits.
    destruct (N.leb_spec 8 k) as [H8|H8].
    + replace (k - 8 + 10 - 2) with k by lia.
      destruct (N.ltb_spec k 29) as [Hk|Hk]; [|rewrite (Ho k Hk)]; bcase; try done; try lia.
      all: replace (k - 8 + 10) with 31 by lia; by rewrite Hleaf.
    + rewrite (mod256_bits o k Hm H8). by rewrite andb_false_r.
Qed.

(** ** Extra units *)
Lemma land1_bits x k : N.testbit (N.land x 1) k = (k =? 0) && N.testbit x k.
Proof.
  change 1 with (2 ^ 0). rewrite N.land_spec, pow2_bits. apply andb_comm.
Qed.
Lemma land1_eq x : (N.land x 1 =? 1) = N.odd x.
Proof.
  destruct (N.odd x) eqn:E.
  - apply N.eqb_eq. rewrite <- N.bit0_odd in E. apply N.bits_inj. intros k. rewrite land1_bits. change 1 with (2 ^ 0).
    rewrite pow2_bits. destruct (N.eqb_spec k 0) as [->|]; [by rewrite E|done].
  - apply N.eqb_neq. intros H. rewrite <- N.bit0_odd in E. apply (f_equal (fun y => N.testbit y 0)) in H.
    rewrite land1_bits, E in H. done.
Qed.
Lemma pack_odd x n : N.odd (N.lor (N.land x 1) (shl32 n 1)) = N.odd x.
Proof.
  rewrite <- !N.bit0_odd, N.lor_spec, land1_bits, shl32_bits. cbn. by rewrite orb_false_r.
Qed.
Lemma pack_shift x n : n < 2147483648 -> N.shiftr (N.lor (N.land x 1) (shl32 n 1)) 1 = n.
Proof.
  intros Hn. pose proof (proj1 (lt_bits 31 n) ltac:(done)) as Hb. apply N.bits_inj. intros k.
  rewrite shiftr_bits, N.lor_spec, land1_bits, shl32_bits. replace (k + 1 - 1) with k by lia.
  destruct (N.ltb_spec k 31) as [Hk|Hk]; [|rewrite (Hb k Hk)]; bcase; try done; lia.
Qed.
Lemma lor1_odd x : N.odd (N.lor x 1) = true.
Proof. rewrite <- N.bit0_odd, N.lor_spec. cbn. apply orb_true_r. Qed.
Lemma lor1_shift x : N.shiftr (N.lor x 1) 1 = N.shiftr x 1.
Proof.
  apply N.bits_inj. intros k. rewrite !shiftr_bits, N.lor_spec. change 1 with (2 ^ 0) at 2. rewrite pow2_bits.
  destruct (N.eqb_spec (k + 1) 0); [lia|apply orb_false_r].
Qed.
Section extra.
  Context (e : extra) (n : N).
  Lemma ex_fixed_next : ex_isFixed (ex_setNext n e) = ex_isFixed e.
  Proof. unfold ex_isFixed, ex_setNext. cbn [fst]. by rewrite !land1_eq, pack_odd. Qed.
  Lemma ex_used_next : ex_isUsed (ex_setNext n e) = ex_isUsed e.
  Proof. done. Qed.
  Lemma ex_prev_next : ex_prev (ex_setNext n e) = ex_prev e.
  Proof. done. Qed.
  Lemma ex_next_next : n < 2147483648 -> ex_next (ex_setNext n e) = n.
  Proof. apply pack_shift. Qed.
  Lemma ex_fixed_prev : ex_isFixed (ex_setPrev n e) = ex_isFixed e.
  Proof. done. Qed.
  Lemma ex_used_prev : ex_isUsed (ex_setPrev n e) = ex_isUsed e.
  Proof. unfold ex_isUsed, ex_setPrev. cbn [snd]. by rewrite !land1_eq, pack_odd. Qed.
  Lemma ex_next_prev : ex_next (ex_setPrev n e) = ex_next e.
  Proof. done. Qed.
  Lemma ex_prev_prev : n < 2147483648 -> ex_prev (ex_setPrev n e) = n.
  Proof. apply pack_shift. Qed.
  Lemma ex_fixed_fixed : ex_isFixed (ex_setIsFixed e) = true.
  Proof. unfold ex_isFixed, ex_setIsFixed. cbn [fst]. by rewrite land1_eq, lor1_odd. Qed.
  Lemma ex_used_fixed : ex_isUsed (ex_setIsFixed e) = ex_isUsed e.
  Proof. done. Qed.
  Lemma ex_next_fixed : ex_next (ex_setIsFixed e) = ex_next e.
  Proof. apply lor1_shift. Qed.
  Lemma ex_prev_fixed : ex_prev (ex_setIsFixed e) = ex_prev e.
  Proof. done. Qed.
  Lemma ex_fixed_used : ex_isFixed (ex_setIsUsed e) = ex_isFixed e.
  Proof. done. Qed.
  Lemma ex_used_used : ex_isUsed (ex_setIsUsed e) = true.
  Proof. unfold ex_isUsed, ex_setIsUsed. cbn [snd]. by rewrite land1_eq, lor1_odd. Qed.
  Lemma ex_next_used : ex_next (ex_setIsUsed e) = ex_next e.
  Proof. done. Qed.
  Lemma ex_prev_used : ex_prev (ex_setIsUsed e) = ex_prev e.
  Proof. apply lor1_shift. Qed.
End extra.
