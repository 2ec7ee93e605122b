(** The percentage of unused units: a quotient rounded to 53 bits and then to hundredths is
    the quotient rounded to hundredths. *)
From Coq Require Import String.
From Verif Require Import Go CliSpec Main MainSpec MainText.
Local Open Scope Z_scope.

Lemma round_even_near a b : 0 < b -> 2 * Z.abs (round_even a b * b - a) <= b.
Proof.
  intros Hb. unfold round_even. cbv zeta. pose proof (Z.div_mod a b ltac:(lia)). pose proof (Z.mod_pos_bound a b Hb).
  destruct (Z.ltb_spec (2 * (a mod b)) b); cbn [orb]; [nia|]. destruct (Z.eqb_spec (2 * (a mod b)) b); cbn [andb]; [destruct (Z.even _)|]; nia.
Qed.
Lemma round_even_nonneg a b : 0 <= a -> 0 < b -> 0 <= round_even a b.
Proof. intros Ha Hb. unfold round_even. cbv zeta. pose proof (Z.div_pos a b Ha Hb). destruct (_ || _); lia. Qed.
Lemma two_roundings a b s : 0 < b -> 0 <= s -> 100 * b < 2 ^ s -> 2 * Z.abs (round_even (100 * round_even (a * 2 ^ s) b) (2 ^ s) * b - 100 * a) <= b.
Proof.
  intros Hb Hs H. set (S := 2 ^ s) in *. assert (HS : 0 < S) by lia. pose proof (round_even_near (a * S) b Hb) as H1. set (m := round_even (a * S) b) in *.
  pose proof (round_even_near (100 * m) S HS) as H2. set (h := round_even (100 * m) S) in *.
  assert (E : (h * b - 100 * a) * S = b * (h * S - 100 * m) + 100 * (m * b - a * S)) by ring.
  assert (H3 : Z.abs ((h * b - 100 * a) * S) <= b * Z.abs (h * S - 100 * m) + 100 * Z.abs (m * b - a * S)).
  { rewrite E. etransitivity; [apply Z.abs_triangle|]. rewrite !Z.abs_mul, (Z.abs_eq b), (Z.abs_eq 100) by lia. lia. }
  rewrite Z.abs_mul, (Z.abs_eq S) in H3 by lia. set (X := Z.abs (h * b - 100 * a)) in *. assert (2 * X * S < (b + 1) * S) by nia. nia.
Qed.
Lemma div64_shift a b : 0 < a < 2 ^ 40 -> 0 < b -> exists s, div64 a b = (round_even (a * 2 ^ s) b, s) /\ 0 <= s /\ 100 * b < 2 ^ s.
Proof.
  intros Ha Hb. unfold div64. destruct (Z.eqb_spec a 0); [lia|]. set (s0 := 52 - (Z.log2 a - Z.log2 b)).
  assert (Hl : Z.log2 a < 40) by (apply Z.log2_lt_pow2; lia). pose proof (Z.log2_nonneg b) as Hl2. pose proof (Z.log2_spec b Hb) as [_ Hlb].
  assert (H0 : 100 * b < 2 ^ s0).
  { apply (Z.lt_le_trans _ (2 ^ 7 * 2 ^ Z.succ (Z.log2 b))); [change (2 ^ 7) with 128; lia|]. rewrite <- Z.pow_add_r by lia. apply Z.pow_le_mono_r; lia. }
  cbv zeta. destruct (_ <? _).
  - exists (s0 + 1). split; [done|]. split; [lia|]. rewrite Z.pow_add_r by lia. lia.
  - exists s0. split; [done|]. split; [lia|done].
Qed.
Lemma fixed2_decimals h : 0 <= h -> two_decimals (dec (h / 100) ++ [46; 48 + Z.to_N (h / 10 mod 10); 48 + Z.to_N (h mod 10)])%N h.
Proof.
  intros Hh. pose proof (Z.mod_pos_bound h 10 ltac:(lia)). pose proof (Z.mod_pos_bound (h / 10) 10 ltac:(lia)).
  exists (dec (h / 100)), (48 + Z.to_N (h / 10 mod 10))%N, (48 + Z.to_N (h mod 10))%N. split; [apply dec_shows|]. split; [unfold digit; lia|]. split; [unfold digit; lia|]. split; [done|].
  rewrite !(N.add_comm 48), !N.add_sub, !Z2N.id by lia. change 100 with (10 * 10). rewrite Z.rem_mul_r by lia. lia.
Qed.
Lemma ratio_percentage unused size : (unused < 4294967296)%N -> 0 < size -> percentage (ratio unused size) (Z.of_N unused) size.
Proof.
  intros Hu Hs. unfold ratio, fixed2. destruct (decide (unused = 0%N)) as [->|Hne].
  { exists 0. split; [exact (fixed2_decimals 0 ltac:(lia))|]. change (Z.of_N 0) with 0. lia. }
  destruct (div64_shift (100 * Z.of_N unused) size) as (s & -> & H1 & H2); [change (2 ^ 40) with 1099511627776; lia|done|]. cbn [fst snd].
  pose proof (two_roundings (100 * Z.of_N unused) size s Hs H1 H2) as H. eexists. split; [apply fixed2_decimals|]. 2: { replace (10000 * Z.of_N unused) with (100 * (100 * Z.of_N unused)) by lia. exact H. }
  assert (0 < 2 ^ s) by lia. apply round_even_nonneg; [|done]. pose proof (round_even_nonneg (100 * Z.of_N unused * 2 ^ s) size ltac:(nia) Hs). lia.
Qed.
