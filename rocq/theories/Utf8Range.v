(** Ranging over any bytes, against UTF-8 alone. *)
From Verif Require Import Go UtfcSpec Utf8 Utf8Proofs.
Local Open Scope Z_scope.
Local Ltac Zify.zify_post_hook ::= Z.div_mod_to_equations.

(** The UTF-8 encodings, by the table of the Unicode standard (3.9, table 3-6):
    the bits of a scalar value in the shortest form that holds them. *)
Inductive utf8_seq : Z -> list N -> Prop :=
| seq1 c : 0 <= c <= 0x7F -> utf8_seq c [Z.to_N c]
| seq2 c x y : 0x80 <= c <= 0x7FF -> c = x * 64 + y -> 0 <= y < 64 -> utf8_seq c [Z.to_N (0xC0 + x); Z.to_N (0x80 + y)]
| seq3 c x y z : 0x800 <= c <= 0xFFFF -> ~ (0xD800 <= c <= 0xDFFF) -> c = x * 4096 + y * 64 + z -> 0 <= y < 64 -> 0 <= z < 64 ->
    utf8_seq c [Z.to_N (0xE0 + x); Z.to_N (0x80 + y); Z.to_N (0x80 + z)]
| seq4 c x y z w : 0x10000 <= c <= 0x10FFFF -> c = x * 262144 + y * 4096 + z * 64 + w -> 0 <= y < 64 -> 0 <= z < 64 -> 0 <= w < 64 ->
    utf8_seq c [Z.to_N (0xF0 + x); Z.to_N (0x80 + y); Z.to_N (0x80 + z); Z.to_N (0x80 + w)].
(** The characters of a byte string: where the encoding of a scalar value starts,
    that value; elsewhere U+FFFD for one byte.  (Go specification, "For statements
    with range clause".) *)
Inductive ranged : list N -> list Z -> Prop :=
| rg_nil : ranged [] []
| rg_char c enc rest s : utf8_seq c enc -> ranged rest s -> ranged (enc ++ rest) (c :: s)
| rg_bad b rest s : (forall c enc t, utf8_seq c enc -> b :: rest <> enc ++ t) -> ranged rest s -> ranged (b :: rest) (0xFFFD :: s).

Lemma seq_rune c enc : utf8_seq c enc <-> scalar c /\ enc = utf8_rune c.
Proof.
  split.
  - destruct 1 as [c H|c x y H E Hy|c x y z H Hs E Hy Hz|c x y z w H E Hy Hz Hw]; (split; [lia|]); unfold utf8_rune.
    + by rewrite (proj2 (Z.ltb_lt _ _)) by lia.
    + rewrite (proj2 (Z.ltb_ge c 128)), (proj2 (Z.ltb_lt c 2048)) by lia. repeat f_equal; lia.
    + rewrite (proj2 (Z.ltb_ge c 128)), (proj2 (Z.ltb_ge c 2048)), (proj2 (Z.ltb_lt c 65536)) by lia. repeat f_equal; lia.
    + rewrite (proj2 (Z.ltb_ge c 128)), (proj2 (Z.ltb_ge c 2048)), (proj2 (Z.ltb_ge c 65536)) by lia. repeat f_equal; lia.
  - intros [[Hc Hs] ->]. unfold utf8_rune. destruct (Z.ltb_spec c 128); [constructor; lia|]. destruct (Z.ltb_spec c 2048); [constructor; lia|].
    destruct (Z.ltb_spec c 65536); constructor; lia.
Qed.
Lemma decode_inv b bs : decode_rune b bs = (0xFFFD, bs) \/ b :: bs = utf8_rune (decode_rune b bs).1 ++ (decode_rune b bs).2.
Proof.
  unfold decode_rune. destruct (N.ltb_spec b 128).
  { right. cbn [fst snd]. unfold utf8_rune. rewrite (proj2 (Z.ltb_lt _ _)) by lia. cbn [app]. f_equal. lia. }
  destruct ((194 <=? b) && (b <=? 223))%N eqn:E2.
  { apply andb_true_iff in E2 as [?%N.leb_le ?%N.leb_le]. destruct bs as [|b1 r]; [by left|]. destruct (cont 128 191 b1) as [x|] eqn:E; [|by left].
    apply cont_some in E as [? ->]. right. cbn [fst snd]. unfold utf8_rune. rewrite (proj2 (Z.ltb_ge _ _)) by lia. rewrite (proj2 (Z.ltb_lt _ _)) by lia. cbn [app]. repeat f_equal; lia. }
  destruct ((224 <=? b) && (b <=? 239))%N eqn:E3.
  { apply andb_true_iff in E3 as [?%N.leb_le ?%N.leb_le]. destruct bs as [|b1 r]; [by left|]. destruct (cont _ _ b1) as [x|] eqn:E; [|by left]. apply cont_some in E as [E ->].
    cbn [snd fst]. destruct r as [|b2 r]; [by left|]. destruct (cont 128 191 b2) as [x|] eqn:E4; [|by left]. apply cont_some in E4 as [? ->]. right. cbn [fst snd].
    assert (128 <= b1 <= 191)%N by (destruct (N.eqb_spec b 224), (N.eqb_spec b 237); lia).
    set (c := (Z.of_N b - 224) * 4096 + ((Z.of_N b1 - 128) * 64 + (Z.of_N b2 - 128))). assert (2048 <= c < 65536) by (subst c; destruct (N.eqb_spec b 224), (N.eqb_spec b 237); lia).
    unfold utf8_rune. rewrite (proj2 (Z.ltb_ge c 128)), (proj2 (Z.ltb_ge c 2048)), (proj2 (Z.ltb_lt c 65536)) by lia. subst c. cbn [app]. repeat f_equal; lia. }
  destruct ((240 <=? b) && (b <=? 244))%N eqn:E4; [|by left]. apply andb_true_iff in E4 as [?%N.leb_le ?%N.leb_le].
  destruct bs as [|b1 r]; [by left|]. destruct (cont _ _ b1) as [x|] eqn:E; [|by left]. apply cont_some in E as [E ->].
  cbn [snd fst]. destruct r as [|b2 r]; [by left|]. destruct (cont 128 191 b2) as [x|] eqn:E5; [|by left]. apply cont_some in E5 as [? ->]. cbn [fst snd].
  destruct r as [|b3 r]; [by left|]. destruct (cont 128 191 b3) as [x|] eqn:E6; [|by left]. apply cont_some in E6 as [? ->]. right. cbn [fst snd].
  assert (128 <= b1 <= 191)%N by (destruct (N.eqb_spec b 240), (N.eqb_spec b 244); lia).
  set (c := (Z.of_N b - 240) * 262144 + (((Z.of_N b1 - 128) * 64 + (Z.of_N b2 - 128)) * 64 + (Z.of_N b3 - 128))). assert (65536 <= c) by (subst c; destruct (N.eqb_spec b 240), (N.eqb_spec b 244); lia).
  unfold utf8_rune. rewrite (proj2 (Z.ltb_ge c 128)), (proj2 (Z.ltb_ge c 2048)), (proj2 (Z.ltb_ge c 65536)) by lia. subst c. cbn [app]. repeat f_equal; lia.
Qed.
Lemma decode_char b bs c t : scalar c -> b :: bs = utf8_rune c ++ t -> decode_rune b bs = (c, t).
Proof.
  intros Hc H. destruct (decode_utf8 c Hc) as (b' & t' & E & Hd). rewrite E in H. cbn [app] in H. injection H as -> ->. apply Hd.
Qed.
Lemma runes_cons b bs : runes (b :: bs) = (decode_rune b bs).1 :: runes (decode_rune b bs).2.
Proof.
  unfold runes. cbn [length runes_from]. pose proof (decode_len b bs) as Hl. destruct (decode_rune b bs) as [c r]. cbn [fst snd] in *. f_equal. apply runes_fuel; lia.
Qed.
Lemma runes_ranged bs : ranged bs (runes bs).
Proof.
  remember (length bs) as n eqn:Hn. revert bs Hn. induction n as [n IH] using lt_wf_ind. intros [|b bs] Hn; [constructor|].
  rewrite runes_cons. pose proof (decode_len b bs) as Hl. pose proof (decode_scalar b bs) as Hs.
  destruct (decode_inv b bs) as [E|E].
  - rewrite E. cbn [fst snd]. constructor; [|apply (IH (length bs)); cbn in Hn; [lia|done]]. intros c enc t [Hc ->]%seq_rune H. rewrite (decode_char b bs c t Hc H) in E. injection E as -> ->.
    apply (f_equal length) in H. cbn in H. lia.
  - rewrite E. constructor; [by apply seq_rune|]. apply (IH (length (decode_rune b bs).2)); cbn in Hn; [lia|done].
Qed.
Lemma ranged_runes bs s : ranged bs s -> s = runes bs.
Proof.
  induction 1 as [|c enc rest s [Hc ->]%seq_rune _ IH|b rest s Hb _ IH]; [done| |].
  - destruct (decode_utf8 c Hc) as (b & t & -> & Hd). cbn [app]. rewrite runes_cons, Hd. cbn [fst snd]. by f_equal.
  - rewrite runes_cons. destruct (decode_inv b rest) as [E|E]; [rewrite E; cbn [fst snd]; by f_equal|].
    destruct (Hb (decode_rune b rest).1 (utf8_rune (decode_rune b rest).1) (decode_rune b rest).2); [apply seq_rune; split; [exact (decode_scalar b rest)|done]|exact E].
Qed.
