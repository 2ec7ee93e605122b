(** Ranging over a string gives a text, and over an encoded text that text. *)
From Verif Require Import Go UtfcSpec Utf8.
Local Open Scope Z_scope.
Local Ltac Zify.zify_post_hook ::= Z.div_mod_to_equations.
Notation scalar := (fun c => 0 <= c <= 0x10FFFF /\ ~ (0xD800 <= c <= 0xDFFF)).

Lemma cont_some lo hi b x : cont lo hi b = Some x -> (lo <= b <= hi)%N /\ x = Z.of_N b - 128.
Proof. unfold cont. destruct (N.leb_spec lo b), (N.leb_spec b hi); cbn [andb]; [|done|done|done]. intros [= <-]. lia. Qed.
Lemma cont_in lo hi b : (lo <= b <= hi)%N -> cont lo hi b = Some (Z.of_N b - 128).
Proof. intros [? ?]. unfold cont. rewrite (proj2 (N.leb_le _ _)) by done. by rewrite (proj2 (N.leb_le _ _)). Qed.
Lemma decode_len b bs : (length (decode_rune b bs).2 <= length bs)%nat.
Proof.
  unfold decode_rune. repeat (case_match; try (cbn [snd length]; lia)); repeat match goal with H : (match ?l with [] => _ | _ :: _ => _ end) = Some _ |- _ => destruct l; [done|] | H : (match cont ?a ?b ?c with Some _ => _ | None => _ end) = Some _ |- _ => destruct (cont a b c); [|done] end; simplify_eq/=; try lia.
Qed.
Lemma decode_scalar b bs : scalar (decode_rune b bs).1.
Proof.
  unfold decode_rune. destruct (N.ltb_spec b 128); [cbn [fst]; lia|].
  destruct ((194 <=? b) && (b <=? 223))%N eqn:E2.
  - apply andb_true_iff in E2 as [?%N.leb_le ?%N.leb_le]. destruct bs as [|b1 r]; [cbn; lia|]. destruct (cont 128 191 b1) as [x|] eqn:E; [|cbn; lia]. apply cont_some in E as [? ->]. cbn [fst]. lia.
  - destruct ((224 <=? b) && (b <=? 239))%N eqn:E3.
    + apply andb_true_iff in E3 as [?%N.leb_le ?%N.leb_le]. destruct bs as [|b1 r]; [cbn; lia|]. destruct (cont _ _ b1) as [x|] eqn:E; [|cbn; lia]. apply cont_some in E as [E ->].
      cbn [snd fst]. destruct r as [|b2 r]; [cbn; lia|]. destruct (cont 128 191 b2) as [x|] eqn:E4; [|cbn; lia]. apply cont_some in E4 as [? ->]. cbn [fst].
      destruct (N.eqb_spec b 224), (N.eqb_spec b 237); lia.
    + destruct ((240 <=? b) && (b <=? 244))%N eqn:E4; [|cbn; lia]. apply andb_true_iff in E4 as [?%N.leb_le ?%N.leb_le].
      destruct bs as [|b1 r]; [cbn; lia|]. destruct (cont _ _ b1) as [x|] eqn:E; [|cbn; lia]. apply cont_some in E as [E ->].
      cbn [snd fst]. destruct r as [|b2 r]; [cbn; lia|]. destruct (cont 128 191 b2) as [x|] eqn:E5; [|cbn; lia]. apply cont_some in E5 as [? ->]. cbn [fst snd].
      destruct r as [|b3 r]; [cbn; lia|]. destruct (cont 128 191 b3) as [x|] eqn:E6; [|cbn; lia]. apply cont_some in E6 as [? ->]. cbn [fst].
      destruct (N.eqb_spec b 240), (N.eqb_spec b 244); lia.
Qed.
Lemma runes_text bs : is_text (runes bs).
Proof.
  unfold runes. generalize (length bs). intros n. revert bs. induction n as [|n IH]; intros [|b bs]; [constructor|constructor|constructor|]. cbn [runes_from].
  pose proof (decode_scalar b bs) as H. destruct (decode_rune b bs) as [c r]. constructor; [exact H|]. apply IH.
Qed.
Lemma decode_utf8 c : scalar c -> exists b t, utf8_rune c = b :: t /\ forall rest, decode_rune b (t ++ rest) = (c, rest).
Proof.
  intros [Hc Hs]. unfold utf8_rune. destruct (Z.ltb_spec c 128).
  { eexists _, _. split; [done|]. intros rest. unfold decode_rune. rewrite (proj2 (N.ltb_lt _ _)) by lia. cbn [app]. f_equal. lia. }
  destruct (Z.ltb_spec c 2048).
  { eexists _, _. split; [done|]. intros rest. unfold decode_rune. rewrite (proj2 (N.ltb_ge _ _)) by lia. rewrite !(proj2 (N.leb_le _ _)) by lia. cbn [andb app].
    rewrite cont_in by lia. f_equal. lia. }
  destruct (Z.ltb_spec c 65536).
  { eexists _, _. split; [done|]. intros rest. unfold decode_rune. rewrite (proj2 (N.ltb_ge _ _)) by lia. rewrite (proj2 (N.leb_le _ _)) by lia. rewrite (proj2 (N.leb_gt _ _)) by lia. cbn [andb].
    rewrite !(proj2 (N.leb_le _ _)) by lia. cbn [andb app]. rewrite cont_in.
    - cbn [snd fst]. rewrite cont_in by lia. f_equal. lia.
    - split; [destruct (N.eqb_spec (Z.to_N (224 + c / 4096)) 224); lia|destruct (N.eqb_spec (Z.to_N (224 + c / 4096)) 237); lia]. }
  eexists _, _. split; [done|]. intros rest. unfold decode_rune. rewrite (proj2 (N.ltb_ge _ _)) by lia. rewrite (proj2 (N.leb_le _ _)) by lia. rewrite (proj2 (N.leb_gt _ _)) by lia. cbn [andb].
  rewrite (proj2 (N.leb_le _ _)) by lia. rewrite (proj2 (N.leb_gt _ _)) by lia. cbn [andb].
  rewrite !(proj2 (N.leb_le _ _)) by lia. cbn [andb app]. rewrite cont_in.
  - cbn [snd fst]. rewrite cont_in by lia. cbn [snd fst]. rewrite cont_in by lia. f_equal. lia.
  - split; [destruct (N.eqb_spec (Z.to_N (240 + c / 262144)) 240); lia|destruct (N.eqb_spec (Z.to_N (240 + c / 262144)) 244); lia].
Qed.
Lemma runes_fuel n : forall m bs, (length bs <= n)%nat -> (length bs <= m)%nat -> runes_from n bs = runes_from m bs.
Proof.
  induction n as [|n IH]; intros m [|b bs] Hn Hm; cbn [length] in *; [by destruct m|lia|by destruct m|]. destruct m as [|m]; [lia|]. cbn [runes_from].
  pose proof (decode_len b bs) as Hl. destruct (decode_rune b bs) as [c r]. cbn [snd] in Hl. f_equal. apply IH; lia.
Qed.
Lemma runes_utf8 s : is_text s -> runes (utf8 s) = s.
Proof.
  unfold runes. induction 1 as [|c s Hc _ IH]; [done|]. unfold utf8 in *. cbn [flat_map]. destruct (decode_utf8 c Hc) as (b & t & -> & Hd). cbn [app length runes_from]. rewrite Hd. f_equal.
  etransitivity; [|exact IH]. apply runes_fuel; [rewrite app_length; lia|lia].
Qed.
