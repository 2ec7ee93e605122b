(** Strings that are not UTF-8 (C104, C105). *)
From Verif Require Import Go Utfc UtfcSpec UtfcMain Utf8 Utf8Proofs Utf8Range Properties_Utfc.
Local Open Scope Z_scope.

(** A string of valid UTF-8. *)
Definition valid_utf8 (bs : list N) : Prop := exists encs s, Forall2 utf8_seq s encs /\ bs = concat encs.
Lemma valid_text bs : valid_utf8 bs <-> exists s, is_text s /\ bs = utf8 s.
Proof.
  split.
  - intros (encs & s & H & ->). exists s. induction H as [|c e s encs [Hc ->]%seq_rune _ [IH1 IH2]]; [split; [constructor|done]|].
    split; [by constructor|]. cbn [concat]. rewrite IH2. done.
  - intros (s & H & ->). exists (map utf8_rune s), s. split; [|unfold utf8; by rewrite flat_map_concat_map].
    induction H as [|c s Hc _ IH]; constructor; [by apply seq_rune|exact IH].
Qed.

(** C104: what UtfcEncode and UtfcFollow see of any string.  [ranged] is the
    language's rule, in Utf8Range.v. *)
Theorem C104_ranged bs s : ranged bs s <-> s = runes bs.
Proof. split; [apply ranged_runes|intros ->; apply runes_ranged]. Qed.
Print Assumptions C104_ranged.
(** Never more characters than bytes, all of them scalar values. *)
Theorem C104_text bs : is_text (runes bs) /\ (length (runes bs) <= length bs)%nat.
Proof.
  split; [apply runes_text|]. unfold runes. generalize (length bs) at 1 as n. intros n. revert bs. induction n as [|n IH]; intros [|b bs]; cbn [runes_from length]; try lia.
  pose proof (decode_len b bs) as Hl. destruct (decode_rune b bs) as [c r]. cbn [length snd] in *. specialize (IH r). lia.
Qed.
Print Assumptions C104_text.
(** Overlong forms, surrogates, values above U+10FFFF and cut sequences are not
    characters: one U+FFFD for every byte. *)
Example C104_case : runes [0xC0; 0x80]%N = [0xFFFD; 0xFFFD] /\ runes [0xE0; 0x80; 0x80]%N = [0xFFFD; 0xFFFD; 0xFFFD] /\ runes [0xED; 0xA0; 0x80]%N = [0xFFFD; 0xFFFD; 0xFFFD] /\
  runes [0xF4; 0x90; 0x80; 0x80]%N = [0xFFFD; 0xFFFD; 0xFFFD; 0xFFFD] /\ runes [0xE2; 0x82; 0x41]%N = [0xFFFD; 0xFFFD; 0x41] /\ runes [0xE2; 0x82; 0xAC]%N = [0x20AC].
Proof. vm_compute. repeat split; reflexivity. Qed.

(** C105. Full statement: strings with the same encoding are the same.  It is false:
    bytes outside UTF-8 all encode as U+FFFD, so keys of a lexicon that differ in
    such a byte become one key under -u. *)
Theorem C105_strings_injective_refuted : exists a b, a <> b /\ utfc_encode (runes a) = utfc_encode (runes b).
Proof. exists [0xFE]%N, [0xFF]%N. split; [done|vm_compute; reflexivity]. Qed.
Print Assumptions C105_strings_injective_refuted.
(** The exact condition: the strings range over the same characters; *)
Theorem C105_strings_exact a b : utfc_encode (runes a) = utfc_encode (runes b) <-> exists s, ranged a s /\ ranged b s.
Proof.
  split.
  - intros H. exists (runes a). split; [apply runes_ranged|]. rewrite (C03_injective _ _ (runes_text a) (runes_text b) H). apply runes_ranged.
  - intros (s & Ha%ranged_runes & Hb%ranged_runes). by rewrite <- Ha, <- Hb.
Qed.
Print Assumptions C105_strings_exact.
(** so it holds of valid strings, ... *)
Theorem C105_strings_partial a b : valid_utf8 a -> valid_utf8 b -> utfc_encode (runes a) = utfc_encode (runes b) -> a = b.
Proof.
  intros (s & Hs & ->)%valid_text (t & Ht & ->)%valid_text H. rewrite !runes_utf8 in H by done. by rewrite (C03_injective s t Hs Ht H).
Qed.
Print Assumptions C105_strings_partial.
(** ... and every string encodes as exactly one valid string does. *)
Theorem C105_valid_twin a : exists b, valid_utf8 b /\ utfc_encode (runes b) = utfc_encode (runes a) /\
  (forall b', valid_utf8 b' -> utfc_encode (runes b') = utfc_encode (runes a) -> b' = b) /\ (valid_utf8 a <-> b = a).
Proof.
  exists (utf8 (runes a)). assert (Hv : valid_utf8 (utf8 (runes a))) by (apply valid_text; exists (runes a); split; [apply runes_text|done]).
  assert (E : utfc_encode (runes (utf8 (runes a))) = utfc_encode (runes a)) by (by rewrite (runes_utf8 _ (runes_text a))).
  split; [exact Hv|]. split; [exact E|]. split.
  - intros b' Hb' H. apply C105_strings_partial; [exact Hb'|exact Hv|]. by rewrite H, E.
  - split; [|intros H; by rewrite <- H]. intros Ha. by apply C105_strings_partial.
Qed.
Print Assumptions C105_valid_twin.
Example C105_case : valid_utf8 [0x41; 0xD0; 0x96]%N /\ utfc_encode (runes [0x41; 0xD0]%N) = utfc_encode (runes [0x41; 0xEF; 0xBF; 0xBD]%N).
Proof. split; [apply valid_text; exists [0x41; 0x416]; split; [repeat constructor; lia|vm_compute; reflexivity]|vm_compute; reflexivity]. Qed.
