(** C90-C96: the UTF-C format itself, how long encoded texts are, and what
    UtfcDecode does with any bytes. *)
From Verif Require Import Go Utfc UtfcProofs UtfcSpec UtfcFormatSpec UtfcFormat UtfcLength UtfcDecodeAny.
Local Open Scope Z_scope.

(** C90: UtfcEncode writes the format of UtfcFormatSpec.v, and nothing else: every
    text has a written form, and any written form of it is the bytes of UtfcEncode. *)
Theorem C90_format s : is_text s ->
  (exists bs p, written start s bs p) /\
  (forall bs p, written start s bs p -> utfc_encode s = map Z.to_N bs).
Proof.
  intros Ht. split; [exact (written_ex ustate0 s uinv0 Ht)|].
  intros bs p Hw. exact (written_encode s bs p Ht Hw).
Qed.
Print Assumptions C90_format.

(** "Ёж, 火!": two bytes for U+0401 (the block is entered, the Latin alphabet kept),
    one for U+0436 (same block), two for the comma (back to Latin), one for the space,
    three for U+706B, two for the exclamation mark. *)
Example C90_case : is_text [0x401; 0x436; 0x2C; 0x20; 0x706B; 0x21] /\
  written start [0x401; 0x436; 0x2C; 0x20; 0x706B; 0x21]
    ([0x84; 0x01] ++ [0x36] ++ [0x80; 0x2C] ++ [0x20] ++ [0xA0; 0x4A; 0x6B] ++ [0x80; 0x21] ++ []) (0, 0, false) /\
  utfc_encode [0x401; 0x436; 0x2C; 0x20; 0x706B; 0x21] =
    [0x84; 0x01; 0x36; 0x80; 0x2C; 0x20; 0xA0; 0x4A; 0x6B; 0x80; 0x21]%N.
Proof.
  assert (Hl : forall c, In c latin64 -> 0 < c < 128) by exact latin64_bound.
  assert (Hs : forall c, In c specials -> 0x2000 <= c < 0x1F5F0 /\ ~ (0x4E00 <= c < 0xA000)) by exact specials_bound.
  assert (Hk0 : kept 0 0) by (right; split; [intros x Hx; cbn in Hx; repeat (destruct Hx as [Hx|Hx]; [discriminate|]); done|done]).
  assert (Hk4 : kept 0x400 0x410) by (left; cbn; auto).
  assert (Hc : In 0x2C latin64 -> False)
    by (rewrite latin64_in; intros H; vm_compute in H; discriminate).
  assert (Hx : In 0x21 latin64 -> False)
    by (rewrite latin64_in; intros H; vm_compute in H; discriminate).
  split; [repeat constructor; lia|]. split; [|vm_compute; reflexivity].
  apply (written_cons start 0x401 [0x84; 0x01] (0x400, 0, false)).
  { apply (coded_narrow 0 0x410 false 0x401 0); [unfold second; lia|intros H; apply Hs in H; lia|lia|intros [_ H]; discriminate|done]. }
  apply (written_cons _ 0x436 [0x36] (0x400, 0, false)).
  { apply (coded_block 0x400 0 0x436); [intros [[_ H]|H]; [apply Hl in H; lia|lia]|lia|reflexivity]. }
  apply (written_cons _ 0x2C [0x80; 0x2C] (0, 0x410, false)).
  { apply (coded_narrow 0x400 0 false 0x2C 0x410); [intros [[_ H]|H]; [done|lia]|intros H; apply Hs in H; lia|lia|intros [_ H]; discriminate|done]. }
  apply (written_cons _ 0x20 [0x20] (0, 0x410, false)).
  { apply (coded_block 0 0x410 0x20); [unfold second; lia|lia|reflexivity]. }
  apply (written_cons _ 0x706B [0xA0; 0x4A; 0x6B] (0, 0, true)).
  { apply (coded_wide 0 0x410 false 0x706B 0x4A6B); [unfold second; lia|intros H; apply Hs in H; lia|reflexivity|lia|intros [H _]; discriminate]. }
  apply (written_cons _ 0x21 [0x80; 0x21] (0, 0, false)).
  { apply (coded_narrow 0 0 true 0x21 0); [intros [[_ H]|H]; [done|lia]|intros H; apply Hs in H; lia|lia|intros [H _]; discriminate|done]. }
  apply written_nil.
Qed.

(** C91: texts in one alphabet are short.  English (ASCII without NUL) is written
    as it is. *)
Theorem C91_ascii s : Forall (fun c => 1 <= c < 128) s -> utfc_encode s = map Z.to_N s.
Proof.
  intros Hs. apply (written_encode s s start).
  - eapply Forall_impl; [exact Hs|]. cbn. lia.
  - replace s with (map (fun c => c) s) at 2 by apply map_id. revert Hs. apply written_stay. exact start_ascii.
Qed.
Print Assumptions C91_ascii.
(** "Dawg 2" *)
Example C91_ascii_case : Forall (fun c => 1 <= c < 128) [0x44; 0x61; 0x77; 0x67; 0x20; 0x32].
Proof. repeat constructor; lia. Qed.

(** ASCII and the Russian letters U+0410-U+044F: one byte per character. *)
Theorem C91_russian s : Forall (fun c => 1 <= c < 128 \/ 0x410 <= c < 0x450) s ->
  utfc_encode s = map (fun c => Z.to_N (if c <? 128 then c else 0xC0 + (c - 0x410))) s.
Proof.
  intros Hs. rewrite (written_encode s (map plain s) start).
  - by rewrite map_map.
  - eapply Forall_impl; [exact Hs|]. cbn. lia.
  - by apply russian_written.
Qed.
Print Assumptions C91_russian.
Example C91_russian_case : utfc_encode [0x416; 0x20; 0x65; 0x44F] = [0xC6; 0x20; 0x65; 0xFF]%N.
Proof. vm_compute. reflexivity. Qed.

(** Latin letters with accents (up to U+02FF): one byte for ASCII, two for the others. *)
Theorem C91_accents s : Forall (fun c => 0 <= c < 0x300) s ->
  length (utfc_encode s) = sum_list (map (fun c => if c <? 0x80 then 1%nat else 2%nat) s).
Proof.
  intros Hs.
  assert (Ht : is_text s) by (eapply Forall_impl; [exact Hs|]; cbn; lia).
  destruct (written_ex ustate0 s uinv0 Ht) as (bs & q & Hw). rewrite place0 in Hw.
  rewrite (written_encode s bs q Ht Hw), map_length.
  destruct (written_exact (fun c => 0 <= c < 0x300) _ (fun _ => 0%nat) (fun c => if c <? 0x80 then 1%nat else 2%nat)
    start s bs q accents_step ltac:(cbn; lia) Hs Hw) as [_ H]. rewrite !Nat.add_0_r in H. exact H.
Qed.
Print Assumptions C91_accents.
(** "été" *)
Example C91_accents_case : Forall (fun c => 0 <= c < 0x300) [0xE9; 0x74; 0xE9] /\
  length (utfc_encode [0xE9; 0x74; 0xE9]) = 5%nat.
Proof. split; [repeat constructor; lia|vm_compute; reflexivity]. Qed.

(** The characters of one block of 128 between U+0300 and U+1FFF together with
    [A-Za-z0-9 -]: one byte each, and one byte more as soon as the block has to be
    entered (which the letters U+0410-U+044F do not need). *)
Theorem C91_alphabet B s : B mod 128 = 0 -> 0x300 <= B < 0x2000 ->
  Forall (fun c => In c latin64 \/ B <= c < B + 128) s ->
  (Exists (fun c => B <= c < B + 128 /\ ~ 0x410 <= c < 0x450) s -> length (utfc_encode s) = S (length s)) /\
  (~ Exists (fun c => B <= c < B + 128 /\ ~ 0x410 <= c < 0x450) s -> length (utfc_encode s) = length s).
Proof.
  intros HB HB' Hs.
  assert (Ht : is_text s) by (eapply Forall_impl; [exact Hs|]; cbn; intros c [H|H]; [apply latin64_bound in H|]; lia).
  destruct (written_ex ustate0 s uinv0 Ht) as (bs & q & Hw). rewrite place0 in Hw.
  rewrite (written_encode s bs q Ht Hw), map_length.
  pose proof (written_move _ _ (B, 0, false) (fun _ => 1%nat) s bs q
    (fun c b q => alphabet_start B c b q HB HB') (fun c b q => alphabet_there B c b q HB HB') Hs Hw) as H.
  assert (Hl : sum_list (map (fun _ : Z => 1%nat) s) = length s).
  { clear. induction s as [|c s IH]; cbn; [done|]. cbn in IH. by rewrite IH. }
  rewrite Hl in H. exact H.
Qed.
Print Assumptions C91_alphabet.
(** "λόγος 1" in Greek: eight bytes for seven characters (in UTF-8, twelve). *)
Example C91_alphabet_case : (0x380 mod 128 = 0 /\ 0x300 <= 0x380 < 0x2000) /\
  Forall (fun c => In c latin64 \/ 0x380 <= c < 0x380 + 128) [0x3BB; 0x3CC; 0x3B3; 0x3BF; 0x3C2; 0x20; 0x31] /\
  Exists (fun c => 0x380 <= c < 0x380 + 128 /\ ~ 0x410 <= c < 0x450) [0x3BB; 0x3CC; 0x3B3; 0x3BF; 0x3C2; 0x20; 0x31] /\
  length (utfc_encode [0x3BB; 0x3CC; 0x3B3; 0x3BF; 0x3C2; 0x20; 0x31]) = 8%nat /\
  utf8_length [0x3BB; 0x3CC; 0x3B3; 0x3BF; 0x3C2; 0x20; 0x31] = 12%nat.
Proof.
  split; [split; [reflexivity|lia]|]. split.
  { repeat (constructor; [first [right; lia|left; apply latin64_in; reflexivity]|]). constructor. }
  split; [apply Exists_cons_hd; lia|]. split; vm_compute; reflexivity.
Qed.

(** Chinese characters U+4E00-U+9FFF together with [A-Za-z0-9 -]: two bytes for each
    Chinese character, one for each other, and one byte more. *)
Theorem C91_chinese s : Forall (fun c => In c latin64 \/ 0x4E00 <= c < 0xA000) s ->
  Exists (fun c => 0x4E00 <= c < 0xA000) s ->
  length (utfc_encode s) = S (sum_list (map (fun c => if c <? 128 then 1%nat else 2%nat) s)).
Proof.
  intros Hs He.
  assert (Ht : is_text s) by (eapply Forall_impl; [exact Hs|]; cbn; intros c [H|H]; [apply latin64_bound in H|]; lia).
  destruct (written_ex ustate0 s uinv0 Ht) as (bs & q & Hw). rewrite place0 in Hw.
  rewrite (written_encode s bs q Ht Hw), map_length.
  exact (proj1 (written_move _ _ (0, 0, true) cjk_size s bs q cjk_start cjk_there Hs Hw) He).
Qed.
Print Assumptions C91_chinese.
Example C91_chinese_case : Forall (fun c => In c latin64 \/ 0x4E00 <= c < 0xA000) [0x6C49; 0x5B57; 0x31] /\
  Exists (fun c => 0x4E00 <= c < 0xA000) [0x6C49; 0x5B57; 0x31] /\ length (utfc_encode [0x6C49; 0x5B57; 0x31]) = 6%nat.
Proof.
  split. { repeat (constructor; [first [right; lia|left; apply latin64_in; reflexivity]|]). constructor. }
  split; [apply Exists_cons_hd; lia|vm_compute; reflexivity].
Qed.

(** C92: "UTF-C is never longer than UTF-8".  False: the text "ё!" takes four bytes
    in UTF-C and three in UTF-8. *)
Theorem C92_never_longer_refuted : exists s, is_text s /\ (utf8_length s < length (utfc_encode s))%nat.
Proof.
  exists [0x451; 0x21]. split; [repeat constructor; lia|]. 
  change (utf8_length [0x451; 0x21]) with 3%nat. change (length (utfc_encode [0x451; 0x21])) with 4%nat. lia.
Qed.
Print Assumptions C92_never_longer_refuted.

(** C95, what holds: at most four bytes for three bytes of UTF-8. *)
Theorem C95_bound s : is_text s -> (3 * length (utfc_encode s) <= 4 * utf8_length s)%nat.
Proof. exact (encode_utf8_bound s). Qed.
Print Assumptions C95_bound.
Example C92_case : is_text [0x451; 0x21] /\ utf8_length [0x451; 0x21] = 3%nat /\ length (utfc_encode [0x451; 0x21]) = 4%nat.
Proof. split; [repeat constructor; lia|]. split; vm_compute; reflexivity. Qed.

(** No smaller factor will do, for texts of any length. *)
Theorem C95_attained n : exists s, is_text s /\ utf8_length s = (3 * n)%nat /\ length (utfc_encode s) = (4 * n)%nat.
Proof.
  assert (H : exists s, is_text s /\ utf8_length s = (3 * n)%nat /\ length (encs ustate0 s).1 = (4 * n)%nat).
  2: { destruct H as (s & H1 & H2 & H3). exists s. by rewrite encode_encs. }
  induction n as [|n (s & Ht & Hu & He)].
  - exists []. split; [constructor|]. split; reflexivity.
  - exists ([0x451; 0x21] ++ s). split; [|split].
    + apply Forall_app. split; [repeat constructor; lia|done].
    + unfold utf8_length in *. cbn. cbn in Hu. lia.
    + cbn [app]. rewrite !encs_cons. cbn [fst snd]. rewrite !app_length.
      change ((enc1 (enc1 ustate0 1105).2 33).2) with ustate0. rewrite He.
      change (length (enc1 ustate0 1105).1) with 2%nat. change (length (enc1 (enc1 ustate0 1105).2 33).1) with 2%nat. lia.
Qed.
Print Assumptions C95_attained.

(** C93: "UtfcDecode accepts any bytes".  False: it panics when the last character
    is cut off. *)
Theorem C93_any_bytes_refuted : exists bs, Forall (fun b => b < 256)%N bs /\ utfc_decode bs = Panic.
Proof. exists [0x84%N]. split; [repeat constructor; lia|vm_compute; reflexivity]. Qed.
Print Assumptions C93_any_bytes_refuted.

(** C96, exactly: UtfcDecode always ends.  It returns a text, with one character for one
    to three bytes; or it panics, and then at most two bytes at the end are to blame:
    without them it returns a text, and with one or two bytes appended it returns
    that text and one more character. *)
Theorem C96_any_bytes bs :
  (exists t, utfc_decode bs = Ok t /\ is_text t /\ (length t <= length bs <= 3 * length t)%nat) \/
  (utfc_decode bs = Panic /\
   exists pre rest t, bs = pre ++ rest /\ (1 <= length rest <= 2)%nat /\ utfc_decode pre = Ok t /\ is_text t /\
     exists more c, (1 <= length more <= 2)%nat /\ utfc_decode (bs ++ more) = Ok (t ++ [c])).
Proof. exact (loop_any bs ustate0). Qed.
Print Assumptions C96_any_bytes.
Example C93_case : utfc_decode [0x41; 0xA0; 0x4A]%N = Panic /\ utfc_decode [0x41]%N = Ok [0x41] /\
  utfc_decode ([0x41; 0xA0; 0x4A] ++ [0x6B])%N = Ok ([0x41] ++ [0x706B]).
Proof. repeat split; vm_compute; reflexivity. Qed.

(** C94: "the 64 characters of a listed alphabet take one byte after the alphabet has
    been left".  False for two of the entries: Latin-1 (the block U+0080 is never the
    current one, so the entry is never looked up) and Armenian (0x0530 does not start
    a block of 128). *)
Theorem C94_alphabet_kept_refuted :
  exists x c, (exists o a, In (o, a) listed_alphabets /\ o <= x < o + 128 /\ a <= c < a + 64) /\
    length (utfc_encode [x; 0x21; c]) = Nat.add (length (utfc_encode [x; 0x21])) 2.
Proof.
  exists 0x541, 0x541. split; [|vm_compute; reflexivity].
  exists 0x530, 0x531. split; [cbn; auto 10|lia].
Qed.
Print Assumptions C94_alphabet_kept_refuted.
Example C94_latin1 : length (utfc_encode [0xC0; 0x21; 0xC0]) = Nat.add (length (utfc_encode [0xC0; 0x21])) 2.
Proof. vm_compute. reflexivity. Qed.

(** It holds for every other entry. *)
Theorem C94_alphabet_kept_partial o a x c : In (o, a) listed_alphabets -> o <> 0x0080 -> o <> 0x0530 ->
  o <= x < o + 128 -> a <= c < a + 64 ->
  length (utfc_encode [x; 0x21; c]) = Nat.add (length (utfc_encode [x; 0x21])) 1.
Proof.
  intros Ho H1 H2 Hx Hc.
  assert (H : forallb (fun oa : Z * Z => if (oa.1 =? 0x80) || (oa.1 =? 0x530) then true else
      forallb (fun x => forallb (fun c => Nat.eqb (length (utfc_encode [x; 0x21; c])) (S (length (utfc_encode [x; 0x21]))))
        (seqZ oa.2 64)) (seqZ oa.1 128)) listed_alphabets = true) by (vm_compute; reflexivity).
  rewrite forallb_forall in H. specialize (H _ Ho). cbn [fst snd] in H.
  replace ((o =? 0x80) || (o =? 0x530)) with false in H by lia.
  rewrite forallb_forall in H. specialize (H x). rewrite in_seqZ in H. specialize (H Hx).
  rewrite forallb_forall in H. specialize (H c). rewrite in_seqZ in H. specialize (H Hc).
  rewrite Nat.add_1_r. by apply Nat.eqb_eq.
Qed.
Print Assumptions C94_alphabet_kept_partial.
(** Georgian *)
Example C94_case : In (0x1080, 0x10B0) listed_alphabets /\ 0x1080 <= 0x10D0 < 0x1080 + 128 /\ 0x10B0 <= 0x10D0 < 0x10B0 + 64.
Proof. split; [cbn; auto 25|lia]. Qed.

(** The letters of Latin-1 and the blocks up to U+02FF take two bytes wherever they
    stand. *)
Theorem C94_accents s c : is_text s -> 0x80 <= c < 0x300 ->
  length (utfc_encode (s ++ [c])) = (length (utfc_encode s) + 2)%nat.
Proof. exact (accents_two s c). Qed.
Print Assumptions C94_accents.
Example C94_accents_case : is_text [0x63; 0x61; 0x66] /\ utfc_encode ([0x63; 0x61; 0x66] ++ [0xE9]) = [0x63; 0x61; 0x66; 0x80; 0xE9]%N.
Proof. split; [repeat constructor; lia|vm_compute; reflexivity]. Qed.
