(** Lengths of UTF-C texts, from the format. *)
From Verif Require Import Go Utfc UtfcArith UtfcProofs UtfcSpec UtfcFormatSpec UtfcFormat.
Local Open Scope Z_scope.
Local Ltac Zify.zify_post_hook ::= Z.div_mod_to_equations.

Lemma written_encode s bs q : is_text s -> written start s bs q -> utfc_encode s = map Z.to_N bs.
Proof. intros Ht H. rewrite encode_encs, (written_encs ustate0 s bs q uinv0 Ht H). done. Qed.

Lemma latin64_bound c : In c latin64 -> 0 < c < 128.
Proof. unfold latin64. rewrite !in_app_iff, !in_seqZ. cbn [In]. lia. Qed.
Lemma specials_bound c : In c specials -> 0x2000 <= c < 0x1F5F0 /\ ~ (0x4E00 <= c < 0xA000).
Proof. unfold specials. rewrite !in_app_iff, !in_seqZ. lia. Qed.

(** *** Texts whose place does not change *)
Lemma written_stay (P : Z -> Prop) (f : Z -> Z) p s :
  (forall c, P c -> coded p c [f c] p) -> Forall P s -> written p s (map f s) p.
Proof.
  intros Hf Hs. induction Hs as [|c s Hc _ IH]; cbn [map]; [constructor|].
  apply (written_cons p c [f c] p s _ p); auto.
Qed.

Lemma start_ascii c : 1 <= c < 128 -> coded start c [c] start.
Proof.
  intros Hc. replace [c] with (one (c mod 128)).
  - apply coded_block; [unfold second; lia|lia|lia].
  - unfold one. rewrite Z.mod_small by lia. by replace (c =? 0) with false by lia.
Qed.
Lemma start_cyrillic c : 0x410 <= c < 0x450 -> coded start c [0xC0 + (c - 0x410)] start.
Proof. intros Hc. apply coded_near; lia. Qed.

Definition plain (c : Z) : Z := if c <? 128 then c else 0xC0 + (c - 0x410).
Lemma russian_written s : Forall (fun c => 1 <= c < 128 \/ 0x410 <= c < 0x450) s ->
  written start s (map plain s) start.
Proof.
  apply written_stay. intros c [Hc|Hc]; unfold plain.
  - replace (c <? 128) with true by lia. by apply start_ascii.
  - replace (c <? 128) with false by lia. by apply start_cyrillic.
Qed.

(** *** Counting bytes with a cost that depends on the place *)
Lemma written_cost (P : Z -> Prop) (I : place -> Prop) (pot : place -> nat) (w : Z -> nat) p s bs q k :
  (forall p c b q, I p -> P c -> coded p c b q -> I q /\ (k * length b + pot q <= w c + pot p)%nat) ->
  I p -> Forall P s -> written p s bs q -> (k * length bs + pot q <= sum_list (map w s) + pot p)%nat.
Proof.
  intros Hstep Hi Hs Hw. induction Hw as [p|p c b q s bs r Hc Hw IH]; [cbn; lia|].
  inversion Hs as [|? ? HP Hs']; subst. destruct (Hstep _ _ _ _ Hi HP Hc) as [Hq Hk].
  specialize (IH Hq Hs'). rewrite app_length. cbn [map sum_list fmap list_fmap]. cbn. lia.
Qed.
Lemma written_exact (P : Z -> Prop) (I : place -> Prop) (pot : place -> nat) (w : Z -> nat) p s bs q :
  (forall p c b q, I p -> P c -> coded p c b q -> I q /\ (length b + pot q = w c + pot p)%nat) ->
  I p -> Forall P s -> written p s bs q -> I q /\ (length bs + pot q = sum_list (map w s) + pot p)%nat.
Proof.
  intros Hstep Hi Hs Hw. induction Hw as [p|p c b q s bs r Hc Hw IH]; [cbn; auto|].
  inversion Hs as [|? ? HP Hs']; subst. destruct (Hstep _ _ _ _ Hi HP Hc) as [Hq Hk].
  destruct (IH Hq Hs') as [? ?]. split; [done|]. rewrite app_length. cbn. lia.
Qed.

Lemma length_one x : length (one x) = 1%nat.
Proof. unfold one. by destruct (_ =? _). Qed.
Lemma length_two m x : length (two m x) = 2%nat.
Proof. unfold two. by destruct (_ =? _). Qed.
Lemma length_both x y : (length (both x y) <= 2)%nat /\ (x <> 0 -> length (both x y) = 2%nat).
Proof. unfold both. destruct (Z.eqb_spec x 0), (Z.eqb_spec y 0); cbn; split; lia || done. Qed.
Lemma length_three m x y : (length (three m x y) <= 3)%nat /\ (x <> 0 -> length (three m x y) = 3%nat).
Proof. unfold three. destruct (Z.eqb_spec x 0), (Z.eqb_spec y 0); cbn; split; lia || done. Qed.

(** *** Not longer than 4/3 of UTF-8 *)
Definition away (p : place) : nat := if p.2 || negb (p.1.1 =? 0) then 2 else 0.

Lemma away_step p c b q : 0 <= p.1.1 -> 0 <= c <= 0x10FFFF -> coded p c b q ->
  0 <= q.1.1 /\ (3 * length b + away q <= 4 * utf8_size c + away p)%nat.
Proof.
  intros Hp Hc H. 
  assert (Hsize : (1 <= utf8_size c)%nat /\ (0x80 <= c -> (2 <= utf8_size c)%nat) /\ (0x800 <= c -> (3 <= utf8_size c)%nat)).
  { unfold utf8_size. repeat match goal with |- context [if ?x then _ else _] => destruct x eqn:? end; lia. }
  destruct Hsize as (Hs1 & Hs2 & Hs3).
  destruct H as [b0 w0 c i Hl|b0 a0 w0 c H1 H2|b0 a0 c H1 H2 H3|b0 a0 w0 c n H1 H2 H3 H4|b0 a0 w0 c n a' H1 H2 H3 H4 H5|
     b0 a0 c v H1 H2 H3 H4|b0 a0 w0 c v H1 H2 H3 H4 H5|b0 a0 w0 c a' H1 H2 H3 H4 H5]; cbn [fst snd] in *;
   rewrite ?length_one, ?length_two; cbn [length].
  - split; [done|]. lia.
  - split; [done|]. lia.
  - split; [done|]. lia.
  - apply elem_of_list_lookup_2, elem_of_list_In, specials_bound in H3. split; [done|]. lia.
  - split; [lia|]. unfold away. cbn [fst snd]. destruct (_ || _), (_ || _); lia.
  - pose proof (proj1 (length_both (v / 256 mod 128) (v mod 256))). split; [done|]. lia.
  - pose proof (proj1 (length_three (160 + v / 65536) (v / 256 mod 256) (v mod 256))). split; [lia|].
    unfold away. cbn [fst snd]. destruct (_ || _), (_ || _); lia.
  - split; [destruct (_ <? _); lia|]. unfold away. cbn [fst snd orb].
    destruct (Z.ltb_spec c 0x300) as [Hl|Hl]; [|cbn [negb]; replace (c - c mod 128 =? 0) with false by lia; cbn [negb];
       destruct (_ || _); lia].
    cbn [Z.eqb negb]. destruct (Z.lt_ge_cases c 0x80); [|destruct (_ || _); lia].
    destruct w0; cbn [orb]; [lia|]. destruct (Z.eqb_spec b0 0) as [->|]; cbn [negb]; [|lia].
    exfalso. apply H4. split; [done|]. lia.
Qed.

Lemma sum_mul k (f : Z -> nat) s : sum_list (map (fun c => (k * f c)%nat) s) = (k * sum_list (map f s))%nat.
Proof. induction s as [|c s IH]; cbn; [lia|]. cbn in IH. lia. Qed.

Lemma encode_utf8_bound s : is_text s -> (3 * length (utfc_encode s) <= 4 * utf8_length s)%nat.
Proof.
  intros Ht. destruct (written_ex ustate0 s uinv0 Ht) as (bs & q & Hw). rewrite place0 in Hw.
  rewrite (written_encode s bs q Ht Hw), map_length.
  pose proof (written_cost (fun c => 0 <= c <= 0x10FFFF) (fun p => 0 <= p.1.1) away (fun c => (4 * utf8_size c)%nat)
    start s bs q 3 away_step) as H. rewrite sum_mul in H. unfold utf8_length.
  assert (Hf : Forall (fun c => 0 <= c <= 0x10FFFF) s) by (eapply Forall_impl; [exact Ht|]; cbn; tauto).
  specialize (H ltac:(cbn; lia) Hf Hw). change (away start) with 0%nat in H. lia.
Qed.

(** *** Texts in Latin letters with accents *)
Lemma accents_step p c b q :
  (p.1.1 = 0 /\ p.2 = false /\ (p.1.2 = 0 \/ p.1.2 = 0x410)) -> 0 <= c < 0x300 -> coded p c b q ->
  (q.1.1 = 0 /\ q.2 = false /\ (q.1.2 = 0 \/ q.1.2 = 0x410)) /\ (length b + 0 = (if (c <? 0x80)%Z then 1 else 2) + 0)%nat.
Proof.
  intros (Hp1 & Hp2 & Hp3) Hc H.
  destruct H as [b0 w0 c i Hl|b0 a0 w0 c H1 H2|b0 a0 c H1 H2 H3|b0 a0 w0 c n H1 H2 H3 H4|b0 a0 w0 c n a' H1 H2 H3 H4 H5|
     b0 a0 c v H1 H2 H3 H4|b0 a0 w0 c v H1 H2 H3 H4 H5|b0 a0 w0 c a' H1 H2 H3 H4 H5]; cbn [fst snd] in *; subst;
   rewrite ?length_one, ?length_two; cbn [length].
  - apply elem_of_list_lookup_2, elem_of_list_In, latin64_bound in Hl. split; [done|]. destruct (Z.ltb_spec c 128); lia.
  - lia.
  - split; [lia|]. destruct (Z.ltb_spec c 128); lia.
  - apply elem_of_list_lookup_2, elem_of_list_In, specials_bound in H3. lia.
  - lia.
  - done.
  - lia.
  - apply kept_aux in H5; [|done]. subst a'. replace (c <? 0x300) with true by lia.
    split; [split; [done|]; split; [done|by left]|]. destruct (Z.ltb_spec c 128); [|done].
    exfalso. apply H4. split; [done|lia].
Qed.

(** *** Texts that leave the start once *)
Lemma written_move (P Q : Z -> Prop) there (w : Z -> nat) s bs q :
  (forall c b q, P c -> coded start c b q ->
    (~ Q c /\ q = start /\ length b = w c) \/ (Q c /\ q = there /\ length b = S (w c))) ->
  (forall c b q, P c -> coded there c b q -> q = there /\ length b = w c) ->
  Forall P s -> written start s bs q ->
  (Exists Q s -> length bs = S (sum_list (map w s))) /\ (~ Exists Q s -> length bs = sum_list (map w s)).
Proof.
  intros H0 H1 Hs Hw.
  assert (Hthere : forall s bs q, Forall P s -> written there s bs q -> length bs = sum_list (map w s)).
  { clear -H1. intros s bs q Hs Hw. remember there as p eqn:Ep.
    induction Hw as [p|p c b q s bs r Hc Hw IH]; [done|]. subst p.
    inversion Hs; subst. destruct (H1 _ _ _ ltac:(done) Hc) as [-> Hb]. rewrite app_length, Hb, IH by done. done. }
  remember start as p eqn:Ep. induction Hw as [p|p c b q s bs r Hc Hw IH].
  - split; [intros H; by apply Exists_nil in H|done].
  - subst p. inversion Hs as [|? ? HP Hs']; subst. rewrite app_length. rewrite Exists_cons.
    destruct (H0 _ _ _ HP Hc) as [(HQ & -> & Hb)|(HQ & -> & Hb)].
    + destruct (IH eq_refl H0 Hs') as [IH1 IH2]. rewrite Hb. change (map w (c :: s)) with (w c :: map w s).
      change (sum_list (w c :: map w s)) with (w c + sum_list (map w s))%nat.
      split; intros HE; [destruct HE as [HE|HE]; [done|]; rewrite IH1 by done; lia|].
      rewrite IH2 by tauto. done.
    + rewrite Hb, (Hthere _ _ _ Hs' Hw). split; [intros _; done|tauto].
Qed.

Lemma alphabet_start B c b q : B mod 128 = 0 -> 0x300 <= B < 0x2000 -> (In c latin64 \/ B <= c < B + 128) ->
  coded start c b q ->
  (~ (B <= c < B + 128 /\ ~ 0x410 <= c < 0x450) /\ q = start /\ length b = 1%nat) \/
  ((B <= c < B + 128 /\ ~ 0x410 <= c < 0x450) /\ q = (B, 0, false) /\ length b = 2%nat).
Proof.
  intros HB HB' HP Hc. unfold start in Hc.
  inversion Hc as [b0 w0 c0 i Hl|b0 a0 w0 c0 H1 H2|b0 a0 c0 H1 H2 H3|b0 a0 w0 c0 n H1 H2 H3 H4|b0 a0 w0 c0 n a' H1 H2 H3 H4 H5|
     b0 a0 c0 v H1 H2 H3 H4|b0 a0 w0 c0 v H1 H2 H3 H4 H5|b0 a0 w0 c0 a' H1 H2 H3 H4 H5]; subst;
   rewrite ?length_one, ?length_two.
  - left. split; [lia|]. done.
  - left. split; [lia|]. done.
  - apply elem_of_list_lookup_2, elem_of_list_In, specials_bound in H3.
    destruct HP as [HP|HP]; [apply latin64_bound in HP|]; lia.
  - destruct HP as [HP|HP]; [apply latin64_bound in HP|]; lia.
  - destruct HP as [HP|HP]; [apply latin64_bound in HP|]; lia.
  - destruct HP as [HP|HP].
    + apply latin64_bound in HP. exfalso. apply H4. split; [done|lia].
    + right. assert (~ 0x410 <= c < 0x450) by (intros ?; apply H1; right; lia).
      apply kept_aux in H5; [|done]. subst a'. split; [done|]. split; [|done].
      replace (c <? 0x300) with false by lia. f_equal. f_equal. lia.
Qed.
Lemma alphabet_there B c b q : B mod 128 = 0 -> 0x300 <= B < 0x2000 -> (In c latin64 \/ B <= c < B + 128) ->
  coded (B, 0, false) c b q -> q = (B, 0, false) /\ length b = 1%nat.
Proof.
  intros HB HB' HP Hc.
  inversion Hc as [b0 w0 c0 i Hl|b0 a0 w0 c0 H1 H2|b0 a0 c0 H1 H2 H3|b0 a0 w0 c0 n H1 H2 H3 H4|b0 a0 w0 c0 n a' H1 H2 H3 H4 H5|
     b0 a0 c0 v H1 H2 H3 H4|b0 a0 w0 c0 v H1 H2 H3 H4 H5|b0 a0 w0 c0 a' H1 H2 H3 H4 H5]; subst;
   rewrite ?length_one, ?length_two; try done; exfalso;
   (destruct HP as [HP|HP]; [apply H1; by left|]).
  - apply elem_of_list_lookup_2, elem_of_list_In, specials_bound in H3. lia.
  - lia.
  - lia.
  - apply H4. split; [done|]. lia.
Qed.

Definition cjk (c : Z) : Prop := 0x4E00 <= c < 0xA000.
Definition cjk_size (c : Z) : nat := if c <? 128 then 1 else 2.

Lemma cjk_start c b q : (In c latin64 \/ cjk c) -> coded start c b q ->
  (~ cjk c /\ q = start /\ length b = cjk_size c) \/ (cjk c /\ q = (0, 0, true) /\ length b = S (cjk_size c)).
Proof.
  intros HP Hc. unfold start in Hc. unfold cjk, cjk_size in *.
  inversion Hc as [b0 w0 c0 i Hl|b0 a0 w0 c0 H1 H2|b0 a0 c0 H1 H2 H3|b0 a0 w0 c0 n H1 H2 H3 H4|b0 a0 w0 c0 n a' H1 H2 H3 H4 H5|
     b0 a0 c0 v H1 H2 H3 H4|b0 a0 w0 c0 v H1 H2 H3 H4 H5|b0 a0 w0 c0 a' H1 H2 H3 H4 H5]; subst;
   rewrite ?length_one, ?length_two.
  - exfalso. destruct HP as [HP|HP]; [apply latin64_bound in HP|]; lia.
  - left. split; [lia|]. split; [done|]. replace (c <? 128) with true by lia. done.
  - exfalso. apply elem_of_list_lookup_2, elem_of_list_In, specials_bound in H3.
    destruct HP as [HP|HP]; [apply latin64_bound in HP|]; lia.
  - exfalso. destruct HP as [HP|HP]; [apply latin64_bound in HP|]; lia.
  - destruct HP as [HP|HP]; [apply latin64_bound in HP; lia|]. right. split; [done|].
    replace (c <? 128) with false by lia. split; [f_equal; f_equal; lia|].
    apply length_three. lia.
  - exfalso. destruct HP as [HP|HP]; [|lia]. apply latin64_bound in HP. apply H4. split; [done|lia].
Qed.
Lemma cjk_there c b q : (In c latin64 \/ cjk c) -> coded (0, 0, true) c b q ->
  q = (0, 0, true) /\ length b = cjk_size c.
Proof.
  intros HP Hc. unfold cjk, cjk_size in *.
  inversion Hc as [b0 w0 c0 i Hl|b0 a0 w0 c0 H1 H2|b0 a0 c0 H1 H2 H3|b0 a0 w0 c0 n H1 H2 H3 H4|b0 a0 w0 c0 n a' H1 H2 H3 H4 H5|
     b0 a0 c0 v H1 H2 H3 H4|b0 a0 w0 c0 v H1 H2 H3 H4 H5|b0 a0 w0 c0 a' H1 H2 H3 H4 H5]; subst;
   rewrite ?length_one, ?length_two; try done;
   try (destruct HP as [HP|HP]; [exfalso; apply H1; by left|]).
  - apply elem_of_list_lookup_2, elem_of_list_In, latin64_bound in Hl. replace (c <? 128) with true by lia. done.
  - exfalso. apply elem_of_list_lookup_2, elem_of_list_In, specials_bound in H3. lia.
  - exfalso. lia.
  - split; [done|]. replace (c <? 128) with false by lia. apply length_both. lia.
  - exfalso. apply H5. split; [done|lia].
  - exfalso. lia.
Qed.

(** *** Letters with accents never get a one-byte form *)
Definition never_low (p : place) : Prop :=
  (p.1.1 = 0 \/ 0x300 <= p.1.1) /\ (p.1.2 = 0 \/ 0x300 <= p.1.2) /\ p.1.1 mod 128 = 0.
Lemma kept_low b a : b mod 128 = 0 -> (b = 0 \/ 0x300 <= b) -> kept b a -> a = 0 \/ 0x300 <= a.
Proof.
  intros Hm Hb [H|[_ ->]]; [|done]. unfold alphabets in H. cbn [In] in H.
  repeat (destruct H as [H|H]; [injection H as <- <-; lia|]). done.
Qed.
Lemma never_low_step p c b q : never_low p -> 0 <= c <= 0x10FFFF -> coded p c b q -> 
  never_low q /\ (0x80 <= c < 0x300 -> length b = 2%nat).
Proof.
  unfold never_low. intros (Hp1 & Hp2 & Hp3) Hc H.
  destruct H as [b0 w0 c i Hl|b0 a0 w0 c H1 H2|b0 a0 c H1 H2 H3|b0 a0 w0 c n H1 H2 H3 H4|b0 a0 w0 c n a' H1 H2 H3 H4 H5|
     b0 a0 c v H1 H2 H3 H4|b0 a0 w0 c v H1 H2 H3 H4 H5|b0 a0 w0 c a' H1 H2 H3 H4 H5]; cbn [fst snd] in *;
   rewrite ?length_two.
  - apply elem_of_list_lookup_2, elem_of_list_In, latin64_bound in Hl. split; [done|lia].
  - split; [done|lia].
  - split; [done|lia].
  - done.
  - apply kept_low in H5; [|done|done]. split; [lia|done].
  - split; [done|lia].
  - split; [lia|lia].
  - apply kept_low in H5; [|done|done]. split; [|done]. destruct (c <? 768) eqn:E; lia.
Qed.
Lemma accents_two s c : is_text s -> 0x80 <= c < 0x300 ->
  length (utfc_encode (s ++ [c])) = (length (utfc_encode s) + 2)%nat.
Proof.
  intros Ht Hc. destruct (written_ex ustate0 s uinv0 Ht) as (bs & q & Hw).
  pose proof (written_encs _ _ _ _ uinv0 Ht Hw) as He. rewrite place0 in Hw.
  assert (Hq : never_low q).
  { assert (H0 : never_low start) by (unfold never_low; cbn; lia). clear He.
    induction Hw as [p|p d b q s bs r Hd Hw IH]; [done|]. inversion Ht as [|? ? [Hd' _] Ht']; subst.
    apply (IH Ht'). by apply (never_low_step p d b q). }
  rewrite !encode_encs. rewrite encs_app, He. cbn [fst snd]. rewrite encs_cons. cbn [encs fst snd].
  rewrite app_nil_r, app_length. f_equal.
  assert (Hu : uinv (mkU q.1.1 q.1.2 q.2)).
  { replace (mkU q.1.1 q.1.2 q.2) with (encs ustate0 s).2 by (by rewrite He).
    clear -Ht. revert Ht. generalize uinv0. generalize ustate0. induction s as [|d s IH]; intros st Hu Ht; [done|].
    inversion Ht as [|? ? [Hd _] Ht']; subst. rewrite encs_cons. cbn [snd]. apply IH; [|done]. by apply enc1_uinv. }
  destruct (coded_ex _ c Hu ltac:(lia)) as (b & q' & Hq').
  assert (Hc' : 0 <= c <= 0x10FFFF) by lia. rewrite (coded_enc1 _ _ _ _ Hu Hc' Hq'). cbn [fst]. rewrite map_length.
  assert (Hn : never_low (place_of (mkU q.1.1 q.1.2 q.2))) by (destruct q as [[? ?] ?]; exact Hq).
  by apply (never_low_step _ c b q' Hn Hc').
Qed.
