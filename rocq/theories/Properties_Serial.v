(** Properties C31-C35, C70 and C71 of Read and Write in dictionary.go, guide.go,
    ranked_guide.go and index.go. *)
From Verif Require Import Go Dawg DawgSpec Dict DictSpec DictThms Guide GuideSpec GuideThms Index Ranked RankedSpec LinkTableProofs Serial SerialProofs SerialRange Properties_Dict Properties_Completer Properties_Index Properties_Ranked.
Local Open Scope N_scope.
Local Arguments N.mul : simpl never.
Local Arguments N.add : simpl never.
Local Arguments N.of_nat : simpl never.
Local Ltac by_vm := lazymatch goal with |- _ /\ _ => split; [vm_compute; reflexivity|by_vm] | _ => vm_compute; reflexivity end.

(** The file format, without reference to the model: little-endian numbers, the
    number of units first. *)
Fixpoint le (n : nat) (x : N) : list N := match n with O => [] | S n' => x mod 256 :: le n' (x / 256) end.
Definition words_bytes (us : list N) : list N := le 4 (N.of_nat (length us)) ++ flat_map (le 4) us.
Definition pairs_bytes (g : list (N * N)) : list N := le 4 (N.of_nat (length g)) ++ flat_map (fun u => [u.1; u.2]) g.
(** What a []uint32 or []GuideUnit with at most 2^32-1 elements is. *)
Definition words (us : list N) : Prop := N.of_nat (length us) < 4294967296 /\ Forall (fun u => u < 4294967296) us.
Definition pairs (g : list (N * N)) : Prop := N.of_nat (length g) < 4294967296 /\ Forall (fun u => u.1 < 256 /\ u.2 < 256) g.

Lemma put32_le x : put32 x = le 4 x.
Proof. unfold put32. rewrite !mod_shift. unfold u8. cbn [le]. rewrite !N.div_div by done. done. Qed.
Lemma words_image us : words us -> put32 (len32 us) ++ flat_map put32 us = words_bytes us.
Proof.
  intros [Hl _]. unfold words_bytes. rewrite put32_le. unfold len32. rewrite u32_id by exact Hl. f_equal. apply flat_map_ext. apply put32_le.
Qed.
Lemma pairs_image g : pairs g -> put32 (len32 g) ++ flat_map putgu g = pairs_bytes g.
Proof.
  intros [Hl Hf]. unfold pairs_bytes. rewrite put32_le. unfold len32. rewrite u32_id by exact Hl. f_equal. clear Hl.
  induction Hf as [|[c s] g [Hc Hs] _ IH]; [done|]. cbn [flat_map]. rewrite IH. unfold putgu, u8. cbn [fst snd] in *. by rewrite !N.mod_small.
Qed.

Local Notation W := codec32.
Local Notation P := codecgu.

(** The sizes, an unhindered Write, and Read of what it wrote. *)
Definition round_trip {A} (bs : list A -> list N) (size : list A -> Z) (write : list A -> writer -> bool * writer) (read : list A -> reader -> res (bool * list A * reader))
    (new : reader -> res (option (list A) * reader)) (x : list A) : Prop :=
  Z.of_nat (length (bs x)) = size x /\
  (forall out, write x (out, []) = (true, (out ++ bs x, []))) /\
  forall self r rest, concat r = bs x ++ rest -> exists r', read self r = Ok (true, x, r') /\ new r = Ok (Some x, r') /\ concat r' = rest.
(** ** C31 *)
Theorem C31_dictionary d : words d -> round_trip words_bytes dict_FileSize dict_Write dict_Read ReadDictionary d.
Proof.
  intros Hd. pose proof (words_image d Hd) as Hi. destruct Hd as [Hl Hf]. split; [|split].
  - rewrite <- Hi, (image_len _ _ _ _ W). unfold dict_FileSize, dict_TotalSize. lia.
  - intros out. unfold dict_Write, units_Write, io_Write. cbn [fst snd]. by rewrite <- app_assoc, Hi.
  - intros self r rest Hr. rewrite <- Hi in Hr. destruct (units_Read_image 4 put32 get32 _ W self d rest r Hl Hf Hr) as (r1 & E1 & H1).
    exists r1. split; [exact E1|]. split; [|exact H1]. by apply (units_new_of 4 get32 self).
Qed.
Print Assumptions C31_dictionary.
Theorem C31_built h us : hist_ok h -> made h us -> words us.
Proof.
  intros Hh (sz & d0 & un & Hsz & Hb). destruct (size_facts sz h d0 Hsz Hh) as (r & Hr & _ & Hx). rewrite Hb in Hr. injection Hr as <-.
  destruct (Hx _ _ eq_refl) as [(_ & Hl & Hf) _]. split; [lia|exact Hf].
Qed.
Print Assumptions C31_built.
Example C31_case : words [7; 4294967295] /\ words_bytes [7; 4294967295] = [2; 0; 0; 0; 7; 0; 0; 0; 255; 255; 255; 255] /\
  dict_Read [] [[2; 0]; []; [0; 0; 7; 0; 0; 0; 255]; [255; 255; 255; 9]; [8]] = Ok (true, [7; 4294967295], [[9]; [8]]) /\ made dex_h (dict_of dex_h).
Proof. split; [split; [done|by repeat (apply Forall_cons; split; [done|])]|]. split; [by_vm|]. split; [by_vm|]. eapply dict_of_made. by vm_compute. Qed.

(** ** C32 *)
Theorem C32_guide g : pairs g -> round_trip pairs_bytes guide_FileSize guide_Write guide_Read ReadGuide g.
Proof.
  intros Hd. pose proof (pairs_image g Hd) as Hi. destruct Hd as [Hl Hf]. split; [|split].
  - rewrite <- Hi, (image_len _ _ _ _ P). unfold guide_FileSize, guide_TotalSize. lia.
  - intros out. unfold guide_Write, units_Write, io_Write. cbn [fst snd]. by rewrite <- app_assoc, Hi.
  - intros self r rest Hr. rewrite <- Hi in Hr. destruct (units_Read_image 2 putgu getgu _ P self g rest r Hl Hf Hr) as (r1 & E1 & H1).
    exists r1. split; [exact E1|]. split; [|exact H1]. by apply (units_new_of 2 getgu self).
Qed.
Print Assumptions C32_guide.
Theorem C32_ranked_guide g : pairs g -> round_trip pairs_bytes rguide_FileSize rguide_Write rguide_Read ReadRankedGuide g.
Proof. exact (C32_guide g). Qed.
Print Assumptions C32_ranked_guide.
Theorem C32_index ix : words ix -> round_trip words_bytes index_FileSize index_Write index_Read ReadIndex ix.
Proof.
  intros Hd. pose proof (words_image ix Hd) as Hi. destruct Hd as [Hl Hf]. split; [|split].
  - rewrite <- Hi, (image_len _ _ _ _ W). unfold index_FileSize, index_TotalSize. lia.
  - intros out. unfold index_Write, units_Write, io_Write. cbn [fst snd]. by rewrite <- app_assoc, Hi.
  - intros self r rest Hr. rewrite <- Hi in Hr. destruct (units_ReadInPlace_image 4 put32 get32 0 _ W self ix rest r Hl Hf Hr) as (r1 & E1 & H1).
    exists r1. split; [exact E1|]. split; [|exact H1]. by apply (units_newInPlace_of 4 get32 0 self).
Qed.
Print Assumptions C32_index.
Lemma made_dawg_made h d us : made_dawg h d us -> made h us.
Proof. intros (sz & d0 & rs & un & Hs & Hb & Hd). exists sz, d0, un. split; [done|]. unfold build_dict. rewrite Hb. cbn [mbind res_bind]. exact Hd. Qed.
Theorem C32_built h us g ix : hist_ok h -> made_guide h us g \/ (exists cmp, made_ranked cmp h us g) -> words us /\ pairs g /\ (BuildIndex us g = Ok (Some ix) -> words ix).
Proof.
  intros Hh Hm. assert (exists d, made_dawg h d us /\ length g = (if decide (accepted h = []) then 0%nat else length us) /\ Forall gu_ok g) as (d & Hd & Hl & Hf).
  { destruct Hm as [(d & Hd & Hg)|(cmp & d & sort & Hso & Hd & Hg)]; exists d; (split; [done|]).
    - destruct (C40_guide_built h d us Hh Hd) as (g' & Hg' & Hl). rewrite Hg in Hg'. injection Hg' as <-. split; [done|]. by apply (BuildGuide_bytes d us).
    - destruct (C68_ranked_built sort cmp h d us Hso Hh Hd) as (g' & Hg' & Hl). rewrite Hg in Hg'. injection Hg' as <-. split; [done|]. apply (BuildRankedGuideCmp_bytes sort cmp (proj1 Hso) d us g Hg). }
  pose proof (C31_built h us Hh (made_dawg_made h d us Hd)) as Hw. split; [done|]. split.
  - split; [|exact Hf]. destruct Hw as [Hw _]. rewrite Hl. destruct (decide _); [done|exact Hw].
  - intros Hi. split; [|by apply (BuildIndex_bytes us g)]. rewrite (BuildIndex_len us g ix Hi). apply Hw.
Qed.
Print Assumptions C32_built.
(** A file with the three one after the other. *)
Theorem C32_file d g ix r rest : words d -> pairs g -> words ix -> concat r = words_bytes d ++ pairs_bytes g ++ words_bytes ix ++ rest ->
  exists r1 r2 r3, ReadDictionary r = Ok (Some d, r1) /\ ReadGuide r1 = Ok (Some g, r2) /\ ReadIndex r2 = Ok (Some ix, r3) /\ concat r3 = rest.
Proof.
  intros Hd Hg Hi Hr. destruct (C31_dictionary d Hd) as (_ & _ & H1). destruct (C32_guide g Hg) as (_ & _ & H2). destruct (C32_index ix Hi) as (_ & _ & H3).
  destruct (H1 [] r _ Hr) as (r1 & _ & E1 & Hr1). destruct (H2 [] r1 _ Hr1) as (r2 & _ & E2 & Hr2). destruct (H3 [] r2 _ Hr2) as (r3 & _ & E3 & Hr3). by exists r1, r2, r3.
Qed.
Print Assumptions C32_file.
Example C32_case : pairs [(97, 0); (255, 3)] /\ pairs_bytes [(97, 0); (255, 3)] = [2; 0; 0; 0; 97; 0; 255; 3] /\
  made_guide dex_h (guide_of dex_h).1 (guide_of dex_h).2 /\ made_ranked Z.ltb rex_h (ranked_of Z.ltb rex_h).1 (ranked_of Z.ltb rex_h).2 /\
  exists ix, BuildIndex (guide_of dex_h).1 (guide_of dex_h).2 = Ok (Some ix).
Proof.
  split; [split; [done|by repeat (apply Forall_cons; split; [done|])]|]. split; [by_vm|]. split; [apply guide_of_made; by vm_compute|]. split; [apply ranked_of_made; by vm_compute|].
  eexists. vm_compute. reflexivity.
Qed.

(** ** C33.  Strict prefixes are refused. *)
Theorem C33_dictionary d n self r : words d -> (n < length (words_bytes d))%nat -> concat r = take n (words_bytes d) ->
  dict_Read self r = Ok (false, self, []) /\ ReadDictionary r = Ok (None, []).
Proof.
  intros Hd Hn Hr. rewrite <- (words_image d Hd) in Hn, Hr. pose proof (prefix_short 4 put32 get32 _ W d n r (proj1 Hd) Hn Hr) as Hs.
  assert (E : forall self, dict_Read self r = Ok (false, self, [])) by (intros s; apply units_Read_short; destruct Hs as [Hs|Hs]; [by left|right; by eexists]).
  split; [done|]. unfold ReadDictionary, units_new. by rewrite E.
Qed.
Print Assumptions C33_dictionary.
Theorem C33_guide g n self r : pairs g -> (n < length (pairs_bytes g))%nat -> concat r = take n (pairs_bytes g) ->
  guide_Read self r = Ok (false, self, []) /\ ReadGuide r = Ok (None, []) /\ rguide_Read self r = Ok (false, self, []) /\ ReadRankedGuide r = Ok (None, []).
Proof.
  intros Hd Hn Hr. rewrite <- (pairs_image g Hd) in Hn, Hr. pose proof (prefix_short 2 putgu getgu _ P g n r (proj1 Hd) Hn Hr) as Hs.
  assert (E : forall self, guide_Read self r = Ok (false, self, [])) by (intros s; apply units_Read_short; destruct Hs as [Hs|Hs]; [by left|right; by eexists]).
  unfold ReadGuide, ReadRankedGuide, units_new. change rguide_Read with guide_Read. by rewrite !E.
Qed.
Print Assumptions C33_guide.
Theorem C33_index ix n self r : words ix -> (n < length (words_bytes ix))%nat -> concat r = take n (words_bytes ix) ->
  (exists self', index_Read self r = Ok (false, self', [])) /\ ReadIndex r = Ok (None, []).
Proof.
  intros Hd Hn Hr. rewrite <- (words_image ix Hd) in Hn, Hr. pose proof (prefix_short 4 put32 get32 _ W ix n r (proj1 Hd) Hn Hr) as Hs.
  assert (E : forall self, exists self', index_Read self r = Ok (false, self', [])).
  { intros s. destruct Hs as [Hs|(Hg & H4 & Hb)]; eexists; [by apply units_ReadInPlace_head|by eapply units_ReadInPlace_body]. }
  split; [done|]. unfold ReadIndex, units_new. destruct (E []) as [s Es]. by rewrite Es.
Qed.
Print Assumptions C33_index.
Example C33_case : words [7; 300] /\ (11 < length (words_bytes [7%N; 300%N]))%nat /\ dict_Read [5] [take 11 (words_bytes [7; 300])] = Ok (false, [5], []).
Proof. split; [split; [done|by repeat (apply Forall_cons; split; [done|])]|]. split; [vm_compute; lia|by_vm]. Qed.

(** ** C34.  A failed Read keeps the receiver, except for Index. *)
Theorem C34_receiver_kept :
  (forall self r self' r', dict_Read self r = Ok (false, self', r') -> self' = self) /\
  (forall self r self' r', guide_Read self r = Ok (false, self', r') -> self' = self) /\
  (forall self r self' r', rguide_Read self r = Ok (false, self', r') -> self' = self).
Proof.
  assert (E : forall A k (geta : list N -> res A) self r self' r', units_Read k geta self r = Ok (false, self', r') -> self' = self).
  { intros A k geta self r self' r'. unfold units_Read. destruct (binary_ReadBase r) as [[[a|] r0]| |]; cbn [mbind res_bind]; [|by intros [= -> _]|done|done].
    destruct (binary_Read k geta (N.to_nat a) r0) as [[[b|] r1]| |]; cbn [mbind res_bind]; [done|by intros [= -> _]|done|done]. }
  split; [|split]; intros self r self' r'; apply E.
Qed.
Print Assumptions C34_receiver_kept.
Theorem C34_index_refuted : exists self r self' r', index_Read self r = Ok (false, self', r') /\ self' <> self.
Proof. exists [5; 6], [[1; 0; 0; 0; 9]], [0], []. split; [by vm_compute|done]. Qed.
Print Assumptions C34_index_refuted.
Example C34_case : dict_Read [5; 6] [[1; 0; 0; 0; 9]] = Ok (false, [5; 6], []).
Proof. by_vm. Qed.

(** ** C71.  What a failed Index.Read leaves. *)
Theorem C71_index_failed self r self' r' : bytes (concat r) -> index_Read self r = Ok (false, self', r') ->
  ((length (concat r) < 4)%nat /\ self' = self) \/ exists n rest, n < 4294967296 /\ concat r = le 4 n ++ rest /\ self' = replicate (N.to_nat n) 0.
Proof.
  intros Hb H. destruct (units_ReadInPlace_any 4 put32 get32 0 _ W self r Hb) as [(l & r1 & E & _)|[[Hl E]|(a & rest & Ha & Hr & E)]]; unfold index_Read in H; rewrite E in H.
  - done.
  - left. injection H as <- _. done.
  - right. injection H as <- _. exists a, rest. by rewrite <- put32_le.
Qed.
Print Assumptions C71_index_failed.
Example C71_case : index_Read [5; 6] [[3; 0]; [0; 0; 1; 1]] = Ok (false, [0; 0; 0], []) /\ index_Read [5; 6] [[3; 0]; [0]] = Ok (false, [5; 6], []).
Proof. by_vm. Qed.

(** ** C70.  On any bytes Read does not panic, and what it accepts is what Write
    would have written. *)
Theorem C70_dictionary self r : bytes (concat r) -> exists ok d r', dict_Read self r = Ok (ok, d, r') /\ (ok = true -> words d /\ concat r = words_bytes d ++ concat r').
Proof.
  intros Hb. destruct (units_Read_any 4 put32 get32 _ W self r Hb) as [(l & r1 & E & Hl & Hf & Hr)|E]; eexists _, _, _; (split; [exact E|]); [|done].
  intros _. assert (Hw : words l) by (split; done). split; [done|]. by rewrite <- words_image.
Qed.
Print Assumptions C70_dictionary.
Theorem C70_guide self r : bytes (concat r) -> exists ok g r', guide_Read self r = Ok (ok, g, r') /\ rguide_Read self r = Ok (ok, g, r') /\ (ok = true -> pairs g /\ concat r = pairs_bytes g ++ concat r').
Proof.
  intros Hb. destruct (units_Read_any 2 putgu getgu _ P self r Hb) as [(l & r1 & E & Hl & Hf & Hr)|E]; eexists _, _, _; (split; [exact E|]); (split; [exact E|]); [|done].
  intros _. assert (Hw : pairs l) by (split; done). split; [done|]. by rewrite <- pairs_image.
Qed.
Print Assumptions C70_guide.
Theorem C70_index self r : bytes (concat r) -> exists ok ix r', index_Read self r = Ok (ok, ix, r') /\ (ok = true -> words ix /\ concat r = words_bytes ix ++ concat r').
Proof.
  intros Hb. destruct (units_ReadInPlace_any 4 put32 get32 0 _ W self r Hb) as [(l & r1 & E & Hl & Hf & Hr)|[[_ E]|(a & rest & _ & _ & E)]]; eexists _, _, _; (split; [exact E|]); [|done|done].
  intros _. assert (Hw : words l) by (split; done). split; [done|]. by rewrite <- words_image.
Qed.
Print Assumptions C70_index.

(** ** C35.  [writes write bs]: true only when all of [bs] was taken; otherwise some
    first part of it; false only when less was taken, if the writer gives no error
    but for short writes. *)
Definition writes (write : writer -> bool * writer) (bs : list N) : Prop := forall w ok w', write w = (ok, w') ->
  (exists n, w'.1 = w.1 ++ take n bs) /\
  (ok = true -> w'.1 = w.1 ++ bs) /\
  (Forall (fun a => a.2 = false) w.2 -> ok = false -> (length w'.1 < length w.1 + length bs)%nat).
Lemma writes_image {A} (put : A -> list N) l : writes (units_Write put l) (put32 (len32 l) ++ flat_map put l).
Proof.
  intros w ok w' H. split; [by eapply units_Write_prefix|]. split; [intros ->; by apply units_Write_true|]. intros Hw ->. by apply units_Write_false.
Qed.
Theorem C35_write : 
  (forall d, words d -> writes (dict_Write d) (words_bytes d)) /\ (forall g, pairs g -> writes (guide_Write g) (pairs_bytes g)) /\
  (forall g, pairs g -> writes (rguide_Write g) (pairs_bytes g)) /\ (forall ix, words ix -> writes (index_Write ix) (words_bytes ix)).
Proof.
  split; [|split; [|split]]; intros x Hx; [rewrite <- words_image by done|rewrite <- pairs_image by done|rewrite <- pairs_image by done|rewrite <- words_image by done]; apply writes_image.
Qed.
Print Assumptions C35_write.
Example C35_case : dict_Write [7] ([1], [(4%nat, false); (2%nat, false)]) = (false, ([1; 1; 0; 0; 0; 7; 0], [])) /\
  dict_Write [7] ([1], [(4%nat, false); (4%nat, false)]) = (true, ([1; 1; 0; 0; 0; 7; 0; 0; 0], [])).
Proof. by_vm. Qed.
