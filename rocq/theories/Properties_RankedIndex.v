(** Properties C77-C79: BuildIndex and the Indexer (index_builder.go, indexer.go) with
    the guide of ranked_guide_builder.go; what C45 becomes.  The vocabulary is in
    RankedIndexSpec.v, RankedSpec.v, GuideSpec.v, DictSpec.v and DawgSpec.v. *)
From Verif Require Import Go Dawg DawgSpec Tree TreeFacts DawgAbs DawgMain DawgNav DictDfs Dict DictInv DictRead DictMain DictRep DictSpec DictThms Guide GuideProofs GuideSpec GuideThms Index IndexProofs Ranked RankedProofs RankedSpec RankedThms RankedIndexSpec IndexRanked Properties_Dict Properties_Completer Properties_Index Properties_Ranked.
Local Open Scope N_scope.
Local Arguments N.mul : simpl never.
Local Arguments N.add : simpl never.
Local Arguments N.of_nat : simpl never.
Local Ltac by_vm := lazymatch goal with |- _ /\ _ => split; [vm_compute; reflexivity|by_vm] | _ => vm_compute; reflexivity end.

Lemma rindex_cases cmp h us g : hist_ok h -> made_ranked cmp h us g -> (accepted h = [] /\ g = []) \/
  exists sort R b nb asg ff, sorter sort /\ ent_es R = map nentry (accepted h) /\ wfe R /\ R <> [] /\ us = db_units b /\ binv b nb (nb - 16) (256 * N.of_nat nb) R asg [] ff /\
    drep us R (dn R asg) /\ rgrep sort cmp us (dn R asg) g /\ cnt R < two32.
Proof.
  intros Hh (d & sort & Hso & (size & d0 & rs & un & Hs & Hb & Hbd) & Hg). destruct (build_abs h Hh) as (R & x & He & Hne & Hd). destruct (Hd size d0 Hs) as (d' & Hbd' & HD).
  rewrite Hb in Hbd'. injection Hbd' as -> <-. rewrite bwu_eq in Hbd. destruct (decide (R = [])) as [->|HR].
  - left. split; [by apply (nil_iff h [] He wfe_nil)|]. pose proof (ranked_empty sort cmp d x us HD) as Hg'. rewrite Hg in Hg'. by injection Hg' as ->.
  - right. destruct (build_nonempty d R x HD HR) as [(b & nb & asg & ff & H1 & H2 & _)|[H1 _]]; rewrite H1 in Hbd; clear H1; [|discriminate Hbd].
    injection Hbd as <- <-. pose proof (binv_drep _ _ _ _ _ H2) as HP. destruct (BuildRanked_ok _ _ _ HP d x HD HR sort cmp Hso) as (g' & Hg' & HG).
    rewrite Hg in Hg'. injection Hg' as <-. exists sort, R, b, nb, asg, ff. split; [exact Hso|]. split; [exact He|]. split; [apply wfe_or, HD|]. split; [exact HR|].
    split; [done|]. split; [exact H2|]. split; [exact HP|]. split; [exact HG|]. rewrite He, map_length. pose proof (accepted_short h). destruct Hh as [_ Hh]. unfold two32. lia.
Qed.
(** All that is needed of an index. *)
Lemma rindex_facts cmp h us g ix : total_order cmp -> hist_ok h -> made_ranked cmp h us g -> BuildIndex us g = Ok (Some ix) ->
  exists sort R b nb asg ff, sorter sort /\ ent_es R = map nentry (accepted h) /\ wfe R /\ R <> [] /\ us = db_units b /\ binv b nb (nb - 16) (256 * N.of_nat nb) R asg [] ff /\
    drep us R (dn R asg) /\ rgrep sort cmp us (dn R asg) g /\ cnt R < two32 /\ rii us (dn R asg) sort cmp ix [] /\ default 0 (ix !! N.to_nat 0) = N.of_nat (length (rents sort cmp R)) /\
    (forall i, i < two32 -> ir_IndexToBytes us g ix i = Ok (fst <$> rents sort cmp R !! N.to_nat i)).
Proof.
  intros Ht Hh Hm Hi. destruct (rindex_cases cmp h us g Hh Hm) as [[_ ->]|(sort & R & b & nb & asg & ff & Hso & He & Hw & HR & Hus & HB & HP & HG & Hl)].
  { exfalso. unfold BuildIndex in Hi. cbn [ib_buildIndices] in Hi. destruct (dc_HasValue us 0) as [has| |]; cbn [mbind res_bind] in Hi; try discriminate Hi.
    destruct (if has then upd (replicate (length us) 0) 0 (fun x => u32 (x + 1)) else Ok (replicate (length us) 0)); cbn [mbind res_bind] in Hi; discriminate Hi. }
  destruct (BuildIndex_ranked us R _ HP sort cmp Hso g HG Hl) as (ix' & Hi' & HX & H0). rewrite Hi in Hi'. injection Hi' as <-.
  exists sort, R, b, nb, asg, ff. do 11 (split; [assumption|]). intros i Hlt. apply IndexToBytes_in.
  pose proof (node_rcnt us R _ HP sort cmp Hso Hl 0 R (rp_root _ _ _ HP)) as Hrc.
  rewrite (rdescend_ok us R _ HP sort cmp Hso g HG Hl ix HX (S (length us)) 0 R 0 [] i).
  - rewrite N.sub_0_r. by destruct (rents sort cmp R !! N.to_nat i) as [[k v]|].
  - apply HP.
  - exact H0.
  - apply (hgt_units us R _ HP 0), HP.
  - lia.
  - lia.
Qed.
Lemma rindex_built cmp h us g : hist_ok h -> made_ranked cmp h us g -> accepted h <> [] -> exists ix, BuildIndex us g = Ok (Some ix).
Proof.
  intros Hh Hm Ha. destruct (rindex_cases cmp h us g Hh Hm) as [[? _]|(sort & R & b & nb & asg & ff & Hso & _ & _ & _ & _ & _ & HP & HG & Hl)]; [done|].
  destruct (BuildIndex_ranked us R _ HP sort cmp Hso g HG Hl) as (ix & Hi & _). by exists ix.
Qed.
Lemma rents_held sort cmp h R k : sorter sort -> total_order cmp -> ent_es R = map nentry (accepted h) -> wfe R -> k ∈ (rents sort cmp R).*1 <-> held cmp (entries h) k.
Proof.
  intros Hso Ht He Hw. rewrite (entries_ent h R He). split.
  - intros ([k' v] & -> & H)%elem_of_list_fmap_2. by apply (rents_in sort cmp Hso Ht R k' v Hw) in H as [_ H].
  - intros H. pose proof H as [Hk _]. apply elem_of_list_fmap_2 in Hk as ([k' v] & -> & Hk). apply zent_in in Hk as (n & -> & Hk). apply elem_of_list_fmap. exists (k', n).
    split; [done|]. by apply (rents_in sort cmp Hso Ht R k' n Hw).
Qed.
Lemma nth_two32 {A} (l : list A) n x : l !! n = Some x -> N.of_nat (length l) < two32 -> N.of_nat n < two32.
Proof. intros H%lookup_lt_Some ?. lia. Qed.

(** C77. The index is built unless there are no entries; it holds the keys [held],
    each once, in the order [ahead]: IndexToBytes and IndexToString list them, and
    give nil and "" from TotalCount() on. *)
Theorem C77_ranked_index cmp h us g : total_order cmp -> hist_ok h -> made_ranked cmp h us g -> accepted h <> [] -> exists ix ks,
  BuildIndex us g = Ok (Some ix) /\ length ix = length us /\ (forall k, k ∈ ks <-> held cmp (entries h) k) /\ StronglySorted (ahead cmp (entries h)) ks /\ NoDup ks /\
  ix_TotalCount ix = Ok (N.of_nat (length ks)) /\
  forall i, i < two32 -> ir_IndexToBytes us g ix i = Ok (ks !! N.to_nat i) /\ ir_IndexToString us g ix i = Ok (default [] (ks !! N.to_nat i)).
Proof.
  intros Ht Hh Hm Ha. destruct (rindex_built cmp h us g Hh Hm Ha) as [ix Hi].
  destruct (rindex_facts cmp h us g ix Ht Hh Hm Hi) as (sort & R & b & nb & asg & ff & Hso & He & Hw & HR & Hus & HB & HP & HG & Hl & HX & H0 & Hat).
  exists ix, (rents sort cmp R).*1. split; [exact Hi|]. split; [apply HX|]. split; [intros k; by apply rents_held|].
  assert (Hss : StronglySorted (ahead cmp (entries h)) (rents sort cmp R).*1).
  { rewrite (entries_ent h R He). apply (rents_sorted sort cmp Hso Ht (Node R)); [by apply wf_wfe|done]. }
  split; [exact Hss|]. split; [by apply (ahead_nodup cmp (entries h))|]. split.
  - unfold ix_TotalCount. rewrite (get_gx R Hl ix 0), H0, fmap_length; [done|]. rewrite (rii_len _ _ _ _ _ _ HX). apply (rp_lt _ _ _ HP 0 R), HP.
  - intros i Hlt. unfold ir_IndexToString. rewrite (Hat i Hlt), list_lookup_fmap. done.
Qed.
Print Assumptions C77_ranked_index.
(** So it misses keys, unless every key is held. *)
Theorem C77_ranked_complete cmp h us g ix : total_order cmp -> hist_ok h -> made_ranked cmp h us g -> BuildIndex us g = Ok (Some ix) ->
  ix_TotalCount ix = Ok (N.of_nat (length (accepted h))) <-> forall k, is_key h k -> held cmp (entries h) k.
Proof.
  intros Ht Hh Hm Hi. assert (Ha : accepted h <> []).
  { intros Ha. destruct (rindex_facts cmp h us g ix Ht Hh Hm Hi) as (sort & R & b & nb & asg & ff & _ & He & Hw & HR & _). by apply HR, (nil_iff h R He Hw). }
  destruct (C77_ranked_index cmp h us g Ht Hh Hm Ha) as (ix' & ks & Hi' & _ & Hks & _ & Hnd & Htc & _). rewrite Hi in Hi'. injection Hi' as <-. rewrite Htc. clear Hi Hm.
  assert (Hnk : NoDup (entries h).*1).
  { apply NoDup_alt. intros i j k Hj1 Hj2. rewrite list_lookup_fmap in Hj1, Hj2. destruct (entries h !! i) as [[k1 v1]|] eqn:E1; [|done]. destruct (entries h !! j) as [[k2 v2]|] eqn:E2; [|done].
    cbn in Hj1, Hj2. injection Hj1 as ->. injection Hj2 as ->. rewrite <- (rank_filter _ _ _ _ (entries_inc h) E1). by apply (rank_filter _ _ _ _ (entries_inc h) E2). }
  assert (Hlen : length (entries h).*1 = length (accepted h)) by (by rewrite fmap_length, map_length).
  assert (Hsub : ks ⊆+ (entries h).*1).
  { apply NoDup_submseteq; [done|]. intros k Hk. apply Hks in Hk as [Hk _]. done. }
  split.
  - intros [= E] k Hk. apply Hks. assert (Hp : ks ≡ₚ (entries h).*1) by (apply submseteq_Permutation_length_eq; [lia|done]). rewrite Hp.
    destruct Hk as [v Hv]. apply elem_of_list_fmap. by exists (k, v).
  - intros H. f_equal. f_equal. rewrite <- Hlen. apply Nat.le_antisymm; [by apply submseteq_length|]. apply submseteq_length, NoDup_submseteq; [done|]. intros k Hk. apply Hks, H.
    apply elem_of_list_fmap in Hk as ([k' v] & -> & Hk). by exists v.
Qed.
Print Assumptions C77_ranked_complete.
(** With a comparator of any kind, the index of the empty dictionary panics. *)
Theorem C77_ranked_empty cmp h us g : hist_ok h -> made_ranked cmp h us g -> BuildIndex us g = Panic <-> accepted h = [].
Proof.
  intros Hh Hm. split.
  - intros Hi. destruct (decide (accepted h = [])) as [?|Ha]; [done|]. destruct (rindex_built cmp h us g Hh Hm Ha) as [ix Hi']. congruence.
  - intros Ha. destruct Hm as (d & sort & Hso & Hd & Hg). destruct (ranked_cases sort cmp h d us Hso Hh Hd) as (R & g' & He & Hw & _ & Hg' & Hc). rewrite Hg in Hg'. injection Hg' as <-.
    destruct Hc as [(-> & -> & ->)|(HR & _)]; [by vm_compute|]. exfalso. by apply HR, (nil_iff h R He Hw).
Qed.
Print Assumptions C77_ranked_empty.

(** C78. The index of a key that is held is never beyond its place, and it is its
    place exactly when no key with a smaller index is bytewise greater. *)
Theorem C78_ranked_rank cmp h us g ix k : total_order cmp -> hist_ok h -> made_ranked cmp h us g -> BuildIndex us g = Ok (Some ix) -> held cmp (entries h) k ->
  exists n m, n < two32 /\ ir_IndexToBytes us g ix n = Ok (Some k) /\ ir_StringToIndex us g ix k = Ok m /\ m <= n /\
    (m = n <-> forall i k', i < n -> ir_IndexToBytes us g ix i = Ok (Some k') -> kcmp k' k = Lt).
Proof.
  intros Ht Hh Hm Hi Hk. destruct (rindex_facts cmp h us g ix Ht Hh Hm Hi) as (sort & R & b & nb & asg & ff & Hso & He & Hw & HR & Hus & HB & HP & HG & Hl & HX & H0 & Hat).
  apply (rents_held sort cmp h R k Hso Ht He Hw) in Hk. apply elem_of_list_lookup in Hk as [n Hn]. pose proof Hn as Hn0. rewrite list_lookup_fmap in Hn.
  destruct (rents sort cmp R !! n) as [[k' v]|] eqn:E; [|done]. cbn in Hn. injection Hn as ->.
  pose proof (node_rcnt us R _ HP sort cmp Hso Hl 0 R (rp_root _ _ _ HP)) as Hrc. pose proof (nth_two32 _ _ _ E (proj2 Hrc)) as Hn32.
  destruct (rwalk_ok us R _ HP sort cmp Hso g HG Hl ix HX k 0 R n v 0 (rp_root _ _ _ HP) H0 E) as (m & Hm1 & Hm2 & Hm3); [lia|].
  exists (N.of_nat n), (N.of_nat m). split; [exact Hn32|]. split; [rewrite (Hat _ Hn32), Nat2N.id, E; done|]. split; [rewrite <- (N.add_0_l (N.of_nat m)); exact Hm1|].
  split; [lia|]. rewrite Nat2N.inj_iff, Hm3, Forall_forall. split.
  - intros H i k' Hlt Hb. rewrite (Hat i) in Hb by lia. destruct (rents sort cmp R !! N.to_nat i) as [[k2 v2]|] eqn:E2; [|done]. cbn in Hb. injection Hb as ->.
    apply (H (k', v2)). apply elem_of_list_lookup. exists (N.to_nat i). rewrite lookup_take by lia. done.
  - intros H [k' v'] Hin. apply elem_of_list_lookup in Hin as [i Hin]. apply lookup_take_Some in Hin as [Hin Hlt]. cbn [fst]. apply (H (N.of_nat i)); [lia|].
    rewrite Hat, Nat2N.id, Hin by lia. done.
Qed.
Print Assumptions C78_ranked_rank.

(** C79. On the queries that do not leave the keys by the low byte of a value
    StringToIndex does not panic, and what is not a key is not found. *)
Theorem C79_ranked_absent cmp h us g ix q : total_order cmp -> hist_ok h -> made_ranked cmp h us g -> BuildIndex us g = Ok (Some ix) -> bytes q -> safe h q ->
  exists x, ir_StringToIndex us g ix q = Ok x /\ (~ is_key h q -> x = NotFound).
Proof.
  intros Ht Hh Hm Hi Hq Hs. destruct (rindex_facts cmp h us g ix Ht Hh Hm Hi) as (sort & R & b & nb & asg & ff & Hso & He & Hw & HR & -> & HB & HP & HG & Hl & HX & H0 & _).
  destruct (rabsent_ok (db_units b) R _ HP sort cmp Hso g HG Hl ix HX (fun c => c < 256 /\ forall v, stored asg v -> v mod 256 <> c)) with (q := q) (i := 0) (es := R) (r := 0) as (x & Hx & Hn).
  - intros i es c Hn Hno [H1 H2]. by apply (Follow_miss _ _ _ _ _ HB i es c).
  - apply HP.
  - intros p c t es1 -> Htn Hno. split.
    + apply Forall_app in Hq as [_ Hq]. by apply Forall_cons in Hq as [? _].
    + intros v Hv Hmod. destruct (stored_ent _ _ _ _ _ HB v Hv) as [k Hkv]. apply (Hs p c t eq_refl) with (k := k) (v := Z.of_N v).
      * right. apply (prefix_tnode h R He Hw p HR). by exists es1.
      * intros Hp. apply (prefix_tnode h R He Hw _ HR) in Hp as [es2 Ht2]. apply tnode_split in Ht2 as (es3 & Ht3 & Ht2).
        rewrite (tnode_fun R p es1 es3) in Hno by done. inversion Ht2 as [|? ? es4 ? ? Hin]; subst. by apply Hno in Hin.
      * apply (entry_in h R He). by exists v.
      * lia.
  - exists x. split; [exact Hx|]. intros Hk. apply Hn. intros v Hv. apply Hk. exists (Z.of_N v). apply (entry_in h R He). by exists v.
Qed.
Print Assumptions C79_ranked_absent.

(** The comparator of BuildRankedGuide, and an index that misses "abc" and "ac". *)
Lemma ltb_total : total_order Z.ltb.
Proof. split; [apply Z.ltb_irrefl|]. split; intros *; rewrite !Z.ltb_lt; lia. Qed.
Example C77_case : total_order Z.ltb /\ hist_ok rex_h /\ made_ranked Z.ltb rex_h (ranked_of Z.ltb rex_h).1 (ranked_of Z.ltb rex_h).2 /\ accepted rex_h <> [] /\
  exists ix, BuildIndex (ranked_of Z.ltb rex_h).1 (ranked_of Z.ltb rex_h).2 = Ok (Some ix) /\ ix_TotalCount ix = Ok 4 /\
    map (ir_IndexToString (ranked_of Z.ltb rex_h).1 (ranked_of Z.ltb rex_h).2 ix) [0; 1; 2; 3; 4] = [Ok []; Ok [97]; Ok [97; 98]; Ok [98]; Ok []] /\
    map (ir_StringToIndex (ranked_of Z.ltb rex_h).1 (ranked_of Z.ltb rex_h).2 ix) [[]; [97]; [97; 98]; [98]; [97; 98; 99]; [120]] = [Ok 0; Ok 1; Ok 2; Ok 3; Ok NotFound; Ok NotFound].
Proof.
  split; [apply ltb_total|]. split; [apply rex_ok|]. split; [apply ranked_of_made; vm_compute; reflexivity|]. split; [done|]. eexists. by_vm.
Qed.
Example C78_case : held Z.ltb (entries rex_h) [97; 98] /\ ~ held Z.ltb (entries rex_h) [97; 99].
Proof.
  assert (Hent : entries rex_h = rex_h) by (by vm_compute). rewrite Hent. unfold rex_h. split.
  - split; [cbn; rewrite !elem_of_cons; auto|]. intros p c t v Hk Hp. exists (drop (S (length p)) [97; 98]), 9%Z.
    destruct p as [|x [|y [|z p]]]; simplify_eq/=; rewrite !elem_of_cons, elem_of_nil in *; naive_solver lia.
  - intros [_ H]. destruct (H [97] 99 [] 2%Z eq_refl) as (t' & v' & Hin & Hv); [rewrite !elem_of_cons; auto|]. cbn [app] in Hin. rewrite !elem_of_cons, elem_of_nil in Hin.
    apply Z.ltb_lt in Hv. naive_solver lia.
Qed.
Example C79_case : bytes [120; 121] /\ safe rex_h [120; 121] /\ ~ is_key rex_h [120; 121] /\ bytes [97; 99] /\ safe rex_h [97; 99] /\ is_key rex_h [97; 99].
Proof.
  assert (Hent : entries rex_h = rex_h) by (by vm_compute). unfold safe, is_key. rewrite Hent. unfold rex_h.
  split; [by repeat constructor|]. split; [intros p c t Hq _ _ k v Hin; destruct p as [|x [|y [|z p]]]; simplify_eq/=; rewrite !elem_of_cons, elem_of_nil in Hin; naive_solver|].
  split; [intros [v Hv]; rewrite !elem_of_cons, elem_of_nil in Hv; naive_solver|]. split; [by repeat constructor|].
  split; [intros p c t Hq _ _ k v Hin; destruct p as [|x [|y [|z p]]]; simplify_eq/=; rewrite !elem_of_cons, elem_of_nil in Hin; naive_solver|].
  exists 1%Z. rewrite !elem_of_cons. auto 10.
Qed.
(** Two keys with the same index. *)
Definition rsame_h : list entry := [([97], 1%Z); ([98], 2%Z)].
Theorem C45_same_index_refuted : exists h us g ix, hist_ok h /\ made_default h us g /\ BuildIndex us g = Ok (Some ix) /\ is_key h [97] /\ is_key h [98] /\
  ir_StringToIndex us g ix [97] = Ok 0 /\ ir_StringToIndex us g ix [98] = Ok 0.
Proof.
  exists rsame_h, (ranked_of Z.ltb rsame_h).1, (ranked_of Z.ltb rsame_h).2. eexists. split; [split; [unfold rsame_h, key_ok; repeat constructor|by vm_compute]|].
  split; [apply (proj2 (made_default_ranked _ _ _)), ranked_of_made; vm_compute; reflexivity|]. split; [vm_compute; reflexivity|].
  change (is_key rsame_h [97]) with (exists v, ([97], v) ∈ [([97], 1%Z); ([98], 2%Z)]). change (is_key rsame_h [98]) with (exists v, ([98], v) ∈ [([97], 1%Z); ([98], 2%Z)]).
  split; [exists 1%Z; left|]. split; [exists 2%Z; right; left|]. by_vm.
Qed.
Print Assumptions C45_same_index_refuted.
