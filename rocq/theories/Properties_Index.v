(** Properties C41-C44, C46 and C67 of index.go, index_builder.go and indexer.go with
    the guide of guide_builder.go.  The vocabulary is in GuideSpec.v, DictSpec.v and
    DawgSpec.v. *)
From Verif Require Import Go Dawg DawgSpec Tree TreeFacts DawgAbs DictDfs Dict DictInv DictRead DictMain DictRep DictSpec DictThms Guide GuideProofs GuideSpec GuideThms Index IndexProofs Properties_Dict Properties_Completer.
Local Open Scope N_scope.
Local Arguments N.mul : simpl never.
Local Arguments N.add : simpl never.
Local Arguments N.of_nat : simpl never.
Local Ltac by_vm := lazymatch goal with |- _ /\ _ => split; [vm_compute; reflexivity|by_vm] | _ => vm_compute; reflexivity end.
Local Ltac guide_vm := apply guide_of_made; vm_compute; reflexivity.

(** ** From the entries to the tree *)
Lemma accepted_short h : N.of_nat (length (accepted h)) <= hist_size h.
Proof.
  unfold hist_size. enough (length (accepted h) <= sum_list_with (fun kv : entry => S (length kv.1)) h)%nat by lia.
  induction h as [|kv h IH] using rev_ind; [done|]. rewrite accepted_app, sum_list_with_app. cbn [sum_list_with].
  assert (length (spec_insert (accepted h) kv).2 <= S (length (accepted h)))%nat; [|lia].
  unfold spec_insert. repeat case_match; cbn [snd]; rewrite ?app_length; cbn [length]; try lia.
  all: destruct (accepted h) as [|? ?] eqn:E using rev_ind; cbn; rewrite ?removelast_last, ?app_length; cbn; lia.
Qed.
Lemma index_cases h us g : hist_ok h -> made_guide h us g -> accepted h <> [] -> exists R b nb asg ff,
  ent_es R = map nentry (accepted h) /\ wfe R /\ R <> [] /\ us = db_units b /\ binv b nb (nb - 16) (256 * N.of_nat nb) R asg [] ff /\ drep us R (dn R asg) /\
  grep us (dn R asg) g /\ cnt R < two32.
Proof.
  intros Hh (d & Hm & Hg) Ha. destruct (guide_cases h d us Hh Hm) as (R & g' & He & Hw & Hg' & Hc). rewrite Hg in Hg'. injection Hg' as <-.
  destruct Hc as [(-> & _ & _)|(HR & _ & b & nb & asg & ff & H1 & H2 & H3 & H4)]; [exfalso; by apply Ha, (nil_iff h [] He Hw)|].
  exists R, b, nb, asg, ff. split; [exact He|]. split; [exact Hw|]. split; [exact HR|]. split; [exact H1|]. split; [exact H2|]. split; [exact H3|]. split; [exact H4|].
  rewrite He, map_length. pose proof (accepted_short h). destruct Hh as [_ Hh]. unfold two32. lia.
Qed.
Lemma index_made h us g ix : hist_ok h -> made_guide h us g -> BuildIndex us g = Ok (Some ix) -> accepted h <> [].
Proof.
  intros Hh Hm Hi Ha. destruct (made_guide_cases h us g Hh Hm) as (R & He & Hw & [(-> & -> & ->)|(HR & _)]); [by vm_compute in Hi|].
  by apply HR, (nil_iff h R He Hw).
Qed.
(** All that is needed of an index. *)
Lemma index_facts h us g ix : hist_ok h -> made_guide h us g -> BuildIndex us g = Ok (Some ix) -> exists R b nb asg ff,
  ent_es R = map nentry (accepted h) /\ wfe R /\ R <> [] /\ us = db_units b /\ binv b nb (nb - 16) (256 * N.of_nat nb) R asg [] ff /\ drep us R (dn R asg) /\
  grep us (dn R asg) g /\ cnt R < two32 /\ length ix = length us /\ forall i es, dn R asg i es -> get ix i = Ok (cnt es).
Proof.
  intros Hh Hm Hi. destruct (index_cases h us g Hh Hm (index_made h us g ix Hh Hm Hi)) as (R & b & nb & asg & ff & H1 & H2 & H3 & H4 & H5 & H6 & H7 & H8).
  destruct (BuildIndex_ok us R (dn R asg) H6 g H7 H8) as (ix' & Hi' & Hl & Hc). rewrite Hi in Hi'. injection Hi' as <-.
  exists R, b, nb, asg, ff. exact (conj H1 (conj H2 (conj H3 (conj H4 (conj H5 (conj H6 (conj H7 (conj H8 (conj Hl Hc))))))))).
Qed.
Lemma index_built h us g : hist_ok h -> made_guide h us g -> accepted h <> [] -> exists ix, BuildIndex us g = Ok (Some ix).
Proof.
  intros Hh Hm Ha. destruct (index_cases h us g Hh Hm Ha) as (R & b & nb & asg & ff & _ & _ & _ & _ & _ & H6 & H7 & H8).
  destruct (BuildIndex_ok us R (dn R asg) H6 g H7 H8) as (ix & Hi & _). by exists ix.
Qed.

(** C41. The index is built; each node counts the keys below it. *)
Theorem C41_index_counts h us g : hist_ok h -> made_guide h us g -> accepted h <> [] -> exists ix, BuildIndex us g = Ok (Some ix) /\
  length ix = length us /\ ix_TotalCount ix = Ok (N.of_nat (length (accepted h))) /\
  forall p i, p = [] \/ key_prefix h p -> dc_FollowString us p 0 = Ok (true, i) -> ix_ChildCount ix i = Ok (N.of_nat (length (with_prefix p (entries h)))).
Proof.
  intros Hh Hm Ha. destruct (index_built h us g Hh Hm Ha) as [ix Hi]. exists ix. split; [exact Hi|].
  destruct (index_facts h us g ix Hh Hm Hi) as (R & b & nb & asg & ff & He & Hw & HR & _ & _ & HP & HG & _ & Hl & Hc). split; [exact Hl|]. split.
  - unfold ix_TotalCount. rewrite (Hc 0 R); [by rewrite He, map_length|]. apply HP.
  - intros p i Hp Hf. assert (exists es, tnode R p es) as [es Ht] by (destruct Hp as [->|Hp']; [exists R; constructor|by apply (prefix_tnode h R He Hw p HR)]).
    destruct (node_prefix us R _ p es HP Ht) as (i' & Hf' & Hn & _). rewrite Hf in Hf'. injection Hf' as <-. unfold ix_ChildCount. rewrite (Hc _ _ Hn).
    rewrite <- residual_prefix, map_length, (entries_ent h R He), residual_map, map_length, (residual_tnode R p es Hw Ht). done.
Qed.
Print Assumptions C41_index_counts.
Example C41_case : made_guide dex_h (guide_of dex_h).1 (guide_of dex_h).2 /\ exists ix, BuildIndex (guide_of dex_h).1 (guide_of dex_h).2 = Ok (Some ix) /\
  ix_TotalCount ix = Ok 5.
Proof. split; [guide_vm|]. eexists. by_vm. Qed.

(** C46 is false: the guide of the empty dictionary has no units, and BuildIndex
    reads the first one. *)
Theorem C46_empty_index_refuted : exists h us g, hist_ok h /\ accepted h = [] /\ made_guide h us g /\ BuildIndex us g = Panic.
Proof.
  exists [], (guide_of []).1, (guide_of []).2. split; [split; [constructor|by vm_compute]|]. split; [done|]. split; [guide_vm|by vm_compute].
Qed.
Print Assumptions C46_empty_index_refuted.
(** And so for every history without accepted entries. *)
Theorem C46_empty_index_panics h us g : hist_ok h -> made_guide h us g -> BuildIndex us g = Panic <-> accepted h = [].
Proof.
  intros Hh Hm. split.
  - intros Hi. destruct (decide (accepted h = [])) as [?|Ha]; [done|]. destruct (index_built h us g Hh Hm Ha) as [ix Hi']. congruence.
  - intros Ha. destruct (made_guide_cases h us g Hh Hm) as (R & He & Hw & [(-> & -> & ->)|(HR & _)]); [by vm_compute|]. exfalso. by apply HR, (nil_iff h R He Hw).
Qed.
Print Assumptions C46_empty_index_panics.
Example C46_case : hist_ok [] /\ made_guide [] (guide_of []).1 (guide_of []).2.
Proof. split; [split; [constructor|by vm_compute]|]. guide_vm. Qed.

(** ** Ranks *)
Lemma kcmp_irr k : kcmp k k = Eq.
Proof. induction k as [|c k IH]; [done|]. cbn. by rewrite N.compare_refl. Qed.
Lemma kcmp_not a b : kcmp a b = Lt -> kcmp b a <> Lt.
Proof. intros H H'. pose proof (kcmp_trans _ _ _ H H') as H2. by rewrite kcmp_irr in H2. Qed.
Lemma filter_all (P : entry -> Prop) `{forall x, Decision (P x)} es : Forall P es -> filter P es = es.
Proof. induction 1 as [|x es Hx _ IH]; [done|]. by rewrite filter_cons_True, IH. Qed.
Lemma filter_none (P : entry -> Prop) `{forall x, Decision (P x)} es : Forall (fun x => ~ P x) es -> filter P es = [].
Proof. induction 1 as [|x es Hx _ IH]; [done|]. by rewrite filter_cons_False, IH. Qed.
Lemma rank_filter es n k v : increasing es -> es !! n = Some (k, v) -> length (filter (fun kv : entry => kcmp kv.1 k = Lt) es) = n.
Proof.
  intros Hinc Hn. rewrite <- (take_drop n es), filter_app, app_length. pose proof (lookup_lt_Some _ _ _ Hn) as Hlt.
  assert (H1 : filter (fun kv : entry => kcmp kv.1 k = Lt) (take n es) = take n es).
  { apply filter_all. apply Forall_forall. intros e (i & Hi)%elem_of_list_lookup. apply lookup_take_Some in Hi as [Hi Hin]. by apply (Hinc i n e (k, v)). }
  assert (H2 : filter (fun kv : entry => kcmp kv.1 k = Lt) (drop n es) = []).
  { apply filter_none. apply Forall_forall. intros e (i & Hi)%elem_of_list_lookup. rewrite lookup_drop in Hi. destruct i as [|i].
    - rewrite Nat.add_0_r, Hn in Hi. injection Hi as <-. cbn. by rewrite kcmp_irr.
    - apply kcmp_not. apply (Hinc n (n + S i)%nat (k, v) e); [lia|done|done]. }
  rewrite H1, H2, take_length. cbn. lia.
Qed.
Lemma rank_at h us g ix n k v : hist_ok h -> made_guide h us g -> BuildIndex us g = Ok (Some ix) -> entries h !! n = Some (k, v) ->
  ir_StringToIndex us g ix k = Ok (N.of_nat n).
Proof.
  intros Hh Hm Hi Hn. destruct (index_facts h us g ix Hh Hm Hi) as (R & b & nb & asg & ff & He & Hw & HR & _ & _ & HP & HG & Hl & _ & Hc).
  rewrite (entries_ent h R He) in Hn. change (map ?f ?x) with (f <$> x) in Hn. rewrite list_lookup_fmap in Hn.
  destruct (ent_es R !! n) as [[k' w]|] eqn:E; [|done]. cbn in Hn. injection Hn as -> <-. unfold ir_StringToIndex, ir_BytesToIndex.
  rewrite (rank_ok us R _ HP g HG Hl ix Hc k 0 R n w 0); [f_equal; lia|apply HP|done|lia].
Qed.
(** C42. The rank of a key is the number of smaller keys. *)
Theorem C42_rank h us g ix k : hist_ok h -> made_guide h us g -> BuildIndex us g = Ok (Some ix) -> is_key h k ->
  ir_StringToIndex us g ix k = Ok (N.of_nat (length (filter (fun kv : entry => kcmp kv.1 k = Lt) (entries h)))).
Proof.
  intros Hh Hm Hi [v (n & Hn)%elem_of_list_lookup]. rewrite (rank_at h us g ix n k v Hh Hm Hi Hn). do 2 f_equal. symmetry.
  apply (rank_filter _ n k v); [apply entries_inc|done].
Qed.
Print Assumptions C42_rank.
Example C42_case : made_guide dex_h (guide_of dex_h).1 (guide_of dex_h).2 /\ exists ix, BuildIndex (guide_of dex_h).1 (guide_of dex_h).2 = Ok (Some ix) /\
  ir_StringToIndex (guide_of dex_h).1 (guide_of dex_h).2 ix [98; 99] = Ok 3.
Proof. split; [guide_vm|]. eexists. by_vm. Qed.

(** C43 is false: an absent string gets a number when the dictionary follows a byte
    into the unit of a value. *)
Definition fp_h : list entry := [([97; 99], 354%Z)].
Theorem C43_absent_refuted : exists h us g ix q, hist_ok h /\ made_guide h us g /\ BuildIndex us g = Ok (Some ix) /\ bytes q /\ ~ is_key h q /\
  ir_StringToIndex us g ix q = Ok 0 /\ ir_IndexToBytes us g ix 0 <> Ok (Some q).
Proof.
  exists fp_h, (guide_of fp_h).1, (guide_of fp_h).2. eexists _, [97; 98].
  split; [split; [apply Forall_singleton; repeat constructor; lia|by vm_compute]|]. split; [guide_vm|]. split; [vm_compute; reflexivity|].
  split; [repeat constructor|]. split; [|split; [by vm_compute|]].
  - intros [v Hv]. change (entries fp_h) with [([97; 99], 354%Z)] in Hv. by apply elem_of_list_singleton in Hv.
  - match goal with |- ?x <> _ => let y := eval vm_compute in x in change x with y end. discriminate.
Qed.
Print Assumptions C43_absent_refuted.
(** C67. It holds for the queries that do not leave the keys by the low byte of a value. *)
Theorem C67_absent_safe h us g ix q : hist_ok h -> made_guide h us g -> BuildIndex us g = Ok (Some ix) -> bytes q -> safe h q -> ~ is_key h q ->
  ir_StringToIndex us g ix q = Ok NotFound.
Proof.
  intros Hh Hm Hi Hq Hs Hk. destruct (index_facts h us g ix Hh Hm Hi) as (R & b & nb & asg & ff & He & Hw & HR & -> & HB & HP & HG & Hl & _ & Hc).
  apply (absent_ok (db_units b) R _ HP g HG Hl ix Hc (fun c => c < 256 /\ forall v, stored asg v -> v mod 256 <> c)) with (es := R).
  - intros i es c Hn Hno [H1 H2]. by apply (Follow_miss _ _ _ _ _ HB i es c).
  - apply HP.
  - lia.
  - intros v Hv. apply Hk. exists (Z.of_N v). apply (entry_in h R He). by exists v.
  - intros p c t es1 -> Ht Hno. split.
    + apply Forall_app in Hq as [_ Hq]. by apply Forall_cons in Hq as [? _].
    + intros v Hv Hmod. destruct (stored_ent _ _ _ _ _ HB v Hv) as [k Hkv]. apply (Hs p c t eq_refl) with (k := k) (v := Z.of_N v).
      * right. apply (prefix_tnode h R He Hw p HR). by exists es1.
      * intros Hp. apply (prefix_tnode h R He Hw _ HR) in Hp as [es2 Ht2]. apply tnode_split in Ht2 as (es3 & Ht3 & Ht2).
        rewrite (tnode_fun R p es1 es3) in Hno by done. inversion Ht2 as [|? ? es4 ? ? Hin]; subst. by apply Hno in Hin.
      * apply (entry_in h R He). by exists v.
      * lia.
Qed.
Print Assumptions C67_absent_safe.
Theorem C43_absent_partial h us g ix q : hist_ok h -> made_guide h us g -> BuildIndex us g = Ok (Some ix) -> bytes q -> safe h q -> ~ is_key h q ->
  ir_StringToIndex us g ix q = Ok NotFound.
Proof. apply C67_absent_safe. Qed.
Print Assumptions C43_absent_partial.
Example C67_case : made_guide dex_h (guide_of dex_h).1 (guide_of dex_h).2 /\ bytes [98; 100] /\ ~ is_key dex_h [98; 100] /\ safe dex_h [98; 100].
Proof.
  split; [guide_vm|]. split; [repeat constructor|].
  assert (Hent : entries dex_h = [([97; 98], 1%Z); ([97; 99], 2147483647%Z); ([98; 98], 1%Z); ([98; 99], 2147483647%Z); ([99], 7%Z)]) by (by vm_compute).
  split; [intros [v Hv]; rewrite Hent, !elem_of_cons, elem_of_nil in Hv; naive_solver|].
  intros p c t E Hp Hn k v Hv. rewrite Hent in Hv.
  assert (Hc : c = 98 \/ c = 100) by (destruct p as [|x [|y p]]; simplify_eq/=; [by left|by right|by destruct p]).
  rewrite !elem_of_cons, elem_of_nil in Hv. destruct Hc as [->| ->]; naive_solver.
Qed.

(** C44. The i-th key. *)
Theorem C44_key_at h us g ix i : hist_ok h -> made_guide h us g -> BuildIndex us g = Ok (Some ix) -> i < two32 ->
  ir_IndexToBytes us g ix i = Ok (fst <$> entries h !! N.to_nat i) /\ ir_IndexToString us g ix i = Ok (default [] (fst <$> entries h !! N.to_nat i)).
Proof.
  intros Hh Hm Hi Hlt. destruct (index_facts h us g ix Hh Hm Hi) as (R & b & nb & asg & ff & He & Hw & HR & _ & _ & HP & HG & Hl & _ & Hc).
  assert (Hb : ir_IndexToBytes us g ix i = Ok (fst <$> entries h !! N.to_nat i)).
  { apply IndexToBytes_in. rewrite (descend_ok us R _ HP g HG Hl ix Hc (S (length us)) 0 R 0 [] i).
    - rewrite N.sub_0_r, (entries_ent h R He). change (map ?f ?x) with (f <$> x). rewrite list_lookup_fmap. by destruct (ent_es R !! N.to_nat i) as [[k v]|].
    - apply HP.
    - apply (hgt_units us R _ HP 0), HP.
    - lia.
    - lia. }
  split; [done|]. unfold ir_IndexToString. rewrite Hb. done.
Qed.
Print Assumptions C44_key_at.
(** Mutually inverse. *)
Theorem C44_inverse h us g ix i k : hist_ok h -> made_guide h us g -> BuildIndex us g = Ok (Some ix) -> i < two32 -> is_key h k ->
  ir_StringToIndex us g ix k = Ok i <-> ir_IndexToBytes us g ix i = Ok (Some k).
Proof.
  intros Hh Hm Hi Hlt [v (n & Hn)%elem_of_list_lookup]. destruct (C44_key_at h us g ix i Hh Hm Hi Hlt) as [-> _]. rewrite (rank_at h us g ix n k v Hh Hm Hi Hn). split.
  - intros [= <-]. rewrite Nat2N.id, Hn. done.
  - intros [= H]. destruct (entries h !! N.to_nat i) as [[k' v']|] eqn:E; [|done]. cbn in H. injection H as ->. f_equal.
    assert (N.to_nat i = n); [|lia]. rewrite <- (rank_filter _ _ _ _ (entries_inc h) E). by apply (rank_filter _ n k v); [apply entries_inc|].
Qed.
Print Assumptions C44_inverse.
(** Indices from TotalCount() on give nil, and "". *)
Theorem C44_beyond h us g ix i : hist_ok h -> made_guide h us g -> BuildIndex us g = Ok (Some ix) -> i < two32 -> N.of_nat (length (accepted h)) <= i ->
  ir_IndexToBytes us g ix i = Ok None /\ ir_IndexToString us g ix i = Ok [].
Proof.
  intros Hh Hm Hi Hlt Hge. destruct (C44_key_at h us g ix i Hh Hm Hi Hlt) as [-> ->]. rewrite lookup_ge_None_2 by (rewrite map_length; lia). done.
Qed.
Print Assumptions C44_beyond.
Example C44_case : made_guide dex_h (guide_of dex_h).1 (guide_of dex_h).2 /\ is_key dex_h [98; 99] /\ exists ix,
  BuildIndex (guide_of dex_h).1 (guide_of dex_h).2 = Ok (Some ix) /\
  ir_IndexToString (guide_of dex_h).1 (guide_of dex_h).2 ix 3 = Ok [98; 99] /\ ir_IndexToBytes (guide_of dex_h).1 (guide_of dex_h).2 ix 5 = Ok None.
Proof.
  split; [guide_vm|]. split; [|eexists; by_vm]. exists 2147483647%Z.
  change (entries dex_h) with [([97; 98], 1%Z); ([97; 99], 2147483647%Z); ([98; 98], 1%Z); ([98; 99], 2147483647%Z); ([99], 7%Z)].
  rewrite !elem_of_cons. auto.
Qed.
