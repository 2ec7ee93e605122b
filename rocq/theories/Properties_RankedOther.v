(** Property C124: BuildRankedGuide and BuildRankedGuideCmp
    (ranked_guide_builder.go:15-141) with a Dawg and a dictionary that were not made
    from the same keys. *)
From Verif Require Import Go Dawg DawgSpec Tree TreeFacts DawgFrozen DawgMain DawgAbs DawgNav DictDfs Dict DictUnit DictInv DictRead DictMain DictRep DictSpec DictThms Guide GuideProofs Ranked RankedProofs RankedThms IndexProofs DictWrong IndexWrong GuideOther RankedOther Properties_Dict Properties_Wrong Properties_Exact Properties_GuideOther.
Local Open Scope N_scope.
Local Arguments N.mul : simpl never.
Local Arguments N.add : simpl never.
Local Arguments N.of_nat : simpl never.
Local Arguments N.lxor : simpl never.
Local Ltac by_vm := lazymatch goal with |- _ /\ _ => split; [vm_compute; reflexivity|by_vm] | _ => vm_compute; reflexivity end.

Lemma lacks_key h1 h2 R1 R : ent_es R1 = map nentry (accepted h1) -> wfe R1 -> R1 <> [] -> ent_es R = map nentry (accepted h2) -> wfe R -> R <> [] ->
  lacks R1 R -> exists k, is_key h1 k /\ ~ is_key h2 k.
Proof.
  intros He1 Hw1 HR1 He Hw HR (q & e & l & s & Ht & Hl & Hno). pose proof (proj1 (tnode_wf R1 q e Hw1 Ht)) as Hwe. destruct s as [n|e1].
  - destruct (wfe_leaf _ _ _ Hwe Hl) as [-> _]. exists q. split; [exists (Z.of_N n); apply (entry_tnode h1 R1 He1 Hw1); by exists e, n|].
    intros [v Hv]. apply (entry_tnode h2 R He Hw) in Hv as (b & m & Hb & Hm & _). by apply (Hno b Hb (Leaf m)).
  - destruct (proj2 (prefix_tnode h1 R1 He1 Hw1 (q ++ [l]) HR1)) as (k & v & Hk & [t Ek]).
    { exists e1. eapply tnode_app; [exact Ht|]. eapply tn_step; [exact Hl|apply tn_here]. }
    exists k. split; [by exists v|]. intros [w Hw']. apply (entry_tnode h2 R He Hw) in Hw' as (b & m & Hb & _). rewrite Ek, <- app_assoc in Hb.
    apply tnode_split in Hb as (b' & H1 & H2). cbn in H2. inversion H2 as [|? ? b2 ? ? Hi]; subst. by apply (Hno b' H1 (Node b2)).
Qed.

(** C124. If every key of the Dawg is one of the dictionary, a ranked guide is built,
    for any comparison, whatever the values are; it has as many units as the dictionary,
    or none if the Dawg has no keys. *)
Theorem C124_accepts sort cmp h1 h2 d us : sorter sort -> pair_of h1 h2 d us -> (forall k, is_key h1 k -> is_key h2 k) -> exists g, BuildRankedGuideCmp sort cmp d us = Ok (Some g) /\
  length g = (if decide (accepted h1 = []) then 0 else length us)%nat.
Proof.
  intros Hso Hp Hsub. destruct (decide (accepted h1 = [])) as [Ha|Ha].
  - destruct Hp as (Hh1 & _ & (size & d0 & rs & Hs & Hb) & _). destruct (build_abs h1 Hh1) as (R1 & x & He1 & _ & Hd). destruct (Hd size d0 Hs) as (d' & Hb' & HD).
    rewrite Hb in Hb'. injection Hb' as _ <-. assert (R1 = []) as -> by (apply (nil_iff h1 R1 He1); [apply wfe_or, HD|done]).
    exists []. split; [|done]. by apply (ranked_empty sort cmp d x us).
  - assert (Ha2 : accepted h2 <> []).
    { intros E. destruct (accepted h1) as [|kv l] eqn:E1; [done|]. destruct (Hsub (kept_entry kv).1) as [v Hv].
      - exists (kept_entry kv).2. rewrite E1. cbn [map]. rewrite <- surjective_pairing. left.
      - rewrite E in Hv. by apply elem_of_nil in Hv. }
    destruct (pair_facts h1 h2 d us Hp Ha Ha2) as (R1 & x & R & b & nb & asg & ff & He1 & Hw1 & HR1 & HD & He & Hw & HR & Hus & HB & HP).
    destruct (rother_build us R _ HP d R1 x HD HR1 sort cmp Hso) as (r & Hr & HF & HS).
    { intros p i es es1 l e Ht1 Ht _ Hl Hno. exfalso. destruct (proj2 (prefix_tnode h1 R1 He1 Hw1 (p ++ [l]) HR1)) as (k & v & Hk & [t Ek]).
      { exists e. eapply tnode_app; [exact Ht1|]. eapply tn_step; [exact Hl|apply tn_here]. }
      destruct (Hsub k (ex_intro _ v Hk)) as [w Hw']. destruct (proj1 (edge_prefix h2 R p es l He Hw HR Ht)) as [e' He']; [|by apply (Hno e')].
      exists k, w. split; [done|]. by exists t. }
    rewrite Hr. destruct r as [g|].
    + exists g. split; [done|]. by apply (HS g).
    + exfalso. destruct (lacks_key h1 h2 R1 R He1 Hw1 HR1 He Hw HR (HF eq_refl)) as (k & H1 & H2). by apply H2, Hsub.
Qed.
Print Assumptions C124_accepts.
(** If no key of the Dawg leaves the dictionary by the low byte of a value, there is no
    panic, and nil is returned only if a key is missing ... *)
Theorem C124_rejects sort cmp h1 h2 d us : sorter sort -> pair_of h1 h2 d us -> accepted h1 <> [] -> accepted h2 <> [] -> (forall k, is_key h1 k -> safe h2 k) ->
  (exists g, BuildRankedGuideCmp sort cmp d us = Ok (Some g) /\ length g = length us) \/
  (BuildRankedGuideCmp sort cmp d us = Ok None /\ exists k, is_key h1 k /\ ~ is_key h2 k).
Proof.
  intros Hso Hp Ha1 Ha2 Hs. destruct (pair_facts h1 h2 d us Hp Ha1 Ha2) as (R1 & x & R & b & nb & asg & ff & He1 & Hw1 & HR1 & HD & He & Hw & HR & -> & HB & HP).
  destruct (rother_build (db_units b) R _ HP d R1 x HD HR1 sort cmp Hso) as (r & Hr & HF & HS).
  { by apply (safe_miss h1 h2 R1 R b nb asg ff). }
  destruct r as [g|].
  - left. exists g. split; [done|]. by apply (HS g).
  - right. split; [done|]. by apply (lacks_key h1 h2 R1 R), HF.
Qed.
Print Assumptions C124_rejects.
(** ... and always, if a prefix, or a key, is missing at a prefix of the dictionary that
    is, but for its last byte at most, the only one to go on to its keys and values. *)
Theorem C124_detects sort cmp h1 h2 d us q t : sorter sort -> pair_of h1 h2 d us -> (forall k, is_key h1 k -> safe h2 k) -> (length t <= 1)%nat -> key_prefix h2 (q ++ t) ->
  (is_key h1 (q ++ t) /\ ~ is_key h2 (q ++ t)) \/ (exists c, key_prefix h1 ((q ++ t) ++ [c]) /\ ~ key_prefix h2 ((q ++ t) ++ [c])) ->
  (forall q', key_prefix h2 q' -> (forall s v, (q' ++ s, v) ∈ entries h2 <-> (q ++ s, v) ∈ entries h2) -> q' = q) ->
  BuildRankedGuideCmp sort cmp d us = Ok None.
Proof.
  intros Hso Hp Hs Hlt Hp2 Hmis Hu.
  assert (Ha1 : accepted h1 <> []).
  { intros E. destruct Hmis as [[[v Hk] _]|(c & (k & v & Hk & _) & _)]; rewrite E in Hk; by apply elem_of_nil in Hk. }
  assert (Ha2 : accepted h2 <> []) by (intros E; destruct Hp2 as (k & v & Hk & _); rewrite E in Hk; by apply elem_of_nil in Hk).
  destruct (pair_facts h1 h2 d us Hp Ha1 Ha2) as (R1 & x & R & b & nb & asg & ff & He1 & Hw1 & HR1 & HD & He & Hw & HR & -> & HB & HP).
  apply (prefix_tnode h2 R He Hw _ HR) in Hp2 as [es Hes]. pose proof (proj1 (tnode_wf R _ es Hw Hes)) as Hwes.
  assert (Hedge : exists a l s, tnode R1 (q ++ t) a /\ (l, s) ∈ a /\ forall s', (l, s') ∉ es).
  { destruct Hmis as [[[v Hk] Hno]|(c & Hc1 & Hc2)].
    - apply (entry_tnode h1 R1 He1 Hw1) in Hk as (a & n & Ha & Hn & _). exists a, 0, (Leaf n). split; [done|]. split; [done|]. intros s' Hs'. destruct (wfe_zero _ _ Hwes Hs') as [m ->].
      apply Hno. exists (Z.of_N m). apply (entry_tnode h2 R He Hw). by exists es, m.
    - apply (prefix_tnode h1 R1 He1 Hw1 _ HR1) in Hc1 as [e Hte]. apply tnode_split in Hte as (a & Hta & Hte). inversion Hte as [|? ? e3 ? ? Hi3]; subst.
      exists a, c, (Node e3). split; [done|]. split; [done|]. intros [m|e'] Hs'.
      + destruct (wfe_leaf _ _ _ Hwes Hs') as [-> _]. destruct (wfe_kid _ _ _ (proj1 (tnode_wf R1 _ a Hw1 Hta)) Hi3) as (_ & _ & ? & _). done.
      + apply Hc2, (edge_prefix h2 R (q ++ t) es c He Hw HR Hes). by exists e'. }
  destruct Hedge as (a & l & s & Hta & Hl & Hno). apply tnode_split in Hta as (a0 & Hta0 & Hta). apply tnode_split in Hes as (b0 & Hb0 & Hes).
  apply (rother_detects (db_units b) R _ HP d R1 x HD HR1 sort cmp Hso) with (q := q) (t := t) (a0 := a0) (b0 := b0) (a := a) (b := es) (l := l) (s := s); try done.
  - by apply (safe_miss h1 h2 R1 R b nb asg ff).
  - intros p' Hp'. apply Hu; [apply (prefix_tnode h2 R He Hw _ HR); by exists b0|]. intros s' v. rewrite !(entry_tnode h2 R He Hw). split.
    + intros (e1 & n & Ht & Hn). exists e1, n. split; [|done]. apply tnode_split in Ht as (e2 & H1 & H2). rewrite (tnode_fun R p' e2 b0 Hw H1 Hp') in H2. by eapply tnode_app.
    + intros (e1 & n & Ht & Hn). exists e1, n. split; [|done]. apply tnode_split in Ht as (e2 & H1 & H2). rewrite (tnode_fun R q e2 b0 Hw H1 Hb0) in H2. by eapply tnode_app.
Qed.
Print Assumptions C124_detects.

(** As for BuildGuide, a missing key may go unnoticed behind a unit seen before, and a
    byte that leads to a value may end in a panic. *)
Theorem C124_detects_refuted : exists h1 h2 d us g k, pair_of h1 h2 d us /\ (forall k, is_key h1 k -> safe h2 k) /\ is_key h1 k /\ ~ key_prefix h2 k /\ BuildRankedGuide isort d us = Ok (Some g).
Proof.
  pose (h1 := [([97; 120; 112], 1%Z); ([98; 120; 113], 1%Z)] : list entry). pose (h2 := [([97; 120; 112], 1%Z); ([98; 120; 112], 1%Z)] : list entry).
  assert (E1 : entries h1 = h1) by (by vm_compute). assert (E2 : entries h2 = h2) by (by vm_compute).
  exists h1, h2, (dawg_of h1), (dict_of h2). eexists _, [98; 120; 113]. split.
  { eapply pair_vm; [split; [unfold h1, key_ok; repeat constructor|by vm_compute]|split; [unfold h2, key_ok; repeat constructor|by vm_compute]|vm_compute; reflexivity|vm_compute; reflexivity]. }
  split.
  { intros k [v Hk] p c t Hq _ _ k' v' Hin. rewrite E1 in Hk. rewrite E2 in Hin. unfold h1, h2 in *. rewrite !elem_of_cons, elem_of_nil in Hk, Hin.
    assert (v' = 1%Z) as -> by naive_solver. intros Hc. assert (c = 1) as -> by (change (1 mod 256)%Z with 1%Z in Hc; lia).
    assert (Hin1 : 1 ∈ k) by (rewrite Hq; apply elem_of_app; right; left). destruct Hk as [[= -> _]|[[= -> _]|[]]]; rewrite !elem_of_cons, elem_of_nil in Hin1; naive_solver lia. }
  split; [exists 1%Z; rewrite E1; right; left|]. split; [|vm_compute; reflexivity].
  intros (k & v & Hin & [t Hk]). rewrite E2 in Hin. unfold h2 in Hin. rewrite !elem_of_cons, elem_of_nil in Hin. destruct Hin as [[= -> _]|[[= -> _]|[]]]; by destruct t.
Qed.
Print Assumptions C124_detects_refuted.
Theorem C124_no_panic_refuted : exists h1 h2 d us, pair_of h1 h2 d us /\ accepted h1 <> [] /\ accepted h2 <> [] /\ BuildRankedGuide isort d us = Panic.
Proof.
  exists [([98; 99], 1%Z)], [([97], 354%Z)], (dawg_of [([98; 99], 1%Z)]), (dict_of [([97], 354%Z)]). split.
  { eapply pair_vm; [split; [unfold key_ok; repeat constructor|by vm_compute]|split; [unfold key_ok; repeat constructor|by vm_compute]|vm_compute; reflexivity|vm_compute; reflexivity]. }
  split; [done|]. split; [done|]. vm_compute; reflexivity.
Qed.
Print Assumptions C124_no_panic_refuted.

(** "a" (1), "ab" (2) with a dictionary of "ab" (5), where "a" is a prefix and no key: no
    ranked guide, though BuildGuide makes one; and with one of "a" (7), "ab" (6), "c" (1). *)
Example C124_case : let h1 := [([97], 1%Z); ([97; 98], 2%Z)] : list entry in let h2 := [([97; 98], 5%Z)] : list entry in
  pair_of h1 h2 (dawg_of h1) (dict_of h2) /\ BuildRankedGuide isort (dawg_of h1) (dict_of h2) = Ok None /\
  match BuildGuide (dawg_of h1) (dict_of h2) with Ok (Some g) => length g | _ => 0%nat end = 256%nat /\
  match BuildRankedGuide isort (dawg_of h1) (dict_of [([97], 7%Z); ([97; 98], 6%Z); ([99], 1%Z)]) with Ok (Some g) => length g | _ => 0%nat end = 256%nat.
Proof.
  intros h1 h2. split; [|by_vm].
  eapply pair_vm; [split; [unfold h1, key_ok; repeat constructor|by vm_compute]|split; [unfold h2, key_ok; repeat constructor|by vm_compute]|vm_compute; reflexivity|vm_compute; reflexivity].
Qed.
Example C124_keys : let h1 := [([97], 1%Z); ([97; 98], 2%Z)] : list entry in let h2 := [([97; 98], 5%Z)] : list entry in
  (forall k, is_key h1 k -> safe h2 k) /\ key_prefix h2 ([97] ++ []) /\ is_key h1 ([97] ++ []) /\ ~ is_key h2 ([97] ++ []) /\
  forall q', key_prefix h2 q' -> (forall s v, (q' ++ s, v) ∈ entries h2 <-> ([97] ++ s, v) ∈ entries h2) -> q' = [97].
Proof.
  intros h1 h2. assert (E1 : entries h1 = h1) by (by vm_compute). assert (E2 : entries h2 = h2) by (by vm_compute). split; [|unfold key_prefix, is_key; rewrite E1, E2; unfold h1, h2; cbn [app]; split; [|split; [|split]]].
  - intros k [v Hk] p c t Hq _ _ k' v' Hin. rewrite E1 in Hk. rewrite E2 in Hin. unfold h1, h2 in *. rewrite elem_of_list_singleton in Hin. injection Hin as -> ->. rewrite !elem_of_cons, elem_of_nil in Hk.
    intros Hc. assert (c = 5) as -> by (change (5 mod 256)%Z with 5%Z in Hc; lia).
    assert (Hin1 : 5 ∈ k) by (rewrite Hq; apply elem_of_app; right; left). destruct Hk as [[= -> _]|[[= -> _]|[]]]; rewrite !elem_of_cons, elem_of_nil in Hin1; naive_solver lia.
  - exists [97; 98], 5%Z. split; [left|]. by exists [98].
  - exists 1%Z. left.
  - intros [v Hin]. rewrite elem_of_list_singleton in Hin. done.
  - intros q' _ H. destruct (H [98] 5%Z) as [_ H2]. assert (Hin : (q' ++ [98], 5%Z) ∈ [([97; 98], 5%Z)]) by (apply H2; left).
    rewrite elem_of_list_singleton in Hin. injection Hin as E. by apply (app_inv_tail [98] q' [97]).
Qed.
(** The hypothesis of C124_accepts. *)
Example C124_subset : forall k, is_key [([97], 1%Z); ([97; 98], 2%Z)] k -> is_key [([97], 7%Z); ([97; 98], 6%Z); ([99], 1%Z)] k.
Proof.
  intros k [v Hin]. unfold is_key in *. assert (E1 : entries [([97], 1%Z); ([97; 98], 2%Z)] = [([97], 1%Z); ([97; 98], 2%Z)]) by (by vm_compute).
  assert (E2 : entries [([97], 7%Z); ([97; 98], 6%Z); ([99], 1%Z)] = [([97], 7%Z); ([97; 98], 6%Z); ([99], 1%Z)]) by (by vm_compute). rewrite E1 in Hin. rewrite E2. rewrite !elem_of_cons, elem_of_nil in Hin.
  destruct Hin as [[= -> _]|[[= -> _]|[]]]; [exists 7%Z; left|exists 6%Z; right; left].
Qed.
