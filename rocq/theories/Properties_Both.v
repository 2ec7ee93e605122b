(** Property C125: BuildGuide (guide_builder.go:21-84) against BuildRankedGuideCmp
    (ranked_guide_builder.go:15-141). *)
From Verif Require Import Go Dawg DawgSpec Tree TreeFacts DawgFrozen DawgMain DawgAbs DawgNav DictDfs Dict DictUnit DictInv DictRead DictMain DictRep DictSpec DictThms Guide GuideProofs GuideThms Ranked RankedProofs IndexProofs DictWrong GuideOther BothGuides Properties_Dict Properties_Wrong Properties_Exact Properties_GuideOther Properties_RankedOther.
Local Open Scope N_scope.
Local Arguments N.mul : simpl never.
Local Arguments N.add : simpl never.
Local Arguments N.of_nat : simpl never.
Local Arguments N.lxor : simpl never.

(** C125. For a Dawg and any units at all, and any sort and comparison: if the ranked
    builder returns a guide, so does BuildGuide; it has as many units as the dictionary,
    or none if the Dawg has no keys. *)
Theorem C125_guide sort cmp h d us rg : hist_ok h -> (exists size d0 rs, size_ok size /\ build size h d0 = Ok (rs, d)) ->
  BuildRankedGuideCmp sort cmp d us = Ok (Some rg) -> exists g, BuildGuide d us = Ok (Some g) /\ length g = (if decide (accepted h = []) then 0 else length us)%nat.
Proof.
  intros Hh (size & d0 & rs & Hs & Hb) HR. destruct (build_abs h Hh) as (R1 & x & He1 & _ & Hd). destruct (Hd size d0 Hs) as (d' & Hb' & HD).
  rewrite Hb in Hb'. injection Hb' as _ <-. assert (Hn : R1 = [] <-> accepted h = []) by (split; intros E; apply (nil_iff h R1 He1); [apply wfe_or, HD|done|apply wfe_or, HD|done]). destruct (decide (accepted h = [])) as [E|E].
  - apply Hn in E. subst R1. exists []. split; [|done]. unfold BuildGuide. cbv zeta. destruct (dawg_size d <=? 1) eqn:E; [done|].
    assert (DawgFix.x_ts x = []) as Hts.
    { destruct (DawgFix.x_ts x) as [|e ts] eqn:E'; [done|]. assert (Hin : e ∈ DawgFix.x_ts x) by (rewrite E'; constructor). by apply (do_in d [] x HD) in Hin as [? _]. }
    pose proof (fz_base _ _ _ (HF d [] x HD)) as Hbs. rewrite Hts in Hbs. apply N.leb_gt in E. unfold dawg_size in E. rewrite Hbs in E. cbn in E. lia.
  - apply (both_build us d R1 x (dawgof_w _ _ _ HD) sort cmp rg); [|done]. intros E'. by apply E, Hn.
Qed.
Print Assumptions C125_guide.
(** The other direction is false: "a", "ab" with a dictionary of "ab". *)
Theorem C125_converse_refuted : exists h1 h2 d us g, pair_of h1 h2 d us /\ (forall k, is_key h1 k -> safe h2 k) /\ BuildGuide d us = Ok (Some g) /\ BuildRankedGuide isort d us = Ok None.
Proof.
  pose (h1 := [([97], 1%Z); ([97; 98], 2%Z)] : list entry). pose (h2 := [([97; 98], 5%Z)] : list entry).
  exists h1, h2, (dawg_of h1), (dict_of h2). eexists. destruct C124_case as (H1 & H2 & _). destruct C124_keys as (H3 & _).
  split; [exact H1|]. split; [exact H3|]. split; [vm_compute; reflexivity|exact H2].
Qed.
Print Assumptions C125_converse_refuted.

(** "a" (1), "ab" (2) with a dictionary of "a" (7), "ab" (6), "c" (1): both are built. *)
Example C125_case : let h1 := [([97], 1%Z); ([97; 98], 2%Z)] : list entry in let h2 := [([97], 7%Z); ([97; 98], 6%Z); ([99], 1%Z)] : list entry in
  pair_of h1 h2 (dawg_of h1) (dict_of h2) /\ (forall k, is_key h1 k -> safe h2 k) /\
  match BuildRankedGuide isort (dawg_of h1) (dict_of h2), BuildGuide (dawg_of h1) (dict_of h2) with Ok (Some _), Ok (Some _) => True | _, _ => False end.
Proof.
  intros h1 h2. split; [|split; [|vm_compute; exact I]].
  { eapply pair_vm; [split; [unfold h1, key_ok; repeat constructor|by vm_compute]|split; [unfold h2, key_ok; repeat constructor|by vm_compute]|vm_compute; reflexivity|vm_compute; reflexivity]. }
  assert (E1 : entries h1 = h1) by (by vm_compute). intros k Hk p c t Hq _ Hno. destruct (C124_subset k Hk) as [v Hv]. exfalso. apply Hno. exists k, v. split; [exact Hv|].
  exists t. by rewrite Hq, <- app_assoc.
Qed.
