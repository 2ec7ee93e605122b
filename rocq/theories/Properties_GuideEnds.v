(** Property C126: whether BuildGuide (guide_builder.go:21-84) and BuildRankedGuide
    (ranked_guide_builder.go:15-141) end, on a dictionary of any units. *)
From Verif Require Import Go Dawg DawgSpec Tree TreeFacts DawgFrozen DawgMain DawgAbs DawgNav DictDfs Dict Guide GuideProofs GuideThms Ranked RankedProofs IndexProofs GuideOther GuideEnds Properties_Dict Properties_GuideOther.
Local Open Scope N_scope.
Local Arguments N.mul : simpl never.
Local Arguments N.add : simpl never.
Local Arguments N.of_nat : simpl never.
Local Arguments N.lxor : simpl never.

(** C126. For a Dawg and any units at all BuildGuide comes to an end. *)
Theorem C126_guide_ends h d us : hist_ok h -> (exists size d0 rs, size_ok size /\ build size h d0 = Ok (rs, d)) -> BuildGuide d us <> Hang.
Proof.
  intros Hh (size & d0 & rs & Hs & Hb). destruct (build_abs h Hh) as (R1 & x & He1 & _ & Hd). destruct (Hd size d0 Hs) as (d' & Hb' & HD).
  rewrite Hb in Hb'. injection Hb' as _ <-. destruct R1 as [|e R1].
  - unfold BuildGuide. cbv zeta. destruct (dawg_size d <=? 1) eqn:E; [done|].
    assert (DawgFix.x_ts x = []) as Hts.
    { destruct (DawgFix.x_ts x) as [|e ts] eqn:E'; [done|]. assert (Hin : e ∈ DawgFix.x_ts x) by (rewrite E'; constructor). by apply (do_in d [] x HD) in Hin as [? _]. }
    pose proof (fz_base _ _ _ (HF d [] x HD)) as Hbs. rewrite Hts in Hbs. apply N.leb_gt in E. unfold dawg_size in E. rewrite Hbs in E. cbn in E. lia.
  - by apply (ends_build us d (e :: R1) x (dawgof_w _ _ _ HD)).
Qed.
Print Assumptions C126_guide_ends.

(** Units that lead from 0 by 'c' to 99, by 'a' to 3, by 'c' back to 99; and by 'd' to
    100, by 'c' to 99. *)
Definition round : dict := <[3%nat := 3169]> (<[99%nat := 1379]> (<[100%nat := 102500]> (replicate 256 0))).
Definition round_keys : list entry := [([99; 97; 99], 1%Z); ([100; 99], 2%Z)].
(** The claim that BuildRankedGuide ends is false: findMaxValue (:80-93) goes round from
    99 to 3 and back for ever. *)
Theorem C126_ranked_ends_refuted : exists h d us, hist_ok h /\ (exists size d0 rs, size_ok size /\ build size h d0 = Ok (rs, d)) /\ BuildRankedGuide isort d us = Hang.
Proof.
  exists round_keys, (dawg_of round_keys), round. split; [split; [unfold round_keys, key_ok; repeat constructor|by vm_compute]|].
  split; [|vm_compute; reflexivity]. exists 4%Z, NewDawg, [true; true]. split; [done|]. vm_compute; reflexivity.
Qed.
Print Assumptions C126_ranked_ends_refuted.
Theorem C126_round n g : gd_Child g 99 = Ok 97 -> gd_Child g 3 = Ok 99 -> rb_findMax n round g 99 = Hang /\ rb_findMax n round g 3 = Hang.
Proof.
  intros H1 H2. induction n as [|n [IH1 IH2]]; [done|]. cbn [rb_findMax]. rewrite H1, H2. cbn [mbind res_bind N.eqb negb].
  assert (dc_Follow round 97 99 = Ok (true, 3)) as -> by (vm_compute; reflexivity). assert (dc_Follow round 99 3 = Ok (true, 99)) as -> by (vm_compute; reflexivity). done.
Qed.
Print Assumptions C126_round.
(** BuildGuide makes a guide of them; with the links of findMaxValue above. *)
Example C126_case : match BuildGuide (dawg_of round_keys) round with Ok (Some g) => gd_Child g 99 = Ok 97 /\ gd_Child g 3 = Ok 99 | _ => False end.
Proof. vm_compute. done. Qed.
