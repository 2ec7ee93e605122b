(** Property C127: the guide builders (guide_builder.go:21-84,
    ranked_guide_builder.go:15-141) on a dictionary whose units lead nowhere outside. *)
From Verif Require Import Go Dawg DawgSpec Tree TreeFacts DawgFrozen DawgMain DawgAbs DawgNav DictDfs Dict Guide GuideProofs GuideThms Ranked RankedProofs IndexProofs GuideOther GuideEnds GuideClosed Properties_Dict Properties_GuideOther Properties_GuideEnds.
Local Open Scope N_scope.
Local Arguments N.mul : simpl never.
Local Arguments N.add : simpl never.
Local Arguments N.of_nat : simpl never.
Local Arguments N.lxor : simpl never.

(** C127. If there is a set of units, with the root, from which every byte leads to a
    unit, and to one of the set where the label agrees, and their number is a multiple of
    8 ([inside]), then BuildGuide has a result, ... *)
Theorem C127_guide h d us : hist_ok h -> (exists size d0 rs, size_ok size /\ build size h d0 = Ok (rs, d)) -> inside us -> exists r, BuildGuide d us = Ok r.
Proof.
  intros Hh Hb HI. pose proof (C126_guide_ends h d us Hh Hb) as Hends. destruct HI as (H8 & P & HI). destruct Hb as (size & d0 & rs & Hs & Hb). destruct (build_abs h Hh) as (R1 & x & He1 & _ & Hd).
  destruct (Hd size d0 Hs) as (d' & Hb' & HD). rewrite Hb in Hb'. injection Hb' as _ <-. destruct R1 as [|e R1].
  - unfold BuildGuide. cbv zeta. destruct (dawg_size d <=? 1) eqn:E; [by eexists|].
    assert (DawgFix.x_ts x = []) as Hts.
    { destruct (DawgFix.x_ts x) as [|e ts] eqn:E'; [done|]. assert (Hin : e ∈ DawgFix.x_ts x) by (rewrite E'; constructor). by apply (do_in d [] x HD) in Hin as [? _]. }
    pose proof (fz_base _ _ _ (HF d [] x HD)) as Hbs. rewrite Hts in Hbs. apply N.leb_gt in E. unfold dawg_size in E. rewrite Hbs in E. cbn in E. lia.
  - by apply (inside_build us H8 P HI d (e :: R1) x (dawgof_w _ _ _ HD)).
Qed.
Print Assumptions C127_guide.
Lemma ranked_cond sort cmp h d us P f (Q : Prop) : sorter sort -> hist_ok h -> (exists size d0 rs, size_ok size /\ build size h d0 = Ok (rs, d)) -> (length us mod 8 = 0)%nat -> shut us P ->
  (Q -> falls us P f) -> match BuildRankedGuideCmp sort cmp d us with Ok _ => True | Panic => False | Hang => ~ Q end.
Proof.
  intros Hso Hh (size & d0 & rs & Hs & Hb) H8 HI Hf. destruct (build_abs h Hh) as (R1 & x & He1 & _ & Hd). destruct (Hd size d0 Hs) as (d' & Hb' & HD).
  rewrite Hb in Hb'. injection Hb' as _ <-. destruct R1 as [|e R1].
  - unfold BuildRankedGuideCmp. cbv zeta. destruct (dawg_size d <=? 1) eqn:E; [done|].
    assert (DawgFix.x_ts x = []) as Hts.
    { destruct (DawgFix.x_ts x) as [|e ts] eqn:E'; [done|]. assert (Hin : e ∈ DawgFix.x_ts x) by (rewrite E'; constructor). by apply (do_in d [] x HD) in Hin as [? _]. }
    pose proof (fz_base _ _ _ (HF d [] x HD)) as Hbs. rewrite Hts in Hbs. apply N.leb_gt in E. unfold dawg_size in E. rewrite Hbs in E. cbn in E. lia.
  - by apply (rinside_build us H8 P HI d (e :: R1) x (dawgof_w _ _ _ HD) sort cmp (proj1 Hso) Q f Hf).
Qed.
(** ... and the ranked builder does not panic, for any comparison; ... *)
Theorem C127_ranked sort cmp h d us : sorter sort -> hist_ok h -> (exists size d0 rs, size_ok size /\ build size h d0 = Ok (rs, d)) -> inside us ->
  BuildRankedGuideCmp sort cmp d us <> Panic.
Proof.
  intros Hso Hh Hb (H8 & P & HI) E. pose proof (ranked_cond sort cmp h d us P (fun _ => 0%nat) False Hso Hh Hb H8 HI) as H. rewrite E in H. by apply H.
Qed.
Print Assumptions C127_ranked.
(** ... it has a result, if no units of the set lead back to themselves: if they have
    heights that grow less from unit to unit ([falls]). *)
Theorem C127_ranked_result sort cmp h d us P f : sorter sort -> hist_ok h -> (exists size d0 rs, size_ok size /\ build size h d0 = Ok (rs, d)) ->
  (length us mod 8 = 0)%nat -> shut us P -> falls us P f -> exists r, BuildRankedGuideCmp sort cmp d us = Ok r.
Proof.
  intros Hso Hh Hb H8 HI Hf. pose proof (ranked_cond sort cmp h d us P f True Hso Hh Hb H8 HI (fun _ => Hf)) as H.
  destruct (BuildRankedGuideCmp sort cmp d us) as [r| |]; [by exists r|done|]. by destruct (H I).
Qed.
Print Assumptions C127_ranked_result.

(** The units of C126, on which BuildRankedGuide does not end, are such; so are those of
    "ab" (5). *)
Definition shut_ck (us : dict) (ps : list N) : bool := existsb (N.eqb 0) ps && forallb (fun i => match us !! N.to_nat i with None => false | Some u =>
  forallb (fun l => let t := N.lxor (N.lxor i (dictOffset u)) l in match us !! N.to_nat t with None => false | Some n => (l =? 0) || negb (dictLabel n =? l) || existsb (N.eqb t) ps end)
    (N.of_nat <$> seq 0 256) end) ps.
Lemma shut_ck_ok us ps : shut_ck us ps = true -> shut us (fun i => i ∈ ps).
Proof.
  assert (Hex : forall t, existsb (N.eqb t) ps = true -> t ∈ ps) by (intros t (y & Hy & E)%existsb_exists; apply N.eqb_eq in E as <-; by apply elem_of_list_In).
  intros [H0 H]%andb_prop. split; [by apply Hex|]. intros i Hi. rewrite forallb_forall in H. specialize (H i (proj1 (elem_of_list_In _ _) Hi)).
  destruct (us !! N.to_nat i) as [u|]; [|done]. exists u. split; [done|]. intros l Hl. rewrite forallb_forall in H.
  assert (Hin : l ∈ N.of_nat <$> seq 0 256) by (apply elem_of_list_fmap; exists (N.to_nat l); split; [lia|apply elem_of_seq; lia]).
  specialize (H l (proj1 (elem_of_list_In _ _) Hin)). cbv zeta in H. destruct (us !! _) as [n|]; [|done]. exists n. split; [done|]. intros Hl0 El.
  rewrite (proj2 (N.eqb_neq _ _) Hl0), (proj2 (N.eqb_eq _ _) El) in H. by apply Hex.
Qed.
Example C127_round : inside round.
Proof. split; [done|]. eexists. apply (shut_ck_ok _ [0; 3; 99; 100]). vm_compute; reflexivity. Qed.
Example C127_ab : inside (dict_of [([97; 98], 5%Z)]) /\ BuildGuide (dawg_of [([97; 99], 5%Z)]) (dict_of [([97; 98], 5%Z)]) = Ok None.
Proof. split; [|vm_compute; reflexivity]. split; [vm_compute; reflexivity|]. eexists. apply (shut_ck_ok _ [0; 1; 3]). vm_compute; reflexivity. Qed.
Definition falls_ck (us : dict) (ps : list N) (f : N -> nat) : bool := forallb (fun i => Nat.leb (f i) (length us) &&
  forallb (fun l => (l =? 0) || match dc_Follow us l i with Ok (true, j) => Nat.ltb (f j) (f i) | _ => true end) (N.of_nat <$> seq 0 256)) ps.
Lemma falls_ck_ok us ps f : falls_ck us ps f = true -> falls us (fun i => i ∈ ps) f.
Proof.
  intros H i Hi. unfold falls_ck in H. rewrite forallb_forall in H. specialize (H i (proj1 (elem_of_list_In _ _) Hi)). apply andb_prop in H as [H1 H]. split; [by apply Nat.leb_le|].
  intros l j Hl0 Hl Hfo. rewrite forallb_forall in H.
  assert (Hin : l ∈ N.of_nat <$> seq 0 256) by (apply elem_of_list_fmap; exists (N.to_nat l); split; [lia|apply elem_of_seq; lia]).
  specialize (H l (proj1 (elem_of_list_In _ _) Hin)). cbv beta in H. rewrite (proj2 (N.eqb_neq _ _) Hl0), Hfo in H. by apply Nat.ltb_lt.
Qed.
Example C127_falls : exists P f, shut (dict_of [([97; 98], 5%Z)]) P /\ falls (dict_of [([97; 98], 5%Z)]) P f.
Proof.
  exists (fun i => i ∈ [0; 1; 3]), (fun i => if (i =? 0)%N then 2%nat else if (i =? 1)%N then 1%nat else 0%nat).
  split; [apply shut_ck_ok; vm_compute; reflexivity|apply falls_ck_ok; vm_compute; reflexivity].
Qed.
(** A root that leads back to itself: no heights fall, and BuildRankedGuide has a result
    nonetheless, with the dawg of "aa". *)
Definition self : dict := <[0%nat := 97 + 256 + 97 * 1024]> (replicate 256 0).
Example C127_self : inside self /\ dc_Follow self 97 0 = Ok (true, 0) /\ match BuildRankedGuide isort (dawg_of [([97; 97], 1%Z)]) self with Ok (Some g) => gd_Child g 0 = Ok 97 | _ => False end.
Proof. split; [|split; vm_compute; reflexivity]. split; [done|]. eexists. apply (shut_ck_ok _ [0]). vm_compute; reflexivity. Qed.
