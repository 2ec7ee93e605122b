(** Property C107: the order in which the completer of ranked_completer.go gives its
    completions, whatever the comparator of the guide (ranked_guide_builder.go); what C49
    becomes.  The vocabulary is in RankedOrderSpec.v, RankedIndexSpec.v, RankedSpec.v,
    GuideSpec.v, DictSpec.v and DawgSpec.v. *)
From Verif Require Import Go Dawg DawgSpec Tree TreeFacts DawgAbs Dict DictRep DictSpec Guide GuideSpec Ranked RankedProofs RankedCompleter RankedCompleterProofs RankedSpec RankedThms RankedIndexSpec IndexRanked RankedOrderSpec RankedOrder Properties_Dict Properties_Completer Properties_Ranked.
Local Open Scope N_scope.
Local Arguments N.mul : simpl never.
Local Arguments N.add : simpl never.
Local Arguments N.of_nat : simpl never.
Local Ltac ranked_vm := apply ranked_of_made; vm_compute; reflexivity.

Lemma routputs_fun us g c l : routputs us g c l -> forall l', routputs us g c l' -> l = l'.
Proof.
  induction 1 as [c c' H|c c' l H _ IH]; intros l' H'; inversion H' as [? ? H2|? ? ? H2 H3]; subst; rewrite H in H2; try discriminate H2; [done|].
  injection H2 as <-. by rewrite (IH _ H3).
Qed.
(** The entries below [p], after the bytes [P] with which the completer was started. *)
Definition below (h : list entry) (p P : list N) : list entry := map (fun kv => (P ++ kv.1, kv.2)) (residual (entries h) p).
Definition given (kv : entry) : list N * Z * Z := (kv.1 ++ [0], Z.of_nat (length kv.1), kv.2).
(** C107. All entries below the prefix, each one once, and in one order: next is, of
    the open keys, one with the greatest value, and of these the one opened last. *)
Theorem C107_order cmp h us g p P i c : total_order cmp -> hist_ok h -> made_ranked cmp h us g -> started us h p i ->
  exists c0, rc_StartString us g c i P = Ok c0 /\ forall l, routputs us g c0 l <->
    exists es, l = map given es /\ es ≡ₚ below h p P /\ best_first cmp (map ended (below h p P)) (map ended es).
Proof.
  intros Ht Hh Hm Hst.
  enough (exists c0 es, rc_StartString us g c i P = Ok c0 /\ routputs us g c0 (map given es) /\ es ≡ₚ below h p P /\ best_first cmp (map ended (below h p P)) (map ended es)) as (c0 & es & Hc & Ho & Hp & Hb).
  { exists c0. split; [exact Hc|]. intros l. split.
    - intros Hl. exists es. split; [exact (routputs_fun _ _ _ _ Hl _ Ho)|done].
    - intros (es' & -> & Hp' & Hb'). enough (es' = es) as -> by exact Ho.
      assert (H : map ended es' = map ended es) by (apply (best_first_unique cmp (map ended (below h p P))); [by apply Permutation_map|by apply Permutation_map|done|done]).
      apply (fmap_inj ended) in H; [done|]. intros [k v] [k' v'] [= H1 ->]. by apply app_inj_2 in H1 as [-> _]. }
  destruct (start_cases cmp h us g Hh Hm p i Hst c P) as (c0 & Hc0 & [(He & -> & ->)|(sort & R & node & es & Hso & HP & HG & Hn & He & _ & _ & Hw & x & Hr)]).
  - eexists _, []. split; [exact Hc0|]. unfold below. rewrite He. split; [eapply rout_end; cbn; done|]. split; [done|]. intros n kv H. done.
  - destruct (outs_best sort cmp Hso es Hw us R node HP g HG P _ [] c0 _ _ _ eq_refl Hr) as (E' & HE & Ho & Hb); [done| |].
    { intros j1 j2 y z Hy%elem_of_list_singleton Hz%elem_of_list_singleton Hj. rewrite <- Hy in Hz. injection Hz as <- _. lia. }
    exists c0, (map (fun kv => (P ++ kv.1, Z.of_N kv.2)) E'). split; [exact Hc0|]. split; [|split].
    + rewrite map_map. erewrite map_ext; [exact Ho|]. intros [k v]. unfold rout_of, given. cbn [fst snd]. by rewrite <- app_assoc.
    + unfold below. rewrite He, map_map. cbn [fst snd]. by apply Permutation_map.
    + assert (Hx : map ended (map (fun kv => (P ++ kv.1, Z.of_N kv.2)) E') = map (fun y => (full P y, Z.of_N y.2)) E').
      { rewrite map_map. apply map_ext. intros [k v]. unfold ended, full. cbn [fst snd]. by rewrite <- app_assoc. }
      rewrite Hx. apply (best_first_of sort cmp Hso Ht es Hw P).
      * intros k v. unfold below. rewrite He, !map_map. change (map ?f ?l) with (f <$> l). rewrite elem_of_list_fmap. unfold ended, full. cbn [fst snd]. split.
        -- intros (y & [= -> ->] & Hy). exists y. by rewrite <- app_assoc.
        -- intros (y & Hy & -> & ->). exists y. by rewrite <- app_assoc.
      * intros o Ho'. by rewrite <- HE.
      * exact Hb.
Qed.
Print Assumptions C107_order.
(** With both comparators.  Where "ab", "abc" and "b" have one value, "ab" opens the
    other two, and "b" is next, with no byte in common with it. *)
Definition tie_h : list entry := [([97; 98], 9%Z); ([97; 98; 99], 9%Z); ([98], 9%Z)].
Example C107_case : total_order Z.gtb /\ total_order Z.ltb /\ hist_ok rex_h /\ made_ranked Z.gtb rex_h (ranked_of Z.gtb rex_h).1 (ranked_of Z.gtb rex_h).2 /\
  started (ranked_of Z.gtb rex_h).1 rex_h [] 0 /\
  (exists c0, rc_Start (ranked_of Z.gtb rex_h).1 (ranked_of Z.gtb rex_h).2 NewRankedCompleter 0 = Ok c0 /\
    routputs (ranked_of Z.gtb rex_h).1 (ranked_of Z.gtb rex_h).2 c0
      (map given [([97; 99], 1%Z); ([], 4%Z); ([98], 7%Z); ([97], 2%Z); ([97; 98], 9%Z); ([97; 98; 99], 9%Z)])) /\
  hist_ok tie_h /\ made_ranked Z.ltb tie_h (ranked_of Z.ltb tie_h).1 (ranked_of Z.ltb tie_h).2 /\
  exists c0, rc_Start (ranked_of Z.ltb tie_h).1 (ranked_of Z.ltb tie_h).2 NewRankedCompleter 0 = Ok c0 /\
    routputs (ranked_of Z.ltb tie_h).1 (ranked_of Z.ltb tie_h).2 c0 (map given [([97; 98], 9%Z); ([98], 9%Z); ([97; 98; 99], 9%Z)]).
Proof.
  split; [apply gtb_total|]. split; [split; [apply Z.ltb_irrefl|]; split; intros *; rewrite !Z.ltb_lt; lia|]. split; [apply rex_ok|]. split; [ranked_vm|]. split; [by split; [left|]|].
  split; [eexists; split; [vm_compute; reflexivity|]; apply (run_out_ok 7); vm_compute; reflexivity|].
  split; [split; [unfold tie_h, key_ok; repeat constructor|by vm_compute]|]. split; [ranked_vm|].
  eexists. split; [vm_compute; reflexivity|]. apply (run_out_ok 7). vm_compute. reflexivity.
Qed.
