(** Properties C45, C47-C49, C55, C68 and C69 of ranked_guide_builder.go,
    ranked_completer.go and ranked_completer_candidate.go.  The vocabulary is in
    RankedSpec.v, GuideSpec.v, DictSpec.v and DawgSpec.v. *)
From Verif Require Import Go Dawg DawgSpec Tree TreeFacts DawgAbs Dict DictInv DictMain DictRep DictSpec DictThms Guide GuideProofs GuideSpec GuideThms Index Ranked RankedProofs Heap HeapProofs RankedCompleter RankedCompleterProofs RankedSpec RankedThms Properties_Dict Properties_Completer.
Local Open Scope N_scope.
Local Arguments N.mul : simpl never.
Local Arguments N.add : simpl never.
Local Arguments N.of_nat : simpl never.
Local Ltac by_vm := lazymatch goal with |- _ /\ _ => split; [vm_compute; reflexivity|by_vm] | _ => vm_compute; reflexivity end.

(** A dictionary and a ranked guide computed from a history, with insertion sort. *)
Definition ranked_try (cmp : Z -> Z -> bool) (h : list entry) : res (option (dict * guide)) := guide_run (build 4 h NewDawg) dict_BuildWithUnused (BuildRankedGuideCmp isort cmp).
Definition ranked_ok (cmp : Z -> Z -> bool) (h : list entry) : bool := try_ok (ranked_try cmp h).
Definition ranked_of (cmp : Z -> Z -> bool) (h : list entry) : dict * guide := try_get (ranked_try cmp h).
Lemma ranked_of_made cmp h : ranked_ok cmp h = true -> made_ranked cmp h (ranked_of cmp h).1 (ranked_of cmp h).2.
Proof.
  intros H. apply try_get_ok in H. destruct (guide_run_ok _ _ _ _ _ H) as (rs & d & un & E1 & E2 & E3).
  exists d, isort. split; [apply isort_sorter|]. split; [|exact E3]. exists 4%Z, NewDawg, rs, un. split; [split; reflexivity || discriminate|]. exact (conj E1 E2).
Qed.
Lemma made_default_ranked h us g : made_default h us g <-> made_ranked Z.ltb h us g.
Proof. reflexivity. Qed.
Local Ltac ranked_vm := lazymatch goal with |- made_default _ _ _ => apply (proj2 (made_default_ranked _ _ _)) | _ => idtac end; apply ranked_of_made; vm_compute; reflexivity.
(** All outputs, computed. *)
Fixpoint run_out (n : nat) (us : dict) (g : guide) (c : rcomp) : option (list (list N * Z * Z)) :=
  match n with
  | O => None
  | S n' =>
      match rc_Next us g c with
      | Ok (true, c') => match run_out n' us g c' with Some l => Some ((rc_Key c', rc_Length c', rc_Value c') :: l) | None => None end
      | Ok (false, _) => Some []
      | _ => None
      end
  end.
Lemma run_out_ok n us g : forall c l, run_out n us g c = Some l -> routputs us g c l.
Proof.
  induction n as [|n IH]; intros c l H; [done|]. cbn [run_out] in H. destruct (rc_Next us g c) as [[[|] c']| |] eqn:E; [| |done|done].
  - destruct (run_out n us g c') as [l'|] eqn:E2; [|done]. injection H as <-. eapply rout_step; [exact E|]. by apply IH.
  - injection H as <-. by eapply rout_end.
Qed.
(** C68. The ranked guide of a dictionary is built, whatever the comparator. *)
Theorem C68_ranked_built sort cmp h d us : sorter sort -> hist_ok h -> made_dawg h d us -> exists g, BuildRankedGuideCmp sort cmp d us = Ok (Some g) /\
  length g = (if decide (accepted h = []) then 0%nat else length us).
Proof.
  intros Hso Hh Hm. destruct (ranked_cases sort cmp h d us Hso Hh Hm) as (R & g & He & Hw & _ & Hg & Hc). exists g. split; [exact Hg|].
  destruct Hc as [(-> & -> & ->)|(HR & Hg0 & node & _ & HG)].
  - rewrite decide_True; [done|]. by apply (nil_iff h [] He Hw).
  - rewrite decide_False; [apply HG|]. intros Ha. apply HR. by apply (nil_iff h R He Hw).
Qed.
Print Assumptions C68_ranked_built.
Example C68_case : sorter isort /\ ranked_ok Z.ltb dex_h = true /\ ranked_ok Z.gtb dex_h = true /\ length (ranked_of Z.gtb dex_h).2 = 256%nat /\ (ranked_of Z.ltb []).2 = [].
Proof. split; [apply isort_sorter|]. by_vm. Qed.

(** C69. With any comparator, from any prefix (the empty key included) and for any
    earlier state: every entry below the prefix once, with a NUL after the key. *)
Section start.
  Context (cmp : Z -> Z -> bool) (h : list entry) (us : dict) (g : guide) (Hh : hist_ok h) (Hm : made_ranked cmp h us g).
  Context (p : list N) (i : N) (Hst : started us h p i).
  Definition shown (P : list N) (kv : entry) : list N * Z * Z := (P ++ kv.1 ++ [0], Z.of_nat (length (P ++ kv.1)), kv.2).
  Lemma start_cases c P : exists c0, rc_StartString us g c i P = Ok c0 /\
    ((residual (entries h) p = [] /\ c0 = mkRC P (length P) (-1) [] [] [] /\ g = []) \/
     exists sort R node es, sorter sort /\ drep us R node /\ rgrep sort cmp us node g /\ node i es /\ residual (entries h) p = map (fun kv => (kv.1, Z.of_N kv.2)) (ent_es es) /\
       ready us node sort cmp g es P c0 (mx sort cmp (Node es)) (ent_es es) /\
       (exists ns t, rc_expand us g (rc_value c0) (rc_nq c0) (rc_nodes c0) (rc_cq c0) = Ok (ns, [(t, mx sort cmp (Node es))])) /\
       wfe es /\ exists x, readyq us node sort cmp g es P c0 (mx sort cmp (Node es)) (ent_es es) [x]).
  Proof using Hh Hm Hst.
    destruct Hm as (d & sort & Hso & Hd & Hg). destruct (ranked_cases sort cmp h d us Hso Hh Hd) as (R & g' & He & Hw & Hsz & Hg' & Hc). rewrite Hg in Hg'. injection Hg' as <-.
    destruct Hst as [Hp Hi]. destruct Hc as [(-> & -> & ->)|(HR & Hg0 & node & HP & HG)].
    - exists (mkRC P (length P) (-1) [] [] []). split.
      + unfold rc_StartString, rc_StartStringLen. rewrite (proj2 (Z.ltb_ge _ _)) by lia. rewrite Z.ltb_irrefl. by rewrite Nat2Z.id, firstn_all.
      + left. split; [|done]. rewrite (entries_ent h [] He). done.
    - assert (exists es, tnode R p es) as [es Ht] by (destruct Hp as [->|Hp]; [exists R; constructor|by apply (prefix_tnode h R He Hw p HR)]).
      destruct (node_prefix us R node p es HP Ht) as (i' & Hf & Hn & _). rewrite Hi in Hf. injection Hf as <-.
      destruct (Start_ok us R node HP sort cmp Hso g HG es P c i Hg0 Hn) as (c0 & Hc0 & (x & Hr) & _ & Hex).
      { pose proof (tnode_nedges R p es Ht) as H1. destruct Hh as [_ Hh']. unfold nedges_es in Hsz. cbn [nedges] in H1. unfold two32. cbn [nedges]. lia. }
      exists c0. split; [exact Hc0|]. right. exists sort, R, node, es. split; [exact Hso|]. split; [exact HP|]. split; [exact HG|]. split; [exact Hn|].
      split; [by rewrite (entries_ent h R He), residual_map, (residual_tnode R p es Hw Ht)|]. split; [by exists [x]|]. split; [exact Hex|]. split; [by apply (tnode_wf R p es Hw Ht)|by exists x].
  Qed.
  Theorem C69_ranked_enumeration c P : exists c0 es, rc_StartString us g c i P = Ok c0 /\ es ≡ₚ residual (entries h) p /\ routputs us g c0 (map (shown P) es).
  Proof using Hh Hm Hst.
    destruct (start_cases c P) as (c0 & Hc0 & [(He & -> & ->)|(sort & R & node & es & Hso & HP & HG & Hn & He & Hr & _)]).
    - eexists _, []. split; [exact Hc0|]. rewrite He. split; [done|]. eapply rout_end. cbn. done.
    - destruct (routs us R node HP sort cmp Hso g HG es P _ c0 _ _ eq_refl Hr) as (E' & HE & Ho & _).
      exists c0, (map (fun kv => (kv.1, Z.of_N kv.2)) E'). split; [exact Hc0|]. split; [rewrite He; by apply Permutation_map|]. rewrite map_map.
      erewrite map_ext; [exact Ho|]. by intros [].
  Qed.
  (** Next never panics, and after the end there is nothing more. *)
  Theorem C69_ranked_total c P c0 c1 : rc_StartString us g c i P = Ok c0 -> rnexts us g c0 c1 -> exists b c2, rc_Next us g c1 = Ok (b, c2) /\
    (b = false -> exists c3, rc_Next us g c2 = Ok (false, c3)).
  Proof using Hh Hm Hst.
    intros Hc Hn. destruct (start_cases c P) as (c0' & Hc0 & Hcs). rewrite Hc in Hc0. injection Hc0 as <-.
    destruct Hcs as [(He & -> & ->)|(sort & R & node & es & Hso & HP & HG & _ & He & Hr & _)].
    - assert (E : forall c, rnexts us [] (mkRC P (length P) (-1) [] [] []) c -> c = mkRC P (length P) (-1) [] [] []).
      { clear. intros c'. remember (mkRC P (length P) (-1) [] [] []) as cc eqn:Ecc. induction 1 as [cc|cc c' c'' b _ IH H]; [done|]. rewrite (IH Ecc) in H. subst cc. unfold rc_Next in H. cbn in H. injection H as _ <-. done. }
      rewrite (E c1 Hn). cbn. eexists false, _. split; [done|]. intros _. by eexists.
    - destruct (rnexts_ready us R node HP sort cmp Hso g HG es P c0 c1 _ _ Hr Hn) as (L & E & Hr1).
      destruct (Next_ok us R node HP sort cmp Hso g HG es P c1 L E Hr1) as [(-> & c2 & H2 & Hr2 & _)|(k & v & E1 & c2 & HE & H2 & _)].
      + exists false, c2. split; [exact H2|]. intros _. destruct (Next_ok us R node HP sort cmp Hso g HG es P c2 L [] Hr2) as [(_ & c3 & H3 & _)|(k & v & E1 & c3 & HE & _)]; [by exists c3|].
        by apply Permutation_nil_cons in HE.
      + exists true, c2. done.
  Qed.
End start.
Print Assumptions C69_ranked_enumeration.
Print Assumptions C69_ranked_total.
Definition rex_h : list entry := [([], 4%Z); ([97], 2%Z); ([97; 98], 9%Z); ([97; 98; 99], 9%Z); ([97; 99], 1%Z); ([98], 7%Z)].
Lemma rex_ok : hist_ok rex_h.
Proof. split; [|by vm_compute]. unfold rex_h, key_ok. repeat constructor. Qed.
Example C69_case : hist_ok rex_h /\ made_ranked Z.gtb rex_h (ranked_of Z.gtb rex_h).1 (ranked_of Z.gtb rex_h).2 /\
  (exists i, started (ranked_of Z.gtb rex_h).1 rex_h [] i) /\ length (residual (entries rex_h) []) = 6%nat.
Proof. split; [apply rex_ok|]. split; [ranked_vm|]. split; [|done]. exists 0. by split; [left|]. Qed.

Lemma ranked_sorted vs : StronglySorted (fun a b => b <= a)%Z vs -> ranked Z.ltb vs.
Proof. intros Hs i j v w Hij Hv Hw. apply Z.ltb_ge. by apply (sorted_at (fun a b => b <= a)%Z vs i j). Qed.
(** C47, with the NUL at the end of Key(): from any prefix, the entries whose keys
    start with it, each once, by non-increasing value. *)
Theorem C47_ranked_order h us g p i c : hist_ok h -> made_default h us g -> started us h p i ->
  exists c0 es, rc_StartString us g c i p = Ok c0 /\ es ≡ₚ with_prefix p (entries h) /\ ranked Z.ltb es.*2 /\
    routputs us g c0 (map (fun kv => (kv.1 ++ [0], Z.of_nat (length kv.1), kv.2)) es).
Proof.
  intros Hh Hm Hst. apply made_default_ranked in Hm. destruct (start_cases Z.ltb h us g Hh Hm p i Hst c p) as (c0 & Hc0 & [(He & -> & ->)|(sort & R & node & es & Hso & HP & HG & Hn & He & Hr & _)]).
  - eexists _, []. split; [exact Hc0|]. rewrite <- residual_prefix, He. split; [done|]. split; [by intros ? ? ? ? ? ?|]. eapply rout_end. cbn. done.
  - destruct (routs us R node HP sort Z.ltb Hso g HG es p _ c0 _ _ eq_refl Hr) as (E' & HE & Ho & Hd). destruct (Hd (ltb_dec sort Hso)) as [Hss _].
    exists c0, (map (fun kv => (p ++ kv.1, Z.of_N kv.2)) E'). split; [exact Hc0|]. split.
    + rewrite <- residual_prefix, He, map_map. cbn [fst snd]. by apply Permutation_map.
    + split.
      * apply ranked_sorted. change (map ?f ?l) with (f <$> l) in *. rewrite <- list_fmap_compose. exact Hss.
      * rewrite map_map. erewrite map_ext; [exact Ho|]. intros [k v]. unfold rout_of. cbn [fst snd]. by rewrite <- app_assoc.
Qed.
Print Assumptions C47_ranked_order.
(** What a ranked completer gives is unique. *)
Theorem C47_outputs_unique us g c l l' : routputs us g c l -> routputs us g c l' -> l = l'.
Proof.
  intros H. revert l'. induction H as [c c' H|c c' l H1 _ IH]; intros l' H'; destruct H' as [c c2 H'|c c2 l2 H1' H3'].
  - done.
  - rewrite H in H1'. done.
  - rewrite H1 in H'. done.
  - rewrite H1 in H1'. injection H1' as <-. f_equal. by apply IH.
Qed.
Print Assumptions C47_outputs_unique.
Example C47_case : made_default rex_h (ranked_of Z.ltb rex_h).1 (ranked_of Z.ltb rex_h).2 /\ started (ranked_of Z.ltb rex_h).1 rex_h [] 0 /\
  exists c0, rc_Start (ranked_of Z.ltb rex_h).1 (ranked_of Z.ltb rex_h).2 NewRankedCompleter 0 = Ok c0 /\
    routputs (ranked_of Z.ltb rex_h).1 (ranked_of Z.ltb rex_h).2 c0
      [([97; 98; 0], 2%Z, 9%Z); ([97; 98; 99; 0], 3%Z, 9%Z); ([98; 0], 1%Z, 7%Z); ([0], 0%Z, 4%Z); ([97; 0], 1%Z, 2%Z); ([97; 99; 0], 2%Z, 1%Z)].
Proof.
  split; [ranked_vm|]. split; [by split; [left|]|]. eexists. split; [vm_compute; reflexivity|]. apply (run_out_ok 7). by vm_compute.
Qed.

(** C48 is false: Key() has a NUL at its end. *)
Theorem C48_ranked_key_refuted : exists h us g c0 c1 v, hist_ok h /\ made_default h us g /\ entries h = [([97], v)] /\
  rc_Start us g NewRankedCompleter 0 = Ok c0 /\ rc_Next us g c0 = Ok (true, c1) /\ rc_Key c1 = [97; 0] /\ rc_Length c1 = 1%Z.
Proof.
  exists [([97], 5%Z)], (ranked_of Z.ltb [([97], 5%Z)]).1, (ranked_of Z.ltb [([97], 5%Z)]).2. eexists _, _, _.
  split; [by apply one_ok|]. split; [ranked_vm|]. by_vm.
Qed.
Print Assumptions C48_ranked_key_refuted.

(** C49 is false: the queue of candidates ignores the comparator. *)
Lemma gtb_total : total_order Z.gtb.
Proof.
  split; [|split].
  - intros a. rewrite Z.gtb_ltb. apply Z.ltb_irrefl.
  - intros a b c. rewrite !Z.gtb_ltb, !Z.ltb_lt. lia.
  - intros a b. rewrite !Z.gtb_ltb, !Z.ltb_lt. lia.
Qed.
Theorem C49_comparator_refuted : exists cmp h us g c0 l, total_order cmp /\ hist_ok h /\ made_ranked cmp h us g /\
  rc_Start us g NewRankedCompleter 0 = Ok c0 /\ routputs us g c0 l /\ ~ ranked cmp (map snd l).
Proof.
  exists Z.gtb, rex_h, (ranked_of Z.gtb rex_h).1, (ranked_of Z.gtb rex_h).2. eexists _, _. split; [apply gtb_total|]. split; [apply rex_ok|]. split; [ranked_vm|].
  split; [vm_compute; reflexivity|]. split; [apply (run_out_ok 7); vm_compute; reflexivity|]. intros H. specialize (H 2%nat 3%nat 7%Z 2%Z). discriminate H; [lia|done|done].
Qed.
Print Assumptions C49_comparator_refuted.
(** C49 holds for the first completion, which is a best one, and all entries below
    the prefix come out once.  Missing: that the others come ranked, which is false; the
    order in which they come is C107. *)
Theorem C49_comparator_partial cmp h us g p i c : total_order cmp -> hist_ok h -> made_ranked cmp h us g -> started us h p i ->
  exists c0 es, rc_StartString us g c i p = Ok c0 /\ es ≡ₚ with_prefix p (entries h) /\
    routputs us g c0 (map (fun kv => (kv.1 ++ [0], Z.of_nat (length kv.1), kv.2)) es) /\
    forall kv kv', head es = Some kv -> kv' ∈ es -> cmp kv.2 kv'.2 = false.
Proof.
  intros Ht Hh Hm Hst. destruct (start_cases cmp h us g Hh Hm p i Hst c p) as (c0 & Hc0 & [(He & -> & ->)|(sort & R & node & es & Hso & HP & HG & Hn & He & Hr & (ns & t & Hex) & _)]).
  - eexists _, []. split; [exact Hc0|]. rewrite <- residual_prefix, He. split; [done|]. split; [|done]. eapply rout_end. cbn. done.
  - destruct (routs us R node HP sort cmp Hso g HG es p _ c0 _ _ eq_refl Hr) as (E' & HE & Ho & _).
    exists c0, (map (fun kv => (p ++ kv.1, Z.of_N kv.2)) E'). split; [exact Hc0|]. split; [|split].
    + rewrite <- residual_prefix, He, map_map. cbn [fst snd]. by apply Permutation_map.
    + rewrite map_map. erewrite map_ext; [exact Ho|]. intros [k v]. unfold rout_of. cbn [fst snd]. by rewrite <- app_assoc.
    + intros [k v] [k' v'] Hhd Hin. cbn [snd]. destruct E' as [|[k0 v0] E']; [done|]. cbn [map head fst snd] in Hhd. injection Hhd as <- <-.
      apply elem_of_list_fmap in Hin as ([k1 v1] & [= -> ->] & Hin). rewrite HE in Hin.
      assert (Hw : wf (Node es)) by (eapply rp_wf; [exact HP|exact Hn]).
      destruct (Next_ok us R node HP sort cmp Hso g HG es p c0 _ _ Hr) as [(E0 & _)|(k2 & v2 & E1 & c1 & _ & Hnx & _ & Hv & _ & _ & Hcq)].
      { rewrite E0 in Hin. by apply elem_of_nil in Hin. }
      destruct (Hcq _ _ Hex) as (t' & Ht'%elem_of_list_singleton). injection Ht' as -> Hv2.
      assert (Hv0 : Z.of_N v0 = rc_value c1).
      { cbn [map] in Ho. inversion Ho as [|? c2 ? Hn2 _ Hk]; subst. rewrite Hnx in Hn2. injection Hn2 as <-. done. }
      rewrite Hv0, Hv, Hv2. by apply (mx_best sort cmp Hso Ht (Node es) k1 v1).
Qed.
Print Assumptions C49_comparator_partial.
Example C49_case : total_order Z.gtb /\ made_ranked Z.gtb rex_h (ranked_of Z.gtb rex_h).1 (ranked_of Z.gtb rex_h).2 /\ started (ranked_of Z.gtb rex_h).1 rex_h [] 0.
Proof. split; [apply gtb_total|]. split; [ranked_vm|]. by split; [left|]. Qed.

(** C45 is false: BuildIndex and the Indexer stop at a terminator, which a ranked
    guide may put before other children. *)
Definition rix_h : list entry := [([97], 5%Z); ([97; 98], 3%Z)].
Theorem C45_ranked_index_refuted : exists h us g ix, hist_ok h /\ length (accepted h) = 2%nat /\ made_default h us g /\ BuildIndex us g = Ok (Some ix) /\
  ix_TotalCount ix = Ok 1 /\ ir_BytesToIndex us g ix [97; 98] = Ok NotFound.
Proof.
  exists rix_h, (ranked_of Z.ltb rix_h).1, (ranked_of Z.ltb rix_h).2. eexists. split; [split; [unfold rix_h, key_ok; repeat constructor|by vm_compute]|]. split; [done|]. split; [ranked_vm|]. by_vm.
Qed.
Print Assumptions C45_ranked_index_refuted.

(** C55. The queue of candidates: [queue_of q l] when [q] is reached by pushes and
    pops, and [l] lists what was pushed and not popped. *)
Inductive queue_of : list cand -> list cand -> Prop :=
| qo_new : queue_of [] []
| qo_push q q' l x : queue_of q l -> hp_Push cand_less q x = Ok q' -> queue_of q' (x :: l)
| qo_pop q q' l l' x : queue_of q l -> hp_Pop cand_less q = Ok (x, q') -> l ≡ₚ x :: l' -> queue_of q' l'.
Lemma queue_inv q l : queue_of q l -> hp cand_less q /\ q ≡ₚ l.
Proof.
  induction 1 as [|q q' l x _ [Hh Hp] H|q q' l l' x _ [Hh Hp] H Hl].
  - split; [apply hp_nil|done].
  - destruct (Push_ok cand_less cand_weak q x Hh) as (q2 & H2 & Hp2 & Hh2). rewrite H in H2. injection H2 as <-. split; [done|]. by rewrite Hp2, Hp.
  - assert (Hne : q <> []) by (intros ->; discriminate H). destruct (Pop_ok cand_less cand_weak q Hh Hne) as (x2 & q2 & H2 & _ & Hp2 & Hh2). rewrite H in H2. injection H2 as <- <-.
    split; [done|]. apply (Permutation_cons_inv (a := x)). by rewrite <- Hp2, Hp.
Qed.
Theorem C55_heap q l : queue_of q l ->
  q ≡ₚ l /\ (forall x, exists q', hp_Push cand_less q x = Ok q') /\
  (l <> [] -> exists x q' l', q !! 0%nat = Some x /\ (forall y, y ∈ l -> (y.2 <= x.2)%Z) /\ hp_Pop cand_less q = Ok (x, q') /\ l ≡ₚ x :: l' /\ queue_of q' l').
Proof.
  intros H. destruct (queue_inv q l H) as [Hh Hp]. split; [exact Hp|]. split.
  - intros x. destruct (Push_ok cand_less cand_weak q x Hh) as (q' & Hq & _). by exists q'.
  - intros Hl. assert (Hne : q <> []) by (intros ->; by apply Permutation_nil in Hp). destruct (Pop_ok cand_less cand_weak q Hh Hne) as (x & q' & Hq & H0 & Hp' & _).
    exists x, q', q'. split; [exact H0|]. split.
    + intros y Hy. rewrite <- Hp in Hy. apply cand_top. by apply (hp_top cand_less cand_weak q x y Hh H0).
    + split; [exact Hq|]. assert (Hlx : l ≡ₚ x :: q') by (by rewrite <- Hp). split; [exact Hlx|]. by apply (qo_pop q q' l q' x).
Qed.
Print Assumptions C55_heap.
Example C55_case : exists q, queue_of q [(3, 5%Z); (2, 9%Z); (1, 5%Z)] /\ q = [(2, 9%Z); (1, 5%Z); (3, 5%Z)].
Proof. eexists. split; [|reflexivity]. eapply qo_push; [eapply qo_push; [eapply qo_push; [apply qo_new|]|]|]; vm_compute; reflexivity. Qed.
