(** Properties C36-C40, C65, C66 of guide.go, guide_builder.go and completer.go.
    The vocabulary ([made_guide], [outputs], [with_prefix], ...) is in GuideSpec.v,
    DictSpec.v and DawgSpec.v. *)
From Verif Require Import Go Dawg DawgSpec Tree TreeFacts Dict DictInv DictMain DictRep DictSpec DictThms Guide GuideProofs Completer CompleterProofs GuideSpec GuideThms Properties_Dict.
Local Open Scope N_scope.
Local Arguments N.mul : simpl never.
Local Arguments N.add : simpl never.
Local Arguments N.of_nat : simpl never.
Local Ltac by_vm := lazymatch goal with |- _ /\ _ => split; [vm_compute; reflexivity|by_vm] | _ => vm_compute; reflexivity end.

(** A dictionary and a guide computed from a history. *)
Section guide_try.
  Context (rb : res (list bool * dawg)) (bw : dawg -> res (option (dict * N))) (bg : dawg -> dict -> res (option guide)).
  Definition guide_run : res (option (dict * guide)) :=
    rd ← rb; o ← bw rd.2;
    match o with Some (us, _) => g ← bg rd.2 us; Ok (match g with Some g => Some (us, g) | None => None end) | None => Ok None end.
  Lemma guide_run_ok us g : guide_run = Ok (Some (us, g)) -> exists rs d un, rb = Ok (rs, d) /\ bw d = Ok (Some (us, un)) /\ bg d us = Ok (Some g).
  Proof.
    unfold guide_run. destruct rb as [[rs d]| |]; cbn [mbind res_bind snd]; [|done|done].
    destruct (bw d) as [[[us' un]|]| |] eqn:E2; cbn [mbind res_bind]; [|done|done|done].
    destruct (bg d us') as [[g'|]| |] eqn:E3; cbn [mbind res_bind]; [|done|done|done]. intros [= -> ->]. by exists rs, d, un.
  Qed.
End guide_try.
Definition guide_try (h : list entry) : res (option (dict * guide)) := guide_run (build 4 h NewDawg) dict_BuildWithUnused BuildGuide.
Definition try_ok (r : res (option (dict * guide))) : bool := match r with Ok (Some _) => true | _ => false end.
Definition try_get (r : res (option (dict * guide))) : dict * guide := match r with Ok (Some x) => x | _ => ([], []) end.
Lemma try_get_ok r : try_ok r = true -> r = Ok (Some ((try_get r).1, (try_get r).2)).
Proof. by destruct r as [[[]|]| |]. Qed.
Definition guide_ok (h : list entry) : bool := try_ok (guide_try h).
Definition guide_of (h : list entry) : dict * guide := try_get (guide_try h).
Lemma guide_of_made h : guide_ok h = true -> made_guide h (guide_of h).1 (guide_of h).2.
Proof.
  intros H. apply try_get_ok in H. destruct (guide_run_ok _ _ _ _ _ H) as (rs & d & un & E1 & E2 & E3).
  exists d. split; [|exact E3]. exists 4%Z, NewDawg, rs, un. split; [split; reflexivity || discriminate|]. exact (conj E1 E2).
Qed.
Local Ltac guide_vm := apply guide_of_made; vm_compute; reflexivity.

(** C40. The guide of a dictionary is built. *)
Theorem C40_guide_built h d us : hist_ok h -> made_dawg h d us -> exists g, BuildGuide d us = Ok (Some g) /\
  length g = (if decide (accepted h = []) then 0%nat else length us).
Proof.
  intros Hh Hm. destruct (guide_cases h d us Hh Hm) as (R & g & He & Hw & Hg & Hc). exists g. split; [exact Hg|].
  destruct Hc as [(-> & -> & ->)|(HR & Hg0 & b & nb & asg & ff & _ & _ & _ & HG)].
  - rewrite decide_True; [done|]. by apply (nil_iff h [] He Hw).
  - rewrite decide_False; [apply HG|]. intros Ha. apply HR. by apply (nil_iff h R He Hw).
Qed.
Print Assumptions C40_guide_built.
Example C40_case : guide_ok dex_h = true /\ length (guide_of dex_h).2 = 256%nat /\ guide_ok [] = true /\ (guide_of []).2 = [].
Proof. by_vm. Qed.

(** Keys are in increasing order, and what a completer gives is unique. *)
Theorem C36_keys_increase h : increasing (entries h).
Proof. apply entries_inc. Qed.
Print Assumptions C36_keys_increase.
Theorem C36_outputs_unique us g c l l' : outputs us g c l -> outputs us g c l' -> l = l'.
Proof.
  intros H. revert l'. induction H as [c c' H|c c' v l H1 H2 _ IH]; intros l' H'; destruct H' as [c c2 H'|c c2 v2 l2 H1' H2' H3'].
  - done.
  - rewrite H in H1'. done.
  - rewrite H1 in H'. done.
  - rewrite H1 in H1'. injection H1' as <-. rewrite H2 in H2'. injection H2' as <-. f_equal. by apply IH.
Qed.
Print Assumptions C36_outputs_unique.

(** C36 is false: with the empty key in the dictionary the enumeration from the
    root does not end.  It holds, with Key() ending in a NUL, from every other
    prefix and when the empty key is absent. *)
Definition emp_h : list entry := [([], 5%Z); ([97], 1%Z)].
Lemma emp_ok : hist_ok emp_h.
Proof. split; [|by vm_compute]. apply Forall_cons. split; [constructor|]. apply Forall_singleton. by apply Forall_singleton. Qed.
Lemma emp_next : cp_Next (guide_of emp_h).1 (guide_of emp_h).2 (mkComp [0] [0] 0) = Ok (true, mkComp [0] [0] 0).
Proof. by vm_compute. Qed.
Lemma loop_no_outputs us g c : cp_Next us g c = Ok (true, c) -> forall l, ~ outputs us g c l.
Proof.
  intros Hn l H. induction H as [c c' H|c c' v l H _ _ IH]; rewrite Hn in H; [done|]. injection H as <-. by apply IH.
Qed.
Theorem C36_enumeration_refuted : exists h us g c, hist_ok h /\ made_guide h us g /\ cp_Start g NewCompleter 0 = Ok c /\
  forall l, ~ outputs us g c l.
Proof.
  exists emp_h, (guide_of emp_h).1, (guide_of emp_h).2, (mkComp [0] [0] 0). split; [apply emp_ok|].
  split; [guide_vm|]. split; [by vm_compute|]. apply loop_no_outputs, emp_next.
Qed.
Print Assumptions C36_enumeration_refuted.
Definition started (us : dict) (h : list entry) (p : list N) (i : N) : Prop := (p = [] \/ key_prefix h p) /\ dc_FollowString us p 0 = Ok (true, i).
(** For any earlier state of the completer and any prefix P put in front. *)
Theorem C65_enumeration h us g p i c P : hist_ok h -> made_guide h us g -> started us h p i -> (p = [] -> ~ is_key h []) ->
  exists c0, cp_StartString g c i P = Ok c0 /\
    outputs us g c0 (map (fun kv => (P ++ kv.1 ++ [0], Z.of_nat (length (P ++ kv.1)), kv.2)) (residual (entries h) p)).
Proof. intros Hh Hm [Hp Hi] H0. apply (view_outputs h us g p i c P (made_guide_cases h us g Hh Hm) Hp Hi H0). Qed.
Print Assumptions C65_enumeration.
(** With the prefix itself in front: the entries whose keys start with it, each key
    followed by a NUL. *)
Theorem C36_enumeration_partial h us g p i c : hist_ok h -> made_guide h us g -> started us h p i -> (p = [] -> ~ is_key h []) ->
  exists c0, cp_StartString g c i p = Ok c0 /\
    outputs us g c0 (map (fun kv => (kv.1 ++ [0], Z.of_nat (length kv.1), kv.2)) (with_prefix p (entries h))).
Proof.
  intros Hh Hm Hs H0. destruct (C65_enumeration h us g p i c p Hh Hm Hs H0) as (c0 & Hc & Ho). exists c0. split; [done|].
  rewrite <- residual_prefix, map_map. erewrite map_ext; [exact Ho|]. intros [k v]. cbn [fst snd]. by rewrite <- app_assoc.
Qed.
Print Assumptions C36_enumeration_partial.
Example C36_case : made_guide dex_h (guide_of dex_h).1 (guide_of dex_h).2 /\ (exists i, started (guide_of dex_h).1 dex_h [98] i) /\
  with_prefix [98] (entries dex_h) = [([98; 98], 1%Z); ([98; 99], 2147483647%Z)].
Proof.
  split; [guide_vm|]. split; [|done]. eexists. split; [|vm_compute; reflexivity]. right. exists [98; 98], 1%Z. split; [|by exists [98]].
  change (entries dex_h) with [([97; 98], 1%Z); ([97; 99], 2147483647%Z); ([98; 98], 1%Z); ([98; 99], 2147483647%Z); ([99], 7%Z)].
  rewrite !elem_of_cons. auto.
Qed.
(** Key prefixes are reached, so that a start exists for each of them. *)
Theorem C65_reached h us g p : hist_ok h -> made_guide h us g -> p = [] \/ key_prefix h p -> exists i, started us h p i.
Proof. intros Hh Hm Hp. destruct (view_reached h us g p (made_guide_cases h us g Hh Hm) Hp) as [i Hi]. exists i. exact (conj Hp Hi). Qed.
Print Assumptions C65_reached.

(** C37 is false: Key() has a NUL at its end. *)
Theorem C37_key_refuted : exists h us g c0 c1 v, hist_ok h /\ made_guide h us g /\ entries h = [([97], v)] /\
  cp_Start g NewCompleter 0 = Ok c0 /\ cp_Next us g c0 = Ok (true, c1) /\ cp_Key c1 = [97; 0] /\ cp_Length c1 = 1%Z.
Proof.
  exists [([97], 5%Z)], (guide_of [([97], 5%Z)]).1, (guide_of [([97], 5%Z)]).2. eexists _, _, _.
  split; [by apply one_ok|]. split; [guide_vm|]. by_vm.
Qed.
Print Assumptions C37_key_refuted.

(** C38 is false. *)
Theorem C38_termination_refuted : exists h us g c, hist_ok h /\ made_guide h us g /\ is_key h [] /\ cp_Start g NewCompleter 0 = Ok c /\
  forall l, ~ outputs us g c l.
Proof.
  exists emp_h, (guide_of emp_h).1, (guide_of emp_h).2, (mkComp [0] [0] 0). split; [apply emp_ok|].
  split; [guide_vm|]. split; [exists 5%Z; by left|]. split; [by vm_compute|]. apply loop_no_outputs, emp_next.
Qed.
Print Assumptions C38_termination_refuted.
(** C66. The empty key is repeated for ever, whatever the dictionary. *)
Theorem C66_empty_key_repeats h us g c P : hist_ok h -> made_guide h us g -> is_key h [] ->
  exists c0 v, cp_StartString g c 0 P = Ok c0 /\ cp_Next us g c0 = Ok (true, c0) /\ ([], v) ∈ entries h /\ cp_Value us c0 = Ok v /\
    cp_Key c0 = P ++ [0] /\ forall l, ~ outputs us g c0 l.
Proof.
  intros Hh Hm [v Hv]. destruct (made_guide_cases h us g Hh Hm) as (R & He & Hw & [(-> & -> & ->)|(HR & Hg & node & HP & HG)]).
  { rewrite (entries_ent h [] He) in Hv. by apply elem_of_nil in Hv. }
  exists (mkComp (P ++ [0]) [0] 0), v. rewrite start_eq. split; [by destruct g|].
  destruct (proj1 (entry_tnode h R He Hw [] v) Hv) as (es & n & Ht & Hn & ->). assert (Hes : es = R) by (by inversion Ht; subst). subst es.
  assert (Hnx : cp_Next us g (mkComp (P ++ [0]) [0] 0) = Ok (true, mkComp (P ++ [0]) [0] 0)).
  { unfold cp_Next. cbn [cp_stack cp_last N.eqb negb mbind res_bind cp_FindTerminal]. rewrite (rp_has _ _ _ HP 0 R (rp_root _ _ _ HP)). cbn [mbind res_bind].
    rewrite (proj2 (has0_in R Hw)) by (by exists n). done. }
  split; [done|]. split; [apply (entry_tnode h R He Hw); exists R, n; split; [constructor|done]|].
  split; [apply (rp_val _ _ _ HP 0 R n (rp_root _ _ _ HP) Hn)|]. split; [done|].
  by apply loop_no_outputs.
Qed.
Print Assumptions C66_empty_key_repeats.
Example C66_case : made_guide [([], 5%Z)] (guide_of [([], 5%Z)]).1 (guide_of [([], 5%Z)]).2 /\ is_key [([], 5%Z)] [].
Proof. split; [guide_vm|]. exists 5%Z. by left. Qed.

(** C39. Next keeps returning false, and Start forgets what was before. *)
Theorem C39_exhausted h us g p i c P c0 c1 c2 : hist_ok h -> made_guide h us g -> started us h p i -> cp_StartString g c i P = Ok c0 ->
  nexts us g c0 c1 -> cp_Next us g c1 = Ok (false, c2) -> forall c3, nexts us g c2 c3 -> cp_Next us g c3 = Ok (false, c3).
Proof.
  intros Hh Hm [Hp Hi] Hc0 H1 H2.
  assert (Hst : cp_stack c2 = []).
  { destruct (made_guide_cases h us g Hh Hm) as (R & He & Hw & [(-> & -> & ->)|(HR & Hg & node & HP & HG)]); rewrite start_eq in Hc0.
    - injection Hc0 as <-. assert (Hc1 : cp_stack c1 = []).
      { clear H2. remember (mkComp (P ++ [0]) [] (cp_last c)) as c0 eqn:Ec. induction H1 as [|c0 c1 c1' b _ IH Hn]; [by rewrite Ec|].
        specialize (IH Ec). unfold cp_Next in Hn. rewrite IH in Hn. by injection Hn as _ <-. }
      unfold cp_Next in H2. rewrite Hc1 in H2. by injection H2 as <-.
    - assert (exists es, tnode R p es) as [es Ht] by (destruct Hp as [->|Hp]; [exists R; constructor|by apply (prefix_tnode h R He Hw p HR)]).
      destruct (node_prefix us R node p es HP Ht) as (i' & Hf & Hn & Hi0). rewrite Hi in Hf. injection Hf as <-.
      assert (Hg0 : good us node c0) by (right; left; exists P, i, es; split; [destruct g; congruence|done]).
      pose proof (good_nexts us R node HP g HG _ _ Hg0 H1) as Hg1. destruct (good_next us R node HP g HG c1 Hg1) as (b & c' & Hc & _ & Hb).
      rewrite H2 in Hc. injection Hc as <- <-. by apply Hb. }
  clear -Hst. intros c3 H. assert (Hc3 : cp_stack c3 = []).
  { induction H as [|c2 c3 c4 b _ IH Hn]; [done|]. specialize (IH Hst). unfold cp_Next in Hn. rewrite IH in Hn. by injection Hn as _ <-. }
  unfold cp_Next. by rewrite Hc3.
Qed.
Print Assumptions C39_exhausted.
(** Started from any state as from a new completer (with an empty guide only the
    last index is kept, and nothing is given). *)
Theorem C39_start_resets g c i P n : (g <> [] -> cp_StartStringLen g c i P n = cp_StartStringLen g NewCompleter i P n) /\
  (forall us c0, g = [] -> cp_StartStringLen g c i P n = Ok c0 -> cp_Next us g c0 = Ok (false, c0) /\ outputs us g c0 []).
Proof.
  split.
  - intros Hg. unfold cp_StartStringLen. by destruct g.
  - intros us c0 -> H. assert (Hn : cp_Next us [] c0 = Ok (false, c0)); [|split; [done|by eapply out_end]].
    unfold cp_StartStringLen in H. destruct (n <? 0)%Z; [done|]. destruct (_ <? n)%Z; [done|]. by injection H as <-.
Qed.
Print Assumptions C39_start_resets.
Theorem C39_start_len g c i P n : (0 <= n <= Z.of_nat (length P))%Z ->
  cp_StartStringLen g c i P n = cp_StartString g c i (take (Z.to_nat n) P) /\ cp_Start g c i = cp_StartString g c i [].
Proof. intros Hn. split; [by apply start_len|done]. Qed.
Print Assumptions C39_start_len.
Example C39_case : exists c0 c1 c2, cp_Start (guide_of [([97], 5%Z)]).2 NewCompleter 0 = Ok c0 /\
  cp_Next (guide_of [([97], 5%Z)]).1 (guide_of [([97], 5%Z)]).2 c0 = Ok (true, c1) /\
  cp_Next (guide_of [([97], 5%Z)]).1 (guide_of [([97], 5%Z)]).2 c1 = Ok (false, c2).
Proof. eexists _, _, _. by_vm. Qed.
