(** Property C123: BuildGuide (guide_builder.go:21-84) with a Dawg and a dictionary
    that were not made from the same keys. *)
From Verif Require Import Go Dawg DawgSpec Tree TreeFacts DawgFrozen DawgMain DawgAbs DawgNav DictDfs Dict DictUnit DictInv DictRead DictMain DictRep DictSpec DictThms Guide GuideProofs Completer CompleterProofs GuideSpec GuideThms Index IndexProofs DictWrong IndexWrong GuideOther Properties_Dict Properties_Completer Properties_Index Properties_Wrong Properties_Exact.
Local Open Scope N_scope.
Local Arguments N.mul : simpl never.
Local Arguments N.add : simpl never.
Local Arguments N.of_nat : simpl never.
Local Arguments N.lxor : simpl never.
Local Ltac by_vm := lazymatch goal with |- _ /\ _ => split; [vm_compute; reflexivity|by_vm] | _ => vm_compute; reflexivity end.

(** [d] is a Dawg made from [h1], [us] a dictionary made from [h2]. *)
Definition pair_of (h1 h2 : list entry) (d : dawg) (us : dict) : Prop :=
  hist_ok h1 /\ hist_ok h2 /\ (exists size d0 rs, size_ok size /\ build size h1 d0 = Ok (rs, d)) /\ made h2 us.

Lemma pair_facts h1 h2 d us : pair_of h1 h2 d us -> accepted h1 <> [] -> accepted h2 <> [] -> exists R1 x R b nb asg ff,
  ent_es R1 = map nentry (accepted h1) /\ wfe R1 /\ R1 <> [] /\ dawgw d R1 x /\
  ent_es R = map nentry (accepted h2) /\ wfe R /\ R <> [] /\ us = db_units b /\ binv b nb (nb - 16) (256 * N.of_nat nb) R asg [] ff /\ drep us R (dn R asg).
Proof.
  intros (Hh1 & Hh2 & (size & d0 & rs & Hs & Hb) & Hm) Ha1 Ha2. destruct (build_abs h1 Hh1) as (R1 & x & He1 & _ & Hd). destruct (Hd size d0 Hs) as (d' & Hb' & HD).
  rewrite Hb in Hb'. injection Hb' as _ <-. assert (Hw1 : wfe R1) by (apply wfe_or, HD).
  destruct (made_cases h2 us Hh2 Hm) as (R & He & Hw & Hc). destruct Hc as [[-> _]|(HR & b & nb & asg & ff & Hus & HB)]; [by destruct Ha2; apply (nil_iff h2 [] He Hw)|].
  exists R1, x, R, b, nb, asg, ff. split; [done|]. split; [done|]. split; [intros E; by apply Ha1, (nil_iff h1 R1 He1 Hw1)|]. split; [by apply dawgof_w|].
  do 3 (split; [done|]). split; [done|]. split; [done|]. rewrite Hus. by eapply binv_drep.
Qed.

(** C123. If every prefix of the keys of the Dawg is one of the dictionary, a guide is
    built; it has as many units as the dictionary, or none if the Dawg has no keys. *)
Theorem C123_accepts h1 h2 d us : pair_of h1 h2 d us -> (forall p, key_prefix h1 p -> key_prefix h2 p) -> exists g, BuildGuide d us = Ok (Some g) /\
  length g = (if decide (accepted h1 = []) then 0 else length us)%nat.
Proof.
  intros Hp Hsub. destruct (decide (accepted h1 = [])) as [Ha|Ha].
  - destruct Hp as (Hh1 & _ & (size & d0 & rs & Hs & Hb) & _). destruct (build_abs h1 Hh1) as (R1 & x & He1 & _ & Hd). destruct (Hd size d0 Hs) as (d' & Hb' & HD).
    rewrite Hb in Hb'. injection Hb' as _ <-. assert (R1 = []) as -> by (apply (nil_iff h1 R1 He1); [apply wfe_or, HD|done]).
    exists []. split; [|done]. pose proof (guide_empty d x HD) as Hg. unfold BuildGuide in *. cbv zeta in *. destruct (dawg_size d <=? 1) eqn:E; [done|]. exfalso.
    assert (DawgFix.x_ts x = []) as Hts.
    { destruct (DawgFix.x_ts x) as [|e ts] eqn:E'; [done|]. assert (Hin : e ∈ DawgFix.x_ts x) by (rewrite E'; constructor). by apply (do_in d [] x HD) in Hin as [? _]. }
    pose proof (fz_base _ _ _ (HF d [] x HD)) as Hbs. rewrite Hts in Hbs. apply N.leb_gt in E. unfold dawg_size in E. rewrite Hbs in E. cbn in E. lia.
  - assert (Ha2 : accepted h2 <> []).
    { intros E. destruct (accepted h1) as [|kv l] eqn:E1; [done|]. destruct (Hsub []) as (k & v & Hk & _).
      - exists (kept_entry kv).1, (kept_entry kv).2. split; [|apply prefix_nil]. rewrite E1. cbn [map]. rewrite <- surjective_pairing. left.
      - rewrite E in Hk. by apply elem_of_nil in Hk. }
    destruct (pair_facts h1 h2 d us Hp Ha Ha2) as (R1 & x & R & b & nb & asg & ff & He1 & Hw1 & HR1 & HD & He & Hw & HR & Hus & HB & HP).
    assert (Hall : forall p e, tnode R1 p e -> exists e', tnode R p e').
    { intros p e Ht. apply (prefix_tnode h2 R He Hw p HR), Hsub, (prefix_tnode h1 R1 He1 Hw1 p HR1). by exists e. }
    destruct (other_build us R _ HP d R1 x HD HR1) as (r & Hr & HF & HS).
    { intros p i es es1 l e Ht1 Ht _ Hl Hno. exfalso. destruct (Hall (p ++ [l]) e) as [e' He'].
      - eapply tnode_app; [exact Ht1|]. eapply tn_step; [exact Hl|apply tn_here].
      - apply tnode_split in He' as (a & H1 & H2). rewrite (tnode_fun R p a es Hw H1 Ht) in H2. inversion H2 as [|? ? e3 ? ? Hi3]; subst. by apply (Hno e3). }
    rewrite Hr. destruct r as [g|].
    + exists g. split; [done|]. by apply (HS g).
    + exfalso. destruct (HF eq_refl) as (q & e & l & e1 & H1 & H2 & H3). destruct (Hall (q ++ [l]) e1) as [e' He']; [|by apply (H3 e')].
      eapply tnode_app; [exact H1|]. eapply tn_step; [exact H2|apply tn_here].
Qed.
Print Assumptions C123_accepts.

Lemma safe_miss h1 h2 R1 R b nb asg ff : (forall k, is_key h1 k -> safe h2 k) ->
  ent_es R1 = map nentry (accepted h1) -> wfe R1 -> R1 <> [] -> ent_es R = map nentry (accepted h2) -> wfe R -> R <> [] -> binv b nb (nb - 16) (256 * N.of_nat nb) R asg [] ff ->
  forall p i es es1 l e, tnode R1 p es1 -> tnode R p es -> dn R asg i es -> (l, Node e) ∈ es1 -> (forall e', (l, Node e') ∉ es) -> dc_Follow (db_units b) l i = Ok (false, i).
Proof.
  intros Hs He1 Hw1 HR1 He Hw HR HB p i es es1 l e Ht1 Ht Hn Hl Hno.
  assert (Htl : tnode R1 (p ++ [l]) e) by (eapply tnode_app; [exact Ht1|]; eapply tn_step; [exact Hl|apply tn_here]).
  apply (Follow_miss _ _ _ _ _ HB i es l Hn).
  - pose proof (tnode_lab _ _ _ Hw1 Htl) as Hf. apply Forall_app in Hf as [_ Hf]. apply Forall_cons in Hf as [? _]. lia.
  - exact Hno.
  - intros v Hv Hmod. destruct (stored_ent _ _ _ _ _ HB v Hv) as [k Hkv].
    destruct (proj2 (prefix_tnode h1 R1 He1 Hw1 (p ++ [l]) HR1)) as (k1 & v1 & Hk1 & [t Ek]); [by exists e|].
    apply (Hs k1 (ex_intro _ v1 Hk1) p l t) with (k := k) (v := Z.of_N v).
    + by rewrite Ek, <- app_assoc.
    + right. apply (prefix_tnode h2 R He Hw p HR). by exists es.
    + intros [e1 H]%(edge_prefix h2 R p es l He Hw HR Ht). by apply (Hno e1).
    + apply (entry_in h2 R He). by exists v.
    + lia.
Qed.

(** If no key of the Dawg leaves the dictionary by the low byte of a value, BuildGuide
    does not panic, and nil is returned only if a prefix of a key is missing ... *)
Theorem C123_rejects h1 h2 d us : pair_of h1 h2 d us -> accepted h1 <> [] -> accepted h2 <> [] -> (forall k, is_key h1 k -> safe h2 k) ->
  (exists g, BuildGuide d us = Ok (Some g) /\ length g = length us) \/
  (BuildGuide d us = Ok None /\ exists p, key_prefix h1 p /\ ~ key_prefix h2 p).
Proof.
  intros Hp Ha1 Ha2 Hs. destruct (pair_facts h1 h2 d us Hp Ha1 Ha2) as (R1 & x & R & b & nb & asg & ff & He1 & Hw1 & HR1 & HD & He & Hw & HR & -> & HB & HP).
  destruct (other_build (db_units b) R _ HP d R1 x HD HR1) as (r & Hr & HF & HS).
  { by apply (safe_miss h1 h2 R1 R b nb asg ff). }
  destruct r as [g|].
  - left. exists g. split; [done|]. by apply (HS g).
  - right. split; [done|]. destruct (HF eq_refl) as (q & e & l & e1 & H1 & H2 & H3). exists (q ++ [l]). split.
    + apply (edge_prefix h1 R1 q e l He1 Hw1 HR1 H1). by exists e1.
    + intros [e' H]%(prefix_tnode h2 R He Hw _ HR). by apply (H3 e').
Qed.
Print Assumptions C123_rejects.
(** ... and always, if it is missing behind a prefix of the dictionary that is, but for
    its last byte at most, the only one to go on to its keys and values. *)
Theorem C123_detects h1 h2 d us q t c : pair_of h1 h2 d us -> (forall k, is_key h1 k -> safe h2 k) -> (length t <= 1)%nat ->
  key_prefix h1 ((q ++ t) ++ [c]) -> key_prefix h2 (q ++ t) -> ~ key_prefix h2 ((q ++ t) ++ [c]) ->
  (forall q', key_prefix h2 q' -> (forall s v, (q' ++ s, v) ∈ entries h2 <-> (q ++ s, v) ∈ entries h2) -> q' = q) ->
  BuildGuide d us = Ok None.
Proof.
  intros Hp Hs Hlt Hc1 Hp2 Hc2 Hu.
  assert (Ha1 : accepted h1 <> []) by (intros E; destruct Hc1 as (k & v & Hk & _); rewrite E in Hk; by apply elem_of_nil in Hk).
  assert (Ha2 : accepted h2 <> []) by (intros E; destruct Hp2 as (k & v & Hk & _); rewrite E in Hk; by apply elem_of_nil in Hk).
  destruct (pair_facts h1 h2 d us Hp Ha1 Ha2) as (R1 & x & R & b & nb & asg & ff & He1 & Hw1 & HR1 & HD & He & Hw & HR & -> & HB & HP).
  apply (prefix_tnode h1 R1 He1 Hw1 _ HR1) in Hc1 as [e Hte]. apply tnode_split in Hte as (a & Hta & Hte). inversion Hte as [|? ? e3 ? ? Hi3]; subst.
  apply tnode_split in Hta as (a0 & Hta0 & Hta). apply (prefix_tnode h2 R He Hw _ HR) in Hp2 as [es Hes]. pose proof Hes as Hes0. apply tnode_split in Hes as (b0 & Hb0 & Hes).
  apply (other_detects (db_units b) R _ HP d R1 x HD HR1) with (q := q) (t := t) (a0 := a0) (b0 := b0) (a := a) (b := es) (l := c) (e := e3); try done.
  - by apply (safe_miss h1 h2 R1 R b nb asg ff).
  - intros p' Hp'. apply Hu; [apply (prefix_tnode h2 R He Hw _ HR); by exists b0|]. intros s v. rewrite !(entry_tnode h2 R He Hw). split.
    + intros (e1 & n & Ht & Hn). exists e1, n. split; [|done]. apply tnode_split in Ht as (e2 & H1 & H2). rewrite (tnode_fun R p' e2 b0 Hw H1 Hp') in H2. by eapply tnode_app.
    + intros (e1 & n & Ht & Hn). exists e1, n. split; [|done]. apply tnode_split in Ht as (e2 & H1 & H2). rewrite (tnode_fun R q e2 b0 Hw H1 Hb0) in H2. by eapply tnode_app.
  - intros e' Hx. apply Hc2, (edge_prefix h2 R (q ++ t) es c He Hw HR Hes0). by exists e'.
Qed.
Print Assumptions C123_detects.

Definition dawg_of (h : list entry) : dawg := match build 4 h NewDawg with Ok (_, d) => d | _ => NewDawg end.
Lemma pair_vm h1 h2 rs us un : hist_ok h1 -> hist_ok h2 -> build 4 h1 NewDawg = Ok (rs, dawg_of h1) -> build_dict 4 h2 NewDawg = Ok (Some (us, un)) -> pair_of h1 h2 (dawg_of h1) (dict_of h2).
Proof. intros A B C D. split; [done|]. split; [done|]. split; [exists 4%Z, NewDawg, rs; done|]. by apply (dict_of_made h2 us un). Qed.

(** The claim that nil is returned for a dictionary without some key of the Dawg is
    false: "axp" and "bxq" with a dictionary of "axp" and "bxp", where "ax" and "bx" are
    one unit.  Where a byte leads to a value, BuildGuide may panic. *)
Theorem C123_detects_refuted : exists h1 h2 d us g k, pair_of h1 h2 d us /\ (forall k, is_key h1 k -> safe h2 k) /\ is_key h1 k /\ ~ key_prefix h2 k /\ BuildGuide d us = Ok (Some g).
Proof.
  pose (h1 := [([97; 120; 112], 1%Z); ([98; 120; 113], 1%Z)] : list entry). pose (h2 := [([97; 120; 112], 1%Z); ([98; 120; 112], 1%Z)] : list entry).
  assert (E1 : entries h1 = h1) by (by vm_compute). assert (E2 : entries h2 = h2) by (by vm_compute).
  exists h1, h2, (dawg_of h1), (dict_of h2). eexists _, [98; 120; 113]. split.
  { eapply pair_vm; [split; [unfold h1, key_ok; repeat constructor|by vm_compute]|split; [unfold h2, key_ok; repeat constructor|by vm_compute]|vm_compute; reflexivity|vm_compute; reflexivity]. }
  split.
  { intros k [v Hk] p c t Hq _ _ k' v' Hin. rewrite E1 in Hk. rewrite E2 in Hin. unfold h1, h2 in *. rewrite !elem_of_cons, elem_of_nil in Hk, Hin.
    assert (v' = 1%Z) as -> by naive_solver. intros Hc. assert (c = 1) as -> by (change (1 mod 256)%Z with 1%Z in Hc; lia).
    assert (Hin1 : 1 ∈ k) by (rewrite Hq; apply elem_of_app; right; left). destruct Hk as [[= -> _]|[[= -> _]|[]]]; rewrite !elem_of_cons, elem_of_nil in Hin1; naive_solver lia. }
  split; [exists 1%Z; rewrite E1; right; left|]. split; [|vm_compute; reflexivity].
  intros (k & v & Hin & [t Hk]). rewrite E2 in Hin. unfold h2 in Hin. rewrite !elem_of_cons, elem_of_nil in Hin. destruct Hin as [[= -> _]|[[= -> _]|[]]]; by destruct t.
Qed.
Print Assumptions C123_detects_refuted.
Theorem C123_no_panic_refuted : exists h1 h2 d us, pair_of h1 h2 d us /\ accepted h1 <> [] /\ accepted h2 <> [] /\ BuildGuide d us = Panic.
Proof.
  exists [([98; 99], 1%Z)], [([97], 354%Z)], (dawg_of [([98; 99], 1%Z)]), (dict_of [([97], 354%Z)]). split.
  { eapply pair_vm; [split; [unfold key_ok; repeat constructor|by vm_compute]|split; [unfold key_ok; repeat constructor|by vm_compute]|vm_compute; reflexivity|vm_compute; reflexivity]. }
  split; [done|]. split; [done|]. vm_compute; reflexivity.
Qed.
Print Assumptions C123_no_panic_refuted.

(** "a" (1), "ab" (2) with a dictionary of "a" (1), "ac" (2); and with one of "ab". *)
Example C123_case : pair_of [([97], 1%Z); ([97; 98], 2%Z)] [([97], 1%Z); ([97; 99], 2%Z)] (dawg_of [([97], 1%Z); ([97; 98], 2%Z)]) (dict_of [([97], 1%Z); ([97; 99], 2%Z)]) /\
  BuildGuide (dawg_of [([97], 1%Z); ([97; 98], 2%Z)]) (dict_of [([97], 1%Z); ([97; 99], 2%Z)]) = Ok None /\
  match BuildGuide (dawg_of [([97], 1%Z); ([97; 98], 2%Z)]) (dict_of [([97; 98], 5%Z)]) with Ok (Some g) => length g | _ => 0%nat end = 256%nat.
Proof.
  split; [|by_vm].
  eapply pair_vm; [split; [unfold key_ok; repeat constructor|by vm_compute]|split; [unfold key_ok; repeat constructor|by vm_compute]|vm_compute; reflexivity|vm_compute; reflexivity].
Qed.
Example C123_prefixes : let h1 := [([97], 1%Z); ([97; 98], 2%Z)] : list entry in let h2 := [([97], 1%Z); ([97; 99], 2%Z)] : list entry in
  key_prefix h1 (([] ++ [97]) ++ [98]) /\ key_prefix h2 ([] ++ [97]) /\ ~ key_prefix h2 (([] ++ [97]) ++ [98]) /\
  forall q', key_prefix h2 q' -> (forall s v, (q' ++ s, v) ∈ entries h2 <-> ([] ++ s, v) ∈ entries h2) -> q' = [].
Proof.
  intros h1 h2. assert (E1 : entries h1 = h1) by (by vm_compute). assert (E2 : entries h2 = h2) by (by vm_compute). unfold key_prefix. rewrite E1, E2. unfold h1, h2. cbn [app].
  split; [exists [97; 98], 2%Z; split; [right; left|done]|]. split; [exists [97], 1%Z; split; [left|done]|]. split.
  - intros (k & v & Hin & [t Hk]). rewrite !elem_of_cons, elem_of_nil in Hin. destruct Hin as [[= -> _]|[[= -> _]|[]]]; by destruct t.
  - intros q' _ H. destruct (H [97; 99] 2%Z) as [_ H2]. assert (Hin : (q' ++ [97; 99], 2%Z) ∈ [([97], 1%Z); ([97; 99], 2%Z)]) by (apply H2; right; left).
    rewrite !elem_of_cons, elem_of_nil in Hin. destruct Hin as [[= _ ?]|[[= E]|[]]]. by apply (app_inv_tail [97; 99] q' []).
Qed.
