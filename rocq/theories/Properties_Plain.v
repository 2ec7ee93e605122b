(** Property C128: keys without values, or with multiples of 256 only. *)
From Verif Require Import Go Dawg DawgSpec Tree TreeFacts DawgFrozen DawgMain DawgAbs DawgNav DictDfs Dict DictUnit DictInv DictRead DictMain DictRep DictSpec DictThms Guide GuideProofs GuideSpec GuideThms Ranked RankedProofs Index IndexProofs Properties_Dict Properties_Index Properties_GuideOther Properties_RankedOther.
Local Open Scope N_scope.
Local Arguments N.mul : simpl never.
Local Arguments N.add : simpl never.
Local Arguments N.of_nat : simpl never.
Local Arguments N.lxor : simpl never.

Definition plain (h : list entry) : Prop := forall k v, (k, v) ∈ entries h -> (v mod 256 = 0)%Z.
Lemma plain_safe h q : plain h -> key_ok q -> safe h q.
Proof. intros Hp Hq. apply C60_safe_bytes. intros c k v Hc Hk. rewrite (Hp k v Hk). unfold key_ok in Hq. rewrite Forall_forall in Hq. specialize (Hq c Hc). lia. Qed.
Lemma is_key_ok h k : hist_ok h -> is_key h k -> key_ok k.
Proof.
  intros Hh Hk. destruct (build_abs h Hh) as (R1 & x & He & _ & Hd). assert (H4 : (1 <= 4 < 4294967296)%Z) by lia. destruct (Hd 4%Z NewDawg H4) as (d & Hb & HD). clear Hb.
  assert (Hw : wfe R1) by (apply wfe_or, HD). destruct Hk as [v Hk]. destruct (proj1 (entry_tnode h R1 He Hw k v) Hk) as (es & n & Ht & _). by apply (tnode_lab R1 k es Hw).
Qed.

(** C128. If all values are multiples of 256, as when there are none, lookups are exact
    for all strings without zero bytes (dictionary.go:93-145), ... *)
Theorem C128_lookup h us q : hist_ok h -> plain h -> made h us -> key_ok q ->
  (exists v, (q, v) ∈ entries h /\ dc_ContainsString us q = Ok true /\ dc_FindString us q = Ok v /\ forall w, dc_FindStringValue us q w = Ok (true, v)) \/
  (~ is_key h q /\ dc_ContainsString us q = Ok false /\ dc_FindString us q = Ok (-1)%Z /\ forall w, dc_FindStringValue us q w = Ok (false, w)).
Proof.
  intros Hh Hp Hm Hq. apply C60_lookup_exact; [done|done| |by apply plain_safe]. unfold bytes. eapply Forall_impl; [exact Hq|]. cbn. lia.
Qed.
Print Assumptions C128_lookup.
(** ... StringToIndex returns NotFound for all of them that are no keys, ... *)
Theorem C128_index h us g ix q : hist_ok h -> plain h -> made_guide h us g -> BuildIndex us g = Ok (Some ix) -> key_ok q -> ~ is_key h q -> ir_StringToIndex us g ix q = Ok NotFound.
Proof.
  intros Hh Hp Hm Hi Hq. apply (C67_absent_safe h us g ix q); [done|done|done| |by apply plain_safe]. unfold bytes. eapply Forall_impl; [exact Hq|]. cbn. lia.
Qed.
Print Assumptions C128_index.
(** ... and the guide builders have a result for the Dawg of any other keys; nil only if
    a prefix, or a key, is missing. *)
Theorem C128_guides sort cmp h1 h2 d us : sorter sort -> pair_of h1 h2 d us -> plain h2 -> accepted h1 <> [] -> accepted h2 <> [] ->
  ((exists g, BuildGuide d us = Ok (Some g) /\ length g = length us) \/ (BuildGuide d us = Ok None /\ exists p, key_prefix h1 p /\ ~ key_prefix h2 p)) /\
  ((exists g, BuildRankedGuideCmp sort cmp d us = Ok (Some g) /\ length g = length us) \/ (BuildRankedGuideCmp sort cmp d us = Ok None /\ exists k, is_key h1 k /\ ~ is_key h2 k)).
Proof.
  intros Hso Hpr Hp H1 H2. assert (Hs : forall k, is_key h1 k -> safe h2 k) by (intros k Hk; apply plain_safe; [done|]; apply (is_key_ok h1); [apply Hpr|done]).
  split; [by apply C123_rejects|by apply C124_rejects].
Qed.
Print Assumptions C128_guides.

(** "ab" and "c" without values; with the Dawg of "ad". *)
Example C128_case : let h1 := [([97; 100], 0%Z)] : list entry in let h2 := [([97; 98], 0%Z); ([99], 0%Z)] : list entry in
  plain h2 /\ pair_of h1 h2 (dawg_of h1) (dict_of h2) /\ BuildGuide (dawg_of h1) (dict_of h2) = Ok None /\ BuildRankedGuide isort (dawg_of h1) (dict_of h2) = Ok None /\
  dc_ContainsString (dict_of h2) [97] = Ok false /\ dc_ContainsString (dict_of h2) [99] = Ok true.
Proof.
  intros h1 h2. split.
  { assert (E2 : entries h2 = h2) by (by vm_compute). intros k v Hk. rewrite E2 in Hk. unfold h2 in Hk. apply elem_of_cons in Hk as [[= _ ->]|Hk]; [done|].
    apply elem_of_list_singleton in Hk as [= _ ->]. done. }
  split.
  { eapply pair_vm; [split; [unfold h1, key_ok; repeat constructor|by vm_compute]|split; [unfold h2, key_ok; repeat constructor|by vm_compute]|vm_compute; reflexivity|vm_compute; reflexivity]. }
  split; [vm_compute; reflexivity|]. split; [vm_compute; reflexivity|]. split; vm_compute; reflexivity.
Qed.
