(** The step of a lookup that leaves the keys, in a finished dictionary. *)
From Verif Require Import Go BitPool LinkTable Dawg DawgRep DawgSpec Tree TreeFacts Dict DictUnit DictX DictGrow DictInv DictBuild DictMain DictRead DictSpec DictThms.
Local Open Scope N_scope.
Local Ltac Zify.zify_post_hook ::= Z.div_mod_to_equations.
Local Arguments N.mul : simpl never.
Local Arguments N.add : simpl never.
Local Arguments N.of_nat : simpl never.
Local Arguments N.lxor : simpl never.

(** Unit [j] holds the value [v] of the key [k]. *)
Definition value_unit (h : list entry) (us : dict) (k : list N) (v : Z) (j : N) : Prop := (k, v) ∈ entries h /\
  exists n u, dc_FollowString us k 0 = Ok (true, n) /\ us !! N.to_nat n = Some u /\ j = N.lxor n (dictOffset u).

Lemma hiset a n : N.testbit a n = true -> 2 ^ n <= a.
Proof.
  intros H. destruct (N.lt_ge_cases a (2 ^ n)) as [Hlt|]; [|done]. exfalso.
  destruct (decide (a = 0)) as [->|Hne]; [by rewrite N.bits_0 in H|]. pose proof (proj1 (N.log2_lt_pow2 a n ltac:(lia)) Hlt) as Hl.
  by rewrite (N.bits_above_log2 a n Hl) in H.
Qed.
Lemma lxor_hi i o n : i < 2 ^ n -> N.testbit o n = true -> 2 ^ n <= N.lxor i o.
Proof.
  intros Hi Ho. apply hiset. rewrite N.lxor_spec, Ho. destruct (N.testbit i n) eqn:E; [|done]. apply hiset in E. lia.
Qed.
(** What a value unit does when it is taken for a node. *)
Lemma value_hasleaf v : dictHasLeaf (dictSetValue v) = Z.testbit v 8.
Proof.
  rewrite dictHasLeaf_bit, setValue_bits, orb_false_r. unfold u32_of_i32.
  transitivity (Z.testbit (v mod 4294967296) 8).
  - rewrite <- (Z2N.id (v mod 4294967296)) at 2 by (apply Z.mod_pos_bound; lia). symmetry. apply (N2Z.inj_testbit _ 8).
  - change 4294967296%Z with (2 ^ 32)%Z. by rewrite Z.mod_pow2_bits_low.
Qed.
Lemma value_offset v : exists n, N.testbit (dictOffset (dictSetValue v)) n = true /\ n = if Z.testbit v 9 then 29 else 21.
Proof.
  eexists. split; [|done]. rewrite dictOffset_eq, setValue_bits, orb_false_r.
  assert (E : N.testbit (u32_of_i32 v) 9 = Z.testbit v 9).
  { unfold u32_of_i32. transitivity (Z.testbit (v mod 4294967296) 9).
    - rewrite <- (Z2N.id (v mod 4294967296)) at 2 by (apply Z.mod_pos_bound; lia). symmetry. apply (N2Z.inj_testbit _ 9).
    - change 4294967296%Z with (2 ^ 32)%Z. by rewrite Z.mod_pow2_bits_low. }
  rewrite E. destruct (Z.testbit v 9).
  - unfold shl32, u32. change two32 with (2 ^ 32). rewrite N.mod_pow2_bits_low by lia. rewrite N.shiftl_spec_high by lia.
    rewrite N.shiftr_spec by lia. rewrite setValue_bits. apply orb_true_r.
  - unfold u32. change two32 with (2 ^ 32). rewrite N.mod_pow2_bits_low by lia. rewrite N.shiftr_spec by lia.
    rewrite setValue_bits. apply orb_true_r.
Qed.
(** The unit beside a value unit is out of range. *)
Lemma value_beyond (us : dict) j v c : N.of_nat (length us) <= 2097152 \/ (Z.testbit v 9 = true /\ N.of_nat (length us) <= 536870912) ->
  us !! N.to_nat j = Some (dictSetValue v) -> c < 256 -> us !! N.to_nat (N.lxor (N.lxor j (dictOffset (dictSetValue v))) c) = None.
Proof.
  intros Hlen Hj Hc. apply lookup_lt_Some in Hj. apply lookup_ge_None_2. destruct (value_offset v) as (n & Hn & En).
  rewrite N.lxor_assoc. assert (Hoc : N.testbit (N.lxor (dictOffset (dictSetValue v)) c) n = true).
  { rewrite N.lxor_spec, Hn. destruct (N.testbit c n) eqn:E; [|done]. exfalso. apply hiset in E.
    assert (2 ^ 8 <= 2 ^ n) by (apply N.pow_le_mono_r; [done|destruct (Z.testbit v 9); lia]). lia. }
  assert (Hle : N.of_nat (length us) <= 2 ^ n).
  { destruct (Z.testbit v 9); subst n; [change (2 ^ 29) with 536870912|change (2 ^ 21) with 2097152]; destruct Hlen as [?|[? ?]]; (lia || done). }
  pose proof (lxor_hi j _ n ltac:(lia) Hoc). lia.
Qed.

Section wrong.
  Context (h : list entry) (us : dict) (Hh : hist_ok h) (Hm : made h us).
  Lemma value_unit_at k v j : value_unit h us k v j -> us !! N.to_nat j = Some (dictSetValue v).
  Proof.
    intros (Hk & n & w & Hn & Hwn & ->). destruct (made_cases h us Hh Hm) as (R & He & Hw & [[-> _]|(HR & b & nb & asg & ff & -> & HB)]).
    { apply (entry_in h [] He) in Hk as (m & Hk & _). by apply elem_of_nil in Hk. }
    apply (entry_tnode h R He Hw) in Hk as (es' & m & Ht' & Hm' & ->).
    destruct (FollowString_hit _ _ _ _ _ HB 0 R k es' (dn_root _ _) Ht') as (n' & Hn' & Hd'). rewrite Hn in Hn'. injection Hn' as <-.
    by apply (dn_val _ _ _ _ _ HB n w es' m).
  Qed.
  Lemma wrong_step p c : key_prefix h p -> c < 256 -> ~ key_prefix h (p ++ [c]) -> exists i u,
    dc_FollowString us p 0 = Ok (true, i) /\ us !! N.to_nat i = Some u /\
    ((dc_Follow us c i = Ok (true, N.lxor (N.lxor i (dictOffset u)) c) /\
      exists k v, value_unit h us k v (N.lxor (N.lxor i (dictOffset u)) c) /\ (v mod 256)%Z = Z.of_N c) \/
     (dc_Follow us c i = Ok (false, i) /\
      forall k v, value_unit h us k v (N.lxor (N.lxor i (dictOffset u)) c) -> (v mod 256)%Z <> Z.of_N c)).
  Proof.
    intros Hp Hc Hno. pose proof value_unit_at as HV. destruct (made_cases h us Hh Hm) as (R & He & Hw & [[-> _]|(HR & b & nb & asg & ff & -> & HB)]).
    { destruct Hp as (k & v & Hk & _). apply (entry_in h [] He) in Hk as (n & Hk & _). by apply elem_of_nil in Hk. }
    destruct (proj1 (prefix_tnode h R He Hw p HR) Hp) as [es Ht]. destruct (FollowString_hit _ _ _ _ _ HB 0 R p es (dn_root _ _) Ht) as (i & Hi & Hd).
    destruct (dn_unit _ _ _ _ _ HB _ _ Hd) as (u & Hu & _ & _ & Ha). exists i, u. split; [done|]. split; [done|].
    assert (Hnoe : forall es', (c, Node es') ∉ es).
    { intros es' Hin. apply Hno. apply (prefix_tnode h R He Hw _ HR). exists es'. eapply tnode_app; [exact Ht|]. econstructor; [exact Hin|constructor]. }
    set (j := N.lxor (N.lxor i (dictOffset u)) c).
    assert (HL : forall u', db_units b !! N.to_nat j = Some u' -> dc_Follow (db_units b) c i = Ok (if dictLabel u' =? c then (true, j) else (false, i))).
    { intros u' Hu'. unfold dc_Follow. rewrite (get_us _ _ _ Hu). cbn [mbind res_bind]. cbv zeta. fold j. rewrite (get_us _ _ _ Hu'). cbn [mbind res_bind].
      by destruct (dictLabel u' =? c). }
    assert (HA : forall es' n, (j, es') ∈ asg -> (0, Leaf n) ∈ es' -> exists k, value_unit h (db_units b) k (Z.of_N n) j).
    { intros es' n Ha' Hn. destruct (reach_asg _ _ _ _ _ HB _ _ Ha') as (k & m & w & Ht' & Hf & Hdm & Hwm & Hj). exists k. split.
      - apply (entry_tnode h R He Hw). by exists es', n.
      - by exists m, w. }
    assert (HU : exists u', db_units b !! N.to_nat j = Some u' /\ (dictLabel u' <> c \/ exists k v, value_unit h (db_units b) k v j)).
    { destruct (decide (c ∈ es.*1)) as [Hin|Hin].
      - apply in_fst in Hin as [[n|es'] Hin]; [|by apply Hnoe in Hin]. pose proof (dn_wf _ _ _ _ _ HB _ _ Hd) as Hwe. apply wf_wfe in Hwe as [_ Hwe].
        destruct (wfe_leaf _ _ _ Hwe Hin) as [-> _]. eexists. split; [unfold j; rewrite N.lxor_0_r; by apply (dn_val _ _ _ _ _ HB i u es n)|].
        right. destruct (HA es n) as [k Hk]; [unfold j; by rewrite N.lxor_0_r|done|]. by exists k, (Z.of_N n).
      - destruct (dn_miss _ _ _ _ _ HB _ _ _ _ Hu Hd Hc Hin) as (u' & Hu' & [Hne|(es' & n & Ha' & Hn & ->)]); (eexists; split; [exact Hu'|]); [by left|].
        right. destruct (HA es' n Ha' Hn) as [k Hk]. by exists k, (Z.of_N n). }
    destruct HU as (u' & Hu' & HU). rewrite (HL u' Hu'). destruct (N.eqb_spec (dictLabel u') c) as [Hl|Hl].
    - left. split; [done|]. destruct HU as [?|(k & v & Hk)]; [done|]. exists k, v. split; [done|]. rewrite (HV k v j Hk) in Hu'. injection Hu' as <-.
      rewrite <- Hl. symmetry. apply setValue_label.
    - right. split; [done|]. intros k v Hk Hv. apply Hl. rewrite (HV k v j Hk) in Hu'. injection Hu' as <-. pose proof (setValue_label v). lia.
  Qed.
End wrong.
