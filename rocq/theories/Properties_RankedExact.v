(** Property C122: the number StringToIndex (indexer.go:26-66) gives for a key held
    by an index that was built with a ranked guide, exactly. *)
From Verif Require Import Go Dawg DawgSpec Tree TreeFacts DawgAbs DawgMain DawgNav DictDfs Dict DictInv DictRead DictMain DictRep DictSpec DictThms Guide GuideProofs GuideSpec GuideThms Index IndexProofs Ranked RankedProofs RankedSpec RankedThms RankedIndexSpec IndexRanked Properties_Dict Properties_Completer Properties_Index Properties_Ranked IndexRankedExact Properties_RankedIndex.
Local Open Scope N_scope.
Local Arguments N.mul : simpl never.
Local Arguments N.add : simpl never.
Local Arguments N.of_nat : simpl never.
Local Ltac by_vm := lazymatch goal with |- _ /\ _ => split; [vm_compute; reflexivity|by_vm] | _ => vm_compute; reflexivity end.

(** [k] stands at place [n] of the index.  The key at place [i] is passed on the way
    to [k] if it stands earlier and if, with [p] the common part of the two keys and
    [c] the byte of [k] behind it, all keys up to place [i] that go on after [p] do so
    with bytes below [c]. *)
Definition passed (us : dict) (g : guide) (ix : list N) (k : list N) (n i : N) : Prop :=
  i < n /\ forall p c s k', k = p ++ c :: s -> ir_IndexToBytes us g ix i = Ok (Some k') -> p `prefix_of` k' -> ~ (p ++ [c]) `prefix_of` k' ->
    forall j d t, j <= i -> ir_IndexToBytes us g ix j = Ok (Some (p ++ d :: t)) -> d < c.

(** C122. StringToIndex of a key that is held is the number of keys that are passed. *)
Theorem C122_ranked_exact cmp h us g ix k : total_order cmp -> hist_ok h -> made_ranked cmp h us g -> BuildIndex us g = Ok (Some ix) -> held cmp (entries h) k ->
  exists n L, n < two32 /\ ir_IndexToBytes us g ix n = Ok (Some k) /\ NoDup L /\ (forall i, i ∈ L <-> passed us g ix k n i) /\
    ir_BytesToIndex us g ix k = Ok (N.of_nat (length L)) /\ ir_StringToIndex us g ix k = Ok (N.of_nat (length L)).
Proof.
  intros Ht Hh Hm Hi Hk. destruct (rindex_facts cmp h us g ix Ht Hh Hm Hi) as (sort & R & b & nb & asg & ff & Hso & He & Hw & HR & Hus & HB & HP & HG & Hl & HX & H0 & Hat).
  apply (rents_held sort cmp h R k Hso Ht He Hw) in Hk. apply elem_of_list_lookup in Hk as [n Hn]. pose proof Hn as Hn0. rewrite list_lookup_fmap in Hn.
  destruct (rents sort cmp R !! n) as [[k' v]|] eqn:E; [|done]. cbn in Hn. injection Hn as ->.
  pose proof (node_rcnt us R _ HP sort cmp Hso Hl 0 R (rp_root _ _ _ HP)) as Hrc. pose proof (nth_two32 _ _ _ E (proj2 Hrc)) as Hn32.
  destruct (rwalk_exact us R _ HP sort cmp Hso g HG Hl ix HX k 0 R n v 0 (rp_root _ _ _ HP) H0 E) as (L & Hm1 & Hnd & HL); [lia|].
  rewrite N.add_0_l in Hm1. exists (N.of_nat n), (N.of_nat <$> L). split; [exact Hn32|]. split; [rewrite (Hat _ Hn32), Nat2N.id, E; done|].
  split; [apply NoDup_fmap; [intros ? ? ?; lia|done]|]. rewrite fmap_length. split; [|split; exact Hm1].
  intros i. split.
  - intros (x & -> & Hx)%elem_of_list_fmap. apply HL in Hx as [Hx Hc]. split; [lia|]. intros p c s k' -> Hk' Hp Hnp j d t Hj Hd.
    rewrite (Hat (N.of_nat x)), Nat2N.id in Hk' by lia. rewrite (Hat j) in Hd by lia. injection Hk' as Hk'. injection Hd as Hd.
    apply (Hc p c s k' Hn0) with (j := N.to_nat j) (t := t); [|done|done|lia|]; by rewrite list_lookup_fmap.
  - intros [Hlt Hc]. apply elem_of_list_fmap. exists (N.to_nat i). split; [lia|]. apply HL. split; [lia|]. intros p c s k' Hp Hk' Hpre Hnp j d t Hj Hd.
    rewrite Hn0 in Hp. injection Hp as Hp. apply (Hc p c s k' Hp) with (j := N.of_nat j) (t := t); [|done|done|lia|].
    + rewrite Hat by lia. by rewrite <- Hk', list_lookup_fmap.
    + rewrite Hat, Nat2N.id by lia. by rewrite <- Hd, list_lookup_fmap.
Qed.
Print Assumptions C122_ranked_exact.
(** So the key at place 0 gets 0. *)
Theorem C122_ranked_first cmp h us g ix k : total_order cmp -> hist_ok h -> made_ranked cmp h us g -> BuildIndex us g = Ok (Some ix) -> ir_IndexToBytes us g ix 0 = Ok (Some k) ->
  ir_StringToIndex us g ix k = Ok 0.
Proof.
  intros Ht Hh Hm Hi H0. assert (Ha : accepted h <> []).
  { intros Ha. destruct (rindex_facts cmp h us g ix Ht Hh Hm Hi) as (sort & R & b & nb & asg & ff & _ & He & Hw & HR & _). by apply HR, (nil_iff h R He Hw). }
  destruct (C77_ranked_index cmp h us g Ht Hh Hm Ha) as (ix' & ks & Hi' & _ & Hks & _ & Hnd & _ & Hall). rewrite Hi in Hi'. injection Hi' as <-.
  destruct (Hall 0 ltac:(done)) as [E0 _]. rewrite H0 in E0. injection E0 as E0. cbn in E0.
  assert (Hk : held cmp (entries h) k) by (apply Hks, (elem_of_list_lookup_2 _ 0%nat); by symmetry).
  destruct (C78_ranked_rank cmp h us g ix k Ht Hh Hm Hi Hk) as (n & m & Hn & Hb & Hx & Hle & _).
  assert (n = 0) as ->; [|rewrite Hx; f_equal; lia].
  destruct (Hall n Hn) as [En _]. rewrite Hb in En. injection En as En.
  pose proof (NoDup_lookup ks 0 (N.to_nat n) k Hnd) as H. assert (0%nat = N.to_nat n) by (apply H; by symmetry). lia.
Qed.
Print Assumptions C122_ranked_first.

(** The keys "a" (9), "b" (7), "c" (5), "cb" (6), "d" (8): the index lists them as "a",
    "d", "b", "c", "cb"; the walk to "c" passes "a" and stops at "d". *)
Definition rxx_h : list entry := [([97], 9%Z); ([98], 7%Z); ([99], 5%Z); ([99; 98], 6%Z); ([100], 8%Z)].
Example C122_case : total_order Z.ltb /\ hist_ok rxx_h /\ made_ranked Z.ltb rxx_h (ranked_of Z.ltb rxx_h).1 (ranked_of Z.ltb rxx_h).2 /\
  exists ix, BuildIndex (ranked_of Z.ltb rxx_h).1 (ranked_of Z.ltb rxx_h).2 = Ok (Some ix) /\
    map (ir_IndexToString (ranked_of Z.ltb rxx_h).1 (ranked_of Z.ltb rxx_h).2 ix) [0; 1; 2; 3; 4] = [Ok [97]; Ok [100]; Ok [98]; Ok [99]; Ok [99; 98]] /\
    map (ir_StringToIndex (ranked_of Z.ltb rxx_h).1 (ranked_of Z.ltb rxx_h).2 ix) [[97]; [98]; [99]; [99; 98]; [100]] = [Ok 0; Ok 1; Ok 1; Ok 2; Ok 1].
Proof.
  split; [apply ltb_total|]. split; [split; [unfold rxx_h, key_ok; repeat constructor|by vm_compute]|]. split; [apply ranked_of_made; vm_compute; reflexivity|]. eexists. by_vm.
Qed.
Example C122_held : held Z.ltb (entries rxx_h) [99; 98].
Proof.
  assert (Hent : entries rxx_h = rxx_h) by (by vm_compute). rewrite Hent. unfold rxx_h. split; [cbn; rewrite !elem_of_cons; auto 10|].
  intros p c t v Hk Hp. exists (drop (S (length p)) [99; 98]), 6%Z.
  destruct p as [|x [|y [|z p]]]; simplify_eq/=; rewrite !elem_of_cons, elem_of_nil in *; naive_solver lia.
Qed.
