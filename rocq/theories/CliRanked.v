(** Proofs about Cli.v: loading with -r and an index. *)
From Coq Require Import Sorted.
From Verif Require Import Go Dawg DawgSpec DawgAbs Dict DictSpec DictThms Guide GuideSpec Index Ranked RankedSpec RankedCompleter RankedIndexSpec Serial SerialRange Cli CliSpec CliProofs CliThms CliFile
  Properties_Dawg Properties_Dict Properties_Completer Properties_Index Properties_Ranked Properties_Serial Properties_RankedIndex.
Local Open Scope N_scope.
Local Arguments N.mul : simpl never.
Local Arguments N.add : simpl never.
Local Arguments N.of_nat : simpl never.

Section ranked_index.
  Context (h : list entry) (Hh : hist_ok h) (us : dict) (g : guide) (Hm : made_default h us g) (ix : list N) (Hi : BuildIndex us g = Ok (Some ix)).
  Context (ks : list (list N)) (Hks : forall k, k ∈ ks <-> held Z.ltb (entries h) k) (Hnd : NoDup ks).
  Context (Hat : forall i, i < two32 -> ir_IndexToBytes us g ix i = Ok (ks !! N.to_nat i) /\ ir_IndexToString us g ix i = Ok (default [] (ks !! N.to_nat i))).
  Lemma held_count : N.of_nat (length ks) < two32.
  Proof using Hh Hks Hnd.
    clear us g Hm ix Hi Hat. pose proof (hist_ok_count h Hh) as H. assert (Hsub : ks ⊆+ (entries h).*1) by (apply NoDup_submseteq; [done|]; intros k Hk; by apply Hks in Hk as [Hk _]).
    apply submseteq_length in Hsub. rewrite fmap_length, map_length in Hsub. lia.
  Qed.
  Lemma ranked_words : forall n i, (i + n = length ks)%nat -> all_words us g ix n (N.of_nat i) = Ok (drop i ks).
  Proof using Hh Hks Hnd Hat.
    pose proof held_count as Hl. induction n as [|n IH]; intros i Hin; cbn [all_words].
    - rewrite drop_ge by lia. done.
    - destruct (Hat (N.of_nat i)) as [_ E]; [lia|]. rewrite E, Nat2N.id. cbn [mbind res_bind].
      destruct (ks !! i) as [k|] eqn:Ek; [|apply lookup_ge_None in Ek; lia]. rewrite (drop_S _ _ _ Ek). cbn [default]. destruct n as [|n].
      + cbn [all_words mbind res_bind]. rewrite drop_ge; [done|]. lia.
      + replace (u32 (N.of_nat i + 1)) with (N.of_nat (S i)) by (unfold u32, two32 in *; rewrite N.mod_small; lia). rewrite IH; [done|lia].
  Qed.
  Lemma ranked_position q : query_ok h q -> exists n, ir_StringToIndex us g ix q = Ok n /\ (q ∉ (entries h).*1 -> n = 4294967295) /\
    forall i, ks !! i = Some q -> n <= N.of_nat i /\ (n = N.of_nat i <-> forall j k, (j < i)%nat -> ks !! j = Some k -> kcmp k q = Lt).
  Proof using Hh Hm Hi Hks Hnd Hat.
    intros [Hb Hs]. pose proof (proj1 (made_default_ranked h us g) Hm) as Hm'. pose proof held_count as Hl. destruct (decide (q ∈ ks)) as [Hq|Hq].
    - pose proof (proj1 (Hks q) Hq) as Hheld. destruct (C78_ranked_rank Z.ltb h us g ix q ltb_total Hh Hm' Hi Hheld) as (n & m & Hn & Hb1 & Hm1 & Hle & Hiff).
      rewrite (proj1 (Hat n Hn)) in Hb1. injection Hb1 as Hb1. exists m. split; [done|]. split; [by intros []; apply Hheld|]. intros i Hlk.
      assert (i = N.to_nat n) as -> by (by eapply (NoDup_lookup ks)). rewrite N2Nat.id. split; [done|]. rewrite Hiff. split.
      + intros H j k Hj Hk. apply (H (N.of_nat j) k); [lia|]. rewrite (proj1 (Hat (N.of_nat j) ltac:(lia))), Nat2N.id. by f_equal.
      + intros H j k Hj Hk. rewrite (proj1 (Hat j ltac:(lia))) in Hk. injection Hk as Hk. apply (H (N.to_nat j)); [lia|done].
    - destruct (C79_ranked_absent Z.ltb h us g ix q ltb_total Hh Hm' Hi Hb Hs) as (x & Hx & Hno). exists x. split; [done|]. split.
      + intros Hk. apply Hno. intros [v Hv]. apply Hk. apply elem_of_list_fmap. by exists (q, v).
      + intros i Hlk. exfalso. apply Hq. apply elem_of_list_lookup. by exists i.
  Qed.
  Lemma answers_ranked_index fuel qs : (length (accepted h) < fuel)%nat -> Forall (query_ok h) qs ->
    forall c, exists l, answers_ranked fuel us (Some ix) g c qs = Ok l /\ Forall2 (ranked_index_answer (entries h) ks) qs l.
  Proof using Hh Hm Hi Hks Hnd Hat.
    intros Hfu. induction 1 as [|q qs Hq _ IH]; intros c; [exists []; split; [done|constructor]|]. cbn [answers_ranked query_index].
    destruct (ranked_position q Hq) as (n & Hn & Hn1 & Hn2). rewrite Hn. cbn [mbind res_bind].
    destruct (one_ranked h us g Hh Hm fuel q c Hfu Hq) as (b & i & c' & l & Hf & E & Hp & Hr). rewrite Hf. cbn [mbind res_bind]. rewrite E. cbn [mbind res_bind].
    destruct (IH c') as (l' & -> & Hl'). cbn [mbind res_bind]. eexists. split; [done|]. constructor; [|done]. by exists l, n.
  Qed.
End ranked_index.

Section load.
  Context (h : list entry) (Hh : hist_ok h) (fuel : nat) (o : opts) (queries : list N) (Hq : Forall (query_ok h) (scan_lines queries)).
  Context (r : reader) (rest : list N).
  Lemma load_ranked_index us g ix : made_default h us g -> o_ranked o = true -> o_index o = true -> BuildIndex us g = Ok (Some ix) ->
    concat r = words_bytes us ++ pairs_bytes g ++ words_bytes ix ++ rest -> (length (accepted h) < fuel)%nat ->
    exists l ks, cli_load fuel o r queries = Ok (Some (l, Some (N.of_nat (length ks), ks))) /\
      (forall k, k ∈ ks <-> held Z.ltb (entries h) k) /\ StronglySorted (ahead Z.ltb (entries h)) ks /\ Forall2 (ranked_index_answer (entries h) ks) (scan_lines queries) l.
  Proof using Hh Hq.
    intros Hm Hg Hix Hi Hr Hfu. pose proof (proj1 (made_default_ranked h us g) Hm) as Hm'. destruct (C32_built h us g ix Hh (or_intror (ex_intro _ Z.ltb Hm'))) as (Hw & Hp & Hwi).
    destruct (C31_dictionary us Hw) as (_ & _ & R1). destruct (R1 [] r _ Hr) as (r1 & _ & E1 & Hr1).
    destruct (C32_ranked_guide g Hp) as (_ & _ & R2). destruct (R2 [] r1 _ Hr1) as (r2 & _ & E2 & Hr2).
    destruct (C32_index ix (Hwi Hi)) as (_ & _ & R3). destruct (R3 [] r2 _ Hr2) as (r3 & _ & E3 & _).
    assert (Ha : accepted h <> []) by (intros Ha; apply (C77_ranked_empty Z.ltb h us g Hh Hm') in Ha; congruence).
    destruct (C77_ranked_index Z.ltb h us g ltb_total Hh Hm' Ha) as (ix' & ks & Hi' & _ & Hks & Hss & Hnd & Ht & Hat). rewrite Hi in Hi'. injection Hi' as <-.
    destruct (answers_ranked_index h Hh us g Hm ix Hi ks Hks Hnd Hat fuel _ Hfu Hq NewRankedCompleter) as (l & El & Hl).
    exists l, ks. split; [|done]. unfold cli_load. rewrite E1. cbn [mbind res_bind]. rewrite Hg, E2. cbn [mbind res_bind]. rewrite Hix, E3. cbn [mbind res_bind].
    rewrite El. cbn [mbind res_bind]. rewrite Ht. cbn [mbind res_bind]. rewrite Nat2N.id.
    change 0 with (N.of_nat 0). rewrite (ranked_words h Hh us g ix ks Hks Hnd Hat _ 0); [done|lia].
  Qed.
End load.
