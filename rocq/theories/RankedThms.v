(** From the proofs about ranked completers to the properties. *)
From Verif Require Import Go Dawg DawgRep DawgSpec Tree TreeFacts DawgFrozen DawgFix DawgMain DawgAbs DawgNav DictDfs Dict DictUnit DictInv DictRead DictMain DictRep DictSpec DictThms Guide GuideProofs GuideSpec GuideThms Ranked RankedProofs Heap HeapProofs RankedCompleter RankedCompleterProofs RankedSpec.
Local Open Scope N_scope.
Local Arguments N.mul : simpl never.
Local Arguments N.add : simpl never.
Local Arguments N.of_nat : simpl never.

Lemma ranked_empty sort cmp d x us : dawgof d [] x -> BuildRankedGuideCmp sort cmp d us = Ok (Some []).
Proof.
  intros HD. unfold BuildRankedGuideCmp. rewrite (proj2 (N.leb_le _ 1)); [done|].
  assert (Hts : x_ts x = []).
  { destruct (x_ts x) as [|t ts] eqn:E; [done|]. exfalso. assert (Hin : t ∈ x_ts x) by (rewrite E; constructor). by apply (do_in d [] x HD) in Hin as [? _]. }
  pose proof (fz_base _ _ _ (HF d [] x HD)) as Hbs. rewrite Hts in Hbs. cbn in Hbs. unfold dawg_size. rewrite Hbs. cbn. lia.
Qed.
Lemma ranked_cases sort cmp h d us : sorter sort -> hist_ok h -> made_dawg h d us -> exists R g, ent_es R = map nentry (accepted h) /\ wfe R /\
  N.of_nat (nedges_es R) <= hist_size h /\ BuildRankedGuideCmp sort cmp d us = Ok (Some g) /\
  ((R = [] /\ us = empty_units /\ g = []) \/
   (R <> [] /\ g <> [] /\ exists node, drep us R node /\ rgrep sort cmp us node g)).
Proof.
  intros Hso Hh (size & d0 & rs & un & Hs & Hb & Hbd). destruct (build_abs h Hh) as (R & x & He & Hne & Hd). destruct (Hd size d0 Hs) as (d' & Hbd' & HD).
  rewrite Hb in Hbd'. injection Hbd' as -> <-. rewrite bwu_eq in Hbd. exists R. destruct (decide (R = [])) as [->|HR].
  - rewrite (build_empty d [] x HD eq_refl) in Hbd. apply ok_inj in Hbd. subst us. exists []. split; [exact He|]. split; [apply wfe_nil|]. split; [exact Hne|].
    split; [exact (ranked_empty sort cmp d x empty_units HD)|left; exact (conj eq_refl (conj eq_refl eq_refl))].
  - destruct (build_nonempty d R x HD HR) as [(b & nb & asg & ff & H1 & H2 & _)|[H1 _]]; rewrite H1 in Hbd; clear H1; [|discriminate Hbd].
    injection Hbd as <- <-. pose proof (binv_drep _ _ _ _ _ H2) as HP. destruct (BuildRanked_ok _ _ _ HP d x HD HR sort cmp Hso) as (g & Hg & HG).
    exists g. split; [exact He|]. split; [apply wfe_or, HD|]. split; [exact Hne|]. split; [exact Hg|]. right. split; [exact HR|]. split.
    + intros ->. pose proof (rg_len _ _ _ _ _ HG) as Hl. pose proof (rp_lt _ _ _ HP _ _ (rp_root _ _ _ HP)) as H0. cbn [length] in Hl. clear -Hl H0. lia.
    + exists (dn R asg). exact (conj HP HG).
Qed.
Lemma tnode_nedges R p es : tnode R p es -> (nedges (Node es) <= nedges (Node R))%nat.
Proof.
  induction 1 as [es0|es0 l es1 p0 es2 H1 H2 IH]; [done|]. etransitivity; [exact IH|]. clear -H1. cbn [nedges].
  pose proof (sum_list_with_in _ (fun e : N * sub => S (nedges e.2)) _ H1) as H. cbn [snd nedges] in H. lia.
Qed.

Section outs.
  Context (us : dict) (R : edges) (node : N -> edges -> Prop) (HN : drep us R node).
  Context (sort : (link -> link -> bool) -> list link -> list link) (cmp : Z -> Z -> bool) (Hs : sorter sort).
  Context (g : guide) (HG : rgrep sort cmp us node g) (es0 : edges) (P : list N).
  Local Notation ready := (ready us node sort cmp g es0 P).
  Definition rout_of (kv : list N * N) : list N * Z * Z := (P ++ kv.1 ++ [0], Z.of_nat (length (P ++ kv.1)), Z.of_N kv.2).
  Lemma routs n : forall c L E, length E = n -> ready c L E -> exists E', E' ≡ₚ E /\ routputs us g c (map rout_of E') /\
    (dec sort cmp -> StronglySorted (fun a b => b <= a)%Z (map (fun kv => Z.of_N kv.2) E') /\ Forall (fun kv => Z.of_N kv.2 <= L)%Z E').
  Proof using HN Hs HG.
    induction n as [|n IH]; intros c L E Hl Hr; destruct (Next_ok us R node HN sort cmp Hs g HG es0 P c L E Hr) as [(-> & c' & Hn & _)|(k & v & E1 & c' & HE & Hn & Hp & Hv & Hd & Hr' & _)].
    - exists []. split; [done|]. split; [by eapply rout_end|]. intros _. split; [constructor|done].
    - apply Permutation_length in HE. rewrite Hl in HE. done.
    - done.
    - assert (Hl' : length E1 = n) by (apply Permutation_length in HE; rewrite Hl in HE; cbn in HE; lia).
      destruct (IH c' (Z.of_N v) E1 Hl' Hr') as (E2 & HE2 & Ho & Hd2). exists ((k, v) :: E2). split; [by rewrite HE, HE2|]. split.
      + cbn [map]. unfold rout_of at 1. cbn [fst snd].
        assert (Hx : (P ++ k ++ [0], Z.of_nat (length (P ++ k)), Z.of_N v) = (rc_Key c', rc_Length c', rc_Value c')).
        { unfold rc_Key, rc_Length, rc_Value. rewrite Hp, Hv. f_equal. f_equal. rewrite !app_length. cbn [length]. lia. }
        rewrite Hx. by eapply rout_step.
      + intros Hd'. destruct (Hd2 Hd') as [D1 D2]. specialize (Hd Hd'). split.
        * cbn [map snd]. constructor; [done|]. rewrite Forall_fmap. exact D2.
        * constructor; [done|]. eapply Forall_impl; [exact D2|]. cbn. intros [k' v'] H. cbn [snd] in *. lia.
  Qed.
  (** What is reached is reached with answers, and the end is the end. *)
  Lemma rnexts_ready c c' L E : ready c L E -> rnexts us g c c' -> exists L' E', ready c' L' E'.
  Proof using HN Hs HG.
    intros Hr. induction 1 as [c|c c' c'' b _ IH Hn]; [eauto|]. destruct (IH Hr) as (L' & E' & Hr').
    destruct (Next_ok us R node HN sort cmp Hs g HG es0 P c' L' E' Hr') as [(-> & c2 & Hn' & Hr2 & _)|(k & v & E1 & c2 & HE & Hn' & _ & _ & _ & Hr2 & _)]; rewrite Hn in Hn'; injection Hn' as -> ->; eauto.
  Qed.
End outs.

(** The default comparator. *)
Lemma ltb_dec sort : sorter sort -> dec sort Z.ltb.
Proof.
  intros Hs es pre e rest e' Hw Hoe Hin. pose proof (oe_links sort Z.ltb Hs es Hw) as Hl. rewrite Hoe, map_app in Hl. cbn [map] in Hl.
  apply elem_of_list_lookup in Hin as [j Hj]. pose proof (proj2 Hs (link_less Z.ltb) (links sort Z.ltb es) (length pre) (length pre + S j)%nat (e.1, mx sort Z.ltb e.2) (e'.1, mx sort Z.ltb e'.2) ltb_weak ltac:(lia)) as H.
  assert (H1 : link_less Z.ltb (e'.1, mx sort Z.ltb e'.2) (e.1, mx sort Z.ltb e.2) = false).
  { change (sort (link_less Z.ltb) (links sort Z.ltb es)) with (ord sort Z.ltb es) in H. rewrite <- Hl in H. change (map ?f ?l) with (f <$> l) in H. apply H.
    - rewrite lookup_app_r by (rewrite fmap_length; lia). rewrite fmap_length, Nat.sub_diag. done.
    - rewrite lookup_app_r by (rewrite fmap_length; lia). rewrite fmap_length. replace (length pre + S j - length pre)%nat with (S j) by lia.
      change ((?x :: ?l) !! S j) with (l !! j). change (map ?f rest) with (f <$> rest). rewrite list_lookup_fmap, Hj. done. }
  unfold link_less in H1. cbn [fst snd] in H1. destruct (Z.eqb_spec (mx sort Z.ltb e'.2) (mx sort Z.ltb e.2)); cbn [negb] in H1; [lia|]. apply Z.ltb_ge in H1. done.
Qed.

(** Comparators that order the values completely: the first value of a node is a
    best one. *)
Lemma total_weak cmp : total_order cmp -> weak_order (link_less cmp).
Proof.
  intros (H1 & H2 & H3). assert (Has : forall a b, cmp a b = true -> cmp b a = false).
  { intros a b H. destruct (cmp b a) eqn:E; [|done]. rewrite <- (H1 a). symmetry. by apply (H2 a b a). }
  assert (Hne : forall a b, cmp a b = true -> a <> b) by (intros a b H ->; rewrite H1 in H; done).
  unfold weak_order, equiv, link_less. split; [|split].
  - intros [l v]. cbn [fst snd]. rewrite Z.eqb_refl. cbn. apply N.ltb_irrefl.
  - intros [a u] [b v] [c w]. cbn [fst snd]. destruct (Z.eqb_spec u v) as [Euv|Huv], (Z.eqb_spec v w) as [Evw|Hvw]; cbn [negb]; rewrite ?N.ltb_lt.
    + subst. rewrite Z.eqb_refl. cbn [negb]. rewrite N.ltb_lt. intros. lia.
    + subst. destruct (Z.eqb_spec v w); [done|]. done.
    + subst. destruct (Z.eqb_spec u w); [done|]. done.
    + intros Hvu Hwv. pose proof (H2 _ _ _ Hwv Hvu) as Hwu. destruct (Z.eqb_spec u w) as [->|]; [by apply Hne in Hwu|done].
  - assert (Heq : forall u v : link, (if negb (u.2 =? v.2)%Z then cmp v.2 u.2 else u.1 <? v.1) = false /\ (if negb (v.2 =? u.2)%Z then cmp u.2 v.2 else v.1 <? u.1) = false -> u = v).
    { intros [a u] [b v]. cbn [fst snd]. destruct (Z.eqb_spec u v) as [<-|Huv]; cbn [negb]; rewrite ?Z.eqb_refl; cbn [negb].
      - rewrite !N.ltb_ge. intros [? ?]. f_equal. lia.
      - destruct (Z.eqb_spec v u); [done|]. cbn [negb]. intros [Ha Hb]. destruct (H3 u v Huv); congruence. }
    intros a b c Hab%Heq Hbc%Heq. subst. rewrite Z.eqb_refl. cbn [negb]. by rewrite N.ltb_irrefl.
Qed.
Lemma mx_best sort cmp : sorter sort -> total_order cmp -> forall s k v, wf s -> (k, v) ∈ ent s -> cmp (mx sort cmp s) (Z.of_N v) = false.
Proof.
  intros Hs Ht. induction s as [w|es IH] using sub_ind'; intros k v Hw Hk.
  - cbn [ent] in Hk. apply elem_of_list_singleton in Hk. injection Hk as -> ->. cbn [mx]. apply Ht.
  - apply wf_wfe in Hw as [Hne Hw]. rewrite ent_node in Hk. unfold ent_es in Hk. apply elem_of_list_In, in_concat in Hk as (l & Hl & Hk).
    apply in_map_iff in Hl as ([c s] & <- & Hin). apply elem_of_list_In in Hk, Hin.
    destruct (wfe_in _ _ Hw Hin) as (Hws & _). cbn [snd] in Hws.
    assert (exists k', (k', v) ∈ ent s) as [k' Hk'].
    { unfold ent_e in Hk. cbn [fst snd] in Hk. destruct (c =? 0); [by exists k|]. apply elem_of_list_fmap in Hk as ([k' v'] & [= -> ->] & Hk). by exists k'. }
    rewrite Forall_forall in IH. pose proof (IH _ Hin k' v Hws Hk') as H1. cbn [snd] in H1.
    destruct (mx_first sort cmp Hs es Hw Hne) as (l0 & s0 & rest & Hoe & _ & -> & _).
    assert (H0 : (c, s) ∈ oe sort cmp es) by (by rewrite (oe_perm sort cmp Hs es Hw)).
    assert (H2 : cmp (mx sort cmp s0) (mx sort cmp s) = false).
    { rewrite Hoe in H0. apply elem_of_cons in H0 as [[= -> ->]|H0]; [apply Ht|]. apply elem_of_list_lookup in H0 as [j Hj].
      pose proof (oe_links sort cmp Hs es Hw) as Hl. rewrite Hoe in Hl.
      pose proof (proj2 Hs (link_less cmp) (links sort cmp es) 0%nat (S j) (l0, mx sort cmp s0) (c, mx sort cmp s) (total_weak cmp Ht) ltac:(lia)) as H.
      assert (Hlt : link_less cmp (c, mx sort cmp s) (l0, mx sort cmp s0) = false).
      { change (sort (link_less cmp) (links sort cmp es)) with (ord sort cmp es) in H. rewrite <- Hl in H. apply H; [done|].
        change (map ?f ?l) with (f <$> l). rewrite list_lookup_fmap. change (((l0, s0) :: rest) !! S j) with (rest !! j). by rewrite Hj. }
      unfold link_less in Hlt. cbn [fst snd] in Hlt. destruct (Z.eqb_spec (mx sort cmp s) (mx sort cmp s0)) as [->|]; [apply Ht|done]. }
    destruct (cmp (mx sort cmp s0) (Z.of_N v)) eqn:E; [|done]. exfalso. destruct Ht as (T1 & T2 & T3).
    destruct (decide (mx sort cmp s0 = mx sort cmp s)) as [E2|E2]; [congruence|]. destruct (T3 _ _ E2) as [E3|E3]; [congruence|].
    pose proof (T2 _ _ _ E3 E). congruence.
Qed.
