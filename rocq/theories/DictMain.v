(** BuildDictionary as a whole. *)
From Verif Require Import Go BitPool LinkTable Probe LinkTableProofs Dawg DawgRep Tree TreeFacts DawgFrozen DawgFix DawgMain DawgSpec DawgAbs DawgNav Dict DictUnit DictX DictGrow DictInv DictPlace DictBuild DictDfs.
Local Open Scope N_scope.
Local Ltac Zify.zify_post_hook ::= Z.div_mod_to_equations.
Local Arguments N.mul : simpl never.
Local Arguments N.add : simpl never.
Local Arguments N.of_nat : simpl never.
Local Arguments N.lxor : simpl never.

(** ** fixAllBlocks *)
Lemma fixAll_loop n : forall k b nb q R asg pd ff, binv b nb q (256 * N.of_nat k) R asg pd ff -> (q <= k)%nat -> (k + n = nb)%nat ->
  exists b' ff', for_range n (N.of_nat k) (fun i b => fixBlock b i) b = Ok b' /\ binv b' nb q (256 * N.of_nat nb) R asg pd ff'.
Proof.
  induction n as [|n IH]; intros k b nb q R asg pd ff HB Hq Hn; cbn [for_range].
  - assert (k = nb) as -> by lia. exists b, ff. done.
  - destruct (fixBlock_ok reserveUnit b nb q k R asg pd ff rsv_unit HB) as (b1 & ff1 & Hb1 & HB1 & _); [lia|].
    change (fixBlock b (N.of_nat k) = Ok b1) in Hb1. rewrite Hb1. cbn [mbind res_bind]. pose proof (xi_lim _ _ _ (bi_x _ _ _ _ _ _ _ _ HB)).
    replace (u32 (N.of_nat k + 1)) with (N.of_nat (S k)) by (rewrite u32_small; lia). apply (IH (S k) b1 nb q R asg pd ff1); [done|lia|lia].
Qed.
Lemma fixAll_ok b nb R asg pd ff : BI b nb R asg pd ff -> exists b' ff', fixAllBlocks b = Ok b' /\
  binv b' nb (nb - 16) (256 * N.of_nat nb) R asg pd ff'.
Proof.
  intros HB. pose proof (bi_x _ _ _ _ _ _ _ _ HB) as HX. pose proof (xi_lim _ _ _ HX). unfold fixAllBlocks, numOfBlocks, len32.
  rewrite (proj1 (xi_shape _ _ _ HX)), u32_small by lia. unfold numOfUnfixedBlocks.
  replace (if 16 <? N.of_nat nb then N.of_nat nb - 16 else 0) with (N.of_nat (nb - 16)) by (destruct (N.ltb_spec 16 (N.of_nat nb)); lia).
  apply (fixAll_loop _ (nb - 16) b nb (nb - 16) R asg pd ff HB); lia.
Qed.

(** ** The root *)
Lemma root_unit : exists u0, u0 = dictSetLabel (dictSetOffset 0 1).2 0 /\ u0 < two32 /\ dictLabel u0 = 0 /\ dictIsLeaf u0 = false /\ dictHasLeaf u0 = false.
Proof. exists 1024. repeat split. Qed.
Lemma init_ok lt R : wf (Node R) -> exists b1 b2 us1 us2,
  reserveUnit (mkDB [] [] lt 0 0) 0 = Ok b1 /\ db_extra_upd b1 0 ex_setIsUsed = Ok b2 /\
  upd (db_units b2) 0 (fun u => (dictSetOffset u 1).2) = Ok us1 /\ upd us1 0 (fun u => dictSetLabel u 0) = Ok us2 /\
  db_link b2 = lt /\ BI (dbset_units b2 us2) 1 R [] [0] [].
Proof.
  intros Hwf. set (b0 := mkDB [] [] lt 0 0).
  assert (HX0 : xinv b0 0 (0 - 16)).
  { constructor; cbn [db_units db_extras db_unfixed b0]; try done; try lia. }
  destruct (grow_ok b0 0 HX0) as (ba & bb & Ha & Hb & HXb & Hub & Hlb & Hnb & Hfb & Husb); [lia|intros i _ (e & He & _); done|].
  assert (Hexp : expand_with reserve_in b0 = Ok bb).
  { unfold expand_with. change (numOfUnits b0) with (256 * N.of_nat 0). change (numOfBlocks b0) with (N.of_nat 0).
    change (u32 (N.of_nat 0 + 1)) with (N.of_nat 1). change (u32 (256 * N.of_nat 0 + blockSize)) with (256 * N.of_nat 0 + 256).
    cbv zeta. change (numOfUnfixedBlocks <? N.of_nat 1) with false. cbn [mbind res_bind]. rewrite Ha. cbn [mbind res_bind]. done. }
  assert (Hf0 : free (X bb) 0) by (apply Hfb; right; lia).
  destruct (unlink_ok bb 1 _ 0 HXb Hf0) as (b1 & Hb1 & HX1 & (Hs1 & Hs2 & Hs3) & Hfree1 & Hused1).
  assert (Hlv : is_Some (X b1 0)) by (apply (shape_xt _ _ _ 0 (xi_shape _ _ _ HX1)); lia). destruct Hlv as [e0 He0].
  destruct (xinv_used b1 1 _ 0 e0 HX1 He0) as (b2 & Hb2 & HX2 & Hus2 & Hlk2 & Hn2 & Hfree2 & Hused2 & Hsome2).
  assert (Hz : forall i, i < 256 -> db_units b2 !! N.to_nat i = Some 0).
  { intros i Hi. rewrite Hus2, Hs3, Hub. cbn [db_units b0 app]. apply lookup_replicate. split; [done|lia]. }
  assert (exists u0, u0 = dictSetLabel (dictSetOffset 0 1).2 0 /\ u0 < two32 /\ dictLabel u0 = 0 /\ dictIsLeaf u0 = false /\ dictHasLeaf u0 = false)
    as (u0 & Eu0 & Hu0a & Hu0b & Hu0c & Hu0d) by (exact root_unit).
  exists b1, b2, (<[N.to_nat 0 := (dictSetOffset 0 1).2]> (db_units b2)), (<[N.to_nat 0 := u0]> (db_units b2)).
  assert (Hlen : (length (db_units b2) = 256)%nat) by (rewrite (xi_len _ _ _ HX2); lia).
  split; [|split; [done|split; [|split; [|split; [rewrite Hlk2, Hs1, Hlb; done|]]]]].
  - unfold reserveUnit. change (numOfUnits b0 <=? 0) with true. cbn iota. rewrite Hexp. cbn [mbind res_bind]. done.
  - rewrite (upd_N _ _ _ 0); [done|]. apply Hz. lia.
  - rewrite (upd_N _ _ _ (dictSetOffset 0 1).2) by (rewrite list_lookup_insert; [done|lia]). by rewrite list_insert_insert, Eu0.
  - clear Eu0. assert (Hf : forall i, free (X b2) i <-> i < 256 /\ i <> 0).
    { intros i. rewrite Hfree2, Hfree1, Hfb. split.
      - intros [[(e & He & _)|H] H2]; [done|]. lia.
      - intros [H1 H2]. split; [right; lia|done]. }
    assert (Hu : forall i, used (X b2) i <-> i = 0).
    { intros i. rewrite Hused2, Hused1, Husb. split; [|by right]. intros [[(e & He & _) _]|?]; [done|done]. }
    constructor; cbn [db_units db_extras db_unused dbset_units]; [by apply xinv_units; [|rewrite insert_length]| |lia|rewrite Hn2, Hs2, Hnb; done].
    clear - Hwf Hz Hf Hu Hlen Hu0a Hu0b Hu0c Hu0d.
    constructor; cbn [fmap list_fmap].
    + done.
    + apply Forall_insert; [|done]. apply Forall_lookup. intros i u Hi. pose proof (lookup_lt_Some _ _ _ Hi).
      specialize (Hz (N.of_nat i)). rewrite Nat2N.id in Hz. rewrite Hz in Hi by lia. injection Hi as <-. unfold two32; lia.
    + intros i Hi. apply Hf in Hi as [Hi1 Hi2]. rewrite list_lookup_insert_ne by lia. split; [by apply Hz|]. split; [lia|].
      intros [?|(o & es & l & s & Hin & _)]; [done|by apply elem_of_nil in Hin].
    + intros i e He. rewrite elem_of_nil. pose proof (Hu i) as Hi. unfold used in Hi. rewrite He in Hi. split; intros H.
      * left. apply Hi. eauto.
      * destruct H as [H|[]]. destruct (proj2 Hi H) as (y & Hy & ?). congruence.
    + intros i Hi. destruct (decide (i = 0)); [by right; left; left|]. left. apply Hf. lia.
    + intros i Hi. by apply elem_of_nil in Hi.
    + apply NoDup_nil_2.
    + intros o es Hi. by apply elem_of_nil in Hi.
    + apply NoDup_nil_2.
    + intros o es l s o' es' l' s' Hi. by apply elem_of_nil in Hi.
    + intros o es l s Hi. by apply elem_of_nil in Hi.
    + intros o es v Hi. by apply elem_of_nil in Hi.
    + intros i l es [(-> & -> & ->)|(o & es' & Hi & _)]; [|by apply elem_of_nil in Hi].
      exists u0. split; [rewrite list_lookup_insert; [done|lia]|]. split; [done|]. split; [done|]. left. split; [constructor|done].
    + done.
    + split; [apply NoDup_singleton|]. intros i Hi. apply elem_of_list_singleton in Hi as ->. exists 0, R. by left.
Qed.

(** ** The result *)
Section main.
  Context (d : dawg) (R : edges) (x : fixedst).
  Hypothesis HD : dawgw d R x.

  Lemma build_nonempty : R <> [] ->
    (exists b nb asg ff, BuildDictionary d = Ok (Some (db_units b, db_unused b)) /\
       binv b nb (nb - 16) (256 * N.of_nat nb) R asg [] ff /\ (1 <= nb <= 1 + length (nodes (Node R)))%nat) \/
    (BuildDictionary d = Ok None /\ 2097152 < N.of_nat (1 + length (nodes (Node R)))).
  Proof using HD.
    intros HR. assert (Hwf : wf (Node R)) by (destruct (dw_wf _ _ _ HD); [done|done]).
    pose proof (HF d R x HD) as Hfz.
    unfold BuildDictionary. set (lt := NewLinkTable (d_merging d + N.shiftr (d_merging d) 1)).
    assert (Hlt0 : lt = NewLinkTable (d_merging d + N.shiftr (d_merging d) 1)) by reflexivity. clearbody lt.
    destruct (init_ok lt R Hwf) as (b1 & b2 & us1 & us2 & H1 & H2 & H3 & H4 & H5 & HB).
    rewrite H1. cbn [mbind res_bind]. rewrite H2. cbn [mbind res_bind]. rewrite H3. cbn [mbind res_bind]. rewrite H4. cbn [mbind res_bind]. clear H1 H2 H3 H4.
    destruct (dw_child d R x HD) as (c & Hc & Hkid). destruct Hkid as [[? _]|(k & Hk & ->)]; [done|].
    assert (Hsz : (1 <? dawg_size d) = true).
    { apply N.ltb_lt. unfold dawg_size. rewrite (fz_base _ _ _ Hfz). pose proof (start_bound _ _ _ Hk). apply wf_wfe in Hwf as [_ _].
      destruct R; [done|]. unfold start in *. cbn [length] in *. lia. }
    rewrite Hsz. destruct HD as [(root & Hrep & _) _].
    assert (HL : lkinv x lt []).
    { destruct (x_fl x) as [|e fl0] eqn:E; [by left|]. right. exists (fun _ => None), (length (x_fl x) + length (x_fl x) / 2)%nat.
      assert (Hlen : (length (x_fl x) <= psum (x_ts x))%nat).
      { transitivity (length (x_ts x)).
        - apply submseteq_length, NoDup_submseteq; [apply Hrep|]. intros e' He'. by apply (dr_flin _ _ _ Hrep).
        - pose proof (wf_ne _ (fz_wf _ _ _ Hfz)) as Hne. clear -Hne. induction Hne as [|e ts He _ IH]; cbn; [lia|]. destruct e; [done|]. cbn. lia. }
      pose proof (fz_size _ _ _ Hfz).
      assert (Hdiv : (N.of_nat (length (x_fl x) / 2) = N.of_nat (length (x_fl x)) / 2)) by apply (Nat2N.inj_div _ 2).
      assert (Hlt : lt = NewLinkTable (N.of_nat (length (x_fl x) + length (x_fl x) / 2))).
      { rewrite Hlt0. f_equal. rewrite (dr_merging _ _ _ Hrep), N.shiftr_div_pow2. change (2 ^ 1) with 2. lia. }
      split; [|split; [lia|split]].
      - rewrite Hlt. apply ltinv_new. unfold two32. rewrite E in *. cbn [length] in *. lia.
      - intros c Hc'. exfalso. apply stored_elem in Hc' as (Hnz & i & y & Hy & Hyk). rewrite Hlt0 in Hy. unfold NewLinkTable in Hy.
        apply lookup_replicate in Hy as [-> _]. by apply Hnz.
      - done. }
    assert (Hroot : dawg_isLeaf d dawg_root = Ok false).
    { unfold dawg_isLeaf, dawg_lbl, dawg_root. rewrite (get_N _ 0 _ (dr_rootl _ _ _ Hrep)). done. }
    assert (Hpre : forall n, built R x (dbset_units b2 us2) 1 [] [] n (buildIndices (S (length (d_base d))) d (dbset_units b2 us2) dawg_root 0) ->
      n = length (nodes (Node R)) -> ((∃ b nb asg ff,
      ('(ok, b) ← buildIndices (S (length (d_base d))) d (dbset_units b2 us2) dawg_root 0; if negb ok then Ok None else b ← fixAllBlocks b; Ok (Some (db_units b, db_unused b))) = Ok (Some (db_units b, db_unused b))
      /\ binv b nb (nb - 16) (256 * N.of_nat nb) R asg [] ff /\ (1 <= nb <= 1 + n)%nat) \/
      (('(ok, b) ← buildIndices (S (length (d_base d))) d (dbset_units b2 us2) dawg_root 0; if negb ok then Ok None else b ← fixAllBlocks b; Ok (Some (db_units b, db_unused b))) = Ok None /\ 2097152 < N.of_nat (1 + n)))).
    { intros n Hb _. destruct Hb as [(b' & nb' & asg' & ff' & -> & HB' & _ & Hnb')|(b' & -> & Hbad)]; cbn [mbind res_bind negb].
      - destruct (fixAll_ok _ _ _ _ _ _ HB') as (b3 & ff3 & -> & HB3). cbn [mbind res_bind]. left. exists b3, nb', (asg' ++ []), ff3. split; [done|].
        split; [done|]. lia.
      - right. done. }
    eapply Hpre; [|done]. eapply (build_node d R x HD); [|exact HB|cbn [db_link dbset_units]; by rewrite H5|by left|exact Hk|done|exact Hc|lia].
    pose proof (hgt_bound d R x HD HR) as Hhb. rewrite (fz_base _ _ _ Hfz).
    assert (length (x_ts x) <= psum (x_ts x))%nat; [|lia].
    pose proof (wf_ne _ (fz_wf _ _ _ Hfz)) as Hne. clear -Hne. induction Hne as [|e ts He _ IH]; cbn; [lia|]. destruct e; [done|]. cbn. lia.
  Qed.

End main.
Section empty.
  Context (d : dawg) (R : edges) (x : fixedst).
  Hypothesis HD : dawgof d R x.
  (** The dictionary of the empty history. *)
  Definition empty_units : list N := 1024 :: map (fun i => N.lxor (N.of_nat i) 1) (seq 1 255).
  Lemma build_empty : R = [] -> BuildDictionary d = Ok (Some (empty_units, 255)).
  Proof using HD.
    intros HR. assert (Hts : x_ts x = []).
    { destruct (x_ts x) as [|e ts] eqn:E; [done|]. assert (Hin : e ∈ x_ts x) by (rewrite E; constructor).
      by apply (do_in d R x HD) in Hin as [? _]. }
    assert (Hfl : x_fl x = []).
    { destruct (x_fl x) as [|e fl] eqn:E; [done|]. assert (Hin : e ∈ x_fl x) by (rewrite E; constructor).
      by apply (do_fl d R x HD) in Hin as (? & ? & _ & _ & _ & ?). }
    pose proof (HF d R x HD) as Hfz. destruct HD as [(root & Hrep & _) _ _].
    pose proof (dr_merging _ _ _ Hrep) as Hm. rewrite Hfl in Hm. cbn [length] in Hm.
    pose proof (fz_base _ _ _ Hfz) as Hb. rewrite Hts in Hb. cbn in Hb.
    unfold BuildDictionary, dawg_size. rewrite Hm, Hb. cbn iota. vm_compute. reflexivity.
  Qed.
End empty.
