(** buildDictionaryIndices: the whole recursion. *)
From Verif Require Import Go BitPool LinkTable Probe LinkTableProofs Dawg DawgRep Tree TreeFacts DawgFrozen DawgFix DawgMain DawgAbs DawgNav Dict DictUnit DictX DictGrow DictInv DictPlace DictBuild.
Local Open Scope N_scope.
Local Ltac Zify.zify_post_hook ::= Z.div_mod_to_equations.
Local Arguments N.mul : simpl never.
Local Arguments N.add : simpl never.
Local Arguments N.of_nat : simpl never.
Local Arguments N.lxor : simpl never.

(** Depth of the recursion below a subtree. *)
Fixpoint hgt (s : sub) : nat := match s with Leaf _ => 1 | Node es => S (foldr Nat.max O (map (fun e => hgt e.2) es)) end.
Lemma hgt_in es l s : (l, s) ∈ es -> (hgt s < hgt (Node es))%nat.
Proof.
  intros H. cbn [hgt]. apply Nat.lt_succ_r. induction es as [|e es IH]; [by apply elem_of_nil in H|].
  apply elem_of_cons in H as [<-|H]; cbn [map foldr snd]; [lia|]. apply IH in H. lia.
Qed.
Lemma hgt_pos s : (0 < hgt s)%nat. Proof. destruct s; cbn; lia. Qed.
Lemma hgt_top es : wf (Node es) -> exists l s, (l, s) ∈ es /\ hgt (Node es) = S (hgt s).
Proof.
  intros Hw. apply wf_wfe in Hw as [Hne _]. cbn [hgt]. induction es as [|[l s] es IH]; [done|].
  cbn [map foldr snd]. destruct es as [|e es].
  - exists l, s. split; [constructor|]. cbn. f_equal. lia.
  - destruct (IH ltac:(done)) as (l' & s' & Hin & He). 
    destruct (Nat.max_spec (hgt s) (foldr Nat.max 0%nat (map (λ e0 : N * sub, hgt e0.2) (e :: es)))) as [[_ ->]|[_ ->]].
    + exists l', s'. split; [by constructor|done].
    + exists l, s. split; [constructor|done].
Qed.

Section dfs.
  Context (d : dawg) (R : edges) (x : fixedst).
  Hypothesis HD : dawgw d R x.
  Hypothesis HR : R <> [].
  Local Notation ts := (x_ts x).
  Local Notation fl := (x_fl x).

  Lemma HF : frozen (d_base d) (d_label d) ts. Proof using HD. by apply (dw_frozen d R x). Qed.

  (** Every height up to that of the root is the height of some node. *)
  Lemma hgt_bound : (hgt (Node R) <= S (length ts))%nat.
  Proof using HD HR.
    assert (Hall : forall n es p, tnode R p es -> (hgt (Node es) = S n)%nat -> exists l, NoDup l /\ length l = n /\ (forall e, e ∈ l -> e ∈ ts /\ (hgt (Node e) <= S n)%nat)).
    { induction n as [|n IH]; intros es p Ht Hh; [exists []; split; [apply NoDup_nil_2|]; split; [done|]; intros e He; by apply elem_of_nil in He|].
      assert (Hes : es ∈ ts) by (by eapply (dw_in d R x HD)).
      assert (Hwf : wf (Node es)). { pose proof (fz_wf _ _ _ HF) as Hw. rewrite Forall_forall in Hw. by apply Hw. }
      destruct (hgt_top es Hwf) as (l & s & Hin & Hs). rewrite Hh in Hs. injection Hs as Hs. destruct s as [v|es'].
      - cbn in Hs. injection Hs as ->. exists [es]. split; [apply NoDup_singleton|]. split; [done|].
        intros e He. apply elem_of_list_singleton in He as ->. split; [done|lia].
      - destruct (IH es' (p ++ [l])) as (L & H1 & H2 & H3); [|done|].
        { eapply tnode_app; [done|]. econstructor; [done|constructor]. }
        exists (es :: L). split; [apply NoDup_cons; split; [|done]|split; [cbn; lia|]].
        + intros Hc. apply H3 in Hc as [_ Hc]. lia.
        + intros e He. apply elem_of_cons in He as [->|He]; [split; [done|lia]|]. apply H3 in He as [? ?]. split; [done|lia]. }
    pose proof (hgt_pos (Node R)). destruct (Hall (hgt (Node R) - 1)%nat R []) as (L & H1 & H2 & H3); [constructor|lia|].
    assert (length L <= length ts)%nat; [|lia]. apply submseteq_length, NoDup_submseteq; [done|]. intros e He. by apply H3.
  Qed.

  (** The link table holds offsets of nodes that several paths share. *)
  Definition lkinv (lt : linktable) (asg : list (N * edges)) : Prop :=
    fl = [] \/ exists m size, ltinv lt size m /\ (length fl <= size)%nat /\
      (forall c, c ∈ stored fst lt -> exists k es, c = N.of_nat (start ts k) /\ ts !! k = Some es /\ es ∈ fl) /\
      (forall c o, m c = Some o -> exists k es, c = N.of_nat (start ts k) /\ ts !! k = Some es /\ (o, es) ∈ asg).
  Lemma lkinv_mono lt asg a : lkinv lt asg -> lkinv lt (a :: asg).
  Proof.
    intros [?|(m & size & H1 & H2 & H3 & H4)]; [by left|]. right. exists m, size. split; [done|]. split; [done|]. split; [done|].
    intros c o Hc. destruct (H4 c o Hc) as (k & es & ? & ? & ?). exists k, es. split; [done|]. split; [done|]. by constructor.
  Qed.
  Lemma start_pos k : N.of_nat (start ts k) <> 0. Proof. unfold start. lia. Qed.
  Lemma start_fun k k' es es' : ts !! k = Some es -> ts !! k' = Some es' -> start ts k = start ts k' -> k = k'.
  Proof using HD. intros H1 H2 E. eapply start_inj; [apply wf_ne, HF|done|done|done]. Qed.

  Lemma stored_room lt size m k es : ltinv lt size m -> (length fl <= size)%nat ->
    (forall c, c ∈ stored fst lt -> exists k es, c = N.of_nat (start ts k) /\ ts !! k = Some es /\ es ∈ fl) ->
    ts !! k = Some es -> es ∈ fl -> N.of_nat (start ts k) ∉ stored fst lt -> (length (stored fst lt) < size)%nat.
  Proof using HD.
    intros HL Hsz Hst Hk Hes Hno.
    set (idxs := filter (fun k => ts !!! k ∈ fl) (seq 0 (length ts))).
    assert (Hin : forall k es, ts !! k = Some es -> es ∈ fl -> k ∈ idxs).
    { intros k' es' Hk' Hes'. apply elem_of_list_filter. rewrite (list_lookup_total_correct _ _ _ Hk'). split; [done|].
      apply elem_of_seq. apply lookup_lt_Some in Hk'. lia. }
    assert (Hlen : (length idxs <= length fl)%nat).
    { rewrite <- (fmap_length (fun k => ts !!! k) idxs). apply submseteq_length, NoDup_submseteq.
      - apply NoDup_fmap_2_strong; [|apply NoDup_filter, NoDup_seq]. intros a b Ha Hb E.
        apply elem_of_list_filter in Ha as [_ Ha], Hb as [_ Hb]. apply elem_of_seq in Ha, Hb.
        destruct (lookup_lt_is_Some_2 ts a) as [ea Ea]; [lia|]. destruct (lookup_lt_is_Some_2 ts b) as [eb Eb]; [lia|].
        rewrite (list_lookup_total_correct _ _ _ Ea), (list_lookup_total_correct _ _ _ Eb) in E. subst eb.
        eapply NoDup_lookup; [apply HF|done|done].
      - intros e (k' & -> & Hk')%elem_of_list_fmap. by apply elem_of_list_filter in Hk' as [? _]. }
    assert (length (N.of_nat (start ts k) :: stored fst lt) <= length ((fun k => N.of_nat (start ts k)) <$> idxs))%nat;
      [|rewrite fmap_length in *; cbn [length] in *; lia].
    apply submseteq_length, NoDup_submseteq; [apply NoDup_cons; split; [done|apply HL]|].
    intros c Hc. apply elem_of_list_fmap. apply elem_of_cons in Hc as [->|Hc]; [eauto|].
    apply Hst in Hc as (k' & es' & -> & Hk' & Hes'). eauto.
  Qed.

  Lemma link_find lt asg k es : lkinv lt asg -> ts !! k = Some es -> es ∈ fl ->
    lt_find lt (N.of_nat (start ts k)) = Ok 0 \/ exists o, lt_find lt (N.of_nat (start ts k)) = Ok o /\ (o, es) ∈ asg.
  Proof using HD.
    intros [E|(m & size & H1 & H2 & H3 & H4)] Hk Hes; [rewrite E in Hes; by apply elem_of_nil in Hes|].
    rewrite (ltinv_find lt size m _ H1 (start_pos k)). destruct (m (N.of_nat (start ts k))) as [o|] eqn:Em.
    - right. exists o. split; [done|]. destruct (H4 _ _ Em) as (k' & es' & E & Hk' & Hin).
      assert (k = k') as <- by (eapply start_fun; [done|done|lia]). by simplify_eq.
    - left. assert (Hno : N.of_nat (start ts k) ∉ stored fst lt).
      { intros Hin. apply stored_elem in Hin as (Hnz & j & [i o] & Hj & Hi). cbn in Hi. subst i.
        pose proof (li_get _ _ _ H1 _ _ _ Hj) as Hg. destruct (N.eqb_spec (N.of_nat (start ts k)) 0); [done|congruence]. }
      pose proof (stored_room _ _ _ _ _ H1 H2 H3 Hk Hes Hno). by destruct (Nat.ltb_spec (length (stored fst lt)) size); [|lia].
  Qed.
  Lemma link_insert lt asg k es o : lkinv lt asg -> ts !! k = Some es -> es ∈ fl -> (o, es) ∈ asg ->
    exists lt', lt_insert lt (N.of_nat (start ts k)) o = Ok lt' /\ lkinv lt' asg.
  Proof using HD.
    intros [E|(m & size & H1 & H2 & H3 & H4)] Hk Hes Ho; [rewrite E in Hes; by apply elem_of_nil in Hes|].
    pose proof (ltinv_insert lt size m _ o H1 (start_pos k)) as Hi. destruct (lt_insert lt (N.of_nat (start ts k)) o) as [lt'| |]; [|done|].
    - exists lt'. split; [done|]. destruct Hi as [Hi Hp]. right. exists (fun i => if i =? N.of_nat (start ts k) then Some o else m i), size.
      split; [done|]. split; [done|]. split.
      + intros c Hc. rewrite Hp in Hc. destruct (decide (N.of_nat (start ts k) ∈ stored fst lt)); [by apply H3|].
        apply elem_of_cons in Hc as [->|Hc]; [eauto|by apply H3].
      + intros c o' Hc. cbv beta in Hc. destruct (N.eqb_spec c (N.of_nat (start ts k))) as [->|]; [|by apply H4].
        injection Hc as <-. eauto.
    - destruct Hi as [Hno Hlen]. pose proof (stored_room _ _ _ _ _ H1 H2 H3 Hk Hes Hno). lia.
  Qed.

  Lemma kids_cons o l s es : kids o ((l, s) :: es) = match s with Node _ => N.lxor o l :: kids o es | Leaf _ => kids o es end.
  Proof. unfold kids. cbn. by destruct s. Qed.
  Lemma nodes_cons l s es : length (nodes_es ((l, s) :: es)) = (length (nodes s) + length (nodes_es es))%nat.
  Proof. unfold nodes_es. cbn [map concat snd]. by rewrite app_length. Qed.

  (** What a recursive call on a node does: all its descendants get offsets, or
      the dictionary would need more than 2^21 blocks. *)
  Definition built (b : dbuilder) (nb : nat) (asg : list (N * edges)) (pd : list N) (n : nat) (r : res (bool * dbuilder)) : Prop :=
    (exists b' nb' asg' ff', r = Ok (true, b') /\ BI b' nb' R (asg' ++ asg) pd ff' /\ lkinv (db_link b') (asg' ++ asg) /\ (nb <= nb' <= nb + n)%nat) \/
    (exists b', r = Ok (false, b') /\ 2097152 < N.of_nat (nb + n)).

  Lemma rel_fits' r : r < 536870912 -> (N.land r upperMask =? 0) || (N.land r lowerMask =? 0) = true <-> fits r.
  Proof. rewrite orb_comm. apply rel_fits. Qed.

  Lemma build_node fuel : forall b nb asg pd ff idx l es k di, (hgt (Node es) <= fuel)%nat ->
    BI b nb R asg (idx :: pd) ff -> lkinv (db_link b) asg -> ndp R asg idx l es -> ts !! k = Some es ->
    dawg_isLeaf d di = Ok false -> dawg_child d di = Ok (N.of_nat (start ts k)) -> (0 < nb)%nat ->
    built b nb asg pd (length (nodes (Node es))) (buildIndices fuel d b di idx).
  Proof using HD.
    induction fuel as [|fuel IH]; intros b nb asg pd ff idx l es k di Hh HB HL Hn Hk Hdl Hdc Hnb; [cbn in Hh; lia|].
    cbn [buildIndices]. rewrite Hdl. cbn [mbind res_bind]. rewrite Hdc. cbn [mbind res_bind].
    rewrite (dw_merging d R x HD _ k es eq_refl Hk). cbn [mbind res_bind].
    pose proof HB as [HX HU Hfr Hun]. pose proof (xi_lim _ _ _ HX) as Hlim.
    destruct (@ndp_wf _ _ _ _ _ _ _ _ HU _ _ _ Hn) as [Hwf _]. pose proof (proj1 (wf_wfe es) Hwf) as [Hne Hw].
    destruct (pend_unit _ _ _ _ _ _ _ _ _ _ _ HB Hn) as (u & Hu & Hult & Hlab & Hil & Hhl & Hnf & Hilt).
    set (c := N.of_nat (start ts k)) in *.
    assert (Hre : exists reuse, (if bool_decide (es ∈ fl) then
         offset ← lt_find (db_link b) c;
         if offset =? 0 then Ok None else
         let rel := N.lxor offset idx in Ok (if (N.land rel upperMask =? 0) || (N.land rel lowerMask =? 0) then Some rel else None)
       else Ok None) = Ok reuse /\ (forall rel, reuse = Some rel -> fits rel /\ (N.lxor idx rel, es) ∈ asg)).
    { destruct (bool_decide_reflect (es ∈ fl)) as [Hfl|Hfl]; [|eexists; split; [done|]; by intros].
      destruct (link_find (db_link b) asg k es HL Hk Hfl) as [Hf|(o & Hf & Ho)]; fold c in Hf; rewrite Hf; cbn [mbind res_bind].
      - eexists. split; [done|]. by intros.
      - destruct (N.eqb_spec o 0); [eexists; split; [done|]; by intros|]. cbv zeta. eexists. split; [done|]. intros rel.
        destruct (u_asg _ _ _ _ _ _ _ _ HU _ _ Ho) as (_ & Holt & _).
        assert (Hrel : N.lxor o idx < 536870912) by (apply lxor_lt29; lia).
        pose proof (rel_fits' _ Hrel) as Hfit. destruct (_ || _); [|done]. intros [= <-]. split; [by apply Hfit|].
        by rewrite N.lxor_comm, lxor_cancel. }
    destruct Hre as (reuse & Hre & Hreuse). cbn [mbind res_bind] in Hre. cbv zeta in Hre. cbv zeta. rewrite Hre. clear Hre. cbn [mbind res_bind].
    assert (Hnode : length (nodes (Node es)) = S (length (nodes_es es))) by done.
    destruct reuse as [rel|].
    - (* the offset of an equal node *)
      destruct (Hreuse rel eq_refl) as [Hfit Hasg]. clear Hreuse.
      assert (Hcl : dawg_isLeaf d c = Ok (has0 es)).
      { destruct es as [|[l1 s1] es']; [done|]. destruct (nav_edge d ts HF k _ 0 l1 s1 Hk eq_refl) as (H1 & _ & _).
        unfold dawg_isLeaf, c. rewrite Nat.add_0_r in H1. rewrite H1. cbn [mbind res_bind]. by destruct l1. }
      rewrite Hcl. cbn [mbind res_bind].
      set (u1 := if has0 es then dictSetHasLeaf u else u).
      assert (Hu1 : exists us1, (if has0 es then upd (db_units b) idx dictSetHasLeaf else Ok (db_units b)) = Ok us1 /\ us1 = <[N.to_nat idx := u1]> (db_units b)).
      { unfold u1. destruct (has0 es); eexists; (split; [|reflexivity]); [by rewrite (upd_N _ _ _ u)|by rewrite list_insert_id]. }
      destruct Hu1 as (us1 & -> & ->). cbn [mbind res_bind].
      rewrite (upd_N _ _ _ u1) by (rewrite list_lookup_insert; [done|by eapply lookup_lt_Some]). cbn [mbind res_bind].
      rewrite list_insert_insert.
      assert (Hu1l : u1 < two32) by (unfold u1; destruct (has0 es); [by apply setHasLeaf_lt|done]).
      assert (Hu1i : dictIsLeaf u1 = false) by (unfold u1; destruct (has0 es); by rewrite ?setHasLeaf_isLeaf).
      left. eexists _, nb, [], ff. split; [reflexivity|]. cbn [app db_link dbset_units]. split; [|split; [done|lia]].
      constructor; [by apply xinv_units; [|rewrite insert_length]| |done|done]. cbn [db_units db_extras dbset_units].
      eapply (reuse_inv _ _ _ _ _ _ _ _ idx l es _ u); [exact HU|exact Hn|exact Hasg|exact Hu| | | | |].
      + by apply setOffset_lt.
      + rewrite setOffset_label by done. unfold u1. destruct (has0 es); by rewrite ?setHasLeaf_label.
      + rewrite setOffset_isLeaf by done. unfold u1. destruct (has0 es); by rewrite ?setHasLeaf_isLeaf.
      + rewrite setOffset_hasLeaf by done. unfold u1. destruct (has0 es); by rewrite ?setHasLeaf_hasLeaf.
      + by rewrite setOffset_offset.
    - (* a new offset *)
      clear Hreuse. destruct (arrange_ok d ts HF b nb R asg pd ff idx l es k di HB Hn Hk Hdc Hnb) as
        [[Hmax ->]|(o & b1 & nb1 & ff1 & -> & Ho & Hnb1 & HB1 & Hlk1)]; cbn [mbind res_bind].
      { right. exists b. split; [done|]. lia. }
      destruct (N.eqb_spec o 0); [done|].
      assert (HL1 : lkinv (db_link b1) ((o, es) :: asg)) by (rewrite Hlk1; by apply lkinv_mono).
      assert (exists b2, (if bool_decide (es ∈ fl) then lt ← lt_insert (db_link b1) c o; Ok (dbset_link b1 lt) else Ok b1) = Ok b2 /\
        BI b2 nb1 R ((o, es) :: asg) (kids o es ++ pd) ff1 /\ lkinv (db_link b2) ((o, es) :: asg)) as (b2 & Hb2 & HB2 & HL2).
      { destruct (bool_decide_reflect (es ∈ fl)) as [Hfl|Hfl]; [|by exists b1].
        destruct (link_insert (db_link b1) ((o, es) :: asg) k es o HL1 Hk Hfl) as (lt & Hlt & HLt); [constructor|].
        fold c in Hlt. rewrite Hlt. cbn [mbind res_bind]. eexists. split; [done|]. split; [|done].
        destruct HB1 as [HX1 HU1 Hf1 Hn1]. constructor; try done. by destruct HX1. }
      cbn [mbind res_bind] in Hb2. rewrite Hb2. clear Hb2. cbn [mbind res_bind]. clear HB HL HX HU Hfr Hun Hn Hu Hult Hlab Hil Hhl Hnf Hilt b1 HB1 Hlk1 HL1.
      (* the children *)
      set (loop := fix loop (n : nat) (b : dbuilder) (c : N) : res (bool * dbuilder) := match n with O => Hang | S n' => _ end).
      assert (Hloop : forall m j n b nbj A ffj, (length es = j + S m)%nat -> (m < n)%nat ->
        (o, es) ∈ A -> BI b nbj R A (kids o (drop j es) ++ pd) ffj -> lkinv (db_link b) A -> (0 < nbj)%nat ->
        built b nbj A pd (length (nodes_es (drop j es))) (loop n b (N.of_nat (start ts k + j)))).
      { induction m as [|m IHm]; intros j n' b' nbj A ffj Hm Hfu HoA HBj HLj Hnbj; (destruct n' as [|n']; [lia|]);
        assert (Hj : (j < length es)%nat) by lia; destruct (lookup_lt_is_Some_2 es j Hj) as [[l1 s1] He];
        destruct (nav_edge d ts HF k es j l1 s1 Hk He) as (H1 & H2 & H3); cbn [loop]; rewrite H1; cbn [mbind res_bind];
        rewrite (drop_S _ _ _ He) in *; rewrite nodes_cons; rewrite kids_cons in HBj;
        assert (Hin : (l1, s1) ∈ es) by (by eapply elem_of_list_lookup_2); pose proof (hgt_in _ _ _ Hin) as Hhs; pose proof (hgt_pos s1) as Hhp;
        assert (Hcall : built b' nbj A (kids o (drop (S j) es) ++ pd) (length (nodes s1)) (buildIndices fuel d b' (N.of_nat (start ts k + j)) (N.lxor o l1))).
        1, 3: (destruct s1 as [v|es'];
          [destruct fuel as [|fuel']; [lia|]; cbn [buildIndices]; unfold dawg_isLeaf; rewrite H1; cbn [mbind res_bind];
           destruct (wfe_leaf _ _ _ Hw Hin) as [-> _]; cbn [N.eqb]; left; exists b', nbj, [], ffj; split; [done|split; [done|split; [done|cbn; lia]]]
          |destruct H3 as (k' & Hk' & Hdc'); eapply IH; [lia|exact HBj|done|right; exists o, es; done|exact Hk'| |exact Hdc'|done];
           unfold dawg_isLeaf; rewrite H1; cbn [mbind res_bind]; destruct (wfe_kid _ _ _ Hw Hin) as (_ & _ & Hl0 & _); by destruct (N.eqb_spec l1 0)]).
        all: destruct Hcall as [(b2' & nb2 & A2 & ff2 & Hc2 & HB2' & HL2' & Hnb2)|(b2' & Hc2 & Hbad)]; rewrite Hc2; cbn [mbind res_bind negb];
          [|right; exists b2'; split; [done|lia]]; rewrite H2; cbn [mbind res_bind].
        - destruct (Nat.ltb_spec (S j) (length es)); [lia|]. cbn [N.eqb]. rewrite drop_ge in HB2' by lia. cbn [kids omap list_omap app] in HB2'.
          left. exists b2', nb2, A2, ff2. split; [done|]. split; [done|]. split; [done|]. lia.
        - destruct (Nat.ltb_spec (S j) (length es)); [|lia]. destruct (N.eqb_spec (N.of_nat (start ts k + S j)) 0); [lia|].
          destruct (IHm (S j) n' b2' nb2 (A2 ++ A) ff2) as [(b3 & nb3 & A3 & ff3 & Hc3 & HB3 & HL3 & Hnb3)|(b3 & Hc3 & Hbad)].
          + lia.
          + lia.
          + apply elem_of_app. by right.
          + done.
          + done.
          + lia.
          + left. exists b3, nb3, (A3 ++ A2), ff3. rewrite <- app_assoc. split; [done|]. split; [done|]. split; [done|]. lia.
          + right. exists b3. split; [done|]. lia. }
      destruct (Hloop (length es - 1)%nat 0%nat (S (length (d_base d))) b2 nb1 ((o, es) :: asg) ff1) as
        [(b3 & nb3 & A3 & ff3 & Hc3 & HB3 & HL3 & Hnb3)|(b3 & Hc3 & Hbad)].
      + destruct es; [done|]. cbn [length]. lia.
      + pose proof (frozen_len d ts HF k es Hk). lia.
      + constructor.
      + by rewrite drop_0.
      + done.
      + lia.
      + rewrite drop_0 in Hnb3. rewrite Nat.add_0_r in Hc3. left. exists b3, nb3, (A3 ++ [(o, es)]), ff3. rewrite <- app_assoc. cbn [app].
        split; [exact Hc3|]. split; [done|]. split; [done|]. rewrite Hnode. lia.
      + rewrite drop_0 in Hbad. rewrite Nat.add_0_r in Hc3. right. exists b3. split; [exact Hc3|]. rewrite Hnode. lia.
  Qed.
End dfs.
