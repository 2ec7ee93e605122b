(** Reading a finished Dawg through its public methods. *)
From Verif Require Import Go BitPool BitPoolProofs Dawg Tree DawgRep DawgFrozen DawgFix DawgMain DawgSpec TreeFacts DawgAbs.
Local Open Scope N_scope.
Local Ltac Zify.zify_post_hook ::= Z.div_mod_to_equations.
Local Arguments N.mul : simpl never.
Local Arguments N.add : simpl never.
Local Arguments N.of_nat : simpl never.

Lemma frozen_edge bs ls ts k es j l s : frozen bs ls ts -> ts !! k = Some es -> es !! j = Some (l, s) ->
  ls !! (start ts k + j)%nat = Some l /\ N.of_nat (start ts k + j) < 1073741824 /\
  exists b, bs !! (start ts k + j)%nat = Some b /\ eenc ts (Nat.ltb (S j) (length es)) (Nat.eqb j 0) s b.
Proof.
  intros Hf Hk Hj. destruct (fz_grp _ _ _ Hf k es Hk) as (bl & Hg & Hp).
  destruct (genc_lookup _ _ _ _ _ _ Hg Hj) as (b & Hb & He). destruct (Hp _ _ Hb) as [H1 H2]. cbn in *.
  split; [done|]. split.
  - pose proof (start_bound _ _ _ Hk). pose proof (lookup_lt_Some _ _ _ Hj). pose proof (fz_size _ _ _ Hf). lia.
  - exists b. done.
Qed.
(** Every position after 0 is in a group. *)
Lemma pos_group ts i : (1 <= i <= psum ts)%nat ->
  exists k es j, ts !! k = Some es /\ (j < length es)%nat /\ i = (start ts k + j)%nat.
Proof.
  induction ts as [|es ts IH] using rev_ind; [cbn; lia|]. rewrite psum_app. cbn [sum_list_with]. intros Hi.
  destruct (decide (i <= psum ts)%nat) as [Hle|Hgt].
  - destruct IH as (k & es' & j & Hk & Hj & ->); [lia|]. exists k, es', j. apply lookup_lt_Some in Hk as Hlt.
    rewrite lookup_app_l, start_mono by lia. done.
  - exists (length ts), es, (i - S (psum ts))%nat. rewrite lookup_app_r, Nat.sub_diag by lia. rewrite start_end.
    split; [done|]. split; lia.
Qed.

Lemma kid_fun ts es c c' : NoDup ts -> Forall (fun es => es <> []) ts -> kid ts es c -> kid ts es c' -> c = c'.
Proof.
  intros Hnd Hne [[-> ->]|(k & Hk & ->)] [[H ->]|(k' & Hk' & ->)]; try done.
  - rewrite Forall_lookup in Hne. by specialize (Hne _ _ Hk').
  - subst es. rewrite Forall_lookup in Hne. by specialize (Hne _ _ Hk).
  - by rewrite (NoDup_lookup _ _ _ _ Hnd Hk Hk').
Qed.
Lemma kid_inj ts es es' c : Forall (fun es => es <> []) ts -> kid ts es c -> kid ts es' c -> es = es'.
Proof.
  intros Hne [[-> Hc]|(k & Hk & Hc)] [[H Hc']|(k' & Hk' & Hc')]; [done| | |].
  - unfold start in Hc'. lia.
  - unfold start in Hc. lia.
  - assert (k = k') as -> by (eapply (start_inj ts); eauto; lia). congruence.
Qed.

Section nav.
  Context (d : dawg) (ts : list edges).
  Hypothesis Hfz : frozen (d_base d) (d_label d) ts.

  Lemma nav_edge k es j l s : ts !! k = Some es -> es !! j = Some (l, s) ->
    dawg_lbl d (N.of_nat (start ts k + j)) = Ok l /\
    dawg_sibling d (N.of_nat (start ts k + j)) =
      Ok (if Nat.ltb (S j) (length es) then N.of_nat (start ts k + S j) else 0) /\
    match s with
    | Leaf v => dawg_value d (N.of_nat (start ts k + j)) = Ok (Z.of_N v)
    | Node es' => exists k', ts !! k' = Some es' /\ dawg_child d (N.of_nat (start ts k + j)) = Ok (N.of_nat (start ts k'))
    end.
  Proof.
    intros Hk Hj. destruct (frozen_edge _ _ _ _ _ _ _ _ Hfz Hk Hj) as (Hl & Hlt & b & Hb & He).
    unfold dawg_lbl, dawg_sibling, dawg_value, dawg_child.
    rewrite (get_nat _ _ _ Hl), (get_nat _ _ _ Hb). cbn [mbind res_bind]. split; [done|].
    rewrite (eenc_hasSib _ _ _ _ _ He). split.
    - destruct (Nat.ltb_spec (S j) (length es)); [|done]. f_equal. unfold u32, two32. rewrite N.mod_small by lia. lia.
    - destruct s as [v|es']; cbn [eenc] in He.
      + subst b. rewrite value_enc; [done|].
        assert (Hw : Forall (fun es => wf (Node es)) ts) by apply Hfz. rewrite Forall_lookup in Hw. specialize (Hw _ _ Hk).
        apply wf_wfe in Hw as [_ Hw]. apply (wfe_leaf es l v Hw). by eapply elem_of_list_lookup_2.
      + destruct He as (k' & Hk' & ->). exists k'. split; [done|]. by rewrite child_enc.
  Qed.

  Lemma chain_grp k es i j : ts !! k = Some es -> (i < length es)%nat ->
    in_chain d (N.of_nat (start ts k + i)) j <-> exists i', (i <= i' < length es)%nat /\ j = N.of_nat (start ts k + i').
  Proof.
    intros Hk Hi. split.
    - intros H. remember (N.of_nat (start ts k + i)) as c eqn:Hc. revert i Hi Hc.
      induction H as [c Hnz|c n j Hnz Hs Hch IH]; intros i Hi ->; [exists i; split; [lia|done]|].
      destruct (lookup_lt_is_Some_2 es i Hi) as [[l s] He]. destruct (nav_edge _ _ _ _ _ Hk He) as (_ & Hs' & _).
      rewrite Hs in Hs'. injection Hs' as Hn. destruct (Nat.ltb_spec (S i) (length es)) as [Hlt|Hge].
      + destruct (IH (S i) Hlt Hn) as (i' & Hi' & ->). exists i'. split; [lia|done].
      + subst n. inversion Hch; done.
    - intros (i' & Hi' & ->). remember (i' - i)%nat as m eqn:Hm. revert i Hi Hi' Hm.
      induction m as [|m IH]; intros i Hi Hi' Hm.
      + replace i' with i by lia. constructor. unfold start. lia.
      + destruct (lookup_lt_is_Some_2 es i Hi) as [[l s] He]. destruct (nav_edge _ _ _ _ _ Hk He) as (_ & Hs' & _).
        destruct (Nat.ltb_spec (S i) (length es)) as [Hlt|Hge]; [|lia].
        econstructor; [unfold start; lia|exact Hs'|]. apply IH; lia.
  Qed.
  Lemma chain_kid es c j : wfe es -> kid ts es c ->
    in_chain d c j <-> exists k i, ts !! k = Some es /\ c = N.of_nat (start ts k) /\ (i < length es)%nat /\ j = N.of_nat (start ts k + i).
  Proof.
    intros Hw [[-> ->]|(k & Hk & ->)].
    - split; [intros H; inversion H; done|]. intros (k & i & _ & _ & Hi & _). cbn in Hi. lia.
    - assert (Hne : Forall (fun es => es <> []) ts) by (apply wf_ne, Hfz). rewrite Forall_lookup in Hne. specialize (Hne _ _ Hk).
      assert (0 < length es)%nat by (destruct es; [done|cbn; lia]). rewrite <- (Nat.add_0_r (start ts k)) at 1. rewrite chain_grp by done. split.
      + intros (i & Hi & ->). exists k, i. split; [done|]. split; [done|]. split; [lia|done].
      + intros (k' & i & Hk' & He & Hi & ->). exists i. split; [lia|]. f_equal. f_equal. lia.
  Qed.
  (** Edges below a position. *)
  Lemma edge_pos es c l s : wfe es -> kid ts es c -> (l, s) ∈ es -> exists j, in_chain d c j /\ dawg_lbl d j = Ok l /\
    match s with
    | Leaf v => dawg_value d j = Ok (Z.of_N v)
    | Node es' => exists c', dawg_child d j = Ok c' /\ kid ts es' c' /\ c' <> 0
    end.
  Proof.
    intros Hw Hkid [i Hi]%elem_of_list_lookup. destruct Hkid as [[-> ->]|(k & Hk & ->)]; [done|].
    destruct (nav_edge _ _ _ _ _ Hk Hi) as (H1 & _ & H2). exists (N.of_nat (start ts k + i)). split; [|split; [done|]].
    - apply (chain_kid es); [done|right; eauto|]. exists k, i. pose proof (lookup_lt_Some _ _ _ Hi). done.
    - destruct s; [done|]. destruct H2 as (k' & Hk' & Hc). eexists. split; [exact Hc|]. split; [right; eauto|]. unfold start. lia.
  Qed.
  Lemma pos_edge es c j : wfe es -> kid ts es c -> in_chain d c j -> exists l s, (l, s) ∈ es /\ dawg_lbl d j = Ok l /\
    match s with
    | Leaf v => dawg_value d j = Ok (Z.of_N v)
    | Node es' => exists c', dawg_child d j = Ok c' /\ kid ts es' c' /\ c' <> 0
    end.
  Proof.
    intros Hw Hkid Hch. apply (chain_kid es) in Hch as (k & i & Hk & -> & Hi & ->); [|done|done].
    destruct (lookup_lt_is_Some_2 es i Hi) as [[l s] He]. exists l, s. split; [by eapply elem_of_list_lookup_2|].
    destruct (nav_edge _ _ _ _ _ Hk He) as (H1 & _ & H2). split; [done|]. destruct s; [done|].
    destruct H2 as (k' & Hk' & Hc). eexists. split; [exact Hc|]. split; [right; eauto|]. unfold start. lia.
  Qed.

  Lemma spells_ent i c es key v : wfe es -> dawg_child d i = Ok c -> kid ts es c ->
    spells d i key v <-> exists w, v = Z.of_N w /\ (key, w) ∈ ent_es es.
  Proof.
    intros Hw Hc Hk. split.
    - intros H. revert c es Hw Hc Hk. induction H as [i c' j v Hc' Hj Hl Hv|i c' j l k v Hc' Hj Hl Hnz _ IH]; intros c es Hw Hc Hk.
      + rewrite Hc in Hc'. injection Hc' as <-. destruct (pos_edge es c j Hw Hk Hj) as (l & s & Hin & Hl' & Hs).
        rewrite Hl in Hl'. injection Hl' as <-. destruct (wfe_zero _ _ Hw Hin) as [w ->]. rewrite Hs in Hv. injection Hv as <-.
        exists w. split; [done|]. apply ent_in; [done|]. exists es. split; [constructor|done].
      + rewrite Hc in Hc'. injection Hc' as <-. destruct (pos_edge es c j Hw Hk Hj) as (l' & s & Hin & Hl' & Hs).
        rewrite Hl in Hl'. injection Hl' as <-. destruct s as [w|es1]; [by destruct (wfe_leaf _ _ _ Hw Hin)|].
        destruct Hs as (c1 & Hc1 & Hk1 & _). destruct (wfe_kid _ _ _ Hw Hin) as (Hw1 & _).
        destruct (IH c1 es1 Hw1 Hc1 Hk1) as (w & -> & Hin'). exists w. split; [done|].
        apply ent_in in Hin' as (es' & Ht & Hz); [|done]. apply ent_in; [done|]. exists es'. split; [by econstructor|done].
    - intros (w & -> & Hin). apply ent_in in Hin as (es' & Ht & Hz); [|done]. revert i c Hw Hc Hk.
      induction Ht as [es|es l es1 p es' H1 H2 IH]; intros i c Hw Hc Hk.
      + destruct (edge_pos es c _ _ Hw Hk Hz) as (j & Hj & Hl & Hv). by eapply sp_end.
      + destruct (edge_pos es c _ _ Hw Hk H1) as (j & Hj & Hl & c' & Hc' & Hk' & _).
        destruct (wfe_kid _ _ _ Hw H1) as (Hw1 & _ & Hnz & _). eapply sp_step; [exact Hc|exact Hj|exact Hl|done|].
        by eapply IH.
  Qed.

  Lemma tnode_kid es c p es' : wfe es -> kid ts es c -> tnode es p es' -> exists c', kid ts es' c'.
  Proof.
    intros Hw Hk Ht. revert c Hw Hk. induction Ht as [es|es l es1 p es' H1 H2 IH]; intros c Hw Hk; [eauto|].
    destruct (edge_pos es c _ _ Hw Hk H1) as (j & _ & _ & c' & _ & Hk' & _). destruct (wfe_kid _ _ _ Hw H1) as (Hw1 & _). by eapply IH.
  Qed.
  Lemma state_tnode c0 es c p : wfe es -> dawg_child d 0 = Ok c0 -> kid ts es c0 ->
    state_of d c p <-> c <> 0 /\ exists es', tnode es p es' /\ kid ts es' c.
  Proof.
    intros Hw Hc0 Hk0. split.
    - induction 1 as [c Hc Hnz|c p j l c' _ IH Hj Hl Hnz Hc'].
      + rewrite Hc0 in Hc. injection Hc as <-. split; [done|]. exists es. split; [constructor|done].
      + destruct IH as (Hnz' & es1 & Ht & Hk). pose proof (tnode_wf _ _ _ Hw Ht) as [Hw1 _].
        destruct (pos_edge es1 c j Hw1 Hk Hj) as (l' & s & Hin & Hl' & Hs). rewrite Hl in Hl'. injection Hl' as <-.
        destruct s as [w|es2]; [by destruct (wfe_leaf _ _ _ Hw1 Hin)|]. destruct Hs as (c2 & Hc2 & Hk2 & Hnz2).
        rewrite Hc' in Hc2. injection Hc2 as <-. split; [done|]. exists es2. split; [|done].
        eapply tnode_app; [exact Ht|]. econstructor; [done|constructor].
    - intros (Hnz & es' & Ht & Hk). remember (rev p) as q eqn:Hq. revert p es' c Hnz Ht Hk Hq.
      induction q as [|l q IH]; intros p es' c Hnz Ht Hk Hq.
      + assert (p = []) as -> by (rewrite <- (rev_involutive p), <- Hq; done). inversion Ht; subst.
        constructor; [|done]. rewrite Hc0. f_equal. eapply (kid_fun ts); [apply Hfz|apply wf_ne, Hfz|done|done].
      + assert (p = rev q ++ [l]) as -> by (rewrite <- (rev_involutive p), <- Hq; done).
        apply tnode_split in Ht as (es1 & Ht1 & Ht2). inversion Ht2 as [|? ? es2 ? ? Hin Ht3]; subst. inversion Ht3; subst.
        pose proof (tnode_wf _ _ _ Hw Ht1) as [Hw1 _]. destruct (wfe_kid _ _ _ Hw1 Hin) as (_ & _ & Hl & _).
        assert (Hex : exists c1, kid ts es1 c1 /\ c1 <> 0).
        { destruct (tnode_kid es c0 _ _ Hw Hk0 Ht1) as (c1 & Hk1). exists c1. split; [done|].
          destruct Hk1 as [[-> _]|(k & _ & ->)]; [by apply elem_of_nil in Hin|]. unfold start. lia. }
        destruct Hex as (c1 & Hk1 & Hnz1).
        destruct (edge_pos es1 c1 _ _ Hw1 Hk1 Hin) as (j & Hj & Hl' & c2 & Hc2 & Hk2 & _).
        assert (c2 = c) as -> by (eapply (kid_fun ts); [apply Hfz|apply wf_ne, Hfz|done|done]).
        eapply so_step; [|exact Hj|exact Hl'|done|exact Hc2]. eapply (IH (rev q) es1 c1); [done|done|done|by rewrite rev_involutive].
  Qed.
End nav.

(** ** Determinism: the ghost state fixes every field of the Dawg. *)
Lemma dawgrep_fun d d' x root : dawgrep d x root -> dawgrep d' x root -> d = d'.
Proof.
  intros [F R0 L0 S0 (f & Hf & Hfs & Hfi) _ _ M1 M2 M3 W] [F' R0' L0' S0' (f' & Hf' & Hfs' & Hfi') _ _ M1' M2' M3' W'].
  assert (H : d_base d = d_base d' /\ d_label d = d_label d').
  { assert (Hp : forall i, d_base d !! i = d_base d' !! i /\ d_label d !! i = d_label d' !! i).
    { intros i. destruct i as [|i]; [split; congruence|]. destruct (decide (S i <= psum (x_ts x))%nat) as [Hle|Hgt].
      - destruct (pos_group (x_ts x) (S i) ltac:(lia)) as (k & es & j & Hk & Hj & ->).
        destruct (lookup_lt_is_Some_2 es j Hj) as [[l s] He].
        destruct (frozen_edge _ _ _ _ _ _ _ _ F Hk He) as (H1 & _ & b & H2 & H3).
        destruct (frozen_edge _ _ _ _ _ _ _ _ F' Hk He) as (H1' & _ & b' & H2' & H3').
        rewrite H1, H1', H2, H2'. split; [|done]. f_equal. eapply eenc_fun; [|exact H3|exact H3']. apply F.
      - destruct F, F'. rewrite !lookup_ge_None_2 by lia. done. }
    split; apply list_eq; intros i; apply Hp. }
  destruct H as [H1 H2].
  assert (d_flag d = d_flag d') as H3.
  { apply brep_inj with f; [done| |by rewrite Hfs, Hfs'|done|done].
    eapply brep_ext; [|exact Hf']. intros i. apply eq_true_iff_eq. by rewrite Hfi, Hfi'. }
  destruct d, d'; cbn in *. congruence.
Qed.
Lemma dawgof_fun d d' es x : dawgof d es x -> dawgof d' es x -> d = d'.
Proof.
  intros [(r & H1 & H2) _ _] [(r' & H1' & H2') _ _]. assert (r = r') as <-; [|by eapply dawgrep_fun].
  eapply kid_fun; [| |exact H2|exact H2']; [apply H1|apply wf_ne, H1].
Qed.

Lemma nodes_pn s : nodes s = (pn s).*2.
Proof.
  induction s as [v|es IH] using sub_ind'; [done|]. cbn [nodes pn]. rewrite fmap_cons. cbn [snd]. f_equal.
  induction IH as [|e es He _ IH]; [done|]. cbn [map concat]. rewrite fmap_app, IH, He. f_equal.
  clear He IH. induction (pn e.2) as [|q L IHL]; [done|]. cbn. by f_equal.
Qed.

Section dawgw.
  Context (d : dawg) (es : edges) (x : fixedst).
  Hypothesis H : dawgw d es x.
  Let ts := x_ts x.
  Lemma dw_frozen : frozen (d_base d) (d_label d) ts.
  Proof. destruct H as [(r & Hr & _) _]. apply Hr. Qed.
  Lemma dw_wfe : wfe es.
  Proof. apply wfe_or, H. Qed.
  Lemma dw_child : exists c, dawg_child d 0 = Ok c /\ kid ts es c.
  Proof.
    destruct H as [(r & Hr & Hk) _]. exists r. split; [|done]. unfold dawg_child.
    rewrite (get_N _ 0 _ (dr_root _ _ _ Hr)). cbn [mbind res_bind]. f_equal.
    rewrite <- (child_enc r false false) at 2. f_equal. cbn [N.b2n]. lia.
  Qed.
  Lemma dw_state c p : state_of d c p <-> exists k es', c = N.of_nat (start ts k) /\ ts !! k = Some es' /\ tnode es p es'.
  Proof.
    destruct dw_child as (c0 & Hc0 & Hk0). rewrite (state_tnode d ts dw_frozen c0 es c p dw_wfe Hc0 Hk0). split.
    - intros (Hnz & es' & Ht & [[-> ->]|(k & Hk & ->)]); [done|]. eauto.
    - intros (k & es' & -> & Hk & Ht). split; [unfold start; lia|]. exists es'. split; [done|]. right. eauto.
  Qed.
  Lemma dw_merging c k es' : c = N.of_nat (start ts k) -> ts !! k = Some es' ->
    dawg_isMerging d c = Ok (bool_decide (es' ∈ x_fl x)).
  Proof.
    intros -> Hk. destruct H as [(r & Hr & _) _]. destruct (dr_flag _ _ _ Hr) as (f & Hf & Hs & Hfl). unfold dawg_isMerging.
    rewrite (brep_get _ f); [|done|].
    - f_equal. apply eq_true_iff_eq. rewrite Hfl, bool_decide_eq_true. split.
      + intros (k' & es2 & Hk' & Hin & He). assert (k = k') as <-.
        { eapply (start_inj ts); [apply wf_ne, dw_frozen|exact Hk|exact Hk'|by apply Nat2N.inj in He]. }
        unfold ts in Hk. congruence.
      + intros Hin. exists k, es'. done.
    - eapply N.lt_le_trans; [|by eapply brep_size]. rewrite Hs. pose proof (start_bound _ _ _ Hk).
      assert (Hne : Forall (fun es => es <> []) ts) by (apply wf_ne, dw_frozen). rewrite Forall_lookup in Hne. specialize (Hne _ _ Hk).
      destruct es'; [done|]. cbn [length] in *. unfold ts in *. lia.
  Qed.
  Lemma dw_in p es' : es <> [] -> tnode es p es' -> es' ∈ ts.
  Proof.
    intros Hne Ht. destruct dw_child as (c & _ & Hk). destruct (tnode_kid d ts dw_frozen es c p es' dw_wfe Hk Ht) as (c' & [[-> _]|(k & Hk' & _)]); [|by eapply elem_of_list_lookup_2].
    exfalso. destruct p as [|l p]; [by inversion Ht|]. apply (tnode_wf es (l :: p) []) in Ht as [_ Ht]; [|apply dw_wfe]. by apply Ht.
  Qed.
End dawgw.
Section dawgof.
  Context (d : dawg) (es : edges) (x : fixedst).
  Hypothesis H : dawgof d es x.
  Let ts := x_ts x.
  Lemma do_frozen : frozen (d_base d) (d_label d) ts.
  Proof. exact (dw_frozen d es x H). Qed.
  Lemma do_wfe : wfe es.
  Proof. exact (dw_wfe d es x H). Qed.
  Lemma do_child : exists c, dawg_child d 0 = Ok c /\ kid ts es c.
  Proof. exact (dw_child d es x H). Qed.
  Lemma do_in es' : es' ∈ ts <-> es <> [] /\ exists p, tnode es p es'.
  Proof.
    destruct H as [_ Hw (cl & Hx & Hcl)]. pose proof (afix_fold cl) as Hf. rewrite <- Hx in Hf. cbv zeta in Hf.
    destruct Hf as (_ & _ & Hin & _). unfold ts. rewrite Hin, Hcl. destruct es as [|e es0] eqn:E.
    - split; [intros H'; by apply elem_of_nil in H'|]. by intros [? _].
    - rewrite <- E. rewrite nodes_pn, elem_of_list_fmap. split.
      + intros ([p es2] & -> & Hp). apply pn_in in Hp as (es3 & [= <-] & Ht). split; [by rewrite E|eauto].
      + intros (_ & p & Ht). exists (p, es'). split; [done|by apply tnode_pn].
  Qed.
  (** Flagged nodes are those reached by two different prefixes. *)
  Lemma do_fl es' : es' ∈ x_fl x <-> exists p p', p <> p' /\ tnode es p es' /\ tnode es p' es' /\ es <> [].
  Proof.
    destruct H as [_ Hw (cl & Hx & Hcl)]. pose proof (afix_fold cl) as Hf. rewrite <- Hx in Hf. cbv zeta in Hf.
    destruct Hf as (_ & _ & _ & Hfl & _). rewrite Hfl, Hcl. destruct es as [|e es0] eqn:E.
    - split; [cbn; lia|]. by intros (? & ? & _ & _ & _ & ?).
    - rewrite <- E in *. destruct Hw as [->|Hw]; [done|]. pose proof (pn_nodup _ Hw) as Hnd. rewrite nodes_pn.
      assert (Hpn : forall p es2, (p, es2) ∈ pn (Node es) <-> tnode es p es2).
      { intros p es2. split; [|apply tnode_pn]. intros Hp. by apply pn_in in Hp as (es3 & [= <-] & ?). }
      assert (Hcnt : forall L : list (list N * edges), NoDup L.*1 -> (2 <= length (filter (es' =.) L.*2))%nat <->
         exists p p', p <> p' /\ (p, es') ∈ L /\ (p', es') ∈ L).
      { clear. assert (H1 : forall L : list (list N * edges), (1 <= length (filter (es' =.) L.*2))%nat <-> exists p, (p, es') ∈ L).
        { induction L as [|[p e] L IH]; cbn.
          - split; [lia|]. intros (p & Hp). by apply elem_of_nil in Hp.
          - unfold filter in *. cbn. destruct (decide (es' = e)) as [->|Hne]; cbn.
            + split; [intros _; exists p; by left|lia].
            + rewrite IH. split; intros (q & Hq); exists q; [by right|]. apply elem_of_cons in Hq as [?|?]; [congruence|done]. }
        induction L as [|[p e] L IH]; intros Hnd; cbn.
        - split; [lia|]. intros (? & ? & _ & Hp & _). by apply elem_of_nil in Hp.
        - cbn in Hnd. apply NoDup_cons in Hnd as [Hni Hnd]. specialize (IH Hnd). specialize (H1 L). unfold filter in *. cbn.
          destruct (decide (es' = e)) as [->|Hne]; cbn.
          + split.
            * intros Hl. destruct (proj1 H1) as (q & Hq); [lia|]. exists p, q. split; [|split; [by left|by right]].
              intros ->. apply Hni. apply elem_of_list_fmap. by exists (q, e).
            * intros (p1 & p2 & Hne & Hp1 & Hp2). apply le_n_S, H1.
              apply elem_of_cons in Hp1, Hp2. destruct Hp1 as [?|?]; [|eauto]. destruct Hp2 as [?|?]; [congruence|eauto].
          + rewrite IH. split; intros (p1 & p2 & Hn & Hp1 & Hp2); exists p1, p2; (split; [done|]).
            * split; by right.
            * apply elem_of_cons in Hp1, Hp2. destruct Hp1, Hp2; try congruence. done. }
      rewrite (Hcnt _ Hnd). setoid_rewrite Hpn. split; [intros (p & p' & ?)|intros (p & p' & ? & ? & ? & _)]; exists p, p'; [|done].
      split; [naive_solver|]. split; [naive_solver|]. split; [naive_solver|]. by rewrite E.
  Qed.
  Lemma do_state c p : state_of d c p <-> exists k es', c = N.of_nat (start ts k) /\ ts !! k = Some es' /\ tnode es p es'.
  Proof. exact (dw_state d es x H c p). Qed.
  Lemma do_merging c k es' : c = N.of_nat (start ts k) -> ts !! k = Some es' ->
    dawg_isMerging d c = Ok (bool_decide (es' ∈ x_fl x)).
  Proof. exact (dw_merging d es x H c k es'). Qed.
End dawgof.
