(** Guides and completers built from histories. *)
From Verif Require Import Go Dawg DawgSpec Tree TreeFacts DawgFrozen DawgMain DawgAbs DawgNav Dict DictInv DictMain DictDfs DictRead DictRep DictSpec DictThms Guide GuideProofs Completer CompleterProofs GuideSpec.
Local Open Scope N_scope.
Local Ltac Zify.zify_post_hook ::= Z.div_mod_to_equations.
Local Arguments N.mul : simpl never.
Local Arguments N.add : simpl never.
Local Arguments N.of_nat : simpl never.

(** ** Order *)
Lemma kcmp_trans a : forall b c, kcmp a b = Lt -> kcmp b c = Lt -> kcmp a c = Lt.
Proof.
  induction a as [|x a IH]; intros [|y b] [|z c]; cbn; try done.
  destruct (N.compare_spec x y) as [->|Hxy|Hxy]; try done; destruct (N.compare_spec y z) as [->|Hyz|Hyz]; try done.
  - apply IH.
  - intros _ _. by rewrite (proj2 (N.compare_lt_iff _ _)).
  - intros _ _. by rewrite (proj2 (N.compare_lt_iff _ _)) by lia.
Qed.
Lemma accepted_app h kv : accepted (h ++ [kv]) = (spec_insert (accepted h) kv).2.
Proof.
  enough (H : forall es, (spec_run es (h ++ [kv])).2 = (spec_insert (spec_run es h).2 kv).2) by apply H.
  induction h as [|a h IH]; intros es; cbn [app spec_run].
  - cbn [snd]. destruct (spec_insert es kv). done.
  - destruct (spec_insert es a) as [r es']. specialize (IH es'). destruct (spec_run es' (h ++ [kv])), (spec_run es' h). done.
Qed.
Lemma inc_snoc es kv : increasing es -> (forall e, last es = Some e -> kcmp e.1 kv.1 = Lt) -> increasing (es ++ [kv]).
Proof.
  intros Hi Hl i j a b Hij Ha Hb. assert (i < length es)%nat as Hlt.
  { apply lookup_lt_Some in Hb. rewrite app_length in Hb. cbn in Hb. lia. }
  rewrite lookup_app_l in Ha by done. destruct (decide (j < length es)%nat); [rewrite lookup_app_l in Hb by done; exact (Hi i j a b Hij Ha Hb)|].
  rewrite lookup_app_r in Hb by lia. destruct (j - length es)%nat eqn:E; [|done]. injection Hb as <-.
  destruct es as [|e es _] using rev_ind; [done|]. specialize (Hl e (last_snoc _ _)). rewrite app_length in *. cbn [length] in *.
  destruct (decide (i = length es)) as [->|].
  - rewrite lookup_app_r in Ha by lia. rewrite Nat.sub_diag in Ha. by injection Ha as <-.
  - eapply kcmp_trans; [|exact Hl]. apply (Hi i (length es)); [lia|done|]. rewrite lookup_app_r by lia. by rewrite Nat.sub_diag.
Qed.
Lemma inc_take es e : increasing (es ++ [e]) -> increasing es.
Proof. intros H i j a b Hij Ha Hb. apply (H i j); [done| |]; rewrite lookup_app_l; (done || by eapply lookup_lt_Some). Qed.
Lemma accepted_inc h : increasing (accepted h).
Proof.
  induction h as [|kv h IH] using rev_ind; [intros i j a b _ H; done|]. rewrite accepted_app. unfold spec_insert.
  destruct (last (accepted h)) as [[k0 v0]|] eqn:E.
  - destruct (kcmp k0 kv.1) eqn:Ek; cbn [snd]; [|apply inc_snoc; [done|]; intros e He; rewrite E in He; by injection He as <-|done].
    apply last_Some in E as [es E]. rewrite E in *. rewrite removelast_last. apply inc_snoc; [by eapply inc_take|].
    intros e He. apply last_Some in He as [es' ->]. apply kcmp_eq in Ek as <-. apply (IH (length es') (S (length es')) e (k0, v0)); [lia| |].
    + rewrite <- app_assoc. rewrite lookup_app_r by lia. by rewrite Nat.sub_diag.
    + rewrite lookup_app_r by (rewrite app_length; cbn; lia). rewrite app_length. cbn [length]. by replace (S (length es') - (length es' + 1))%nat with 0%nat by lia.
  - cbn [snd]. intros i j a b Hij Ha Hb. destruct j as [|[|]]; [lia|done|done].
Qed.
Lemma entries_inc h : increasing (entries h).
Proof.
  intros i j a b Hij Ha Hb. change (map ?f ?l) with (f <$> l) in *. rewrite list_lookup_fmap in Ha, Hb.
  destruct (accepted h !! i) as [a'|] eqn:Ea; [|done]. destruct (accepted h !! j) as [b'|] eqn:Eb; [|done].
  injection Ha as <-. injection Hb as <-. exact (accepted_inc h i j a' b' Hij Ea Eb).
Qed.

(** ** Prefixes *)
Lemma residual_prefix es p : map (fun kv : entry => (p ++ kv.1, kv.2)) (residual es p) = with_prefix p es.
Proof.
  unfold residual, with_prefix. induction es as [|[k v] es IH]; [done|]. cbn [omap list_omap]. unfold strip at 1. cbn [fst snd].
  rewrite filter_cons. cbn [fst]. destruct (decide (take (length p) k = p)) as [E|E]; [|done]. cbn [map fst snd]. rewrite IH. do 2 f_equal.
  rewrite <- E at 1. apply take_drop.
Qed.
Lemma residual_cons {V} (kv : list N * V) l p : residual (kv :: l) p = match strip p kv with Some a => a :: residual l p | None => residual l p end.
Proof. done. Qed.
Lemma residual_map (f : N -> Z) (l : list (list N * N)) p : residual (map (fun kv => (kv.1, f kv.2)) l) p = map (fun kv => (kv.1, f kv.2)) (residual l p).
Proof.
  induction l as [|[k v] l IH]; [done|]. cbn [map fst snd]. rewrite !residual_cons, IH.
  assert (Hs : strip p (k, f v) = (fun kv => (kv.1, f kv.2)) <$> strip p (k, v)) by (unfold strip; cbn [fst snd]; by destruct (decide _)).
  rewrite Hs. by destruct (strip p (k, v)).
Qed.
Lemma entries_ent h R : ent_es R = map nentry (accepted h) -> entries h = map (fun kv => (kv.1, Z.of_N kv.2)) (ent_es R).
Proof. intros ->. rewrite map_map. apply map_ext. intros [k v]. unfold kept_entry, nentry, nval, kept. cbn [fst snd]. f_equal. lia. Qed.

(** ** Guides *)
Lemma guide_empty d x : dawgof d [] x -> BuildGuide d empty_units = Ok (Some []).
Proof.
  intros HD. unfold BuildGuide. assert ((dawg_size d <=? 1) = true) as ->; [|reflexivity]. apply N.leb_le.
  assert (Hts : DawgFix.x_ts x = []).
  { destruct (DawgFix.x_ts x) as [|e ts] eqn:E; [done|]. assert (Hin : e ∈ DawgFix.x_ts x) by (rewrite E; constructor).
    by apply (do_in d [] x HD) in Hin as [? _]. }
  pose proof (fz_base _ _ _ (HF d [] x HD)) as Hbs. rewrite Hts in Hbs. cbn in Hbs. unfold dawg_size. rewrite Hbs. cbn. lia.
Qed.
Lemma guide_nonempty d R x us un : dawgw d R x -> R <> [] -> BuildDictionary d = Ok (Some (us, un)) -> exists g, BuildGuide d us = Ok (Some g) /\ g <> [] /\ exists b nb asg ff, us = db_units b /\ binv b nb (nb - 16) (256 * N.of_nat nb) R asg [] ff /\ drep us R (dn R asg) /\ grep us (dn R asg) g.
Proof.
  intros HD Hne Hbd. destruct (build_nonempty d R x HD Hne) as [(b & nb & asg & ff & H1 & H2 & _)|[H1 _]]; rewrite H1 in Hbd; clear H1; [|discriminate Hbd].
  injection Hbd as <- <-. pose proof (binv_drep _ _ _ _ _ H2) as HP. destruct (BuildGuide_ok _ _ _ HP d x HD Hne) as (g & Hg & HG).
  exists g. split; [exact Hg|]. split.
  + intros ->. pose proof (gr_len _ _ _ HG) as Hl. pose proof (rp_lt _ _ _ HP _ _ (rp_root _ _ _ HP)) as H0. cbn [length] in Hl. clear -Hl H0. lia.
  + exists b, nb, asg, ff. exact (conj eq_refl (conj H2 (conj HP HG))).
Qed.
Lemma bwu_eq d : dict_BuildWithUnused d = BuildDictionary d.
Proof. reflexivity. Qed.
Lemma ok_inj (a b : dict) (x y : N) : Ok (Some (a, x)) = Ok (Some (b, y)) -> b = a.
Proof. by intros [= -> _]. Qed.
Lemma guide_cases h d us : hist_ok h -> made_dawg h d us -> exists R g, ent_es R = map nentry (accepted h) /\ wfe R /\ BuildGuide d us = Ok (Some g) /\ ((R = [] /\ us = empty_units /\ g = []) \/
   (R <> [] /\ g <> [] /\ exists b nb asg ff, us = db_units b /\ binv b nb (nb - 16) (256 * N.of_nat nb) R asg [] ff /\ drep us R (dn R asg) /\ grep us (dn R asg) g)).
Proof.
  intros Hh (size & d0 & rs & un & Hs & Hb & Hbd). destruct (build_abs h Hh) as (R & x & He & _ & Hd). destruct (Hd size d0 Hs) as (d' & Hbd' & HD).
  rewrite Hb in Hbd'. injection Hbd' as -> <-. rewrite bwu_eq in Hbd. exists R. destruct (decide (R = [])) as [->|Hne].
  - rewrite (build_empty d [] x HD eq_refl) in Hbd. apply ok_inj in Hbd. subst us. exists []. split; [exact He|]. split; [apply wfe_nil|].
    split; [exact (guide_empty d x HD)|left; exact (conj eq_refl (conj eq_refl eq_refl))].
  - destruct (guide_nonempty d R x us un HD Hne Hbd) as (g & H1 & H2 & H3).
    exists g. split; [exact He|]. split; [apply wfe_or, HD|]. split; [exact H1|]. right. exact (conj Hne (conj H2 H3)).
Qed.
(** What a completer needs of the units and the guide: they hold the entries of h. *)
Definition gview (h : list entry) (us : dict) (g : guide) : Prop := exists R, ent_es R = map nentry (accepted h) /\ wfe R /\
  ((R = [] /\ us = empty_units /\ g = []) \/
   (R <> [] /\ g <> [] /\ exists node, drep us R node /\ grep us node g)).
Lemma made_guide_cases h us g : hist_ok h -> made_guide h us g -> gview h us g.
Proof.
  intros Hh (d & Hm & Hg). destruct (guide_cases h d us Hh Hm) as (R & g' & He & Hw & Hg' & Hc). rewrite Hg in Hg'. injection Hg' as <-.
  exists R. split; [done|]. split; [done|]. destruct Hc as [?|(H1 & H2 & b & nb & asg & ff & H3 & _ & H4 & H5)]; [by left|]. right.
  split; [done|]. split; [done|]. by exists (dn R asg).
Qed.
Lemma node_prefix us R node p es : drep us R node -> tnode R p es -> exists i, dc_FollowString us p 0 = Ok (true, i) /\ node i es /\ (p <> [] -> i <> 0).
Proof.
  intros HP. enough (Hg : forall R0 p es, tnode R0 p es -> forall i0, node i0 R0 -> exists i, dc_FollowString us p i0 = Ok (true, i) /\ node i es /\ (p <> [] -> i <> 0)).
  { intros Ht. apply (Hg R p es Ht). apply HP. }
  induction 1 as [es0|es0 l es1 p0 es2 H1 H2 IH]; intros i0 Hi.
  - exists i0. split; [done|]. split; [done|]. done.
  - destruct (rp_kid _ _ _ HP _ _ _ _ Hi H1) as (j & Hf & Hj & Hj0). destruct (IH j Hj) as (i & Hfs & Hni & Hi0). exists i.
    cbn [dc_FollowString]. rewrite Hf. cbn [mbind res_bind]. split; [done|]. split; [done|]. intros _.
    destruct p0; [|by apply Hi0]. cbn in Hfs. congruence.
Qed.

(** ** Completers *)
Lemma start_eq g c i P : cp_StartString g c i P = Ok (match g with [] => mkComp (P ++ [0]) [] (cp_last c) | _ => mkComp (P ++ [0]) [i] 0 end).
Proof.
  unfold cp_StartString, cp_StartStringLen. rewrite (proj2 (Z.ltb_ge _ _)) by lia. rewrite Z.ltb_irrefl. cbv zeta.
  rewrite Nat2Z.id, firstn_all. done.
Qed.
Lemma start_len g c i P n : (0 <= n <= Z.of_nat (length P))%Z -> cp_StartStringLen g c i P n = cp_StartString g c i (take (Z.to_nat n) P).
Proof.
  intros Hn. rewrite start_eq. unfold cp_StartStringLen. rewrite !(proj2 (Z.ltb_ge _ _)) by lia. done.
Qed.
Definition out_of (P : list N) (kv : entry) : list N * Z * Z := (P ++ kv.1 ++ [0], Z.of_nat (length (P ++ kv.1)), kv.2).
Section outs.
  Context (us : dict) (R : edges) (node : N -> edges -> Prop) (HP : drep us R node) (g : guide) (HG : grep us node g).
  Local Notation zent L := (map (fun kv : list N * N => (kv.1, Z.of_N kv.2)) L).
  Lemma len_comp (P q : list N) st i : cp_Length (mkComp (P ++ q ++ [0]) st i) = Z.of_nat (length (P ++ q)).
  Proof. unfold cp_Length. cbn [cp_path]. rewrite !app_length. cbn [length]. lia. Qed.
  Lemma outputs_from P : forall n i es st q rest, stk us node i es st q rest -> i <> 0 ->
    length (pmap q (ent_es (kids es)) ++ rest) = n ->
    outputs us g (mkComp (P ++ q ++ [0]) st i) (map (out_of P) (zent (pmap q (ent_es (kids es)) ++ rest))).
  Proof using HP HG.
    induction n as [|n IH]; intros i es st q rest Hs Hi Hn;
      (destruct (next_ok us R node HP g HG P i es st q rest Hs Hi) as [(-> & c' & Hc & _)|(i' & es' & st' & q' & v & rest' & Hc & Hs' & Hi' & Hv & HL)];
       [by eapply out_end|]).
    - rewrite HL in Hn. done.
    - rewrite HL in *. cbn [map fst snd]. unfold out_of at 1. cbn [fst snd]. rewrite <- (len_comp P q' st' i').
      eapply (out_step us g _ (mkComp (P ++ q' ++ [0]) st' i')); [exact Hc| |].
      + unfold cp_Value. cbn [cp_last]. eapply rp_val; [exact HP|by eapply stk_node|done].
      + apply IH; [done|done|]. cbn [length] in Hn. lia.
  Qed.
  Lemma outputs_start P i es : node i es -> (i = 0 -> has0 es = false) ->
    outputs us g (mkComp (P ++ [0]) [i] 0) (map (out_of P) (zent (ent_es es))).
  Proof using HP HG.
    intros Hn H0. destruct (first_ok us R node HP g HG P i es Hn) as (i' & es' & st' & q' & v & rest' & Hc & Hs & Hv & Hi1 & Hi2 & HL).
    assert (Hi' : i' <> 0) by (destruct (N.eq_dec i 0) as [E|E]; [apply Hi2, H0, E|apply Hi1, E]).
    rewrite HL. cbn [map fst snd]. unfold out_of at 1. cbn [fst snd]. rewrite <- (len_comp P q' st' i').
    eapply (out_step us g _ (mkComp (P ++ q' ++ [0]) st' i')); [exact Hc| |].
    - unfold cp_Value. cbn [cp_last]. eapply rp_val; [exact HP|by eapply stk_node|done].
    - by eapply outputs_from.
  Qed.
  (** States a started completer gets into. *)
  Definition good (c : comp) : Prop := cp_stack c = [] \/ (exists P i es, c = mkComp (P ++ [0]) [i] 0 /\ node i es) \/
    (exists P i es st q rest, c = mkComp (P ++ q ++ [0]) st i /\ stk us node i es st q rest /\ i <> 0).
  Lemma good_next c : good c -> exists b c', cp_Next us g c = Ok (b, c') /\ good c' /\ (b = false -> cp_stack c' = []).
  Proof using HP HG.
    intros [Hc|[(P & i & es & -> & Hn)|(P & i & es & st & q & rest & -> & Hs & Hi)]].
    - exists false, c. unfold cp_Next. rewrite Hc. split; [done|]. split; [by left|done].
    - destruct (first_ok us R node HP g HG P i es Hn) as (i' & es' & st' & q' & v & rest' & Hc & Hs & Hv & Hi1 & Hi2 & HL).
      exists true, (mkComp (P ++ q' ++ [0]) st' i'). split; [done|]. split; [|done]. right.
      destruct (N.eq_dec i' 0) as [->|Hi']; [|right; by exists P, i', es', st', q', rest'].
      left. destruct q' as [|c q']; [|destruct (stk_ne us R node HP 0 es' st' (c :: q') rest' Hs); done].
      exists P, 0, es'. inversion Hs; subst; [done|]. by destruct q.
    - destruct (next_ok us R node HP g HG P i es st q rest Hs Hi) as [(_ & c' & Hc & Hc')|(i' & es' & st' & q' & v & rest' & Hc & Hs' & Hi' & Hv & HL)].
      + exists false, c'. split; [done|]. split; [by left|done].
      + exists true, (mkComp (P ++ q' ++ [0]) st' i'). split; [done|]. split; [|done]. right. right. by exists P, i', es', st', q', rest'.
  Qed.
  Lemma good_nexts c c' : good c -> nexts us g c c' -> good c'.
  Proof using HP HG.
    intros H. induction 1 as [|c c' c'' b _ IH Hc]; [done|]. destruct (good_next c' (IH H)) as (b' & c2 & Hc2 & H2 & _). congruence.
  Qed.
End outs.
Lemma view_outputs h us g p i c P : gview h us g -> p = [] \/ key_prefix h p -> dc_FollowString us p 0 = Ok (true, i) -> (p = [] -> ~ is_key h []) ->
  exists c0, cp_StartString g c i P = Ok c0 /\ outputs us g c0 (map (out_of P) (residual (entries h) p)).
Proof.
  intros Hm Hp Hi H0. destruct Hm as (R & He & Hw & [(-> & -> & ->)|(HR & Hg & node & HP & HG)]); rewrite start_eq.
  - eexists. split; [done|]. rewrite (entries_ent h [] He). cbn. by eapply out_end.
  - exists (mkComp (P ++ [0]) [i] 0). split; [by destruct g|].
    assert (exists es, tnode R p es) as [es Ht] by (destruct Hp as [->|Hp]; [exists R; constructor|by apply (prefix_tnode h R He Hw p HR)]).
    destruct (node_prefix us R node p es HP Ht) as (i' & Hf & Hn & Hi0). rewrite Hi in Hf. injection Hf as <-.
    rewrite (entries_ent h R He), residual_map, (residual_tnode R p es Hw Ht). eapply outputs_start; [exact HP|exact HG|exact Hn|].
    intros ->. destruct p as [|a p]; [|by destruct Hi0]. assert (Hes : es = R) by (by inversion Ht; subst). subst es.
    destruct (has0 R) eqn:E; [|done]. exfalso. apply H0; [done|]. apply (has0_in R Hw) in E as [v E]. exists (Z.of_N v).
    apply (entry_tnode h R He Hw). exists R, v. split; [constructor|done].
Qed.
Lemma view_reached h us g p : gview h us g -> p = [] \/ key_prefix h p -> exists i, dc_FollowString us p 0 = Ok (true, i).
Proof.
  intros Hm Hp. destruct Hm as (R & He & Hw & [(-> & -> & ->)|(HR & Hg & node & HP & HG)]).
  - destruct Hp as [->|(k & v & Hk & _)]; [by exists 0|]. rewrite (entries_ent h [] He) in Hk. by apply elem_of_nil in Hk.
  - assert (exists es, tnode R p es) as [es Ht] by (destruct Hp as [->|Hp']; [exists R; constructor|by apply (prefix_tnode h R He Hw p HR)]).
    destruct (node_prefix us R node p es HP Ht) as (i' & Hf & _). by exists i'.
Qed.
