(** BuildRankedGuide (ranked_guide_builder.go:15-141) with a dictionary that was made
    from another history than the Dawg. *)
From Verif Require Import Go Dawg DawgRep Tree TreeFacts DawgFrozen DawgFix DawgMain DawgAbs DawgNav Dict DictUnit DictInv DictBuild DictDfs DictRead DictRep Guide GuideProofs GuideOther Ranked RankedProofs.
Local Open Scope N_scope.
Local Arguments N.mul : simpl never.
Local Arguments N.add : simpl never.
Local Arguments N.of_nat : simpl never.
Local Arguments N.lxor : simpl never.

(** Some edge at some node of [a] has no counterpart in [b]. *)
Definition lacks (a b : edges) : Prop := exists q e l s, tnode a q e /\ (l, s) ∈ e /\ forall b', tnode b q b' -> forall s', (l, s') ∉ b'.
Lemma lacks_here (a b : edges) l s : (l, s) ∈ a -> (forall s', (l, s') ∉ b) -> lacks a b.
Proof. intros Hl Hno. exists [], a, l, s. split; [apply tn_here|]. split; [done|]. intros b' Ht s'. inversion Ht; subst. apply Hno. Qed.
Lemma lacks_down (a b : edges) l a1 b1 : wfe b -> (l, Node a1) ∈ a -> (l, Node b1) ∈ b -> lacks a1 b1 -> lacks a b.
Proof.
  intros Hw Ha Hb (q & e & l2 & s & Ht & Hl & Hno). exists (l :: q), e, l2, s. split; [eapply tn_step; [exact Ha|exact Ht]|]. split; [done|].
  intros b' Hb'. inversion Hb' as [|? ? b2 ? ? Hi2 Ht2]; subst. apply Hno. enough (b2 = b1) as <- by done.
  apply (tnode_fun b [l]); [exact Hw|eapply tn_step; [exact Hi2|apply tn_here]|eapply tn_step; [exact Hb|apply tn_here]].
Qed.
Lemma child_upd (g g' : guide) i f : (forall u, (f u).1 = u.1) ->
  (forall j, g' !! N.to_nat j = if j =? i then f <$> g !! N.to_nat j else g !! N.to_nat j) -> forall j, gd_Child g' j = gd_Child g j.
Proof.
  intros Hf Hg j. unfold gd_Child, get. rewrite Hg. destruct (j =? i); [|done]. destruct (g !! N.to_nat j) as [u|]; [|done]. cbn. by rewrite Hf.
Qed.

Section other.
  (** the dictionary holds [R], the Dawg holds [R1] *)
  Context (us : dict) (R : edges) (node : N -> edges -> Prop) (HN : drep us R node).
  Context (d : dawg) (R1 : edges) (x : fixedst) (HD : dawgw d R1 x) (HR1 : R1 <> []).
  Context (sort : (link -> link -> bool) -> list link -> list link) (cmp : Z -> Z -> bool) (Hs : sorter sort).
  Local Notation ts := (x_ts x).
  Local Notation fol l i j := (dc_Follow us l i = Ok (true, j)).
  Local Notation pos := (pos us).
  Context (Hmiss : forall p i es es1 l e, tnode R1 p es1 -> tnode R p es -> node i es -> (l, Node e) ∈ es1 -> (forall e', (l, Node e') ∉ es) -> dc_Follow us l i = Ok (false, i)).

  (** All edges of [es1] are edges of [es], and the units of nodes are marked. *)
  Definition kids (tbl : list N) (i : N) (es1 es : edges) : Prop :=
    forall l s, (l, s) ∈ es1 -> exists s', (l, s') ∈ es /\ forall e, s = Node e -> exists e', s' = Node e' /\ fxb tbl (pos i l) = true.
  Definition rdone (g : guide) (tbl : list N) (i : N) : Prop := exists p es1 es c s, tnode R1 p es1 /\ tnode R p es /\ node i es /\ gat us R node p i es /\ kids tbl i es1 es /\
    gd_Child g i = Ok c /\ (c, s) ∈ es1.
  Definition rok (g : guide) (tbl : list N) (S : list N) : Prop :=
    length g = length us /\ length tbl = (length us / 8)%nat /\ forall i, fxb tbl i = true -> i ∉ S -> rdone g tbl i.
  Lemma kids_mono tbl tbl' i es1 es : (forall j, fxb tbl j = true -> fxb tbl' j = true) -> kids tbl i es1 es -> kids tbl' i es1 es.
  Proof. intros H Hk l s Hl. destruct (Hk l s Hl) as (s' & H1 & H2). exists s'. split; [done|]. intros e He. destruct (H2 e He) as (e' & H3 & H4). exists e'. auto. Qed.
  Lemma rdone_mono g tbl tbl' i : (forall j, fxb tbl j = true -> fxb tbl' j = true) -> rdone g tbl i -> rdone g tbl' i.
  Proof. intros H (p & es1 & es & c & s & H1 & H2 & H3 & H4 & H5 & H6). exists p, es1, es, c, s. do 4 (split; [done|]). split; [by eapply kids_mono|done]. Qed.
  Lemma wfe1 p es1 : tnode R1 p es1 -> wfe es1.
  Proof using HD. intros Ht. apply (tnode_wf R1 p es1); [apply wfe_or, HD|done]. Qed.

  Lemma findMax_any g tbl S fuel : rok g tbl S -> forall i es, (hgt (Node es) <= fuel)%nat -> node i es -> fxb tbl i = true ->
    (forall s es', s ∈ S -> node s es' -> (hgt (Node es) < hgt (Node es'))%nat) -> exists v, rb_findMax fuel us g i = Ok (Some v).
  Proof using HN HD.
    clear Hmiss. intros (_ & _ & HG). induction fuel as [|fuel IH]; intros i es Hh Hn Hf HS; [pose proof (hgt_pos (Node es)); lia|].
    assert (Hni : i ∉ S) by (intros H; specialize (HS _ _ H Hn); lia). destruct (HG i Hf Hni) as (p & es1 & es2 & c & s & H1 & H2 & H3 & _ & Hk & Hc & Hin).
    rewrite (rp_fun _ _ _ HN _ _ _ H3 Hn) in *. clear es2 H3. pose proof (proj1 (wf_wfe es) (rp_wf _ _ _ HN _ _ Hn)) as [_ Hw].
    cbn [rb_findMax]. rewrite Hc. cbn [mbind res_bind]. destruct (Hk c s Hin) as (s' & Hs' & Hks). pose proof (wfe1 p es1 H1) as Hw1. destruct (N.eqb_spec c 0) as [->|Hc0]; cbn [negb].
    - destruct (wfe_zero _ _ Hw Hs') as [v ->]. rewrite (rp_has _ _ _ HN _ _ Hn). rewrite (proj2 (has0_in es Hw)) by (by exists v). cbn [mbind res_bind negb].
      rewrite (rp_val _ _ _ HN _ _ v Hn Hs'). by eexists.
    - destruct s as [v|e]; [by destruct (wfe_leaf _ _ _ Hw1 Hin)|]. destruct (Hks e eq_refl) as (e' & -> & Hfj).
      destruct (pos_kid us R node HN i es c e' Hn Hs') as (-> & Hj & _). cbn [mbind res_bind negb]. pose proof (hgt_in _ _ _ Hs').
      apply (IH _ e'); [lia|done|done|]. intros s0 es' Hs0 Hn'. specialize (HS _ _ Hs0 Hn'). lia.
  Qed.
  Lemma turn_any i es : node i es -> forall rest a g, (forall l, l ∈ a :: rest -> exists s, (l, s) ∈ es) -> length g = length us ->
    exists g', rb_turn us i g (pos i a) rest = Ok g' /\ length g' = length us /\ forall j, gd_Child g' j = gd_Child g j.
  Proof using HN.
    clear Hmiss. intros Hn. induction rest as [|b rest IH]; intros a g Hl Hlen; [by exists g|]. cbn [rb_turn]. rewrite (fwc_ok us R node HN i es b Hn). cbn [mbind res_bind].
    destruct (Hl a) as [s Hsa]; [left|]. destruct (upd_get g (pos i a) (fun u => (u.1, b))) as (g1 & -> & Hl1 & Hg1).
    { rewrite Hlen. by apply (pos_lt us R node HN i es a s). }
    cbn [mbind res_bind]. destruct (IH b g1) as (g' & Hg' & Hl' & Hc'); [intros l Hin; apply Hl; by right|congruence|]. exists g'. split; [done|]. split; [done|].
    intros j. rewrite Hc'. by apply (child_upd g g1 (pos i a) (fun u => (u.1, b))).
  Qed.

  Lemma rother_ok fuel : forall S st p i es es1 di k, (hgt (Node es) <= fuel)%nat -> node i es -> gat us R node p i es -> tnode R p es -> tnode R1 p es1 -> es1 <> [] -> ts !! k = Some es1 ->
    dawg_child d di = Ok (N.of_nat (start ts k)) -> rok (r_units st) (r_tbl st) S ->
    (forall s es', s ∈ S -> node s es' -> (hgt (Node es) < hgt (Node es'))%nat) ->
    exists o st', rb_buildIndices sort cmp fuel d us st di i = Ok (o, st') /\
      (forall v, o = Some v -> rok (r_units st') (r_tbl st') S /\ r_links st' = r_links st /\ (forall j, fxb (r_tbl st) j = true -> fxb (r_tbl st') j = true) /\ fxb (r_tbl st') i = true) /\
      (o = None -> lacks es1 es).
  Proof using HN HD Hs Hmiss.
    pose proof (HF d R1 x HD) as Hfz.
    induction fuel as [|fuel IH]; intros S st p i es es1 di k Hh Hn Hat Hp Hp1 Hne1 Hk Hdc HI HS; [pose proof (hgt_pos (Node es)); lia|].
    cbn [rb_buildIndices]. pose proof (rp_lt _ _ _ HN _ _ Hn) as Hi. destruct (rp_blk _ _ _ HN) as [nb Hnb].
    assert (Ht8 : 8 * N.of_nat (length (r_tbl st)) = N.of_nat (length us)).
    { rewrite (proj1 (proj2 HI)), Hnb. assert (256 * nb / 8 = 32 * nb)%nat as -> by (replace (256 * nb)%nat with (32 * nb * 8)%nat by lia; by apply Nat.div_mul). lia. }
    rewrite isFixed_ok by lia. cbn [mbind res_bind]. destruct (fxb (r_tbl st) i) eqn:Efx.
    { destruct (findMax_any (r_units st) (r_tbl st) S (Datatypes.S (length us)) HI i es) as [v ->]; [by apply (hgt_units us R node HN i)|done|done|done|]. cbn [mbind res_bind].
      exists (Some v), st. done. }
    destruct (setFixed_ok (r_tbl st) i) as (tbl & -> & Htl & Htb); [lia|]. cbn [mbind res_bind]. cbv zeta. rewrite Hdc. cbn [mbind res_bind].
    pose proof (rp_wf _ _ _ HN _ _ Hn) as Hwf. pose proof (proj1 (wf_wfe es) Hwf) as [Hne Hw]. pose proof (wfe1 p es1 Hp1) as Hw1.
    assert (Hfi : fxb tbl i = true) by (rewrite Htb, N.eqb_refl; done).
    assert (Hmono : forall j, fxb (r_tbl st) j = true -> fxb tbl j = true) by (intros j Hj; rewrite Htb, Hj; apply orb_true_r).
    assert (HI1 : rok (r_units st) tbl (i :: S)).
    { destruct HI as (A1 & A2 & A3). split; [done|]. split; [by rewrite Htl|]. intros i' Hf' Hni. rewrite Htb in Hf'. apply not_elem_of_cons in Hni as [Hne' Hni].
      rewrite (proj2 (N.eqb_neq _ _) Hne') in Hf'. cbn [orb] in Hf'. apply (rdone_mono _ (r_tbl st)); [done|]. by apply A3. }
    set (loop := rb_enum (rb_buildIndices sort cmp fuel d us) d us i).
    assert (Hloop : forall m j n st1 new, (length es1 = j + m)%nat -> (m <= n)%nat -> rok (r_units st1) (r_tbl st1) (i :: S) ->
      r_links st1 = r_links st ++ new -> new.*1 = (take j es1).*1 -> (forall j, fxb tbl j = true -> fxb (r_tbl st1) j = true) -> kids (r_tbl st1) i (take j es1) es ->
      exists b st', loop n st1 (if Nat.ltb j (length es1) then N.of_nat (start ts k + j) else 0) = Ok (b, st') /\
        (b = true -> rok (r_units st') (r_tbl st') (i :: S) /\ (exists new', r_links st' = r_links st ++ new' /\ new'.*1 = es1.*1) /\
          (forall j, fxb tbl j = true -> fxb (r_tbl st') j = true) /\ kids (r_tbl st') i es1 es) /\
        (b = false -> lacks es1 es)).
    { induction m as [|m IHm]; intros j n st1 new Hlen Hmn HIj Hlj Hnew Hmj Hkj.
      - destruct (Nat.ltb_spec j (length es1)); [lia|]. rewrite take_ge in Hnew, Hkj by lia. exists true, st1. split; [by unfold loop; destruct n|].
        split; [|done]. intros _. split; [done|]. split; [by exists new|done].
      - destruct (Nat.ltb_spec j (length es1)) as [Hlt|]; [|lia]. destruct n as [|n]; [lia|]. unfold loop. cbn [rb_enum].
        assert (Hst : (N.of_nat (start ts k + j) =? 0) = false) by (apply N.eqb_neq; unfold start; lia). rewrite Hst.
        destruct (lookup_lt_is_Some_2 es1 j Hlt) as [[l s] He]. assert (Hin : (l, s) ∈ es1) by (by eapply elem_of_list_lookup_2).
        destruct (nav_edge d ts Hfz k es1 j l s Hk He) as (N1 & N2 & N3). rewrite N1. cbn [mbind res_bind].
        assert (Hstep : exists o st2, (if l =? 0 then
              has ← dc_HasValue us i; if negb has then Ok (None, st1) else v ← dc_Value us i; Ok (Some v, st1)
            else '(ok, jj) ← dc_Follow us l i; if negb ok then Ok (None, st1) else rb_buildIndices sort cmp fuel d us st1 (N.of_nat (start ts k + j)) jj) = Ok (o, st2) /\
            (forall v, o = Some v -> rok (r_units st2) (r_tbl st2) (i :: S) /\ r_links st2 = r_links st1 /\ (forall j, fxb (r_tbl st1) j = true -> fxb (r_tbl st2) j = true) /\
              exists s', (l, s') ∈ es /\ forall e, s = Node e -> exists e', s' = Node e' /\ fxb (r_tbl st2) (pos i l) = true) /\
            (o = None -> lacks es1 es)).
        { destruct s as [v|e1].
          - destruct (wfe_leaf _ _ _ Hw1 Hin) as [-> _]. cbn [N.eqb]. rewrite (rp_has _ _ _ HN _ _ Hn). cbn [mbind res_bind]. destruct (has0 es) eqn:E0; cbn [negb].
            + apply (has0_in es Hw) in E0 as [w Hv]. rewrite (rp_val _ _ _ HN _ _ w Hn Hv). cbn [mbind res_bind]. eexists _, st1. split; [done|]. split; [|done].
              intros _ _. split; [done|]. split; [done|]. split; [done|]. by exists (Leaf w).
            + exists None, st1. split; [done|]. split; [done|]. intros _. apply (lacks_here es1 es 0 (Leaf v) Hin). intros s' Hs'. destruct (wfe_zero _ _ Hw Hs') as [w ->].
              rewrite (proj2 (has0_in es Hw)) in E0 by (by exists w). done.
          - destruct (wfe_kid _ _ _ Hw1 Hin) as (_ & _ & Hl0 & _). rewrite (proj2 (N.eqb_neq _ _) Hl0). destruct (kid_dec es l) as [[e' He']|Hno].
            2: { rewrite (Hmiss p i es es1 l e1 Hp1 Hp Hn Hin Hno). cbn [mbind res_bind negb]. exists None, st1. split; [done|]. split; [done|]. intros _.
              apply (lacks_here es1 es l (Node e1) Hin). intros [w|e'] Hs'; [by destruct (wfe_leaf _ _ _ Hw Hs')|by apply (Hno e')]. }
            destruct (pos_kid us R node HN i es l e' Hn He') as (Hfo & Hj & _). rewrite Hfo. cbn [mbind res_bind negb]. destruct N3 as (k1 & Hk1 & N3).
            pose proof (hgt_in _ _ _ He') as Hhl. destruct (wfe_in _ _ Hw1 Hin) as (Hwe1 & _). pose proof (proj1 (wf_wfe e1) Hwe1) as [Hnee _].
            destruct (IH (i :: S) st1 (p ++ [l]) (pos i l) e' e1 (N.of_nat (start ts k + j)) k1) as (o & st2 & -> & B1 & B2).
            + lia.
            + done.
            + right. by exists p, l, i, es.
            + eapply tnode_app; [exact Hp|]. eapply tn_step; [exact He'|apply tn_here].
            + eapply tnode_app; [exact Hp1|]. eapply tn_step; [exact Hin|apply tn_here].
            + done.
            + done.
            + done.
            + done.
            + intros s' es' Hs' Hns'. apply elem_of_cons in Hs' as [->|Hs']; [by rewrite (rp_fun _ _ _ HN _ _ _ Hns' Hn)|]. specialize (HS _ _ Hs' Hns'). lia.
            + exists o, st2. split; [done|]. split.
              * intros v Hv. destruct (B1 v Hv) as (C1 & C2 & C3 & C4). do 3 (split; [done|]). exists (Node e'). split; [done|]. intros e [= <-]. by exists e'.
              * intros Ho. by apply (lacks_down es1 es l e1 e'), B2. }
        destruct Hstep as (o & st2 & -> & B1 & B2). cbn [mbind res_bind]. destruct o as [v|].
        2: { exists false, st2. split; [done|]. split; [done|]. intros _. by apply B2. }
        destruct (B1 v eq_refl) as (C1 & C2 & C3 & s' & C4 & C5). rewrite N2. cbn [mbind res_bind].
        apply (IHm (Datatypes.S j) n (mkRst (r_units st2) (r_links st2 ++ [(l, v)]) (r_tbl st2)) (new ++ [(l, v)])).
        + lia.
        + lia.
        + done.
        + cbn [r_links]. by rewrite C2, Hlj, <- app_assoc.
        + rewrite (take_S_r es1 j (l, s) He), !fmap_app, Hnew. done.
        + intros j' Hj'. cbn [r_tbl]. by apply C3, Hmj.
        + cbn [r_tbl]. intros l' s0 Hl'. rewrite (take_S_r es1 j (l, s) He) in Hl'. apply elem_of_app in Hl' as [Hl'|Hl'].
          * by apply (kids_mono _ _ _ _ _ C3 Hkj).
          * apply elem_of_list_singleton in Hl' as [= -> ->]. by exists s'. }
    destruct (Hloop (length es1) 0%nat (Datatypes.S (length (d_base d))) (mkRst (r_units st) (r_links st) tbl) []) as (b & st' & Hst' & HT & HF').
    - done.
    - pose proof (frozen_len d ts Hfz k es1 Hk). lia.
    - done.
    - cbn [r_links]. by rewrite app_nil_r.
    - done.
    - done.
    - intros l s H. by apply elem_of_nil in H.
    - clearbody loop. destruct (Nat.ltb_spec 0 (length es1)) as [_|Hbad]; [|destruct es1; [done|cbn in Hbad; lia]]. rewrite Nat.add_0_r in Hst'. rewrite Hst'.
      cbn [mbind res_bind]. destruct b; cbn [negb]; [|exists None, st'; split; [done|]; split; [done|]; intros _; by apply HF'].
      destruct (HT eq_refl) as ((G1 & G2 & G3) & (new & C2 & Cn) & C3 & C4). rewrite C2, drop_app, take_app.
      assert (Hlab : forall l0 v0, (l0, v0) ∈ sort (link_less cmp) new -> exists s, (l0, s) ∈ es1).
      { intros l0 v0 H. rewrite (proj1 Hs) in H. assert (Hl : l0 ∈ es1.*1) by (rewrite <- Cn; apply elem_of_list_fmap; by exists (l0, v0)). by apply in_fst in Hl. }
      assert (Hsne : sort (link_less cmp) new <> []).
      { intros E. pose proof (proj1 Hs (link_less cmp) new) as Hpm. rewrite E in Hpm. apply Permutation_nil_l in Hpm. subst new. destruct es1; [done|]. done. }
      destruct (sort (link_less cmp) new) as [|[l0 v0] rest]; [done|]. destruct (Hlab l0 v0) as [s0 Hs0]; [left|]. cbn [rb_turnLinks fst].
      destruct (upd_get (r_units st') i (fun u => (l0, u.2))) as (g1 & -> & Hl1 & Hg1); [rewrite G1; lia|]. cbn [mbind res_bind].
      rewrite (fwc_ok us R node HN i es l0 Hn). cbn [mbind res_bind].
      destruct (turn_any i es Hn rest.*1 l0 g1) as (g' & -> & Hl' & Hc').
      { intros l Hl. apply elem_of_cons in Hl as [->|Hl].
        - destruct (C4 l0 s0 Hs0) as (s' & ? & _). by exists s'.
        - apply in_fst in Hl as [v Hl]. destruct (Hlab l v) as [s1 Hs1]; [by right|]. destruct (C4 l s1 Hs1) as (s' & ? & _). by exists s'. }
      { congruence. }
      cbn [mbind res_bind]. eexists _, _. split; [done|]. split; [|done]. intros v _. cbn [r_units r_tbl r_links].
      split; [|split; [done|split; [intros j Hj; by apply C3, Hmono|by apply C3]]]. split; [done|]. split; [done|]. intros i' Hf' Hni.
      destruct (decide (i' = i)) as [->|Hii].
      + exists p, es1, es, l0, s0. do 5 (split; [done|]). split; [|done]. rewrite Hc'. unfold gd_Child, get. rewrite Hg1, N.eqb_refl.
        destruct (lookup_lt_is_Some_2 (r_units st') (N.to_nat i)) as [u ->]; [rewrite G1; lia|]. done.
      + destruct (G3 i' Hf') as (p' & e1 & e2 & c & s & D1 & D2 & D3 & D4 & D5 & D6 & D7); [by apply not_elem_of_cons|]. exists p', e1, e2, c, s. do 5 (split; [done|]).
        split; [|done]. rewrite Hc'. rewrite <- D6. unfold gd_Child, get. by rewrite Hg1, (proj2 (N.eqb_neq _ _) Hii).
  Qed.

  Lemma rother_build : exists r, BuildRankedGuideCmp sort cmp d us = Ok r /\ (r = None -> lacks R1 R) /\
    (forall g, r = Some g -> length g = length us /\ exists tbl, rok g tbl [] /\ fxb tbl 0 = true).
  Proof using HN HD HR1 Hs Hmiss.
    destruct (dw_child d R1 x HD) as (c & Hc & [[? _]|(k & Hk & ->)]); [done|]. pose proof (HF d R1 x HD) as Hfz.
    assert (Hsz : (dawg_size d <=? 1) = false).
    { apply N.leb_gt. unfold dawg_size. rewrite (fz_base _ _ _ Hfz). pose proof (start_bound _ _ _ Hk).
      destruct R1; [done|]. unfold start in *. cbn [length] in *. lia. }
    unfold BuildRankedGuideCmp. rewrite Hsz. cbv zeta.
    assert (Hf0 : forall i, fxb (replicate (length us / 8) 0) i = false).
    { intros i. unfold fxb. destruct (replicate (length us / 8) 0 !! N.to_nat (i / 8)) eqn:E; [|done]. apply lookup_replicate in E as [-> _]. apply N.bits_0. }
    destruct (rother_ok (S (length us)) [] (mkRst (replicate (length us) (0, 0)) [] (replicate (length us / 8) 0)) [] 0 R R1 dawg_root k) as (o & st & Hg & HT & HF').
    - by apply (hgt_units us R node HN 0), HN.
    - apply HN.
    - by left.
    - apply tn_here.
    - apply tn_here.
    - done.
    - done.
    - done.
    - split; [apply replicate_length|]. split; [apply replicate_length|]. intros i Hi. cbn [r_tbl] in Hi. by rewrite Hf0 in Hi.
    - intros s es' H. by apply elem_of_nil in H.
    - rewrite Hg. cbn [mbind res_bind]. eexists. split; [done|]. destruct o as [v|]; split; intros; try done; simplify_eq.
      + destruct (HT v eq_refl) as (HG & _ & _ & H0). split; [apply HG|]. by exists (r_tbl st).
      + by apply HF'.
  Qed.
  (** A node that one prefix only leads to has been visited. *)
  Lemma rother_seen g tbl : rok g tbl [] -> forall q p a b a' b' i, tnode R1 p a -> tnode R p b -> node i b -> fxb tbl i = true -> tnode a q a' -> tnode b q b' ->
    (forall p', tnode R p' b' -> p' = p ++ q) -> exists i', node i' b' /\ fxb tbl i' = true.
  Proof using HN HD.
    clear Hmiss. assert (HwR1 : wfe R1) by (apply wfe_or, HD).
    intros (_ & _ & HG). induction q as [|l q IH]; intros p a b a' b' i Ha Hb Hn Hf Hqa Hqb Hu.
    - inversion Hqb; subst. by exists i.
    - destruct (HG i Hf) as (p' & es1 & es & c & s & H1 & H2 & H3 & _ & H4 & _); [by intros H%elem_of_nil|]. rewrite (rp_fun _ _ _ HN _ _ _ H3 Hn) in *. clear es H3.
      assert (p' = p) as -> by (pose proof (Hu _ (tnode_app _ _ _ _ _ H2 Hqb)) as E; by apply app_inv_tail in E).
      rewrite (tnode_fun R1 p es1 a HwR1 H1 Ha) in *. inversion Hqa as [|? ? a1 ? ? Hi1 Ht1]; subst. inversion Hqb as [|? ? b1 ? ? Hi2 Ht2]; subst.
      destruct (H4 l _ Hi1) as (s' & Hs' & Hk). destruct (Hk a1 eq_refl) as (e' & -> & Hfj). destruct (pos_kid us R node HN i b l b1 Hn Hi2) as (_ & Hnj & _).
      apply (IH (p ++ [l]) a1 b1 a' b' (pos i l)); try done.
      + eapply tnode_app; [exact Ha|]. eapply tn_step; [exact Hi1|apply tn_here].
      + eapply tnode_app; [exact Hb|]. eapply tn_step; [exact Hi2|apply tn_here].
      + intros p' Hp'. rewrite <- app_assoc. by apply Hu.
  Qed.
  Lemma rother_detects q t a0 b0 a b l s : tnode R1 q a0 -> tnode R q b0 -> (forall p', tnode R p' b0 -> p' = q) -> (length t <= 1)%nat -> tnode a0 t a -> tnode b0 t b ->
    (l, s) ∈ a -> (forall s', (l, s') ∉ b) -> BuildRankedGuideCmp sort cmp d us = Ok None.
  Proof using HN HD HR1 Hs Hmiss.
    intros Ha0 Hb0 Hu Hlt Ha Hb Hl Hno. assert (HwR1 : wfe R1) by (apply wfe_or, HD). destruct rother_build as (r & Hr & _ & HS). rewrite Hr. f_equal. destruct r as [g|]; [|done]. exfalso.
    destruct (HS g eq_refl) as (_ & tbl & HG & H0). destruct (rother_seen g tbl HG q [] R1 R a0 b0 0) as (i & Hi & Hfi); try done; try (apply tn_here); [apply HN|].
    destruct HG as (_ & _ & HG). destruct (HG i Hfi) as (p' & es1 & es & c0 & s0 & H1 & H2 & H3 & _ & H4 & _); [by intros H%elem_of_nil|]. rewrite (rp_fun _ _ _ HN _ _ _ H3 Hi) in *.
    rewrite (Hu _ H2) in H1. rewrite (tnode_fun R1 q es1 a0 HwR1 H1 Ha0) in H4. clear p' es1 es H1 H2 H3. destruct t as [|c [|c' t]]; [| |cbn in Hlt; lia].
    - inversion Ha; subst. inversion Hb; subst. destruct (H4 l s Hl) as (s' & Hs' & _). by apply (Hno s').
    - inversion Ha as [|? ? a1 ? ? Hca Ha1]; subst. inversion Ha1; subst. inversion Hb as [|? ? b1 ? ? Hcb Hb1]; subst. inversion Hb1; subst. clear Ha1 Hb1.
      destruct (H4 c _ Hca) as (s' & Hs' & Hk). destruct (Hk a eq_refl) as (e' & -> & Hfj). destruct (pos_kid us R node HN i b0 c b Hi Hcb) as (Hj & Hnj & Hj0).
      destruct (HG (pos i c) Hfj) as (p' & es1 & es & c1 & s1 & H1 & H2 & H3 & Hat & H5 & _); [by intros H%elem_of_nil|]. rewrite (rp_fun _ _ _ HN _ _ _ H3 Hnj) in *. clear es H3.
      destruct Hat as [[_ ?]|(q' & l' & i' & es' & -> & Hq' & Hi' & Hl' & Hf')]; [done|]. destruct (rp_up _ _ _ HN _ _ _ _ _ _ _ _ _ Hi' Hl' Hf' Hi Hcb Hj) as [-> ->].
      rewrite (Hu _ Hq') in *. assert (Hac : tnode R1 (q ++ [c]) a) by (eapply tnode_app; [exact Ha0|exact Ha]).
      rewrite (tnode_fun R1 _ es1 a HwR1 H1 Hac) in H5. destruct (H5 l s Hl) as (s' & Hs'' & _). by apply (Hno s').
  Qed.
End other.
