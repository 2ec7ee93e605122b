(** BuildGuide (guide_builder.go:21-84) with a dictionary that was made from another
    history than the Dawg. *)
From Verif Require Import Go Dawg DawgRep Tree TreeFacts DawgFrozen DawgFix DawgMain DawgAbs DawgNav Dict DictUnit DictInv DictBuild DictDfs DictRead DictRep Guide GuideProofs.
Local Open Scope N_scope.
Local Arguments N.mul : simpl never.
Local Arguments N.add : simpl never.
Local Arguments N.of_nat : simpl never.
Local Arguments N.lxor : simpl never.

Lemma kid_dec (es : edges) l : (exists e', (l, Node e') ∈ es) \/ forall e', (l, Node e') ∉ es.
Proof.
  induction es as [|[l' [v|e]] es [[e' IH]|IH]]; [right; intros e' H; by apply elem_of_nil in H|left; exists e'; by right| |left; exists e'; by right|].
  - right. intros e' [?|H]%elem_of_cons; [done|by apply (IH e')].
  - destruct (decide (l' = l)) as [->|Hl]; [left; exists e; left|]. right. intros e' [[= ? ?]|H]%elem_of_cons; [congruence|by apply (IH e')].
Qed.

Lemma no_kid (es : edges) l : (forall e', (l, Node e') ∉ es) -> forall e', ~ tnode es ([] ++ [l]) e'.
Proof. intros Hno e' Ht. cbn [app] in Ht. inversion Ht as [|? ? e3 ? ? Hi3]; subst. by apply (Hno e3). Qed.
Lemma down_kid (es : edges) l e q l2 : wfe es -> (l, Node e) ∈ es -> (forall e', ~ tnode e (q ++ [l2]) e') -> forall e', ~ tnode es ((l :: q) ++ [l2]) e'.
Proof.
  intros Hw Hl Hq e' Ht. cbn [app] in Ht. inversion Ht as [|? ? e4 ? ? Hi4 Ht4]; subst. apply (Hq e'). enough (e4 = e) as <- by done.
  apply (tnode_fun es [l]); [exact Hw|eapply tn_step; [exact Hi4|apply tn_here]|eapply tn_step; [exact Hl|apply tn_here]].
Qed.

Section other.
  (** the dictionary holds [R], the Dawg holds [R1] *)
  Context (us : dict) (R : edges) (node : N -> edges -> Prop) (HN : drep us R node).
  Context (d : dawg) (R1 : edges) (x : fixedst) (HD : dawgw d R1 x) (HR1 : R1 <> []).
  Local Notation ts := (x_ts x).
  Local Notation fol l i j := (dc_Follow us l i = Ok (true, j)).
  (** bytes that leave the dictionary are seen to do so *)
  Context (Hmiss : forall p i es es1 l e, tnode R1 p es1 -> tnode R p es -> node i es -> (l, Node e) ∈ es1 -> (forall e', (l, Node e') ∉ es) -> dc_Follow us l i = Ok (false, i)).

  (** The unit [i] has been marked by the node of a prefix all of whose edges exist. *)
  Definition gat (p : list N) (i : N) (es : edges) : Prop := (p = [] /\ i = 0) \/
    exists q l i' es', p = q ++ [l] /\ tnode R q es' /\ node i' es' /\ (l, Node es) ∈ es' /\ fol l i' i.
  Definition gdone (tbl : list N) (i : N) : Prop := exists p es1 es, tnode R1 p es1 /\ tnode R p es /\ node i es /\ gat p i es /\
    forall l e, (l, Node e) ∈ es1 -> exists j, fol l i j /\ fxb tbl j = true.
  Definition gok (g : guide * list N) (S : list N) : Prop :=
    length g.1 = length us /\ length g.2 = (length us / 8)%nat /\ forall i, fxb g.2 i = true -> i ∉ S -> gdone g.2 i.
  Definition grow (g g' : guide * list N) : Prop := forall i, fxb g.2 i = true -> fxb g'.2 i = true.
  Lemma gdone_mono tbl tbl' i : (forall j, fxb tbl j = true -> fxb tbl' j = true) -> gdone tbl i -> gdone tbl' i.
  Proof. intros H (p & es1 & es & H1 & H2 & H3 & Hg & H4). exists p, es1, es. do 4 (split; [done|]). intros l e Hl. destruct (H4 l e Hl) as (j & Hj & Hf). exists j. auto. Qed.

  Lemma other_ok fuel : forall S g p i es es1 di k, (hgt (Node es) <= fuel)%nat -> node i es -> gat p i es -> tnode R p es -> tnode R1 p es1 -> es1 <> [] -> ts !! k = Some es1 ->
    dawg_child d di = Ok (N.of_nat (start ts k)) -> gok g S ->
    exists b g', gb_buildIndices fuel d us g di i = Ok (b, g') /\ (b = true -> gok g' S /\ grow g g' /\ fxb g'.2 i = true) /\
      (b = false -> exists q e l e1, tnode es1 q e /\ (l, Node e1) ∈ e /\ forall e', ~ tnode es (q ++ [l]) e').
  Proof using HN HD Hmiss.
    pose proof (HF d R1 x HD) as Hfz. assert (HwR1 : wfe R1) by (apply wfe_or, HD).
    induction fuel as [|fuel IH]; intros S g p i es es1 di k Hh Hn Hat Hp Hp1 Hne1 Hk Hdc HG; [pose proof (hgt_pos (Node es)); lia|].
    cbn [gb_buildIndices]. pose proof (rp_lt _ _ _ HN _ _ Hn) as Hi. destruct (rp_blk _ _ _ HN) as [nb Hnb]. destruct HG as (G1 & G2 & G3).
    assert (Ht8 : 8 * N.of_nat (length g.2) = N.of_nat (length us)).
    { rewrite G2, Hnb. assert (256 * nb / 8 = 32 * nb)%nat as -> by (replace (256 * nb)%nat with (32 * nb * 8)%nat by lia; by apply Nat.div_mul). lia. }
    rewrite isFixed_ok by lia. cbn [mbind res_bind]. destruct (fxb g.2 i) eqn:Efx.
    { exists true, g. split; [done|]. split; [|done]. intros _. split; [done|]. split; [by intros ?|done]. }
    destruct (setFixed_ok g.2 i) as (tbl & -> & Htl & Htb); [lia|]. cbn [mbind res_bind]. rewrite Hdc. cbn [mbind res_bind].
    destruct (tnode_wf _ _ _ HwR1 Hp1) as [Hw1 _]. pose proof (rp_wf _ _ _ HN _ _ Hn) as Hwf. pose proof (proj1 (wf_wfe es) Hwf) as [Hne Hw].
    assert (HE1 : forall j, fxb g.2 j = true -> fxb tbl j = true) by (intros j Hj; rewrite Htb, Hj; apply orb_true_r).
    assert (Hfi : fxb tbl i = true) by (rewrite Htb, N.eqb_refl; done).
    assert (G3' : forall j, fxb tbl j = true -> j ∉ i :: S -> gdone tbl j).
    { intros j Hj Hni. apply not_elem_of_cons in Hni as [Hji Hni]. rewrite Htb, (proj2 (N.eqb_neq _ _) Hji) in Hj. cbn [orb] in Hj. apply (gdone_mono g.2); [done|by apply G3]. }
    destruct es1 as [|[l0 s0] es0] eqn:Ees; [done|]. rewrite <- Ees in *. clear Hne1.
    assert (He0 : es1 !! 0%nat = Some (l0, s0)) by (by rewrite Ees).
    destruct (nav_edge d ts Hfz k es1 0 l0 s0 Hk He0) as (H1 & H2 & _). rewrite Nat.add_0_r in H1, H2. rewrite H1. cbn [mbind res_bind].
    set (loop := gb_loop (gb_buildIndices fuel d us) d us i).
    assert (Hloop : forall m j n g, (length es1 = j + Datatypes.S m)%nat -> (m < n)%nat -> (forall l s, es1 !! j = Some (l, s) -> l <> 0) -> gok g (i :: S) -> fxb g.2 i = true ->
      (forall j' l e, (j' < j)%nat -> es1 !! j' = Some (l, Node e) -> exists ch, fol l i ch /\ fxb g.2 ch = true) ->
      exists b g', loop n g (N.of_nat (start ts k + j)) = Ok (b, g') /\ (b = true -> gok g' S /\ grow g g') /\
        (b = false -> exists q e l e1, tnode es1 q e /\ (l, Node e1) ∈ e /\ forall e', ~ tnode es (q ++ [l]) e')).
    { induction m as [|m IHm]; intros j n g1 Hlen Hmn Hnz HGj Hfxi Hprev; (destruct n as [|n]; [lia|]);
        destruct (lookup_lt_is_Some_2 es1 j) as [[l s] He]; try lia; pose proof (Hnz _ _ He) as Hl0; specialize (Hnz _ _ He);
        assert (Hin : (l, s) ∈ es1) by (by eapply elem_of_list_lookup_2);
        destruct s as [v|e1]; [by destruct (wfe_leaf _ _ _ Hw1 Hin)| |by destruct (wfe_leaf _ _ _ Hw1 Hin)|];
        destruct (nav_edge d ts Hfz k es1 j l _ Hk He) as (N1 & N2 & k1 & Hk1 & N3); unfold loop; cbn [gb_loop]; rewrite N1; cbn [mbind res_bind];
        pose proof (kid_dec es l) as Hdec;
        (destruct Hdec as [[e' He']|Hno];
          [|rewrite (Hmiss p i es es1 l e1 Hp1 Hp Hn Hin Hno); cbn [mbind res_bind negb]; exists false, g1; split; [done|]; split; [done|]; intros _;
            exists [], es1, l, e1; split; [apply tn_here|]; split; [exact Hin|]; by apply no_kid]);
        destruct (rp_kid _ _ _ HN _ _ _ _ Hn He') as (ch & Hfo & Hch & Hch0); rewrite Hfo; cbn [mbind res_bind negb];
        pose proof (hgt_in _ _ _ He') as Hhl; destruct (wfe_in _ _ Hw1 Hin) as (Hwe1 & _); pose proof (proj1 (wf_wfe e1) Hwe1) as [Hne1 _];
        (assert (Ht1 : tnode R (p ++ [l]) e') by (eapply tnode_app; [exact Hp|]; econstructor; [exact He'|constructor]));
        (assert (Ht2 : tnode R1 (p ++ [l]) e1) by (eapply tnode_app; [exact Hp1|]; econstructor; [exact Hin|constructor]));
        (destruct (IH (i :: S) g1 (p ++ [l]) ch e' e1 (N.of_nat (start ts k + j)) k1) as (b & g2 & -> & HT & HF');
          [lia|done|right; by exists p, l, i, es|done|done|done|done|done|done|]); cbn [mbind res_bind];
        (destruct b; cbn [negb];
          [|exists false, g2; split; [done|]; split; [done|]; intros _; destruct (HF' eq_refl) as (q & e & l2 & e2 & Hq1 & Hq2 & Hq3); exists (l :: q), e, l2, e2;
            split; [econstructor; [exact Hin|done]|]; split; [done|]; by apply (down_kid es l e' q l2 Hw)]);
        destruct (HT eq_refl) as (HG2 & HE2 & Hf2); rewrite N2; cbn [mbind res_bind].
      - destruct (Nat.ltb_spec (Datatypes.S j) (length es1)); [lia|].
        assert (Hl00 : dawg_lbl d 0 = Ok 255).
        { destruct HD as [(root & Hrep & _) _]. unfold dawg_lbl. by rewrite (get_N _ 0 _ (dr_rootl _ _ _ Hrep)). }
        rewrite Hl00. cbn [mbind res_bind N.eqb negb]. eexists _, _. split; [done|]. assert (E : (g2.1, g2.2) = g2) by (by destruct g2). rewrite E.
        split; [|done]. intros _. split; [|done]. destruct HG2 as (A1 & A2 & A3). split; [done|]. split; [done|]. intros i' Hf' Hni.
        destruct (decide (i' = i)) as [->|Hii]; [|apply A3; [done|]; by apply not_elem_of_cons]. exists p, es1, es. do 4 (split; [done|]).
        intros l' e2 Hl'. apply elem_of_list_lookup in Hl' as [j' Hj']. destruct (decide (j' = j)) as [->|Hjj].
        + rewrite He in Hj'. injection Hj' as <- <-. by exists ch.
        + destruct (Hprev j' l' e2) as (ch' & B1 & B2); [apply lookup_lt_Some in Hj'; lia|done|]. exists ch'. split; [done|]. by apply HE2.
      - destruct (Nat.ltb_spec (Datatypes.S j) (length es1)) as [Hlt|]; [|lia]. destruct (lookup_lt_is_Some_2 es1 _ Hlt) as [[l' s'] He2].
        destruct (nav_edge d ts Hfz k es1 _ l' _ Hk He2) as (N1' & _). rewrite N1'. cbn [mbind res_bind].
        destruct (N.eqb_spec (N.of_nat (start ts k + Datatypes.S j)) 0); [lia|]. cbn [negb].
        pose proof (rp_lt _ _ _ HN _ _ Hch) as Hchl. destruct HG2 as (A1 & A2 & A3).
        destruct (upd_get g2.1 ch (fun u => (u.1, l'))) as (g3 & -> & Hl3 & Hg3); [rewrite A1; lia|]. cbn [mbind res_bind].
        destruct (IHm (Datatypes.S j) n (g3, g2.2)) as (b & g4 & Hg4 & HT4 & HF4).
        + lia.
        + lia.
        + intros l2 s2 He3. rewrite He2 in He3. injection He3 as <- <-. assert (Hin' : (l', s') ∈ es1) by (by eapply elem_of_list_lookup_2).
          intros ->. destruct (wfe_shape es1 Hw1) as [(v & es2 & E & _)|[_ E]].
          * rewrite E in He2, He. cbn in He2. destruct j as [|j]; [done|]. rewrite E in Hw1. apply wfe_cons in Hw1 as (_ & _ & _ & _ & Hlt2).
            rewrite Forall_forall in Hlt2. apply elem_of_list_lookup_2 in He2. apply Hlt2 in He2. cbn in He2. lia.
          * destruct (wfe_zero _ _ Hw1 Hin') as [v ->]. rewrite (proj2 (has0_in es1 Hw1)) in E by (by exists v). done.
        + split; [cbn [fst]; congruence|]. split; [done|]. exact A3.
        + cbn [snd]. by apply HE2.
        + intros j' l2 e2 Hj' He3. cbn [snd]. destruct (decide (j' = j)) as [->|].
          * rewrite He in He3. injection He3 as <- <-. by exists ch.
          * destruct (Hprev j' l2 e2) as (ch' & B1 & B2); [lia|done|]. exists ch'. split; [done|]. by apply HE2.
        + exists b, g4. split; [exact Hg4|]. split; [|exact HF4]. intros Hb. destruct (HT4 Hb) as [C1 C2]. split; [done|]. intros i' Hi'. apply C2. cbn [snd]. by apply HE2. }
    clearbody loop.
    assert (Hgo : forall c j l s, c = N.of_nat (start ts k + j) -> es1 !! j = Some (l, s) -> l <> 0 -> (forall j' l' e, (j' < j)%nat -> es1 !! j' <> Some (l', Node e)) ->
      exists b g', (units ← upd g.1 i (fun u => (l, u.2)); loop (Datatypes.S (length (d_base d))) (units, tbl) c) = Ok (b, g') /\
        (b = true -> gok g' S /\ grow g g' /\ fxb g'.2 i = true) /\ (b = false -> exists q e l e1, tnode es1 q e /\ (l, Node e1) ∈ e /\ forall e', ~ tnode es (q ++ [l]) e')).
    { intros c j l s -> He Hl Hpre.
      destruct (upd_get g.1 i (fun u => (l, u.2))) as (g1 & -> & Hl1 & Hg1); [rewrite G1; lia|]. cbn [mbind res_bind].
      destruct (Hloop (length es1 - Datatypes.S j)%nat j (Datatypes.S (length (d_base d))) (g1, tbl)) as (b & g' & Hg' & HT & HF').
      - apply lookup_lt_Some in He. lia.
      - pose proof (frozen_len d ts Hfz k es1 Hk). lia.
      - intros l' s' He'. rewrite He in He'. by injection He' as <- <-.
      - split; [cbn [fst]; congruence|]. split; [cbn [snd]; congruence|]. exact G3'.
      - done.
      - intros j' l' e Hj' He'. by destruct (Hpre j' l' e Hj').
      - exists b, g'. split; [exact Hg'|]. split; [|done]. intros Hb. destruct (HT Hb) as [C1 C2]. split; [done|]. split; [|by apply C2]. intros i' Hi'. apply C2. by apply HE1. }
    destruct (wfe_shape es1 Hw1) as [(v & es' & E & Hz & Hw')|[Hz Hh0]].
    - rewrite Ees in E. injection E as -> -> ->. cbn [N.eqb]. rewrite H2. cbn [mbind res_bind]. destruct es' as [|[l1 s1] es'].
      + rewrite Ees. cbn [length Nat.ltb Nat.leb N.eqb mbind res_bind]. eexists _, _. split; [done|]. split; [|done]. intros _. split; [|done].
        split; [done|]. split; [cbn [snd]; congruence|]. intros j Hj Hni. cbn [snd] in *. destruct (decide (j = i)) as [->|Hji].
        * exists p, es1, es. do 4 (split; [done|]). intros l e Hl. rewrite Ees in Hl. by apply elem_of_list_singleton in Hl.
        * apply G3'; [done|]. by apply not_elem_of_cons.
      + destruct (Nat.ltb_spec 1 (length es1)) as [_|Hbad]; [|rewrite Ees in Hbad; cbn in Hbad; lia].
        destruct (N.eqb_spec (N.of_nat (start ts k + 1)) 0); [lia|]. cbn [mbind res_bind].
        assert (He1 : es1 !! 1%nat = Some (l1, s1)) by (by rewrite Ees). destruct (nav_edge d ts Hfz k es1 1 l1 s1 Hk He1) as (N1 & _). rewrite N1. cbn [mbind res_bind].
        apply (Hgo _ 1%nat l1 s1); [done|done| |].
        * rewrite Ees in Hw1. apply wfe_cons in Hw1 as (_ & _ & _ & _ & Hlt). apply Forall_cons in Hlt as [Hlt _]. cbn in Hlt. lia.
        * intros j' l' es2 Hj'. assert (j' = 0%nat) as -> by lia. rewrite Ees. done.
    - destruct (N.eqb_spec l0 0) as [->|Hl0]; [rewrite Ees in Hh0; done|]. cbn [mbind res_bind]. rewrite H1. cbn [mbind res_bind].
      apply (Hgo _ 0%nat l0 s0); [f_equal; lia|done|done|intros; lia].
  Qed.

  Lemma other_build : exists r, BuildGuide d us = Ok r /\
    (r = None -> exists q e l e1, tnode R1 q e /\ (l, Node e1) ∈ e /\ forall e', ~ tnode R (q ++ [l]) e') /\
    (forall g, r = Some g -> length g = length us /\ exists tbl, gok (g, tbl) [] /\ fxb tbl 0 = true).
  Proof using HN HD HR1 Hmiss.
    destruct (dw_child d R1 x HD) as (c & Hc & [[? _]|(k & Hk & ->)]); [done|]. pose proof (HF d R1 x HD) as Hfz.
    assert (Hsz : (dawg_size d <=? 1) = false).
    { apply N.leb_gt. unfold dawg_size. rewrite (fz_base _ _ _ Hfz). pose proof (start_bound _ _ _ Hk).
      destruct R1; [done|]. unfold start in *. cbn [length] in *. lia. }
    unfold BuildGuide. rewrite Hsz. cbv zeta.
    assert (Hf0 : forall i, fxb (replicate (length us / 8) 0) i = false).
    { intros i. unfold fxb. destruct (replicate (length us / 8) 0 !! N.to_nat (i / 8)) eqn:E; [|done]. apply lookup_replicate in E as [-> _]. apply N.bits_0. }
    destruct (other_ok (S (length us)) [] (replicate (length us) (0, 0), replicate (length us / 8) 0) [] 0 R R1 dawg_root k) as (b & g & Hg & HT & HF').
    - by apply (hgt_units us R node HN 0), HN.
    - apply HN.
    - by left.
    - apply tn_here.
    - apply tn_here.
    - done.
    - done.
    - done.
    - split; [apply replicate_length|]. split; [apply replicate_length|]. intros i Hi. cbn [snd] in Hi. by rewrite Hf0 in Hi.
    - rewrite Hg. cbn [mbind res_bind]. eexists. split; [done|]. destruct b; split; intros; try done; simplify_eq.
      + destruct (HT eq_refl) as (HG & _ & H0). split; [apply HG|]. exists g.2. destruct g. done.
      + by apply HF'.
  Qed.
  (** A node that one prefix only leads to has been visited. *)
  Lemma other_seen g tbl : gok (g, tbl) [] -> forall q p a b a' b' i, tnode R1 p a -> tnode R p b -> node i b -> fxb tbl i = true -> tnode a q a' -> tnode b q b' ->
    (forall p', tnode R p' b' -> p' = p ++ q) -> exists i', node i' b' /\ fxb tbl i' = true.
  Proof using HN HD.
    assert (HwR1 : wfe R1) by (apply wfe_or, HD).
    intros (_ & _ & HG). cbn [snd] in HG. induction q as [|l q IH]; intros p a b a' b' i Ha Hb Hn Hf Hqa Hqb Hu.
    - inversion Hqb; subst. by exists i.
    - destruct (HG i Hf) as (p' & es1 & es & H1 & H2 & H3 & _ & H4); [by intros H%elem_of_nil|]. rewrite (rp_fun _ _ _ HN _ _ _ H3 Hn) in H2. clear es H3.
      assert (p' = p) as -> by (pose proof (Hu _ (tnode_app _ _ _ _ _ H2 Hqb)) as E; by apply app_inv_tail in E).
      rewrite (tnode_fun R1 p es1 a HwR1 H1 Ha) in *. inversion Hqa as [|? ? a1 ? ? Hi1 Ht1]; subst. inversion Hqb as [|? ? b1 ? ? Hi2 Ht2]; subst.
      destruct (H4 l a1 Hi1) as (j & Hj & Hfj). destruct (rp_kid _ _ _ HN _ _ _ _ Hn Hi2) as (j' & Hj' & Hnj & _). rewrite Hj in Hj'. injection Hj' as <-.
      apply (IH (p ++ [l]) a1 b1 a' b' j); try done.
      + eapply tnode_app; [exact Ha|]. eapply tn_step; [exact Hi1|apply tn_here].
      + eapply tnode_app; [exact Hb|]. eapply tn_step; [exact Hi2|apply tn_here].
      + intros p' Hp'. rewrite <- app_assoc. by apply Hu.
  Qed.
  Lemma other_detects q t a0 b0 a b l e : tnode R1 q a0 -> tnode R q b0 -> (forall p', tnode R p' b0 -> p' = q) -> (length t <= 1)%nat -> tnode a0 t a -> tnode b0 t b ->
    (l, Node e) ∈ a -> (forall e', (l, Node e') ∉ b) -> BuildGuide d us = Ok None.
  Proof using HN HD HR1 Hmiss.
    intros Ha0 Hb0 Hu Hlt Ha Hb Hl Hno. assert (HwR1 : wfe R1) by (apply wfe_or, HD). destruct other_build as (r & Hr & _ & HS). rewrite Hr. f_equal. destruct r as [g|]; [|done]. exfalso.
    destruct (HS g eq_refl) as (_ & tbl & HG & H0). destruct (other_seen g tbl HG q [] R1 R a0 b0 0) as (i & Hi & Hfi); try done; try (apply tn_here); [apply HN|].
    destruct HG as (_ & _ & HG). destruct (HG i Hfi) as (p' & es1 & es & H1 & H2 & H3 & _ & H4); [by intros H%elem_of_nil|]. rewrite (rp_fun _ _ _ HN _ _ _ H3 Hi) in H2.
    rewrite (Hu _ H2) in H1. rewrite (tnode_fun R1 q es1 a0 HwR1 H1 Ha0) in H4. clear p' es1 es H1 H2 H3. destruct t as [|c [|c' t]]; [| |cbn in Hlt; lia].
    - inversion Ha; subst. inversion Hb; subst. destruct (H4 l e Hl) as (j & Hj & _). rewrite (Hmiss q i b a l e Ha0 Hb0 Hi Hl Hno) in Hj. done.
    - inversion Ha as [|? ? a1 ? ? Hca Ha1]; subst. inversion Ha1; subst. inversion Hb as [|? ? b1 ? ? Hcb Hb1]; subst. inversion Hb1; subst. clear Ha1 Hb1.
      destruct (H4 c a Hca) as (j & Hj & Hfj). destruct (rp_kid _ _ _ HN _ _ _ _ Hi Hcb) as (j' & Hj' & Hnj & Hj0). rewrite Hj in Hj'. injection Hj' as <-.
      destruct (HG j Hfj) as (p' & es1 & es & H1 & H2 & H3 & Hat & H5); [by intros H%elem_of_nil|]. rewrite (rp_fun _ _ _ HN _ _ _ H3 Hnj) in *. clear es H3.
      destruct Hat as [[_ ?]|(q' & l' & i' & es' & -> & Hq' & Hi' & Hl' & Hf')]; [done|]. destruct (rp_up _ _ _ HN _ _ _ _ _ _ _ _ _ Hi' Hl' Hf' Hi Hcb Hj) as [-> ->].
      rewrite (Hu _ Hq') in *. assert (Hac : tnode R1 (q ++ [c]) a) by (eapply tnode_app; [exact Ha0|exact Ha]).
      rewrite (tnode_fun R1 _ es1 a HwR1 H1 Hac) in H5. destruct (H5 l e Hl) as (j' & Hj' & _). rewrite (Hmiss (q ++ [c]) j b a l e Hac H2 Hnj Hl Hno) in Hj'. done.
  Qed.
End other.
