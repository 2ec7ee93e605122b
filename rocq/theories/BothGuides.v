(** BuildGuide (guide_builder.go:21-84) and BuildRankedGuideCmp
    (ranked_guide_builder.go:15-141) on one Dawg and any dictionary units. *)
From Verif Require Import Go Dawg DawgRep Tree TreeFacts DawgFrozen DawgFix DawgMain DawgAbs DawgNav DictDfs Dict Guide GuideProofs Ranked SerialRange DictBuild.
Local Open Scope N_scope.
Local Arguments N.mul : simpl never.
Local Arguments N.add : simpl never.
Local Arguments N.of_nat : simpl never.
Local Arguments N.lxor : simpl never.

Lemma isFixed_lt tbl i b : gb_isFixed tbl i = Ok b -> i < 8 * N.of_nat (length tbl).
Proof.
  unfold gb_isFixed, get. intros H. bnd H u E. destruct (tbl !! N.to_nat (i / 8)) eqn:El; [|done]. apply lookup_lt_Some in El. pose proof (N.div_mod i 8 ltac:(lia)). pose proof (N.mod_lt i 8 ltac:(lia)). lia.
Qed.

Section both.
  Context (us : dict) (d : dawg) (R1 : edges) (x : fixedst) (HD : dawgw d R1 x).
  Context (sort : (link -> link -> bool) -> list link -> list link) (cmp : Z -> Z -> bool).
  Local Notation ts := (x_ts x).

  Definition fits (g : guide * list N) (st : rst) : Prop := g.2 = r_tbl st /\ length g.1 = length us /\ length g.2 = (length us / 8)%nat.
  Lemma fits_lt g st i b : fits g st -> gb_isFixed (r_tbl st) i = Ok b -> i < N.of_nat (length us).
  Proof using. clear sort cmp. intros (E & _ & H) Hf%isFixed_lt. rewrite E in H. rewrite H in Hf. pose proof (Nat.mul_div_le (length us) 8 ltac:(lia)). lia. Qed.

  (** Where the ranked builder does not fail, the other one does not, and the marks are
      the same. *)
  Lemma both_ok fuel : forall st g di i k es1 v st', wfe es1 -> es1 <> [] -> ts !! k = Some es1 -> dawg_child d di = Ok (N.of_nat (start ts k)) -> fits g st ->
    rb_buildIndices sort cmp fuel d us st di i = Ok (Some v, st') -> exists g', gb_buildIndices fuel d us g di i = Ok (true, g') /\ fits g' st' /\ i < N.of_nat (length us).
  Proof using HD.
    pose proof (HF d R1 x HD) as Hfz. induction fuel as [|fuel IH]; intros st g di i k es1 v st' Hw1 Hne1 Hk Hdc Hfit HR; [done|].
    cbn [rb_buildIndices] in HR. cbn [gb_buildIndices]. rewrite (proj1 Hfit). bnd HR fx Efx. rewrite Efx. cbn [mbind res_bind].
    pose proof (fits_lt g st i fx Hfit Efx) as Hi. pose proof (isFixed_lt _ _ _ Efx) as Hi8. destruct fx.
    { bnd HR o Eo. injection HR as -> <-. exists g. done. }
    bnd HR tbl Et. rewrite Et. cbn [mbind res_bind]. cbv zeta in HR. rewrite Hdc in HR |- *. cbn [mbind res_bind] in HR |- *.
    assert (Htl : length tbl = (length us / 8)%nat).
    { destruct (setFixed_ok (r_tbl st) i) as (tbl' & Et' & Htl & _); [done|]. rewrite Et in Et'. injection Et' as <-. rewrite Htl. destruct Hfit as (E & _ & H). by rewrite <- E. }
    bnd HR w Ew. destruct w as [ok st1]. destruct ok; cbn [negb] in HR; [|done]. bnd HR un Eu.
    assert (Hst : r_tbl st' = r_tbl st1) by (destruct (sort _ _); [done|]; by injection HR as _ <-). unfold fits at 1. rewrite Hst. clear HR Eu un Hst Et Efx Hi8.
    assert (Hloop : forall m j n n' st g, (length es1 = j + Datatypes.S m)%nat -> (m < n')%nat -> (forall j' l s, (j <= j')%nat -> es1 !! j' = Some (l, s) -> l <> 0) -> fits g st ->
      rb_enum (rb_buildIndices sort cmp fuel d us) d us i n st (N.of_nat (start ts k + j)) = Ok (true, st1) ->
      exists g', gb_loop (gb_buildIndices fuel d us) d us i n' g (N.of_nat (start ts k + j)) = Ok (true, g') /\ fits g' st1).
    { clear st g Hfit Ew. induction m as [|m IHm]; intros j n n' st g Hlen Hn' Hnz Hfit HR.
      all: destruct (lookup_lt_is_Some_2 es1 j) as [[l s] He]; [lia|]; assert (Hin : (l, s) ∈ es1) by (by eapply elem_of_list_lookup_2).
      all: destruct (nav_edge d ts Hfz k es1 j l s Hk He) as (N1 & N2 & N3); pose proof (Hnz j l s ltac:(lia) He) as Hl0.
      all: assert (Hc0 : (N.of_nat (start ts k + j) =? 0) = false) by (apply N.eqb_neq; unfold start; lia).
      all: destruct n' as [|n']; [lia|]; cbn [gb_loop]; destruct n as [|n]; cbn [rb_enum] in HR; rewrite Hc0 in HR; [done|].
      all: rewrite N1 in HR |- *; cbn [mbind res_bind] in HR |- *; rewrite (proj2 (N.eqb_neq _ _) Hl0) in HR.
      all: bnd HR w Ew; destruct w as [o st2]; bnd Ew w Efo; destruct w as [ok jj]; rewrite Efo; cbn [mbind res_bind].
      all: destruct ok; cbn [negb] in Ew |- *; [|injection Ew as <- <-; done]; destruct o as [v0|]; [|done].
      all: destruct s as [w|e1]; [by destruct (wfe_leaf _ _ _ Hw1 Hin)|]; destruct N3 as (k1 & Hk1 & N3).
      all: destruct (wfe_kid _ _ _ Hw1 Hin) as (Hwe & Hnee & _).
      all: destruct (IH st g (N.of_nat (start ts k + j)) jj k1 e1 v0 st2 Hwe Hnee Hk1 N3 Hfit Ew) as (g2 & -> & Hfit2 & Hjj); cbn [mbind res_bind negb].
      all: rewrite N2 in HR |- *; cbn [mbind res_bind] in HR |- *.
      - destruct (Nat.ltb_spec (Datatypes.S j) (length es1)) as [Hbad|_]; [lia|].
        assert (Hl00 : dawg_lbl d 0 = Ok 255).
        { destruct HD as [(root & Hrep & _) _]. unfold dawg_lbl. by rewrite (get_N _ 0 _ (dr_rootl _ _ _ Hrep)). }
        rewrite Hl00. cbn [N.eqb negb mbind res_bind]. eexists. split; [done|].
        destruct n; cbn [N.eqb] in HR; injection HR as <-; done.
      - destruct (Nat.ltb_spec (Datatypes.S j) (length es1)) as [Hlt|Hbad]; [|lia].
        assert (Hc1 : (N.of_nat (start ts k + Datatypes.S j) =? 0) = false) by (apply N.eqb_neq; unfold start; lia). rewrite Hc1.
        destruct (lookup_lt_is_Some_2 es1 (Datatypes.S j) Hlt) as [[l' s'] He']. destruct (nav_edge d ts Hfz k es1 _ l' s' Hk He') as (-> & _). cbn [mbind res_bind negb].
        destruct Hfit2 as (F1 & F2 & F3). destruct (upd_get g2.1 jj (fun u => (u.1, l'))) as (g3 & -> & Hl3 & _); [by rewrite F2|]. cbn [mbind res_bind].
        eapply (IHm (Datatypes.S j) n n'); [lia|lia| | |exact HR]; [intros j' l1 s1 Hj'; apply Hnz; lia|].
        split; [done|]. split; [cbn [fst]; congruence|done]. }
    destruct es1 as [|[l0 s0] es0] eqn:Ees; [done|]. rewrite <- Ees in *. clear Hne1. pose proof (frozen_len d ts Hfz k es1 Hk) as Hlb.
    assert (He0 : es1 !! 0%nat = Some (l0, s0)) by (by rewrite Ees).
    destruct (nav_edge d ts Hfz k es1 0 l0 s0 Hk He0) as (H1 & H2 & _). rewrite Nat.add_0_r in H1, H2. rewrite H1. cbn [mbind res_bind].
    assert (Hpos : forall j l s, (1 <= j)%nat -> es1 !! j = Some (l, s) -> l <> 0).
    { intros j l s Hj He. destruct j as [|j]; [lia|]. rewrite Ees in He, Hw1. apply wfe_cons in Hw1 as (_ & _ & _ & _ & Hlt). rewrite Forall_forall in Hlt. cbn in He.
      specialize (Hlt (l, s) (elem_of_list_lookup_2 _ _ _ He)). cbn in Hlt. lia. }
    destruct (N.eqb_spec l0 0) as [->|Hl0].
    - cbn [rb_enum] in Ew. assert (Hc0 : (N.of_nat (start ts k) =? 0) = false) by (apply N.eqb_neq; unfold start; lia). rewrite Hc0, H1 in Ew. cbn [mbind res_bind N.eqb] in Ew.
      bnd Ew w Ev. destruct w as [o st2]. bnd Ev hs Eh. destruct hs; cbn [negb] in Ev; [|injection Ev as <- <-; done]. bnd Ev v1 Ev1. injection Ev as <- <-.
      rewrite H2 in Ew |- *. cbn [mbind res_bind] in Ew |- *. destruct es0 as [|[l1 s1] es0].
      + rewrite Ees in Ew |- *. cbn [length Nat.ltb Nat.leb N.eqb mbind res_bind] in Ew |- *. eexists. split; [done|]. split; [|done]. cbn [fst snd].
        assert (st1 = mkRst (r_units st) (r_links st ++ [(0, v1)]) tbl) as -> by (destruct (length (d_base d)); cbn [rb_enum N.eqb] in Ew; by injection Ew as <-).
        split; [done|]. split; [apply Hfit|done].
      + destruct (Nat.ltb_spec 1 (length es1)) as [Hlt|Hbad]; [|rewrite Ees in Hbad; cbn in Hbad; lia].
        assert (Hc1 : (N.of_nat (start ts k + 1) =? 0) = false) by (apply N.eqb_neq; lia). rewrite Hc1. cbn [mbind res_bind].
        assert (He1 : es1 !! 1%nat = Some (l1, s1)) by (by rewrite Ees). destruct (nav_edge d ts Hfz k es1 1 l1 s1 Hk He1) as (-> & _). cbn [mbind res_bind].
        destruct (upd_get g.1 i (fun u => (l1, u.2))) as (g3 & -> & Hl3 & _); [by rewrite (proj1 (proj2 Hfit))|]. cbn [mbind res_bind].
        edestruct (Hloop (length es0) 1%nat (length (d_base d)) (S (length (d_base d))) (mkRst (r_units st) (r_links st ++ [(0, v1)]) tbl) (g3, tbl)) as (g' & Hg' & Hf'); [by rewrite Ees|rewrite Ees in Hlb; cbn [length] in Hlb; lia|exact Hpos| |exact Ew|].
        { split; [done|]. split; [cbn [fst]; rewrite Hl3; apply Hfit|done]. }
        exists g'. done.
    - cbn [mbind res_bind]. rewrite H1. cbn [mbind res_bind]. destruct (upd_get g.1 i (fun u => (l0, u.2))) as (g3 & -> & Hl3 & _); [by rewrite (proj1 (proj2 Hfit))|]. cbn [mbind res_bind].
      edestruct (Hloop (length es0) 0%nat (S (length (d_base d))) (S (length (d_base d))) (mkRst (r_units st) (r_links st) tbl) (g3, tbl)) as (g' & Hg' & Hf').
      + by rewrite Ees.
      + rewrite Ees in Hlb; cbn [length] in Hlb; lia.
      + intros [|j'] l s _ He; [rewrite He0 in He; by injection He as <- <-|by apply (Hpos (S j') l s); [lia|]].
      + split; [done|]. split; [cbn [fst]; rewrite Hl3; apply Hfit|done].
      + rewrite Nat.add_0_r; exact Ew.
      + rewrite Nat.add_0_r in Hg'. exists g'. done.
  Qed.
  Lemma both_build rg : R1 <> [] -> BuildRankedGuideCmp sort cmp d us = Ok (Some rg) -> exists g, BuildGuide d us = Ok (Some g) /\ length g = length us.
  Proof using HD.
    intros HR1 HR. destruct (dw_child d R1 x HD) as (c & Hc & [[E _]|(k & Hk & ->)]); [done|]. pose proof (HF d R1 x HD) as Hfz.
    assert (Hsz : (dawg_size d <=? 1) = false).
    { apply N.leb_gt. unfold dawg_size. rewrite (fz_base _ _ _ Hfz). pose proof (start_bound _ _ _ Hk).
      destruct R1; [done|]. unfold start in *. cbn [length] in *. lia. }
    revert HR. unfold BuildRankedGuideCmp, BuildGuide. cbv zeta. rewrite Hsz. intros HR. bnd HR w Er. destruct w as [[v|] st]; [|done].
    edestruct (both_ok (S (length us)) (mkRst (replicate (length us) (0, 0)) [] (replicate (length us / 8) 0)) (replicate (length us) (0, 0), replicate (length us / 8) 0)) as (g' & -> & (_ & Hl & _) & _);
      [exact (wfe_or _ (dw_wf _ _ _ HD))|exact HR1|exact Hk|exact Hc| |exact Er|].
    { split; [done|]. split; apply replicate_length. }
    cbn [mbind res_bind]. by eexists.
  Qed.
End both.
