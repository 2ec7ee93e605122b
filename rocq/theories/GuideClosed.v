(** BuildGuide (guide_builder.go:21-84) and BuildRankedGuideCmp
    (ranked_guide_builder.go:15-141) on units that lead nowhere outside. *)
From Verif Require Import Go Dawg DawgRep Tree TreeFacts DawgFrozen DawgFix DawgMain DawgAbs DawgNav DictDfs DictBuild Dict Guide GuideProofs Ranked RankedProofs SerialRange BothGuides GuideEnds.
Local Open Scope N_scope.
Local Arguments N.mul : simpl never.
Local Arguments N.add : simpl never.
Local Arguments N.of_nat : simpl never.
Local Arguments N.lxor : simpl never.

(** A set of units [P], with the root, that every byte leads from to a unit, and to one
    of the set where the label agrees. *)
Definition shut (us : dict) (P : N -> Prop) : Prop := P 0 /\ forall i, P i -> exists u, us !! N.to_nat i = Some u /\
  forall l, l < 256 -> exists n, us !! N.to_nat (N.lxor (N.lxor i (dictOffset u)) l) = Some n /\ (l <> 0 -> dictLabel n = l -> P (N.lxor (N.lxor i (dictOffset u)) l)).
Definition inside (us : dict) : Prop := (length us mod 8 = 0)%nat /\ exists P, shut us P.

(** Heights, at most the number of units, that grow less from unit to unit. *)
Definition falls (us : dict) (P : N -> Prop) (f : N -> nat) : Prop := forall i, P i -> (f i <= length us)%nat /\
  forall l j, l <> 0 -> l < 256 -> dc_Follow us l i = Ok (true, j) -> (f j < f i)%nat.

Section inside.
  Context (us : dict) (H8 : (length us mod 8 = 0)%nat) (P : N -> Prop) (HI : shut us P).
  Context (d : dawg) (R1 : edges) (x : fixedst) (HD : dawgw d R1 x).
  Context (sort : (link -> link -> bool) -> list link -> list link) (cmp : Z -> Z -> bool) (Hs : forall less l, sort less l ≡ₚ l).
  Local Notation ts := (x_ts x).
  Local Notation len := (N.of_nat (length us)).
  Lemma P_lt i : P i -> i < len.
  Proof using HI. clear H8 Hs sort cmp. intros Hi. destruct (proj2 HI i Hi) as (u & Hu & _). apply lookup_lt_Some in Hu. lia. Qed.
  Lemma in_follow i l : P i -> l < 256 -> l <> 0 -> exists ok j, dc_Follow us l i = Ok (ok, j) /\ (ok = true -> P j).
  Proof using HI.
    clear H8 Hs sort cmp. intros Hi Hl Hl0. destruct (proj2 HI i Hi) as (u & Hu & Hall). destruct (Hall l Hl) as (n & Hn & HP).
    unfold dc_Follow, get. rewrite Hu. cbn [mbind res_bind]. rewrite Hn. cbn [mbind res_bind]. destruct (N.eqb_spec (dictLabel n) l) as [E|]; cbn [negb]; eexists _, _; (split; [done|]); [|done].
    intros _. by apply HP.
  Qed.
  Lemma in_has i : P i -> exists b, dc_HasValue us i = Ok b.
  Proof using HI. clear H8 Hs sort cmp. intros Hi. destruct (proj2 HI i Hi) as (u & Hu & _). unfold dc_HasValue, get. rewrite Hu. by eexists. Qed.
  Lemma in_value i : P i -> exists v, dc_Value us i = Ok v.
  Proof using HI.
    clear H8 Hs sort cmp. intros Hi. destruct (proj2 HI i Hi) as (u & Hu & Hall). destruct (Hall 0 ltac:(lia)) as (n & Hn & _). rewrite N.lxor_0_r in Hn.
    unfold dc_Value, get. rewrite Hu. cbn [mbind res_bind]. rewrite Hn. by eexists.
  Qed.
  Lemma in_fwc i l : P i -> l < 256 -> exists j, fwc us i l = Ok j /\ j < len.
  Proof using HI.
    clear H8 Hs sort cmp. intros Hi Hl. destruct (proj2 HI i Hi) as (u & Hu & Hall). destruct (Hall l Hl) as (n & Hn & _). unfold fwc, get. rewrite Hu. cbn [mbind res_bind]. eexists. split; [done|].
    apply lookup_lt_Some in Hn. lia.
  Qed.
  Lemma eight (tbl : list N) : length tbl = (length us / 8)%nat -> 8 * N.of_nat (length tbl) = len.
  Proof using H8. clear Hs sort cmp. intros ->. pose proof (Nat.div_mod (length us) 8 ltac:(lia)) as H. rewrite H8 in H. lia. Qed.

  Definition sized (g : guide * list N) : Prop := length g.1 = length us /\ length g.2 = (length us / 8)%nat.
  Definition calm (r : res (bool * (guide * list N))) : Prop := match r with Ok (_, g') => sized g' | Panic => False | Hang => True end.
  Lemma inside_ok fuel : forall g di i k es1, wfe es1 -> es1 <> [] -> ts !! k = Some es1 -> dawg_child d di = Ok (N.of_nat (start ts k)) -> sized g -> P i ->
    calm (gb_buildIndices fuel d us g di i).
  Proof using HD HI H8.
    clear Hs sort cmp. pose proof (HF d R1 x HD) as Hfz. induction fuel as [|fuel IH]; intros g di i k es1 Hw1 Hne1 Hk Hdc Hsz Hi; [done|].
    cbn [gb_buildIndices]. pose proof (eight _ (proj2 Hsz)) as He8. pose proof (P_lt i Hi) as Hlt0. rewrite isFixed_ok by lia. cbn [mbind res_bind]. destruct (fxb g.2 i) eqn:Ei; [done|].
    destruct (setFixed_ok g.2 i ltac:(lia)) as (tbl & -> & Htl & _). cbn [mbind res_bind]. rewrite Hdc. cbn [mbind res_bind].
    assert (Hloop : forall m j n g1, (length es1 = j + Datatypes.S m)%nat -> (forall j' l s, (j <= j')%nat -> es1 !! j' = Some (l, s) -> l <> 0) ->
      sized g1 -> calm (gb_loop (gb_buildIndices fuel d us) d us i n g1 (N.of_nat (start ts k + j)))).
    { induction m as [|m IHm]; intros j n g1 Hlen Hnz Hsz1.
      all: destruct (lookup_lt_is_Some_2 es1 j) as [[l s] He]; [lia|]; assert (Hin : (l, s) ∈ es1) by (by eapply elem_of_list_lookup_2).
      all: destruct (nav_edge d ts Hfz k es1 j l s Hk He) as (N1 & N2 & N3); pose proof (Hnz j l s ltac:(lia) He) as Hl0.
      all: destruct n as [|n]; [done|]; cbn [gb_loop]; rewrite N1; cbn [mbind res_bind].
      all: destruct s as [w|e1]; [by destruct (wfe_leaf _ _ _ Hw1 Hin)|]; destruct N3 as (k1 & Hk1 & N3).
      all: destruct (wfe_kid _ _ _ Hw1 Hin) as (Hwe & Hnee & _ & Hl256).
      all: destruct (in_follow i l Hi Hl256 Hl0) as (ok & jj & -> & Hjj); cbn [mbind res_bind]; destruct ok; cbn [negb]; [|done]; specialize (Hjj eq_refl).
      all: pose proof (IH g1 (N.of_nat (start ts k + j)) jj k1 e1 Hwe Hnee Hk1 N3 Hsz1 Hjj) as Hr.
      all: destruct (gb_buildIndices fuel d us g1 _ jj) as [[b2 g2]| |]; [|done|done]; cbn [calm] in Hr; cbn [mbind res_bind]; destruct b2; cbn [negb]; [|done].
      all: rewrite N2; cbn [mbind res_bind].
      - destruct (Nat.ltb_spec (Datatypes.S j) (length es1)) as [Hbad|_]; [lia|].
        assert (Hl00 : dawg_lbl d 0 = Ok 255).
        { destruct HD as [(root & Hrep & _) _]. unfold dawg_lbl. by rewrite (get_N _ 0 _ (dr_rootl _ _ _ Hrep)). }
        rewrite Hl00. cbn [mbind res_bind N.eqb negb]. done.
      - destruct (Nat.ltb_spec (Datatypes.S j) (length es1)) as [Hlt|Hbad]; [|lia].
        assert (Hc1 : (N.of_nat (start ts k + Datatypes.S j) =? 0) = false) by (apply N.eqb_neq; unfold start; lia). rewrite Hc1.
        destruct (lookup_lt_is_Some_2 es1 (Datatypes.S j) Hlt) as [[l' s'] He']. destruct (nav_edge d ts Hfz k es1 _ l' s' Hk He') as (-> & _). cbn [mbind res_bind negb].
        destruct (upd_get g2.1 jj (fun u => (u.1, l'))) as (g3 & -> & Hl3 & _); [rewrite (proj1 Hr); by apply P_lt|]. cbn [mbind res_bind].
        apply (IHm (Datatypes.S j) n (g3, g2.2)); [lia| |split; [cbn [fst]; rewrite Hl3|]; apply Hr]. intros j' l1 s1 Hj'. apply Hnz. lia. }
    destruct es1 as [|[l0 s0] es0] eqn:Ees; [done|]. rewrite <- Ees in *. clear Hne1.
    assert (He0 : es1 !! 0%nat = Some (l0, s0)) by (by rewrite Ees).
    destruct (nav_edge d ts Hfz k es1 0 l0 s0 Hk He0) as (H1 & H2 & _). rewrite Nat.add_0_r in H1, H2. rewrite H1. cbn [mbind res_bind].
    assert (Hpos : forall j l s, (1 <= j)%nat -> es1 !! j = Some (l, s) -> l <> 0).
    { intros j l s Hj He. destruct j as [|j]; [lia|]. rewrite Ees in He, Hw1. apply wfe_cons in Hw1 as (_ & _ & _ & _ & Hlt). rewrite Forall_forall in Hlt. cbn in He.
      specialize (Hlt (l, s) (elem_of_list_lookup_2 _ _ _ He)). cbn in Hlt. lia. }
    assert (Htz : forall g3, length g3 = length g.1 -> sized (g3, tbl)) by (intros g3 E; split; cbn [fst snd]; [rewrite E|rewrite Htl]; apply Hsz).
    destruct (N.eqb_spec l0 0) as [->|Hl0].
    - rewrite H2. cbn [mbind res_bind]. destruct es0 as [|[l1 s1] es0].
      + rewrite Ees. cbn [length Nat.ltb Nat.leb N.eqb mbind res_bind]. by apply Htz.
      + destruct (Nat.ltb_spec 1 (length es1)) as [Hlt|Hbad]; [|rewrite Ees in Hbad; cbn in Hbad; lia].
        assert (Hc1 : (N.of_nat (start ts k + 1) =? 0) = false) by (apply N.eqb_neq; lia). rewrite Hc1. cbn [mbind res_bind].
        assert (He1 : es1 !! 1%nat = Some (l1, s1)) by (by rewrite Ees). destruct (nav_edge d ts Hfz k es1 1 l1 s1 Hk He1) as (-> & _). cbn [mbind res_bind].
        destruct (upd_get g.1 i (fun u => (l1, u.2))) as (g3 & -> & Hl3 & _); [by rewrite (proj1 Hsz)|]. cbn [mbind res_bind].
        apply (Hloop (length es0) 1%nat _ (g3, tbl)); [by rewrite Ees|exact Hpos|by apply Htz].
    - cbn [mbind res_bind]. rewrite H1. cbn [mbind res_bind]. destruct (upd_get g.1 i (fun u => (l0, u.2))) as (g3 & -> & Hl3 & _); [by rewrite (proj1 Hsz)|]. cbn [mbind res_bind].
      pose proof (Hloop (length es0) 0%nat (Datatypes.S (length (d_base d))) (g3, tbl)) as Hl. rewrite Nat.add_0_r in Hl. apply Hl; [by rewrite Ees| |by apply Htz].
      intros [|j'] l s _ He; [rewrite He0 in He; by injection He as <- <-|by apply (Hpos (Datatypes.S j') l s); [lia|]].
  Qed.
  Lemma inside_build : R1 <> [] -> exists r, BuildGuide d us = Ok r.
  Proof using HD HI H8.
    intros HR1. pose proof (ends_build us d R1 x HD HR1) as Hh. destruct (dw_child d R1 x HD) as (c & Hc & [[E _]|(k & Hk & ->)]); [done|].
    revert Hh. unfold BuildGuide. cbv zeta. destruct (dawg_size d <=? 1); [by eexists|]. intros Hh.
    pose proof (inside_ok (S (length us)) (replicate (length us) (0, 0), replicate (length us / 8) 0) dawg_root 0 k R1 (wfe_or _ (dw_wf _ _ _ HD)) HR1 Hk Hc) as H.
    destruct (gb_buildIndices _ _ _ _ _ _) as [[b g']| |]; [by eexists| |done]. exfalso. apply H; [split; apply replicate_length|apply HI].
  Qed.

  (** ** The ranked builder *)
  (** if [Q], units of the set lead to ones of less height only *)
  Context (Q : Prop) (f : N -> nat) (Hf : Q -> falls us P f).
  Definition rsized (st : rst) : Prop := sized (r_units st, r_tbl st).
  Definition rbytes (g : guide) : Prop := Forall (fun u => u.1 < 256) g.
  Lemma upd_bytes (g g' : guide) i fn : rbytes g -> (forall u : N * N, u.1 < 256 -> (fn u).1 < 256) -> upd g i fn = Ok g' -> rbytes g'.
  Proof using. clear. intros Hg Hfn. by apply (upd_Forall (fun u : N * N => u.1 < 256)). Qed.
  Lemma in_findMax g : length g = length us -> rbytes g -> forall n i, P i -> match rb_findMax n us g i with Ok _ => True | Panic => False | Hang => ~ (Q /\ (f i < n)%nat) end.
  Proof using HI Hf.
    clear H8 Hs sort cmp. intros Hl Hb. induction n as [|n IH]; intros i Hi; [cbn [rb_findMax]; lia|]. cbn [rb_findMax]. pose proof (P_lt i Hi). destruct (lookup_lt_is_Some_2 g (N.to_nat i)) as [u Hu]; [lia|].
    unfold gd_Child, get. rewrite Hu. cbn [mbind res_bind]. assert (Hu1 : u.1 < 256) by (by apply (Forall_lookup_1 _ _ _ _ Hb Hu)). destruct (N.eqb_spec (u.1) 0) as [_|Hu0]; cbn [negb]; cycle 1.
    - destruct (in_follow i u.1 Hi Hu1 Hu0) as (ok & j & Hfo & Hj). rewrite Hfo. cbn [mbind res_bind]. destruct ok; cbn [negb]; [|done]. specialize (IH j (Hj eq_refl)).
      destruct (rb_findMax n us g j); [done|done|]. intros [HQ Hlt]. apply IH. split; [done|]. pose proof (proj2 (Hf HQ i Hi) _ _ Hu0 Hu1 Hfo). lia.
    - destruct (in_has i Hi) as [b ->]. cbn [mbind res_bind]. destruct b; cbn [negb]; [|done]. destruct (in_value i Hi) as [v ->]. done.
  Qed.
  Lemma in_turn i : P i -> forall ls g prev, length g = length us -> rbytes g -> prev < len -> Forall (fun l => l < 256) ls ->
    exists g', rb_turn us i g prev ls = Ok g' /\ length g' = length us /\ rbytes g'.
  Proof using HI.
    clear H8 Hs sort cmp Hf f Q. intros Hi. induction ls as [|l ls IH]; intros g prev Hl Hb Hp Hls; [by exists g|]. apply Forall_cons in Hls as [Hl0 Hls]. cbn [rb_turn].
    destruct (in_fwc i l Hi Hl0) as (j & -> & Hj). cbn [mbind res_bind]. destruct (upd_get g prev (fun u => (u.1, l))) as (g1 & Eg & Hl1 & _); [by rewrite Hl|]. rewrite Eg.
    cbn [mbind res_bind]. apply IH; [congruence| |done|done]. by apply (upd_bytes g g1 prev (fun u => (u.1, l)) Hb).
  Qed.
  Definition rcalm (n : nat) (i : N) (st : rst) (r : res (option Z * rst)) : Prop :=
    match r with Ok (o, st') => rsized st' /\ rbytes (r_units st') /\ (o <> None -> r_links st' = r_links st) | Panic => False | Hang => ~ (Q /\ (f i < n)%nat) end.
  Lemma rinside_ok fuel : forall st di i k es1, wfe es1 -> es1 <> [] -> ts !! k = Some es1 -> dawg_child d di = Ok (N.of_nat (start ts k)) -> rsized st -> rbytes (r_units st) -> P i ->
    rcalm fuel i st (rb_buildIndices sort cmp fuel d us st di i).
  Proof using HD HI H8 Hs Hf.
    pose proof (HF d R1 x HD) as Hfz. induction fuel as [|fuel IH]; intros st di i k es1 Hw1 Hne1 Hk Hdc Hsz Hby Hi; [cbn [rb_buildIndices rcalm]; lia|].
    cbn [rb_buildIndices]. pose proof (eight _ (proj2 Hsz)) as He8. pose proof (P_lt i Hi) as Hlt0. cbn [snd] in He8. rewrite isFixed_ok by lia. cbn [mbind res_bind]. destruct (fxb (r_tbl st) i) eqn:Ei.
    { pose proof (in_findMax (r_units st) (proj1 Hsz) Hby (Datatypes.S (length us)) i Hi) as H. destruct (rb_findMax _ _ _ _) as [o| |]; [done|done|]. intros [HQ _]. apply H. split; [done|]. pose proof (proj1 (Hf HQ i Hi)). lia. }
    destruct (setFixed_ok (r_tbl st) i ltac:(lia)) as (tbl & -> & Htl & _). cbn [mbind res_bind]. cbv zeta. rewrite Hdc. cbn [mbind res_bind].
    set (loop := rb_enum (rb_buildIndices sort cmp fuel d us) d us i).
    assert (Hloop : forall m j n st1 new, (length es1 = j + m)%nat -> (m <= n)%nat -> rsized st1 -> rbytes (r_units st1) -> r_links st1 = r_links st ++ new -> length new = j -> Forall (fun l : link => l.1 < 256) new ->
      match loop n st1 (if Nat.ltb j (length es1) then N.of_nat (start ts k + j) else 0) with
      | Ok (b, st') => rsized st' /\ rbytes (r_units st') /\ (b = true -> exists new', r_links st' = r_links st ++ new' /\ length new' = length es1 /\ Forall (fun l : link => l.1 < 256) new')
      | Panic => False | Hang => ~ (Q /\ (f i < Datatypes.S fuel)%nat) end).
    { induction m as [|m IHm]; intros j n st1 new Hlen Hmn Hs1 Hb1 Hl1 Hln Hnew.
      - destruct (Nat.ltb_spec j (length es1)); [lia|]. unfold loop. destruct n; cbn [rb_enum N.eqb]; (split; [done|]; split; [done|]; intros _; exists new; split; [done|]; split; [lia|done]).
      - destruct (Nat.ltb_spec j (length es1)) as [Hlt|]; [|lia]. assert (Hc0 : (N.of_nat (start ts k + j) =? 0) = false) by (apply N.eqb_neq; unfold start; lia).
        destruct n as [|n]; [lia|]; unfold loop; cbn [rb_enum]; rewrite Hc0. destruct (lookup_lt_is_Some_2 es1 j Hlt) as [[l s] He].
        assert (Hin : (l, s) ∈ es1) by (by eapply elem_of_list_lookup_2). destruct (nav_edge d ts Hfz k es1 j l s Hk He) as (N1 & N2 & N3). rewrite N1. cbn [mbind res_bind].
        destruct (wfe_in _ _ Hw1 Hin) as (_ & Hl256 & _). cbn [fst] in Hl256.
        assert (Hstep : rcalm (Datatypes.S fuel) i st1 (if l =? 0 then
              has ← dc_HasValue us i; if negb has then Ok (None, st1) else v ← dc_Value us i; Ok (Some v, st1)
            else '(ok, jj) ← dc_Follow us l i; if negb ok then Ok (None, st1) else rb_buildIndices sort cmp fuel d us st1 (N.of_nat (start ts k + j)) jj)).
        { destruct s as [v|e1].
          - destruct (wfe_leaf _ _ _ Hw1 Hin) as [-> _]. cbn [N.eqb]. destruct (in_has i Hi) as [b ->]. cbn [mbind res_bind]. destruct b; cbn [negb]; [|done].
            destruct (in_value i Hi) as [w ->]. done.
          - destruct (wfe_kid _ _ _ Hw1 Hin) as (Hwe & Hnee & Hl0 & _). rewrite (proj2 (N.eqb_neq _ _) Hl0). destruct (in_follow i l Hi Hl256 Hl0) as (ok & jj & Hfo & Hjj). rewrite Hfo.
            cbn [mbind res_bind]. destruct ok; cbn [negb]; [|done]. specialize (Hjj eq_refl). destruct N3 as (k1 & Hk1 & N3). pose proof (IH st1 _ jj k1 e1 Hwe Hnee Hk1 N3 Hs1 Hb1 Hjj) as Hr.
            destruct (rb_buildIndices _ _ _ _ _ _ _ _) as [[o st2]| |]; [done|done|]. intros [HQ Hlt2]. apply Hr. split; [done|]. pose proof (proj2 (Hf HQ i Hi) _ _ Hl0 Hl256 Hfo). lia. }
        destruct (if l =? 0 then _ else _) as [[o st2]| |]; [|done|done]. destruct Hstep as (S1 & S2 & S3). cbn [mbind res_bind]. destruct o as [v|]; [|done].
        rewrite N2. cbn [mbind res_bind]. apply (IHm (Datatypes.S j) n (mkRst (r_units st2) (r_links st2 ++ [(l, v)]) (r_tbl st2)) (new ++ [(l, v)])); [lia|lia|done|done| | |].
        + cbn [r_links]. by rewrite S3, Hl1, <- app_assoc.
        + rewrite app_length. cbn [length]. lia.
        + apply Forall_app. split; [done|]. by apply Forall_singleton. }
    specialize (Hloop (length es1) 0%nat (Datatypes.S (length (d_base d))) (mkRst (r_units st) (r_links st) tbl) [] eq_refl ltac:(pose proof (frozen_len d ts Hfz k es1 Hk); lia)).
    destruct (Nat.ltb_spec 0 (length es1)) as [_|Hbad]; [|destruct es1; [done|cbn in Hbad; lia]]. rewrite Nat.add_0_r in Hloop. clearbody loop.
    assert (Hrs : rsized (mkRst (r_units st) (r_links st) tbl)) by (split; cbn [fst snd r_units r_tbl]; [apply Hsz|rewrite Htl; apply Hsz]).
    specialize (Hloop Hrs Hby). cbn [r_links] in Hloop. specialize (Hloop ltac:(by rewrite app_nil_r) eq_refl ltac:(constructor)).
    destruct (loop _ _ _) as [[b st']| |]; [|done|done]. destruct Hloop as (S1 & S2 & S3). cbn [mbind res_bind]. destruct b; cbn [negb]; [|done].
    destruct (S3 eq_refl) as (new & En & Hln & Hnew). rewrite En, drop_app, take_app.
    assert (Hso : Forall (fun l : link => l.1 < 256) (sort (link_less cmp) new)) by (by rewrite Hs).
    assert (Hsl : length (sort (link_less cmp) new) = length es1) by (by rewrite Hs).
    destruct (sort (link_less cmp) new) as [|[l0 v0] rest]; [by destruct es1|]. apply Forall_cons in Hso as [Hl0 Hrest]. cbn [fst] in Hl0. cbn [rb_turnLinks fst].
    pose proof (proj1 S1) as Hlu. cbn [fst] in Hlu. destruct (upd_get (r_units st') i (fun u => (l0, u.2))) as (g1 & Eg & Hl1 & _); [by rewrite Hlu|]. rewrite Eg. cbn [mbind res_bind].
    destruct (in_fwc i l0 Hi Hl0) as (j & -> & Hj). cbn [mbind res_bind].
    destruct (in_turn i Hi rest.*1 g1 j) as (g' & -> & Hl' & Hb'); [rewrite Hl1; apply S1|by apply (upd_bytes _ _ _ _ S2) in Eg|done|by apply Forall_fmap|].
    cbn [mbind res_bind]. split; [split; [done|apply S1]|]. done.
  Qed.
  Lemma rinside_build : R1 <> [] -> match BuildRankedGuideCmp sort cmp d us with Ok _ => True | Panic => False | Hang => ~ Q end.
  Proof using HD HI H8 Hs Hf.
    intros HR1. destruct (dw_child d R1 x HD) as (c & Hc & [[E _]|(k & Hk & ->)]); [done|]. unfold BuildRankedGuideCmp. cbv zeta. destruct (dawg_size d <=? 1); [done|].
    pose proof (rinside_ok (S (length us)) (mkRst (replicate (length us) (0, 0)) [] (replicate (length us / 8) 0)) dawg_root 0 k R1 (wfe_or _ (dw_wf _ _ _ HD)) HR1 Hk Hc) as H.
    assert (Hb : rbytes (replicate (length us) (0, 0))) by (apply Forall_replicate; cbn; lia). specialize (H (conj (replicate_length _ _) (replicate_length _ _)) Hb (proj1 HI)).
    destruct (rb_buildIndices _ _ _ _ _ _ _ _) as [[b g']| |]; [done|done|]. intros HQ. apply H. split; [done|]. pose proof (proj1 (Hf HQ 0 (proj1 HI))). lia.
  Qed.
End inside.
