(** BuildGuide (guide_builder.go:21-84) ends on any dictionary units: every nested call
    that goes on has marked another index. *)
From Verif Require Import Go Dawg DawgRep Tree TreeFacts DawgFrozen DawgFix DawgMain DawgAbs DawgNav DictDfs DictBuild Dict Guide GuideProofs BothGuides.
Local Open Scope N_scope.
Local Arguments N.mul : simpl never.
Local Arguments N.add : simpl never.
Local Arguments N.of_nat : simpl never.
Local Arguments N.lxor : simpl never.

Lemma fxb_lt tbl i : fxb tbl i = true -> i < 8 * N.of_nat (length tbl).
Proof.
  unfold fxb. destruct (tbl !! N.to_nat (i / 8)) eqn:El; [|done]. intros _. apply lookup_lt_Some in El. pose proof (N.div_mod i 8 ltac:(lia)). pose proof (N.mod_lt i 8 ltac:(lia)). lia.
Qed.
(** Distinct marked indices are at most as many as the table has bits. *)
Lemma marked_few tbl (S : list N) : NoDup S -> (forall s, s ∈ S -> fxb tbl s = true) -> (length S <= 8 * length tbl)%nat.
Proof.
  intros Hnd HS. assert (Hsub : N.to_nat <$> S ⊆ seq 0 (8 * length tbl)).
  { intros n Hn. apply elem_of_list_fmap in Hn as (s & -> & Hs). specialize (HS s Hs). apply fxb_lt in HS. apply elem_of_seq. lia. }
  assert (Hnd' : NoDup (N.to_nat <$> S)) by (apply NoDup_fmap_2; [intros a b ?; by apply N2Nat.inj|done]).
  pose proof (submseteq_length _ _ (NoDup_submseteq _ _ Hnd' Hsub)) as H. by rewrite fmap_length, seq_length in H.
Qed.
Lemma get_nohang {A} (l : list A) i : get l i <> Hang.
Proof. unfold get. by destruct (l !! N.to_nat i). Qed.
Lemma upd_nohang {A} (l : list A) i f : upd l i f <> Hang.
Proof. unfold upd, get, set. destruct (l !! N.to_nat i); cbn [mbind res_bind]; done. Qed.
Lemma isFixed_nohang tbl i : gb_isFixed tbl i <> Hang.
Proof. unfold gb_isFixed, get. destruct (tbl !! N.to_nat (i / 8)); cbn [mbind res_bind]; done. Qed.
Lemma Follow_nohang us l i : dc_Follow us l i <> Hang.
Proof.
  unfold dc_Follow, get. repeat (match goal with |- context [us !! ?n] => destruct (us !! n) end; cbn [mbind res_bind]; try done).
  all: repeat case_match; done.
Qed.

Section ends.
  Context (us : dict) (d : dawg) (R1 : edges) (x : fixedst) (HD : dawgw d R1 x).
  Local Notation ts := (x_ts x).
  (** no Hang, and marks are kept *)
  Definition fine (tbl : list N) (r : res (bool * (guide * list N))) : Prop :=
    match r with Ok (_, g') => length g'.2 = length tbl /\ forall j, fxb tbl j = true -> fxb g'.2 j = true | Panic => True | Hang => False end.
  Lemma fine_from tbl tbl' r : length tbl' = length tbl -> (forall j, fxb tbl j = true -> fxb tbl' j = true) -> fine tbl' r -> fine tbl r.
  Proof. intros Hl Hm. destruct r as [[b g']| |]; cbn; [|done|done]. intros [H1 H2]. split; [congruence|]. auto. Qed.
  Lemma ends_ok fuel : forall S g di i k es1, wfe es1 -> es1 <> [] -> ts !! k = Some es1 -> dawg_child d di = Ok (N.of_nat (start ts k)) ->
    NoDup S -> (forall s, s ∈ S -> fxb g.2 s = true) -> (8 * length g.2 < fuel + length S)%nat -> fine g.2 (gb_buildIndices fuel d us g di i).
  Proof using HD.
    pose proof (HF d R1 x HD) as Hfz. induction fuel as [|fuel IH]; intros S g di i k es1 Hw1 Hne1 Hk Hdc Hnd HS Hfu.
    { pose proof (marked_few g.2 S Hnd HS). lia. }
    cbn [gb_buildIndices]. destruct (gb_isFixed g.2 i) as [fx| |] eqn:Efx; [|done|by apply isFixed_nohang in Efx]. pose proof (isFixed_lt _ _ _ Efx) as Hi8.
    rewrite isFixed_ok in Efx by done. injection Efx as <-. cbn [mbind res_bind]. destruct (fxb g.2 i) eqn:Ei; [done|].
    destruct (setFixed_ok g.2 i Hi8) as (tbl & -> & Htl & Htb). cbn [mbind res_bind]. rewrite Hdc. cbn [mbind res_bind].
    assert (Hm : forall j, fxb g.2 j = true -> fxb tbl j = true) by (intros j Hj; rewrite Htb, Hj; apply orb_true_r).
    assert (Hnd' : NoDup (i :: S)) by (constructor; [intros H; by rewrite (HS i H) in Ei|done]).
    assert (HS' : forall s, s ∈ i :: S -> fxb tbl s = true).
    { intros s Hs. apply elem_of_cons in Hs as [->|Hs]; [by rewrite Htb, N.eqb_refl|by apply Hm, HS]. }
    assert (Hloop : forall m j n g1, (length es1 = j + Datatypes.S m)%nat -> (m < n)%nat -> (forall j' l s, (j <= j')%nat -> es1 !! j' = Some (l, s) -> l <> 0) ->
      length g1.2 = length tbl -> (forall s, s ∈ i :: S -> fxb g1.2 s = true) -> fine g1.2 (gb_loop (gb_buildIndices fuel d us) d us i n g1 (N.of_nat (start ts k + j)))).
    { induction m as [|m IHm]; intros j n g1 Hlen Hn' Hnz Hl1 HS1.
      all: destruct (lookup_lt_is_Some_2 es1 j) as [[l s] He]; [lia|]; assert (Hin : (l, s) ∈ es1) by (by eapply elem_of_list_lookup_2).
      all: destruct (nav_edge d ts Hfz k es1 j l s Hk He) as (N1 & N2 & N3); pose proof (Hnz j l s ltac:(lia) He) as Hl0.
      all: destruct n as [|n]; [lia|]; cbn [gb_loop]; rewrite N1; cbn [mbind res_bind].
      all: destruct (dc_Follow us l i) as [[ok jj]| |] eqn:Efo; [|done|by apply Follow_nohang in Efo]; cbn [mbind res_bind]; destruct ok; cbn [negb]; [|done].
      all: destruct s as [w|e1]; [by destruct (wfe_leaf _ _ _ Hw1 Hin)|]; destruct N3 as (k1 & Hk1 & N3).
      all: destruct (wfe_kid _ _ _ Hw1 Hin) as (Hwe & Hnee & _).
      all: pose proof (IH (i :: S) g1 (N.of_nat (start ts k + j)) jj k1 e1 Hwe Hnee Hk1 N3 Hnd' HS1 ltac:(cbn [length]; lia)) as Hr.
      all: destruct (gb_buildIndices fuel d us g1 _ jj) as [[b2 g2]| |]; [|done|done]; destruct Hr as [Hl2 Hm2]; cbn [mbind res_bind]; destruct b2; cbn [negb]; [|done].
      all: rewrite N2; cbn [mbind res_bind].
      - destruct (Nat.ltb_spec (Datatypes.S j) (length es1)) as [Hbad|_]; [lia|].
        assert (Hl00 : dawg_lbl d 0 = Ok 255).
        { destruct HD as [(root & Hrep & _) _]. unfold dawg_lbl. by rewrite (get_N _ 0 _ (dr_rootl _ _ _ Hrep)). }
        rewrite Hl00. cbn [mbind res_bind N.eqb negb]. done.
      - destruct (Nat.ltb_spec (Datatypes.S j) (length es1)) as [Hlt|Hbad]; [|lia].
        assert (Hc1 : (N.of_nat (start ts k + Datatypes.S j) =? 0) = false) by (apply N.eqb_neq; unfold start; lia). rewrite Hc1.
        destruct (lookup_lt_is_Some_2 es1 (Datatypes.S j) Hlt) as [[l' s'] He']. destruct (nav_edge d ts Hfz k es1 _ l' s' Hk He') as (-> & _). cbn [mbind res_bind negb].
        destruct (upd g2.1 jj _) as [g3| |] eqn:Eu; [|done|by apply upd_nohang in Eu]. cbn [mbind res_bind].
        apply (fine_from _ g2.2 _); [done|done|]. apply (IHm (Datatypes.S j) n (g3, g2.2)); [lia|lia| |cbn [snd]; congruence|].
        + intros j' l1 s1 Hj'. apply Hnz. lia.
        + intros s2 Hs2. cbn [snd]. by apply Hm2, HS1. }
    apply (fine_from _ tbl _ Htl Hm).
    destruct es1 as [|[l0 s0] es0] eqn:Ees; [done|]. rewrite <- Ees in *. clear Hne1. pose proof (frozen_len d ts Hfz k es1 Hk) as Hlb.
    assert (He0 : es1 !! 0%nat = Some (l0, s0)) by (by rewrite Ees).
    destruct (nav_edge d ts Hfz k es1 0 l0 s0 Hk He0) as (H1 & H2 & _). rewrite Nat.add_0_r in H1, H2. rewrite H1. cbn [mbind res_bind].
    assert (Hpos : forall j l s, (1 <= j)%nat -> es1 !! j = Some (l, s) -> l <> 0).
    { intros j l s Hj He. destruct j as [|j]; [lia|]. rewrite Ees in He, Hw1. apply wfe_cons in Hw1 as (_ & _ & _ & _ & Hlt). rewrite Forall_forall in Hlt. cbn in He.
      specialize (Hlt (l, s) (elem_of_list_lookup_2 _ _ _ He)). cbn in Hlt. lia. }
    destruct (N.eqb_spec l0 0) as [->|Hl0].
    - rewrite H2. cbn [mbind res_bind]. destruct es0 as [|[l1 s1] es0].
      + rewrite Ees. cbn [length Nat.ltb Nat.leb N.eqb mbind res_bind]. done.
      + destruct (Nat.ltb_spec 1 (length es1)) as [Hlt|Hbad]; [|rewrite Ees in Hbad; cbn in Hbad; lia].
        assert (Hc1 : (N.of_nat (start ts k + 1) =? 0) = false) by (apply N.eqb_neq; lia). rewrite Hc1. cbn [mbind res_bind].
        assert (He1 : es1 !! 1%nat = Some (l1, s1)) by (by rewrite Ees). destruct (nav_edge d ts Hfz k es1 1 l1 s1 Hk He1) as (-> & _). cbn [mbind res_bind].
        destruct (upd g.1 i _) as [g3| |] eqn:Eu; [|done|by apply upd_nohang in Eu]. cbn [mbind res_bind].
        apply (Hloop (length es0) 1%nat _ (g3, tbl)); [by rewrite Ees|rewrite Ees in Hlb; cbn [length] in Hlb; lia|exact Hpos|done|exact HS'].
    - cbn [mbind res_bind]. rewrite H1. cbn [mbind res_bind]. destruct (upd g.1 i _) as [g3| |] eqn:Eu; [|done|by apply upd_nohang in Eu]. cbn [mbind res_bind].
      pose proof (Hloop (length es0) 0%nat (Datatypes.S (length (d_base d))) (g3, tbl)) as Hl. rewrite Nat.add_0_r in Hl. apply Hl; [by rewrite Ees|rewrite Ees in Hlb; cbn [length] in Hlb; lia| |done|exact HS'].
      intros [|j'] l s _ He; [rewrite He0 in He; by injection He as <- <-|by apply (Hpos (Datatypes.S j') l s); [lia|]].
  Qed.
  Lemma ends_build : R1 <> [] -> BuildGuide d us <> Hang.
  Proof using HD.
    intros HR1. destruct (dw_child d R1 x HD) as (c & Hc & [[E _]|(k & Hk & ->)]); [done|]. unfold BuildGuide. cbv zeta. destruct (dawg_size d <=? 1); [done|].
    pose proof (ends_ok (S (length us)) [] (replicate (length us) (0, 0), replicate (length us / 8) 0) dawg_root 0 k R1 (wfe_or _ (dw_wf _ _ _ HD)) HR1 Hk Hc) as H.
    destruct (gb_buildIndices _ _ _ _ _ _) as [[b g']| |]; [done|done|]. exfalso. apply H; [constructor|by intros s Hs%elem_of_nil|].
    cbn [snd length]. rewrite replicate_length. pose proof (Nat.mul_div_le (length us) 8 ltac:(lia)). lia.
  Qed.
End ends.
