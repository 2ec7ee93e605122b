(** The guide built for a dictionary lists the children of every node. *)
From Verif Require Import Go Dawg DawgRep Tree TreeFacts DawgFrozen DawgFix DawgMain DawgAbs DawgNav Dict DictUnit DictInv DictBuild DictDfs DictRead DictRep Guide.
Local Open Scope N_scope.
Local Ltac Zify.zify_post_hook ::= Z.div_mod_to_equations.
Local Arguments N.mul : simpl never.
Local Arguments N.add : simpl never.
Local Arguments N.of_nat : simpl never.
Local Arguments N.lxor : simpl never.

(** ** The table of fixed indices *)
Definition fxb (tbl : list N) (i : N) : bool := match tbl !! N.to_nat (i / 8) with Some b => N.testbit b (i mod 8) | None => false end.
Lemma bit8 i k : k < 8 -> N.testbit (u8 (N.shiftl 1 (i mod 8))) k = (k =? i mod 8).
Proof.
  intros Hk. rewrite u8_bits, (proj2 (N.ltb_lt _ _) Hk). cbn [andb]. rewrite N.shiftl_1_l. apply pow2_bits.
Qed.
Lemma bit8_pow i : u8 (N.shiftl 1 (i mod 8)) = 2 ^ (i mod 8).
Proof.
  apply N.bits_inj. intros k. rewrite u8_bits, N.shiftl_1_l, !pow2_bits. destruct (N.ltb_spec k 8); [done|]. cbn [andb].
  symmetry. apply N.eqb_neq. lia.
Qed.
Lemma isFixed_ok tbl i : i < 8 * N.of_nat (length tbl) -> gb_isFixed tbl i = Ok (fxb tbl i).
Proof.
  intros Hi. unfold gb_isFixed, fxb, get. destruct (lookup_lt_is_Some_2 tbl (N.to_nat (i / 8))) as [b Hb]; [lia|]. rewrite Hb. cbn [mbind res_bind].
  f_equal. rewrite bit8_pow. apply test_pow2.
Qed.
Lemma setFixed_ok tbl i : i < 8 * N.of_nat (length tbl) -> exists tbl', gb_setIsFixed tbl i = Ok tbl' /\ length tbl' = length tbl /\
  forall j, fxb tbl' j = (j =? i) || fxb tbl j.
Proof.
  intros Hi. unfold gb_setIsFixed. destruct (lookup_lt_is_Some_2 tbl (N.to_nat (i / 8))) as [b Hb]; [lia|].
  rewrite (upd_N _ _ _ b Hb). eexists. split; [done|]. split; [apply insert_length|]. intros j. unfold fxb.
  destruct (decide (N.to_nat (j / 8) = N.to_nat (i / 8))) as [E|E].
  - rewrite E, list_lookup_insert by (by eapply lookup_lt_Some). rewrite Hb, N.lor_spec. rewrite bit8 by lia. rewrite orb_comm. f_equal.
    destruct (N.eqb_spec j i) as [->|Hne]; [apply N.eqb_refl|]. apply N.eqb_neq. lia.
  - rewrite list_lookup_insert_ne by done. destruct (N.eqb_spec j i) as [->|]; done.
Qed.

(** ** Labels *)
Lemma nxt_at ls j l : NoDup ls -> ls !! j = Some l -> nxt l ls = match ls !! S j with Some l' => l' | None => 0 end.
Proof.
  revert j. induction ls as [|a ls IH]; intros j Hnd Hj; [done|]. apply NoDup_cons in Hnd as [Hn Hnd]. cbn [nxt].
  destruct j as [|j]; cbn in Hj.
  - injection Hj as ->. rewrite N.eqb_refl. by destruct ls.
  - destruct (N.eqb_spec a l) as [->|_]; [|by apply IH]. exfalso. apply Hn. by eapply elem_of_list_lookup_2.
Qed.
(** Only the first edge may have label 0. *)
Lemma wfe_shape es : wfe es -> (exists v es', es = (0, Leaf v) :: es' /\ nzl es = es'.*1 /\ wfe es') \/ (nzl es = es.*1 /\ has0 es = false).
Proof.
  intros Hw. assert (Hnz : forall es, wfe es -> Forall (fun e : N * sub => 0 < e.1) es -> nzl es = es.*1).
  { clear. intros es _. induction 1 as [|e es He _ IH]; [done|]. cbn. rewrite decide_True by lia. by f_equal. }
  destruct es as [|[l s] es]; [by right|]. pose proof (wfe_cons _ _ Hw) as (Hw' & _ & _ & Hl & Hlt). cbn [fst snd] in *.
  destruct (decide (l = 0)) as [->|Hne].
  - left. destruct (wfe_zero _ s Hw) as [v ->]; [constructor|]. exists v, es. split; [done|]. split; [|done]. cbn. by apply Hnz.
  - right. split; [|by destruct l]. apply Hnz; [done|]. constructor; cbn; [lia|]. eapply Forall_impl; [exact Hlt|]. intros e He. cbn in He. lia.
Qed.
Lemma nzl_nodup es : wfe es -> NoDup (nzl es).
Proof. intros Hw. apply NoDup_filter. by apply wfe_labels. Qed.
Lemma nzl_in es l : wfe es -> l ∈ nzl es <-> exists es', (l, Node es') ∈ es.
Proof.
  intros Hw. rewrite elem_of_list_filter. split.
  - intros [Hl H]. apply in_fst in H as [[v|es'] H]; [|by exists es']. by destruct (wfe_leaf _ _ _ Hw H).
  - intros [es' H]. split; [|by eapply fst_in]. by destruct (wfe_kid _ _ _ Hw H) as (_ & _ & ? & _).
Qed.
(** The edge after a position. *)
Lemma nxt_edge es j l es1 : wfe es -> es !! j = Some (l, Node es1) -> nxt l (nzl es) = match es !! S j with Some (l', _) => l' | None => 0 end.
Proof.
  intros Hw Hj. pose proof (nzl_nodup es Hw) as Hnd. destruct (wfe_shape es Hw) as [(v & es' & -> & Hz & _)|[Hz _]]; rewrite Hz in *.
  - destruct j as [|j]; [done|]. change (es' !! j = Some (l, Node es1)) in Hj. change (((0, Leaf v) :: es') !! S (S j)) with (es' !! S j).
    rewrite (nxt_at _ j) by (done || by rewrite list_lookup_fmap, Hj). rewrite list_lookup_fmap.
    by destruct (es' !! S j) as [[]|].
  - rewrite (nxt_at _ j) by (done || by rewrite list_lookup_fmap, Hj). rewrite list_lookup_fmap. by destruct (es !! S j) as [[]|].
Qed.

(** ** What a guide should be *)
Notation gc g i := (default 0 (fst <$> (g : guide) !! N.to_nat i)).
Notation gs g i := (default 0 (snd <$> (g : guide) !! N.to_nat i)).
Record grep (us : dict) (node : N -> edges -> Prop) (g : guide) : Prop := mkGR {
  gr_len : length g = length us;
  gr_child : forall i es, node i es -> gd_Child g i = Ok (hd 0 (nzl es));
  gr_sib : forall i es l es' j, node i es -> (l, Node es') ∈ es -> dc_Follow us l i = Ok (true, j) -> gd_Sibling g j = Ok (nxt l (nzl es));
  gr_root : gd_Sibling g 0 = Ok 0;
  gr_off : forall i, i < N.of_nat (length us) -> (forall es, ~ node i es) -> g !! N.to_nat i = Some (0, 0) }.

Section rep.
  Context (us : dict) (R : edges) (node : N -> edges -> Prop) (HN : drep us R node).
  (** The height of a node is bounded by the number of units. *)
  Lemma hgt_units i es : node i es -> (hgt (Node es) <= S (length us))%nat.
  Proof using HN.
    assert (Hall : forall n i es, node i es -> (hgt (Node es) = S n)%nat -> exists l, NoDup l /\ length l = n /\
      (forall j, j ∈ l -> exists e, node j e /\ (hgt (Node e) <= S n)%nat)).
    { induction n as [|n IH]; intros i' es' Ht Hh; [exists []; split; [apply NoDup_nil_2|]; split; [done|]; intros e He; by apply elem_of_nil in He|].
      destruct (hgt_top es' (rp_wf _ _ _ HN _ _ Ht)) as (l & s & Hin & Hs). rewrite Hh in Hs. injection Hs as Hs. destruct s as [v|es1].
      - cbn in Hs. injection Hs as ->. exists [i']. split; [apply NoDup_singleton|]. split; [done|].
        intros e He. apply elem_of_list_singleton in He as ->. exists es'. split; [done|lia].
      - destruct (rp_kid _ _ _ HN _ _ _ _ Ht Hin) as (j & _ & Hj & _). destruct (IH j es1 Hj) as (L & H1 & H2 & H3); [done|].
        exists (i' :: L). split; [apply NoDup_cons; split; [|done]|split; [cbn; lia|]].
        + intros Hc. apply H3 in Hc as (e & He & Hle). rewrite (rp_fun _ _ _ HN _ _ _ He Ht) in Hle. lia.
        + intros e He. apply elem_of_cons in He as [->|He]; [exists es'; split; [done|lia]|]. apply H3 in He as (e' & ? & ?). exists e'. split; [done|lia]. }
    intros Hi. pose proof (hgt_pos (Node es)). destruct (Hall (hgt (Node es) - 1)%nat i es Hi) as (L & H1 & H2 & H3); [lia|].
    assert (length L <= length us)%nat; [|lia]. rewrite <- (fmap_length N.to_nat L), <- (seq_length (length us) 0).
    apply submseteq_length, NoDup_submseteq; [apply NoDup_fmap_2; [intros ? ? ?; lia|done]|].
    intros n Hn. apply elem_of_list_fmap_2 in Hn as (j & -> & Hj). apply H3 in Hj as (e & He & _). apply elem_of_seq.
    pose proof (rp_lt _ _ _ HN _ _ He). lia.
  Qed.
End rep.

Section guide.
  Context (us : dict) (R : edges) (node : N -> edges -> Prop) (HN : drep us R node).
  Context (d : dawg) (x : fixedst) (HD : dawgw d R x) (HR : R <> []).
  Local Notation ts := (x_ts x).
  Local Notation fol l i j := (dc_Follow us l i = Ok (true, j)).

  Record gi (g : guide * list N) (S : list N) : Prop := mkGI {
    gi_len : length g.1 = length us;
    gi_tbl : length g.2 = (length us / 8)%nat;
    gi_done : forall i es, node i es -> fxb g.2 i = true -> i ∉ S -> gc g.1 i = hd 0 (nzl es) /\
      forall l es' j, (l, Node es') ∈ es -> fol l i j -> fxb g.2 j = true /\ gs g.1 j = nxt l (nzl es);
    gi_sib : forall i es l es' j, node i es -> (l, Node es') ∈ es -> fol l i j -> gs g.1 j = 0 \/ gs g.1 j = nxt l (nzl es);
    gi_root : gs g.1 0 = 0;
    gi_new : forall i, fxb g.2 i = false -> gc g.1 i = 0;
    gi_on : forall i, fxb g.2 i = true -> exists es, node i es;
    gi_off : forall i, gs g.1 i <> 0 -> exists es, node i es }.
  Definition gext (g g' : guide * list N) : Prop :=
    (forall i, fxb g.2 i = true -> fxb g'.2 i = true /\ gc g'.1 i = gc g.1 i) /\
    (forall i, gs g.1 i <> 0 -> gs g'.1 i = gs g.1 i).
  Lemma gext_refl g : gext g g. Proof. split; done. Qed.
  Lemma gext_trans g1 g2 g3 : gext g1 g2 -> gext g2 g3 -> gext g1 g3.
  Proof.
    intros [A1 A2] [B1 B2]. split.
    - intros i H. destruct (A1 i H) as [H1 H2]. destruct (B1 i H1) as [H3 H4]. split; [done|congruence].
    - intros i H. rewrite B2; [by apply A2|]. by rewrite A2.
  Qed.
  Lemma gext_sib g g' S i es l es' j : gi g' S -> gext g g' -> node i es -> (l, Node es') ∈ es -> fol l i j ->
    gs g.1 j = nxt l (nzl es) -> gs g'.1 j = nxt l (nzl es).
  Proof.
    intros HG [_ HE] Hn Hl Hf H. destruct (N.eq_dec (nxt l (nzl es)) 0) as [E|E].
    - destruct (gi_sib _ _ HG _ _ _ _ _ Hn Hl Hf) as [->| ->]; congruence.
    - rewrite HE; congruence.
  Qed.
  Lemma upd_get (g : guide) i f : i < N.of_nat (length g) -> exists g', upd g i f = Ok g' /\ length g' = length g /\
    forall j, g' !! N.to_nat j = if j =? i then f <$> g !! N.to_nat j else g !! N.to_nat j.
  Proof.
    intros Hi. destruct (lookup_lt_is_Some_2 g (N.to_nat i)) as [u Hu]; [lia|]. rewrite (upd_N _ _ _ u Hu). eexists. split; [done|].
    split; [apply insert_length|]. intros j. destruct (N.eqb_spec j i) as [->|Hne].
    - rewrite list_lookup_insert by (by eapply lookup_lt_Some). by rewrite Hu.
    - rewrite list_lookup_insert_ne by lia. done.
  Qed.

  Lemma call_ok fuel : forall S g i es di k, (hgt (Node es) <= fuel)%nat -> node i es -> ts !! k = Some es ->
    dawg_child d di = Ok (N.of_nat (start ts k)) -> gi g S ->
    (forall s es', s ∈ S -> node s es' -> (hgt (Node es) < hgt (Node es'))%nat) ->
    exists g', gb_buildIndices fuel d us g di i = Ok (true, g') /\ gi g' S /\ gext g g' /\ fxb g'.2 i = true.
  Proof using HN HD.
    pose proof (HF d R x HD) as Hfz.
    induction fuel as [|fuel IH]; intros S g i es di k Hh Hn Hk Hdc HG HS; [pose proof (hgt_pos (Node es)); lia|].
    cbn [gb_buildIndices]. pose proof (rp_lt _ _ _ HN _ _ Hn) as Hi. destruct (rp_blk _ _ _ HN) as [nb Hnb].
    assert (Ht8 : 8 * N.of_nat (length g.2) = N.of_nat (length us)).
    { rewrite (gi_tbl _ _ HG), Hnb. assert (256 * nb / 8 = 32 * nb)%nat as -> by (replace (256 * nb)%nat with (32 * nb * 8)%nat by lia; by apply Nat.div_mul). lia. }
    rewrite isFixed_ok by lia. cbn [mbind res_bind]. destruct (fxb g.2 i) eqn:Efx.
    { exists g. split; [done|]. split; [done|]. split; [apply gext_refl|done]. }
    destruct (setFixed_ok g.2 i) as (tbl & -> & Htl & Htb); [lia|]. cbn [mbind res_bind]. rewrite Hdc. cbn [mbind res_bind].
    pose proof (rp_wf _ _ _ HN _ _ Hn) as Hwf. pose proof (proj1 (wf_wfe es) Hwf) as [Hne Hw].
    (* state after marking *)
    assert (HG1 : gi (g.1, tbl) (i :: S)).
    { destruct HG as [A1 A2 A3 A4 A5 A6 A7 A8]. constructor; cbn [fst snd].
      - done.
      - by rewrite Htl.
      - intros i' es' Hn' Hf' Hni. rewrite Htb in Hf'. apply not_elem_of_cons in Hni as [Hne' Hni]. rewrite (proj2 (N.eqb_neq _ _) Hne') in Hf'. cbn [orb] in Hf'.
        destruct (A3 _ _ Hn' Hf' Hni) as [B1 B2]. split; [done|]. intros l es1 j Hl Hfo. destruct (B2 _ _ _ Hl Hfo) as [C1 C2]. split; [|done].
        rewrite Htb, C1. apply orb_true_r.
      - done.
      - done.
      - intros i' Hf'. rewrite Htb in Hf'. apply orb_false_iff in Hf' as [_ Hf']. by apply A6.
      - intros i' Hf'. rewrite Htb in Hf'. apply orb_true_iff in Hf' as [->%N.eqb_eq|Hf']; [by exists es|by apply A7].
      - done. }
    assert (HE1 : gext g (g.1, tbl)) by (split; [intros i' H; cbn [snd fst]; rewrite Htb, H; split; [apply orb_true_r|done]|done]).
    assert (Hfi : fxb tbl i = true) by (rewrite Htb, N.eqb_refl; done).
    (* the first edge *)
    destruct es as [|[l0 s0] es0] eqn:Ees; [done|]. rewrite <- Ees in *.
    assert (He0 : es !! 0%nat = Some (l0, s0)) by (by rewrite Ees).
    destruct (nav_edge d ts Hfz k es 0 l0 s0 Hk He0) as (H1 & H2 & _). rewrite Nat.add_0_r in H1, H2. rewrite H1. cbn [mbind res_bind].
    (* the loop over the children from position j *)
    set (loop := gb_loop (gb_buildIndices fuel d us) d us i).
    assert (Hloop : forall m j n g, (length es = j + Datatypes.S m)%nat -> (m < n)%nat -> (forall l s, es !! j = Some (l, s) -> l <> 0) -> gi g (i :: S) ->
      fxb g.2 i = true -> gc g.1 i = hd 0 (nzl es) ->
      (forall j' l es' ch, (j' < j)%nat -> es !! j' = Some (l, Node es') -> fol l i ch -> fxb g.2 ch = true /\ gs g.1 ch = nxt l (nzl es)) ->
      exists g', loop n g (N.of_nat (start ts k + j)) = Ok (true, g') /\ gi g' S /\ gext g g').
    { induction m as [|m IHm]; intros j n g1 Hlen Hmn Hnz HGj Hfxi Hgc Hprev; (destruct n as [|n]; [lia|]);
        destruct (lookup_lt_is_Some_2 es j) as [[l s] He]; try lia; pose proof (Hnz _ _ He) as Hl0; specialize (Hnz _ _ He);
        assert (Hin : (l, s) ∈ es) by (by eapply elem_of_list_lookup_2);
        destruct s as [v|es1]; [by destruct (wfe_leaf _ _ _ Hw Hin)| |by destruct (wfe_leaf _ _ _ Hw Hin)|];
        destruct (nav_edge d ts Hfz k es j l _ Hk He) as (N1 & N2 & k1 & Hk1 & N3); unfold loop; cbn [gb_loop]; rewrite N1; cbn [mbind res_bind];
        destruct (rp_kid _ _ _ HN _ _ _ _ Hn Hin) as (ch & Hfo & Hch & Hch0); rewrite Hfo; cbn [mbind res_bind negb];
        pose proof (hgt_in _ _ _ Hin) as Hhl;
        (destruct (IH (i :: S) g1 ch es1 (N.of_nat (start ts k + j)) k1) as (g2 & -> & HG2 & HE2 & Hf2);
          [lia|done|done|done|done| |]);
        [intros s' es' Hs' Hns'; apply elem_of_cons in Hs' as [->|Hs']; [rewrite (rp_fun _ _ _ HN _ _ _ Hns' Hn); done|specialize (HS _ _ Hs' Hns'); lia]|
        |intros s' es' Hs' Hns'; apply elem_of_cons in Hs' as [->|Hs']; [rewrite (rp_fun _ _ _ HN _ _ _ Hns' Hn); done|specialize (HS _ _ Hs' Hns'); lia]|];
        cbn [mbind res_bind negb]; rewrite N2; cbn [mbind res_bind].
      - (* last *)
        destruct (Nat.ltb_spec (Datatypes.S j) (length es)); [lia|].
        assert (Hl00 : dawg_lbl d 0 = Ok 255).
        { destruct HD as [(root & Hrep & _) _]. unfold dawg_lbl. by rewrite (get_N _ 0 _ (dr_rootl _ _ _ Hrep)). }
        rewrite Hl00. cbn [mbind res_bind N.eqb negb]. eexists. split; [done|]. assert (E : (g2.1, g2.2) = g2) by (by destruct g2). rewrite E.
        split; [|done]. destruct HE2 as [HE2a HE2b]. pose proof HG2 as [A1 A2 A3 A4 A5 A6 A7 A8]. constructor; try done.
        intros i' es' Hn' Hf' Hni. destruct (decide (i' = i)) as [->|Hii]; [|apply A3; [done|done|]; by apply not_elem_of_cons].
        rewrite (rp_fun _ _ _ HN _ _ _ Hn' Hn). split; [destruct (HE2a i Hfxi) as [_ ->]; done|].
        intros l' es'' ch' Hl' Hfo'. apply elem_of_list_lookup in Hl' as [j' Hj']. destruct (decide (j' = j)) as [->|Hjj].
        + rewrite He in Hj'. injection Hj' as <- <-. rewrite Hfo in Hfo'. injection Hfo' as <-. split; [done|].
          destruct (A4 _ _ _ _ _ Hn Hin Hfo) as [->| ->]; [|done]. rewrite (nxt_edge es j l es1 Hw He). rewrite lookup_ge_None_2 by lia. done.
        + assert (j' < j)%nat as Hlt by (apply lookup_lt_Some in Hj'; lia). destruct (Hprev _ _ _ _ Hlt Hj' Hfo') as [B1 B2].
          split; [by apply HE2a|]. eapply (gext_sib g1 g2); [done|done|exact Hn|by eapply elem_of_list_lookup_2|done|done].
      - destruct (Nat.ltb_spec (Datatypes.S j) (length es)) as [Hlt|]; [|lia]. destruct (lookup_lt_is_Some_2 es _ Hlt) as [[l' s'] He'].
        destruct (nav_edge d ts Hfz k es _ l' _ Hk He') as (N1' & _). rewrite N1'. cbn [mbind res_bind].
        destruct (N.eqb_spec (N.of_nat (start ts k + Datatypes.S j)) 0); [lia|]. cbn [negb].
        pose proof (rp_lt _ _ _ HN _ _ Hch) as Hchl.
        destruct (upd_get g2.1 ch (fun u => (u.1, l'))) as (g3 & -> & Hl3 & Hg3); [rewrite (gi_len _ _ HG2); lia|]. cbn [mbind res_bind].
        assert (Hgc3 : forall i', gc g3 i' = gc g2.1 i').
        { intros i'. rewrite Hg3. destruct (i' =? ch); [|done]. by destruct (g2.1 !! _) as [[]|]. }
        assert (Hgs3 : forall i', gs g3 i' = if i' =? ch then l' else gs g2.1 i').
        { intros i'. rewrite Hg3. destruct (N.eqb_spec i' ch) as [->|]; [|done].
          destruct (lookup_lt_is_Some_2 g2.1 (N.to_nat ch)) as [u Hu]; [rewrite (gi_len _ _ HG2); lia|]. by rewrite Hu. }
        assert (Hnx : nxt l (nzl es) = l') by (rewrite (nxt_edge es j l es1 Hw He), He'; done).
        assert (Hsib2 : gs g2.1 ch = 0 \/ gs g2.1 ch = l') by (rewrite <- Hnx; by apply (gi_sib _ _ HG2 _ _ _ _ _ Hn Hin Hfo)).
        assert (HG3 : gi (g3, g2.2) (i :: S)).
        { destruct HG2 as [A1 A2 A3 A4 A5 A6 A7 A8]. constructor; cbn [fst snd].
          - congruence.
          - done.
          - intros i' es' Hn' Hf' Hni. destruct (A3 _ _ Hn' Hf' Hni) as [B1 B2]. rewrite Hgc3. split; [done|]. intros l2 es2 ch2 Hl2 Hfo2.
            destruct (B2 _ _ _ Hl2 Hfo2) as [B3 B4]. split; [done|]. rewrite Hgs3. destruct (N.eqb_spec ch2 ch) as [->|]; [|done].
            destruct (rp_up _ _ _ HN _ _ _ _ _ _ _ _ _ Hn' Hl2 Hfo2 Hn Hin Hfo) as [-> ->]. done.
          - intros i' es' l2 es2 ch2 Hn' Hl2 Hfo2. rewrite Hgs3. destruct (N.eqb_spec ch2 ch) as [->|]; [|by eapply A4].
            destruct (rp_up _ _ _ HN _ _ _ _ _ _ _ _ _ Hn' Hl2 Hfo2 Hn Hin Hfo) as [-> ->]. by right.
          - rewrite Hgs3. destruct (N.eqb_spec 0 ch); [congruence|done].
          - intros i' Hf'. rewrite Hgc3. by apply A6.
          - done.
          - intros i'. rewrite Hgs3. destruct (N.eqb_spec i' ch) as [->|]; [intros _; by exists es1|apply A8]. }
        assert (HE3 : gext g2 (g3, g2.2)).
        { split; cbn [fst snd]; [intros i' H'; split; [done|apply Hgc3]|]. intros i' H'. rewrite Hgs3. destruct (N.eqb_spec i' ch) as [->|]; [|done].
          destruct Hsib2 as [E|E]; congruence. }
        pose proof (gext_trans _ _ _ HE2 HE3) as HE13.
        destruct (IHm (Datatypes.S j) n (g3, g2.2)) as (g4 & Hg4 & HG4 & HE4).
        + lia.
        + lia.
        + intros l2 s2 He2. rewrite He' in He2. injection He2 as <- <-. assert (Hin' : (l', s') ∈ es) by (by eapply elem_of_list_lookup_2).
          intros ->. destruct (wfe_shape es Hw) as [(v & es2 & E & _)|[_ E]].
          * rewrite E in He', He. cbn in He'. destruct j as [|j]; [done|]. rewrite E in Hw. apply wfe_cons in Hw as (_ & _ & _ & _ & Hlt2).
            rewrite Forall_forall in Hlt2. apply elem_of_list_lookup_2 in He'. apply Hlt2 in He'. cbn in He'. lia.
          * destruct (wfe_zero _ _ Hw Hin') as [v ->]. rewrite (proj2 (has0_in es Hw)) in E by (by exists v). done.
        + done.
        + by apply HE2.
        + cbn [fst]. rewrite Hgc3. destruct HE2 as [HE2 _]. by rewrite (proj2 (HE2 i Hfxi)).
        + intros j' l2 es2 ch2 Hj' He2 Hfo2. assert (Hin2 : (l2, Node es2) ∈ es) by (by eapply elem_of_list_lookup_2). destruct (decide (j' = j)) as [->|].
          * rewrite He in He2. injection He2 as <- <-. rewrite Hfo in Hfo2. injection Hfo2 as <-. cbn [fst snd]. split; [done|].
            rewrite Hgs3, N.eqb_refl. done.
          * destruct (Hprev j' l2 es2 ch2) as [B1 B2]; [lia|done|done|]. split; [by apply HE13|].
            eapply (gext_sib g1 (g3, g2.2)); [done|done|exact Hn|exact Hin2|done|done].
        + exists g4. split; [exact Hg4|]. split; [done|]. by eapply gext_trans. }
    (* the entry into the loop *)
    clearbody loop.
    assert (Hgo : forall c j l s, c = N.of_nat (start ts k + j) -> es !! j = Some (l, s) -> l <> 0 -> (forall j' l' es', (j' < j)%nat -> es !! j' <> Some (l', Node es')) ->
      hd 0 (nzl es) = l -> exists g', (units ← upd g.1 i (fun u => (l, u.2)); loop (Datatypes.S (length (d_base d))) (units, tbl) c) = Ok (true, g') /\
        gi g' S /\ gext g g' /\ fxb g'.2 i = true).
    { intros c j l s -> He Hl Hpre Hhd.
      destruct (upd_get g.1 i (fun u => (l, u.2))) as (g1 & -> & Hl1 & Hg1); [rewrite (gi_len _ _ HG); lia|]. cbn [mbind res_bind].
      assert (Hgs1 : forall i', gs g1 i' = gs g.1 i').
      { intros i'. rewrite Hg1. destruct (i' =? i); [|done]. by destruct (g.1 !! _) as [[]|]. }
      assert (Hgc1 : forall i', gc g1 i' = if i' =? i then l else gc g.1 i').
      { intros i'. rewrite Hg1. destruct (N.eqb_spec i' i) as [->|]; [|done].
        destruct (lookup_lt_is_Some_2 g.1 (N.to_nat i)) as [u Hu]; [rewrite (gi_len _ _ HG); lia|]. by rewrite Hu. }
      assert (HE2 : gext g (g1, tbl)).
      { split; cbn [fst snd]; [|intros i' H'; apply Hgs1]. intros i' H'. rewrite Htb, H', orb_true_r, Hgc1. split; [done|].
        destruct (N.eqb_spec i' i); [congruence|done]. }
      destruct (Hloop (length es - Datatypes.S j)%nat j (Datatypes.S (length (d_base d))) (g1, tbl)) as (g' & Hg' & HG' & HE').
      - apply lookup_lt_Some in He. lia.
      - pose proof (frozen_len d ts Hfz k es Hk). lia.
      - intros l' s' He'. rewrite He in He'. by injection He' as <- <-.
      - destruct HG1 as [A1 A2 A3 A4 A5 A6 A7 A8]. cbn [fst snd] in *. constructor; cbn [fst snd].
        + congruence.
        + done.
        + intros i' es' Hn' Hf' Hni. destruct (A3 _ _ Hn' Hf' Hni) as [B1 B2]. rewrite Hgc1. apply not_elem_of_cons in Hni as [Hni _].
          rewrite (proj2 (N.eqb_neq _ _) Hni). split; [done|]. intros l2 es2 ch2 Hl2 Hfo2. rewrite Hgs1. by apply (B2 l2 es2).
        + intros. rewrite Hgs1. by eapply A4.
        + by rewrite Hgs1.
        + intros i' Hf'. rewrite Hgc1. destruct (N.eqb_spec i' i) as [->|]; [congruence|]. by apply A6.
        + done.
        + intros i'. rewrite Hgs1. apply A8.
      - done.
      - cbn [fst]. by rewrite Hgc1, N.eqb_refl.
      - intros j' l' es' ch Hj' He'. by destruct (Hpre j' l' es' Hj').
      - exists g'. split; [exact Hg'|]. split; [done|]. split; [by eapply gext_trans|]. by apply HE'. }
    destruct (wfe_shape es Hw) as [(v & es' & E & Hz & Hw')|[Hz Hh0]].
    - rewrite Ees in E. injection E as -> -> ->. cbn [N.eqb]. rewrite H2. cbn [mbind res_bind]. destruct es' as [|[l1 s1] es'].
      + rewrite Ees. cbn [length Nat.ltb Nat.leb N.eqb mbind res_bind]. eexists. split; [done|]. split; [|split; [done|done]].
        destruct HG1 as [A1 A2 A3 A4 A5 A6 A7 A8]. cbn [fst snd] in *. constructor; cbn [fst snd]; try done.
        intros i' es' Hn' Hf' Hni. destruct (decide (i' = i)) as [->|Hii]; [|apply A3; [done|done|]; by apply not_elem_of_cons].
        rewrite (rp_fun _ _ _ HN _ _ _ Hn' Hn). split; [rewrite Ees; cbn; by apply (gi_new _ _ HG)|].
        intros l' es2 ch Hl'. rewrite Ees in Hl'. by apply elem_of_list_singleton in Hl'.
      + destruct (Nat.ltb_spec 1 (length es)) as [_|Hbad]; [|rewrite Ees in Hbad; cbn in Hbad; lia].
        destruct (N.eqb_spec (N.of_nat (start ts k + 1)) 0); [lia|]. cbn [mbind res_bind].
        assert (He1 : es !! 1%nat = Some (l1, s1)) by (by rewrite Ees). destruct (nav_edge d ts Hfz k es 1 l1 s1 Hk He1) as (N1 & _). rewrite N1. cbn [mbind res_bind].
        apply (Hgo _ 1%nat l1 s1); [done|done| | |by rewrite Hz].
        * rewrite Ees in Hw. apply wfe_cons in Hw as (_ & _ & _ & _ & Hlt). apply Forall_cons in Hlt as [Hlt _]. cbn in Hlt. lia.
        * intros j' l' es2 Hj'. assert (j' = 0%nat) as -> by lia. rewrite Ees. done.
    - destruct (N.eqb_spec l0 0) as [->|Hl0]; [rewrite Ees in Hh0; done|]. cbn [mbind res_bind]. rewrite H1. cbn [mbind res_bind].
      apply (Hgo _ 0%nat l0 s0); [f_equal; lia|done|done|intros; lia|]. rewrite Hz, Ees. done.
  Qed.
  Lemma BuildGuide_ok : exists g, BuildGuide d us = Ok (Some g) /\ grep us node g.
  Proof using HN HD HR.
    destruct (dw_child d R x HD) as (c & Hc & [[? _]|(k & Hk & ->)]); [done|]. pose proof (HF d R x HD) as Hfz.
    assert (Hsz : (dawg_size d <=? 1) = false).
    { apply N.leb_gt. unfold dawg_size. rewrite (fz_base _ _ _ Hfz). pose proof (start_bound _ _ _ Hk).
      destruct R; [done|]. unfold start in *. cbn [length] in *. lia. }
    unfold BuildGuide. rewrite Hsz. cbv zeta.
    assert (Hz : forall i : N, (replicate (length us) (0, 0) : guide) !! N.to_nat i = None \/ (replicate (length us) (0, 0) : guide) !! N.to_nat i = Some (0, 0)).
    { intros i. destruct (replicate (length us) (0, 0) !! N.to_nat i) eqn:E; [right|by left]. apply lookup_replicate in E as [-> _]. done. }
    assert (Hf0 : forall i, fxb (replicate (length us / 8) 0) i = false).
    { intros i. unfold fxb. destruct (replicate (length us / 8) 0 !! N.to_nat (i / 8)) eqn:E; [|done]. apply lookup_replicate in E as [-> _]. apply N.bits_0. }
    destruct (call_ok (S (length us)) [] (replicate (length us) (0, 0), replicate (length us / 8) 0) 0 R dawg_root k) as (g & Hg & HG & HE & H0).
    - by apply (hgt_units us R node HN 0), HN.
    - apply HN.
    - done.
    - done.
    - constructor; cbn [fst snd].
      + apply replicate_length.
      + apply replicate_length.
      + intros i es _ Hf. by rewrite Hf0 in Hf.
      + intros i es l es' j _ _ _. left. by destruct (Hz j) as [->| ->].
      + by destruct (Hz 0) as [->| ->].
      + intros i _. by destruct (Hz i) as [->| ->].
      + intros i Hf. by rewrite Hf0 in Hf.
      + intros i. by destruct (Hz i) as [->| ->].
    - intros s es' Hs. by apply elem_of_nil in Hs.
    - rewrite Hg. cbn [mbind res_bind]. exists g.1. split; [done|].
      assert (Hall : forall i es, node i es -> fxb g.2 i = true).
      { intros i es Hi. destruct (rp_reach _ _ _ HN _ _ Hi) as (p & Ht & Hf). 
        assert (Hstep : forall es0 p es, tnode es0 p es -> forall i0 i, node i0 es0 -> fxb g.2 i0 = true -> dc_FollowString us p i0 = Ok (true, i) -> fxb g.2 i = true).
        { clear -HN HG. induction 1 as [|es0 l es1 p es H1 H2 IH]; intros i0 i Hn Hf0 Hfo; [cbn in Hfo; congruence|]. cbn [dc_FollowString] in Hfo.
          destruct (rp_kid _ _ _ HN _ _ _ _ Hn H1) as (j & Hj & Hnj & _). rewrite Hj in Hfo. cbn [mbind res_bind] in Hfo.
          eapply IH; [exact Hnj| |exact Hfo]. destruct (gi_done _ _ HG _ _ Hn Hf0) as [_ B]; [by intros H%elem_of_nil|]. by apply (B l es1). }
        eapply Hstep; [exact Ht|apply HN|done|done]. }
      assert (Hget : forall i, i < N.of_nat (length us) -> gd_Child g.1 i = Ok (gc g.1 i) /\ gd_Sibling g.1 i = Ok (gs g.1 i)).
      { intros i Hi. unfold gd_Child, gd_Sibling, get. destruct (lookup_lt_is_Some_2 g.1 (N.to_nat i)) as [u ->]; [rewrite (gi_len _ _ HG); lia|]. done. }
      assert (Hnil : forall i, i ∉ ([] : list N)) by (intros i H; by apply elem_of_nil in H).
      constructor.
      + apply HG.
      + intros i es Hi. destruct (Hget i (rp_lt _ _ _ HN _ _ Hi)) as [-> _]. f_equal. by apply (gi_done _ _ HG _ _ Hi (Hall _ _ Hi)).
      + intros i es l es' j Hi Hl Hfo. destruct (rp_kid _ _ _ HN _ _ _ _ Hi Hl) as (j' & Hfo' & Hj & _). rewrite Hfo in Hfo'. injection Hfo' as <-.
        destruct (Hget j (rp_lt _ _ _ HN _ _ Hj)) as [_ ->]. f_equal. by apply (proj2 (gi_done _ _ HG _ _ Hi (Hall _ _ Hi) (Hnil i)) l es').
      + destruct (Hget 0 (rp_lt _ _ _ HN _ _ (rp_root _ _ _ HN))) as [_ ->]. f_equal. apply HG.
      + intros i Hi Hno. destruct (lookup_lt_is_Some_2 g.1 (N.to_nat i)) as [[a b] Hu]; [rewrite (gi_len _ _ HG); lia|].
        pose proof (gi_new _ _ HG i) as H1. pose proof (gi_on _ _ HG i) as H2. pose proof (gi_off _ _ HG i) as H3. rewrite Hu in H1, H3 |- *. cbn in H1, H3.
        rewrite H1; [|destruct (fxb g.2 i); [by destruct H2 as [es H2]; [done|]; apply Hno in H2|done]].
        destruct (decide (b = 0)) as [->|Hb]; [done|]. by destruct (H3 Hb) as [es Hn]; apply Hno in Hn.
  Qed.
End guide.
